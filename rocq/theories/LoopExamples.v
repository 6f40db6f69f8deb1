(** Final forms of the proofs about exceptions and the main loop, and concrete cases. *)
From Coq Require Import List NArith ZArith Bool Arith Lia ZifyBool ZifyNat ZifyN.
From Verif Require Import Base BaseFacts Codecs UploadSpec Oracles AddressExamples Device DeviceSpec DeviceDemo Catch Loop LoopSpec LoopFacts.
Import ListNotations.
Open Scope N_scope.

(** ** Exceptions *)

(** A flash write that fails inside two nested calls: the inner handler notes the code and
    throws another one, which the outer handler returns. *)
Definition nested : prog :=
  PCatch (PDo 1 (PCatch (PDo 2 (PThrow 5)) (fun v => PRet v) (fun e => PDo e (PThrow 6))))
         (fun v => PRet (v + 100)) (fun e => PDo 3 (PRet e)).
Lemma nested_case : throws (fun e => 0 < e < 2 ^ 16) nested /\
  meaning (fun e => e) nested = ([1; 2; 5; 3], inl 6).
Proof. split; [cbn [throws nested]; repeat split; lia|reflexivity]. Qed.
Lemma nested_runs : machine_run 20 (machine_start nested) = MDone 6 /\
  m_effects (machine_last 20 (machine_start nested)) = [1; 2; 5; 3] /\ m_context (machine_last 20 (machine_start nested)) = None.
Proof. repeat split. Qed.

Lemma catch_low_final p : throws (fun e => (if e =? 0 then 1 else e) mod 2 ^ 16 <> 0) p ->
  let m := meaning (fun e => (if e =? 0 then 1 else e) mod 2 ^ 16) p in runs_to p (fst m) (snd m).
Proof. exact (catch_low p). Qed.

Lemma cx_lost : forall e, 2 ^ 16 <= e < 2 ^ 32 -> e mod 2 ^ 16 <> 0 ->
  sys_error_of e = ECx e /\
  runs_to (catch (PThrow e) (fun v => PRet v) (fun x => PRet (match x with ESyscall c => 2 * c | ECx c => 2 * c + 1 end)))
          [] (inl (2 * (e mod 2 ^ 16))).
Proof.
  intros e He Hm. assert (As : as_u16 e <> e) by (unfold as_u16; pose proof (N.mod_lt e (2 ^ 16) ltac:(discriminate)); lia).
  split; [unfold sys_error_of; destruct (N.eqb_spec e (as_u16 e)); [congruence|reflexivity]|].
  assert (L : low e = e mod 2 ^ 16) by (unfold low, jumped; destruct (N.eqb_spec e 0); [lia|reflexivity]).
  unfold catch.
  pose proof (catch_low (PCatch (PThrow e) (fun v => PRet v)
    (fun x => PRet (match sys_error_of x with ESyscall c => 2 * c | ECx c => 2 * c + 1 end)))) as R.
  cbn [throws meaning fst snd app] in R. rewrite L in R.
  replace (sys_error_of (e mod 2 ^ 16)) with (ESyscall (e mod 2 ^ 16)) in R.
  - apply R. auto.
  - destruct (caught_kind e) as [c K]. rewrite <- L, K. f_equal.
    unfold sys_error_of in K. destruct (_ =? _) in K; [|discriminate]. injection K as <-.
    unfold low, as_u16. now rewrite N.mod_mod.
Qed.

Definition again (e : N) : prog := PCatch (PDo 7 (PThrow e)) (fun v => PRet v) (fun x => PRet x).
Lemma again_forever e : e <> 0 -> e mod 2 ^ 16 = 0 -> forall n,
  (exists m, machine_run n (machine_start (again e)) = MStep m) /\
  m_effects (machine_last (1 + 2 * n) (machine_start (again e))) = repeat 7 n.
Proof.
  intros E0 Em.
  assert (Z : as_u16 (jumped e) =? 0 = true) by (unfold jumped, as_u16; destruct (N.eqb_spec e 0); [contradiction|]; now rewrite Em).
  set (loops := fun p t => mkMachine (PDo 7 (PThrow e)) [mkFrame p (PDo 7 (PThrow e)) (fun v => PRet v) (fun x => PRet x)] (Some 0%nat) t).
  assert (S2 : forall p t, exists m, machine_step (loops p t) = MStep m /\ machine_step m = MStep (loops (Some 0%nat) (t ++ [7]))).
  { intros p t. eexists. split; [reflexivity|]. cbn [machine_step m_code m_stack m_context length Nat.leb Nat.sub skipn f_syscall f_ok f_err m_effects].
    rewrite Z. reflexivity. }
  assert (R : forall n p t, (exists m, machine_run n (loops p t) = MStep m)).
  { intros n. induction n as [n IH] using lt_wf_ind. intros p t. destruct n as [|[|n]]; [eexists; reflexivity..|].
    destruct (S2 p t) as (m & M1 & M2). cbn [machine_run]. rewrite M1, M2. apply IH. lia. }
  assert (Q : forall n p t, m_effects (machine_last (2 * n) (loops p t)) = t ++ repeat 7 n).
  { induction n as [|n IH]; intros p t; [cbn [repeat]; now rewrite app_nil_r|].
    destruct (S2 p t) as (m & M1 & M2). replace (2 * S n)%nat with (S (S (2 * n))) by lia.
    cbn [machine_last]. rewrite M1, M2, IH, <- app_assoc. reflexivity. }
  assert (F : machine_step (machine_start (again e)) = MStep (loops None [])) by reflexivity.
  intros n. split.
  - destruct n as [|n]; [eexists; reflexivity|]. cbn [machine_run]. rewrite F. apply R.
  - change (1 + 2 * n)%nat with (S (2 * n)). cbn [machine_last]. rewrite F, Q. reflexivity.
Qed.

(** ** The main loop *)

Section Loop.
Variable C : config.
Variable O : oracles.

Lemma wire_alternates f u is w l : Forall io_ok is -> Forall steady_io is ->
  loop_run C O (boot (dev_fresh f u)) is = Some (w, l) -> alternates false w.
Proof.
  intros Hi St E. destruct (loop_run_ok C O is (boot (dev_fresh f u)) w l Hi St) as (_ & A & _); auto.
  now apply settled_boot.
Qed.
Lemma wire_is_run f u is : Forall io_ok is -> Forall calm_io is ->
  exists w l es, loop_run C O (boot (dev_fresh f u)) is = Some (w, l) /\ Forall event_ok es /\
    on_wire es (fst (run C O (dev_fresh f u) es)) = w /\ snd (run C O (dev_fresh f u) es) = l_dev l.
Proof.
  intros Hi Ca. assert (St : Forall steady_io is) by (eapply Forall_impl; [|exact Ca]; intros i H; apply H).
  destruct (loop_run C O (boot (dev_fresh f u)) is) as [[w l]|] eqn:E; [|now apply (loop_defined C O) in E].
  destruct (loop_run_ok C O is (boot (dev_fresh f u)) w l Hi St) as (_ & _ & D); auto.
  { now apply settled_boot. }
  destruct (D Ca) as (es & D1 & D2 & D3). exists w, l, es. auto.
Qed.
Lemma pending_takes_nothing f u is w l c tail : Forall io_ok is -> Forall steady_io is ->
  loop_run C O (boot (dev_fresh f u)) is = Some (w, l) ->
  l_up l = true ->
  (d_ui (l_dev l) <> None <-> loop_step C O l (IoCommand c tail) = Some ([], l)).
Proof.
  intros Hi St E U. destruct (loop_run_ok C O is (boot (dev_fresh f u)) w l Hi St) as ((_ & S) & _); auto.
  { now apply settled_boot. }
  rewrite U in S. cbn [loop_step]. rewrite U. cbn [negb orb]. split.
  - intros H. apply S in H. now rewrite H.
  - intros H. apply S. destruct (l_media l); [reflexivity|]. exfalso.
    destruct (step C O (l_dev l) (EApdu (c ++ tail) (len c))) as [[out| | |] d]; cbn [enter l_flags l_reply] in H;
      [destruct out|..]; apply Some_eq, pair_equal_spec in H as [H _]; discriminate H.
Qed.

Lemma exception_answer l c tail e : l_up l = true -> l_media l = false -> e < 2 ^ 16 ->
  loop_step C O l (IoEscape c tail e) =
    Some ([WIn c; WOut (be 2 e ++ [0x64; 0x00])], mkLoop true [] false false (l_dev l)).
Proof.
  intros U M He. cbn [loop_step]. rewrite U, M. cbn [negb orb enter l_flags l_reply l_up l_dev exception_reply].
  replace (be 2 e) with [(e / 256) mod 256; e mod 256]; [reflexivity|].
  reflexivity.
Qed.

Lemma init_tail es d : (length es <= 130)%nat ->
  loop_run C O (boot d) (map (fun e => IoInit (Some e)) es) =
    Some ([], mkLoop false (flat_map (fun e => be 2 (init_status e)) es) false false d).
Proof.
  revert es. refine (rev_ind _ _ _); [reflexivity|]. intros e es IH Hl. rewrite app_length in Hl. cbn [length] in Hl.
  specialize (IH ltac:(lia)). rewrite map_app.
  assert (App : forall a b l w l1, loop_run C O l a = Some (w, l1) ->
    loop_run C O l (a ++ b) = match loop_run C O l1 b with Some (w', l2) => Some (w ++ w', l2) | None => None end).
  { clear. induction a as [|i a IHa]; intros b l w l1 E; cbn [loop_run app] in *.
    - apply Some_eq, pair_equal_spec in E as [<- <-]. destruct (loop_run C O l b) as [[]|]; reflexivity.
    - destruct (loop_step C O l i) as [[w1 l2]|]; [|discriminate].
      destruct (loop_run C O l2 a) as [[w2 l3]|] eqn:E2; [|discriminate].
      apply Some_eq, pair_equal_spec in E as [<- <-]. rewrite (IHa b l2 w2 l3 E2).
      destruct (loop_run C O l3 b) as [[]|]; [|reflexivity]. now rewrite app_assoc. }
  rewrite (App _ _ _ _ _ IH). cbn [map loop_run loop_step l_up l_reply l_flags l_media l_dev].
  assert (Ln : length (flat_map (fun e => be 2 (init_status e)) es) = (2 * length es)%nat).
  { clear. induction es as [|e es IH]; [reflexivity|]. cbn [flat_map length]. rewrite app_length, be_length, IH. lia. }
  replace (APDU_SIZE <? len (flat_map (fun e0 => be 2 (init_status e0)) es) + 2) with false
    by (symmetry; apply N.ltb_ge; unfold len; rewrite Ln; unfold APDU_SIZE; lia).
  rewrite flat_map_app. cbn [flat_map app]. now rewrite app_nil_r.
Qed.
Lemma init_word_is e : e < 2 ^ 16 -> init_word e (init_status e).
Proof.
  intros He. unfold init_word, init_status. rewrite N.mod_small by exact He.
  pose proof (N.div_mod e 4096 ltac:(discriminate)) as D. pose proof (N.mod_lt e 4096 ltac:(discriminate)) as L.
  pose proof (N.div_mod e 2048 ltac:(discriminate)) as D2. pose proof (N.mod_lt e 2048 ltac:(discriminate)) as L2.
  destruct (N.eqb_spec (e / 4096) 6) as [E6|N6]; [left; cbn [orb]; lia|].
  destruct (N.eqb_spec (e / 4096) 9) as [E9|N9]; [left; cbn [orb]; lia|]. cbn [orb]. right.
  split; [|split; [lia|exists (e / 2048); lia]]. revert N6 N9 D L. generalize (e / 4096) as q, (e mod 4096) as r. clear. intros. lia.
Qed.
Lemma init_words es d : (length es <= 130)%nat -> Forall (fun e => e < 2 ^ 16) es ->
  exists words, Forall2 init_word es words /\
    loop_run C O (boot d) (map (fun e => IoInit (Some e)) es) = Some ([], mkLoop false (flat_map (be 2) words) false false d).
Proof.
  intros L B. exists (map init_status es). split.
  - clear L. induction B as [|e es He B IH]; [constructor|]. cbn [map]. constructor; [now apply init_word_is|exact IH].
  - rewrite (init_tail es d L). do 3 f_equal. clear. induction es as [|e es IH]; [reflexivity|]. cbn [map flat_map]. now rewrite IH.
Qed.
Lemma init_overflow es d : (130 < length es)%nat ->
  loop_run C O (boot d) (map (fun e => IoInit (Some e)) es) = None.
Proof.
  intros Hl. rewrite <- (firstn_skipn 130 es). rewrite map_app.
  assert (L1 : length (firstn 130 es) = 130%nat) by (rewrite firstn_length; lia).
  pose proof (init_tail (firstn 130 es) d ltac:(lia)) as E.
  assert (Ln : length (flat_map (fun e => be 2 (init_status e)) (firstn 130 es)) = (2 * length (firstn 130 es))%nat).
  { generalize (firstn 130 es). clear. induction l as [|e es IH]; [reflexivity|]. cbn [flat_map length]. rewrite app_length, be_length, IH. lia. }
  destruct (skipn 130 es) as [|e rest] eqn:Sk.
  { apply (f_equal (@length _)) in Sk. rewrite skipn_length in Sk. cbn [length] in Sk. lia. }
  revert E Ln L1. generalize (firstn 130 es) as a. intros a.
  assert (App : forall a b l w l1, loop_run C O l a = Some (w, l1) -> loop_run C O l1 b = None -> loop_run C O l (a ++ b) = None).
  { clear. induction a as [|i a IHa]; intros b l w l1 E B; cbn [loop_run app] in *.
    - apply Some_eq, pair_equal_spec in E as [_ <-]. exact B.
    - destruct (loop_step C O l i) as [[w1 l2]|]; [|discriminate].
      destruct (loop_run C O l2 a) as [[w2 l3]|] eqn:E2; [|discriminate].
      apply Some_eq, pair_equal_spec in E as [<- <-]. now rewrite (IHa b l2 w2 l3 E2 B). }
  intros E Ln L1. apply (App _ _ _ _ _ E). cbn [map loop_run loop_step l_up l_reply l_flags l_media l_dev].
  replace (APDU_SIZE <? len (flat_map (fun e0 => be 2 (init_status e0)) a) + 2) with true; [reflexivity|].
  symmetry. apply N.ltb_lt. unfold len. rewrite Ln, L1. reflexivity.
Qed.
End Loop.

(** A session: reset, a review, a command that is not taken meanwhile, the approval, a power
    cycle. *)
Definition padded (c : bytes) : bytes := zeros (260 - length c).
Definition command (ins p1 p2 : N) (payload : bytes) : bytes := [0x80; ins; p1; p2; len payload] ++ payload.
Definition sends (c : bytes) : io := IoCommand c (padded c).
Definition session : list io :=
  [IoInit None; sends (command 0x06 0 0 (be 4 500)); sends (command 0xA1 1 0 (path_serialize demo_path));
   sends (command 0x08 0 0 []); IoUser EApprove; sends (command 0x08 0 0 []); IoPower; sends (command 0x08 0 0 []);
   IoInit None; sends (command 0x08 0 0 [])].
Definition session_wire : list wire :=
  [WIn (command 0x06 0 0 (be 4 500)); WOut [0x90; 0]; WIn (command 0xA1 1 0 (path_serialize demo_path));
   WOut (33 :: demo_pubkey Ed25519 demo_path ++ [0x90; 0]);
   WIn (command 0x08 0 0 []); WOut (be 4 500 ++ [0x90; 0]); WReset; WIn (command 0x08 0 0 []); WOut (be 4 500 ++ [0x90; 0])].
Lemma session_case : Forall io_ok session /\ Forall calm_io session /\
  option_map fst (loop_run demo_config demo_oracles (boot (dev_fresh [] [])) session) = Some session_wire.
Proof.
  split; [|split; [|vm_compute; reflexivity]].
  - assert (A : forall c, (length c <= 260)%nat -> forallb (fun b => b <? 256) c = true -> apdu_ok (c ++ padded c)).
    { intros c L B. split; [unfold padded, zeros; rewrite app_length, repeat_length; lia|].
      apply Forall_app. split; [apply Forall_forall; intros x X; rewrite forallb_forall in B; apply B in X; lia|].
      unfold padded, zeros. apply Forall_forall. intros x X. apply repeat_spec in X. subst. reflexivity. }
    unfold session. repeat constructor; cbn [io_ok sends]; try (apply A; vm_compute; [lia|reflexivity]); auto.
  - unfold session. repeat constructor.
Qed.

Lemma review_case : Forall io_ok (firstn 3 session) /\ Forall steady_io (firstn 3 session) /\
  match loop_run demo_config demo_oracles (boot (dev_fresh [] [])) (firstn 3 session) with
  | Some (_, l) => l_up l = true /\ d_ui (l_dev l) <> None
  | None => False
  end.
Proof.
  destruct session_case as (A & B & _). split; [|split].
  - rewrite <- (firstn_skipn 3 session) in A. now apply Forall_app in A as [A _].
  - rewrite <- (firstn_skipn 3 session) in B. apply Forall_app in B as [B _].
    eapply Forall_impl; [|exact B]. intros i H. apply H.
  - vm_compute. split; [reflexivity|discriminate].
Qed.
Lemma unsolicited : exists is w l, Forall io_ok is /\
  loop_run demo_config demo_oracles (boot (dev_fresh [] [])) is = Some (w, l) /\ ~ alternates false w.
Proof.
  exists [IoInit None; IoThrow 0x10]. eexists. eexists. split; [repeat constructor|].
  split; [reflexivity|]. cbn [app alternates]. intros [H _]. discriminate H.
Qed.
