(** What an interrupted command leaves in the slots. *)
From Coq Require Import List NArith ZArith Lia Bool Arith ZifyBool ZifyNat ZifyN.
From Verif Require Import Base BaseFacts Flash FlashFacts FlashSpec FlashProofs Codecs CodecsSpec CodecsFacts
  Upload UploadSpec UploadFacts Baking BakingSpec BakingFacts Operations Oracles Address
  Device DeviceSpec DeviceFacts DeviceProofs DeviceHist DeviceSigs DeviceAnswers DeviceReviews DeviceKeys
  DeviceSlots ServiceSpec DeviceContents InterruptSpec.
Import ListNotations.
Open Scope N_scope.

(** ** Slots *)

Definition lost_w (w : wear) : Prop := wear_init w = None.
Lemma lw_restart w : lost_w w -> lost_w (wear_restart w).
Proof. unfold lost_w, wear_init. destruct w as [ps [k|]]; cbn; [discriminate|auto]. Qed.
Lemma lw_weq w w' : weq w w' -> lost_w w -> lost_w w'.
Proof. intros [_ E] H. unfold lost_w in *. congruence. Qed.

(** [v] is [None] for a slot that is lost. *)
Definition state (B : N) (v : option (option bytes)) (w : wear) : Prop :=
  match v with Some o => slot_state B o w | None => lost_w w end.
Lemma state_mono B B' v w : B <= B' -> state B v w -> state B' v w.
Proof. destruct v; cbn [state]; auto. apply ss_mono. Qed.
Lemma state_restart B v w : state B v w -> state B v (wear_restart w).
Proof. destruct v; cbn [state]; [apply ss_restart|apply lw_restart]. Qed.
Lemma state_weq B v w w' : weq w w' -> state B v w -> state B v w'.
Proof. destruct v; cbn [state]; [apply ss_weq|apply lw_weq]. Qed.

Lemma state_write B v w k pl f : state B v w -> B + 1 < 2 ^ 64 -> payload_ok pl -> power_fault f ->
  wear_init w = Some k ->
  let (w1, r) := wear_write_at w k pl f in
  (r = WDone /\ state (B + 1) (Some (Some pl)) w1) \/
  (r = WLost /\ exists v', state (B + 1) v' (wear_restart w1) /\ (v' = Some (Some pl) \/ v' = v \/ v' = None)).
Proof.
  destruct v as [o|]; cbn [state]; [|unfold lost_w; congruence]. intros H HB Hp Hf Hi.
  assert (G : intact_fault f ->
    let (w1, r) := wear_write_at w k pl f in
    (r = WDone /\ state (B + 1) (Some (Some pl)) w1) \/
    (r = WLost /\ exists v', state (B + 1) v' (wear_restart w1) /\ (v' = Some (Some pl) \/ v' = Some o \/ v' = None))).
  { intros If. pose proof (ss_write B o w k pl f H HB Hp If Hi) as X.
    destruct (wear_write_at w k pl f) as [w1 r] eqn:E.
    assert (R : r = fault_res f) by (unfold wear_write_at in E; inversion E; reflexivity).
    destruct f as [|[]|[| |]]; cbn [intact_fault] in If; try contradiction; subst r; cbn [fault_res stored] in *.
    - left. auto.
    - right. split; [reflexivity|]. exists (Some o). split; [exact X|auto].
    - right. split; [reflexivity|]. exists (Some (Some pl)). split; [exact X|auto]. }
  destruct f as [|t|[| |p]]; cbn [power_fault] in Hf; try contradiction; try (apply G; exact Logic.I).
  unfold wear_write_at. cbn [fault_res fault_page tear_page slot_tear_ok] in *. right. split; [reflexivity|].
  exists None. split; [|auto]. cbn [state]. unfold lost_w, wear_init, wear_restart. cbn [w_pages w_idx].
  apply align_none with (i := page_no w ((k + 1) mod 2 ^ 64)) (p := p); [|exact Hf].
  apply nth_error_upd_same. apply page_no_lt. apply (wf_nonempty _ _ (ss_wf _ _ _ H)).
Qed.

Definition slot_alive (B : N) (w : wear) : Prop := exists v, state B v w.
Lemma alive_mono B B' w : B <= B' -> slot_alive B w -> slot_alive B' w.
Proof. intros L [v H]. exists v. eapply state_mono; eauto. Qed.
Lemma alive_restart B w : slot_alive B w -> slot_alive B (wear_restart w).
Proof. intros [v H]. exists v. now apply state_restart. Qed.
Lemma alive_weq B w w' : weq w w' -> slot_alive B w -> slot_alive B w'.
Proof. intros E [v H]. exists v. eapply state_weq; eauto. Qed.
Lemma alive_write B w k pl f : slot_alive B w -> B + 1 < 2 ^ 64 -> payload_ok pl -> power_fault f ->
  wear_init w = Some k ->
  let (w1, r) := wear_write_at w k pl f in
  slot_alive (B + 1) (match r with WLost => wear_restart w1 | _ => w1 end).
Proof.
  intros [v H] HB Hp Hf Hi. pose proof (state_write B v w k pl f H HB Hp Hf Hi) as X.
  destruct (wear_write_at w k pl f) as [w1 r]. destruct X as [[-> X]|[-> (v' & X & _)]]; eexists; exact X.
Qed.

Lemma reach_alive C O f u es : Forall power_fault f -> Forall up_fault_ok u -> Forall event_ok es ->
  len es < 2 ^ 64 ->
  dok slot_alive power_fault (fun _ => len es) (snd (run C O (dev_fresh f u) es)).
Proof.
  intros F U E L.
  apply (run_dok C O slot_alive power_fault alive_mono alive_restart alive_weq alive_write Logic.I es 0); auto.
  apply dok_fresh; auto. intros n Hn. exists (Some None). now apply ss_fresh.
Qed.

(** ** Devices *)

Definition astate := slot -> option (option bytes).
Record abs (b : slot -> N) (a : astate) (d : dev) : Prop := {
  ab_slot : forall s, state (b s) (a s) (get_slot s d);
  ab_faults : Forall power_fault (d_faults d)
}.

Lemma dok_abs b d : dok slot_alive power_fault b d -> exists a, abs b a d.
Proof.
  intros [A1 A2 A3 A4].
  destruct (A1 SMain) as [m Hm], (A1 STest) as [t Ht], (A1 SChain) as [c Hc], (A1 SKey) as [k Hk].
  exists (fun s => match s with SMain => m | STest => t | SChain => c | SKey => k end).
  constructor; auto. intros []; auto.
Qed.
Lemma abs_restart b a d : abs b a d -> abs b a (restart d).
Proof. intros [A F]. constructor; auto. intros s. rewrite get_slot_restart. now apply state_restart. Qed.
Lemma abs_frame E b a d d' : (forall s, ~ e_slot E s) -> frame E d d' -> abs b a d -> abs b a d'.
Proof.
  intros S F [A AF]. constructor.
  - intros s. eapply state_weq; [apply (fr_slot _ _ _ F), S|apply A].
  - destruct (fr_faults _ _ _ F) as [l Hl]. rewrite Hl in AF. now apply Forall_app in AF.
Qed.
Lemma abs_same b a d d' : (forall s, get_slot s d' = get_slot s d) -> d_faults d' = d_faults d -> abs b a d -> abs b a d'.
Proof. intros S F [A AF]. constructor; [intros s; rewrite S; apply A|now rewrite F]. Qed.

Lemma state_holds B o d s : state B (Some o) (get_slot s d) -> holds_slot d s o.
Proof.
  intros H. cbn [state] in H. split; [apply H|]. rewrite get_slot_restart. apply (hi_read _ _ _ (ss_hist _ _ _ H)).
Qed.
Lemma state_lost B d s : state B None (get_slot s d) -> lost d s.
Proof.
  intros H. cbn [state] in H. split; [|rewrite get_slot_restart; apply lw_restart in H];
    unfold lost_w in H; unfold wear_read; now rewrite H.
Qed.
Lemma holds_lost d s o : holds_slot d s o -> lost d s -> False.
Proof. intros [H _] [L _]. congruence. Qed.
Lemma abs_kept b b' a a' d d' s : abs b a d -> abs b' a' d' -> a' s = a s -> kept d d' s.
Proof.
  intros [A _] [A' _] E. specialize (A s). specialize (A' s). rewrite E in A'. clear E. destruct (a s) as [o|].
  - split.
    + intros o' H. assert (o' = o) as -> by (eapply holds_unique; [exact H|now apply state_holds in A]).
      now apply state_holds in A'.
    + intros L. exact (False_ind _ (holds_lost _ _ _ (state_holds _ _ _ _ A) L)).
  - split.
    + intros o' H. exact (False_ind _ (holds_lost _ _ _ H (state_lost _ _ _ A))).
    + intros _. now apply state_lost in A'.
Qed.
Lemma abs_known b a d s : abs b a d -> (exists o, holds_slot d s o) \/ lost d s.
Proof.
  intros [A _]. specialize (A s). destruct (a s); [left; eexists|right];
    [eapply state_holds|eapply state_lost]; exact A.
Qed.

(** ** Computations that write *)

Definition aput (s : slot) (p : bytes) (a : astate) : astate :=
  fun s' => if slot_eq_dec s s' then Some (Some p) else a s'.
Fixpoint aputs (ws : list (slot * bytes)) (a : astate) : astate :=
  match ws with [] => a | (s, p) :: ws => aputs ws (aput s p a) end.

Lemma aputs_other ws : forall a s, ~ In s (map fst ws) -> aputs ws a s = a s.
Proof.
  induction ws as [|[s0 p] ws IH]; intros a s N; cbn [aputs map fst In] in *; [reflexivity|].
  rewrite IH by tauto. unfold aput. destruct (slot_eq_dec s0 s); tauto.
Qed.
Lemma aputs_in ws : forall a s p, NoDup (map fst ws) -> In (s, p) ws -> aputs ws a s = Some (Some p).
Proof.
  induction ws as [|[s0 p0] ws IH]; intros a s p N I; cbn [aputs map fst In] in *; [contradiction|].
  inversion N as [|? ? N1 N2]; subst. destruct I as [E|I]; [|now apply IH].
  injection E as -> ->. rewrite aputs_other by exact N1. unfold aput. destruct (slot_eq_dec s s); congruence.
Qed.

(** The state after an outcome: a power loss restarts the device. *)
Definition settled {A} (x : outcome A * dev) : dev :=
  match fst x with Cut => restart (snd x) | _ => snd x end.
Definition broken {A} (x : outcome A) : Prop := match x with Panic | Cut => True | _ => False end.

(** Writes [ws] in this order, up to where it is interrupted; otherwise the outcome is
    as given by [good]. *)
Definition writes {A} (good : outcome A -> Prop) (a : astate) (ws : list (slot * bytes)) (x : outcome A * dev) : Prop :=
  exists ws1 ws2 b' a', ws = ws1 ++ ws2 /\ abs b' a' (settled x) /\
    (forall s, a' s = aputs ws1 a s \/ (a' s = None /\ broken (fst x) /\ exists p more, ws2 = (s, p) :: more)) /\
    (ws2 <> [] -> broken (fst x)) /\ (broken (fst x) \/ good (fst x)).

Lemma writes_nil {A} good b a (x : outcome A * dev) : abs b a (snd x) -> broken (fst x) \/ good (fst x) -> writes good a [] x.
Proof.
  intros V G. exists [], [], b, a. split; [reflexivity|]. split; [|split; [now left|split; [congruence|exact G]]].
  unfold settled. destruct (fst x); auto. now apply abs_restart.
Qed.
Lemma writes_panic {A} good b a ws d : abs b a d -> writes good a ws (Panic : outcome A, d).
Proof.
  intros V. exists [], ws, b, a. split; [reflexivity|]. split; [exact V|]. split; [now left|].
  split; [intros _; exact Logic.I|left; exact Logic.I].
Qed.

Lemma writes_write {A} good b a d s p e (f : unit -> M A) ws : b s + 1 < 2 ^ 64 -> payload_ok p -> abs b a d ->
  (forall d1, abs (bump s b) (aput s p a) d1 -> writes good (aput s p a) ws (f tt d1)) ->
  writes good a ((s, p) :: ws) (bind (write_or s p e) f d).
Proof.
  intros HB Hp V K. unfold write_or. unfold bind at 1. unfold bind at 1. unfold write_slot.
  destruct (wear_init (get_slot s d)) as [k|] eqn:I; [|now apply (writes_panic good b)].
  destruct (next_fault (d_faults d)) as [ft fs] eqn:F.
  apply (next_fault_forall power_fault) in F as [Ff Ffs]; [|exact Logic.I|apply V].
  pose proof (state_write (b s) (a s) (get_slot s d) k p ft (ab_slot _ _ _ V s) HB Hp Ff I) as S1.
  destruct (wear_write_at (get_slot s d) k p ft) as [w' r].
  assert (G : forall v w, state (b s + 1) v w ->
    abs (bump s b) (fun s' => if slot_eq_dec s s' then v else a s') (set_slot s w (set_faults fs d))).
  { intros v w Ww. constructor.
    - intros s'. unfold bump. destruct (slot_eq_dec s s') as [<-|N].
      + now rewrite get_set_same.
      + rewrite get_set_other by auto. rewrite get_slot_set_faults. apply V.
    - rewrite set_slot_faults. destruct d; exact Ffs. }
  destruct S1 as [[-> S1]|[-> (v & S1 & Hv)]].
  - cbn [check ret]. unfold ret. specialize (K _ (G _ _ S1)).
    destruct K as (ws1 & ws2 & b' & a' & -> & Va & Ha & Hb & Hg).
    exists ((s, p) :: ws1), ws2, b', a'. split; [reflexivity|]. split; [exact Va|]. split; [exact Ha|]. split; [exact Hb|exact Hg].
  - pose proof (G _ _ S1) as V1. apply abs_restart in V1.
    replace (restart (set_slot s (wear_restart w') (set_faults fs d)))
      with (restart (set_slot s w' (set_faults fs d))) in V1 by (destruct s, d; reflexivity).
    destruct Hv as [->|Hv].
    + exists [(s, p)], ws, (bump s b), (aput s p a). split; [reflexivity|].
      split; [exact V1|]. split; [now left|]. split; [intros _; exact Logic.I|left; exact Logic.I].
    + exists [], ((s, p) :: ws), (bump s b), (fun s' => if slot_eq_dec s s' then v else a s').
      split; [reflexivity|]. split; [exact V1|]. split; [|split; [intros _; exact Logic.I|left; exact Logic.I]].
      intros s'. cbn [aputs]. destruct (slot_eq_dec s s') as [<-|N]; [|now left].
      destruct Hv as [->| ->]; [now left|]. right. split; [reflexivity|]. split; [exact Logic.I|eauto].
Qed.

Lemma writes_map {A B} (g1 : outcome A -> Prop) (g2 : outcome B -> Prop) a ws (x : outcome A * dev) (y : outcome B * dev) :
  writes g1 a ws x -> (broken (fst x) -> broken (fst y)) -> (g1 (fst x) -> g2 (fst y)) ->
  (forall b a', abs b a' (settled x) -> exists b', abs b' a' (settled y)) -> writes g2 a ws y.
Proof.
  intros (ws1 & ws2 & b' & a' & E & V & H1 & H2 & H3) Hb Hg Hv. destruct (Hv _ _ V) as [b2 V2].
  exists ws1, ws2, b2, a'. split; [exact E|]. split; [exact V2|]. split; [|tauto].
  intros s. destruct (H1 s) as [X|(X1 & X2 & X3)]; [now left|right; tauto].
Qed.

(** ** Answers *)

(** Neither data nor the status of success, nor a power loss. *)
Definition quiet (x : outcome reply) : Prop :=
  match x with Ok (Now _) | Cut => False | Err e => e <> Success | _ => True end.
Lemma finish_quiet room x : quiet (fst x) -> ~ succeeds (fst (finish room x)).
Proof.
  destruct x as [[[data|]|e| |] d]; cbn [fst quiet finish]; intros Q [out X]; try contradiction; try discriminate.
  destruct (room <? len [] + 2); cbn [fst] in X; [discriminate|].
  destruct (status_err e) as [E|N]; [contradiction|]. apply N. exists out. exact X.
Qed.
Lemma finish_slots room x : snd (finish room x) = snd x \/ snd (finish room x) = restart (snd x).
Proof.
  destruct x as [[[data|]|e| |] d]; cbn [finish]; auto; match goal with |- context [if ?b then _ else _] => destruct b end; auto.
Qed.
Lemma finish_settled room (x : outcome reply * dev) :
  snd (finish room x) = settled x \/ snd (finish room x) = restart (settled x).
Proof.
  unfold settled. destruct x as [[[data|]|e| |] d]; cbn [finish fst snd]; auto;
    match goal with |- context [if ?b then _ else _] => destruct b end; auto.
Qed.

(** What a command may leave: nothing it was to store, or what it was to store up to
    some point, all of it if it answers. *)
Definition left_behind (C : config) (d : dev) (e : event) (x : answer * dev) : Prop :=
  let d' := snd x in
  ((forall s, kept d d' s) /\ (forall ws, plan C d e ws -> ~ succeeds (fst x))) \/
  exists ws1 ws2, plan C d e (ws1 ++ ws2) /\
    (forall s p, In (s, p) ws1 -> holds_slot d' s (Some p)) /\
    (forall s, ~ In s (map fst ws1) -> kept d d' s \/ (lost d' s /\ exists p more, ws2 = (s, p) :: more)) /\
    (fst x = ADied \/
     ws2 = [] /\ (succeeds (fst x) \/ fst x = AReply [0x64; 0] /\ exists q, offered C d e q)).

Lemma plan_nodup C d e ws : plan C d e ws -> NoDup (map fst ws).
Proof.
  intros [? ? ? ch ? ? ? ? [[-> _]|[-> _]]|?|?|?|?]; cbn [app map fst];
    repeat (constructor; [cbn [In]; intuition discriminate|]); constructor.
Qed.

Lemma nodup_left {A} (l l' : list A) : NoDup (l ++ l') -> NoDup l.
Proof.
  induction l as [|x l IH]; cbn [app]; intros N; [constructor|]. inversion N as [|? ? N1 N2]; subst.
  constructor; [|auto]. intros I. apply N1, in_or_app. now left.
Qed.

Definition served (x : outcome reply) : Prop := exists data, x = Ok (Now data).
Definition late_error (C : config) (d : dev) (e : event) (x : outcome reply) : Prop :=
  served x \/ (x = Err ExecutionError /\ exists q, offered C d e q).

Lemma writes_left C d e b a ws room x : abs b a d -> plan C d e ws -> writes (late_error C d e) a ws x ->
  left_behind C d e (finish room x).
Proof.
  intros V P (ws1 & ws2 & b' & a' & -> & V' & H1 & H2 & H3). right. exists ws1, ws2. split; [exact P|].
  assert (W : abs b' a' (snd (finish room x))).
  { destruct (finish_settled room x) as [-> | ->]; [exact V'|now apply abs_restart]. }
  assert (Br : broken (fst x) -> fst (finish room x) = ADied).
  { destruct x as [[[data|]|er| |] d1]; cbn [fst broken]; intros []; reflexivity. }
  pose proof (plan_nodup _ _ _ _ P) as N. rewrite map_app in N.
  assert (N1 : NoDup (map fst ws1)) by now apply nodup_left in N.
  split; [|split].
  3:{ destruct H3 as [H3|H3]; [left; auto|].
      assert (ws2 = []) as ->.
      { destruct ws2; [reflexivity|]. exfalso. assert (B0 : broken (fst x)) by (apply H2; discriminate).
        destruct H3 as [[data X]|[X _]]; rewrite X in B0; exact B0. }
      destruct x as [o d1]. cbn [fst] in H3. destruct H3 as [[data ->]|[-> Of]]; cbn [finish].
      - destruct (room <? len data + 2); cbn [fst]; [now left|]. right. split; [reflexivity|]. left. exists data. reflexivity.
      - destruct (room <? len [] + 2); cbn [fst]; [now left|]. right. split; [reflexivity|]. right. split; [reflexivity|exact Of]. }
  - intros s p I. destruct (H1 s) as [X|(_ & _ & q & more & ->)].
    + rewrite (aputs_in _ _ _ _ N1 I) in X. apply (state_holds (b' s)). rewrite <- X. apply W.
    + exfalso. cbn [map fst] in N. apply NoDup_remove_2 in N. apply N. apply in_or_app. left.
      apply (in_map fst) in I. exact I.
  - intros s I. destruct (H1 s) as [X|(X & _ & q & more & ->)].
    + left. rewrite aputs_other in X by exact I. eapply abs_kept; eauto.
    + right. split; [|eauto]. apply (state_lost (b' s)). rewrite <- X. apply W.
Qed.

Lemma quiet_left C d e b a room x : abs b a d -> abs b a (snd x) ->
  (forall ws, plan C d e ws -> quiet (fst x)) -> left_behind C d e (finish room x).
Proof.
  intros V V' Q. left. split.
  - intros s. destruct (finish_slots room x) as [-> | ->]; [|apply abs_restart in V']; eapply abs_kept; eauto.
  - intros ws P. apply finish_quiet. eauto.
Qed.

Lemma read_at_eq (x y : rres) : Some x = Some y -> x = y.
Proof. intros E. exact (f_equal (fun o => match o with Some z => z | None => x end) E). Qed.

Section Interrupt.
  Variable C : config.
  Variable O : oracles.

  (** ** RESET *)

  Lemma reset_left B a d buf rx room : (forall s : slot, B + 1 < 2 ^ 64) -> cf_baking C = true -> apdu_ok buf ->
    command d buf rx 0x06 -> abs (fun _ => B) a d ->
    left_behind C d (EApdu buf rx) (finish room (h_reset buf d)).
  Proof.
    intros HB Cb Hb Hc V. specialize (HB SMain).
    destruct (N.le_gt_cases 4 (nth 4 buf 0)) as [L|L].
    2:{ rewrite h_reset_short by (auto; lia). apply (quiet_left _ _ _ (fun _ => B) a); auto.
        intros ws _. discriminate. }
    pose proof (unbe_slice buf Hb L) as U.
    set (w := WEmmy (unbe (firstn 4 (pay buf))) false).
    assert (Mk : mark_bytes (wm_serialize w) w) by (apply wm_layout; exact U).
    set (b1 := bump SMain (fun _ : slot => B)). set (b2 := bump STest b1).
    assert (E : h_reset buf d =
      (do _ <- write_or SMain (wm_serialize w) ExecutionError;
       do _ <- write_or STest (wm_serialize w) ExecutionError;
       do r <- read_slot SChain;
       match r with
       | RUninit =>
         do _ <- write_or SChain (chain_serialize (chain_of_u32 MAINNET_CHAIN_ID)) ExecutionError;
         ret (Now [])
       | _ => ret (Now [])
       end) d).
    { unfold h_reset, the_payload. destruct (apdu_payload_260 buf Hb) as (pl & -> & Ep & _).
      unfold bind at 1. cbn [of_option]. unfold ret at 1. unfold bind at 1.
      replace (4 <=? length pl)%nat with true; [|rewrite Ep, firstn_length, skipn_length; destruct Hb; lia].
      cbn [check]. unfold ret at 1. unfold w, pay. rewrite <- Ep. reflexivity. }
    rewrite E. clear E.
    assert (Ch : chain_serialize (chain_of_u32 MAINNET_CHAIN_ID) = be 4 0x7A06A770 ++ zeros 48) by (vm_compute; reflexivity).
    destruct (option_map (fun o : option bytes => match o with None => true | Some _ => false end) (a SChain)) as [[]|] eqn:Ea.
    - assert (Ac : a SChain = Some None) by (destruct (a SChain) as [[]|]; cbn in Ea; congruence). clear Ea.
      eapply (writes_left _ _ _ (fun _ => B) a ([(SMain, wm_serialize w); (STest, wm_serialize w)] ++ [(SChain, be 4 0x7A06A770 ++ zeros 48)])); auto.
      { apply PlanReset; auto. left. split; [reflexivity|]. apply (state_holds B). rewrite <- Ac. apply V. }
      cbn [app]. apply (writes_write _ (fun _ => B)); auto using wm_payload. intros d1 V1.
      apply (writes_write _ b1); auto using wm_payload.
      intros d2 V2. unfold bind at 1.
      pose proof (ab_slot _ _ _ V2 SChain) as S2.
      assert (X : aput STest (wm_serialize w) (aput SMain (wm_serialize w) a) SChain = Some None) by exact Ac.
      rewrite X in S2. cbn [state] in S2. destruct (ss_init _ _ _ S2) as [k Ik].
      pose proof (ss_read _ _ _ S2) as R. unfold wear_read in R. rewrite Ik in R.
      pose proof (keeps_read_slot eff_none SChain d2) as Fr. unfold read_slot in Fr |- *. rewrite Ik in Fr |- *.
      cbn [snd] in Fr. apply read_at_eq in R. rewrite R. cbn [expected_read].
      apply (abs_frame eff_none _ _ _ _ (fun s x => x) Fr) in V2. rewrite <- Ch.
      apply (writes_write _ (bump STest b1)); auto using chain_payload. intros d3 V3.
      eapply writes_nil; [exact V3|right; left; eexists; reflexivity].
    - assert (Ac : exists p, a SChain = Some (Some p)) by (destruct (a SChain) as [[]|]; cbn in Ea; try congruence; eauto).
      clear Ea. destruct Ac as [p0 Ac].
      eapply (writes_left _ _ _ (fun _ => B) a ([(SMain, wm_serialize w); (STest, wm_serialize w)] ++ [])); auto.
      { apply PlanReset; auto. right. split; [reflexivity|]. intros H.
        pose proof (ab_slot _ _ _ V SChain) as S0. rewrite Ac in S0. apply state_holds in S0.
        pose proof (holds_unique _ _ _ _ H S0). discriminate. }
      cbn [app]. apply (writes_write _ (fun _ => B)); auto using wm_payload. intros d1 V1.
      apply (writes_write _ b1); auto using wm_payload.
      intros d2 V2. unfold bind at 1.
      pose proof (ab_slot _ _ _ V2 SChain) as S2.
      assert (X : aput STest (wm_serialize w) (aput SMain (wm_serialize w) a) SChain = Some (Some p0)) by exact Ac.
      rewrite X in S2. cbn [state] in S2. destruct (ss_init _ _ _ S2) as [k Ik].
      pose proof (ss_read _ _ _ S2) as R. unfold wear_read in R. rewrite Ik in R.
      pose proof (keeps_read_slot eff_none SChain d2) as Fr. unfold read_slot in Fr |- *. rewrite Ik in Fr |- *.
      cbn [snd] in Fr. apply read_at_eq in R. rewrite R. cbn [expected_read].
      apply (abs_frame eff_none _ _ _ _ (fun s x => x) Fr) in V2.
      eapply writes_nil; [exact V2|right; left; eexists; reflexivity].
    - assert (Ac : a SChain = None) by (destruct (a SChain) as [[]|]; cbn in Ea; congruence). clear Ea.
      eapply (writes_left _ _ _ (fun _ => B) a ([(SMain, wm_serialize w); (STest, wm_serialize w)] ++ [])); auto.
      { apply PlanReset; auto. right. split; [reflexivity|]. intros H.
        pose proof (ab_slot _ _ _ V SChain) as S0. rewrite Ac in S0. apply state_lost in S0.
        exact (holds_lost _ _ _ H S0). }
      cbn [app]. apply (writes_write _ (fun _ => B)); auto using wm_payload. intros d1 V1.
      apply (writes_write _ b1); auto using wm_payload.
      intros d2 V2. unfold bind at 1.
      pose proof (ab_slot _ _ _ V2 SChain) as S2.
      assert (X : aput STest (wm_serialize w) (aput SMain (wm_serialize w) a) SChain = None) by exact Ac.
      rewrite X in S2. cbn [state] in S2. unfold read_slot. unfold lost_w in S2. rewrite S2.
      eapply writes_panic. exact V2.
  Qed.

  (** ** Decisions *)

  Definition fine {A} (x : outcome A) : Prop := match x with Ok _ => True | _ => False end.
  Lemma settled_bind_ret d e (m : outcome bytes * dev) ws a : writes fine a ws m ->
    writes (late_error C d e) a ws (match m with (Ok x, d) => (Ok (Now x), d) | (Err e, d) => (Err e, d) | (Panic, d) => (Panic, d) | (Cut, d) => (Cut, d) end).
  Proof.
    intros W. destruct m as [[x|e0| |] d0]; (eapply writes_map; [exact W| | |]); cbn [fst broken fine]; try tauto;
      try (intros b' a' V; exists b'; exact V).
    intros _. left. eexists. reflexivity.
  Qed.

  Lemma approve_left B a d : B + 1 < 2 ^ 64 -> ui_ok O d -> abs (fun _ => B) a d ->
    left_behind C d EApprove (decide C (accept O) d).
  Proof.
    intros HB Ui V. unfold decide. destruct (d_ui d) as [v|] eqn:U.
    2:{ left. split; [intros s; eapply abs_kept; eauto|]. intros ws _ [out X]. discriminate. }
    pose proof (Ui v U) as Vw.
    set (room := match cf_room C v with Some r => r | None => 0 end).
    set (d0 := set_ui None d).
    assert (V0 : abs (fun _ => B) a d0).
    { apply (abs_same _ _ d); auto; [intros []|]; destruct d; reflexivity. }
    assert (Q : forall E : effects, (forall s, ~ e_slot E s) -> keeps E (accept O v room) ->
      (forall ws, ~ plan C d EApprove ws) ->
      left_behind C d EApprove (finish room (bind (accept O v room) (fun out => ret (Now out)) d0))).
    { intros E He K Np. apply (quiet_left _ _ _ (fun _ => B) a); auto; [|intros ws P; now elim (Np ws)].
      specialize (K d0). pose proof (abs_frame E _ _ _ _ He K V0) as V1.
      unfold bind, ret. destruct (accept O v room d0) as [[]]; exact V1. }
    assert (Pl : forall ws, plan C d EApprove ws ->
      match v with VAuthorize _ _ | VDeauthorize _ | VSetup _ _ _ _ _ => True | _ => False end).
    { intros ws P. remember EApprove as e eqn:Ee. destruct P as [? ? ? ? ? H|k a0 p H|a0 H|k m t c a0 ? ? ? H|e q p H];
        try discriminate; try (rewrite U in H; injection H as ->; exact Logic.I).
      destruct H as (_ & buf & rx & ? & ? & ? & ? & -> & _). discriminate. }
    pose proof (keeps_accept O v room) as K.
    destruct v as [sh dg pp data|sh dg br o data|k ad|ad|wc k ad|wa pk ad|k main test chain ad];
      try (refine (Q _ _ K _); [intros s x; exact x|intros ws P; exact (Pl ws P)]).
    - clear Q K. destruct Vw as [Kk _]. cbn [accept]. unfold pubkey.
      destruct (o_pubkey O (fst k) (snd k)) as [pk|].
      2:{ apply (quiet_left _ _ _ (fun _ => B) a); auto. intros ws _. discriminate. }
      eapply (writes_left _ _ _ (fun _ => B) a [(SKey, key_serialize k)]); auto.
      { eapply PlanAuthorise; [exact U|]. now apply key_layout_serialize. }
      apply (settled_bind_ret d EApprove (bind (of_option ExecutionError (Some pk)) _ d0)).
      unfold bind at 1. cbn [of_option]. unfold ret at 1. unfold store_baking_key.
      apply (writes_write _ (fun _ => B)); auto using key_payload. intros d1 V1. eapply writes_nil; [exact V1|right; exact Logic.I].
    - clear Q K. cbn [accept]. unfold remove_baking_key.
      eapply (writes_left _ _ _ (fun _ => B) a [(SKey, zeros 52)]); auto.
      { eapply PlanDeauthorise. exact U. }
      apply (settled_bind_ret d EApprove (bind (write_or SKey key_empty ExecutionError) _ d0)).
      apply (writes_write _ (fun _ => B)); auto using key_empty_payload. intros d1 V1. eapply writes_nil; [exact V1|right; exact Logic.I].
    - clear Q K. destruct Vw as (Kk & _ & Hm & Ht & Hc). cbn [accept]. unfold pubkey.
      destruct (o_pubkey O (fst k) (snd k)) as [pk|].
      2:{ apply (quiet_left _ _ _ (fun _ => B) a); auto. intros ws _. discriminate. }
      eapply (writes_left _ _ _ (fun _ => B) a
        [(SKey, key_serialize k); (SMain, wm_serialize (wm_reset main false)); (STest, wm_serialize (wm_reset test false));
         (SChain, be 4 (u32_of_chain chain) ++ zeros 48)]); auto.
      { eapply PlanSetup; [exact U|now apply key_layout_serialize|apply wm_layout; exact Hm|apply wm_layout; exact Ht]. }
      apply (settled_bind_ret d EApprove (bind (of_option ExecutionError (Some pk)) _ d0)).
      unfold bind at 1. cbn [of_option]. unfold ret at 1. unfold store_baking_key.
      set (b1 := bump SKey (fun _ : slot => B)). set (b2 := bump SMain b1). set (b3 := bump STest b2).
      apply (writes_write _ (fun _ => B)); auto using key_payload. intros d1 V1.
      apply (writes_write _ b1); auto using wm_payload. intros d2 V2.
      apply (writes_write _ b2); auto using wm_payload. intros d3 V3.
      assert (Ch : pad_to 52 (be 4 (u32_of_chain chain)) = be 4 (u32_of_chain chain) ++ zeros 48).
      { unfold pad_to. rewrite be_length. reflexivity. }
      rewrite <- Ch. apply (writes_write _ b3); auto; [apply (chain_payload chain)|]. intros d4 V4.
      eapply writes_nil; [exact V4|right; exact Logic.I].
  Qed.

  (** ** Consensus messages *)

  Lemma consensus_err p rem hw e : consensus_check p rem hw = Some (AErr e) -> e <> Success.
  Proof.
    unfold consensus_check. destruct p; intros H;
      repeat match type of H with
      | match ?x with _ => _ end = _ => destruct x
      | (if ?x then _ else _) = _ => destruct x
      end; congruence.
  Qed.

  Lemma consensus_mark p rem hw wm : consensus_check p rem hw = Some (AOk wm) -> mark_at (wm_pos wm) = wm.
  Proof.
    assert (E : forall x, mark_at (wm_pos (endo_watermark x)) = endo_watermark x).
    { intros [|? ? [] ? ? ? ?]; reflexivity. }
    assert (B : forall x, mark_at (wm_pos (block_watermark x)) = block_watermark x).
    { intros x. unfold block_watermark. destruct (bd_fitness x); reflexivity. }
    unfold consensus_check. destruct p; intros H;
      repeat match type of H with
      | match ?x with _ => _ end = _ => destruct x
      | (if ?x then _ else _) = _ => destruct x
      end; try discriminate; injection H as <-; auto.
  Qed.

  Definition executed (x : outcome reply) : Prop := served x \/ x = Err ExecutionError.

  Lemma abs_stored b a d k : abs b a d -> (stored_key d k <-> exists p, a SKey = Some (Some p) /\ key_parse p = AOk (Some k)).
  Proof.
    intros [A _]. specialize (A SKey). unfold stored_key. cbn [get_slot] in A. destruct (a SKey) as [o|]; cbn [state] in A.
    - pose proof (ss_read _ _ _ A) as R. rewrite R. destruct o as [p|]; cbn [expected_read]; split; intros (p' & E & K);
        try discriminate; exists p'; split; auto; congruence.
    - unfold lost_w in A. unfold wear_read. rewrite A. split; intros (p' & E & _); discriminate.
  Qed.

  Lemma consensus_left B a k m p rem sh dg data d : preemble_of_byte m = Some p -> data = m :: rem ->
    bytes_ok data -> stored_key d k -> B + 1 < 2 ^ 64 -> abs (fun _ => B) a d ->
    (quiet (fst (handle_consensus O p rem sh dg data d)) /\ abs (fun _ => B) a (snd (handle_consensus O p rem sh dg data d))) \/
    exists wm, signed_pos data = Some (wm_pos wm) /\ mark_at (wm_pos wm) = wm /\ wm_ok wm /\
      writes executed a [(SMain, wm_serialize wm)] (handle_consensus O p rem sh dg data d).
  Proof.
    intros P Ed Bd Sk HB V. remember (handle_consensus O p rem sh dg data d) as y eqn:Ey.
    unfold handle_consensus in Ey. unfold bind at 1 in Ey.
    remember (read_or SMain ExecutionError d) as x eqn:Ex.
    pose proof (keeps_read_or eff_none SMain ExecutionError d) as F1. rewrite <- Ex in F1.
    assert (Ne : forall e d1, x = (Err e, d1) -> e <> Success).
    { intros e d1 E. rewrite Ex in E. unfold read_or, bind, read_slot in E.
      destruct (wear_init (get_slot SMain d)); [|discriminate].
      destruct (wear_read_at (get_slot SMain d) n); unfold ret, fail in E; congruence. }
    assert (Nc : forall d1, x <> (Cut, d1)).
    { intros d1 E. rewrite Ex in E. unfold read_or, bind, read_slot in E.
      destruct (wear_init (get_slot SMain d)); [|discriminate].
      destruct (wear_read_at (get_slot SMain d) n); unfold ret, fail in E; congruence. }
    pose proof (abs_frame eff_none _ _ _ _ (fun s x => x) F1 V) as V1. clear Ex F1.
    apply (abs_stored _ _ _ k V) in Sk.
    destruct x as [[hw|e| |] d1]; cbn [snd] in V1.
    2:{ subst y. left. split; [exact (Ne _ _ eq_refl)|exact V1]. }
    2:{ subst y. left. split; [exact Logic.I|exact V1]. }
    2:{ now elim (Nc d1). }
    destruct (consensus_check p rem (wm_parse hw)) as [[wm|e]|] eqn:K; cbn [of_ares] in Ey.
    2:{ subst y. left. split; [exact (consensus_err _ _ _ _ K)|exact V1]. }
    2:{ subst y. left. split; [exact Logic.I|exact V1]. }
    right. exists wm. pose proof (consensus_check_ok _ _ _ _ _ P K) as (Kp & _ & _). rewrite <- Ed in Kp.
    split; [exact Kp|]. split; [exact (consensus_mark _ _ _ _ K)|]. split; [exact (signed_pos_wm_ok _ _ Bd Kp)|].
    subst y. unfold bind at 1. unfold ret at 1. apply (writes_write _ (fun _ => B)); auto using wm_payload. intros d2 V2.
    set (Es := mkEff (fun _ => False) (fun _ => True) False False (fun _ => False)).
    pose proof (keeps_baking_sign O Es SrcConsensus dg data (fun _ => Logic.I) d2) as FB.
    assert (Sk2 : stored_key d2 k) by exact (proj2 (abs_stored _ _ _ k V2) Sk).
    pose proof (baking_sign_err O SrcConsensus dg data d2 k Sk2) as Eb.
    apply (abs_frame Es _ _ _ _ (fun s x => x) FB) in V2.
    unfold bind. destruct (baking_sign O SrcConsensus dg data d2) as [[sg|e| |] d3]; (eapply writes_nil; [exact V2|]).
    - right. left. eexists. reflexivity.
    - right. right. rewrite Eb. reflexivity.
    - left. exact Logic.I.
    - left. exact Logic.I.
  Qed.

  Lemma check_quiet k d : match fst (check_with_stored k d) with Err e => e <> Success | Cut => False | _ => True end.
  Proof.
    unfold check_with_stored, read_or, read_slot, bind. cbn [get_slot].
    destruct (wear_init (d_key d)) as [i|]; [|exact Logic.I].
    destruct (wear_read_at (d_key d) i) as [p| |]; try discriminate. unfold ret at 1.
    destruct (key_parse p) as [o|e] eqn:K; cbn [of_ares].
    - unfold ret. destruct o; cbn [of_option]; [exact Logic.I|discriminate].
    - cbn [fst fail]. revert K. unfold key_parse.
      repeat match goal with |- context [match ?x with _ => _ end] => destruct x | |- context [if ?x then _ else _] => destruct x end;
        congruence.
  Qed.

  Lemma baker_left B a sh up d : uo_ok up -> B + 1 < 2 ^ 64 -> abs (fun _ => B) a d ->
    (quiet (fst (baker_sign C O sh up d)) /\ abs (fun _ => B) a (snd (baker_sign C O sh up d))) \/
    exists wm, signed_pos (uo_data up) = Some (wm_pos wm) /\ mark_at (wm_pos wm) = wm /\ wm_ok wm /\
      writes executed a [(SMain, wm_serialize wm)] (baker_sign C O sh up d).
  Proof.
    intros [_ Bd] HB V. remember (baker_sign C O sh up d) as x eqn:Ex. unfold baker_sign in Ex.
    unfold bind at 1 in Ex.
    destruct (curve_of_byte (uo_p2 up)) as [c|]; cbn [of_option] in Ex; [|subst x; left; split; [discriminate|exact V]].
    unfold ret at 1 in Ex. unfold bind at 1 in Ex.
    destruct (path_read BIP32_MAX_LENGTH (uo_first up)) as [pa|]; cbn [of_option] in Ex;
      [|subst x; left; split; [discriminate|exact V]].
    unfold ret at 1 in Ex. unfold bind at 1 in Ex.
    pose proof (keeps_check_with_stored eff_none (c, pa) d) as F1.
    pose proof (check_quiet (c, pa) d) as Q1.
    pose proof (check_with_stored_spec (c, pa) d) as K1.
    pose proof V as V0.
    apply (abs_frame eff_none _ _ _ _ (fun s x => x) F1) in V. clear F1.
    destruct (check_with_stored (c, pa) d) as [[ok|e| |] d1]; cbn [fst snd] in Q1, V, K1.
    2:{ subst x. left. split; [exact Q1|exact V]. }
    2:{ subst x. left. split; [exact Logic.I|exact V]. }
    2:{ contradiction. }
    unfold bind at 1 in Ex. destruct ok; cbn [check] in Ex; [|subst x; left; split; [discriminate|exact V]].
    unfold ret at 1 in Ex. unfold bind at 1, digest32 in Ex.
    destruct (o_blake2b O 32 (uo_data up)) as [dg|]; cbn [of_option] in Ex; [|subst x; left; split; [discriminate|exact V]].
    unfold ret at 1 in Ex.
    destruct (preemble_parse (uo_data up)) as [rem p| |] eqn:P;
      [|subst x; left; split; [discriminate|exact V]|subst x; left; split; [exact Logic.I|exact V]].
    apply preemble_parse_inv in P as (m & Em & Pm).
    assert (Sk : stored_key d1 (c, pa)).
    { apply (abs_stored _ _ _ _ V). apply (abs_stored _ _ _ _ V0). apply K1. }
    pose proof (consensus_left B a (c, pa) m p rem sh dg (uo_data up) d1 Pm Em Bd Sk HB V) as G.
    destruct p; try (rewrite Ex; exact G); try (subst x; left; split; [discriminate|exact V]).
    clear G. left. subst x. unfold handle_delegation.
    destruct (operation_new rem) as [[br ops]|]; [|split; [discriminate|exact V]].
    destruct (eo_next ops) as [| | |o e]; try (split; [first [discriminate|exact Logic.I]|exact V]).
    destruct o; try (split; [first [discriminate|exact Logic.I]|exact V]);
      (split; [unfold show; destruct (cf_room C _); first [discriminate|exact Logic.I]|]);
      (eapply (abs_frame eff_show); [intros s x; exact x|apply (keeps_show C eff_show); exact Logic.I|exact V]).
  Qed.

  (** ** Events *)

  Lemma plan_apdu d buf rx ws : plan C d (EApdu buf rx) ws ->
    cf_baking C = true /\ nth 0 buf 0 = 0x80 /\
    (nth 1 buf 0 = 0x06 \/
     (In (nth 1 buf 0) [0x04; 0x0F; 0xAF] /\
      exists up u s, upload AccBaking buf (d_up d) (d_ufaults d) = (Ok (Some up), u, s))).
  Proof.
    intros P. remember (EApdu buf rx) as e eqn:Ee.
    destruct P as [b r p ch Cb (_ & _ & H0 & H1) _ _ _|k a0 p H|a0 H|k m t c a0 ? ? ? H|e q p H]; try discriminate.
    - injection Ee as -> ->. auto.
    - destruct H as (Cb & b & r & ins & up & u & s & E & (_ & _ & E0 & E1) & Hi & Hu & _).
      rewrite E in Ee. injection Ee as -> ->. rewrite E1. eauto 10.
  Qed.

  Lemma sign_left B a d buf rx sh room : B + 1 < 2 ^ 64 -> cf_baking C = true -> apdu_ok buf ->
    command d buf rx (nth 1 buf 0) -> In (nth 1 buf 0) [0x04; 0x0F; 0xAF] ->
    up_bytes (d_up d) -> Forall up_fault_ok (d_ufaults d) -> abs (fun _ => B) a d ->
    left_behind C d (EApdu buf rx) (finish room (h_baker_sign C O sh buf d)).
  Proof.
    intros HB Cb Hb Hc Hi Hu Hf V. unfold h_baker_sign.
    assert (N6 : nth 1 buf 0 <> 6) by (intros E; rewrite E in Hi; cbn in Hi; lia).
    remember (with_upload AccBaking buf (baker_sign C O sh) d) as x eqn:Ex. unfold with_upload, the_upload in Ex.
    unfold bind at 1 in Ex.
    destruct (upload AccBaking buf (d_up d) (d_ufaults d)) as [[r u] s] eqn:Eu.
    set (d1 := set_up u (set_ufaults s d)) in Ex.
    assert (V1 : abs (fun _ => B) a d1).
    { apply (abs_same _ _ d); auto; [intros []|]; unfold d1; destruct d; reflexivity. }
    assert (Q : (forall up, r <> Ok (Some up)) -> forall ws, plan C d (EApdu buf rx) ws -> quiet (fst x)).
    { intros N ws P. exfalso. apply plan_apdu in P as (_ & _ & [E|(_ & up & u' & s' & E)]); [contradiction|].
      rewrite Eu in E. apply (N up). congruence. }
    assert (Drop : forall d2, (forall s', get_slot s' (set_up (upload_drop AccBaking (d_up d2)) d2) = get_slot s' d2) /\
      d_faults (set_up (upload_drop AccBaking (d_up d2)) d2) = d_faults d2).
    { intros d2. split; [intros []|]; destruct d2; reflexivity. }
    destruct r as [[up|]|e| |].
    2-5: (apply (quiet_left _ _ _ (fun _ => B) a); [exact V|subst x; exact V1|apply Q; discriminate]).
    pose proof (with_upload_bytes AccBaking buf d up u s Hb Hu Hf Eu) as Uo.
    destruct (baker_left B a sh up d1 Uo HB V1) as [[Qt V2]|(wm & Sp & Ma & Wo & W)].
    - apply (quiet_left _ _ _ (fun _ => B) a); [exact V| |].
      + destruct (baker_sign C O sh up d1) as [[rr|e| |] d2]; subst x; cbn [snd] in *; try exact V2;
          destruct (Drop d2); (eapply abs_same; [| |exact V2]); assumption.
      + intros ws _. destruct (baker_sign C O sh up d1) as [[rr|e| |] d2]; subst x; exact Qt.
    - assert (Of : offered C d (EApdu buf rx) (wm_pos wm)).
      { split; [exact Cb|]. exists buf, rx, (nth 1 buf 0), up, u, s. auto. }
      eapply (writes_left _ _ _ (fun _ => B) a [(SMain, wm_serialize wm)]); [exact V| |].
      + eapply (PlanSign _ _ _ (wm_pos wm)); [exact Of|rewrite Ma; apply wm_layout; exact Wo].
      + destruct (baker_sign C O sh up d1) as [[rr|e| |] d2]; subst x;
          (eapply writes_map; [exact W| | |]); cbn [fst broken]; auto;
          try (intros b' a' V'; exists b'; cbn [settled fst snd] in *; try exact V';
               destruct (Drop d2); (eapply abs_same; [| |exact V']); assumption);
          (intros [[data X]|X]; [left; exists data; exact X|right; split; [exact X|eauto]]).
  Qed.

  Lemma step_left B a d e : B + 1 < 2 ^ 64 -> event_ok e -> ui_ok O d ->
    up_bytes (d_up d) -> Forall up_fault_ok (d_ufaults d) -> abs (fun _ => B) a d ->
    left_behind C d e (step C O d e).
  Proof.
    intros HB He Ui Hu Hf V.
    assert (Dec : forall e' g, (forall ws, ~ plan C d e' ws) -> (forall v room, (forall s d0, get_slot s (snd (g v room d0)) = get_slot s d0)
        /\ forall d0, d_faults (snd (g v room d0)) = d_faults d0) ->
      left_behind C d e' (decide C g d)).
    { intros e' g Np G. unfold decide. destruct (d_ui d) as [v|] eqn:U.
      - apply (quiet_left _ _ _ (fun _ => B) a); auto; [|intros ws P; now elim (Np ws)].
        set (room := match cf_room C v with Some r => r | None => 0 end).
        destruct (G v room) as [G1 G2]. specialize (G2 (set_ui None d)).
        assert (G3 := fun s => G1 s (set_ui None d)). clear G1.
        unfold bind, ret. destruct (g v room (set_ui None d)) as [[]]; cbn [snd] in *;
          (apply (abs_same _ _ d); [intros s; rewrite G3; destruct s, d; reflexivity|rewrite G2; destruct d; reflexivity|exact V]).
      - left. split; [intros s; eapply abs_kept; eauto|]. intros ws P. now elim (Np ws). }
    assert (Np : forall e', match e' with EReject | EUiError | EPower => True | _ => False end -> forall ws, ~ plan C d e' ws).
    { intros e' X ws P. destruct P as [? ? ? ? ? H|k a0 p H|a0 H|k m t c a0 ? ? ? H|e0 q p H]; try contradiction.
      destruct H as (_ & buf & rx & ? & ? & ? & ? & -> & _). contradiction. }
    destruct e as [buf rx| | | |]; cbn [step].
    - cbn [event_ok] in He. destruct (d_ui d) eqn:U.
      { left. split; [intros s; eapply abs_kept; eauto|]. intros ws _ [out X]. discriminate. }
      destruct (apdu_read_ok buf rx) eqn:Ok.
      2:{ apply (quiet_left _ _ _ (fun _ => B) a); auto. intros ws _. discriminate. }
      assert (Hr : 5 <= rx <= 260).
      { unfold apdu_read_ok in Ok. destruct He as [Hl _]. unfold len in *. lia. }
      assert (Els : forall E : effects, (forall s, ~ e_slot E s) -> keeps E (dispatch C O buf) ->
        (forall ws, ~ plan C d (EApdu buf rx) ws) ->
        left_behind C d (EApdu buf rx) (finish (len buf) (dispatch C O buf d))).
      { intros E He' K Nq. apply (quiet_left _ _ _ (fun _ => B) a); auto; [|intros ws P; now elim (Nq ws)].
        exact (abs_frame E _ _ _ _ He' (K d) V). }
      destruct (cf_baking C && (nth 0 buf 0 =? 0x80) && (nth 1 buf 0 =? 0x06)) eqn:Rs.
      { apply andb_prop in Rs as [Rs E1]. apply andb_prop in Rs as [Cb E0].
        apply N.eqb_eq in E0. apply N.eqb_eq in E1.
        assert (R : dispatch C O buf = h_reset buf) by (rewrite (dispatch_at C O buf _ E0 E1), Cb; reflexivity).
        rewrite R. eapply reset_left; eauto. repeat split; auto; lia. }
      destruct (cf_baking C && (nth 0 buf 0 =? 0x80) && existsb (N.eqb (nth 1 buf 0)) [0x04; 0x0F; 0xAF]) eqn:Sg.
      + apply andb_prop in Sg as [Sg Si]. apply andb_prop in Sg as [Cb E0]. apply N.eqb_eq in E0.
        apply existsb_exists in Si as (ins & Hi & E1). apply N.eqb_eq in E1. subst ins.
        assert (R : exists sh, dispatch C O buf = h_baker_sign C O sh buf).
        { rewrite (dispatch_at C O buf _ E0 eq_refl), Cb.
          cbn [In] in Hi. destruct Hi as [<-|[<-|[<-|[]]]]; unfold dispatch_common; eexists; rewrite ?Cb; reflexivity. }
        destruct R as [sh R]. rewrite R. eapply sign_left; eauto. repeat split; auto; lia.
      + assert (Ns : forall ws, ~ plan C d (EApdu buf rx) ws).
        { intros ws P. apply plan_apdu in P as (Cb & E0 & [E|(Hi & _)]).
          - rewrite Cb, E0, E, !N.eqb_refl in Rs. discriminate.
          - rewrite Cb, E0, N.eqb_refl in Sg. cbn [andb] in Sg.
            apply Bool.not_true_iff_false in Sg. apply Sg. apply existsb_exists. exists (nth 1 buf 0).
            split; [exact Hi|apply N.eqb_refl]. }
        destruct (dispatch_kinds C O buf) as [(Cb & E0 & E1 & _)|[(Cb & E0 & Hi & _)|[(_ & sh & R)|[K _]]]].
        * exfalso. rewrite Cb, E0, E1, !N.eqb_refl in Rs. discriminate.
        * exfalso. rewrite Cb, E0, N.eqb_refl in Sg. cbn [andb] in Sg.
          apply Bool.not_true_iff_false in Sg. apply Sg. apply existsb_exists. exists (nth 1 buf 0).
          split; [exact Hi|apply N.eqb_refl].
        * apply (Els (eff_with_up eff_sign)); [intros s x; exact x| |exact Ns]. rewrite R. apply keeps_h_sign.
        * apply (Els (eff_other C buf)); [intros s x; exact x|exact K|exact Ns].
    - now apply (approve_left B a).
    - apply Dec; [now apply Np|]. intros v room. split; intros; destruct v; cbn; try reflexivity; destruct d0; try destruct s; reflexivity.
    - apply Dec; [now apply Np|]. intros v room. split; reflexivity.
    - left. split; [|intros ws P; now elim (Np EPower Logic.I ws)]. intros s. cbn [snd].
      eapply abs_kept; [exact V|apply abs_restart; exact V|reflexivity].
  Qed.

  (** ** The plan is determined *)

  Lemma mark_unique p p' w : mark_bytes p w -> mark_bytes p' w -> p = p'.
  Proof. intros H H'. apply mark_serialize in H as [_ ->]. apply mark_serialize in H' as [_ ->]. reflexivity. Qed.
  Lemma offered_unique d e q q' : offered C d e q -> offered C d e q' -> q = q'.
  Proof.
    intros (_ & b & r & i & up & u & s & -> & _ & _ & Eu & Sp) (_ & b' & r' & i' & up' & u' & s' & E & _ & _ & Eu' & Sp').
    injection E as <- <-. congruence.
  Qed.
  Lemma plan_unique d e ws ws' : plan C d e ws -> plan C d e ws' -> ws = ws'.
  Proof.
    assert (No : forall buf rx q, command d buf rx 0x06 -> ~ offered C d (EApdu buf rx) q).
    { intros buf rx q (_ & _ & _ & E) (_ & b & r & i & up & u & s & Ee & (_ & _ & _ & E') & Hi & _).
      injection Ee as <- <-. rewrite E in E'. subst i. cbn in Hi. lia. }
    assert (Na : forall q, ~ offered C d EApprove q).
    { intros q (_ & b & r & i & up & u & s & Ee & _). discriminate. }
    intros P P'. destruct P as [buf rx p ch Cb Hc Hl Hm Hch|k a p U L|a U|k m t c a pk pm pt U Lk Lm Lt|e q p Of Hm].
    - remember (EApdu buf rx) as e eqn:Ee.
      destruct P' as [buf' rx' p' ch' Cb' Hc' Hl' Hm' Hch'| | | |e q p' Of Hm']; try discriminate.
      + injection Ee as -> ->. rewrite (mark_unique _ _ _ Hm Hm').
        destruct Hch as [[-> H]|[-> H]], Hch' as [[-> H']|[-> H']]; tauto.
      + rewrite Ee in Of. now elim (No _ _ _ Hc Of).
    - remember EApprove as e eqn:Ee. destruct P' as [|k' a' p' U' L'|a' U'|? ? ? ? ? ? ? ? U'|e q p' Of _]; try discriminate; try congruence.
      + destruct L as [_ ->], L' as [_ ->]. rewrite U in U'. injection U' as -> _. reflexivity.
      + now elim (Na _ Of).
    - remember EApprove as e eqn:Ee. destruct P' as [|k' a' p' U' L'|a' U'|? ? ? ? ? ? ? ? U'|e q p' Of _]; try discriminate; try congruence.
      now elim (Na _ Of).
    - remember EApprove as e eqn:Ee.
      destruct P' as [|k' a' p' U' L'|a' U'|k' m' t' c' a' pk' pm' pt' U' Lk' Lm' Lt'|e q p' Of _]; try discriminate; try congruence.
      + rewrite U in U'. injection U' as -> -> -> -> ->. destruct Lk as [_ ->], Lk' as [_ ->].
        rewrite (mark_unique _ _ _ Lm Lm'), (mark_unique _ _ _ Lt Lt'). reflexivity.
      + now elim (Na _ Of).
    - destruct P' as [buf' rx' p' ch' Cb' Hc'| | | |e q' p' Of' Hm'];
        [now elim (No _ _ _ Hc' Of)|now elim (Na _ Of)..|].
      rewrite <- (offered_unique _ _ _ _ Of Of') in Hm'. now rewrite (mark_unique _ _ _ Hm Hm').
  Qed.

  (** ** Histories *)

  (** C66. *)
  Lemma interrupted f u es e : Forall power_fault f -> Forall up_fault_ok u ->
    Forall event_ok (es ++ [e]) -> len es + 1 < 2 ^ 64 ->
    let d := snd (run C O (dev_fresh f u) es) in
    left_behind C d e (step C O d e).
  Proof.
    intros F U E L d. apply Forall_app in E as [E E1]. inversion E1 as [|? ? He _]; subst.
    pose proof (reach_alive C O f u es F U E ltac:(lia)) as D. fold d in D.
    destruct (dok_abs _ _ D) as [a V]. apply (step_left (len es) a); auto; [|apply D..].
    now apply reach_ui.
  Qed.

  Lemma slots_known f u es s : Forall power_fault f -> Forall up_fault_ok u ->
    Forall event_ok es -> len es < 2 ^ 64 ->
    let d := snd (run C O (dev_fresh f u) es) in
    (exists o, holds_slot d s o) \/ lost d s.
  Proof.
    intros F U E L d. destruct (dok_abs _ _ (reach_alive C O f u es F U E L)) as [a V].
    exact (abs_known _ _ _ s V).
  Qed.

  (** C09. *)
  Lemma refused_kept f u es e out : Forall power_fault f -> Forall up_fault_ok u ->
    Forall event_ok (es ++ [e]) -> len es + 1 < 2 ^ 64 ->
    let d := snd (run C O (dev_fresh f u) es) in
    let d' := snd (step C O d e) in
    fst (step C O d e) = AReply out -> ~ succeeds (AReply out) ->
    (forall s, kept d d' s) \/
    (exists q p, offered C d e q /\ out = [0x64; 0] /\ mark_bytes p (mark_at q) /\ holds_slot d' SMain (Some p) /\
       forall s, s <> SMain -> kept d d' s).
  Proof.
    intros F U E L d d' Ea N. destruct (interrupted f u es e F U E L) as [[K _]|(ws1 & ws2 & P & H1 & H2 & H3)].
    - left. exact K.
    - fold d in P, H1, H2, H3. fold d' in H1, H2. rewrite Ea in H3.
      destruct H3 as [X|(-> & [X|(X & q & Of)])]; [discriminate|contradiction|].
      right. rewrite app_nil_r in P.
      assert (Pq : exists p, mark_bytes p (mark_at q) /\ ws1 = [(SMain, p)]).
      { destruct P as [buf rx p ch Cb Hc Hl Hm Hch|k a p Ui Lk|a Ui|k m t c a pk pm pt Ui Lk Lm Lt|e q' p Of' Hm].
        - exfalso. destruct Of as (_ & b & r & i & up & u0 & s & Ee & (_ & _ & _ & E') & Hi & _).
          injection Ee as <- <-. destruct Hc as (_ & _ & _ & E6). rewrite E6 in E'. subst i. cbn in Hi. lia.
        - destruct Of as (_ & b & r & i & up & u0 & s & Ee & _). discriminate.
        - destruct Of as (_ & b & r & i & up & u0 & s & Ee & _). discriminate.
        - destruct Of as (_ & b & r & i & up & u0 & s & Ee & _). discriminate.
        - exists p. split; [|reflexivity]. now rewrite (offered_unique _ _ _ _ Of Of'). }
      destruct Pq as (p & Hm & ->). exists q, p. split; [exact Of|].
      split; [exact (f_equal (fun x => match x with AReply o => o | _ => [] end) X)|]. split; [exact Hm|].
      split; [apply H1; now left|]. intros s Ns. destruct (H2 s) as [Y|(_ & p' & more & Y)]; [|exact Y|discriminate].
      intros [Z|[]]. cbn [fst] in Z. congruence.
  Qed.

  Lemma completed f u es e ws : Forall power_fault f -> Forall up_fault_ok u ->
    Forall event_ok (es ++ [e]) -> len es + 1 < 2 ^ 64 ->
    let d := snd (run C O (dev_fresh f u) es) in
    let d' := snd (step C O d e) in
    plan C d e ws -> succeeds (fst (step C O d e)) ->
    (forall s p, In (s, p) ws -> holds_slot d' s (Some p)) /\
    (forall s, ~ In s (map fst ws) -> kept d d' s).
  Proof.
    intros F U E L d d' P S. destruct (interrupted f u es e F U E L) as [[_ N]|(ws1 & ws2 & P1 & H1 & H2 & H3)].
    - now elim (N ws P).
    - fold d in P1, H1, H2, H3. fold d' in H1, H2.
      assert (ws2 = []) as ->.
      { destruct H3 as [X|[X _]]; [|exact X]. rewrite X in S. destruct S as [out Y]. discriminate. }
      rewrite app_nil_r in P1. rewrite (plan_unique _ _ _ _ P P1). split; [exact H1|].
      intros s N. destruct (H2 s N) as [X|(_ & p & more & X)]; [exact X|discriminate].
  Qed.
End Interrupt.
