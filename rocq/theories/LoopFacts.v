(** Proofs about exceptions and the main loop. *)
From Coq Require Import List NArith ZArith Bool Arith Lia ZifyBool ZifyNat ZifyN.
From Verif Require Import Base BaseFacts Codecs UploadSpec Oracles Device DeviceSpec DeviceFacts DeviceReviews DeviceCommands Catch Loop LoopSpec.
Import ListNotations.
Open Scope N_scope.

(** ** Exceptions *)

(** The contexts on the stack are chained from the innermost to the outermost call. *)
Fixpoint linked (fs : list frame) (context : option nat) : Prop :=
  match fs with
  | [] => context = None
  | f :: rest => context = Some (length rest) /\ linked rest (f_prev f)
  end.
Inductive reaches : machine -> machine -> Prop :=
| reaches_refl m : reaches m m
| reaches_step m m' m'' : machine_step m = MStep m' -> reaches m' m'' -> reaches m m''.
Lemma reaches_trans a b c : reaches a b -> reaches b c -> reaches a c.
Proof. induction 1; auto. intros. eapply reaches_step; eauto. Qed.
Lemma reaches_run a b : reaches a b -> exists n, forall k, machine_run (n + k) a = machine_run k b /\ machine_last (n + k) a = machine_last k b.
Proof.
  induction 1 as [m|m m' m'' E _ [n IH]]; [exists 0%nat; auto|]. exists (S n). intros k.
  change (S n + k)%nat with (S (n + k)). cbn [machine_run machine_last]. rewrite E. apply IH.
Qed.

Lemma finally_inner c prev : finally (Some c) c prev = prev.
Proof. unfold finally. cbn [same_context]. now rewrite Nat.eqb_refl. Qed.
Lemma finally_prev prev a : finally prev a prev = prev.
Proof. unfold finally. now destruct (same_context _ _). Qed.

(** What a handler sees: the low 16 bits (and 1 for 0). *)
Definition low (e : N) : N := as_u16 (jumped e).

Lemma run_meaning p : throws (fun e => low e <> 0) p -> forall fs context t, linked fs context ->
  let (t', r) := meaning low p in
  reaches (mkMachine p fs context t)
          (mkMachine (match r with inl v => PRet v | inr e => PThrow e end) fs context (t ++ t')).
Proof.
  induction p as [v|x k IH|e|s IHs ok IHok err IHerr]; cbn [throws meaning]; intros T fs context t L.
  - rewrite app_nil_r. constructor.
  - specialize (IH T fs context (t ++ [x]) L). destruct (meaning low k) as [t' r].
    eapply reaches_step; [reflexivity|]. now rewrite <- app_assoc in IH.
  - rewrite app_nil_r. constructor.
  - destruct T as (Ts & Tok & Terr).
    set (f := mkFrame context s ok err).
    assert (L1 : linked (f :: fs) (Some (length fs))) by (cbn [linked]; auto).
    specialize (IHs Ts (f :: fs) (Some (length fs)) t L1).
    assert (Th : forall e, snd (meaning low s) = inr e -> low e <> 0).
    { clear - Ts. revert Ts. induction s as [v|x k IH|e0|s' IH1 ok' IH2 err' IH3]; cbn [throws meaning]; intros T e.
      - discriminate.
      - specialize (IH T e). destruct (meaning low k). exact IH.
      - cbn [snd]. intros [= <-]. exact T.
      - destruct T as (T1 & T2 & T3). destruct (meaning low s') as [t' [v|e']].
        + specialize (IH2 v (T2 v) e). destruct (meaning low (ok' v)). exact IH2.
        + specialize (IH3 (low e') (T3 _) e). destruct (meaning low (err' (low e'))). exact IH3. }
    destruct (meaning low s) as [t1 r1]. cbn [snd] in Th.
    destruct r1 as [v|e].
    + specialize (IHok v (Tok v) fs context (t ++ t1) L). destruct (meaning low (ok v)) as [t2 r2].
      eapply reaches_step; [reflexivity|]. eapply reaches_trans; [exact IHs|].
      eapply reaches_step.
      * cbn [machine_step m_code m_stack m_context m_effects f f_ok f_prev]. rewrite finally_inner. reflexivity.
      * now rewrite <- app_assoc in IHok.
    + specialize (Th e eq_refl).
      specialize (IHerr (low e) (Terr _) fs context (t ++ t1) L).
      destruct (meaning low (err (low e))) as [t2 r2].
      eapply reaches_step; [reflexivity|]. eapply reaches_trans; [exact IHs|].
      eapply reaches_step.
      * cbn [machine_step m_code m_stack m_context m_effects].
        replace (length (f :: fs) <=? length fs)%nat with false by (cbn [length]; symmetry; apply Nat.leb_gt; lia).
        replace (length (f :: fs) - 1 - length fs)%nat with 0%nat by (cbn [length]; lia).
        cbn [skipn]. fold (low e). destruct (N.eqb_spec (low e) 0) as [X|_]; [contradiction|].
        cbn [f f_err f_prev]. rewrite finally_prev. reflexivity.
      * now rewrite <- app_assoc in IHerr.
Qed.
Lemma catch_low p : throws (fun e => low e <> 0) p -> runs_to p (fst (meaning low p)) (snd (meaning low p)).
Proof.
  intros T. pose proof (run_meaning p T [] None [] eq_refl) as R.
  destruct (meaning low p) as [t r]. cbn [fst snd app] in *. apply reaches_run in R as [n R].
  exists (n + 1)%nat. specialize (R 1%nat) as [R1 R2]. unfold machine_start. rewrite R1, R2.
  destruct r; repeat split.
Qed.
Lemma meaning_ext (f g : N -> N) (P : N -> Prop) p : (forall e, P e -> f e = g e) -> throws P p -> meaning f p = meaning g p.
Proof.
  intros E.
  assert (Th : forall p e, throws P p -> snd (meaning g p) = inr e -> P e).
  { clear p. intros p. induction p as [v|x k IH|e0|s' IH1 ok' IH2 err' IH3]; cbn [throws meaning]; intros e T.
    - discriminate.
    - specialize (IH e T). destruct (meaning g k). exact IH.
    - cbn [snd]. intros [= <-]. exact T.
    - destruct T as (T1 & T2 & T3). destruct (meaning g s') as [t' [v|e']].
      + specialize (IH2 v e (T2 v)). destruct (meaning g (ok' v)). exact IH2.
      + specialize (IH3 (g e') e (T3 _)). destruct (meaning g (err' (g e'))). exact IH3. }
  induction p as [v|x k IH|e|s IHs ok IHok err IHerr]; cbn [throws meaning]; intros T; auto.
  - now rewrite IH.
  - destruct T as (T1 & T2 & T3). rewrite (IHs T1). specialize (Th s). destruct (meaning g s) as [t [v|e]].
    + now rewrite IHok.
    + rewrite (E e) by (apply Th; auto). now rewrite IHerr.
Qed.
Lemma low_exact e : 0 < e < 2 ^ 16 -> low e = e.
Proof. intros H. unfold low, jumped, as_u16. destruct (N.eqb_spec e 0); [lia|]. apply N.mod_small. lia. Qed.
Lemma throws_mono (P Q : N -> Prop) p : (forall e, P e -> Q e) -> throws P p -> throws Q p.
Proof. intros H. induction p; cbn [throws]; firstorder. Qed.
Lemma catch_exact p : throws (fun e => 0 < e < 2 ^ 16) p ->
  runs_to p (fst (meaning (fun e => e) p)) (snd (meaning (fun e => e) p)).
Proof.
  intros T. rewrite <- (meaning_ext low (fun e => e) (fun e => 0 < e < 2 ^ 16) p).
  - apply catch_low. eapply throws_mono; [|exact T]. intros e H. cbn beta in *. rewrite low_exact by exact H. lia.
  - apply low_exact.
  - exact T.
Qed.

(** The kinds of errors. *)
Lemma error_roundtrip raw : raw < 2 ^ 32 -> code_of (sys_error_of raw) = raw.
Proof. intros _. unfold sys_error_of. destruct (N.eqb_spec raw (as_u16 raw)) as [E|_]; cbn [code_of]; congruence. Qed.
Lemma error_kind raw : raw < 2 ^ 32 -> (exists c, sys_error_of raw = ESyscall c) <-> raw < 2 ^ 16.
Proof.
  intros _. unfold sys_error_of, as_u16. destruct (N.eqb_spec raw (raw mod 2 ^ 16)) as [E|E].
  - split; [|eexists; reflexivity]. intros _. rewrite E. apply N.mod_lt. discriminate.
  - split; [intros [c X]; discriminate|]. intros H. exfalso. apply E. now rewrite N.mod_small.
Qed.
Lemma caught_kind e : exists c, sys_error_of (low e) = ESyscall c.
Proof.
  exists (low e). unfold sys_error_of, low, as_u16. rewrite N.mod_mod by discriminate. now rewrite N.eqb_refl.
Qed.

(** ** The main loop *)

Lemma Some_eq {A} (a b : A) : Some a = Some b -> a = b.
Proof. congruence. Qed.

Section Loop.
Variable C : config.
Variable O : oracles.
Implicit Types (l : loop) (d : dev).

(** While the loop waits, a command is unanswered exactly if a review is pending; nothing
    is left to send. *)
Definition settled (l : loop) : Prop :=
  l_reply l = [] /\ (if l_up l then l_media l = true <-> d_ui (l_dev l) <> None
                     else l_media l = false /\ l_flags l = false /\ d_ui (l_dev l) = None).
Definition delivered (l l' : loop) (w : list wire) (es : list event) : Prop :=
  Forall event_ok es /\ snd (run C O (l_dev l) es) = l_dev l' /\ on_wire es (fst (run C O (l_dev l) es)) = w.

Lemma firstn_command (c tail : bytes) : firstn (N.to_nat (len c)) (c ++ tail) = c.
Proof. unfold len. rewrite Nnat.Nat2N.id, firstn_app, firstn_all, Nat.sub_diag. cbn [firstn]. apply app_nil_r. Qed.

Lemma delivered_one l l' e a w : event_ok e -> step C O (l_dev l) e = (a, l_dev l') -> shown (e, a) = w -> delivered l l' w [e].
Proof.
  intros He E <-. unfold delivered. cbn [run]. rewrite E. cbn [fst snd].
  split; [now constructor|]. split; [reflexivity|]. unfold on_wire. cbn [combine flat_map]. apply app_nil_r.
Qed.
Lemma delivered_none l l' : l_dev l = l_dev l' -> delivered l l' [] [].
Proof. intros E. split; [constructor|]. split; [exact E|reflexivity]. Qed.
Lemma delivered_cons l1 l2 l3 w1 w2 e es2 : delivered l1 l2 w1 [e] -> delivered l2 l3 w2 es2 -> delivered l1 l3 (w1 ++ w2) (e :: es2).
Proof.
  intros (E1 & D1 & W1) (E2 & D2 & W2). unfold delivered. cbn [run] in *.
  destruct (step C O (l_dev l1) e) as [a d1]. cbn [fst snd] in *. subst d1.
  destruct (run C O (l_dev l2) es2) as [as2 d2]. cbn [fst snd] in *.
  split; [constructor; [now inversion E1|exact E2]|]. split; [exact D2|].
  unfold on_wire in *. cbn [combine flat_map] in *. rewrite app_nil_r in W1. now rewrite W1, W2.
Qed.

Lemma loop_step_ok l i w l' : io_ok i -> steady_io i -> settled l -> loop_step C O l i = Some (w, l') ->
  settled l' /\
  (forall t, alternates (l_media l') t -> alternates (l_media l) (w ++ t)) /\
  (calm_io i -> (l_dev l = l_dev l' /\ w = []) \/ exists e, delivered l l' w [e]).
Proof.
  intros Hi St (Sr & Su) E. destruct i as [r|c tail|e|e|c tail e|]; cbn [loop_step] in E.
  - destruct r as [e|]; [destruct St|]. destruct (l_up l) eqn:U.
    + injection E as <- <-. split; [unfold settled; rewrite U; auto|]. split; [cbn [app]; auto|]. left; auto.
    + destruct Su as (Sm & Sf & Sd). unfold enter in E. cbn [l_flags l_reply l_up l_dev l_media] in E. rewrite Sf, Sr in E.
      injection E as <- <-. split.
      * unfold settled. cbn [l_reply l_up l_media l_dev]. split; [reflexivity|]. rewrite Sd. split; [discriminate|intros X; now destruct X].
      * split; [cbn [app l_media]; rewrite Sm; auto|]. left; auto.
  - cbn [io_ok] in Hi. destruct (l_up l) eqn:U; cbn [negb orb] in E.
    2:{ injection E as <- <-. split; [unfold settled; rewrite U; auto|]. split; [cbn [app]; auto|]. left; auto. }
    destruct (l_media l) eqn:M.
    { injection E as <- <-. split; [unfold settled; rewrite U, M; auto|]. split; [rewrite M; cbn [app]; auto|]. left; auto. }
    assert (Ui : d_ui (l_dev l) = None) by (destruct (d_ui (l_dev l)); [destruct Su as [_ Su]; discriminate Su; discriminate|reflexivity]).
    pose proof (step_requested C O (l_dev l) (EApdu (c ++ tail) (len c)) Hi Ui) as Rq.
    pose proof (command_answered C O (l_dev l) (c ++ tail) (len c) Ui) as An.
    destruct (step C O (l_dev l) (EApdu (c ++ tail) (len c))) as [a d] eqn:Es. cbn [fst snd] in Rq, An.
    assert (De : forall l1 w1, l_dev l1 = d -> match a with AReply out => [WOut out] | ADied => [WReset] | _ => [] end = w1 ->
      delivered l l1 (WIn c :: w1) [EApdu (c ++ tail) (len c)]).
    { intros l1 w1 Hd Hw. apply (delivered_one _ _ _ a); [exact Hi|now rewrite Hd|].
      unfold shown. cbn [fst snd]. rewrite firstn_command, <- Hw. destruct a; reflexivity. }
    destruct a as [out| | |]; cbn [enter l_flags l_reply l_up l_dev l_media] in E.
    + destruct Rq as [(X & _)|(_ & Ud)]; [discriminate|].
      destruct out as [|b out].
      { exfalso. assert (R : answer_room C (l_dev l) (EApdu (c ++ tail) (len c)) (len (c ++ tail))) by reflexivity.
        apply (answer_form C O) with (out := []) in R; [|now rewrite Es].
        destruct R as (_ & data & st & Eo & _). apply (f_equal (@length _)) in Eo. rewrite app_length, be_length in Eo.
        cbn [length] in Eo. lia. }
      injection E as <- <-. split.
      * unfold settled. cbn [l_reply l_up l_media l_dev]. split; [reflexivity|]. rewrite Ud. split; [discriminate|intros X; now destruct X].
      * split; [cbn [app alternates l_media]; auto|]. intros _. right. eexists. apply De; reflexivity.
    + destruct Rq as [(_ & v & Ud & _)|(X & _)]; [|now destruct X].
      injection E as <- <-. split.
      * unfold settled. cbn [l_reply l_up l_media l_dev]. split; [reflexivity|]. rewrite Ud. split; [discriminate|reflexivity].
      * split; [cbn [app alternates l_media]; auto|]. intros _. right. eexists. apply De; reflexivity.
    + destruct Rq as [(X & _)|(_ & Ud)]; [discriminate|].
      injection E as <- <-. split.
      * unfold settled, boot. cbn [l_reply l_up l_media l_dev l_flags]. auto.
      * split; [cbn [app alternates l_media boot]; auto|]. intros _. right. eexists. apply De; reflexivity.
    + now destruct An.
  - cbn [io_ok] in Hi. destruct (l_up l) eqn:U; cbn [negb] in E.
    2:{ injection E as <- <-. split; [unfold settled; rewrite U; auto|]. split; [cbn [app]; auto|]. left; auto. }
    assert (Ho : event_ok e) by (destruct Hi as [->|[->| ->]]; exact Logic.I).
    assert (Na : ~ is_apdu e) by (destruct Hi as [->|[->| ->]]; cbn [is_apdu]; tauto).
    assert (Ns : forall a, shown (e, a) = match a with AReply out => [WOut out] | ADied => [WReset] | _ => [] end).
    { intros a. unfold shown. destruct Hi as [->|[->| ->]]; reflexivity. }
    destruct (d_ui (l_dev l)) as [v|] eqn:Ui.
    + assert (M : l_media l = true) by (apply Su; discriminate).
      destruct (pending_step C O (l_dev l) e) as [(X & _)|(_ & Ud)]; [rewrite Ui; discriminate|contradiction|].
      destruct (step C O (l_dev l) e) as [a d] eqn:Es. cbn [snd] in Ud.
      assert (An : a <> ANone /\ a <> APending).
      { destruct Hi as [->|[->| ->]]; cbn [step] in Es; unfold decide in Es; rewrite Ui in Es;
          match type of Es with context [bind ?x ?y ?z] => unfold bind in Es; destruct (x z) as [[[]| | |] ?] end;
          cbn [finish ret] in Es; try (destruct (_ <? _)); apply pair_equal_spec in Es as [<- _]; split; discriminate. }
      destruct a as [out| | |]; try (now destruct An).
      * injection E as <- <-. split.
        { unfold settled. cbn [l_reply l_up l_media l_dev]. split; [exact Sr|]. rewrite Ud. split; [discriminate|intros X; now destruct X]. }
        split; [cbn [app alternates l_media]; auto|]. intros _. right. exists e.
        apply (delivered_one _ _ _ (AReply out)); [exact Ho|exact Es|now rewrite Ns].
      * injection E as <- <-. split.
        { unfold settled, boot. cbn [l_reply l_up l_media l_dev l_flags]. auto. }
        split; [cbn [app alternates l_media boot]; auto|]. intros _. right. exists e.
        apply (delivered_one _ _ _ ADied); [exact Ho|exact Es|now rewrite Ns].
    + assert (Es : step C O (l_dev l) e = (ANone, l_dev l)).
      { destruct Hi as [->|[->| ->]]; cbn [step]; unfold decide; now rewrite Ui. }
      rewrite Es in E. injection E as <- <-. split.
      { unfold settled. cbn [l_reply l_up l_media l_dev]. rewrite Ui. auto. }
      split; [cbn [app l_media]; auto|]. intros _. left; auto.
  - destruct St.
  - destruct (l_up l) eqn:U; cbn [negb orb] in E.
    2:{ injection E as <- <-. split; [unfold settled; rewrite U; auto|]. split; [cbn [app]; auto|]. intros [_ []]. }
    destruct (l_media l) eqn:M.
    { injection E as <- <-. split; [unfold settled; rewrite U, M; auto|]. split; [rewrite M; cbn [app]; auto|]. intros [_ []]. }
    cbn [enter l_flags l_reply l_up l_dev l_media exception_reply] in E. injection E as <- <-. split.
    + unfold settled. cbn [l_reply l_up l_media l_dev]. split; [reflexivity|exact Su].
    + split; [cbn [app alternates l_media]; auto|]. intros [_ []].
  - injection E as <- <-. split.
    + unfold settled, boot. cbn [l_reply l_up l_media l_dev l_flags step snd]. destruct (l_dev l); auto.
    + split; [cbn [app alternates l_media boot]; auto|]. intros _. right. exists EPower.
      apply (delivered_one _ _ _ ADied); [exact Logic.I|reflexivity|reflexivity].
Qed.

Lemma loop_run_ok is : forall l w l', Forall io_ok is -> Forall steady_io is -> settled l -> loop_run C O l is = Some (w, l') ->
  settled l' /\ alternates (l_media l) w /\ (Forall calm_io is -> exists es, delivered l l' w es).
Proof.
  induction is as [|i is IH]; intros l w l' Hi St S E; cbn [loop_run] in E.
  - injection E as <- <-. split; [exact S|]. split; [exact Logic.I|]. intros _. exists []. now apply delivered_none.
  - destruct (loop_step C O l i) as [[w1 l1]|] eqn:E1; [|discriminate].
    destruct (loop_run C O l1 is) as [[w2 l2]|] eqn:E2; [|discriminate].
    apply Some_eq in E. apply pair_equal_spec in E as [<- <-].
    inversion Hi as [|? ? Hi1 Hi2]; subst. inversion St as [|? ? St1 St2]; subst.
    destruct (loop_step_ok l i w1 l1 Hi1 St1 S E1) as (S1 & A1 & D1).
    destruct (IH l1 w2 l2 Hi2 St2 S1 E2) as (S2 & A2 & D2).
    split; [exact S2|]. split; [now apply A1|]. intros Ca. inversion Ca as [|? ? Ca1 Ca2]; subst.
    destruct (D2 Ca2) as (es & De). destruct (D1 Ca1) as [(Ed & ->)|(e & D)].
    + exists es. destruct De as (Q1 & Q2 & Q3). unfold delivered. rewrite Ed. auto.
    + exists (e :: es). now apply (delivered_cons l l1 l2).
Qed.

(** Without exceptions in the initialisation nothing is overwritten. *)
Lemma loop_defined is : forall l, Forall steady_io is -> loop_run C O l is <> None.
Proof.
  induction is as [|i is IH]; intros l St; cbn [loop_run]; [discriminate|].
  inversion St as [|? ? St1 St2]; subst.
  assert (E : exists x, loop_step C O l i = Some x).
  { destruct i as [[e|]|c tail|e|e|c tail e|]; cbn [loop_step]; try (destruct St1; fail);
      repeat match goal with |- context [if ?b then _ else _] => destruct b end; try (eexists; reflexivity).
    - destruct (step C O (l_dev l) _) as [[out| | |] d]; try (eexists; reflexivity).
    - destruct (step C O (l_dev l) _) as [[out| | |] d]; eexists; reflexivity. }
  destruct E as [[w1 l1] ->]. specialize (IH l1 St2). destruct (loop_run C O l1 is) as [[w2 l2]|]; [discriminate|contradiction].
Qed.
Lemma settled_boot d : d_ui d = None -> settled (boot d).
Proof. unfold settled, boot. cbn [l_reply l_up l_media l_dev l_flags]. auto. Qed.
End Loop.
