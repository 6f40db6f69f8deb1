(** The signatures the library returns with the device in a user's hands. *)
From Coq Require Import NArith ZArith Bool Arith String List Lia.
From Coq Require Import ZifyBool ZifyNat ZifyN.
From Verif Require Import Base BaseFacts Flash Codecs CodecsSpec CodecsFacts Oracles Upload UploadSpec
  Text TextSpec TextExamples Bakers Device DeviceSpec DeviceFacts DeviceReviews DeviceSigs DeviceKeys Screens ScreensSpec
  Zui UiSpec UiDevice UiFacts UiRun UiCases Client ClientSpec ClientText ClientFacts ClientSign Desk DeskSpec DeskFacts DeskSim
  AcceptedSpec Baking BakingSpec ReturnedSpec ReturnedFacts ReturnedSession.
Import ListNotations.
Open Scope list_scope.
Open Scope N_scope.

Section Hand.
  Variables (C : config) (O : oracles) (hw : hardware) (f u : list fault).
  Hypotheses (room : leaves_room C 134) (K : oracles_ok O) (Uok : Forall up_fault_ok u) (Wh : Forall whole_fault u).
  Variable H : host.
  Hypothesis Ho : host_ok H O.
  Notation fresh := (ui_fresh hw f u).
  Notation at_ is := (snd (ui_run C O known hw fresh is)).
  Notation desk_held := (held C O known hw).

  Lemma decisions_ok hs es : Forall2 stands_for hs es -> Forall (fun h : bytes * list button => apdu_ok (fst h)) hs ->
    Forall (fun x : bytes * event => apdu_ok (fst x) /\ event_ok (snd x)) es /\ len es = len hs.
  Proof.
    induction 1 as [|h e hs es (E1 & E2 & _) _ IH]; intros Hh; [split; [constructor|reflexivity]|].
    inversion Hh as [|? ? Hh1 Hh2]; subst. destruct (IH Hh2) as [Q L]. split.
    - constructor; [|exact Q]. rewrite E1. now split.
    - rewrite !len_cons. lia.
  Qed.

  (** A signing call in hand is one whose user decides. *)
  Lemma asked_in_hand text c call data is hs : asks_for H desk_held text c call data -> bytes_ok (tl data) ->
    Forall input_ok is -> Forall (fun h => apdu_ok (fst h)) hs ->
    exists call' r l hs2 es, asks_for H (plugged C O) text c call' data /\ Forall input_ok (is ++ l) /\
      Forall (fun x : bytes * event => apdu_ok (fst x) /\ event_ok (snd x)) es /\ len es <= len hs /\
      call (at_ is, hs) = (r, (at_ (is ++ l), hs2)) /\
      call' (u_dev (at_ is), es) = (r, (u_dev (at_ (is ++ l)), [])).
  Proof.
    intros Hc Hd Hi Hh.
    assert (Q : forall A (lc : call_of A), library_call H A lc -> exists r l hs2 es, Forall input_ok (is ++ l) /\
      Forall (fun x : bytes * event => apdu_ok (fst x) /\ event_ok (snd x)) es /\ len es <= len hs /\
      lc desk desk_held (at_ is, hs) = (r, (at_ (is ++ l), hs2)) /\
      lc connection (plugged C O) (u_dev (at_ is), es) = (r, (u_dev (at_ (is ++ l)), []))).
    { intros A lc Lc. destruct (hands_decide C O hw f u K Uok H is hs A lc Lc Hi Hh) as (r & ls & hs1 & hs2 & es & -> & S2 & _ & S4 & S5 & S6).
      cbv zeta in *. apply Forall_app in Hh as [Hh _]. destruct (decisions_ok hs1 es S2 Hh) as [E1 E2].
      exists r, (concat ls), hs2, es. split; [exact S4|]. split; [exact E1|]. split; [rewrite len_app; lia|]. now split. }
    destruct Hc as [m|m|m kind magic Hm|m kind]; cbn [tl] in Hd.
    - destruct (Q _ _ (LcSignOperation H text c m Hd)) as (r & l & hs2 & es & X1 & X2 & X3 & X4 & X5).
      exists (sign_operation H (plugged C O) text c m), r, l, hs2, es. split; [constructor|]. repeat (split; [assumption|]). exact X5.
    - destruct (Q _ _ (LcSignMichelson H text c m Hd)) as (r & l & hs2 & es & X1 & X2 & X3 & X4 & X5).
      exists (sign_michelson H (plugged C O) text c m), r, l, hs2, es. split; [constructor|]. repeat (split; [assumption|]). exact X5.
    - destruct (Q _ _ (LcSignBaker H text c m kind Hd)) as (r & l & hs2 & es & X1 & X2 & X3 & X4 & X5).
      eexists _, (match r with JData _ r => r | _ => mkSignRes OTHER_ERROR None None end), l, hs2, es. split; [exact (AskBaker _ _ _ _ m kind magic Hm)|].
      repeat (split; [assumption|]). rewrite X4, X5. split; destruct r; reflexivity.
    - destruct (Q _ _ (LcLegacySignWithHash H text c m kind Hd)) as (r & l & hs2 & es & X1 & X2 & X3 & X4 & X5).
      exists (legacy_sign_with_hash H (plugged C O) text c m kind), r, l, hs2, es. split; [constructor|]. repeat (split; [assumption|]). exact X5.
  Qed.

  (** In final form. *)
  Lemma returned_in_hand is text c pa call data hs : Forall input_ok is ->
    asks_for H desk_held text c call data -> path_text text pa -> bytes_ok (tl data) ->
    Forall (fun h => apdu_ok (fst h)) hs ->
    let x := call (at_ is, hs) in
    faithful O (c, pa) data (d_log (u_dev (at_ is))) (d_log (u_dev (fst (snd x)))) (fst x).
  Proof.
    intros Hi Hc Hp Hd Hh. destruct (asked_in_hand text c call data is hs Hc Hd Hi Hh) as (call' & r & l & hs2 & es & C1 & C2 & C3 & _ & C4 & C5).
    cbv zeta. rewrite C4. cbn [fst snd].
    destruct (reach C O hw f u K Uok is Hi) as (_ & _ & R).
    pose proof (returned_faithful C O room K H Ho f u (events_of C O known hw fresh is) text c pa call' data es
      (events_ok C O known hw fresh is Hi) Wh C1 Hp Hd) as Q.
    cbv zeta in Q. rewrite R in Q. cbn [snd] in Q. rewrite C5 in Q. cbn [fst snd] in Q. apply Q.
    apply Forall_forall. intros x Hx. rewrite Forall_forall in C3. exact (proj1 (C3 x Hx)).
  Qed.

  Lemma session_run d0 d l n es : session C O H d0 d l n -> Forall event_ok es -> len es <= 1 ->
    (forall e, In e es -> ~ resets C d e) -> exists n', n' <= n + 1 /\ session C O H d0 (snd (run C O d es)) l n'.
  Proof.
    intros S0 He L Hr. destruct es as [|e [|e' es]].
    - exists n. split; [lia|]. exact S0.
    - exists (n + 1). split; [lia|]. inversion He; subst. cbn [run]. destruct (step C O d e) as [a d'] eqn:E. cbn [snd].
      replace d' with (snd (step C O d e)) by now rewrite E. apply SessionEvent; [exact S0|assumption|]. apply Hr. now left.
    - rewrite !len_cons in L. lia.
  Qed.

  Lemma hand_session_is is0 s l n : Forall input_ok is0 -> hand_session C O H known hw (at_ is0) s l n ->
    exists is n', Forall input_ok (is0 ++ is) /\ s = at_ (is0 ++ is) /\ n' <= n /\
    session C O H (u_dev (at_ is0)) (u_dev s) l n'.
  Proof.
    intros H0. induction 1 as [|s l n i _ (is & n' & I1 & -> & I2 & I3) Hi Hr|s l n text c p call data hs _ (is & n' & I1 & -> & I2 & I3) Hc Hp Hd Hh].
    - exists [], 0. rewrite app_nil_r. split; [exact H0|]. split; [reflexivity|]. split; [lia|]. constructor.
    - assert (A : Forall input_ok ((is0 ++ is) ++ [i])) by (apply Forall_app; split; [exact I1|constructor; [exact Hi|constructor]]).
      assert (E : snd (ui_step C O known hw (at_ (is0 ++ is)) i) = at_ ((is0 ++ is) ++ [i])) by (rewrite (ui_run_app C O known hw fresh (is0 ++ is) [i]), ui_run_one; reflexivity).
      assert (R : u_dev (at_ ((is0 ++ is) ++ [i])) = snd (run C O (u_dev (at_ (is0 ++ is))) (events_of_input O known hw (at_ (is0 ++ is)) i))).
      { destruct (reach C O hw f u K Uok (is0 ++ is) I1) as (_ & _ & R1). destruct (reach C O hw f u K Uok _ A) as (_ & _ & R2).
        rewrite (events_of_app C O known hw fresh (is0 ++ is) [i]), run_pair, R1 in R2. cbn [fst snd events_of] in R2. rewrite app_nil_r in R2.
        apply (f_equal snd) in R2. cbn [snd] in R2. symmetry. exact R2. }
      destruct (session_run _ _ _ _ (events_of_input O known hw (at_ (is0 ++ is)) i) I3) as (n2 & N2 & S2).
      + pose proof (events_ok C O known hw (at_ (is0 ++ is)) [i] (Forall_cons i Hi (Forall_nil _))) as Q.
        cbn [events_of] in Q. rewrite app_nil_r in Q. exact Q.
      + destruct i as [buf rx|b|]; cbn [events_of_input]; [cbn; lia| |cbn; lia].
        destruct (snd (press _ _ _ _)); cbn; lia.
      + exact Hr.
      + exists (is ++ [i]), n2. rewrite app_assoc, E, R. split; [exact A|]. split; [reflexivity|]. split; [lia|exact S2].
    - destruct (asked_in_hand text c call data (is0 ++ is) hs Hc Hd I1 Hh) as (call' & r & l' & hs2 & es & C1 & C2 & C3 & C3' & C4 & C5).
      rewrite C4. cbn [fst snd]. exists (is ++ l'), (n' + 2 * len es). rewrite app_assoc. split; [exact C2|]. split; [reflexivity|]. split; [lia|].
      pose proof (SessionCall C O H (u_dev (at_ is0)) _ _ _ text c p call' data es I3 C1 Hp Hd C3) as Q. rewrite C5 in Q. cbn [fst snd] in Q. exact Q.
  Qed.

  Lemma events_len s is : len (events_of C O known hw s is) <= len is.
  Proof.
    revert s. induction is as [|i is IH]; intros s; cbn [events_of]; [reflexivity|]. rewrite len_app, len_cons.
    assert (Q : len (events_of_input O known hw s i) <= 1).
    { destruct i as [buf rx|b|]; cbn [events_of_input]; [cbn; lia| |cbn; lia]. destruct (snd (press _ _ _ _)); cbn; lia. }
    specialize (IH (snd (ui_step C O known hw s i))). lia.
  Qed.

  (** In final form. *)
  Lemma hand_in_order is s rs n : Forall input_ok is -> Forall slot_fault_ok f ->
    len is + n < 2 ^ 64 -> hand_session C O H known hw (at_ is) s rs n ->
    forall (i j : nat) a b p q, (i < j)%nat -> nth_error rs i = Some a -> nth_error rs j = Some b ->
    signed_pos a = Some p -> signed_pos b = Some q -> cpos_lt p q.
  Proof.
    intros Hi Ff Hn Hs. destruct (hand_session_is is s rs n Hi Hs) as (is' & n' & I1 & -> & I2 & I3).
    destruct (reach C O hw f u K Uok is Hi) as (_ & _ & R).
    pose proof (session_in_order C O H Ho room K f u (events_of C O known hw fresh is) (u_dev (at_ (is ++ is'))) rs n'
      (events_ok C O known hw fresh is Hi) Ff Uok Wh) as Q.
    rewrite R in Q. cbn [snd] in Q. apply Q; [|exact I3]. pose proof (events_len fresh is). lia.
  Qed.
End Hand.
