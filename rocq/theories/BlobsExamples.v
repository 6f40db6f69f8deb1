(** The statements about the emulator tests in their final form, and cases. *)
From Coq Require Import NArith ZArith Bool Arith List Lia ZifyBool ZifyNat ZifyN.
From Verif Require Import Base BaseFacts Flash Codecs CodecsSpec Upload UploadSpec Baking BakingSpec Operations Oracles
  Address AddressExamples HashDemo Device DeviceSpec DeviceDemo ServiceSpec IdealSpec Client ClientSpec ClientText ClientExamples
  Blobs BlobsSpec BlobsFacts BlobsSession.
Import ListNotations.
Open Scope list_scope.
Open Scope N_scope.

(** ** Final forms *)

Lemma messages_made c : fits c -> exists m magic, blob c = Some m /\ baker_magic (blob_kind c) m = Some magic /\
  bytes_ok (magic :: m) /\ consensus_in (magic :: m) = Position (built c) /\ signed_pos (magic :: m) = Some (built c) /\
  (built c = stated c <-> ~ round_zero c).
Proof.
  intros F. destruct (blob_message c F) as (m & magic & E1 & E2 & E3 & _ & E4). exists m, magic.
  split; [exact E1|]. split; [exact E2|]. split; [exact E3|]. split; [exact E4|]. split; [exact (position_signed _ _ E4)|].
  exact (built_stated c F).
Qed.

Lemma block_position x d l r : consensus_in (x :: d) = Position (PTB l r KBlock) -> x = 0x11 /\ nth 90 d 0 = 2.
Proof.
  unfold consensus_in. cbv zeta. change (nth 0 (x :: d) 0) with x. change (nth 91 (x :: d) 0) with (nth 90 d 0).
  intros P.
  repeat match type of P with (if ?b then _ else _) = _ => destruct b eqn:? end; try discriminate P. lia.
Qed.
Lemma no_round_zero chain level round m x l : get_blocklevel_info chain level round = Some m ->
  consensus_in (x :: m) <> Position (PTB l 0 KBlock).
Proof.
  intros E P. destruct (block_position _ _ _ _ P) as [-> V].
  assert (F : fits (CallBlock chain level round)) by exact (blob_in_range (CallBlock chain level round) m Logic.I E).
  destruct (blob_message _ F) as (m' & magic & E1 & E2 & _ & _ & E4). cbn [blob blob_kind] in E1, E2. rewrite E in E1. injection E1 as <-.
  assert (Mg : magic = 0x11).
  { unfold baker_magic in E2. change (4 + 4 + 1 + 32 + 8 + 1 + 32 + 4 + 4)%nat with 90%nat in E2.
    destruct (nth_error m 90) as [v|] eqn:Ev; [|discriminate E2]. rewrite (nth_error_nth _ _ _ Ev) in V. subst v.
    cbn [N.eqb Pos.eqb orb] in E2. now injection E2 as <-. }
  subst magic. rewrite P in E4. injection E4 as E4. destruct round as [[|p|p]|]; cbn [built stated] in E4; try discriminate E4.
  cbn [fits] in F. unfold word in F. lia.
Qed.
Lemma round_zero_lost : (forall chain level, get_blocklevel_info chain level (Some 0%Z) = get_blocklevel_info chain level None) /\
  forall chain level round m x l, get_blocklevel_info chain level round = Some m ->
    consensus_in (x :: m) <> Position (PTB l 0 KBlock).
Proof. split; [reflexivity|exact no_round_zero]. Qed.

Lemma verdicts_same w ps : verdicts_by accepts w ps = verdicts w ps.
Proof. revert w. induction ps as [|p ps IH]; intros w; [reflexivity|]. cbn [verdicts_by verdicts]. now rewrite IH. Qed.
Lemma rounds_untested rule : ignores_rounds rule -> forall t, In t (EMMY_TESTS ++ TENDERBAKE_TESTS) ->
  map snd t = verdicts_by rule (PEmmy 0 false) (map built (map fst t)).
Proof.
  intros R t Ht.
  assert (E1 : forall l e p, rule (PEmmy l e) p = accepts (PEmmy l e) p) by (intros; apply R; destruct p; exact Logic.I).
  assert (E2 : forall l r k l' k', rule (PTB l r k) (PTB l' r k') = accepts (PTB l r k) (PTB l' r k')) by (intros; apply R; reflexivity).
  cbn [EMMY_TESTS TENDERBAKE_TESTS app In] in Ht.
  destruct Ht as [<-|[<-|[<-|[<-|[<-|[<-|[]]]]]]];
    cbn [map fst snd built stated verdicts_by Z.to_N];
    repeat (first [rewrite E1|rewrite E2];
      match goal with |- context [accepts ?a ?b] => let v := eval vm_compute in (accepts a b) in change (accepts a b) with v end; cbv iota);
    reflexivity.
Qed.
Lemma tests_expected t : In t (EMMY_TESTS ++ TENDERBAKE_TESTS) -> Forall fits (map fst t) /\
  map snd t = verdicts (PEmmy 0 false) (map built (map fst t)).
Proof.
  intros Ht. split.
  - assert (Z : bytes_ok (repeat 0 32)) by (apply Forall_forall; intros x Hx; apply repeat_spec in Hx; subst x; reflexivity).
    cbn [EMMY_TESTS TENDERBAKE_TESTS app In] in Ht. destruct Ht as [<-|[<-|[<-|[<-|[<-|[<-|[]]]]]]]; cbn [map fst];
      repeat (constructor; [cbn [fits]; unfold word; repeat split; (exact Z || lia)|]); constructor.
  - rewrite <- verdicts_same. apply rounds_untested; [|exact Ht]. intros w p _. reflexivity.
Qed.
Lemma suite_passes C O H es text (k : key) pk t sched : host_ok H O -> oracles_ok O -> roomy C 110 -> cf_baking C = true ->
  Forall event_ok es -> len es + 13 < 2 ^ 64 ->
  let d := snd (run C O (dev_fresh [] []) es) in d_ui d = None ->
  path_text text (snd k) -> length (snd k) = 2%nat \/ length (snd k) = 4%nat -> addressable O k pk -> signs_all O k ->
  In t (EMMY_TESTS ++ TENDERBAKE_TESTS) -> length sched = (2 + 2 * length t)%nat -> deciding EApprove sched ->
  fst (baking_test H (plugged C O) text (fst k) t (d, sched)) = true.
Proof.
  intros HK OK Rm Cb E L d Ud T Lp A Sa Ht Ls Du. destruct (tests_expected t Ht) as [F V].
  assert (Lt : len t <= 5) by (cbn [EMMY_TESTS TENDERBAKE_TESTS app In] in Ht; destruct Ht as [<-|[<-|[<-|[<-|[<-|[<-|[]]]]]]]; cbv; discriminate).
  apply (proj1 (test_held C O H HK OK Rm Cb es text k pk t sched E ltac:(lia) Ud T Lp A Sa F Ls Du)). exact V.
Qed.

(** ** Cases *)

Lemma demo_signs_all k : signs_all demo_oracles k.
Proof.
  intros l _. exists (blake2b 32 l), (sha256 (demo_pubkey (fst k) (snd k) ++ blake2b 32 l) ++ sha256 (blake2b 32 l)).
  split; reflexivity.
Qed.
Lemma suite_case n c : host_ok demo_host demo_oracles /\ oracles_ok demo_oracles /\ roomy demo_config 110 /\
  cf_baking demo_config = true /\ Forall event_ok [] /\ d_ui (snd (run demo_config demo_oracles (dev_fresh [] []) [])) = None /\
  path_text client_text (snd (client_key c)) /\ length (snd (client_key c)) = 4%nat /\
  addressable demo_oracles (client_key c) (demo_pubkey c client_path) /\ signs_all demo_oracles (client_key c) /\
  deciding EApprove (turns n EApprove) /\ length (turns n EApprove) = n.
Proof.
  split; [exact demo_host_ok|]. split; [exact demo_oracles_ok|]. split; [exact (demo_roomy true)|]. split; [reflexivity|].
  split; [constructor|]. split; [reflexivity|]. split; [exact client_text_ok|]. split; [reflexivity|].
  split; [exact (client_addressable c)|]. split; [exact (demo_signs_all _)|]. split; [exact (turns_deciding n EApprove)|].
  apply repeat_length.
Qed.

(** The last test signs one block of Emmy and three messages of Tenderbake; a block of the
    same level and a lower round after a block of round 1 is refused, which no test asks. *)
Definition last_test : list (blob_call * bool) := nth 2 TENDERBAKE_TESTS [].
Lemma last_test_positions : accepted (PEmmy 0 false) (map built (map fst last_test)) =
    [PEmmy 5 false; PTB 5 1 KBlock; PTB 5 1 KPre; PTB 5 1 KEnd] /\
  map stated (map fst last_test) = [PTB 5 0 KBlock; PTB 5 0 KBlock; PTB 5 1 KBlock; PTB 5 1 KPre; PTB 5 1 KEnd] /\
  verdicts (PEmmy 0 false) [PTB 5 1 KBlock; PTB 5 0 KBlock; PTB 5 2 KBlock] = [true; false; true].
Proof. split; [reflexivity|]. split; reflexivity. Qed.

(** A rule that does not look at rounds, and one that has them the wrong way around. *)
Definition without_rounds (w p : cpos) : bool :=
  match w, p with PTB l r k, PTB l' r' k' => accepts (PTB l r k) (PTB l' r k') | _, _ => accepts w p end.
Definition lower_rounds (w p : cpos) : bool :=
  match w, p with PTB l r k, PTB l' r' k' => accepts (PTB l r' k) (PTB l' r k') | _, _ => accepts w p end.
Lemma wrong_rules : ignores_rounds without_rounds /\ ignores_rounds lower_rounds /\
  without_rounds (PTB 5 1 KBlock) (PTB 5 0 KPre) = true /\ lower_rounds (PTB 5 1 KBlock) (PTB 5 0 KBlock) = true /\
  accepts (PTB 5 1 KBlock) (PTB 5 0 KPre) = false /\ accepts (PTB 5 1 KBlock) (PTB 5 0 KBlock) = false.
Proof.
  split; [intros [l e|l r k] [l' e'|l' r' k']; cbn [without_rounds]; intros <- || intros _; reflexivity|].
  split; [intros [l e|l r k] [l' e'|l' r' k']; cbn [lower_rounds]; intros <- || intros _; reflexivity|].
  repeat split.
Qed.
Lemma messages_case : fits (CallBlock 0 5 (Some 1%Z)) /\ fits (CallBlock 0 5 (Some 0%Z)) /\ round_zero (CallBlock 0 5 (Some 0%Z)) /\
  ~ fits (CallBlock 0 (-1) None) /\ ~ fits (CallEndo 0 NO_BRANCH 5 TEndorsement None) /\
  blob (CallEndo 0 NO_BRANCH 5 TEndorsement None) = None.
Proof.
  split; [cbn [fits]; unfold word; lia|]. split; [cbn [fits]; unfold word; lia|]. split; [exact Logic.I|].
  split; [cbn [fits]; unfold word; lia|]. split; [cbn [fits]; tauto|]. reflexivity.
Qed.

(** An exception is a failed test. *)
Definition branch_given (c : blob_call) : Prop :=
  match c with CallEndo _ branch _ _ _ => length branch = 32%nat /\ bytes_ok branch | _ => True end.
Lemma steps_throw {W} H (X : transport W) path c : forall l w,
  Exists (fun s => branch_given (fst s) /\ ~ fits (fst s)) l -> fst (test_steps H X path c l w) = false.
Proof.
  induction l as [|[call expected] l IH]; intros w E; [inversion E|]. cbn [test_steps].
  destruct (blob call) as [m|] eqn:B; [|reflexivity].
  assert (E' : Exists (fun s => branch_given (fst s) /\ ~ fits (fst s)) l).
  { inversion E as [? ? [G F]|]; subst; [|assumption]. exfalso. apply (blob_throws call G) in F. congruence. }
  destruct (sign_baker H X path c m (blob_kind call) w) as [res w']. destruct res; try reflexivity.
  destruct (Bool.eqb _ _); [now apply IH|reflexivity].
Qed.
Lemma test_throws {W} H (X : transport W) path c l w :
  Exists (fun s => branch_given (fst s) /\ ~ fits (fst s)) l -> fst (baking_test H X path c l w) = false.
Proof.
  intros E. unfold baking_test. destruct (legacy_reset X 0 w) as [? w1].
  destruct (authorize_baking H X path c w1) as [res w2]. destruct res; try reflexivity.
  destruct (_ =? NO_ERRORS); [now apply steps_throw|reflexivity].
Qed.
Definition throwing_test : list (blob_call * bool) := [(CallBlock 0 5 None, true); (CallBlock 0 (-1) None, false)].
Lemma throwing_case : Exists (fun s => branch_given (fst s) /\ ~ fits (fst s)) throwing_test.
Proof. apply Exists_cons_tl, Exists_cons_hd. split; [exact Logic.I|apply messages_case]. Qed.
