(** Reviews that read the upload buffer: with buttons, and what happens without the gate. *)
From Coq Require Import NArith ZArith Bool Arith String List Lia.
From Verif Require Import Base BaseFacts Flash Oracles Address AddressExamples HashDemo Codecs Upload UploadSpec UploadExamples
  Operations OperationsSpec OperationsExamples Text TextExamples Bakers BakersSpec Device DeviceSpec DeviceDemo
  Screens ScreensSpec ScreensExamples Zui UiSpec UiDevice UiFacts UiRun UiCases UiExamples Borrow BorrowSpec BorrowFacts.
Import ListNotations.
Open Scope list_scope.
Open Scope N_scope.

(** With a user at the buttons. *)
Lemma screens_read_upload C O hw f u : oracles_ok O -> Forall up_fault_ok u -> forall is, Forall input_ok is ->
  let s := snd (ui_run C O known hw (ui_fresh hw f u) is) in
  let x := snd (brun C O true (b_fresh f u) (events_of C O known hw (ui_fresh hw f u) is)) in
  bd_dev x = u_dev s /\ visible x = d_ui (u_dev s) /\
  forall v data dg, d_ui (u_dev s) = Some v -> review_data v = Some (data, dg) ->
  exists p, bd_place x = Some p /\ place_inside p /\ place_read (u_buf (d_up (u_dev s))) p = data /\
    o_blake2b O 32 data = Some dg.
Proof.
  intros K Uok is Hi s x. destruct (reach C O hw f u K Uok is Hi) as (_ & _ & R). fold s in R.
  assert (He : Forall event_ok (events_of C O known hw (ui_fresh hw f u) is)) by now apply events_ok.
  destruct (review_reads_upload C O f u _ He) as (_ & E1 & E2). rewrite R in E1, E2. cbn [snd] in E1, E2.
  split; [exact E1|]. split; [exact E2|]. intros v data dg V Rd.
  destruct (bytes_in_place C O f u _ v data dg He) as (p & P1 & P2 & P3 & P4 & _).
  { rewrite R. exact V. } { exact Rd. }
  rewrite R in P3, P4. cbn [snd] in P3, P4. exists p. split; [exact P1|]. split; [exact P2|]. split; [exact P3|].
  rewrite P3 in P4. exact P4.
Qed.

(** A transfer of some amount. *)
Definition pay (n : N) : list tz_op := [TTransfer demo_man n (TzImplicit demo_pkh2) None].
Definition large_pay : list tz_op := pay 200000000.
Definition little_pay : list tz_op := pay 3000000.
Definition asked : list event := sign_batch large_pay.
(** The first packet of another upload, whose bytes fall on those of the review. *)
Definition meanwhile : event := send 0x04 0 0 (path_serialize demo_path ++ message_of little_pay).

Lemma asked_ok : Forall event_ok (asked ++ [meanwhile; EApprove]).
Proof. apply events_okb_ok. vm_compute. reflexivity. Qed.

Definition showsb (v : option viewable) (branch ops : bytes) : bool :=
  match v with
  | Some (VSign _ _ (Some (br, e)) _) => bytes_eqb br branch && bytes_eqb (eo_source e) ops && Nat.eqb (eo_read e) 0
  | _ => false
  end.
Lemma showsb_ok v branch ops : showsb v branch ops = true -> shows_operations v branch ops.
Proof.
  unfold showsb. destruct v as [[sh dg [[br e]|] dt| | | | | |]|]; try discriminate.
  rewrite !andb_true_iff, !bytes_eqb_eq, Nat.eqb_eq. intros [[-> <-] E]. exists sh, dg, e, dt. auto.
Qed.

Lemma ungated_review :
  let after gate es := snd (brun wallet_config demo_oracles gate (b_fresh [] []) es) in
  fst (brun wallet_config demo_oracles false (b_fresh [] []) (asked ++ [meanwhile])) =
    [AReply [0x90; 0]; APending; AReply [0x90; 0]] /\
  shows_operations (visible (after false asked)) demo_branch (flat_map enc_op large_pay) /\
  shows_operations (visible (after false (asked ++ [meanwhile]))) demo_branch (flat_map enc_op little_pay) /\
  map sg_data (d_log (bd_dev (after false (asked ++ [meanwhile; EApprove])))) = [message_of large_pay].
Proof.
  cbv zeta. split; [vm_compute; reflexivity|]. split; [apply showsb_ok; vm_compute; reflexivity|].
  split; [apply showsb_ok; vm_compute; reflexivity|]. vm_compute. reflexivity.
Qed.

Lemma gated_review :
  let after es := snd (brun wallet_config demo_oracles true (b_fresh [] []) es) in
  shows_operations (visible (after (asked ++ [meanwhile]))) demo_branch (flat_map enc_op large_pay) /\
  bd_place (after (asked ++ [meanwhile])) = Some (mkPlace false 14 90).
Proof. cbv zeta. split; [apply showsb_ok|]; vm_compute; reflexivity. Qed.

(** A batch too long for RAM: it is in flash. *)
Definition many_pays : list tz_op := large_pay ++ large_pay ++ large_pay ++ large_pay ++ large_pay.
Lemma flash_review :
  Forall event_ok (sign_batch many_pays) /\
  let x := snd (brun wallet_config demo_oracles true (b_fresh [] []) (sign_batch many_pays)) in
  bd_place x = Some (mkPlace true 14 (List.length (message_of many_pays))) /\
  shows_operations (visible x) demo_branch (flat_map enc_op many_pays).
Proof.
  split; [apply events_okb_ok; vm_compute; reflexivity|].
  cbv zeta. split; [vm_compute; reflexivity|]. apply showsb_ok. vm_compute. reflexivity.
Qed.

(** The same in the baking app. *)
Definition baker_asked : list event := authorise ++ send_long 0x04 (message_of [demo_delegation]).
Lemma baker_review :
  Forall event_ok baker_asked /\
  let x := snd (brun demo_config demo_oracles true (b_fresh [] []) baker_asked) in
  bd_place x = Some (mkPlace false 14 (List.length (message_of [demo_delegation]))) /\
  match visible x with
  | Some (VBakingSign _ _ branch (ODelegation _ (Some (_, pkh))) data) =>
    branch = demo_branch /\ pkh = everstake_hash /\ data = message_of [demo_delegation]
  | _ => False
  end.
Proof.
  split; [apply events_okb_ok; vm_compute; reflexivity|].
  cbv zeta. split; [vm_compute; reflexivity|]. vm_compute. auto.
Qed.
Lemma approved_review : map sg_data (d_log (snd (run wallet_config demo_oracles (dev_fresh [] []) (asked ++ [EApprove])))) = [message_of large_pay].
Proof. vm_compute. reflexivity. Qed.

(** On the Nano S, three screens on. *)
Definition scrolled : list input := small_inputs ++ presses Right 3.
Lemma hand_review : oracles_ok demo_oracles /\ Forall input_ok scrolled /\
  let x := snd (brun wallet_config demo_oracles true (b_fresh [] []) (events_of wallet_config demo_oracles known NanoS (ui_fresh NanoS [] []) scrolled)) in
  shows_operations (visible x) demo_branch (flat_map enc_op small_batch) /\
  bd_place x = Some (mkPlace false 14 141).
Proof.
  split; [exact demo_oracles_ok|]. split; [apply inputs_okb_ok; vm_compute; reflexivity|].
  cbv zeta. split; [apply showsb_ok|]; vm_compute; reflexivity.
Qed.
