(** Property theorems C89: reviews read the upload buffer. *)
From Coq Require Import NArith ZArith Bool Arith String List.
From Verif Require Import Base Flash Oracles Address AddressExamples HashDemo Codecs Upload UploadSpec
  Operations OperationsSpec OperationsExamples Text TextSpec TextExamples Bakers BakersSpec Device DeviceSpec DeviceDemo
  Screens ScreensSpec ScreensExamples Zui UiSpec UiDevice UiFacts UiRun UiExamples Borrow BorrowSpec BorrowFacts BorrowExamples.
Import ListNotations.
Open Scope list_scope.
Open Scope N_scope.

(** C89. After any history the device that keeps slices of the upload buffer has given
    the same answers as the one that keeps the bytes, and what it draws, reading the
    buffer again, is the same review. *)
Theorem C89_review_reads_upload : forall C O f u es, Forall event_ok es ->
  fst (brun C O true (b_fresh f u) es) = fst (run C O (dev_fresh f u) es) /\
  bd_dev (snd (brun C O true (b_fresh f u) es)) = snd (run C O (dev_fresh f u) es) /\
  visible (snd (brun C O true (b_fresh f u) es)) = d_ui (snd (run C O (dev_fresh f u) es)).
Proof. exact review_reads_upload. Qed.
Print Assumptions C89_review_reads_upload.
Example C89_flash_case :
  Forall event_ok (sign_batch many_pays) /\
  let x := snd (brun wallet_config demo_oracles true (b_fresh [] []) (sign_batch many_pays)) in
  bd_place x = Some (mkPlace true 14 (List.length (message_of many_pays))) /\
  shows_operations (visible x) demo_branch (flat_map enc_op many_pays).
Proof. exact flash_review. Qed.
Example C89_baker_case :
  Forall event_ok baker_asked /\
  let x := snd (brun demo_config demo_oracles true (b_fresh [] []) baker_asked) in
  bd_place x = Some (mkPlace false 14 (List.length (message_of [demo_delegation]))) /\
  match visible x with
  | Some (VBakingSign _ _ branch (ODelegation _ (Some (_, pkh))) data) =>
    branch = demo_branch /\ pkh = everstake_hash /\ data = message_of [demo_delegation]
  | _ => False
  end.
Proof. exact baker_review. Qed.

(** C89. While a signature review is pending its slice lies inside the buffer and holds
    exactly the message whose digest will be signed, although the buffer has been reset
    and nobody holds its lock. *)
Theorem C89_bytes_in_place : forall C O f u es v data dg, Forall event_ok es ->
  d_ui (snd (run C O (dev_fresh f u) es)) = Some v -> review_data v = Some (data, dg) ->
  let up := d_up (snd (run C O (dev_fresh f u) es)) in
  exists p, bd_place (snd (brun C O true (b_fresh f u) es)) = Some p /\ place_inside p /\
    place_read (u_buf up) p = data /\ o_blake2b O 32 (place_read (u_buf up) p) = Some dg /\
    u_lock up = None /\ sb_read_exact (u_buf up) = [].
Proof. exact bytes_in_place. Qed.
Print Assumptions C89_bytes_in_place.
Example C89_place_case :
  let after es := snd (brun wallet_config demo_oracles true (b_fresh [] []) es) in
  shows_operations (visible (after (asked ++ [meanwhile]))) demo_branch (flat_map enc_op large_pay) /\
  bd_place (after (asked ++ [meanwhile])) = Some (mkPlace false 14 90).
Proof. exact gated_review. Qed.

(** C89. When an approval makes a signature, it covers the bytes that the screens read
    from the buffer at that moment. *)
Theorem C89_signed_from_place : forall C O f u es g, Forall event_ok es ->
  let d := snd (run C O (dev_fresh f u) es) in
  let x := snd (brun C O true (b_fresh f u) es) in
  d_log (snd (step C O d EApprove)) = g :: d_log d ->
  exists p, bd_place x = Some p /\ place_inside p /\
    place_read (u_buf (d_up d)) p = sg_data g /\ o_blake2b O 32 (place_read (u_buf (d_up d)) p) = Some (sg_digest g) /\
    visible x = d_ui d.
Proof. exact signed_from_place. Qed.
Print Assumptions C89_signed_from_place.
Example C89_signed_case : Forall event_ok (asked ++ [meanwhile; EApprove]) /\
  map sg_data (d_log (snd (run wallet_config demo_oracles (dev_fresh [] []) (asked ++ [EApprove])))) = [message_of large_pay].
Proof. exact (conj asked_ok approved_review). Qed.

(** C89. The same with a user at the buttons: whatever is pressed, the screens of a
    signature review are drawn from the uploaded bytes. *)
Theorem C89_in_hand : forall C O hw f u, oracles_ok O -> Forall up_fault_ok u -> forall is, Forall input_ok is ->
  let s := snd (ui_run C O known hw (ui_fresh hw f u) is) in
  let x := snd (brun C O true (b_fresh f u) (events_of C O known hw (ui_fresh hw f u) is)) in
  bd_dev x = u_dev s /\ visible x = d_ui (u_dev s) /\
  forall v data dg, d_ui (u_dev s) = Some v -> review_data v = Some (data, dg) ->
  exists p, bd_place x = Some p /\ place_inside p /\ place_read (u_buf (d_up (u_dev s))) p = data /\
    o_blake2b O 32 data = Some dg.
Proof. exact screens_read_upload. Qed.
Print Assumptions C89_in_hand.
Example C89_hand_case : oracles_ok demo_oracles /\ Forall input_ok scrolled /\
  let x := snd (brun wallet_config demo_oracles true (b_fresh [] []) (events_of wallet_config demo_oracles known NanoS (ui_fresh NanoS [] []) scrolled)) in
  shows_operations (visible x) demo_branch (flat_map enc_op small_batch) /\
  bd_place x = Some (mkPlace false 14 141).
Proof. exact hand_review. Qed.

(** C89 rests on the system: were commands let through while a review is pending, the
    first packet of another upload would change the screens, and the approval would sign
    what had been asked before: here 200 tez, with 3 tez on display. *)
Theorem C89_ungated_refuted :
  let after gate es := snd (brun wallet_config demo_oracles gate (b_fresh [] []) es) in
  fst (brun wallet_config demo_oracles false (b_fresh [] []) (asked ++ [meanwhile])) =
    [AReply [0x90; 0]; APending; AReply [0x90; 0]] /\
  shows_operations (visible (after false asked)) demo_branch (flat_map enc_op large_pay) /\
  shows_operations (visible (after false (asked ++ [meanwhile]))) demo_branch (flat_map enc_op little_pay) /\
  map sg_data (d_log (bd_dev (after false (asked ++ [meanwhile; EApprove])))) = [message_of large_pay].
Proof. exact ungated_review. Qed.
Print Assumptions C89_ungated_refuted.
