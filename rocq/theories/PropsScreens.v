(** Property theorems C34: what the reviews show. *)
From Coq Require Import NArith ZArith Bool Arith String List.
From Verif Require Import Base Oracles Address AddressExamples Text TextExamples Bakers BakersSpec
  Operations OperationsSpec OperationsExamples Device DeviceSpec DeviceDemo
  Screens ScreensSpec ScreensViews ScreensPages ScreensExamples.
Import ListNotations.
Open Scope N_scope.

(** C34. Any pending review of less than 256 rows announces that many items, on either
    kind of device. Item [k] shows row [k] of the review's sheet: title, and on one or
    more pages a text for the field; or the field cannot be shown and the item fails.
    There are no more items. *)
Theorem C34_review_shows_the_sheet : forall C O f u es hw v rows,
  oracles_ok O -> Forall up_fault_ok u -> Forall event_ok es ->
  d_ui (snd (run C O (dev_fresh f u) es)) = Some v -> view_sheet v = Some rows -> view_fits v ->
  (List.length rows < 256)%nat ->
  view_items v = VOk (len rows) /\
  forall k, (k < 256)%nat ->
  match nth_error rows k with
  | Some r => displays O known hw v k r \/ (unshowable O (snd r) /\ fails O known hw v k Unknown)
  | None => fails O known hw v k NoData
  end.
Proof. exact pending_review_rows. Qed.
Print Assumptions C34_review_shows_the_sheet.

(** The same for any table of bakers and any number of rows, whose number is announced
    modulo 256. *)
Theorem C34_rows_of_a_review : forall O table hw v rows,
  oracles_ok O -> sorted table -> names_fit table -> view_wf v -> view_fits v -> view_sheet v = Some rows ->
  view_items v = VOk (len rows mod 256) /\
  forall k, (k < 256)%nat ->
  match nth_error rows k with
  | Some r => displays O table hw v k r \/ (unshowable O (snd r) /\ fails O table hw v k Unknown)
  | None => fails O table hw v k NoData
  end.
Proof. exact review_rows. Qed.
Print Assumptions C34_rows_of_a_review.

(** The sheet of an encoded batch is made of its branch and its operations. *)
Theorem C34_sheet_of_a_batch : forall sh dg branch os data,
  List.length branch = 32%nat -> Forall op_ok os ->
  view_sheet (VSign sh dg (operation_new (branch ++ flat_map enc_op os)) data) =
  Some (batch_sheet branch (map op_of os)).
Proof. exact encoded_sheet. Qed.
Print Assumptions C34_sheet_of_a_batch.

Example C34_case :
  Forall event_ok (sign_batch small_batch) /\
  sheet_length (d_ui (wallet_run (sign_batch small_batch))) = 17 /\
  announced_items (d_ui (wallet_run (sign_batch small_batch))) = VOk 17 /\
  shown (sign_batch small_batch) NanoS 0 1 = VOk (str "Operation", str "BTkYZiLgs8zLVstvX", 2) /\
  shown (sign_batch small_batch) NanoS 4 0 = VOk (str "Amount", str "1.500000", 1) /\
  shown (sign_batch small_batch) NanoX 12 0 = VOk (str "Delegation", str "Everstake", 1).
Proof. exact small_batch_case. Qed.
Example C34_case_fits : oracles_ok demo_oracles /\ sorted known /\ names_fit known /\
  view_fits (view_or (d_ui (wallet_run (sign_batch small_batch)))).
Proof.
  exact (conj demo_oracles_ok (conj known_sorted (conj known_fit small_batch_fits))).
Qed.

(** Amounts, fees and limits from 2^28 on (268.435456 tez) cannot be shown. *)
Theorem C34_large_numbers_refuted : forall O n,
  (unshowable O (FTez (z_of n)) <-> 2 ^ 28 <= n) /\ (unshowable O (FNat (z_of n)) <-> 2 ^ 28 <= n).
Proof. exact large_unshowable. Qed.
Print Assumptions C34_large_numbers_refuted.
Example C34_large_amount_case :
  shown (sign_batch [TTransfer demo_man 300000000 (TzImplicit demo_pkh2) None]) NanoS 4 0 = VErr Unknown.
Proof. exact large_amount_case. Qed.

(** A pending review of 256 rows announces no item. *)
Theorem C34_256_rows_refuted :
  Forall event_ok (sign_batch many_items) /\
  sheet_length (d_ui (wallet_run (sign_batch many_items))) = 256 /\
  announced_items (d_ui (wallet_run (sign_batch many_items))) = VOk 0.
Proof. exact many_items_case. Qed.
Print Assumptions C34_256_rows_refuted.

(** A pending review of 253 proposals announces and shows the branch only. *)
Theorem C34_253_proposals_refuted :
  Forall event_ok (sign_batch many_proposals) /\
  sheet_length (d_ui (wallet_run (sign_batch many_proposals))) = 257 /\
  announced_items (d_ui (wallet_run (sign_batch many_proposals))) = VOk 1 /\
  all_no_data (view_or (d_ui (wallet_run (sign_batch many_proposals)))) = true.
Proof. exact many_proposals_case. Qed.
Print Assumptions C34_253_proposals_refuted.

(** Anonymous operations leave no trace in a review: the items are those of another
    message without the operation. *)
Theorem C34_anonymous_refuted : forall O table ks sh dg dg' branch os1 a os2 data data',
  List.length branch = 32%nat -> Forall op_ok (os1 ++ a :: os2) -> anonymous a ->
  let v := VSign sh dg (operation_new (branch ++ flat_map enc_op (os1 ++ a :: os2))) data in
  let v' := VSign sh dg' (operation_new (branch ++ flat_map enc_op (os1 ++ os2))) data' in
  flat_map enc_op (os1 ++ a :: os2) <> flat_map enc_op (os1 ++ os2) /\
  view_sheet v = view_sheet v' /\ view_items v = view_items v' /\
  forall n, view_item O table ks v n = view_item O table ks v' n.
Proof. exact anonymous_hidden. Qed.
Print Assumptions C34_anonymous_refuted.
Example C34_anonymous_case :
  Forall op_ok ([demo_transfer] ++ nth 2 demo_anonymous demo_transfer :: [demo_delegation]) /\
  anonymous (nth 2 demo_anonymous demo_transfer) /\ List.length demo_branch = 32%nat.
Proof. exact anonymous_case. Qed.
