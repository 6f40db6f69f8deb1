(** Property theorems C37, C47 and C48: the buttons of the reviews. *)
From Coq Require Import NArith ZArith Bool Arith String List.
From Verif Require Import Base Flash Oracles Address AddressSpec AddressExamples Text TextExamples Bakers BakersSpec Codecs CodecsSpec Upload UploadSpec
  Operations OperationsSpec OperationsExamples Device DeviceSpec DeviceDemo
  Screens ScreensSpec ScreensViews ScreensExamples Zui UiSpec UiDevice UiFacts UiRun UiCases UiExamples.
Import ListNotations.
Open Scope list_scope.
Open Scope N_scope.

(** C37. Whatever is sent and pressed: a review screen is on only while a review is
    pending; its item is one of the review's items or an action, and its page one of the
    item's pages. *)
Theorem C37_in_range : forall C O hw f u, oracles_ok O -> Forall up_fault_ok u -> forall is, Forall input_ok is ->
  let s := snd (ui_run C O known hw (ui_fresh hw f u) is) in
  (In (z_face (u_zui s)) [Review; Title; Page; Approval; Rejection] -> d_ui (u_dev s) <> None) /\
  forall v, d_ui (u_dev s) = Some v -> In (z_face (u_zui s)) [Review; Page; Approval; Rejection] ->
  exists n, view_items v = VOk n /\ z_items (u_zui s) = n + 1 /\ z_item (u_zui s) <= n + actions hw /\
  (In (z_face (u_zui s)) [Review; Page] -> z_page (u_zui s) < z_pages (u_zui s)).
Proof. exact in_range. Qed.
Print Assumptions C37_in_range.

(** C37. A review is approved or rejected only by pressing both buttons at the screen
    that offers it; the Nano S shows its label. Only the error screen abandons a review.
    No button stops the app. *)
Theorem C37_decisions : forall C O hw f u, oracles_ok O -> Forall up_fault_ok u -> forall is b, Forall input_ok is ->
  let s := snd (ui_run C O known hw (ui_fresh hw f u) is) in
  match snd (press hw (pending_review O known hw (u_dev s)) (u_zui s) b) with
  | Stay => True
  | Accept => b = Both /\ d_ui (u_dev s) <> None /\ offers_approval hw (u_zui s) /\
      (hw = NanoS -> exists rest, z_seen (u_zui s) = label "APPROVE" :: rest)
  | Refuse => b = Both /\ d_ui (u_dev s) <> None /\ offers_rejection hw (u_zui s) /\
      (hw = NanoS -> exists rest, z_seen (u_zui s) = label "REJECT" :: rest)
  | Ack => z_face (u_zui s) = Failure
  | Crash => False
  end.
Proof. exact decided. Qed.
Print Assumptions C37_decisions.

(** C37. Both buttons on an item of the review decide nothing. *)
Theorem C37_both_on_information : forall C O hw f u, oracles_ok O -> Forall up_fault_ok u -> forall is v n,
  Forall input_ok is ->
  let s := snd (ui_run C O known hw (ui_fresh hw f u) is) in
  d_ui (u_dev s) = Some v -> view_items v = VOk n ->
  z_face (u_zui s) = Title \/ z_face (u_zui s) = Page \/ (z_face (u_zui s) = Review /\ z_item (u_zui s) < n) ->
  snd (press hw (pending_review O known hw (u_dev s)) (u_zui s) Both) = Stay.
Proof. exact both_on_information. Qed.
Print Assumptions C37_both_on_information.

(** C37. When a request puts up a review of less than 256 rows that can all be shown,
    the right button leads to every page of every row, and to approval. *)
Theorem C37_reachable : forall C O hw f u, oracles_ok O -> Forall up_fault_ok u -> forall is buf rx v rows,
  Forall input_ok is -> apdu_ok buf ->
  let at_ is := snd (ui_run C O known hw (ui_fresh hw f u) is) in
  fst (ui_step C O known hw (at_ is) (IApdu buf rx)) = [APending] ->
  d_ui (u_dev (at_ (is ++ [IApdu buf rx]))) = Some v -> view_sheet v = Some rows -> (List.length rows < 256)%nat ->
  (forall row, In row rows -> ~ unshowable O (snd row)) ->
  (forall k row, nth_error rows k = Some row ->
   exists h ss, entitles (fst row) h /\ shows O known (snd row) (concat ss) /\
   forall p s, nth_error ss p = Some s ->
   exists m lines rest, in_lines hw (visible s) lines /\
     z_seen (u_zui (at_ (is ++ IApdu buf rx :: repeat (IPress Right) m))) =
     mkShot (page_title hw (visible h) (N.of_nat p) (len ss)) lines :: rest) /\
  exists m, let s := at_ (is ++ IApdu buf rx :: repeat (IPress Right) m) in
  snd (press hw (pending_review O known hw (u_dev s)) (u_zui s) Both) = Accept.
Proof. exact all_reachable. Qed.
Print Assumptions C37_reachable.
Example C37_case : exists v rows,
  answers_of wallet_config NanoS small_inputs = [AReply [0x90; 0]; APending] /\
  d_ui (u_dev (after_inputs wallet_config NanoS small_inputs)) = Some v /\ view_sheet v = Some rows /\
  (List.length rows < 256)%nat /\ forall r, In r rows -> ~ unshowable demo_oracles (snd r).
Proof. exact reachable_case. Qed.
Example C37_pages_case :
  Forall input_ok (small_inputs ++ presses Right 21 ++ [IPress Both]) /\
  outcome wallet_config NanoS (small_inputs ++ presses Right 21 ++ [IPress Both]) =
    (label "APPROVE" :: rev small_pages_s, Idle, [(1, message_of small_batch)]).
Proof. exact small_case_s. Qed.
Example C37_pages_x_case :
  outcome wallet_config NanoX (small_inputs ++ presses Right 18 ++ [IPress Both]) =
    (rev small_pages_x, Idle, [(1, message_of small_batch)]).
Proof. exact small_case_x. Qed.

(** C37. A review of less than 256 rows that can all be shown is always at a place of
    its pages and actions, in order; the right button leads to the next place and the
    left one to the previous, staying at the ends. *)
Theorem C37_navigation : forall C O hw f u, oracles_ok O -> Forall up_fault_ok u -> forall is v rows,
  Forall input_ok is ->
  let at_ is := snd (ui_run C O known hw (ui_fresh hw f u) is) in
  d_ui (u_dev (at_ is)) = Some v -> view_sheet v = Some rows -> (List.length rows < 256)%nat ->
  (forall row, In row rows -> ~ unshowable O (snd row)) ->
  In (z_face (u_zui (at_ is))) [Review; Title; Page; Approval; Rejection] ->
  exists screens, Forall2 (fun row hs => entitles (fst row) (fst hs) /\ shows O known (snd row) (concat (snd hs))) rows screens /\
  exists a, appears hw screens (u_zui (at_ is)) a /\
  (d_ui (u_dev (at_ (is ++ [IPress Right]))) = Some v /\
   exists a', appears hw screens (u_zui (at_ (is ++ [IPress Right]))) a' /\ moves (places hw screens) a a') /\
  (d_ui (u_dev (at_ (is ++ [IPress Left]))) = Some v /\
   exists a', appears hw screens (u_zui (at_ (is ++ [IPress Left]))) a' /\ moves (rev (places hw screens)) a a').
Proof. exact navigation. Qed.
Print Assumptions C37_navigation.
Example C37_navigation_case : exists v rows,
  d_ui (u_dev (after_inputs wallet_config NanoS small_inputs)) = Some v /\ view_sheet v = Some rows /\
  (List.length rows < 256)%nat /\ (forall r, In r rows -> ~ unshowable demo_oracles (snd r)) /\
  z_face (u_zui (after_inputs wallet_config NanoS small_inputs)) = Review /\
  firstn 1 (z_seen (u_zui (after_inputs wallet_config NanoS (small_inputs ++ presses Left 3)))) = firstn 1 small_pages_s.
Proof. exact navigation_case. Qed.

(** C37 fails for long reviews on the Nano X: with 256 rows or more, no button approves
    or rejects. *)
Theorem C37_long_review_refuted : forall C O hw f u, oracles_ok O -> Forall up_fault_ok u -> forall is b v rows,
  Forall input_ok is -> hw = NanoX ->
  let s := snd (ui_run C O known hw (ui_fresh hw f u) is) in
  d_ui (u_dev s) = Some v -> view_sheet v = Some rows -> view_fits v -> 256 <= len rows ->
  let a := snd (press hw (pending_review O known hw (u_dev s)) (u_zui s) b) in a <> Accept /\ a <> Refuse.
Proof. exact stuck. Qed.
Print Assumptions C37_long_review_refuted.
Example C37_long_review_case : exists v rows,
  d_ui (u_dev (after_inputs wallet_config NanoX (inputs (sign_batch many_items)))) = Some v /\
  view_sheet v = Some rows /\ view_fits v /\ 256 <= len rows.
Proof. exact stuck_case. Qed.

(** C47. Any review, at the moment it is approved: every page of every row announced has
    been on the screen. On the Nano S this needs expert mode to be off, and of 256 rows
    or more only the remainder modulo 256 is announced. *)
Theorem C47_approved_was_shown : forall C O hw f u, oracles_ok O -> Forall up_fault_ok u -> forall is b v rows,
  Forall input_ok is ->
  let s := snd (ui_run C O known hw (ui_fresh hw f u) is) in
  snd (press hw (pending_review O known hw (u_dev s)) (u_zui s) b) = Accept ->
  hw = NanoX \/ z_expert (u_zui s) = false ->
  d_ui (u_dev s) = Some v -> view_shown v = Some rows ->
  (hw = NanoX -> len rows < 256) /\
  forall k row, nth_error rows k = Some row -> N.of_nat k < len rows mod 256 ->
  row_seen O known hw (z_seen (u_zui s)) row.
Proof. exact approved_seen. Qed.
Print Assumptions C47_approved_was_shown.

(** C47. What is signed was shown: for any signature of a batch of operations with less
    than 256 rows there is a moment when both buttons approved it, every row of branch
    and operations having been shown. *)
Theorem C47_signed_batch_was_shown : forall C O hw f u, oracles_ok O -> Forall up_fault_ok u ->
  forall is g branch os, Forall input_ok is ->
  let at_ is := snd (ui_run C O known hw (ui_fresh hw f u) is) in
  In g (d_log (u_dev (at_ is))) -> sg_src g = SrcReview ->
  List.length branch = 32%nat -> Forall op_ok os -> sg_data g = 3 :: branch ++ flat_map enc_op os ->
  (List.length (batch_sheet branch (map op_of os)) < 256)%nat ->
  exists is1 is2, is = is1 ++ IPress Both :: is2 /\ offers_approval hw (u_zui (at_ is1)) /\
    (hw = NanoX \/ z_expert (u_zui (at_ is1)) = false ->
     Forall (row_seen O known hw (z_seen (u_zui (at_ is1)))) (batch_sheet branch (map op_of os))).
Proof. exact small_batch_signed. Qed.
Print Assumptions C47_signed_batch_was_shown.
Example C47_case : Forall op_ok small_batch /\ List.length demo_branch = 32%nat /\
  (List.length (batch_sheet demo_branch (map op_of small_batch)) < 256)%nat.
Proof. exact small_batch_ok. Qed.

(** C47. Batches of any size: of the rows that the device makes of the batch, as many as
    announced were shown. *)
Theorem C47_signed_rows_were_shown : forall C O hw f u, oracles_ok O -> Forall up_fault_ok u ->
  forall is g branch os, Forall input_ok is ->
  let at_ is := snd (ui_run C O known hw (ui_fresh hw f u) is) in
  In g (d_log (u_dev (at_ is))) -> sg_src g = SrcReview ->
  List.length branch = 32%nat -> Forall op_ok os -> sg_data g = 3 :: branch ++ flat_map enc_op os ->
  exists is1 is2, is = is1 ++ IPress Both :: is2 /\ offers_approval hw (u_zui (at_ is1)) /\
    (hw = NanoX \/ z_expert (u_zui (at_ is1)) = false ->
     let shown := row_of (Titled "Operation") (FIdent KindBranch branch) :: flat_map shown_rows (map op_of os) in
     (hw = NanoX -> len shown < 256) /\
     forall k row, nth_error shown k = Some row -> N.of_nat k < len shown mod 256 ->
     row_seen O known hw (z_seen (u_zui (at_ is1))) row).
Proof. exact batch_signed. Qed.
Print Assumptions C47_signed_rows_were_shown.

(** C47. Michelson data is signed only once its hash was shown. *)
Theorem C47_signed_michelson_was_shown : forall C O hw f u, oracles_ok O -> Forall up_fault_ok u ->
  forall is g rest, Forall input_ok is ->
  let at_ is := snd (ui_run C O known hw (ui_fresh hw f u) is) in
  In g (d_log (u_dev (at_ is))) -> sg_src g = SrcReview -> sg_data g = 5 :: rest ->
  exists is1 is2, is = is1 ++ IPress Both :: is2 /\ offers_approval hw (u_zui (at_ is1)) /\
    (hw = NanoX \/ z_expert (u_zui (at_ is1)) = false ->
     row_seen O known hw (z_seen (u_zui (at_ is1))) (row_of (Titled "Sign Michelson") (FHex (sg_digest g)))).
Proof. exact michelson_signed. Qed.
Print Assumptions C47_signed_michelson_was_shown.

(** C47. The baking app signs a batch only once its first operation was shown. *)
Theorem C47_baking_first_operation_was_shown : forall C O hw f u, oracles_ok O -> Forall up_fault_ok u ->
  forall is g branch o1 rest, Forall input_ok is ->
  let at_ is := snd (ui_run C O known hw (ui_fresh hw f u) is) in
  In g (d_log (u_dev (at_ is))) -> sg_src g = SrcBakingReview ->
  List.length branch = 32%nat -> op_ok o1 -> sg_data g = 3 :: branch ++ enc_op o1 ++ rest ->
  exists is1 is2, is = is1 ++ IPress Both :: is2 /\ offers_approval hw (u_zui (at_ is1)) /\
    (hw = NanoX \/ z_expert (u_zui (at_ is1)) = false ->
     Forall (row_seen O known hw (z_seen (u_zui (at_ is1)))) (batch_sheet branch [op_of o1])).
Proof. exact baking_signed. Qed.
Print Assumptions C47_baking_first_operation_was_shown.

(** C47 fails in the baking app: the other operations of the batch are signed unseen,
    here a transfer after a delegation. *)
Theorem C47_baking_batch_refuted :
  Forall input_ok baking_inputs /\
  outcome demo_config NanoS baking_inputs =
    (label "APPROVE" :: rev delegation_pages, Idle, [(2, message_of two_operations)]).
Proof. exact baking_batch_signed. Qed.
Print Assumptions C47_baking_batch_refuted.

(** C47 fails for batches of 256 rows on the Nano S: nothing is shown but the label. *)
Theorem C47_256_rows_refuted :
  Forall input_ok (inputs (sign_batch many_items) ++ [IPress Both]) /\
  outcome wallet_config NanoS (inputs (sign_batch many_items) ++ [IPress Both]) =
    ([label "APPROVE"], Idle, [(1, message_of many_items)]).
Proof. exact many_items_signed. Qed.
Print Assumptions C47_256_rows_refuted.

(** C47 fails for 253 proposals: only the branch is shown. *)
Theorem C47_253_proposals_refuted :
  Forall input_ok (inputs (sign_batch many_proposals) ++ presses Right 2 ++ [IPress Both]) /\
  outcome wallet_config NanoS (inputs (sign_batch many_proposals) ++ presses Right 2 ++ [IPress Both]) =
    ([label "APPROVE"; s_shot "Operation [2/2]" "BTkYZiLgs8zLVstvX" ""; s_shot "Operation [1/2]" "BLzyjjHKEKMULtvkp" "SHxuZxx6ei6fpntH2"],
     Idle, [(1, message_of many_proposals)]).
Proof. exact many_proposals_signed. Qed.
Print Assumptions C47_253_proposals_refuted.

(** C47 fails in expert mode on the Nano S: both buttons twice approve at once. *)
Theorem C47_expert_mode_refuted :
  Forall input_ok (IPress Toggle :: small_inputs ++ [IPress Both; IPress Both]) /\
  outcome wallet_config NanoS (IPress Toggle :: small_inputs ++ [IPress Both; IPress Both]) =
    ([label "APPROVE"; s_shot "Operation [1/2]" "BLzyjjHKEKMULtvkp" "SHxuZxx6ei6fpntH2"],
     Failure, [(1, message_of small_batch)]).
Proof. exact expert_signed. Qed.
Print Assumptions C47_expert_mode_refuted.

(** C48. Screen and buttons add nothing to what the host and the user can do: the
    answers and the state are those of a history of requests and decisions, each caused
    by an input; decisions are caused by buttons. *)
Theorem C48_history : forall C O hw f u, oracles_ok O -> Forall up_fault_ok u -> forall is, Forall input_ok is ->
  exists es, Forall event_ok es /\
    run C O (dev_fresh f u) es =
      (fst (ui_run C O known hw (ui_fresh hw f u) is), u_dev (snd (ui_run C O known hw (ui_fresh hw f u) is))) /\
    forall es1 e es2, es = es1 ++ e :: es2 ->
    exists is1 i is2, is = is1 ++ i :: is2 /\
      let z := u_zui (snd (ui_run C O known hw (ui_fresh hw f u) is1)) in
      match e with
      | EApdu buf rx => i = IApdu buf rx
      | EApprove => i = IPress Both /\ offers_approval hw z
      | EReject => i = IPress Both /\ offers_rejection hw z
      | EUiError => exists b, i = IPress b /\ z_face z = Failure
      | EPower => i = IPower
      end /\
      snd (run C O (dev_fresh f u) es1) = u_dev (snd (ui_run C O known hw (ui_fresh hw f u) is1)).
Proof. exact ui_history. Qed.
Print Assumptions C48_history.
Example C48_large_amount_case :
  snd (fst (outcome wallet_config NanoS (large_inputs ++ presses Right 7))) = Failure /\
  answers_of wallet_config NanoS (large_inputs ++ presses Right 8) = [AReply [0x90; 0]; APending; AReply [0x69; 0x84]].
Proof. exact large_amount_fails. Qed.
