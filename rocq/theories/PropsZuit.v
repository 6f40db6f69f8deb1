(** Property theorems C91: the test driver of reviews. *)
From Coq Require Import NArith ZArith Bool Arith String List.
From Verif Require Import Base Codecs Oracles Address AddressExamples HashDemo Text TextSpec TextExamples Bakers BakersSpec KnownBakers
  Operations OperationsSpec OperationsExamples Device DeviceDemo Screens ScreensSpec ScreensPages
  ScreensExamples Zuit ZuitFacts BorrowExamples ZuitExamples.
Import ListNotations.
Open Scope string_scope.
Open Scope list_scope.
Open Scope N_scope.

(** C91. For every review the driver collects one page per announced row. Its title and
    message stand for the row, and are the title and the whole text that the pages of the
    item have on either device. The driver panics only if a row cannot be shown, and then
    the item fails on either device. *)
Theorem C91_driven : forall O table print v rows, oracles_ok O -> sorted table -> names_fit table -> names_utf8 table ->
  view_wf v -> view_shown v = Some rows ->
  let n := N.to_nat (len rows mod 256) in
  match drive O table 18 4096 print v with
  | Some out => List.length out = n /\
    forall k r, (k < n)%nat -> nth_error rows k = Some r ->
    exists kb mb, nth_error out k = Some [(kb, mb)] /\ entitles (fst r) (cstr kb) /\ shows O table (snd r) (cstr mb) /\
      forall hw, exists screens, shown_as O table hw v k (cstr kb) (cstr mb) screens
  | None => exists k r, (k < n)%nat /\ nth_error rows k = Some r /\ unshowable O (snd r) /\
    forall hw, fails O table hw v k Unknown
  end.
Proof. exact driven. Qed.
Print Assumptions C91_driven.
Example C91_driven_case : let v := test_view (parsed_or activation) in
  view_wf v /\
  option_map (map (map (fun p => (cstr (fst p), cstr (snd p))))) (drive demo_oracles known 18 4096 true v) =
  Some (map (fun e => map (fun m => (ex_title e, m)) (ex_message e)) activation_ui).
Proof. exact activation_driven. Qed.
Example C91_panic_case : let p := parsed_or (demo_branch ++ flat_map enc_op (pay 300000000)) in
  drive demo_oracles known 18 4096 true (test_view p) = None.
Proof. exact large_panics. Qed.

(** C91. If a test vector passes, then what it says of an item is shown by a device that
    reviews the same operations, on either screen, and stands for the row of that number. *)
Theorem C91_passing_vector : forall O table blob p ui i title m more sh dg data,
  oracles_ok O -> sorted table -> names_fit table -> names_utf8 table ->
  bytes_ok blob -> operation_new blob = Some p ->
  verify_ui O table (test_view p) ui = true -> In (mkExpected i title (m :: more)) ui ->
  exists rows r h rest, view_shown (VSign sh dg (Some p) data) = Some rows /\ nth_error rows i = Some r /\
    h = title ++ rest /\ entitles (fst r) h /\ shows O table (snd r) m /\
    forall hw, exists screens, shown_as O table hw (VSign sh dg (Some p) data) i h m screens.
Proof. exact passing_vector. Qed.
Print Assumptions C91_passing_vector.
Example C91_vector_case :
  oracles_ok demo_oracles /\ sorted known /\ names_fit known /\ names_utf8 known /\ bytes_ok activation /\
  operation_new activation = Some (parsed_or activation) /\
  verify_ui demo_oracles known (test_view (parsed_or activation)) activation_ui = true.
Proof. exact activation_case. Qed.

(** A vector says nothing of rows it does not mention: one that leaves out the amount
    passes for 200 tez and for 3. *)
Theorem C91_unmentioned_refuted :
  let ui := all_but 4 (paid 200000000) in
  List.length ui = 9%nat /\ nth_error (texts (paid 200000000)) 4 = Some (str "Amount", str "200.000000") /\
  nth_error (texts (paid 3000000)) 4 = Some (str "Amount", str "3.000000") /\
  verify_ui demo_oracles known (test_view (paid 200000000)) ui = true /\
  verify_ui demo_oracles known (test_view (paid 3000000)) ui = true.
Proof. exact unmentioned. Qed.
Print Assumptions C91_unmentioned_refuted.

(** Nor is everything it mentions compared: a title without messages passes, and so does
    any message after the first. *)
Theorem C91_unchecked_refuted : forall title wrong,
  verify_ui demo_oracles known (test_view (paid 3000000))
    [mkExpected 4 title []; mkExpected 4 (str "Am") [str "3.000000"; wrong]] = true.
Proof. exact unchecked. Qed.
Print Assumptions C91_unchecked_refuted.

(** C91. Whatever the sizes of its buffers, the driver collects every page of every item:
    page [i] is the one rendered as number [i], and there is a next one exactly if this
    one announces more. *)
Theorem C91_every_page : forall O table ts ms print v out, drive O table ts ms print v = Some out ->
  (exists n, view_items v = VOk n /\ List.length out = N.to_nat n) /\
  forall k pages, nth_error out k = Some pages -> pages <> [] /\
  forall i, (i < List.length pages)%nat -> exists title message count,
    view_render O table ts v (N.of_nat k) (zeros ts) (zeros ms) (N.of_nat i) = VOk (title, message, count) /\
    nth_error pages i = Some (title, message) /\
    (N.of_nat i + 1 < count <-> (i + 1 < List.length pages)%nat).
Proof. exact every_page. Qed.
Print Assumptions C91_every_page.
Example C91_every_page_case :
  option_map (map (@List.length upage)) (drive demo_oracles known 18 35 true (test_view (parsed_or activation))) =
  Some [2; 1; 2; 2]%nat.
Proof. exact narrow_driven. Qed.
