(** The test driver: statements in final form and concrete vectors. *)
From Coq Require Import NArith ZArith Bool Arith String List Lia.
From Coq Require Import ZifyBool ZifyNat ZifyN.
From Verif Require Import Base BaseFacts Codecs CodecsFacts Oracles Address AddressSpec AddressFacts AddressExamples HashDemo
  Text TextSpec TextFacts TextExamples Bakers BakersSpec BakersFacts KnownBakers
  Operations OperationsSpec OperationsFacts OperationsExamples Device DeviceDemo Screens ScreensSpec ScreensFacts ScreensViews ScreensPages
  ScreensExamples UiExamples Vectors BorrowExamples Zuit ZuitFacts.
Import ListNotations.
Open Scope string_scope.
Open Scope list_scope.
Open Scope N_scope.

Lemma known_utf8 : names_utf8 known.
Proof. apply Forall_forall. apply forallb_forall. vm_compute. reflexivity. Qed.

Lemma test_view_wf blob p : bytes_ok blob -> operation_new blob = Some p -> view_wf (test_view p).
Proof.
  intros B E. unfold operation_new in E. destruct (take 32 blob) as [rem br| |] eqn:T; try discriminate.
  injection E as <-. apply take_inv in T as [-> L]. apply bytes_ok_app in B as [B1 B2].
  cbn [test_view view_wf]. split; [split; [exact B1|]|split; [exact B2|reflexivity]]. unfold len in L. lia.
Qed.

(** What is drawn does not depend on the digest or on where the answer goes. *)
Lemma same_screens O table hw sh dg data p k h t ss :
  shown_as O table hw (test_view p) k h t ss -> shown_as O table hw (VSign sh dg (Some p) data) k h t ss.
Proof. destruct p as [br ops]. intros H. exact H. Qed.

Lemma driven O table print v rows : oracles_ok O -> sorted table -> names_fit table -> names_utf8 table ->
  view_wf v -> view_shown v = Some rows ->
  let n := N.to_nat (len rows mod 256) in
  match drive O table 18 4096 print v with
  | Some out => List.length out = n /\
    forall k r, (k < n)%nat -> nth_error rows k = Some r ->
    exists kb mb, nth_error out k = Some [(kb, mb)] /\ entitles (fst r) (cstr kb) /\ shows O table (snd r) (cstr mb) /\
      forall hw, exists screens, shown_as O table hw v k (cstr kb) (cstr mb) screens
  | None => exists k r, (k < n)%nat /\ nth_error rows k = Some r /\ unshowable O (snd r) /\
    forall hw, fails O table hw v k Unknown
  end.
Proof.
  intros K St F U W E n. pose proof (drive_review O table print v rows K St F U W E) as D. cbv zeta in D. fold n in D.
  destruct (drive O table 18 4096 print v) as [out|]; [|exact D]. destruct D as [L Q]. split; [exact L|].
  intros k r Hk N. destruct (Q k r Hk N) as (pages & P & kb & mb & -> & X). exists kb, mb. split; [exact P|exact X].
Qed.

Lemma unreadable_fails O table ts ms print p : view_shown (test_view p) = None -> drive O table ts ms print (test_view p) = None.
Proof.
  destruct p as [br ops]. unfold test_view, drive. cbn [view_shown view_items]. unfold batch_fuel.
  destruct (eo_all _ ops) as [| | |os]; [reflexivity|reflexivity|reflexivity|]. intros X. discriminate X.
Qed.

Lemma passing_vector O table blob p ui i title m more sh dg data :
  oracles_ok O -> sorted table -> names_fit table -> names_utf8 table ->
  bytes_ok blob -> operation_new blob = Some p ->
  verify_ui O table (test_view p) ui = true -> In (mkExpected i title (m :: more)) ui ->
  exists rows r h rest, view_shown (VSign sh dg (Some p) data) = Some rows /\ nth_error rows i = Some r /\
    h = title ++ rest /\ entitles (fst r) h /\ shows O table (snd r) m /\
    forall hw, exists screens, shown_as O table hw (VSign sh dg (Some p) data) i h m screens.
Proof.
  intros K St F U B Op V M. pose proof (test_view_wf blob p B Op) as W.
  destruct (view_shown (test_view p)) as [rows|] eqn:E.
  - destruct (passing O table (test_view p) rows ui i title m more K St F U W E V M) as (r & h & R & A & Sh & (rest & Eh) & S').
    exists rows, r, h, rest. split; [destruct p; exact E|]. split; [exact R|]. split; [exact Eh|]. split; [exact A|].
    split; [exact Sh|]. intros hw. destruct (S' hw) as [ss X]. exists ss. now apply same_screens.
  - unfold verify_ui in V. rewrite (unreadable_fails O table 18 4096 true p E) in V. discriminate V.
Qed.

(** ** Vectors *)

Definition parsed_or (blob : bytes) : bytes * encoded_ops :=
  match operation_new blob with Some p => p | None => ([], mkOps [] 0) end.

(** zemu/test-vectors/activation.json, the first one. *)
Definition activation : bytes :=
  unhex "a5afb5e96c1af581bcc19ace9da7d2fe7a034aa080b4e55ef094ddb1ff2c48b2049a6090844356d979899622d85ba1602740fcaa84d64537bdf3f6ed8c314075d22f2e03ab867448e1".
Definition activation_ui : list expected :=
  [mkExpected 0 (str "Operation") [str "BLyFa6vTazhbnJfbUPzniBxCVAd9zVjnPxtNX4wWiAc4Hh5RzwL"];
   mkExpected 1 (str "Type") [str "Acct. Activation"];
   mkExpected 2 (str "Public Key Hash") [str "tz1ZiJS5gAXD5nrBtUd2YW3BaELJAPou1fmH"];
   mkExpected 3 (str "Secret") [str "d64537bdf3f6ed8c314075d22f2e03ab867448e1"]].

Lemma bytes_okb_ok' l : forallb (fun b => b <? 256) l = true -> bytes_ok l.
Proof. intros H. apply Forall_forall. intros x X. rewrite forallb_forall in H. apply N.ltb_lt. now apply H. Qed.

Lemma activation_case :
  oracles_ok demo_oracles /\ sorted known /\ names_fit known /\ names_utf8 known /\ bytes_ok activation /\
  operation_new activation = Some (parsed_or activation) /\
  verify_ui demo_oracles known (test_view (parsed_or activation)) activation_ui = true.
Proof.
  split; [exact demo_oracles_ok|]. split; [exact known_sorted|]. split; [exact known_fit|]. split; [exact known_utf8|].
  split; [apply bytes_okb_ok'; vm_compute; reflexivity|]. split; vm_compute; reflexivity.
Qed.

Lemma activation_driven : let v := test_view (parsed_or activation) in
  view_wf v /\
  option_map (map (map (fun p => (cstr (fst p), cstr (snd p))))) (drive demo_oracles known 18 4096 true v) =
  Some (map (fun e => map (fun m => (ex_title e, m)) (ex_message e)) activation_ui).
Proof.
  cbv zeta. split; [|vm_compute; reflexivity]. apply (test_view_wf activation); [|vm_compute; reflexivity].
  apply bytes_okb_ok'. vm_compute. reflexivity.
Qed.

(** A transfer of more than can be shown: the driver panics. *)
Lemma large_panics : let p := parsed_or (demo_branch ++ flat_map enc_op (pay 300000000)) in
  drive demo_oracles known 18 4096 true (test_view p) = None.
Proof. vm_compute. reflexivity. Qed.

(** ** What a passing vector does not show *)

(** All rows of a transfer of 200 tez but the amount. *)
Definition paid (n : N) : bytes * encoded_ops := parsed_or (demo_branch ++ flat_map enc_op (pay n)).
Definition texts (p : bytes * encoded_ops) : list (bytes * bytes) :=
  match drive demo_oracles known 18 4096 true (test_view p) with
  | Some out => map (fun p => (cstr (fst p), cstr (snd p))) (concat out)
  | None => []
  end.
Definition all_but (i : nat) (p : bytes * encoded_ops) : list expected :=
  filter (fun e => negb (Nat.eqb (ex_idx e) i))
    (map (fun x => mkExpected (fst x) (fst (snd x)) [snd (snd x)]) (combine (seq 0 (List.length (texts p))) (texts p))).
Lemma unmentioned :
  let ui := all_but 4 (paid 200000000) in
  List.length ui = 9%nat /\ nth_error (texts (paid 200000000)) 4 = Some (str "Amount", str "200.000000") /\
  nth_error (texts (paid 3000000)) 4 = Some (str "Amount", str "3.000000") /\
  verify_ui demo_oracles known (test_view (paid 200000000)) ui = true /\
  verify_ui demo_oracles known (test_view (paid 3000000)) ui = true.
Proof. cbv zeta. repeat match goal with |- _ /\ _ => split end; vm_compute; reflexivity. Qed.

(** An entry without messages passes whatever its title says, a second message whatever
    it says. *)
Lemma unchecked : forall title wrong,
  verify_ui demo_oracles known (test_view (paid 3000000))
    [mkExpected 4 title []; mkExpected 4 (str "Am") [str "3.000000"; wrong]] = true.
Proof.
  intros title wrong. unfold verify_ui.
  assert (D : exists out, drive demo_oracles known 18 4096 true (test_view (paid 3000000)) = Some out /\
    exists kb mb, nth_error out 4 = Some [(kb, mb)] /\ page_matches (str "Am") ((kb, mb), str "3.000000") = true).
  { eexists. split; [vm_compute; reflexivity|]. eexists. eexists. split; vm_compute; reflexivity. }
  destruct D as (out & -> & kb & mb & N & M). cbn [forallb]. unfold entry_matches. cbn [ex_idx ex_title ex_message].
  rewrite N. cbn [combine forallb]. rewrite !andb_true_iff. exact (conj eq_refl (conj (conj M eq_refl) eq_refl)).
Qed.

(** ** Every page is collected *)

Lemma every_page : forall O table ts ms print v out, drive O table ts ms print v = Some out ->
  (exists n, view_items v = VOk n /\ List.length out = N.to_nat n) /\
  forall k pages, nth_error out k = Some pages -> pages <> [] /\
  forall i, (i < List.length pages)%nat -> exists title message count,
    view_render O table ts v (N.of_nat k) (zeros ts) (zeros ms) (N.of_nat i) = VOk (title, message, count) /\
    nth_error pages i = Some (title, message) /\
    (N.of_nat i + 1 < count <-> (i + 1 < List.length pages)%nat).
Proof.
  intros O table ts ms print v out D. unfold drive in D. destruct (view_items v) as [n|e|] eqn:V; try discriminate D.
  apply collect_some in D as [D1 D2]. split; [exists n; now split|]. intros k pages P. apply D2 in P.
  rewrite Nat.add_0_l in P. apply drive_item_pages in P as [P1 P2]. split.
  - intros ->. cbn [List.length] in P1. lia.
  - intros i Hi. destruct (P2 i Hi) as (t & m & c & R & N & C). rewrite N.add_0_l in R, C. exists t, m, c. auto.
Qed.
(** With messages of 35 bytes, as on the Nano S, items have several pages. *)
Lemma narrow_driven : option_map (map (@List.length upage)) (drive demo_oracles known 18 35 true (test_view (parsed_or activation))) =
  Some [2; 1; 2; 2]%nat.
Proof. vm_compute. reflexivity. Qed.
