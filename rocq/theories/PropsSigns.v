(** Property theorems C95: where arrows lead, and the emulator tests that sign. *)
From Coq Require Import NArith ZArith Bool Arith String List.
From Verif Require Import Base Flash Codecs CodecsSpec Oracles Address AddressSpec AddressExamples HashDemo Upload UploadSpec
  Operations OperationsSpec Text TextSpec TextExamples Bakers BakersSpec Device DeviceSpec DeviceDemo ServiceSpec
  Screens ScreensSpec ScreensViews ScreensExamples Zui UiSpec UiDevice UiRun UiExamples HandSpec HandExamples
  Client ClientSpec ClientExamples Desk DeskExamples ArrowsSpec ArrowsFacts Signs SignsFacts SignsExamples.
Import ListNotations.
Open Scope list_scope.
Open Scope N_scope.

(** C95. A review of less than 256 rows that can all be shown has a fixed list of places.
    Whatever arrows are pressed, the device stays where it is, answers nothing, and shows
    the place whose number the arrows add up to. Then both buttons approve at one place,
    reject at the next, and do nothing at all others. *)
Theorem C95_arrows : forall C O hw f u, oracles_ok O -> Forall up_fault_ok u -> forall is buf rx v rows,
  let at_ is := snd (ui_run C O known hw (ui_fresh hw f u) is) in
  let said is := fst (ui_run C O known hw (ui_fresh hw f u) is) in
  Forall input_ok is -> apdu_ok buf -> fst (ui_step C O known hw (at_ is) (IApdu buf rx)) = [APending] ->
  d_ui (u_dev (at_ (is ++ [IApdu buf rx]))) = Some v -> view_sheet v = Some rows -> (List.length rows < 256)%nat ->
  (forall row, In row rows -> ~ unshowable O (snd row)) ->
  let d := u_dev (at_ (is ++ [IApdu buf rx])) in
  exists screens,
    Forall2 (fun row hs => entitles (fst row) (fst hs) /\ shows O known (snd row) (concat (snd hs)) /\ (1 <= List.length (snd hs) <= 2)%nat) rows screens /\
    forall bs, Forall arrow bs ->
    let here := is ++ IApdu buf rx :: map IPress bs in
    let n := presses_needed hw screens in
    let i := walk (S n) 0 bs in
    said here = said is ++ [APending] /\ u_dev (at_ here) = d /\
    (exists a, nth_error (places hw screens) i = Some a /\ appears hw screens (u_zui (at_ here)) a) /\
    ((i < n)%nat -> said (here ++ [IPress Both]) = said is ++ [APending] /\ u_dev (at_ (here ++ [IPress Both])) = d) /\
    (i = n -> said (here ++ [IPress Both]) = said is ++ [APending; fst (step C O d EApprove)] /\
      u_dev (at_ (here ++ [IPress Both])) = snd (step C O d EApprove)) /\
    (i = S n -> said (here ++ [IPress Both]) = said is ++ [APending; fst (step C O d EReject)] /\
      u_dev (at_ (here ++ [IPress Both])) = snd (step C O d EReject)).
Proof. exact arrows. Qed.
Print Assumptions C95_arrows.
Example C95_arrows_case : exists v rows,
  answers_of wallet_config NanoS small_inputs = [AReply [0x90; 0]; APending] /\
  d_ui (u_dev (after_inputs wallet_config NanoS small_inputs)) = Some v /\ view_sheet v = Some rows /\
  (List.length rows < 256)%nat /\ forall r, In r rows -> ~ unshowable demo_oracles (snd r).
Proof. exact reachable_case. Qed.

(** C95. A call that signs, while the user presses any arrows and then both buttons: it
    returns the hash and the signature, says that the user refused, or is never answered,
    by the place the arrows lead to. *)
Theorem C95_called : forall C O hw f u, oracles_ok O -> Forall up_fault_ok u -> forall H, host_ok H O ->
  forall is call mg text k message dg s olds rows,
  let at_ is := snd (ui_run C O known hw (ui_fresh hw f u) is) in
  Forall input_ok is -> wallet_call C call mg ->
  let d := u_dev (at_ is) in
  let data := mg :: message in
  signable C O d text k data dg s olds -> Forall apdu_ok olds ->
  wallet_sheet data dg rows -> (List.length rows < 256)%nat -> (forall row, In row rows -> ~ unshowable O (snd row)) ->
  (forall sh p, exists room, cf_room C (VSign sh dg p data) = Some room /\ len dg + len s + 2 <= room) ->
  exists screens,
    Forall2 (fun row hs => entitles (fst row) (fst hs) /\ shows O known (snd row) (concat (snd hs)) /\ (1 <= List.length (snd hs) <= 2)%nat) rows screens /\
    forall bs, Forall arrow bs -> let n := presses_needed hw screens in let i := walk (S n) 0 bs in
    exists here, Forall input_ok here /\ forall later,
    let called := call H (held C O known hw) text (fst k) message (at_ is, map (fun old : bytes => (old, bs ++ [Both])) olds ++ later) in
    let d' := u_dev (at_ here) in
    (i = n -> called = (mkSignRes 0x9000 (Some dg) (Some s), (at_ here, later)) /\
      d_log d' = mkSig SrcReview k dg data :: d_log d /\ d_ui d' = None /\ forall sl, wear_read (get_slot sl d') = wear_read (get_slot sl d)) /\
    (i = S n -> called = (mkSignRes 0x6986 None None, (at_ here, later)) /\ d_ui d' = None /\ untouched d d') /\
    ((i < n)%nat -> called = (mkSignRes OTHER_ERROR None None, (at_ here, later)) /\ d_ui d' <> None /\ untouched d d').
Proof. exact called. Qed.
Print Assumptions C95_called.

(** C95. There is a number of presses [n], between the number of rows and one more than
    twice that, such that: a test with 30 right, one left and both passes exactly if [n]
    is at most 29 and the signature verifies; a test that navigates [[m, 0]] passes exactly
    if [m] is [n] and the signature verifies. If a test does not reach the approval,
    nothing is signed. *)
Theorem C95_tests : forall C O hw f u H V, oracles_ok O -> Forall up_fault_ok u -> host_ok H O ->
  forall is call mg kind text k message dg s olds rows pk old more,
  let at_ is := snd (ui_run C O known hw (ui_fresh hw f u) is) in
  Forall input_ok is -> wallet_call C call mg -> legacy_magic kind = mg ->
  let d := u_dev (at_ is) in
  let data := mg :: message in
  signable C O d text k data dg s olds -> Forall apdu_ok olds -> addressable O k pk -> apdu_ok old ->
  wallet_sheet data dg rows -> (List.length rows < 256)%nat -> (forall row, In row rows -> ~ unshowable O (snd row)) ->
  (forall sh p, exists room, cf_room C (VSign sh dg p data) = Some room /\ len dg + len s + 2 <= room) ->
  exists n, (List.length rows <= n <= 2 * List.length rows + 1)%nat /\
    (let t := sign_test V H (held C O known hw) call kind text (fst k) message
       (at_ is, map (fun old : bytes => (old, to_the_end)) olds ++ [(old, more)]) in
     let d' := u_dev (fst (snd t)) in
     (fst t = true <-> (n <= 29)%nat /\ signature_ok V (fst k) s dg (Some pk) = true) /\
     ((n <= 29)%nat -> d_log d' = mkSig SrcReview k dg data :: d_log d) /\ (~ (n <= 29)%nat -> untouched d d')) /\
    (forall m, let t := sign_test V H (held C O known hw) call kind text (fst k) message
       (at_ is, map (fun old : bytes => (old, navigation m)) olds ++ [(old, more)]) in
     let d' := u_dev (fst (snd t)) in
     (fst t = true <-> m = n /\ signature_ok V (fst k) s dg (Some pk) = true) /\
     (m = n -> d_log d' = mkSig SrcReview k dg data :: d_log d) /\ (m <> n -> untouched d d')).
Proof. exact vectors. Qed.
Print Assumptions C95_tests.
Example C95_tests_case : let rows := wallet_rows in let dg := blake2b 32 (3 :: op_message) in
  (Forall input_ok wallet_hand /\ wallet_call wallet_config (W := desk) (@sign_operation desk) 3 /\
   signable wallet_config demo_oracles (u_dev desk_wallet) client_text (client_key Ed25519) (3 :: op_message) dg op_sig (olds 2) /\
   Forall apdu_ok (olds 2) /\ wallet_sheet (3 :: op_message) dg rows /\ (List.length rows < 256)%nat /\
   (forall row, In row rows -> ~ unshowable demo_oracles (snd row)) /\
   (forall sh p, exists room, cf_room wallet_config (VSign sh dg p (3 :: op_message)) = Some room /\ len dg + len op_sig + 2 <= room) /\
   z_expert (u_zui desk_wallet) = false) /\
  addressable demo_oracles (client_key Ed25519) (demo_pubkey Ed25519 client_path) /\ apdu_ok stale /\
  host_ok demo_host demo_oracles /\ oracles_ok demo_oracles.
Proof. exact vectors_case. Qed.
Example C95_tests_run :
  signed_by (demo_test NanoS to_the_end 2 op_message) = (true, [3 :: op_message]) /\
  signed_by (demo_test NanoX to_the_end 2 op_message) = (true, [3 :: op_message]) /\
  signed_by (demo_test NanoS (navigation 21) 2 op_message) = (true, [3 :: op_message]) /\
  signed_by (demo_test NanoS (navigation 20) 2 op_message) = (false, []) /\
  signed_by (demo_test NanoS (navigation 22) 2 op_message) = (false, []) /\
  signed_by (demo_test NanoX (navigation 18) 2 op_message) = (true, [3 :: op_message]).
Proof. exact vectors_run. Qed.
(** The numbers of presses that the tests state for their own data, with the one exception
    of Michelson on the Nano X. *)
Example C95_samples_run :
  fst (demo_test NanoS (navigation 13) 2 sample_transaction) = true /\ fst (demo_test NanoX (navigation 11) 2 sample_transaction) = true /\
  fst (demo_test NanoS (navigation 10) 2 known_delegate) = true /\ fst (demo_test NanoX (navigation 9) 2 known_delegate) = true.
Proof. exact samples_run. Qed.
Example C95_hello_run : map (fun n => fst (hello_test NanoS n)) (seq 0 6) = map (Nat.eqb 2) (seq 0 6) /\
  map (fun n => fst (hello_test NanoX n)) (seq 0 6) = map (Nat.eqb 2) (seq 0 6).
Proof. exact hello_run. Qed.
(** 30 presses do not lead to the end of every transaction. *)
Example C95_long_refuted :
  let three := message_with [demo_delegation; demo_delegation] in
  let four := message_with [demo_delegation; demo_delegation; demo_delegation] in
  signed_by (demo_test NanoS to_the_end 2 three) = (true, [3 :: three]) /\
  signed_by (demo_test NanoS (navigation 29) 2 three) = (true, [3 :: three]) /\
  signed_by (demo_test NanoS to_the_end 3 four) = (false, []) /\
  d_ui (u_dev (fst (snd (demo_test NanoS to_the_end 3 four)))) <> None /\
  signed_by (demo_test NanoS (navigation 37) 3 four) = (true, [3 :: four]) /\
  signed_by (demo_test NanoX to_the_end 3 four) = (false, []).
Proof. exact vectors_long_run. Qed.
Example C95_too_large_run : signed_by (demo_test NanoS to_the_end 35 (repeat 0 (N.to_nat 8276))) = (false, []).
Proof. exact too_large_run. Qed.

(** C95. False: a test that signs checks the signature. With Secp256R1 there is, for any
    bytes at all, a device that returns them as the signature, gives no public key, and
    passes. *)
Theorem C95_verified_refuted : forall H O V text path message s, host_ok H O -> path_text text path ->
  List.length path = 2%nat \/ List.length path = 4%nat ->
  bytes_ok message -> (3 + 4 * List.length path + List.length message <= CAPACITY)%nat ->
  exists W (X : transport W) (w : W),
    fst (sign_operation H X text Secp256R1 message w) = mkSignRes 0x9000 (Some (sig_hash H message LkOperation)) (Some s) /\
    fst (sign_test V H X sign_operation LkOperation text Secp256R1 message w) = true.
Proof. exact unverified. Qed.
Print Assumptions C95_verified_refuted.
Example C95_verified_case : path_text client_text client_path /\ List.length client_path = 4%nat /\ bytes_ok op_message /\
  (3 + 4 * List.length client_path + List.length op_message <= CAPACITY)%nat.
Proof. exact unverified_case. Qed.
