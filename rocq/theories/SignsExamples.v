(** The statements about the emulator tests that sign in final form, and cases. *)
From Coq Require Import NArith ZArith Bool Arith String List Lia.
From Coq Require Import ZifyBool ZifyNat ZifyN.
From Verif Require Import Base BaseFacts Flash Codecs CodecsSpec Oracles Address AddressSpec AddressExamples HashDemo Upload UploadSpec UploadExamples
  Operations OperationsSpec OperationsExamples Text TextSpec TextExamples Bakers BakersSpec
  Device DeviceSpec DeviceDemo DeviceExamples ServiceSpec ServiceExamples DeviceCommands Screens ScreensSpec ScreensViews ScreensExamples
  Zui UiSpec UiDevice UiRun UiCases UiExamples HandSpec HandExamples
  Client ClientSpec ClientText ClientFacts ClientSign ClientCalls ClientExamples Desk DeskSpec DeskFacts DeskExamples ArrowsSpec ArrowsFacts Signs SignsFacts Vectors.
Import ListNotations.
Open Scope list_scope.
Open Scope N_scope.

(** ** The test vectors *)
Section Tests.
  Variables (C : config) (O : oracles) (hw : hardware) (f u : list fault) (H : host) (V : verifiers).
  Hypotheses (K : oracles_ok O) (Uok : Forall up_fault_ok u) (HK : host_ok H O).
  Notation at_ is := (snd (ui_run C O known hw (ui_fresh hw f u) is)).
  Notation turns olds bs := (map (fun old : bytes => (old, bs)) olds).

  Lemma vectors is call mg kind text k message dg s olds rows pk old more : Forall input_ok is -> wallet_call C call mg -> legacy_magic kind = mg ->
    let d := u_dev (at_ is) in
    let data := mg :: message in
    signable C O d text k data dg s olds -> Forall apdu_ok olds -> addressable O k pk -> apdu_ok old ->
    wallet_sheet data dg rows -> (List.length rows < 256)%nat -> (forall row, In row rows -> ~ unshowable O (snd row)) ->
    (forall sh p, exists room, cf_room C (VSign sh dg p data) = Some room /\ len dg + len s + 2 <= room) ->
    exists n, (List.length rows <= n <= 2 * List.length rows + 1)%nat /\
      (let t := sign_test V H (held C O known hw) call kind text (fst k) message (at_ is, turns olds to_the_end ++ [(old, more)]) in
       let d' := u_dev (fst (snd t)) in
       (fst t = true <-> (n <= 29)%nat /\ signature_ok V (fst k) s dg (Some pk) = true) /\
       ((n <= 29)%nat -> d_log d' = mkSig SrcReview k dg data :: d_log d) /\ (~ (n <= 29)%nat -> untouched d d')) /\
      (forall m, let t := sign_test V H (held C O known hw) call kind text (fst k) message (at_ is, turns olds (navigation m) ++ [(old, more)]) in
       let d' := u_dev (fst (snd t)) in
       (fst t = true <-> m = n /\ signature_ok V (fst k) s dg (Some pk) = true) /\
       (m = n -> d_log d' = mkSig SrcReview k dg data :: d_log d) /\ (m <> n -> untouched d d')).
  Proof.
    intros Hi Hcall Hm d data Sb Fo Ad Ao Ws Sm Sh Room.
    destruct (tested C O hw f u K Uok H HK is call mg kind text k message dg s olds rows pk old more V Hi Hcall Hm Sb Fo Ad Ao Ws Sm Sh Room)
      as (screens & F2 & Go). cbv zeta in Go. fold d data in Go.
    pose proof (sum_bounds _ _ _ _ F2) as Bo.
    exists (presses_needed hw screens). set (n := presses_needed hw screens) in *.
    split; [unfold n, presses_needed; destruct hw; lia|]. split.
    - destruct (Go _ arrow_end) as (A & B & D). rewrite <- end_split in A, B, D. rewrite walk_end in A, B, D.
      cbv zeta. split; [|split].
      + rewrite A. split; intros [X Y]; (split; [lia|exact Y]).
      + intros X. apply B. lia.
      + intros X. apply D. lia.
    - intros m. destruct (Go _ (arrow_rights m)) as (A & B & D). fold (navigation m) in A, B, D.
      rewrite walk_rights in A, B, D by lia. cbn [Nat.add] in A, B, D. cbv zeta. split; [|split].
      + rewrite A. split; intros [X Y]; (split; [lia|exact Y]).
      + intros X. apply B. lia.
      + intros X. apply D. lia.
  Qed.
End Tests.

(** ** What is not verified *)

(** A device that says what it was told to say. *)
Definition recite (s : list bytes) (p : bytes * N) (_ : unit) : option bytes * list bytes :=
  match s with [] => (None, []) | r :: s' => (Some r, s') end.
Lemma recites ps : forall rest, goes _ _ recite tt (repeat [0x90; 0] (List.length ps) ++ rest) ps rest.
Proof. induction ps as [|p ps IH]; intros rest; [reflexivity|]. cbn [List.length repeat app goes recite]. eexists. split; [reflexivity|apply IH]. Qed.

Lemma unverified H O V text path message s : host_ok H O -> path_text text path -> List.length path = 2%nat \/ List.length path = 4%nat ->
  bytes_ok message -> (3 + 4 * List.length path + List.length message <= CAPACITY)%nat ->
  exists W (X : transport W) (w : W),
    fst (sign_operation H X text Secp256R1 message w) = mkSignRes 0x9000 (Some (sig_hash H message LkOperation)) (Some s) /\
    fst (sign_test V H X sign_operation LkOperation text Secp256R1 message w) = true.
Proof.
  intros HK T L B Cap. set (dg := sig_hash H message LkOperation).
  assert (Ld : List.length dg = 32%nat) by (apply (proj1 (hk_blake2b_bytes H O HK 32 _ ltac:(lia)))).
  destruct (wired_message _ _ recite O H HK text (Secp256R1, path) (3 :: message) false 0x12 true (repeat stale (packets_for (3 :: message))))
    as (first & mids & last & _ & G); try assumption.
  - constructor; [lia|exact B].
  - discriminate.
  - reflexivity.
  - cbn [fst snd List.length]. lia.
  - apply repeat_length.
  - apply Forall_forall. intros x Hx. apply repeat_spec in Hx. subst x. apply stale_ok.
  - specialize (G tt _ _ [] (recites (first :: mids) [dg ++ s ++ [0x90; 0]])). cbv zeta in G. cbn [fst snd recite] in G.
    rewrite read_hashed in G by exact Ld.
    match type of G with sign_message _ ?Xw _ _ _ _ _ _ ?ww = _ => exists _, Xw, ww end.
    unfold sign_test, sign_operation. rewrite G. cbn [fst sr_hash sr_sig sr_code]. split; [reflexivity|].
    fold dg. rewrite bytes_eqb_same. change ((0x9000 =? 0x9000) && true) with true. cbv iota.
    unfold get_address_and_pubkey, with_path. destruct (path_text_serialized H O text path HK T L) as [-> _].
    unfold ask, send_to, send_codes. destruct (256 <=? len (plain_path path)); reflexivity.
Qed.

(** ** Cases *)

(** A verifier that knows half of what the demonstration signs. *)
Definition demo_verifiers : verifiers :=
  mkVerifiers (fun s dg _ => bytes_eqb (skipn 32 s) (sha256 dg)) (fun _ _ _ => false).
Definition demo_test (hw : hardware) (bs : list button) (n : nat) (message : bytes) : bool * (uidev * list (bytes * list button)) :=
  sign_test demo_verifiers demo_host (held wallet_config demo_oracles known hw) sign_operation LkOperation client_text Ed25519 message
    (after_inputs wallet_config hw wallet_hand, hands n bs ++ [(stale, [])]).
Definition signed_by (t : bool * (uidev * list (bytes * list button))) : bool * list bytes :=
  (fst t, map sg_data (d_log (u_dev (fst (snd t))))).

Lemma vectors_case : let rows := wallet_rows in let dg := blake2b 32 (3 :: op_message) in
  (Forall input_ok wallet_hand /\ wallet_call wallet_config (W := desk) (@sign_operation desk) 3 /\
   signable wallet_config demo_oracles (u_dev desk_wallet) client_text (client_key Ed25519) (3 :: op_message) dg op_sig (olds 2) /\
   Forall apdu_ok (olds 2) /\ wallet_sheet (3 :: op_message) dg rows /\ (List.length rows < 256)%nat /\
   (forall row, In row rows -> ~ unshowable demo_oracles (snd row)) /\
   (forall sh p, exists room, cf_room wallet_config (VSign sh dg p (3 :: op_message)) = Some room /\ len dg + len op_sig + 2 <= room) /\
   z_expert (u_zui desk_wallet) = false) /\
  addressable demo_oracles (client_key Ed25519) (demo_pubkey Ed25519 client_path) /\ apdu_ok stale /\
  host_ok demo_host demo_oracles /\ oracles_ok demo_oracles.
Proof.
  cbv zeta. split; [exact wallet_held_case|]. split; [apply client_addressable|]. split; [exact stale_ok|].
  split; [exact demo_host_ok|exact demo_oracles_ok].
Qed.
(** A transfer and a delegation: 21 presses on the Nano S, 18 on the Nano X. *)
Lemma vectors_run :
  signed_by (demo_test NanoS to_the_end 2 op_message) = (true, [3 :: op_message]) /\
  signed_by (demo_test NanoX to_the_end 2 op_message) = (true, [3 :: op_message]) /\
  signed_by (demo_test NanoS (navigation 21) 2 op_message) = (true, [3 :: op_message]) /\
  signed_by (demo_test NanoS (navigation 20) 2 op_message) = (false, []) /\
  signed_by (demo_test NanoS (navigation 22) 2 op_message) = (false, []) /\
  signed_by (demo_test NanoX (navigation 18) 2 op_message) = (true, [3 :: op_message]).
Proof. repeat apply conj; vm_compute; reflexivity. Qed.
(** A transfer and two delegations take the 29 presses there are on the Nano S; with one
    more delegation nothing is decided. *)
Definition message_with (os : list tz_op) : bytes := tl (message_of (demo_transfer :: os)).
Lemma vectors_long_run :
  let three := message_with [demo_delegation; demo_delegation] in
  let four := message_with [demo_delegation; demo_delegation; demo_delegation] in
  signed_by (demo_test NanoS to_the_end 2 three) = (true, [3 :: three]) /\
  signed_by (demo_test NanoS (navigation 29) 2 three) = (true, [3 :: three]) /\
  signed_by (demo_test NanoS to_the_end 3 four) = (false, []) /\
  d_ui (u_dev (fst (snd (demo_test NanoS to_the_end 3 four)))) <> None /\
  signed_by (demo_test NanoS (navigation 37) 3 four) = (true, [3 :: four]) /\
  signed_by (demo_test NanoX to_the_end 3 four) = (false, []).
Proof.
  cbv zeta. split; [vm_compute; reflexivity|]. split; [vm_compute; reflexivity|]. split; [vm_compute; reflexivity|].
  split; [vm_compute; discriminate|]. split; vm_compute; reflexivity.
Qed.
Lemma unverified_case : path_text client_text client_path /\ List.length client_path = 4%nat /\ bytes_ok op_message /\
  (3 + 4 * List.length client_path + List.length op_message <= CAPACITY)%nat.
Proof.
  split; [exact client_text_ok|]. split; [reflexivity|]. split; [apply bytes_okb_ok; vm_compute; reflexivity|].
  apply Nat.leb_le. vm_compute. reflexivity.
Qed.

(** zemu/tests/data/samples.json, the one numbered 6: [SAMPLE_TRANSACTION], for which
    standard.test.ts l.159 gives 13 and 11. *)
Definition sample_transaction : bytes := unhex
  "a99b946c97ada0f42c1bdeae0383db7893351232a832d00d0cd716eb6f66e5616c0035e993d8c7aaa42b5e3ccd86a33390ececc73abd904e010a0ae807000035e993d8c7aaa42b5e3ccd86a33390ececc73abd00".
(** zemu/test-vectors/delegation.json, the first: [KNOWN_DELEGATE], for which
    standard.test.ts l.164 gives 10 and 9. *)
Definition known_delegate : bytes := unhex
  "1bb9a0d1ded53abdfc8add21f55a852b4fd5e661984155fa460a039a4234b9376e009a6090844356d979899622d85ba1602740fcaa848c03b7f50ecc0800ff00cf49f66b9ea137e11818f2a78b4b6fc9895b4e50".
Lemma samples_run :
  fst (demo_test NanoS (navigation 13) 2 sample_transaction) = true /\ fst (demo_test NanoX (navigation 11) 2 sample_transaction) = true /\
  fst (demo_test NanoS (navigation 10) 2 known_delegate) = true /\ fst (demo_test NanoX (navigation 9) 2 known_delegate) = true.
Proof. split; [vm_compute; reflexivity|]. split; [vm_compute; reflexivity|]. split; vm_compute; reflexivity. Qed.
(** A message of the size of the largest but one of the samples, 8276 bytes, does not fit
    into the buffer of the device. *)
Lemma too_large_run : signed_by (demo_test NanoS to_the_end 35 (repeat 0 (N.to_nat 8276))) = (false, []).
Proof. vm_compute. reflexivity. Qed.
(** standard.test.ts l.170: [blind-hello], for which it gives 2 and 3: on the Nano X the
    system divides the 64 digits of the hash into two pages by itself
    (zemu/snapshots/x-sign-blind-hello-0), which is one press more than the model. *)
Definition hello_test (hw : hardware) (n : nat) : bool * (uidev * list (bytes * list button)) :=
  sign_test demo_verifiers demo_host (held wallet_config demo_oracles known hw) sign_michelson LkMichelson client_text Ed25519 (chars "hello@zondax.ch")
    (after_inputs wallet_config hw wallet_hand, hands 2 (navigation n) ++ [(stale, [])]).
Lemma hello_run : map (fun n => fst (hello_test NanoS n)) (seq 0 6) = map (Nat.eqb 2) (seq 0 6) /\
  map (fun n => fst (hello_test NanoX n)) (seq 0 6) = map (Nat.eqb 2) (seq 0 6).
Proof. split; vm_compute; reflexivity. Qed.
