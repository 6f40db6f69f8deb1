(** C100: the library of the emulator tests for developer builds, and these tests. *)
From Coq Require Import NArith ZArith String List Arith.
From Verif Require Import Base Codecs CodecsSpec Oracles AddressSpec AddressExamples Upload UploadSpec Device DevBuild DevSpec DevExamples
  Client ClientSpec ClientExamples KeyTestsExamples DevClient DevClientFacts DevClientSign.
Import ListNotations.
Open Scope list_scope.
Open Scope N_scope.

(** C100. With nothing waiting for a decision, the exception asked for comes back, if it is
    caught; otherwise the code 0x6400 does. The state is the one before. *)
Theorem C100_except : forall D O x old user later ex, idle x -> apdu_ok old -> 1 <= ex < 256 ->
  except (dplugged D O) true ex (x, (old, user) :: later) = (JData 0x9000 (Z.of_N ex), (x, later)) /\
  except (dplugged D O) false ex (x, (old, user) :: later) = (JCode 0x6400, (x, later)).
Proof. exact except_both. Qed.
Print Assumptions C100_except.
Theorem C100_exception_tests : forall D O x old user later, idle x -> apdu_ok old ->
  (forall b, exception_test (dplugged D O) b (x, (old, user) :: later) = true) /\
  (forall b, unknown_test (dplugged D O) b (x, (old, user) :: later) = true).
Proof. exact exception_tests. Qed.
Print Assumptions C100_exception_tests.
Example C100_idle_case : idle (dev_at []) /\ apdu_ok stale /\ u_lock (d_up (dd_dev (dev_at []))) = None.
Proof. exact idle_case. Qed.

(** C100. False: [getHash] returns the hash of its message. It counts its packets from 0 and
    marks the one numbered 1 as the first, so that the first one it sends continues an
    upload. Unless somebody else has begun one for hashing, the app refuses it; this refusal
    is not handled, and the test of hashes fails for every message. *)
Theorem C100_hash_refuted : forall D O x old user later m, idle x -> u_lock (d_up (dd_dev x)) <> Some AccSha256 ->
  apdu_ok old -> bytes_ok m -> m <> [] -> fst (get_hash (dplugged D O) m (x, (old, user) :: later)) = JThrow.
Proof. exact hash_throws. Qed.
Print Assumptions C100_hash_refuted.
Theorem C100_hash_test_refuted : forall D O x old user later m, idle x -> u_lock (d_up (dd_dev x)) <> Some AccSha256 ->
  apdu_ok old -> bytes_ok m -> hash_test (dplugged D O) m (x, (old, user) :: later) = false.
Proof. exact hash_fails. Qed.
Print Assumptions C100_hash_test_refuted.
Example C100_hash_case : u_lock (d_up (dd_dev (dev_at []))) <> Some AccSha256 /\
  Forall (fun m => bytes_ok m /\ m <> []) [chars "support.tezos@zondax.ch"; repeat 0 300].
Proof. exact hash_case. Qed.

(** C100. False: a device that passes the test of hashes has returned one. *)
Theorem C100_hash_says_refuted : forall m, m <> [] ->
  get_hash (parrot []) m tt = (JData 0x9000 None, tt) /\ hash_test (parrot []) m tt = true.
Proof. exact hash_says. Qed.
Print Assumptions C100_hash_says_refuted.

(** C100. What [getHash] sends, if nothing is refused: the message in pieces of at most 250
    bytes, of which the second of three or more is the one that is marked as the first. *)
Theorem C100_hash_packets : forall m, m <> [] -> exists cs, concat cs = m /\
  Forall (fun c => (1 <= List.length c <= 250)%nat) cs /\ List.length cs = N.to_nat ((len m + 249) / 250) /\
  get_hash recorder m [] = (JData 0x9000 None,
    map (fun p => [0x80; 0xF0; fst p; 0; len (snd p)] ++ snd p) (combine (hash_marks (List.length cs)) cs)).
Proof. exact hash_sends. Qed.
Print Assumptions C100_hash_packets.
Example C100_hash_packets_case : map hash_marks [1; 2; 3; 5]%nat = [[2]; [1; 2]; [1; 0; 2]; [1; 0; 1; 1; 2]].
Proof. reflexivity. Qed.

(** C100. [display]: texts of 17 to 34 bytes are shown, and the code says what the user
    decided. The library lets texts of 35 bytes pass, too, which the app refuses. Shorter
    ones make the app die, and longer ones are not sent. *)
Theorem C100_display : forall D O x m old user later room, idle x -> apdu_ok old -> bytes_ok m ->
  (17 <= List.length m <= 34)%nat -> (forall v, dc_room D v = Some room) -> 2 <= room ->
  (user = EApprove -> display (dplugged D O) m (x, (old, user) :: later) = (JData 0x9000 tt, (x, later))) /\
  (user = EReject -> display (dplugged D O) m (x, (old, user) :: later) = (JCode 0x6986, (x, later))).
Proof. exact display_shown. Qed.
Print Assumptions C100_display.
Theorem C100_display_long : forall D O x m old user later, idle x -> apdu_ok old -> bytes_ok m -> List.length m = 35%nat ->
  display (dplugged D O) m (x, (old, user) :: later) = (JCode 0x6700, (x, later)).
Proof. exact display_long. Qed.
Print Assumptions C100_display_long.
Theorem C100_display_short : forall D O x m old user later, idle x -> apdu_ok old -> bytes_ok m -> (List.length m < 17)%nat ->
  display (dplugged D O) m (x, (old, user) :: later) = (JCode OTHER_ERROR, (drestart x, later)).
Proof. exact display_short. Qed.
Print Assumptions C100_display_short.
Theorem C100_display_too_long : forall W (X : transport W) m w, (35 < List.length m)%nat -> display X m w = (JThrow, w).
Proof. exact @display_too_long. Qed.
Print Assumptions C100_display_too_long.

(** C100. The test of texts, with an approval, passes exactly for these lengths. *)
Theorem C100_echo : forall D O x m old later room, idle x -> apdu_ok old -> bytes_ok m ->
  (forall v, dc_room D v = Some room) -> 2 <= room ->
  (echo_test (dplugged D O) m (x, (old, EApprove) :: later) = true <-> (17 <= List.length m <= 34)%nat).
Proof. exact echo_passes. Qed.
Print Assumptions C100_echo.
Example C100_echo_case : let m := chars "support.tezos@zondax.ch" in bytes_ok m /\ List.length m = 23%nat /\
  exists room, 2 <= room /\ forall v, dc_room dev_demo v = Some room.
Proof. exact echo_text_case. Qed.

(** C100. [blind_sign] returns the hash of the message with the byte 5 in front, and its
    signature with the key of the path, if the user approves, and the code 0x6986 if they
    reject; but for the upload buffer the app is left as it was. *)
Theorem C100_blind : forall D O H, host_ok H O -> forall text k message x sched later user dg s room,
  path_text text (snd k) -> List.length (snd k) = 2%nat \/ List.length (snd k) = 4%nat -> bytes_ok message ->
  (3 + 4 * List.length (snd k) + List.length message <= CAPACITY)%nat ->
  List.length sched = packets_for (5 :: message) -> deciding user sched -> ready D O x ->
  o_blake2b O 32 (5 :: message) = Some dg -> o_sign O (fst k) (snd k) dg = Some s -> oracles_ok O ->
  dc_room D (DBlind true dg (5 :: message)) = Some room -> 134 <= room ->
  exists u,
    (user = EApprove -> blind_call H (dplugged D O) text (fst k) message (x, sched ++ later) =
      (mkSignRes 0x9000 (Some dg) (Some s),
       (mkDD (set_up u (dd_dev x)) None None (mkBlind k dg (5 :: message) :: dd_log x), later))) /\
    (user = EReject -> blind_call H (dplugged D O) text (fst k) message (x, sched ++ later) =
      (mkSignRes 0x6986 None None, (mkDD (set_up u (dd_dev x)) None None (dd_log x), later))).
Proof. exact blind_called. Qed.
Print Assumptions C100_blind.
Example C100_blind_case : host_ok demo_host demo_oracles /\ path_text client_text (snd (client_key Ed25519)) /\
  List.length (snd (client_key Ed25519)) = 4%nat /\ bytes_ok [1; 2; 3] /\
  (3 + 4 * List.length (snd (client_key Ed25519)) + List.length [1; 2; 3] <= CAPACITY)%nat /\
  List.length (turns 2 EApprove) = packets_for [5; 1; 2; 3] /\ deciding EApprove (turns 2 EApprove) /\
  ready dev_demo demo_oracles (dev_at left_over) /\ oracles_ok demo_oracles /\
  exists dg s, o_blake2b demo_oracles 32 [5; 1; 2; 3] = Some dg /\
    o_sign demo_oracles Ed25519 (snd (client_key Ed25519)) dg = Some s /\
    dc_room dev_demo (DBlind true dg [5; 1; 2; 3]) = Some 200.
Proof. exact blind_call_case. Qed.
