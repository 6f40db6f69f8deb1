(** Property theorems C94: the messages of the emulator tests. *)
From Coq Require Import NArith ZArith Bool Arith List.
From Verif Require Import Base Flash Codecs CodecsSpec Upload UploadSpec Baking BakingSpec Operations Oracles
  AddressExamples Device DeviceSpec DeviceDemo ServiceSpec IdealSpec Client ClientSpec ClientExamples
  Blobs BlobsSpec BlobsFacts BlobsSession BlobsExamples.
Import ListNotations.
Open Scope list_scope.
Open Scope N_scope.

(** C94. From arguments in their ranges the helpers make a message that the library marks
    and the app reads at one position. It is the position the call states, unless the call
    asks for a block of round 0. *)
Theorem C94_messages : forall c, fits c -> exists m magic,
  blob c = Some m /\ baker_magic (blob_kind c) m = Some magic /\ bytes_ok (magic :: m) /\
  consensus_in (magic :: m) = Position (built c) /\ signed_pos (magic :: m) = Some (built c) /\
  (built c = stated c <-> ~ round_zero c).
Proof. exact messages_made. Qed.
Print Assumptions C94_messages.

(** C94. All other arguments are an exception. *)
Theorem C94_throws : forall c,
  match c with CallEndo _ branch _ _ _ => length branch = 32%nat /\ bytes_ok branch | _ => True end ->
  (blob c = None <-> ~ fits c).
Proof. exact blob_throws. Qed.
Print Assumptions C94_throws.
Example C94_messages_case : fits (CallBlock 0 5 (Some 1%Z)) /\ fits (CallBlock 0 5 (Some 0%Z)) /\ round_zero (CallBlock 0 5 (Some 0%Z)) /\
  ~ fits (CallBlock 0 (-1) None) /\ ~ fits (CallEndo 0 NO_BRANCH 5 TEndorsement None) /\
  blob (CallEndo 0 NO_BRANCH 5 TEndorsement None) = None.
Proof. exact messages_case. Qed.

(** C94. A block of round 0 is not a block of Tenderbake, and no arguments and no magic
    byte make one. *)
Theorem C94_round_zero_refuted :
  (forall chain level, get_blocklevel_info chain level (Some 0%Z) = get_blocklevel_info chain level None) /\
  forall chain level round m x l, get_blocklevel_info chain level round = Some m ->
    consensus_in (x :: m) <> Position (PTB l 0 KBlock).
Proof. exact round_zero_lost. Qed.
Print Assumptions C94_round_zero_refuted.

(** C94. A test passes exactly if what it expects of each message is what a baker makes of
    the messages one after the other; and then the device has signed the accepted ones, in
    this order. *)
Theorem C94_test : forall C O H, host_ok H O -> oracles_ok O -> roomy C 110 -> cf_baking C = true ->
  forall es text (k : key) pk steps sched, Forall event_ok es -> len es + 3 + 2 * len steps < 2 ^ 64 ->
  let d := snd (run C O (dev_fresh [] []) es) in d_ui d = None ->
  path_text text (snd k) -> length (snd k) = 2%nat \/ length (snd k) = 4%nat -> addressable O k pk -> signs_all O k ->
  Forall fits (map fst steps) -> length sched = (2 + 2 * length steps)%nat -> deciding EApprove sched ->
  let r := baking_test H (plugged C O) text (fst k) steps (d, sched) in
  let ps := map built (map fst steps) in
  (fst r = true <-> map snd steps = verdicts (PEmmy 0 false) ps) /\
  (fst r = true -> exists gs, Forall2 (signed_at k) (accepted (PEmmy 0 false) ps) gs /\ d_log (fst (snd r)) = rev gs ++ d_log d).
Proof. exact test_held. Qed.
Print Assumptions C94_test.

(** C94. A test one of whose messages cannot be made fails, even if it expects no success
    there, and whatever the device answers. *)
Theorem C94_exception : forall W H (X : transport W) path c l w,
  Exists (fun s => branch_given (fst s) /\ ~ fits (fst s)) l -> fst (baking_test H X path c l w) = false.
Proof. exact @test_throws. Qed.
Print Assumptions C94_exception.
Example C94_exception_case : Exists (fun s => branch_given (fst s) /\ ~ fits (fst s)) throwing_test.
Proof. exact throwing_case. Qed.

(** C94. The six tests pass. *)
Theorem C94_suite : forall C O H es text (k : key) pk t sched,
  host_ok H O -> oracles_ok O -> roomy C 110 -> cf_baking C = true ->
  Forall event_ok es -> len es + 13 < 2 ^ 64 ->
  let d := snd (run C O (dev_fresh [] []) es) in d_ui d = None ->
  path_text text (snd k) -> length (snd k) = 2%nat \/ length (snd k) = 4%nat -> addressable O k pk -> signs_all O k ->
  In t (EMMY_TESTS ++ TENDERBAKE_TESTS) -> length sched = (2 + 2 * length t)%nat -> deciding EApprove sched ->
  fst (baking_test H (plugged C O) text (fst k) t (d, sched)) = true.
Proof. exact suite_passes. Qed.
Print Assumptions C94_suite.
Example C94_suite_case : forall n c, host_ok demo_host demo_oracles /\ oracles_ok demo_oracles /\ roomy demo_config 110 /\
  cf_baking demo_config = true /\ Forall event_ok [] /\ d_ui (snd (run demo_config demo_oracles (dev_fresh [] []) [])) = None /\
  path_text client_text (snd (client_key c)) /\ length (snd (client_key c)) = 4%nat /\
  addressable demo_oracles (client_key c) (demo_pubkey c client_path) /\ signs_all demo_oracles (client_key c) /\
  deciding EApprove (turns n EApprove) /\ length (turns n EApprove) = n.
Proof. exact suite_case. Qed.

(** C94. They say nothing about rounds: an app that says anything about two messages of
    different rounds, and is right otherwise, passes them too. *)
Theorem C94_rounds_untested : forall rule, ignores_rounds rule -> forall t, In t (EMMY_TESTS ++ TENDERBAKE_TESTS) ->
  map snd t = verdicts_by rule (PEmmy 0 false) (map built (map fst t)).
Proof. exact rounds_untested. Qed.
Print Assumptions C94_rounds_untested.
Example C94_wrong_rules : ignores_rounds without_rounds /\ ignores_rounds lower_rounds /\
  without_rounds (PTB 5 1 KBlock) (PTB 5 0 KPre) = true /\ lower_rounds (PTB 5 1 KBlock) (PTB 5 0 KBlock) = true /\
  accepts (PTB 5 1 KBlock) (PTB 5 0 KPre) = false /\ accepts (PTB 5 1 KBlock) (PTB 5 0 KBlock) = false.
Proof. exact wrong_rules. Qed.
Example C94_last_test : accepted (PEmmy 0 false) (map built (map fst last_test)) =
    [PEmmy 5 false; PTB 5 1 KBlock; PTB 5 1 KPre; PTB 5 1 KEnd] /\
  map stated (map fst last_test) = [PTB 5 0 KBlock; PTB 5 0 KBlock; PTB 5 1 KBlock; PTB 5 1 KPre; PTB 5 1 KEnd] /\
  verdicts (PEmmy 0 false) [PTB 5 1 KBlock; PTB 5 0 KBlock; PTB 5 2 KBlock] = [true; false; true].
Proof. exact last_test_positions. Qed.
