(** Property theorem C93: the baking flow of the unit tests. *)
From Coq Require Import NArith ZArith Bool Arith List.
From Verif Require Import Base Flash Oracles Address AddressExamples HashDemo Codecs Upload UploadSpec UploadExamples
  Baking BakingSpec Operations Device DeviceSpec DeviceDemo ServiceSpec IdealSpec Mock Harness HarnessSpec HarnessExamples.
Import ListNotations.
Open Scope N_scope.

(** C93. The baking flow of the unit tests, with any level, key and messages and after any
    other tests, passes exactly if the positions of the messages rise from the level; then
    each message was signed once, in order, and nothing else. What the signatures are does
    not matter to it. *)
Theorem C93_test_flow : forall C O es level p c pk samples, oracles_ok O -> roomy C 134 -> cf_baking C = true ->
  Forall event_ok es -> len es + 70 * (2 + len samples) < 2 ^ 64 ->
  let d := snd (run C O (dev_fresh [] []) es) in d_ui d = None ->
  let k := (c, map (fun n => 0x80000000 + n) p) in
  level < 2 ^ 32 -> Forall (fun n => n < 2 ^ 31) p -> p <> [] -> (length p <= 10)%nat ->
  addressable O k pk -> Forall (sample O k) samples ->
  let r := baking_flow C O level p c samples d in
  (fst r = true <-> rising (PEmmy level false) samples) /\
  (fst r = true -> exists gs, Forall2 (signs O k) samples gs /\ d_log (snd r) = rev gs ++ d_log d).
Proof. exact test_flow. Qed.
Print Assumptions C93_test_flow.
(** The samples of the repository pass; backwards, twice, or with something else among them
    they do not. *)
Example C93_recorded_case :
  oracles_ok demo_oracles /\ roomy demo_config 134 /\ cf_baking demo_config = true /\
  0 + 70 * (2 + len recorded) < 2 ^ 64 /\ d_ui (dev_fresh [] []) = None /\
  Forall (fun n => n < 2 ^ 31) test_path /\ addressable demo_oracles test_key (demo_pubkey test_curve (snd test_key)) /\
  Forall (Forall (sample demo_oracles test_key)) tests /\ Forall (rising (PEmmy 0 false)) tests /\
  map passes tests = [true; true; true] /\
  map passes [rev recorded; recorded ++ recorded; skipn 1 recorded ++ [emmy_blob]; [repeat 0x11 40]] = [false; false; false; false].
Proof. exact recorded_case. Qed.
