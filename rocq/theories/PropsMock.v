(** Property theorems C90: the build of the unit tests. *)
From Coq Require Import NArith ZArith Bool Arith String List.
From Verif Require Import Base Flash Oracles Address AddressExamples HashDemo Codecs Upload UploadSpec UploadExamples
  Baking Operations Device DeviceSpec DeviceDemo ServiceSpec Mock MockSpec MockExamples.
Import ListNotations.
Open Scope list_scope.
Open Scope N_scope.

(** C90. Whatever commands a unit test sends, after any history, it sees what a host sees
    of a device whose user approves every review: the same answers in the same order, the
    answer of a review in the buffer of the display, and a panic exactly where the device
    stops. Without a panic the two end in the same state. *)
Theorem C90_test_build : forall C O f es0 cs, oracles_ok O -> roomy C 134 ->
  Forall event_ok es0 -> Forall (fun c => apdu_ok (fst c)) cs ->
  let d := snd (run C O (dev_fresh f []) es0) in d_ui d = None ->
  tells (fst (mock_run C O d cs)) (fst (run C O d (approving cs))) /\
  (~ In Panicked (fst (mock_run C O d cs)) -> snd (mock_run C O d cs) = snd (run C O d (approving cs))).
Proof. exact test_build. Qed.
Print Assumptions C90_test_build.
Example C90_tested_case :
  oracles_ok demo_oracles /\ roomy demo_config 134 /\ Forall (fun c => apdu_ok (fst c)) tested /\
  d_ui (dev_fresh [] []) = None /\
  map sizes (fst (mock_run demo_config demo_oracles (dev_fresh [] []) tested)) =
    [Some (2, Some 36); Some (2, None); Some (2, None); Some (2, Some 98); Some (6, None); Some (2, None)]%nat /\
  map sg_data (d_log (snd (mock_run demo_config demo_oracles (dev_fresh [] []) tested))) = [[5; 1; 2; 3]].
Proof. exact tested_case. Qed.

(** C90 is false without room for the reviews: the test build does not check whether a
    review fits its memory, and signs where the device answers an error. *)
Theorem C90_no_room_refuted :
  let signing := [(apdu 0x12 0 0 (path_serialize demo_path), 5 + len (path_serialize demo_path)); (apdu 0x12 0x81 0 [5; 1; 2; 3], 9)] in
  let d := dev_fresh [] [] in
  map sg_data (d_log (snd (mock_run cramped_config demo_oracles d signing))) = [[5; 1; 2; 3]] /\
  map sizes (fst (mock_run cramped_config demo_oracles d signing)) = [Some (2, None); Some (2, Some 98)]%nat /\
  fst (run cramped_config demo_oracles d (approving signing)) =
    [AReply [0x90; 0]; ANone; AReply (be 2 (sw ExecutionError)); ANone] /\
  d_log (snd (run cramped_config demo_oracles d (approving signing))) = [].
Proof. exact cramped. Qed.
Print Assumptions C90_no_room_refuted.
