(** Property theorems C92: the fuzz targets. *)
From Coq Require Import NArith ZArith Bool Arith List.
From Verif Require Import Base Flash Codecs Upload UploadSpec Operations Oracles AddressExamples
  Device DeviceSpec DeviceDemo ServiceSpec StopSpec Mock MockSpec Fuzz FuzzFacts.
Import ListNotations.
Open Scope list_scope.
Open Scope N_scope.

(** C92. The target of the operations ends for every input, without a crash and within
    one round per byte. *)
Theorem C92_operations_target : forall data, fuzz_operations (S (length data)) data = Done.
Proof. exact operations_target. Qed.
Print Assumptions C92_operations_target.

(** C92. The target of the commands crashes exactly at an input that completes the upload
    of a block with a short fitness for the authorised key. *)
Theorem C92_apdu_target : forall C O xs, oracles_ok O -> (8 <= length (cf_commit C))%nat -> roomy C 134 ->
  Forall bytes_ok xs -> 2 * len xs + 1 < 2 ^ 64 ->
  (In Panicked (fuzz_apdu C O xs) <->
   exists pre x post, xs = pre ++ x :: post /\
     let es := approving (map (fun x => (fuzz_buffer x, 260)) pre) in
     fatal C O (snd (run C O (dev_fresh [] []) es)) (uploading C O (dev_fresh [] []) None es) (EApdu (fuzz_buffer x) 260)).
Proof. exact apdu_target. Qed.
Print Assumptions C92_apdu_target.
Example C92_crash_case : (8 <= length (cf_commit demo_config))%nat /\ roomy demo_config 134 /\ Forall bytes_ok crash /\
  In Panicked (fuzz_apdu demo_config demo_oracles crash) /\
  ~ In Panicked (fuzz_apdu demo_config demo_oracles (firstn 3 crash)).
Proof. exact crash_case. Qed.

(** C92. So nothing is to be found in the wallet. *)
Theorem C92_wallet_never_crashes : forall C O xs, oracles_ok O -> (8 <= length (cf_commit C))%nat -> roomy C 134 ->
  cf_baking C = false -> Forall bytes_ok xs -> 2 * len xs + 1 < 2 ^ 64 -> ~ In Panicked (fuzz_apdu C O xs).
Proof. exact wallet_never_crashes. Qed.
Print Assumptions C92_wallet_never_crashes.

(** C92. No single input crashes a fresh process: a crash that is found depends on the
    inputs before it, and the input the fuzzer saves does not reproduce it. *)
Theorem C92_one_input : forall C O x, oracles_ok O -> (8 <= length (cf_commit C))%nat -> roomy C 134 -> bytes_ok x ->
  ~ In Panicked (fuzz_apdu C O [x]).
Proof. exact one_input. Qed.
Print Assumptions C92_one_input.
