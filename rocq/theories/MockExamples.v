(** The build of the unit tests: the statement in final form and concrete runs. *)
From Coq Require Import NArith ZArith Bool Arith String List Lia.
From Verif Require Import Base BaseFacts Flash Oracles Address AddressExamples HashDemo Codecs Upload UploadSpec UploadExamples
  Baking Operations OperationsExamples Device DeviceSpec DeviceDemo DeviceExamples ServiceSpec StopExamples Mock MockSpec MockFacts.
Import ListNotations.
Open Scope list_scope.
Open Scope N_scope.

Lemma test_build C O f es0 cs : oracles_ok O -> roomy C 134 ->
  Forall event_ok es0 -> Forall (fun c => apdu_ok (fst c)) cs ->
  let d := snd (run C O (dev_fresh f []) es0) in d_ui d = None ->
  tells (fst (mock_run C O d cs)) (fst (run C O d (approving cs))) /\
  (~ In Panicked (fst (mock_run C O d cs)) -> snd (mock_run C O d cs) = snd (run C O d (approving cs))).
Proof. intros K R E0 Ec d D. exact (mock_tells C O K R f cs es0 E0 Ec D). Qed.

(** Authorise, reset, sign a Michelson value, ask for the watermark, send nonsense. *)
Definition tested : list (bytes * N) :=
  let c ins p1 payload := (apdu ins p1 0 payload, 5 + len payload) in
  [c 0xA1 1 (path_serialize demo_path); c 0x06 0 (be 4 1499999);
   c 0x12 0 (path_serialize demo_path); c 0x12 0x81 [5; 1; 2; 3];
   c 0x08 0 []; c 0x77 0 []].

Definition sizes (s : seen) : option (nat * option nat) :=
  match s with Saw a o => Some (List.length a, option_map (@List.length N) o) | Panicked => None end.

Lemma tested_case :
  oracles_ok demo_oracles /\ roomy demo_config 134 /\ Forall (fun c => apdu_ok (fst c)) tested /\
  d_ui (dev_fresh [] []) = None /\
  map sizes (fst (mock_run demo_config demo_oracles (dev_fresh [] []) tested)) =
    [Some (2, Some 36); Some (2, None); Some (2, None); Some (2, Some 98); Some (6, None); Some (2, None)]%nat /\
  map sg_data (d_log (snd (mock_run demo_config demo_oracles (dev_fresh [] []) tested))) = [[5; 1; 2; 3]].
Proof.
  split; [exact demo_oracles_ok|]. split; [intros v; exists 200; split; [reflexivity|discriminate]|].
  split; [repeat (apply Forall_cons; [apply apdu_okb_ok; vm_compute; reflexivity|]); apply Forall_nil|].
  split; [reflexivity|]. split; vm_compute; reflexivity.
Qed.

(** A configuration in which no review fits the memory left for it. *)
Definition cramped_config : config :=
  mkConfig true (cf_version demo_config) (cf_target demo_config) (cf_commit demo_config) (fun _ => None).

Lemma cramped :
  let signing := [(apdu 0x12 0 0 (path_serialize demo_path), 5 + len (path_serialize demo_path)); (apdu 0x12 0x81 0 [5; 1; 2; 3], 9)] in
  let d := dev_fresh [] [] in
  map sg_data (d_log (snd (mock_run cramped_config demo_oracles d signing))) = [[5; 1; 2; 3]] /\
  map sizes (fst (mock_run cramped_config demo_oracles d signing)) = [Some (2, None); Some (2, Some 98)]%nat /\
  fst (run cramped_config demo_oracles d (approving signing)) =
    [AReply [0x90; 0]; ANone; AReply (be 2 (sw ExecutionError)); ANone] /\
  d_log (snd (run cramped_config demo_oracles d (approving signing))) = [].
Proof. cbv zeta. repeat match goal with |- _ /\ _ => split end; vm_compute; reflexivity. Qed.
