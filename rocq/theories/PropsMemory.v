(** Property theorems C67: what the device remembers. *)
From Coq Require Import List NArith Bool Arith.
From Verif Require Import Base Flash Codecs CodecsSpec Upload UploadSpec UploadExamples Baking BakingSpec Oracles Address AddressExamples
  Device DeviceSpec DeviceHist DeviceDemo DeviceCases ServiceSpec InterruptSpec MemorySpec MemoryFacts MemoryExamples.
Import ListNotations.
Open Scope N_scope.

(** C67. Two devices may have come to their states by different histories, with power lost
    between or during any writes. If they remember the same, they answer whatever follows
    in the same way, make the same signatures, and still remember the same afterwards. *)
Theorem C67_same_memory_same_answers : forall C O f u f' u' es1 es1' es, Forall power_fault f -> Forall up_fault_ok u ->
  Forall power_fault f' -> Forall up_fault_ok u' -> Forall event_ok (es1 ++ es1' ++ es) ->
  len es1 + len es < 2 ^ 64 -> len es1' + len es < 2 ^ 64 ->
  let d := snd (run C O (dev_fresh f u) es1) in
  let d' := snd (run C O (dev_fresh f' u') es1') in
  remembers_same d d' ->
  fst (run C O d es) = fst (run C O d' es) /\
  remembers_same (snd (run C O d es)) (snd (run C O d' es)) /\
  exists l, d_log (snd (run C O d es)) = l ++ d_log d /\ d_log (snd (run C O d' es)) = l ++ d_log d'.
Proof. exact same_answers. Qed.
Print Assumptions C67_same_memory_same_answers.

(** One device has signed a block; another one has signed it, was set back, restarted, and
    signed the block again. The flash pages differ. *)
Example C67_memory_case :
  Forall event_ok (once ++ twice ++ send_message 4 demo_tb_block) /\
  remembers_same (demo_run [] once) (demo_run [] twice) /\
  length (d_log (demo_run [] once)) = 1%nat /\ length (d_log (demo_run [] twice)) = 2%nat /\
  d_main (demo_run [] once) <> d_main (demo_run [] twice).
Proof. exact once_twice. Qed.

(** C67. If no review is on the screen and no upload is in progress then nothing tells
    whether the device was restarted. *)
Theorem C67_restart_unobservable : forall C O f u es1 es, Forall power_fault f -> Forall up_fault_ok u ->
  Forall event_ok (es1 ++ es) -> len es1 + 1 + len es < 2 ^ 64 ->
  let d := snd (run C O (dev_fresh f u) es1) in
  let d' := snd (step C O d EPower) in
  d_ui d = None -> u_lock (d_up d) = None ->
  fst (run C O d es) = fst (run C O d' es) /\
  exists l, d_log (snd (run C O d es)) = l ++ d_log d /\ d_log (snd (run C O d' es)) = l ++ d_log d.
Proof. exact restart_unobservable. Qed.
Print Assumptions C67_restart_unobservable.

(** The device that has signed a block is restarted; it then signs the next message. *)
Example C67_restart_case : d_ui (demo_run [] once) = None /\ u_lock (d_up (demo_run [] once)) = None /\
  map (fun a => match a with AReply o => length o | _ => 0%nat end)
    (fst (run demo_config demo_oracles (snd (step demo_config demo_oracles (demo_run [] once) EPower)) (send_message 4 demo_tb_block)))
  <> [2; 2]%nat.
Proof. exact once_idle. Qed.

(** C67. Both conditions are needed: a restart is noticed in the middle of an upload, *)
Theorem C67_during_upload_refuted :
  ~ (forall C O f u es1 es, Forall power_fault f -> Forall up_fault_ok u ->
     Forall event_ok (es1 ++ es) -> len es1 + 1 + len es < 2 ^ 64 ->
     let d := snd (run C O (dev_fresh f u) es1) in
     let d' := snd (step C O d EPower) in
     d_ui d = None -> fst (run C O d es) = fst (run C O d' es)).
Proof. exact restart_upload. Qed.
Print Assumptions C67_during_upload_refuted.

(** and during a review. *)
Theorem C67_during_review_refuted :
  ~ (forall C O f u es1 es, Forall power_fault f -> Forall up_fault_ok u ->
     Forall event_ok (es1 ++ es) -> len es1 + 1 + len es < 2 ^ 64 ->
     let d := snd (run C O (dev_fresh f u) es1) in
     let d' := snd (step C O d EPower) in
     u_lock (d_up d) = None -> fst (run C O d es) = fst (run C O d' es)).
Proof. exact restart_review. Qed.
Print Assumptions C67_during_review_refuted.
