(** Property theorems C21-C24, C27 and C42: upload buffer, uploads, lock. *)
From Coq Require Import List NArith Bool Arith.
From Verif Require Import Base Flash Codecs Upload UploadSpec UploadFacts UploadExamples.
Import ListNotations.
Open Scope N_scope.

(** C21. For any capacities with RAM <= flash and any history of writes and
    resets, the buffer holds what a plain byte accumulator of the flash capacity
    holds, and accepts and refuses the same writes. *)
Theorem C21_buffer_is_accumulator : forall (RAM FLASH : nat) (b : sbuf) (ops : list sbop),
  (RAM <= FLASH)%nat -> sbuf_ok RAM FLASH b ->
  let (b', results) := sb_run RAM FLASH b ops in
  (sb_read_exact b', results) = acc_run FLASH (sb_read_exact b) ops.
Proof. exact buffer_is_accumulator. Qed.
Print Assumptions C21_buffer_is_accumulator.

Example C21_case : sbuf_ok 4 9 demo_buf /\
  acc_run 9 (sb_read_exact demo_buf) demo_sbops = ([1; 2; 3; 4; 5; 6; 7; 8; 9], [true; true; true; false; true]).
Proof. exact demo_buf_ok. Qed.

(** C21. Even when flash writes fail (without tearing the flash), a write that
    is not accepted leaves the contents unchanged and an accepted one appends. *)
Theorem C21_refused_write_keeps_contents :
  forall (RAM FLASH : nat) (b : sbuf) (l : bytes) (faults : list fault),
  (RAM <= FLASH)%nat -> sbuf_ok RAM FLASH b -> Forall fault_untorn faults ->
  let '(b', r, _) := sb_write RAM FLASH b l faults in
  sb_read_exact b' = match r with SbOk => sb_read_exact b ++ l | _ => sb_read_exact b end.
Proof. exact refused_write_keeps_contents. Qed.
Print Assumptions C21_refused_write_keeps_contents.

Example C21_case_faults : Forall fault_untorn [WOk; WFail TOld] /\
  sb_write 4 9 demo_buf [1; 2; 3; 4; 5] [WOk; WFail TOld]
  = (mkSbuf [0; 0; 0; 0] (zeros 9) (InFlash 0), SbErr, []).
Proof. split; [repeat constructor|reflexivity]. Qed.

(** C22. Whatever was in the uploader before, an initial packet, any number of
    intermediate packets and a final one hand the command exactly P2, the
    initial payload and the concatenation of the other payloads. *)
Theorem C22_upload_reassembles :
  forall (u : ustate) (a : accessor) (first : bytes) (mids : list bytes) (last : bytes),
  sbuf_ok RAM_CAP FLASH_CAP (u_buf u) ->
  Forall apdu_ok (first :: mids ++ [last]) ->
  kind_of (nth 2 first 0) = Some KInit ->
  Forall (fun b : bytes => kind_of (nth 2 b 0) = Some KNext) mids ->
  kind_of (nth 2 last 0) = Some KLast ->
  let data := concat (map pay (mids ++ [last])) in
  (1 + length (pay first) + length data <= CAPACITY)%nat ->
  fst (up_run u (map (pair a) (first :: mids ++ [last])))
  = Ok None :: map (fun _ => Ok None) mids ++ [Ok (Some (mkUO (nth 3 first 0) (pay first) data))].
Proof. exact up_reassembles. Qed.
Print Assumptions C22_upload_reassembles.

Example C22_case :
  Forall apdu_ok (demo_first :: [demo_mid; demo_mid] ++ [demo_last]) /\
  kind_of (nth 2 demo_first 0) = Some KInit /\
  Forall (fun b : bytes => kind_of (nth 2 b 0) = Some KNext) [demo_mid; demo_mid] /\
  kind_of (nth 2 demo_last 0) = Some KLast /\
  fst (up_run u_fresh (map (pair AccSign) (demo_first :: [demo_mid; demo_mid] ++ [demo_last])))
  = [Ok None; Ok None; Ok None; Ok (Some (mkUO 7 [1; 2] ([3; 4; 5; 3; 4; 5; 6])))].
Proof. exact demo_upload_ok. Qed.

(** C23, C24. From power-on, for every interleaving of arbitrary full-size APDUs
    of the upload commands, the answers are those of the abstract protocol
    machine: foreign or unstarted packets are refused (Busy, ExecutionError)
    without touching the upload in progress, unknown packet types are
    InvalidP1P2, and packets beyond the capacity are DataInvalid. *)
Theorem C23_C24_upload_refines_protocol : forall trace : list (accessor * bytes),
  Forall (fun p => apdu_ok (snd p)) trace ->
  fst (up_run u_fresh trace) = fst (proto_run None trace).
Proof. exact upload_refines_protocol. Qed.
Print Assumptions C23_C24_upload_refines_protocol.

Example C23_case :
  Forall (fun p => apdu_ok (snd p)) demo_trace /\
  fst (up_run u_fresh demo_trace)
  = [Err ExecutionError; Ok None; Err Busy; Err InvalidP1P2;
     Ok (Some (mkUO 7 [1; 2] [6])); Err ExecutionError].
Proof. exact demo_trace_ok. Qed.

(** C24. The capacity is exact: a first packet and 32 full packets fit, the
    33rd is refused. *)
Example C24_case :
  nth 33 (fst (up_run u_fresh demo_long)) (Ok None) = Err DataInvalid /\
  Forall (fun o => o = Ok None) (firstn 33 (fst (up_run u_fresh demo_long))).
Proof. exact demo_long_ok. Qed.

(** C27 is false of the code: the payload can contain bytes left over from an
    earlier APDU, beyond the received length. *)
Theorem C27_payload_inside_apdu_refuted :
  ~ (forall (buf buf' : bytes) (rx : N), apdu_ok buf -> apdu_ok buf' ->
     apdu_read_ok buf rx = true -> firstn (N.to_nat rx) buf = firstn (N.to_nat rx) buf' ->
     apdu_payload buf = apdu_payload buf').
Proof. exact payload_refuted. Qed.
Print Assumptions C27_payload_inside_apdu_refuted.

(** C27, the part that holds: when the length byte is consistent with the
    received length, the payload is the announced part of the received bytes.
    Missing: the inconsistent case, which is false (see above). *)
Theorem C27_consistent_payload_partial : forall (buf : bytes) (rx : N),
  apdu_read_ok buf rx = true -> 5 + nth 4 buf 0 <= rx ->
  apdu_payload buf = Some (slice 5 (N.to_nat (nth 4 buf 0)) (firstn (N.to_nat rx) buf)).
Proof. exact payload_inside. Qed.
Print Assumptions C27_consistent_payload_partial.

Example C27_case : apdu_read_ok demo_first 7 = true /\ 5 + nth 4 demo_first 0 <= 7 /\
  apdu_payload demo_first = Some [1; 2].
Proof. vm_compute. repeat split; discriminate. Qed.

(** C42. For callers of any type: acquiring and releasing succeed exactly for
    the caller that holds the lock, which is unique. *)
Theorem C42_lock_is_exclusive : forall (A : Type) (eqb : A -> A -> bool),
  (forall a b, eqb a b = true <-> a = b) ->
  forall (ops : list (lop A)) (a : A),
  (lock_acquire eqb (lock_run eqb ops) a = None <-> holds a ops) /\
  (snd (lock_release eqb (lock_run eqb ops) a) = None <-> holds a ops) /\
  (lock_acquire eqb (lock_run eqb ops) a = Some LBusy <-> exists b, b <> a /\ holds b ops) /\
  (forall b, holds a ops -> holds b ops -> a = b).
Proof. exact lock_is_exclusive. Qed.
Print Assumptions C42_lock_is_exclusive.

Example C42_case : (forall a b, acc_eqb a b = true <-> a = b) /\
  holds AccBaking [LLock AccSign; LLock AccBaking; LRelease AccSign].
Proof.
  split; [exact acc_eqb_eq|]. exists [LLock AccSign], [LRelease AccSign].
  split; [reflexivity|]. intros o [<-|[]]. discriminate.
Qed.
