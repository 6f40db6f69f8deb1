(** C72-C74: exceptions of the system and the main loop. *)
From Coq Require Import List NArith.
From Verif Require Import Base Codecs Oracles Device DeviceSpec DeviceDemo AddressExamples Catch Loop LoopSpec LoopFacts LoopExamples.
Import ListNotations.
Open Scope N_scope.

(** ** C72 *)

Theorem C72_catch_partial : forall p, throws (fun e => 0 < e < 2 ^ 16) p ->
  runs_to p (fst (meaning (fun e => e) p)) (snd (meaning (fun e => e) p)).
Proof. exact LoopFacts.catch_exact. Qed.
Print Assumptions C72_catch_partial.
Theorem C72_catch_any_code : forall p, throws (fun e => (if e =? 0 then 1 else e) mod 2 ^ 16 <> 0) p ->
  let m := meaning (fun e => (if e =? 0 then 1 else e) mod 2 ^ 16) p in runs_to p (fst m) (snd m).
Proof. exact LoopExamples.catch_low_final. Qed.
Print Assumptions C72_catch_any_code.
Example C72_catch_case : throws (fun e => 0 < e < 2 ^ 16) nested /\
  meaning (fun e => e) nested = ([1; 2; 5; 3], inl 6).
Proof. exact LoopExamples.nested_case. Qed.
Example C72_nested_case : machine_run 20 (machine_start nested) = MDone 6 /\
  m_effects (machine_last 20 (machine_start nested)) = [1; 2; 5; 3] /\ m_context (machine_last 20 (machine_start nested)) = None.
Proof. exact LoopExamples.nested_runs. Qed.

Theorem C72_error_roundtrip : forall raw, raw < 2 ^ 32 -> code_of (sys_error_of raw) = raw.
Proof. exact LoopFacts.error_roundtrip. Qed.
Print Assumptions C72_error_roundtrip.
Theorem C72_error_kind : forall raw, raw < 2 ^ 32 -> (exists c, sys_error_of raw = ESyscall c) <-> raw < 2 ^ 16.
Proof. exact LoopFacts.error_kind. Qed.
Print Assumptions C72_error_kind.
Example C72_error_case : sys_error_of 0xFFFFFF84 = ECx 0xFFFFFF84 /\ sys_error_of 0x6A80 = ESyscall 0x6A80.
Proof. split; reflexivity. Qed.

(** A thrown code of the cryptographic library comes out cut, as one of the system. *)
Theorem C72_cx_code_refuted : forall e, 2 ^ 16 <= e < 2 ^ 32 -> e mod 2 ^ 16 <> 0 ->
  sys_error_of e = ECx e /\
  runs_to (catch (PThrow e) (fun v => PRet v) (fun x => PRet (match x with ESyscall c => 2 * c | ECx c => 2 * c + 1 end)))
          [] (inl (2 * (e mod 2 ^ 16))).
Proof. exact LoopExamples.cx_lost. Qed.
Print Assumptions C72_cx_code_refuted.
Example C72_cx_code_case : 2 ^ 16 <= 0xFFFFFF84 < 2 ^ 32 /\ 0xFFFFFF84 mod 2 ^ 16 = 0xFF84.
Proof. split; [split; [discriminate|reflexivity]|reflexivity]. Qed.
(** A code whose low half is zero makes the closure run again, without end. *)
Theorem C72_low_half_zero_refuted : forall e, e <> 0 -> e mod 2 ^ 16 = 0 -> forall n,
  (exists m, machine_run n (machine_start (again e)) = MStep m) /\
  m_effects (machine_last (1 + 2 * n) (machine_start (again e))) = repeat 7 n.
Proof. exact LoopExamples.again_forever. Qed.
Print Assumptions C72_low_half_zero_refuted.
Example C72_low_half_zero_case : 0x10000 <> 0 /\ 0x10000 mod 2 ^ 16 = 0 /\ meaning (fun e => e) (again 0x10000) = ([7], inl 0x10000).
Proof. split; [discriminate|]. split; reflexivity. Qed.

(** ** C73 *)

Theorem C73_alternation : forall C O f u is w l, Forall io_ok is -> Forall steady_io is ->
  loop_run C O (boot (dev_fresh f u)) is = Some (w, l) -> alternates false w.
Proof. exact LoopExamples.wire_alternates. Qed.
Print Assumptions C73_alternation.
Theorem C73_wire_is_run : forall C O f u is, Forall io_ok is -> Forall calm_io is ->
  exists w l es, loop_run C O (boot (dev_fresh f u)) is = Some (w, l) /\ Forall event_ok es /\
    on_wire es (fst (run C O (dev_fresh f u) es)) = w /\ snd (run C O (dev_fresh f u) es) = l_dev l.
Proof. exact LoopExamples.wire_is_run. Qed.
Print Assumptions C73_wire_is_run.
Theorem C73_review_blocks : forall C O f u is w l c tail, Forall io_ok is -> Forall steady_io is ->
  loop_run C O (boot (dev_fresh f u)) is = Some (w, l) -> l_up l = true ->
  (d_ui (l_dev l) <> None <-> loop_step C O l (IoCommand c tail) = Some ([], l)).
Proof. exact LoopExamples.pending_takes_nothing. Qed.
Print Assumptions C73_review_blocks.
Example C73_session_case : Forall io_ok session /\ Forall calm_io session /\
  option_map fst (loop_run demo_config demo_oracles (boot (dev_fresh [] [])) session) = Some session_wire.
Proof. exact LoopExamples.session_case. Qed.
Example C73_review_case : Forall io_ok (firstn 3 session) /\ Forall steady_io (firstn 3 session) /\
  match loop_run demo_config demo_oracles (boot (dev_fresh [] [])) (firstn 3 session) with
  | Some (_, l) => l_up l = true /\ d_ui (l_dev l) <> None
  | None => False
  end.
Proof. exact LoopExamples.review_case. Qed.

(** ** C74 *)

Theorem C74_exception_answer : forall C O l c tail e, l_up l = true -> l_media l = false -> e < 2 ^ 16 ->
  loop_step C O l (IoEscape c tail e) =
    Some ([WIn c; WOut (be 2 e ++ [0x64; 0x00])], mkLoop true [] false false (l_dev l)).
Proof. exact LoopExamples.exception_answer. Qed.
Print Assumptions C74_exception_answer.
Example C74_exception_case :
  option_map fst (loop_run demo_config demo_oracles (boot (dev_fresh [] [])) [IoInit None; IoEscape [0x80; 0; 0; 0; 0] [] 0x6A80]) =
  Some [WIn [0x80; 0; 0; 0; 0]; WOut [0x6A; 0x80; 0x64; 0x00]].
Proof. reflexivity. Qed.
(** The exchange with the host may fail while the app waits for a command: then an answer
    goes out that nobody asked for. *)
Theorem C74_unsolicited_refuted : exists is w l, Forall io_ok is /\
  loop_run demo_config demo_oracles (boot (dev_fresh [] [])) is = Some (w, l) /\ ~ alternates false w.
Proof. exact LoopExamples.unsolicited. Qed.
Print Assumptions C74_unsolicited_refuted.
(** Each failure of the initialisation adds a status word to the APDU buffer; the buffer
    holds 130. *)
Theorem C74_init_failures_partial : forall C O es d, (length es <= 130)%nat -> Forall (fun e => e < 2 ^ 16) es ->
  exists words, Forall2 init_word es words /\
    loop_run C O (boot d) (map (fun e => IoInit (Some e)) es) =
      Some ([], mkLoop false (flat_map (be 2) words) false false d).
Proof. exact LoopExamples.init_words. Qed.
Print Assumptions C74_init_failures_partial.
Theorem C74_init_overflow_refuted : forall C O es d, (130 < length es)%nat ->
  loop_run C O (boot d) (map (fun e => IoInit (Some e)) es) = None.
Proof. exact LoopExamples.init_overflow. Qed.
Print Assumptions C74_init_overflow_refuted.
Example C74_init_case :
  option_map fst (loop_run demo_config demo_oracles (boot (dev_fresh [] [])) [IoInit (Some 0x6A80); IoInit (Some 5); IoInit None]) =
    Some [WOut [0x6A; 0x80; 0x68; 0x05]] /\
  loop_run demo_config demo_oracles (boot (dev_fresh [] [])) (map (fun e => IoInit (Some e)) (repeat 5 131)) = None.
Proof. split; vm_compute; reflexivity. Qed.
