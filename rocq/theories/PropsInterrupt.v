(** Property theorems C66, and C09 with power losses: what an interrupted command leaves
    behind. *)
From Coq Require Import List NArith Bool Arith.
From Verif Require Import Base Flash Codecs CodecsSpec Upload UploadSpec UploadExamples Baking BakingSpec Oracles Address AddressExamples
  Device DeviceSpec DeviceHist DeviceDemo DeviceCases ServiceSpec AdminExamples InterruptSpec InterruptFacts
  InterruptExamples.
Import ListNotations.
Open Scope N_scope.

(** C66. Power may be lost between any two commands and during any flash write, before or
    after the page is programmed or half-way. Every slot then holds a value, or can never
    be opened again. *)
Theorem C66_slots_known : forall C O f u es s, Forall power_fault f -> Forall up_fault_ok u ->
  Forall event_ok es -> len es < 2 ^ 64 ->
  let d := snd (run C O (dev_fresh f u) es) in
  (exists o, holds_slot d s o) \/ lost d s.
Proof. exact slots_known. Qed.
Print Assumptions C66_slots_known.

(** C66. A command, or a decision, changes nothing, and does not report success if it was
    to store something; or it has stored the first part [ws1] of what it was to store, in
    the order of the plan. Then all other slots are as they were, except that the one whose
    turn it was may be lost; and the device has stopped without an answer, or nothing is
    missing ([ws2] is empty) and it reports success, or it reports that a consensus message
    could not be signed. *)
Theorem C66_interrupted : forall C O f u es e, Forall power_fault f -> Forall up_fault_ok u ->
  Forall event_ok (es ++ [e]) -> len es + 1 < 2 ^ 64 ->
  let d := snd (run C O (dev_fresh f u) es) in
  let a := fst (step C O d e) in
  let d' := snd (step C O d e) in
  ((forall s, kept d d' s) /\ (forall ws, plan C d e ws -> ~ succeeds a)) \/
  exists ws1 ws2, plan C d e (ws1 ++ ws2) /\
    (forall s p, In (s, p) ws1 -> holds_slot d' s (Some p)) /\
    (forall s, ~ In s (map fst ws1) -> kept d d' s \/ (lost d' s /\ exists p more, ws2 = (s, p) :: more)) /\
    (a = ADied \/
     ws2 = [] /\ (succeeds a \/ a = AReply [0x64; 0] /\ exists q, offered C d e q)).
Proof. exact interrupted. Qed.
Print Assumptions C66_interrupted.

(** C66. What is to be stored is determined by the request and the device. *)
Theorem C66_plan_unique : forall C d e ws ws', plan C d e ws -> plan C d e ws' -> ws = ws'.
Proof. exact plan_unique. Qed.
Print Assumptions C66_plan_unique.

(** C66. If success is reported then all of it is stored, and nothing else. *)
Theorem C66_completed : forall C O f u es e ws, Forall power_fault f -> Forall up_fault_ok u ->
  Forall event_ok (es ++ [e]) -> len es + 1 < 2 ^ 64 ->
  let d := snd (run C O (dev_fresh f u) es) in
  let d' := snd (step C O d e) in
  plan C d e ws -> succeeds (fst (step C O d e)) ->
  (forall s p, In (s, p) ws -> holds_slot d' s (Some p)) /\
  (forall s, ~ In s (map fst ws) -> kept d d' s).
Proof. exact completed. Qed.
Print Assumptions C66_completed.

(** A set-up for another key, cut when the main watermark is written: the new key stays
    with the old watermarks and the old chain; if the page was torn, the main watermark
    is lost. *)
Example C66_case :
  Forall event_ok (half_events ++ [EApprove]) /\
  (forall t, t = TOld \/ t = TTorn [1] -> Forall power_fault (half_faults t) /\
     plan demo_config (half_dev t) EApprove half_plan /\
     fst (step demo_config demo_oracles (half_dev t) EApprove) = ADied /\
     reads_of (half_dev t) = [Some (RData (key_serialize demo_key)); Some (RData old_mark); Some (RData old_mark); Some (RData old_chain)]) /\
  reads_of (cut_dev TOld) =
    [Some (RData (key_serialize other_key)); Some (RData old_mark); Some (RData old_mark); Some (RData old_chain)] /\
  reads_of (cut_dev (TTorn [1])) =
    [Some (RData (key_serialize other_key)); None; Some (RData old_mark); Some (RData old_chain)].
Proof. exact half_case. Qed.

(** C66. A set-up is not atomic: it can stay half done. *)
Theorem C66_atomic_refuted :
  ~ (forall C O f u es ws, Forall power_fault f -> Forall up_fault_ok u -> Forall event_ok (es ++ [EApprove]) ->
     len es + 1 < 2 ^ 64 ->
     let d := snd (run C O (dev_fresh f u) es) in
     let d' := snd (step C O d EApprove) in
     plan C d EApprove ws ->
     (forall s p, In (s, p) ws -> holds_slot d' s (Some p)) \/ (forall s, kept d d' s)).
Proof. exact setup_not_atomic. Qed.
Print Assumptions C66_atomic_refuted.

(** C09. The same when power may be lost during any write of the history: a command or
    decision answered with an error leaves every slot as it was; or it offered the
    consensus message at position [q], and the error is that no signature could be made
    after the watermark was raised to [q]. *)
Theorem C09_refusal_keeps_state_power_loss : forall C O f u es e out, Forall power_fault f -> Forall up_fault_ok u ->
  Forall event_ok (es ++ [e]) -> len es + 1 < 2 ^ 64 ->
  let d := snd (run C O (dev_fresh f u) es) in
  let d' := snd (step C O d e) in
  fst (step C O d e) = AReply out -> ~ succeeds (AReply out) ->
  (forall s, kept d d' s) \/
  (exists q p, offered C d e q /\ out = [0x64; 0] /\ mark_bytes p (mark_at q) /\ holds_slot d' SMain (Some p) /\
     forall s, s <> SMain -> kept d d' s).
Proof. exact refused_kept. Qed.
Print Assumptions C09_refusal_keeps_state_power_loss.

(** The set-up was cut when the main watermark was written; the device was restarted and
    refuses to sign a block with the old key. *)
Example C09_power_loss_case :
  Forall power_fault (half_faults TOld) /\ Forall event_ok (restarted_events ++ [again]) /\
  fst (step demo_config demo_oracles (demo_run (half_faults TOld) restarted_events) again) = AReply again_refusal /\
  ~ succeeds (AReply again_refusal).
Proof. exact restarted_case. Qed.

(** C09. This does not hold if a write may report an error: a set-up whose second write
    fails is answered with an error, and the key has changed. *)
Theorem C09_failed_write_refuted :
  ~ (forall C O f u es e out,
     Forall slot_fault_ok f -> Forall up_fault_ok u -> Forall event_ok (es ++ [e]) -> len es + 1 < 2 ^ 64 ->
     let d := snd (run C O (dev_fresh f u) es) in
     let d' := snd (step C O d e) in
     fst (step C O d e) = AReply out -> ~ succeeds (AReply out) ->
     (forall s, same_slot d d' s) \/ exists q, offered C d e q).
Proof. exact failed_setup. Qed.
Print Assumptions C09_failed_write_refuted.
