(** Property theorems C17-C20: wear-levelled flash slots. *)
From Coq Require Import List NArith Bool Lia.
From Verif Require Import Base Flash FlashFacts FlashCrc FlashSpec FlashProofs FlashFormat FlashExamples.
Import ListNotations.
Open Scope N_scope.

(** C17. After any history of successful writes and restarts on an area of any
    size, a read returns the last payload written (or [RUninit] if none). *)
Theorem C17_read_returns_last_write : forall (n : nat) (ops : list wop),
  (0 < n)%nat -> len ops < 2 ^ 64 ->
  Forall op_payload_ok ops -> Forall op_succeeds ops ->
  wear_read (wop_run (wear_fresh n) ops) = Some (expected_read (last_stored None ops)).
Proof. exact read_is_last_written. Qed.
Print Assumptions C17_read_returns_last_write.

Example C17_case : Forall op_payload_ok demo_ops /\ Forall op_succeeds demo_ops /\ len demo_ops < 2 ^ 64.
Proof. exact demo_ops_ok. Qed.
Example C17_case_value :
  wear_read (wop_run (wear_fresh 8) demo_ops) = Some (RData (payload_of 11)).
Proof. vm_compute. reflexivity. Qed.

(** C17. The factory image of an area is valid and uninitialised. *)
Theorem C17_fresh_area_is_uninitialised : forall n : nat,
  (0 < n)%nat -> wear_read (wear_fresh n) = Some RUninit.
Proof. exact read_fresh. Qed.
Print Assumptions C17_fresh_area_is_uninitialised.

(** C17. Whatever an area contains, formatting leaves its factory image and starts at the
    first page; so what is read later depends on the later writes only. *)
Theorem C17_formatted : forall (w : wear) (ops : list wop),
  (0 < length (w_pages w))%nat -> len ops < 2 ^ 64 -> Forall op_payload_ok ops -> Forall op_succeeds ops ->
  w_pages (wear_format w) = w_pages (wear_fresh (length (w_pages w))) /\ w_idx (wear_format w) = Some 0 /\
  wear_read (wop_run (wear_format w) ops) = Some (expected_read (last_stored None ops)).
Proof. exact format_forgets. Qed.
Print Assumptions C17_formatted.
Example C17_formatted_case : (0 < length (w_pages (wop_run (wear_fresh 2) demo_ops)))%nat /\
  Forall op_payload_ok demo_ops /\ Forall op_succeeds demo_ops /\ len demo_ops < 2 ^ 64.
Proof. exact (conj two_pages demo_ops_ok). Qed.

(** C18. The [count_writes ops] successful writes are spread evenly: every page
    is rewritten between floor and ceiling of writes/pages times. *)
Theorem C18_wear_is_spread : forall (n : nat) (ops : list wop) (i : nat),
  (0 < n)%nat -> len ops < 2 ^ 64 -> Forall op_payload_ok ops -> Forall op_succeeds ops ->
  (i < n)%nat ->
  count_writes ops / N.of_nat n <= page_changes (wear_fresh n) ops i
    <= (count_writes ops + N.of_nat n - 1) / N.of_nat n.
Proof. exact wear_is_spread. Qed.
Print Assumptions C18_wear_is_spread.

Example C18_case : map (page_changes (wear_fresh 8) demo_ops) (seq 0 8) = [1; 2; 2; 2; 1; 1; 1; 1].
Proof. vm_compute. reflexivity. Qed.

(** C19. A power cut during a write leaves the old value, the new value, or a
    detected corruption; nothing else is ever read. *)
Theorem C19_torn_write : forall (n : nat) (ops : list wop) (pl : bytes) (t : tear),
  (0 < n)%nat -> len ops + 1 < 2 ^ 64 ->
  Forall op_payload_ok ops -> Forall op_succeeds ops -> payload_ok pl -> tear_detected t ->
  let w := wop_run (wear_fresh n) ops in
  wear_read (wop_step w (OWrite pl (WCut t))) =
  match t with TOld => wear_read w | TNew => Some (RData pl) | TTorn _ => None end.
Proof. exact torn_read. Qed.
Print Assumptions C19_torn_write.

Example C19_case : tear_detected (TTorn bad_page) /\ payload_ok (payload_of 12).
Proof. split; [exact bad_page_detected|]. now apply payload_of_ok. Qed.

(** C19, finding. After a detected torn page the area stays unreadable whatever
    the app does afterwards: the other seven valid pages are never used. *)
Theorem C19_torn_page_is_permanent : forall (n : nat) (ops : list wop) (pl : bytes) (p : page) (ops' : list wop),
  (0 < n)%nat -> len ops + 1 < 2 ^ 64 ->
  Forall op_payload_ok ops -> Forall op_succeeds ops -> payload_ok pl -> from_storage p = None ->
  wear_read (wop_run (wear_fresh n) (ops ++ [OWrite pl (WCut (TTorn p))] ++ ops')) = None.
Proof. exact torn_is_permanent. Qed.
Print Assumptions C19_torn_page_is_permanent.

(** C19. Damage is detected: a page that differs from a valid one only within four
    consecutive bytes of counter and payload, or only in its checksum, is not read. *)
Theorem C19_damage_is_detected : forall p q i r,
  length p = PAGE_SIZE -> length q = PAGE_SIZE -> bytes_ok p -> bytes_ok q ->
  from_storage p = Some r -> (i <= 56)%nat \/ i = 60%nat ->
  firstn i q = firstn i p -> skipn (i + 4) q = skipn (i + 4) p -> q <> p -> from_storage q = None.
Proof. exact damage_detected. Qed.
Print Assumptions C19_damage_is_detected.
Example C19_damage_case : exists p q r,
  length p = PAGE_SIZE /\ length q = PAGE_SIZE /\ bytes_ok p /\ bytes_ok q /\
  from_storage p = Some r /\ (3 <= 56)%nat /\ firstn 3 q = firstn 3 p /\ skipn (3 + 4) q = skipn (3 + 4) p /\ q <> p.
Proof. exact damage_case. Qed.

(** C20 is false of the code: a write that fails without changing the page
    makes the next read return neither the last stored value nor an error. *)
Theorem C20_failed_write_keeps_value_refuted :
  ~ (forall (n : nat) (ops : list wop),
       (0 < n)%nat -> Forall op_payload_ok ops -> Forall op_not_torn ops ->
       forall p, wear_read (wop_run (wear_fresh n) ops) = Some (RData p) ->
       last_stored None ops = Some p).
Proof. exact failed_write_refuted. Qed.
Print Assumptions C20_failed_write_keeps_value_refuted.

(** C20, the part that holds: whatever writes fail without tearing a page, a
    restart reads the last payload that reached the flash. Missing: the same
    without the restart, which is false (see above). *)
Theorem C20_restart_recovers_last_stored_partial : forall (n : nat) (ops : list wop),
  (0 < n)%nat -> len ops < 2 ^ 64 ->
  Forall op_payload_ok ops -> Forall op_not_torn ops ->
  wear_read (wear_restart (wop_run (wear_fresh n) ops)) = Some (expected_read (last_stored None ops)).
Proof. exact restart_reads_last_stored. Qed.
Print Assumptions C20_restart_recovers_last_stored_partial.

Example C20_case :
  wear_read (wear_restart (wop_run (wear_fresh 2) rollback_ops)) = Some (RData (payload_of 2)).
Proof. vm_compute. reflexivity. Qed.
