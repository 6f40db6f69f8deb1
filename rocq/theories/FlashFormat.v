(** Formatting a wear-levelled area. *)
From Coq Require Import List NArith Lia Bool Arith.
From Verif Require Import Base Flash FlashSpec FlashFacts FlashProofs.
Import ListNotations.
Open Scope N_scope.

(** The position in RAM matters only through what initialisation answers. *)
Lemma read_init w w' : w_pages w = w_pages w' -> wear_init w = wear_init w' -> wear_read w = wear_read w'.
Proof.
  intros P E. unfold wear_read. rewrite E. destruct (wear_init w') as [k|]; [|reflexivity].
  unfold wear_read_at, page_no. now rewrite P.
Qed.
Lemma step_init w w' o : w_pages w = w_pages w' -> wear_init w = wear_init w' -> wop_step w o = wop_step w' o.
Proof.
  intros P E. destruct o as [payload f|]; cbn [wop_step]; [|unfold wear_restart; now rewrite P].
  rewrite E. destruct (wear_init w') as [k|]; [|unfold wear_restart; now rewrite P].
  unfold wear_write_at, page_no. now rewrite P.
Qed.
Lemma run_init w w' ops : w_pages w = w_pages w' -> wear_init w = wear_init w' -> wear_read (wop_run w ops) = wear_read (wop_run w' ops).
Proof.
  intros P E. destruct ops as [|o ops]; [now apply read_init|]. unfold wop_run. cbn [fold_left]. now rewrite (step_init w w' o P E).
Qed.

(** Whatever an area contains, formatting makes it a fresh one. *)
Lemma formatted_init w : wear_init (wear_format w) = wear_init (wear_fresh (length (w_pages w))).
Proof.
  unfold wear_init, wear_format, wear_fresh. cbn [w_idx w_pages]. rewrite zeroed_is_slot_page.
  generalize (length (w_pages w)). intros n. unfold align. induction n as [|n IH]; [reflexivity|].
  cbn [repeat align_from]. rewrite from_storage_slot_page; [|lia|unfold payload_ok, zeros; split; [apply repeat_length|]].
  - exact IH.
  - apply Forall_forall. intros x X. apply repeat_spec in X. subst x. lia.
Qed.
Lemma format_reads w ops : (0 < length (w_pages w))%nat -> len ops < 2 ^ 64 -> Forall op_payload_ok ops -> Forall op_succeeds ops ->
  wear_read (wop_run (wear_format w) ops) = Some (expected_read (last_stored None ops)).
Proof.
  intros L B P S. rewrite <- (read_is_last_written (length (w_pages w)) ops L B P S).
  apply run_init; [unfold wear_format, wear_fresh; cbn [w_pages]; now rewrite zeroed_is_slot_page|apply formatted_init].
Qed.

Lemma format_forgets w ops : (0 < length (w_pages w))%nat -> len ops < 2 ^ 64 -> Forall op_payload_ok ops -> Forall op_succeeds ops ->
  w_pages (wear_format w) = w_pages (wear_fresh (length (w_pages w))) /\ w_idx (wear_format w) = Some 0 /\
  wear_read (wop_run (wear_format w) ops) = Some (expected_read (last_stored None ops)).
Proof.
  intros L B P S. split; [|split; [reflexivity|now apply format_reads]].
  unfold wear_format, wear_fresh. cbn [w_pages]. now rewrite zeroed_is_slot_page.
Qed.
