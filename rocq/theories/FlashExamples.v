(** Concrete histories used beside the theorems of [PropsFlash]. *)
From Coq Require Import List NArith Bool Lia.
From Verif Require Import Base BaseFacts Flash FlashFacts FlashSpec.
Import ListNotations.
Open Scope N_scope.

Definition payload_of (b : N) : bytes := b :: zeros 51.

Lemma payload_of_ok b : b < 256 -> length (payload_of b) = 52%nat /\ bytes_ok (payload_of b).
Proof. intros. split; [reflexivity|]. constructor; auto. apply zeros_ok. Qed.

(** Eleven writes to an area, with restarts in between. *)
Definition demo_ops : list wop :=
  [OWrite (payload_of 1) WOk; OWrite (payload_of 2) WOk; ORestart;
   OWrite (payload_of 3) WOk; OWrite (payload_of 4) WOk; OWrite (payload_of 5) WOk;
   OWrite (payload_of 6) WOk; OWrite (payload_of 7) WOk; OWrite (payload_of 8) WOk;
   ORestart; OWrite (payload_of 9) WOk; OWrite (payload_of 10) WOk; OWrite (payload_of 11) WOk].

Lemma demo_ops_ok : Forall op_payload_ok demo_ops /\ Forall op_succeeds demo_ops /\ len demo_ops < 2 ^ 64.
Proof.
  repeat split; repeat constructor; unfold payload_of; try reflexivity; try apply zeros_ok.
Qed.

(** A page whose checksum does not match. *)
Definition bad_page : page := repeat 255 64.
Lemma bad_page_detected : from_storage bad_page = None.
Proof. vm_compute. reflexivity. Qed.

(** Two successful writes, then one that fails and leaves the page alone. *)
Definition rollback_ops : list wop :=
  [OWrite (payload_of 1) WOk; OWrite (payload_of 2) WOk; OWrite (payload_of 3) (WFail TOld)].

(** The position is advanced before the failing write, so the read falls back
    to the page written two writes earlier. *)
Lemma failed_write_refuted :
  ~ (forall (n : nat) (ops : list wop),
       (0 < n)%nat -> Forall op_payload_ok ops -> Forall op_not_torn ops ->
       forall p, wear_read (wop_run (wear_fresh n) ops) = Some (RData p) ->
       last_stored None ops = Some p).
Proof.
  intros H. specialize (H 2%nat rollback_ops).
  assert (X : last_stored None rollback_ops = Some (payload_of 1)).
  { apply H; [lia| | |].
    - repeat constructor; unfold payload_of; try reflexivity; apply zeros_ok.
    - repeat constructor.
    - vm_compute. reflexivity. }
  vm_compute in X. discriminate.
Qed.

Lemma two_pages : (0 < length (w_pages (wop_run (wear_fresh 2) demo_ops)))%nat.
Proof. vm_compute. repeat constructor. Qed.
