(** Vocabulary of the statement about what the device remembers. *)
From Coq Require Import List NArith Bool.
From Verif Require Import Base Flash Upload Device DeviceSpec ServiceSpec InterruptSpec.
Import ListNotations.
Open Scope N_scope.

(** The uploads [u] and [u'] stand alike: there is none in progress in either, or the
    same command has received the same bytes, the first packet ending at the same
    place, and they are kept in the same memory. *)
Definition upload_like (u u' : ustate) : Prop :=
  u_lock u = u_lock u' /\
  (u_lock u <> None ->
   u_init_len u = u_init_len u' /\ sb_state (u_buf u) = sb_state (u_buf u') /\
   sb_read_exact (u_buf u) = sb_read_exact (u_buf u')).

(** The key of a request to sign is kept outside the review. *)
Definition sign_review (v : option viewable) : bool :=
  match v with Some (VSign _ _ _ _) => true | _ => false end.

(** All that the device is to remember is the same in [d] and [d']: the value of each slot,
    or that it is lost; the review, with the key of a request to sign; the upload. What the
    flash will do is the same as well. *)
Record remembers_same (d d' : dev) : Prop := {
  rs_slots : forall s, (forall o, holds_slot d s o <-> holds_slot d' s o) /\ (lost d s <-> lost d' s);
  rs_ui : d_ui d = d_ui d';
  rs_path : sign_review (d_ui d) = true -> d_path d = d_path d';
  rs_up : upload_like (d_up d) (d_up d');
  rs_faults : d_faults d = d_faults d';
  rs_ufaults : d_ufaults d = d_ufaults d'
}.
