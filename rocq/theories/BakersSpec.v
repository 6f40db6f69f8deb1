(** What the table of bakers should contain and answer. *)
From Coq Require Import NArith Bool Arith List.
From Verif Require Import Base AddressSpec Bakers.
Import ListNotations.
Open Scope N_scope.

(** Every entry is before, or has the same key as, those after it. *)
Definition sorted (t : list baker) : Prop :=
  forall i j a b, nth_error t i = Some a -> nth_error t j = Some b -> (i < j)%nat ->
  key_cmp (bk_key a) (bk_key b) <> Gt.

(** The registry has an entry with this name and an address text that reads as this
    prefix and hash, followed by four bytes of checksum. *)
Definition registered (registry : list (bytes * bytes)) (prefix hash name : bytes) : Prop :=
  exists text checksum,
    In (text, name) registry /\ bytes_ok checksum /\ length checksum = 4%nat
    /\ reads58 text (prefix ++ hash ++ checksum).

(** Address texts are 27 bytes long. *)
Definition addresses (registry : list (bytes * bytes)) : Prop :=
  Forall (fun e => exists data, bytes_ok data /\ length data = 27%nat /\ reads58 (fst e) data) registry.

(** An address has only one name. *)
Definition consistent (registry : list (bytes * bytes)) : Prop :=
  forall p h n n', bytes_ok (p ++ h) -> length p = 3%nat -> length h = 20%nat ->
  registered registry p h n -> registered registry p h n' -> n = n'.
