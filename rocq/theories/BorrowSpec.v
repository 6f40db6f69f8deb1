(** What a signature review and the bytes behind it have to do with each other. *)
From Coq Require Import List NArith Bool Arith.
From Verif Require Import Base Codecs Upload Operations Oracles Address Device Borrow.
Import ListNotations.

(** The message to be signed, and the digest that an approval signs. *)
Definition review_data (v : viewable) : option (bytes * bytes) :=
  match v with
  | VSign _ digest _ data => Some (data, digest)
  | VBakingSign _ digest _ _ data => Some (data, digest)
  | _ => None
  end.

(** The slice lies inside its array: 255 bytes of RAM, 8191 bytes of flash. *)
Definition place_inside (p : place) : Prop :=
  (pl_off p + pl_len p <= if pl_flash p then N.to_nat 8191 else N.to_nat 255)%nat.

(** A device just switched on. *)
Definition b_fresh (f u : list Flash.fault) : bdev := mkB (dev_fresh f u) None.

(** What the operations of a review look like on the sheet: branch and operations. *)
Definition shows_operations (v : option viewable) (branch ops : bytes) : Prop :=
  exists send_hash digest e data,
    v = Some (VSign send_hash digest (Some (branch, e)) data) /\ eo_source e = ops /\ eo_read e = 0%nat.
