(** Bytes, big-endian numbers and list helpers shared by the whole model.

    Nothing here models a particular function of the app: a byte is an [N]
    (intended to be below 256, see [bytes_ok]), a byte string a [list N]. *)
From Coq Require Import List NArith ZArith Lia Bool Arith.
Import ListNotations.
Open Scope N_scope.

Definition byte := N.
Definition bytes := list N.

(** Every element is a real byte. *)
Definition bytes_ok (l : bytes) : Prop := Forall (fun b => b < 256) l.

(** Length as an [N]. *)
Definition len {A} (l : list A) : N := N.of_nat (length l).

(** [u32::to_be_bytes] and friends: the [k] low bytes of [n], big-endian. *)
Fixpoint be (k : nat) (n : N) : bytes :=
  match k with
  | O => []
  | S k' => be k' (n / 256) ++ [n mod 256]
  end.

(** [u32::from_be_bytes] and friends. *)
Definition unbe (l : bytes) : N := fold_left (fun acc b => acc * 256 + b) l 0.

(** [&l[i .. i + n]] (callers check the bounds). *)
Definition slice {A} (i n : nat) (l : list A) : list A := firstn n (skipn i l).

(** [l[i] = x] (callers check the bounds). *)
Fixpoint upd {A} (i : nat) (x : A) (l : list A) : list A :=
  match l, i with
  | [], _ => []
  | _ :: t, O => x :: t
  | h :: t, S i' => h :: upd i' x t
  end.

(** [n] copies of zero, as in [[0; n]]. *)
Definition zeros (n : nat) : bytes := repeat 0 n.

(** Fill a zeroed array of [n] bytes with a prefix, as in
    [let mut out = [0; n]; out[..l.len()].copy_from_slice(l)]. *)
Definition pad_to (n : nat) (l : bytes) : bytes := l ++ zeros (n - length l).

Fixpoint bytes_eqb (a b : bytes) : bool :=
  match a, b with
  | [], [] => true
  | x :: a', y :: b' => (x =? y) && bytes_eqb a' b'
  | _, _ => false
  end.

(** Result of a [nom] parser: remaining input and value, an error, or a panic
    of the Rust code. *)
Inductive presult (A : Type) : Type :=
| POk (rem : bytes) (a : A)
| PErr
| PPanic.
Arguments POk {A} rem a.
Arguments PErr {A}.
Arguments PPanic {A}.

Definition pbind {A B} (r : presult A) (f : bytes -> A -> presult B) : presult B :=
  match r with
  | POk rem a => f rem a
  | PErr => PErr
  | PPanic => PPanic
  end.

Notation "'let*' ( rem , x ) ':=' e 'in' f" :=
  (pbind e (fun rem x => f)) (at level 200, rem name, x pattern, e at level 100, f at level 200).

(** [nom::bytes::complete::take]. *)
Definition take (n : N) (l : bytes) : presult bytes :=
  if n <=? len l then POk (skipn (N.to_nat n) l) (firstn (N.to_nat n) l) else PErr.

(** [nom::number::complete::{le_u8, be_u16, be_u32, be_u64}]. *)
Definition be_uint (n : N) (l : bytes) : presult N :=
  let* (rem, b) := take n l in POk rem (unbe b).
Definition le_u8 := be_uint 1.
Definition be_u16 := be_uint 2.
Definition be_u32 := be_uint 4.
Definition be_u64 := be_uint 8.

(** [nom::bytes::complete::tag] for a one-byte tag. *)
Definition tag1 (t : N) (l : bytes) : presult N :=
  match l with
  | b :: rem => if b =? t then POk rem b else PErr
  | [] => PErr
  end.
