(** Independent descriptions of the encodings in [Codecs]. *)
From Coq Require Import List NArith.
From Verif Require Import Base Codecs.
Import ListNotations.
Open Scope N_scope.

(** A path encoding: a count byte and that many 4-byte groups. *)
Inductive path_encodes (LEN : nat) : bytes -> path -> Prop :=
| PathEncodes (n : N) (groups : list bytes) :
    1 <= n -> n <= N.of_nat LEN ->
    length groups = N.to_nat n ->
    Forall (fun g => length g = 4%nat) groups ->
    path_encodes LEN (n :: concat groups) (map unbe groups).

(** Components a path can have. *)
Definition path_ok (LEN : nat) (p : path) : Prop :=
  p <> [] /\ (length p <= LEN)%nat /\ Forall (fun c => c < 2 ^ 32) p.

Definition wm_ok (w : watermark) : Prop :=
  match w with
  | WEmmy l _ => l < 2 ^ 32
  | WTenderbake l _ r _ => l < 2 ^ 32 /\ r < 2 ^ 32
  end.

Definition key_ok (k : key) : Prop := path_ok BIP32_MAX_LENGTH (snd k).
