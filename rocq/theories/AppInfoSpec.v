(** What the operating system answers to the question for the running app. *)
From Coq Require Import List NArith Bool.
From Verif Require Import Base Client.
Import ListNotations.
Open Scope N_scope.

(** The answer of the operating system: format 1, then name, version and flags, each after
    its length. *)
Definition field (l : bytes) : bytes := len l :: l.
Definition info_bytes (name version flags : bytes) : bytes := 1 :: field name ++ field version ++ field flags.
Definition ascii (l : bytes) : Prop := Forall (fun b => b < 128) l.


(** The transport answers the question with [r] and success. *)
Definition answers_with {W} (X : transport W) (w w' : W) (r : bytes) : Prop :=
  X w [0xB0; 0x01; 0; 0; 0] = (Some (r ++ [0x90; 0x00]), w').
