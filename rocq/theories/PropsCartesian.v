(** C101: the combinations that the emulator tests are run for. *)
From Coq Require Import List.
From Verif Require Import Cartesian CartesianFacts.
Import ListNotations.

(** C101. The combinations are exactly those that take one element of each list. *)
Theorem C101_all : forall A (arr : list (list A)) t, In t (cartesian arr) <-> Forall2 (fun x l => In x l) t arr.
Proof. exact @cartesian_in. Qed.
Print Assumptions C101_all.

(** C101. Their number is the product of the lengths, and none is repeated, unless an
    element is. *)
Theorem C101_number : forall A (arr : list (list A)), length (cartesian arr) = fold_right (fun l n => length l * n) 1 arr.
Proof. exact @cartesian_length. Qed.
Print Assumptions C101_number.
Theorem C101_once : forall A (arr : list (list A)), Forall (@NoDup A) arr -> NoDup (cartesian arr).
Proof. exact @cartesian_once. Qed.
Print Assumptions C101_once.

(** C101. The first element varies slowest. *)
Theorem C101_order : forall A (b : list A) arr, cartesian (b :: arr) = flat_map (fun x => map (cons x) (cartesian arr)) b.
Proof. exact @cartesian_cons. Qed.
Print Assumptions C101_order.
Example C101_case : Forall (@NoDup nat) [[0; 1; 2; 3]; [10; 11]] /\ Forall2 (fun x l => In x l) [2; 10] [[0; 1; 2; 3]; [10; 11]] /\
  cartesian [[0; 1; 2; 3]; [10; 11]] = [[0; 10]; [0; 11]; [1; 10]; [1; 11]; [2; 10]; [2; 11]; [3; 10]; [3; 11]].
Proof. exact cartesian_case. Qed.
