(** Where the arrow buttons lead in a review. *)
From Coq Require Import NArith Bool Arith List.
From Verif Require Import Base Device Screens Zui UiSpec.
Import ListNotations.
Open Scope N_scope.

(** The number of the place after some buttons, among places numbered from 0 to [last]:
    one further with the right button, one back with the left, stopping at the ends. *)
Fixpoint walk (last i : nat) (bs : list button) : nat :=
  match bs with
  | [] => i
  | Right :: bs' => walk last (Nat.min (S i) last) bs'
  | Left :: bs' => walk last (Nat.pred i) bs'
  | _ :: bs' => walk last i bs'
  end.

Definition arrow (b : button) : Prop := b = Left \/ b = Right.

(** The number of presses of the right button that lead to the screen that offers to
    approve: one per page, and one more on the Nano X for the title of the flow. Pages
    into which the system of the Nano X divides a text by itself are not counted. *)
Definition presses_needed (hw : hardware) (screens : list (bytes * list bytes)) : nat :=
  match hw with NanoS => 0 | NanoX => 1 end + list_sum (map (fun hs => length (snd hs)) screens).
