(** The combinations that the emulator tests are run for. *)
From Coq Require Import List.
Import ListNotations.

(** zemu/tests/common.ts l.33-34: [cartesianProduct]. The elements have one type here. *)
Definition cartesian {A} (arr : list (list A)) : list (list A) :=
  fold_left (fun a b => flat_map (fun c => map (fun d => c ++ [d]) b) a) arr [[]].
