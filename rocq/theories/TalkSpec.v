(** The conversation of a signing call. *)
From Coq Require Import List NArith Bool.
From Verif Require Import Base Client.
Import ListNotations.
Open Scope N_scope.

(** The transport, with a record of the commands and what came back. *)
Definition logged {W} (X : transport W) : transport (W * list (bytes * option bytes)) := fun w command =>
  let (r, w') := X (fst w) command in (r, (w', snd w ++ [(command, r)])).

(** The commands that carry a message: pieces of 250 bytes with P1 = 1, then the rest
    with P1 = [last]. *)
Inductive carries (ins last : N) : bytes -> list bytes -> Prop :=
| CarryLast piece : 1 <= len piece <= 250 -> carries ins last piece [[0x80; ins; last; 0; len piece] ++ piece]
| CarryMore piece rest cs : len piece = 250 -> carries ins last rest cs ->
    carries ins last (piece ++ rest) (([0x80; ins; 1; 0; 250] ++ piece) :: cs).

(** The return code in what came back. *)
Definition code_in (r : option bytes) (code : N) : Prop :=
  match r with
  | Some l => (exists data a b, l = data ++ [a; b] /\ code = 256 * a + b) \/ len l < 2 /\ code = 0xFFFF
  | None => code = 0xFFFF
  end.

(** Commands are sent in turn until one is not answered with success; [code] is that of
    the last answer, [r]. *)
Inductive talks : list bytes -> list (bytes * option bytes) -> option bytes -> N -> Prop :=
| TalkEnd c r code : code_in r code -> talks [c] [(c, r)] r code
| TalkStop c cs r code : code_in r code -> code <> 0x9000 -> talks (c :: cs) [(c, r)] r code
| TalkMore c cs r l r' code : code_in r 0x9000 -> talks cs l r' code -> talks (c :: cs) ((c, r) :: l) r' code.

(** What the call returns of the last answer. *)
Definition returned (r : option bytes) (code : N) (hash sig : option bytes) : Prop :=
  (code <> 0x9000 \/ r = Some [0x90; 0x00] -> hash = None /\ sig = None) /\
  (forall h s, r = Some (h ++ s ++ [0x90; 0x00]) -> length h = 32%nat -> hash = Some h /\ sig = Some s).
