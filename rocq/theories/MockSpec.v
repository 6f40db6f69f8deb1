(** What a unit test sees, against a device whose user approves every review: the
    vocabulary of C90. *)
From Coq Require Import NArith List.
From Verif Require Import Base Codecs Device Mock.
Import ListNotations.
Open Scope N_scope.

(** The commands, each followed by an approval; an approval is ignored if no review is
    pending. *)
Definition approving (cs : list (bytes * N)) : list event :=
  concat (map (fun c => [EApdu (fst c) (snd c); EApprove]) cs).

(** One command: what the test sees, and the two answers of the device. *)
Inductive same_pair : seen -> answer -> answer -> Prop :=
| same_now a : same_pair (Saw a None) (AReply a) ANone
| same_review out : same_pair (Saw [0x90; 0x00] (Some out)) APending (AReply out)
| same_stop : same_pair Panicked ADied ANone
| same_stop_review : same_pair Panicked APending ADied.

(** All commands, up to the first panic. *)
Inductive tells : list seen -> list answer -> Prop :=
| tells_nil : tells [] []
| tells_cons s a1 a2 ss rest : same_pair s a1 a2 -> s <> Panicked -> tells ss rest -> tells (s :: ss) (a1 :: a2 :: rest)
| tells_stop a1 a2 rest : same_pair Panicked a1 a2 -> tells [Panicked] (a1 :: a2 :: rest).
