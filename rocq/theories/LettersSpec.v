(** How the texts of identifiers begin, and how long they are
    (https://tezos.gitlab.io/developer/encodings.html). *)
From Coq Require Import NArith String List.
From Verif Require Import Base AddressSpec.
Import ListNotations.

Definition letters (k : tz_kind) : bytes :=
  chars (match k with
         | KindTz1 => "tz1" | KindTz2 => "tz2" | KindTz3 => "tz3" | KindKT1 => "KT1"
         | KindBranch => "B" | KindProposal => "P"
         | KindEdpk => "edpk" | KindSppk => "sppk" | KindP2pk => "p2pk" | KindChain => "Net"
         end).
Definition text_length (k : tz_kind) : nat :=
  match k with
  | KindTz1 | KindTz2 | KindTz3 | KindKT1 => 36
  | KindBranch | KindProposal => 51
  | KindEdpk => 54 | KindSppk | KindP2pk => 55
  | KindChain => 15
  end.

(** A text of the kind [k] by its letters and its length. *)
Definition looks_like (k : tz_kind) (t : bytes) : Prop :=
  length t = text_length k /\ exists rest, t = letters k ++ rest.
