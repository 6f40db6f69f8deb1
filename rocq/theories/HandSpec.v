(** Vocabulary of the statements about requests decided by hand. *)
From Coq Require Import NArith Bool Arith String List.
From Verif Require Import Base Codecs Oracles Address AddressSpec Operations OperationsSpec Device Text TextSpec Bakers Screens ScreensSpec Zui UiSpec UiDevice ServiceSpec.
Import ListNotations.
Open Scope N_scope.

(** A packet reaches the device. *)
Definition asked (p : bytes * N) : input := IApdu (fst p) (snd p).

(** The sheet of rows a wallet's user has to be shown of a message and its digest: the
    branch and the operations of a batch, or the digest of Michelson data. *)
Inductive wallet_sheet : bytes -> bytes -> list row -> Prop :=
| WsBatch branch os dg : length branch = 32%nat -> Forall op_ok os ->
    wallet_sheet (3 :: branch ++ flat_map enc_op os) dg (batch_sheet branch (map op_of os))
| WsMichelson rest dg : wallet_sheet (5 :: rest) dg [row_of (Titled "Sign Michelson") (FHex dg)].

(** All the pages of a text under a title have been seen. *)
Definition text_seen (hw : hardware) (seen : list shot) (title : string) (t : bytes) : Prop :=
  exists screens, concat screens = t /\
  forall p s, nth_error screens p = Some s -> page_seen hw seen (chars title) screens p s.

(** The text of the address of a public key. *)
Definition address_text (O : oracles) (c : curve) (pk t : bytes) : Prop :=
  exists l h, hashed_form c pk l /\ o_blake2b O 20 l = Some h /\ tz_text (twice O) (AddressSpec.addr_kind c) h t.

(** The text of a chain: its name or its identifier. *)
Definition chain_text (O : oracles) (chain : N) (t : bytes) : Prop :=
  if chain =? 0 then t = chars "any"
  else if chain =? 0x7A06A770 then t = chars "mainnet"
  else tz_text (twice O) KindChain (be 4 chain) t.
