(** Base58 texts and Tezos identifiers, independent of the encoder: what number a
    text stands for, and what a text of a given kind must contain. *)
From Coq Require Import NArith Bool String Ascii List.
From Verif Require Import Base Codecs Oracles.
Import ListNotations.
Open Scope N_scope.

(** The characters of a literal, as bytes. *)
Definition chars (s : string) : bytes := map N_of_ascii (list_ascii_of_string s).

Definition base58_digits : bytes :=
  chars "123456789ABCDEFGHJKLMNPQRSTUVWXYZabcdefghijkmnopqrstuvwxyz".

(** Position of a character in a list. *)
Fixpoint index_of (c : N) (l : bytes) : option N :=
  match l with
  | [] => None
  | x :: l' => if x =? c then Some 0 else option_map N.succ (index_of c l')
  end.

(** The number written by a text, most significant character first; [None] if some
    character is not a base58 digit. *)
Fixpoint text_value (acc : N) (t : bytes) : option N :=
  match t with
  | [] => Some acc
  | c :: t' =>
    match index_of c base58_digits with
    | None => None
    | Some d => text_value (acc * 58 + d) t'
    end
  end.

(** Number of leading occurrences of a value. *)
Fixpoint leading (x : N) (l : bytes) : nat :=
  match l with
  | [] => 0
  | y :: l' => if y =? x then S (leading x l') else 0
  end.

(** A text reads as a byte string: same number, and one leading character '1' for
    each leading zero byte. *)
Definition reads58 (t data : bytes) : Prop :=
  text_value 0 t = Some (unbe data) /\ leading 49 t = leading 0 data.

(** ** Tezos identifiers *)

(** The kinds of identifiers and the bytes their texts start with
    (https://tezos.gitlab.io/developer/encodings.html and the prefixes quoted in
    constants.rs). *)
Inductive tz_kind := KindTz1 | KindTz2 | KindTz3 | KindKT1 | KindBranch | KindProposal
                   | KindEdpk | KindSppk | KindP2pk | KindChain.
Definition kind_prefix (k : tz_kind) : bytes :=
  match k with
  | KindTz1 => [6; 161; 159] | KindTz2 => [6; 161; 161] | KindTz3 => [6; 161; 164]
  | KindKT1 => [2; 90; 121]
  | KindBranch => [1; 52] | KindProposal => [2; 170]
  | KindEdpk => [13; 15; 37; 217] | KindSppk => [3; 254; 226; 86] | KindP2pk => [3; 178; 139; 127]
  | KindChain => [87; 82; 0]
  end.
Definition kind_data_length (k : tz_kind) : nat :=
  match k with
  | KindTz1 | KindTz2 | KindTz3 | KindKT1 => 20
  | KindBranch | KindProposal => 32
  | KindEdpk => 32 | KindSppk | KindP2pk => 33
  | KindChain => 4
  end.

(** Address and public key kinds of a curve. *)
Definition addr_kind (c : curve) : tz_kind :=
  match c with Ed25519 | Bip32Ed25519 => KindTz1 | Secp256K1 => KindTz2 | Secp256R1 => KindTz3 end.
Definition pk_kind (c : curve) : tz_kind :=
  match c with Ed25519 | Bip32Ed25519 => KindEdpk | Secp256K1 => KindSppk | Secp256R1 => KindP2pk end.

(** The text of an identifier: it reads as the prefix, the data and a checksum that
    is the start of the double hash [h2] of prefix and data. *)
Definition tz_text (h2 : bytes -> option bytes) (k : tz_kind) (data t : bytes) : Prop :=
  exists d, h2 (kind_prefix k ++ data) = Some d
         /\ reads58 t (kind_prefix k ++ data ++ firstn 4 d).

(** Hashing twice. *)
Definition twice (O : oracles) (l : bytes) : option bytes :=
  match o_sha256 O l with Some d => o_sha256 O d | None => None end.

(** What a text function must do for an identifier: the right text, in at most [cap]
    characters; an error only if the hash fails; never a panic. *)
Definition writes (O : oracles) (r : sres bytes) (k : tz_kind) (data : bytes) (cap : nat) : Prop :=
  match r with
  | SOk t => tz_text (twice O) k data t /\ (length t <= cap)%nat
  | SErr => twice O (kind_prefix k ++ data) = None
  | SPanic => False
  end.

(** The alias of a chain is its name or its text; different chains have different
    aliases. *)
Definition alias_of (O : oracles) (c : chain_id) (t : bytes) : Prop :=
  match c with
  | ChainAny => t = chars "any"
  | ChainMainnet => t = chars "mainnet"
  | ChainCustom id => tz_text (twice O) KindChain (be 4 id) t
  end.

Definition chain_wf (c : chain_id) : Prop :=
  match c with ChainCustom id => id < 2 ^ 32 | _ => True end.

(** ** The hash in an address *)

(** Tezos hashes the 32 key bytes of Edwards keys, and the compressed point (parity
    byte and abscissa) of the others. *)
Definition hashed_form (c : curve) (pk : bytes) (l : bytes) : Prop :=
  match c with
  | Ed25519 | Bip32Ed25519 => exists b, pk = b :: l
  | Secp256K1 | Secp256R1 =>
    exists x y, pk = 4 :: x ++ y /\ length x = 32%nat /\ length y = 32%nat
             /\ l = (if N.even (unbe y) then 2 else 3) :: x
  end.
