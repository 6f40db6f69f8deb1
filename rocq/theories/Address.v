(** Base58 and the texts shown for addresses, contracts, branches, proposals,
    public keys and chain ids. *)
From Coq Require Import List NArith Bool Arith.
From Verif Require Import Base Codecs Oracles.
Import ListNotations.
Open Scope N_scope.

(** ** Base58: the [bs58] 0.4.0 crate, [encode::encode_into] *)

(** The Bitcoin alphabet ([bs58::Alphabet::DEFAULT]). *)
Definition b58_alphabet : bytes :=
  [49;50;51;52;53;54;55;56;57;65;66;67;68;69;70;71;72;74;75;76;77;78;80;81;82;83;84;85;86;87;
   88;89;90;97;98;99;100;101;102;103;104;105;106;107;109;110;111;112;113;114;115;116;117;118;
   119;120;121;122].
Definition b58_char (d : N) : N := nth (N.to_nat d) b58_alphabet 0.

(** The inner loop over the digits written so far, least significant first:
    add 256 times the digit to the carry, keep the remainder mod 58, carry the rest. *)
Fixpoint b58_carry (ds : list N) (carry : N) : list N * N :=
  match ds with
  | [] => ([], carry)
  | d :: ds' =>
    let c := carry + d * 256 in
    let (r, c') := b58_carry ds' (c / 58) in
    (c mod 58 :: r, c')
  end.

(** The loop [while carry > 0]; six rounds are enough for a 32-bit [usize]. *)
Fixpoint b58_push (fuel : nat) (carry : N) : list N :=
  match fuel with
  | O => []
  | S fuel' => if carry =? 0 then [] else carry mod 58 :: b58_push fuel' (carry / 58)
  end.

Definition b58_byte (ds : list N) (val : N) : list N :=
  let (r, c) := b58_carry ds val in r ++ b58_push 6 c.

(** [input.iter().take_while(|v| v == 0)]. *)
Fixpoint leading_zeros (l : bytes) : nat :=
  match l with
  | 0 :: l' => S (leading_zeros l')
  | _ => O
  end.

(** [bs58::encode(input).into(&mut out[..])] with an output of [cap] bytes. The
    number of digits only grows, so checking the room once at the end is the same as
    checking it at every push; [None] is [BufferTooSmall]. *)
Definition b58_encode (cap : nat) (input : bytes) : option bytes :=
  let ds := fold_left b58_byte input [] ++ repeat 0 (leading_zeros input) in
  if (length ds <=? cap)%nat then Some (rev (map b58_char ds)) else None.

(** ** Prefixes: rust/app/src/constants.rs l.104-119 *)
Definition TZ1 : bytes := [6; 161; 159].
Definition TZ2 : bytes := [6; 161; 161].
Definition TZ3 : bytes := [6; 161; 164].
Definition KT1 : bytes := [2; 90; 121].
Definition EDPK : bytes := [13; 15; 37; 217].
Definition SPPK : bytes := [3; 254; 226; 86].
Definition P2PK : bytes := [3; 178; 139; 127].
Definition PREFIX_B : bytes := [1; 52].
Definition PREFIX_P : bytes := [2; 170].
Definition PREFIX_NET : bytes := [87; 82; 0].

(** crypto.rs l.211-220: [to_hash_prefix]. *)
Definition hash_prefix (c : curve) : bytes :=
  match c with Ed25519 | Bip32Ed25519 => TZ1 | Secp256K1 => TZ2 | Secp256R1 => TZ3 end.
(** crypto.rs l.222-231: [to_prefix]. *)
Definition pk_prefix (c : curve) : bytes :=
  match c with Ed25519 | Bip32Ed25519 => EDPK | Secp256K1 => SPPK | Secp256R1 => P2PK end.

Section Address.
  Variable O : oracles.

  (** handlers/utils.rs l.162-197: [sha256x2] of the concatenated pieces. *)
  Definition sha256x2 (l : bytes) : option bytes :=
    match o_sha256 O l with
    | None => None
    | Some d => match o_sha256 O d with None => None | Some d' => Some (firstn 4 d') end
    end.

  (** The common shape of all texts: base58 of prefix, data and checksum, in a
      buffer of [cap] bytes. [SErr] is a failing hash, [SPanic] the [expect] on the
      encoder. *)
  Definition checked58 (cap : nat) (prefix data : bytes) : sres bytes :=
    match sha256x2 (prefix ++ data) with
    | None => SErr
    | Some ck =>
      match b58_encode cap (prefix ++ data ++ ck) with
      | None => SPanic
      | Some t => SOk t
      end
    end.

  (** crypto.rs l.36-68: [PublicKey::hash]. The curve read back from the system key is
      [Bip32Ed25519] for both Edwards variants (l.129-144), which makes no difference
      here. *)
  Definition pk_hash (c : curve) (pk : bytes) : sres bytes :=
    let digest l := match o_blake2b O 20 l with Some h => SOk h | None => SErr end in
    match c with
    | Ed25519 | Bip32Ed25519 =>
      match pk with [] => SPanic | _ :: rest => digest rest end
    | Secp256K1 | Secp256R1 =>
      match nth_error pk 64 with
      | None => SPanic
      | Some b => digest (2 + N.land b 1 :: slice 1 32 pk)
      end
    end.

  (** public_key.rs l.144-149: [Addr]. *)
  Record addr := mkAddr { a_prefix : bytes; a_hash : bytes; a_checksum : bytes }.

  (** public_key.rs l.242-251: [Addr::from_hash]. *)
  Definition addr_from_hash (h : bytes) (c : curve) : sres addr :=
    match sha256x2 (hash_prefix c ++ h) with
    | None => SErr
    | Some ck => SOk (mkAddr (hash_prefix c) h ck)
    end.

  (** public_key.rs l.166-208: [Addr::new_into]. *)
  Definition addr_new (c : curve) (pk : bytes) : sres addr :=
    match pk_hash c pk with
    | SOk h => addr_from_hash h c
    | SErr => SErr
    | SPanic => SPanic
    end.

  (** public_key.rs l.152 and l.214-231: [Addr::base58]. *)
  Definition addr_base58 (a : addr) : sres bytes :=
    match b58_encode 37 (a_prefix a ++ a_hash a ++ a_checksum a) with
    | None => SPanic
    | Some t => SOk t
    end.

  (** Address text of a key hash: [Addr::from_hash(..)] then [base58()], as used by
      the operation screens. *)
  Definition pkh_text (c : curve) (h : bytes) : sres bytes :=
    match addr_from_hash h c with
    | SOk a => addr_base58 a
    | SErr => SErr
    | SPanic => SPanic
    end.

  (** parser/operations.rs l.280 and l.336-361: [ContractID::base58] of an originated
      contract. *)
  Definition kt1_text (h : bytes) : sres bytes := checked58 37 KT1 h.

  (** parser/operations.rs l.73-91: [Operation::base58_branch_into];
      [BASE58_BRANCH_LEN] is 52. *)
  Definition branch_text (b : bytes) : sres bytes := checked58 52 PREFIX_B b.

  (** parser/operations/ballot.rs l.131-152 and proposals.rs: [proposal_base58]. *)
  Definition proposal_text (p : bytes) : sres bytes := checked58 52 PREFIX_P p.

  (** parser/operations/reveal.rs l.204-230: [pk_to_base58]; the array holds at most
      33 key bytes. *)
  Definition pk_text (c : curve) (k : bytes) : sres bytes :=
    match sha256x2 (pk_prefix c ++ k) with
    | None => SErr
    | Some ck =>
      if (33 <? length k)%nat then SPanic
      else match b58_encode 56 (pk_prefix c ++ k ++ ck) with None => SPanic | Some t => SOk t end
    end.

  (** parser/operations/operation_type.rs l.90 and l.273-297: [hash_and_base58] of an
      operation with an unknown tag. *)
  Definition unknown_text (l : bytes) : sres bytes :=
    match o_blake2b O 32 l with None => SErr | Some d => checked58 50 [] d end.

  (** handlers/hwm.rs l.365-388: [ChainID::id_to_base58]. *)
  Definition chain_text (id : N) : sres bytes := checked58 16 PREFIX_NET (be 4 id).

  (** handlers/hwm.rs l.390-413: [ChainID::to_alias]. *)
  Definition chain_alias (c : chain_id) : sres bytes :=
    match c with
    | ChainAny => SOk [97; 110; 121]
    | ChainMainnet => SOk [109; 97; 105; 110; 110; 101; 116]
    | ChainCustom id => chain_text id
    end.
End Address.
