(** Status words, curves, derivation paths and the two flash payload formats. *)
From Coq Require Import List NArith Bool Arith.
From Verif Require Import Base.
Import ListNotations.
Open Scope N_scope.

(** ** Status words: rust/app/src/constants.rs *)

(** constants.rs l.20-36: [ApduError]. *)
Inductive apdu_error :=
| ExecutionError | WrongLength | EmptyBuffer | OutputBufferTooSmall | DataInvalid
| ConditionsNotSatisfied | CommandNotAllowed | BadKeyExample | InvalidP1P2
| InsNotSupported | ClaNotSupported | Unknown | SignVerifyError | Success | Busy.

(** constants.rs l.20-36: the [repr(u16)] discriminants. *)
Definition sw (e : apdu_error) : N :=
  match e with
  | ExecutionError => 0x6400
  | WrongLength => 0x6700
  | EmptyBuffer => 0x6982
  | OutputBufferTooSmall => 0x6983
  | DataInvalid => 0x6984
  | ConditionsNotSatisfied => 0x6985
  | CommandNotAllowed => 0x6986
  | BadKeyExample => 0x6A80
  | InvalidP1P2 => 0x6B00
  | InsNotSupported => 0x6D00
  | ClaNotSupported => 0x6E00
  | Unknown => 0x6F00
  | SignVerifyError => 0x6F01
  | Success => 0x9000
  | Busy => 0x9001
  end.

(** constants.rs l.65-88: [TryFrom<u16> for ApduError]. *)
Definition sw_decode (v : N) : option apdu_error :=
  if v =? 0x6400 then Some ExecutionError
  else if v =? 0x6700 then Some WrongLength
  else if v =? 0x6982 then Some EmptyBuffer
  else if v =? 0x6983 then Some OutputBufferTooSmall
  else if v =? 0x6984 then Some DataInvalid
  else if v =? 0x6985 then Some ConditionsNotSatisfied
  else if v =? 0x6986 then Some CommandNotAllowed
  else if v =? 0x6A80 then Some BadKeyExample
  else if v =? 0x6B00 then Some InvalidP1P2
  else if v =? 0x6D00 then Some InsNotSupported
  else if v =? 0x6E00 then Some ClaNotSupported
  else if v =? 0x6F00 then Some Unknown
  else if v =? 0x6F01 then Some SignVerifyError
  else if v =? 0x9000 then Some Success
  else if v =? 0x9001 then Some Busy
  else None.

(** A Rust computation that returns [Result<A, _>] or panics. *)
Inductive sres (A : Type) := SOk (a : A) | SErr | SPanic.
Arguments SOk {A} a.
Arguments SErr {A}.
Arguments SPanic {A}.

(** constants.rs l.44-63: [TryFrom<&[u8]> for ApduError]; a slice shorter than
    two bytes makes [copy_from_slice] panic. *)
Definition sw_decode_bytes (v : bytes) : sres apdu_error :=
  if (2 <? length v)%nat then SErr
  else if (length v =? 2)%nat then
    match sw_decode (unbe v) with Some e => SOk e | None => SErr end
  else SPanic.

(** ** Curves: rust/app/src/crypto.rs *)

(** crypto.rs l.87-92: [Curve]. *)
Inductive curve := Ed25519 | Secp256K1 | Secp256R1 | Bip32Ed25519.

(** crypto.rs l.94-106: [TryFrom<u8> for Curve]. *)
Definition curve_of_byte (b : N) : option curve :=
  if b =? 0 then Some Ed25519
  else if b =? 1 then Some Secp256K1
  else if b =? 2 then Some Secp256R1
  else if b =? 3 then Some Bip32Ed25519
  else None.

(** crypto.rs l.108-117: [From<Curve> for u8]. *)
Definition byte_of_curve (c : curve) : N :=
  match c with Ed25519 => 0 | Secp256K1 => 1 | Secp256R1 => 2 | Bip32Ed25519 => 3 end.

Definition curve_eqb (a b : curve) : bool := byte_of_curve a =? byte_of_curve b.

(** ** Derivation paths: rust/bolos-common/src/bip32.rs *)

(** bip32.rs l.20-23: [BIP32Path]. The array padding after the components is
    always zero, so the path is the list of its components. *)
Definition path := list N.

(** constants.rs l.98. *)
Definition BIP32_MAX_LENGTH : nat := 10.

(** The [chunks(4)] of bip32.rs l.84-94 converted with [u32::from_be_bytes];
    the caller has checked that the length is a multiple of 4. *)
Fixpoint be32_chunks (n : nat) (l : bytes) : list N :=
  match n with
  | O => []
  | S n' => unbe (firstn 4 l) :: be32_chunks n' (skipn 4 l)
  end.

(** bip32.rs l.61-105: [BIP32Path::<LEN>::read]; [None] stands for any
    [BIP32PathError]. *)
Definition path_read (LEN : nat) (input : bytes) : option path :=
  match input with
  | [] => None
  | n :: rest =>
    let blen := len rest in
    if blen =? 0 then None
    else if negb (blen mod 4 =? 0) then None
    else if n =? 0 then None
    else if (N.of_nat LEN <? n) || (n <? blen / 4) then None
    else if blen / 4 <? n then None
    else Some (be32_chunks (N.to_nat n) rest)
  end.

(** bip32.rs l.116-125: [BIP32Path::serialize]. *)
Definition path_serialize (p : path) : bytes :=
  (len p) :: concat (map (be 4) p).

(** bip32.rs l.38-58: [BIP32Path::<LEN>::new]. The guard [i > LEN] lets
    [i = LEN] reach the out-of-bounds index. *)
Fixpoint path_new_loop (LEN i : nat) (acc comps : list N) : sres path :=
  match comps with
  | [] => if (length acc =? 0)%nat then SErr else SOk acc
  | c :: comps' =>
    if (LEN <? i)%nat then SErr
    else if (i <? LEN)%nat then path_new_loop LEN (S i) (acc ++ [c]) comps'
    else SPanic
  end.
Definition path_new (LEN : nat) (comps : list N) : sres path := path_new_loop LEN 0 [] comps.

Fixpoint path_eqb (a b : path) : bool :=
  match a, b with
  | [], [] => true
  | x :: a', y :: b' => (x =? y) && path_eqb a' b'
  | _, _ => false
  end.

(** ** Watermarks: rust/app/src/handlers/hwm.rs *)

(** hwm.rs l.165-178: [WaterMark]. *)
Inductive watermark :=
| WEmmy (level : N) (had_endorsement : bool)
| WTenderbake (level : N) (had_endorsement : bool) (round : N) (had_preendorsement : bool).

(** hwm.rs l.187-191: [WaterMark::level]. *)
Definition wm_level (w : watermark) : N :=
  match w with WEmmy l _ => l | WTenderbake l _ _ _ => l end.

(** hwm.rs l.288-302: [WaterMark::reset]. *)
Definition wm_reset (level : N) (tenderbake : bool) : watermark :=
  if tenderbake then WTenderbake level false 0 false else WEmmy level false.

(** hwm.rs l.311-315: [Default for WaterMark]. *)
Definition wm_default : watermark := wm_reset (2 ^ 32 - 1) false.

Definition byte_of_bool (b : bool) : N := if b then 1 else 0.

(** hwm.rs l.243-285: [From<WaterMark> for [u8; 52]]. *)
Definition wm_serialize (w : watermark) : bytes :=
  pad_to 52
    match w with
    | WEmmy level he => 0 :: byte_of_bool he :: be 4 level
    | WTenderbake level he round hp =>
      1 :: byte_of_bool he :: be 4 level ++ byte_of_bool hp :: be 4 round
    end.

(** hwm.rs l.194-241: [From<&[u8; 52]> for WaterMark]. *)
Definition wm_parse (p : bytes) : watermark :=
  let ty := nth 0 p 0 in
  if negb ((ty =? 0) || (ty =? 1)) then wm_default
  else
    let he := 1 <=? nth 1 p 0 in
    let level := unbe (slice 2 4 p) in
    if ty =? 1 then
      let hp := 1 <=? nth 6 p 0 in
      let round := unbe (slice 7 4 p) in
      WTenderbake level he round hp
    else WEmmy level he.

(** hwm.rs l.306-308: [WaterMark::is_valid_blocklevel] ([leading_zeros() > 0] on a [u32]). *)
Definition is_valid_blocklevel (level : N) : bool := level <? 2 ^ 31.

(** ** Chain ids: rust/app/src/handlers/hwm.rs *)

(** hwm.rs l.35. *)
Definition MAINNET_CHAIN_ID : N := 0x7A06A770.

(** hwm.rs l.317-322: [ChainID]. *)
Inductive chain_id := ChainAny | ChainMainnet | ChainCustom (id : N).

(** hwm.rs l.344-352: [From<u32> for ChainID]. *)
Definition chain_of_u32 (n : N) : chain_id :=
  if n =? 0 then ChainAny else if n =? MAINNET_CHAIN_ID then ChainMainnet else ChainCustom n.

(** hwm.rs l.354-362: [From<ChainID> for u32]. *)
Definition u32_of_chain (c : chain_id) : N :=
  match c with ChainAny => 0 | ChainMainnet => MAINNET_CHAIN_ID | ChainCustom n => n end.

(** hwm.rs l.333-342 ([From<ChainID> for [u8; 52]]), also l.84-85 in [set_chain_id]. *)
Definition chain_serialize (c : chain_id) : bytes := pad_to 52 (be 4 (u32_of_chain c)).

(** hwm.rs l.324-331 ([From<&[u8; 52]> for ChainID]) and l.93-95 in [HWM::chain_id]. *)
Definition chain_parse_u32 (p : bytes) : N := unbe (firstn 4 p).
Definition chain_parse (p : bytes) : chain_id := chain_of_u32 (chain_parse_u32 p).

(** ** The authorised key: rust/app/src/handlers/baking.rs *)

(** baking.rs l.62-65: [Bip32PathAndCurve]. *)
Definition key := (curve * path)%type.

(** Result with an [ApduError]. *)
Inductive ares (A : Type) := AOk (a : A) | AErr (e : apdu_error).
Arguments AOk {A} a.
Arguments AErr {A} e.

(** baking.rs l.73-94: [Bip32PathAndCurve::try_from_bytes]. *)
Definition key_parse (p : bytes) : ares (option key) :=
  if nth 0 p 0 =? 0 then AOk None
  else
    match curve_of_byte (nth 1 p 0) with
    | None => AErr DataInvalid
    | Some c =>
      let n := nth 2 p 0 in
      if N.of_nat BIP32_MAX_LENGTH <? n then AErr WrongLength
      else
        match path_read BIP32_MAX_LENGTH (slice 2 (1 + 4 * N.to_nat n) p) with
        | None => AErr DataInvalid
        | Some pa => AOk (Some (c, pa))
        end
    end.

(** baking.rs l.99-101: [Bip32PathAndCurve::empty]. *)
Definition key_empty : bytes := zeros 52.

(** baking.rs l.104-122: [From<Bip32PathAndCurve> for [u8; 52]]. The 49 bytes
    after the header give 12 whole chunks, more than the 10 components. *)
Definition key_serialize (k : key) : bytes :=
  pad_to 52 (42 :: byte_of_curve (fst k) :: (len (snd k) mod 256)
             :: concat (map (be 4) (firstn 12 (snd k)))).

Definition key_eqb (a b : key) : bool := curve_eqb (fst a) (fst b) && path_eqb (snd a) (snd b).
