(** Vocabulary of the statements about what the slots contain and about requests that
    are served. *)
From Coq Require Import List NArith Bool.
From Verif Require Import Base Flash Codecs CodecsSpec Upload UploadSpec Baking BakingSpec Operations OperationsSpec Oracles
  Address AddressSpec Device DeviceSpec.
Import ListNotations.
Open Scope N_scope.

(** ** Layouts of the four slots *)

(** A watermark: tag 0 (Emmy), endorsement flag, level; or tag 1 (Tenderbake),
    endorsement flag, level, pre-endorsement flag, round. Zeros up to 52 bytes. *)
Definition flag (b : bool) : N := if b then 1 else 0.
Inductive mark_bytes : bytes -> watermark -> Prop :=
| MarkEmmy level e : level < 2 ^ 32 ->
    mark_bytes ([0; flag e] ++ be 4 level ++ zeros 46) (WEmmy level e)
| MarkTenderbake level e round p : level < 2 ^ 32 -> round < 2 ^ 32 ->
    mark_bytes ([1; flag e] ++ be 4 level ++ [flag p] ++ be 4 round ++ zeros 41)
      (WTenderbake level e round p).

(** An authorised key: tag 42, curve, number of components, components; zeros up to 52
    bytes. *)
Definition key_layout (p : bytes) (k : key) : Prop :=
  path_ok BIP32_MAX_LENGTH (snd k) /\
  p = [42; byte_of_curve (fst k); len (snd k)] ++ concat (map (be 4) (snd k))
      ++ zeros (49 - 4 * length (snd k)).

(** What the app ever stores in each slot. *)
Definition proper (s : slot) (p : bytes) : Prop :=
  match s with
  | SMain | STest => exists w, mark_bytes p w
  | SChain => exists c, c < 2 ^ 32 /\ p = be 4 c ++ zeros 48
  | SKey => p = zeros 52 \/ exists k, key_layout p k
  end.

(** ** Messages *)

(** A message to be signed by the baking key, encoded as the protocol defines it, and
    its position. *)
Inductive consensus_message : bytes -> cpos -> Prop :=
| CmEmmyBlock h v more : header_ok h -> v < 2 -> h_fitness h = emmy_fit v more ->
    consensus_message (0x01 :: enc_header h) (PEmmy (h_level h) false)
| CmTenderbakeBlock h more round : header_ok h -> round < 2 ^ 32 ->
    h_fitness h = [2] :: more ++ [be 4 round] ->
    consensus_message (0x11 :: enc_header h) (PTB (h_level h) round KBlock)
| CmEmmyEndorsement chain branch level rest : chain < 2 ^ 32 -> length branch = 32%nat -> level < 2 ^ 32 ->
    consensus_message (0x02 :: enc_emmy_endo chain branch level rest) (PEmmy level true)
| CmTenderbakeEndorsement chain branch (is_pre : bool) slot level round payload rest :
    chain < 2 ^ 32 -> length branch = 32%nat -> slot < 2 ^ 16 -> level < 2 ^ 32 -> round < 2 ^ 32 ->
    length payload = 32%nat ->
    consensus_message ((if is_pre then 0x12 else 0x13) :: enc_tb_endo chain branch is_pre slot level round payload rest)
      (PTB level round (if is_pre then KPre else KEnd)).

(** A message a wallet can ask to be signed: an operation (its branch and anything
    after it) or Michelson data. *)
Inductive reviewed_message : bytes -> Prop :=
| RmOperation branch rest : length branch = 32%nat -> reviewed_message (3 :: branch ++ rest)
| RmMichelson rest : reviewed_message (5 :: rest).

(** The operations the baking app signs, after a review. *)
Definition baker_op (o : tz_op) : bool :=
  match o with TDelegation _ _ | TReveal _ _ _ => true | _ => false end.

(** ** Packets *)

(** An upload packet of the instruction [ins]. *)
Definition packet (ins : N) (kind : pkind) (p : bytes * N) : Prop :=
  apdu_ok (fst p) /\ 5 <= snd p <= 260 /\ nth 0 (fst p) 0 = 0x80 /\ nth 1 (fst p) 0 = ins /\
  kind_of (nth 2 (fst p) 0) = Some kind.

(** The packets that ask for [data] to be signed with the key [k]: one that names the
    key, then the message in any number of pieces. *)
Definition request (ins : N) (k : key) (data : bytes) (first : bytes * N) (mids : list (bytes * N))
    (last : bytes * N) : Prop :=
  packet ins KInit first /\ Forall (packet ins KNext) mids /\ packet ins KLast last /\
  names BIP32_MAX_LENGTH (fst first) k /\
  concat (map (fun p => pay (fst p)) (mids ++ [last])) = data /\
  (1 + length (pay (fst first)) + length data <= CAPACITY)%nat.

Definition sent (p : bytes * N) : event := EApdu (fst p) (snd p).

(** The answer to a packet that is not the last one. *)
Definition go_on : answer := AReply [0x90; 0].

(** ** Keys *)

(** The device can compute the public key [pk] of [k] and its address. *)
Definition addressable (O : oracles) (k : key) (pk : bytes) : Prop :=
  o_pubkey O (fst k) (snd k) = Some pk /\
  exists l h, hashed_form (fst k) pk l /\ o_blake2b O 20 l = Some h /\
    twice O (kind_prefix (addr_kind (fst k)) ++ h) <> None.

(** Every screen leaves room for an answer of [n] bytes. *)
Definition roomy (C : config) (n : N) : Prop := forall v, exists room, cf_room C v = Some room /\ n <= room.
