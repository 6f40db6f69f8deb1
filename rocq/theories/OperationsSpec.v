(** Specification side of the operation parsers: the Tezos binary encoding of
    integers and operations, written independently of the parsers. *)
From Coq Require Import List NArith ZArith Bool Arith.
From Verif Require Import Base Codecs Operations.
Import ListNotations.
Open Scope N_scope.

(** ** Integers *)

(** Little-endian groups of seven bits. *)
Fixpoint groups_value (l : bytes) : N :=
  match l with
  | [] => 0
  | b :: t => b mod 128 + 128 * groups_value t
  end.

(** Signed numbers spend one bit of the first group on the sign. *)
Definition magnitude (signed : bool) (l : bytes) : N :=
  if signed then
    match l with
    | [] => 0
    | b :: t => b mod 64 + 64 * groups_value t
    end
  else groups_value l.
Definition negative (l : bytes) : bool :=
  match l with [] => false | b :: _ => N.testbit b 6 end.

(** Bits carried by an encoding of this many bytes. *)
Definition payload_bits (signed : bool) (l : bytes) : N :=
  match l with [] => 0 | _ => 7 * len l - (if signed then 1 else 0) end.

(** A complete encoding: every byte but the last has the continuation bit. *)
Definition z_complete (l : bytes) : Prop :=
  exists init last, l = init ++ [last] /\ Forall (fun b => 128 <= b < 256) init /\ last < 128.

(** The minimal encoding of a natural number. *)
Fixpoint enc_groups (fuel : nat) (n : N) : bytes :=
  match fuel with
  | O => []
  | S f => if n <? 128 then [n] else (128 + n mod 128) :: enc_groups f (n / 128)
  end.
Definition enc_nat (n : N) : bytes := enc_groups (S (N.size_nat n)) n.

(** The minimal encoding of an integer. *)
Definition enc_int (z : Z) : bytes :=
  let n := Z.abs_N z in
  let s := if (z <? 0)%Z then 64 else 0 in
  if n <? 64 then [s + n] else (128 + s + n mod 64) :: enc_nat (n / 64).

(** ** Operations *)

Inductive addr_kind := Tz1 | Tz2 | Tz3.
Record tz_pkh := mkPkh { pkh_kind : addr_kind; pkh_hash : bytes }.
Definition kind_tag (k : addr_kind) : N := match k with Tz1 => 0 | Tz2 => 1 | Tz3 => 2 end.
Definition kind_curve (k : addr_kind) : curve :=
  match k with Tz1 => Bip32Ed25519 | Tz2 => Secp256K1 | Tz3 => Secp256R1 end.

Inductive tz_contract := TzImplicit (p : tz_pkh) | TzOriginated (h : bytes).

Record tz_manager := mkTzMan {
  tm_source : tz_pkh; tm_fee : N; tm_counter : N; tm_gas : N; tm_storage : N
}.

(** An endorsement embedded in another operation, with its signature. *)
Record tz_inlined := mkInl { ti_branch : bytes; ti_level : Z; ti_sig : bytes }.

Record tz_header := mkTzHeader {
  th_level : Z; th_proto : N; th_pred : bytes; th_time : N; th_vpass : N; th_ophash : bytes;
  th_fitness : list bytes; th_context : bytes; th_priority : N; th_pow : bytes;
  th_seed : option bytes; th_escape : bool; th_sig : bytes
}.

Inductive tz_op :=
| TTransfer (m : tz_manager) (amount : N) (dest : tz_contract) (params : option (entrypoint * bytes))
| TDelegation (m : tz_manager) (delegate : option tz_pkh)
| TEndorsement (level : Z)
| TEndorsementWithSlot (e : tz_inlined) (slot : N)
| TBallot (source : tz_pkh) (period : Z) (proposal : bytes) (v : vote)
| TReveal (m : tz_manager) (kind : addr_kind) (pk : bytes)
| TProposals (source : tz_pkh) (period : Z) (proposals : list bytes)
| TOrigination (m : tz_manager) (balance : N) (delegate : option tz_pkh) (code storage : bytes)
| TActivate (pkh secret : bytes)
| TFailingNoop (arbitrary : bytes)
| TSeedNonce (level : Z) (nonce : bytes)
| TDoubleEndorsement (a b : tz_inlined) (slot : N)
| TDoubleBaking (a b : tz_header).

(** *** Encoding *)
Definition enc_bool (b : bool) : bytes := if b then [255] else [0].
Definition enc_dyn (l : bytes) : bytes := be 4 (len l) ++ l.
Definition enc_opt {A} (f : A -> bytes) (o : option A) : bytes :=
  match o with Some a => 255 :: f a | None => [0] end.
Definition enc_i32 (z : Z) : bytes := be 4 (Z.to_N (z mod 2 ^ 32)).
Definition enc_pkh (p : tz_pkh) : bytes := kind_tag (pkh_kind p) :: pkh_hash p.
Definition enc_contract (c : tz_contract) : bytes :=
  match c with
  | TzImplicit p => 0 :: enc_pkh p
  | TzOriginated h => 1 :: h ++ [0]
  end.
Definition enc_entrypoint (e : entrypoint) : bytes :=
  match e with
  | EpDefault => [0] | EpRoot => [1] | EpDo => [2] | EpSetDelegate => [3] | EpRemoveDelegate => [4]
  | EpCustom n => 255 :: len n :: n
  end.
Definition enc_params (p : entrypoint * bytes) : bytes := enc_entrypoint (fst p) ++ enc_dyn (snd p).
Definition enc_manager (m : tz_manager) : bytes :=
  enc_pkh (tm_source m) ++ enc_nat (tm_fee m) ++ enc_nat (tm_counter m)
  ++ enc_nat (tm_gas m) ++ enc_nat (tm_storage m).
Definition enc_inlined (e : tz_inlined) : bytes :=
  enc_dyn (ti_branch e ++ [0] ++ enc_i32 (ti_level e) ++ ti_sig e).
Definition enc_tz_header (h : tz_header) : bytes :=
  enc_i32 (th_level h) ++ [th_proto h] ++ th_pred h ++ be 8 (th_time h) ++ [th_vpass h]
  ++ th_ophash h ++ enc_dyn (flat_map enc_dyn (th_fitness h)) ++ th_context h
  ++ be 2 (th_priority h) ++ th_pow h ++ enc_opt (fun s => s) (th_seed h)
  ++ enc_bool (th_escape h) ++ th_sig h.
Definition vote_byte (v : vote) : N := match v with Yay => 0 | Nay => 1 | Pass => 2 end.

Definition enc_op (o : tz_op) : bytes :=
  match o with
  | TEndorsement l => 0 :: enc_i32 l
  | TSeedNonce l n => 1 :: enc_i32 l ++ n
  | TDoubleEndorsement a b s => 2 :: enc_inlined a ++ enc_inlined b ++ be 2 s
  | TDoubleBaking a b => 3 :: enc_tz_header a ++ enc_tz_header b
  | TActivate h s => 4 :: h ++ s
  | TProposals s p hs => 5 :: enc_pkh s ++ enc_i32 p ++ enc_dyn (concat hs)
  | TBallot s p h v => 6 :: enc_pkh s ++ enc_i32 p ++ h ++ [vote_byte v]
  | TEndorsementWithSlot e s => 10 :: enc_inlined e ++ be 2 s
  | TFailingNoop a => 17 :: enc_dyn a
  | TReveal m k pk => 107 :: enc_manager m ++ kind_tag k :: pk
  | TTransfer m a d p => 108 :: enc_manager m ++ enc_nat a ++ enc_contract d ++ enc_opt enc_params p
  | TOrigination m b d c s =>
    109 :: enc_manager m ++ enc_nat b ++ enc_opt enc_pkh d ++ enc_dyn c ++ enc_dyn s
  | TDelegation m d => 110 :: enc_manager m ++ enc_opt enc_pkh d
  end.

(** *** Well-formed values (sizes fixed by the protocol) *)
Definition i32_ok (z : Z) : Prop := (- 2 ^ 31 <= z < 2 ^ 31)%Z.
Definition size_ok (l : bytes) : Prop := len l < 2 ^ 32.
Definition pkh_ok (p : tz_pkh) : Prop := length (pkh_hash p) = 20%nat.
Definition opt_ok {A} (P : A -> Prop) (o : option A) : Prop :=
  match o with Some a => P a | None => True end.
Definition contract_ok (c : tz_contract) : Prop :=
  match c with TzImplicit p => pkh_ok p | TzOriginated h => length h = 20%nat end.
Definition params_ok (p : entrypoint * bytes) : Prop :=
  match fst p with EpCustom n => len n < 256 | _ => True end /\ size_ok (snd p).
Definition inlined_ok (e : tz_inlined) : Prop :=
  length (ti_branch e) = 32%nat /\ i32_ok (ti_level e) /\ len (ti_sig e) + 37 < 2 ^ 32.
Definition tz_header_ok (h : tz_header) : Prop :=
  i32_ok (th_level h) /\ th_proto h < 256 /\ length (th_pred h) = 32%nat /\ th_time h < 2 ^ 64
  /\ th_vpass h < 256 /\ length (th_ophash h) = 32%nat
  /\ Forall size_ok (th_fitness h) /\ size_ok (flat_map enc_dyn (th_fitness h))
  /\ length (th_context h) = 32%nat /\ th_priority h < 2 ^ 16 /\ length (th_pow h) = 8%nat
  /\ opt_ok (fun s => length s = 32%nat) (th_seed h) /\ length (th_sig h) = 64%nat.
Definition pk_size (k : addr_kind) : nat := match k with Tz1 => 32 | _ => 33 end.

Definition op_ok (o : tz_op) : Prop :=
  match o with
  | TEndorsement l => i32_ok l
  | TSeedNonce l n => i32_ok l /\ length n = 32%nat
  | TDoubleEndorsement a b s => inlined_ok a /\ inlined_ok b /\ s < 2 ^ 16
  | TDoubleBaking a b => tz_header_ok a /\ tz_header_ok b
  | TActivate h s => length h = 20%nat /\ length s = 20%nat
  | TProposals s p hs =>
    pkh_ok s /\ i32_ok p /\ Forall (fun h => length h = 32%nat) hs /\ size_ok (concat hs)
  | TBallot s p h v => pkh_ok s /\ i32_ok p /\ length h = 32%nat
  | TEndorsementWithSlot e s => inlined_ok e /\ s < 2 ^ 16
  | TFailingNoop a => size_ok a
  | TReveal m k pk => pkh_ok (tm_source m) /\ length pk = pk_size k
  | TTransfer m a d p => pkh_ok (tm_source m) /\ contract_ok d /\ opt_ok params_ok p
  | TOrigination m b d c s => pkh_ok (tm_source m) /\ opt_ok pkh_ok d /\ size_ok c /\ size_ok s
  | TDelegation m d => pkh_ok (tm_source m) /\ opt_ok pkh_ok d
  end.

(** *** What the app must hold after decoding *)
Definition z_of (n : N) : zarith := mkZ (enc_nat n) None.
Definition pkh_of (p : tz_pkh) : curve * bytes := (kind_curve (pkh_kind p), pkh_hash p).
Definition manager_of (m : tz_manager) : manager :=
  mkMan (pkh_of (tm_source m)) (z_of (tm_fee m)) (z_of (tm_counter m)) (z_of (tm_gas m))
        (z_of (tm_storage m)).
Definition contract_of (c : tz_contract) : contract_id :=
  match c with
  | TzImplicit p => Implicit (kind_curve (pkh_kind p)) (pkh_hash p)
  | TzOriginated h => Originated h
  end.
Definition op_of (o : tz_op) : op :=
  match o with
  | TEndorsement l => OEndorsement l
  | TSeedNonce _ _ | TDoubleEndorsement _ _ _ | TDoubleBaking _ _ => OAnonymous
  | TActivate h s => OActivate h s
  | TProposals s p hs => OProposals (pkh_of s) p hs
  | TBallot s p h v => OBallot (pkh_of s) p h v
  | TEndorsementWithSlot e s => OEndorsementWithSlot (ti_branch e) (ti_level e) (ti_sig e) s
  | TFailingNoop a => OFailingNoop a
  | TReveal m k pk => OReveal (manager_of m) (kind_curve k, pk)
  | TTransfer m a d p => OTransfer (manager_of m) (z_of a) (contract_of d) p
  | TOrigination m b d c s => OOrigination (manager_of m) (z_of b) (option_map pkh_of d) c s
  | TDelegation m d => ODelegation (manager_of m) (option_map pkh_of d)
  end.
