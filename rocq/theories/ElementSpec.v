(** What the app wants of the secure element. *)
From Coq Require Import List NArith Bool Arith.
From Verif Require Import Base Codecs Oracles Element.
Import ListNotations.
Open Scope N_scope.

(** The calls write buffers of the documented sizes. *)
Record element_ok (E : element) : Prop := mkElementOk {
  ek_pair : forall c k pk, e_pair E c k = Some pk ->
    pb_curve pk = c /\ pb_len pk = 65 /\ length (pb_w pk) = 65%nat /\ bytes_ok (pb_w pk);
  ek_compress : forall c w w', e_compress E c w = Some w' -> length w = 65%nat -> bytes_ok w ->
    length w' = 65%nat /\ bytes_ok w';
  ek_ecdsa : forall k m h d room g info, e_ecdsa E k m h d room = Some (g, info) -> len g <= room /\ bytes_ok g;
  ek_eddsa : forall k h d room g, e_eddsa E k h d room = Some g -> length g = 64%nat /\ bytes_ok g;
  ek_domain : e_domain E 0x71 = Some 32;
  ek_hash : forall st x n st' d, e_hash E st true x n = Some (st', d) -> len d = n /\ bytes_ok d;
  ek_hmac : forall st m x n st' d, e_hmac E st m x n = Some (st', d) -> len d = n /\ bytes_ok d
}.

(** Which tree of keys (0: BIP-32, 1: SLIP-10) and which curve of the system belongs to
    each curve of the protocol. *)
Definition derivation (c : curve) : N * N :=
  match c with
  | Ed25519 => (1, 0x71)
  | Secp256K1 => (0, 0x21)
  | Secp256R1 => (0, 0x22)
  | Bip32Ed25519 => (0, 0x71)
  end.
Definition edwards (c : curve) : bool :=
  match c with Ed25519 | Bip32Ed25519 => true | Secp256K1 | Secp256R1 => false end.

(** The private key at a path: the first half of the derived node. *)
Definition key_at (E : element) (c : curve) (p : path) (sk : privkey) : Prop :=
  exists node, e_derive E (fst (derivation c)) (snd (derivation c)) p = (true, node) /\
    e_init E (snd (derivation c)) (firstn 32 node) = (true, sk).

(** Its public key: compressed on the Edwards curve, the whole point otherwise. *)
Definition public_of (E : element) (c : curve) (sk : privkey) (k : bytes) : Prop :=
  exists pk, e_pair E (snd (derivation c)) sk = Some pk /\
    if edwards c then exists w, e_compress E 0x71 (pb_w pk) = Some w /\ k = firstn 33 w
    else k = pb_w pk.

(** Its signature of a digest: EdDSA with SHA-512, or ECDSA with nonces of RFC 6979 and
    SHA-256, where the lowest bit of the first byte is set if the call reports an odd
    ordinate and nothing else. *)
Definition signature_of (E : element) (c : curve) (sk : privkey) (digest g : bytes) : Prop :=
  if edwards c then e_eddsa E sk 5 digest 72 = Some g
  else exists g0 info, e_ecdsa E sk 0x600 3 digest 72 = Some (g0, info) /\
    length g = length g0 /\ tl g = tl g0 /\
    nth 0 g 0 = (if (info =? 1) && (0 <? len g0) then 2 * (nth 0 g0 0 / 2) + 1 else nth 0 g0 0).

(** Nothing secret is left. *)
Definition erased (m : mem) : Prop := Forall (eq 0) (m_node m) /\ Forall (eq 0) (pv_d (m_key m)).

(** The element computes [H] (hash id, bits, message) as a stream: [absorbed] tells what a
    context has taken in. *)
Record hashes (E : element) (H : N -> N -> bytes -> bytes) (absorbed : e_hstate E -> N -> N -> bytes -> Prop) : Prop := mkHashes {
  hs_init : forall alg bits st, e_hash_init E alg bits = Some st -> absorbed st alg bits [];
  hs_more : forall alg bits st l x n st' o, absorbed st alg bits l -> e_hash E st false x n = Some (st', o) ->
    absorbed st' alg bits (l ++ x);
  hs_last : forall alg bits st l x st' o, absorbed st alg bits l -> e_hash E st true x (bits / 8) = Some (st', o) ->
    o = H alg bits (l ++ x)
}.
(** No call fails. *)
Definition hashing_works (E : element) : Prop :=
  (forall alg bits, e_hash_init E alg bits <> None) /\ (forall st last x n, e_hash E st last x n <> None).
(** The same for a keyed hash: the lowest bit of the mode tells the last piece, bit 15
    that the context is kept. *)
Record macs (E : element) (M : bytes -> bytes -> bytes) (absorbed : e_mstate E -> bytes -> bytes -> Prop) : Prop := mkMacs {
  mc_init : forall key st, e_hmac_init E key = Some st -> absorbed st key [];
  mc_more : forall key st l m x n st' o, absorbed st key l -> N.testbit m 15 = true -> N.testbit m 0 = false ->
    e_hmac E st m x n = Some (st', o) -> absorbed st' key (l ++ x);
  mc_last : forall key st l m x st' o, absorbed st key l -> N.testbit m 15 = true -> N.testbit m 0 = true ->
    e_hmac E st m x 32 = Some (st', o) -> o = M key (l ++ x)
}.
