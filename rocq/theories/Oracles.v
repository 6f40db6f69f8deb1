(** What the app asks the secure element for. A model of the device is stated
    for an arbitrary value of this record; nothing is assumed about hashes,
    derivation and signatures unless a theorem says so ([oracles_ok]). *)
From Coq Require Import List NArith.
From Verif Require Import Base Codecs.
Import ListNotations.
Open Scope N_scope.

(** Each function answers [None] when the system call reports an error. All are
    functions of their arguments: the same request always gets the same answer. *)
Record oracles := mkOracles {
  (** [Blake2b<S>::digest], rust/bolos-impl/src/hash/blake2b.rs; output size first. *)
  o_blake2b : nat -> bytes -> option bytes;
  (** [Sha256::digest], [Sha512::digest]. *)
  o_sha256 : bytes -> option bytes;
  o_sha512 : bytes -> option bytes;
  (** [Sha256HMAC], rust/bolos-impl/src/hmac/sha256.rs: key, message. *)
  o_hmac256 : bytes -> bytes -> option bytes;
  (** rust/app/src/handlers/public_key.rs l.38-50: the public key at a path,
      after [compress]. *)
  o_pubkey : curve -> path -> option bytes;
  (** rust/app/src/crypto.rs l.189-203: the signature of some bytes with the key at
      a path. *)
  o_sign : curve -> path -> bytes -> option bytes
}.

(** Compressed Edwards keys have 33 bytes, the others 65 (the point is not compressed:
    rust/bolos-impl/src/crypto/ecfp256.rs l.31-41). *)
Definition pubkey_length (c : curve) : nat :=
  match c with Ed25519 | Bip32Ed25519 => 33 | Secp256K1 | Secp256R1 => 65 end.

(** Answers are byte strings of the right size. *)
Record oracles_ok (O : oracles) : Prop := mkOraclesOk {
  ok_blake2b : forall n l d, o_blake2b O n l = Some d -> length d = n /\ bytes_ok d;
  ok_sha256 : forall l d, o_sha256 O l = Some d -> length d = 32%nat /\ bytes_ok d;
  ok_sha512 : forall l d, o_sha512 O l = Some d -> length d = 64%nat /\ bytes_ok d;
  ok_hmac256 : forall k l d, o_hmac256 O k l = Some d -> length d = 32%nat /\ bytes_ok d;
  ok_pubkey : forall c p k, o_pubkey O c p = Some k -> length k = pubkey_length c /\ bytes_ok k;
  ok_sign : forall c p l s, o_sign O c p l = Some s -> (length s <= 100)%nat /\ bytes_ok s
}.
