(** The secure element: the app's use of the system calls for keys, signatures and
    hashes, rust/bolos-impl/src/{crypto,hash,hmac}* and rust/app/src/crypto.rs. *)
From Coq Require Import List NArith Bool Arith.
From Verif Require Import Base Codecs Oracles Address.
Import ListNotations.
Open Scope N_scope.

(** bolos-sys bindings, [cx_ecfp_256_private_key_s]: curve and value ([d]). *)
Record privkey := mkPriv { pv_curve : N; pv_d : bytes }.
(** [cx_ecfp_256_public_key_s]: curve, [W_len] and [W] (65 bytes). *)
Record pubkey := mkPub { pb_curve : N; pb_len : N; pb_w : bytes }.

(** The system calls. They are functions of their arguments: derivation is from a fixed
    seed and signatures use RFC 6979 nonces. A call that reports an error (or throws)
    answers [None]; the first two also tell what they leave in memory. *)
Record element := mkElement {
  (** [os_perso_derive_node_with_seed_key] (mode, curve, path): whether it returns, and
      its output buffer of 64 bytes. *)
  e_derive : N -> N -> path -> bool * bytes;
  (** [cx_ecfp_init_private_key_no_throw] (curve, 32 bytes). *)
  e_init : N -> bytes -> bool * privkey;
  (** [cx_ecfp_generate_pair_no_throw] (curve, private key to keep). *)
  e_pair : N -> privkey -> option pubkey;
  (** [cx_edwards_compress_point_no_throw] (curve, point), in place. *)
  e_compress : N -> bytes -> option bytes;
  (** [cx_ecdsa_sign_no_throw] (key, mode, hash id, digest, room): signature, info. *)
  e_ecdsa : privkey -> N -> N -> bytes -> N -> option (bytes * N);
  (** [cx_eddsa_sign_no_throw] (key, hash id, digest, room): what it writes. *)
  e_eddsa : privkey -> N -> bytes -> N -> option bytes;
  (** [cx_ecdomain_parameters_length] (curve). *)
  e_domain : N -> option N;
  (** [cx_{blake2b,sha256,sha512}_init_no_throw] (hash id, output bits), and
      [cx_hash_no_throw] (context, last, input, output size). *)
  e_hstate : Type;
  e_hash_init : N -> N -> option e_hstate;
  e_hash : e_hstate -> bool -> bytes -> N -> option (e_hstate * bytes);
  (** [cx_hmac_sha256_init_no_throw] (key) and [cx_hmac_no_throw] (context, mode, input,
      output size). *)
  e_mstate : Type;
  e_hmac_init : bytes -> option e_mstate;
  e_hmac : e_mstate -> N -> bytes -> N -> option (e_mstate * bytes)
}.

(** bolos-impl/src/crypto.rs l.37-76, the curves the app uses. *)
Inductive scurve := SEd25519 | SSecp256K1 | SSecp256R1.
(** bolos-impl/src/crypto.rs l.111-136; bindingsS.rs l.1907-1941. *)
Definition scurve_id (c : scurve) : N :=
  match c with SEd25519 => 113 | SSecp256K1 => 33 | SSecp256R1 => 34 end.
(** bolos-impl/src/crypto.rs l.140-176; no Montgomery curve is used. *)
Definition is_weierstrass (c : scurve) : bool := match c with SEd25519 => false | _ => true end.
(** bolos-impl/src/crypto.rs l.178-197. *)
Definition domain_length (c : scurve) : N := 32.
(** bolos-impl/src/crypto.rs l.204-234; bindingsS.rs l.530-531. *)
Inductive smode := MBip32 | MSlip10.
Definition smode_id (m : smode) : N := match m with MBip32 => 0 | MSlip10 => 1 end.

(** app/src/crypto.rs l.119-127. *)
Definition to_sys (c : curve) : scurve :=
  match c with Ed25519 | Bip32Ed25519 => SEd25519 | Secp256K1 => SSecp256K1 | Secp256R1 => SSecp256R1 end.
(** app/src/crypto.rs l.129-144. *)
Definition from_sys (c : scurve) : curve :=
  match c with SEd25519 => Bip32Ed25519 | SSecp256K1 => Secp256K1 | SSecp256R1 => Secp256R1 end.
(** app/src/crypto.rs l.154-166: [SecretKey::new]. *)
Definition key_mode (c : curve) : smode := match c with Ed25519 => MSlip10 | _ => MBip32 end.

(** The buffers that hold secrets during a call: [sk_data] (ecfp256.rs l.92) and the
    private key (l.82 and l.134). A value that is moved is taken to leave its old place. *)
Record mem := mkMem { m_node : bytes; m_key : privkey }.
Definition mem_start : mem := mkMem (zeros 64) (mkPriv 0 (zeros 32)).
(** bolos-sys/src/extra_traits.rs l.21-25. *)
Definition zeroize_key (m : mem) : mem := mkMem (m_node m) (mkPriv (pv_curve (m_key m)) (zeros 32)).

Section Element.
  Variable E : element.

  (** ** Keys: bolos-impl/src/crypto/ecfp256.rs *)

  (** l.89-107: [generate_into]; bindings crypto.rs l.248-286 and ecfp256.rs l.211-243,
      which gives the length 32. *)
  Definition generate_into (mode : smode) (c : scurve) (p : path) (m : mem) : bool * mem :=
    let (ok, node) := e_derive E (smode_id mode) (scurve_id c) p in
    if negb ok then (false, mkMem node (m_key m))
    else
      let (ok, k) := e_init E (scurve_id c) (firstn 32 node) in
      (ok, mkMem (zeros 64) k).

  (** l.120-143 with l.245-286: [public_into]. *)
  Definition public_into (mode : smode) (c : scurve) (p : path) (m : mem) : option pubkey * mem :=
    let (ok, m) := generate_into mode c p m in
    if negb ok then (None, m)
    else match e_pair E (scurve_id c) (m_key m) with
         | None => (None, m)
         | Some pk => (Some pk, zeroize_key m)
         end.

  (** l.31-41: [compress], with l.180-197. The curve is the one in the public key. *)
  Definition compress (pk : pubkey) : option pubkey :=
    if pb_curve pk =? scurve_id SEd25519 then
      match e_compress E (scurve_id SEd25519) (pb_w pk) with
      | Some w => Some (mkPub (pb_curve pk) 33 w)
      | None => None
      end
    else Some pk.
  (** l.59-63: [as_ref]. A length beyond the array, which panics, is cut. *)
  Definition key_bytes (pk : pubkey) : bytes := firstn (N.to_nat (pb_len pk)) (pb_w pk).

  (** handlers/public_key.rs l.38-50: [new_key_into]. *)
  Definition new_key (c : curve) (p : path) (m : mem) : option bytes * mem :=
    match public_into (key_mode c) (to_sys c) p m with
    | (None, m) => (None, m)
    | (Some pk, m) => (option_map key_bytes (compress pk), m)
    end.

  (** bindingsS.rs l.110, l.3474, l.3478, l.83. *)
  Definition CX_RND_RFC6979 : N := 1536.
  Definition CX_SHA256 : N := 3.
  Definition CX_SHA512 : N := 5.
  Definition CX_BLAKE2B : N := 9.
  Definition CX_ECCINFO_PARITY_ODD : N := 1.

  (** l.312-315 and l.358-361: the room for a signature. *)
  Definition sig_room (c : scurve) : N := 6 + 2 * (domain_length c + 1).

  (** l.290-340 with l.152-158: an ECDSA signature, its first byte marked. *)
  Definition ecdsa_sign (c : scurve) (k : privkey) (data : bytes) : option bytes :=
    match e_ecdsa E k CX_RND_RFC6979 CX_SHA256 data (sig_room c) with
    | None => None
    | Some (g, info) =>
      Some (if info =? CX_ECCINFO_PARITY_ODD then
              match g with [] => [] | b :: t => N.lor b 1 :: t end
            else g)
    end.
  (** l.342-391: an EdDSA signature. Its size is what [cx_ecdomain_parameters_length]
      says, doubled; the rest of the caller's array is zero. *)
  Definition eddsa_sign (c : scurve) (k : privkey) (data : bytes) : option bytes :=
    match e_eddsa E k CX_SHA512 data (sig_room c) with
    | None => None
    | Some g =>
      match e_domain E (scurve_id c) with
      | None => None
      | Some n => let size := N.to_nat ((2 * n) mod 2 ^ 32) in Some (firstn size (pad_to size g))
      end
    end.
  (** l.146-167: [sign], with [generate] (l.81-87); the key is erased when it is dropped. *)
  Definition key_sign (mode : smode) (c : scurve) (p : path) (data : bytes) (m : mem) : option bytes * mem :=
    let (ok, m) := generate_into mode c p m in
    if negb ok then (None, m)
    else
      (if is_weierstrass c then ecdsa_sign c (m_key m) data else eddsa_sign c (m_key m) data, zeroize_key m).

  (** app/src/crypto.rs l.189-203: [sign] into a buffer of [room] bytes; constants.rs
      l.100-101. *)
  Definition sign_into (room : N) (c : curve) (p : path) (data : bytes) (m : mem) : option bytes * mem :=
    if room <? match from_sys (to_sys c) with Ed25519 | Bip32Ed25519 => 64 | Secp256K1 | Secp256R1 => 100 end
    then (None, m)
    else key_sign (key_mode c) (to_sys c) p data m.

  (** ** Hashes: bolos-impl/src/hash.rs *)

  (** A hasher: what it computes, and its context. *)
  Definition hasher := (N * N * e_hstate E)%type.
  (** blake2b.rs l.43-69 ([S * 8] bits), sha256.rs l.40-60, sha512.rs l.40-60: [new_gce]. *)
  Definition hasher_new (alg bits : N) : option hasher :=
    option_map (fun st => (alg, bits, st)) (e_hash_init E alg bits).
  (** hash.rs l.89-91: [update]. *)
  Definition hasher_update (h : hasher) (input : bytes) : option hasher :=
    match e_hash E (snd h) false input 0 with
    | Some (st, _) => Some (fst h, st)
    | None => None
    end.
  (** hash.rs l.94-98 and l.101-105: [finalize_dirty_into] and [finalize_into]. *)
  Definition hasher_finalize (h : hasher) : option (hasher * bytes) :=
    match e_hash E (snd h) true [] (snd (fst h) / 8) with
    | Some (st, out) => Some ((fst h, st), out)
    | None => None
    end.
  (** hash.rs l.108-110: [reset]. *)
  Definition hasher_reset (h : hasher) : option hasher := hasher_new (fst (fst h)) (snd (fst h)).
  (** hash.rs l.113-125: [digest_into]. *)
  Definition digest (alg bits : N) (input : bytes) : option bytes :=
    match hasher_new alg bits with
    | None => None
    | Some h => option_map snd (e_hash E (snd h) true input (bits / 8))
    end.
  Definition hasher_updates (pieces : list bytes) (h : hasher) : option hasher :=
    fold_left (fun o piece => match o with Some h => hasher_update h piece | None => None end) pieces (Some h).

  (** handlers/utils.rs l.162-197: [sha256x2]. *)
  Definition sha256x2_pieces (pieces : list bytes) : option bytes :=
    match hasher_new CX_SHA256 256 with None => None | Some h =>
    match hasher_updates pieces h with None => None | Some h =>
    match hasher_finalize h with None => None | Some (h, d) =>
    match hasher_reset h with None => None | Some h =>
    match hasher_update h d with None => None | Some h =>
    match hasher_finalize h with None => None | Some (_, d) => Some (firstn 4 d)
    end end end end end end.

  (** app/src/crypto.rs l.36-68: [PublicKey::hash]; the curve is the one read back. *)
  Definition pk_hash_pieces (c : curve) (pk : bytes) : option bytes :=
    match hasher_new CX_BLAKE2B 160 with None => None | Some h =>
    match hasher_updates
      match from_sys (to_sys c) with
      | Ed25519 | Bip32Ed25519 => [skipn 1 pk]
      | Secp256K1 | Secp256R1 => [[2 + N.land (nth 64 pk 0) 1]; slice 1 32 pk]
      end h with None => None | Some h =>
    option_map snd (hasher_finalize h)
    end end.

  (** handlers/public_key.rs l.166-208: [Addr::new_into]. *)
  Definition addr_pieces (c : curve) (pk : bytes) : option addr :=
    let prefix := hash_prefix (from_sys (to_sys c)) in
    match pk_hash_pieces c pk with
    | None => None
    | Some h => option_map (mkAddr prefix h) (sha256x2_pieces [prefix; h])
    end.

  (** bindingsS.rs l.121, l.85. *)
  Definition CX_NO_REINIT : N := 32768.
  Definition CX_LAST : N := 1.
  (** handlers/baking/hmac.rs l.55-72 with hmac/sha256.rs l.41-79 and hmac.rs l.32-66. *)
  Definition hmac (key message : bytes) : option bytes :=
    match e_hmac_init E key with
    | None => None
    | Some st =>
      match e_hmac E st CX_NO_REINIT message 0 with
      | None => None
      | Some (st, _) => option_map snd (e_hmac E st (N.lor CX_NO_REINIT CX_LAST) [] 32)
      end
    end.

  (** What the handlers see of the element. Their buffers for signatures have 100 bytes
      (signing.rs l.64, baking.rs l.184). *)
  Definition oracles_of : oracles := mkOracles
    (fun n l => digest CX_BLAKE2B (8 * N.of_nat n) l)
    (digest CX_SHA256 256)
    (digest CX_SHA512 512)
    hmac
    (fun c p => fst (new_key c p mem_start))
    (fun c p data => fst (sign_into 100 c p data mem_start)).
End Element.
