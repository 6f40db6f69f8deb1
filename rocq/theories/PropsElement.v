(** C69 to C71: the use of the secure element. *)
From Coq Require Import List NArith Bool Arith.
From Verif Require Import Base Flash Codecs Oracles Address Baking Device DeviceSpec DeviceDemo DeviceCases Element ElementSpec
  ElementFacts ElementExamples.
Import ListNotations.
Open Scope N_scope.

(** C69: the public key and the signatures for a curve and a path come from one private
    key, the one derived there. *)
Theorem C69_shown_key_signs E c p k data g : element_ok E ->
  o_pubkey (oracles_of E) c p = Some k -> o_sign (oracles_of E) c p data = Some g ->
  exists sk, key_at E c p sk /\ public_of E c sk k /\ signature_of E c sk data g.
Proof. exact (shown_key_signs E c p k data g). Qed.
Print Assumptions C69_shown_key_signs.

(** C69: exactly the keys and signatures that the element can give are given. *)
Theorem C69_keys_and_signatures E : element_ok E ->
  (forall c p k, o_pubkey (oracles_of E) c p = Some k <-> exists sk, key_at E c p sk /\ public_of E c sk k) /\
  (forall c p data g, o_sign (oracles_of E) c p data = Some g <-> exists sk, key_at E c p sk /\ signature_of E c sk data g).
Proof. exact (keys_and_signatures E). Qed.
Print Assumptions C69_keys_and_signatures.

(** All four curves give keys and signatures, and the keys differ. *)
Example C69_shown_key_signs_case : element_ok toys /\
  (forall c, In c [Ed25519; Secp256K1; Secp256R1; Bip32Ed25519] ->
    option_map len (o_pubkey (oracles_of toys) c toy_path) = Some (if edwards c then 33 else 65) /\
    option_map len (o_sign (oracles_of toys) c toy_path [1; 2; 3]) = Some (if edwards c then 64 else 71)) /\
  NoDup (map (fun c => o_pubkey (oracles_of toys) c toy_path) [Ed25519; Secp256K1; Secp256R1; Bip32Ed25519]).
Proof. exact toys_meet. Qed.
(** The mark of an odd ordinate. *)
Example C69_mark_case :
  option_map (firstn 1) (o_sign (oracles_of toys) Secp256K1 toy_path [1; 2; 3]) = Some [0x31] /\
  option_map (firstn 1) (o_sign (oracles_of toys) Secp256K1 toy_path [2; 2; 3]) = Some [0x30].
Proof. exact toys_marks. Qed.

(** C69: every signature a device has ever made is one of the private key derived for the
    curve and path of its record, whose public key is the one the device shows for them,
    and the answer carries it. *)
Theorem C69_device_keys E C f u es g : element_ok E -> Forall event_ok es ->
  In g (d_log (snd (run C (oracles_of E) (dev_fresh f u) es))) ->
  exists sk s, key_at E (fst (sg_key g)) (snd (sg_key g)) sk /\
    signature_of E (fst (sg_key g)) sk (sg_digest g) s /\
    (forall k, o_pubkey (oracles_of E) (fst (sg_key g)) (snd (sg_key g)) = Some k -> public_of E (fst (sg_key g)) sk k) /\
    exists es1 e es2, es = es1 ++ e :: es2 /\
      let d := snd (run C (oracles_of E) (dev_fresh f u) es1) in
      let r := step C (oracles_of E) d e in
      d_log (snd r) = g :: d_log d /\
      match sg_src g with
      | SrcHmac => True
      | _ => fst r = ADied \/ fst r = AReply (s ++ [0x90; 0]) \/ fst r = AReply (sg_digest g ++ s ++ [0x90; 0])
      end.
Proof. exact (fun K => device_keys E K C f u es g). Qed.
Print Assumptions C69_device_keys.
Example C69_device_keys_case : element_ok toys /\ Forall event_ok wallet_events /\
  map (fun g => (sg_src g, sg_key g)) (d_log (snd (run wallet_config (oracles_of toys) (dev_fresh [] []) wallet_events))) <> [].
Proof. exact (conj (toy_element_ok true true) toys_wallet). Qed.

(** C69: if the element derives different nodes for different arguments, different curves
    or paths have different private keys. *)
Theorem C69_keys_apart E c p c' p' sk :
  (forall m i q m' i' q' n n', e_derive E m i q = (true, n) -> e_derive E m' i' q' = (true, n') ->
     firstn 32 n = firstn 32 n' -> (m, i, q) = (m', i', q')) ->
  (forall i x i' x' k, e_init E i x = (true, k) -> e_init E i' x' = (true, k) -> x = x') ->
  key_at E c p sk -> key_at E c' p' sk -> (c, p) = (c', p').
Proof. exact (keys_apart E c p c' p' sk). Qed.
Print Assumptions C69_keys_apart.
Example C69_keys_apart_case :
  (forall m i q m' i' q' n n', e_derive toys m i q = (true, n) -> e_derive toys m' i' q' = (true, n') ->
     firstn 32 n = firstn 32 n' -> (m, i, q) = (m', i', q')) /\
  (forall i x i' x' k, e_init toys i x = (true, k) -> e_init toys i' x' = (true, k) -> x = x') /\
  exists sk, key_at toys Ed25519 toy_path sk /\ e_pair toys (snd (derivation Ed25519)) sk <> None.
Proof.
  exact (conj (toy_node_apart true true) (conj (toy_init_apart true true) (proj2 (proj2 (proj2 toys_erased))))).
Qed.

(** C69: such an element is one of the oracles that the other theorems assume. *)
Theorem C69_element_is_oracle E : element_ok E -> oracles_ok (oracles_of E).
Proof. exact (element_oracles_ok E). Qed.
Print Assumptions C69_element_is_oracle.
Example C69_element_is_oracle_case : element_ok toys.
Proof. exact (toy_element_ok true true). Qed.

(** C69: an odd ordinate is not always marked. *)
Theorem C69_odd_marked_refuted : ~ (forall E, element_ok E -> forall c p sk data g0 info g,
  key_at E c p sk -> edwards c = false -> e_ecdsa E sk 0x600 3 data 72 = Some (g0, info) -> g0 <> [] -> N.testbit info 0 = true ->
  o_sign (oracles_of E) c p data = Some g -> N.testbit (nth 0 g 0) 0 = true).
Proof. exact odd_not_marked. Qed.
Print Assumptions C69_odd_marked_refuted.

(** C70: once a key could be derived, it is erased after signing, whatever becomes of the
    signature, and after its public key has been computed. *)
Theorem C70_erased_after_use_partial E c p sk : key_at E c p sk ->
  (forall room data, erased (snd (sign_into E room c p data mem_start))) /\
  (e_pair E (snd (derivation c)) sk <> None -> erased (snd (new_key E c p mem_start))).
Proof. exact (erased_after_use E c p sk). Qed.
Print Assumptions C70_erased_after_use_partial.
(** A key that is not zero passes through the memory and is gone afterwards. *)
Example C70_erased_after_use_case :
  snd (generate_into toys (key_mode Ed25519) (to_sys Ed25519) toy_path mem_start) <> mem_start /\
  fst (sign_into toys 100 Ed25519 toy_path [1] mem_start) <> None /\ erased (snd (sign_into toys 100 Ed25519 toy_path [1] mem_start)) /\
  (exists sk, key_at toys Ed25519 toy_path sk /\ e_pair toys (snd (derivation Ed25519)) sk <> None).
Proof. exact toys_erased. Qed.

(** C70: a key whose public key cannot be computed is left behind. *)
Theorem C70_pair_failure_refuted :
  ~ (forall E c p sk, element_ok E -> key_at E c p sk -> erased (snd (new_key E c p mem_start))).
Proof. exact pair_failure_leaves. Qed.
Print Assumptions C70_pair_failure_refuted.

(** C70: what a failing derivation has written is left behind. *)
Theorem C70_derive_failure_refuted :
  ~ (forall E c p data, element_ok E -> erased (snd (sign_into E 100 c p data mem_start))).
Proof. exact derive_failure_leaves. Qed.
Print Assumptions C70_derive_failure_refuted.

(** C71: hashing in one go or in pieces, with a context that is used twice, gives the hash
    of the whole. *)
Theorem C71_hash_of_whole E H absorbed : hashes E H absorbed -> hashing_works E ->
  (forall alg bits l, digest E alg bits l = Some (H alg bits l)) /\
  (forall ps, sha256x2_pieces E ps = Some (firstn 4 (H 3 256 (H 3 256 (concat ps))))).
Proof. exact (hash_of_whole E H absorbed). Qed.
Print Assumptions C71_hash_of_whole.
Example C71_hash_of_whole_case :
  hashes toys toy_hash (fun st alg bits l => st = (alg, bits, l)) /\ hashing_works toys.
Proof. exact (conj (toy_hashes true true) toys_hashing). Qed.

(** C71: how a message is cut makes no difference, also where calls may fail. *)
Theorem C71_cut_anywhere E H absorbed ps qs r s : hashes E H absorbed -> concat ps = concat qs ->
  sha256x2_pieces E ps = Some r -> sha256x2_pieces E qs = Some s -> r = s.
Proof. exact (cut_anywhere E H absorbed ps qs r s). Qed.
Print Assumptions C71_cut_anywhere.
Example C71_cut_anywhere_case :
  concat [[1; 2]; [3]] = concat [[1]; []; [2; 3]] /\ sha256x2_pieces toys [[1; 2]; [3]] <> None /\
  sha256x2_pieces toys [[1; 2]; [3]] = sha256x2_pieces toys [[1]; []; [2; 3]] /\
  sha256x2_pieces toys [[1; 2]; [3]] <> sha256x2_pieces toys [[1; 2]; [4; 0]].
Proof. exact toys_cuts. Qed.

(** C71: the addresses computed piece by piece are those of the model of addresses: the
    hash of the compressed key, and the start of the double hash of prefix and hash. *)
Theorem C71_addresses E H absorbed c pk : hashes E H absorbed -> hashing_works E -> length pk = pubkey_length c -> exists a,
  addr_pieces E c pk = Some a /\ addr_new (oracles_of E) c pk = SOk a /\
  a_hash a = H 9 160 (if edwards c then skipn 1 pk else 2 + N.land (nth 64 pk 0) 1 :: firstn 32 (skipn 1 pk)) /\
  a_checksum a = firstn 4 (H 3 256 (H 3 256 (a_prefix a ++ a_hash a))).
Proof. exact (fun HS W => addresses E H absorbed HS W c pk). Qed.
Print Assumptions C71_addresses.
Example C71_addresses_case :
  option_map (fun a => (a_prefix a, len (a_hash a), len (a_checksum a)))
    (match o_pubkey (oracles_of toys) Secp256R1 toy_path with Some k => addr_pieces toys Secp256R1 k | None => None end) =
  Some ([6; 161; 164], 20, 4).
Proof. exact toys_address. Qed.

(** C71: the keyed hash that the HMAC command answers with is that of the whole message
    under the key. *)
Theorem C71_keyed_hash E M absorbed key l d : macs E M absorbed ->
  o_hmac256 (oracles_of E) key l = Some d -> d = M key l.
Proof. exact (hmac_is E M absorbed key l d). Qed.
Print Assumptions C71_keyed_hash.
Example C71_keyed_hash_case :
  macs toys (fun key l => toy 32 (key ++ l)) (fun st key l => st = key ++ l) /\
  option_map len (o_hmac256 (oracles_of toys) [1; 2] [3; 4; 5]) = Some 32.
Proof. exact toys_mac. Qed.
