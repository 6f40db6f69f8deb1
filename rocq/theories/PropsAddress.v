(** Property theorems C39: identifier texts. *)
From Coq Require Import NArith Bool Arith String List.
From Verif Require Import Base Codecs Oracles Address AddressSpec AddressFacts AddressExamples.
Import ListNotations.
Open Scope N_scope.

(** C39. The address of a key hash is the base58 text of prefix, hash and checksum, in
    at most 37 characters. It fails only if the hash function does, and never
    panics. *)
Theorem C39_addresses_are_texts : forall (O : oracles) (c : curve) (h : bytes),
  oracles_ok O -> bytes_ok h -> length h = 20%nat ->
  writes O (pkh_text O c h) (addr_kind c) h 37.
Proof. exact pkh_text_ok. Qed.
Print Assumptions C39_addresses_are_texts.

(** C39. The address of a public key is that of the hash Tezos defines for the key. *)
Theorem C39_key_addresses : forall (O : oracles) (c : curve) (pk l h : bytes),
  oracles_ok O -> hashed_form c pk l -> o_blake2b O 20 l = Some h ->
  writes O (key_address O c pk) (addr_kind c) h 37.
Proof. exact key_address_ok. Qed.
Print Assumptions C39_key_addresses.

Theorem C39_key_addresses_never_panic : forall (O : oracles) (c : curve) (pk : bytes),
  oracles_ok O -> length pk = pubkey_length c -> key_address O c pk <> SPanic.
Proof. exact key_address_total. Qed.
Print Assumptions C39_key_addresses_never_panic.

(** C39. The same for contracts, branches, proposals, public keys and chain ids. *)
Theorem C39_contracts_are_texts : forall (O : oracles) (h : bytes),
  oracles_ok O -> bytes_ok h -> length h = 20%nat -> writes O (kt1_text O h) KindKT1 h 37.
Proof. exact kt1_text_ok. Qed.
Print Assumptions C39_contracts_are_texts.

Theorem C39_branches_are_texts : forall (O : oracles) (h : bytes),
  oracles_ok O -> bytes_ok h -> length h = 32%nat -> writes O (branch_text O h) KindBranch h 52.
Proof. exact branch_text_ok. Qed.
Print Assumptions C39_branches_are_texts.

Theorem C39_proposals_are_texts : forall (O : oracles) (h : bytes),
  oracles_ok O -> bytes_ok h -> length h = 32%nat -> writes O (proposal_text O h) KindProposal h 52.
Proof. exact proposal_text_ok. Qed.
Print Assumptions C39_proposals_are_texts.

Theorem C39_public_keys_are_texts : forall (O : oracles) (c : curve) (k : bytes),
  oracles_ok O -> bytes_ok k -> length k = kind_data_length (pk_kind c) ->
  writes O (pk_text O c k) (pk_kind c) k 56.
Proof. exact pk_text_ok. Qed.
Print Assumptions C39_public_keys_are_texts.

Theorem C39_chains_are_texts : forall (O : oracles) (c : chain_id), oracles_ok O ->
  match chain_alias O c with
  | SOk t => alias_of O c t /\ (length t <= 16)%nat
  | SErr => exists id, c = ChainCustom id /\ twice O (kind_prefix KindChain ++ be 4 id) = None
  | SPanic => False
  end.
Proof. exact chain_alias_ok. Qed.
Print Assumptions C39_chains_are_texts.

(** C39. The text shown for an operation with an unknown tag reads as the hash of its
    bytes and a checksum. *)
Theorem C39_unknown_operations_are_texts : forall (O : oracles) (l : bytes), oracles_ok O ->
  match unknown_text O l with
  | SOk t => exists d h, o_blake2b O 32 l = Some d /\ twice O d = Some h
               /\ reads58 t (d ++ firstn 4 h) /\ (length t <= 50)%nat
  | SErr => o_blake2b O 32 l = None \/ exists d, o_blake2b O 32 l = Some d /\ twice O d = None
  | SPanic => False
  end.
Proof. exact unknown_text_ok. Qed.
Print Assumptions C39_unknown_operations_are_texts.

(** C39. A text determines the bytes it stands for. *)
Theorem C39_texts_read_back : forall t a b : bytes,
  bytes_ok a -> bytes_ok b -> reads58 t a -> reads58 t b -> a = b.
Proof. exact reads58_inj. Qed.
Print Assumptions C39_texts_read_back.

(** C39. Two identifiers of any kinds with the same text are the same. *)
Theorem C39_texts_identify : forall (O : oracles) (k1 k2 : tz_kind) (d1 d2 t : bytes),
  oracles_ok O -> bytes_ok d1 -> bytes_ok d2 ->
  length d1 = kind_data_length k1 -> length d2 = kind_data_length k2 ->
  tz_text (twice O) k1 d1 t -> tz_text (twice O) k2 d2 t -> k1 = k2 /\ d1 = d2.
Proof. exact tz_text_inj. Qed.
Print Assumptions C39_texts_identify.

Theorem C39_chain_aliases_identify : forall (O : oracles) (c1 c2 : chain_id) (t : bytes),
  oracles_ok O -> chain_wf c1 -> chain_wf c2 ->
  alias_of O c1 t -> alias_of O c2 t -> c1 = c2.
Proof. exact alias_inj. Qed.
Print Assumptions C39_chain_aliases_identify.

(** The hypotheses hold for real hash functions, and the texts of the repository's own
    test vectors come out. *)
Example C39_case_oracles : oracles_ok demo_oracles.
Proof. exact demo_oracles_ok. Qed.
Example C39_case_address : pkh_text demo_oracles Bip32Ed25519 demo_pkh =
  SOk (chars "tz1QZ6KY7d3BuZDT1d19dUxoQrtFPN2QJ3hn").
Proof. exact demo_pkh_text. Qed.
Example C39_case_parts : addr_base58 (mkAddr [6; 161; 159]
    (be 20 0xc860be673ae47ec549f9b5a01a8ccb657be75b6a) (be 4 0x888a1984)) =
  SOk (chars "tz1duXjMpT43K7F1nQajzH5oJLTytLUNxoTZ").
Proof. exact demo_addr_text. Qed.
Example C39_case_contract : kt1_text demo_oracles demo_contract =
  SOk (chars "KT1JHqHQdHSgWBKo6H4UfG8dw3JnZSyjGkHA").
Proof. exact demo_contract_text. Qed.
Example C39_case_branch : branch_text demo_oracles demo_branch =
  SOk (chars "BLzyjjHKEKMULtvkpSHxuZxx6ei6fpntH2BTkYZiLgs8zLVstvX").
Proof. exact demo_branch_text. Qed.
Example C39_case_public_key : pk_text demo_oracles Bip32Ed25519 demo_edpk =
  SOk (chars "edpkvS5QFv7KRGfa3b87gg9DBpxSm3NpSwnjhUjNBQrRUUR66F7C9g").
Proof. exact demo_pk_text. Qed.
Example C39_case_chain : chain_text demo_oracles 0x7a06a770 = SOk (chars "NetXdQprcVkpaWU").
Proof. exact demo_chain_text. Qed.
Example C39_case_key : exists l h, hashed_form Secp256K1 (demo_pubkey Secp256K1 [1; 2]) l
  /\ o_blake2b demo_oracles 20 l = Some h.
Proof. exact demo_hashed_form. Qed.
