(** Property theorems C14, C16, C30, C41: stored formats, paths, status words. *)
From Coq Require Import List NArith Bool Arith.
From Verif Require Import Base Codecs CodecsSpec CodecsFacts CodecsExamples.
Import ListNotations.
Open Scope N_scope.

(** C14. Watermarks survive their 52-byte encoding. *)
Theorem C14_watermark_round_trip : forall w : watermark,
  wm_ok w -> length (wm_serialize w) = 52%nat /\ bytes_ok (wm_serialize w) /\ wm_parse (wm_serialize w) = w.
Proof. exact watermark_round_trip. Qed.
Print Assumptions C14_watermark_round_trip.

Example C14_case : wm_ok (WTenderbake 4000000 true 3 false) /\ wm_ok (WEmmy (2 ^ 32 - 1) true).
Proof. exact demo_wm_ok. Qed.

(** C14. A payload with an unknown tag reads as the Emmy watermark at level
    2^32 - 1. *)
Theorem C14_unknown_tag_is_default : forall p : bytes,
  nth 0 p 0 <> 0 -> nth 0 p 0 <> 1 -> wm_parse p = WEmmy (2 ^ 32 - 1) false.
Proof. exact wm_parse_unknown. Qed.
Print Assumptions C14_unknown_tag_is_default.

Example C14_case_unknown : nth 0 (7 :: zeros 51) 0 <> 0 /\ nth 0 (7 :: zeros 51) 0 <> 1.
Proof. split; discriminate. Qed.

(** C14. Chain ids survive theirs. *)
Theorem C14_chain_id_round_trip : forall c : chain_id,
  u32_of_chain c < 2 ^ 32 -> chain_parse_u32 (chain_serialize c) = u32_of_chain c.
Proof. exact chain_round. Qed.
Print Assumptions C14_chain_id_round_trip.

Example C14_case_chain : u32_of_chain (ChainCustom 0x12345678) < 2 ^ 32.
Proof. reflexivity. Qed.

(** C16. Authorised keys survive their 52-byte encoding. *)
Theorem C16_key_round_trip : forall k : key,
  key_ok k -> length (key_serialize k) = 52%nat /\ bytes_ok (key_serialize k) /\
  key_parse (key_serialize k) = AOk (Some k).
Proof. exact key_round_trip. Qed.
Print Assumptions C16_key_round_trip.

Example C16_case : key_ok (Secp256R1, [0x8000002C; 0x800006C1; 0x80000000; 7]).
Proof. exact demo_key_ok. Qed.

(** C16. A blanked slot holds no key; unknown curves and overlong paths are errors. *)
Theorem C16_malformed_keys : forall p : bytes,
  (nth 0 p 0 = 0 -> key_parse p = AOk None) /\
  (nth 0 p 0 <> 0 -> 3 < nth 1 p 0 -> key_parse p = AErr DataInvalid) /\
  (nth 0 p 0 <> 0 -> nth 1 p 0 <= 3 -> 10 < nth 2 p 0 -> key_parse p = AErr WrongLength).
Proof. exact malformed_keys. Qed.
Print Assumptions C16_malformed_keys.

Example C16_case_malformed :
  key_parse (zeros 52) = AOk None /\ key_parse (42 :: 4 :: zeros 50) = AErr DataInvalid /\
  key_parse (42 :: 3 :: 11 :: zeros 49) = AErr WrongLength.
Proof. repeat split; reflexivity. Qed.

(** C30. [read] accepts exactly the encodings of the grammar, with their value. *)
Theorem C30_path_read_exact : forall (LEN : nat) (l : bytes) (p : path),
  path_read LEN l = Some p <-> path_encodes LEN l p.
Proof. exact path_read_exact. Qed.
Print Assumptions C30_path_read_exact.

Example C30_case : path_encodes 10 [2; 128; 0; 0; 44; 0; 0; 1; 2] [0x8000002C; 258].
Proof. exact demo_path_encodes. Qed.

(** C30. Reading inverts serialising. *)
Theorem C30_path_round_trip : forall (LEN : nat) (p : path),
  path_ok LEN p -> path_read LEN (path_serialize p) = Some p.
Proof. exact path_read_serialize. Qed.
Print Assumptions C30_path_round_trip.

Example C30_case_round : path_ok 10 [0x8000002C; 258].
Proof. exact demo_path_ok. Qed.

(** C30, finding: [BIP32Path::new] does not refuse every overlong path, it
    panics on all of them. *)
Theorem C30_new_panics_when_overlong : forall (LEN : nat) (comps : list N),
  ((LEN < length comps)%nat -> path_new LEN comps = SPanic) /\
  (comps <> [] -> (length comps <= LEN)%nat -> path_new LEN comps = SOk comps).
Proof. exact path_new_spec. Qed.
Print Assumptions C30_new_panics_when_overlong.

(** C41. Status words are distinct, decode to their condition, and nothing else decodes. *)
Theorem C41_status_words : forall (e : apdu_error) (v : N),
  (sw_decode v = Some e <-> v = sw e) /\
  sw_decode_bytes (be 2 (sw e)) = SOk e /\
  (forall e', sw e = sw e' -> e = e').
Proof. exact status_words. Qed.
Print Assumptions C41_status_words.

Example C41_case : sw_decode 0x9001 = Some Busy /\ sw_decode 0x9002 = None.
Proof. split; reflexivity. Qed.

(** C41, finding: decoding fewer than two bytes panics instead of being refused. *)
Theorem C41_short_words_panic : forall v : bytes,
  (length v < 2)%nat -> sw_decode_bytes v = SPanic.
Proof. exact short_words_panic. Qed.
Print Assumptions C41_short_words_panic.

Example C41_case_short : (length [0x90] < 2)%nat.
Proof. repeat constructor. Qed.
