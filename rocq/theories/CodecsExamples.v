(** Concrete values, and the statements of [PropsCodecs] in final form. *)
From Coq Require Import List NArith ZArith Lia Bool Arith.
From Coq Require Import ZifyBool ZifyNat ZifyN.
From Verif Require Import Base BaseFacts Codecs CodecsSpec CodecsFacts.
Import ListNotations.
Open Scope N_scope.

Lemma watermark_round_trip w :
  wm_ok w -> length (wm_serialize w) = 52%nat /\ bytes_ok (wm_serialize w) /\ wm_parse (wm_serialize w) = w.
Proof. intros H. split; [apply wm_serialize_length|]. split; [apply wm_serialize_ok|now apply wm_round]. Qed.

Lemma demo_wm_ok : wm_ok (WTenderbake 4000000 true 3 false) /\ wm_ok (WEmmy (2 ^ 32 - 1) true).
Proof. repeat split. Qed.

Lemma key_round_trip k :
  key_ok k -> length (key_serialize k) = 52%nat /\ bytes_ok (key_serialize k) /\
  key_parse (key_serialize k) = AOk (Some k).
Proof. intros H. split; [apply key_serialize_length|]. split; [apply key_serialize_ok|now apply key_round]. Qed.

Lemma demo_key_ok : key_ok (Secp256R1, [0x8000002C; 0x800006C1; 0x80000000; 7]).
Proof.
  split; [discriminate|]. split; [cbn; unfold BIP32_MAX_LENGTH; lia|]. repeat constructor.
Qed.

Lemma malformed_keys p :
  (nth 0 p 0 = 0 -> key_parse p = AOk None) /\
  (nth 0 p 0 <> 0 -> 3 < nth 1 p 0 -> key_parse p = AErr DataInvalid) /\
  (nth 0 p 0 <> 0 -> nth 1 p 0 <= 3 -> 10 < nth 2 p 0 -> key_parse p = AErr WrongLength).
Proof.
  split; [|split; [apply key_parse_bad_curve|apply key_parse_too_long]].
  intros H. unfold key_parse. now rewrite H.
Qed.

Lemma path_read_exact LEN l p : path_read LEN l = Some p <-> path_encodes LEN l p.
Proof. split; [apply path_read_sound|apply path_read_complete]. Qed.

Lemma demo_path_encodes : path_encodes 10 [2; 128; 0; 0; 44; 0; 0; 1; 2] [0x8000002C; 258].
Proof.
  change [2; 128; 0; 0; 44; 0; 0; 1; 2] with (2 :: concat [[128; 0; 0; 44]; [0; 0; 1; 2]]).
  change [0x8000002C; 258] with (map unbe [[128; 0; 0; 44]; [0; 0; 1; 2]]).
  constructor; try lia; repeat constructor.
Qed.

Lemma demo_path_ok : path_ok 10 [0x8000002C; 258].
Proof. split; [discriminate|]. split; [cbn; lia|]. repeat constructor. Qed.

Lemma path_new_spec LEN comps :
  ((LEN < length comps)%nat -> path_new LEN comps = SPanic) /\
  (comps <> [] -> (length comps <= LEN)%nat -> path_new LEN comps = SOk comps).
Proof.
  unfold path_new. split.
  - intros H. apply path_new_loop_panics; lia.
  - intros H1 H2. rewrite path_new_loop_fits by (cbn; lia). cbn [app]. destruct comps; [congruence|reflexivity].
Qed.

Lemma status_words e v :
  (sw_decode v = Some e <-> v = sw e) /\
  sw_decode_bytes (be 2 (sw e)) = SOk e /\
  (forall e', sw e = sw e' -> e = e').
Proof.
  split; [split; [apply sw_of_decode|intros ->; apply sw_decode_sw]|].
  split; [apply sw_decode_bytes_be|]. intros e'. apply sw_inj.
Qed.

Lemma short_words_panic v : (length v < 2)%nat -> sw_decode_bytes v = SPanic.
Proof.
  intros H. unfold sw_decode_bytes. replace (2 <? length v)%nat with false by lia.
  now replace (length v =? 2)%nat with false by lia.
Qed.
