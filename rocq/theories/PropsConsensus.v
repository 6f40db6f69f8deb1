(** Property theorems C01-C08, C20 and C29 about whole histories of the device.

    [segment C O f u es1 es2 d1 d2 l] says: a device as installed, whose flash behaves as
    [f] and [u] say, goes through the events [es1] to [d1] and then through [es2],
    without a reset of the watermark, to [d2], making the signatures [l] in this
    order. Build, hash functions, key derivation and signing are arbitrary. *)
From Coq Require Import List NArith Bool.
From Verif Require Import Base Flash Codecs CodecsSpec Upload UploadSpec UploadExamples
  Baking BakingSpec Operations Oracles Address AddressExamples Device DeviceSpec DeviceDemo DeviceExamples.
Import ListNotations.
Open Scope N_scope.

(** C01. No two signatures, by whatever command, cover block headers of the same level
    (Emmy) or the same level and round (Tenderbake). *)
Theorem C01_no_double_baking : forall C O f u es1 es2 d1 d2 l,
  segment C O f u es1 es2 d1 d2 l ->
  forall (i j : nat) (g h : sigrec) (level round : N), i <> j ->
  nth_error l i = Some g -> nth_error l j = Some h ->
  ~ (signed_pos (sg_data g) = Some (PEmmy level false) /\ signed_pos (sg_data h) = Some (PEmmy level false)) /\
  ~ (signed_pos (sg_data g) = Some (PTB level round KBlock) /\
     signed_pos (sg_data h) = Some (PTB level round KBlock)).
Proof. exact no_double_baking. Qed.
Print Assumptions C01_no_double_baking.

Example C01_case :
  segment demo_config demo_oracles [] [] demo_before demo_after demo_d1 demo_d2 demo_l /\
  map (fun g => signed_pos (sg_data g)) demo_l
  = [Some (PEmmy 1500000 false); Some (PTB 2500000 3 KBlock); Some (PTB 2500000 3 KPre)].
Proof. exact (conj demo_segment demo_positions). Qed.

(** C02. The same for endorsements and pre-endorsements. *)
Theorem C02_no_double_endorsing : forall C O f u es1 es2 d1 d2 l,
  segment C O f u es1 es2 d1 d2 l ->
  forall (i j : nat) (g h : sigrec) (level round : N), i <> j ->
  nth_error l i = Some g -> nth_error l j = Some h ->
  ~ (signed_pos (sg_data g) = Some (PEmmy level true) /\ signed_pos (sg_data h) = Some (PEmmy level true)) /\
  ~ (signed_pos (sg_data g) = Some (PTB level round KEnd) /\
     signed_pos (sg_data h) = Some (PTB level round KEnd)) /\
  ~ (signed_pos (sg_data g) = Some (PTB level round KPre) /\
     signed_pos (sg_data h) = Some (PTB level round KPre)).
Proof. exact no_double_endorsing. Qed.
Print Assumptions C02_no_double_endorsing.

(** C03. The positions of the consensus messages signed strictly increase. *)
Theorem C03_signed_in_order : forall C O f u es1 es2 d1 d2 l,
  segment C O f u es1 es2 d1 d2 l -> increasing (consensus_positions l).
Proof. exact positions_increase. Qed.
Print Assumptions C03_signed_in_order.

(** C03. The same for any two signatures, by whatever command. *)
Theorem C03_every_pair_in_order : forall C O f u es1 es2 d1 d2 l,
  segment C O f u es1 es2 d1 d2 l ->
  forall (i j : nat) (g h : sigrec) (p q : cpos), (i < j)%nat ->
  nth_error l i = Some g -> nth_error l j = Some h ->
  signed_pos (sg_data g) = Some p -> signed_pos (sg_data h) = Some q -> cpos_lt p q.
Proof. exact signed_in_order. Qed.
Print Assumptions C03_every_pair_in_order.

(** C04. After a Tenderbake message no Emmy message is signed. *)
Theorem C04_no_emmy_after_tenderbake : forall C O f u es1 es2 d1 d2 l,
  segment C O f u es1 es2 d1 d2 l ->
  forall (i j : nat) (g h : sigrec) (level round : N) (kind : ckind), (i < j)%nat ->
  nth_error l i = Some g -> nth_error l j = Some h ->
  signed_pos (sg_data g) = Some (PTB level round kind) ->
  forall level' endo, signed_pos (sg_data h) <> Some (PEmmy level' endo).
Proof. exact no_emmy_later. Qed.
Print Assumptions C04_no_emmy_after_tenderbake.

(** C05. The level reported is at least that of every message signed, unless that was
    an Emmy message and the watermark has since become a Tenderbake one. *)
Theorem C05_report_covers_signed : forall C O f u es1 es2 d1 d2 l,
  segment C O f u es1 es2 d1 d2 l ->
  forall (L : N) (g : sigrec) (q : cpos), reports C O d2 L -> In g l -> signed_pos (sg_data g) = Some q ->
  cpos_level q <= L \/ (~ is_tenderbake q /\ tenderbake_mark d2).
Proof. exact report_covers. Qed.
Print Assumptions C05_report_covers_signed.

(** C05. Right after a consensus signature exactly its level is reported. *)
Theorem C05_report_after_signature : forall C O f u es1 es2 d1 d2 l,
  segment C O f u es1 es2 d1 d2 l ->
  forall (e : event) (g : sigrec) (q : cpos) (buf : bytes) (rx : N),
  event_ok e -> len es1 + len es2 + 1 < 2 ^ 64 ->
  d_log (snd (step C O d2 e)) = g :: d_log d2 -> signed_pos (sg_data g) = Some q ->
  fst (step C O d2 e) <> ADied ->
  apdu_ok buf -> command (snd (step C O d2 e)) buf rx 0x08 ->
  fst (step C O (snd (step C O d2 e)) (EApdu buf rx)) = AReply (be 4 (cpos_level q) ++ [0x90; 0]).
Proof. exact report_signed. Qed.
Print Assumptions C05_report_after_signature.

(** C05. Any event changes the level reported only to that of the message whose upload
    it completes, and only upwards unless that is a Tenderbake message. *)
Theorem C05_report_changes : forall C O f u es1 es2 d1 d2 l,
  segment C O f u es1 es2 d1 d2 l ->
  forall (e : event) (L1 L2 : N), event_ok e -> ~ resets C d2 e -> len es1 + len es2 + 1 < 2 ^ 64 ->
  reports C O d2 L1 -> reports C O (snd (step C O d2 e)) L2 ->
  L2 = L1 \/ exists q, offered C d2 e q /\ L2 = cpos_level q /\ (L1 <= L2 \/ is_tenderbake q).
Proof. exact report_moves. Qed.
Print Assumptions C05_report_changes.

Example C05_case :
  event_ok demo_next /\ ~ resets demo_config demo_d3 demo_next /\
  offered demo_config demo_d3 demo_next (PTB 2500001 0 KEnd) /\
  reports demo_config demo_oracles demo_d3 2500000 /\
  reports demo_config demo_oracles (snd (step demo_config demo_oracles demo_d3 demo_next)) 2500001 /\
  length (d_log (snd (step demo_config demo_oracles demo_d3 demo_next))) = 4%nat.
Proof. exact demo_offered. Qed.

(** C05. Over a whole history the level reported does not decrease, except from an Emmy
    to a Tenderbake watermark. *)
Theorem C05_report_monotone : forall C O f u es1 es2 d1 d2 l,
  segment C O f u es1 es2 d1 d2 l ->
  forall L1 L2 : N, reports C O d1 L1 -> reports C O d2 L2 ->
  L1 <= L2 \/ (emmy_mark d1 /\ tenderbake_mark d2).
Proof. exact report_monotone. Qed.
Print Assumptions C05_report_monotone.

Example C05_case_monotone : reports demo_config demo_oracles demo_d1 1499999 /\
  reports demo_config demo_oracles demo_d2 2500000.
Proof. exact demo_reports. Qed.

(** C05. Without the exception it is false of the code. *)
Theorem C05_level_never_decreases_refuted :
  ~ (forall C O f u es1 es2 d1 d2 l L1 L2, segment C O f u es1 es2 d1 d2 l ->
     reports C O d1 L1 -> reports C O d2 L2 -> L1 <= L2).
Proof. exact level_drop_refuted. Qed.
Print Assumptions C05_level_never_decreases_refuted.

(** C06. Power is lost at any moment, between commands ([EPower]) or during any flash
    write, leaving the page old, new or detectably corrupt: no two signatures conflict. *)
Theorem C06_power_loss_safe : forall C O f u es1 es2 d1 d2 l,
  Forall power_fault f -> segment C O f u es1 es2 d1 d2 l ->
  forall (i j : nat) (g h : sigrec), i <> j ->
  nth_error l i = Some g -> nth_error l j = Some h -> ~ conflict (sg_data g) (sg_data h).
Proof. exact power_loss_safe. Qed.
Print Assumptions C06_power_loss_safe.

Example C06_case : Forall power_fault cut_faults /\
  segment demo_config demo_oracles cut_faults [] demo_before demo_after cut_d1 cut_d2 (rev (d_log cut_d2)) /\
  map (fun g => signed_pos (sg_data g)) (rev (d_log cut_d2))
  = [Some (PEmmy 1500000 false); Some (PTB 2500000 3 KPre)].
Proof. exact cut_segment. Qed.

(** C20 is false of the code, with consequences: one flash write that reports an error
    and leaves the old page makes the device sign two endorsements of one level. *)
Theorem C20_failed_write_no_double_signing_refuted :
  ~ (forall C O f u es1 es2 l, Forall (fun x => x = WOk \/ x = WFail TOld) f ->
     Forall event_ok (es1 ++ es2) ->
     let d1 := snd (run C O (dev_fresh f u) es1) in
     no_reset C O d1 es2 -> signed_between d1 (snd (run C O d1 es2)) l ->
     forall i j g h p, i <> j -> nth_error l i = Some g -> nth_error l j = Some h ->
       signed_pos (sg_data g) = Some p -> signed_pos (sg_data h) <> Some p).
Proof. exact rollback_refuted. Qed.
Print Assumptions C20_failed_write_no_double_signing_refuted.

(** C07. Whatever the flash does, every consensus signature was caused by a signing
    command that completed the upload of the message and named the key stored at that
    moment, and was made with that key over the hash of the message; the answer of that
    command carries it. *)
Theorem C07_signed_with_authorised_key : forall C O f u es g,
  Forall event_ok es -> In g (d_log (snd (run C O (dev_fresh f u) es))) -> is_consensus g = true ->
  o_blake2b O 32 (sg_data g) = Some (sg_digest g) /\
  exists es1 buf rx es2 ins up u' s, es = es1 ++ EApdu buf rx :: es2 /\
    let d := snd (run C O (dev_fresh f u) es1) in
    cf_baking C = true /\ stored_key d (sg_key g) /\
    command d buf rx ins /\ In ins [0x04; 0x0F; 0xAF] /\
    upload AccBaking buf (d_up d) (d_ufaults d) = (Ok (Some up), u', s) /\
    uo_data up = sg_data g /\ curve_of_byte (uo_p2 up) = Some (fst (sg_key g)) /\
    path_read BIP32_MAX_LENGTH (uo_first up) = Some (snd (sg_key g)) /\
    sig_answer O g (fst (step C O d (EApdu buf rx))).
Proof. exact consensus_key. Qed.
Print Assumptions C07_signed_with_authorised_key.

Example C07_case : Forall event_ok (demo_before ++ demo_after) /\
  map (fun g => (sg_src g, sg_key g)) (d_log (snd (run demo_config demo_oracles (dev_fresh [] []) (demo_before ++ demo_after))))
  = repeat (SrcConsensus, demo_key) 3.
Proof. exact demo_history_ok. Qed.

(** C07. Without a stored key the request is refused with ConditionsNotSatisfied. *)
Theorem C07_no_key_refused : forall C O d buf rx up c pa,
  completes C d buf rx up ->
  curve_of_byte (uo_p2 up) = Some c -> path_read BIP32_MAX_LENGTH (uo_first up) = Some pa ->
  no_key d ->
  fst (step C O d (EApdu buf rx)) = AReply [0x69; 0x85] /\
  untouched d (snd (step C O d (EApdu buf rx))).
Proof. exact DeviceAnswers.no_key_refused. Qed.
Print Assumptions C07_no_key_refused.

Example C07_case_no_key :
  completes demo_config nokey_dev (apdu 4 0x81 0 demo_block) (5 + len demo_block) (demo_out 0) /\
  curve_of_byte 0 = Some Ed25519 /\ path_read BIP32_MAX_LENGTH (path_serialize demo_path) = Some demo_path /\
  no_key nokey_dev.
Proof. exact demo_nokey. Qed.

(** C07. A key other than the stored one is refused with DataInvalid. *)
Theorem C07_other_key_refused : forall C O d buf rx up c pa k,
  completes C d buf rx up ->
  curve_of_byte (uo_p2 up) = Some c -> path_read BIP32_MAX_LENGTH (uo_first up) = Some pa ->
  stored_key d k -> k <> (c, pa) ->
  fst (step C O d (EApdu buf rx)) = AReply [0x69; 0x84] /\
  untouched d (snd (step C O d (EApdu buf rx))).
Proof. exact DeviceAnswers.other_key_refused. Qed.
Print Assumptions C07_other_key_refused.

Example C07_case_other_key :
  completes demo_config otherkey_dev (apdu 4 0x81 0 demo_block) (5 + len demo_block) (demo_out 0) /\
  stored_key otherkey_dev (Ed25519, other_path) /\ (Ed25519, other_path) <> (Ed25519, demo_path).
Proof. exact demo_otherkey. Qed.

(** C07. So is a malformed curve or path (InvalidP1P2 or DataInvalid). *)
Theorem C07_bad_key_refused : forall C O d buf rx up,
  completes C d buf rx up ->
  curve_of_byte (uo_p2 up) = None \/ path_read BIP32_MAX_LENGTH (uo_first up) = None ->
  (fst (step C O d (EApdu buf rx)) = AReply [0x6B; 0x00] \/
   fst (step C O d (EApdu buf rx)) = AReply [0x69; 0x84]) /\
  untouched d (snd (step C O d (EApdu buf rx))).
Proof. exact DeviceAnswers.bad_key_refused. Qed.
Print Assumptions C07_bad_key_refused.

Example C07_case_bad_key :
  completes demo_config badcurve_dev (apdu 4 0x81 9 demo_block) (5 + len demo_block) (demo_out 9) /\
  curve_of_byte 9 = None.
Proof. exact demo_badcurve. Qed.

(** C08. On the device: nothing signed, by whatever command and whatever the flash
    does, is a consensus message of level 2^31 or above. *)
Theorem C08_levels_signed : forall C O f u es g q,
  Forall event_ok es -> In g (d_log (snd (run C O (dev_fresh f u) es))) ->
  signed_pos (sg_data g) = Some q -> cpos_level q < 2 ^ 31.
Proof. exact signed_levels. Qed.
Print Assumptions C08_levels_signed.

(** C29. No signature made after a review, nor by the HMAC command, covers a consensus
    message. *)
Theorem C29_reviewed_not_consensus : forall C O f u es g,
  Forall event_ok es -> In g (d_log (snd (run C O (dev_fresh f u) es))) ->
  sg_src g <> SrcConsensus -> signed_pos (sg_data g) = None.
Proof. exact reviewed_no_consensus. Qed.
Print Assumptions C29_reviewed_not_consensus.

Example C29_case : Forall event_ok demo_review /\
  map (fun g => (sg_src g, sg_key g, sg_data g)) (d_log (snd (run demo_config demo_oracles (dev_fresh [] []) demo_review)))
  = [(SrcReview, demo_key, [5; 1; 2; 3])].
Proof. exact demo_review_ok. Qed.

(** C29. A consensus message uploaded to such a command is refused with
    CommandNotAllowed, no review starts and nothing is signed or stored. *)
Theorem C29_consensus_refused : forall C O d buf rx up q c pa dg,
  completes_sign C d buf rx up ->
  curve_of_byte (uo_p2 up) = Some c -> path_read BIP32_MAX_LENGTH (uo_first up) = Some pa ->
  o_blake2b O 32 (uo_data up) = Some dg -> signed_pos (uo_data up) = Some q ->
  fst (step C O d (EApdu buf rx)) = AReply [0x69; 0x86] /\
  d_ui (snd (step C O d (EApdu buf rx))) = None /\
  untouched d (snd (step C O d (EApdu buf rx))).
Proof. exact consensus_refused. Qed.
Print Assumptions C29_consensus_refused.

Example C29_case_refused :
  completes_sign demo_config sign_dev (apdu 0x12 0x81 0 demo_block) (5 + len demo_block) (demo_out 0) /\
  (exists dg, o_blake2b demo_oracles 32 demo_block = Some dg) /\
  signed_pos demo_block = Some (PEmmy 1500000 false).
Proof. exact demo_sign_consensus. Qed.

(** C29. Whatever the curve and path sent with it, it is refused. *)
Theorem C29_consensus_never_reviewed : forall C O d buf rx up q,
  completes_sign C d buf rx up -> signed_pos (uo_data up) = Some q ->
  (exists e, fst (step C O d (EApdu buf rx)) = AReply (be 2 (sw e)) /\ e <> Success) /\
  d_ui (snd (step C O d (EApdu buf rx))) = None /\
  untouched d (snd (step C O d (EApdu buf rx))).
Proof. exact consensus_not_reviewed. Qed.
Print Assumptions C29_consensus_never_reviewed.
