(** Property theorems C43, C44, C08, C15: decoding and checking consensus messages. *)
From Coq Require Import List NArith Bool Arith.
From Verif Require Import Base Codecs CodecsSpec Baking BakingSpec BakingFacts BakingExamples.
Import ListNotations.
Open Scope N_scope.

(** C43. Every Emmy block header decodes to its own fields, with an Emmy fitness. *)
Theorem C43_emmy_blocks_decode : forall (h : header) (v : N) (more : list bytes),
  header_ok h -> v = 0 \/ v = 1 -> h_fitness h = emmy_fit v more ->
  exists rem f, block_parse (enc_header h) =
    POk rem (mkBlock (h_chain h) (h_level h) (h_proto h) (h_pred h) (h_time h) (h_vpass h)
                     (h_ophash h) (FEmmy v f)).
Proof. exact block_emmy_decodes. Qed.
Print Assumptions C43_emmy_blocks_decode.

(** C43. Every header whose fitness starts with version 2 and ends with a round
    decodes to its own fields and that round. *)
Theorem C43_tenderbake_blocks_decode : forall (h : header) (more : list bytes) (round : N),
  header_ok h -> round < 2 ^ 32 -> h_fitness h = [2] :: more ++ [be 4 round] ->
  exists rem f, block_parse (enc_header h) =
    POk rem (mkBlock (h_chain h) (h_level h) (h_proto h) (h_pred h) (h_time h) (h_vpass h)
                     (h_ophash h) (FTenderbake f round)).
Proof. exact block_tb_decodes. Qed.
Print Assumptions C43_tenderbake_blocks_decode.

Example C43_case_headers : header_ok demo_emmy_header /\ header_ok demo_tb_header.
Proof. exact demo_headers_ok. Qed.
Example C43_case_tenderbake_fitness : forall level locked pred_round round,
  exists more, tb_fit level locked pred_round round = [2] :: more ++ [be 4 round].
Proof. intros. eexists. exact (tb_fit_shape level locked pred_round round). Qed.

(** C43. Endorsements and pre-endorsements decode to their own fields. *)
Theorem C43_emmy_endorsements_decode : forall chain branch level rest,
  chain < 2 ^ 32 -> length branch = 32%nat -> level < 2 ^ 32 ->
  endo_parse (enc_emmy_endo chain branch level rest) = POk rest (EmmyE chain branch level).
Proof. exact emmy_endo_parse_enc. Qed.
Print Assumptions C43_emmy_endorsements_decode.

Theorem C43_tenderbake_endorsements_decode :
  forall chain branch (is_pre : bool) slot level round payload rest,
  chain < 2 ^ 32 -> length branch = 32%nat -> slot < 2 ^ 16 -> level < 2 ^ 32 -> round < 2 ^ 32 ->
  length payload = 32%nat ->
  endo_parse (enc_tb_endo chain branch is_pre slot level round payload rest) =
  POk rest (TBE chain branch (if is_pre then EPre else EEnd) slot level round payload).
Proof. exact tb_endo_parse_enc. Qed.
Print Assumptions C43_tenderbake_endorsements_decode.

(** C43. The check accepts an encoded message exactly when its level is valid
    and it comes later than the stored watermark, and stores its position. *)
Theorem C43_emmy_blocks_checked : forall (h : header) (v : N) (more : list bytes) (hw : watermark),
  header_ok h -> v = 0 \/ v = 1 -> h_fitness h = emmy_fit v more ->
  (h_level h < 2 ^ 31 /\ cpos_lt (wm_pos hw) (PEmmy (h_level h) false) ->
   consensus_check PreBlock (enc_header h) hw = Some (AOk (WEmmy (h_level h) false))) /\
  (~ (h_level h < 2 ^ 31 /\ cpos_lt (wm_pos hw) (PEmmy (h_level h) false)) ->
   consensus_check PreBlock (enc_header h) hw = Some (AErr DataInvalid)).
Proof. exact check_block_emmy. Qed.
Print Assumptions C43_emmy_blocks_checked.

Theorem C43_tenderbake_blocks_checked :
  forall (h : header) (more : list bytes) (round : N) (hw : watermark),
  header_ok h -> round < 2 ^ 32 -> h_fitness h = [2] :: more ++ [be 4 round] ->
  (h_level h < 2 ^ 31 /\ cpos_lt (wm_pos hw) (PTB (h_level h) round KBlock) ->
   consensus_check PreTBBlock (enc_header h) hw
   = Some (AOk (WTenderbake (h_level h) false round false))) /\
  (~ (h_level h < 2 ^ 31 /\ cpos_lt (wm_pos hw) (PTB (h_level h) round KBlock)) ->
   consensus_check PreTBBlock (enc_header h) hw = Some (AErr DataInvalid)).
Proof. exact check_block_tb. Qed.
Print Assumptions C43_tenderbake_blocks_checked.

Theorem C43_emmy_endorsements_checked : forall chain branch level rest (hw : watermark),
  chain < 2 ^ 32 -> length branch = 32%nat -> level < 2 ^ 32 ->
  (level < 2 ^ 31 /\ cpos_lt (wm_pos hw) (PEmmy level true) ->
   consensus_check PreEndorsement (enc_emmy_endo chain branch level rest) hw
   = Some (AOk (WEmmy level true))) /\
  (~ (level < 2 ^ 31 /\ cpos_lt (wm_pos hw) (PEmmy level true)) ->
   consensus_check PreEndorsement (enc_emmy_endo chain branch level rest) hw
   = Some (AErr DataInvalid)).
Proof. exact check_endo_emmy. Qed.
Print Assumptions C43_emmy_endorsements_checked.

Theorem C43_tenderbake_endorsements_checked :
  forall chain branch (is_pre : bool) slot level round payload rest (hw : watermark),
  chain < 2 ^ 32 -> length branch = 32%nat -> slot < 2 ^ 16 -> level < 2 ^ 32 -> round < 2 ^ 32 ->
  length payload = 32%nat ->
  let d := enc_tb_endo chain branch is_pre slot level round payload rest in
  let pos := PTB level round (if is_pre then KPre else KEnd) in
  let pre := if is_pre then PreTBPreendorsement else PreTBEndorsement in
  (level < 2 ^ 31 /\ cpos_lt (wm_pos hw) pos ->
   consensus_check pre d hw = Some (AOk (WTenderbake level (negb is_pre) round true))) /\
  (~ (level < 2 ^ 31 /\ cpos_lt (wm_pos hw) pos) ->
   consensus_check pre d hw = Some (AErr DataInvalid)).
Proof. exact check_endo_tb. Qed.
Print Assumptions C43_tenderbake_endorsements_checked.

Example C43_case_emmy :
  consensus_check PreBlock (enc_header demo_emmy_header) (WEmmy 1499999 true)
  = Some (AOk (WEmmy 1500000 false)).
Proof. exact demo_check_emmy. Qed.
Example C43_case_tenderbake :
  consensus_check PreTBBlock (enc_header demo_tb_header) (WTenderbake 2500000 true 2 true)
  = Some (AOk (WTenderbake 2500000 false 3 false)) /\
  consensus_check PreTBBlock (enc_header demo_tb_header) (WTenderbake 2500000 false 3 false)
  = Some (AErr DataInvalid).
Proof. exact demo_check_tb. Qed.
Example C43_case_preendorsement :
  consensus_check PreTBPreendorsement demo_pre (WTenderbake 2500000 false 3 false)
  = Some (AOk (WTenderbake 2500000 false 3 true)).
Proof. exact demo_check_pre. Qed.

(** C43. Whatever bytes are sent: if they pass the check, the kind byte inside
    the message agrees with the magic byte. *)
Theorem C43_magic_byte_agrees : forall (m : N) (p : preemble) (l : bytes) (hw wm : watermark),
  preemble_of_byte m = Some p -> consensus_check p l hw = Some (AOk wm) -> kind_agrees (m :: l).
Proof. exact consensus_kind. Qed.
Print Assumptions C43_magic_byte_agrees.

(** C08, C43. Whatever bytes are sent: if they pass the check, the position read
    off them by offset is the stored one, it is later than the watermark, and
    the level is below 2^31. *)
Theorem C08_C43_accepted_messages_are_later :
  forall (m : N) (p : preemble) (l : bytes) (hw wm : watermark),
  preemble_of_byte m = Some p -> consensus_check p l hw = Some (AOk wm) ->
  signed_pos (m :: l) = Some (wm_pos wm) /\ cpos_lt (wm_pos hw) (wm_pos wm) /\ wm_level wm < 2 ^ 31.
Proof. exact consensus_check_ok. Qed.
Print Assumptions C08_C43_accepted_messages_are_later.

Example C08_case :
  preemble_of_byte 0x12 = Some PreTBPreendorsement /\
  consensus_check PreTBPreendorsement demo_pre (WTenderbake 2500000 false 3 false)
  = Some (AOk (WTenderbake 2500000 false 3 true)).
Proof. split; [reflexivity|exact demo_check_pre]. Qed.

(** C44. Checking a message panics exactly when it is sent as a block whose
    fitness field has version 2 and fewer than four bytes after it. *)
Theorem C44_panics_exactly_on_short_fitness : forall (p : preemble) (l : bytes) (hw : watermark),
  bytes_ok l ->
  (consensus_check p l hw = None <->
   (p = PreBlock \/ p = PreTBBlock) /\
   exists before fit after,
     l = before ++ be 4 (len fit) ++ fit ++ after /\ length before = 82%nat /\
     (5 <= length fit < 9)%nat /\ nth 4 fit 0 = 2).
Proof. exact check_panic_iff. Qed.
Print Assumptions C44_panics_exactly_on_short_fitness.

(** C44 as stated is false of the code. *)
Theorem C44_no_crash_refuted :
  exists l : bytes, forall hw : watermark, consensus_check PreTBBlock l hw = None.
Proof. exists demo_short_block. exact demo_short_panics. Qed.
Print Assumptions C44_no_crash_refuted.

(** C15. An unreadable watermark refuses every Emmy message. *)
Theorem C15_unreadable_refuses_emmy : forall (p : preemble) (q l : bytes) (wm : watermark),
  nth 0 q 0 <> 0 -> nth 0 q 0 <> 1 -> p = PreBlock \/ p = PreEndorsement ->
  consensus_check p l (wm_parse q) <> Some (AOk wm).
Proof. exact unknown_tag_refuses_emmy. Qed.
Print Assumptions C15_unreadable_refuses_emmy.

(** C15 as stated is false of the code: a Tenderbake message is accepted. *)
Theorem C15_unreadable_refuses_tenderbake_refuted :
  exists (q l : bytes) (wm : watermark),
    nth 0 q 0 <> 0 /\ nth 0 q 0 <> 1 /\
    consensus_check PreTBPreendorsement l (wm_parse q) = Some (AOk wm).
Proof. exists (7 :: zeros 51), demo_pre. eexists. exact demo_unknown_tag_signs_tb. Qed.
Print Assumptions C15_unreadable_refuses_tenderbake_refuted.
