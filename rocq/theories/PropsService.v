(** Properties of the contents of the slots, and of requests that must be served. *)
From Coq Require Import List NArith Bool.
From Verif Require Import Base Flash Codecs CodecsSpec Upload UploadSpec UploadExamples Baking BakingSpec
  Operations OperationsSpec OperationsExamples Oracles Address AddressSpec AddressExamples Device DeviceSpec
  DeviceDemo DeviceExamples DeviceCases ServiceSpec DeviceContents DeviceLive ServiceExamples.
Import ListNotations.
Open Scope N_scope.

(** C15. After any history with faults that leave a page old, new or detectably corrupt,
    a slot that can be read holds a record of the form the app writes there: a watermark
    slot never holds a payload that is not a watermark. *)
Theorem C15_slots_hold_records : forall (C : config) (O : oracles) f u es s,
  Forall detected_fault f -> Forall up_fault_ok u -> Forall event_ok es ->
  match wear_read (get_slot s (snd (run C O (dev_fresh f u) es))) with
  | Some (RData p) => proper s p
  | _ => True
  end.
Proof. exact slots_proper. Qed.
Print Assumptions C15_slots_hold_records.
Example C15_slots_case :
  Forall detected_fault torn_faults /\ Forall event_ok (torn_events ++ [again]) /\
  wear_read (d_key torn_dev) = Some (RData (key_serialize demo_key)).
Proof. exact (conj (proj1 torn_case) (conj (proj1 (proj2 torn_case)) (proj1 (proj2 (proj2 torn_case))))). Qed.

(** C15. A consensus signature is only ever made over a readable, well-formed watermark
    that the message exceeds. *)
Theorem C15_signs_over_readable_watermark : forall (C : config) (O : oracles) f u es e g,
  Forall detected_fault f -> Forall up_fault_ok u -> Forall event_ok (es ++ [e]) ->
  let d := snd (run C O (dev_fresh f u) es) in
  d_log (snd (step C O d e)) = g :: d_log d -> is_consensus g = true ->
  exists p w q, wear_read (d_main d) = Some (RData p) /\ mark_bytes p w /\
    signed_pos (sg_data g) = Some q /\ cpos_lt (wm_pos w) q.
Proof. exact signs_over_mark. Qed.
Print Assumptions C15_signs_over_readable_watermark.
Example C15_signs_case :
  let es := demo_before ++ [send 4 0 0 (path_serialize demo_path)] in
  Forall event_ok (es ++ [again]) /\
  exists g, d_log (snd (step demo_config demo_oracles (demo_run [] es) again)) = g :: d_log (demo_run [] es) /\
    is_consensus g = true.
Proof. exact over_mark_case. Qed.

(** C15. A consensus message is refused with an execution error, and nothing changes,
    if the watermark was never written or its checksum is wrong. *)
Theorem C15_unreadable_refused : forall (C : config) (O : oracles) d buf rx up k dg q,
  completes C d buf rx up ->
  curve_of_byte (uo_p2 up) = Some (fst k) -> path_read BIP32_MAX_LENGTH (uo_first up) = Some (snd k) ->
  stored_key d k -> o_blake2b O 32 (uo_data up) = Some dg -> signed_pos (uo_data up) = Some q ->
  wear_read (d_main d) = Some RUninit \/ wear_read (d_main d) = Some RCrc ->
  fst (step C O d (EApdu buf rx)) = AReply [0x64; 0x00] /\
  untouched d (snd (step C O d (EApdu buf rx))).
Proof. exact unreadable_refused. Qed.
Print Assumptions C15_unreadable_refused.
Example C15_unreadable_case :
  completes demo_config torn_dev (apdu 4 0x81 0 demo_block) (5 + len demo_block) (demo_out 0) /\
  stored_key torn_dev demo_key /\
  (exists dg, o_blake2b demo_oracles 32 demo_block = Some dg) /\
  signed_pos demo_block = Some (PEmmy 1500000 false) /\
  wear_read (d_main torn_dev) = Some RCrc.
Proof. exact (proj2 (proj2 (proj2 torn_case))). Qed.

(** C49. A well-formed request to sign an operation or Michelson data, in any number of
    packets and after any history, is put to the user. Approving it answers with the
    signature of exactly that message by exactly that key; rejecting it signs nothing. *)
Theorem C49_review_served : forall (C : config) (O : oracles) f u es ins k data first mids last dg s,
  let d := snd (run C O (dev_fresh f u) es) in
  d_ui d = None -> d_ufaults d = [] -> upload_command C ins = Some AccSign ->
  request ins k data first mids last -> reviewed_message data ->
  o_blake2b O 32 data = Some dg -> o_sign O (fst k) (snd k) dg = Some s -> (length s <= 100)%nat ->
  (forall sh p, exists room, cf_room C (VSign sh dg p data) = Some room /\ len dg + len s + 2 <= room) ->
  exists d', run C O d (map sent (first :: mids ++ [last]))
             = (map (fun _ => go_on) (first :: mids) ++ [APending], d') /\
    untouched d d' /\
    (let (a, d'') := step C O d' EApprove in
     a = AReply ((if (ins =? 0x04) || (ins =? 0x05) then [] else dg) ++ s ++ [0x90; 0]) /\
     d_log d'' = mkSig SrcReview k dg data :: d_log d /\ d_ui d'' = None /\
     forall sl, wear_read (get_slot sl d'') = wear_read (get_slot sl d)) /\
    (let (a, d'') := step C O d' EReject in
     a = AReply [0x69; 0x86] /\ d_ui d'' = None /\ untouched d d'').
Proof. exact review_served. Qed.
Print Assumptions C49_review_served.
Example C49_case :
  let d := snd (run wallet_config demo_oracles (dev_fresh [] []) wallet_before) in
  d_ui d = None /\ d_ufaults d = [] /\ upload_command wallet_config 0x0F = Some AccSign /\
  request 0x0F demo_key wallet_message (naming 0x0F) wallet_mids wallet_last /\
  reviewed_message wallet_message /\
  exists dg s, o_blake2b demo_oracles 32 wallet_message = Some dg /\
    o_sign demo_oracles (fst demo_key) (snd demo_key) dg = Some s /\ (length s <= 100)%nat /\
    forall sh p, exists room, cf_room wallet_config (VSign sh dg p wallet_message) = Some room /\
      len dg + len s + 2 <= room.
Proof. exact wallet_served_case. Qed.

(** C50. A well-formed request to sign a block, pre-endorsement or endorsement with the
    authorised key is answered with the signature, and the watermark becomes the position
    of the message, if that position is above the watermark; otherwise it is refused and
    nothing changes. *)
Theorem C50_consensus_served : forall (C : config) (O : oracles) f u es ins k kp data q first mids last dg s mp w,
  Forall slot_fault_ok f -> Forall up_fault_ok u -> Forall event_ok es -> len es + 1 < 2 ^ 64 ->
  let d := snd (run C O (dev_fresh f u) es) in
  d_ui d = None -> d_faults d = [] -> d_ufaults d = [] ->
  cf_baking C = true -> In ins [0x04; 0x0F; 0xAF] ->
  request ins k data first mids last -> consensus_message data q ->
  wear_read (d_key d) = Some (RData kp) -> key_layout kp k ->
  wear_read (d_main d) = Some (RData mp) -> mark_bytes mp w ->
  o_blake2b O 32 data = Some dg -> (length dg <= 32)%nat ->
  o_sign O (fst k) (snd k) dg = Some s -> (length s <= 100)%nat ->
  exists a d', run C O d (map sent (first :: mids ++ [last]))
               = (map (fun _ => go_on) (first :: mids) ++ [a], d') /\ d_ui d' = None /\
    (cpos_level q < 2 ^ 31 /\ cpos_lt (wm_pos w) q ->
     a = AReply ((if ins =? 0x04 then [] else dg) ++ s ++ [0x90; 0]) /\
     d_log d' = mkSig SrcConsensus k dg data :: d_log d /\
     (exists mp' w', wear_read (d_main d') = Some (RData mp') /\ mark_bytes mp' w' /\ wm_pos w' = q) /\
     forall sl, sl <> SMain -> wear_read (get_slot sl d') = wear_read (get_slot sl d)) /\
    (~ (cpos_level q < 2 ^ 31 /\ cpos_lt (wm_pos w) q) -> a = AReply [0x69; 0x84] /\ untouched d d').
Proof. exact consensus_request_served. Qed.
Print Assumptions C50_consensus_served.
Example C50_case :
  Forall event_ok block_before /\ len block_before + 1 < 2 ^ 64 /\
  let d := demo_run [] block_before in
  d_ui d = None /\ d_faults d = [] /\ d_ufaults d = [] /\
  request 0xAF demo_key demo_tb_block (naming 0xAF) [] block_last /\
  consensus_message demo_tb_block (PTB 2500000 3 KBlock) /\
  (exists kp, wear_read (d_key d) = Some (RData kp) /\ key_layout kp demo_key) /\
  (exists mp, wear_read (d_main d) = Some (RData mp) /\ mark_bytes mp (WEmmy 1499999 false)) /\
  cpos_lt (wm_pos (WEmmy 1499999 false)) (PTB 2500000 3 KBlock) /\
  exists dg s, o_blake2b demo_oracles 32 demo_tb_block = Some dg /\ (length dg <= 32)%nat /\
    o_sign demo_oracles (fst demo_key) (snd demo_key) dg = Some s /\ (length s <= 100)%nat.
Proof. exact block_served_case. Qed.

(** C51. In the baking app a request to sign a single operation with the authorised key
    is put to the user if it is a delegation or a reveal, and signed once approved; any
    other operation is refused. *)
Theorem C51_operation_served : forall (C : config) (O : oracles) f u es ins k kp branch o first mids last dg s,
  let d := snd (run C O (dev_fresh f u) es) in
  let data := 3 :: branch ++ enc_op o in
  d_ui d = None -> d_ufaults d = [] ->
  cf_baking C = true -> In ins [0x04; 0x0F; 0xAF] -> length branch = 32%nat -> op_ok o ->
  request ins k data first mids last ->
  wear_read (d_key d) = Some (RData kp) -> key_layout kp k ->
  o_blake2b O 32 data = Some dg -> o_sign O (fst k) (snd k) dg = Some s -> (length s <= 100)%nat ->
  (forall sh p, exists room, cf_room C (VBakingSign sh dg branch p data) = Some room /\ len dg + len s + 2 <= room) ->
  exists a d', run C O d (map sent (first :: mids ++ [last])) = (map (fun _ => go_on) (first :: mids) ++ [a], d') /\
    untouched d d' /\
    if baker_op o then
      a = APending /\
      (let (a', d'') := step C O d' EApprove in
       a' = AReply ((if ins =? 0x04 then [] else dg) ++ s ++ [0x90; 0]) /\
       d_log d'' = mkSig SrcBakingReview k dg data :: d_log d /\ d_ui d'' = None /\
       forall sl, wear_read (get_slot sl d'') = wear_read (get_slot sl d)) /\
      (let (a', d'') := step C O d' EReject in
       a' = AReply [0x69; 0x86] /\ d_ui d'' = None /\ untouched d d'')
    else a = AReply [0x69; 0x86] /\ d_ui d' = None.
Proof. exact operation_request_served. Qed.
Print Assumptions C51_operation_served.
Example C51_case :
  let d := demo_run [] block_before in
  length demo_branch = 32%nat /\ op_ok small_delegation /\ baker_op small_delegation = true /\
  d_ui d = None /\ d_ufaults d = [] /\
  request 0x04 demo_key delegation_message (naming 0x04) [] delegation_last /\
  (exists kp, wear_read (d_key d) = Some (RData kp) /\ key_layout kp demo_key) /\
  exists dg s, o_blake2b demo_oracles 32 delegation_message = Some dg /\
    o_sign demo_oracles (fst demo_key) (snd demo_key) dg = Some s /\ (length s <= 100)%nat /\
    forall sh p, exists room, cf_room demo_config (VBakingSign sh dg demo_branch p delegation_message) = Some room /\
      len dg + len s + 2 <= room.
Proof. exact delegation_served_case. Qed.
