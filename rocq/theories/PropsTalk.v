(** C57, C60, C61, C77: legacy signatures of bakers, the confirmed query, and the conversation
    of a signing call. *)
From Coq Require Import List NArith Bool.
From Verif Require Import Base Codecs Upload BakingSpec Baking BakingExamples Oracles UploadSpec CodecsSpec AddressSpec AddressExamples
  Device DeviceSpec DeviceFacts DeviceDemo ServiceSpec HashDemo Flash
  Client ClientSpec ClientFacts ClientSign ClientCalls ClientAdmin ClientExamples TalkSpec ClientMore ClientMoreExamples.
Import ListNotations.
Open Scope N_scope.

(** ** C57, C61: the legacy calls for blocks and endorsements *)

(** C57, C61. The legacy call with hash, given a protocol-encoded block or endorsement without
    its first byte, puts that byte in front and returns the hash and the signature of exactly
    that message exactly if it is above the watermark; [sig_hash] of the library is the same
    hash. *)
Theorem C57_C61_legacy_consensus : forall (C : config) (O : oracles) (H : host), host_ok H O ->
  forall text k kp kind message q dg s mp w f u es sched later user,
  Forall slot_fault_ok f -> Forall up_fault_ok u -> Forall event_ok es -> len es + 1 < 2 ^ 64 ->
  let d := snd (run C O (dev_fresh f u) es) in
  let data := (match kind with LkBlock => 1 | _ => 2 end) :: message in
  kind = LkBlock \/ kind = LkEndorsement ->
  signable C O d text k data dg s sched -> d_faults d = [] -> deciding user sched ->
  cf_baking C = true -> consensus_message data q ->
  wear_read (d_key d) = Some (RData kp) -> key_layout kp k ->
  wear_read (d_main d) = Some (RData mp) -> mark_bytes mp w ->
  exists r d', legacy_sign_with_hash H (plugged C O) text (fst k) message kind (d, sched ++ later)
               = (r, (d', later)) /\ d_ui d' = None /\ sig_hash H message kind = dg /\
    (cpos_level q < 2 ^ 31 /\ cpos_lt (wm_pos w) q ->
     r = mkSignRes 0x9000 (Some dg) (Some s) /\
     d_log d' = mkSig SrcConsensus k dg data :: d_log d /\
     (exists mp' w', wear_read (d_main d') = Some (RData mp') /\ mark_bytes mp' w' /\ wm_pos w' = q) /\
     forall sl, sl <> SMain -> wear_read (get_slot sl d') = wear_read (get_slot sl d)) /\
    (~ (cpos_level q < 2 ^ 31 /\ cpos_lt (wm_pos w) q) ->
     r = mkSignRes 0x6984 None None /\ untouched d d').
Proof. exact legacy_consensus. Qed.
Print Assumptions C57_C61_legacy_consensus.
Example C57_C61_legacy_case :
  ((signable demo_config demo_oracles client_baker client_text (client_key Ed25519) demo_block (blake2b 32 demo_block)
      (baker_sig demo_block) (turns 2 EApprove) /\
    exists q, consensus_message (1 :: tl demo_block) q /\ cpos_lt (wm_pos (WEmmy 1499999 false)) q) /\
   (signable demo_config demo_oracles client_baker client_text (client_key Ed25519) talk_endo (blake2b 32 talk_endo)
      (baker_sig talk_endo) (turns 2 EApprove) /\
    exists q, consensus_message (2 :: tl talk_endo) q /\ cpos_lt (wm_pos (WEmmy 1499999 false)) q) /\
   d_faults client_baker = []) /\
  exists kp mp,
  wear_read (d_key client_baker) = Some (RData kp) /\ key_layout kp (client_key Ed25519) /\
  wear_read (d_main client_baker) = Some (RData mp) /\ mark_bytes mp (WEmmy 1499999 false).
Proof. exact (conj legacy_baker_case baker_stored). Qed.

(** ** C60: the query that asks the user *)

Theorem C60_confirmed_query : forall (C : config) (O : oracles), oracles_ok O ->
  forall d (k : key) pk old later, d_ui d = None -> cf_baking C = true -> apdu_ok old ->
  stored_key d k -> key_ok k -> addressable O k pk -> roomy C 44 ->
  let call user := query_auth_key (plugged C O) true (d, (old, user) :: later) in
  (exists d', call EApprove = (JData 0x9000 (byte_of_curve (fst k), concat (map (be 4) (snd k))), (d', later)) /\ untouched d d') /\
  (exists d', call EReject = (JCode 0x6986, (d', later)) /\ untouched d d').
Proof. exact confirmed_query. Qed.
Print Assumptions C60_confirmed_query.
Example C60_confirmed_case : stored_key client_baker (client_key Ed25519) /\ key_ok (client_key Ed25519) /\ roomy demo_config 44 /\
  fst (query_auth_key (plugged demo_config demo_oracles) true (client_baker, turns 1 EApprove)) =
    JData 0x9000 (0, concat (map (be 4) client_path)) /\
  fst (query_auth_key (plugged demo_config demo_oracles) true (client_baker, turns 1 EReject)) = JCode 0x6986.
Proof. exact confirmed_case. Qed.

(** ** C77 *)

(** Whatever the other end answers: nothing is sent for a text that is not a path; otherwise
    the path goes out, then the pieces of the message, each after a success of the piece
    before, and the result comes from the last answer alone. *)
Theorem C77_conversation_partial : forall W (H : host) (X : transport W) text c message (legacy : bool) ins w,
  message <> [] ->
  match serialize_path H text with
  | None => sign_message H (logged X) text c message legacy ins true (w, []) = (mkSignRes 0xFFFF None None, (w, []))
  | Some sp => len sp <= 255 ->
    exists cs r0 l r w' code hash sig, carries ins (if legacy then 0x81 else 2) message cs /\
      sign_message H (logged X) text c message legacy ins true (w, []) =
        (mkSignRes code hash sig, (w', ([0x80; ins; 0; byte_of_curve c; len sp] ++ sp, r0) :: l)) /\
      talks cs l r code /\ returned r code hash sig
  end.
Proof. exact @sign_talk. Qed.
Print Assumptions C77_conversation_partial.
(** 600 bytes, refused in the middle and taken. *)
Example C77_conversation_case : let ok := Some [0x90; 0x00] in
  talk_run [ok; ok; Some [0x69; 0x84]; ok] =
    (mkSignRes 0x6984 None None,
     [([0x80; 0x12; 0; 0; 17], ok); ([0x80; 0x12; 1; 0; 250], ok); ([0x80; 0x12; 1; 0; 250], Some [0x69; 0x84])]) /\
  talk_run [ok; ok; ok; Some (repeat 7 32 ++ [1; 2] ++ [0x90; 0x00])] =
    (mkSignRes 0x9000 (Some (repeat 7 32)) (Some [1; 2]),
     [([0x80; 0x12; 0; 0; 17], ok); ([0x80; 0x12; 1; 0; 250], ok); ([0x80; 0x12; 1; 0; 250], ok);
      ([0x80; 0x12; 2; 0; 100], Some (repeat 7 32 ++ [1; 2] ++ [0x90; 0x00]))]).
Proof. exact talk_case. Qed.

(** C77, not true of the code: whatever the answer [r0] to the first packet, even a refusal or
    none at all, the call goes on and reports a success. *)
Theorem C77_first_answer_refuted : forall (H : host) text sp c message (legacy : bool) ins r0 h s,
  serialize_path H text = Some sp -> len sp <= 255 -> 1 <= len message <= 250 -> length h = 32%nat ->
  sign_message H prepared text c message legacy ins true [r0; Some (h ++ s ++ [0x90; 0x00])]
  = (mkSignRes 0x9000 (Some h) (Some s), []).
Proof. exact first_ignored. Qed.
Print Assumptions C77_first_answer_refuted.
Example C77_first_answer_case : serialize_path demo_host client_text <> None /\
  fst (sign_message demo_host prepared client_text Ed25519 [3; 1; 2] false 0x12 true
    [Some [0x69; 0x85]; Some (repeat 7 32 ++ [1; 2] ++ [0x90; 0x00])]) = mkSignRes 0x9000 (Some (repeat 7 32)) (Some [1; 2]).
Proof. exact first_case. Qed.
