(** Developer builds: C78 to C82. *)
From Coq Require Import List NArith ZArith Bool Arith.
From Verif Require Import Base Flash Codecs CodecsSpec Upload UploadSpec UploadExamples Baking BakingSpec BakingExamples Oracles AddressExamples
  Device DeviceSpec ServiceSpec DeviceDemo ServiceExamples Text TextSpec Screens Catch Loop LoopSpec DevBuild DevSpec DevFacts DevExamples.
Import ListNotations.
Open Scope N_scope.

(** ** C78 *)

(** The answer is the SHA-256 of everything uploaded; only the upload buffer changes, and
    it is left free and empty. *)
Theorem C78_dev_hash : forall D O x init data first mids last h,
  ready D O x -> carries 0xF0 init data first mids last ->
  o_sha256 O (init ++ data) = Some h -> (length h <= 258)%nat ->
  exists u, drun D O x (map sent (first :: mids ++ [last]))
    = (map (fun _ => go_on) (first :: mids) ++ [AReply (h ++ [0x90; 0])], set_dev (set_up u (dd_dev x)) x) /\
    u_lock u = None /\ sb_read_exact (u_buf u) = [].
Proof. exact dev_hash_answer. Qed.
Print Assumptions C78_dev_hash.
Example C78_case : ready dev_demo demo_oracles (dev_at left_over) /\
  carries 0xF0 [1; 2; 3] [4; 5; 6; 7] (pkt 0xF0 0 [1; 2; 3]) [pkt 0xF0 1 [4; 5]] (pkt 0xF0 2 [6; 7]) /\
  exists h, o_sha256 demo_oracles [1; 2; 3; 4; 5; 6; 7] = Some h /\ length h = 32%nat /\
    fst (drun dev_demo demo_oracles (dev_at left_over) (map sent [pkt 0xF0 0 [1; 2; 3]; pkt 0xF0 1 [4; 5]; pkt 0xF0 2 [6; 7]]))
    = [AReply [0x90; 0]; AReply [0x90; 0]; AReply (h ++ [0x90; 0])].
Proof. exact dev_hash_case. Qed.

(** ** C79 *)

(** A blind signature, from the request to the decision; commands in between get no
    answer. *)
Theorem C79_blind_signature : forall D O x k data first mids last dg s noise room,
  ready D O x -> request 0xF3 k data first mids last ->
  o_blake2b O 32 data = Some dg -> o_sign O (fst k) (snd k) dg = Some s -> oracles_ok O ->
  dc_room D (DBlind true dg data) = Some room -> 134 <= room -> Forall is_apdu noise ->
  exists u,
    drun D O x (map sent (first :: mids ++ [last]) ++ noise ++ [EApprove])
    = (map (fun _ => go_on) (first :: mids) ++ [APending] ++ map (fun _ => ANone) noise ++ [AReply (dg ++ s ++ [0x90; 0])],
       mkDD (set_up u (dd_dev x)) None None (mkBlind k dg data :: dd_log x)) /\
    drun D O x (map sent (first :: mids ++ [last]) ++ noise ++ [EReject])
    = (map (fun _ => go_on) (first :: mids) ++ [APending] ++ map (fun _ => ANone) noise ++ [AReply [0x69; 0x86]],
       mkDD (set_up u (dd_dev x)) None None (dd_log x)) /\
    drun D O x (map sent (first :: mids ++ [last]) ++ noise ++ [EUiError])
    = (map (fun _ => go_on) (first :: mids) ++ [APending] ++ map (fun _ => ANone) noise ++ [AReply [0x69; 0x84]],
       mkDD (set_up u (dd_dev x)) (Some k) None (dd_log x)).
Proof. exact blind_signature. Qed.
Print Assumptions C79_blind_signature.
Example C79_case : ready dev_demo demo_oracles (dev_at left_over) /\
  request 0xF3 demo_key (endo_at 1500000) (naming 0xF3) [] blind_last /\
  (exists dg s, o_blake2b demo_oracles 32 (endo_at 1500000) = Some dg /\
     o_sign demo_oracles (fst demo_key) (snd demo_key) dg = Some s /\
     dc_room dev_demo (DBlind true dg (endo_at 1500000)) = Some 200) /\
  Forall is_apdu [send 0x10 0 0 []].
Proof. exact blind_case. Qed.

(** In any history, a blind signature is made only by approving the review of the digest
    of its message, and the app proper signs nothing with it. *)
Theorem C79_blind_only_approved : forall D O f u es e, Forall event_ok (es ++ [e]) ->
  let x := snd (drun D O (dd_fresh f u) es) in
  let y := snd (dstep D O x e) in
  dd_log y = dd_log x \/
  (e = EApprove /\ d_log (dd_dev y) = d_log (dd_dev x) /\
   exists k dg data s, dd_view x = Some (DBlind true dg data) /\ dd_path x = Some k /\
     o_blake2b O 32 data = Some dg /\ o_sign O (fst k) (snd k) dg = Some s /\
     dd_log y = mkBlind k dg data :: dd_log x).
Proof. exact blind_only_approved. Qed.
Print Assumptions C79_blind_only_approved.
Example C79_approved_case : Forall event_ok twice_blind /\
  map (fun r => (bl_key r, bl_data r)) (dd_log (dev_at twice_blind)) = [(demo_key, endo_other); (demo_key, endo_at 1500000)].
Proof. exact (conj (proj1 twice_blind_facts) (proj1 (proj2 twice_blind_facts))). Qed.

(** The pages on the screen of a Nano S, and the one page of the larger screens, read as
    the digest in hexadecimal. *)
Theorem C79_blind_screen_s : forall dg out, length dg = 32%nat -> bytes_ok dg -> length out = 35%nat ->
  exists t, reads (blind_render dg out) t /\ reads_hex t = Some dg.
Proof. exact blind_screen_s. Qed.
Print Assumptions C79_blind_screen_s.
Theorem C79_blind_screen_x : forall dg out, length dg = 32%nat -> bytes_ok dg -> (66 <= length out)%nat ->
  exists t, reads (blind_render dg out) t /\ reads_hex t = Some dg.
Proof. exact blind_screen_x. Qed.
Print Assumptions C79_blind_screen_x.
Example C79_screen_case : length (firstn 32 (map N.of_nat (seq 1 40))) = 32%nat /\
  blind_render (map N.of_nat (seq 1 32)) (zeros 35) 1 = VOk (hex (map N.of_nat (seq 18 15)) ++ zeros 5, 2).
Proof. exact blind_screen_case. Qed.

(** ** C80 *)

(** Without the developer's instructions a developer build is the app. *)
Theorem C80_ordinary_histories : forall D O f u es, Forall (ordinary (cf_baking (dc_conf D))) es ->
  let (l, y) := drun D O (dd_fresh f u) es in
  run (dc_conf D) O (dev_fresh f u) es = (l, dd_dev y) /\ dd_view y = None /\ dd_log y = [].
Proof. exact ordinary_histories. Qed.
Print Assumptions C80_ordinary_histories.
Example C80_ordinary_case : Forall (ordinary (cf_baking (dc_conf dev_demo))) (demo_before ++ demo_after) /\
  length (d_log (dd_dev (dev_at (demo_before ++ demo_after)))) = 3%nat.
Proof. exact ordinary_case. Qed.

(** The developer's instructions and decisions leave the stored data and the signatures
    of the app alone. *)
Theorem C80_developers_leave_alone : forall D O x e, event_ok e -> developers (cf_baking (dc_conf D)) x e ->
  untouched (dd_dev x) (dd_dev (snd (dstep D O x e))).
Proof. exact developers_untouched. Qed.
Print Assumptions C80_developers_leave_alone.
Example C80_developers_case : event_ok (send 0xF3 0 0 (path_serialize demo_path)) /\
  developers true (dev_at demo_before) (send 0xF3 0 0 (path_serialize demo_path)).
Proof. exact developers_case. Qed.

(** The app itself refuses every such instruction. *)
Theorem C80_app_refuses_others : forall D O d buf rx ins, apdu_ok buf -> command d buf rx ins ->
  ~ In ins (app_instructions (cf_baking (dc_conf D))) ->
  step (dc_conf D) O d (EApdu buf rx) = (AReply [0x69; 0x86], d).
Proof. exact refuses_others. Qed.
Print Assumptions C80_app_refuses_others.
Example C80_refuses_case : dcommand (dev_at []) (apdu 0xF2 0 0 echo_text) (5 + len echo_text) 0xF2 /\
  ~ In 0xF2 (app_instructions true).
Proof. split; [exact (proj1 echo_case)|]. intros H. apply app_not_dev in H. vm_compute in H. discriminate. Qed.

(** Consensus messages the app signs stay in order, whatever the developer does in
    between. *)
Theorem C80_consensus_order : forall D O f u es1 es2,
  Forall slot_fault_ok f -> Forall up_fault_ok u -> Forall event_ok (es1 ++ es2) ->
  len (es1 ++ es2) < 2 ^ 64 ->
  let x1 := snd (drun D O (dd_fresh f u) es1) in
  let x2 := snd (drun D O x1 es2) in
  dno_reset D O x1 es2 ->
  exists l, signed_between (dd_dev x1) (dd_dev x2) l /\ increasing (consensus_positions l).
Proof. exact dev_consensus_ordered. Qed.
Print Assumptions C80_consensus_order.
Example C80_order_case : Forall event_ok (demo_before ++ mixed_after) /\
  dno_reset dev_demo demo_oracles (dev_at demo_before) mixed_after /\
  map (fun g => signed_pos (sg_data g)) (rev (d_log (dd_dev (dev_at (demo_before ++ mixed_after)))))
  = [Some (PEmmy 1500000 false); Some (PTB 2500000 3 KBlock)] /\
  map bl_data (dd_log (dev_at (demo_before ++ mixed_after))) = [endo_at 7].
Proof. exact mixed_case. Qed.

(** Blind signatures are not so ordered: the authorised key signs two endorsements of the
    same level. *)
Theorem C80_blind_conflict_refuted : ~ (forall D O f u es k a b, Forall event_ok es ->
  let x := snd (drun D O (dd_fresh f u) es) in
  stored_key (dd_dev x) k -> In a (dd_log x) -> In b (dd_log x) -> bl_key a = k -> bl_key b = k ->
  bl_data a <> bl_data b -> ~ conflict (bl_data a) (bl_data b)).
Proof. exact blind_conflict. Qed.
Print Assumptions C80_blind_conflict_refuted.

(** ** C81 *)

Theorem C81_echo : forall D O x buf rx out room, dcommand x buf rx 0xF2 -> (17 <= length (pay buf) <= 34)%nat ->
  (forall v, dc_room D v = Some room) -> 2 <= room -> (35 <= length out)%nat ->
  exists l1 l2 y, dstep D O x (EApdu buf rx) = (APending, y) /\ y = set_view (Some (DEcho l1 l2)) x /\
    echo_render l1 l2 out = VOk (pay buf ++ zeros (35 - length (pay buf)) ++ skipn 35 out, 1) /\
    dstep D O y EApprove = (AReply [0x90; 0], x) /\ dstep D O y EReject = (AReply [0x69; 0x86], x).
Proof. exact echo_shown. Qed.
Print Assumptions C81_echo.
Theorem C81_echo_too_long : forall D O x buf rx, dcommand x buf rx 0xF2 -> (34 < length (pay buf))%nat ->
  dstep D O x (EApdu buf rx) = (AReply [0x67; 0x00], x).
Proof. exact echo_long. Qed.
Print Assumptions C81_echo_too_long.
Example C81_echo_case : dcommand (dev_at []) (apdu 0xF2 0 0 echo_text) (5 + len echo_text) 0xF2 /\
  pay (apdu 0xF2 0 0 echo_text) = echo_text /\ length echo_text = 20%nat.
Proof. exact echo_case. Qed.
(** Fewer than 17 bytes are not echoed: the app ends. *)
Theorem C81_echo_short_refuted : forall D O x buf rx, dcommand x buf rx 0xF2 -> (length (pay buf) < 17)%nat ->
  dstep D O x (EApdu buf rx) = (ADied, drestart x).
Proof. exact echo_short. Qed.
Print Assumptions C81_echo_short_refuted.
Example C81_echo_bad_case : dcommand (dev_at []) (apdu 0xF2 0 0 [65]) 6 0xF2 /\
  dcommand (dev_at []) (apdu 0xF2 0 0 (repeat 65 35)) 40 0xF2.
Proof. exact echo_bad_case. Qed.

(** An unknown instruction is displayed: header, length, payload. *)
Theorem C81_debug : forall D O x buf rx ins room, ready D O x -> dcommand x buf rx ins ->
  ~ In ins (app_instructions (cf_baking (dc_conf D))) -> ~ In ins [0xF0; 0xF1; 0xF2; 0xF3] ->
  sb_read_exact (u_buf (d_up (dd_dev x))) = [] ->
  dc_room D DDebug = Some room -> 2 <= room ->
  exists y z, dstep D O x (EApdu buf rx) = (APending, y) /\
    (forall out page, debug_render y out page = ui_message (firstn 4 buf ++ [len (pay buf)] ++ pay buf) out page) /\
    dstep D O y EApprove = (AReply [0x90; 0], z) /\ dstep D O y EReject = (AReply [0x69; 0x86], z) /\
    dd_view z = None /\ u_lock (d_up (dd_dev z)) = None /\ sb_read_exact (u_buf (d_up (dd_dev z))) = [] /\
    dd_log z = dd_log x /\ dd_path z = dd_path x.
Proof. exact debug_shown. Qed.
Print Assumptions C81_debug.
Example C81_debug_case : ready dev_demo demo_oracles (dev_at demo_before) /\
  dcommand (dev_at demo_before) (apdu 0x55 1 2 [3; 4]) 7 0x55 /\
  ~ In 0x55 (app_instructions true) /\ ~ In 0x55 [0xF0; 0xF1; 0xF2; 0xF3] /\
  sb_read_exact (u_buf (d_up (dd_dev (dev_at demo_before)))) = [] /\
  debug_render (snd (dstep dev_demo demo_oracles (dev_at demo_before) (send 0x55 1 2 [3; 4]))) (zeros 35) 0
  = VOk ([0x80; 0x55; 1; 2; 2; 3; 4] ++ zeros 28, 1).
Proof. exact debug_case. Qed.
(** With an upload left unfinished, its bytes are displayed before. *)
Theorem C81_debug_stale_refuted : ~ (forall D O x buf rx ins room, ready D O x -> dcommand x buf rx ins ->
  ~ In ins (app_instructions (cf_baking (dc_conf D))) -> ~ In ins [0xF0; 0xF1; 0xF2; 0xF3] ->
  dc_room D DDebug = Some room -> 2 <= room ->
  exists y, dstep D O x (EApdu buf rx) = (APending, y) /\
    forall out page, debug_render y out page = ui_message (firstn 4 buf ++ [len (pay buf)] ++ pay buf) out page).
Proof. exact debug_stale. Qed.
Print Assumptions C81_debug_stale_refuted.
(** With P1 = 0 the text that can be read ends after the instruction. *)
Theorem C81_debug_cut_refuted : forall D O x buf rx ins room, ready D O x -> dcommand x buf rx ins ->
  ~ In ins (app_instructions (cf_baking (dc_conf D))) -> ~ In ins [0xF0; 0xF1; 0xF2; 0xF3] ->
  sb_read_exact (u_buf (d_up (dd_dev x))) = [] ->
  dc_room D DDebug = Some room -> 2 <= room -> nth 2 buf 0 = 0 ->
  exists y, dstep D O x (EApdu buf rx) = (APending, y) /\
    forall out, (4 <= length out)%nat -> exists t n, debug_render y out 0 = VOk (t, n) /\ before_zero t = [0x80; ins].
Proof. exact debug_cut. Qed.
Print Assumptions C81_debug_cut_refuted.
Example C81_debug_cut_case : ready dev_demo demo_oracles (dev_at []) /\
  dcommand (dev_at []) (apdu 0x55 0 2 [3; 4]) 7 0x55 /\ nth 2 (apdu 0x55 0 2 [3; 4]) 0 = 0 /\
  sb_read_exact (u_buf (d_up (dd_dev (dev_at [])))) = [].
Proof. exact debug_cut_case. Qed.

(** ** C82 *)

(** The code thrown is the code caught, as the machine of C72 has it. *)
Theorem C82_except_caught : forall D O x buf rx, dcommand x buf rx 0xF1 -> 1 <= nth 2 buf 0 -> 1 <= nth 3 buf 0 ->
  dstep D O x (EApdu buf rx) = (AReply (be 8 (nth 3 buf 0) ++ [0x90; 0]), x) /\
  runs_to (catch (PThrow (nth 3 buf 0)) (fun _ => PRet 0x100000000) (fun e => PRet (code_of e))) [] (inl (nth 3 buf 0)).
Proof. exact except_caught. Qed.
Print Assumptions C82_except_caught.
Theorem C82_except_uncaught : forall D O x buf rx, dcommand x buf rx 0xF1 -> nth 2 buf 0 = 0 -> 1 <= nth 3 buf 0 ->
  dstep D O x (EApdu buf rx) = (AReply [0; nth 3 buf 0; 0x64; 0x00], x).
Proof. exact except_uncaught. Qed.
Print Assumptions C82_except_uncaught.
Example C82_case : dcommand (dev_at []) (apdu 0xF1 1 5 []) 5 0xF1 /\ dcommand (dev_at []) (apdu 0xF1 0 5 []) 5 0xF1 /\
  dcommand (dev_at []) (apdu 0xF1 1 0 []) 5 0xF1.
Proof. exact except_case. Qed.
(** The code 0 comes back as 1. *)
Theorem C82_except_zero_refuted : forall D O x buf rx, dcommand x buf rx 0xF1 -> 1 <= nth 2 buf 0 -> nth 3 buf 0 = 0 ->
  dstep D O x (EApdu buf rx) = (AReply (be 8 1 ++ [0x90; 0]), x).
Proof. exact except_zero. Qed.
Print Assumptions C82_except_zero_refuted.
