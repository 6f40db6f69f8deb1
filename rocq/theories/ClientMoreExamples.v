(** Cases of the further calls, and the first answer of a conversation. *)
From Coq Require Import List NArith ZArith Lia Bool Arith.
From Verif Require Import Base BaseFacts Flash Codecs CodecsSpec Upload UploadSpec Baking BakingSpec
  Oracles Address AddressSpec AddressExamples BakingExamples Device DeviceSpec DeviceFacts DeviceDemo DeviceCases ServiceSpec
  HashDemo TextExamples Client ClientSpec ClientFacts ClientSign ClientCalls ClientAdmin ClientExamples TalkSpec ClientMore.
Import ListNotations.
Open Scope N_scope.

(** A transport with prepared answers. *)
Definition prepared : transport (list (option bytes)) := fun w _ => match w with r :: w' => (r, w') | [] => (None, []) end.
Lemma first_ignored (H : host) text sp c message (legacy : bool) ins r0 h s : serialize_path H text = Some sp -> len sp <= 255 ->
  1 <= len message <= 250 -> length h = 32%nat ->
  sign_message H prepared text c message legacy ins true [r0; Some (h ++ s ++ [0x90; 0x00])]
  = (mkSignRes 0x9000 (Some h) (Some s), []).
Proof.
  intros E Ls Lm Lh. unfold sign_message. rewrite E.
  assert (Pc : prepare_chunks message sp = [sp; message]).
  { unfold prepare_chunks. f_equal. destruct (length message) as [|n] eqn:El; [unfold len in Lm; lia|].
    cbn [chunk_loop]. replace (0 <? len message) with true by lia.
    replace (js_slice (Z.of_N 0) (Z.of_N (0 + CHUNK_SIZE)) message) with message.
    - replace (0 + CHUNK_SIZE <? len message) with false by (unfold CHUNK_SIZE; lia). reflexivity.
    - change (Z.of_N 0) with (Z.of_nat 0). change (Z.of_N (0 + CHUNK_SIZE)) with (Z.of_nat 250). rewrite js_slice_nat by lia.
      cbn [skipn]. rewrite Nat.sub_0_r. symmetry. apply firstn_all2. unfold len in Lm. lia. }
  rewrite Pc.
  assert (G : forall idx num chunk w r, len chunk <= 255 ->
    sign_send_chunk prepared idx num chunk legacy c ins true (r :: w) = (read_sign true r, w)).
  { intros idx num chunk w r L. unfold sign_send_chunk, send_codes. replace (256 <=? len chunk) with false by lia.
    cbn [prepared]. destruct r as [r|]; cbn [read_sign]; [|reflexivity].
    destruct (len r <? 2); [reflexivity|]. destruct (existsb (N.eqb (status_of r)) SIGN_CODES); reflexivity. }
  rewrite (G _ _ sp) by exact Ls. cbn [sign_rest length]. rewrite (G _ _ message) by lia.
  pose proof (read_returned (Some (h ++ s ++ [0x90; 0x00]))) as [_ R]. specialize (R h s eq_refl Lh).
  pose proof (read_code true (Some (h ++ s ++ [0x90; 0x00]))) as Q. cbn [code_in] in Q.
  destruct (read_sign true (Some (h ++ s ++ [0x90; 0x00]))) as [code hash sig]. cbn [sr_code sr_hash sr_sig] in *.
  destruct R as [-> ->].
  assert (code = 0x9000) as ->; [|reflexivity].
  destruct Q as [(data & a & b & Q & ->)|[Q _]].
  - rewrite app_assoc in Q. apply (f_equal (@rev N)) in Q. rewrite !rev_app_distr in Q. cbn [rev app] in Q. injection Q as <- <- _. reflexivity.
  - unfold len in Q. rewrite !app_length in Q. cbn [length] in Q. lia.
Qed.
Lemma first_case : serialize_path demo_host client_text <> None /\
  fst (sign_message demo_host prepared client_text Ed25519 [3; 1; 2] false 0x12 true
    [Some [0x69; 0x85]; Some (repeat 7 32 ++ [1; 2] ++ [0x90; 0x00])]) = mkSignRes 0x9000 (Some (repeat 7 32)) (Some [1; 2]).
Proof. split; vm_compute; [discriminate|reflexivity]. Qed.

(** 600 bytes: refused in the middle, and taken. *)
Definition talk_run (codes : list (option bytes)) :=
  let x := sign_message demo_host (logged prepared) client_text Ed25519 (repeat 9 600) false 0x12 true (codes, []) in
  (fst x, map (fun c => (firstn 5 (fst c), snd c)) (snd (snd x))).
Lemma talk_case : let ok := Some [0x90; 0x00] in
  talk_run [ok; ok; Some [0x69; 0x84]; ok] =
    (mkSignRes 0x6984 None None,
     [([0x80; 0x12; 0; 0; 17], ok); ([0x80; 0x12; 1; 0; 250], ok); ([0x80; 0x12; 1; 0; 250], Some [0x69; 0x84])]) /\
  talk_run [ok; ok; ok; Some (repeat 7 32 ++ [1; 2] ++ [0x90; 0x00])] =
    (mkSignRes 0x9000 (Some (repeat 7 32)) (Some [1; 2]),
     [([0x80; 0x12; 0; 0; 17], ok); ([0x80; 0x12; 1; 0; 250], ok); ([0x80; 0x12; 1; 0; 250], ok);
      ([0x80; 0x12; 2; 0; 100], Some (repeat 7 32 ++ [1; 2] ++ [0x90; 0x00]))]).
Proof. cbv zeta. split; vm_compute; reflexivity. Qed.

(** Legacy calls of a baker. *)
Definition talk_endo : bytes := endo_at 1500000.
Lemma legacy_baker_case :
  (signable demo_config demo_oracles client_baker client_text (client_key Ed25519) demo_block (blake2b 32 demo_block)
     (baker_sig demo_block) (turns 2 EApprove) /\
   exists q, consensus_message (1 :: tl demo_block) q /\ cpos_lt (wm_pos (WEmmy 1499999 false)) q) /\
  (signable demo_config demo_oracles client_baker client_text (client_key Ed25519) talk_endo (blake2b 32 talk_endo)
     (baker_sig talk_endo) (turns 2 EApprove) /\
   exists q, consensus_message (2 :: tl talk_endo) q /\ cpos_lt (wm_pos (WEmmy 1499999 false)) q) /\
  d_faults client_baker = [].
Proof.
  split; [|split; [|apply baker_idle]]; (split;
    [apply baker_signable; [apply bytes_okb_ok; vm_compute; reflexivity|apply Nat.leb_le; vm_compute; reflexivity|vm_compute; reflexivity]|]).
  - eexists. split.
    + apply (CmEmmyBlock demo_emmy_header 1 [[0; 0; 0; 0; 0; 0x16; 0xE3; 0x60]]); [apply demo_headers_ok|reflexivity|reflexivity].
    + vm_compute. auto.
  - eexists. split.
    + apply CmEmmyEndorsement; reflexivity.
    + vm_compute. auto.
Qed.
Lemma confirmed_case : stored_key client_baker (client_key Ed25519) /\ key_ok (client_key Ed25519) /\ roomy demo_config 44 /\
  fst (query_auth_key (plugged demo_config demo_oracles) true (client_baker, turns 1 EApprove)) =
    JData 0x9000 (0, concat (map (be 4) client_path)) /\
  fst (query_auth_key (plugged demo_config demo_oracles) true (client_baker, turns 1 EReject)) = JCode 0x6986.
Proof.
  destruct baker_key_stored as [A B]. split; [exact A|]. split; [exact B|].
  split; [intros v; exists 200; split; [reflexivity|lia]|]. split; vm_compute; reflexivity.
Qed.
