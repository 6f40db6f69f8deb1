(** Answers of single commands. *)
From Coq Require Import List NArith ZArith Lia Bool Arith ZifyBool ZifyNat ZifyN.
From Verif Require Import Base BaseFacts Flash FlashFacts Codecs CodecsSpec CodecsFacts
  Upload UploadSpec UploadFacts Baking BakingSpec BakingFacts Operations Oracles Address
  Device DeviceSpec DeviceFacts DeviceProofs DeviceSigs.
Import ListNotations.
Open Scope N_scope.

Section Answers.
  Variable C : config.
  Variable O : oracles.

  Lemma step_command d buf rx ins : apdu_ok buf -> command d buf rx ins ->
    step C O d (EApdu buf rx) = finish 260 (dispatch C O buf d).
  Proof.
    intros [Hl _] (U & Hr & _). cbn [step]. rewrite U.
    assert (E : len buf = 260) by (unfold len; lia). rewrite E.
    replace (apdu_read_ok buf rx) with true; [reflexivity|].
    unfold apdu_read_ok. rewrite E. lia.
  Qed.

  (** The answer of a status word alone, and of data followed by success. *)
  Lemma finish_err d e : finish 260 (Err e, d) = (AReply (be 2 (sw e)), d).
  Proof. reflexivity. Qed.
  Lemma finish_ok d l : len l + 2 <= 260 -> finish 260 (Ok (Now l), d) = (AReply (l ++ [0x90; 0]), d).
  Proof. intros H. cbn [finish]. replace (260 <? len l + 2) with false by lia. reflexivity. Qed.

  Lemma dispatch_at buf ins : nth 0 buf 0 = 0x80 -> nth 1 buf 0 = ins ->
    dispatch C O buf =
    if cf_baking C then
      if ins =? 0x06 then h_reset buf
      else if ins =? 0x08 then h_main_hwm
      else if ins =? 0x0B then h_all_hwm
      else if ins =? 0xA1 then h_authorize C O buf
      else if ins =? 0xAC then h_deauthorize C O buf
      else if ins =? 0xA7 then h_query C O false buf
      else if ins =? 0xAD then h_query C O true buf
      else if ins =? 0xAF then h_baker_sign C O true buf
      else if ins =? 0x01 then h_authorize C O buf
      else if ins =? 0x0C then h_deauthorize C O buf
      else if ins =? 0x07 then h_query C O false buf
      else if ins =? 0x0D then h_query C O true buf
      else if ins =? 0x0A then h_setup C O buf
      else if ins =? 0x0E then h_hmac O buf
      else dispatch_common C O ins buf
    else
      if ins =? 0x05 then h_sign C O false buf
      else dispatch_common C O ins buf.
  Proof. intros H0 H1. unfold dispatch, apdu_cla, apdu_ins, CLA. rewrite H0, H1. reflexivity. Qed.

  (** ** QUERY_MAIN_HWM *)

  Lemma main_hwm_answer d buf rx : cf_baking C = true -> apdu_ok buf -> command d buf rx 0x08 ->
    fst (step C O d (EApdu buf rx)) =
    match wear_read (d_main d) with
    | Some (RData p) => AReply (be 4 (wm_level (wm_parse p)) ++ [0x90; 0])
    | Some RUninit => AReply (be 4 (2 ^ 32 - 1) ++ [0x90; 0])
    | Some RCrc => AReply [0x64; 0]
    | None => ADied
    end.
  Proof.
    intros Cb Hb Hc. rewrite (step_command d buf rx 0x08 Hb Hc).
    destruct Hc as (_ & _ & E0 & E1). rewrite (dispatch_at buf 0x08 E0 E1), Cb.
    change (0x08 =? 0x06) with false. change (0x08 =? 0x08) with true. cbn iota.
    unfold h_main_hwm, read_slot, bind, wear_read. cbn [get_slot].
    destruct (wear_init (d_main d)) as [k|]; [|reflexivity].
    destruct (wear_read_at (d_main d) k); try reflexivity.
  Qed.

  (** ** The watermark after a consensus signature *)

  (** If a signature was made, the main slot reads as a watermark at its position. *)
  Definition raised {A} (data : bytes) (d : dev) (x : outcome A * dev) : Prop :=
    d_log (snd x) <> d_log d ->
    exists wm, wear_reads (d_main (snd x)) (wm_serialize wm) /\ signed_pos data = Some (wm_pos wm) /\
      wm_ok wm.
  Lemma raised_log {A} data d (x : outcome A * dev) : d_log (snd x) = d_log d -> raised data d x.
  Proof. intros H N. contradiction. Qed.

  Lemma consensus_store B m p rem sh dg data d : preemble_of_byte m = Some p -> data = m :: rem ->
    bytes_ok data -> wf_wear B (d_main d) -> Forall slot_fault_ok (d_faults d) -> B + 1 < 2 ^ 64 ->
    raised data d (handle_consensus O p rem sh dg data d).
  Proof.
    intros P Ed Bd W F HB. unfold handle_consensus. unfold bind at 1.
    pose proof (keeps_read_or eff_none SMain ExecutionError d) as F1.
    assert (L1 : d_log (snd (read_or SMain ExecutionError d)) = d_log d) by apply read_or_log.
    destruct (read_or SMain ExecutionError d) as [[hw|e| |] d1]; cbn [snd] in *;
      try (now apply raised_log).
    pose proof (weq_wf B _ _ (fr_slot _ _ _ F1 SMain (fun x => x)) W) as W1. cbn [get_slot] in W1.
    assert (Fa : Forall slot_fault_ok (d_faults d1)).
    { destruct (fr_faults _ _ _ F1) as [l El]. rewrite El in F. now apply Forall_app in F. }
    destruct (consensus_check p rem (wm_parse hw)) as [[wm|e]|] eqn:K; cbn [of_ares];
      try (now apply raised_log).
    pose proof (consensus_check_ok _ _ _ _ _ P K) as (Kp & Kl & Kv). rewrite <- Ed in Kp.
    pose proof (signed_pos_wm_ok _ _ Bd Kp) as Kw.
    unfold bind, ret. cbn beta iota. unfold write_or, bind, write_slot. cbn [get_slot].
    destruct (wear_init (d_main d1)) as [k|] eqn:Iw; [|now apply raised_log].
    destruct (next_fault (d_faults d1)) as [f fs] eqn:N.
    apply (next_fault_forall slot_fault_ok) in N as [Ff Ffs]; [|exact Logic.I|exact Fa].
    assert (Hpl : payload_ok (wm_serialize wm)) by apply wm_payload.
    pose proof (write_step B (d_main d1) k (wm_serialize wm) f W1 HB Hpl (slot_fault_safe _ Ff) Iw) as S.
    destruct (wear_write_at (d_main d1) k (wm_serialize wm) f) as [w' r]. destruct S as (S1 & S2 & _).
    destruct r; [|apply raised_log; destruct d1; exact L1..].
    cbn beta iota. cbn [check]. unfold ret. cbn beta iota.
    set (d2 := set_slot SMain w' (set_faults fs d1)).
    set (Es := mkEff (fun _ => False) (fun _ => True) False False (fun _ => False)).
    pose proof (keeps_baking_sign O Es SrcConsensus dg data (fun _ => Logic.I) d2) as FB.
    pose proof (fr_slot _ _ _ FB SMain (fun x => x)) as WB. cbn [get_slot] in WB.
    intros _. exists wm. split; [|auto].
    assert (R2 : wear_reads (d_main d2) (wm_serialize wm)).
    { unfold d2. destruct d1; cbn. now apply S2. }
    unfold wear_reads in *. rewrite <- (weq_read _ _ WB) in R2.
    destruct (baking_sign O SrcConsensus dg data d2) as [[]]; exact R2.
  Qed.

  (** ** How the watermark moves without a reset *)

  (** [p'] is the watermark at the position of [data], after the one stored in [d]. *)
  Definition mark (d : dev) (data p' : bytes) : Prop :=
    exists wm p, p' = wm_serialize wm /\ signed_pos data = Some (wm_pos wm) /\ wm_ok wm /\
      wear_reads (d_main d) p /\ cpos_lt (wm_pos (wm_parse p)) (wm_pos wm).
  Definition moved (d : dev) (data : bytes) (d' : dev) : Prop :=
    forall v, v <> RCrc -> wear_read (d_main d') = Some v ->
      (wear_read (d_main d) = Some v /\ d_log d' = d_log d) \/
      exists p', v = RData p' /\ mark d data p'.
  Definition still (d d' : dev) : Prop :=
    forall v, v <> RCrc -> wear_read (d_main d') = Some v -> wear_read (d_main d) = Some v.

  Lemma still_frame E d d' : ~ e_slot E SMain -> frame E d d' -> still d d'.
  Proof.
    intros H F v Nv R. pose proof (fr_slot _ _ _ F SMain H) as W. cbn [get_slot] in W.
    now rewrite <- (weq_read _ _ W).
  Qed.
  Lemma moved_still d data d' : still d d' -> d_log d' = d_log d -> moved d data d'.
  Proof. intros S L v Nv R. left. auto. Qed.
  Lemma mark_still d d1 data p' : still d d1 -> mark d1 data p' -> mark d data p'.
  Proof.
    intros S (wm & p & M1 & M2 & M3 & M4 & M5). exists wm, p.
    assert (wear_reads (d_main d) p) by (apply S; [discriminate|exact M4]). auto 8.
  Qed.
  Lemma moved_from d d1 data d' : still d d1 -> d_log d1 = d_log d -> moved d1 data d' -> moved d data d'.
  Proof.
    intros S L M v Nv R. destruct (M v Nv R) as [[M1 M2]|(p' & E & M1)];
      [left; split; [auto|congruence]|right].
    exists p'. split; [exact E|]. now apply (mark_still d d1).
  Qed.
  Lemma moved_restart B d data d' : wf_wear B (d_main d') -> moved d data d' -> moved d data (restart d').
  Proof. intros W M v Nv R. apply M; [exact Nv|]. exact (reads_restart B _ _ W R). Qed.
  Lemma moved_to d data d1 d2 : d_main d2 = d_main d1 -> d_log d2 = d_log d1 -> moved d data d1 ->
    moved d data d2.
  Proof. intros E1 E2 M v. rewrite E1, E2. apply M. Qed.

  Lemma consensus_moves B m p rem sh dg data d : preemble_of_byte m = Some p -> data = m :: rem ->
    bytes_ok data -> wf_wear B (d_main d) -> Forall slot_fault_ok (d_faults d) -> B + 1 < 2 ^ 64 ->
    holds_after (moved d data) (handle_consensus O p rem sh dg data d).
  Proof.
    intros P Ed Bd W F HB. unfold handle_consensus. unfold bind at 1.
    pose proof (keeps_read_or eff_none SMain ExecutionError d) as F1.
    pose proof (read_or_spec SMain ExecutionError d) as R1.
    assert (L1 : d_log (snd (read_or SMain ExecutionError d)) = d_log d) by apply read_or_log.
    assert (S1 := still_frame eff_none _ _ (fun x => x) F1).
    destruct (read_or SMain ExecutionError d) as [[hw|e| |] d1]; cbn [snd holds_after] in *;
      try (now apply moved_still); try contradiction.
    destruct R1 as [R1 R1']. cbn [get_slot] in R1, R1'.
    pose proof (weq_wf B _ _ (fr_slot _ _ _ F1 SMain (fun x => x)) W) as W1. cbn [get_slot] in W1.
    assert (Fa : Forall slot_fault_ok (d_faults d1)).
    { destruct (fr_faults _ _ _ F1) as [l El]. rewrite El in F. now apply Forall_app in F. }
    destruct (consensus_check p rem (wm_parse hw)) as [[wm|e]|] eqn:K; cbn [of_ares];
      try (now apply moved_still).
    pose proof (consensus_check_ok _ _ _ _ _ P K) as (Kp & Kl & Kv). rewrite <- Ed in Kp.
    pose proof (signed_pos_wm_ok _ _ Bd Kp) as Kw.
    assert (Mk : mark d data (wm_serialize wm)) by (exists wm, hw; auto 8).
    unfold bind, ret. cbn beta iota. unfold write_or, bind, write_slot. cbn [get_slot].
    destruct (wear_init (d_main d1)) as [k|] eqn:Iw; [|now apply moved_still].
    destruct (next_fault (d_faults d1)) as [f fs] eqn:N.
    apply (next_fault_forall slot_fault_ok) in N as [Ff Ffs]; [|exact Logic.I|exact Fa].
    assert (Hpl : payload_ok (wm_serialize wm)) by apply wm_payload.
    pose proof (write_step_any B (d_main d1) k (wm_serialize wm) f W1 HB Hpl (slot_fault_safe _ Ff) Iw) as S.
    destruct (wear_write_at (d_main d1) k (wm_serialize wm) f) as [w' r]. destruct S as (S0 & S2 & S3).
    assert (Dm : d_main (set_slot SMain w' (set_faults fs d1)) = w') by (destruct d1; reflexivity).
    assert (Dl : d_log (set_slot SMain w' (set_faults fs d1)) = d_log d1) by (destruct d1; reflexivity).
    destruct r; cbn beta iota; cbn [holds_after].
    - cbn [check]. unfold ret. cbn beta iota.
      set (d2 := set_slot SMain w' (set_faults fs d1)) in *.
      set (Es := mkEff (fun _ => False) (fun _ => True) False False (fun _ => False)).
      pose proof (keeps_baking_sign O Es SrcConsensus dg data (fun _ => Logic.I) d2) as FB.
      assert (SB := still_frame Es _ _ (fun x => x) FB).
      assert (G : moved d data (snd (baking_sign O SrcConsensus dg data d2))).
      { intros v Nv R. right. specialize (SB v Nv R). rewrite Dm in SB.
        specialize (S2 eq_refl). unfold wear_reads in S2. exists (wm_serialize wm).
        split; [congruence|exact Mk]. }
      assert (WB : wf_wear (B + 1) (d_main (snd (baking_sign O SrcConsensus dg data d2)))).
      { apply (weq_wf _ (d_main d2)); [exact (fr_slot _ _ _ FB SMain (fun x => x))|].
        rewrite Dm. exact S0. }
      destruct (baking_sign O SrcConsensus dg data d2) as [[]]; cbn [snd] in G, WB; try exact G.
      cbn [holds_after]. eapply moved_restart; eauto.
    - cbn [check fail]. intros v Nv R. rewrite Dm in R. specialize (S3 v Nv R).
      destruct S3 as [->|[X _]]; [right; eauto|discriminate].
    - intros v Nv R. specialize (S3 v Nv). cbn [d_main restart] in R. rewrite Dm in R.
      destruct (S3 R) as [->|[_ X]]; [right; eauto|]. left. split; [|cbn [d_log restart]; congruence].
      apply S1; [exact Nv|]. exact (reads_restart B _ _ W1 X).
  Qed.

  Definition eff_show : effects :=
    mkEff (fun _ => False) (fun _ => False) False False
      (fun v => match v with VBakingSign _ _ _ _ _ => True | _ => False end).

  Definition baker_case (sh : bool) (up : upload_out) (d : dev) (x : outcome reply * dev) : Prop :=
    (frame eff_show d (snd x) /\ fst x <> Cut) \/
    exists k d1 m p rem dg, frame eff_none d d1 /\ stored_key d k /\
      curve_of_byte (uo_p2 up) = Some (fst k) /\ path_read BIP32_MAX_LENGTH (uo_first up) = Some (snd k) /\
      uo_data up = m :: rem /\ preemble_of_byte m = Some p /\ o_blake2b O 32 (uo_data up) = Some dg /\
      x = handle_consensus O p rem sh dg (uo_data up) d1.

  (** The baking-sign command either handles a consensus message naming the stored key,
      or stores and signs nothing. *)
  Lemma baker_sign_cases sh up d : baker_case sh up d (baker_sign C O sh up d).
  Proof.
    assert (Q : forall d' e, frame eff_none d d' -> baker_case sh up d (Err e, d')).
    { intros d' e F. left. split; [|discriminate]. eapply frame_mono; [apply eff_none_le|exact F]. }
    assert (Q2 : forall d', frame eff_none d d' -> baker_case sh up d (Panic, d')).
    { intros d' F. left. split; [|discriminate]. eapply frame_mono; [apply eff_none_le|exact F]. }
    assert (R0 := frame_refl eff_none d).
    unfold baker_sign. unfold bind at 1.
    destruct (curve_of_byte (uo_p2 up)) as [c|] eqn:Ec; cbn [of_option]; [|now apply Q].
    unfold ret at 1, bind at 1.
    destruct (path_read BIP32_MAX_LENGTH (uo_first up)) as [pa|] eqn:Ep; cbn [of_option]; [|now apply Q].
    unfold ret at 1, bind at 1.
    pose proof (keeps_check_with_stored eff_none (c, pa) d) as F1.
    pose proof (check_with_stored_spec (c, pa) d) as K1.
    assert (NC : fst (check_with_stored (c, pa) d) <> Cut).
    { unfold check_with_stored, read_or, read_slot, bind. cbn [get_slot].
      destruct (wear_init (d_key d)) as [i|]; [|discriminate].
      destruct (wear_read_at (d_key d) i); try discriminate. unfold ret.
      destruct (key_parse _) as [[|]|]; discriminate. }
    destruct (check_with_stored (c, pa) d) as [[ok|e| |] d1]; cbn [fst snd] in *; auto; try congruence.
    unfold bind at 1. destruct ok; cbn [check]; [|now apply Q].
    destruct K1 as [K1 W1].
    unfold ret at 1, bind at 1, digest32.
    destruct (o_blake2b O 32 (uo_data up)) as [dg|] eqn:Dg; cbn [of_option]; [|now apply Q].
    unfold ret at 1.
    destruct (preemble_parse (uo_data up)) as [rem p| |] eqn:P; [|now apply Q|now apply Q2].
    apply preemble_parse_inv in P as (m & Em & Pm).
    assert (G : baker_case sh up d (handle_consensus O p rem sh dg (uo_data up) d1)).
    { right. exists (c, pa), d1, m, p, rem, dg. auto 10. }
    destruct p; try exact G; try (now apply Q).
    left. unfold handle_delegation.
    assert (F2 : frame eff_show d d1) by (eapply frame_mono; [apply eff_none_le|exact F1]).
    destruct (operation_new rem) as [[br ops]|]; [|split; [exact F2|discriminate]].
    destruct (eo_next ops) as [| | |o e]; try (split; [exact F2|discriminate]).
    destruct o; try (split; [exact F2|discriminate]);
      (split; [|unfold show; destruct (cf_room C _); discriminate]);
      (eapply frame_trans; [exact F2|]); apply (keeps_show C eff_show); exact I.
  Qed.

  Lemma still_none d d1 : frame eff_none d d1 -> still d d1 /\ d_log d1 = d_log d.
  Proof.
    intros F. split; [exact (still_frame eff_none _ _ (fun x => x) F)|].
    exact (frame_log_none eff_none _ _ (fun g x => x) F).
  Qed.
  Lemma frame_faults E d d1 : frame E d d1 -> Forall slot_fault_ok (d_faults d) -> Forall slot_fault_ok (d_faults d1).
  Proof. intros F H. destruct (fr_faults _ _ _ F) as [l El]. rewrite El in H. now apply Forall_app in H. Qed.

  Lemma baker_moves B sh up d : uo_ok up -> wf_wear B (d_main d) -> Forall slot_fault_ok (d_faults d) ->
    B + 1 < 2 ^ 64 ->
    holds_after (moved d (uo_data up)) (baker_sign C O sh up d) /\ raised (uo_data up) d (baker_sign C O sh up d).
  Proof.
    intros [_ Hd] W F HB.
    destruct (baker_sign_cases sh up d) as [[F1 N]|(k & d1 & m & p & rem & dg & F1 & K1 & K2 & K3 & Ed & Pm & Dg & E)].
    - assert (L := frame_log_none eff_show _ _ (fun g x => x) F1). split; [|now apply raised_log].
      assert (M : moved d (uo_data up) (snd (baker_sign C O sh up d))).
      { apply moved_still; [|exact L]. exact (still_frame eff_show _ _ (fun x => x) F1). }
      destruct (baker_sign C O sh up d) as [[]]; try exact M. now contradiction N.
    - destruct (still_none _ _ F1) as [S1 L1].
      assert (W1 : wf_wear B (d_main d1)) by exact (weq_wf B _ _ (fr_slot _ _ _ F1 SMain (fun x => x)) W).
      assert (Fa := frame_faults _ _ _ F1 F).
      rewrite E. split.
      + pose proof (consensus_moves B m p rem sh dg (uo_data up) d1 Pm Ed Hd W1 Fa HB) as M.
        destruct (handle_consensus O p rem sh dg (uo_data up) d1) as [[]]; cbn [holds_after] in *;
          eapply moved_from; eauto.
      + pose proof (consensus_store B m p rem sh dg (uo_data up) d1 Pm Ed Hd W1 Fa HB) as R.
        unfold raised in *. rewrite <- L1. exact R.
  Qed.

  (** Through the upload and the answer. *)
  Lemma upload_moves B B' a buf f d : apdu_ok buf -> inv B [] (d_log d) d -> B <= B' ->
    (forall up d, uo_ok up -> inv B [] (d_log d) d ->
       holds_after (fun d' => wf_wear B' (d_main d')) (f up d) /\
       holds_after (moved d (uo_data up)) (f up d) /\ raised (uo_data up) d (f up d)) ->
    forall room,
    let x := finish room (with_upload a buf f d) in
    (still d (snd x) /\ d_log (snd x) = d_log d) \/
    exists up u s, upload a buf (d_up d) (d_ufaults d) = (Ok (Some up), u, s) /\ uo_ok up /\
      moved d (uo_data up) (snd x) /\ (fst x = ADied \/ raised (uo_data up) d (Ok tt, snd x)).
  Proof.
    intros Hb V LB Hf room. cbv zeta. unfold with_upload, the_upload, bind, drop_upload.
    pose proof (upload_bytes a buf (d_up d) (d_ufaults d) Hb (inv_up _ _ _ _ V) (inv_ufaults _ _ _ _ V)) as X.
    destruct (upload a buf (d_up d) (d_ufaults d)) as [[r u] s]. destruct X as (Xu & Xs & Xr).
    set (d1 := set_up u (set_ufaults s d)).
    assert (Dm : d_main d1 = d_main d) by (destruct d; reflexivity).
    assert (Dl : d_log d1 = d_log d) by (destruct d; reflexivity).
    assert (Df : d_faults d1 = d_faults d) by (destruct d; reflexivity).
    assert (S1 : still d d1) by (intros v; now rewrite Dm).
    assert (SR : still d (restart d1)).
    { intros v Nv R. rewrite <- Dm. eapply reads_restart; [rewrite Dm; apply V|exact R]. }
    assert (LR : d_log (restart d1) = d_log d) by exact Dl.
    destruct r as [[up|]|e| |]; cbn [finish ret]; try (left; cbn [snd]; solve [auto]).
    2: { left. destruct (room <? len [] + 2); cbn [snd]; auto. }
    2: { left. destruct (room <? len [] + 2); cbn [snd]; auto. }
    right. exists up, u, s. split; [reflexivity|]. split; [exact Xr|].
    assert (V1 : inv B [] (d_log d1) d1) by (rewrite Dl; now apply inv_up_change).
    destruct (Hf up d1 Xr V1) as (W & M & R).
    assert (Q : forall d2, moved d1 (uo_data up) d2 -> moved d (uo_data up) d2).
    { intros d2. now apply moved_from. }
    destruct (f up d1) as [[rr|e| |] d2]; cbn [holds_after] in *.
    - set (d3 := set_up (upload_drop a (d_up d2)) d2).
      assert (M3 : moved d (uo_data up) d3) by (eapply moved_to; [| |apply Q, M]; destruct d2; reflexivity).
      assert (R3 : raised (uo_data up) d (Ok tt, d3)).
      { unfold raised in *. cbn [snd] in *. rewrite <- Dl.
        replace (d_log d3) with (d_log d2) by (destruct d2; reflexivity).
        replace (d_main d3) with (d_main d2) by (destruct d2; reflexivity). exact R. }
      assert (W3 : wf_wear B' (d_main d3)) by (destruct d2; exact W).
      unfold ret. destruct rr as [data|]; cbn [finish]; [|cbn [fst snd]; auto].
      destruct (room <? len data + 2); cbn [fst snd]; auto.
      split; [eapply moved_restart; eauto|auto].
    - set (d3 := set_up (upload_drop a (d_up d2)) d2).
      assert (M3 : moved d (uo_data up) d3) by (eapply moved_to; [| |apply Q, M]; destruct d2; reflexivity).
      assert (R3 : raised (uo_data up) d (Ok tt, d3)).
      { unfold raised in *. cbn [snd] in *. rewrite <- Dl.
        replace (d_log d3) with (d_log d2) by (destruct d2; reflexivity).
        replace (d_main d3) with (d_main d2) by (destruct d2; reflexivity). exact R. }
      assert (W3 : wf_wear B' (d_main d3)) by (destruct d2; exact W).
      unfold fail. cbn [finish]. destruct (room <? len [] + 2); cbn [fst snd]; auto.
      split; [eapply moved_restart; eauto|auto].
    - cbn [finish fst snd]. split; [|auto]. eapply moved_restart; [exact W|apply Q, M].
    - cbn [finish fst snd]. split; [|auto]. now apply Q.
  Qed.

  Definition consensus_upload (d : dev) (e : event) (up : upload_out) : Prop :=
    cf_baking C = true /\
    exists buf rx ins u s, e = EApdu buf rx /\ command d buf rx ins /\ In ins [0x04; 0x0F; 0xAF] /\
      upload AccBaking buf (d_up d) (d_ufaults d) = (Ok (Some up), u, s).

  Lemma still_restart B d d' : wf_wear B (d_main d') -> still d d' -> still d (restart d').
  Proof. intros W S v Nv R. apply S; [exact Nv|]. exact (reads_restart B _ _ W R). Qed.
  Lemma finish_still B d room x : wf_wear B (d_main (snd x)) -> still d (snd x) ->
    still d (snd (finish room x)).
  Proof.
    intros W S. assert (SR := still_restart B d _ W S).
    destruct x as [[[data|]|e| |] d']; cbn [finish snd] in *; auto;
      match goal with |- context [if ?b then _ else _] => destruct b end; cbn [snd]; auto.
  Qed.
  Lemma keeps_still {A} E (m : M A) B d : ~ e_slot E SMain -> keeps E m -> wf_wear B (d_main d) ->
    wf_wear B (d_main (snd (m d))) /\ still d (snd (m d)).
  Proof.
    intros N K W. specialize (K d). split; [|now apply (still_frame E)].
    exact (weq_wf B _ _ (fr_slot _ _ _ K SMain N) W).
  Qed.

  (** One event, without a reset. *)
  Lemma step_main B d e : event_ok e -> ~ resets C d e -> B + 1 < 2 ^ 64 -> inv B [] (d_log d) d ->
    still d (snd (step C O d e)) \/
    exists up, consensus_upload d e up /\ uo_ok up /\ moved d (uo_data up) (snd (step C O d e)) /\
      (fst (step C O d e) = ADied \/ raised (uo_data up) d (Ok tt, snd (step C O d e))).
  Proof.
    intros He Hr HB V. assert (W := inv_wf _ _ _ _ V).
    assert (S0 : still d d) by (intros v Nv R; exact R).
    assert (DU : forall f, (forall v room, ~ resets C d e -> d_ui d = Some v ->
        wf_wear B (d_main (snd (f v room (set_ui None d)))) /\ still d (snd (f v room (set_ui None d)))) ->
      still d (snd (decide C f d))).
    { intros f Hf. unfold decide. destruct (d_ui d) as [v|] eqn:U; [|exact S0].
      set (room := match cf_room C v with Some r => r | None => 0 end).
      specialize (Hf v room Hr eq_refl). destruct Hf as [W1 S1].
      apply (finish_still B); unfold bind;
        destruct (f v room (set_ui None d)) as [[]]; auto. }
    destruct e as [buf rx| | | |]; cbn [step].
    - cbn [event_ok resets] in He, Hr.
      destruct (d_ui d) eqn:Ui; [left; exact S0|].
      destruct (apdu_read_ok buf rx) eqn:Rx; [|left; now apply (finish_still B)].
      destruct (dispatch_kinds C O buf) as [(Cb & E0 & E1 & ->)|[(Cb & E0 & E1 & sh & ->)|[(E0 & sh & ->)|[K _]]]].
      + assert (Short : ~ 4 <= nth 4 buf 0).
        { intros X. apply Hr. unfold command, apdu_read_ok, len in *. destruct He as [He _].
          rewrite He in Rx. repeat split; auto; lia. }
        left. rewrite h_reset_short by assumption. now apply (finish_still B).
      + destruct (upload_moves B (B + 1) AccBaking buf (baker_sign C O sh) d He V ltac:(lia)) with (room := len buf)
          as [[S _]|(up & u & s & Eu & Xr & M & R)].
        * intros up d' Uo V'.
          destruct (baker_moves B sh up d' Uo (inv_wf _ _ _ _ V') (inv_faults _ _ _ _ V') HB).
          split; [|auto].
          pose proof (baker_sign_inv C O B [] (d_log d') sh up d' HB Uo V') as X.
          destruct (baker_sign C O sh up d') as [[]]; apply X.
        * left. exact S.
        * right. exists up. split; [|auto]. split; [exact Cb|].
          exists buf, rx, (nth 1 buf 0), u, s. split; [reflexivity|]. split; [|auto].
          unfold command, apdu_read_ok, len in *. destruct He as [He _].
          rewrite He in Rx. repeat split; auto; lia.
      + left. destruct (keeps_still (eff_with_up eff_sign) (h_sign C O sh buf) B d (fun x => x)
          (keeps_h_sign C O sh buf) W) as [W1 S1]. now apply (finish_still B).
      + left. destruct (keeps_still (eff_other C buf) (dispatch C O buf) B d (fun x => x) K W) as [W1 S1].
        now apply (finish_still B).
    - left. apply DU. intros v room Hr' U. cbn [resets] in Hr'. rewrite U in Hr'.
      destruct (keeps_still (eff_accept v) (accept O v room) B (set_ui None d)) as [W1 S1].
      + destruct v; cbn; try tauto; discriminate.
      + apply keeps_accept.
      + destruct d; exact W.
      + split; [exact W1|]. destruct d; exact S1.
    - left. apply DU. intros v room _ U. destruct v; destruct d; split; auto.
    - left. apply DU. intros v room _ U. destruct d; split; auto.
    - left. now apply (still_restart B).
  Qed.

  (** ** Everything readable in a slot is a proper payload *)

  Definition good_page (p : page) : Prop := forall c pl, from_storage p = Some (c, pl) -> payload_ok pl.
  Definition good_pages (_ : N) (w : wear) : Prop :=
    (0 < length (w_pages w))%nat /\ Forall good_page (w_pages w).

  Lemma good_slot_page c pl : c < 2 ^ 64 -> payload_ok pl -> good_page (slot_page c pl).
  Proof. intros Hc Hp c' pl' E. rewrite from_storage_slot_page in E by assumption. now inversion E; subst. Qed.
  Lemma good_zeroed : good_page ZEROED_STORAGE.
  Proof.
    intros c pl E. rewrite zeroed_storage_valid in E. inversion E; subst.
    split; [reflexivity|apply zeros_ok].
  Qed.
  Lemma Forall_upd {A} (P : A -> Prop) i x l : Forall P l -> P x -> Forall P (upd i x l).
  Proof.
    revert i. induction l as [|h t IH]; intros i F Hx; destruct i; cbn [upd]; auto; inversion F; subst; auto.
  Qed.
  Lemma good_write B w k pl f : good_pages B w -> B + 1 < 2 ^ 64 -> payload_ok pl -> slot_fault_ok f ->
    wear_init w = Some k ->
    let (w1, r) := wear_write_at w k pl f in
    good_pages (B + 1) (match r with WLost => wear_restart w1 | _ => w1 end).
  Proof.
    intros [L G] _ Hp Hf _. unfold wear_write_at.
    set (k' := (k + 1) mod 2 ^ 64). assert (Hk : k' < 2 ^ 64) by (apply N.mod_lt; discriminate).
    set (old := nth (page_no w k') (w_pages w) []).
    assert (Go : good_page old).
    { rewrite Forall_forall in G. apply G, nth_In. now apply page_no_lt. }
    assert (X : good_pages (B + 1) (mkWear (upd (page_no w k') (fault_page old (slot_page k' pl) f) (w_pages w)) (Some k'))).
    { split; cbn [w_pages]; [now rewrite upd_length|]. apply Forall_upd; [exact G|].
      assert (Gn := good_slot_page k' pl Hk Hp).
      destruct f as [|[| |p]|[| |p]]; cbn in *; auto; intros c pl' E; [destruct Hf|]; congruence. }
    destruct (fault_res f); exact X.
  Qed.

  Lemma reach_good f u es : Forall slot_fault_ok f -> Forall up_fault_ok u -> Forall event_ok es ->
    len es < 2 ^ 64 -> forall s p, wear_reads (get_slot s (snd (run C O (dev_fresh f u) es))) p -> payload_ok p.
  Proof.
    intros F U E L s p R.
    assert (D : dok good_pages slot_fault_ok (fun _ => len es) (snd (run C O (dev_fresh f u) es))).
    { apply (run_dok C O good_pages slot_fault_ok) with (es := es) (B := 0); auto.
      - intros B w w' [Wp _] [L1 G1]. unfold good_pages. rewrite Wp. auto.
      - intros. now apply good_write.
      - exact Logic.I.
      - apply dok_fresh; auto. intros n Hn. split; cbn [w_pages wear_fresh]; [now rewrite repeat_length|].
        apply Forall_forall. intros q Hq. apply repeat_spec in Hq as ->. apply good_zeroed. }
    destruct (dok_wf _ _ _ _ D s) as [L1 G1].
    unfold wear_reads, wear_read in R. destruct (wear_init _) as [k|]; [|discriminate].
    injection R as R. unfold wear_read_at in R.
    destruct (from_storage _) as [[c pl]|] eqn:Fs; [|discriminate].
    destruct (c =? 0); [discriminate|]. injection R as ->.
    rewrite Forall_forall in G1. eapply G1; [|exact Fs]. apply nth_In. now apply page_no_lt.
  Qed.

  (** ** Reported levels *)

  Lemma payload_level p : payload_ok p -> wm_level (wm_parse p) < 2 ^ 32.
  Proof.
    intros [L B]. pose proof (wm_parse_ok p B L) as W. destruct (wm_parse p); cbn in *; tauto.
  Qed.
  Lemma level_pos w : wm_level w = cpos_level (wm_pos w).
  Proof. destruct w; reflexivity. Qed.
  Lemma signed_level g q : bytes_ok g -> signed_pos g = Some q -> cpos_level q < 2 ^ 32.
  Proof.
    intros B E. assert (exists w, wm_pos w = q) as [w <-].
    { destruct q as [l e|l r k]; [now exists (WEmmy l e)|].
      exists (WTenderbake l (match k with KEnd => true | _ => false end) r (match k with KPre => true | _ => false end)).
      now destruct k. }
    apply (signed_pos_wm_ok g w B) in E. destruct w; cbn in *; tauto.
  Qed.

  Lemma reports_read d L : (forall p, wear_reads (d_main d) p -> payload_ok p) -> reports C O d L ->
    cf_baking C = true /\
    ((exists p, wear_reads (d_main d) p /\ L = wm_level (wm_parse p)) \/
     (wear_read (d_main d) = Some RUninit /\ L = 2 ^ 32 - 1)).
  Proof.
    intros G (HL & buf & rx & Hb & Hc & A).
    destruct (cf_baking C) eqn:Cb.
    2: { rewrite (step_command d buf rx 0x08 Hb Hc) in A. destruct Hc as (_ & _ & E0 & E1).
         rewrite (dispatch_at buf 0x08 E0 E1), Cb in A. cbn in A. discriminate A. }
    split; [reflexivity|]. rewrite (main_hwm_answer d buf rx Cb Hb Hc) in A.
    assert (Inj : forall x, x < 2 ^ 32 -> AReply (be 4 x ++ [144; 0]) = AReply (be 4 L ++ [144; 0]) -> L = x).
    { intros x Hx E. assert (E2 : be 4 x ++ [144; 0] = be 4 L ++ [144; 0]) by congruence. clear E.
      apply app_inv_tail in E2.
      apply (f_equal unbe) in E2. rewrite !unbe_be_small in E2 by assumption. auto. }
    destruct (wear_read (d_main d)) as [[p| |]|] eqn:R; try discriminate A.
    - left. exists p. split; [exact R|]. apply Inj; [apply payload_level, G; exact R|exact A].
    - right. split; [reflexivity|]. apply Inj; [lia|exact A].
  Qed.

  (** Without a reset nothing becomes readable. *)
  Lemma run_reads_back es : forall B d, Forall event_ok es -> no_reset C O d es -> B + len es < 2 ^ 64 ->
    inv B [] (d_log d) d -> forall p', wear_reads (d_main (snd (run C O d es))) p' ->
    exists p, wear_reads (d_main d) p.
  Proof.
    induction es as [|e es IH]; intros B d He Hr HB V p' R; [cbn in R; eauto|].
    inversion He; subst. destruct Hr as [R1 R2]. cbn [run] in R.
    assert (len (e :: es) = 1 + len es) as E by (unfold len; cbn [length]; lia). rewrite E in *.
    pose proof (step_main B d e H1 R1 ltac:(lia) V) as S.
    pose proof (step_inv C O B [] (d_log d) d e H1 R1 ltac:(lia) V) as V1.
    destruct (step C O d e) as [a d1]. cbn [fst snd] in *.
    assert (V1' : inv (B + 1) [] (d_log d1) d1).
    { destruct V1 as [A1 A2 A3 A4 _]. constructor; auto. exists [], []. repeat split; auto; constructor. }
    destruct (IH (B + 1) d1 H2 R2 ltac:(lia) V1' p') as [p P]; [destruct (run C O d1 es); exact R|].
    destruct S as [S|(up & _ & _ & M & _)].
    { exists p. apply S; [discriminate|exact P]. }
    destruct (M (RData p) ltac:(discriminate) P) as [[X _]|(p2 & _ & wm & q & _ & _ & _ & X & _)];
      [exists p; exact X|eauto].
  Qed.

  Lemma with_upload_bytes a buf d up u s : apdu_ok buf -> up_bytes (d_up d) -> Forall up_fault_ok (d_ufaults d) ->
    upload a buf (d_up d) (d_ufaults d) = (Ok (Some up), u, s) -> uo_ok up.
  Proof.
    intros Hb Hu Hf E. pose proof (upload_bytes a buf (d_up d) (d_ufaults d) Hb Hu Hf) as X.
    rewrite E in X. apply X.
  Qed.

  (** After a consensus signature the main slot reads as the watermark of the message. *)
  Lemma step_signed B d e g : event_ok e -> B + 1 < 2 ^ 64 -> inv B [] (d_log d) d -> ui_ok O d ->
    d_log (snd (step C O d e)) = g :: d_log d -> is_consensus g = true -> fst (step C O d e) <> ADied ->
    cf_baking C = true /\
    exists wm, wear_reads (d_main (snd (step C O d e))) (wm_serialize wm) /\
      signed_pos (sg_data g) = Some (wm_pos wm) /\ wm_ok wm.
  Proof.
    intros He HB V U Hl Hc Ha.
    destruct (step_signs C O d e He U) as [L|(g' & L & Sc & _)].
    { exfalso. rewrite L in Hl. apply (f_equal (@length sigrec)) in Hl. cbn in Hl. lia. }
    assert (g' = g) as -> by congruence. clear L.
    assert (Es : sg_src g = SrcConsensus) by (unfold is_consensus in Hc; destruct (sg_src g); congruence).
    unfold sig_cause in Sc. rewrite Es in Sc.
    destruct Sc as (Cb & _ & buf & rx & ins & up & u & s & -> & Hcm & Hin & Eu & Ed & _).
    split; [exact Cb|]. cbn [event_ok] in He.
    rewrite (step_command d buf rx ins He Hcm) in *.
    assert (Log : d_log (snd (dispatch C O buf d)) = g :: d_log d) by (rewrite <- Hl; symmetry; apply finish_log).
    destruct Hcm as (_ & _ & E0 & E1).
    destruct (dispatch_kinds C O buf) as [(_ & _ & E1' & Ed')|[(_ & _ & _ & sh & Ed')|[(_ & sh & Ed')|[K _]]]].
    - exfalso. rewrite E1 in E1'. subst ins. cbn in Hin. lia.
    - rewrite Ed' in *.
      destruct (upload_moves B (B + 1) AccBaking buf (baker_sign C O sh) d He V ltac:(lia)) with (room := 260)
          as [[_ S]|(up' & u' & s' & Eu' & Xr & _ & R)].
      + intros up' d' Uo V'.
        destruct (baker_moves B sh up' d' Uo (inv_wf _ _ _ _ V') (inv_faults _ _ _ _ V') HB).
        split; [|auto].
        pose proof (baker_sign_inv C O B [] (d_log d') sh up' d' HB Uo V') as X.
        destruct (baker_sign C O sh up' d') as [[]]; apply X.
      + exfalso. unfold h_baker_sign in *. rewrite S in Hl.
        apply (f_equal (@length sigrec)) in Hl. cbn in Hl. lia.
      + assert (up' = up) as -> by congruence.
        destruct R as [R|R]; [contradiction|]. rewrite Ed in R. apply R. cbn [snd].
        unfold h_baker_sign in Hl. rewrite Hl. intros X.
        apply (f_equal (@length sigrec)) in X. cbn in X. lia.
    - exfalso. rewrite Ed' in Log.
      rewrite (frame_log_none (eff_with_up eff_sign) _ _ (fun g x => x) (keeps_h_sign C O sh buf d)) in Log.
      apply (f_equal (@length sigrec)) in Log. cbn in Log. lia.
    - exfalso. destruct (fr_log _ _ _ (K d)) as (l & El & Fl). rewrite Log in El.
      destruct l as [|g' l]; [apply (f_equal (@length sigrec)) in El; cbn in El; lia|].
      injection El as -> _. inversion Fl; subst. cbn in H1. destruct H1. congruence.
  Qed.

  (** ** Refused baking requests *)

  Lemma dispatch_baker buf ins : cf_baking C = true -> nth 0 buf 0 = 0x80 -> nth 1 buf 0 = ins ->
    In ins [0x04; 0x0F; 0xAF] -> dispatch C O buf = h_baker_sign C O (negb (ins =? 4)) buf.
  Proof.
    intros Cb E0 E1 Hi. rewrite (dispatch_at buf ins E0 E1), Cb. cbn [In] in Hi.
    unfold dispatch_common. rewrite Cb. destruct Hi as [<-|[<-|[<-|[]]]]; reflexivity.
  Qed.

  Lemma untouched_frame d d' : frame eff_none d d' -> untouched d d'.
  Proof.
    intros F. split; [exact (frame_log_none eff_none _ _ (fun g x => x) F)|].
    intros s. apply weq_read. exact (fr_slot _ _ _ F s (fun x => x)).
  Qed.

  Lemma baker_step_err d buf rx up e : completes C d buf rx up ->
    (forall sh d1, d_key d1 = d_key d ->
      exists d2, baker_sign C O sh up d1 = (Err e, d2) /\ frame eff_none d1 d2) ->
    fst (step C O d (EApdu buf rx)) = AReply (be 2 (sw e)) /\
    untouched d (snd (step C O d (EApdu buf rx))).
  Proof.
    intros (Cb & Hb & ins & u & s & Hc & Hi & Eu) H.
    rewrite (step_command d buf rx ins Hb Hc). destruct Hc as (_ & _ & E0 & E1).
    rewrite (dispatch_baker buf ins Cb E0 E1 Hi). unfold h_baker_sign, with_upload, the_upload, bind, drop_upload.
    rewrite Eu. set (d1 := set_up u (set_ufaults s d)).
    destruct (H (negb (ins =? 4)) d1) as (d2 & E2 & F2); [destruct d; reflexivity|].
    rewrite E2. unfold fail. rewrite finish_err. cbn [fst snd]. split; [reflexivity|].
    destruct (untouched_frame _ _ F2) as [L2 S2].
    assert (L1 : d_log d1 = d_log d) by (destruct d; reflexivity).
    assert (S1 : forall s0, get_slot s0 d1 = get_slot s0 d) by (destruct d, s0; reflexivity).
    split.
    - rewrite <- L1, <- L2. destruct d2; reflexivity.
    - intros s0. rewrite <- S1, <- S2. destruct d2, s0; reflexivity.
  Qed.

  (** The stored key as the code reads it. *)
  Lemma check_stored_result k d :
    frame eff_none d (snd (check_with_stored k d)) /\
    fst (check_with_stored k d) =
    match wear_read (d_key d) with
    | None => Panic
    | Some (RData p) =>
      match key_parse p with
      | AOk (Some k') => Ok (key_eqb k' k)
      | AOk None => Err ConditionsNotSatisfied
      | AErr e => Err e
      end
    | _ => Err ConditionsNotSatisfied
    end.
  Proof.
    split; [apply keeps_check_with_stored|].
    unfold check_with_stored, read_or, read_slot, bind, wear_read. cbn [get_slot].
    destruct (wear_init (d_key d)) as [i|]; [|reflexivity].
    destruct (wear_read_at (d_key d) i) as [p| |]; try reflexivity.
    unfold ret. destruct (key_parse p) as [[k'|]|]; reflexivity.
  Qed.

  Lemma baker_key_refused sh up d c pa e : curve_of_byte (uo_p2 up) = Some c ->
    path_read BIP32_MAX_LENGTH (uo_first up) = Some pa ->
    match wear_read (d_key d) with
    | None => False
    | Some (RData p) =>
      match key_parse p with
      | AOk (Some k) => k <> (c, pa) /\ e = DataInvalid
      | AOk None => e = ConditionsNotSatisfied
      | AErr e' => e = e'
      end
    | _ => e = ConditionsNotSatisfied
    end ->
    exists d2, baker_sign C O sh up d = (Err e, d2) /\ frame eff_none d d2.
  Proof.
    intros Ec Ep H. unfold baker_sign, bind. rewrite Ec, Ep. cbn [of_option ret].
    unfold ret. destruct (check_stored_result (c, pa) d) as [F R].
    destruct (check_with_stored (c, pa) d) as [r d1]. cbn [fst snd] in *.
    exists d1. split; [|exact F]. subst r.
    destruct (wear_read (d_key d)) as [[p| |]|]; try contradiction; try (subst e; reflexivity).
    destruct (key_parse p) as [[k|]|]; try (subst e; reflexivity).
    destruct H as [N ->]. destruct (key_eqb k (c, pa)) eqn:Q; [apply key_eqb_eq in Q; contradiction|].
    reflexivity.
  Qed.

  Lemma no_key_refused d buf rx up c pa : completes C d buf rx up ->
    curve_of_byte (uo_p2 up) = Some c -> path_read BIP32_MAX_LENGTH (uo_first up) = Some pa ->
    no_key d ->
    fst (step C O d (EApdu buf rx)) = AReply [0x69; 0x85] /\
    untouched d (snd (step C O d (EApdu buf rx))).
  Proof.
    intros Hc Ec Ep N. apply (baker_step_err d buf rx up ConditionsNotSatisfied Hc).
    intros sh d1 E. apply (baker_key_refused sh up d1 c pa); auto. rewrite E. unfold no_key in N.
    destruct (wear_read (d_key d)) as [[p| |]|]; auto. unfold key_parse. now rewrite N.
  Qed.
  Lemma other_key_refused d buf rx up c pa k : completes C d buf rx up ->
    curve_of_byte (uo_p2 up) = Some c -> path_read BIP32_MAX_LENGTH (uo_first up) = Some pa ->
    stored_key d k -> k <> (c, pa) ->
    fst (step C O d (EApdu buf rx)) = AReply [0x69; 0x84] /\
    untouched d (snd (step C O d (EApdu buf rx))).
  Proof.
    intros Hc Ec Ep (p & K1 & K2) N. apply (baker_step_err d buf rx up DataInvalid Hc).
    intros sh d1 E. apply (baker_key_refused sh up d1 c pa); auto. rewrite E, K1, K2. auto.
  Qed.
  Lemma bad_key_refused d buf rx up : completes C d buf rx up ->
    curve_of_byte (uo_p2 up) = None \/ path_read BIP32_MAX_LENGTH (uo_first up) = None ->
    (fst (step C O d (EApdu buf rx)) = AReply [0x6B; 0x00] \/
     fst (step C O d (EApdu buf rx)) = AReply [0x69; 0x84]) /\
    untouched d (snd (step C O d (EApdu buf rx))).
  Proof.
    intros Hc H. destruct (curve_of_byte (uo_p2 up)) as [c|] eqn:Ec.
    - destruct H as [H|H]; [discriminate|].
      destruct (baker_step_err d buf rx up DataInvalid Hc) as [A U]; [|auto].
      intros sh d1 E. exists d1. split; [|apply frame_refl].
      unfold baker_sign, bind. rewrite Ec, H. reflexivity.
    - destruct (baker_step_err d buf rx up InvalidP1P2 Hc) as [A U]; [|auto].
      intros sh d1 E. exists d1. split; [|apply frame_refl].
      unfold baker_sign, bind. now rewrite Ec.
  Qed.

End Answers.
