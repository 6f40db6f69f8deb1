(** The statements of [PropsConsensus] in final form, and their cases. *)
From Coq Require Import List NArith ZArith Lia Bool Arith Sorted ZifyBool ZifyNat ZifyN.
From Verif Require Import Base BaseFacts Flash FlashFacts Codecs CodecsSpec CodecsFacts
  Upload UploadSpec UploadFacts UploadExamples Baking BakingSpec BakingFacts BakingExamples
  Operations Oracles Address AddressExamples
  Device DeviceSpec DeviceFacts DeviceProofs DeviceConsensus DeviceSigs DeviceAnswers DeviceDemo.
Import ListNotations.
Open Scope N_scope.

Lemma sound_consensus O g p : sig_sound O g -> signed_pos (sg_data g) = Some p -> is_consensus g = true.
Proof.
  unfold sig_sound, is_consensus. destruct (sg_src g); auto; intros S P; exfalso.
  - destruct S as [_ S]. destruct (sg_data g) as [|b l]; [discriminate|]. injection S as ->. discriminate.
  - destruct S as [_ S]. destruct (sg_data g) as [|b l]; [discriminate|].
    destruct S as [S|S]; injection S as ->; discriminate.
  - destruct S as [_ S]. rewrite S in P. discriminate.
Qed.

Section Histories.
  Variables (C : config) (O : oracles) (f u : list fault) (es1 es2 : list event).
  Variables (d1 d2 : dev) (l : list sigrec).
  Hypothesis S : segment C O f u es1 es2 d1 d2 l.

  Lemma segment_sound g : In g l -> sig_sound O g.
  Proof.
    intros Hg. destruct S as [F U E L E1 E2 R Hl]. apply Forall_app in E as [Ea Eb].
    rewrite <- E2 in Hl. assert (V := reach_ui C O f u es1 Ea). rewrite E1 in V.
    destruct (history_signs C O es2 d1 l Eb V Hl g Hg) as (a & e & b & _ & _ & X & _).
    exact X.
  Qed.

  Lemma signed_once i j g h p : i <> j -> nth_error l i = Some g -> nth_error l j = Some h ->
    signed_pos (sg_data g) = Some p -> signed_pos (sg_data h) <> Some p.
  Proof.
    intros N Hi Hj P Q.
    assert (Sg := segment_sound g (nth_error_In _ _ Hi)).
    assert (Sh := segment_sound h (nth_error_In _ _ Hj)).
    destruct S as [F U E L E1 E2 R Hl]. rewrite <- E1, <- ?E2 in *.
    apply (no_conflict C O f u es1 es2 F U E L R l i j g h Hl N Hi Hj
             (sound_consensus _ _ _ Sg P) (sound_consensus _ _ _ Sh Q)).
    exists p. auto.
  Qed.

  Lemma no_double_baking i j g h level round : i <> j ->
    nth_error l i = Some g -> nth_error l j = Some h ->
    ~ (signed_pos (sg_data g) = Some (PEmmy level false) /\ signed_pos (sg_data h) = Some (PEmmy level false)) /\
    ~ (signed_pos (sg_data g) = Some (PTB level round KBlock) /\
       signed_pos (sg_data h) = Some (PTB level round KBlock)).
  Proof. intros N Hi Hj. split; intros [P Q]; exact (signed_once i j g h _ N Hi Hj P Q). Qed.
  Lemma no_double_endorsing i j g h level round : i <> j ->
    nth_error l i = Some g -> nth_error l j = Some h ->
    ~ (signed_pos (sg_data g) = Some (PEmmy level true) /\ signed_pos (sg_data h) = Some (PEmmy level true)) /\
    ~ (signed_pos (sg_data g) = Some (PTB level round KEnd) /\
       signed_pos (sg_data h) = Some (PTB level round KEnd)) /\
    ~ (signed_pos (sg_data g) = Some (PTB level round KPre) /\
       signed_pos (sg_data h) = Some (PTB level round KPre)).
  Proof. intros N Hi Hj. split; [|split]; intros [P Q]; exact (signed_once i j g h _ N Hi Hj P Q). Qed.

  Lemma signed_in_order i j g h p q : (i < j)%nat ->
    nth_error l i = Some g -> nth_error l j = Some h ->
    signed_pos (sg_data g) = Some p -> signed_pos (sg_data h) = Some q -> cpos_lt p q.
  Proof.
    intros N Hi Hj P Q.
    assert (Sg := segment_sound g (nth_error_In _ _ Hi)).
    assert (Sh := segment_sound h (nth_error_In _ _ Hj)).
    destruct S as [F U E L E1 E2 R Hl]. rewrite <- E1, <- ?E2 in *.
    destruct (pairs_ordered C O f u es1 es2 F U E L R l i j g h Hl N Hi Hj
             (sound_consensus _ _ _ Sg P) (sound_consensus _ _ _ Sh Q)) as (a & b & A1 & A2 & A3).
    congruence.
  Qed.

  Lemma consensus_has_pos g : In g l -> is_consensus g = true -> exists q, signed_pos (sg_data g) = Some q.
  Proof.
    intros Hg Hc. pose proof (segment_sound g Hg) as X. unfold sig_sound, is_consensus in *.
    destruct (sg_src g); try discriminate. destruct X as (_ & _ & q & Q & _). eauto.
  Qed.

  Lemma positions_increase : increasing (consensus_positions l).
  Proof.
    destruct S as [F U E L E1 E2 R Hl]. rewrite <- E1 in *. rewrite <- E2 in Hl.
    destruct (consensus_ordered C O f u es1 es2 F U E L R) as (l' & Hl' & X).
    assert (l = l') as ->; [|exact X].
    unfold signed_between in *. rewrite Hl in Hl'.
    apply app_inv_tail in Hl'. apply (f_equal (@rev sigrec)) in Hl'. now rewrite !rev_involutive in Hl'.
  Qed.

  Lemma no_emmy_later i j g h level round kind : (i < j)%nat ->
    nth_error l i = Some g -> nth_error l j = Some h ->
    signed_pos (sg_data g) = Some (PTB level round kind) ->
    forall level' endo, signed_pos (sg_data h) <> Some (PEmmy level' endo).
  Proof. intros N Hi Hj P level' endo Q. exact (signed_in_order i j g h _ _ N Hi Hj P Q). Qed.

  Lemma levels_valid g q : In g l -> signed_pos (sg_data g) = Some q -> cpos_level q < 2 ^ 31.
  Proof.
    intros Hg Q. pose proof (segment_sound g Hg) as X.
    pose proof (sound_consensus O g q X Q) as Hc. unfold sig_sound, is_consensus in *.
    destruct (sg_src g); try discriminate. destruct X as (_ & _ & q' & Q' & Lv). congruence.
  Qed.

  Lemma reads_good p : wear_reads (d_main d2) p -> payload_ok p.
  Proof.
    destruct S as [F U E L E1 E2 R Hl]. rewrite <- E2, <- E1, <- run_app. intros H.
    exact (reach_good C O f u (es1 ++ es2) F U E L SMain p H).
  Qed.
  Lemma reads_good1 p : wear_reads (d_main d1) p -> payload_ok p.
  Proof.
    destruct S as [F U E L E1 E2 R Hl]. apply Forall_app in E as [Ea Eb]. rewrite len_app in L.
    rewrite <- E1. intros H. exact (reach_good C O f u es1 F U Ea ltac:(lia) SMain p H).
  Qed.

  (** What QUERY_MAIN_HWM reports covers everything signed. *)
  Lemma report_covers L g q : reports C O d2 L -> In g l -> signed_pos (sg_data g) = Some q ->
    cpos_level q <= L \/
    (~ is_tenderbake q /\ tenderbake_mark d2).
  Proof.
    intros Rp Hg Q. assert (Sg := segment_sound g Hg). assert (Lq := levels_valid g q Hg Q).
    destruct (reports_read C O d2 L reads_good Rp) as [_ [(p & Rd & ->)|(_ & ->)]]; [|left; lia].
    destruct S as [F U E Ls E1 E2 R Hl]. rewrite <- E1, <- ?E2 in *.
    destruct (watermark_covers C O f u es1 es2 F U E Ls R l g p Hl Hg (sound_consensus _ _ _ Sg Q) Rd)
      as (q' & Q' & [Le|Lt]); assert (q' = q) as -> by congruence.
    - left. rewrite level_pos, <- Le. lia.
    - rewrite level_pos. destruct q as [lv en|lv rd k], (wm_pos (wm_parse p)) as [lv' en'|lv' rd' k'] eqn:W;
        cbn [cpos_lt cpos_level] in *; try contradiction; try (left; lia).
      right. split; [cbn; tauto|]. exists p, lv', rd', k'. auto.
  Qed.

  (** Reported levels do not decrease, except when the watermark turns from Emmy to
      Tenderbake. *)
  Lemma report_monotone L1 L2 : reports C O d1 L1 -> reports C O d2 L2 ->
    L1 <= L2 \/ (emmy_mark d1 /\ tenderbake_mark d2).
  Proof.
    intros Q1 Q2.
    destruct (reports_read C O d1 L1 reads_good1 Q1) as [_ X1].
    destruct (reports_read C O d2 L2 reads_good Q2) as [_ X2].
    assert (B1 : L1 <= 2 ^ 32 - 1) by (destruct Q1 as [Q1 _]; lia).
    destruct X2 as [(p2 & R2 & ->)|(R2 & ->)]; [|left; exact B1].
    destruct S as [F U E Ls E1 E2 R Hl].
    assert (V1 : inv (len es1) [] (d_log d1) d1).
    { apply Forall_app in E as [Ea Eb]. rewrite len_app in Ls. rewrite <- E1.
      apply inv_of_dok; [|auto]. apply reach_dok; auto. lia. }
    destruct X1 as [(p1 & R1 & ->)|(R1 & ->)].
    - pose proof R1 as R1'. pose proof R2 as R2'. rewrite <- E1 in R, R1'. rewrite <- E2, <- E1 in R2'.
      pose proof (watermark_monotone C O f u es1 es2 F U E Ls R p1 p2 R1' R2') as M.
      rewrite !level_pos. destruct M as [M|M]; [rewrite M; left; lia|].
      destruct (wm_pos (wm_parse p1)) as [lv en|lv rd k] eqn:W1,
               (wm_pos (wm_parse p2)) as [lv' en'|lv' rd' k'] eqn:W2;
        cbn [cpos_lt cpos_level] in *; try contradiction; try (left; lia).
      right. split; [exists p1, lv, en|exists p2, lv', rd', k']; auto.
    - exfalso. apply Forall_app in E as [Ea Eb]. rewrite len_app in Ls. rewrite <- E2 in R2.
      destruct (run_reads_back C O es2 (len es1) d1 Eb R ltac:(lia) V1 p2 R2) as [p1 P1].
      unfold wear_reads in P1. congruence.
  Qed.

  (** One more event: the reported level changes only to that of the message just
      uploaded, and only upwards in the consensus order. *)
  Lemma report_moves e L1 L2 : event_ok e -> ~ resets C d2 e -> len es1 + len es2 + 1 < 2 ^ 64 ->
    reports C O d2 L1 -> reports C O (snd (step C O d2 e)) L2 ->
    L2 = L1 \/ exists q, offered C d2 e q /\ L2 = cpos_level q /\ (L1 <= L2 \/ is_tenderbake q).
  Proof.
    intros He Hr Hn Q1 Q2. destruct S as [F U E Ls E1 E2 R Hl].
    assert (E2' : d2 = snd (run C O (dev_fresh f u) (es1 ++ es2))) by (rewrite run_app, E1; now symmetry).
    assert (G2 : forall p, wear_reads (d_main (snd (step C O d2 e))) p -> payload_ok p).
    { rewrite E2', <- run_one, <- run_app. intros p H.
      refine (reach_good C O f u ((es1 ++ es2) ++ [e]) F U _ _ SMain p H).
      - apply Forall_app. auto.
      - rewrite !len_app. exact Hn. }
    assert (V : inv (len (es1 ++ es2)) [] (d_log d2) d2).
    { rewrite E2'. apply inv_of_dok; [|auto]. now apply reach_dok. }
    destruct (reports_read C O d2 L1 reads_good Q1) as [Cb X1].
    destruct (reports_read C O _ L2 G2 Q2) as [_ X2].
    assert (HB : len (es1 ++ es2) + 1 < 2 ^ 64) by (rewrite len_app; lia).
    destruct X2 as [(p2 & R2 & ->)|(R2 & ->)].
    - destruct (step_main C O (len (es1 ++ es2)) d2 e He Hr HB V) as [St|(up & Cu & Uo & M & _)].
      + specialize (St (RData p2) ltac:(discriminate) R2). destruct X1 as [(p1 & R1 & ->)|(R1 & ->)].
        * left. unfold wear_reads in *. congruence.
        * unfold wear_reads in St. congruence.
      + destruct (M (RData p2) ltac:(discriminate) R2) as [[St _]|(p3 & E3 & wm & p & E4 & Sp & Wo & Rp & Lt)];
          [|injection E3 as <-; subst p2].
        * destruct X1 as [(p1 & R1 & ->)|(R1 & ->)]; unfold wear_reads in *; [left|]; congruence.
        * right. rewrite (wm_round wm Wo). exists (wm_pos wm).
          destruct Cu as (_ & buf & rx & ins & u' & s' & -> & C1 & C2 & C3).
          split; [|split].
          -- split; [exact Cb|]. exists buf, rx, ins, up, u', s'. auto 8.
          -- apply level_pos.
          -- destruct X1 as [(p1 & R1 & ->)|(R1 & ->)]; [|unfold wear_reads in Rp; congruence].
             assert (p1 = p) as -> by (unfold wear_reads in *; congruence).
             rewrite !level_pos. destruct (wm_pos (wm_parse p)), (wm_pos wm); cbn [cpos_lt cpos_level is_tenderbake] in *;
               try contradiction; auto; left; lia.
    - destruct (step_main C O (len (es1 ++ es2)) d2 e He Hr HB V) as [St|(up & Cu & Uo & M & _)].
      + specialize (St RUninit ltac:(discriminate) R2).
        destruct X1 as [(p1 & R1 & ->)|(R1 & ->)]; [unfold wear_reads in R1; congruence|auto].
      + destruct (M RUninit ltac:(discriminate) R2) as [[St _]|(p3 & E3 & _)]; [|discriminate].
        destruct X1 as [(p1 & R1 & ->)|(R1 & ->)]; [unfold wear_reads in R1; congruence|auto].
  Qed.

  (** Right after a consensus signature exactly its level is reported. *)
  Lemma report_signed e g q buf rx : event_ok e -> len es1 + len es2 + 1 < 2 ^ 64 ->
    d_log (snd (step C O d2 e)) = g :: d_log d2 -> signed_pos (sg_data g) = Some q ->
    fst (step C O d2 e) <> ADied ->
    apdu_ok buf -> command (snd (step C O d2 e)) buf rx 0x08 ->
    fst (step C O (snd (step C O d2 e)) (EApdu buf rx)) = AReply (be 4 (cpos_level q) ++ [0x90; 0]).
  Proof.
    intros He Hn Hl Q Ha Hb Hc. destruct S as [F U E Ls E1 E2 R _].
    assert (E2' : d2 = snd (run C O (dev_fresh f u) (es1 ++ es2))) by (rewrite run_app, E1; now symmetry).
    assert (V : inv (len (es1 ++ es2)) [] (d_log d2) d2).
    { rewrite E2'. apply inv_of_dok; [|auto]. now apply reach_dok. }
    assert (Ui : ui_ok O d2) by (rewrite E2'; now apply reach_ui).
    assert (Cg : is_consensus g = true).
    { destruct (step_signs C O d2 e He Ui) as [L|(g' & L & _ & Sd & _)].
      - rewrite L in Hl. apply (f_equal (@length sigrec)) in Hl. cbn in Hl. lia.
      - assert (g' = g) as -> by congruence. now apply (sound_consensus O g q). }
    destruct (step_signed C O (len (es1 ++ es2)) d2 e g He ltac:(rewrite len_app; lia) V Ui Hl Cg Ha)
      as (Cb & wm & Rd & Sp & Wo).
    rewrite (main_hwm_answer C O _ buf rx Cb Hb Hc). unfold wear_reads in Rd. rewrite Rd.
    assert (q = wm_pos wm) as -> by congruence. now rewrite wm_round, level_pos.
  Qed.
End Histories.

(** ** Reviewed signatures *)

Section Reviews.
  Variables (C : config) (O : oracles).

  Lemma history_sound f u es g : Forall event_ok es ->
    In g (d_log (snd (run C O (dev_fresh f u) es))) ->
    sig_sound O g /\ exists es1 e es2, es = es1 ++ e :: es2 /\
      let d := snd (run C O (dev_fresh f u) es1) in
      sig_cause C d e g /\ sig_answer O g (fst (step C O d e)) /\
      d_log (snd (step C O d e)) = g :: d_log d.
  Proof.
    intros He Hg.
    assert (Hl : signed_between (dev_fresh f u) (snd (run C O (dev_fresh f u) es))
                   (rev (d_log (snd (run C O (dev_fresh f u) es))))).
    { unfold signed_between. rewrite rev_involutive. cbn [d_log dev_fresh]. now rewrite app_nil_r. }
    apply in_rev in Hg.
    destruct (history_signs C O es (dev_fresh f u) _ He (ui_fresh O f u) Hl g Hg)
      as (a & e & b & X1 & X2 & X3 & X4 & X5).
    split; [exact X3|]. exists a, e, b. auto.
  Qed.

  Lemma consensus_key f u es g : Forall event_ok es ->
    In g (d_log (snd (run C O (dev_fresh f u) es))) -> is_consensus g = true ->
    o_blake2b O 32 (sg_data g) = Some (sg_digest g) /\
    exists es1 buf rx es2 ins up u' s, es = es1 ++ EApdu buf rx :: es2 /\
      let d := snd (run C O (dev_fresh f u) es1) in
      cf_baking C = true /\ stored_key d (sg_key g) /\
      command d buf rx ins /\ In ins [0x04; 0x0F; 0xAF] /\
      upload AccBaking buf (d_up d) (d_ufaults d) = (Ok (Some up), u', s) /\
      uo_data up = sg_data g /\ curve_of_byte (uo_p2 up) = Some (fst (sg_key g)) /\
      path_read BIP32_MAX_LENGTH (uo_first up) = Some (snd (sg_key g)) /\
      sig_answer O g (fst (step C O d (EApdu buf rx))).
  Proof.
    intros He Hg Hc. destruct (history_sound f u es g He Hg) as (X & es1 & e & es2 & E & Y & Z & _).
    assert (Es : sg_src g = SrcConsensus) by (unfold is_consensus in Hc; destruct (sg_src g); congruence).
    unfold sig_sound in X. unfold sig_cause in Y. rewrite Es in X, Y. split; [apply X|].
    destruct Y as (Cb & Sk & buf & rx & ins & up & u' & s & -> & Y).
    exists es1, buf, rx, es2, ins, up, u', s. split; [exact E|]. cbv zeta. repeat split; try tauto; apply Y.
  Qed.

  Lemma signed_levels f u es g q : Forall event_ok es ->
    In g (d_log (snd (run C O (dev_fresh f u) es))) -> signed_pos (sg_data g) = Some q -> cpos_level q < 2 ^ 31.
  Proof.
    intros He Hg Q. destruct (history_sound f u es g He Hg) as [X _].
    pose proof (sound_consensus O g q X Q) as Hc. unfold sig_sound, is_consensus in *.
    destruct (sg_src g); try discriminate. destruct X as (_ & _ & q' & Q' & Lv). congruence.
  Qed.

  Lemma reviewed_no_consensus f u es g : Forall event_ok es ->
    In g (d_log (snd (run C O (dev_fresh f u) es))) -> sg_src g <> SrcConsensus ->
    signed_pos (sg_data g) = None.
  Proof.
    intros He Hg N. destruct (history_sound f u es g He Hg) as [X _].
    destruct (signed_pos (sg_data g)) as [p|] eqn:P; [|reflexivity].
    apply (sound_consensus O g p X) in P. unfold is_consensus in P. destruct (sg_src g); congruence.
  Qed.

  Lemma sign_err d buf rx up e : completes_sign C d buf rx up ->
    (forall sh d1, exists p, start_sign C O sh up d1 = (Err e, set_path p d1)) ->
    fst (step C O d (EApdu buf rx)) = AReply (be 2 (sw e)) /\
    d_ui (snd (step C O d (EApdu buf rx))) = None /\
    untouched d (snd (step C O d (EApdu buf rx))).
  Proof.
    intros (Hb & ins & u & s & Hc & Hi & Eu) H.
    rewrite (step_command C O d buf rx ins Hb Hc). destruct Hc as (Hu & _ & E0 & E1).
    assert (exists sh, dispatch C O buf = h_sign C O sh buf) as [sh ->].
    { rewrite (dispatch_at C O buf ins E0 E1). unfold dispatch_common. destruct Hi as [->|[-> Hi]].
      - exists true. destruct (cf_baking C); reflexivity.
      - cbn [In] in Hi. destruct Hi as [<-|[<-|[<-|[]]]]; eexists; reflexivity. }
    unfold h_sign, with_upload, the_upload, bind, drop_upload. rewrite Eu.
    set (d1 := set_up u (set_ufaults s d)). destruct (H sh d1) as [p E2].
    rewrite E2. unfold fail. rewrite finish_err. cbn [fst snd]. split; [reflexivity|].
    split; [destruct d; exact Hu|]. split; [destruct d; reflexivity|].
    intros s0. destruct d, s0; reflexivity.
  Qed.

  Lemma preemble_cons b rest : b < 256 -> preemble_parse (b :: rest) =
    match preemble_of_byte b with Some p => POk rest p | None => PErr end.
  Proof.
    intros Hb. unfold preemble_parse, le_u8. pose proof (be_uint_app 1 b rest Hb) as H.
    change (be 1 b ++ rest) with (b mod 256 :: rest) in H. rewrite N.mod_small in H by exact Hb.
    change (N.of_nat 1) with 1 in H. now rewrite H.
  Qed.
  Lemma signed_pos_pre data q : signed_pos data = Some q ->
    exists rem p, preemble_parse data = POk rem p /\ p <> PreOperation /\ p <> PreMichelson.
  Proof.
    destruct data as [|m rest]; [discriminate|]. cbn [signed_pos].
    destruct (m =? 0x01) eqn:E1; [|destruct (m =? 0x02) eqn:E2; [|destruct (m =? 0x11) eqn:E3;
      [|destruct (m =? 0x12) eqn:E4; [|destruct (m =? 0x13) eqn:E5; [|discriminate]]]]];
      intros _; match goal with H : (m =? _) = true |- _ => apply N.eqb_eq in H; subst m end;
      exists rest; eexists; (split; [now rewrite preemble_cons by lia|split; discriminate]).
  Qed.

  Lemma consensus_refused d buf rx up q c pa dg : completes_sign C d buf rx up ->
    curve_of_byte (uo_p2 up) = Some c -> path_read BIP32_MAX_LENGTH (uo_first up) = Some pa ->
    o_blake2b O 32 (uo_data up) = Some dg -> signed_pos (uo_data up) = Some q ->
    fst (step C O d (EApdu buf rx)) = AReply [0x69; 0x86] /\
    d_ui (snd (step C O d (EApdu buf rx))) = None /\
    untouched d (snd (step C O d (EApdu buf rx))).
  Proof.
    intros Hc Ec Ep Eh Q. apply (sign_err d buf rx up CommandNotAllowed Hc).
    intros sh d1. exists (Some (c, pa)). unfold start_sign, digest32, bind. rewrite Ec, Ep, Eh. cbn [of_option].
    unfold ret. destruct (signed_pos_pre _ q Q) as (rem & p & -> & N1 & N2). destruct p; try congruence; reflexivity.
  Qed.
  (** Whatever the rest of the request, no review starts. *)
  Lemma consensus_not_reviewed d buf rx up q : completes_sign C d buf rx up ->
    signed_pos (uo_data up) = Some q ->
    (exists e, fst (step C O d (EApdu buf rx)) = AReply (be 2 (sw e)) /\ e <> Success) /\
    d_ui (snd (step C O d (EApdu buf rx))) = None /\
    untouched d (snd (step C O d (EApdu buf rx))).
  Proof.
    intros Hc Q.
    assert (exists e, e <> Success /\ forall sh d1, exists p, start_sign C O sh up d1 = (Err e, set_path p d1))
      as (e & Ne & H).
    { unfold start_sign, digest32, bind.
      destruct (curve_of_byte (uo_p2 up)) as [c|]; cbn [of_option];
        [|exists InvalidP1P2; split; [discriminate|]; intros sh d1; exists (d_path d1); destruct d1; reflexivity].
      destruct (path_read BIP32_MAX_LENGTH (uo_first up)) as [pa|]; cbn [of_option];
        [|exists DataInvalid; split; [discriminate|]; intros sh d1; exists (d_path d1); destruct d1; reflexivity].
      destruct (o_blake2b O 32 (uo_data up)) as [dg|]; cbn [of_option];
        [|exists ExecutionError; split; [discriminate|]; intros sh d1; exists (Some (c, pa)); reflexivity].
      exists CommandNotAllowed. split; [discriminate|]. intros sh d1. exists (Some (c, pa)).
      unfold ret. destruct (signed_pos_pre _ q Q) as (rem & p & -> & N1 & N2). destruct p; try congruence; reflexivity. }
    destruct (sign_err d buf rx up e Hc H) as [A B]. split; [eauto|exact B].
  Qed.
End Reviews.

Lemma power_slot f : Forall power_fault f -> Forall slot_fault_ok f.
Proof. apply Forall_impl. intros [|t|t]; cbn; tauto. Qed.

Lemma power_loss_safe C O f u es1 es2 d1 d2 l : Forall power_fault f ->
  segment C O f u es1 es2 d1 d2 l -> forall (i j : nat) (g h : sigrec), i <> j ->
  nth_error l i = Some g -> nth_error l j = Some h -> ~ conflict (sg_data g) (sg_data h).
Proof.
  intros _ S i j g h N Hi Hj (p & P & Q). exact (signed_once C O f u es1 es2 d1 d2 l S i j g h p N Hi Hj P Q).
Qed.

(** ** Cases *)

Lemma fresh_segment C O f u es1 es2 : Forall slot_fault_ok f -> Forall up_fault_ok u ->
  forallb event_okb (es1 ++ es2) = true -> (len (es1 ++ es2) <? 2 ^ 64) = true ->
  no_resetb C O (snd (run C O (dev_fresh f u) es1)) es2 = true ->
  d_log (snd (run C O (dev_fresh f u) es1)) = [] ->
  segment C O f u es1 es2 (snd (run C O (dev_fresh f u) es1))
    (snd (run C O (snd (run C O (dev_fresh f u) es1)) es2))
    (rev (d_log (snd (run C O (snd (run C O (dev_fresh f u) es1)) es2)))).
Proof.
  intros F U E L R Z. constructor; auto.
  - now apply events_okb_ok.
  - now apply N.ltb_lt.
  - now apply no_resetb_ok.
  - unfold signed_between. now rewrite rev_involutive, Z, app_nil_r.
Qed.

Definition demo_d1 : dev := snd (run demo_config demo_oracles (dev_fresh [] []) demo_before).
Definition demo_d2 : dev := snd (run demo_config demo_oracles demo_d1 demo_after).
Definition demo_l : list sigrec := rev (d_log demo_d2).

Lemma demo_segment : segment demo_config demo_oracles [] [] demo_before demo_after demo_d1 demo_d2 demo_l.
Proof.
  apply fresh_segment; try constructor; vm_compute; reflexivity.
Qed.
Lemma demo_positions : map (fun g => signed_pos (sg_data g)) demo_l
  = [Some (PEmmy 1500000 false); Some (PTB 2500000 3 KBlock); Some (PTB 2500000 3 KPre)].
Proof. vm_compute. reflexivity. Qed.

Lemma query_reports C O d L : (L <? 2 ^ 32) = true -> d_ui d = None ->
  fst (step C O d (send 0x08 0 0 [])) = AReply (be 4 L ++ [0x90; 0]) -> reports C O d L.
Proof.
  intros HL Hu H. split; [now apply N.ltb_lt|]. exists (apdu 0x08 0 0 []), 5.
  split; [apply apdu_okb_ok; vm_compute; reflexivity|]. split; [|exact H].
  split; [exact Hu|]. split; [lia|split; reflexivity].
Qed.

Lemma demo_reports : reports demo_config demo_oracles demo_d1 1499999 /\
  reports demo_config demo_oracles demo_d2 2500000.
Proof. split; apply query_reports; vm_compute; reflexivity. Qed.

(** The next consensus message of the demo history, and its signature. *)
Definition demo_d3 : dev := snd (step demo_config demo_oracles demo_d2 (send 0x04 0 0 (path_serialize demo_path))).
Definition demo_next : event := send 0x04 0x81 0 (0x13 :: enc_tb_endo 0x7A06A770 (demo_hash 5) false 4 2500001 0 (demo_hash 6) []).

Lemma demo_offered :
  let d := demo_d3 in
  event_ok demo_next /\ ~ resets demo_config d demo_next /\
  offered demo_config d demo_next (PTB 2500001 0 KEnd) /\
  reports demo_config demo_oracles d 2500000 /\
  reports demo_config demo_oracles (snd (step demo_config demo_oracles d demo_next)) 2500001 /\
  length (d_log (snd (step demo_config demo_oracles d demo_next))) = 4%nat.
Proof.
  cbv zeta.
  split; [apply apdu_okb_ok; vm_compute; reflexivity|].
  split; [intros (_ & (_ & _ & _ & X) & _); vm_compute in X; discriminate|].
  split.
  { split; [reflexivity|]. unfold demo_next, send.
    destruct (upload AccBaking (apdu 0x04 0x81 0 (0x13 :: enc_tb_endo 0x7A06A770 (demo_hash 5) false 4 2500001 0 (demo_hash 6) []))
               (d_up demo_d3) (d_ufaults demo_d3)) as [[r u'] s'] eqn:E.
    assert (R : match r with Ok (Some up) => signed_pos (uo_data up) = Some (PTB 2500001 0 KEnd) | _ => False end).
    { apply (f_equal (fun x => fst (fst x))) in E. cbn [fst] in E. rewrite <- E. vm_compute. reflexivity. }
    destruct r as [[up|]|e| |]; try contradiction.
    eexists _, _, 4, up, u', s'. split; [reflexivity|]. split; [|split; [now left|split; [exact E|exact R]]].
    split; [vm_compute; reflexivity|]. split; [split; vm_compute; discriminate|split; reflexivity]. }
  split; [|split]; [apply query_reports; vm_compute; reflexivity..|vm_compute; reflexivity].
Qed.

(** The reported level can decrease: a Tenderbake message is accepted after any Emmy
    watermark. *)
Lemma level_drop_refuted :
  ~ (forall C O f u es1 es2 d1 d2 l L1 L2, segment C O f u es1 es2 d1 d2 l ->
     reports C O d1 L1 -> reports C O d2 L2 -> L1 <= L2).
Proof.
  intros H. pose (es1 := authorise ++ [reset_to 2600000]). pose (es2 := send_message 4 demo_tb_block).
  assert (X : 2600000 <= 2500000); [|lia].
  refine (H demo_config demo_oracles [] [] es1 es2 _ _ _ 2600000 2500000
    (fresh_segment demo_config demo_oracles [] [] es1 es2 (Forall_nil _) (Forall_nil _) _ _ _ _) _ _).
  1-4: vm_compute; reflexivity.
  all: apply query_reports; vm_compute; reflexivity.
Qed.

(** Power is lost while the second message's watermark is written; the retry is
    refused, the next message is signed. *)
Definition cut_faults : list fault := repeat WOk 5 ++ [WCut TNew].
Definition cut_d1 : dev := snd (run demo_config demo_oracles (dev_fresh cut_faults []) demo_before).
Definition cut_d2 : dev := snd (run demo_config demo_oracles cut_d1 demo_after).
Lemma cut_segment : Forall power_fault cut_faults /\
  segment demo_config demo_oracles cut_faults [] demo_before demo_after cut_d1 cut_d2 (rev (d_log cut_d2)) /\
  map (fun g => signed_pos (sg_data g)) (rev (d_log cut_d2))
  = [Some (PEmmy 1500000 false); Some (PTB 2500000 3 KPre)].
Proof.
  assert (P : Forall power_fault cut_faults) by (repeat constructor).
  split; [exact P|]. split; [|vm_compute; reflexivity].
  apply fresh_segment; [now apply power_slot|constructor|vm_compute; reflexivity..].
Qed.

(** A write that reports an error, leaving the old page, is followed by a double
    endorsement. *)
Lemma rollback_refuted :
  ~ (forall C O f u es1 es2 l, Forall (fun x => x = WOk \/ x = WFail TOld) f ->
     Forall event_ok (es1 ++ es2) ->
     let d1 := snd (run C O (dev_fresh f u) es1) in
     no_reset C O d1 es2 -> signed_between d1 (snd (run C O d1 es2)) l ->
     forall i j g h p, i <> j -> nth_error l i = Some g -> nth_error l j = Some h ->
       signed_pos (sg_data g) = Some p -> signed_pos (sg_data h) <> Some p).
Proof.
  intros H.
  pose (d1 := snd (run demo_config demo_oracles (dev_fresh rollback_faults []) rollback_before)).
  pose (l := rev (d_log (snd (run demo_config demo_oracles d1 rollback_after)))).
  assert (P : map (fun g => signed_pos (sg_data g)) l
    = map (fun n => Some (PEmmy n true)) [101; 102; 103; 104; 105; 106; 107; 108; 102]).
  { vm_compute. reflexivity. }
  assert (G : forall i p, nth_error (map (fun g => signed_pos (sg_data g)) l) i = Some p ->
            exists g, nth_error l i = Some g /\ signed_pos (sg_data g) = p).
  { intros i p. rewrite nth_error_map. destruct (nth_error l i) as [g|]; [|discriminate].
    cbn [option_map]. intros [= <-]. eauto. }
  rewrite P in G. destruct (G 1%nat _ eq_refl) as (g & Gi & Pg). destruct (G 8%nat _ eq_refl) as (h & Gj & Ph).
  refine (H demo_config demo_oracles rollback_faults [] rollback_before rollback_after l _ _ _ _
            1%nat 8%nat g h _ ltac:(discriminate) Gi Gj Pg Ph).
  - repeat constructor; (now left) || (now right).
  - apply events_okb_ok. vm_compute. reflexivity.
  - apply no_resetb_ok. vm_compute. reflexivity.
  - unfold signed_between. unfold l. rewrite rev_involutive.
    change (snd (run demo_config demo_oracles (dev_fresh rollback_faults []) rollback_before)) with d1.
    replace (d_log d1) with (@nil sigrec); [now rewrite app_nil_r|vm_compute; reflexivity].
Qed.

(** ** Cases of refused requests *)

Lemma completes_intro C d ins p1 p2 payload up : cf_baking C = true -> d_ui d = None ->
  In ins [0x04; 0x0F; 0xAF] -> (5 + len payload <=? 260) = true -> apdu_okb (apdu ins p1 p2 payload) = true ->
  fst (fst (upload AccBaking (apdu ins p1 p2 payload) (d_up d) (d_ufaults d))) = Ok (Some up) ->
  completes C d (apdu ins p1 p2 payload) (5 + len payload) up.
Proof.
  intros Cb Hu Hi Hl Ho E. split; [exact Cb|]. split; [now apply apdu_okb_ok|].
  destruct (upload AccBaking (apdu ins p1 p2 payload) (d_up d) (d_ufaults d)) as [[r u'] s'] eqn:Eu.
  cbn [fst] in E. subst r. exists ins, u', s'. split; [|split; [exact Hi|reflexivity]].
  split; [exact Hu|]. apply N.leb_le in Hl. split; [lia|split; reflexivity].
Qed.
Lemma completes_sign_intro C d p1 p2 payload up : d_ui d = None ->
  (5 + len payload <=? 260) = true -> apdu_okb (apdu 0x12 p1 p2 payload) = true ->
  fst (fst (upload AccSign (apdu 0x12 p1 p2 payload) (d_up d) (d_ufaults d))) = Ok (Some up) ->
  completes_sign C d (apdu 0x12 p1 p2 payload) (5 + len payload) up.
Proof.
  intros Hu Hl Ho E. split; [now apply apdu_okb_ok|].
  destruct (upload AccSign (apdu 0x12 p1 p2 payload) (d_up d) (d_ufaults d)) as [[r u'] s'] eqn:Eu.
  cbn [fst] in E. subst r. exists 0x12, u', s'. split; [|split; [now left|reflexivity]].
  split; [exact Hu|]. apply N.leb_le in Hl. split; [lia|split; reflexivity].
Qed.

(** A fresh device, and one with another key, after the first packet of a request. *)
Definition other_path : path := [0x8000002C; 0x800006C1; 0x80000001].
Definition nokey_dev : dev :=
  snd (run demo_config demo_oracles (dev_fresh [] []) [send 4 0 0 (path_serialize demo_path)]).
Definition otherkey_dev : dev :=
  snd (run demo_config demo_oracles (dev_fresh [] [])
    ([send 0xA1 1 0 (path_serialize other_path); EApprove; send 4 0 0 (path_serialize demo_path)])).
Definition badcurve_dev : dev :=
  snd (run demo_config demo_oracles (dev_fresh [] []) (authorise ++ [send 4 0 9 (path_serialize demo_path)])).
Definition demo_out (p2 : N) : upload_out := mkUO p2 (path_serialize demo_path) demo_block.

Lemma demo_nokey :
  completes demo_config nokey_dev (apdu 4 0x81 0 demo_block) (5 + len demo_block) (demo_out 0) /\
  curve_of_byte 0 = Some Ed25519 /\ path_read BIP32_MAX_LENGTH (path_serialize demo_path) = Some demo_path /\
  no_key nokey_dev.
Proof.
  split; [|split; [reflexivity|split; [vm_compute; reflexivity|vm_compute; exact I]]].
  apply completes_intro; try (vm_compute; reflexivity). now left.
Qed.
Lemma demo_otherkey :
  completes demo_config otherkey_dev (apdu 4 0x81 0 demo_block) (5 + len demo_block) (demo_out 0) /\
  stored_key otherkey_dev (Ed25519, other_path) /\ (Ed25519, other_path) <> (Ed25519, demo_path).
Proof.
  split; [|split; [|discriminate]].
  - apply completes_intro; try (vm_compute; reflexivity). now left.
  - eexists. split; vm_compute; reflexivity.
Qed.
Lemma demo_badcurve :
  completes demo_config badcurve_dev (apdu 4 0x81 9 demo_block) (5 + len demo_block) (demo_out 9) /\
  curve_of_byte 9 = None.
Proof.
  split; [|reflexivity]. apply completes_intro; try (vm_compute; reflexivity). now left.
Qed.
Definition sign_dev : dev :=
  snd (run demo_config demo_oracles (dev_fresh [] []) [send 0x12 0 0 (path_serialize demo_path)]).
Lemma demo_sign_consensus :
  completes_sign demo_config sign_dev (apdu 0x12 0x81 0 demo_block) (5 + len demo_block) (demo_out 0) /\
  (exists dg, o_blake2b demo_oracles 32 demo_block = Some dg) /\
  signed_pos demo_block = Some (PEmmy 1500000 false).
Proof.
  split; [|split; [eexists; vm_compute; reflexivity|vm_compute; reflexivity]].
  apply completes_sign_intro; vm_compute; reflexivity.
Qed.
(** A confirmed signature: Michelson data. *)
Definition demo_review : list event := send_message 0x12 [5; 1; 2; 3] ++ [EApprove].
Lemma demo_review_ok : Forall event_ok demo_review /\
  map (fun g => (sg_src g, sg_key g, sg_data g)) (d_log (snd (run demo_config demo_oracles (dev_fresh [] []) demo_review)))
  = [(SrcReview, demo_key, [5; 1; 2; 3])].
Proof. split; [apply events_okb_ok; vm_compute; reflexivity|vm_compute; reflexivity]. Qed.
Lemma demo_history_ok : Forall event_ok (demo_before ++ demo_after) /\
  map (fun g => (sg_src g, sg_key g)) (d_log (snd (run demo_config demo_oracles (dev_fresh [] []) (demo_before ++ demo_after))))
  = repeat (SrcConsensus, demo_key) 3.
Proof. split; [apply events_okb_ok; vm_compute; reflexivity|vm_compute; reflexivity]. Qed.
