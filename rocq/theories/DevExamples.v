(** Statements about developer builds in their final form, and examples. *)
From Coq Require Import List NArith ZArith Lia Bool Arith ZifyBool ZifyNat ZifyN.
From Verif Require Import Base BaseFacts Flash FlashFacts Codecs CodecsSpec CodecsFacts
  Upload UploadSpec UploadFacts UploadExamples Baking BakingSpec BakingExamples Oracles Address AddressSpec AddressExamples
  Device DeviceSpec DeviceFacts DeviceProofs DeviceAnswers ServiceSpec DeviceLive DeviceDemo ServiceExamples
  Text TextSpec TextFacts TextExamples Catch Loop LoopSpec LoopFacts LoopExamples DevBuild DevSpec DevFacts.
Import ListNotations.
Open Scope N_scope.

(** ** The end of an upload *)

Lemma u_write_lock u l s : u_lock (snd (fst (u_write u l s))) = u_lock u.
Proof. rewrite u_write_sb. destruct (sb_write _ _ _ _ _) as [[b r] s']. reflexivity. Qed.
Lemma upload_last_lock a buf u up u' s s' : upload a buf u s = (Ok (Some up), u', s') -> u_lock u' = Some a.
Proof.
  unfold upload. destruct (packet_of_p1 (apdu_p1 buf)) as [pt|]; [|discriminate].
  destruct (is_init pt).
  - destruct (u_write _ [apdu_p2 buf] s) as [[r u2] s2]. destruct r as [[]|e| |]; try discriminate.
    destruct (apdu_payload buf) as [pl|]; [|discriminate].
    destruct (u_write _ pl s2) as [[r4 u4] s4]. destruct r4; discriminate.
  - destruct (lock_acquire acc_eqb (u_lock u) a) eqn:A; [discriminate|].
    assert (L : u_lock u = Some a).
    { unfold lock_acquire in A. destruct (u_lock u) as [h|]; [|discriminate].
      destruct (acc_eqb h a) eqn:E; [|discriminate]. apply acc_eqb_eq in E. congruence. }
    unfold u_write_payload. destruct (apdu_payload buf) as [pl|].
    + pose proof (u_write_lock u pl s) as W. destruct (u_write u pl s) as [[r u1] s1]. cbn [fst snd] in W.
      destruct r as [[]|e| |]; try discriminate. destruct (is_next pt); [discriminate|].
      destruct (u_split u1); intros E; inversion E; subst; congruence.
    + destruct (is_next pt); [discriminate|]. destruct (u_split u); intros E; inversion E; subst; congruence.
Qed.
(** Nothing in the buffer, and nobody holds it. *)
Lemma dropped a u : u_lock u = Some a ->
  u_lock (upload_drop a u) = None /\ sb_read_exact (u_buf (upload_drop a u)) = [].
Proof.
  intros E. unfold upload_drop, lock_acquire, lock_release, lock_acquire. rewrite E, acc_eqb_refl.
  split; [|reflexivity]. cbn [u_lock]. rewrite ?acc_eqb_refl. reflexivity.
Qed.

Section Final.
  Variable D : dconfig.
  Variable O : oracles.
  Notation C := (dc_conf D).

  Lemma ready_sized x : ready D O x -> sized (d_up (dd_dev x)).
  Proof. intros ((f & u & es & He & ->) & _). exact (proj2 (dreach_ok D O f u es He)). Qed.

  (** ** Hash *)

  Lemma dev_hash_answer x init data first mids last h : ready D O x -> carries 0xF0 init data first mids last ->
    o_sha256 O (init ++ data) = Some h -> (length h <= 258)%nat ->
    exists u, drun D O x (map sent (first :: mids ++ [last]))
      = (map (fun _ => go_on) (first :: mids) ++ [AReply (h ++ [0x90; 0])], set_dev (set_up u (dd_dev x)) x) /\
      u_lock u = None /\ sb_read_exact (u_buf u) = [].
  Proof.
    intros R Q Hh Hl. pose proof (ready_sized x R) as S1. destruct R as (_ & V & U & F).
    destruct (carries_run D O 0xF0 AccSha256 init data first mids last x) as (u & u' & E1 & E2); auto.
    { left. reflexivity. }
    exists (upload_drop AccSha256 u'). split; [|apply dropped; eapply upload_last_lock; eauto].
    change (first :: mids ++ [last]) with ((first :: mids) ++ [last]).
    rewrite map_app, drun_app, E1. cbn [fst snd map drun].
    set (y := set_dev (set_up u (dd_dev x)) x).
    assert (Hc : dcommand y (fst last) (snd last) 0xF0).
    { apply (packet_dcommand _ KLast); unfold y; cbn [set_dev dd_view dd_dev]; auto; [destruct (dd_dev x); exact U|].
      apply Q. }
    assert (E3 : dstep D O y (sent last) = (AReply (h ++ [0x90; 0]), set_dev (set_up (upload_drop AccSha256 u') (dd_dev x)) x)).
    { unfold sent. rewrite (dstep_command D O y _ _ _ Hc). cbn [N.eqb Pos.eqb].
      unfold h_dev_hash, with_upload, the_upload, bind, drop_upload.
      replace (d_ufaults (dd_dev y)) with (@nil fault) by (unfold y; destruct x as [[] ? ? ?]; cbn in *; congruence).
      replace (d_up (dd_dev y)) with u by (unfold y; destruct x as [[] ? ? ?]; reflexivity).
      rewrite E2. cbn [uo_first uo_data]. rewrite Hh. unfold of_option, ret.
      cbn [dfinish]. replace (260 <? len h + 2) with false by (unfold len; lia).
      change (be 2 (sw Success)) with [0x90; 0].
      apply (f_equal2 pair); [reflexivity|]. rewrite (set_no_ufaults (dd_dev y)) by (unfold y; destruct x as [[] ? ? ?]; exact F).
      unfold y. destruct x as [[] ? ? ?]; reflexivity. }
    rewrite E3. reflexivity.
  Qed.

  (** ** Blind signatures *)

  Lemma request_carries ins k data first mids last : request ins k data first mids last ->
    carries ins (pay (fst first)) data first mids last.
  Proof. intros (Q1 & Q2 & Q3 & Q4 & Q6 & Q7). repeat split; auto; apply Q1 || apply Q3. Qed.

  Lemma blind_pending x k data first mids last dg : ready D O x -> request 0xF3 k data first mids last ->
    o_blake2b O 32 data = Some dg -> dc_room D (DBlind true dg data) <> None ->
    exists u, drun D O x (map sent (first :: mids ++ [last]))
      = (map (fun _ => go_on) (first :: mids) ++ [APending],
         mkDD (set_up u (dd_dev x)) (Some k) (Some (DBlind true dg data)) (dd_log x)) /\
      u_lock u = None /\ sb_read_exact (u_buf u) = [].
  Proof.
    intros R Q Hd Hr. pose proof (ready_sized x R) as S1. destruct R as (_ & V & U & F).
    destruct (carries_run D O 0xF3 AccBlind (pay (fst first)) data first mids last x) as (u & u' & E1 & E2); auto.
    { right. reflexivity. }
    { eapply request_carries; eauto. }
    exists (upload_drop AccBlind u'). split; [|apply dropped; eapply upload_last_lock; eauto].
    change (first :: mids ++ [last]) with ((first :: mids) ++ [last]).
    rewrite map_app, drun_app, E1. cbn [fst snd map drun].
    set (y := set_dev (set_up u (dd_dev x)) x).
    assert (Hc : dcommand y (fst last) (snd last) 0xF3).
    { apply (packet_dcommand _ KLast); unfold y; cbn [set_dev dd_view dd_dev]; auto; [destruct (dd_dev x); exact U|].
      apply Q. }
    assert (E3 : dstep D O y (sent last)
      = (APending, mkDD (set_up (upload_drop AccBlind u') (dd_dev x)) (Some k) (Some (DBlind true dg data)) (dd_log x))).
    { unfold sent. rewrite (dstep_command D O y _ _ _ Hc). cbn [N.eqb Pos.eqb].
      unfold h_blind, the_upload, drop_upload.
      replace (d_ufaults (dd_dev y)) with (@nil fault) by (unfold y; destruct x as [[] ? ? ?]; cbn in *; congruence).
      replace (d_up (dd_dev y)) with u by (unfold y; destruct x as [[] ? ? ?]; reflexivity).
      rewrite E2. unfold blind_sign. cbn [uo_first uo_data uo_p2].
      destruct Q as (_ & _ & _ & (Q4 & Q5) & _). rewrite Q4, curve_round.
      rewrite (path_read_complete _ _ _ Q5), Hd. unfold dshow.
      destruct (dc_room D (DBlind true dg data)); [|congruence].
      cbn [dfinish]. apply (f_equal2 pair); [reflexivity|].
      rewrite (set_no_ufaults (dd_dev y)) by (unfold y; destruct x as [[] ? ? ?]; exact F).
      unfold y. destruct k as [c p]. destruct x as [[] ? ? ?]; reflexivity. }
    rewrite E3. reflexivity.
  Qed.

  (** Commands that come in the meantime are not read. *)
  Lemma noise_run v x noise : dd_view x = Some v -> Forall is_apdu noise ->
    drun D O x noise = (map (fun _ => ANone) noise, x).
  Proof.
    intros V. induction 1 as [|e es He Hs IH]; [reflexivity|]. cbn [drun map].
    destruct e; try contradiction. unfold dstep. rewrite V, IH. reflexivity.
  Qed.
  Lemma blind_approve d (k : key) (dg data : bytes) log s room : o_sign O (fst k) (snd k) dg = Some s -> (length s <= 100)%nat ->
    dc_room D (DBlind true dg data) = Some room -> len dg + len s + 2 <= room ->
    dstep D O (mkDD d (Some k) (Some (DBlind true dg data)) log) EApprove
    = (AReply (dg ++ s ++ [0x90; 0]), mkDD d None None (mkBlind k dg data :: log)).
  Proof.
    intros Hs Hl Hr Hn. unfold dstep, ddecide. cbn [dd_view]. rewrite Hr. unfold daccept.
    cbn [set_view dd_path dd_dev dd_view dd_log]. rewrite Hs.
    replace (100 <? length s)%nat with false by lia. unfold signed.
    cbn [dfinish]. rewrite len_app. replace (room <? len dg + len s + 2) with false by lia.
    rewrite <- app_assoc. reflexivity.
  Qed.
  Lemma blind_refuse d (k : key) (dg data : bytes) log room : dc_room D (DBlind true dg data) = Some room -> 2 <= room ->
    let x := mkDD d (Some k) (Some (DBlind true dg data)) log in
    dstep D O x EReject = (AReply [0x69; 0x86], mkDD d None None log) /\
    dstep D O x EUiError = (AReply [0x69; 0x84], mkDD d (Some k) None log).
  Proof.
    intros Hr Hn x. unfold x, dstep, ddecide. cbn [dd_view]. rewrite Hr.
    split; cbn [dreject dfinish set_view set_dpath dd_dev dd_path dd_view dd_log len length N.of_nat N.add];
      replace (room <? 2) with false by lia; reflexivity.
  Qed.

  (** The whole of it. *)
  Lemma blind_signature x k data first mids last dg s noise room : ready D O x -> request 0xF3 k data first mids last ->
    o_blake2b O 32 data = Some dg -> o_sign O (fst k) (snd k) dg = Some s -> oracles_ok O ->
    dc_room D (DBlind true dg data) = Some room -> 134 <= room -> Forall is_apdu noise ->
    exists u,
      drun D O x (map sent (first :: mids ++ [last]) ++ noise ++ [EApprove])
      = (map (fun _ => go_on) (first :: mids) ++ [APending] ++ map (fun _ => ANone) noise ++ [AReply (dg ++ s ++ [0x90; 0])],
         mkDD (set_up u (dd_dev x)) None None (mkBlind k dg data :: dd_log x)) /\
      drun D O x (map sent (first :: mids ++ [last]) ++ noise ++ [EReject])
      = (map (fun _ => go_on) (first :: mids) ++ [APending] ++ map (fun _ => ANone) noise ++ [AReply [0x69; 0x86]],
         mkDD (set_up u (dd_dev x)) None None (dd_log x)) /\
      drun D O x (map sent (first :: mids ++ [last]) ++ noise ++ [EUiError])
      = (map (fun _ => go_on) (first :: mids) ++ [APending] ++ map (fun _ => ANone) noise ++ [AReply [0x69; 0x84]],
         mkDD (set_up u (dd_dev x)) (Some k) None (dd_log x)).
  Proof.
    intros R Q Hd Hs OK Hr Hn Hno.
    destruct (blind_pending x k data first mids last dg R Q Hd ltac:(congruence)) as (u & E & _).
    destruct (ok_sign O OK _ _ _ _ Hs) as [Ls _]. destruct (ok_blake2b O OK _ _ _ Hd) as [Ld _].
    exists u.
    destruct (blind_refuse (set_up u (dd_dev x)) k dg data (dd_log x) room Hr ltac:(lia)) as [B1 B2].
    cbv zeta in B1, B2.
    pose proof (blind_approve (set_up u (dd_dev x)) k dg data (dd_log x) s room Hs Ls Hr ltac:(unfold len; lia)) as B0.
    rewrite !drun_app, E. cbn [fst snd].
    rewrite (noise_run (DBlind true dg data)) by (reflexivity || exact Hno). cbn [fst snd drun].
    rewrite B0, B1, B2. cbn [fst snd]. rewrite <- !app_assoc. auto.
  Qed.

  (** In any history a blind signature is made only by approving it, for the message whose
      digest was on display, with the key that was named. *)
  Lemma dfinish_log room r : dd_log (snd (dfinish room r)) = dd_log (snd r).
  Proof.
    destruct r as [[[data|]|e| |] x]; cbn [dfinish snd]; auto;
      try (match goal with |- context [if ?b then _ else _] => destruct b end); reflexivity.
  Qed.
  Lemma dshow_log v x : dd_log (snd (dshow D v x)) = dd_log x.
  Proof. unfold dshow. destruct (dc_room D v); reflexivity. Qed.
  Lemma dplain_log x e : dd_log (snd (dplain D O x e)) = dd_log x.
  Proof. unfold dplain. destruct (step C O (dd_dev x) e) as [a d]. destruct a; reflexivity. Qed.
  Lemma command_log x buf rx : dd_log (snd (dstep D O x (EApdu buf rx))) = dd_log x.
  Proof.
    unfold dstep. destruct (dd_view x); [reflexivity|]. destruct (d_ui (dd_dev x)); [reflexivity|].
    destruct (apdu_read_ok buf rx && _); [|apply dplain_log].
    destruct (apdu_ins buf =? 0xF0).
    { rewrite dfinish_log. destruct (h_dev_hash O buf (dd_dev x)); reflexivity. }
    destruct (apdu_ins buf =? 0xF1); [reflexivity|].
    destruct (apdu_ins buf =? 0xF2).
    { rewrite dfinish_log. unfold h_echo. destruct (apdu_payload buf); [|reflexivity].
      destruct (34 <? len b); [reflexivity|]. destruct (len b <? 17); [reflexivity|]. apply dshow_log. }
    destruct (apdu_ins buf =? 0xF3).
    { rewrite dfinish_log. unfold h_blind.
      destruct (the_upload AccBlind buf (dd_dev x)) as [[[up|]|e| |] d1]; try reflexivity.
      assert (Z : dd_log (snd (blind_sign D O true up (set_dev d1 x))) = dd_log x).
      { unfold blind_sign. destruct (curve_of_byte _); [|reflexivity]. destruct (path_read _ _); [|reflexivity].
        destruct (o_blake2b O 32 _); [|reflexivity]. rewrite dshow_log. reflexivity. }
      destruct (blind_sign D O true up (set_dev d1 x)) as [[] y]; exact Z. }
    destruct (known _ _); [apply dplain_log|]. rewrite dfinish_log.
    unfold h_debug. destruct (apdu_payload buf); [|reflexivity].
    match goal with |- context [match ?m with (_, _) => _ end] => destruct m as [[[]|e| |] d] end; try reflexivity.
    rewrite dshow_log. reflexivity.
  Qed.
  Lemma blind_only_approved f u es e : Forall event_ok (es ++ [e]) ->
    let x := snd (drun D O (dd_fresh f u) es) in
    let y := snd (dstep D O x e) in
    dd_log y = dd_log x \/
    (e = EApprove /\ d_log (dd_dev y) = d_log (dd_dev x) /\
     exists k dg data s, dd_view x = Some (DBlind true dg data) /\ dd_path x = Some k /\
       o_blake2b O 32 data = Some dg /\ o_sign O (fst k) (snd k) dg = Some s /\
       dd_log y = mkBlind k dg data :: dd_log x).
  Proof.
    intros He x y. apply Forall_app in He as [He _].
    pose proof (proj1 (dreach_ok D O f u es He)) as W. fold x in W. clearbody x. unfold y. clear y.
    destruct e as [buf rx| | | |].
    - left. apply command_log.
    - unfold dstep. destruct (dd_view x) as [v|] eqn:V; [|left; apply dplain_log].
      unfold ddecide. rewrite dfinish_log. destruct v as [l1 l2|sh dg data|]; [left; reflexivity| |left; reflexivity].
      destruct (wt_blind O x W sh dg data V) as (-> & Hd & k & Hk).
      cbn [daccept set_view dd_path]. rewrite Hk. destruct (o_sign O (fst k) (snd k) dg) as [s|] eqn:Es; [|left; reflexivity].
      destruct (100 <? length s)%nat; [left; reflexivity|].
      right. split; [reflexivity|]. split; [|exists k, dg, data, s; auto].
      cbn [dfinish]. match goal with |- context [if ?b then _ else _] => destruct b end; reflexivity.
    - left. unfold dstep. destruct (dd_view x) as [v|]; [|apply dplain_log].
      unfold ddecide. rewrite dfinish_log. destruct v; reflexivity.
    - left. unfold dstep. destruct (dd_view x) as [v|]; [|apply dplain_log].
      unfold ddecide. rewrite dfinish_log. reflexivity.
    - left. unfold dstep. destruct (dd_view x); reflexivity.
  Qed.

  (** ** Separation *)

  Lemma ordinary_histories f u es : Forall (ordinary (cf_baking C)) es ->
    let (l, y) := drun D O (dd_fresh f u) es in
    run C O (dev_fresh f u) es = (l, dd_dev y) /\ dd_view y = None /\ dd_log y = [].
  Proof. intros H. exact (ordinary_run D O es (dd_fresh f u) H eq_refl). Qed.

  (** ** Echo *)

  Lemma echo_shown x buf rx out room : dcommand x buf rx 0xF2 -> (17 <= length (pay buf) <= 34)%nat ->
    (forall v, dc_room D v = Some room) -> 2 <= room -> (35 <= length out)%nat ->
    exists l1 l2 y, dstep D O x (EApdu buf rx) = (APending, y) /\ y = set_view (Some (DEcho l1 l2)) x /\
      echo_render l1 l2 out = VOk (pay buf ++ zeros (35 - length (pay buf)) ++ skipn 35 out, 1) /\
      dstep D O y EApprove = (AReply [0x90; 0], x) /\ dstep D O y EReject = (AReply [0x69; 0x86], x).
  Proof.
    intros Hc Hl Hr Hn Ho. rewrite (dstep_command D O x buf rx _ Hc). cbn [N.eqb Pos.eqb].
    pose proof Hc as (V & Hb & _). destruct (apdu_payload_260 buf Hb) as (pl & E & Ep & Hp & _).
    fold (pay buf) in Ep. subst pl. unfold h_echo. rewrite E.
    replace (34 <? len (pay buf)) with false by (unfold len; lia).
    replace (len (pay buf) <? 17) with false by (unfold len; lia).
    unfold dshow. rewrite Hr. cbn [dfinish].
    eexists _, _, _. split; [reflexivity|]. split; [reflexivity|]. split; [|split].
    - unfold echo_render. replace (length out <? 35)%nat with false by lia. do 2 f_equal.
      unfold overwrite.
      assert (A : firstn 17 (pay buf) ++ (skipn 17 (pay buf) ++ zeros (34 - length (pay buf))) ++ [0]
                  = pay buf ++ zeros (35 - length (pay buf))).
      { rewrite !app_assoc, firstn_skipn, <- app_assoc. f_equal.
        replace (35 - length (pay buf))%nat with (34 - length (pay buf) + 1)%nat by lia.
        unfold zeros. rewrite repeat_app. reflexivity. }
      rewrite A. rewrite <- app_assoc. do 2 f_equal. unfold zeros. rewrite app_length, repeat_length. f_equal. lia.
    - unfold dstep, ddecide. cbn [set_view dd_view daccept dfinish]. rewrite Hr.
      replace (room <? len [] + 2) with false by (cbn; lia). destruct x; cbn in *. now subst.
    - unfold dstep, ddecide. cbn [set_view dd_view dreject dfinish]. rewrite Hr.
      replace (room <? len [] + 2) with false by (cbn; lia). destruct x; cbn in *. now subst.
  Qed.
  Lemma echo_long x buf rx : dcommand x buf rx 0xF2 -> (34 < length (pay buf))%nat ->
    dstep D O x (EApdu buf rx) = (AReply [0x67; 0x00], x).
  Proof.
    intros Hc Hl. rewrite (dstep_command D O x buf rx _ Hc). cbn [N.eqb Pos.eqb].
    pose proof Hc as (V & Hb & _). destruct (apdu_payload_260 buf Hb) as (pl & E & Ep & Hp & _).
    fold (pay buf) in Ep. subst pl. unfold h_echo. rewrite E.
    replace (34 <? len (pay buf)) with true by (unfold len; lia). reflexivity.
  Qed.
  Lemma echo_short x buf rx : dcommand x buf rx 0xF2 -> (length (pay buf) < 17)%nat ->
    dstep D O x (EApdu buf rx) = (ADied, drestart x).
  Proof.
    intros Hc Hl. rewrite (dstep_command D O x buf rx _ Hc). cbn [N.eqb Pos.eqb].
    pose proof Hc as (V & Hb & _). destruct (apdu_payload_260 buf Hb) as (pl & E & Ep & Hp & _).
    fold (pay buf) in Ep. subst pl. unfold h_echo. rewrite E.
    replace (34 <? len (pay buf)) with false by (unfold len; lia).
    replace (len (pay buf) <? 17) with true by (unfold len; lia). reflexivity.
  Qed.

  (** ** Debug *)

  Lemma debug_write_spec l d : sized (d_up d) -> d_ufaults d = [] ->
    (length (sb_read_exact (u_buf (d_up d))) + length l <= FLASH_CAP)%nat ->
    exists b, debug_write l d = (Ok tt, set_up (mkU b (u_lock (d_up d)) (u_init_len (d_up d))) d) /\
      sbuf_ok RAM_CAP FLASH_CAP b /\ sb_read_exact b = sb_read_exact (u_buf (d_up d)) ++ l.
  Proof.
    intros S1 F L. unfold debug_write.
    destruct (sb_write RAM_CAP FLASH_CAP (u_buf (d_up d)) l (d_ufaults d)) as [[b r] s] eqn:E.
    rewrite F in E.
    destruct (sb_write_spec RAM_CAP FLASH_CAP ram_le_flash _ _ _ _ _ _ S1 (Forall_nil _) E) as (B1 & _ & B2 & B3 & B4 & _).
    rewrite (B4 eq_refl). rewrite (proj2 (B3 eq_refl) L) in *. exists b. rewrite (set_no_ufaults d F).
    split; [reflexivity|]. split; [exact B1|apply B2].
  Qed.
  Lemma debug_shown x buf rx ins room : ready D O x -> dcommand x buf rx ins ->
    ~ In ins (app_instructions (cf_baking C)) -> ~ In ins [0xF0; 0xF1; 0xF2; 0xF3] ->
    sb_read_exact (u_buf (d_up (dd_dev x))) = [] ->
    dc_room D DDebug = Some room -> 2 <= room ->
    exists y z, dstep D O x (EApdu buf rx) = (APending, y) /\
      (forall out page, debug_render y out page = ui_message (firstn 4 buf ++ [len (pay buf)] ++ pay buf) out page) /\
      dstep D O y EApprove = (AReply [0x90; 0], z) /\ dstep D O y EReject = (AReply [0x69; 0x86], z) /\
      dd_view z = None /\ u_lock (d_up (dd_dev z)) = None /\ sb_read_exact (u_buf (d_up (dd_dev z))) = [] /\
      dd_log z = dd_log x /\ dd_path z = dd_path x.
  Proof.
    intros R Hc Hn1 Hn2 He Hr Hn. pose proof (ready_sized x R) as S1. destruct R as (_ & V & U & F).
    rewrite (dstep_command D O x buf rx _ Hc). cbn [In] in Hn2.
    rewrite (proj2 (N.eqb_neq ins 0xF0)), (proj2 (N.eqb_neq ins 0xF1)), (proj2 (N.eqb_neq ins 0xF2)),
      (proj2 (N.eqb_neq ins 0xF3)) by (intros ->; apply Hn2; auto).
    destruct (known (cf_baking C) ins) eqn:K; [apply known_app in K; contradiction|].
    pose proof Hc as (_ & Hb & _). destruct (apdu_payload_260 buf Hb) as (pl & E & Ep & Hp & _).
    fold (pay buf) in Ep. subst pl. unfold h_debug. rewrite E. unfold bind. cbv beta.
    set (d0 := set_up _ (dd_dev x)).
    assert (L0 : u_lock (d_up d0) = Some AccDebug).
    { unfold d0. destruct (dd_dev x). cbn. apply lock_lock_eq. exact acc_eqb_eq. }
    assert (S0 : sized (d_up d0)) by (unfold d0; destruct (dd_dev x); exact S1).
    assert (F0 : d_ufaults d0 = []) by (unfold d0; destruct (dd_dev x); exact F).
    assert (E0 : sb_read_exact (u_buf (d_up d0)) = []) by (unfold d0; destruct (dd_dev x); exact He).
    set (h := [apdu_cla buf; apdu_ins buf; apdu_p1 buf; apdu_p2 buf; len (pay buf)]).
    assert (FC : FLASH_CAP = CAPACITY) by (vm_compute; reflexivity).
    assert (CB : (300 <= CAPACITY)%nat) by (unfold CAPACITY; lia).
    destruct (debug_write_spec h d0 S0 F0) as (b1 & W1 & K1 & R1).
    { rewrite E0, FC. cbn [h length]. lia. }
    rewrite W1.
    set (d1 := set_up _ d0).
    assert (L1 : u_lock (d_up d1) = Some AccDebug) by (unfold d1; destruct d0; exact L0).
    assert (F1 : d_ufaults d1 = []) by (unfold d1; destruct d0; exact F0).
    assert (U1 : u_buf (d_up d1) = b1) by (unfold d1; destruct d0; reflexivity).
    destruct (debug_write_spec (pay buf) d1) as (b2 & W2 & K2 & R2); auto.
    { unfold sized. rewrite U1. exact K1. }
    { rewrite U1, R1, E0, FC. cbn [h app length]. lia. }
    rewrite W2. unfold dshow. rewrite Hr. cbn [dfinish].
    set (d2 := set_up _ d1).
    assert (L2 : u_lock (d_up d2) = Some AccDebug) by (unfold d2; destruct d1; exact L1).
    assert (U2 : sb_read_exact (u_buf (d_up d2)) = h ++ pay buf).
    { replace (u_buf (d_up d2)) with b2 by (unfold d2; destruct d1; reflexivity). rewrite R2, U1, R1, E0. reflexivity. }
    destruct (dropped AccDebug (d_up d2) L2) as [Z1 Z2].
    exists (set_view (Some DDebug) (set_dev d2 x)), (set_view None (set_dev (set_up (upload_drop AccDebug (d_up d2)) d2) x)).
    split; [reflexivity|]. split; [|split; [|split; [|split; [|split; [|split; [|split]]]]]].
    - intros out page. unfold debug_render. cbn [set_view set_dev dd_dev]. rewrite L2.
      unfold lock_acquire. rewrite acc_eqb_refl, U2. f_equal.
      unfold h, apdu_cla, apdu_ins, apdu_p1, apdu_p2. destruct Hb as [Hl _].
      destruct buf as [|b0 [|b3 [|b4 [|b5 buf]]]]; try discriminate Hl. reflexivity.
    - unfold dstep, ddecide. cbn [set_view dd_view daccept debug_cleanup dfinish]. rewrite Hr.
      replace (room <? len [] + 2) with false by (cbn; lia). reflexivity.
    - unfold dstep, ddecide. cbn [set_view dd_view dreject debug_cleanup dfinish]. rewrite Hr.
      replace (room <? len [] + 2) with false by (cbn; lia). reflexivity.
    - reflexivity.
    - cbn [set_view set_dev dd_dev]. destruct d2; exact Z1.
    - cbn [set_view set_dev dd_dev]. destruct d2; exact Z2.
    - reflexivity.
    - reflexivity.
  Qed.

  (** A zero ends the text: with P1 = 0 two characters are left. *)
  Lemma zero_cuts a b rest out : a <> 0 -> b <> 0 -> (4 <= length out)%nat ->
    exists t n, ui_message (a :: b :: 0 :: rest) out 0 = VOk (t, n) /\ before_zero t = [a; b].
  Proof.
    intros Ha Hb Ho. rewrite ui_message_page by lia. set (item := a :: b :: 0 :: rest).
    assert (G : forall m, (3 <= m)%nat -> before_zero (overwrite (page (N.of_nat m) 0 item ++ [0]) out) = [a; b]).
    { intros m Hm. unfold page, item. rewrite Nat2N.id. change (N.to_nat (0 * N.of_nat m)) with 0%nat.
      destruct m as [|[|[|m]]]; try lia. unfold overwrite. cbn [skipn firstn app before_zero].
      rewrite (proj2 (N.eqb_neq a 0)), (proj2 (N.eqb_neq b 0)) by assumption. reflexivity. }
    replace (len out - 1) with (N.of_nat (length out - 1)) by (unfold len; lia).
    destruct (N.ltb_spec (len item) (N.of_nat (length out - 1))).
    - eexists _, _. split; [reflexivity|]. apply G. lia.
    - replace (0 * N.of_nat (length out - 1) <? len item) with true by (unfold len, item; cbn [length]; lia).
      eexists _, _. split; [reflexivity|]. apply G. lia.
  Qed.
  Lemma debug_cut x buf rx ins room : ready D O x -> dcommand x buf rx ins ->
    ~ In ins (app_instructions (cf_baking C)) -> ~ In ins [0xF0; 0xF1; 0xF2; 0xF3] ->
    sb_read_exact (u_buf (d_up (dd_dev x))) = [] ->
    dc_room D DDebug = Some room -> 2 <= room -> nth 2 buf 0 = 0 ->
    exists y, dstep D O x (EApdu buf rx) = (APending, y) /\
      forall out, (4 <= length out)%nat -> exists t n, debug_render y out 0 = VOk (t, n) /\ before_zero t = [0x80; ins].
  Proof.
    intros R Hc Hn1 Hn2 He Hr Hn Hz.
    destruct (debug_shown x buf rx ins room R Hc Hn1 Hn2 He Hr Hn) as (y & z & E & S1 & _).
    exists y. split; [exact E|]. intros out Ho. rewrite S1.
    destruct Hc as (_ & (Hl & _) & _ & _ & E0 & E1).
    destruct buf as [|b0 [|b1 [|b2 [|b3 buf]]]]; try discriminate Hl. cbn [nth] in E0, E1, Hz. subst b0 b1 b2.
    cbn [firstn app]. apply zero_cuts; [discriminate| |exact Ho].
    intros ->. apply Hn1. destruct (cf_baking C); left; reflexivity.
  Qed.

  (** ** Exceptions *)

  Lemma except_caught x buf rx : dcommand x buf rx 0xF1 -> 1 <= nth 2 buf 0 -> 1 <= nth 3 buf 0 ->
    dstep D O x (EApdu buf rx) = (AReply (be 8 (nth 3 buf 0) ++ [0x90; 0]), x) /\
    runs_to (catch (PThrow (nth 3 buf 0)) (fun _ => PRet 0x100000000) (fun e => PRet (code_of e))) [] (inl (nth 3 buf 0)).
  Proof.
    intros Hc H1 H2. pose proof Hc as (_ & Hb & _).
    assert (B : nth 3 buf 0 < 256) by (apply byte_ok; [exact Hb|lia]).
    split.
    - rewrite (dstep_command D O x buf rx _ Hc). cbn [N.eqb Pos.eqb]. unfold h_except.
      fold (apdu_p1 buf) (apdu_p2 buf) in *. replace (1 <=? apdu_p1 buf) with true by lia.
      unfold code_of at 2. unfold jumped. replace (apdu_p2 buf =? 0) with false by lia.
      unfold as_u16. rewrite N.mod_small by lia. rewrite error_roundtrip by lia. reflexivity.
    - set (p := catch _ _ _).
      assert (T : throws (fun e => 0 < e < 2 ^ 16) p).
      { unfold p, catch. cbn [throws]. split; [lia|]. split; intros; exact I. }
      pose proof (catch_exact p T) as X.
      replace (meaning (fun e => e) p) with (@nil N, @inl N N (nth 3 buf 0)) in X; [exact X|].
      unfold p, catch. cbn [meaning app]. rewrite error_roundtrip by lia. reflexivity.
  Qed.
  Lemma except_uncaught x buf rx : dcommand x buf rx 0xF1 -> nth 2 buf 0 = 0 -> 1 <= nth 3 buf 0 ->
    dstep D O x (EApdu buf rx) = (AReply [0; nth 3 buf 0; 0x64; 0x00], x).
  Proof.
    intros Hc H1 H2. pose proof Hc as (_ & Hb & _).
    assert (B : nth 3 buf 0 < 256) by (apply byte_ok; [exact Hb|lia]).
    rewrite (dstep_command D O x buf rx _ Hc). cbn [N.eqb Pos.eqb]. unfold h_except.
    fold (apdu_p1 buf) (apdu_p2 buf) in *. rewrite H1. cbn [N.leb N.compare].
    unfold code_of, jumped. replace (apdu_p2 buf =? 0) with false by lia.
    unfold as_u16. rewrite N.mod_small by lia. unfold exception_reply.
    rewrite N.div_small, (N.mod_small (apdu_p2 buf)) by lia. reflexivity.
  Qed.
  Lemma except_zero x buf rx : dcommand x buf rx 0xF1 -> 1 <= nth 2 buf 0 -> nth 3 buf 0 = 0 ->
    dstep D O x (EApdu buf rx) = (AReply (be 8 1 ++ [0x90; 0]), x).
  Proof.
    intros Hc H1 H2.
    rewrite (dstep_command D O x buf rx _ Hc). cbn [N.eqb Pos.eqb]. unfold h_except.
    fold (apdu_p1 buf) (apdu_p2 buf) in *. replace (1 <=? apdu_p1 buf) with true by lia.
    rewrite H2. reflexivity.
  Qed.
End Final.

(** ** Screens *)

Lemma hex_nonzero l : Forall (fun c => c <> 0) (hex l).
Proof.
  induction l as [|b l IH]; [constructor|]. unfold hex. cbn [map concat app]. fold (hex l).
  assert (D : forall d, hex_digit d <> 0) by (intros d; unfold hex_digit; destruct (d <? 10); lia).
  constructor; [apply D|]. constructor; [apply D|exact IH].
Qed.
Lemma before_zero_cstr l : before_zero l = cstr l.
Proof. induction l as [|c l IH]; [reflexivity|]. cbn [before_zero cstr]. now rewrite IH. Qed.
Lemma blind_screen_s dg out : length dg = 32%nat -> bytes_ok dg -> length out = 35%nat ->
  exists t, reads (blind_render dg out) t /\ reads_hex t = Some dg.
Proof.
  intros Ld Hb Lo. exists (hex dg). split; [|now apply hex_reads].
  set (c1 := firstn 17 dg). set (c2 := skipn 17 dg).
  exists [overwrite (hex c1 ++ [0]) out; overwrite (hex c2 ++ [0]) out].
  split; [|split; [discriminate|]].
  - cbn [map concat]. rewrite !before_zero_cstr, !cstr_overwrite, app_nil_r by apply hex_nonzero.
    unfold hex. rewrite <- concat_app, <- map_app. unfold c1, c2. now rewrite firstn_skipn.
  - intros i Hi. cbn [length] in Hi. unfold blind_render. rewrite Lo. cbn [Nat.leb].
    change (34 / 2)%nat with 17%nat. rewrite nth_chunk_spec by lia.
    destruct i as [|[|i]]; [| |lia].
    + unfold len. rewrite Ld. cbn [N.of_nat N.mul N.ltb N.compare]. cbn [nth length]. unfold page. cbn [N.mul N.to_nat skipn]. reflexivity.
    + unfold len. rewrite Ld. change (N.of_nat 1 * N.of_nat 17 <? N.of_nat 32) with true. cbv iota. cbn [nth length].
      unfold page. change (N.to_nat (N.of_nat 1 * N.of_nat 17)) with 17%nat. change (N.to_nat (N.of_nat 17)) with 17%nat. fold c2.
      rewrite (firstn_all2 c2) by (unfold c2; rewrite skipn_length; lia). reflexivity.
Qed.
Lemma blind_screen_x dg out : length dg = 32%nat -> bytes_ok dg -> (66 <= length out)%nat ->
  exists t, reads (blind_render dg out) t /\ reads_hex t = Some dg.
Proof.
  intros Ld Hb Lo. exists (hex dg). split; [|now apply hex_reads].
  exists [overwrite (hex dg ++ [0]) out].
  split; [|split; [discriminate|]].
  - cbn [map concat]. now rewrite before_zero_cstr, cstr_overwrite, app_nil_r by apply hex_nonzero.
  - intros i Hi. cbn [length] in Hi. unfold blind_render.
    destruct (length out) as [|[|[|m]]]; try lia. replace (S (S m) <=? 64)%nat with false by lia.
    destruct i as [|i]; [reflexivity|lia].
Qed.

(** ** Examples *)

Definition dev_demo : dconfig := mkDC demo_config (fun _ => Some 200).
(** A state of each kind: an authorised key and a watermark; an abandoned upload. *)
Definition dev_at (es : list event) : ddev := snd (drun dev_demo demo_oracles (dd_fresh [] []) es).
Lemma ready_at es : forallb event_okb es = true ->
  match dd_view (dev_at es), d_ui (dd_dev (dev_at es)), d_ufaults (dd_dev (dev_at es)) with None, None, [] => true | _, _, _ => false end = true ->
  ready dev_demo demo_oracles (dev_at es).
Proof.
  intros He H. split; [exists [], [], es; split; [now apply events_okb_ok|reflexivity]|].
  destruct (dd_view (dev_at es)); [discriminate|]. destruct (d_ui (dd_dev (dev_at es))); [discriminate|].
  destruct (d_ufaults (dd_dev (dev_at es))); [auto|discriminate].
Qed.
Definition left_over : list event := demo_before ++ [send 0xF0 0 7 [1; 2; 3]].
Lemma dev_hash_case : ready dev_demo demo_oracles (dev_at left_over) /\
  carries 0xF0 [1; 2; 3] [4; 5; 6; 7] (pkt 0xF0 0 [1; 2; 3]) [pkt 0xF0 1 [4; 5]] (pkt 0xF0 2 [6; 7]) /\
  exists h, o_sha256 demo_oracles [1; 2; 3; 4; 5; 6; 7] = Some h /\ length h = 32%nat /\
    fst (drun dev_demo demo_oracles (dev_at left_over) (map sent [pkt 0xF0 0 [1; 2; 3]; pkt 0xF0 1 [4; 5]; pkt 0xF0 2 [6; 7]]))
    = [AReply [0x90; 0]; AReply [0x90; 0]; AReply (h ++ [0x90; 0])].
Proof.
  split; [apply ready_at; vm_compute; reflexivity|]. split.
  - split; [apply pkt_ok; vm_compute; reflexivity|].
    split; [constructor; [apply pkt_ok; vm_compute; reflexivity|constructor]|].
    split; [apply pkt_ok; vm_compute; reflexivity|]. split; [reflexivity|]. split; [reflexivity|].
    apply Nat.leb_le. vm_compute. reflexivity.
  - eexists. split; [reflexivity|]. split; vm_compute; reflexivity.
Qed.
Definition blind_last : bytes * N := pkt 0xF3 2 (endo_at 1500000).
Lemma blind_request_case : request 0xF3 demo_key (endo_at 1500000) (naming 0xF3) [] blind_last.
Proof.
  split; [apply pkt_ok; vm_compute; reflexivity|]. split; [constructor|].
  split; [apply pkt_ok; vm_compute; reflexivity|]. split; [apply naming_names|].
  split; [vm_compute; reflexivity|]. apply Nat.leb_le. vm_compute. reflexivity.
Qed.
Lemma blind_case : ready dev_demo demo_oracles (dev_at left_over) /\
  request 0xF3 demo_key (endo_at 1500000) (naming 0xF3) [] blind_last /\
  (exists dg s, o_blake2b demo_oracles 32 (endo_at 1500000) = Some dg /\
     o_sign demo_oracles (fst demo_key) (snd demo_key) dg = Some s /\
     dc_room dev_demo (DBlind true dg (endo_at 1500000)) = Some 200) /\
  Forall is_apdu [send 0x10 0 0 []].
Proof.
  split; [apply ready_at; vm_compute; reflexivity|]. split; [exact blind_request_case|].
  split; [|repeat constructor]. eexists _, _. split; [reflexivity|]. split; [reflexivity|]. reflexivity.
Qed.

(** Two endorsements of the same level, of different blocks, with the authorised key. *)
Definition endo_other : bytes := 0x02 :: enc_emmy_endo 0x7A06A770 (demo_hash 6) 1500000 [7].
Definition blind_request (data : bytes) : list event := [send 0xF3 0 0 (path_serialize demo_path); send 0xF3 2 0 data].
Definition twice_blind : list event :=
  demo_before ++ blind_request (endo_at 1500000) ++ [EApprove] ++ blind_request endo_other ++ [EApprove].
Lemma twice_blind_facts : Forall event_ok twice_blind /\
  map (fun r => (bl_key r, bl_data r)) (dd_log (dev_at twice_blind)) = [(demo_key, endo_other); (demo_key, endo_at 1500000)] /\
  option_map (fun r => match r with RData p => match key_parse p with AOk (Some k) => Some k | _ => None end | _ => None end)
    (wear_read (d_key (dd_dev (dev_at twice_blind)))) = Some (Some demo_key) /\
  signed_pos endo_other = Some (PEmmy 1500000 true) /\ signed_pos (endo_at 1500000) = Some (PEmmy 1500000 true).
Proof.
  split; [apply events_okb_ok; vm_compute; reflexivity|]. split; [vm_compute; reflexivity|].
  split; [vm_compute; reflexivity|]. split; vm_compute; reflexivity.
Qed.
Lemma blind_conflict : ~ (forall D O f u es k a b, Forall event_ok es ->
  let x := snd (drun D O (dd_fresh f u) es) in
  stored_key (dd_dev x) k -> In a (dd_log x) -> In b (dd_log x) -> bl_key a = k -> bl_key b = k ->
  bl_data a <> bl_data b -> ~ conflict (bl_data a) (bl_data b)).
Proof.
  intros H. destruct twice_blind_facts as (He & El & Ek & Ea & Eb).
  assert (H' : forall es k a b, Forall event_ok es -> stored_key (dd_dev (dev_at es)) k ->
    In a (dd_log (dev_at es)) -> In b (dd_log (dev_at es)) -> bl_key a = k -> bl_key b = k ->
    bl_data a <> bl_data b -> ~ conflict (bl_data a) (bl_data b)) by (intros es k a b; exact (H dev_demo demo_oracles [] [] es k a b)).
  clear H. specialize (H' twice_blind demo_key). rename H' into H. revert H El Ek. generalize (dev_at twice_blind). intros x H El Ek.
  destruct (dd_log x) as [|a [|b [|c l]]] eqn:L; try discriminate El.
  cbn [map] in El.
  assert (G : forall (k1 k2 k3 k4 : key) (d1 d2 d3 d4 : bytes), [(k1, d1); (k2, d2)] = [(k3, d3); (k4, d4)] ->
    k1 = k3 /\ d1 = d3 /\ k2 = k4 /\ d2 = d4) by (intros ? ? ? ? ? ? ? ? E; inversion E; auto).
  destruct (G _ _ _ _ _ _ _ _ El) as (Ka & Da & Kb & Db).
  apply (H a b He).
  - destruct (wear_read (d_key (dd_dev x))) as [[p| |]|] eqn:W; try discriminate Ek; cbn [option_map] in Ek.
    exists p. split; [exact W|]. destruct (key_parse p) as [[k|]|]; congruence.
  - left. reflexivity.
  - right. left. reflexivity.
  - exact Ka.
  - exact Kb.
  - rewrite Da, Db. intros E. vm_compute in E. discriminate E.
  - exists (PEmmy 1500000 true). rewrite Da, Db. auto.
Qed.

(** An ordinary history, which signs. *)
Lemma ordinary_case : Forall (ordinary (cf_baking (dc_conf dev_demo))) (demo_before ++ demo_after) /\
  length (d_log (dd_dev (dev_at (demo_before ++ demo_after)))) = 3%nat.
Proof.
  split; [|vm_compute; reflexivity].
  apply Forall_forall. intros e He. unfold ordinary.
  assert (T : forallb (fun e => match e with EApdu buf _ => existsb (N.eqb (nth 1 buf 0)) (app_instructions true) | _ => true end)
                (demo_before ++ demo_after) = true) by (vm_compute; reflexivity).
  rewrite forallb_forall in T. specialize (T e He). destruct e; auto. intros _.
  apply existsb_exists in T as (y & Hy & E). apply N.eqb_eq in E. now subst y.
Qed.
Lemma dcommand_at es ins p1 p2 payload :
  match dd_view (dev_at es), d_ui (dd_dev (dev_at es)) with None, None => true | _, _ => false end
  && apdu_okb (apdu ins p1 p2 payload) && (5 + len payload <=? 260) = true ->
  dcommand (dev_at es) (apdu ins p1 p2 payload) (5 + len payload) ins.
Proof.
  intros H. apply andb_prop in H as [H H3]. apply andb_prop in H as [H1 H2].
  destruct (dd_view (dev_at es)) eqn:V; [discriminate|]. destruct (d_ui (dd_dev (dev_at es))) eqn:U; [discriminate|].
  apply N.leb_le in H3.
  split; [exact V|]. split; [now apply apdu_okb_ok|]. split; [exact U|]. split; [lia|]. split; reflexivity.
Qed.
Lemma developers_case : event_ok (send 0xF3 0 0 (path_serialize demo_path)) /\
  developers true (dev_at demo_before) (send 0xF3 0 0 (path_serialize demo_path)).
Proof.
  split; [apply apdu_okb_ok; vm_compute; reflexivity|].
  exists 0xF3. split; [apply dcommand_at; vm_compute; reflexivity|].
  intros H. apply app_not_dev in H. vm_compute in H. discriminate.
Qed.
(** A block is signed, then a blind signature is made, then a later message is signed and
    an earlier one refused. *)
Definition mixed_after : list event :=
  send_message 4 demo_block ++ blind_request (endo_at 7) ++ [EApprove] ++ send_message 0x0F demo_tb_block ++ send_message 4 demo_block.
Lemma mixed_case : Forall event_ok (demo_before ++ mixed_after) /\
  dno_reset dev_demo demo_oracles (dev_at demo_before) mixed_after /\
  map (fun g => signed_pos (sg_data g)) (rev (d_log (dd_dev (dev_at (demo_before ++ mixed_after)))))
  = [Some (PEmmy 1500000 false); Some (PTB 2500000 3 KBlock)] /\
  map bl_data (dd_log (dev_at (demo_before ++ mixed_after))) = [endo_at 7].
Proof.
  split; [apply events_okb_ok; vm_compute; reflexivity|]. split; [|split; vm_compute; reflexivity].
  assert (G : forall es x, (fix go x es := match es with [] => true | e :: es' =>
      negb (resetsb demo_config (dd_dev x) e) && go (snd (dstep dev_demo demo_oracles x e)) es' end) x es = true ->
      dno_reset dev_demo demo_oracles x es).
  { induction es as [|e es IH]; intros x H; cbn [dno_reset]; [exact I|].
    apply andb_prop in H as [H1 H2]. split; [|now apply IH].
    intros [_ R]. assert (N1 : no_resetb demo_config demo_oracles (dd_dev x) [e] = true).
    { cbn [no_resetb]. rewrite H1. reflexivity. }
    apply no_resetb_ok in N1. destruct N1 as [N1 _]. exact (N1 R). }
  apply G. vm_compute. reflexivity.
Qed.

Definition echo_text : bytes := map N.of_nat (seq 65 20).
Lemma echo_case : dcommand (dev_at []) (apdu 0xF2 0 0 echo_text) (5 + len echo_text) 0xF2 /\
  pay (apdu 0xF2 0 0 echo_text) = echo_text /\ length echo_text = 20%nat.
Proof. split; [apply dcommand_at; vm_compute; reflexivity|]. split; reflexivity. Qed.
Lemma echo_bad_case : dcommand (dev_at []) (apdu 0xF2 0 0 [65]) 6 0xF2 /\
  dcommand (dev_at []) (apdu 0xF2 0 0 (repeat 65 35)) 40 0xF2.
Proof.
  split; [apply (dcommand_at [] 0xF2 0 0 [65])|apply (dcommand_at [] 0xF2 0 0 (repeat 65 35))]; vm_compute; reflexivity.
Qed.
Lemma debug_case : ready dev_demo demo_oracles (dev_at demo_before) /\
  dcommand (dev_at demo_before) (apdu 0x55 1 2 [3; 4]) 7 0x55 /\
  ~ In 0x55 (app_instructions true) /\ ~ In 0x55 [0xF0; 0xF1; 0xF2; 0xF3] /\
  sb_read_exact (u_buf (d_up (dd_dev (dev_at demo_before)))) = [] /\
  debug_render (snd (dstep dev_demo demo_oracles (dev_at demo_before) (send 0x55 1 2 [3; 4]))) (zeros 35) 0
  = VOk ([0x80; 0x55; 1; 2; 2; 3; 4] ++ zeros 28, 1).
Proof.
  split; [apply ready_at; vm_compute; reflexivity|].
  split; [apply (dcommand_at demo_before 0x55 1 2 [3; 4]); vm_compute; reflexivity|].
  split; [cbn [In app_instructions]; lia|]. split; [cbn [In]; lia|].
  split; vm_compute; reflexivity.
Qed.
Lemma debug_stale : ~ (forall D O x buf rx ins room, ready D O x -> dcommand x buf rx ins ->
  ~ In ins (app_instructions (cf_baking (dc_conf D))) -> ~ In ins [0xF0; 0xF1; 0xF2; 0xF3] ->
  dc_room D DDebug = Some room -> 2 <= room ->
  exists y, dstep D O x (EApdu buf rx) = (APending, y) /\
    forall out page, debug_render y out page = ui_message (firstn 4 buf ++ [len (pay buf)] ++ pay buf) out page).
Proof.
  intros H.
  destruct (H dev_demo demo_oracles (dev_at left_over) (apdu 0x55 1 2 [3; 4]) 7 0x55 200) as (y & E & S1).
  - apply ready_at; vm_compute; reflexivity.
  - apply (dcommand_at left_over 0x55 1 2 [3; 4]); vm_compute; reflexivity.
  - cbn [In app_instructions dev_demo dc_conf demo_config cf_baking]; lia.
  - cbn [In]; lia.
  - reflexivity.
  - lia.
  - specialize (S1 (zeros 35) 0).
    assert (T : debug_render (snd (dstep dev_demo demo_oracles (dev_at left_over) (EApdu (apdu 0x55 1 2 [3; 4]) 7))) (zeros 35) 0
      = VOk ([7; 1; 2; 3; 0x80; 0x55; 1; 2; 2; 3; 4] ++ zeros 24, 1)) by (vm_compute; reflexivity).
    rewrite E in T. cbn [snd] in T. rewrite S1 in T. vm_compute in T. discriminate T.
Qed.
Lemma debug_cut_case : ready dev_demo demo_oracles (dev_at []) /\
  dcommand (dev_at []) (apdu 0x55 0 2 [3; 4]) 7 0x55 /\ nth 2 (apdu 0x55 0 2 [3; 4]) 0 = 0 /\
  sb_read_exact (u_buf (d_up (dd_dev (dev_at [])))) = [].
Proof.
  split; [apply ready_at; vm_compute; reflexivity|].
  split; [apply (dcommand_at [] 0x55 0 2 [3; 4]); vm_compute; reflexivity|]. split; vm_compute; reflexivity.
Qed.
Lemma except_case : dcommand (dev_at []) (apdu 0xF1 1 5 []) 5 0xF1 /\ dcommand (dev_at []) (apdu 0xF1 0 5 []) 5 0xF1 /\
  dcommand (dev_at []) (apdu 0xF1 1 0 []) 5 0xF1.
Proof.
  split; [apply (dcommand_at [] 0xF1 1 5 []); vm_compute; reflexivity|].
  split; [apply (dcommand_at [] 0xF1 0 5 []); vm_compute; reflexivity|].
  apply (dcommand_at [] 0xF1 1 0 []); vm_compute; reflexivity.
Qed.
Lemma blind_screen_case : length (firstn 32 (map N.of_nat (seq 1 40))) = 32%nat /\
  blind_render (map N.of_nat (seq 1 32)) (zeros 35) 1 = VOk (hex (map N.of_nat (seq 18 15)) ++ zeros 5, 2).
Proof. split; [reflexivity|vm_compute; reflexivity]. Qed.
