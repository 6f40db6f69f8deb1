(** Consensus signatures over histories. *)
From Coq Require Import List NArith ZArith Lia Bool Arith Sorted ZifyBool ZifyNat ZifyN.
From Verif Require Import Base BaseFacts Flash FlashFacts Codecs CodecsSpec CodecsFacts
  Upload UploadSpec UploadFacts Baking BakingSpec BakingFacts Operations Oracles Address
  Device DeviceSpec DeviceFacts.
Import ListNotations.
Open Scope N_scope.

(** ** The upload buffer holds bytes *)

Definition up_bytes (u : ustate) : Prop := bytes_ok (sb_ram (u_buf u)) /\ bytes_ok (sb_flash (u_buf u)).

Lemma blit_ok i src dst : bytes_ok src -> bytes_ok dst -> bytes_ok (blit i src dst).
Proof.
  intros. unfold blit. rewrite !bytes_ok_app. auto using bytes_ok_firstn, bytes_ok_skipn.
Qed.
Lemma nvm_blit_ok i src dst f : bytes_ok src -> bytes_ok dst -> up_fault_ok f ->
  bytes_ok (fst (nvm_blit i src dst f)).
Proof.
  intros S D F. unfold nvm_blit. cbn [fst].
  destruct f as [|[| |p]|[| |p]]; cbn in F; auto using blit_ok;
    apply bytes_ok_firstn, bytes_ok_app; auto.
Qed.
Lemma next_fault_forall (P : fault -> Prop) s f s' : P WOk -> Forall P s -> next_fault s = (f, s') -> P f /\ Forall P s'.
Proof.
  intros W F E. destruct s; inversion E; subst; auto. inversion F; auto.
Qed.
Lemma sb_write_bytes RAM FLASH b l s : bytes_ok (sb_ram b) -> bytes_ok (sb_flash b) -> bytes_ok l ->
  Forall up_fault_ok s ->
  let '(b', _, s') := sb_write RAM FLASH b l s in
  bytes_ok (sb_ram b') /\ bytes_ok (sb_flash b') /\ Forall up_fault_ok s'.
Proof.
  intros R F L S.
  assert (W : forall b cnt s, bytes_ok (sb_ram b) -> bytes_ok (sb_flash b) -> Forall up_fault_ok s ->
    let '(b', _, s') := sb_write_flash FLASH b cnt l s in
    bytes_ok (sb_ram b') /\ bytes_ok (sb_flash b') /\ Forall up_fault_ok s').
  { clear R F S s b. intros b cnt s R F S. unfold sb_write_flash.
    destruct (FLASH <? cnt + length l)%nat; auto.
    destruct (next_fault s) as [f s'] eqn:E.
    apply (next_fault_forall up_fault_ok) in E as [Ef Es]; [|exact I|exact S].
    pose proof (nvm_blit_ok cnt l (sb_flash b) f L F Ef) as X.
    destruct (nvm_blit cnt l (sb_flash b) f) as [fl r]. cbn [sb_ram sb_flash]. auto. }
  unfold sb_write. destruct (sb_state b) as [cnt|cnt]; [|now apply W].
  destruct (RAM <? cnt + length l)%nat.
  - destruct (FLASH <? length (sb_ram b))%nat; auto.
    destruct (next_fault s) as [f s'] eqn:E.
    apply (next_fault_forall up_fault_ok) in E as [Ef Es]; [|exact I|exact S].
    pose proof (nvm_blit_ok 0 (sb_ram b) (sb_flash b) f R F Ef) as X.
    destruct (nvm_blit 0 (sb_ram b) (sb_flash b) f) as [fl r]. cbn [fst] in X.
    destruct r; cbn [sb_ram sb_flash]; auto.
    apply W; auto.
  - cbn [sb_ram sb_flash]. auto using blit_ok.
Qed.
Lemma u_write_bytes u l s : up_bytes u -> bytes_ok l -> Forall up_fault_ok s ->
  let '(_, u', s') := u_write u l s in up_bytes u' /\ Forall up_fault_ok s'.
Proof.
  intros [R F] L S. unfold u_write.
  pose proof (sb_write_bytes RAM_CAP FLASH_CAP _ l s R F L S) as X.
  destruct (sb_write RAM_CAP FLASH_CAP (u_buf u) l s) as [[b r] s'].
  destruct r; unfold up_bytes; cbn [u_buf]; tauto.
Qed.
Lemma read_exact_ok u : up_bytes u -> bytes_ok (sb_read_exact (u_buf u)).
Proof. intros [R F]. unfold sb_read_exact. destruct (sb_state _); auto using bytes_ok_firstn. Qed.

Definition uo_ok (o : upload_out) : Prop := bytes_ok (uo_first o) /\ bytes_ok (uo_data o).

Lemma apdu_p2_ok buf : apdu_ok buf -> bytes_ok [apdu_p2 buf].
Proof.
  intros [L B]. constructor; [|constructor]. unfold bytes_ok in B. rewrite Forall_forall in B.
  apply B, nth_In. lia.
Qed.

Lemma upload_bytes a buf u s : apdu_ok buf -> up_bytes u -> Forall up_fault_ok s ->
  let '(r, u', s') := upload a buf u s in
  up_bytes u' /\ Forall up_fault_ok s' /\
  match r with Ok (Some o) => uo_ok o | _ => True end.
Proof.
  intros Hb U S. unfold upload.
  destruct (packet_of_p1 (apdu_p1 buf)) as [pt|]; [|auto].
  destruct (apdu_payload_260 buf Hb) as (pl & -> & _ & _ & Hpl).
  destruct (is_init pt).
  - set (u1 := mkU _ _ _).
    assert (U1 : up_bytes u1) by exact U.
    pose proof (u_write_bytes u1 [apdu_p2 buf] s U1 (apdu_p2_ok _ Hb) S) as X.
    destruct (u_write u1 [apdu_p2 buf] s) as [[r u2] s2]. destruct X as [U2 S2].
    destruct r as [[]|e| |]; auto.
    set (u3 := mkU (u_buf u2) (u_lock u2) (len pl)).
    pose proof (u_write_bytes u3 pl s2 U2 Hpl S2) as X.
    destruct (u_write u3 pl s2) as [[r u4] s4]. destruct X as [U4 S4].
    destruct r as [[]|e| |]; auto.
  - destruct (lock_acquire acc_eqb (u_lock u) a); auto.
    cbn [u_write_payload].
    pose proof (u_write_bytes u pl s U Hpl S) as X.
    destruct (u_write u pl s) as [[r u2] s2]. destruct X as [U2 S2].
    destruct r as [[]|e| |]; auto.
    destruct (is_next pt); auto. repeat split; auto; try apply U2.
    unfold u_split. pose proof (read_exact_ok _ U2) as R.
    destruct (sb_read_exact (u_buf u2)) as [|p2 rest]; auto.
    destruct (len rest <? u_init_len u2); auto.
    inversion R; subst. split; cbn [uo_first uo_data]; auto using bytes_ok_firstn, bytes_ok_skipn.
Qed.
Lemma drop_bytes a u : up_bytes u -> up_bytes (upload_drop a u).
Proof. intros [R F]. unfold upload_drop. destruct (lock_acquire _ _ _); split; auto. Qed.
Lemma restart_bytes u : up_bytes u -> up_bytes (u_restart u).
Proof. intros [R F]. split; cbn; auto using zeros_ok. Qed.

(** ** Invariant of the main watermark *)

(** Counters of the main slot are at most [B]; since [base] the consensus positions
    signed are increasing; whatever the main watermark reads as is at or after them
    and after all of [lows]. *)
Record inv (B : N) (lows : list cpos) (base : list sigrec) (d : dev) : Prop := {
  inv_wf : wf_wear B (d_main d);
  inv_faults : Forall slot_fault_ok (d_faults d);
  inv_up : up_bytes (d_up d);
  inv_ufaults : Forall up_fault_ok (d_ufaults d);
  inv_log : exists l ps, d_log d = rev l ++ base /\ consensus_positions l = map Some ps /\
    StronglySorted cpos_lt ps /\
    (forall p, wear_reads (d_main d) p ->
       Forall (fun q => cpos_le q (wm_pos (wm_parse p))) (lows ++ ps))
}.

Lemma slot_fault_safe f : slot_fault_ok f -> fault_safe f.
Proof. destruct f as [|[| |p]|[| |p]]; cbn; tauto. Qed.

Lemma inv_mono B B' lows base d : B <= B' -> inv B lows base d -> inv B' lows base d.
Proof. intros H [A1 A2 A3 A4 A5]. constructor; auto. eapply wf_mono; eauto. Qed.

Lemma inv_restart B lows base d : inv B lows base d -> inv B lows base (restart d).
Proof.
  intros [A1 A2 A3 A4 (l & ps & A5 & A6 & A7 & A8)]. constructor; cbn; auto using wf_restart, restart_bytes.
  exists l, ps. repeat split; auto. intros p H. apply A8. eapply reads_restart; eauto.
Qed.

(** Frames that neither write the main watermark nor sign consensus messages. *)
Definition quiet (E : effects) : Prop :=
  ~ e_slot E SMain /\ forall g, e_sig E g -> is_consensus g = false.

Lemma consensus_positions_app a b :
  consensus_positions (a ++ b) = consensus_positions a ++ consensus_positions b.
Proof. unfold consensus_positions. now rewrite filter_app, map_app. Qed.
Lemma consensus_positions_none l : Forall (fun g => is_consensus g = false) l -> consensus_positions l = [].
Proof. induction 1; cbn; auto. unfold consensus_positions in *. cbn. now rewrite H. Qed.

Lemma frame_inv E B lows base d d' : quiet E -> frame E d d' ->
  up_bytes (d_up d') -> Forall up_fault_ok (d_ufaults d') ->
  inv B lows base d -> inv B lows base d'.
Proof.
  intros [Q1 Q2] F U UF [A1 A2 A3 A4 (l & ps & A5 & A6 & A7 & A8)].
  pose proof (fr_slot _ _ _ F SMain Q1) as W. cbn [get_slot] in W.
  destruct (fr_log _ _ _ F) as (l' & El & Fl). destruct (fr_faults _ _ _ F) as (fs & Ef).
  constructor; auto.
  - eapply weq_wf; eauto.
  - rewrite Ef in A2. now apply Forall_app in A2.
  - exists (l ++ rev l'), ps. repeat split; auto.
    + now rewrite El, A5, rev_app_distr, rev_involutive, app_assoc.
    + rewrite consensus_positions_app, A6, (consensus_positions_none (rev l')); [apply app_nil_r|].
      apply Forall_rev. eapply Forall_impl; [|exact Fl]. auto.
    + intros p Hp. apply A8. unfold wear_reads in *. now rewrite <- (weq_read _ _ W).
Qed.

(** The state the app continues in. *)
Definition after {A} (x : outcome A * dev) : dev :=
  match x with (Cut, d) | (Panic, d) => restart d | (_, d) => d end.
Definition holds_after {A} (P : dev -> Prop) (x : outcome A * dev) : Prop :=
  match x with (Cut, d) => P (restart d) | (_, d) => P d end.

Lemma inv_set_path B lows base d p : inv B lows base d -> inv B lows base (set_path p d).
Proof. intros [A1 A2 A3 A4 A5]. destruct d; constructor; auto. Qed.
Lemma inv_set_ui B lows base d p : inv B lows base d -> inv B lows base (set_ui p d).
Proof. intros [A1 A2 A3 A4 A5]. destruct d; constructor; auto. Qed.

(** Computations that do not touch the upload state. *)
Lemma keeps_inv {A} E (m : M A) B lows base d : quiet E -> ~ e_up E -> keeps E m ->
  inv B lows base d -> inv B lows base (snd (m d)).
Proof.
  intros Q U K V. specialize (K d). destruct (fr_up _ _ _ K U) as [E1 E2].
  eapply frame_inv; eauto; [rewrite E1|rewrite E2]; apply V.
Qed.
Lemma holds_after_weak {A} (P : dev -> Prop) (x : outcome A * dev) :
  (forall d, P d -> P (restart d)) -> P (snd x) -> holds_after P x.
Proof. destruct x as [[]]; cbn; auto. Qed.

Lemma read_or_spec s e d : match read_or s e d with
  | (Ok p, d') => wear_reads (get_slot s d) p /\ wear_reads (get_slot s d') p
  | (Cut, _) => False
  | _ => True
  end.
Proof.
  unfold read_or, read_slot, bind. destruct (wear_init (get_slot s d)) as [k|] eqn:I; auto.
  destruct (wear_read_at (get_slot s d) k) eqn:R; cbn; auto.
  rewrite get_set_same. unfold wear_reads. rewrite (reads_init _ _ I).
  unfold wear_read. rewrite I, R. auto.
Qed.

Lemma preemble_parse_inv data rem p : preemble_parse data = POk rem p ->
  exists m, data = m :: rem /\ preemble_of_byte m = Some p.
Proof.
  unfold preemble_parse. intros H.
  destruct (le_u8 data) as [r b| |] eqn:E; cbn [pbind] in H; try discriminate.
  destruct (preemble_of_byte b) eqn:P; inversion H; subst.
  unfold le_u8 in E. apply be_uint_inv' in E as (a & -> & L & ->).
  destruct a as [|x [|]]; try discriminate L. exists x. split; auto.
Qed.

Section Consensus.
  Variable C : config.
  Variable O : oracles.

  Lemma read_or_log s e d : d_log (snd (read_or s e d)) = d_log d.
  Proof.
    destruct (fr_log _ _ _ (keeps_read_or eff_none s e d)) as (l & -> & F).
    destruct l; [reflexivity|]. inversion F. contradiction.
  Qed.

  (** A baking signature is made with the stored key. *)
  Lemma baking_sign_spec src dg data d :
    let (r, d') := baking_sign O src dg data d in
    (d_log d' = d_log d /\ (forall s, r <> Ok s)) \/
    (exists p k s, r = Ok s /\ wear_reads (d_key d) p /\ key_parse p = AOk (Some k) /\
       o_sign O (fst k) (snd k) dg = Some s /\ (length s <= 100)%nat /\
       d_log d' = mkSig src k dg data :: d_log d).
  Proof.
    unfold baking_sign. unfold bind at 1.
    pose proof (read_or_log SKey ExecutionError d) as E.
    pose proof (read_or_spec SKey ExecutionError d) as R.
    destruct (read_or SKey ExecutionError d) as [[x|e| |] d3]; cbn [snd] in E;
      try (left; split; [exact E|congruence]; fail).
    destruct R as [R _]. cbn [get_slot] in R.
    unfold bind. destruct (key_parse x) as [[kk|]|] eqn:K; cbn [of_ares of_option ret fail];
      try (left; split; [exact E|congruence]; fail).
    unfold ret, sign_with. destruct (o_sign O (fst kk) (snd kk) dg) as [s|] eqn:Sg;
      [|left; split; [exact E|congruence]].
    destruct (Nat.ltb_spec 100 (length s)); [left; split; [exact E|congruence]|].
    right. exists x, kk, s. rewrite <- E. destruct d3; repeat split; auto.
  Qed.

  Lemma consensus_inv B lows base p rem sh dg data m d :
    preemble_of_byte m = Some p -> data = m :: rem -> bytes_ok data -> B + 1 < 2 ^ 64 ->
    inv B lows base d ->
    holds_after (inv (B + 1) lows base) (handle_consensus O p rem sh dg data d).
  Proof.
    intros P Ed Bd HB V.
    assert (HR : forall d, inv (B + 1) lows base d -> inv (B + 1) lows base (restart d))
      by (intros; now apply inv_restart).
    assert (V1 : inv (B + 1) lows base d) by (eapply inv_mono; [|exact V]; lia).
    unfold handle_consensus. unfold bind at 1.
    pose proof (read_or_spec SMain ExecutionError d) as R.
    assert (VR : inv B lows base (snd (read_or SMain ExecutionError d))).
    { eapply keeps_inv; [| |apply (keeps_read_or eff_none)|exact V]; repeat split; cbn; tauto. }
    assert (VR1 : inv (B + 1) lows base (snd (read_or SMain ExecutionError d)))
      by (eapply inv_mono; [|exact VR]; lia).
    destruct (read_or SMain ExecutionError d) as [[hw|e| |] d1]; cbn [snd] in *;
      try (cbn [holds_after]; auto; fail).
    destruct R as [_ R]. cbn [get_slot] in R.
    destruct (consensus_check p rem (wm_parse hw)) as [[wm|e]|] eqn:K;
      [|cbn; auto..].
    pose proof (consensus_check_ok _ _ _ _ _ P K) as (Kp & Kl & Kv). rewrite <- Ed in Kp.
    pose proof (signed_pos_wm_ok _ _ Bd Kp) as Kw.
    cbn [of_ares]. unfold bind at 1, ret at 1. cbn beta iota.
    unfold write_or. unfold bind at 1. unfold bind at 1. unfold write_slot.
    cbn [get_slot].
    destruct (wear_init (d_main d1)) as [k|] eqn:I; [|cbn; auto].
    destruct (next_fault (d_faults d1)) as [f fs] eqn:F.
    destruct VR as [W1 W2 W3 W4 (l & ps & W5 & W6 & W7 & W8)].
    apply (next_fault_forall slot_fault_ok) in F as [Ff Ffs]; [|exact Logic.I|exact W2].
    assert (Hpl : payload_ok (wm_serialize wm)).
    { split; [apply wm_serialize_length|apply wm_serialize_ok]. }
    pose proof (write_step B (d_main d1) k (wm_serialize wm) f W1 HB Hpl (slot_fault_safe _ Ff) I) as S.
    destruct (wear_write_at (d_main d1) k (wm_serialize wm) f) as [w' r].
    cbn zeta in S. destruct S as (S1 & S2 & S3).
    specialize (W8 hw R). 
    assert (Dom : forall x, Forall (fun q => cpos_le q (wm_pos (wm_parse x))) (lows ++ ps) ->
      cpos_lt (wm_pos (wm_parse x)) (wm_pos wm) ->
      Forall (fun q => cpos_lt q (wm_pos wm)) (lows ++ ps)).
    { intros x X Y. eapply Forall_impl; [|exact X]. intros q Hq. exact (cpos_le_lt_trans _ _ _ Hq Y). }
    pose proof (Dom hw W8 Kl) as Below.
    assert (Bel : Forall (fun q => cpos_le q (wm_pos wm)) (lows ++ ps)).
    { eapply Forall_impl; [|exact Below]. intros q Hq. now right. }
    set (d2 := set_slot SMain w' (set_faults fs d1)) in *.
    destruct r.
    - (* written *)
      cbn beta iota. cbn [check]. unfold ret at 1. cbn beta iota.
      assert (Rd2 : forall x, wear_reads (d_main d2) x -> x = wm_serialize wm).
      { intros x Hx. unfold d2 in Hx. destruct d1; cbn in Hx.
        destruct (S3 x Hx) as [|[? _]]; [auto|discriminate]. }
      assert (V2 : inv (B + 1) lows base d2).
      { unfold d2. destruct d1; constructor; cbn in *; auto.
        exists l, ps. repeat split; auto. intros x Hx. rewrite (Rd2 x Hx), wm_round by exact Kw. exact Bel. }
      assert (W5' : d_log d2 = rev l ++ base) by (unfold d2; destruct d1; exact W5).
      unfold bind at 1.
      pose proof (keeps_baking_sign O (mkEff (fun _ => False)
        (fun g => sg_src g = SrcConsensus /\ sg_data g = data) False False (fun _ => False))
        SrcConsensus dg data ltac:(cbn; auto) d2) as FB.
      (* at most one signature is made *)
      assert (One : d_log (snd (baking_sign O SrcConsensus dg data d2)) = d_log d2 \/
        exists g, d_log (snd (baking_sign O SrcConsensus dg data d2)) = g :: d_log d2 /\
          sg_src g = SrcConsensus /\ sg_data g = data).
      { pose proof (baking_sign_spec SrcConsensus dg data d2) as X.
        destruct (baking_sign O SrcConsensus dg data d2) as [r d4]. cbn [snd].
        destruct X as [[X _]|(x & kk & s & _ & _ & _ & _ & _ & X)]; [now left|].
        right. exists (mkSig SrcConsensus kk dg data). auto. }
      assert (V3 : inv (B + 1) lows base (snd (baking_sign O SrcConsensus dg data d2))).
      { destruct V2 as [X1 X2 X3 X4 _].
        pose proof (fr_slot _ _ _ FB SMain ltac:(cbn; tauto)) as Ws. cbn [get_slot] in Ws.
        destruct (fr_up _ _ _ FB ltac:(cbn; tauto)) as [Eu Euf].
        destruct (fr_faults _ _ _ FB) as [fx Efx].
        assert (Rd3 : forall x, wear_reads (d_main (snd (baking_sign O SrcConsensus dg data d2))) x ->
                   x = wm_serialize wm).
        { intros x Hx. apply Rd2. unfold wear_reads in *. now rewrite <- (weq_read _ _ Ws). }
        constructor.
        - eapply weq_wf; eauto.
        - rewrite Efx in X2. now apply Forall_app in X2.
        - now rewrite Eu.
        - now rewrite Euf.
        - destruct One as [->|(g & -> & Gs & Gd)].
          + exists l, ps. repeat split; auto. intros x Hx. rewrite (Rd3 x Hx), wm_round by exact Kw. exact Bel.
          + exists (l ++ [g]), (ps ++ [wm_pos wm]). repeat split.
            * rewrite rev_app_distr. cbn. now rewrite W5'.
            * rewrite consensus_positions_app, map_app, W6. f_equal.
              unfold consensus_positions. cbn [filter]. unfold is_consensus. rewrite Gs. cbn [map].
              now rewrite Gd, Kp.
            * apply Forall_app in Below as [_ Below]. revert W7 Below. clear.
              induction ps; intros S F; cbn; [repeat constructor|].
              inversion S; subst. inversion F; subst. constructor; auto.
              apply Forall_app. auto.
            * intros x Hx. rewrite (Rd3 x Hx), wm_round by exact Kw. rewrite app_assoc.
              apply Forall_app. split; auto. constructor; [apply cpos_le_refl|constructor]. }
      destruct (baking_sign O SrcConsensus dg data d2) as [[s|e| |] d4]; cbn [snd] in *; cbn; auto.
    - (* error: readable only as the new watermark *)
      cbn. unfold d2. destruct d1; constructor; cbn in *; auto.
      exists l, ps. repeat split; auto. intros x Hx.
      destruct (S3 x Hx) as [->|[? _]]; [|discriminate]. rewrite wm_round by exact Kw. exact Bel.
    - (* power loss *)
      cbn. unfold d2. destruct d1; constructor; cbn in *; auto using restart_bytes.
      exists l, ps. repeat split; auto. intros x Hx.
      destruct (S3 x Hx) as [->|[_ Hx']].
      + rewrite wm_round by exact Kw. exact Bel.
      + assert (x = hw) as ->; [|exact W8].
        eapply reads_restart in Hx'; [|exact W1]. unfold wear_reads in *. congruence.
  Qed.

  Lemma inv_up_change B lows base d u s : inv B lows base d -> up_bytes u -> Forall up_fault_ok s ->
    inv B lows base (set_up u (set_ufaults s d)).
  Proof. intros [A1 A2 A3 A4 A5] U S. destruct d; constructor; auto. Qed.
  Lemma drop_inv B lows base a d : inv B lows base d ->
    inv B lows base (set_up (upload_drop a (d_up d)) d).
  Proof.
    intros [A1 A2 A3 A4 A5]. apply (drop_bytes a) in A3. destruct d; constructor; auto.
  Qed.

  Lemma with_upload_inv B B' lows base a buf f d : B <= B' -> apdu_ok buf ->
    (forall up d, uo_ok up -> inv B lows base d -> holds_after (inv B' lows base) (f up d)) ->
    inv B lows base d -> holds_after (inv B' lows base) (with_upload a buf f d).
  Proof.
    intros HB Hb Hf V. unfold with_upload, the_upload. unfold bind at 1.
    pose proof (upload_bytes a buf (d_up d) (d_ufaults d) Hb (inv_up _ _ _ _ V) (inv_ufaults _ _ _ _ V)) as X.
    destruct (upload a buf (d_up d) (d_ufaults d)) as [[r u] s]. destruct X as (Xu & Xs & Xr).
    pose proof (inv_up_change _ _ _ _ u s V Xu Xs) as V1.
    assert (V2 := inv_mono _ _ _ _ _ HB V1).
    destruct r as [[up|]|e| |]; cbn [holds_after ret]; auto; [|now apply inv_restart].
    specialize (Hf up _ Xr V1).
    destruct (f up _) as [[r|e| |] d2]; cbn [holds_after] in *; auto;
      unfold bind, drop_upload; cbn; now apply drop_inv.
  Qed.

  Lemma baker_sign_inv B lows base sh up d : B + 1 < 2 ^ 64 -> uo_ok up -> inv B lows base d ->
    holds_after (inv (B + 1) lows base) (baker_sign C O sh up d).
  Proof.
    intros HB [_ Hd] V. unfold baker_sign.
    assert (L : B <= B + 1) by lia.
    assert (HR : forall d, inv (B + 1) lows base d -> inv (B + 1) lows base (restart d))
      by (intros; now apply inv_restart).
    assert (Q : quiet eff_none) by (split; cbn; tauto).
    unfold bind at 1. destruct (curve_of_byte (uo_p2 up)) as [c|]; cbn [of_option];
      [unfold ret at 1|cbn; now apply (inv_mono B)].
    unfold bind at 1. destruct (path_read BIP32_MAX_LENGTH (uo_first up)) as [pa|]; cbn [of_option];
      [unfold ret at 1|cbn; now apply (inv_mono B)].
    unfold bind at 1.
    pose proof (keeps_inv eff_none (check_with_stored (c, pa)) B lows base d Q (fun x => x)
      (keeps_check_with_stored _ _) V) as V1.
    destruct (check_with_stored (c, pa) d) as [[ok|e| |] d1]; cbn [snd] in V1;
      try (cbn; try apply HR; now apply (inv_mono B)).
    unfold bind at 1. destruct ok; cbn [check]; [unfold ret at 1|cbn; now apply (inv_mono B)].
    unfold bind at 1, digest32. destruct (o_blake2b O 32 (uo_data up)) as [dg|]; cbn [of_option];
      [unfold ret at 1|cbn; now apply (inv_mono B)].
    destruct (preemble_parse (uo_data up)) as [rem p| |] eqn:P; try (cbn; now apply (inv_mono B)).
    apply preemble_parse_inv in P as (m & Em & Pm).
    assert (V2 := inv_mono _ _ _ _ _ L V1).
    destruct p; try (cbn; now apply (inv_mono B));
      try (eapply consensus_inv; eauto; fail).
    apply holds_after_weak; auto.
    pose proof (keeps_delegation C rem sh dg (uo_data up) d1) as K.
    unfold handle_delegation in *.
    destruct (operation_new rem) as [[br ops]|]; [|cbn; auto].
    destruct (eo_next ops) as [| | |o e]; try (cbn; auto; fail).
    destruct o; try (cbn; auto; fail); unfold show; destruct (cf_room C _); cbn; auto;
      now apply inv_set_ui.
  Qed.

  (** ** Dispatch *)

  (** Everything but RESET and the signing commands. *)
  Definition eff_other (buf : bytes) : effects :=
    mkEff (fun _ => False) (fun g => sg_src g = SrcHmac /\ cf_baking C = true /\ nth 1 buf 0 = 0x0E) False False
      (fun v => match v with
                | VAddr _ _ _ => True
                | VSign _ _ _ _ | VBakingSign _ _ _ _ _ => False
                | _ => cf_baking C = true
                end).
  Ltac others := right; right; right; split; [|first [tauto|intros [? _]; discriminate]].
  Ltac effs := split; [|split; [|split; [|split]]]; cbn; try tauto;
    try (intros v Hv; repeat match goal with H : exists _, _ |- _ => destruct H end; subst; auto).

  Lemma dispatch_kinds buf :
    (cf_baking C = true /\ nth 0 buf 0 = 0x80 /\ nth 1 buf 0 = 0x06 /\ dispatch C O buf = h_reset buf) \/
    (cf_baking C = true /\ nth 0 buf 0 = 0x80 /\ In (nth 1 buf 0) [0x04; 0x0F; 0xAF] /\
       exists sh, dispatch C O buf = h_baker_sign C O sh buf) \/
    (nth 0 buf 0 = 0x80 /\ exists sh, dispatch C O buf = h_sign C O sh buf) \/
    (keeps (eff_other buf) (dispatch C O buf) /\ ~ (cf_baking C = true /\ nth 0 buf 0 = 0x80 /\ nth 1 buf 0 = 0x06)).
  Proof.
    unfold dispatch, dispatch_common, CLA, apdu_cla, apdu_ins.
    destruct (N.eqb_spec (nth 0 buf 0) 0x80) as [E0|E0]; cbn [negb]; [|others; apply keeps_fail].
    destruct (cf_baking C) eqn:Cb.
    - destruct (N.eqb_spec (nth 1 buf 0) 0x06) as [E|E6]; [left; auto|].
      repeat match goal with
      | |- context [if ?x =? ?y then _ else _] =>
        destruct (N.eqb_spec x y) as [?E|?E];
          [ first
            [ right; right; left; split; [exact E0|eexists; reflexivity]
            | right; left; split; [reflexivity|split; [exact E0|split;
                [match goal with H : _ = _ |- In _ _ => rewrite H; cbn; tauto end|eexists; reflexivity]]]
            | others; eapply keeps_mono;
              [ |first [ apply keeps_main_hwm | apply keeps_all_hwm | apply keeps_authorize
                      | apply keeps_deauthorize | apply keeps_query | apply keeps_setup
                      | apply keeps_hmac | apply keeps_legacy_version | apply keeps_get_public
                      | apply keeps_prompt | apply keeps_get_address | apply keeps_git
                      | apply keeps_version ] ];
              effs ] | ]
      end.
      others. apply keeps_fail.
    - repeat match goal with
      | |- context [if ?x =? ?y then _ else _] =>
        destruct (N.eqb_spec x y) as [?E|?E];
          [ first
            [ right; right; left; split; [exact E0|eexists; reflexivity]
            | others; eapply keeps_mono;
              [ |first [ apply keeps_legacy_version | apply keeps_get_public
                      | apply keeps_prompt | apply keeps_get_address | apply keeps_git
                      | apply keeps_version ] ];
              effs ] | ]
      end.
      others; apply keeps_fail.
  Qed.

  Lemma h_reset_short buf d : apdu_ok buf -> ~ 4 <= nth 4 buf 0 -> h_reset buf d = (Err WrongLength, d).
  Proof.
    intros Hb S. unfold h_reset, the_payload. destruct (apdu_payload_260 buf Hb) as (pl & -> & Ep & _).
    unfold bind at 1. cbn [of_option ret]. unfold bind at 1.
    replace (4 <=? length pl)%nat with false; [reflexivity|].
    rewrite Ep, firstn_length. lia.
  Qed.

  Lemma finish_inv B lows base room x : holds_after (inv B lows base) x ->
    inv B lows base (snd (finish room x)).
  Proof.
    assert (HR : forall d, inv B lows base d -> inv B lows base (restart d))
      by (intros; now apply inv_restart).
    destruct x as [[[data|]|e| |] d]; cbn; intros H; auto;
      match goal with |- context [if ?b then _ else _] => destruct b end; cbn; auto.
  Qed.

  Lemma bind_ret_after {A B} (P : dev -> Prop) (m : M A) (f : A -> B) d :
    holds_after P (m d) -> holds_after P (bind m (fun a => ret (f a)) d).
  Proof. unfold bind. destruct (m d) as [[]]; auto. Qed.

  Lemma decide_inv B lows base f d :
    (forall v room, d_ui d = Some v -> holds_after (inv B lows base) (f v room (set_ui None d))) ->
    inv B lows base d -> inv B lows base (snd (decide C f d)).
  Proof.
    intros Hf V. unfold decide. destruct (d_ui d) as [v|] eqn:U; [|exact V].
    apply finish_inv, bind_ret_after, Hf. reflexivity.
  Qed.

  Lemma step_inv B lows base d e : event_ok e -> ~ resets C d e -> B + 1 < 2 ^ 64 ->
    inv B lows base d -> inv (B + 1) lows base (snd (step C O d e)).
  Proof.
    intros He Hr HB V.
    assert (HR : forall B d, inv B lows base d -> inv B lows base (restart d))
      by (intros; now apply inv_restart).
    assert (L : B <= B + 1) by lia.
    assert (V1 := inv_mono _ _ _ _ _ L V).
    destruct e as [buf rx| | | |]; cbn [step].
    - cbn [event_ok resets] in He, Hr.
      destruct (d_ui d) eqn:Ui; [exact V1|]. apply finish_inv.
      destruct (apdu_read_ok buf rx) eqn:Rx; [|exact V1].
      destruct (dispatch_kinds buf) as [(Cb & E0 & E1 & ->)|[(Cb & E0 & E1 & sh & ->)|[(E0 & sh & ->)|[K _]]]].
      + assert (Short : ~ 4 <= nth 4 buf 0).
        { intros X. apply Hr. unfold command, apdu_read_ok, len in *. destruct He as [He _].
          rewrite He in Rx. repeat split; auto; lia. }
        rewrite h_reset_short by assumption. exact V1.
      + apply (with_upload_inv B); auto. intros. now apply baker_sign_inv.
      + apply (with_upload_inv B); auto. intros up d' Uo V'.
        apply holds_after_weak; auto.
        eapply keeps_inv; [| |apply keeps_start_sign|now apply (inv_mono B)]; [split|]; cbn; tauto.
      + apply holds_after_weak; auto.
        eapply keeps_inv; [| |exact K|exact V1]; [split|]; cbn; try tauto.
        intros g [E _]. unfold is_consensus. now rewrite E.
    - apply decide_inv; auto. intros v room U. apply holds_after_weak; auto.
      assert (VU := inv_set_ui _ _ _ _ None V1).
      cbn [resets] in Hr. rewrite U in Hr.
      eapply keeps_inv; [| |apply keeps_accept|exact VU]; [split|]; destruct v; cbn; try tauto; try discriminate;
        intros g [E _]; unfold is_consensus; now rewrite E.
    - apply decide_inv; auto. intros v room U. apply holds_after_weak; auto.
      assert (VU := inv_set_ui _ _ _ _ None V1).
      destruct v; try exact VU. cbn. now apply inv_set_path.
    - apply decide_inv; auto. intros v room U. cbn. now apply inv_set_ui.
    - apply HR, V1.
  Qed.

  Lemma run_inv es : forall B lows base d, Forall event_ok es -> no_reset C O d es ->
    B + len es < 2 ^ 64 -> inv B lows base d ->
    inv (B + len es) lows base (snd (run C O d es)).
  Proof.
    induction es as [|e es IH]; intros B lows base d He Hr HB V; cbn [run].
    - rewrite N.add_0_r. exact V.
    - inversion He; subst. destruct Hr as [R1 R2].
      assert (len (e :: es) = 1 + len es) as E by (unfold len; cbn [length]; lia). rewrite E in *.
      pose proof (step_inv B lows base d e H1 R1 ltac:(lia) V) as V1.
      destruct (step C O d e) as [a d1]. cbn [snd] in *.
      specialize (IH (B + 1) lows base d1 H2 R2 ltac:(lia) V1).
      destruct (run C O d1 es). cbn [snd] in *. now rewrite N.add_assoc.
  Qed.

  (** ** Well-formed devices *)

  (** [W B w]: area [w] is in order and its counters are at most [B]; [FP]: the
      faults considered. *)
  Section WellFormed.
  Variables (W : N -> wear -> Prop) (FP : fault -> Prop).
  Hypothesis W_mono : forall B B' w, B <= B' -> W B w -> W B' w.
  Hypothesis W_restart : forall B w, W B w -> W B (wear_restart w).
  Hypothesis W_weq : forall B w w', weq w w' -> W B w -> W B w'.
  Hypothesis W_write : forall B w k pl f, W B w -> B + 1 < 2 ^ 64 -> payload_ok pl -> FP f ->
    wear_init w = Some k ->
    let (w1, r) := wear_write_at w k pl f in
    W (B + 1) (match r with WLost => wear_restart w1 | _ => w1 end).
  Hypothesis W_fresh : forall n, (0 < n)%nat -> W 0 (wear_fresh n).
  Hypothesis FP_ok : FP WOk.

  (** Counters of slot [s] are at most [b s]. *)
  Record dok (b : slot -> N) (d : dev) : Prop := {
    dok_wf : forall s, W (b s) (get_slot s d);
    dok_faults : Forall FP (d_faults d);
    dok_up : up_bytes (d_up d);
    dok_ufaults : Forall up_fault_ok (d_ufaults d)
  }.

  Lemma dok_mono b b' d : (forall s, b s <= b' s) -> dok b d -> dok b' d.
  Proof. intros H [A1 A2 A3 A4]. constructor; auto. intros s. eapply W_mono; eauto. Qed.
  Lemma dok_restart b d : dok b d -> dok b (restart d).
  Proof.
    intros [A1 A2 A3 A4]. constructor; cbn; auto using restart_bytes.
    intros s. rewrite get_slot_restart. now apply W_restart.
  Qed.
  Lemma dok_frame E b d d' : (forall s, ~ e_slot E s) -> frame E d d' ->
    up_bytes (d_up d') -> Forall up_fault_ok (d_ufaults d') -> dok b d -> dok b d'.
  Proof.
    intros S F U UF [A1 A2 A3 A4]. destruct (fr_faults _ _ _ F) as (fs & Ef). constructor; auto.
    - intros s. eapply W_weq; [apply (fr_slot _ _ _ F), S|apply A1].
    - rewrite Ef in A2. now apply Forall_app in A2.
  Qed.
  Lemma keeps_dok {A} E (m : M A) b d : (forall s, ~ e_slot E s) -> ~ e_up E -> keeps E m ->
    dok b d -> dok b (snd (m d)).
  Proof.
    intros S U K V. specialize (K d). destruct (fr_up _ _ _ K U) as [E1 E2].
    eapply dok_frame; eauto; [rewrite E1|rewrite E2]; apply V.
  Qed.
  Lemma dok_fresh f u : Forall FP f -> Forall up_fault_ok u ->
    dok (fun _ => 0) (dev_fresh f u).
  Proof.
    intros F U. constructor; cbn; auto.
    - destruct s; apply W_fresh; lia.
    - split; cbn; apply zeros_ok.
  Qed.

  Lemma after_bind {A B} (P Q : dev -> Prop) (m : M A) (f : A -> M B) d :
    (forall d, P d -> Q d) ->
    holds_after P (m d) -> (forall a d', P d' -> holds_after Q (f a d')) ->
    holds_after Q (bind m f d).
  Proof. intros I H K. unfold bind. destruct (m d) as [[]]; cbn in *; auto. Qed.

  Definition bump (s : slot) (b : slot -> N) : slot -> N :=
    fun s' => if slot_eq_dec s s' then b s' + 1 else b s'.
  Lemma bump_le s b s' : b s' <= bump s b s'.
  Proof. unfold bump. destruct (slot_eq_dec s s'); lia. Qed.

  Lemma write_slot_dok b s p d : b s + 1 < 2 ^ 64 -> payload_ok p -> dok b d ->
    holds_after (dok (bump s b)) (write_slot s p d).
  Proof.
    intros HB Hp V. assert (V1 := dok_mono b (bump s b) d (bump_le s b) V).
    unfold write_slot. destruct (wear_init (get_slot s d)) as [k|] eqn:I; [|exact V1].
    destruct (next_fault (d_faults d)) as [f fs] eqn:F.
    apply (next_fault_forall FP) in F as [Ff Ffs]; [|exact FP_ok|apply V].
    pose proof (W_write (b s) (get_slot s d) k p f (dok_wf _ _ V s) HB Hp Ff I) as S1.
    destruct (wear_write_at (get_slot s d) k p f) as [w' r].
    assert (G : forall w, W (b s + 1) w -> dok (bump s b) (set_slot s w (set_faults fs d))).
    { intros w Ww. destruct V1 as [A1 A2 A3 A4]. constructor.
      - intros s'. unfold bump. destruct (slot_eq_dec s s') as [<-|N].
        + now rewrite get_set_same.
        + rewrite get_set_other by auto. rewrite get_slot_set_faults. apply V.
      - rewrite set_slot_faults. destruct d; exact Ffs.
      - rewrite set_slot_up. destruct d; exact A3.
      - rewrite set_slot_ufaults. destruct d; exact A4. }
    destruct r; cbn [holds_after]; auto.
    pose proof (dok_restart _ _ (G _ S1)) as G1.
    replace (restart (set_slot s w' (set_faults fs d)))
      with (restart (set_slot s (wear_restart w') (set_faults fs d))); [exact G1|].
    destruct s, d; reflexivity.
  Qed.
  Lemma write_or_dok b s p e d : b s + 1 < 2 ^ 64 -> payload_ok p -> dok b d ->
    holds_after (dok (bump s b)) (write_or s p e d).
  Proof.
    intros. unfold write_or. apply after_bind with (P := dok (bump s b)); auto using write_slot_dok.
    intros [] d' V; exact V.
  Qed.

  Lemma after_keeps {A} E (m : M A) b d : (forall s, ~ e_slot E s) -> ~ e_up E -> keeps E m ->
    dok b d -> holds_after (dok b) (m d).
  Proof. intros. apply holds_after_weak; auto using dok_restart. eapply keeps_dok; eauto. Qed.

  Definition plus1 (b : slot -> N) : slot -> N := fun s => b s + 1.

  Lemma wm_payload w : payload_ok (wm_serialize w).
  Proof. split; [apply wm_serialize_length|apply wm_serialize_ok]. Qed.
  Lemma chain_payload c : payload_ok (chain_serialize c).
  Proof. split; [apply chain_serialize_length|apply chain_serialize_ok]. Qed.
  Lemma key_payload k : payload_ok (key_serialize k).
  Proof. split; [apply key_serialize_length|apply key_serialize_ok]. Qed.

  Ltac bumps := unfold plus1, bump; intros;
    repeat match goal with |- context [slot_eq_dec ?a ?b] => destruct (slot_eq_dec a b); subst end;
    try discriminate; try lia.

  Lemma of_option_dok {A} b e (o : option A) d : dok b d -> holds_after (dok b) (of_option e o d).
  Proof. destruct o; auto. Qed.
  Lemma check_dok b x e d : dok b d -> holds_after (dok b) (check x e d).
  Proof. destruct x; auto. Qed.

  Lemma reset_dok b buf d : (forall s, b s + 1 < 2 ^ 64) -> dok b d ->
    holds_after (dok (plus1 b)) (h_reset buf d).
  Proof.
    intros HB V. unfold h_reset, the_payload.
    set (b1 := bump SMain b). set (b2 := bump STest b1). set (b3 := bump SChain b2).
    assert (L1 : forall s, b s <= plus1 b s) by (bumps).
    assert (L2 : forall s, b1 s <= plus1 b s) by (unfold b1; bumps).
    assert (L3 : forall s, b2 s <= plus1 b s) by (unfold b2, b1; bumps).
    assert (L4 : forall s, b3 s <= plus1 b s) by (unfold b3, b2, b1; bumps).
    apply after_bind with (P := dok b); [intros ?; now apply dok_mono|now apply of_option_dok|].
    intros pl d1 V1. apply after_bind with (P := dok b); [intros ?; now apply dok_mono|now apply check_dok|].
    intros [] d2 V2. apply after_bind with (P := dok b1); [intros ?; now apply dok_mono| |].
    { apply write_or_dok; auto using wm_payload. }
    intros [] d3 V3. apply after_bind with (P := dok b2); [intros ?; now apply dok_mono| |].
    { apply write_or_dok; auto using wm_payload. specialize (HB STest). unfold b1; bumps. }
    intros [] d4 V4. apply after_bind with (P := dok b2); [intros ?; now apply dok_mono| |].
    { eapply after_keeps; [| |apply (keeps_read_slot eff_none)|exact V4]; cbn; tauto. }
    intros [p| |] d5 V5; try (cbn; now apply (dok_mono b2)).
    apply after_bind with (P := dok b3); [intros ?; now apply dok_mono| |].
    { apply write_or_dok; auto using chain_payload. specialize (HB SChain). unfold b2, b1; bumps. }
    intros [] d6 V6. cbn. now apply (dok_mono b3).
  Qed.

  Lemma key_empty_payload : payload_ok key_empty.
  Proof. exact key_empty_ok. Qed.

  Lemma accept_dok b v room d : (forall s, b s + 1 < 2 ^ 64) -> dok b d ->
    holds_after (dok (plus1 b)) (accept O v room d).
  Proof.
    intros HB V.
    set (b1 := bump SKey b). set (b2 := bump SMain b1). set (b3 := bump STest b2).
    set (b4 := bump SChain b3).
    assert (L1 : forall s, b s <= plus1 b s) by (bumps).
    assert (L2 : forall s, b1 s <= plus1 b s) by (unfold b1; bumps).
    assert (L3 : forall s, b2 s <= plus1 b s) by (unfold b2, b1; bumps).
    assert (L4 : forall s, b3 s <= plus1 b s) by (unfold b3, b2, b1; bumps).
    assert (L5 : forall s, b4 s <= plus1 b s) by (unfold b4, b3, b2, b1; bumps).
    destruct v as [sh dg pp data|sh dg br o data|k a|a|wc k a|wa pk a|k main test chain a].
    1,2,5,6: (eapply after_keeps; [| |apply keeps_accept|now apply (dok_mono b)]; cbn; tauto).
    - cbn [accept]. unfold store_baking_key, pubkey.
      apply after_bind with (P := dok b); [intros ?; now apply dok_mono|now apply of_option_dok|].
      intros pk d1 V1. apply after_bind with (P := dok b1); [intros ?; now apply dok_mono| |].
      { apply write_or_dok; auto using key_payload. }
      intros [] d2 V2. cbn. now apply (dok_mono b1).
    - cbn [accept]. unfold remove_baking_key.
      apply after_bind with (P := dok b1); [intros ?; now apply dok_mono| |].
      { apply write_or_dok; auto using key_empty_payload. }
      intros [] d2 V2. cbn. now apply (dok_mono b1).
    - cbn [accept]. unfold store_baking_key, pubkey.
      apply after_bind with (P := dok b); [intros ?; now apply dok_mono|now apply of_option_dok|].
      intros pk d1 V1. apply after_bind with (P := dok b1); [intros ?; now apply dok_mono| |].
      { apply write_or_dok; auto using key_payload. }
      intros [] d2 V2. apply after_bind with (P := dok b2); [intros ?; now apply dok_mono| |].
      { apply write_or_dok; auto using wm_payload. specialize (HB SMain). unfold b1; bumps. }
      intros [] d3 V3. apply after_bind with (P := dok b3); [intros ?; now apply dok_mono| |].
      { apply write_or_dok; auto using wm_payload. specialize (HB STest). unfold b2, b1; bumps. }
      intros [] d4 V4. apply after_bind with (P := dok b4); [intros ?; now apply dok_mono| |].
      { apply write_or_dok; auto using (chain_payload chain). specialize (HB SChain).
        unfold b3, b2, b1; bumps. }
      intros [] d5 V5. cbn. now apply (dok_mono b4).
  Qed.

  Lemma consensus_dok b p rem sh dg data d : (forall s, b s + 1 < 2 ^ 64) -> dok b d ->
    holds_after (dok (plus1 b)) (handle_consensus O p rem sh dg data d).
  Proof.
    intros HB V. unfold handle_consensus.
    set (b1 := bump SMain b).
    assert (L1 : forall s, b s <= plus1 b s) by (bumps).
    assert (L2 : forall s, b1 s <= plus1 b s) by (unfold b1; bumps).
    apply after_bind with (P := dok b); [intros ?; now apply dok_mono| |].
    { eapply after_keeps; [| |apply (keeps_read_or eff_none)|exact V]; cbn; tauto. }
    intros hw d1 V1. destruct (consensus_check p rem (wm_parse hw)) as [r|]; [|cbn; now apply (dok_mono b)].
    apply after_bind with (P := dok b); [intros ?; now apply dok_mono|destruct r; exact V1|].
    intros wm d2 V2. apply after_bind with (P := dok b1); [intros ?; now apply dok_mono| |].
    { apply write_or_dok; auto using wm_payload. }
    intros [] d3 V3. apply after_bind with (P := dok b1); [intros ?; now apply dok_mono| |].
    { eapply after_keeps; [| |apply (keeps_baking_sign O (mkEff (fun _ => False) (fun _ => True) False False (fun _ => False)))|exact V3];
        cbn; tauto. }
    intros s d4 V4. cbn. now apply (dok_mono b1).
  Qed.

  Lemma baker_sign_dok b sh up d : (forall s, b s + 1 < 2 ^ 64) -> dok b d ->
    holds_after (dok (plus1 b)) (baker_sign C O sh up d).
  Proof.
    intros HB V. unfold baker_sign, digest32.
    assert (L1 : forall s, b s <= plus1 b s) by (bumps).
    apply after_bind with (P := dok b); [intros ?; now apply dok_mono|now apply of_option_dok|].
    intros c d1 V1. apply after_bind with (P := dok b); [intros ?; now apply dok_mono|now apply of_option_dok|].
    intros pa d2 V2. apply after_bind with (P := dok b); [intros ?; now apply dok_mono| |].
    { eapply after_keeps; [| |apply (keeps_check_with_stored eff_none)|exact V2]; cbn; tauto. }
    intros ok d3 V3. apply after_bind with (P := dok b); [intros ?; now apply dok_mono|now apply check_dok|].
    intros [] d4 V4. apply after_bind with (P := dok b); [intros ?; now apply dok_mono|now apply of_option_dok|].
    intros dg d5 V5. assert (V6 := dok_mono _ _ _ L1 V5).
    destruct (preemble_parse (uo_data up)) as [rem p| |]; [|exact V6..].
    destruct p; try exact V6; try (now apply consensus_dok).
    unfold handle_delegation. destruct (operation_new rem) as [[br ops]|]; [|exact V6].
    destruct (eo_next ops) as [| | |o e]; try exact V6.
    destruct o; try exact V6;
      (eapply after_keeps; [| |apply (keeps_show C (eff_view (fun _ => True)))|exact V6]; cbn; tauto).
  Qed.

  Lemma with_upload_dok b b' a buf f d : (forall s, b s <= b' s) -> apdu_ok buf ->
    (forall up d, uo_ok up -> dok b d -> holds_after (dok b') (f up d)) ->
    dok b d -> holds_after (dok b') (with_upload a buf f d).
  Proof.
    intros HB Hb Hf V. unfold with_upload, the_upload. unfold bind at 1.
    pose proof (upload_bytes a buf (d_up d) (d_ufaults d) Hb (dok_up _ _ V) (dok_ufaults _ _ V)) as X.
    destruct (upload a buf (d_up d) (d_ufaults d)) as [[r u] s]. destruct X as (Xu & Xs & Xr).
    assert (V1 : dok b (set_up u (set_ufaults s d))).
    { destruct V as [A1 A2 A3 A4]. destruct d; constructor; auto. }
    assert (V2 := dok_mono _ _ _ HB V1).
    destruct r as [[up|]|e| |]; cbn [holds_after ret]; auto; [|now apply dok_restart].
    specialize (Hf up _ Xr V1).
    assert (D : forall d, dok b' d -> dok b' (set_up (upload_drop a (d_up d)) d)).
    { intros d' [A1 A2 A3 A4]. apply (drop_bytes a) in A3. destruct d'; constructor; auto. }
    destruct (f up _) as [[r|e| |] d2]; cbn [holds_after] in *; auto;
      unfold bind, drop_upload; cbn; now apply D.
  Qed.

  Lemma finish_dok b room x : holds_after (dok b) x -> dok b (snd (finish room x)).
  Proof.
    assert (HR : forall d, dok b d -> dok b (restart d)) by (intros; now apply dok_restart).
    destruct x as [[[data|]|e| |] d]; cbn; intros H; auto;
      match goal with |- context [if ?b then _ else _] => destruct b end; cbn; auto.
  Qed.

  Lemma dok_set_ui b v d : dok b d -> dok b (set_ui v d).
  Proof. intros [A1 A2 A3 A4]. destruct d; constructor; auto. Qed.
  Lemma dok_set_path b v d : dok b d -> dok b (set_path v d).
  Proof. intros [A1 A2 A3 A4]. destruct d; constructor; auto. Qed.

  Lemma decide_dok b f d :
    (forall v room, d_ui d = Some v -> holds_after (dok b) (f v room (set_ui None d))) ->
    dok b d -> dok b (snd (decide C f d)).
  Proof.
    intros Hf V. unfold decide. destruct (d_ui d) as [v|] eqn:U; [|exact V].
    apply finish_dok, bind_ret_after, Hf. reflexivity.
  Qed.

  Lemma step_dok b d e : event_ok e -> (forall s, b s + 1 < 2 ^ 64) -> dok b d ->
    dok (plus1 b) (snd (step C O d e)).
  Proof.
    intros He HB V.
    assert (L : forall s, b s <= plus1 b s) by (bumps).
    assert (V1 := dok_mono _ _ _ L V).
    destruct e as [buf rx| | | |]; cbn [step].
    - cbn [event_ok] in He.
      destruct (d_ui d); [exact V1|]. apply finish_dok.
      destruct (apdu_read_ok buf rx); [|exact V1].
      destruct (dispatch_kinds buf) as [(Cb & E0 & E1 & ->)|[(Cb & E0 & E1 & sh & ->)|[(E0 & sh & ->)|[K _]]]].
      + now apply reset_dok.
      + apply (with_upload_dok b); auto. intros. now apply baker_sign_dok.
      + apply (with_upload_dok b); auto. intros up d' Uo V'.
        eapply after_keeps; [| |apply keeps_start_sign|now apply (dok_mono b)]; cbn; tauto.
      + eapply after_keeps; [| |exact K|exact V1]; cbn; tauto.
    - apply decide_dok; auto. intros v room U. apply accept_dok; auto. now apply dok_set_ui.
    - apply decide_dok; auto. intros v room U.
      assert (VU := dok_set_ui _ None _ V1). destruct v; try exact VU. cbn. now apply dok_set_path.
    - apply decide_dok; auto. intros v room U. cbn. now apply dok_set_ui.
    - now apply dok_restart.
  Qed.

  Lemma run_dok es : forall B d, Forall event_ok es -> B + len es < 2 ^ 64 ->
    dok (fun _ => B) d -> dok (fun _ => B + len es) (snd (run C O d es)).
  Proof.
    induction es as [|e es IH]; intros B d He HB V; cbn [run].
    - eapply dok_mono; [|exact V]. intros; cbv beta; lia.
    - inversion He; subst.
      assert (len (e :: es) = 1 + len es) as E by (unfold len; cbn [length]; lia). rewrite E in *.
      pose proof (step_dok (fun _ => B) d e H1 ltac:(intros; lia) V) as V1.
      destruct (step C O d e) as [a d1]. cbn [snd] in *.
      specialize (IH (B + 1) d1 H2 ltac:(lia) V1).
      destruct (run C O d1 es). cbn [snd] in *. eapply dok_mono; [|exact IH]. intros; cbv beta; lia.
  Qed.

  End WellFormed.

  Lemma inv_of_dok B d lows : dok wf_wear slot_fault_ok (fun _ => B) d ->
    (forall p, wear_reads (d_main d) p -> Forall (fun q => cpos_le q (wm_pos (wm_parse p))) lows) ->
    inv B lows (d_log d) d.
  Proof.
    intros [A1 A2 A3 A4] H. constructor; auto; [apply (A1 SMain)|].
    exists [], []. repeat split; auto; [constructor|]. intros p Hp. rewrite app_nil_r. auto.
  Qed.

  Lemma wf_write B w k pl f : wf_wear B w -> B + 1 < 2 ^ 64 -> payload_ok pl -> slot_fault_ok f ->
    wear_init w = Some k ->
    let (w1, r) := wear_write_at w k pl f in
    wf_wear (B + 1) (match r with WLost => wear_restart w1 | _ => w1 end).
  Proof.
    intros H1 H2 H3 H4 H5. pose proof (write_step B w k pl f H1 H2 H3 (slot_fault_safe _ H4) H5) as X.
    destruct (wear_write_at w k pl f). apply X.
  Qed.

  Lemma reach_dok f u es : Forall slot_fault_ok f -> Forall up_fault_ok u -> Forall event_ok es ->
    len es < 2 ^ 64 ->
    dok wf_wear slot_fault_ok (fun _ => len es) (snd (run C O (dev_fresh f u) es)).
  Proof.
    intros F U E L.
    apply (run_dok wf_wear slot_fault_ok wf_mono wf_restart (fun B w w' => weq_wf B w w') wf_write I es 0); auto.
    apply dok_fresh; auto using wf_fresh.
  Qed.

  (** ** Histories *)

  (** Consensus signatures between resets are strictly ordered. *)
  Lemma consensus_ordered f u es1 es2 :
    Forall slot_fault_ok f -> Forall up_fault_ok u -> Forall event_ok (es1 ++ es2) ->
    len (es1 ++ es2) < 2 ^ 64 ->
    let d1 := snd (run C O (dev_fresh f u) es1) in
    let d2 := snd (run C O d1 es2) in
    no_reset C O d1 es2 ->
    exists l, signed_between d1 d2 l /\ increasing (consensus_positions l).
  Proof.
    intros F U E L d1 d2 R. apply Forall_app in E as [E1 E2]. rewrite len_app in L.
    pose proof (reach_dok f u es1 F U E1 ltac:(lia)) as V1. fold d1 in V1.
    pose proof (run_inv es2 (len es1) [] (d_log d1) d1 E2 R L (inv_of_dok _ _ [] V1 ltac:(auto))) as V2.
    destruct V2 as [_ _ _ _ (l & ps & Hl & Hp & Hs & _)].
    exists l. split; [exact Hl|]. exists ps. auto.
  Qed.
End Consensus.
