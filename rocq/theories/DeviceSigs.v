(** Where signatures come from: one event, its cause, its answer. *)
From Coq Require Import List NArith ZArith Lia Bool Arith ZifyBool ZifyNat ZifyN.
From Verif Require Import Base BaseFacts Flash FlashFacts Codecs CodecsSpec CodecsFacts
  Upload UploadSpec UploadFacts Baking BakingSpec BakingFacts Operations Oracles Address
  Device DeviceSpec DeviceFacts DeviceProofs.
Import ListNotations.
Open Scope N_scope.

Section Signatures.
  Variable C : config.
  Variable O : oracles.

  (** No signature, or this one and a result carrying it. *)
  Definition signs {A} (d : dev) (P : sigrec -> Prop) (R : sigrec -> bytes -> outcome A -> Prop)
    (x : outcome A * dev) : Prop :=
    d_log (snd x) = d_log d \/
    exists g s, d_log (snd x) = g :: d_log d /\ P g /\
      o_sign O (fst (sg_key g)) (snd (sg_key g)) (sg_digest g) = Some s /\ R g s (fst x).

  Lemma frame_log_none E d d' : (forall g, ~ e_sig E g) -> frame E d d' -> d_log d' = d_log d.
  Proof.
    intros N F. destruct (fr_log _ _ _ F) as (l & -> & Fl). destruct l as [|g l]; [reflexivity|].
    inversion Fl; subst. now apply N in H1.
  Qed.

  Lemma stored_key_weq d d' k : weq (d_key d) (d_key d') -> stored_key d' k -> stored_key d k.
  Proof. intros W (p & H1 & H2). exists p. now rewrite <- (weq_read _ _ W). Qed.

  Lemma check_with_stored_spec k d : match check_with_stored k d with
    | (Ok true, d') => stored_key d k /\ weq (d_key d) (d_key d')
    | _ => True
    end.
  Proof.
    pose proof (keeps_check_with_stored eff_none k d) as F.
    unfold check_with_stored in *. unfold bind at 1. unfold bind at 1 in F.
    pose proof (read_or_spec SKey ConditionsNotSatisfied d) as R.
    destruct (read_or SKey ConditionsNotSatisfied d) as [[p|e| |] d1]; auto.
    unfold bind at 1. unfold bind at 1 in F.
    destruct (key_parse p) as [[k'|]|e] eqn:K; cbn [of_ares ret fail of_option] in *; try (cbn; exact I).
    unfold bind, ret in *. cbn beta iota in *. destruct (key_eqb k' k) eqn:Q; auto. apply key_eqb_eq in Q. subst k'.
    split; [|exact (fr_slot _ _ _ F SKey (fun x => x))]. exists p. destruct R. auto.
  Qed.

  (** Results of the signing commands. *)
  Definition now_signed (g : sigrec) (s : bytes) (r : outcome reply) : Prop :=
    r = Ok (Now s) \/ r = Ok (Now (sg_digest g ++ s)).
  Lemma signed_now sh g s : now_signed g s (Ok (Now (signed sh (sg_digest g) s))).
  Proof. unfold now_signed, signed. destruct sh; auto. Qed.

  Lemma consensus_signs m p rem sh dg data d :
    preemble_of_byte m = Some p -> data = m :: rem -> o_blake2b O 32 data = Some dg ->
    signs d (fun g => sg_src g = SrcConsensus /\ sg_data g = data /\ stored_key d (sg_key g) /\ sig_sound O g)
      now_signed (handle_consensus O p rem sh dg data d).
  Proof.
    intros P Ed Dg. unfold handle_consensus. unfold bind at 1.
    pose proof (keeps_read_or eff_none SMain ExecutionError d) as F1.
    assert (L1 : d_log (snd (read_or SMain ExecutionError d)) = d_log d) by apply read_or_log.
    destruct (read_or SMain ExecutionError d) as [[hw|e| |] d1]; cbn [snd] in *; try (left; exact L1).
    destruct (consensus_check p rem (wm_parse hw)) as [[wm|e]|] eqn:K; cbn [of_ares]; [|left; cbn; solve [auto]..].
    pose proof (consensus_check_ok _ _ _ _ _ P K) as (Kp & Kl & Kv).
    pose proof (consensus_kind _ _ _ _ _ P K) as Ka. rewrite <- Ed in Kp, Ka.
    unfold bind at 1, ret at 1. cbn beta iota. unfold bind at 1.
    set (E1 := mkEff (fun s => s = SMain) (fun _ => False) False False (fun _ => False)).
    pose proof (keeps_write_or E1 SMain (wm_serialize wm) ExecutionError eq_refl d1) as F2.
    assert (L2 : d_log (snd (write_or SMain (wm_serialize wm) ExecutionError d1)) = d_log d1).
    { apply (frame_log_none E1); auto. }
    destruct (write_or SMain (wm_serialize wm) ExecutionError d1) as [[[]|e| |] d2]; cbn [snd] in *;
      try (left; cbn; congruence).
    unfold bind at 1.
    pose proof (baking_sign_spec O SrcConsensus dg data d2) as S.
    destruct (baking_sign O SrcConsensus dg data d2) as [r d3].
    destruct S as [[S1 S2]|(pp & k & s & -> & R & Kk & Sg & Ls & Lg)].
    - destruct r as [s|e| |]; [now specialize (S2 s)|left; cbn; congruence..].
    - right. exists (mkSig SrcConsensus k dg data), s. cbn [snd fst ret sg_digest sg_key sg_src sg_data].
      split; [cbn; rewrite Lg, L2, L1; reflexivity|]. split; [|split; [exact Sg|]].
      + split; [reflexivity|]. split; [reflexivity|]. split.
        * assert (W : weq (d_key d) (d_key d2)).
          { eapply weq_trans; [exact (fr_slot _ _ _ F1 SKey ltac:(cbn; tauto))|].
            exact (fr_slot _ _ _ F2 SKey ltac:(cbn; discriminate)). }
          exists pp. split; auto. now rewrite <- (weq_read _ _ W).
        * split; [exact Dg|]. split; [exact Ka|]. exists (wm_pos wm). split; auto. destruct wm; exact Kv.
      + apply (signed_now sh (mkSig SrcConsensus k dg data) s).
  Qed.

  Lemma baker_signs sh up d :
    signs d (fun g => sg_src g = SrcConsensus /\ sg_data g = uo_data up /\ stored_key d (sg_key g) /\
        sig_sound O g /\ curve_of_byte (uo_p2 up) = Some (fst (sg_key g)) /\
        path_read BIP32_MAX_LENGTH (uo_first up) = Some (snd (sg_key g)))
      now_signed (baker_sign C O sh up d).
  Proof.
    unfold baker_sign. unfold bind at 1.
    destruct (curve_of_byte (uo_p2 up)) as [c|] eqn:Ec; cbn [of_option ret fail]; [|left; cbn; solve [auto]].
    try unfold ret at 1. cbn beta iota. unfold bind at 1.
    destruct (path_read BIP32_MAX_LENGTH (uo_first up)) as [pa|] eqn:Ep; cbn [of_option ret fail]; [|left; cbn; solve [auto]].
    try unfold ret at 1. cbn beta iota. unfold bind at 1.
    pose proof (keeps_check_with_stored eff_none (c, pa) d) as F1.
    pose proof (check_with_stored_spec (c, pa) d) as K1.
    assert (L1 := frame_log_none eff_none _ _ ltac:(cbn; tauto) F1).
    destruct (check_with_stored (c, pa) d) as [[ok|e| |] d1]; cbn [snd] in *; try (left; exact L1).
    unfold bind at 1. destruct ok; cbn [check]; [|left; cbn; solve [auto]].
    destruct K1 as [[p1 [P1 Q1]] W1].
    try unfold ret at 1. cbn beta iota. unfold bind at 1, digest32.
    destruct (o_blake2b O 32 (uo_data up)) as [dg|] eqn:Dg; cbn [of_option ret fail]; [|left; cbn; solve [auto]].
    try unfold ret at 1. cbn beta iota.
    destruct (preemble_parse (uo_data up)) as [rem p| |] eqn:P; try (left; cbn; solve [auto]).
    apply preemble_parse_inv in P as (m & Em & Pm).
    assert (Cs : signs d1 (fun g => sg_src g = SrcConsensus /\ sg_data g = uo_data up /\
        stored_key d1 (sg_key g) /\ sig_sound O g)
      now_signed (handle_consensus O p rem sh dg (uo_data up) d1)).
    { eapply consensus_signs; eauto. }
    assert (G : signs d (fun g => sg_src g = SrcConsensus /\ sg_data g = uo_data up /\
        stored_key d (sg_key g) /\ sig_sound O g /\ Some c = Some (fst (sg_key g)) /\
        Some pa = Some (snd (sg_key g)))
      now_signed (handle_consensus O p rem sh dg (uo_data up) d1)).
    { destruct Cs as [Cs|(g & s & G1 & (G2 & G3 & G4 & G5) & G6 & G7)]; [left; congruence|].
      right. exists g, s. split; [congruence|]. split; [|auto].
      assert (G8 := stored_key_weq _ _ _ W1 G4).
      assert (Ek : (c, pa) = sg_key g).
      { destruct G8 as (p2 & P2 & Q2). congruence. }
      rewrite <- Ek in *. auto 8. }
    assert (D : signs d (fun _ : sigrec => False) now_signed (handle_delegation C rem sh dg (uo_data up) d1)).
    { left. unfold handle_delegation. destruct (operation_new rem) as [[br ops]|]; [|exact L1].
      destruct (eo_next ops) as [| | |o e]; try exact L1.
      destruct o; try exact L1; unfold show; destruct (cf_room C _); try exact L1;
        destruct d1; exact L1. }
    destruct p; try (left; cbn; solve [auto]); try exact G.
    destruct D as [D|(g & s & _ & [] & _)]. left. exact D.
  Qed.

  Lemma hmac_signs buf d :
    signs d (fun g => sg_src g = SrcHmac /\ sig_sound O g) (fun _ _ _ => True) (h_hmac O buf d).
  Proof.
    unfold h_hmac, the_curve, the_payload. unfold bind at 1.
    destruct (curve_of_byte (apdu_p2 buf)) as [c|]; cbn [of_option ret fail]; [|left; cbn; solve [auto]].
    try unfold ret at 1. cbn beta iota. unfold bind at 1.
    destruct (apdu_payload buf) as [[|n l]|]; cbn [of_option ret fail]; try (left; cbn; solve [auto]).
    try unfold ret at 1. cbn beta iota. unfold bind at 1.
    destruct (_ <=? _)%nat; cbn [check]; [|left; cbn; solve [auto]].
    try unfold ret at 1. cbn beta iota. unfold bind at 1.
    destruct (path_read BIP32_MAX_LENGTH _) as [pa|]; cbn [of_option ret fail]; [|left; cbn; solve [auto]].
    try unfold ret at 1. cbn beta iota. unfold bind at 1. unfold sign_with.
    cbn [fst snd]. destruct (o_sign O c pa HMAC_KEY) as [s|] eqn:Sg; [|left; cbn; solve [auto]].
    destruct (100 <? length s)%nat; [left; cbn; solve [auto]|]. right.
    exists (mkSig SrcHmac (c, pa) HMAC_KEY HMAC_KEY), s.
    assert (X : d_log (add_sig (mkSig SrcHmac (c, pa) HMAC_KEY HMAC_KEY) d)
                = mkSig SrcHmac (c, pa) HMAC_KEY HMAC_KEY :: d_log d) by (destruct d; reflexivity).
    repeat split; auto.
    unfold bind. destruct (o_sha512 O s) as [hk|]; cbn [of_option ret fail]; [|exact X].
    destruct (o_hmac256 O hk _); exact X.
  Qed.

  (** ** Decisions *)

  Definition now_bytes (g : sigrec) (s : bytes) (r : outcome bytes) : Prop :=
    r = Ok s \/ r = Ok (sg_digest g ++ s).

  Lemma accept_signs v room d :
    signs d (fun g => match v with
                      | VSign sh dg p data => g = mkSig SrcReview (sg_key g) dg data /\ d_path d = Some (sg_key g)
                      | VBakingSign sh dg br o data =>
                        g = mkSig SrcBakingReview (sg_key g) dg data /\ stored_key d (sg_key g)
                      | _ => False
                      end)
      now_bytes (accept O v room d).
  Proof.
    destruct v as [sh dg pp data|sh dg br o data|k a|a|wc k a|wa pk a|k main test chain a].
    3-7: (left; eapply frame_log_none; [|apply keeps_accept]; cbn; tauto).
    - cbn [accept]. unfold bind at 1. destruct (d_path d) as [k|] eqn:P; [|left; reflexivity].
      unfold bind at 1, sign_with. destruct (o_sign O (fst k) (snd k) dg) as [s|] eqn:Sg; [|left; reflexivity].
      destruct (100 <? length s)%nat; [left; reflexivity|].
      right. exists (mkSig SrcReview k dg data), s. destruct d; cbn. repeat split; auto.
      unfold now_bytes, signed. destruct sh; auto.
    - cbn [accept]. unfold bind at 1.
      pose proof (baking_sign_spec O SrcBakingReview dg data d) as S.
      destruct (baking_sign O SrcBakingReview dg data d) as [r d'].
      destruct S as [[S1 S2]|(pp & k & s & -> & R & Kk & Sg & Ls & Lg)].
      + destruct r as [s|e| |]; [now specialize (S2 s)|left; exact S1..].
      + right. exists (mkSig SrcBakingReview k dg data), s.
        split; [exact Lg|]. split; [|split; [exact Sg|]].
        * split; [reflexivity|]. exists pp. auto.
        * unfold now_bytes, signed. destruct sh; cbn; auto.
  Qed.
  Lemma reject_log v d : d_log (snd (reject v d)) = d_log d.
  Proof. destruct v; try reflexivity. destruct d; reflexivity. Qed.

  (** ** Events *)

  Lemma finish_log room x : d_log (snd (finish room x)) = d_log (snd x).
  Proof.
    destruct x as [[[data|]|e| |] d]; cbn; auto;
      match goal with |- context [if ?b then _ else _] => destruct b end; cbn; auto.
  Qed.
  Lemma finish_now room data d :
    fst (finish room (Ok (Now data), d)) = ADied \/
    fst (finish room (Ok (Now data), d)) = AReply (data ++ [0x90; 0]).
  Proof. cbn [finish]. destruct (room <? len data + 2); cbn; auto. Qed.

  Lemma with_upload_log a buf f d :
    let x := with_upload a buf f d in
    d_log (snd x) = d_log d \/
    exists up u s, upload a buf (d_up d) (d_ufaults d) = (Ok (Some up), u, s) /\
      d_log (snd x) = d_log (snd (f up (set_up u (set_ufaults s d)))) /\
      fst x = fst (f up (set_up u (set_ufaults s d))).
  Proof.
    cbv zeta. unfold with_upload, the_upload, bind, drop_upload.
    destruct (upload a buf (d_up d) (d_ufaults d)) as [[r u] s].
    assert (X : d_log (set_up u (set_ufaults s d)) = d_log d) by (destruct d; reflexivity).
    destruct r as [[up|]|e| |]; try (left; exact X).
    right. exists up, u, s. split; [reflexivity|].
    destruct (f up _) as [[r|e| |] d2]; cbn [fst snd]; auto;
      unfold ret, fail; cbn [fst snd]; destruct d2; auto.
  Qed.

  Lemma stored_key_up d u s k : stored_key (set_up u (set_ufaults s d)) k -> stored_key d k.
  Proof. destruct d; exact (fun x => x). Qed.

  (** Every event makes at most one signature, for one of the stated causes, and its
      answer is the only one that carries it. [view] and [path] describe the pending
      review. *)
  Lemma dispatch_signs buf d :
    d_log (snd (dispatch C O buf d)) = d_log d \/
    exists g s, d_log (snd (dispatch C O buf d)) = g :: d_log d /\
      o_sign O (fst (sg_key g)) (snd (sg_key g)) (sg_digest g) = Some s /\ sig_sound O g /\
      cf_baking C = true /\ nth 0 buf 0 = 0x80 /\
      ((sg_src g = SrcConsensus /\ In (nth 1 buf 0) [0x04; 0x0F; 0xAF] /\
        now_signed g s (fst (dispatch C O buf d)) /\ stored_key d (sg_key g) /\
        exists up u fs, upload AccBaking buf (d_up d) (d_ufaults d) = (Ok (Some up), u, fs) /\
          uo_data up = sg_data g /\ curve_of_byte (uo_p2 up) = Some (fst (sg_key g)) /\
          path_read BIP32_MAX_LENGTH (uo_first up) = Some (snd (sg_key g))) \/
       (sg_src g = SrcHmac /\ nth 1 buf 0 = 0x0E)).
  Proof.
    destruct (dispatch_kinds C O buf) as [(Cb & E0 & E1 & ->)|[(Cb & E0 & E1 & sh & ->)|[(E0 & sh & ->)|[K _]]]].
    - left. apply (frame_log_none eff_reset); [cbn; tauto|apply keeps_reset].
    - destruct (with_upload_log AccBaking buf (baker_sign C O sh) d) as [L|(up & u & s & Eu & L & R)];
        [left; exact L|].
      unfold h_baker_sign. rewrite L, R.
      destruct (baker_signs sh up (set_up u (set_ufaults s d))) as [B|(g & sg & B1 & (B2 & B3 & B4 & B5 & B6 & B7) & B8 & B9)].
      + left. rewrite B. destruct d; reflexivity.
      + right. exists g, sg. split; [rewrite B1; destruct d; reflexivity|]. repeat (split; [assumption|]).
        left. repeat (split; [assumption|]). split; [eapply stored_key_up; eauto|].
        exists up, u, s. auto.
    - left. apply (frame_log_none (eff_with_up eff_sign)); [cbn; tauto|apply keeps_h_sign].
    - destruct (N.eqb_spec (nth 0 buf 0) 0x80) as [E0|E0];
        [|left; unfold dispatch, apdu_cla, CLA; apply N.eqb_neq in E0; rewrite E0; reflexivity].
      destruct (cf_baking C && (nth 1 buf 0 =? 0x0E)) eqn:H.
      + apply andb_prop in H as [Cb E1]. apply N.eqb_eq in E1.
        assert (Ed : dispatch C O buf = h_hmac O buf).
        { unfold dispatch, apdu_cla, apdu_ins, CLA. rewrite E0, Cb, E1. reflexivity. }
        rewrite Ed. destruct (hmac_signs buf d) as [L|(g & s & G1 & (G2 & G3) & G4 & _)]; [left; exact L|].
        right. exists g, s. repeat (split; [assumption|]). right. auto.
      + left. eapply frame_log_none; [|apply K]. cbn. intros g (_ & Cb & E1).
        rewrite Cb, E1 in H. discriminate.
  Qed.

  (** ** Reviews *)

  Lemma keeps_bind_opt {A B} E e (o : option A) (f : A -> M B) :
    (forall a, o = Some a -> keeps E (f a)) -> keeps E (bind (of_option e o) f).
  Proof. intros H. destruct o; [exact (H a eq_refl)|apply keeps_fail]. Qed.
  Lemma keeps_bind_sres {A B} E e (r : sres A) (f : A -> M B) :
    (forall a, r = SOk a -> keeps E (f a)) -> keeps E (bind (of_sres e r) f).
  Proof. intros H. destruct r; [exact (H a eq_refl)|apply keeps_fail|apply keeps_panic]. Qed.
  Lemma keeps_bind_check {B} E e b (f : unit -> M B) :
    (b = true -> keeps E (f tt)) -> keeps E (bind (check b e) f).
  Proof. intros H. destruct b; [exact (H eq_refl)|apply keeps_fail]. Qed.
  Lemma keeps_bind_address {B} E k (f : addr -> M B) :
    (forall a, address_of O k a -> keeps E (f a)) -> keeps E (bind (address O k) f).
  Proof.
    intros H d. unfold address, pubkey, bind at 1. unfold bind at 1.
    destruct (o_pubkey O (fst k) (snd k)) as [pk|] eqn:P; [|apply frame_refl]. cbn [of_option ret].
    destruct (addr_new O (fst k) pk) as [a| |] eqn:A; [|apply frame_refl..].
    apply H. exists pk. auto.
  Qed.
  Lemma keeps_bind_requested {B} E buf (f : curve * bytes -> M B) :
    (forall c pa pk, o_pubkey O c pa = Some pk -> keeps E (f (c, pk))) ->
    keeps E (bind (requested_key O buf) f).
  Proof.
    intros H d. unfold requested_key, the_curve, the_payload, pubkey, bind.
    destruct (curve_of_byte (apdu_p2 buf)) as [c|]; [|apply frame_refl]. cbn [of_option ret fail].
    destruct (apdu_payload buf) as [pl|]; [|apply frame_refl]. cbn [of_option ret fail].
    destruct (path_read 6 pl) as [pa|]; [|apply frame_refl]. cbn [of_option ret fail fst snd].
    destruct (o_pubkey O c pa) as [pk|] eqn:P; [|apply frame_refl]. cbn [of_option ret fail].
    eapply H; eauto.
  Qed.

  Definition eff_any : effects :=
    mkEff (fun _ => True) (fun _ => True) True True (view_ok O).
  Lemma eff_any_le E : (forall v, e_view E v -> view_ok O v) -> eff_le E eff_any.
  Proof. intros H. repeat split; cbn; auto. Qed.

  Lemma chain_u32_round n : n < 2 ^ 32 -> u32_of_chain (chain_of_u32 n) < 2 ^ 32.
  Proof.
    intros H. unfold chain_of_u32. destruct (n =? 0); [reflexivity|].
    destruct (n =? MAINNET_CHAIN_ID); [reflexivity|exact H].
  Qed.

  Lemma views_authorize buf : apdu_ok buf -> keeps eff_any (h_authorize C O buf).
  Proof.
    intros Hb. unfold h_authorize, the_curve, the_payload.
    apply keeps_bind_check. intros _. apply keeps_bind_opt. intros c Ec.
    destruct (apdu_payload_260 buf Hb) as (pl & Ep & _ & _ & Bp).
    apply keeps_bind_opt. intros cd Ecd. apply keeps_bind_opt. intros pa Epa.
    apply keeps_bind_address. intros a Ha. apply keeps_show. cbn. split; [|exact Ha].
    assert (cd = pl) as -> by congruence.
    exact (path_read_ok _ _ _ Bp Epa).
  Qed.
  Lemma views_setup buf : apdu_ok buf -> keeps eff_any (h_setup C O buf).
  Proof.
    intros Hb. unfold h_setup, the_curve, the_payload.
    apply keeps_bind_opt. intros c Ec.
    destruct (apdu_payload_260 buf Hb) as (pl & Ep & _ & _ & Bp).
    apply keeps_bind_opt. intros cd Ecd. assert (cd = pl) as -> by congruence.
    apply keeps_bind_check. intros L1. apply keeps_bind_check. intros L2.
    apply keeps_bind_opt. intros pa Epa. apply keeps_bind_address. intros a Ha. apply keeps_show.
    assert (X : forall i, unbe (slice i 4 pl) < 2 ^ 32).
    { intros i. pose proof (unbe_lt (slice i 4 pl) (bytes_ok_slice i 4 _ Bp)) as U.
      eapply N.lt_le_trans; [exact U|]. change (2 ^ 32) with (256 ^ 4). apply N.pow_le_mono_r; [lia|].
      unfold len. pose proof (firstn_le_length 4 (skipn i pl)). unfold slice. lia. }
    split; [|split; [exact Ha|]].
    - eapply path_read_ok; [|exact Epa]. apply bytes_ok_slice. exact Bp.
    - split; [apply X|]. split; [apply X|]. apply chain_u32_round, X.
  Qed.
  Lemma views_deauthorize buf : keeps eff_any (h_deauthorize C O buf).
  Proof.
    unfold h_deauthorize. apply keeps_bind_check. intros _.
    apply keeps_bind; [apply keeps_read_baking_key|]. intros o. apply keeps_bind_opt. intros k Ek.
    apply keeps_bind_address. intros a Ha. apply keeps_show. cbn. eauto.
  Qed.
  Lemma views_query wc buf : keeps eff_any (h_query C O wc buf).
  Proof.
    unfold h_query. apply keeps_bind; [apply keeps_read_baking_key|]. intros o.
    apply keeps_bind_opt. intros k Ek. apply keeps_bind_address. intros a Ha.
    destruct (needs_review buf); [now apply keeps_show|].
    destruct (query_answer _ _ _); [apply keeps_ret|apply keeps_panic].
  Qed.
  Lemma views_get_address buf : keeps eff_any (h_get_address C O buf).
  Proof.
    unfold h_get_address. apply keeps_bind_requested. intros c pa pk P.
    apply keeps_bind_sres. intros a Ha. destruct (needs_review buf).
    - apply keeps_show. exists (c, pa). auto.
    - apply keeps_bind_sres. intros. apply keeps_ret.
  Qed.
  Lemma views_prompt buf : keeps eff_any (h_prompt C O buf).
  Proof.
    unfold h_prompt. apply keeps_bind_requested. intros c pa pk P.
    apply keeps_bind_sres. intros a Ha. apply keeps_show. exists (c, pa). auto.
  Qed.

  Lemma pre_byte p b : preemble_of_byte b = Some p ->
    (p = PreOperation -> b = 3) /\ (p = PreMichelson -> b = 5).
  Proof.
    unfold preemble_of_byte. intros H.
    repeat match type of H with context [?x =? ?y] => destruct (N.eqb_spec x y) end;
      inversion H; subst; split; intros; congruence.
  Qed.

  Lemma views_start_sign sh up : keeps eff_any (start_sign C O sh up).
  Proof.
    unfold start_sign, digest32. apply keeps_bind_opt. intros c Ec. apply keeps_bind_opt. intros pa Epa.
    apply keeps_bind; [now apply keeps_set_path|]. intros _. apply keeps_bind_opt. intros dg Edg.
    destruct (preemble_parse (uo_data up)) as [rem p| |] eqn:P; [|apply keeps_fail|apply keeps_panic].
    apply preemble_parse_inv in P as (m & Em & Pm). destruct (pre_byte _ _ Pm) as [B3 B5].
    destruct p; try apply keeps_fail.
    - apply keeps_bind_opt. intros [br ops] Eo. apply keeps_show. split; [exact Edg|].
      exists rem. left. rewrite B3 in Em by reflexivity. repeat split; auto. discriminate.
    - apply keeps_show. split; [exact Edg|]. exists rem. right. rewrite B5 in Em by reflexivity. auto.
  Qed.
  Lemma views_baker_sign sh up : keeps eff_any (baker_sign C O sh up).
  Proof.
    unfold baker_sign, digest32. apply keeps_bind_opt. intros c Ec. apply keeps_bind_opt. intros pa Epa.
    apply keeps_bind; [apply keeps_check_with_stored|]. intros ok.
    apply keeps_bind_check. intros _. apply keeps_bind_opt. intros dg Edg.
    destruct (preemble_parse (uo_data up)) as [rem p| |] eqn:P; [|apply keeps_fail|apply keeps_panic].
    apply preemble_parse_inv in P as (m & Em & Pm). destruct (pre_byte _ _ Pm) as [B3 _].
    assert (K : forall p, keeps eff_any (handle_consensus O p rem sh dg (uo_data up))).
    { intros p'. unfold handle_consensus. apply keeps_bind; [apply keeps_read_or|]. intros hw.
      destruct (consensus_check p' rem (wm_parse hw)) as [r|]; [|apply keeps_panic].
      apply keeps_bind; [apply keeps_ares|]. intros wm.
      apply keeps_bind; [now apply keeps_write_or|]. intros _.
      apply keeps_bind; [now apply keeps_baking_sign|]. intros s. apply keeps_ret. }
    destruct p; try apply keeps_fail; try apply K.
    unfold handle_delegation. destruct (operation_new rem) as [[br ops]|] eqn:Eo; [|apply keeps_fail].
    destruct (eo_next ops) as [| | |o e] eqn:En; try apply keeps_fail; [apply keeps_panic|].
    rewrite B3 in Em by reflexivity.
    destruct o; try apply keeps_fail; apply keeps_show; (split; [exact Edg|]); exists rem, ops, e; auto.
  Qed.

  Lemma views_dispatch buf : apdu_ok buf -> keeps eff_any (dispatch C O buf).
  Proof.
    intros Hb.
    assert (U : forall a f, (forall up, keeps eff_any (f up)) -> keeps eff_any (with_upload a buf f)).
    { intros a f Hf. exact (keeps_with_upload eff_any a buf f Hf). }
    unfold dispatch, dispatch_common.
    repeat match goal with |- keeps _ (if ?b then _ else _) => destruct b end;
      first [ apply keeps_fail
            | now apply views_authorize | now apply views_setup | apply views_deauthorize
            | apply views_query | apply views_get_address | apply views_prompt
            | apply U; first [apply views_baker_sign | apply views_start_sign]
            | eapply keeps_mono; [apply eff_any_le|
                first [ apply keeps_reset | apply keeps_main_hwm | apply keeps_all_hwm
                      | apply keeps_hmac | apply keeps_legacy_version | apply keeps_get_public
                      | apply keeps_git | apply keeps_version ]]; cbn; tauto ].
  Qed.

  (** The pending review is consistent. *)
  Definition ui_ok (d : dev) : Prop := forall v, d_ui d = Some v -> view_ok O v.

  Lemma finish_ui room x : d_ui (snd (finish room x)) = d_ui (snd x) \/ d_ui (snd (finish room x)) = None.
  Proof.
    destruct x as [[[data|]|e| |] d]; cbn; auto;
      match goal with |- context [if ?b then _ else _] => destruct b end; cbn; auto.
  Qed.
  Lemma decide_ui f d : (forall v room, d_ui (snd (f v room (set_ui None d))) = None) ->
    d_ui (snd (decide C f d)) = None.
  Proof.
    intros H. unfold decide. destruct (d_ui d) as [v|] eqn:U; [|exact U].
    destruct (finish_ui (match cf_room C v with Some r => r | None => 0 end)
      (bind (f v (match cf_room C v with Some r => r | None => 0 end)) (fun out => ret (Now out)) (set_ui None d)))
      as [->| ->]; [|reflexivity].
    specialize (H v (match cf_room C v with Some r => r | None => 0 end)). unfold bind.
    destruct (f v _ (set_ui None d)) as [[]]; exact H.
  Qed.
  Lemma step_ui d e : event_ok e -> ui_ok d -> ui_ok (snd (step C O d e)).
  Proof.
    intros He V. destruct e as [buf rx| | | |]; cbn [step].
    - destruct (d_ui d) eqn:U; [exact V|].
      intros v Hv. destruct (finish_ui (len buf) (if apdu_read_ok buf rx then dispatch C O buf d else (Err WrongLength, d)))
        as [X|X]; rewrite X in Hv; [|discriminate].
      destruct (apdu_read_ok buf rx); [|cbn in Hv; congruence].
      destruct (fr_ui _ _ _ (views_dispatch buf He d)) as [Y|(w & Y & Hw)]; [congruence|].
      rewrite Y in Hv. injection Hv as <-. exact Hw.
    - intros v Hv. rewrite decide_ui in Hv; [discriminate|]. intros w room.
      destruct (fr_ui _ _ _ (keeps_accept O w room (set_ui None d))) as [->|(w' & _ & [])].
      destruct d; reflexivity.
    - intros v Hv. rewrite decide_ui in Hv; [discriminate|]. intros w room.
      destruct (fr_ui _ _ _ (keeps_reject w (set_ui None d))) as [->|(w' & _ & [])].
      destruct d; reflexivity.
    - intros v Hv. rewrite decide_ui in Hv; [discriminate|]. intros w room. destruct d; reflexivity.
    - discriminate.
  Qed.

  (** ** The cause of a signature *)

  Lemma step_signs d e : event_ok e -> ui_ok d ->
    d_log (snd (step C O d e)) = d_log d \/
    exists g, d_log (snd (step C O d e)) = g :: d_log d /\ sig_cause C d e g /\ sig_sound O g /\
      sig_answer O g (fst (step C O d e)).
  Proof.
    intros He V. destruct e as [buf rx| | | |]; cbn [step].
    - destruct (d_ui d) eqn:U; [left; reflexivity|].
      destruct (apdu_read_ok buf rx) eqn:Rx; [|left; rewrite finish_log; reflexivity].
      rewrite finish_log.
      destruct (dispatch_signs buf d) as [L|(g & s & G1 & G2 & G3 & Cb & E0 & G4)]; [left; exact L|].
      right. exists g. split; [exact G1|].
      assert (Cm : forall ins, nth 1 buf 0 = ins -> command d buf rx ins).
      { intros ins Ei. destruct He as [Hl _]. unfold apdu_read_ok, len in Rx. rewrite Hl in Rx.
        repeat split; auto; lia. }
      destruct G4 as [(Es & Ei & Nw & Sk & up & u & fs & Eu & Ed & Ec & Ep)|(Es & Ei)].
      + split; [|split; [exact G3|]].
        * unfold sig_cause. rewrite Es. split; [exact Cb|]. split; [exact Sk|].
          exists buf, rx, (nth 1 buf 0), up, u, fs. auto 10.
        * exists s. split; [exact G2|]. rewrite Es.
          destruct (dispatch C O buf d) as [r d']. cbn [fst] in Nw.
          destruct Nw as [-> | ->].
          -- destruct (finish_now (len buf) s d') as [->| ->]; auto.
          -- destruct (finish_now (len buf) (sg_digest g ++ s) d') as [->| ->]; auto.
             rewrite <- app_assoc. auto.
      + split; [|split; [exact G3|]].
        * unfold sig_cause. rewrite Es. split; [exact Cb|]. exists buf, rx. auto.
        * exists s. split; [exact G2|]. now rewrite Es.
    - unfold decide. destruct (d_ui d) as [v|] eqn:U; [|left; reflexivity].
      specialize (V v U). rewrite finish_log.
      set (room := match cf_room C v with Some r => r | None => 0 end).
      assert (Lu : d_log (set_ui None d) = d_log d) by (destruct d; reflexivity).
      assert (Pu : d_path (set_ui None d) = d_path d) by (destruct d; reflexivity).
      assert (Ku : d_key (set_ui None d) = d_key d) by (destruct d; reflexivity).
      assert (Lb : d_log (snd (bind (accept O v room) (fun out => ret (Now out)) (set_ui None d)))
                   = d_log (snd (accept O v room (set_ui None d)))).
      { unfold bind. destruct (accept O v room (set_ui None d)) as [[]]; reflexivity. }
      rewrite Lb.
      destruct (accept_signs v room (set_ui None d)) as [L|(g & s & G1 & G2 & G3 & G4)];
        [left; congruence|].
      right. exists g. split; [congruence|].
      assert (An : sg_src g <> SrcHmac -> sig_answer O g (fst (finish room (bind (accept O v room) (fun out => ret (Now out)) (set_ui None d))))).
      { intros Nh. exists s. split; [exact G3|]. unfold bind.
        destruct (accept O v room (set_ui None d)) as [r d']. cbn [fst] in G4.
        assert (X : forall x, r = Ok x ->
          fst (finish room (match r with Ok a => ret (Now a) d' | Err e => (Err e, d') | Panic => (Panic, d') | Cut => (Cut, d') end))
            = ADied \/
          fst (finish room (match r with Ok a => ret (Now a) d' | Err e => (Err e, d') | Panic => (Panic, d') | Cut => (Cut, d') end))
            = AReply (x ++ [0x90; 0])).
        { intros x ->. apply finish_now. }
        destruct (sg_src g); try congruence;
          (destruct G4 as [Er|Er]; [destruct (X s Er) as [->| ->]; auto|
            destruct (X _ Er) as [->| ->]; auto; rewrite <- app_assoc; auto]). }
      destruct v as [sh dg pp data|sh dg br o data|k a|a|wc k a|wa pk a|k main test chain a]; try contradiction.
      + destruct G2 as [Eg Ep]. assert (Es : sg_src g = SrcReview) by (rewrite Eg; reflexivity).
        assert (Edg : sg_digest g = dg) by (rewrite Eg; reflexivity).
        assert (Eda : sg_data g = data) by (rewrite Eg; reflexivity).
        split; [|split].
        * unfold sig_cause. rewrite Es, Edg, Eda. split; [reflexivity|]. split; [congruence|]. eauto.
        * unfold sig_sound. rewrite Es, Edg, Eda. destruct V as (V1 & rest & V2). split; [exact V1|].
          destruct V2 as [(-> & _)|(-> & _)]; cbn; auto.
        * apply An. congruence.
      + destruct G2 as [Eg Sk]. assert (Es : sg_src g = SrcBakingReview) by (rewrite Eg; reflexivity).
        assert (Edg : sg_digest g = dg) by (rewrite Eg; reflexivity).
        assert (Eda : sg_data g = data) by (rewrite Eg; reflexivity).
        split; [|split].
        * unfold sig_cause. rewrite Es, Edg, Eda. split; [reflexivity|]. split; [|eauto].
          destruct Sk as (p & S1 & S2). exists p. rewrite <- Ku. auto.
        * unfold sig_sound. rewrite Es, Edg, Eda. destruct V as (V1 & rest & ops & more & -> & _). auto.
        * apply An. congruence.
    - left. unfold decide. destruct (d_ui d) as [v|]; [|reflexivity]. rewrite finish_log.
      pose proof (reject_log v (set_ui None d)) as R. unfold bind.
      destruct (reject v (set_ui None d)) as [[]]; unfold ret; cbn [snd] in *; rewrite R; destruct d; reflexivity.
    - left. unfold decide. destruct (d_ui d) as [v|]; [|reflexivity]. rewrite finish_log. destruct d; reflexivity.
    - left. reflexivity.
  Qed.

  (** ** Histories *)

  Lemma run_app d es1 es2 : snd (run C O d (es1 ++ es2)) = snd (run C O (snd (run C O d es1)) es2).
  Proof.
    revert d. induction es1 as [|e es1 IH]; intros d; cbn [app run snd]; auto.
    destruct (step C O d e) as [a d1]. specialize (IH d1).
    destruct (run C O d1 (es1 ++ es2)), (run C O d1 es1). exact IH.
  Qed.
  Lemma run_one d e : snd (run C O d [e]) = snd (step C O d e).
  Proof. cbn. destruct (step C O d e); reflexivity. Qed.

  Lemma run_ui es : forall d, Forall event_ok es -> ui_ok d -> ui_ok (snd (run C O d es)).
  Proof.
    induction es as [|e es IH]; intros d He V; cbn [run]; auto. inversion He; subst.
    pose proof (step_ui d e H1 V) as V1. destruct (step C O d e) as [a d1]. cbn [snd] in V1.
    specialize (IH d1 H2 V1). destruct (run C O d1 es); exact IH.
  Qed.
  Lemma ui_fresh f u : ui_ok (dev_fresh f u).
  Proof. discriminate. Qed.
  Lemma reach_ui f u es : Forall event_ok es -> ui_ok (snd (run C O (dev_fresh f u) es)).
  Proof. intros. apply run_ui; auto using ui_fresh. Qed.

  Lemma step_log_grows d e : exists l, d_log (snd (step C O d e)) = l ++ d_log d.
  Proof.
    destruct e as [buf rx| | | |]; cbn [step].
    - destruct (d_ui d); [now exists []|]. rewrite finish_log.
      destruct (apdu_read_ok buf rx); [|now exists []].
      destruct (dispatch_signs buf d) as [L|(g & s & L & _)]; rewrite L; [now exists []|now exists [g]].
    - unfold decide. destruct (d_ui d) as [v|]; [|now exists []]. rewrite finish_log.
      assert (Lu : d_log (set_ui None d) = d_log d) by (destruct d; reflexivity).
      set (room := match cf_room C v with Some r => r | None => 0 end).
      assert (X : exists l, d_log (snd (accept O v room (set_ui None d))) = l ++ d_log d).
      { destruct (accept_signs v room (set_ui None d)) as [L|(g & s & L & _)]; rewrite L, Lu;
          [now exists []|now exists [g]]. }
      unfold bind. destruct (accept O v room (set_ui None d)) as [[]]; exact X.
    - exists []. unfold decide. destruct (d_ui d) as [v|]; [|reflexivity]. rewrite finish_log.
      pose proof (reject_log v (set_ui None d)) as R. unfold bind.
      destruct (reject v (set_ui None d)) as [[]]; unfold ret; cbn [snd] in *; rewrite R; destruct d; reflexivity.
    - exists []. unfold decide. destruct (d_ui d) as [v|]; [|reflexivity]. rewrite finish_log.
      destruct d; reflexivity.
    - now exists [].
  Qed.
  Lemma run_log_grows es : forall d, exists l, d_log (snd (run C O d es)) = l ++ d_log d.
  Proof.
    induction es as [|e es IH]; intros d; cbn [run]; [now exists []|].
    destruct (step_log_grows d e) as [l1 L1]. destruct (step C O d e) as [a d1]. cbn [snd] in L1.
    destruct (IH d1) as [l2 L2]. destruct (run C O d1 es). cbn [snd] in *.
    exists (l2 ++ l1). now rewrite L2, L1, app_assoc.
  Qed.

  (** Every signature of a history is made by one of its events. *)
  Lemma history_signs es : forall d l, Forall event_ok es -> ui_ok d ->
    signed_between d (snd (run C O d es)) l -> forall g, In g l ->
    exists es1 e es2, es = es1 ++ e :: es2 /\
      let dg := snd (run C O d es1) in
      sig_cause C dg e g /\ sig_sound O g /\ sig_answer O g (fst (step C O dg e)) /\
      d_log (snd (step C O dg e)) = g :: d_log dg.
  Proof.
    induction es as [|e es IH] using rev_ind; intros d l He V Hl g Hg.
    - cbn [run snd] in Hl. unfold signed_between in Hl. destruct (rev l) eqn:R.
      + apply (f_equal (@rev sigrec)) in R. rewrite rev_involutive in R. subst l. contradiction.
      + exfalso. apply (f_equal (@length sigrec)) in Hl. rewrite app_length in Hl. cbn in Hl. lia.
    - apply Forall_app in He as [He1 He2]. inversion He2; subst.
      rewrite run_app, run_one in Hl.
      set (d1 := snd (run C O d es)) in *.
      assert (V1 : ui_ok d1) by now apply run_ui.
      assert (Hext : exists l1, signed_between d d1 l1).
      { destruct (run_log_grows es d) as [l1 Hl1]. exists (rev l1). unfold signed_between.
        now rewrite rev_involutive. }
      destruct Hext as [l1 Hl1].
      destruct (step_signs d1 e H1 V1) as [L|(g' & L & G2 & G3 & G4)].
      + assert (l = l1) as ->.
        { unfold signed_between in *. rewrite L, Hl1 in Hl. apply app_inv_tail in Hl.
          apply (f_equal (@rev sigrec)) in Hl. now rewrite !rev_involutive in Hl. }
        destruct (IH d l1 He1 V Hl1 g Hg) as (a & x & b & E & R).
        exists a, x, (b ++ [e]). split; [rewrite E, <- app_assoc; reflexivity|exact R].
      + assert (l = l1 ++ [g']) as ->.
        { unfold signed_between in *. rewrite L, Hl1 in Hl.
          change (g' :: rev l1 ++ d_log d) with ((g' :: rev l1) ++ d_log d) in Hl.
          apply app_inv_tail in Hl. apply (f_equal (@rev sigrec)) in Hl. rewrite rev_involutive in Hl.
          rewrite <- Hl. cbn. now rewrite rev_involutive. }
        apply in_app_or in Hg as [Hg|[->|[]]].
        * destruct (IH d l1 He1 V Hl1 g Hg) as (a & x & b & E & R).
          exists a, x, (b ++ [e]). split; [rewrite E, <- app_assoc; reflexivity|exact R].
        * exists es, e, []. split; [reflexivity|]. fold d1. auto.
  Qed.
End Signatures.
