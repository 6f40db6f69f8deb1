(** Reviews that read the upload buffer: proofs. *)
From Coq Require Import List NArith ZArith Bool Arith Lia ZifyBool ZifyNat ZifyN.
From Verif Require Import Base BaseFacts Flash Codecs Upload UploadSpec UploadFacts Oracles Operations Address Baking Device
  DeviceSpec DeviceFacts DeviceSigs DeviceReviews DeviceUploads DeviceLive DevExamples Borrow BorrowSpec.
Import ListNotations.
Open Scope N_scope.

Lemma caps : RAM_CAP = N.to_nat 255 /\ FLASH_CAP = N.to_nat 8191.
Proof. split; reflexivity. Qed.

Lemma tl_skip {A} (l : list A) x r n : l = x :: r -> skipn n r = skipn (S n) l.
Proof. now intros ->. Qed.

(** The slice is the data of the upload. *)
Lemma split_place u up : sized u -> u_split u = Ok up ->
  place_read (u_buf u) (data_place u) = uo_data up /\ place_inside (data_place u) /\
  pl_len (data_place u) = length (uo_data up).
Proof.
  intros Z H. unfold u_split in H. destruct (sb_read_exact (u_buf u)) as [|p2 rest] eqn:E; [discriminate|].
  destruct (N.ltb_spec (len rest) (u_init_len u)) as [L|L]; [discriminate|]. injection H as <-. cbn [uo_data].
  destruct caps as [CR CF].
  unfold data_place, place_read, place_inside, slice, len in *. set (n := N.to_nat (u_init_len u)) in *.
  destruct Z as (Zr & Zf & Zs). unfold sb_read_exact in E.
  destruct (sb_state (u_buf u)) as [cnt|cnt]; cbn [pl_flash pl_off pl_len].
  - rewrite <- skipn_firstn_comm, E. split; [reflexivity|].
    assert (Lc : length (firstn cnt (sb_ram (u_buf u))) = S (length rest)) by (rewrite E; reflexivity).
    rewrite firstn_length in Lc. rewrite skipn_length. split; lia.
  - rewrite <- skipn_firstn_comm, E. split; [reflexivity|].
    assert (Lc : length (firstn cnt (sb_flash (u_buf u))) = S (length rest)) by (rewrite E; reflexivity).
    rewrite firstn_length in Lc. rewrite skipn_length. split; lia.
Qed.

(** A completed upload was split from the buffer it leaves. *)
Lemma upload_split a buf u s up u' s' : upload a buf u s = (Ok (Some up), u', s') -> u_split u' = Ok up.
Proof.
  unfold upload. destruct (packet_of_p1 (apdu_p1 buf)) as [pt|]; [|discriminate].
  destruct (is_init pt).
  - destruct (u_write _ [apdu_p2 buf] s) as [[r u2] s2]. destruct r as [[]|e| |]; try discriminate.
    destruct (apdu_payload buf) as [pl|]; [|discriminate].
    destruct (u_write _ pl s2) as [[r3 u4] s4]. destruct r3; discriminate.
  - destruct (lock_acquire _ _ _); [discriminate|].
    destruct (u_write_payload u (apdu_payload buf) s) as [[r u1] s1]. destruct r as [[]|e| |]; try discriminate.
    destruct (is_next pt); [discriminate|]. destruct (u_split u1) eqn:E; try discriminate.
    intros H. injection H as <- <- <-. exact E.
Qed.

(** Dropping the upload leaves the bytes. *)
Lemma drop_read a u p : place_read (u_buf (upload_drop a u)) p = place_read (u_buf u) p.
Proof. unfold upload_drop. destruct (lock_acquire _ _ _); reflexivity. Qed.

Section Borrow.
  Variables (C : config) (O : oracles).

  Lemma with_upload_later a buf f E d d' : ~ e_up E -> (forall up, keeps E (f up)) ->
    with_upload a buf f d = (Ok Later, d') ->
    exists up u' s', upload a buf (d_up d) (d_ufaults d) = (Ok (Some up), u', s') /\ d_up d' = upload_drop a u'.
  Proof.
    intros N K H. unfold with_upload, the_upload in H. unfold bind at 1 in H.
    destruct (upload a buf (d_up d) (d_ufaults d)) as [[o u'] s'].
    destruct o as [[up|]|e| |]; try discriminate H. exists up, u', s'. split; [reflexivity|].
    set (d1 := set_up u' (set_ufaults s' d)) in *.
    assert (U1 : d_up d1 = u') by (unfold d1; destruct d; reflexivity).
    pose proof (K up d1) as F. destruct (f up d1) as [[r|e| |] d2]; cbn [snd] in F; try discriminate H.
    destruct (fr_up _ _ _ F N) as [E1 _]. unfold bind, drop_upload, ret in H. injection H as _ <-.
    rewrite E1, U1. destruct d2; reflexivity.
  Qed.

  Lemma handler_later a buf d d' : (if nth 0 buf 0 =? 0x80 then upload_command C (nth 1 buf 0) else None) = Some a ->
    dispatch C O buf d = (Ok Later, d') ->
    exists up u' s', upload a buf (d_up d) (d_ufaults d) = (Ok (Some up), u', s') /\ d_up d' = upload_drop a u'.
  Proof.
    intros Ea H. pose proof (dispatch_uploads C O buf) as D. rewrite Ea in D.
    destruct a; try contradiction; destruct D as [sh D]; rewrite D in H.
    - apply (with_upload_later AccSign buf _ eff_sign) with (3 := H); [cbn; tauto|]. apply keeps_start_sign.
    - apply (with_upload_later AccBaking buf _ eff_baker) with (3 := H); [cbn; tauto|]. apply keeps_baker_sign.
  Qed.

  (** A review that starts: the buffer afterwards, and its slice. *)
  Lemma pending_place d e v a : event_ok e -> sized (d_up d) -> d_ui d = None ->
    fst (step C O d e) = APending -> d_ui (snd (step C O d e)) = Some v -> borrows v = Some a ->
    exists buf rx dg data, e = EApdu buf rx /\ review_data v = Some (data, dg) /\
      let p := data_place (collected a buf d) in
      let b := u_buf (d_up (snd (step C O d e))) in
      place_read b p = data /\ place_inside p /\ pl_len p = length data /\
      u_lock (d_up (snd (step C O d e))) = None /\ sb_read_exact b = [].
  Proof.
    intros He Z U P V B. destruct (step_requested C O d e He U) as [(_ & w & Ew & R)|[N _]]; [|contradiction].
    rewrite V in Ew. injection Ew as <-. destruct R as (buf & rx & ins & -> & Cm & R). cbv zeta in R.
    cbn [step] in P, V |- *. rewrite U in P, V |- *.
    destruct (apdu_read_ok buf rx); [|cbn [finish] in P; destruct (len buf <? len [] + 2); discriminate P].
    destruct (dispatch C O buf d) as [o d'] eqn:D.
    assert (o = Ok Later) as ->.
    { destruct o as [[l|]|e| |]; cbn [finish] in P; try discriminate P; [|reflexivity|];
      match type of P with context [if ?c then _ else _] => destruct c; discriminate P end. }
    cbn [finish snd] in V |- *.
    assert (Ea : (if nth 0 buf 0 =? 0x80 then upload_command C (nth 1 buf 0) else None) = Some a /\
      exists up u' s' dg, upload a buf (d_up d) (d_ufaults d) = (Ok (Some up), u', s') /\
        review_data v = Some (uo_data up, dg)).
    { destruct v; try discriminate B; injection B as <-.
      - destruct R as (up & (_ & ins' & u' & s' & (_ & _ & E0 & E1) & I1 & Eu) & -> & _).
        split; [|exists up, u', s', digest; split; [exact Eu|reflexivity]].
        rewrite E0, E1. cbn [N.eqb Pos.eqb]. unfold upload_command.
        destruct I1 as [->|[-> I1]]; [destruct (cf_baking C); reflexivity|].
        destruct I1 as [<-|[<-|[<-|[]]]]; reflexivity.
      - destruct R as (up & (Cb & _ & ins' & u' & s' & (_ & _ & E0 & E1) & I1 & Eu) & -> & _).
        split; [|exists up, u', s', digest; split; [exact Eu|reflexivity]].
        rewrite E0, E1. cbn [N.eqb Pos.eqb]. unfold upload_command. rewrite Cb.
        destruct I1 as [<-|[<-|[<-|[]]]]; reflexivity. }
    destruct Ea as (Ea & up & u' & s' & dg & Eu & Rd).
    destruct (handler_later a buf d d' Ea D) as (up2 & u2 & s2 & Eu2 & Ed). rewrite Eu in Eu2. injection Eu2 as <- <- <-.
    exists buf, rx, dg, (uo_data up). split; [reflexivity|]. split; [exact Rd|]. cbv zeta.
    unfold collected. rewrite Eu. cbn [fst snd]. rewrite Ed.
    assert (Zu : sized u').
    { pose proof (upload_sized a buf (d_up d) (d_ufaults d) Z) as X. rewrite Eu in X. exact X. }
    destruct (split_place u' up Zu (upload_split _ _ _ _ _ _ _ Eu)) as (S1 & S2 & S3).
    destruct (dropped a u' (upload_last_lock _ _ _ _ _ _ _ Eu)) as [L1 L2].
    rewrite drop_read. split; [exact S1|]. split; [exact S2|]. split; [exact S3|]. split; [exact L1|exact L2].
  Qed.

  Definition placed (x : bdev) : Prop := forall v, d_ui (bd_dev x) = Some v ->
    match review_data v with
    | None => bd_place x = None
    | Some (data, _) =>
      exists p, bd_place x = Some p /\
        place_read (u_buf (d_up (bd_dev x))) p = data /\ place_inside p /\ pl_len p = length data /\
        u_lock (d_up (bd_dev x)) = None /\ sb_read_exact (u_buf (d_up (bd_dev x))) = []
    end.

  Lemma gate_step d e : gstep C O true d e = step C O d e.
  Proof. destruct e; reflexivity. Qed.

  Lemma bstep_dev x e : fst (bstep C O true x e) = fst (step C O (bd_dev x) e) /\
    bd_dev (snd (bstep C O true x e)) = snd (step C O (bd_dev x) e).
  Proof. unfold bstep. rewrite gate_step. destruct (step C O (bd_dev x) e) as [a d]. split; reflexivity. Qed.

  Lemma bstep_placed x e : event_ok e -> sized (d_up (bd_dev x)) -> placed x -> placed (snd (bstep C O true x e)).
  Proof.
    intros He Z P v V. destruct (bstep_dev x e) as [_ Ed]. rewrite Ed in V |- *.
    unfold bstep. rewrite gate_step. destruct (step C O (bd_dev x) e) as [a d] eqn:S. cbn [snd] in V |- *.
    cbn [bd_place]. rewrite V.
    destruct (d_ui (bd_dev x)) as [w|] eqn:U.
    - destruct (pending_step C O (bd_dev x) e) as [[A E]|[_ E]]; [congruence| |rewrite S in E; cbn [snd] in E; congruence].
      rewrite S in E. injection E as -> ->. rewrite U in V. injection V as ->. exact (P v U).
    - destruct (step_requested C O (bd_dev x) e He U) as [(Pd & w & Ew & R)|[_ N]];
        [|rewrite S in N; cbn [snd] in N; congruence].
      rewrite S in Pd. cbn [fst] in Pd. subst a.
      destruct (borrows v) as [acc|] eqn:B.
      + destruct (pending_place (bd_dev x) e v acc He Z U) as (buf & rx & dg & data & -> & Rd & H).
        { rewrite S. reflexivity. } { rewrite S. exact V. } { exact B. }
        rewrite Rd. eexists. split; [reflexivity|]. rewrite S in H. cbn [snd] in H. exact H.
      + destruct R as (buf & rx & ins & -> & _). destruct v; try discriminate B; reflexivity.
  Qed.

  Lemma brun_app x es1 es2 : brun C O true x (es1 ++ es2) =
    let (l1, x1) := brun C O true x es1 in let (l2, x2) := brun C O true x1 es2 in (l1 ++ l2, x2).
  Proof.
    revert x. induction es1 as [|e es1 IH]; intros x.
    - cbn [app brun]. destruct (brun C O true x es2); reflexivity.
    - cbn [app brun]. destruct (bstep C O true x e) as [a x1]. rewrite IH.
      destruct (brun C O true x1 es1) as [l1 x2]. destruct (brun C O true x2 es2). reflexivity.
  Qed.

  Lemma brun_run es : forall x, fst (brun C O true x es) = fst (run C O (bd_dev x) es) /\
    bd_dev (snd (brun C O true x es)) = snd (run C O (bd_dev x) es).
  Proof.
    induction es as [|e es IH]; intros x; cbn [brun run]; [split; reflexivity|].
    destruct (bstep_dev x e) as [E1 E2]. destruct (bstep C O true x e) as [a x1]. cbn [fst snd] in E1, E2.
    destruct (step C O (bd_dev x) e) as [a' d1]. cbn [fst snd] in E1, E2. subst a' d1.
    destruct (IH x1) as [I1 I2]. destruct (brun C O true x1 es) as [l x2].
    destruct (run C O (bd_dev x1) es) as [l' d2]. cbn [fst snd] in *. subst. split; reflexivity.
  Qed.

  Variables (f u : list fault).
  Notation xat es := (snd (brun C O true (b_fresh f u) es)).

  Lemma reach_dev es : bd_dev (xat es) = snd (run C O (dev_fresh f u) es).
  Proof. exact (proj2 (brun_run es (b_fresh f u))). Qed.

  Lemma reach_placed es : Forall event_ok es -> placed (xat es).
  Proof.
    induction es as [|e es IH] using rev_ind; intros He.
    - intros v V. discriminate V.
    - apply Forall_app in He as [He He1]. inversion He1 as [|? ? He2 _]; subst. specialize (IH He).
      assert (Z : sized (d_up (bd_dev (xat es)))) by (rewrite reach_dev; apply reach_sized).
      pose proof (bstep_placed (xat es) e He2 Z IH) as X.
      rewrite brun_app. destruct (brun C O true (b_fresh f u) es) as [l x]. cbn [snd] in X. cbn [brun].
      destruct (bstep C O true x e) as [a x1]. exact X.
  Qed.

  Lemma sub_read b p i n : (i + n <= pl_len p)%nat -> place_read b (sub_place p i n) = slice i n (place_read b p).
  Proof.
    intros H. unfold place_read, sub_place, slice. cbn [pl_flash pl_off pl_len].
    set (l := if pl_flash p then sb_flash b else sb_ram b).
    rewrite skipn_firstn_comm, firstn_firstn, skipn_plus. f_equal. lia.
  Qed.

  (** The slices of an operation. *)
  Lemma operation_slices rest branch ops : operation_new rest = Some (branch, ops) ->
    exists src, ops = eo_new src /\ rest = branch ++ src /\ length branch = 32%nat.
  Proof.
    unfold operation_new. destruct (take 32 rest) as [rem br| |] eqn:T; try discriminate.
    intros H. injection H as <- <-. destruct (take_inv _ _ _ _ T) as [-> L]. exists rem.
    split; [reflexivity|]. split; [reflexivity|]. unfold len in L. lia.
  Qed.

  Lemma reread_ok b p v data dg : view_ok O v -> review_data v = Some (data, dg) ->
    place_read b p = data -> pl_len p = length data -> reread b p v = Some v.
  Proof.
    intros K Rd R L. unfold reread.
    assert (S : forall rest branch ops, data = 3 :: rest -> operation_new rest = Some (branch, ops) ->
      place_read b (sub_place p 1 32) = branch /\
      place_read b (sub_place p 33 (pl_len p - 33)) = eo_source ops /\ ops = eo_new (eo_source ops)).
    { intros rest branch ops Ed Eo. destruct (operation_slices _ _ _ Eo) as (src & -> & -> & Lb).
      cbn [eo_new eo_source].
      assert (Ld : length data = (33 + length src)%nat).
      { rewrite Ed. cbn [length]. rewrite app_length, Lb. lia. }
      rewrite !sub_read by lia. rewrite R, L, Ed. unfold slice. change (skipn 33 (3 :: branch ++ src)) with (skipn 32 (branch ++ src)).
      change (skipn 1 (3 :: branch ++ src)) with (branch ++ src). split; [|split; [|reflexivity]].
      - rewrite <- Lb, firstn_app, firstn_all, Nat.sub_diag. cbn [firstn]. apply app_nil_r.
      - replace (skipn 32 (branch ++ src)) with src; [rewrite <- Ed, Ld|].
        2:{ rewrite skipn_app, skipn_all2 by lia. rewrite Lb, Nat.sub_diag. reflexivity. }
        apply firstn_all2. lia. }
    destruct v as [sh dg' parsed dt|sh dg' br o dt| | | | |]; try discriminate Rd; cbn [review_data] in Rd; injection Rd as -> ->.
    - destruct parsed as [[branch ops]|]; [|reflexivity].
      destruct K as (_ & rest & [(Ed & _ & Eo)|(_ & H)]); [|discriminate H].
      destruct (S rest branch ops Ed Eo) as (-> & -> & E). destruct ops as [src r]. reflexivity.
    - destruct K as (_ & rest & ops & more & Ed & Eo & En & _).
      destruct (S rest br ops Ed Eo) as (-> & -> & E). rewrite <- E, En. reflexivity.
  Qed.

  Lemma review_reads_upload es : Forall event_ok es ->
    fst (brun C O true (b_fresh f u) es) = fst (run C O (dev_fresh f u) es) /\
    bd_dev (xat es) = snd (run C O (dev_fresh f u) es) /\
    visible (xat es) = d_ui (snd (run C O (dev_fresh f u) es)).
  Proof.
    intros He. destruct (brun_run es (b_fresh f u)) as [E1 E2]. split; [exact E1|]. split; [exact E2|].
    unfold visible. change (bd_dev (b_fresh f u)) with (dev_fresh f u) in E2.
    pose proof (reach_placed es He) as P. unfold placed in P. rewrite E2 in *.
    destruct (d_ui (snd (run C O (dev_fresh f u) es))) as [v|] eqn:V; [|reflexivity].
    specialize (P v eq_refl). pose proof (reach_ui C O f u es He v V) as K.
    destruct (review_data v) as [[data dg]|] eqn:Rd; [|rewrite P; reflexivity].
    destruct P as (p & -> & R & _ & L & _). exact (reread_ok _ p v data dg K Rd R L).
  Qed.

  Lemma bytes_in_place es v data dg : Forall event_ok es -> d_ui (snd (run C O (dev_fresh f u) es)) = Some v ->
    review_data v = Some (data, dg) ->
    let up := d_up (snd (run C O (dev_fresh f u) es)) in
    exists p, bd_place (xat es) = Some p /\ place_inside p /\ place_read (u_buf up) p = data /\
      o_blake2b O 32 (place_read (u_buf up) p) = Some dg /\
      u_lock up = None /\ sb_read_exact (u_buf up) = [].
  Proof.
    intros He V Rd. pose proof (reach_placed es He v) as P. rewrite reach_dev in P. specialize (P V). rewrite Rd in P.
    destruct P as (p & E & R & In & _ & L & X). exists p. split; [exact E|]. split; [exact In|]. cbv zeta.
    split; [exact R|]. rewrite R. split; [|split; [exact L|exact X]].
    pose proof (reach_ui C O f u es He v V) as K.
    destruct v; try discriminate Rd; cbn [review_data] in Rd; injection Rd as -> ->; exact (proj1 K).
  Qed.

  Lemma signed_from_place es g : Forall event_ok es ->
    let d := snd (run C O (dev_fresh f u) es) in
    d_log (snd (step C O d EApprove)) = g :: d_log d ->
    exists p, bd_place (xat es) = Some p /\ place_inside p /\
      place_read (u_buf (d_up d)) p = sg_data g /\ o_blake2b O 32 (place_read (u_buf (d_up d)) p) = Some (sg_digest g) /\
      visible (xat es) = d_ui d.
  Proof.
    intros He d Lg. pose proof (reach_ui C O f u es He) as K. fold d in K.
    destruct (step_signs C O d EApprove Logic.I K) as [L|(g' & L & Sc & _)].
    - exfalso. rewrite L in Lg. apply (f_equal (@length sigrec)) in Lg. cbn [length] in Lg. lia.
    - rewrite L in Lg. injection Lg as ->.
      assert (V : exists v, d_ui d = Some v /\ review_data v = Some (sg_data g, sg_digest g)).
      { unfold sig_cause in Sc. destruct (sg_src g).
        - destruct Sc as (_ & _ & ? & ? & ? & ? & ? & ? & X & _). discriminate X.
        - destruct Sc as (_ & _ & sh & br & o & V). eexists. split; [exact V|reflexivity].
        - destruct Sc as (_ & _ & sh & p & V). eexists. split; [exact V|reflexivity].
        - destruct Sc as (_ & ? & ? & X & _). discriminate X. }
      destruct V as (v & V & Rd).
      destruct (bytes_in_place es v _ _ He V Rd) as (p & E & In & R & Dg & _).
      exists p. split; [exact E|]. split; [exact In|]. split; [exact R|]. split; [exact Dg|].
      exact (proj2 (proj2 (review_reads_upload es He))).
  Qed.
End Borrow.
