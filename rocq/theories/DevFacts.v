(** Facts about developer builds. *)
From Coq Require Import List NArith ZArith Lia Bool Arith ZifyBool ZifyNat ZifyN.
From Verif Require Import Base BaseFacts Flash FlashFacts Codecs CodecsSpec CodecsFacts
  Upload UploadSpec UploadFacts Baking BakingSpec Oracles Address AddressSpec
  Device DeviceSpec DeviceFacts DeviceProofs DeviceAnswers ServiceSpec DeviceLive
  Text Catch Loop LoopSpec LoopFacts DevBuild DevSpec.
Import ListNotations.
Open Scope N_scope.

Lemma known_app baking ins : known baking ins = true <-> In ins (app_instructions baking).
Proof.
  unfold known. rewrite existsb_exists. split.
  - intros (y & H & E). apply N.eqb_eq in E. subst y. destruct baking; cbn [app COMMON In app_instructions] in *; tauto.
  - intros H. exists ins. split; [|apply N.eqb_refl]. destruct baking; cbn [app COMMON In app_instructions] in *; tauto.
Qed.
Lemma app_not_dev baking ins : In ins (app_instructions baking) -> ins < 0xF0.
Proof. destruct baking; cbn [app_instructions In]; lia. Qed.

(** ** What a developer's event does to the app proper *)

(** The upload buffer changes, in order, and at most the app restarts. *)
Definition moved (d d' : dev) : Prop := exists u s,
  (d' = set_up u (set_ufaults s d) \/ d' = restart (set_up u (set_ufaults s d))) /\
  (up_bytes (d_up d) -> Forall up_fault_ok (d_ufaults d) -> up_bytes u /\ Forall up_fault_ok s) /\
  (sized (d_up d) -> sized u).

Lemma set_own d : set_up (d_up d) (set_ufaults (d_ufaults d) d) = d.
Proof. destruct d; reflexivity. Qed.
Lemma moved_refl d : moved d d.
Proof. exists (d_up d), (d_ufaults d). rewrite set_own. auto. Qed.
Lemma moved_restart d : moved d (restart d).
Proof. exists (d_up d), (d_ufaults d). rewrite set_own. auto. Qed.
Lemma moved_up d u s :
  (up_bytes (d_up d) -> Forall up_fault_ok (d_ufaults d) -> up_bytes u /\ Forall up_fault_ok s) ->
  (sized (d_up d) -> sized u) -> moved d (set_up u (set_ufaults s d)).
Proof. intros H1 H2. exists u, s. auto. Qed.
Lemma set_set u s v t d : set_up u (set_ufaults s (set_up v (set_ufaults t d))) = set_up u (set_ufaults s d).
Proof. destruct d; reflexivity. Qed.
Lemma d_up_set u s d : d_up (set_up u (set_ufaults s d)) = u.
Proof. destruct d; reflexivity. Qed.
Lemma d_uf_set u s d : d_ufaults (set_up u (set_ufaults s d)) = s.
Proof. destruct d; reflexivity. Qed.
(** Before a restart the changes compose. *)
Definition shifted (d d' : dev) : Prop := exists u s, d' = set_up u (set_ufaults s d) /\
  (up_bytes (d_up d) -> Forall up_fault_ok (d_ufaults d) -> up_bytes u /\ Forall up_fault_ok s) /\
  (sized (d_up d) -> sized u).
Lemma shifted_refl d : shifted d d.
Proof. exists (d_up d), (d_ufaults d). rewrite set_own. auto. Qed.
Lemma shifted_trans a b c : shifted a b -> shifted b c -> shifted a c.
Proof.
  intros (u & s & -> & H1 & H2) (v & t & -> & H3 & H4). rewrite d_up_set, d_uf_set in *.
  exists v, t. rewrite set_set. split; [reflexivity|]. split; [|auto].
  intros A B. destruct (H1 A B). auto.
Qed.
Lemma shifted_moved d d' : shifted d d' -> moved d d'.
Proof. intros (u & s & -> & H1 & H2). exists u, s. auto. Qed.
Lemma shifted_restart d d' : shifted d d' -> moved d (restart d').
Proof. intros (u & s & -> & H1 & H2). exists u, s. auto. Qed.
Lemma set_up_uf u d : set_up u d = set_up u (set_ufaults (d_ufaults d) d).
Proof. destruct d; reflexivity. Qed.
Lemma shifted_drop a d : shifted d (snd (drop_upload a d)).
Proof.
  unfold drop_upload. cbn [snd]. exists (upload_drop a (d_up d)), (d_ufaults d).
  rewrite <- set_up_uf. split; [reflexivity|]. split; auto using drop_sized, drop_bytes.
Qed.
Lemma shifted_upload a buf d : apdu_ok buf -> shifted d (snd (the_upload a buf d)).
Proof.
  intros Hb. unfold the_upload.
  pose proof (upload_bytes a buf (d_up d) (d_ufaults d) Hb) as X.
  pose proof (upload_sized a buf (d_up d) (d_ufaults d)) as Y.
  destruct (upload a buf (d_up d) (d_ufaults d)) as [[r u] s]. cbn [fst snd] in *.
  exists u, s. split; [reflexivity|]. split; [|exact Y]. intros A B. destruct (X A B) as (? & ? & _). auto.
Qed.
Lemma u_write_sb u l s : u_write u l s =
  (let '(b, r, s') := sb_write RAM_CAP FLASH_CAP (u_buf u) l s in
   (match r with SbOk => Ok tt | SbErr => Err DataInvalid | SbCut => Cut end, mkU b (u_lock u) (u_init_len u), s')).
Proof. unfold u_write. destruct (sb_write _ _ _ _ _) as [[b r] s']. destruct r; reflexivity. Qed.
Lemma shifted_debug_write l d : bytes_ok l -> shifted d (snd (debug_write l d)).
Proof.
  intros Hl. unfold debug_write.
  pose proof (u_write_bytes (d_up d) l (d_ufaults d)) as X.
  pose proof (u_write_sized (d_up d) l (d_ufaults d)) as Y.
  rewrite u_write_sb in X, Y.
  destruct (sb_write RAM_CAP FLASH_CAP (u_buf (d_up d)) l (d_ufaults d)) as [[b r] s']. cbn [fst snd] in *.
  exists (mkU b (u_lock (d_up d)) (u_init_len (d_up d))), s'.
  split; [destruct r; reflexivity|]. split; [|exact Y]. intros A B. exact (X A Hl B).
Qed.

Section Dev.
  Variable D : dconfig.
  Variable O : oracles.
  Notation C := (dc_conf D).

  Lemma dshow_dev v x : dd_dev (snd (dshow D v x)) = dd_dev x.
  Proof. unfold dshow. destruct (dc_room D v); reflexivity. Qed.
  Lemma dfinish_moved room r d : shifted d (dd_dev (snd r)) -> moved d (dd_dev (snd (dfinish room r))).
  Proof.
    intros H. destruct r as [[[data|]|e| |] x]; cbn [dfinish snd] in *;
      try (match goal with |- context [if ?b then _ else _] => destruct b end);
      cbn [snd drestart dd_dev]; auto using shifted_moved, shifted_restart.
  Qed.
  Lemma dev_hash_shifted buf d : apdu_ok buf -> shifted d (snd (h_dev_hash O buf d)).
  Proof.
    intros Hb. unfold h_dev_hash, with_upload, bind. pose proof (shifted_upload AccSha256 buf d Hb) as X.
    destruct (the_upload AccSha256 buf d) as [[[up|]|e| |] d1]; cbn [snd] in X; try exact X.
    unfold of_option. destruct (o_sha256 O _); cbn [ret fail snd];
      eapply shifted_trans; [exact X|apply (shifted_drop AccSha256)|exact X|apply (shifted_drop AccSha256)].
  Qed.
  Lemma blind_sign_dev sh up x : dd_dev (snd (blind_sign D O sh up x)) = dd_dev x.
  Proof.
    unfold blind_sign. destruct (curve_of_byte _); [|reflexivity]. destruct (path_read _ _); [|reflexivity].
    destruct (o_blake2b O 32 _); [|reflexivity]. rewrite dshow_dev. reflexivity.
  Qed.
  Lemma blind_shifted buf x : apdu_ok buf -> shifted (dd_dev x) (dd_dev (snd (h_blind D O buf x))).
  Proof.
    intros Hb. unfold h_blind. pose proof (shifted_upload AccBlind buf (dd_dev x) Hb) as X.
    destruct (the_upload AccBlind buf (dd_dev x)) as [[[up|]|e| |] d1]; cbn [snd] in X; try exact X.
    pose proof (blind_sign_dev true up (set_dev d1 x)) as E. cbn [set_dev dd_dev] in E.
    destruct (blind_sign D O true up (set_dev d1 x)) as [r y]. cbn [snd] in E.
    assert (Z : shifted (dd_dev x) (snd (drop_upload AccBlind (dd_dev y)))).
    { rewrite E. eapply shifted_trans; [exact X|apply shifted_drop]. }
    destruct r; try exact Z; cbn [snd]; rewrite E; exact X.
  Qed.
  Lemma byte_ok n buf : apdu_ok buf -> (n < 260)%nat -> nth n buf 0 < 256.
  Proof. intros [L B] H. unfold bytes_ok in B. rewrite Forall_forall in B. apply B, nth_In. lia. Qed.
  Lemma debug_shifted buf x : apdu_ok buf -> shifted (dd_dev x) (dd_dev (snd (h_debug D buf x))).
  Proof.
    intros Hb. unfold h_debug. destruct (apdu_payload_260 buf Hb) as (pl & -> & _ & Hl & Hp).
    set (d0 := set_up (mkU (u_buf (d_up (dd_dev x))) (lock_lock acc_eqb (u_lock (d_up (dd_dev x))) AccDebug)
      (u_init_len (d_up (dd_dev x)))) (dd_dev x)).
    assert (X0 : shifted (dd_dev x) d0).
    { unfold d0. rewrite set_up_uf. exists (mkU (u_buf (d_up (dd_dev x)))
        (lock_lock acc_eqb (u_lock (d_up (dd_dev x))) AccDebug) (u_init_len (d_up (dd_dev x)))), (d_ufaults (dd_dev x)).
      split; [reflexivity|]. split; auto. }
    set (h := [apdu_cla buf; apdu_ins buf; apdu_p1 buf; apdu_p2 buf; len pl]).
    assert (Hh : bytes_ok h).
    { unfold h, apdu_cla, apdu_ins, apdu_p1, apdu_p2. repeat constructor; try (apply byte_ok; [exact Hb|lia]).
      unfold len; lia. }
    unfold bind. cbv beta. fold d0.
    pose proof (shifted_debug_write h d0 Hh) as X1.
    destruct (debug_write h d0) as [[[]|e| |] d1]; cbn [snd set_dev dd_dev] in *;
      try exact (shifted_trans _ _ _ X0 X1).
    pose proof (shifted_debug_write pl d1 Hp) as X2.
    destruct (debug_write pl d1) as [[[]|e| |] d2]; cbn [snd] in *; try rewrite dshow_dev; cbn [set_dev dd_dev];
      exact (shifted_trans _ _ _ X0 (shifted_trans _ _ _ X1 X2)).
  Qed.
  Lemma echo_dev buf x : dd_dev (snd (h_echo D buf x)) = dd_dev x.
  Proof.
    unfold h_echo. destruct (apdu_payload buf); [|reflexivity].
    destruct (34 <? len b); [reflexivity|]. destruct (len b <? 17); [reflexivity|]. apply dshow_dev.
  Qed.
  Lemma daccept_shifted v x : shifted (dd_dev x) (dd_dev (snd (daccept O v x))).
  Proof.
    destruct v as [l1 l2|sh dg data|]; cbn [daccept].
    - apply shifted_refl.
    - destruct (dd_path x) as [k|]; [|apply shifted_refl].
      destruct (o_sign O _ _ _); [|apply shifted_refl].
      destruct (100 <? _)%nat; apply shifted_refl.
    - apply shifted_drop.
  Qed.
  Lemma dreject_shifted v x : shifted (dd_dev x) (dd_dev (snd (dreject v x))).
  Proof. destruct v; cbn [dreject snd set_dpath dd_dev]; auto using shifted_refl. apply shifted_drop. Qed.
  Lemma ddecide_moved f v x : (forall y, shifted (dd_dev y) (dd_dev (snd (f v y)))) ->
    moved (dd_dev x) (dd_dev (snd (ddecide D f v x))).
  Proof. intros H. unfold ddecide. apply dfinish_moved. exact (H (set_view None x)). Qed.

  Lemma dplain_dev x e : dd_dev (snd (dplain D O x e)) = snd (step C O (dd_dev x) e).
  Proof. unfold dplain. destruct (step C O (dd_dev x) e) as [a d]. destruct a; reflexivity. Qed.

  (** Every event is one of the app proper, or leaves it alone but for the upload buffer. *)
  Lemma dstep_cases x e : event_ok e ->
    (dd_view x = None /\ dstep D O x e = dplain D O x e) \/ moved (dd_dev x) (dd_dev (snd (dstep D O x e))).
  Proof.
    intros He. destruct e as [buf rx| | | |]; unfold dstep.
    - destruct (dd_view x) eqn:V; [right; apply moved_refl|].
      destruct (d_ui (dd_dev x)); [right; apply moved_refl|].
      destruct (apdu_read_ok buf rx && _); [|auto]. cbn [event_ok] in He.
      destruct (apdu_ins buf =? 0xF0).
      { right. apply dfinish_moved. pose proof (dev_hash_shifted buf (dd_dev x) He) as X.
        destruct (h_dev_hash O buf (dd_dev x)); exact X. }
      destruct (apdu_ins buf =? 0xF1); [right; apply moved_refl|].
      destruct (apdu_ins buf =? 0xF2).
      { right. apply dfinish_moved. rewrite echo_dev. apply shifted_refl. }
      destruct (apdu_ins buf =? 0xF3); [right; apply dfinish_moved; now apply blind_shifted|].
      destruct (known _ _); [auto|]. right. apply dfinish_moved. now apply debug_shifted.
    - destruct (dd_view x); auto. right. apply ddecide_moved. intros. apply daccept_shifted.
    - destruct (dd_view x); auto. right. apply ddecide_moved. intros. apply dreject_shifted.
    - destruct (dd_view x); auto. right. apply ddecide_moved. intros. apply shifted_refl.
    - right. destruct (dd_view x); apply moved_restart.
  Qed.

  (** ** Invariants of the app proper *)

  Lemma moved_inv B lows base d d' : moved d d' -> inv B lows base d -> inv B lows base d'.
  Proof.
    intros (u & s & E & H & _) V. destruct (H (inv_up _ _ _ _ V) (inv_ufaults _ _ _ _ V)) as [Hu Hs].
    pose proof (inv_up_change _ _ _ _ u s V Hu Hs). destruct E; subst d'; auto using inv_restart.
  Qed.
  Lemma dstep_inv B lows base x e : event_ok e -> ~ dresets C x e -> B + 1 < 2 ^ 64 ->
    inv B lows base (dd_dev x) -> inv (B + 1) lows base (dd_dev (snd (dstep D O x e))).
  Proof.
    intros He Hr HB V. destruct (dstep_cases x e He) as [[Vw ->]|M].
    - rewrite dplain_dev. apply step_inv; auto. intros R. apply Hr. split; assumption.
    - eapply moved_inv; [exact M|]. eapply inv_mono; [|exact V]. lia.
  Qed.
  Lemma drun_inv es : forall B lows base x, Forall event_ok es -> dno_reset D O x es ->
    B + len es < 2 ^ 64 -> inv B lows base (dd_dev x) ->
    inv (B + len es) lows base (dd_dev (snd (drun D O x es))).
  Proof.
    induction es as [|e es IH]; intros B lows base x He Hr HB V; cbn [drun].
    - rewrite N.add_0_r. exact V.
    - inversion He; subst. destruct Hr as [R1 R2].
      assert (len (e :: es) = 1 + len es) as E by (unfold len; cbn [length]; lia). rewrite E in *.
      pose proof (dstep_inv B lows base x e H1 R1 ltac:(lia) V) as V1.
      destruct (dstep D O x e) as [a x1]. cbn [snd] in *.
      specialize (IH (B + 1) lows base x1 H2 R2 ltac:(lia) V1).
      destruct (drun D O x1 es). cbn [snd] in *. now rewrite N.add_assoc.
  Qed.
  Lemma moved_dok b d d' : moved d d' -> dok wf_wear slot_fault_ok b d -> dok wf_wear slot_fault_ok b d'.
  Proof.
    intros (u & s & E & H & _) V. destruct (H (dok_up _ _ _ _ V) (dok_ufaults _ _ _ _ V)) as [Hu Hs].
    assert (V1 : dok wf_wear slot_fault_ok b (set_up u (set_ufaults s d))).
    { destruct V as [A1 A2 A3 A4]. destruct d; constructor; auto. }
    destruct E; subst d'; auto. now apply (dok_restart _ _ wf_restart).
  Qed.
  Lemma drun_dok es : forall B x, Forall event_ok es -> B + len es < 2 ^ 64 ->
    dok wf_wear slot_fault_ok (fun _ => B) (dd_dev x) ->
    dok wf_wear slot_fault_ok (fun _ => B + len es) (dd_dev (snd (drun D O x es))).
  Proof.
    induction es as [|e es IH]; intros B x He HB V; cbn [drun].
    - cbn [len length N.of_nat snd]. eapply dok_mono; [apply wf_mono| |exact V]. intros; cbn; lia.
    - inversion He; subst.
      assert (len (e :: es) = 1 + len es) as E by (unfold len; cbn [length]; lia). rewrite E in *.
      assert (V1 : dok wf_wear slot_fault_ok (fun _ => B + 1) (dd_dev (snd (dstep D O x e)))).
      { destruct (dstep_cases x e H1) as [[Vw ->]|M].
        - rewrite dplain_dev.
          apply (step_dok C O wf_wear slot_fault_ok wf_mono wf_restart (fun B w w' => weq_wf B w w') wf_write I (fun _ => B)); auto.
          intros; cbn; lia.
        - eapply moved_dok; [exact M|]. eapply dok_mono; [apply wf_mono| |exact V]. intros; cbn; lia. }
      destruct (dstep D O x e) as [a x1]. cbn [snd] in *.
      specialize (IH (B + 1) x1 H2 ltac:(lia) V1).
      destruct (drun D O x1 es). cbn [snd] in *. now rewrite N.add_assoc.
  Qed.
  Lemma dev_consensus_ordered f u es1 es2 :
    Forall slot_fault_ok f -> Forall up_fault_ok u -> Forall event_ok (es1 ++ es2) ->
    len (es1 ++ es2) < 2 ^ 64 ->
    let x1 := snd (drun D O (dd_fresh f u) es1) in
    let x2 := snd (drun D O x1 es2) in
    dno_reset D O x1 es2 ->
    exists l, signed_between (dd_dev x1) (dd_dev x2) l /\ increasing (consensus_positions l).
  Proof.
    intros F U E L x1 x2 R. apply Forall_app in E as [E1 E2]. rewrite len_app in L.
    assert (V1 : dok wf_wear slot_fault_ok (fun _ => len es1) (dd_dev x1)).
    { apply (drun_dok es1 0); auto; [lia|]. cbn [dd_fresh dd_dev]. apply dok_fresh; auto using wf_fresh. }
    pose proof (drun_inv es2 (len es1) [] (d_log (dd_dev x1)) x1 E2 R L (inv_of_dok _ _ [] V1 ltac:(auto))) as V2.
    destruct V2 as [_ _ _ _ (l & ps & Hl & Hp & Hs & _)].
    exists l. split; [exact Hl|]. exists ps. auto.
  Qed.

  (** ** Separation *)

  Lemma moved_untouched d d' : moved d d' -> untouched d d'.
  Proof.
    intros (u & s & [-> | ->] & _); repeat split; try (destruct d; reflexivity);
      intros sl; destruct sl, d; reflexivity.
  Qed.
  Lemma dcommand_read x buf rx ins : dcommand x buf rx ins ->
    dd_view x = None /\ d_ui (dd_dev x) = None /\ apdu_read_ok buf rx && (apdu_cla buf =? CLA) = true /\
    apdu_ins buf = ins /\ len buf = 260.
  Proof.
    intros (V & [Hl _] & U & Hr & E0 & E1). repeat split; auto; [|unfold len; lia].
    unfold apdu_read_ok, apdu_cla, CLA. rewrite E0. unfold len. lia.
  Qed.
  (** The answer to a command. *)
  Lemma dstep_command x buf rx ins : dcommand x buf rx ins ->
    dstep D O x (EApdu buf rx) =
      if ins =? 0xF0 then dfinish 260 (let (r, d) := h_dev_hash O buf (dd_dev x) in (r, set_dev d x))
      else if ins =? 0xF1 then (h_except buf, x)
      else if ins =? 0xF2 then dfinish 260 (h_echo D buf x)
      else if ins =? 0xF3 then dfinish 260 (h_blind D O buf x)
      else if known (cf_baking C) ins then dplain D O x (EApdu buf rx)
      else dfinish 260 (h_debug D buf x).
  Proof.
    intros H. destruct (dcommand_read _ _ _ _ H) as (V & U & R & E & L).
    unfold dstep. rewrite V, U, R, E, L. reflexivity.
  Qed.
  Lemma developers_moved x e : event_ok e -> developers (cf_baking C) x e ->
    moved (dd_dev x) (dd_dev (snd (dstep D O x e))).
  Proof.
    intros He Hd. destruct (dstep_cases x e He) as [[V E]|M]; [|exact M].
    destruct e as [buf rx| | | |]; cbn [developers] in Hd; try contradiction.
    destruct Hd as (ins & Hc & Hn). cbn [event_ok] in He.
    rewrite (dstep_command x buf rx ins Hc).
    destruct (N.eqb_spec ins 0xF0).
    { apply dfinish_moved. pose proof (dev_hash_shifted buf (dd_dev x) He) as X.
      destruct (h_dev_hash O buf (dd_dev x)); exact X. }
    destruct (N.eqb_spec ins 0xF1); [apply moved_refl|].
    destruct (N.eqb_spec ins 0xF2).
    { apply dfinish_moved. rewrite echo_dev. apply shifted_refl. }
    destruct (N.eqb_spec ins 0xF3); [apply dfinish_moved; now apply blind_shifted|].
    destruct (known (cf_baking C) ins) eqn:K; [apply known_app in K; contradiction|].
    apply dfinish_moved. now apply debug_shifted.
  Qed.
  Lemma developers_untouched x e : event_ok e -> developers (cf_baking C) x e ->
    untouched (dd_dev x) (dd_dev (snd (dstep D O x e))).
  Proof. intros He Hd. now apply moved_untouched, developers_moved. Qed.

  Lemma ordinary_step x e : ordinary (cf_baking C) e -> dd_view x = None ->
    let (a, y) := dstep D O x e in
    step C O (dd_dev x) e = (a, dd_dev y) /\ dd_view y = None /\ dd_log y = dd_log x.
  Proof.
    intros Ho V.
    assert (P : let (a, y) := dplain D O x e in
      step C O (dd_dev x) e = (a, dd_dev y) /\ dd_view y = None /\ dd_log y = dd_log x).
    { unfold dplain. destruct (step C O (dd_dev x) e) as [a d].
      destruct a; cbn [dd_dev dd_view dd_log set_dev]; auto. }
    destruct e as [buf rx| | | |]; unfold dstep; rewrite V; try exact P.
    - destruct (d_ui (dd_dev x)) eqn:U.
      + cbn [step]. rewrite U. auto.
      + destruct (apdu_read_ok buf rx && (apdu_cla buf =? CLA)) eqn:R; [|exact P].
        apply andb_prop in R as [_ R]. apply N.eqb_eq in R. specialize (Ho R).
        assert (K := proj2 (known_app _ _) Ho). apply app_not_dev in Ho. fold (apdu_ins buf) in *.
        rewrite (proj2 (N.eqb_neq _ 0xF0)), (proj2 (N.eqb_neq _ 0xF1)), (proj2 (N.eqb_neq _ 0xF2)),
          (proj2 (N.eqb_neq _ 0xF3)), K by lia. exact P.
  Qed.
  Lemma ordinary_run es : forall x, Forall (ordinary (cf_baking C)) es -> dd_view x = None ->
    let (l, y) := drun D O x es in
    run C O (dd_dev x) es = (l, dd_dev y) /\ dd_view y = None /\ dd_log y = dd_log x.
  Proof.
    induction es as [|e es IH]; intros x Ho V; cbn [drun run]; [auto|].
    inversion Ho; subst. pose proof (ordinary_step x e H1 V) as X.
    destruct (dstep D O x e) as [a y]. destruct X as (-> & V1 & L1).
    specialize (IH y H2 V1). destruct (drun D O y es) as [l z]. destruct IH as (-> & V2 & L2).
    rewrite L2. auto.
  Qed.
  (** The app proper refuses the other instructions. *)
  Lemma refuses_others d buf rx ins : apdu_ok buf -> command d buf rx ins -> ~ In ins (app_instructions (cf_baking C)) ->
    step C O d (EApdu buf rx) = (AReply [0x69; 0x86], d).
  Proof.
    intros Hb Hc Hn. rewrite (step_command C O d buf rx ins Hb Hc).
    destruct Hc as (_ & _ & E0 & E1). rewrite (dispatch_at C O buf ins E0 E1).
    assert (N1 : forall n, In n (app_instructions (cf_baking C)) -> (ins =? n) = false).
    { intros n Hi. apply N.eqb_neq. intros ->. contradiction. }
    unfold dispatch_common. destruct (cf_baking C); cbn [app_instructions] in N1;
      rewrite !N1 by (cbn [In]; tauto); reflexivity.
  Qed.

  (** ** States that are reached *)

  Lemma moved_sized d d' : moved d d' -> sized (d_up d) -> sized (d_up d').
  Proof.
    intros (u & s & E & _ & H) V. specialize (H V). destruct E; subst d'; [now rewrite d_up_set|].
    destruct d. now apply restart_sized.
  Qed.
  (** What waits: at most one review; the digest of a blind signature is that of the
      message, and its key is known. *)
  Record waits (x : ddev) : Prop := {
    wt_one : dd_view x <> None -> d_ui (dd_dev x) = None;
    wt_blind : forall sh dg data, dd_view x = Some (DBlind sh dg data) ->
      sh = true /\ o_blake2b O 32 data = Some dg /\ exists k, dd_path x = Some k
  }.
  Lemma waits_none x : dd_view x = None -> waits x.
  Proof. intros V. constructor; rewrite V; [congruence|discriminate]. Qed.
  Lemma dfinish_waits room r : waits (snd r) -> waits (snd (dfinish room r)).
  Proof.
    intros H. destruct r as [[[data|]|e| |] x]; cbn [dfinish snd] in *; auto;
      try (match goal with |- context [if ?b then _ else _] => destruct b end); cbn [snd]; auto;
      now apply waits_none.
  Qed.
  Lemma dshow_waits v x : dd_view x = None -> d_ui (dd_dev x) = None ->
    match v with DBlind sh dg data => sh = true /\ o_blake2b O 32 data = Some dg /\ exists k, dd_path x = Some k | _ => True end ->
    waits (snd (dshow D v x)).
  Proof.
    intros V U H. unfold dshow. destruct (dc_room D v); cbn [snd]; [|now apply waits_none].
    constructor; cbn [set_view dd_view dd_dev dd_path]; auto.
    intros sh dg data E. injection E as ->. exact H.
  Qed.
  Lemma shifted_ui d d' : shifted d d' -> d_ui d' = d_ui d.
  Proof. intros (u & s & -> & _). destruct d; reflexivity. Qed.
  Lemma waits_dev x d : d_ui d = d_ui (dd_dev x) -> waits x -> waits (set_dev d x).
  Proof. intros E [A B]. constructor; cbn [set_dev dd_view dd_dev dd_path]; auto. now rewrite E. Qed.
  Lemma decided_view f v x : (forall y, dd_view y = None -> dd_view (snd (f v y)) = None) ->
    dd_view (snd (ddecide D f v x)) = None.
  Proof.
    intros H. unfold ddecide. specialize (H (set_view None x) eq_refl).
    destruct (f v (set_view None x)) as [[[data|]|e| |] y]; cbn [dfinish snd] in *; auto;
      try (match goal with |- context [if ?b then _ else _] => destruct b end); auto.
  Qed.
  Lemma daccept_view v y : dd_view (snd (daccept O v y)) = dd_view y.
  Proof.
    destruct v; cbn [daccept]; auto. destruct (dd_path y); auto. destruct (o_sign O _ _ _); auto.
    destruct (100 <? _)%nat; auto.
  Qed.
  Lemma dreject_view v y : dd_view (snd (dreject v y)) = dd_view y.
  Proof. destruct v; reflexivity. Qed.
  Lemma dstep_waits x e : event_ok e -> waits x -> waits (snd (dstep D O x e)).
  Proof.
    intros He W.
    assert (P : dd_view x = None -> waits (snd (dplain D O x e))).
    { intros V. apply waits_none. unfold dplain. destruct (step C O (dd_dev x) e) as [a d].
      destruct a; cbn [snd dd_view set_dev]; auto. }
    destruct e as [buf rx| | | |]; unfold dstep.
    - destruct (dd_view x) eqn:V; [exact W|]. destruct (d_ui (dd_dev x)) eqn:U; [exact W|].
      destruct (apdu_read_ok buf rx && _); [|auto]. cbn [event_ok] in He.
      destruct (apdu_ins buf =? 0xF0).
      { apply dfinish_waits. pose proof (dev_hash_shifted buf (dd_dev x) He) as X.
        destruct (h_dev_hash O buf (dd_dev x)) as [r d]. apply waits_dev; auto. now apply shifted_ui. }
      destruct (apdu_ins buf =? 0xF1); [exact W|].
      destruct (apdu_ins buf =? 0xF2).
      { apply dfinish_waits. unfold h_echo. destruct (apdu_payload buf); [|exact W].
        destruct (34 <? len b); [exact W|]. destruct (len b <? 17); [exact W|].
        apply dshow_waits; auto. }
      destruct (apdu_ins buf =? 0xF3).
      { apply dfinish_waits. unfold h_blind. pose proof (shifted_upload AccBlind buf (dd_dev x) He) as X.
        destruct (the_upload AccBlind buf (dd_dev x)) as [[[up|]|e| |] d1]; cbn [snd] in *;
          apply shifted_ui in X; try (now apply waits_dev).
        assert (Z : waits (snd (blind_sign D O true up (set_dev d1 x)))).
        { unfold blind_sign. destruct (curve_of_byte _); [|now apply waits_dev].
          destruct (path_read _ _); [|now apply waits_dev].
          destruct (o_blake2b O 32 _) eqn:Eb; [|now apply waits_none].
          apply dshow_waits; cbn [set_dpath set_dev dd_view dd_dev dd_path]; auto; [congruence|]. eauto. }
        destruct (blind_sign D O true up (set_dev d1 x)) as [[] y]; cbn [snd] in *; auto;
          apply waits_dev; auto; apply shifted_ui, shifted_drop. }
      destruct (known _ _); [auto|]. apply dfinish_waits.
      pose proof (debug_shifted buf x He) as X. apply shifted_ui in X. revert X.
      unfold h_debug. destruct (apdu_payload buf); [|auto].
      match goal with |- context [match ?m with (_, _) => _ end] => destruct m as [[[]|e| |] d] end;
        cbn [snd]; intros X; try (now apply waits_none).
      rewrite dshow_dev in X. apply dshow_waits; auto. cbn [set_dev dd_dev] in *. congruence.
    - destruct (dd_view x); auto. apply waits_none, decided_view. intros. now rewrite daccept_view.
    - destruct (dd_view x); auto. apply waits_none, decided_view. intros. now rewrite dreject_view.
    - destruct (dd_view x); auto. apply waits_none, decided_view. auto.
    - destruct (dd_view x); now apply waits_none.
  Qed.
  Lemma drun_ok es : forall x, Forall event_ok es -> waits x -> sized (d_up (dd_dev x)) ->
    waits (snd (drun D O x es)) /\ sized (d_up (dd_dev (snd (drun D O x es)))).
  Proof.
    induction es as [|e es IH]; intros x He W S1; cbn [drun]; [auto|]. inversion He; subst.
    pose proof (dstep_waits x e H1 W) as W1.
    assert (S2 : sized (d_up (dd_dev (snd (dstep D O x e))))).
    { destruct (dstep_cases x e H1) as [[_ ->]|M].
      - rewrite dplain_dev. now apply step_sized.
      - eapply moved_sized; eauto. }
    destruct (dstep D O x e) as [a y]. cbn [snd] in *. specialize (IH y H2 W1 S2).
    destruct (drun D O y es); exact IH.
  Qed.
  Lemma dreach_ok f u es : Forall event_ok es ->
    waits (snd (drun D O (dd_fresh f u) es)) /\ sized (d_up (dd_dev (snd (drun D O (dd_fresh f u) es)))).
  Proof. intros He. apply drun_ok; auto; [now apply waits_none|exact (proj1 u_fresh_rel)]. Qed.

  (** ** Uploads *)

  Lemma drun_app es1 : forall x es2, drun D O x (es1 ++ es2) =
    (fst (drun D O x es1) ++ fst (drun D O (snd (drun D O x es1)) es2),
     snd (drun D O (snd (drun D O x es1)) es2)).
  Proof.
    induction es1 as [|e es IH]; intros x es2; cbn [drun app].
    - cbn [fst snd app]. destruct (drun D O x es2); reflexivity.
    - destruct (dstep D O x e) as [a y]. rewrite IH. destruct (drun D O y es) as [l z]. reflexivity.
  Qed.
  Lemma packet_dcommand ins kind p x : dd_view x = None -> d_ui (dd_dev x) = None -> packet ins kind p ->
    dcommand x (fst p) (snd p) ins.
  Proof. intros V U (P1 & P2 & P3 & P4 & _). repeat split; auto; try apply P1; lia. Qed.

  Definition uploads (ins : N) (a : accessor) : Prop := (ins, a) = (0xF0, AccSha256) \/ (ins, a) = (0xF3, AccBlind).
  Lemma dpacket_step ins a kind p x u' : uploads ins a -> packet ins kind p ->
    dd_view x = None -> d_ui (dd_dev x) = None -> d_ufaults (dd_dev x) = [] ->
    upload a (fst p) (d_up (dd_dev x)) [] = (Ok None, u', []) ->
    dstep D O x (sent p) = (go_on, set_dev (set_up u' (dd_dev x)) x).
  Proof.
    intros H P V U F E. pose proof (packet_dcommand ins kind p x V U P) as Hc.
    unfold sent. rewrite (dstep_command x _ _ _ Hc).
    destruct H as [H|H]; injection H as -> ->.
    - cbn [N.eqb Pos.eqb]. unfold h_dev_hash, with_upload, the_upload, bind. rewrite F, E. unfold ret.
      rewrite (set_no_ufaults _ F). reflexivity.
    - cbn [N.eqb Pos.eqb]. unfold h_blind, the_upload. rewrite F, E.
      rewrite (set_no_ufaults _ F). reflexivity.
  Qed.
  Lemma dmids_run ins a p2 init : uploads ins a -> forall mids x data, Forall (packet ins KNext) mids ->
    dd_view x = None -> d_ui (dd_dev x) = None -> d_ufaults (dd_dev x) = [] ->
    u_rel (d_up (dd_dev x)) (Some (a, p2, init, data)) ->
    (1 + length init + length data + length (concat (map (fun p : bytes * N => pay (fst p)) mids)) <= CAPACITY)%nat ->
    exists u, drun D O x (map sent mids) = (map (fun _ => go_on) mids, set_dev (set_up u (dd_dev x)) x) /\
      u_rel u (Some (a, p2, init, data ++ concat (map (fun p : bytes * N => pay (fst p)) mids))).
  Proof.
    intros H. induction mids as [|p mids IH]; intros x data P V U F R L.
    - exists (d_up (dd_dev x)). cbn [map concat drun]. rewrite app_nil_r. split; [|exact R].
      destruct x as [[] ? ? ?]; reflexivity.
    - inversion P as [|? ? P1 P2]; subst. cbn [map concat] in L. rewrite app_length in L.
      destruct (next_packet a (fst p) (d_up (dd_dev x)) p2 init data) as (u1 & E1 & R1);
        [apply P1|exact R|apply P1|unfold bytes, byte in *; lia|].
      pose proof (dpacket_step ins a KNext p x u1 H P1 V U F E1) as S1.
      destruct (IH (set_dev (set_up u1 (dd_dev x)) x) (data ++ pay (fst p))) as (u2 & E2 & R2); auto;
        try (destruct x as [[] ? ? ?]; assumption).
      { rewrite app_length. unfold bytes, byte in *; lia. }
      exists u2. cbn [map drun concat]. rewrite S1, E2. split.
      + destruct x as [[] ? ? ?]; reflexivity.
      + now rewrite app_assoc.
  Qed.
  Lemma carries_run ins a init data first mids last x : uploads ins a -> carries ins init data first mids last ->
    sized (d_up (dd_dev x)) -> dd_view x = None -> d_ui (dd_dev x) = None -> d_ufaults (dd_dev x) = [] ->
    exists u u', drun D O x (map sent (first :: mids)) = (map (fun _ => go_on) (first :: mids), set_dev (set_up u (dd_dev x)) x) /\
      upload a (fst last) u [] = (Ok (Some (mkUO (nth 3 (fst first) 0) init data)), u', []).
  Proof.
    intros H (Q1 & Q2 & Q3 & Q4 & Q6 & Q7) S1 V U F.
    destruct (init_packet a (fst first) (d_up (dd_dev x))) as (u0 & E0 & R0); [apply Q1|exact S1|apply Q1|].
    pose proof (dpacket_step ins a KInit first x u0 H Q1 V U F E0) as S0.
    rewrite map_app, concat_app in Q6. cbn [map concat] in Q6. rewrite app_nil_r in Q6.
    assert (L : (1 + length (pay (fst first)) + length (concat (map (fun p : bytes * N => pay (fst p)) mids))
                 + length (pay (fst last)) <= CAPACITY)%nat).
    { rewrite <- Q6, app_length in Q7. rewrite Q4. unfold bytes, byte in *. lia. }
    destruct (dmids_run ins a (nth 3 (fst first) 0) (pay (fst first)) H mids (set_dev (set_up u0 (dd_dev x)) x) [] Q2)
      as (u1 & E1 & R1); try (destruct x as [[] ? ? ?]; assumption).
    { cbn [length]. unfold bytes, byte in *. lia. }
    cbn [app] in R1.
    destruct (last_packet a (fst last) u1 _ _ _ (proj1 Q3) R1) as (u2 & E2); [apply Q3|exact L|].
    exists u1, u2. split.
    - cbn [map drun]. rewrite S0, E1. destruct x as [[] ? ? ?]; reflexivity.
    - rewrite E2, Q4, Q6. reflexivity.
  Qed.
End Dev.
