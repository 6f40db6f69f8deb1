(** The upload buffer over histories, and what wallet signatures cover. *)
From Coq Require Import List NArith ZArith Lia Bool Arith ZifyBool ZifyNat ZifyN.
From Verif Require Import Base BaseFacts Flash FlashFacts Codecs CodecsSpec CodecsFacts
  Upload UploadSpec UploadFacts Baking BakingSpec BakingFacts Operations Oracles Address AddressSpec
  Device DeviceSpec DeviceFacts DeviceProofs DeviceHist DeviceSigs DeviceAnswers DeviceReviews DeviceKeys
  DeviceSlots DeviceCommands.
Import ListNotations.
Open Scope N_scope.

(** Without faults ahead, none appear. *)
Lemma sb_write_nil R F b l : snd (sb_write R F b l []) = [].
Proof.
  assert (X : forall b c, snd (sb_write_flash F b c l []) = []).
  { intros b' c. unfold sb_write_flash. destruct (_ <? _)%nat; [reflexivity|]. cbn [next_fault].
    destruct (nvm_blit _ _ _ _). reflexivity. }
  unfold sb_write. destruct (sb_state b); [|apply X].
  destruct (R <? _)%nat; [|reflexivity]. destruct (F <? _)%nat; [reflexivity|]. cbn [next_fault].
  destruct (nvm_blit _ _ _ _) as [fl []]; auto.
Qed.
Lemma u_write_nil u l : snd (u_write u l []) = [].
Proof.
  unfold u_write. pose proof (sb_write_nil RAM_CAP FLASH_CAP (u_buf u) l) as X.
  destruct (sb_write _ _ _ _ _) as [[b r] s]. destruct r; exact X.
Qed.
Lemma upload_nil a buf u : snd (upload a buf u []) = [].
Proof.
  unfold upload. destruct (packet_of_p1 _) as [pt|]; [|reflexivity]. destruct (is_init pt).
  - match goal with |- context [u_write ?x ?y []] => pose proof (u_write_nil x y) as X; destruct (u_write x y []) as [[r u2] s2] end.
    cbn [snd] in X. subst s2. destruct r; auto. destruct (apdu_payload buf) as [pl|]; auto.
    match goal with |- context [u_write ?x ?y []] => pose proof (u_write_nil x y) as X; destruct (u_write x y []) as [[r3 u4] s4] end.
    exact X.
  - destruct (lock_acquire _ _ _); [reflexivity|].
    assert (X : snd (u_write_payload u (apdu_payload buf) []) = []).
    { unfold u_write_payload. destruct (apdu_payload buf); [apply u_write_nil|reflexivity]. }
    destruct (u_write_payload _ _ _) as [[r u1] s1]. cbn [snd] in X. subst s1.
    destruct r; auto. destruct (is_next pt); reflexivity.
Qed.

Definition flash_size (u : ustate) : Prop := length (sb_flash (u_buf u)) = FLASH_CAP.
Lemma rel_size u st : u_rel u st -> flash_size u.
Proof. intros [(_ & H & _) _]. exact H. Qed.
Lemma restart_rel u : flash_size u -> u_rel (u_restart u) None.
Proof. intros H. split; [|reflexivity]. repeat split; auto using zeros_length. cbn. lia. Qed.

Lemma upload_step a buf u st : apdu_ok buf -> u_rel u st ->
  let '(o, u', s) := upload a buf u [] in
  s = [] /\ o = fst (proto_step a buf st) /\ flash_size u' /\
  u_rel (match o with Ok (Some _) => upload_drop a u' | _ => u' end) (snd (proto_step a buf st)).
Proof.
  intros Hb R. pose proof (up_step_refines a buf u st Hb R) as X. pose proof (upload_nil a buf u) as N.
  unfold up_step in X. destruct (upload a buf u []) as [[o u'] s]. cbn [snd] in N.
  destruct (proto_step a buf st) as [o' st']. destruct X as [-> X]. cbn [fst snd].
  split; [exact N|]. split; [reflexivity|]. split; [|exact X]. apply rel_size in X.
  destruct o' as [[up|]|e| |]; auto. unfold flash_size, upload_drop in *.
  destruct (lock_acquire _ _ _); exact X.
Qed.

Section Uploads.
  Variable C : config.
  Variable O : oracles.

  Definition kept {A} (st : pstate) (x : outcome A * dev) : Prop :=
    d_ufaults (snd x) = [] /\ flash_size (d_up (snd x)) /\
    match fst x with Ok _ | Err _ => u_rel (d_up (snd x)) st | _ => True end.
  Lemma kept_frame {A} E st d (x : outcome A * dev) : ~ e_up E -> frame E d (snd x) -> d_ufaults d = [] ->
    u_rel (d_up d) st -> kept st x.
  Proof.
    intros N F U R. destruct (fr_up _ _ _ F N) as [E1 E2]. unfold kept. rewrite E1, E2.
    split; [exact U|]. split; [now apply rel_size in R|]. destruct (fst x); auto.
  Qed.

  Lemma with_upload_kept a buf f E d st : apdu_ok buf -> d_ufaults d = [] -> u_rel (d_up d) st ->
    ~ e_up E -> (forall up, keeps E (f up)) -> kept (snd (proto_step a buf st)) (with_upload a buf f d).
  Proof.
    intros Hb U R N K. unfold with_upload, the_upload. unfold bind at 1. rewrite U.
    pose proof (upload_step a buf (d_up d) st Hb R) as X.
    destruct (upload a buf (d_up d) []) as [[o u'] s]. destruct X as (-> & Eo & Sz & X). clear Eo.
    set (d1 := set_up u' (set_ufaults [] d)).
    assert (U1 : d_up d1 = u' /\ d_ufaults d1 = []) by (unfold d1; destruct d; auto).
    destruct U1 as [U1 U2].
    destruct o as [[up|]|e| |]; unfold kept; cbn [fst snd].
    - pose proof (K up d1) as F. destruct (f up d1) as [[r|e| |] d2]; cbn [snd] in F;
        destruct (fr_up _ _ _ F N) as [E1 E2]; unfold bind, drop_upload, ret, fail; cbn [fst snd].
      + replace (d_ufaults (set_up (upload_drop a (d_up d2)) d2)) with (d_ufaults d2) by (destruct d2; reflexivity).
        replace (d_up (set_up (upload_drop a (d_up d2)) d2)) with (upload_drop a (d_up d2)) by (destruct d2; reflexivity).
        rewrite E1, E2, U1, U2. split; [reflexivity|]. split; [now apply rel_size in X|exact X].
      + replace (d_ufaults (set_up (upload_drop a (d_up d2)) d2)) with (d_ufaults d2) by (destruct d2; reflexivity).
        replace (d_up (set_up (upload_drop a (d_up d2)) d2)) with (upload_drop a (d_up d2)) by (destruct d2; reflexivity).
        rewrite E1, E2, U1, U2. split; [reflexivity|]. split; [now apply rel_size in X|exact X].
      + rewrite E1, E2, U1, U2. auto.
      + rewrite E1, E2, U1, U2. auto.
    - unfold ret. cbn [fst snd]. rewrite U1, U2. auto.
    - rewrite U1, U2. auto.
    - rewrite U1, U2. auto.
    - rewrite U1, U2. auto.
  Qed.

  Definition proto_cmd (buf : bytes) (st : pstate) : pstate :=
    if nth 0 buf 0 =? 0x80
    then match upload_command C (nth 1 buf 0) with Some a => snd (proto_step a buf st) | None => st end
    else st.

  Lemma dispatch_uploads buf : match (if nth 0 buf 0 =? 0x80 then upload_command C (nth 1 buf 0) else None) with
    | Some AccSign => exists sh, dispatch C O buf = h_sign C O sh buf
    | Some AccBaking => exists sh, dispatch C O buf = h_baker_sign C O sh buf
    | Some _ => False
    | None => (exists E, ~ e_up E /\ keeps E (dispatch C O buf))
    end.
  Proof.
    destruct (N.eqb_spec (nth 0 buf 0) 0x80) as [E0|E0].
    2:{ exists eff_none. split; [cbn; tauto|]. unfold dispatch, apdu_cla, CLA. apply N.eqb_neq in E0. rewrite E0.
        apply keeps_fail. }
    rewrite (dispatch_at C O buf _ E0 eq_refl). unfold upload_command, dispatch_common.
    set (ins := nth 1 buf 0). clearbody ins.
    assert (Kn : forall m : M reply, keeps eff_none m -> exists E, ~ e_up E /\ keeps E m) by (intros m; exists eff_none; cbn; auto).
    destruct (cf_baking C); cbn [existsb].
    - destruct (N.eqb_spec ins 0x06) as [->|N6].
      { cbn. exists eff_reset. split; [cbn; tauto|apply keeps_reset]. }
      repeat match goal with
      | |- context [if ?x =? ?y then _ else _] =>
        destruct (N.eqb_spec x y) as [?E|?E];
          [ match goal with H : ins = _ |- _ => rewrite ?H; cbn [N.eqb Pos.eqb orb] end;
            first [ eexists; reflexivity
                  | eexists; split; [|first [ apply keeps_main_hwm | apply keeps_all_hwm | apply keeps_authorize
                      | apply keeps_deauthorize | apply keeps_query | apply keeps_setup
                      | apply keeps_hmac | apply keeps_legacy_version | apply keeps_get_public
                      | apply keeps_prompt | apply keeps_get_address | apply keeps_git
                      | apply keeps_version ]]; cbn; tauto ] | ]
      end.
      repeat match goal with |- context [ins =? ?k] => replace (ins =? k) with false by (symmetry; now apply N.eqb_neq) end.
      cbn [orb]. apply Kn, keeps_fail.
    - repeat match goal with
      | |- context [if ?x =? ?y then _ else _] =>
        destruct (N.eqb_spec x y) as [?E|?E];
          [ match goal with H : ins = _ |- _ => rewrite ?H; cbn [N.eqb Pos.eqb orb] end;
            first [ eexists; reflexivity
                  | eexists; split; [|first [ apply keeps_legacy_version | apply keeps_get_public
                      | apply keeps_prompt | apply keeps_get_address | apply keeps_git
                      | apply keeps_version ]]; cbn; tauto ] | ]
      end.
      repeat match goal with |- context [ins =? ?k] => replace (ins =? k) with false by (symmetry; now apply N.eqb_neq) end.
      cbn [orb]. apply Kn, keeps_fail.
  Qed.
  Lemma dispatch_kept buf d st : apdu_ok buf -> d_ufaults d = [] -> u_rel (d_up d) st ->
    kept (proto_cmd buf st) (dispatch C O buf d).
  Proof.
    intros Hb U R. pose proof (dispatch_uploads buf) as X. unfold proto_cmd.
    destruct (nth 0 buf 0 =? 0x80); [destruct (upload_command C (nth 1 buf 0)) as [[]|]|]; try contradiction.
    - destruct X as [sh ->]. unfold h_sign. eapply with_upload_kept; eauto; [|apply keeps_start_sign]. cbn; tauto.
    - destruct X as [sh ->]. unfold h_baker_sign. eapply with_upload_kept; eauto; [|apply keeps_baker_sign]. cbn; tauto.
    - destruct X as (E & N & K). eapply kept_frame; eauto.
    - destruct X as (E & N & K). eapply kept_frame; eauto.
  Qed.

  Lemma finish_kept room x st (Ek : kept (A := reply) st x) :
    let d' := snd (finish room x) in d_ufaults d' = [] /\
    u_rel (d_up d') (match fst (finish room x) with ADied => None | _ => st end).
  Proof.
    destruct Ek as (E1 & E2 & E3).
    assert (D : forall d, d_ufaults d = [] -> flash_size (d_up d) ->
              d_ufaults (restart d) = [] /\ u_rel (d_up (restart d)) None).
    { intros d H1 H2. destruct d; cbn in *. split; [exact H1|]. now apply restart_rel. }
    destruct x as [[[data|]|e| |] d]; cbn [finish fst snd] in *; try (now apply D); try (split; assumption);
      match goal with |- context [if ?b then _ else _] => destruct b end; cbn [fst snd]; try (now apply D); split; assumption.
  Qed.

  Lemma step_uploading d e st : event_ok e -> d_ufaults d = [] -> u_rel (d_up d) st ->
    let d' := snd (step C O d e) in d_ufaults d' = [] /\ u_rel (d_up d') (upload_after C O d st e).
  Proof.
    intros He U R.
    assert (Dc : forall f, (forall v room, exists E, ~ e_up E /\ keeps E (f v room)) -> forall x, x = decide C f d ->
              d_ufaults (snd x) = [] /\ u_rel (d_up (snd x)) (match fst x with ADied => None | _ => st end)).
    { intros f Hf x ->. unfold decide. destruct (d_ui d) as [v|]; [|cbn; auto].
      apply finish_kept. set (room := match cf_room C v with Some r => r | None => 0 end).
      destruct (Hf v room) as (E & N & K).
      apply (kept_frame E _ (set_ui None d)); auto; [|destruct d; exact U|destruct d; exact R].
      specialize (K (set_ui None d)). unfold bind. destruct (f v room (set_ui None d)) as [[]]; exact K. }
    unfold upload_after. destruct e as [buf rx| | | |]; cbn [step].
    - destruct (d_ui d); [cbn; auto|].
      assert (El : len buf = 260) by (destruct He as [He _]; unfold len; lia). rewrite El.
      replace (apdu_read_ok buf rx) with ((5 <=? rx) && (rx <=? 260))
        by (unfold apdu_read_ok; rewrite El; reflexivity).
      destruct ((5 <=? rx) && (rx <=? 260)) eqn:Rx; cbn [andb].
      + pose proof (finish_kept 260 _ _ (dispatch_kept buf d st He U R)) as X.
        unfold proto_cmd in X. destruct (finish 260 (dispatch C O buf d)) as [[] d'] eqn:Ef; cbn [fst snd] in *; auto.
        exfalso. revert Ef. clear. intros Ef. destruct (dispatch C O buf d) as [[[]| | |] d1]; cbn [finish] in Ef;
          try discriminate; destruct (_ <? _); discriminate.
      + cbn. auto.
    - specialize (Dc (accept O)). specialize (Dc ltac:(intros v room; exists (eff_accept v); split; [cbn; tauto|apply keeps_accept])).
      specialize (Dc _ eq_refl). destruct (decide C (accept O) d) as [[] d']; cbn [fst snd] in *; auto.
    - specialize (Dc (fun v _ => reject v)). specialize (Dc ltac:(intros v room; exists (eff_accept v); split; [cbn; tauto|apply keeps_reject])).
      specialize (Dc _ eq_refl). destruct (decide C (fun v _ => reject v) d) as [[] d']; cbn [fst snd] in *; auto.
    - specialize (Dc (fun _ _ => fail DataInvalid)).
      specialize (Dc ltac:(intros v room; exists eff_none; split; [cbn; tauto|apply keeps_fail])).
      specialize (Dc _ eq_refl). destruct (decide C (fun _ _ => fail DataInvalid) d) as [[] d']; cbn [fst snd] in *; auto.
    - cbn [fst snd]. destruct d; cbn in *. split; [exact U|]. apply restart_rel. now apply rel_size in R.
  Qed.
  Lemma run_uploading es : forall d st, Forall event_ok es -> d_ufaults d = [] -> u_rel (d_up d) st ->
    let d' := snd (run C O d es) in d_ufaults d' = [] /\ u_rel (d_up d') (uploading C O d st es).
  Proof.
    induction es as [|e es IH]; intros d st He U R; [cbn; auto|]. inversion He; subst.
    destruct (step_uploading d e st) as [U1 R1]; auto. cbn [run uploading].
    specialize (IH _ _ H2 U1 R1). destruct (step C O d e) as [a d1]. cbn [snd] in *.
    destruct (run C O d1 es) as [l d2]. exact IH.
  Qed.

  (** C28. *)
  Lemma wallet_signature f es g : Forall event_ok es ->
    In g (d_log (snd (run C O (dev_fresh f []) es))) -> sg_src g = SrcReview ->
    exists es1 buf rx ins es2 es3 up, es = es1 ++ (EApdu buf rx :: es2) ++ EApprove :: es3 /\ Forall is_apdu es2 /\
      let d := snd (run C O (dev_fresh f []) es1) in
      command d buf rx ins /\ upload_command C ins = Some AccSign /\
      fst (proto_step AccSign buf (uploading C O (dev_fresh f []) None es1)) = Ok (Some up) /\
      fst (step C O d (EApdu buf rx)) = APending /\
      sg_data g = uo_data up /\ o_blake2b O 32 (uo_data up) = Some (sg_digest g) /\
      uo_p2 up = byte_of_curve (fst (sg_key g)) /\
      path_encodes BIP32_MAX_LENGTH (uo_first up) (snd (sg_key g)) /\
      let d2 := snd (run C O (dev_fresh f []) (es1 ++ EApdu buf rx :: es2)) in
      d_log (snd (step C O d2 EApprove)) = g :: d_log d2 /\
      sig_answer O g (fst (step C O d2 EApprove)).
  Proof.
    intros E Hg Sg.
    destruct (history_signs C O es (dev_fresh f []) (rev (d_log (snd (run C O (dev_fresh f []) es)))) E
      (reach_ui C O f [] [] (Forall_nil _))) with (g := g) as (es0 & e & es3 & Ee & Ca & So & An & Lg).
    - unfold signed_between. rewrite rev_involutive. cbn. now rewrite app_nil_r.
    - now rewrite <- in_rev.
    - cbn zeta in *. subst es. apply Forall_app in E as [E0 _]. unfold sig_cause in Ca. rewrite Sg in Ca.
      destruct Ca as (-> & P & sh & p & U).
      destruct (pending_origin C O es0 (dev_fresh f []) _ E0 eq_refl U) as (es1 & e & es2 & -> & Fa & Sp & Rq).
      cbn zeta in Sp, Rq. apply Forall_app in E0 as [E1 E2]. inversion E2 as [|? ? He _]; subst.
      destruct Rq as (buf & rx & ins & -> & Cm & up & Cs & Ed & _ & c & pa & Ec & Ep & Epath).
      destruct Cs as (Hb & ins' & uu & ss & Cm' & Hi & Eu).
      assert (ins' = ins) as -> by (destruct Cm as (_ & _ & _ & <-), Cm' as (_ & _ & _ & <-); reflexivity).
      destruct (run_uploading es1 (dev_fresh f []) None E1 eq_refl u_fresh_rel) as [Uf Ur].
      set (d := snd (run C O (dev_fresh f []) es1)) in *.
      pose proof (upload_step AccSign buf (d_up d) _ Hb Ur) as X. rewrite Uf in Eu. rewrite Eu in X.
      destruct X as (_ & X & _).
      exists es1, buf, rx, ins, es2, es3, up.
      split; [now rewrite <- app_assoc|]. split; [exact Fa|]. split; [exact Cm|].
      split.
      { unfold upload_command. destruct Hi as [->|[Cb Hi]].
        - destruct (cf_baking C); reflexivity.
        - rewrite Cb. cbn [In] in Hi. destruct Hi as [<-|[<-|[<-|[]]]]; reflexivity. }
      split; [now rewrite <- X|]. split; [exact (f_equal fst Sp)|]. split; [exact Ed|].
      assert (Eg : sg_key g = (c, pa)) by congruence. rewrite Eg. cbn [fst snd].
      split; [|split; [now apply curve_of_byte_inv|split; [now apply path_read_sound|]]].
      + unfold sig_sound in So. rewrite Sg in So. rewrite <- Ed. apply So.
      + split; [exact Lg|exact An].
  Qed.
End Uploads.
