(** What the device signs is what it accepted, whatever the flash of the upload buffer does. *)
From Coq Require Import List NArith ZArith Lia Bool Arith ZifyBool ZifyNat ZifyN.
From Verif Require Import Base BaseFacts Flash FlashFacts Codecs CodecsSpec CodecsFacts
  Upload UploadSpec UploadFacts Baking BakingSpec BakingFacts Operations Oracles Address AddressSpec
  Device DeviceSpec DeviceFacts DeviceProofs DeviceHist DeviceSigs DeviceAnswers DeviceReviews DeviceKeys
  DeviceSlots DeviceCommands DeviceUploads AcceptedSpec.
Import ListNotations.
Open Scope N_scope.

Lemma next_fault_whole s f s' : Forall whole_fault s -> next_fault s = (f, s') ->
  whole_fault f /\ Forall whole_fault s'.
Proof.
  destruct s; cbn; intros H E; inversion E; subst; [split; [exact Logic.I|constructor]|].
  inversion H; auto.
Qed.

Lemma nvm_blit_size i l dst f : (i + length l <= length dst)%nat ->
  length (fst (nvm_blit i l dst f)) = length dst.
Proof.
  intros H. pose proof (blit_length i l dst H) as X. unfold nvm_blit. cbn [fst].
  destruct f as [|[| |p]|[| |p]]; auto; rewrite firstn_length, app_length; lia.
Qed.

Section Buffer.
  Variables RAM FLASH : nat.
  Hypothesis caps : (RAM <= FLASH)%nat.

  (** What a write leaves behind. *)
  Definition written (b : sbuf) (l : bytes) (x : sbuf * sbres * list fault) : Prop :=
    Forall whole_fault (snd x) /\ length (sb_flash (fst (fst x))) = FLASH /\
    match snd (fst x) with
    | SbOk => sbuf_ok RAM FLASH (fst (fst x)) /\ sb_read_exact (fst (fst x)) = sb_read_exact b ++ l
    | SbErr => sbuf_ok RAM FLASH (fst (fst x)) /\ sb_read_exact (fst (fst x)) = sb_read_exact b
    | SbCut => True
    end.

  Lemma write_flash_whole b cnt l s : sbuf_ok RAM FLASH b -> sb_state b = InFlash cnt ->
    Forall whole_fault s -> written b l (sb_write_flash FLASH b cnt l s).
  Proof.
    intros Hok Hs Hf. pose proof Hok as (H1 & H2 & H3). rewrite Hs in H3. unfold sb_write_flash.
    destruct (Nat.ltb_spec FLASH (cnt + length l)) as [Hc|Hc]; [unfold written; cbn [fst snd]; auto|].
    destruct (next_fault s) as [f s1] eqn:En. destruct (next_fault_whole _ _ _ Hf En) as [F1 F2].
    pose proof (nvm_blit_size cnt l (sb_flash b) f) as L. unfold nvm_blit in *. cbn [fst] in L.
    specialize (L ltac:(lia)). apply (fun x => eq_trans x H2) in L.
    unfold written. cbn [fst snd sb_flash]. split; [exact F2|]. split; [exact L|].
    unfold sbuf_ok, sb_read_exact. rewrite Hs.
    destruct f as [|[| |p]|t]; cbn [whole_fault] in F1; try contradiction;
      cbn [fault_res of_wres sb_ram sb_flash sb_state]; auto.
    - split; [repeat split; auto|]. rewrite blit_prefix by lia. reflexivity.
    - split; [repeat split; auto|]. rewrite blit_keeps by lia. reflexivity.
  Qed.

  Lemma write_whole b l s : sbuf_ok RAM FLASH b -> Forall whole_fault s ->
    written b l (sb_write RAM FLASH b l s).
  Proof.
    intros Hok Hf. unfold sb_write. destruct (sb_state b) as [cnt|cnt] eqn:Es; [|now apply write_flash_whole].
    pose proof Hok as (H1 & H2 & H3). rewrite Es in H3.
    destruct (Nat.ltb_spec RAM (cnt + length l)).
    - replace (FLASH <? length (sb_ram b))%nat with false by lia.
      destruct (next_fault s) as [f s1] eqn:En. destruct (next_fault_whole _ _ _ Hf En) as [F1 F2].
      pose proof (nvm_blit_size 0 (sb_ram b) (sb_flash b) f) as L. unfold nvm_blit in *. cbn [fst] in L.
      specialize (L ltac:(lia)). apply (fun x => eq_trans x H2) in L.
      assert (HP : firstn cnt (blit 0 (sb_ram b) (sb_flash b)) = firstn cnt (sb_ram b)).
      { unfold blit. cbn [firstn app]. rewrite firstn_app.
        replace (cnt - length (sb_ram b))%nat with 0%nat by lia. cbn. apply app_nil_r. }
      destruct f as [|[| |p]|t]; cbn [whole_fault] in F1; try contradiction; cbn [fault_res of_wres].
      + set (b1 := mkSbuf (sb_ram b) _ (InFlash cnt)).
        assert (HR : sb_read_exact b1 = sb_read_exact b).
        { unfold sb_read_exact, b1. cbn [sb_state sb_flash]. rewrite Es. exact HP. }
        assert (Hb1 : sbuf_ok RAM FLASH b1) by (repeat split; cbn; auto; lia).
        pose proof (write_flash_whole b1 cnt l s1 Hb1 eq_refl F2) as X. unfold written in *. now rewrite HR in X.
      + unfold written. cbn [fst snd sb_flash]. split; [exact F2|]. split; [exact H2|].
        unfold sbuf_ok, sb_read_exact. rewrite Es. cbn [sb_ram sb_flash sb_state]. auto.
      + unfold written. cbn [fst snd sb_flash]. split; [exact F2|]. split; [exact L|].
        unfold sbuf_ok, sb_read_exact. rewrite Es. cbn [sb_ram sb_flash sb_state]. auto.
      + unfold written. cbn [fst snd sb_flash]. auto.
    - unfold written. cbn [fst snd sb_flash]. split; [exact Hf|]. split; [exact H2|].
      unfold sbuf_ok, sb_read_exact. rewrite Es. cbn [sb_ram sb_flash sb_state].
      split; [repeat split; auto; rewrite blit_length; lia|]. rewrite blit_prefix by lia. reflexivity.
  Qed.

  (** What fits in the RAM part is always accepted. *)
  Lemma write_ram b cnt l s : sb_state b = InRam cnt -> (cnt + length l <= RAM)%nat ->
    snd (fst (sb_write RAM FLASH b l s)) = SbOk /\ sb_state (fst (fst (sb_write RAM FLASH b l s))) = InRam (cnt + length l).
  Proof.
    intros Es H. unfold sb_write. rewrite Es. replace (RAM <? cnt + length l)%nat with false by lia. auto.
  Qed.
End Buffer.

(** The upload buffer holds what was accepted, if anybody holds it; or its initial
    payload is too long to be a path. *)
Definition rel2 (u : ustate) (st : pstate) : Prop :=
  sbuf_ok RAM_CAP FLASH_CAP (u_buf u) /\
  match u_lock u with
  | None => True
  | Some a => u_init_len u = 255 \/
    exists p2 init data, st = Some (a, p2, init, data) /\
      sb_read_exact (u_buf u) = p2 :: init ++ data /\ u_init_len u = len init
  end.

(** What is accepted once an upload packet is answered. *)
Definition acc_cmd (a : accessor) (buf : bytes) (ok : bool) (st : pstate) : pstate :=
  match kind_of (nth 2 buf 0) with
  | Some KInit => if ok then Some (a, nth 3 buf 0, pay buf, []) else None
  | Some KNext => match ok, st with
                  | true, Some (h, p2, init, data) => Some (h, p2, init, data ++ pay buf)
                  | _, _ => st
                  end
  | _ => st
  end.

Lemma u_write_whole u l s : sbuf_ok RAM_CAP FLASH_CAP (u_buf u) -> Forall whole_fault s ->
  let '(r, u', s') := u_write u l s in
  Forall whole_fault s' /\ flash_size u' /\ u_lock u' = u_lock u /\ u_init_len u' = u_init_len u /\
  match r with
  | Ok _ => sbuf_ok RAM_CAP FLASH_CAP (u_buf u') /\ sb_read_exact (u_buf u') = sb_read_exact (u_buf u) ++ l
  | Err e => e = DataInvalid /\
    sbuf_ok RAM_CAP FLASH_CAP (u_buf u') /\ sb_read_exact (u_buf u') = sb_read_exact (u_buf u)
  | _ => True
  end.
Proof.
  intros Hok Hf. unfold u_write. pose proof (write_whole _ _ ram_le_flash (u_buf u) l s Hok Hf) as X.
  destruct (sb_write RAM_CAP FLASH_CAP (u_buf u) l s) as [[b r] s']. unfold written in X. cbn [fst snd] in X.
  destruct X as (X1 & X2 & X3). unfold flash_size.
  destruct r; cbn [u_buf u_lock u_init_len]; repeat (split; [first [exact X1|exact X2|reflexivity]|]); auto.
Qed.
Lemma u_write_ram u cnt l s : sb_state (u_buf u) = InRam cnt -> (cnt + length l <= RAM_CAP)%nat ->
  fst (fst (u_write u l s)) = Ok tt /\ sb_state (u_buf (snd (fst (u_write u l s)))) = InRam (cnt + length l).
Proof.
  intros Hs H. unfold u_write. destruct (write_ram RAM_CAP FLASH_CAP ram_le_flash (u_buf u) cnt l s Hs H) as [X Y].
  destruct (sb_write RAM_CAP FLASH_CAP (u_buf u) l s) as [[b r] s']. cbn [fst snd] in X, Y. subst r. auto.
Qed.

Lemma reset_ok b : sbuf_ok RAM_CAP FLASH_CAP b -> sbuf_ok RAM_CAP FLASH_CAP (sb_reset b).
Proof. intros (A & B & D). repeat split; cbn; auto. lia. Qed.
Lemma drop_rel2 a u st : sbuf_ok RAM_CAP FLASH_CAP (u_buf u) -> u_lock u = Some a -> rel2 (upload_drop a u) st.
Proof.
  intros H L. unfold upload_drop, lock_acquire. rewrite L, acc_eqb_refl. split; cbn [u_buf u_lock].
  - now apply reset_ok.
  - cbn [lock_release]. rewrite acc_eqb_refl. exact Logic.I.
Qed.

Lemma upload_step2 a buf u s st : apdu_ok buf -> Forall whole_fault s -> rel2 u st ->
  let '(o, u', s') := upload a buf u s in
  Forall whole_fault s' /\ flash_size u' /\
  match o with
  | Ok None => rel2 u' (acc_cmd a buf true st) /\ kind_of (nth 2 buf 0) <> Some KLast
  | Err e => rel2 u' (acc_cmd a buf false st) /\ e <> Success
  | Ok (Some up) => kind_of (nth 2 buf 0) = Some KLast /\ (forall st', rel2 (upload_drop a u') st') /\
    (length (uo_first up) = 255%nat \/
     exists p2 init data, st = Some (a, p2, init, data) /\ up = mkUO p2 init (data ++ pay buf))
  | _ => True
  end.
Proof.
  intros Hb Hf [Hok Hst]. unfold upload, acc_cmd.
  destruct (apdu_payload_260 buf Hb) as (pl & Ep & Epl & Hpl & _). rewrite Ep.
  fold (pay buf) in Epl. rewrite <- Epl. clear Epl.
  rewrite <- packet_kind. fold (apdu_p1 buf). fold (apdu_p2 buf).
  assert (Sz : flash_size u) by apply Hok.
  destruct (packet_of_p1 (apdu_p1 buf)) as [pt|]; cbn [option_map].
  2:{ split; [exact Hf|]. split; [exact Sz|]. split; [split; auto|discriminate]. }
  unfold upk. destruct (is_init pt) eqn:Ei.
  - (* init *)
    set (u1 := mkU (sb_reset (u_buf u)) _ _).
    assert (Hok1 : sbuf_ok RAM_CAP FLASH_CAP (u_buf u1)) by now apply reset_ok.
    pose proof (u_write_whole u1 [apdu_p2 buf] s Hok1 Hf) as W.
    destruct (u_write_ram u1 0 [apdu_p2 buf] s eq_refl) as [W1 W2]; [unfold RAM_CAP; cbn [length]; lia|].
    destruct (u_write u1 [apdu_p2 buf] s) as [[r u2] s2]. cbn [fst snd] in W1, W2. subst r.
    destruct W as (F2 & Z2 & L2 & I2 & Hok2 & R2). change (sb_read_exact (u_buf u1)) with (@nil N) in R2.
    cbn [app] in R2. cbn [length Nat.add] in W2.
    set (u3 := mkU (u_buf u2) (u_lock u2) (len pl)).
    pose proof (u_write_whole u3 pl s2 Hok2 F2) as V.
    assert (V1 : (length pl <= 254)%nat -> fst (fst (u_write u3 pl s2)) = Ok tt).
    { intros H. apply (u_write_ram u3 1 pl s2); [exact W2|unfold RAM_CAP; lia]. }
    destruct (u_write u3 pl s2) as [[r3 u4] s4]. cbn [fst] in V1.
    destruct V as (F4 & Z4 & L4 & I4 & V). cbn [u_lock u_init_len u3] in L4, I4.
    split; [exact F4|]. split; [exact Z4|].
    assert (L : u_lock u4 = Some a).
    { rewrite L4, L2. unfold u1, lock_lock. cbn [u_lock]. destruct (u_lock u) as [h|]; auto.
      destruct (acc_eqb h a) eqn:Eh; auto. apply acc_eqb_eq in Eh. congruence. }
    destruct r3 as [[]|e| |]; auto.
    + destruct V as (V & R). split; [|discriminate]. split; [exact V|]. rewrite L. right. exists (apdu_p2 buf), pl, [].
      split; [reflexivity|]. split; [|exact I4]. rewrite R. unfold u3. cbn [u_buf]. rewrite R2, app_nil_r. reflexivity.
    + destruct V as (-> & V & R). split; [|discriminate]. split; [exact V|]. rewrite L. left.
      destruct (Nat.leb_spec (length pl) 254) as [H|H]; [specialize (V1 H); discriminate|].
      rewrite I4. unfold len. lia.
  - (* next / last *)
    unfold lock_acquire. destruct (u_lock u) as [h|] eqn:Hl.
    2:{ split; [exact Hf|]. split; [exact Sz|]. split; [|discriminate].
        split; [exact Hok|]. rewrite Hl. exact Logic.I. }
    destruct (acc_eqb h a) eqn:Eh.
    2:{ split; [exact Hf|]. split; [exact Sz|]. split; [|discriminate].
        split; [exact Hok|]. rewrite Hl. destruct (is_next pt); exact Hst. }
    apply acc_eqb_eq in Eh. subst h. unfold u_write_payload.
    pose proof (u_write_whole u pl s Hok Hf) as W. destruct (u_write u pl s) as [[r u1] s1].
    destruct W as (F1 & Z1 & L1 & I1 & W). rewrite Hl in L1.
    destruct r as [[]|e| |]; auto.
    2:{ split; [exact F1|]. split; [exact Z1|]. destruct W as (-> & W & R). split; [|discriminate].
        split; [exact W|]. rewrite L1, I1, R. destruct (is_next pt); exact Hst. }
    destruct W as (W & R). destruct (is_next pt).
    + split; [exact F1|]. split; [exact Z1|]. split; [|discriminate]. split; [exact W|]. rewrite L1, I1, R.
      destruct Hst as [Hst|(p2 & init & data & -> & E1 & E2)]; [now left|]. right.
      exists p2, init, (data ++ pl). split; [reflexivity|]. split; [|exact E2].
      rewrite E1. cbn [app]. now rewrite <- app_assoc.
    + unfold u_split. rewrite I1, R. split; [exact F1|]. split; [exact Z1|].
      destruct (sb_read_exact (u_buf u) ++ pl) as [|q rest] eqn:Eq; [exact Logic.I|].
      destruct (N.ltb_spec (len rest) (u_init_len u)) as [H|H]; [exact Logic.I|].
      split; [reflexivity|]. split; [intros st'; now apply drop_rel2|].
      destruct Hst as [Hst|(p2 & init & data & -> & E1 & E2)].
      * left. cbn [uo_first]. rewrite Hst in H |- *. rewrite firstn_length. unfold len in H. lia.
      * right. exists p2, init, data. split; [reflexivity|].
        rewrite E1 in Eq. cbn [app] in Eq. injection Eq as <- <-. rewrite E2, <- app_assoc.
        replace (N.to_nat (len init)) with (length init) by (unfold len; lia).
        now rewrite firstn_app_exact, skipn_app_exact by auto.
Qed.

Lemma restart_rel2 u st : flash_size u -> rel2 (u_restart u) st.
Proof. intros H. split; [|exact Logic.I]. repeat split; auto using zeros_length. cbn. lia. Qed.

Definition accepts (r : outcome reply) : bool := match r with Ok (Now []) => true | _ => false end.
Definition answered (a : answer) : bool := match a with AReply [0x90; 0] => true | _ => false end.

Lemma data_eq (p q : bytes) : RData p = RData q -> p = q.
Proof. intros E. exact (f_equal (fun x => match x with RData p => p | _ => [] end) E). Qed.
Lemma read_eq (x y : rres) : Some x = Some y -> x = y.
Proof. intros E. exact (f_equal (fun o => match o with Some x => x | None => y end) E). Qed.

Section Accepted.
  Variable C : config.
  Variable O : oracles.

  Definition kept2 {A} (st : pstate) (x : outcome A * dev) : Prop :=
    Forall whole_fault (d_ufaults (snd x)) /\ flash_size (d_up (snd x)) /\
    match fst x with Ok _ | Err _ => rel2 (d_up (snd x)) st | _ => True end.
  Lemma rel2_size u st : rel2 u st -> flash_size u.
  Proof. intros [(_ & H & _) _]. exact H. Qed.
  Lemma kept2_frame {A} E st d (x : outcome A * dev) : ~ e_up E -> frame E d (snd x) ->
    Forall whole_fault (d_ufaults d) -> rel2 (d_up d) st -> kept2 st x.
  Proof.
    intros N F U R. destruct (fr_up _ _ _ F N) as [E1 E2]. unfold kept2. rewrite E1, E2.
    split; [exact U|]. split; [now apply rel2_size in R|]. destruct (fst x); auto.
  Qed.

  (** The outcome of an initial or intermediate packet is never an error called success. *)
  Definition plain (buf : bytes) (r : outcome reply) : Prop :=
    match kind_of (nth 2 buf 0) with
    | Some KInit | Some KNext => r <> Err Success
    | _ => True
    end.

  Lemma with_upload_kept2 a buf f E d st : apdu_ok buf -> Forall whole_fault (d_ufaults d) -> rel2 (d_up d) st ->
    ~ e_up E -> (forall up, keeps E (f up)) ->
    kept2 (acc_cmd a buf (accepts (fst (with_upload a buf f d))) st) (with_upload a buf f d) /\
    plain buf (fst (with_upload a buf f d)).
  Proof.
    intros Hb U R N K. remember (with_upload a buf f d) as x eqn:Ex. unfold with_upload, the_upload in Ex.
    unfold bind at 1 in Ex.
    pose proof (upload_step2 a buf (d_up d) (d_ufaults d) st Hb U R) as X.
    destruct (upload a buf (d_up d) (d_ufaults d)) as [[o u'] s]. destruct X as (Fs & Sz & X).
    set (d1 := set_up u' (set_ufaults s d)).
    assert (U1 : d_up d1 = u' /\ d_ufaults d1 = s) by (unfold d1; destruct d; auto).
    destruct U1 as [U1 U2].
    fold d1 in Ex. destruct o as [[up|]|e| |]; unfold kept2, plain.
    - destruct X as (Kl & X & _). rewrite Kl.
      pose proof (K up d1) as F. destruct (f up d1) as [[r|e| |] d2]; cbn [snd] in F;
        destruct (fr_up _ _ _ F N) as [E1 E2]; unfold bind, drop_upload, ret, fail in Ex; subst x; cbn [fst snd].
      1,2: replace (d_ufaults (set_up (upload_drop a (d_up d2)) d2)) with (d_ufaults d2) by (destruct d2; reflexivity);
        replace (d_up (set_up (upload_drop a (d_up d2)) d2)) with (upload_drop a (d_up d2)) by (destruct d2; reflexivity);
        rewrite E1, E2, U1, U2; split; [|exact Logic.I]; split; [exact Fs|]; split; [exact (rel2_size _ _ (X st))|apply X].
      all: rewrite E1, E2, U1, U2; auto.
    - unfold ret in Ex. subst x. cbn [fst snd accepts]. rewrite U1, U2. split; [split; [exact Fs|split; [exact Sz|apply X]]|].
      destruct (kind_of _) as [[]|]; auto; discriminate.
    - subst x. cbn [fst snd accepts]. rewrite U1, U2. destruct X as [X1 X2]. split; [auto|].
      destruct (kind_of _) as [[]|]; auto; congruence.
    - subst x. cbn [fst snd]. rewrite U1, U2. split; [auto|]. destruct (kind_of _) as [[]|]; auto; discriminate.
    - subst x. cbn [fst snd]. rewrite U1, U2. split; [auto|]. destruct (kind_of _) as [[]|]; auto; discriminate.
  Qed.

  Definition acc_dispatch (buf : bytes) (ok : bool) (st : pstate) : pstate :=
    if nth 0 buf 0 =? 0x80
    then match upload_command C (nth 1 buf 0) with Some a => acc_cmd a buf ok st | None => st end
    else st.
  Lemma dispatch_kept2 buf d st : apdu_ok buf -> Forall whole_fault (d_ufaults d) -> rel2 (d_up d) st ->
    let x := dispatch C O buf d in
    kept2 (acc_dispatch buf (accepts (fst x)) st) x /\
    ((nth 0 buf 0 =? 0x80) = true -> upload_command C (nth 1 buf 0) <> None -> plain buf (fst x)).
  Proof.
    intros Hb U R. pose proof (dispatch_uploads C O buf) as X. unfold acc_dispatch.
    destruct (nth 0 buf 0 =? 0x80); [destruct (upload_command C (nth 1 buf 0)) as [[]|]|]; try contradiction; cbv zeta.
    - destruct X as [sh ->]. unfold h_sign.
      edestruct (with_upload_kept2 AccSign buf (start_sign C O sh)) as [K P]; [exact Hb|exact U|exact R| |apply keeps_start_sign|split; [exact K|auto]].
      cbn; tauto.
    - destruct X as [sh ->]. unfold h_baker_sign.
      edestruct (with_upload_kept2 AccBaking buf (baker_sign C O sh)) as [K P]; [exact Hb|exact U|exact R| |apply keeps_baker_sign|split; [exact K|auto]].
      cbn; tauto.
    - destruct X as (E & N & K). split; [eapply kept2_frame; eauto|congruence].
    - destruct X as (E & N & K). split; [eapply kept2_frame; eauto|discriminate].
  Qed.

  Lemma finish_kept2 room x st (Ek : kept2 (A := reply) st x) :
    let d' := snd (finish room x) in Forall whole_fault (d_ufaults d') /\
    rel2 (d_up d') (match fst (finish room x) with ADied => None | _ => st end).
  Proof.
    destruct Ek as (E1 & E2 & E3).
    assert (D : forall d, Forall whole_fault (d_ufaults d) -> flash_size (d_up d) ->
              Forall whole_fault (d_ufaults (restart d)) /\ rel2 (d_up (restart d)) None).
    { intros d H1 H2. destruct d; cbn in *. split; [exact H1|]. now apply restart_rel2. }
    destruct x as [[[data|]|e| |] d]; cbn [finish fst snd] in *; try (now apply D); try (split; assumption);
      match goal with |- context [if ?b then _ else _] => destruct b end; cbn [fst snd]; try (now apply D); split; assumption.
  Qed.

  (** On an answered packet, the answer tells whether it was accepted. *)
  Lemma answered_accepts x : fst (finish 260 x) <> ADied -> fst x <> Err Success ->
    answered (fst (finish 260 x)) = accepts (fst x).
  Proof.
    intros Nd Ns. destruct x as [[[data|]|e| |] d]; cbn [finish fst accepts] in *; try reflexivity; try (exfalso; apply Nd; reflexivity).
    - destruct (260 <? len data + 2); [exfalso; apply Nd; reflexivity|]. cbn [fst]. change (be 2 (sw Success)) with [0x90; 0].
      destruct data as [|x [|y [|z data]]]; cbn [app answered]; try reflexivity.
      + destruct (N.eq_dec x 0x90) as [->|Hx]; [reflexivity|].
        revert Hx. clear. intros Hx. destruct x as [|p]; [reflexivity|].
        repeat (reflexivity || (destruct p as [p|p|]; try reflexivity)).
      + destruct x as [|p]; [reflexivity|].
        repeat (reflexivity || (destruct p as [p|p|]; try reflexivity)); destruct y; reflexivity.
      + destruct x as [|p]; [reflexivity|].
        repeat (reflexivity || (destruct p as [p|p|]; try reflexivity)); destruct y; reflexivity.
    - change (260 <? len [] + 2) with false. cbn [fst app]. destruct e; try (exfalso; apply Ns; reflexivity); reflexivity.
  Qed.

  Lemma accepted_after_apdu d buf rx st : d_ui d = None -> apdu_ok buf ->
    accepted_after C O d st (EApdu buf rx) =
    match fst (step C O d (EApdu buf rx)) with
    | ADied => None
    | ANone => st
    | a => if (5 <=? rx) && (rx <=? 260) then acc_dispatch buf (answered a) st else st
    end.
  Proof.
    intros U Hb. unfold accepted_after, acc_dispatch, acc_cmd.
    generalize (fst (step C O d (EApdu buf rx))). intros a.
    destruct a as [l| | |]; try reflexivity;
      (destruct ((5 <=? rx) && (rx <=? 260)); cbn [andb]; [|reflexivity]);
      (destruct (nth 0 buf 0 =? 0x80); [|reflexivity]);
      (destruct (upload_command C (nth 1 buf 0)) as [acc|]; [|reflexivity]);
      (destruct (kind_of (nth 2 buf 0)) as [[]|]; try reflexivity).
    - unfold answered. destruct l as [|x l]; [reflexivity|].
      destruct x as [|p]; [reflexivity|]. repeat (reflexivity || (destruct p as [p|p|]; try reflexivity)).
      all: destruct l as [|y l]; [reflexivity|]; destruct y; [|reflexivity]; destruct l; reflexivity.
    - unfold answered. destruct l as [|x l]; [reflexivity|].
      destruct x as [|p]; [reflexivity|]. repeat (reflexivity || (destruct p as [p|p|]; try reflexivity)).
      all: destruct l as [|y l]; [reflexivity|]; destruct y; [|reflexivity]; destruct l; reflexivity.
  Qed.

  Lemma acc_dispatch_answer buf x st :
    fst (finish 260 x) <> ADied ->
    ((nth 0 buf 0 =? 0x80) = true -> upload_command C (nth 1 buf 0) <> None -> plain buf (fst x)) ->
    acc_dispatch buf (answered (fst (finish 260 x))) st = acc_dispatch buf (accepts (fst x)) st.
  Proof.
    intros Nd P. unfold acc_dispatch. destruct (nth 0 buf 0 =? 0x80); [|reflexivity].
    destruct (upload_command C (nth 1 buf 0)) as [a|]; [|reflexivity].
    specialize (P eq_refl ltac:(discriminate)). unfold acc_cmd, plain in *.
    destruct (kind_of (nth 2 buf 0)) as [[]|]; try reflexivity; now rewrite answered_accepts.
  Qed.

  Lemma step_accepted d e st : event_ok e -> Forall whole_fault (d_ufaults d) -> rel2 (d_up d) st ->
    let d' := snd (step C O d e) in Forall whole_fault (d_ufaults d') /\ rel2 (d_up d') (accepted_after C O d st e).
  Proof.
    intros He U R.
    assert (Dc : forall f, (forall v room, exists E, ~ e_up E /\ keeps E (f v room)) -> forall x, x = decide C f d ->
              Forall whole_fault (d_ufaults (snd x)) /\ rel2 (d_up (snd x)) (match fst x with ADied => None | _ => st end)).
    { intros f Hf x ->. unfold decide. destruct (d_ui d) as [v|]; [|cbn; auto].
      apply finish_kept2. set (room := match cf_room C v with Some r => r | None => 0 end).
      destruct (Hf v room) as (E & N & K).
      apply (kept2_frame E _ (set_ui None d)); auto; [|destruct d; exact U|destruct d; exact R].
      specialize (K (set_ui None d)). unfold bind. destruct (f v room (set_ui None d)) as [[]]; exact K. }
    destruct e as [buf rx| | | |].
    - destruct (d_ui d) as [v|] eqn:Ud.
      { unfold accepted_after. cbn [step]. rewrite Ud. cbn. auto. }
      rewrite (accepted_after_apdu d buf rx st Ud He). cbn [step]. rewrite Ud.
      assert (El : len buf = 260) by (destruct He as [He _]; unfold len; lia). rewrite El.
      replace (apdu_read_ok buf rx) with ((5 <=? rx) && (rx <=? 260))
        by (unfold apdu_read_ok; rewrite El; reflexivity).
      destruct ((5 <=? rx) && (rx <=? 260)) eqn:Rx.
      + destruct (dispatch_kept2 buf d st He U R) as [X P].
        pose proof (acc_dispatch_answer buf (dispatch C O buf d) st) as A.
        apply (finish_kept2 260) in X. destruct X as [X1 X2]. split; [exact X1|].
        assert (Nn : fst (finish 260 (dispatch C O buf d)) <> ANone).
        { clear. destruct (dispatch C O buf d) as [[[]| | |] d1]; cbn [finish];
            try discriminate; destruct (_ <? _); discriminate. }
        destruct (fst (finish 260 (dispatch C O buf d))) as [l| | |] eqn:Ef; try exact X2; try (exfalso; now apply Nn).
        * rewrite A; [exact X2|discriminate|exact P].
        * rewrite A; [exact X2|discriminate|exact P].
      + cbn. auto.
    - specialize (Dc (accept O)). specialize (Dc ltac:(intros v room; exists (eff_accept v); split; [cbn; tauto|apply keeps_accept])).
      specialize (Dc _ eq_refl). unfold accepted_after. cbn [step]. destruct (decide C (accept O) d) as [[] d']; cbn [fst snd] in *; auto.
    - specialize (Dc (fun v _ => reject v)). specialize (Dc ltac:(intros v room; exists (eff_accept v); split; [cbn; tauto|apply keeps_reject])).
      specialize (Dc _ eq_refl). unfold accepted_after. cbn [step]. destruct (decide C (fun v _ => reject v) d) as [[] d']; cbn [fst snd] in *; auto.
    - specialize (Dc (fun _ _ => fail DataInvalid)).
      specialize (Dc ltac:(intros v room; exists eff_none; split; [cbn; tauto|apply keeps_fail])).
      specialize (Dc _ eq_refl). unfold accepted_after. cbn [step]. destruct (decide C (fun _ _ => fail DataInvalid) d) as [[] d']; cbn [fst snd] in *; auto.
    - unfold accepted_after. cbn [step fst snd]. destruct d; cbn in *. split; [exact U|]. apply restart_rel2. now apply rel2_size in R.
  Qed.
  Lemma run_accepted es : forall d st, Forall event_ok es -> Forall whole_fault (d_ufaults d) -> rel2 (d_up d) st ->
    let d' := snd (run C O d es) in Forall whole_fault (d_ufaults d') /\ rel2 (d_up d') (accepted C O d st es).
  Proof.
    induction es as [|e es IH]; intros d st He U R; [cbn; auto|]. inversion He; subst.
    destruct (step_accepted d e st) as [U1 R1]; auto. cbn [run accepted].
    specialize (IH _ _ H2 U1 R1). destruct (step C O d e) as [a d1]. cbn [snd] in *.
    destruct (run C O d1 es) as [l d2]. exact IH.
  Qed.
  Lemma fresh_rel2 : rel2 u_fresh None.
  Proof. split; [|exact Logic.I]. apply u_fresh_rel. Qed.

  Lemma long_path LEN l p : path_read LEN l = Some p -> (LEN <= 20)%nat -> length l <> 255%nat.
  Proof.
    intros E H. apply path_read_sound in E. destruct E as [n gs H1 H2 H3 H4]. cbn [length].
    assert (length (concat gs) = 4 * length gs)%nat.
    { clear H3. induction H4 as [|g gs Hg _ IH]; [reflexivity|]. cbn [concat length]. rewrite app_length. lia. }
    lia.
  Qed.

  (** A completed upload is what was accepted. *)
  Lemma completed_accepted f u es a buf up uu ss k : Forall event_ok es -> Forall whole_fault u -> apdu_ok buf ->
    let d := snd (run C O (dev_fresh f u) es) in
    upload a buf (d_up d) (d_ufaults d) = (Ok (Some up), uu, ss) ->
    curve_of_byte (uo_p2 up) = Some (fst k) -> path_read BIP32_MAX_LENGTH (uo_first up) = Some (snd k) ->
    kind_of (nth 2 buf 0) = Some KLast /\
    exists init data, accepted C O (dev_fresh f u) None es = Some (a, byte_of_curve (fst k), init, data) /\
      uo_data up = data ++ pay buf /\ path_encodes BIP32_MAX_LENGTH init (snd k).
  Proof.
    intros E U Hb d Eu Ec Ep.
    destruct (run_accepted es (dev_fresh f u) None E U fresh_rel2) as [Uf Ur]. fold d in Uf, Ur.
    pose proof (upload_step2 a buf (d_up d) (d_ufaults d) _ Hb Uf Ur) as X. rewrite Eu in X.
    destruct X as (_ & _ & Kl & _ & [X|(p2 & init & data & X & ->)]).
    - exfalso. revert X. eapply long_path; [exact Ep|]. unfold BIP32_MAX_LENGTH. lia.
    - split; [exact Kl|]. cbn [uo_p2 uo_first uo_data] in *. exists init, data.
      apply curve_of_byte_inv in Ec. subst p2. split; [exact X|]. split; [reflexivity|]. now apply path_read_sound.
  Qed.

  (** C65. *)
  Lemma accepted_signature f u es g : Forall event_ok es -> Forall whole_fault u ->
    In g (d_log (snd (run C O (dev_fresh f u) es))) -> sg_src g <> SrcHmac ->
    exists es1 buf rx es2 init data, es = es1 ++ EApdu buf rx :: es2 /\
      let d0 := dev_fresh f u in
      let d := snd (run C O d0 es1) in
      command d buf rx (nth 1 buf 0) /\ upload_command C (nth 1 buf 0) = Some (uploader (sg_src g)) /\
      kind_of (nth 2 buf 0) = Some KLast /\
      accepted C O d0 None es1 = Some (uploader (sg_src g), byte_of_curve (fst (sg_key g)), init, data) /\
      path_encodes BIP32_MAX_LENGTH init (snd (sg_key g)) /\
      sg_data g = data ++ pay buf /\ o_blake2b O 32 (data ++ pay buf) = Some (sg_digest g) /\
      match sg_src g with
      | SrcConsensus => d_log (snd (step C O d (EApdu buf rx))) = g :: d_log d
      | _ => exists es3 es4, es2 = es3 ++ EApprove :: es4 /\ Forall is_apdu es3 /\
             let d' := snd (run C O d0 (es1 ++ EApdu buf rx :: es3)) in
             d_log (snd (step C O d' EApprove)) = g :: d_log d'
      end.
  Proof.
    intros E Hu Hg Ns.
    destruct (history_signs C O es (dev_fresh f u) (rev (d_log (snd (run C O (dev_fresh f u) es)))) E
      (reach_ui C O f u [] (Forall_nil _))) with (g := g) as (es0 & e & es3 & Ee & Ca & So & An & Lg).
    - unfold signed_between. rewrite rev_involutive. cbn. now rewrite app_nil_r.
    - now rewrite <- in_rev.
    - cbn zeta in *. subst es. apply Forall_app in E as [E0 E3]. unfold sig_cause in Ca.
      assert (Dg : o_blake2b O 32 (sg_data g) = Some (sg_digest g)).
      { unfold sig_sound in So. destruct (sg_src g); try apply So. now elim Ns. }
      clear So An.
      destruct (sg_src g) eqn:Sg; [| | |now elim Ns]; cbn [uploader].
      + (* consensus *)
        destruct Ca as (Cb & _ & buf & rx & ins & up & uu & ss & -> & Cm & Hi & Eu & Ed & Ec & Ep).
        inversion E3 as [|? ? He _]; subst. cbn [event_ok] in He.
        destruct (completed_accepted f u es0 AccBaking buf up uu ss (sg_key g) E0 Hu He Eu Ec Ep) as (Kl & init & data & A & D & P).
        rewrite Ed in D. assert (Ei : nth 1 buf 0 = ins) by apply Cm. subst ins.
        exists es0, buf, rx, es3, init, data. split; [reflexivity|]. split; [exact Cm|].
        split; [unfold upload_command; rewrite Cb; cbn [In] in Hi; destruct Hi as [<-|[<-|[<-|[]]]]; reflexivity|].
        split; [exact Kl|]. split; [exact A|]. split; [exact P|]. split; [exact D|].
        split; [now rewrite <- D|exact Lg].
      + (* baking review *)
        destruct Ca as (-> & Sk & sh & br & o & Ud).
        destruct (pending_origin C O es0 (dev_fresh f u) _ E0 eq_refl Ud) as (es1 & e & es2 & -> & Fa & Sp & Rq).
        cbn zeta in Sp, Rq. pose proof E0 as E0'. apply Forall_app in E0' as [E1 E2]. inversion E2 as [|? ? He _]; subst.
        destruct Rq as (buf & rx & ins & -> & Cm & up & Cs & Ed & _ & k & K & Ec & Ep).
        assert (Ek : k = sg_key g).
        { pose proof (key_stays C O f u es1 (EApdu buf rx) k eq_refl) as X. cbv zeta in X. rewrite Sp in X. cbn [snd] in X.
          apply X in K. destruct K as (q & K1 & K2), Sk as (q' & S1 & S2). rewrite S1 in K1.
          apply read_eq, data_eq in K1. subst q'. rewrite S2 in K2. congruence. }
        subst k. destruct Cs as (Cb & Hb & ins' & uu & ss & Cm' & Hi & Eu).
        destruct (completed_accepted f u es1 AccBaking buf up uu ss (sg_key g) E1 Hu Hb Eu Ec Ep) as (Kl & init & data & A & D & P).
        rewrite <- Ed in D. assert (Ei : nth 1 buf 0 = ins') by apply Cm'. subst ins'.
        exists es1, buf, rx, (es2 ++ EApprove :: es3), init, data. split; [now rewrite <- app_assoc|]. split; [exact Cm'|].
        split; [unfold upload_command; rewrite Cb; cbn [In] in Hi; destruct Hi as [<-|[<-|[<-|[]]]]; reflexivity|].
        split; [exact Kl|]. split; [exact A|]. split; [exact P|]. split; [exact D|].
        split; [now rewrite <- D|]. exists es2, es3. split; [reflexivity|]. split; [exact Fa|exact Lg].
      + (* review *)
        destruct Ca as (-> & Sk & sh & p & Ud).
        destruct (pending_origin C O es0 (dev_fresh f u) _ E0 eq_refl Ud) as (es1 & e & es2 & -> & Fa & Sp & Rq).
        cbn zeta in Sp, Rq. pose proof E0 as E0'. apply Forall_app in E0' as [E1 E2]. inversion E2 as [|? ? He _]; subst.
        destruct Rq as (buf & rx & ins & -> & Cm & up & Cs & Ed & _ & c & pa & Ec & Ep & Epath).
        assert (Ek : sg_key g = (c, pa)) by congruence.
        destruct Cs as (Hb & ins' & uu & ss & Cm' & Hi & Eu).
        destruct (completed_accepted f u es1 AccSign buf up uu ss (c, pa) E1 Hu Hb Eu Ec Ep) as (Kl & init & data & A & D & P).
        rewrite <- Ek in A, P.
        rewrite <- Ed in D. assert (Ei : nth 1 buf 0 = ins') by apply Cm'. subst ins'.
        exists es1, buf, rx, (es2 ++ EApprove :: es3), init, data. split; [now rewrite <- app_assoc|]. split; [exact Cm'|].
        split.
        { unfold upload_command. destruct Hi as [->|[Cb Hi]].
          - destruct (cf_baking C); reflexivity.
          - rewrite Cb. cbn [In] in Hi. destruct Hi as [<-|[<-|[<-|[]]]]; reflexivity. }
        split; [exact Kl|]. split; [exact A|]. split; [exact P|]. split; [exact D|].
        split; [now rewrite <- D|]. exists es2, es3. split; [reflexivity|]. split; [exact Fa|exact Lg].
  Qed.
End Accepted.
