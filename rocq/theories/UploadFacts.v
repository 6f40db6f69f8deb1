(** Facts about the upload buffer, lock and protocol. *)
From Coq Require Import List NArith ZArith Lia Bool Arith.
From Coq Require Import ZifyBool ZifyNat ZifyN.
From Verif Require Import Base BaseFacts Flash Codecs Upload UploadSpec.
Import ListNotations.
Open Scope N_scope.

Lemma blit_length i src dst : (i + length src <= length dst)%nat ->
  length (blit i src dst) = length dst.
Proof.
  intros. unfold blit. rewrite !app_length, firstn_length, skipn_length. lia.
Qed.

Lemma blit_prefix i src dst : (i + length src <= length dst)%nat ->
  firstn (i + length src) (blit i src dst) = firstn i dst ++ src.
Proof.
  intros. unfold blit. rewrite app_assoc. apply firstn_app_exact.
  rewrite app_length, firstn_length. lia.
Qed.

Lemma blit_keeps i src dst c : (c <= i)%nat -> (i <= length dst)%nat ->
  firstn c (blit i src dst) = firstn c dst.
Proof.
  intros. unfold blit. rewrite firstn_app, firstn_firstn, firstn_length.
  replace (Nat.min c i) with c by lia. replace (c - Nat.min i (length dst))%nat with 0%nat by lia.
  cbn. apply app_nil_r.
Qed.

(** A write that tears nothing. *)
Definition fault_untorn (f : fault) : Prop :=
  match f with WFail (TTorn _) | WCut (TTorn _) => False | _ => True end.

Lemma next_fault_untorn s f s' :
  Forall fault_untorn s -> next_fault s = (f, s') -> fault_untorn f /\ Forall fault_untorn s'.
Proof.
  destruct s; cbn; intros H E; inversion E; subst; [split; [exact I|constructor]|].
  inversion H; auto.
Qed.

Section Buffer.
  Variables RAM FLASH : nat.
  Hypothesis caps : (RAM <= FLASH)%nat.

  Lemma contents_length b : sbuf_ok RAM FLASH b ->
    length (sb_read_exact b) = match sb_state b with InRam c => c | InFlash c => c end.
  Proof.
    intros (H1 & H2 & H3). unfold sb_read_exact. destruct (sb_state b); rewrite firstn_length; lia.
  Qed.

  Lemma write_flash_spec b cnt l s b' r s' :
    sbuf_ok RAM FLASH b -> sb_state b = InFlash cnt -> Forall fault_untorn s ->
    sb_write_flash FLASH b cnt l s = (b', r, s') ->
    sbuf_ok RAM FLASH b' /\ Forall fault_untorn s' /\
    match r with
    | SbOk => (cnt + length l <= FLASH)%nat /\ sb_read_exact b' = sb_read_exact b ++ l
    | _ => sb_read_exact b' = sb_read_exact b
    end /\ (s = [] -> r = SbOk <-> (cnt + length l <= FLASH)%nat) /\ (s = [] -> s' = []) /\
    (s = [] -> r <> SbCut).
  Proof.
    intros (H1 & H2 & H3) Hs Hf. rewrite Hs in H3. unfold sb_write_flash.
    destruct (Nat.ltb_spec FLASH (cnt + length l)).
    - intros E; inversion E; subst. repeat split; auto; try discriminate.
      + rewrite Hs. auto.
      + lia.
    - destruct (next_fault s) as [f s1] eqn:En. destruct (next_fault_untorn _ _ _ Hf En) as [F1 F2].
      unfold nvm_blit. intros E; inversion E; subst b' r s'; clear E.
      assert (Hnil : s = [] -> f = WOk /\ s1 = []) by (intros ->; inversion En; auto).
      assert (HL : length (blit cnt l (sb_flash b)) = FLASH) by (rewrite blit_length; lia).
      unfold sbuf_ok, sb_read_exact. rewrite Hs.
      destruct f as [|[| |p]|[| |p]]; cbn in F1; try contradiction; cbn [fault_res of_wres sb_ram sb_flash sb_state];
        (repeat split; auto; try lia; try discriminate; try (intros Hn; destruct (Hnil Hn); congruence)).
      all: try (intros; destruct (Hnil ltac:(assumption)); congruence).
      + rewrite blit_prefix by lia. auto.
      + rewrite blit_keeps by lia. auto.
      + rewrite blit_keeps by lia. auto.
  Qed.

  Lemma sb_write_spec b l s b' r s' :
    sbuf_ok RAM FLASH b -> Forall fault_untorn s ->
    sb_write RAM FLASH b l s = (b', r, s') ->
    sbuf_ok RAM FLASH b' /\ Forall fault_untorn s' /\
    match r with
    | SbOk => (length (sb_read_exact b) + length l <= FLASH)%nat /\ sb_read_exact b' = sb_read_exact b ++ l
    | _ => sb_read_exact b' = sb_read_exact b
    end /\ (s = [] -> r = SbOk <-> (length (sb_read_exact b) + length l <= FLASH)%nat) /\ (s = [] -> s' = []) /\
    (s = [] -> r <> SbCut).
  Proof.
    intros Hok Hf. rewrite (contents_length _ Hok). unfold sb_write.
    destruct (sb_state b) as [cnt|cnt] eqn:Es.
    2:{ intros E. eapply write_flash_spec; eauto. }
    pose proof Hok as (H1 & H2 & H3). rewrite Es in H3.
    destruct (Nat.ltb_spec RAM (cnt + length l)).
    - replace (FLASH <? length (sb_ram b))%nat with false by lia.
      destruct (next_fault s) as [f s1] eqn:En. destruct (next_fault_untorn _ _ _ Hf En) as [F1 F2].
      assert (Hnil : s = [] -> f = WOk /\ s1 = []) by (intros ->; inversion En; auto).
      unfold nvm_blit.
      assert (HL : length (blit 0 (sb_ram b) (sb_flash b)) = FLASH) by (rewrite blit_length; lia).
      assert (HP : firstn cnt (blit 0 (sb_ram b) (sb_flash b)) = firstn cnt (sb_ram b)).
      { unfold blit. cbn [firstn app]. rewrite firstn_app.
        replace (cnt - length (sb_ram b))%nat with 0%nat by lia. cbn. apply app_nil_r. }
      destruct f as [|[| |p]|[| |p]]; cbn in F1; try contradiction; cbn [fault_res of_wres].
      + intros E. set (b1 := mkSbuf (sb_ram b) _ (InFlash cnt)) in E.
        assert (HR : sb_read_exact b1 = sb_read_exact b).
        { unfold sb_read_exact, b1. cbn [sb_state sb_flash]. rewrite Es. exact HP. }
        rewrite <- HR.
        assert (sbuf_ok RAM FLASH b1) by (repeat split; cbn; auto; lia).
        edestruct (write_flash_spec b1 cnt l s1) as (A & B & C & D & F & G); eauto.
        assert (HC : length (sb_read_exact b1) = cnt) by (rewrite contents_length by auto; reflexivity).
        split; [exact A|]. split; [exact B|]. split; [destruct r; auto|].
        split; [intros Hn; apply D, Hnil, Hn|]. split; [intros Hn; apply F, Hnil, Hn|].
        intros Hn; apply G, Hnil, Hn.
      + intros E; inversion E; subst. unfold sbuf_ok, sb_read_exact. rewrite Es. cbn [sb_ram sb_flash sb_state].
        repeat split; auto; intros; try (destruct Hnil; [assumption|]); congruence.
      + intros E; inversion E; subst. unfold sbuf_ok, sb_read_exact. rewrite Es. cbn [sb_ram sb_flash sb_state].
        repeat split; auto; intros; try (destruct Hnil; [assumption|]); congruence.
      + intros E; inversion E; subst. unfold sbuf_ok, sb_read_exact. rewrite Es. cbn [sb_ram sb_flash sb_state].
        repeat split; auto; intros; try (destruct Hnil; [assumption|]); congruence.
      + intros E; inversion E; subst. unfold sbuf_ok, sb_read_exact. rewrite Es. cbn [sb_ram sb_flash sb_state].
        repeat split; auto; intros; try (destruct Hnil; [assumption|]); congruence.
    - intros E; inversion E; subst b' r s'. unfold sbuf_ok, sb_read_exact. rewrite Es. cbn [sb_ram sb_flash sb_state].
      repeat split; auto; try lia; try discriminate.
      + rewrite blit_length; lia.
      + rewrite blit_prefix by lia. auto.
  Qed.

  Lemma sb_step_spec b o : sbuf_ok RAM FLASH b ->
    let (b', r) := sb_step RAM FLASH b o in
    sbuf_ok RAM FLASH b' /\ (sb_read_exact b', r) = acc_step FLASH (sb_read_exact b) o.
  Proof.
    intros Hok. destruct o as [l|]; cbn [sb_step acc_step].
    - destruct (sb_write RAM FLASH b l []) as [[b' r] s'] eqn:E.
      edestruct sb_write_spec as (A & B & C & D & F & G); eauto. split; auto.
      specialize (D eq_refl). specialize (G eq_refl).
      destruct (Nat.leb_spec (length (sb_read_exact b) + length l) FLASH).
      + apply D in H. subst r. destruct C as [_ ->]. auto.
      + destruct r; [destruct C; lia|now rewrite C|congruence].
    - split; [|reflexivity]. destruct Hok as (A & B & C). repeat split; cbn; auto. lia.
  Qed.

  Lemma sb_run_spec ops : forall b, sbuf_ok RAM FLASH b ->
    let (b', rs) := sb_run RAM FLASH b ops in
    sbuf_ok RAM FLASH b' /\ (sb_read_exact b', rs) = acc_run FLASH (sb_read_exact b) ops.
  Proof.
    induction ops as [|o ops IH]; intros b Hok; cbn [sb_run acc_run]; auto.
    pose proof (sb_step_spec b o Hok) as S1. destruct (sb_step RAM FLASH b o) as [b1 r].
    destruct S1 as [Hok1 E1]. specialize (IH b1 Hok1).
    destruct (acc_step FLASH (sb_read_exact b) o) as [c r'] eqn:E. inversion E1; subst.
    destruct (sb_run RAM FLASH b1 ops) as [b2 rs]. destruct IH as [Hok2 E2].
    destruct (acc_run FLASH (sb_read_exact b1) ops) as [c2 rs2]. inversion E2; subst. auto.
  Qed.
End Buffer.

(** ** The protocol *)

Lemma acc_eqb_eq a b : acc_eqb a b = true <-> a = b.
Proof. destruct a, b; cbn; split; congruence. Qed.
Lemma acc_eqb_refl a : acc_eqb a a = true.
Proof. now apply acc_eqb_eq. Qed.

Lemma apdu_payload_260 buf : apdu_ok buf ->
  exists pl, apdu_payload buf = Some pl /\ pl = firstn (N.to_nat (nth 4 buf 0)) (skipn 5 buf) /\
    (length pl <= 255)%nat /\ bytes_ok pl.
Proof.
  intros [Hl Hb]. unfold apdu_payload.
  assert (nth 4 buf 0 < 256).
  { unfold bytes_ok in Hb. rewrite Forall_forall in Hb. apply Hb, nth_In. lia. }
  replace (len buf - 5 <? nth 4 buf 0) with false by (unfold len; lia).
  eexists; repeat split; eauto.
  - rewrite slice_length; lia.
  - now apply bytes_ok_slice.
Qed.

Definition upk (k : packet_type) : pkind :=
  if is_init k then KInit else if is_next k then KNext else KLast.

Lemma packet_kind p1 : option_map upk (packet_of_p1 p1) = kind_of p1.
Proof.
  unfold packet_of_p1, z_packet, legacy_packet, kind_of. cbn [existsb].
  destruct (N.eqb_spec p1 0); [reflexivity|].
  destruct (N.eqb_spec p1 1); [subst; reflexivity|].
  destruct (N.eqb_spec p1 2); [subst; reflexivity|].
  destruct (N.eqb_spec p1 3); [subst; reflexivity|].
  destruct (N.eqb_spec p1 0x80); [subst; reflexivity|].
  destruct (N.eqb_spec p1 0x81); [subst; reflexivity|].
  destruct (N.eqb_spec p1 0x83); [subst; reflexivity|]. reflexivity.
Qed.

Lemma ram_le_flash : (RAM_CAP <= FLASH_CAP)%nat.
Proof. unfold RAM_CAP, FLASH_CAP. lia. Qed.

(** Abstraction of the concrete upload state. *)
Definition u_rel (u : ustate) (st : pstate) : Prop :=
  sbuf_ok RAM_CAP FLASH_CAP (u_buf u) /\
  match st with
  | None => u_lock u = None
  | Some (a, p2, init, data) =>
    u_lock u = Some a /\ sb_read_exact (u_buf u) = p2 :: init ++ data /\ u_init_len u = len init
  end.

Lemma u_write_spec u l : sbuf_ok RAM_CAP FLASH_CAP (u_buf u) ->
  exists b, sbuf_ok RAM_CAP FLASH_CAP b /\
  (if (length (sb_read_exact (u_buf u)) + length l <=? FLASH_CAP)%nat
   then u_write u l [] = (Ok tt, mkU b (u_lock u) (u_init_len u), []) /\
        sb_read_exact b = sb_read_exact (u_buf u) ++ l
   else u_write u l [] = (Err DataInvalid, mkU b (u_lock u) (u_init_len u), []) /\
        sb_read_exact b = sb_read_exact (u_buf u)).
Proof.
  intros Hok. unfold u_write.
  destruct (sb_write RAM_CAP FLASH_CAP (u_buf u) l []) as [[b r] s'] eqn:E.
  edestruct (sb_write_spec _ _ ram_le_flash) as (A & B & C & D & F & G); eauto.
  exists b. split; auto. specialize (D eq_refl). specialize (F eq_refl). specialize (G eq_refl). subst s'.
  destruct (Nat.leb_spec (length (sb_read_exact (u_buf u)) + length l) FLASH_CAP).
  - apply D in H. subst r. destruct C as [_ C]. auto.
  - destruct r; [destruct C; lia|auto|congruence].
Qed.

Lemma up_step_refines a buf u st : apdu_ok buf -> u_rel u st ->
  let (o, u') := up_step a buf u in
  let (o', st') := proto_step a buf st in
  o = o' /\ u_rel u' st'.
Proof.
  intros Hb [Hok Hst]. unfold up_step, proto_step, upload.
  destruct (apdu_payload_260 buf Hb) as (pl & Ep & Epl & Hpl & _). rewrite Ep.
  fold (pay buf) in Epl. rewrite <- Epl. clear Epl.
  rewrite <- packet_kind. fold (apdu_p1 buf). fold (apdu_p2 buf).
  destruct (packet_of_p1 (apdu_p1 buf)) as [pt|]; cbn [option_map]; [|split; auto; split; auto].
  unfold upk. destruct (is_init pt) eqn:Ei.
  - (* init *)
    set (u1 := mkU (sb_reset (u_buf u)) _ _).
    assert (Hok1 : sbuf_ok RAM_CAP FLASH_CAP (u_buf u1)).
    { destruct Hok as (A & B & C). repeat split; cbn; auto. lia. }
    destruct (u_write_spec u1 [apdu_p2 buf] Hok1) as (b2 & Hok2 & H2).
    replace (sb_read_exact (u_buf u1)) with (@nil N) in H2 by reflexivity.
    cbn [length app Nat.add] in H2.
    replace (1 <=? FLASH_CAP)%nat with true in H2 by (unfold FLASH_CAP; lia).
    destruct H2 as [-> R2].
    set (u3 := mkU b2 (u_lock u1) (len pl)).
    destruct (u_write_spec u3 pl Hok2) as (b4 & Hok4 & H4). cbn [u_buf u3] in H4.
    rewrite R2 in H4. cbn [length] in H4.
    replace (1 + length pl <=? FLASH_CAP)%nat with true in H4 by (unfold FLASH_CAP; lia).
    destruct H4 as [H4 R4]. cbn [u_buf u_lock u_init_len]. fold u3. rewrite H4. split; auto.
    split; auto. cbn [u_lock u_buf u_init_len u3]. split; [|split; auto].
    + unfold u1, lock_lock. cbn [u_lock]. destruct (u_lock u) as [h|]; auto.
      destruct (acc_eqb h a) eqn:Eh; auto. apply acc_eqb_eq in Eh. congruence.
    + rewrite R4, app_nil_r. reflexivity.
  - (* next / last *)
    assert (Hk : exists k, (if is_next pt then KNext else KLast) = k /\ k <> KInit) by
      (destruct (is_next pt); eexists; split; eauto; discriminate).
    unfold lock_acquire.
    destruct st as [[[[h q2] init] data]|].
    + destruct Hst as (Hl & Hr & Hi). rewrite Hl.
      destruct (acc_eqb h a) eqn:Eh; cbn [negb].
      2:{ destruct (is_next pt); (split; [reflexivity|]); split; auto. }
      apply acc_eqb_eq in Eh. subst h.
      unfold u_write_payload. destruct (u_write_spec u pl Hok) as (b1 & Hok1 & H1).
      rewrite Hr in H1. cbn [length] in H1. rewrite app_length in H1.
      replace (S (length init + length data) + length pl <=? FLASH_CAP)%nat
        with (negb (CAPACITY <? 1 + length init + length data + length pl)%nat) in H1
        by (unfold CAPACITY, FLASH_CAP; lia).
      destruct (CAPACITY <? 1 + length init + length data + length pl)%nat; cbn [negb] in H1;
        destruct H1 as [-> R1].
      * destruct (is_next pt); (split; [reflexivity|]); split; auto; cbn; repeat split; auto; congruence.
      * destruct (is_next pt).
        -- split; auto. split; auto. cbn [u_lock u_buf u_init_len].
           repeat split; auto; [apply Hok1..|]. rewrite R1. cbn [app]. now rewrite <- app_assoc.
        -- unfold u_split. cbn [u_buf u_init_len]. rewrite R1, Hi. cbn [app]. rewrite <- app_assoc.
           replace (len (init ++ data ++ pl) <? len init) with false by (unfold len; rewrite app_length; lia).
           replace (N.to_nat (len init)) with (length init) by (unfold len; lia).
           rewrite firstn_app_exact, skipn_app_exact by auto. split; auto.
           unfold upload_drop, lock_acquire. cbn [u_lock]. rewrite Hl, acc_eqb_refl.
           split.
           ++ destruct Hok1 as (A & B & C). repeat split; cbn; auto. lia.
           ++ cbn. now rewrite acc_eqb_refl.
    + rewrite Hst. destruct (is_next pt); (split; [reflexivity|]); split; auto.
Qed.

Lemma up_run_refines tr : forall u st, u_rel u st -> Forall (fun p => apdu_ok (snd p)) tr ->
  fst (up_run u tr) = fst (proto_run st tr) /\ u_rel (snd (up_run u tr)) (snd (proto_run st tr)).
Proof.
  induction tr as [|[a buf] tr IH]; intros u st R H; cbn [up_run proto_run]; auto.
  inversion H; subst. cbn [snd] in *.
  pose proof (up_step_refines a buf u st H2 R) as S1.
  destruct (up_step a buf u) as [o u1]. destruct (proto_step a buf st) as [o' st1].
  destruct S1 as [-> R1]. destruct (IH u1 st1 R1 H3) as [E1 E2].
  destruct (up_run u1 tr), (proto_run st1 tr). cbn in *. subst. auto.
Qed.

Lemma u_fresh_rel : u_rel u_fresh None.
Proof. split; [|reflexivity]. repeat split; auto using zeros_length. cbn. lia. Qed.

(** ** Reassembly *)

Lemma proto_nexts a q2 init : forall (mids : list bytes) (data : bytes),
  Forall (fun b : bytes => kind_of (nth 2 b 0) = Some KNext) mids ->
  (1 + length init + length data + length (concat (map pay mids)) <= CAPACITY)%nat ->
  proto_run (Some (a, q2, init, data)) (map (pair a) mids)
  = (map (fun _ => Ok None) mids, Some (a, q2, init, data ++ concat (map pay mids))).
Proof.
  induction mids as [|b mids IH]; intros data Hk Hc.
  - cbn. now rewrite app_nil_r.
  - inversion Hk; subst. cbn [map proto_run]. unfold proto_step. rewrite H1, acc_eqb_refl. cbn [negb].
    cbn [map concat] in Hc. rewrite app_length in Hc.
    replace (CAPACITY <? 1 + length init + length data + length (pay b))%nat with false by lia.
    rewrite IH; auto.
    + cbn [map concat]. now rewrite app_assoc.
    + rewrite app_length. lia.
Qed.

Lemma proto_run_app st a b : proto_run st (a ++ b) =
  let (o1, s1) := proto_run st a in let (o2, s2) := proto_run s1 b in (o1 ++ o2, s2).
Proof.
  revert st. induction a as [|[x buf] a IH]; intros st; cbn [app proto_run].
  - destruct (proto_run st b); auto.
  - destruct (proto_step x buf st) as [o st1]. rewrite IH.
    destruct (proto_run st1 a) as [o1 s1]. destruct (proto_run s1 b). auto.
Qed.

Lemma proto_reassembles a (first : bytes) (mids : list bytes) (last : bytes) st :
  kind_of (nth 2 first 0) = Some KInit ->
  Forall (fun b : bytes => kind_of (nth 2 b 0) = Some KNext) mids ->
  kind_of (nth 2 last 0) = Some KLast ->
  let data := concat (map pay (mids ++ [last])) in
  (1 + length (pay first) + length data <= CAPACITY)%nat ->
  fst (proto_run st (map (pair a) (first :: mids ++ [last])))
  = Ok None :: map (fun _ => Ok None) mids ++ [Ok (Some (mkUO (nth 3 first 0) (pay first) data))].
Proof.
  intros K1 K2 K3 data Hc. cbn [map]. rewrite map_app. cbn [proto_run].
  unfold proto_step at 1. rewrite K1.
  rewrite proto_run_app.
  unfold data in Hc. rewrite map_app, concat_app, app_length in Hc. cbn [map concat] in Hc.
  rewrite app_nil_r in Hc.
  rewrite proto_nexts; auto; [|cbn [length]; unfold bytes, byte in *; cbn [length]; lia].
  cbn [map proto_run app]. unfold proto_step. rewrite K3, acc_eqb_refl. cbn [negb].
  rewrite (proj2 (Nat.ltb_ge _ _)) by (unfold bytes, byte in *; lia). cbn [fst].
  unfold data. rewrite map_app, concat_app. cbn [map concat]. now rewrite app_nil_r.
Qed.

Lemma up_reassembles u a (first : bytes) (mids : list bytes) (last : bytes) :
  sbuf_ok RAM_CAP FLASH_CAP (u_buf u) ->
  Forall apdu_ok (first :: mids ++ [last]) ->
  kind_of (nth 2 first 0) = Some KInit ->
  Forall (fun b : bytes => kind_of (nth 2 b 0) = Some KNext) mids ->
  kind_of (nth 2 last 0) = Some KLast ->
  let data := concat (map pay (mids ++ [last])) in
  (1 + length (pay first) + length data <= CAPACITY)%nat ->
  fst (up_run u (map (pair a) (first :: mids ++ [last])))
  = Ok None :: map (fun _ => Ok None) mids ++ [Ok (Some (mkUO (nth 3 first 0) (pay first) data))].
Proof.
  intros Hu Hok K1 K2 K3 data Hc.
  inversion Hok; subst. cbn [map up_run].
  (* the initial packet does not depend on the previous state *)
  assert (S : exists u', up_step a first u = (Ok None, u') /\ u_rel u' (Some (a, nth 3 first 0, pay first, []))).
  { destruct (u_lock u) as [h|] eqn:El.
    - set (v := mkU (u_buf u) None (u_init_len u)).
      assert (Rv : u_rel v None) by (split; auto).
      pose proof (up_step_refines a first v None H1 Rv) as X.
      assert (E : up_step a first u = up_step a first v).
      { unfold up_step, upload. rewrite <- packet_kind in K1. fold (apdu_p1 first) in K1.
        destruct (packet_of_p1 (apdu_p1 first)) as [pt|]; [|discriminate].
        cbn [option_map] in K1. unfold upk in K1. destruct (is_init pt).
        - unfold v. cbn [u_buf u_lock u_init_len]. rewrite El.
          replace (lock_lock acc_eqb (Some h) a) with (lock_lock acc_eqb None a); auto.
          cbn. destruct (acc_eqb h a) eqn:Eh; auto. apply acc_eqb_eq in Eh. congruence.
        - destruct (is_next pt); discriminate. }
      rewrite E. unfold proto_step in X. rewrite K1 in X.
      destruct (up_step a first v) as [o u']. destruct X as [-> X]. eauto.
    - pose proof (up_step_refines a first u None H1 (conj Hu El)) as X.
      unfold proto_step in X. rewrite K1 in X.
      destruct (up_step a first u) as [o u']. destruct X as [-> X]. eauto. }
  destruct S as (u' & -> & R').
  pose proof (proto_reassembles a first mids last None K1 K2 K3 Hc) as P.
  cbn [map proto_run] in P. unfold proto_step at 1 in P. rewrite K1 in P.
  destruct (up_run_refines (map (pair a) (mids ++ [last])) u' _ R') as [E _].
  { apply Forall_forall. intros [x b] Hx. apply in_map_iff in Hx as (y & Hy & Hi). inversion Hy; subst.
    rewrite Forall_forall in H2. cbn. auto. }
  destruct (up_run u' (map (pair a) (mids ++ [last]))).
  destruct (proto_run (Some (a, nth 3 first 0, pay first, [])) (map (pair a) (mids ++ [last]))).
  cbn [fst] in *. subst. exact P.
Qed.

(** ** Lock histories *)

Section LockFacts.
  Context {A : Type} (eqb : A -> A -> bool).
  Hypothesis eqb_eq : forall a b, eqb a b = true <-> a = b.

  Lemma lock_lock_eq l a : lock_lock eqb l a = Some a.
  Proof. destruct l as [h|]; cbn; auto. destruct (eqb h a) eqn:E; auto. apply eqb_eq in E. congruence. Qed.

  Lemma release_holder l a : fst (lock_release eqb l a) = match l with
    | Some h => if eqb h a then None else l | None => None end.
  Proof. destruct l as [h|]; cbn; auto. now destruct (eqb h a). Qed.

  Lemma run_snoc ops o : lock_run eqb (ops ++ [o]) = lock_step eqb (lock_run eqb ops) o.
  Proof. unfold lock_run. now rewrite fold_left_app. Qed.

  Lemma snoc_inj_lock (l1 l2 : list (lop A)) x : forall b a, l1 ++ [x] = b ++ a :: l2 ->
    (l2 = [] /\ x = a /\ l1 = b) \/ exists l2', l2 = l2' ++ [x] /\ l1 = b ++ a :: l2'.
  Proof.
    intros b a H. destruct l2 as [|y l2] using rev_ind.
    - apply app_inj_tail in H as [-> ->]. auto.
    - right. exists l2. change (a :: l2 ++ [y]) with ((a :: l2) ++ [y]) in H.
      rewrite app_assoc in H. apply app_inj_tail in H as [-> ->]. auto.
  Qed.

  Lemma run_holds ops : forall a, lock_run eqb ops = Some a <-> holds a ops.
  Proof.
    induction ops as [|o ops IH] using rev_ind; intros a.
    - split; [discriminate|]. intros (b & c & E & _). destruct b; discriminate.
    - rewrite run_snoc. destruct o as [x|x|x]; cbn [lock_step].
      + rewrite lock_lock_eq. split.
        * intros E; inversion E; subst. exists ops, []. split; auto. intros o [].
        * intros (b & c & E & H). apply snoc_inj_lock in E as [(-> & E & _)|(c' & -> & _)]; [congruence|].
          f_equal. apply (H (LLock x)). apply in_or_app. right. now left.
      + rewrite IH. split.
        * intros (b & c & -> & H). exists b, (c ++ [LAcquire x]). rewrite <- app_assoc. split; auto.
          intros o Ho. apply in_app_or in Ho as [Ho|[<-|[]]]; auto. now apply H.
        * intros (b & c & E & H). apply snoc_inj_lock in E as [(_ & E & _)|(c' & -> & ->)]; [discriminate|].
          exists b, c'. split; auto. intros o Ho. apply H. apply in_or_app. now left.
      + rewrite release_holder. split.
        * destruct (lock_run eqb ops) as [h|]; [|discriminate].
          destruct (eqb h x) eqn:Ex; [discriminate|]. intros E; inversion E; subst.
          destruct (proj1 (IH a) eq_refl) as (b & c & -> & H).
          exists b, (c ++ [LRelease x]). rewrite <- app_assoc. split; auto.
          intros o Ho. apply in_app_or in Ho as [Ho|[<-|[]]]; [now apply H|].
          intros ->. assert (eqb a a = true) by now apply eqb_eq. congruence.
        * intros (b & c & E & H). apply snoc_inj_lock in E as [(_ & E & _)|(c' & -> & ->)]; [discriminate|].
          assert (Hh : lock_run eqb (b ++ LLock a :: c') = Some a).
          { apply IH. exists b, c'. split; auto. intros o Ho. apply H. apply in_or_app. now left. }
          rewrite Hh. assert (x <> a) by (apply (H (LRelease x)); apply in_or_app; right; now left).
          destruct (eqb a x) eqn:Ex; auto. apply eqb_eq in Ex. congruence.
  Qed.

  Lemma acquire_holds ops a : lock_acquire eqb (lock_run eqb ops) a = None <-> holds a ops.
  Proof.
    rewrite <- run_holds. unfold lock_acquire. destruct (lock_run eqb ops) as [h|]; [|split; discriminate].
    destruct (eqb h a) eqn:E; split; auto; try discriminate.
    - apply eqb_eq in E. congruence.
    - intros X; inversion X; subst. assert (eqb a a = true) by now apply eqb_eq. congruence.
  Qed.

  Lemma acquire_busy ops a : lock_acquire eqb (lock_run eqb ops) a = Some LBusy <->
    exists b, b <> a /\ holds b ops.
  Proof.
    unfold lock_acquire. destruct (lock_run eqb ops) as [h|] eqn:R.
    - destruct (eqb h a) eqn:E; split; try discriminate.
      + intros (b & Hb & Hh). apply run_holds in Hh. apply eqb_eq in E. congruence.
      + intros _. exists h. split; [|now apply run_holds].
        intros ->. assert (eqb a a = true) by now apply eqb_eq. congruence.
      + auto.
    - split; [discriminate|]. intros (b & _ & Hh). apply run_holds in Hh. congruence.
  Qed.

  Lemma holder_unique (ops : list (lop A)) a b : holds a ops -> holds b ops -> a = b.
  Proof. intros H1 H2. apply run_holds in H1, H2. congruence. Qed.

  Lemma release_spec ops a : snd (lock_release eqb (lock_run eqb ops) a) = None <-> holds a ops.
  Proof.
    rewrite <- run_holds. unfold lock_release. destruct (lock_run eqb ops) as [h|]; [|split; discriminate].
    destruct (eqb h a) eqn:E; cbn; split; auto; try discriminate.
    - apply eqb_eq in E. congruence.
    - intros X; inversion X; subst. assert (eqb a a = true) by now apply eqb_eq. congruence.
  Qed.
End LockFacts.

(** ** Payload bounds *)

Lemma payload_inside buf rx : apdu_read_ok buf rx = true -> 5 + nth 4 buf 0 <= rx ->
  apdu_payload buf = Some (slice 5 (N.to_nat (nth 4 buf 0)) (firstn (N.to_nat rx) buf)).
Proof.
  unfold apdu_read_ok. rewrite !andb_true_iff. intros [[H1 H2] H3] H4. unfold apdu_payload, slice.
  apply N.leb_le in H1, H2, H3.
  replace (len buf - 5 <? nth 4 buf 0) with false by lia. f_equal.
  rewrite skipn_firstn_comm, firstn_firstn. f_equal. lia.
Qed.
