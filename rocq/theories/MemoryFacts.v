(** Devices that remember the same behave alike. *)
From Coq Require Import List NArith ZArith Lia Bool Arith ZifyBool ZifyNat ZifyN.
From Verif Require Import Base BaseFacts Flash FlashFacts FlashSpec FlashProofs Codecs CodecsSpec CodecsFacts
  Upload UploadSpec UploadFacts Baking BakingSpec BakingFacts Operations Oracles Address
  Device DeviceSpec DeviceFacts DeviceProofs DeviceHist DeviceSigs DeviceAnswers DeviceReviews DeviceKeys
  DeviceSlots ServiceSpec DeviceContents DeviceLive InterruptSpec InterruptFacts MemorySpec.
Import ListNotations.
Open Scope N_scope.

(** ** Uploads *)

Definition sb_like (b b' : sbuf) : Prop :=
  sbuf_ok RAM_CAP FLASH_CAP b /\ sbuf_ok RAM_CAP FLASH_CAP b' /\
  sb_state b = sb_state b' /\ sb_read_exact b = sb_read_exact b'.

Lemma firstn_blit i src dst : (i <= length dst)%nat ->
  firstn (i + length src) (blit i src dst) = firstn i dst ++ src.
Proof.
  intros H. unfold blit. rewrite firstn_app. rewrite firstn_length_le by exact H.
  rewrite firstn_all2 by (rewrite firstn_length; lia). f_equal.
  replace (i + length src - i)%nat with (length src) by lia.
  rewrite firstn_app, firstn_all, Nat.sub_diag. cbn [firstn]. apply app_nil_r.
Qed.
Lemma firstn_blit_le i src dst n : (n <= i)%nat -> (i <= length dst)%nat ->
  firstn n (blit i src dst) = firstn n dst.
Proof.
  intros H L. unfold blit. rewrite firstn_app. rewrite firstn_firstn, firstn_length_le by exact L.
  replace (n - i)%nat with 0%nat by lia. cbn [firstn]. rewrite app_nil_r. now rewrite Nat.min_l.
Qed.
Lemma firstn_min (n m : nat) (l l' : bytes) : firstn n l = firstn n l' -> (m <= n)%nat -> firstn m l = firstn m l'.
Proof.
  intros E H. rewrite <- (Nat.min_l m n H). rewrite <- !firstn_firstn. now rewrite E.
Qed.
Lemma firstn_torn n (p dst dst' : bytes) : length dst = length dst' -> firstn n dst = firstn n dst' ->
  firstn n (firstn (length dst) (p ++ dst)) = firstn n (firstn (length dst') (p ++ dst')).
Proof.
  intros L E. rewrite <- L, !firstn_firstn, !firstn_app. f_equal. apply (firstn_min n); [exact E|lia].
Qed.

(** A write to the flash array changes equal first parts alike. *)
Lemma nvm_like i src dst dst' f n : length dst = length dst' -> (i <= length dst)%nat ->
  firstn i dst = firstn i dst' -> firstn n dst = firstn n dst' -> (n <= i)%nat ->
  let (p, r) := nvm_blit i src dst f in
  let (p', r') := nvm_blit i src dst' f in
  r = r' /\ firstn n p = firstn n p' /\ (r = WDone -> firstn (i + length src) p = firstn (i + length src) p').
Proof.
  intros L Hi Ei En Hn. unfold nvm_blit. split; [reflexivity|].
  assert (B : firstn n (blit i src dst) = firstn n (blit i src dst')) by (rewrite !firstn_blit_le by lia; exact En).
  split.
  - destruct f as [|[]|[]]; auto using firstn_torn.
  - destruct f; cbn [fault_res]; try discriminate. intros _. rewrite !firstn_blit by lia. now rewrite Ei.
Qed.

Lemma write_flash_like b b' cnt l s : sb_like b b' -> sb_state b = InFlash cnt ->
  let '(b1, r, s1) := sb_write_flash FLASH_CAP b cnt l s in
  let '(b1', r', s1') := sb_write_flash FLASH_CAP b' cnt l s in
  r = r' /\ s1 = s1' /\ sb_state b1 = sb_state b1' /\ sb_read_exact b1 = sb_read_exact b1'.
Proof.
  intros (H & H' & Es & Er) E. unfold sb_write_flash.
  destruct (FLASH_CAP <? cnt + length l)%nat eqn:C; [auto|]. destruct (next_fault s) as [f s'].
  destruct H as (_ & Lf & Hc), H' as (_ & Lf' & _). rewrite E in Hc. rewrite E in Es.
  unfold sb_read_exact in Er. rewrite E, <- Es in Er.
  pose proof (nvm_like cnt l (sb_flash b) (sb_flash b') f cnt ltac:(lia) ltac:(lia) Er Er (le_n _)) as X.
  destruct (nvm_blit cnt l (sb_flash b) f) as [p r], (nvm_blit cnt l (sb_flash b') f) as [p' r'].
  destruct X as (<- & X1 & X2). split; [reflexivity|]. split; [reflexivity|].
  unfold sb_read_exact. cbn [sb_state sb_flash]. destruct r; auto.
Qed.

Lemma sb_write_like b b' l s : sb_like b b' ->
  let '(b1, r, s1) := sb_write RAM_CAP FLASH_CAP b l s in
  let '(b1', r', s1') := sb_write RAM_CAP FLASH_CAP b' l s in
  r = r' /\ s1 = s1' /\ sb_like b1 b1'.
Proof.
  intros H.
  assert (G : let '(b1, r, s1) := sb_write RAM_CAP FLASH_CAP b l s in
    let '(b1', r', s1') := sb_write RAM_CAP FLASH_CAP b' l s in
    r = r' /\ s1 = s1' /\ sb_state b1 = sb_state b1' /\ sb_read_exact b1 = sb_read_exact b1').
  { pose proof H as (K & K' & Es & Er). unfold sb_write. rewrite <- Es. destruct (sb_state b) as [cnt|cnt] eqn:E.
    - pose proof K as (Lr & Lf & Hc). pose proof K' as (Lr' & Lf' & Hc'). rewrite E in Hc.
      assert (Er0 : firstn cnt (sb_ram b) = firstn cnt (sb_ram b'))
        by (unfold sb_read_exact in Er; rewrite E, <- Es in Er; exact Er).
      destruct (RAM_CAP <? cnt + length l)%nat eqn:C.
      + rewrite Lr, Lr'. destruct (FLASH_CAP <? RAM_CAP)%nat eqn:D.
        { rewrite <- Es, E. auto. }
        destruct (next_fault s) as [f s'].
        assert (W : forall f, snd (nvm_blit 0 (sb_ram b) (sb_flash b) f) = snd (nvm_blit 0 (sb_ram b') (sb_flash b') f))
          by reflexivity.
        specialize (W f).
        assert (W1 : snd (nvm_blit 0 (sb_ram b) (sb_flash b) f) = WDone ->
          firstn cnt (fst (nvm_blit 0 (sb_ram b) (sb_flash b) f)) = firstn cnt (sb_ram b) /\
          firstn cnt (fst (nvm_blit 0 (sb_ram b') (sb_flash b') f)) = firstn cnt (sb_ram b')).
        { unfold nvm_blit. cbn [snd fst]. destruct f; cbn [fault_res]; try discriminate. intros _. unfold blit. cbn [firstn app].
          rewrite !firstn_app. replace (cnt - length (sb_ram b))%nat with 0%nat by lia.
          replace (cnt - length (sb_ram b'))%nat with 0%nat by lia. cbn [firstn]. now rewrite !app_nil_r. }
        assert (L1 : forall (c : sbuf), (length (sb_ram c) <= length (sb_flash c))%nat ->
                     length (fst (nvm_blit 0 (sb_ram c) (sb_flash c) f)) = length (sb_flash c)).
        { intros c Hl. unfold nvm_blit, blit. cbn [fst]. destruct f as [|[]|[]]; cbn [firstn app];
            rewrite ?firstn_length, ?app_length, ?skipn_length; cbn [length]; lia. }
        pose proof (L1 b ltac:(lia)) as La. pose proof (L1 b' ltac:(lia)) as Lb. clear L1.
        destruct (nvm_blit 0 (sb_ram b) (sb_flash b) f) as [p r], (nvm_blit 0 (sb_ram b') (sb_flash b') f) as [p' r'].
        cbn [fst snd] in *. subst r'.
        destruct r; try (unfold sb_read_exact; cbn [sb_state sb_ram]; auto).
        destruct (W1 eq_refl) as [Wa Wb].
        apply write_flash_like; [|reflexivity].
        split; [|split; [|split; [reflexivity|]]].
        * repeat split; cbn [sb_ram sb_flash sb_state]; lia.
        * repeat split; cbn [sb_ram sb_flash sb_state]; lia.
        * unfold sb_read_exact. cbn [sb_state sb_flash]. congruence.
      + split; [reflexivity|]. split; [reflexivity|]. cbn [sb_state]. split; [reflexivity|].
        unfold sb_read_exact. cbn [sb_state sb_ram]. rewrite !firstn_blit by lia. now rewrite Er0.
    - apply write_flash_like; auto. }
  pose proof (sb_write_sized RAM_CAP FLASH_CAP b l s ram_le_flash (proj1 H)) as S1.
  pose proof (sb_write_sized RAM_CAP FLASH_CAP b' l s ram_le_flash (proj1 (proj2 H))) as S2.
  destruct (sb_write RAM_CAP FLASH_CAP b l s) as [[b1 r] s1], (sb_write RAM_CAP FLASH_CAP b' l s) as [[b1' r'] s1'].
  cbn [fst snd] in S1, S2. destruct G as (-> & -> & G1 & G2). split; [reflexivity|]. split; [reflexivity|].
  split; [exact S1|]. split; [exact S2|]. split; assumption.
Qed.

(** Uploads in which the sizes are right as well. *)
Definition ul (u u' : ustate) : Prop := sized u /\ sized u' /\ upload_like u u'.
(** An upload in progress in both. *)
Definition ul_on (u u' : ustate) : Prop :=
  u_lock u = u_lock u' /\ u_init_len u = u_init_len u' /\ sb_like (u_buf u) (u_buf u').
Lemma ul_on_ul u u' : ul_on u u' -> ul u u'.
Proof. intros (A & B & S1 & S2 & C & D). split; [exact S1|]. split; [exact S2|]. split; auto. Qed.
Lemma ul_on_of u u' : ul u u' -> u_lock u <> None -> ul_on u u'.
Proof.
  intros (S1 & S2 & A & B) N. destruct (B N) as (B1 & B2 & B3). split; [exact A|]. split; [exact B1|].
  split; [exact S1|]. split; [exact S2|]. auto.
Qed.
Lemma u_write_like u u' l s : ul_on u u' ->
  let '(r, u1, s1) := u_write u l s in
  let '(r', u1', s1') := u_write u' l s in
  r = r' /\ s1 = s1' /\ ul_on u1 u1'.
Proof.
  intros (A & B & C). unfold u_write. pose proof (sb_write_like _ _ l s C) as X.
  destruct (sb_write RAM_CAP FLASH_CAP (u_buf u) l s) as [[b r] s1],
    (sb_write RAM_CAP FLASH_CAP (u_buf u') l s) as [[b' r'] s1'].
  destruct X as (<- & <- & X). destruct r; (split; [reflexivity|]; split; [reflexivity|]; split; [exact A|split; [exact B|exact X]]).
Qed.

Lemma upload_alike a buf u u' s : apdu_ok buf -> ul u u' ->
  let '(r, u1, s1) := upload a buf u s in
  let '(r', u1', s1') := upload a buf u' s in
  r = r' /\ s1 = s1' /\ ul u1 u1'.
Proof.
  intros Hb H. unfold upload. destruct (packet_of_p1 (apdu_p1 buf)) as [pt|]; [|auto].
  destruct (apdu_payload_260 buf Hb) as (pl & Ep & _). rewrite Ep.
  pose proof H as (S1 & S2 & L & K). destruct (is_init pt).
  - set (u0 := mkU (sb_reset (u_buf u)) _ _). set (u0' := mkU (sb_reset (u_buf u')) _ _).
    (* the length of the first packet is set below *)
    set (w := mkU (sb_reset (u_buf u)) (lock_lock acc_eqb (u_lock u) a) 0).
    set (w' := mkU (sb_reset (u_buf u')) (lock_lock acc_eqb (u_lock u') a) 0).
    assert (X0 : ul_on w w').
    { split; [cbn [w w' u_lock]; now rewrite L|]. split; [reflexivity|].
      split; [exact (reset_sized u None 0 S1)|]. split; [exact (reset_sized u' None 0 S2)|]. split; reflexivity. }
    assert (Eu : forall (v : ustate) n, u_write (mkU (u_buf v) (u_lock v) n) [apdu_p2 buf] s =
      let '(r, v1, s1) := u_write v [apdu_p2 buf] s in (r, mkU (u_buf v1) (u_lock v1) n, s1)).
    { intros v n. unfold u_write. cbn [u_buf u_lock u_init_len].
      destruct (sb_write RAM_CAP FLASH_CAP (u_buf v) [apdu_p2 buf] s) as [[b r] s1]. destruct r; reflexivity. }
    pose proof (Eu w (u_init_len u)) as E1. pose proof (Eu w' (u_init_len u')) as E1'. clear Eu.
    change (mkU (u_buf w) (u_lock w) (u_init_len u)) with u0 in E1.
    change (mkU (u_buf w') (u_lock w') (u_init_len u')) with u0' in E1'. rewrite E1, E1'. clear E1 E1'.
    pose proof (u_write_like _ _ [apdu_p2 buf] s X0) as X.
    assert (R : fst (fst (u_write w [apdu_p2 buf] s)) = Ok tt) by reflexivity.
    destruct (u_write w [apdu_p2 buf] s) as [[r v] s1], (u_write w' [apdu_p2 buf] s) as [[r' v'] s1'].
    destruct X as (<- & <- & X1 & X2 & X3). cbn [u_buf u_lock].
    assert (Y : ul_on (mkU (u_buf v) (u_lock v) (len pl)) (mkU (u_buf v') (u_lock v') (len pl)))
      by (split; [exact X1|split; [reflexivity|exact X3]]).
    cbn [fst] in R. subst r.
    pose proof (u_write_like _ _ pl s1 Y) as Z.
    destruct (u_write (mkU (u_buf v) (u_lock v) (len pl)) pl s1) as [[r2 v2] s2],
      (u_write (mkU (u_buf v') (u_lock v') (len pl)) pl s1) as [[r2' v2'] s2'].
    destruct Z as (<- & <- & Z). split; [reflexivity|]. split; [reflexivity|]. now apply ul_on_ul.
  - rewrite <- L. destruct (lock_acquire acc_eqb (u_lock u) a) eqn:La; [auto|].
    assert (N : u_lock u <> None) by (destruct (u_lock u); [discriminate|discriminate La]).
    pose proof (u_write_like _ _ pl s (ul_on_of _ _ H N)) as Z. cbn [u_write_payload].
    destruct (u_write u pl s) as [[r v] s1], (u_write u' pl s) as [[r' v'] s1']. destruct Z as (<- & <- & Z).
    pose proof (ul_on_ul _ _ Z) as Zu. destruct Z as (Z1 & Z2 & Z3 & Z4 & Z5 & Z6).
    assert (Sp : u_split v = u_split v') by (unfold u_split; rewrite Z6, Z2; reflexivity).
    destruct r; auto. rewrite Sp. destruct (is_next pt); auto.
Qed.
Lemma drop_like a u u' : ul u u' -> ul (upload_drop a u) (upload_drop a u').
Proof.
  intros (S1 & S2 & L & K). split; [now apply drop_sized|]. split; [now apply drop_sized|].
  unfold upload_drop. rewrite <- L. destruct (lock_acquire acc_eqb (u_lock u) a) eqn:La; [split; auto|].
  destruct (u_lock u) as [h|]; [|discriminate]. cbn [lock_acquire] in La. cbn [lock_release].
  destruct (acc_eqb h a); [|discriminate]. split; cbn [fst u_lock]; [reflexivity|tauto].
Qed.
Lemma restart_like u u' : sized u -> sized u' -> ul (u_restart u) (u_restart u').
Proof.
  intros S1 S2. split; [now apply restart_sized|]. split; [now apply restart_sized|].
  split; [reflexivity|]. cbn [u_restart u_lock]. tauto.
Qed.

(** ** Slots *)

(** What a write leaves, depending on the fault. *)
Definition after (v : option (option bytes)) (p : bytes) (f : fault) : option (option bytes) :=
  match f with
  | WOk | WFail _ => Some (Some p)
  | WCut TOld => v
  | WCut TNew => Some (Some p)
  | WCut (TTorn _) => None
  end.
Lemma state_write_after B v w k pl f : state B v w -> B + 1 < 2 ^ 64 -> payload_ok pl -> power_fault f ->
  wear_init w = Some k ->
  let (w1, r) := wear_write_at w k pl f in
  r = fault_res f /\ state (B + 1) (after v pl f) (match r with WLost => wear_restart w1 | _ => w1 end).
Proof.
  destruct v as [o|]; cbn [state]; [|unfold lost_w; congruence]. intros H HB Hp Hf Hi.
  assert (G : intact_fault f -> (if stored f then Some pl else o) = (match after (Some o) pl f with Some x => x | None => None end) ->
    after (Some o) pl f <> None ->
    let (w1, r) := wear_write_at w k pl f in
    r = fault_res f /\ state (B + 1) (after (Some o) pl f) (match r with WLost => wear_restart w1 | _ => w1 end)).
  { intros If E N. pose proof (ss_write B o w k pl f H HB Hp If Hi) as X.
    destruct (wear_write_at w k pl f) as [w1 r] eqn:Ew.
    assert (R : r = fault_res f) by (unfold wear_write_at in Ew; inversion Ew; reflexivity).
    split; [exact R|]. rewrite E in X. destruct (after (Some o) pl f); [exact X|contradiction]. }
  destruct f as [|t|[| |p]]; cbn [power_fault] in Hf; try contradiction;
    try (apply G; [exact Logic.I|reflexivity|discriminate]).
  clear G. unfold wear_write_at. cbn [fault_res fault_page tear_page slot_tear_ok after] in *. split; [reflexivity|].
  cbn [state]. unfold lost_w, wear_init, wear_restart. cbn [w_pages w_idx].
  apply align_none with (i := page_no w ((k + 1) mod 2 ^ 64)) (p := p); [|exact Hf].
  apply nth_error_upd_same. apply page_no_lt. apply (wf_nonempty _ _ (ss_wf _ _ _ H)).
Qed.

(** ** Devices *)

Section Memory.
  Variable C : config.
  Variable O : oracles.
  (** The signatures made before. *)
  Variables L1 L2 : list sigrec.

  (** [p]: the key of a request to sign is known to be the same. *)
  Record alike (b : slot -> N) (p : bool) (d d' : dev) : Prop := {
    al_abs : exists a, abs b a d /\ abs b a d';
    al_faults : d_faults d = d_faults d';
    al_ufaults : d_ufaults d = d_ufaults d';
    al_ui : d_ui d = d_ui d';
    al_path : p || sign_review (d_ui d) = true -> d_path d = d_path d';
    al_up : ul (d_up d) (d_up d');
    al_log : exists l, d_log d = l ++ L1 /\ d_log d' = l ++ L2
  }.

  Lemma abs_mono b b' a d : (forall s, b s <= b' s) -> abs b a d -> abs b' a d.
  Proof. intros H [A F]. constructor; auto. intros s. eapply state_mono; eauto. Qed.
  Lemma alike_mono b b' p p' d d' : (forall s, b s <= b' s) -> (p' = true -> p = true) ->
    alike b p d d' -> alike b' p' d d'.
  Proof.
    intros H Hp [(a & A1 & A2) A3 A4 A5 A6 A7 A8]. constructor; auto.
    - exists a. split; eapply abs_mono; eauto.
    - intros X. apply A6. destruct p'; [now rewrite Hp|]. destruct p; auto.
  Qed.
  Lemma alike_restart b p d d' : alike b p d d' -> alike b false (restart d) (restart d').
  Proof.
    intros [(a & A1 & A2) A3 A4 A5 A6 (S1 & S2 & A7) A8]. constructor; cbn [restart d_faults d_ufaults d_ui d_path d_up d_log]; auto.
    - exists a. split; now apply abs_restart.
    - now apply restart_like.
  Qed.

  (** The states after an outcome. *)
  Definition post {A} (b : slot -> N) (p : bool) (x x' : outcome A * dev) : Prop :=
    fst x = fst x' /\
    match fst x with
    | Ok _ => alike b p (snd x) (snd x')
    | Err _ | Panic => alike b false (snd x) (snd x')
    | Cut => alike b false (restart (snd x)) (restart (snd x'))
    end.
  Definition respects {A} (b b' : slot -> N) (p p' : bool) (m : M A) : Prop :=
    forall d d', alike b p d d' -> post b' p' (m d) (m d').

  Lemma post_mono {A} b b' p p' (x x' : outcome A * dev) : (forall s, b s <= b' s) -> (p' = true -> p = true) ->
    post b p x x' -> post b' p' x x'.
  Proof.
    intros H Hp [E X]. split; [exact E|]. destruct (fst x); eapply alike_mono; eauto.
  Qed.
  Lemma respects_mono {A} b0 b b' p p' q (m : M A) : (forall s, b s <= b' s) -> (q = true -> p' = true) ->
    respects b0 b p p' m -> respects b0 b' p q m.
  Proof. intros H Hq R d d' X. eapply post_mono; eauto. Qed.
  Lemma respects_pre {A} b b' p q p' (m : M A) : (q = true -> p = true) -> respects b b' q p' m -> respects b b' p p' m.
  Proof. intros H R d d' X. apply R. eapply alike_mono; eauto. intros; lia. Qed.

  Lemma respects_bind {A B} b b1 b2 p p1 p2 (m : M A) (f : A -> M B) : (forall s, b1 s <= b2 s) ->
    respects b b1 p p1 m -> (forall a, respects b1 b2 p1 p2 (f a)) -> respects b b2 p p2 (bind m f).
  Proof.
    intros H Rm Rf d d' X. unfold bind. specialize (Rm d d' X). destruct Rm as [E Y].
    destruct (m d) as [r d1], (m d') as [r' d1']. cbn [fst snd] in *. subst r'.
    destruct r; [now apply Rf|..]; (split; [reflexivity|]; cbn [fst snd]; eapply alike_mono; eauto).
  Qed.
  (** The common case: nothing is written. *)
  Lemma respects_seq {A B} b p (m : M A) (f : A -> M B) :
    respects b b p p m -> (forall a, respects b b p p (f a)) -> respects b b p p (bind m f).
  Proof. intros. eapply respects_bind; eauto. intros; lia. Qed.

  Lemma respects_ret {A} b p (a : A) : respects b b p p (ret a).
  Proof. intros d d' X. split; [reflexivity|exact X]. Qed.
  Lemma respects_fail {A} b p p' e : respects (A := A) b b p p' (fail e).
  Proof. intros d d' X. split; [reflexivity|]. eapply alike_mono; [| |exact X]; [intros; lia|discriminate]. Qed.
  Lemma respects_panic {A} b p p' : respects (A := A) b b p p' panic.
  Proof. intros d d' X. split; [reflexivity|]. eapply alike_mono; [| |exact X]; [intros; lia|discriminate]. Qed.
  Lemma respects_option {A} b p e (o : option A) : respects b b p p (of_option e o).
  Proof. destruct o; [apply respects_ret|apply respects_fail]. Qed.
  Lemma respects_sres {A} b p e (o : sres A) : respects b b p p (of_sres e o).
  Proof. destruct o; [apply respects_ret|apply respects_fail|apply respects_panic]. Qed.
  Lemma respects_ares {A} b p (o : ares A) : respects b b p p (of_ares o).
  Proof. destruct o; [apply respects_ret|apply respects_fail]. Qed.
  Lemma respects_check b p c e : respects b b p p (check c e).
  Proof. unfold check. destruct c; [apply respects_ret|apply respects_fail]. Qed.

  (** A change of the slots only. *)
  Lemma alike_slots b b' a' p d d' e e' : alike b p d d' -> abs b' a' e -> abs b' a' e' ->
    d_faults e = d_faults e' -> d_ufaults e = d_ufaults d -> d_ufaults e' = d_ufaults d' ->
    d_ui e = d_ui d -> d_ui e' = d_ui d' -> d_path e = d_path d -> d_path e' = d_path d' ->
    d_up e = d_up d -> d_up e' = d_up d' -> d_log e = d_log d -> d_log e' = d_log d' -> alike b' p e e'.
  Proof.
    intros [A1 A2 A3 A4 A5 A6 A7] B1 B2 F E1 E2 E3 E4 E5 E6 E7 E8 E9 E10.
    constructor; [eauto|exact F|congruence|congruence|rewrite E3, E5, E6; exact A5|rewrite E7, E8; exact A6|rewrite E9, E10; exact A7].
  Qed.

  Lemma respects_read b p s : respects b b p p (read_slot s).
  Proof.
    intros d d' X. pose proof X as [(a & A1 & A2) Af Au Av Ap Aup Al].
    pose proof (keeps_read_slot eff_none s d) as F1. pose proof (keeps_read_slot eff_none s d') as F2.
    pose proof (abs_frame eff_none _ _ _ _ (fun s x => x) F1 A1) as B1.
    pose proof (abs_frame eff_none _ _ _ _ (fun s x => x) F2 A2) as B2. clear F1 F2.
    pose proof (ab_slot _ _ _ A1 s) as S1. pose proof (ab_slot _ _ _ A2 s) as S2.
    unfold read_slot in *. destruct (a s) as [o|]; cbn [state] in S1, S2.
    - destruct (ss_init _ _ _ S1) as [k1 I1], (ss_init _ _ _ S2) as [k2 I2].
      pose proof (ss_read _ _ _ S1) as R1. pose proof (ss_read _ _ _ S2) as R2.
      unfold wear_read in R1, R2. rewrite I1 in *. rewrite I2 in *.
      apply read_at_eq in R1. apply read_at_eq in R2. cbn [snd] in B1, B2.
      split; [cbn [fst]; now rewrite R1, R2|]. cbn [fst snd].
      eapply (alike_slots _ _ _ _ _ _ _ _ X B1 B2);
        rewrite ?set_slot_faults, ?set_slot_ufaults, ?set_slot_ui, ?set_slot_path, ?set_slot_up, ?set_slot_log; auto.
    - unfold lost_w in S1, S2. rewrite S1, S2. split; [reflexivity|]. cbn [fst snd].
      eapply alike_mono; [| |exact X]; [intros; lia|discriminate].
  Qed.
  Lemma respects_read_or b p s e : respects b b p p (read_or s e).
  Proof. apply respects_seq; [apply respects_read|]. intros []; [apply respects_ret|apply respects_fail..]. Qed.

  Lemma respects_write b p s pl : b s + 1 < 2 ^ 64 -> payload_ok pl -> respects b (bump s b) p p (write_slot s pl).
  Proof.
    intros Hb Hp d d' X. pose proof X as [(a & A1 & A2) Af Au Av Ap Aup Al].
    pose proof (ab_slot _ _ _ A1 s) as S1. pose proof (ab_slot _ _ _ A2 s) as S2.
    pose proof (ab_faults _ _ _ A1) as F.
    unfold write_slot. rewrite <- Af. destruct (next_fault (d_faults d)) as [f fs] eqn:Nf.
    assert (Pf : power_fault f /\ Forall power_fault fs).
    { destruct (d_faults d) as [|g gs]; cbn [next_fault] in Nf; injection Nf as <- <-; [split; [exact Logic.I|constructor]|].
      inversion F; auto. }
    destruct Pf as [Pf Pfs].
    destruct (wear_init (get_slot s d)) as [k1|] eqn:I1, (wear_init (get_slot s d')) as [k2|] eqn:I2.
    - pose proof (state_write_after _ _ _ _ pl f S1 Hb Hp Pf I1) as W1.
      pose proof (state_write_after _ _ _ _ pl f S2 Hb Hp Pf I2) as W2.
      destruct (wear_write_at (get_slot s d) k1 pl f) as [w1 r], (wear_write_at (get_slot s d') k2 pl f) as [w2 r'].
      destruct W1 as [-> W1], W2 as [-> W2].
      set (a' := fun t => if slot_eq_dec s t then after (a s) pl f else a t).
      assert (G : forall dd w, abs b a dd -> state (b s + 1) (after (a s) pl f) w -> abs (bump s b) a' (set_slot s w (set_faults fs dd))).
      { intros dd w [B1 B2] W. constructor; [|rewrite set_slot_faults; destruct dd; exact Pfs].
        intros t. unfold a', bump. destruct (slot_eq_dec s t) as [<-|N].
        - rewrite get_set_same. exact W.
        - rewrite get_set_other by auto. rewrite get_slot_set_faults. apply B1. }
      assert (G' : forall dd w, abs b a dd -> state (b s + 1) (after (a s) pl f) (wear_restart w) ->
                abs (bump s b) a' (restart (set_slot s w (set_faults fs dd)))).
      { intros dd w [B1 B2] W. constructor; [|cbn [restart d_faults]; rewrite set_slot_faults; destruct dd; exact Pfs].
        intros t. rewrite get_slot_restart. unfold a', bump. destruct (slot_eq_dec s t) as [<-|N].
        - rewrite get_set_same. exact W.
        - rewrite get_set_other by auto. rewrite get_slot_set_faults. apply state_restart, B1. }
      assert (Sf : forall dd, d_ufaults (set_faults fs dd) = d_ufaults dd /\ d_ui (set_faults fs dd) = d_ui dd /\
                d_path (set_faults fs dd) = d_path dd /\ d_up (set_faults fs dd) = d_up dd /\
                d_log (set_faults fs dd) = d_log dd /\ d_faults (set_faults fs dd) = fs) by (intros []; cbn; auto 10).
      destruct (Sf d) as (q1 & q2 & q3 & q4 & q5 & q6), (Sf d') as (z1 & z2 & z3 & z4 & z5 & z6).
      destruct f as [|t|t]; cbn [fault_res power_fault] in *; try contradiction.
      + split; [reflexivity|]. cbn [fst snd].
        eapply (alike_slots _ _ _ _ _ _ _ _ X (G _ _ A1 W1) (G _ _ A2 W2));
          rewrite ?set_slot_faults, ?set_slot_ufaults, ?set_slot_ui, ?set_slot_path, ?set_slot_up, ?set_slot_log; congruence.
      + split; [reflexivity|]. cbn [fst snd].
        pose proof (alike_restart _ _ _ _ X) as Xr.
        eapply (alike_slots _ _ _ _ _ _ _ _ Xr (G' _ _ A1 W1) (G' _ _ A2 W2)); cbn [restart d_faults d_ufaults d_ui d_path d_up d_log];
          rewrite ?set_slot_faults, ?set_slot_ufaults, ?set_slot_ui, ?set_slot_path, ?set_slot_up, ?set_slot_log; try congruence.
    - exfalso. unfold state in S1, S2. destruct (a s); [destruct (ss_init _ _ _ S2)|unfold lost_w in S1]; congruence.
    - exfalso. unfold state in S1, S2. destruct (a s); [destruct (ss_init _ _ _ S1)|unfold lost_w in S2]; congruence.
    - split; [reflexivity|]. cbn [fst snd]. eapply alike_mono; [| |exact X]; [|discriminate].
      intros t. unfold bump. destruct (slot_eq_dec s t); subst; lia.
  Qed.
  Lemma respects_write_or b p s pl e : b s + 1 < 2 ^ 64 -> payload_ok pl ->
    respects b (bump s b) p p (write_or s pl e).
  Proof.
    intros. eapply respects_bind; [|now apply respects_write|intros; apply respects_check]. intros; lia.
  Qed.

  Lemma set_ui_rest v d : (forall s, get_slot s (set_ui v d) = get_slot s d) /\ d_faults (set_ui v d) = d_faults d /\
    d_ufaults (set_ui v d) = d_ufaults d /\ d_ui (set_ui v d) = v /\ d_path (set_ui v d) = d_path d /\
    d_up (set_ui v d) = d_up d /\ d_log (set_ui v d) = d_log d.
  Proof. destruct d. repeat split. Qed.

  (** A change outside the slots. *)
  Lemma alike_rest b p p' d d' e e' : alike b p d d' ->
    (forall s, get_slot s e = get_slot s d) -> (forall s, get_slot s e' = get_slot s d') ->
    d_faults e = d_faults d -> d_faults e' = d_faults d' ->
    d_ufaults e = d_ufaults e' -> d_ui e = d_ui e' ->
    (p' || sign_review (d_ui e) = true -> d_path e = d_path e') -> ul (d_up e) (d_up e') ->
    (exists l, d_log e = l ++ L1 /\ d_log e' = l ++ L2) -> alike b p' e e'.
  Proof.
    intros [(a & A1 & A2) A3 A4 A5 A6 A7 A8] G G' F F' E1 E2 E3 E4 E5. constructor; auto; [|congruence].
    exists a. split; [apply (abs_same b a d)|apply (abs_same b a d')]; auto.
  Qed.

  Lemma respects_upload b a buf : apdu_ok buf -> respects b b false false (the_upload a buf).
  Proof.
    intros Hb d d' X. pose proof X as [_ Af Au Av Ap Aup Al]. unfold the_upload.
    pose proof (upload_alike a buf (d_up d) (d_up d') (d_ufaults d) Hb Aup) as U. rewrite <- Au.
    destruct (upload a buf (d_up d) (d_ufaults d)) as [[r u] s], (upload a buf (d_up d') (d_ufaults d)) as [[r' u'] s'].
    destruct U as (<- & <- & U).
    assert (Y : alike b false (set_up u (set_ufaults s d)) (set_up u' (set_ufaults s d'))).
    { apply (alike_rest b false false _ _ _ _ X); destruct d, d'; cbn in *; auto; intros []; reflexivity. }
    split; [reflexivity|]. cbn [fst snd]. destruct r; try exact Y. exact (alike_restart _ _ _ _ Y).
  Qed.
  Lemma respects_drop b p a : respects b b p p (drop_upload a).
  Proof.
    intros d d' X. pose proof X as [_ Af Au Av Ap Aup Al]. unfold drop_upload. split; [reflexivity|]. cbn [fst snd].
    pose proof (drop_like a _ _ Aup) as U.
    apply (alike_rest b p p _ _ _ _ X); destruct d, d'; cbn in *; auto; intros []; reflexivity.
  Qed.
  Lemma respects_set_path b p k : respects b b p true (fun d => (Ok tt, set_path k d)).
  Proof.
    intros d d' X. pose proof X as [_ Af Au Av Ap Aup Al]. split; [reflexivity|]. cbn [fst snd].
    apply (alike_rest b p true _ _ _ _ X); destruct d, d'; cbn in *; auto; intros []; reflexivity.
  Qed.
  Lemma respects_show_path b v : respects b b true false (show C v).
  Proof.
    intros d d' X. pose proof X as [_ Af Au Av Ap Aup Al]. unfold show. destruct (cf_room C v).
    - split; [reflexivity|]. cbn [fst snd].
      apply (alike_rest b true false _ _ _ _ X); destruct d, d'; cbn in *; auto; intros []; reflexivity.
    - split; [reflexivity|]. cbn [fst snd]. eapply alike_mono; [| |exact X]; [intros; lia|discriminate].
  Qed.
  Lemma respects_show b v : sign_review (Some v) = false -> respects b b false false (show C v).
  Proof.
    intros Hv d d' X. pose proof X as [_ Af Au Av Ap Aup Al]. unfold show. destruct (cf_room C v).
    - split; [reflexivity|]. cbn [fst snd].
      destruct (set_ui_rest (Some v) d) as (S1 & S2 & S3 & S4 & S5 & S6 & S7).
      destruct (set_ui_rest (Some v) d') as (S1' & S2' & S3' & S4' & S5' & S6' & S7').
      apply (alike_rest b false false _ _ _ _ X); rewrite ?S4, ?S6, ?S6', ?S7, ?S7'; auto; try congruence.
      cbn [orb]. rewrite Hv. discriminate.
    - split; [reflexivity|]. cbn [fst snd]. eapply alike_mono; [| |exact X]; [intros; lia|discriminate].
  Qed.
  Lemma respects_sign_with b p src k dg data : respects b b p p (sign_with O src k dg data).
  Proof.
    intros d d' X. unfold sign_with. destruct (o_sign O (fst k) (snd k) dg) as [sg|].
    2:{ split; [reflexivity|]. eapply alike_mono; [| |exact X]; [intros; lia|discriminate]. }
    destruct (100 <? length sg)%nat.
    { split; [reflexivity|]. eapply alike_mono; [| |exact X]; [intros; lia|discriminate]. }
    pose proof X as [_ Af Au Av Ap Aup (l & El & El')]. split; [reflexivity|]. cbn [fst snd].
    apply (alike_rest b p p _ _ _ _ X); destruct d, d'; cbn in *; auto; try (intros []; reflexivity).
    exists (mkSig src k dg data :: l). cbn [app]. split; congruence.
  Qed.

  Ltac rs :=
    repeat first
      [ apply respects_ret | apply respects_fail | apply respects_panic | apply respects_option
      | apply respects_sres | apply respects_ares | apply respects_check | apply respects_read_or
      | apply respects_read | apply respects_sign_with
      | (apply respects_show; reflexivity) | (apply respects_seq; [|intros]) ].

  Lemma respects_key b p : respects b b p p read_baking_key.
  Proof. unfold read_baking_key. rs. Qed.
  Lemma respects_checked b p k : respects b b p p (check_with_stored k).
  Proof. unfold check_with_stored. rs. Qed.
  Lemma respects_baking_sign b p src dg data : respects b b p p (baking_sign O src dg data).
  Proof. unfold baking_sign. rs. Qed.
  Lemma respects_address b p k : respects b b p p (address O k).
  Proof. unfold address, pubkey. rs. Qed.

  Lemma respects_consensus b p pe rem sh dg data : b SMain + 1 < 2 ^ 64 ->
    respects b (bump SMain b) p p (handle_consensus O pe rem sh dg data).
  Proof.
    intros Hb. unfold handle_consensus.
    eapply (respects_bind b b (bump SMain b)); [apply bump_le|apply respects_read_or|intros hw].
    destruct (consensus_check pe rem (wm_parse hw)) as [r|].
    2:{ eapply respects_mono; [| |apply respects_panic]; [apply bump_le|auto]. }
    eapply (respects_bind b b (bump SMain b)); [apply bump_le|apply respects_ares|intros wm].
    eapply (respects_bind b (bump SMain b)); [intros; lia|apply respects_write_or; [exact Hb|apply wm_payload]|intros _].
    apply respects_seq; [apply respects_baking_sign|intros; apply respects_ret].
  Qed.
  Lemma respects_delegation b rem sh dg data : respects b b false false (handle_delegation C rem sh dg data).
  Proof.
    unfold handle_delegation. destruct (operation_new rem) as [[br ops]|]; [|rs].
    destruct (eo_next ops) as [| | |o e]; rs. destruct o; rs.
  Qed.
  Lemma respects_baker b sh up : b SMain + 1 < 2 ^ 64 ->
    respects b (bump SMain b) false false (baker_sign C O sh up).
  Proof.
    intros Hb. unfold baker_sign, digest32.
    eapply (respects_bind b b (bump SMain b)); [apply bump_le|apply respects_option|intros c].
    eapply (respects_bind b b (bump SMain b)); [apply bump_le|apply respects_option|intros pa].
    eapply (respects_bind b b (bump SMain b)); [apply bump_le|apply respects_checked|intros ok].
    eapply (respects_bind b b (bump SMain b)); [apply bump_le|apply respects_check|intros _].
    eapply (respects_bind b b (bump SMain b)); [apply bump_le|apply respects_option|intros dg].
    assert (W : forall m : M reply, respects b b false false m -> respects b (bump SMain b) false false m).
    { intros m R. eapply respects_mono; [| |exact R]; [apply bump_le|auto]. }
    destruct (preemble_parse (uo_data up)) as [rem pe| |]; [|apply W; rs..].
    destruct pe; try (apply respects_consensus; exact Hb); apply W; [apply respects_delegation|rs..].
  Qed.
  Lemma respects_start b sh up : respects b b false false (start_sign C O sh up).
  Proof.
    unfold start_sign, digest32. apply respects_seq; [rs|intros c]. apply respects_seq; [rs|intros pa].
    eapply (respects_bind b b b _ true); [intros; lia|apply respects_set_path|intros _].
    eapply (respects_bind b b b _ true); [intros; lia|apply respects_option|intros dg].
    assert (F : forall e : apdu_error, respects (A := reply) b b true false (fail e)) by (intros; apply respects_fail).
    destruct (preemble_parse (uo_data up)) as [rem pe| |]; [|apply F|apply respects_panic].
    destruct pe; try apply F; [|apply respects_show_path].
    eapply (respects_bind b b b _ true); [intros; lia|apply respects_option|intros; apply respects_show_path].
  Qed.

  Lemma respects_with_upload b b' a buf f : apdu_ok buf -> (forall s, b s <= b' s) ->
    (forall up, respects b b' false false (f up)) -> respects b b' false false (with_upload a buf f).
  Proof.
    intros Hb H Hf. unfold with_upload.
    eapply (respects_bind b b b'); [exact H|now apply respects_upload|intros [up|]].
    2:{ eapply respects_mono; [| |apply respects_ret]; auto. }
    intros d d' X. specialize (Hf up d d' X). destruct Hf as [E Y].
    destruct (f up d) as [r d1], (f up d') as [r' d1']. cbn [fst snd] in *. subst r'.
    destruct r as [r|e| |].
    - exact (respects_seq b' false (drop_upload a) (fun _ => ret r) (respects_drop _ _ _) (fun _ => respects_ret _ _ _) _ _ Y).
    - exact (respects_seq b' false (drop_upload a) (fun _ => fail e) (respects_drop _ _ _) (fun _ => respects_fail _ _ _ _) _ _ Y).
    - split; [reflexivity|exact Y].
    - split; [reflexivity|exact Y].
  Qed.

  Lemma respects_reset B buf : B + 1 < 2 ^ 64 -> respects (fun _ => B) (fun _ => B + 1) false false (h_reset buf).
  Proof.
    intros HB. unfold h_reset, the_payload.
    assert (M0 : forall s : slot, B <= B + 1) by (intros; lia).
    eapply (respects_bind (fun _ => B) (fun _ => B)); [exact M0|apply respects_option|intros pl].
    eapply (respects_bind (fun _ => B) (fun _ => B)); [exact M0|apply respects_check|intros _].
    set (b1 := bump SMain (fun _ : slot => B)). set (b2 := bump STest b1). set (b3 := bump SChain b2).
    eapply (respects_bind _ b1); [|apply respects_write_or; [exact HB|apply wm_payload]|intros _].
    { intros []; unfold b1, bump; cbn; lia. }
    eapply (respects_bind _ b2); [|apply respects_write_or; [exact HB|apply wm_payload]|intros _].
    { intros []; unfold b2, b1, bump; cbn; lia. }
    eapply (respects_bind _ b2); [|apply respects_read|intros r].
    { intros []; unfold b2, b1, bump; cbn; lia. }
    assert (M2 : forall s, b2 s <= B + 1) by (intros []; unfold b2, b1, bump; cbn; lia).
    assert (M3 : forall s, b3 s <= B + 1) by (intros []; unfold b3, b2, b1, bump; cbn; lia).
    destruct r; try (eapply respects_mono; [exact M2| |apply respects_ret]; auto).
    eapply (respects_bind _ b3); [exact M3|apply respects_write_or; [exact HB|apply chain_payload]|intros _].
    eapply respects_mono; [exact M3| |apply respects_ret]; auto.
  Qed.

  Lemma respects_requested b p buf : respects b b p p (requested_key O buf).
  Proof. unfold requested_key, the_curve, the_payload, pubkey. rs. Qed.

  Lemma respects_dispatch B buf : apdu_ok buf -> B + 1 < 2 ^ 64 ->
    respects (fun _ => B) (fun _ => B + 1) false false (dispatch C O buf).
  Proof.
    intros Hb HB. assert (M0 : forall s : slot, B <= B + 1) by (intros; lia).
    assert (W : forall m : M reply, respects (fun _ => B) (fun _ => B) false false m ->
      respects (fun _ => B) (fun _ => B + 1) false false m).
    { intros m R. eapply respects_mono; [| |exact R]; auto. }
    assert (Ks : forall sh, respects (fun _ => B) (fun _ => B + 1) false false (h_sign C O sh buf)).
    { intros sh. apply respects_with_upload; auto. intros up. apply W, respects_start. }
    assert (Kb : forall sh, respects (fun _ => B) (fun _ => B + 1) false false (h_baker_sign C O sh buf)).
    { intros sh. apply respects_with_upload; auto. intros up.
      eapply respects_mono; [| |apply respects_baker; exact HB]; auto. intros []; unfold bump; cbn; lia. }
    assert (Kr := respects_reset B buf HB).
    assert (Km : respects (fun _ => B) (fun _ => B + 1) false false h_main_hwm).
    { apply W. unfold h_main_hwm. apply respects_seq; [rs|]. intros []; rs. }
    assert (Kal : respects (fun _ => B) (fun _ => B + 1) false false h_all_hwm).
    { apply W. unfold h_all_hwm. apply respects_seq; [rs|]. intros []; rs.
      destruct a; rs. destruct a; rs. }
    assert (Kau : respects (fun _ => B) (fun _ => B + 1) false false (h_authorize C O buf)).
    { apply W. unfold h_authorize, the_curve, the_payload. rs. }
    assert (Kde : respects (fun _ => B) (fun _ => B + 1) false false (h_deauthorize C O buf)).
    { apply W. unfold h_deauthorize. rs. }
    assert (Kq : forall wc, respects (fun _ => B) (fun _ => B + 1) false false (h_query C O wc buf)).
    { intros wc. apply W. unfold h_query. apply respects_seq; [apply respects_key|intros o]. apply respects_seq; [rs|intros k].
      apply respects_seq; [apply respects_address|intros a]. destruct (needs_review buf); rs.
      destruct (query_answer wc k (len buf)); rs. }
    assert (Kse : respects (fun _ => B) (fun _ => B + 1) false false (h_setup C O buf)).
    { apply W. unfold h_setup, the_curve, the_payload. rs. }
    assert (Kh : respects (fun _ => B) (fun _ => B + 1) false false (h_hmac O buf)).
    { apply W. unfold h_hmac, the_curve, the_payload. apply respects_seq; [rs|intros c]. apply respects_seq; [rs|intros pl].
      destruct pl; rs. }
    assert (Kc : respects (fun _ => B) (fun _ => B + 1) false false (dispatch_common C O (apdu_ins buf) buf)).
    { unfold dispatch_common.
      destruct (_ =? 0x00); [apply W; unfold h_legacy_version; rs|].
      destruct (_ =? 0x02). { apply W. unfold h_get_public. apply respects_seq; [apply respects_requested|intros [c pk]; rs]. }
      destruct (_ =? 0x03).
      { apply W. unfold h_prompt. apply respects_seq; [apply respects_requested|intros [c pk]; rs]. }
      destruct (_ =? 0x11).
      { apply W. unfold h_get_address. apply respects_seq; [apply respects_requested|intros [c pk]].
        apply respects_seq; [rs|intros a]. destruct (needs_review buf); rs. }
      destruct (_ =? 0x09). { apply W. unfold h_git. destruct (_ <? 8)%nat; rs. }
      destruct (_ =? 0x04). { destruct (cf_baking C); [apply Kb|apply Ks]. }
      destruct (_ =? 0x0F). { destruct (cf_baking C); [apply Kb|apply Ks]. }
      destruct (_ =? 0x12); [apply Ks|].
      destruct (_ =? 0x10); [apply W; unfold h_version; rs|]. apply W; rs. }
    unfold dispatch. destruct (negb _); [apply W; rs|].
    destruct (cf_baking C).
    - repeat (match goal with |- respects _ _ _ _ (if ?c then _ else _) => destruct c end; [solve [auto]|]). exact Kc.
    - destruct (_ =? 0x05); auto.
  Qed.

  Lemma respects_accept B v room : B + 1 < 2 ^ 64 ->
    respects (fun _ => B) (fun _ => B + 1) (sign_review (Some v)) false (accept O v room).
  Proof.
    intros HB. assert (M0 : forall s : slot, B <= B + 1) by (intros; lia).
    assert (W : forall (m : M bytes) q, respects (fun _ => B) (fun _ => B) q q m ->
      respects (fun _ => B) (fun _ => B + 1) q false m).
    { intros m q R. eapply respects_mono; [| |exact R]; auto. discriminate. }
    destruct v as [sh dg ps data|sh dg br o data|k a|a|wc k a|wa pk a|k m t c a]; cbn [sign_review accept].
    - apply W. apply respects_seq.
      + intros d d' X. pose proof (al_path _ _ _ _ X eq_refl) as E. rewrite E.
        destruct (d_path d'); (split; [reflexivity|]); cbn [fst snd]; [exact X|].
        eapply alike_mono; [| |exact X]; [intros; lia|discriminate].
      + intros k. apply respects_seq; [apply respects_sign_with|intros sg].
        apply respects_seq; [apply respects_set_path|intros _; apply respects_ret].
    - apply W. apply respects_seq; [apply respects_baking_sign|intros; apply respects_ret].
    - unfold pubkey, store_baking_key.
      eapply (respects_bind _ (fun _ => B)); [exact M0|apply respects_option|intros pk].
      assert (M1 : forall s, bump SKey (fun _ => B) s <= B + 1) by (intros []; unfold bump; cbn; lia).
      eapply (respects_bind _ (bump SKey (fun _ => B))); [exact M1|apply respects_write_or; [exact HB|apply key_payload]|intros _].
      eapply respects_mono; [exact M1| |apply respects_ret]; auto.
    - unfold remove_baking_key.
      assert (M1 : forall s, bump SKey (fun _ => B) s <= B + 1) by (intros []; unfold bump; cbn; lia).
      eapply (respects_bind _ (bump SKey (fun _ => B))); [exact M1|apply respects_write_or; [exact HB|apply key_empty_payload]|intros _].
      eapply respects_mono; [exact M1| |apply respects_ret]; auto.
    - apply W. destruct (query_answer wc k room); rs.
    - apply W. rs.
    - unfold pubkey, store_baking_key.
      set (b1 := bump SKey (fun _ : slot => B)). set (b2 := bump SMain b1). set (b3 := bump STest b2). set (b4 := bump SChain b3).
      eapply (respects_bind _ (fun _ => B)); [exact M0|apply respects_option|intros pk].
      eapply (respects_bind _ b1); [|apply respects_write_or; [exact HB|apply key_payload]|intros _].
      { intros []; unfold b1, bump; cbn; lia. }
      eapply (respects_bind _ b2); [|apply respects_write_or; [exact HB|apply wm_payload]|intros _].
      { intros []; unfold b2, b1, bump; cbn; lia. }
      eapply (respects_bind _ b3); [|apply respects_write_or; [exact HB|apply wm_payload]|intros _].
      { intros []; unfold b3, b2, b1, bump; cbn; lia. }
      assert (M4 : forall s, b4 s <= B + 1) by (intros []; unfold b4, b3, b2, b1, bump; cbn; lia).
      eapply (respects_bind _ b4); [exact M4|apply respects_write_or; [exact HB|apply (chain_payload c)]|intros _].
      eapply respects_mono; [exact M4| |apply respects_ret]; auto.
  Qed.

  (** ** Events *)

  Lemma finish_alike b p room x x' : post b p x x' ->
    fst (finish room x) = fst (finish room x') /\ alike b false (snd (finish room x)) (snd (finish room x')).
  Proof.
    intros [E X]. destruct x as [r d], x' as [r' d']. cbn [fst snd] in *. subst r'.
    assert (W : alike b p d d' -> alike b false d d')
      by (intros Y; eapply alike_mono; [| |exact Y]; [intros; lia|discriminate]).
    destruct r as [[data|]|e| |]; cbn [finish].
    - destruct (room <? len data + 2); cbn [fst snd]; (split; [reflexivity|]); [now apply alike_restart in X|auto].
    - cbn [fst snd]. auto.
    - destruct (room <? len [] + 2); cbn [fst snd]; (split; [reflexivity|]); [now apply alike_restart in X|auto].
    - cbn [fst snd]. split; [reflexivity|]. now apply alike_restart in X.
    - cbn [fst snd]. auto.
  Qed.

  Lemma decide_alike B f d d' : B + 1 < 2 ^ 64 ->
    (forall v room, respects (fun _ => B) (fun _ => B + 1) (sign_review (Some v)) false (f v room)) ->
    alike (fun _ => B) false d d' ->
    fst (decide C f d) = fst (decide C f d') /\ alike (fun _ => B + 1) false (snd (decide C f d)) (snd (decide C f d')).
  Proof.
    intros HB Hf X. unfold decide. rewrite <- (al_ui _ _ _ _ X). destruct (d_ui d) as [v|] eqn:Ev.
    2:{ cbn [fst snd]. split; [reflexivity|]. eapply alike_mono; [| |exact X]; [intros; lia|auto]. }
    set (room := match cf_room C v with Some r => r | None => 0 end).
    assert (Y : alike (fun _ => B) (sign_review (Some v)) (set_ui None d) (set_ui None d')).
    { pose proof X as [_ Af Au Av Ap Aup Al]. rewrite Ev in Ap.
      destruct (set_ui_rest None d) as (S1 & S2 & S3 & S4 & S5 & S6 & S7).
      destruct (set_ui_rest None d') as (S1' & S2' & S3' & S4' & S5' & S6' & S7').
      apply (alike_rest _ _ _ _ _ _ _ X); rewrite ?S4, ?S5, ?S5', ?S6, ?S6', ?S7, ?S7'; auto; try congruence.
      intros E. apply Ap. cbn [orb]. destruct (sign_review (Some v)); [reflexivity|discriminate]. }
    apply (finish_alike _ false). eapply (respects_bind _ (fun _ => B + 1)); [intros; lia|apply Hf| |exact Y].
    intros out. apply respects_ret.
  Qed.

  Lemma step_alike B d d' e : event_ok e -> B + 1 < 2 ^ 64 -> alike (fun _ => B) false d d' ->
    fst (step C O d e) = fst (step C O d' e) /\ alike (fun _ => B + 1) false (snd (step C O d e)) (snd (step C O d' e)).
  Proof.
    intros He HB X. assert (M0 : forall s : slot, B <= B + 1) by (intros; lia).
    assert (Hr : forall v, respects (fun _ => B) (fun _ => B + 1) (sign_review (Some v)) false (reject v)).
    { intros v. eapply respects_mono; [exact M0| |].
      { intros H. exact H. }
      destruct v; try apply respects_fail. cbn [reject sign_review].
      intros e1 e2 Y. pose proof (respects_set_path (fun _ => B) true None e1 e2 Y) as [_ Z]. cbn [fst snd] in Z.
      split; [reflexivity|]. cbn [fst snd]. eapply alike_mono; [| |exact Z]; [intros; lia|discriminate]. }
    destruct e as [buf rx| | | |]; cbn [step].
    - rewrite <- (al_ui _ _ _ _ X). destruct (d_ui d).
      { cbn [fst snd]. split; [reflexivity|]. eapply alike_mono; [| |exact X]; [exact M0|auto]. }
      apply (finish_alike _ false). destruct (apdu_read_ok buf rx).
      + now apply respects_dispatch.
      + split; [reflexivity|]. eapply alike_mono; [| |exact X]; [exact M0|auto].
    - apply decide_alike; auto. intros. now apply respects_accept.
    - apply decide_alike; auto.
    - apply decide_alike; auto. intros. eapply respects_mono; [exact M0| |apply respects_fail]. intros H; exact H.
    - cbn [fst snd]. split; [reflexivity|]. apply alike_restart in X. eapply alike_mono; [| |exact X]; [exact M0|auto].
  Qed.

  Lemma run_alike es : forall B d d', Forall event_ok es -> B + len es < 2 ^ 64 -> alike (fun _ => B) false d d' ->
    fst (run C O d es) = fst (run C O d' es) /\
    alike (fun _ => B + len es) false (snd (run C O d es)) (snd (run C O d' es)).
  Proof.
    induction es as [|e es IH]; intros B d d' He HB X; cbn [run].
    - split; [reflexivity|]. eapply alike_mono; [| |exact X]; [intros; lia|auto].
    - inversion He as [|? ? He1 He2]; subst.
      assert (len (e :: es) = 1 + len es) as E by (unfold len; cbn [length]; lia).
      destruct (step_alike B d d' e He1 ltac:(lia) X) as [E1 X1].
      destruct (step C O d e) as [a d1], (step C O d' e) as [a' d1']. cbn [fst snd] in *. subst a'.
      destruct (IH (B + 1) d1 d1' He2 ltac:(lia) X1) as [E2 X2].
      destruct (run C O d1 es) as [l d2], (run C O d1' es) as [l' d2']. cbn [fst snd] in *. subst l'.
      split; [reflexivity|]. eapply alike_mono; [| |exact X2]; [intros; cbv beta; lia|auto].
  Qed.

  (** ** What is remembered *)

  Lemma alike_same b d d' : alike b false d d' -> remembers_same d d'.
  Proof.
    intros [(a & A1 & A2) A3 A4 A5 A6 (_ & _ & A7) A8]. constructor; auto.
    intros s. destruct (abs_kept _ _ _ _ _ _ s A1 A2 eq_refl) as [K1 K2].
    destruct (abs_kept _ _ _ _ _ _ s A2 A1 eq_refl) as [K3 K4]. split; [intros o|]; split; auto.
  Qed.
  Lemma same_alike b b' a a' d d' : abs b a d -> abs b' a' d' -> sized (d_up d) -> sized (d_up d') ->
    (forall s, b s <= b' s) -> d_log d = L1 -> d_log d' = L2 -> remembers_same d d' -> alike b' false d d'.
  Proof.
    intros A A' S S' H El El' [R1 R2 R3 R4 R5 R6]. constructor; auto.
    - exists a'. split; [|exact A']. apply (abs_mono b b') in A; [|exact H]. destruct A as [A F]. constructor; [|exact F].
      intros s. specialize (A s). pose proof (ab_slot _ _ _ A' s) as B. destruct (R1 s) as [Q1 Q2].
      destruct (a s) as [o|], (a' s) as [o'|]; auto.
      + replace o' with o; [exact A|]. eapply holds_unique; [|apply (state_holds _ _ _ _ B)].
        apply Q1. exact (state_holds _ _ _ _ A).
      + exfalso. eapply holds_lost; [exact (state_holds _ _ _ _ A)|apply Q2; exact (state_lost _ _ _ B)].
      + exfalso. eapply holds_lost; [exact (state_holds _ _ _ _ B)|apply Q2; exact (state_lost _ _ _ A)].
    - split; [exact S|]. split; [exact S'|exact R4].
    - exists []. auto.
  Qed.
End Memory.

Section Main.
  Variable C : config.
  Variable O : oracles.

  (** C67. *)
  Lemma same_answers f u f' u' es1 es1' es : Forall power_fault f -> Forall up_fault_ok u ->
    Forall power_fault f' -> Forall up_fault_ok u' -> Forall event_ok (es1 ++ es1' ++ es) ->
    len es1 + len es < 2 ^ 64 -> len es1' + len es < 2 ^ 64 ->
    let d := snd (run C O (dev_fresh f u) es1) in
    let d' := snd (run C O (dev_fresh f' u') es1') in
    remembers_same d d' ->
    fst (run C O d es) = fst (run C O d' es) /\
    remembers_same (snd (run C O d es)) (snd (run C O d' es)) /\
    exists l, d_log (snd (run C O d es)) = l ++ d_log d /\ d_log (snd (run C O d' es)) = l ++ d_log d'.
  Proof.
    intros F U F' U' E L L' d d' R. apply Forall_app in E as [E1 E]. apply Forall_app in E as [E1' E].
    destruct (dok_abs _ _ (reach_alive C O f u es1 F U E1 ltac:(lia))) as [a A]. fold d in A.
    destruct (dok_abs _ _ (reach_alive C O f' u' es1' F' U' E1' ltac:(lia))) as [a' A']. fold d' in A'.
    set (B := N.max (len es1) (len es1')).
    assert (X : alike (d_log d) (d_log d') (fun _ => B) false d d').
    { apply (same_alike _ _ (fun _ => B) (fun _ => B) a a'); auto; try (apply reach_sized).
      - eapply abs_mono; [|exact A]. intros; unfold B; lia.
      - eapply abs_mono; [|exact A']. intros; unfold B; lia.
      - intros; lia. }
    destruct (run_alike C O _ _ es B d d' E ltac:(unfold B; lia) X) as [G1 G2].
    split; [exact G1|]. split; [eapply alike_same; exact G2|]. exact (al_log _ _ _ _ _ _ G2).
  Qed.

  Lemma restart_same f u es1 : Forall power_fault f -> Forall up_fault_ok u -> Forall event_ok es1 -> len es1 < 2 ^ 64 ->
    let d := snd (run C O (dev_fresh f u) es1) in
    d_ui d = None -> u_lock (d_up d) = None -> remembers_same d (restart d).
  Proof.
    intros F U E L d Ui Lk.
    destruct (dok_abs _ _ (reach_alive C O f u es1 F U E ltac:(lia))) as [a A]. fold d in A.
    pose proof (abs_restart _ _ _ A) as A'. constructor; auto.
    - intros s. destruct (abs_kept _ _ _ _ _ _ s A A' eq_refl) as [K1 K2].
      destruct (abs_kept _ _ _ _ _ _ s A' A eq_refl) as [K3 K4]. split; [intros o|]; split; auto.
    - rewrite Ui. discriminate.
    - split; [exact Lk|]. congruence.
  Qed.
End Main.
