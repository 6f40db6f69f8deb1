(** Facts about the wear-levelled flash slots. *)
From Coq Require Import List NArith ZArith Lia Bool Arith.
From Coq Require Import ZifyBool ZifyNat ZifyN.
From Verif Require Import Base BaseFacts Flash.
Import ListNotations.
Open Scope N_scope.

(** ** The checksum fits in 32 bits *)

Lemma lt_pow2_bits a n : a < 2 ^ n <-> forall i, n <= i -> N.testbit a i = false.
Proof.
  split.
  - intros H i Hi. destruct (N.eq_dec a 0) as [->|Hz]; [apply N.bits_0|].
    apply N.bits_above_log2. apply N.log2_lt_pow2 in H; lia.
  - intros H. destruct (N.eq_dec a 0) as [->|Hz].
    + apply N.neq_0_lt_0, N.pow_nonzero; lia.
    + apply N.log2_lt_pow2; [lia|].
      destruct (N.lt_ge_cases (N.log2 a) n) as [|Hc]; auto.
      pose proof (N.bit_log2 a Hz). rewrite (H _ Hc) in H0. discriminate.
Qed.

Lemma lxor_lt a b n : a < 2 ^ n -> b < 2 ^ n -> N.lxor a b < 2 ^ n.
Proof.
  rewrite !lt_pow2_bits. intros Ha Hb i Hi. now rewrite N.lxor_spec, Ha, Hb.
Qed.

Lemma crc_bit_lt c : c < 2 ^ 32 -> crc_bit c < 2 ^ 32.
Proof.
  intros H. unfold crc_bit. assert (N.div2 c < 2 ^ 32).
  { rewrite N.div2_div. lia. }
  destruct (N.odd c); auto. apply lxor_lt; auto. reflexivity.
Qed.

Lemma crc_byte_lt c b : c < 2 ^ 32 -> b < 256 -> crc_byte c b < 2 ^ 32.
Proof.
  intros. unfold crc_byte. do 8 apply crc_bit_lt. apply lxor_lt; auto.
  eapply N.lt_trans; eauto. reflexivity.
Qed.

Lemma crc32_lt l : bytes_ok l -> crc32_bytes l < 2 ^ 32.
Proof.
  intros H. unfold crc32_bytes. apply lxor_lt; [|reflexivity].
  assert (forall l c, bytes_ok l -> c < 2 ^ 32 -> fold_left crc_byte l c < 2 ^ 32) as G.
  { clear. induction l; cbn; intros; auto. inversion H; subst.
    apply IHl; auto. now apply crc_byte_lt. }
  apply G; auto. reflexivity.
Qed.

Lemma slot_crc_lt c p : bytes_ok p -> slot_crc c p < 2 ^ 32.
Proof. intros. apply crc32_lt, bytes_ok_app. split; auto using be_ok. Qed.

(** ** Storage round trip *)

Definition payload_ok (p : bytes) : Prop := length p = SLOT_SIZE /\ bytes_ok p.

Lemma from_storage_slot_page c p :
  c < 2 ^ 64 -> payload_ok p -> from_storage (slot_page c p) = Some (c, p).
Proof.
  intros Hc [Hl Hp]. unfold from_storage, slot_page, as_storage, slice.
  rewrite (firstn_app_exact (be 8 c)) by apply be_length.
  rewrite (skipn_app_exact (be 8 c) _ COUNTER_SIZE) by apply be_length.
  rewrite (firstn_app_exact p) by auto.
  rewrite unbe_be_small by exact Hc.
  rewrite app_assoc, skipn_app_exact by (rewrite app_length, be_length, Hl; reflexivity).
  rewrite unbe_be_small by (apply slot_crc_lt; auto).
  now rewrite N.eqb_refl.
Qed.

Lemma zeroed_storage_valid : from_storage ZEROED_STORAGE = Some (0, zeros SLOT_SIZE).
Proof. vm_compute. reflexivity. Qed.

Lemma zeroed_is_slot_page : ZEROED_STORAGE = slot_page 0 (zeros SLOT_SIZE).
Proof. vm_compute. reflexivity. Qed.

(** ** Well-formed areas *)

(** Fault kinds under which the stored value cannot silently go back: no write
    reports an error while leaving the old page, and every torn page is
    detected by the checksum. *)
Definition tear_detected (t : tear) : Prop :=
  match t with TTorn p => from_storage p = None | _ => True end.
Definition fault_safe (f : fault) : Prop :=
  match f with
  | WOk => True
  | WFail TOld => False
  | WFail t => tear_detected t
  | WCut t => tear_detected t
  end.

(** [B] bounds every counter. *)
Record wf_wear (B : N) (w : wear) : Prop := {
  wf_nonempty : (0 < length (w_pages w))%nat;
  wf_page : forall i p c pl, nth_error (w_pages w) i = Some p ->
      from_storage p = Some (c, pl) ->
      c <= B /\ (c = 0 \/ N.to_nat (c mod len (w_pages w)) = i);
  wf_idx : forall k, w_idx w = Some k -> k <= B /\
      (forall i p c pl, nth_error (w_pages w) i = Some p ->
          from_storage p = Some (c, pl) -> c <= k) /\
      (forall p c pl, nth_error (w_pages w) (page_no w k) = Some p ->
          from_storage p = Some (c, pl) -> c = k)
}.

Lemma page_no_lt w k : (0 < length (w_pages w))%nat -> (page_no w k < length (w_pages w))%nat.
Proof.
  intros. unfold page_no, len.
  pose proof (N.mod_lt k (N.of_nat (length (w_pages w)))). lia.
Qed.

Lemma align_from_spec ps : forall m k, align_from m ps = Some k ->
  m <= k /\
  (forall i p c pl, nth_error ps i = Some p -> from_storage p = Some (c, pl) -> c <= k) /\
  (k = m \/ exists i p pl, nth_error ps i = Some p /\ from_storage p = Some (k, pl)) /\
  (forall i p, nth_error ps i = Some p -> from_storage p <> None).
Proof.
  induction ps as [|p ps IH]; cbn; intros m k H.
  - inversion H; subst. repeat split; try lia; try (intros []; discriminate).
  - destruct (from_storage p) as [[c pl]|] eqn:E; [|discriminate].
    apply IH in H as (H1 & H2 & H3 & H4). repeat split.
    + destruct (N.ltb_spec m c); lia.
    + intros [|i] q c' pl' Hn Hq; cbn in Hn; [|eauto].
      inversion Hn; subst. rewrite E in Hq. inversion Hq; subst.
      destruct (N.ltb_spec m c'); lia.
    + destruct H3 as [->|(i & q & pl' & Hn & Hq)].
      * destruct (N.ltb_spec m c); auto. right. exists O, p, pl. auto.
      * right. exists (S i), q, pl'. auto.
    + intros [|i] q Hn; cbn in Hn; [|eauto]. inversion Hn; subst. congruence.
Qed.

Lemma align_some ps : forall m,
  (forall i p, nth_error ps i = Some p -> from_storage p <> None) ->
  exists k, align_from m ps = Some k.
Proof.
  induction ps as [|p ps IH]; cbn; intros m H; [eauto|].
  destruct (from_storage p) as [[c pl]|] eqn:E.
  - apply IH. intros i q Hq. apply (H (S i) q Hq).
  - exfalso. now apply (H O p).
Qed.

Lemma align_none ps i p m :
  nth_error ps i = Some p -> from_storage p = None -> align_from m ps = None.
Proof.
  revert i m. induction ps as [|q ps IH]; destruct i; cbn; intros m H E; try discriminate.
  - inversion H; subst. now rewrite E.
  - destruct (from_storage q) as [[c pl]|]; auto. now apply (IH i).
Qed.

(** Alignment finds a position satisfying the position part of [wf_wear]. *)
Lemma wf_align B w k : wf_wear B w -> align (w_pages w) = Some k ->
  wf_wear B (mkWear (w_pages w) (Some k)).
Proof.
  intros W H. destruct W as [W1 W2 W3]. apply align_from_spec in H as (_ & H2 & H3 & H4).
  constructor; cbn; auto. intros k' Hk; inversion Hk; subst k'.
  destruct H3 as [->|(i & p & pl & Hn & Hp)].
  - repeat split; try lia; auto. intros p c pl Hn Hp. specialize (H2 _ _ _ _ Hn Hp). lia.
  - destruct (W2 _ _ _ _ Hn Hp) as [Hb Hi]. repeat split; auto.
    intros q c pl' Hn' Hq. assert (Hc : c <= k) by eauto.
    destruct Hi as [->|Hi]; [lia|].
    unfold page_no in Hn'. cbn in Hn'. rewrite Hi in Hn'.
    assert (p = q) by congruence. subst q. congruence.
Qed.

Lemma wf_init B w k : wf_wear B w -> wear_init w = Some k ->
  wf_wear B (mkWear (w_pages w) (Some k)).
Proof.
  intros W. unfold wear_init. destruct (w_idx w) eqn:E.
  - intros X; inversion X; subst. destruct w; cbn in *; subst. auto.
  - apply wf_align; auto.
Qed.

Lemma wf_restart B w : wf_wear B w -> wf_wear B (wear_restart w).
Proof. intros [W1 W2 W3]. constructor; cbn; auto. discriminate. Qed.

Lemma wf_mono B B' w : B <= B' -> wf_wear B w -> wf_wear B' w.
Proof.
  intros HB [W1 W2 W3]. constructor; auto.
  - intros. edestruct W2; eauto. split; auto. lia.
  - intros. edestruct W3 as (a & b & c); eauto. repeat split; auto. lia.
Qed.

(** What a read returns, as a relation. *)
Definition wear_reads (w : wear) (p : bytes) : Prop := wear_read w = Some (RData p).

(** Initialising does not change what is read. *)
Lemma reads_init w k : wear_init w = Some k ->
  wear_read (mkWear (w_pages w) (Some k)) = wear_read w.
Proof. intros H. unfold wear_read. rewrite H. reflexivity. Qed.

(** A restart reads the same value or fails. *)
Lemma reads_restart B w r : wf_wear B w -> wear_read (wear_restart w) = Some r ->
  wear_read w = Some r.
Proof.
  intros W. unfold wear_read.
  change (wear_init (wear_restart w)) with (align (w_pages w)).
  destruct (align (w_pages w)) as [k|] eqn:A; [|discriminate].
  intros H. unfold wear_init. destruct (w_idx w) as [k'|] eqn:E.
  - rewrite <- H. clear H. f_equal. replace k' with k; [reflexivity|].
    pose proof (wf_idx _ _ W _ E) as (Hb & Hle & Hp).
    pose proof (wf_nonempty _ _ W) as Hne.
    pose proof (wf_page _ _ W) as Hpg.
    apply align_from_spec in A as (_ & A2 & A3 & A4).
    pose proof (page_no_lt w k' Hne) as Hlt.
    destruct (nth_error (w_pages w) (page_no w k')) as [p|] eqn:En;
      [|apply nth_error_None in En; lia].
    destruct (from_storage p) as [[c pl]|] eqn:Ef; [|exfalso; eapply A4; eauto].
    assert (c = k') by eauto. subst c.
    assert (k' <= k) by eauto.
    destruct A3 as [->|(i & q & pl' & Hn & Hq)]; [lia|].
    assert (k <= k') by eauto. lia.
  - rewrite A. auto.
Qed.

(** ** Writing *)

Lemma wf_write_pages B w k pl newp :
  wf_wear B (mkWear (w_pages w) (Some k)) -> B + 1 < 2 ^ 64 -> payload_ok pl ->
  (newp = slot_page (k + 1) pl \/ from_storage newp = None) ->
  let w' := mkWear (upd (page_no w (k + 1)) newp (w_pages w)) (Some (k + 1)) in
  wf_wear (B + 1) w'.
Proof.
  intros W HB Hpl Hnew w'. pose proof W as [W1 W2 W3]. cbn in W1, W2, W3.
  destruct (W3 k eq_refl) as (Hk & Hle & Hcur).
  assert (Hlt : (page_no w (k + 1) < length (w_pages w))%nat) by (apply page_no_lt; auto).
  assert (Hpn : page_no w' (k + 1) = page_no w (k + 1)).
  { unfold page_no, w', len. cbn. now rewrite upd_length. }
  assert (Hvalid : forall c q, from_storage newp = Some (c, q) -> c = k + 1).
  { intros c q H. destruct Hnew as [->|N]; [|congruence].
    rewrite from_storage_slot_page in H by (auto; lia). congruence. }
  constructor; cbn.
  - now rewrite upd_length.
  - intros i p c q Hn Hf. destruct (Nat.eq_dec i (page_no w (k + 1))) as [->|Ne].
    + rewrite nth_error_upd_same in Hn by auto. inversion Hn; subst p.
      apply Hvalid in Hf. subst c. split; [lia|]. right.
      unfold len. rewrite upd_length. reflexivity.
    + rewrite nth_error_upd_other in Hn by auto. destruct (W2 _ _ _ _ Hn Hf).
      split; [lia|]. unfold len in *. rewrite upd_length. auto.
  - intros k' E; inversion E; subst k'. split; [lia|]. split.
    + intros i p c q Hn Hf. destruct (Nat.eq_dec i (page_no w (k + 1))) as [->|Ne].
      * rewrite nth_error_upd_same in Hn by auto. inversion Hn; subst p.
        apply Hvalid in Hf. lia.
      * rewrite nth_error_upd_other in Hn by auto. specialize (Hle _ _ _ _ Hn Hf). lia.
    + intros p c q Hn Hf. fold w' in Hn. rewrite Hpn in Hn.
      rewrite nth_error_upd_same in Hn by auto. inversion Hn; subst p.
      now apply Hvalid in Hf.
Qed.

Lemma read_after_write w k newp :
  (0 < length (w_pages w))%nat ->
  wear_read (mkWear (upd (page_no w k) newp (w_pages w)) (Some k)) =
  Some (match from_storage newp with
        | None => RCrc
        | Some (c, pl) => if c =? 0 then RUninit else RData pl
        end).
Proof.
  intros H. unfold wear_read, wear_read_at. cbn.
  assert (Hpn : page_no (mkWear (upd (page_no w k) newp (w_pages w)) (Some k)) k = page_no w k).
  { unfold page_no, len. cbn. now rewrite upd_length. }
  rewrite Hpn, nth_upd_same by (now apply page_no_lt). reflexivity.
Qed.

Lemma upd_same_nth {A} i (l : list A) d : upd i (nth i l d) l = l.
Proof. revert i; induction l; destruct i; cbn; auto. now rewrite IHl. Qed.

(** The effect of one write under any safe fault, where [w'] is the state the
    app continues with (after a power cut: the restarted one). *)
Lemma write_step B w k pl f :
  wf_wear B w -> B + 1 < 2 ^ 64 -> payload_ok pl -> fault_safe f ->
  wear_init w = Some k ->
  let (w1, r) := wear_write_at w k pl f in
  let w' := match r with WLost => wear_restart w1 | _ => w1 end in
  wf_wear (B + 1) w' /\
  (r = WDone -> wear_reads w' pl) /\
  (forall p, wear_reads w' p -> p = pl \/ (r = WLost /\ wear_reads (wear_restart w) p)).
Proof.
  intros W HB Hpl Hf Hi.
  pose proof (wf_init _ _ _ W Hi) as Wi.
  pose proof (wf_nonempty _ _ W) as Hne.
  pose proof (wf_idx _ _ Wi k eq_refl) as (Hk & _).
  unfold wear_write_at. rewrite (N.mod_small (k + 1)) by lia.
  set (old := nth (page_no w (k + 1)) (w_pages w) []).
  set (new := slot_page (k + 1) pl).
  assert (Hnew : from_storage new = Some (k + 1, pl)).
  { apply from_storage_slot_page; auto. lia. }
  assert (Rnew : wear_reads (mkWear (upd (page_no w (k + 1)) new (w_pages w)) (Some (k + 1))) pl).
  { unfold wear_reads. rewrite read_after_write by auto. rewrite Hnew.
    replace (k + 1 =? 0) with false by lia. reflexivity. }
  assert (Wnew : wf_wear (B + 1) (mkWear (upd (page_no w (k + 1)) new (w_pages w)) (Some (k + 1)))).
  { eapply wf_write_pages; eauto. }
  assert (Wtorn : forall p, from_storage p = None ->
    wf_wear (B + 1) (mkWear (upd (page_no w (k + 1)) p (w_pages w)) (Some (k + 1)))).
  { intros. eapply wf_write_pages; eauto. }
  assert (Rtorn : forall p, from_storage p = None ->
    wear_read (mkWear (upd (page_no w (k + 1)) p (w_pages w)) (Some (k + 1))) = Some RCrc).
  { intros p Hp. rewrite read_after_write by auto. now rewrite Hp. }
  destruct f as [|[| |p]|[| |p]]; cbn [fault_page fault_res tear_page fault_safe tear_detected] in *;
    try contradiction.
  - split; auto. split; auto. intros p Hp. left. unfold wear_reads in *. congruence.
  - split; auto. split; [discriminate|]. intros p Hp. left. unfold wear_reads in *. congruence.
  - split; auto. split; [discriminate|]. intros q Hq. unfold wear_reads in *.
    rewrite Rtorn in Hq by auto. discriminate.
  - unfold old. rewrite upd_same_nth. split.
    + eapply wf_mono; [|apply (wf_restart B w W)]. lia.
    + split; [discriminate|]. intros p Hp. right. split; auto.
  - split; [now apply wf_restart|]. split; [discriminate|]. intros p Hp. left.
    eapply reads_restart in Hp; eauto. unfold wear_reads in *. congruence.
  - split; [apply wf_restart; auto|]. split; [discriminate|]. intros q Hq.
    unfold wear_reads in Hq.
    eapply reads_restart in Hq; [|apply Wtorn; auto]. rewrite Rtorn in Hq by auto. discriminate.
Qed.

(** The same for everything but a checksum error. *)
Lemma write_step_any B w k pl f :
  wf_wear B w -> B + 1 < 2 ^ 64 -> payload_ok pl -> fault_safe f ->
  wear_init w = Some k ->
  let (w1, r) := wear_write_at w k pl f in
  let w' := match r with WLost => wear_restart w1 | _ => w1 end in
  wf_wear (B + 1) w' /\
  (r = WDone -> wear_reads w' pl) /\
  (forall v, v <> RCrc -> wear_read w' = Some v ->
     v = RData pl \/ (r = WLost /\ wear_read (wear_restart w) = Some v)).
Proof.
  intros W HB Hpl Hf Hi.
  pose proof (wf_init _ _ _ W Hi) as Wi.
  pose proof (wf_nonempty _ _ W) as Hne.
  pose proof (wf_idx _ _ Wi k eq_refl) as (Hk & _).
  unfold wear_write_at. rewrite (N.mod_small (k + 1)) by lia.
  set (old := nth (page_no w (k + 1)) (w_pages w) []).
  set (new := slot_page (k + 1) pl).
  assert (Hnew : from_storage new = Some (k + 1, pl)).
  { apply from_storage_slot_page; auto. lia. }
  assert (Rnew : wear_reads (mkWear (upd (page_no w (k + 1)) new (w_pages w)) (Some (k + 1))) pl).
  { unfold wear_reads. rewrite read_after_write by auto. rewrite Hnew.
    replace (k + 1 =? 0) with false by lia. reflexivity. }
  assert (Wnew : wf_wear (B + 1) (mkWear (upd (page_no w (k + 1)) new (w_pages w)) (Some (k + 1)))).
  { eapply wf_write_pages; eauto. }
  assert (Wtorn : forall p, from_storage p = None ->
    wf_wear (B + 1) (mkWear (upd (page_no w (k + 1)) p (w_pages w)) (Some (k + 1)))).
  { intros. eapply wf_write_pages; eauto. }
  assert (Rtorn : forall p, from_storage p = None ->
    wear_read (mkWear (upd (page_no w (k + 1)) p (w_pages w)) (Some (k + 1))) = Some RCrc).
  { intros p Hp. rewrite read_after_write by auto. now rewrite Hp. }
  destruct f as [|[| |p]|[| |p]]; cbn [fault_page fault_res tear_page fault_safe tear_detected] in *;
    try contradiction.
  - split; auto. split; auto. intros v Nv Hv. left. unfold wear_reads in *. congruence.
  - split; auto. split; [discriminate|]. intros v Nv Hv. left. unfold wear_reads in *. congruence.
  - split; auto. split; [discriminate|]. intros v Nv Hv.
    rewrite Rtorn in Hv by auto. congruence.
  - unfold old. rewrite upd_same_nth. split.
    + eapply wf_mono; [|apply (wf_restart B w W)]. lia.
    + split; [discriminate|]. intros v Nv Hv. right. split; auto.
  - split; [now apply wf_restart|]. split; [discriminate|]. intros v Nv Hv. left.
    eapply reads_restart in Hv; eauto. unfold wear_reads in *. congruence.
  - split; [apply wf_restart; auto|]. split; [discriminate|]. intros v Nv Hv.
    eapply reads_restart in Hv; [|apply Wtorn; auto]. rewrite Rtorn in Hv by auto. congruence.
Qed.

(** ** Fresh areas *)

Lemma nth_error_repeat_inv {A} (x y : A) n i : nth_error (repeat x n) i = Some y -> y = x.
Proof. intros H. apply nth_error_In in H. now apply repeat_spec in H. Qed.

Lemma wf_fresh n : (0 < n)%nat -> wf_wear 0 (wear_fresh n).
Proof.
  intros Hn. constructor; cbn [w_pages wear_fresh w_idx].
  - now rewrite repeat_length.
  - intros i p c pl H F. apply nth_error_repeat_inv in H as ->.
    rewrite zeroed_storage_valid in F. inversion F; subst. lia.
  - discriminate.
Qed.

Lemma read_fresh n : (0 < n)%nat -> wear_read (wear_fresh n) = Some RUninit.
Proof.
  intros Hn. unfold wear_read, wear_init. cbn [w_pages wear_fresh w_idx].
  assert (A : forall m, align_from 0 (repeat ZEROED_STORAGE m) = Some 0).
  { induction m; cbn [repeat align_from]; auto. }
  unfold align. rewrite A. f_equal. unfold wear_read_at.
  replace (nth (page_no (wear_fresh n) 0) (w_pages (wear_fresh n)) []) with ZEROED_STORAGE.
  - now rewrite zeroed_storage_valid.
  - cbn [w_pages wear_fresh]. symmetry. apply (repeat_spec n ZEROED_STORAGE). apply nth_In.
    apply (page_no_lt (wear_fresh n)). cbn. now rewrite repeat_length.
Qed.
