(** Proofs about histories of wear-levelled areas. *)
From Coq Require Import List NArith ZArith Lia Bool Arith.
From Coq Require Import ZifyBool ZifyNat ZifyN.
From Verif Require Import Base BaseFacts Flash FlashFacts FlashSpec.
Import ListNotations.
Open Scope N_scope.

(** Invariant of histories without torn pages; [last] is the last stored payload. *)
Record hist_inv (B : N) (last : option bytes) (w : wear) : Prop := {
  hi_nonempty : (0 < length (w_pages w))%nat;
  hi_valid : forall i p, nth_error (w_pages w) i = Some p -> from_storage p <> None;
  hi_page : forall i p c pl, nth_error (w_pages w) i = Some p ->
      from_storage p = Some (c, pl) ->
      c <= B /\ (c = 0 \/ N.to_nat (c mod len (w_pages w)) = i);
  hi_idx : forall k, w_idx w = Some k -> k <= B /\
      (forall i p c pl, nth_error (w_pages w) i = Some p ->
          from_storage p = Some (c, pl) -> c <= k);
  hi_read : wear_read (wear_restart w) = Some (expected_read last)
}.

Lemma hist_fresh n : (0 < n)%nat -> hist_inv 0 None (wear_fresh n).
Proof.
  intros Hn. pose proof (wf_fresh n Hn) as [W1 W2 W3]. constructor; auto.
  - intros i p H. cbn [w_pages wear_fresh] in H. apply nth_error_repeat_inv in H as ->.
    rewrite zeroed_storage_valid. discriminate.
  - discriminate.
  - apply (read_fresh n Hn).
Qed.

Lemma hist_mono B B' l w : B <= B' -> hist_inv B l w -> hist_inv B' l w.
Proof.
  intros HB [H1 H2 H3 H4 H5]. constructor; auto.
  - intros. edestruct H3; eauto. split; auto. lia.
  - intros. edestruct H4; eauto. split; auto. lia.
Qed.

Lemma hist_restart B l w : hist_inv B l w -> hist_inv B l (wear_restart w).
Proof. intros [H1 H2 H3 H4 H5]. constructor; auto. discriminate. Qed.

Lemma hist_init B l w : hist_inv B l w ->
  exists k, wear_init w = Some k /\ k <= B /\
    (forall i p c pl, nth_error (w_pages w) i = Some p ->
          from_storage p = Some (c, pl) -> c <= k).
Proof.
  intros [H1 H2 H3 H4 H5]. unfold wear_init. destruct (w_idx w) as [k|] eqn:E.
  - exists k. destruct (H4 k eq_refl). auto.
  - destruct (align_some (w_pages w) 0 H2) as [k Hk]. exists k. split; auto.
    apply align_from_spec in Hk as (_ & A2 & A3 & _). split; auto.
    destruct A3 as [->|(i & p & pl & Hn & Hp)]; [lia|].
    edestruct H3; eauto.
Qed.

Lemma hist_store B l w k pl (oi : option N) :
  hist_inv B l w -> wear_init w = Some k -> B + 1 < 2 ^ 64 -> payload_ok pl -> k <= B ->
  (forall i p c q, nth_error (w_pages w) i = Some p -> from_storage p = Some (c, q) -> c <= k) ->
  oi = None \/ oi = Some (k + 1) ->
  hist_inv (B + 1) (Some pl)
    (mkWear (upd (page_no w (k + 1)) (slot_page (k + 1) pl) (w_pages w)) oi).
Proof.
  intros [H1 H2 H3 H4 H5] Hi HB Hpl Hk Hle Hoi.
  assert (Hnew : from_storage (slot_page (k + 1) pl) = Some (k + 1, pl)).
  { apply from_storage_slot_page; auto. lia. }
  assert (Hlt : (page_no w (k + 1) < length (w_pages w))%nat) by (apply page_no_lt; auto).
  set (ps := upd (page_no w (k + 1)) (slot_page (k + 1) pl) (w_pages w)).
  assert (Hlen : length ps = length (w_pages w)) by apply upd_length.
  assert (Hcase : forall i p, nth_error ps i = Some p ->
     (i = page_no w (k + 1) /\ p = slot_page (k + 1) pl) \/
     (i <> page_no w (k + 1) /\ nth_error (w_pages w) i = Some p)).
  { intros i p H. unfold ps in H. destruct (Nat.eq_dec i (page_no w (k + 1))) as [->|Ne].
    - rewrite nth_error_upd_same in H by auto. inversion H. auto.
    - rewrite nth_error_upd_other in H by auto. auto. }
  assert (Hvalid : forall i p, nth_error ps i = Some p -> from_storage p <> None).
  { intros i p H. destruct (Hcase _ _ H) as [[-> ->]|[_ ?]]; eauto. congruence. }
  assert (Hle' : forall i p c q, nth_error ps i = Some p -> from_storage p = Some (c, q) -> c <= k + 1).
  { intros i p c q H F. destruct (Hcase _ _ H) as [[-> ->]|[_ H']].
    - rewrite Hnew in F. inversion F. lia.
    - specialize (Hle _ _ _ _ H' F). lia. }
  constructor; cbn [w_pages w_idx wear_restart]; auto.
  - rewrite Hlen. auto.
  - intros i p c q H F. destruct (Hcase _ _ H) as [[-> ->]|[_ H']].
    + rewrite Hnew in F. inversion F; subst c. split; [lia|]. right.
      unfold page_no, len. rewrite Hlen. reflexivity.
    + destruct (H3 _ _ _ _ H' F). split; [lia|]. unfold len. rewrite Hlen. auto.
  - intros k' E. destruct Hoi as [->| ->]; [discriminate|]. inversion E; subst k'.
    split; [lia|]. exact Hle'.
  - unfold wear_read, wear_init, wear_restart. cbn [w_pages w_idx].
    destruct (align_some ps 0 Hvalid) as [m Hm]. unfold align. rewrite Hm.
    assert (m = k + 1) as ->.
    { apply align_from_spec in Hm as (_ & A2 & A3 & _).
      assert (nth_error ps (page_no w (k + 1)) = Some (slot_page (k + 1) pl)) as Hn.
      { unfold ps. now apply nth_error_upd_same. }
      specialize (A2 _ _ _ _ Hn Hnew).
      destruct A3 as [->|(i & p & q & Hn' & Hq)]; [lia|].
      specialize (Hle' _ _ _ _ Hn' Hq). lia. }
    f_equal. unfold wear_read_at, expected_read.
    replace (page_no {| w_pages := ps; w_idx := None |} (k + 1)) with (page_no w (k + 1))
      by (unfold page_no, len; cbn [w_pages]; now rewrite Hlen).
    unfold ps at 1. cbn [w_pages]. unfold ps. rewrite nth_upd_same, Hnew by auto.
    now replace (k + 1 =? 0) with false by lia.
Qed.

Lemma hist_step B l w o :
  hist_inv B l w -> B + 1 < 2 ^ 64 -> op_payload_ok o -> op_not_torn o ->
  hist_inv (B + 1) (last_stored l [o]) (wop_step w o).
Proof.
  intros H HB Hp Ht. destruct o as [pl f|].
  2:{ cbn. apply hist_restart. eapply hist_mono; [|eauto]. lia. }
  destruct (hist_init _ _ _ H) as (k & Hi & Hk & Hle).
  unfold wop_step. rewrite Hi. unfold wear_write_at.
  rewrite (N.mod_small (k + 1)) by lia.
  assert (Hold : forall B' oi, B + 1 <= B' -> oi = None \/ oi = Some (k + 1) ->
     hist_inv B' l (mkWear (upd (page_no w (k + 1)) (nth (page_no w (k + 1)) (w_pages w) []) (w_pages w)) oi)).
  { intros B' oi HB' Hoi. rewrite upd_same_nth. destruct H as [H1 H2 H3 H4 H5].
    constructor; cbn [w_pages w_idx]; auto.
    - intros. edestruct H3; eauto. split; auto. lia.
    - intros k' E. destruct Hoi as [->| ->]; [discriminate|]. inversion E; subst k'.
      split; [lia|]. intros. specialize (Hle _ _ _ _ H H0). lia. }
  assert (Hnew : forall oi, oi = None \/ oi = Some (k + 1) ->
    hist_inv (B + 1) (Some pl)
    (mkWear (upd (page_no w (k + 1)) (slot_page (k + 1) pl) (w_pages w)) oi)).
  { intros. eapply hist_store; eauto. }
  destruct f as [|[| |p]|[| |p]]; cbn in Ht; try contradiction;
    cbn [fault_page fault_res tear_page last_stored stored]; unfold wear_restart;
    cbn [w_pages]; auto.
  - apply Hold; auto; lia.
  - apply Hold; auto; lia.
Qed.

Lemma last_stored_app l a b : last_stored l (a ++ b) = last_stored (last_stored l a) b.
Proof. revert l; induction a as [|[p f|] a IH]; cbn; auto. Qed.

Lemma hist_run ops : forall B l w,
  hist_inv B l w -> B + len ops < 2 ^ 64 ->
  Forall op_payload_ok ops -> Forall op_not_torn ops ->
  hist_inv (B + len ops) (last_stored l ops) (wop_run w ops).
Proof.
  induction ops as [|o ops IH]; intros B l w H HB Hp Ht.
  - cbn [wop_run fold_left last_stored]. eapply hist_mono; [|eauto]. lia.
  - inversion Hp; inversion Ht; subst.
    change (o :: ops) with ([o] ++ ops). rewrite last_stored_app.
    change (wop_run w ([o] ++ ops)) with (wop_run (wop_step w o) ops).
    unfold len in *. cbn [length app] in *.
    replace (B + N.of_nat (S (length ops))) with ((B + 1) + N.of_nat (length ops)) by lia.
    apply IH; auto; try lia. apply hist_step; auto. lia.
Qed.

(** Reading after a restart gives the last stored payload, even if other writes
    reported errors without reaching the page. *)
Lemma restart_reads_last_stored n ops :
  (0 < n)%nat -> len ops < 2 ^ 64 ->
  Forall op_payload_ok ops -> Forall op_not_torn ops ->
  wear_read (wear_restart (wop_run (wear_fresh n) ops)) = Some (expected_read (last_stored None ops)).
Proof.
  intros. eapply hi_read. eapply hist_run with (B := 0); eauto using hist_fresh.
Qed.

(** ** Histories of successful writes *)

Lemma succeeds_not_torn o : op_succeeds o -> op_not_torn o.
Proof. destruct o as [p [|[]|[]]|]; cbn; auto. Qed.

Lemma succeeds_run ops : forall B l w,
  wf_wear B w -> hist_inv B l w -> wear_read w = Some (expected_read l) ->
  B + len ops < 2 ^ 64 -> Forall op_payload_ok ops -> Forall op_succeeds ops ->
  wf_wear (B + len ops) (wop_run w ops) /\
  wear_read (wop_run w ops) = Some (expected_read (last_stored l ops)).
Proof.
  induction ops as [|o ops IH]; intros B l w W H R HB Hp Hs.
  - cbn. rewrite N.add_0_r. auto.
  - inversion Hp; inversion Hs; subst.
    change (o :: ops) with ([o] ++ ops). rewrite last_stored_app.
    change (wop_run w ([o] ++ ops)) with (wop_run (wop_step w o) ops).
    unfold len in *. cbn [length app] in *.
    replace (B + N.of_nat (S (length ops))) with ((B + 1) + N.of_nat (length ops)) by lia.
    assert (HI : hist_inv (B + 1) (last_stored l [o]) (wop_step w o)).
    { apply hist_step; auto. lia. apply succeeds_not_torn; auto. }
    apply IH; auto; try lia.
    + destruct o as [pl f|]; [|cbn; eapply wf_mono; [|apply wf_restart; eauto]; lia].
      destruct (hist_init _ _ _ H) as (k & Hi & _). unfold wop_step. rewrite Hi.
      pose proof (write_step B w k pl f W) as X. destruct f; cbn in H6; try contradiction.
      destruct (wear_write_at w k pl WOk) as [w1 r]. apply X; auto. lia.
    + destruct o as [pl f|]; [|apply (hi_read _ _ _ H)].
      destruct (hist_init _ _ _ H) as (k & Hi & _). unfold wop_step. rewrite Hi.
      pose proof (write_step B w k pl f W) as X. destruct f; cbn in H6; try contradiction.
      destruct (wear_write_at w k pl WOk) as [w1 r] eqn:E. cbn [last_stored stored expected_read].
      assert (r = WDone) as -> by (unfold wear_write_at in E; inversion E; reflexivity).
      apply X; auto. lia.
Qed.

Lemma read_is_last_written n ops :
  (0 < n)%nat -> len ops < 2 ^ 64 ->
  Forall op_payload_ok ops -> Forall op_succeeds ops ->
  wear_read (wop_run (wear_fresh n) ops) = Some (expected_read (last_stored None ops)).
Proof.
  intros. apply (succeeds_run ops 0 None); auto using wf_fresh, hist_fresh, read_fresh.
Qed.

(** ** Torn pages *)

Lemma torn_read n ops pl t :
  (0 < n)%nat -> len ops + 1 < 2 ^ 64 ->
  Forall op_payload_ok ops -> Forall op_succeeds ops -> payload_ok pl -> tear_detected t ->
  let w := wop_run (wear_fresh n) ops in
  wear_read (wop_step w (OWrite pl (WCut t))) =
  match t with TOld => wear_read w | TNew => Some (RData pl) | TTorn _ => None end.
Proof.
  intros Hn HB Hp Hs Hpl Ht w.
  assert (Hnt : Forall op_not_torn ops).
  { eapply Forall_impl; [|apply Hs]. apply succeeds_not_torn. }
  assert (HI : hist_inv (len ops) (last_stored None ops) w).
  { apply (hist_run ops 0); auto using hist_fresh. lia. }
  assert (HR : wear_read w = Some (expected_read (last_stored None ops))).
  { apply read_is_last_written; auto. lia. }
  destruct t as [| |p].
  - assert (X : hist_inv (len ops + 1) (last_stored (last_stored None ops) [OWrite pl (WCut TOld)])
              (wop_step w (OWrite pl (WCut TOld)))) by (apply hist_step; cbn; auto).
    pose proof (hi_read _ _ _ X) as R. cbn [last_stored stored] in R. rewrite HR, <- R.
    unfold wop_step. destruct (hist_init _ _ _ HI) as (k & Hi & _). rewrite Hi. reflexivity.
  - assert (X : hist_inv (len ops + 1) (last_stored (last_stored None ops) [OWrite pl (WCut TNew)])
              (wop_step w (OWrite pl (WCut TNew)))) by (apply hist_step; cbn; auto).
    pose proof (hi_read _ _ _ X) as R. cbn [last_stored stored expected_read] in R. rewrite <- R.
    unfold wop_step. destruct (hist_init _ _ _ HI) as (k & Hi & _). rewrite Hi. reflexivity.
  - destruct (hist_init _ _ _ HI) as (k & Hi & _). unfold wop_step. rewrite Hi.
    unfold wear_write_at. cbn [fault_page fault_res tear_page].
    unfold wear_read, wear_init, wear_restart, align. cbn [w_pages w_idx].
    rewrite (align_none _ (page_no w ((k + 1) mod 2 ^ 64)) p); auto.
    apply nth_error_upd_same. apply page_no_lt, HI.
Qed.

(** Once a page is detectably torn, nothing the app does makes the area
    readable again. *)
Lemma torn_permanent w : wear_read (wear_restart w) = None ->
  forall ops, wear_read (wop_run (wear_restart w) ops) = None.
Proof.
  intros H ops.
  assert (A : align (w_pages w) = None).
  { unfold wear_read in H. change (wear_init (wear_restart w)) with (align (w_pages w)) in H.
    destruct (align (w_pages w)); [discriminate|auto]. }
  replace (wop_run (wear_restart w) ops) with (wear_restart w); auto.
  induction ops as [|o ops IH]; auto.
  change (wear_restart w = wop_run (wop_step (wear_restart w) o) ops).
  replace (wop_step (wear_restart w) o) with (wear_restart w); auto.
  destruct o; auto. unfold wop_step.
  change (wear_init (wear_restart w)) with (align (w_pages w)). now rewrite A.
Qed.

Lemma torn_is_permanent n ops pl p ops' :
  (0 < n)%nat -> len ops + 1 < 2 ^ 64 ->
  Forall op_payload_ok ops -> Forall op_succeeds ops -> payload_ok pl -> from_storage p = None ->
  wear_read (wop_run (wear_fresh n) (ops ++ [OWrite pl (WCut (TTorn p))] ++ ops')) = None.
Proof.
  intros Hn HB Hp Hs Hpl Ht. unfold wop_run. rewrite !fold_left_app.
  cbn [fold_left]. fold (wop_run (wear_fresh n) ops).
  pose proof (torn_read n ops pl (TTorn p) Hn HB Hp Hs Hpl Ht) as R. cbn zeta in R.
  set (w := wop_step _ _) in *.
  assert (exists v, w = wear_restart v) as [v Hv].
  { unfold w, wop_step. destruct (wear_init _); [|eauto].
    unfold wear_write_at. cbn [fault_res]. eauto. }
  rewrite Hv in *. now apply torn_permanent.
Qed.

(** ** Wear distribution *)

(** Number of [c] with [B < c <= B + m] and [c mod s = i]. *)
Fixpoint hits (s i B : N) (m : nat) : N :=
  match m with
  | O => 0
  | S m' => (if (B + 1) mod s =? i then 1 else 0) + hits s i (B + 1) m'
  end.

Lemma hits_formula s i m : 0 < s -> i < s -> forall B,
  hits s i B m = (B + N.of_nat m + s - i) / s - (B + s - i) / s.
Proof.
  intros Hs Hi. induction m as [|m IH]; intros B.
  - cbn [hits]. rewrite N.add_0_r, N.sub_diag. reflexivity.
  - cbn [hits]. rewrite IH.
    replace (B + 1 + N.of_nat m + s - i) with (B + N.of_nat (S m) + s - i) by lia.
    assert (X : (B + 1 + s - i) / s = (B + s - i) / s + (if (B + 1) mod s =? i then 1 else 0)).
    { destruct (N.eqb_spec ((B + 1) mod s) i) as [E|E].
      - assert (B + 1 = s * ((B + 1) / s) + i) by (pose proof (N.div_mod (B + 1) s); lia).
        set (q := (B + 1) / s) in *.
        replace (B + 1 + s - i) with ((q + 1) * s) by lia. rewrite N.div_mul by lia.
        replace (B + s - i) with (s - 1 + q * s) by lia.
        rewrite N.div_add by lia. rewrite (N.div_small (s - 1)) by lia. lia.
      - assert (D : B + 1 = s * ((B + 1) / s) + (B + 1) mod s) by (apply N.div_mod; lia).
        assert (L : (B + 1) mod s < s) by (apply N.mod_lt; lia).
        set (q := (B + 1) / s) in *. set (r := (B + 1) mod s) in *.
        destruct (N.lt_ge_cases r i).
        + replace (B + 1 + s - i) with ((s + r - i) + q * s) by lia.
          replace (B + s - i) with ((s + r - 1 - i) + q * s) by lia.
          rewrite !N.div_add by lia. rewrite !N.div_small by lia. lia.
        + replace (B + 1 + s - i) with ((r - i) + (q + 1) * s) by lia.
          replace (B + s - i) with ((r - 1 - i) + (q + 1) * s) by lia.
          rewrite !N.div_add by lia. rewrite !N.div_small by lia. lia. }
    rewrite X. 
    assert ((B + s - i) / s + (if (B + 1) mod s =? i then 1 else 0) <= (B + N.of_nat (S m) + s - i) / s).
    { rewrite <- X. apply N.div_le_mono; lia. }
    lia.
Qed.

Lemma hits_balanced s i m : 0 < s -> i < s ->
  N.of_nat m / s <= hits s i 0 m <= (N.of_nat m + s - 1) / s.
Proof.
  intros Hs Hi. rewrite hits_formula by auto. rewrite !N.add_0_l.
  destruct (N.eq_dec i 0) as [->|Ni].
  - rewrite !N.sub_0_r. replace (s / s) with 1 by (rewrite N.div_same; lia).
    replace (N.of_nat m + s) with (N.of_nat m + 1 * s) by lia.
    rewrite N.div_add by lia.
    rewrite N.add_sub. split; [apply N.le_refl|]. apply N.div_le_mono; lia.
  - rewrite (N.div_small (s - i)) by lia.
    rewrite N.sub_0_r. split; apply N.div_le_mono; lia.
Qed.

Lemma bytes_eqb_refl l : bytes_eqb l l = true.
Proof. now apply bytes_eqb_eq. Qed.

Lemma changes_step B l w pl k i :
  hist_inv B l w -> wear_init w = Some k -> k <= B -> B + 1 < 2 ^ 64 -> payload_ok pl ->
  (i < length (w_pages w))%nat ->
  (forall j p c q, nth_error (w_pages w) j = Some p -> from_storage p = Some (c, q) -> c <= k) ->
  (if bytes_eqb (nth i (w_pages w) []) (nth i (w_pages (wop_step w (OWrite pl WOk))) []) then 0 else 1)
  = (if (k + 1) mod len (w_pages w) =? N.of_nat i then 1 else 0).
Proof.
  intros H Hi Hk HB Hpl Hl Hle. unfold wop_step. rewrite Hi. unfold wear_write_at.
  cbn [fault_page fault_res w_pages]. rewrite (N.mod_small (k + 1)) by lia.
  destruct (N.eqb_spec ((k + 1) mod len (w_pages w)) (N.of_nat i)) as [E|E].
  - assert (P : page_no w (k + 1) = i) by (unfold page_no; lia).
    rewrite P, nth_upd_same by auto.
    destruct (bytes_eqb _ _) eqn:X; auto. exfalso. apply bytes_eqb_eq in X.
    destruct (nth_error (w_pages w) i) as [p|] eqn:Ei; [|apply nth_error_None in Ei; lia].
    rewrite (nth_error_nth _ _ _ Ei) in X. subst p.
    assert (F : from_storage (slot_page (k + 1) pl) = Some (k + 1, pl))
      by (apply from_storage_slot_page; auto; lia).
    specialize (Hle _ _ _ _ Ei F). lia.
  - assert (P : page_no w (k + 1) <> i) by (unfold page_no; lia).
    rewrite nth_upd_other by auto. now rewrite bytes_eqb_refl.
Qed.

(** The position equals the number of writes so far. *)
Lemma changes_run ops : forall B l w i,
  hist_inv B l w -> wear_init w = Some B -> B + len ops < 2 ^ 64 ->
  (forall j p c q, nth_error (w_pages w) j = Some p -> from_storage p = Some (c, q) -> c <= B) ->
  wear_init (wear_restart w) = Some B ->
  Forall op_payload_ok ops -> Forall op_succeeds ops -> (i < length (w_pages w))%nat ->
  page_changes w ops i = hits (len (w_pages w)) (N.of_nat i) B (N.to_nat (count_writes ops)).
Proof.
  induction ops as [|o ops IH]; intros B l w i H Hi HB Hle Hir Hp Hs Hl; [reflexivity|].
  inversion Hp; inversion Hs; subst. cbn [page_changes count_writes].
  unfold len in HB. cbn [length] in HB.
  destruct o as [pl f|].
  - destruct f; cbn in H6; try contradiction.
    rewrite (changes_step B l w pl B i) by (auto; lia).
    replace (N.to_nat (1 + count_writes ops)) with (S (N.to_nat (count_writes ops))) by lia.
    cbn [hits]. f_equal.
    assert (HI : hist_inv (B + 1) (last_stored l [OWrite pl WOk]) (wop_step w (OWrite pl WOk))).
    { apply hist_step; auto; lia. }
    assert (HL : length (w_pages (wop_step w (OWrite pl WOk))) = length (w_pages w)).
    { unfold wop_step. rewrite Hi. cbn. now rewrite upd_length. }
    assert (HII : wear_init (wop_step w (OWrite pl WOk)) = Some (B + 1)).
    { unfold wop_step. rewrite Hi. cbn. rewrite N.mod_small by lia. reflexivity. }
    assert (HLE : forall j p c q, nth_error (w_pages (wop_step w (OWrite pl WOk))) j = Some p ->
          from_storage p = Some (c, q) -> c <= B + 1).
    { intros j p c q Hn Hf. edestruct (hi_page _ _ _ HI); eauto. }
    replace (len (w_pages w)) with (len (w_pages (wop_step w (OWrite pl WOk))))
      by (unfold len; now rewrite HL).
    apply IH with (l := last_stored l [OWrite pl WOk]); auto; try lia.
    + unfold len. lia.
    + (* after a restart the position is the same *)
      change (wear_init (wear_restart (wop_step w (OWrite pl WOk))))
        with (align (w_pages (wop_step w (OWrite pl WOk)))).
      destruct (align_some _ 0 (hi_valid _ _ _ HI)) as [m Hm]. unfold align. rewrite Hm. f_equal.
      apply align_from_spec in Hm as (_ & A2 & A3 & _).
      assert (Hn : nth_error (w_pages (wop_step w (OWrite pl WOk))) (page_no w (B + 1))
                   = Some (slot_page (B + 1) pl)).
      { unfold wop_step. rewrite Hi. unfold wear_write_at. cbn [w_pages fault_page fault_res].
        rewrite N.mod_small by lia. apply nth_error_upd_same, page_no_lt, H. }
      assert (F : from_storage (slot_page (B + 1) pl) = Some (B + 1, pl))
        by (apply from_storage_slot_page; auto; lia).
      specialize (A2 _ _ _ _ Hn F).
      destruct A3 as [->|(j & p & q & Hn' & Hq)]; [lia|].
      specialize (HLE _ _ _ _ Hn' Hq). lia.
  - cbn [wop_step]. unfold wear_restart at 1. cbn [w_pages]. rewrite bytes_eqb_refl.
    replace (len (w_pages w)) with (len (w_pages (wear_restart w))) by reflexivity.
    rewrite N.add_0_l. apply IH with (l := l); auto.
    + now apply hist_restart.
    + unfold len. lia.
Qed.

Lemma wear_is_spread n ops i :
  (0 < n)%nat -> len ops < 2 ^ 64 -> Forall op_payload_ok ops -> Forall op_succeeds ops ->
  (i < n)%nat ->
  count_writes ops / N.of_nat n <= page_changes (wear_fresh n) ops i
    <= (count_writes ops + N.of_nat n - 1) / N.of_nat n.
Proof.
  intros Hn HB Hp Hs Hi.
  assert (HL : length (w_pages (wear_fresh n)) = n) by apply repeat_length.
  assert (HA : align (repeat ZEROED_STORAGE n) = Some 0).
  { unfold align. clear. induction n; auto. }
  rewrite (changes_run ops 0 None (wear_fresh n) i); auto using hist_fresh.
  - unfold len. rewrite HL.
    pose proof (hits_balanced (N.of_nat n) (N.of_nat i) (N.to_nat (count_writes ops))).
    rewrite N2Nat.id in H. apply H; lia.
  - intros j p c q Hnj Hq. edestruct (hi_page 0 None _ (hist_fresh n Hn)); eauto.
  - now rewrite HL.
Qed.
