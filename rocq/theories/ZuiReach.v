(** Navigation: every page and the decision can be reached with the right button. *)
From Coq Require Import NArith Bool Arith String List Lia.
From Coq Require Import ZifyBool ZifyNat ZifyN.
From Verif Require Import Base BaseFacts Text TextSpec TextFacts TextExamples Device Screens Zui UiSpec ZuiFacts ZuiNav.
Import ListNotations.
Open Scope N_scope.

(** Pressing the right button [m] times. *)
Fixpoint rights (hw : hardware) (r : review) (m : nat) (z : zui) : zui :=
  match m with
  | 0%nat => z
  | S m' => fst (press hw (Some r) (rights hw r m' z) Right)
  end.

Section Reach.
  Variable hw : hardware.
  Variable r : review.
  Variable L : N.
  Notation n := (L mod 256).
  Hypothesis R : rows_of hw r L.
  Hypothesis All : forall k, k < n -> exists h ss, offers hw r k h ss.

  Definition info_face : face := match hw with NanoS => Review | NanoX => Page end.
  Definition at_page (z : zui) (k p : N) : Prop :=
    nav hw r L z /\ z_face z = info_face /\ z_item z = k /\ z_page z = p.
  (** The screen offers to approve. *)
  Definition at_approval (z : zui) : Prop :=
    nav hw r L z /\
    match hw with NanoS => z_face z = Review /\ z_item z = n | NanoX => z_face z = Approval end.

  (** Going on to a page that can be shown. *)
  Lemma right_to z z1 k h ss : at_page z (z_item z) (z_page z) -> paging_increase hw z = z1 -> z_item z1 = k -> k < n ->
    z_face z1 = info_face -> offers hw r k h ss -> z_page z1 < len ss ->
    at_page (rights hw r 1 z) k (z_page z1).
  Proof.
    intros (Nv & Fz & _) Ez Ek Hk Fz1 Of Hp. pose proof (n_small L) as Sn. pose proof (n_le L) as Le.
    assert (B1 : bufs_ok hw z1).
    { rewrite <- Ez. unfold paging_increase. destruct (z_page z + 1 <? z_pages z); [exact (proj1 Nv)|].
      destruct (more_items hw z); exact (proj1 Nv). }
    destruct (update_offers hw r n (proj1 (proj2 R)) z1 k h ss B1 Ek ltac:(lia) Of (or_introl Hp) (fun _ => Hk))
      as (z' & s & U & S1 & B' & I1 & T1 & N1 & P1 & _).
    replace (z_page z1 <? len ss) with true in P1 by lia.
    unfold rights. unfold info_face in *.
    assert (F : z_face (fst (press hw (Some r) z Right)) = info_face /\ z_item (fst (press hw (Some r) z Right)) = k
              /\ z_page (fst (press hw (Some r) z Right)) = z_page z1).
    { unfold press, info_face. destruct hw eqn:Eh.
      - unfold press_s. rewrite Fz, Ez, U. cbn. auto.
      - unfold press_x. rewrite Fz, Ez, U. cbn. auto. }
    split; [|exact F]. destruct hw eqn:Eh.
    - exact (proj1 (press_s_nav NanoS r L R z Right eq_refl Nv)).
    - exact (proj1 (press_x_nav NanoX r L R z Right eq_refl Nv)).
  Qed.

  Lemma right_page z k p h ss : at_page z k p -> k < n -> offers hw r k h ss -> p + 1 < len ss ->
    at_page (rights hw r 1 z) k (p + 1).
  Proof.
    intros (Nv & Fz & Ek & Ep) Hk Of Hp.
    assert (Cu : current hw r z).
    { destruct Nv as [_ Nv]. rewrite Fz in Nv. unfold info_face in *. destruct hw; [apply Nv; lia|apply Nv]. }
    destruct Cu as (h' & ss' & _ & _ & _ & Of' & Pn & _). rewrite Ek in Of'.
    destruct (offers_det hw r _ _ _ _ _ Of Of') as [<- <-].
    assert (E : paging_increase hw z = set_pos (z_item z) (z_page z + 1) z).
    { unfold paging_increase. replace (z_page z + 1 <? z_pages z) with true by lia. reflexivity. }
    pose proof (right_to z _ k h ss (conj Nv (conj Fz (conj eq_refl eq_refl))) E Ek Hk Fz Of) as H.
    cbn [z_page set_pos] in H. rewrite Ep in H. auto.
  Qed.

  Lemma right_item z k p h ss : at_page z k p -> k < n -> offers hw r k h ss -> p + 1 = len ss -> k + 1 < n ->
    at_page (rights hw r 1 z) (k + 1) 0.
  Proof.
    intros (Nv & Fz & Ek & Ep) Hk Of Hp Hk1. destruct (All (k + 1) Hk1) as (h1 & ss1 & Of1).
    assert (Cu : current hw r z /\ z_items z = n + 1).
    { destruct Nv as [_ Nv]. rewrite Fz in Nv. unfold info_face in *. destruct hw; [split; apply Nv; lia|split; apply Nv]. }
    destruct Cu as ((h' & ss' & _ & _ & _ & Of' & Pn & _) & Ti). rewrite Ek in Of'.
    destruct (offers_det hw r _ _ _ _ _ Of Of') as [<- <-].
    assert (E : paging_increase hw z = set_pos (z_item z + 1) 0 z).
    { unfold paging_increase, more_items. replace (z_page z + 1 <? z_pages z) with false by lia.
      rewrite Ti. replace ((0 <? n + 1) && (z_item z <? n + 1 - 1 + actions hw)) with true by (destruct hw; cbn; lia). reflexivity. }
    assert (Hi : z_item (set_pos (z_item z + 1) 0 z) = k + 1) by (cbn; lia).
    apply (right_to z _ (k + 1) h1 ss1 (conj Nv (conj Fz (conj eq_refl eq_refl))) E Hi Hk1 Fz Of1).
    cbn. destruct Of1 as (Nn & _). destruct ss1; [easy|]. unfold len. cbn [List.length]. lia.
  Qed.

  Lemma rights_add a b z : rights hw r (a + b) z = rights hw r a (rights hw r b z).
  Proof. induction a as [|a IH]; [reflexivity|]. cbn [plus rights]. now rewrite IH. Qed.

  Lemma reach_page z k h ss : at_page z k 0 -> k < n -> offers hw r k h ss ->
    forall p, N.of_nat p < len ss -> at_page (rights hw r p z) k (N.of_nat p).
  Proof.
    intros A Hk Of. induction p as [|p IH]; intros Hp; [exact A|].
    change (S p) with (1 + p)%nat. rewrite rights_add. replace (N.of_nat (1 + p)) with (N.of_nat p + 1) by lia.
    apply (right_page _ _ _ h ss); auto; [apply IH|]; lia.
  Qed.

  Lemma reach_item z : at_page z 0 0 -> forall k, N.of_nat k < n -> exists m, at_page (rights hw r m z) (N.of_nat k) 0.
  Proof.
    intros A. induction k as [|k IH]; intros Hk; [exists 0%nat; exact A|].
    destruct (IH ltac:(lia)) as [m Am]. destruct (All (N.of_nat k) ltac:(lia)) as (h & ss & Of).
    assert (Nn : 0 < len ss) by (destruct Of as (Nn & _); destruct ss; [easy|]; unfold len; cbn [List.length]; lia).
    pose proof (reach_page _ _ h ss Am ltac:(lia) Of (N.to_nat (len ss - 1)) ltac:(lia)) as B.
    exists (1 + (N.to_nat (len ss - 1) + m))%nat. rewrite rights_add.
    replace (N.of_nat (S k)) with (N.of_nat k + 1) by lia.
    apply (right_item _ _ (N.of_nat (N.to_nat (len ss - 1))) h ss); [now rewrite rights_add|lia|exact Of|lia|lia].
  Qed.

  (** The start of a review. *)
  Lemma reach_start z : bufs_ok hw z -> 0 < n -> exists m, (m <= 1)%nat /\ at_page (rights hw r m (fst (zui_show hw r z))) 0 0.
  Proof.
    intros B Hn. destruct (show_nav hw r L R z B) as [Nv _]. destruct (All 0 Hn) as (h & ss & Of).
    assert (Nn : 0 < len ss) by (destruct Of as (Nn & _); destruct ss; [easy|]; unfold len; cbn [List.length]; lia).
    pose proof (n_small L) as Sn.
    assert (Bi : bufs_ok hw (paging_init (set_seen [] z))) by exact B.
    unfold at_page, info_face. destruct hw eqn:Eh.
    - exists 0%nat. split; [lia|]. cbn [rights]. split; [exact Nv|].
      destruct (update_offers NanoS r n (proj1 (proj2 R)) _ 0 h ss Bi eq_refl ltac:(lia) Of (or_introl Nn) (fun _ => Hn))
        as (z' & s & U & S1 & B' & I1 & T1 & N1 & P1 & _).
      unfold zui_show. change (set_seen [] (paging_init z)) with (paging_init (set_seen [] z)). rewrite U. cbn [put_review fst].
      cbn [snapshot set_seen set_face z_face z_item z_page]. rewrite P1. cbn [paging_init set_pages set_pos z_page].
      replace (0 <? len ss) with true by lia. auto.
    - exists 1%nat. split; [lia|].
      assert (Bd : bufs_ok NanoX (paging_init (fst (zui_show NanoX r z)))) by exact B.
      destruct (update_offers NanoX r n (proj1 (proj2 R)) _ 0 h ss Bd eq_refl ltac:(lia) Of (or_introl Nn) (fun _ => Hn))
        as (z' & s & U & S1 & B' & I1 & T1 & N1 & P1 & _).
      cbn [rights]. split; [exact (proj1 (press_x_nav NanoX r L R _ Right eq_refl Nv))|].
      unfold press, press_x. replace (z_face (fst (zui_show NanoX r z))) with Title by reflexivity.
      rewrite U. cbn [put_page fst snapshot set_seen set_inside set_face z_face z_item z_page]. rewrite P1.
      cbn [paging_init set_pages set_pos z_page]. replace (0 <? len ss) with true by lia. auto.
  Qed.

  Lemma every_page z k h ss p : bufs_ok hw z -> k < n -> offers hw r k h ss -> p < len ss ->
    exists m, at_page (rights hw r m (fst (zui_show hw r z))) k p.
  Proof.
    intros B Hk Of Hp. destruct (reach_start z B ltac:(lia)) as (m0 & _ & A0).
    destruct (reach_item _ A0 (N.to_nat k) ltac:(lia)) as (m1 & A1). rewrite N2Nat.id in A1.
    pose proof (reach_page _ k h ss A1 Hk Of (N.to_nat p) ltac:(lia)) as A2. rewrite N2Nat.id in A2.
    exists (N.to_nat p + (m1 + m0))%nat. now rewrite !rights_add.
  Qed.

  (** From the last page, the right button leads to the decision. *)
  Lemma right_approval z h ss : 0 < n -> at_page z (n - 1) (len ss - 1) -> offers hw r (n - 1) h ss ->
    (hw = NanoX -> L = n) -> at_approval (rights hw r 1 z).
  Proof.
    intros Hn0 (Nv & Fz & Ek & Ep) Of Hx. pose proof (n_small L) as Sn.
    assert (Nn : 0 < len ss) by (destruct Of as (Nn & _); destruct ss; [easy|]; unfold len; cbn [List.length]; lia).
    assert (Cu : current hw r z /\ z_items z = n + 1).
    { destruct Nv as [_ Nv]. rewrite Fz in Nv. unfold info_face in *. destruct hw; [split; apply Nv; lia|split; apply Nv]. }
    destruct Cu as ((h' & ss' & _ & _ & _ & Of' & Pn & _) & Ti). rewrite Ek in Of'.
    destruct (offers_det hw r _ _ _ _ _ Of Of') as [<- <-].
    assert (E : paging_increase hw z = set_pos n 0 z).
    { unfold paging_increase, more_items. replace (z_page z + 1 <? z_pages z) with false by lia.
      rewrite Ti. replace ((0 <? n + 1) && (z_item z <? n + 1 - 1 + actions hw)) with true by (destruct hw; cbn; lia).
      f_equal. lia. }
    unfold at_approval, rights. unfold info_face in Fz. destruct hw eqn:Eh.
    - split; [exact (proj1 (press_s_nav NanoS r L R z Right eq_refl Nv))|].
      destruct (update_label NanoS r n (proj1 (proj2 R)) (set_pos n 0 z) eq_refl (proj1 Nv) (or_introl eq_refl))
        as (z' & U & _ & _ & I1 & _).
      unfold press, press_s. rewrite Fz, E, U. cbn [put_review fst snapshot set_seen set_face z_face z_item].
      split; [reflexivity|]. rewrite I1. reflexivity.
    - split; [exact (proj1 (press_x_nav NanoX r L R z Right eq_refl Nv))|].
      assert (Rf : refuses NanoX r n NoData) by (apply (proj2 (proj2 R)); [lia|]; specialize (Hx eq_refl); lia).
      unfold press, press_x. rewrite Fz, E.
      rewrite (update_refuses NanoX r n (proj1 (proj2 R)) (set_pos n 0 z) n NoData (proj1 Nv) eq_refl ltac:(lia) Rf) by discriminate.
      reflexivity.
  Qed.

  Lemma approval_reachable z : bufs_ok hw z -> 0 < n -> (hw = NanoX -> L = n) ->
    exists m, at_approval (rights hw r m (fst (zui_show hw r z)))
      /\ snd (press hw (Some r) (rights hw r m (fst (zui_show hw r z))) Both) = Accept.
  Proof.
    intros B Hn Hx. destruct (All (n - 1) ltac:(lia)) as (h & ss & Of).
    assert (Nn : 0 < len ss) by (destruct Of as (Nn & _); destruct ss; [easy|]; unfold len; cbn [List.length]; lia).
    destruct (every_page z (n - 1) h ss (len ss - 1) B ltac:(lia) Of ltac:(lia)) as (m & A).
    exists (1 + m)%nat. rewrite rights_add.
    pose proof (right_approval _ h ss Hn A Of Hx) as [Nv Ap]. split; [now split|].
    remember (rights hw r 1 (rights hw r m (fst (zui_show hw r z)))) as z1.
    unfold press. destruct hw.
    - destruct Ap as [Fz Ek]. destruct Nv as [_ Nv]. rewrite Fz in Nv. destruct Nv as (_ & Ti & _).
      unfold press_s. rewrite Fz. unfold is_accept. rewrite Ti, Ek.
      replace (n + 1 =? 0) with false by lia. replace (n =? n + 1 - 1) with true by lia. reflexivity.
    - unfold press_x. rewrite Ap. reflexivity.
  Qed.
End Reach.
