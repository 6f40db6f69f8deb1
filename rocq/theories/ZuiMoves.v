(** Navigation: the left and the right button move from place to place. *)
From Coq Require Import NArith Bool Arith String List Lia.
From Coq Require Import ZifyBool ZifyNat ZifyN.
From Verif Require Import Base BaseFacts Text TextSpec TextFacts TextExamples Device Screens Zui UiSpec ZuiFacts ZuiNav ZuiReach.
Import ListNotations.
Open Scope N_scope.

(** ** Lists of places *)

Lemma pages_from_app a : forall k b, pages_from k (a ++ b) = pages_from k a ++ pages_from (k + List.length a) b.
Proof.
  induction a as [|[h ss] a IH]; intros k b; cbn [app pages_from List.length].
  - now rewrite Nat.add_0_r.
  - rewrite IH, <- app_assoc. now replace (S k + List.length a)%nat with (k + S (List.length a))%nat by lia.
Qed.
Lemma pages_at screens k h ss : nth_error screens k = Some (h, ss) ->
  exists l1 l2, pages_from 0 screens = l1 ++ map (PPage k) (seq 0 (List.length ss)) ++ pages_from (S k) l2
    /\ (List.length screens = S k + List.length l2)%nat /\ (k = 0%nat -> l1 = [])
    /\ (forall j x, nth_error l2 j = Some x <-> nth_error screens (S k + j) = Some x)
    /\ (forall h' ss', nth_error screens (pred k) = Some (h', ss') -> (0 < k)%nat ->
        exists l0, l1 = l0 ++ map (PPage (pred k)) (seq 0 (List.length ss'))).
Proof.
  intros E. destruct (nth_error_split _ _ E) as (a & b & -> & <-). exists (pages_from 0 a), b.
  rewrite pages_from_app. cbn [pages_from]. split; [now rewrite Nat.add_0_l|].
  split; [rewrite app_length; cbn [List.length]; lia|]. split; [destruct a; [reflexivity|discriminate]|]. split.
  - intros j x. rewrite nth_error_app2 by lia. now replace (S (List.length a) + j - List.length a)%nat with (S j) by lia.
  - intros h' ss' E' H. rewrite nth_error_app1 in E' by lia.
    destruct (nth_error_split _ _ E') as (a1 & b1 & -> & La). assert (b1 = []) as ->.
    { rewrite app_length in La. cbn [List.length] in La. destruct b1; [reflexivity|]. cbn [List.length] in La. lia. }
    exists (pages_from 0 a1). rewrite pages_from_app. cbn [pages_from Nat.add]. now rewrite La, app_nil_r.
Qed.

Lemma seq_pair {A} (f : nat -> A) n p : (p + 1 < n)%nat ->
  exists l1 l2, map f (seq 0 n) = l1 ++ f p :: f (p + 1)%nat :: l2.
Proof.
  intros H. replace n with (p + S (S (n - p - 2)))%nat by lia. rewrite seq_app, map_app. cbn [seq map Nat.add].
  rewrite Nat.add_1_r. eauto.
Qed.
Lemma seq_last {A} (f : nat -> A) n : (0 < n)%nat -> exists l1, map f (seq 0 n) = l1 ++ [f (pred n)].
Proof.
  destruct n as [|n]; [lia|]. intros _. rewrite seq_S, map_app. cbn [map pred Nat.add]. eauto.
Qed.
Lemma seq_first {A} (f : nat -> A) n : (0 < n)%nat -> exists l2, map f (seq 0 n) = f 0%nat :: l2.
Proof. destruct n; [lia|]. cbn [seq map]. eauto. Qed.

(** Neighbours. *)
Definition next_to (l : list place) (a b : place) : Prop := exists l1 l2, l = l1 ++ a :: b :: l2.
Lemma next_rev l a b : next_to l a b -> next_to (rev l) b a.
Proof.
  intros (l1 & l2 & ->). exists (rev l2), (rev l1). rewrite rev_app_distr. cbn [rev]. now rewrite <- !app_assoc.
Qed.
Lemma next_in l l0 l3 a b : next_to l a b -> next_to (l0 ++ l ++ l3) a b.
Proof. intros (l1 & l2 & ->). exists (l0 ++ l1), (l2 ++ l3). now rewrite <- !app_assoc. Qed.

Section Lists.
  Variable hw : hardware.
  Variable screens : list (bytes * list bytes).
  Hypothesis Some_pages : forall k h ss, nth_error screens k = Some (h, ss) -> ss <> [].

  Lemma pages_nonempty k h ss : nth_error screens k = Some (h, ss) -> (0 < List.length ss)%nat.
  Proof. intros E. pose proof (Some_pages _ _ _ E). destruct ss; [easy|]. cbn [List.length]. lia. Qed.

  Lemma next_page k h ss p : nth_error screens k = Some (h, ss) -> (p + 1 < List.length ss)%nat ->
    next_to (places hw screens) (PPage k p) (PPage k (p + 1)).
  Proof.
    intros E H. destruct (pages_at _ _ _ _ E) as (l1 & l2 & Ep & _). destruct (seq_pair (PPage k) _ p H) as (m1 & m2 & Em).
    unfold places. rewrite Ep, Em. apply next_in. exists (l1 ++ m1), (m2 ++ pages_from (S k) l2).
    now rewrite <- !app_assoc.
  Qed.
  Lemma next_row k h ss h' ss' : nth_error screens k = Some (h, ss) -> nth_error screens (S k) = Some (h', ss') ->
    next_to (places hw screens) (PPage k (pred (List.length ss))) (PPage (S k) 0).
  Proof.
    intros E E'. destruct (pages_at _ _ _ _ E) as (l1 & l2 & Ep & _ & _ & Nt & _).
    specialize (Nt 0%nat (h', ss')). rewrite Nat.add_0_r in Nt. apply Nt in E' as E2.
    destruct l2 as [|[h2 ss2] l2]; [discriminate|]. cbn [nth_error] in E2. injection E2 as -> ->.
    destruct (seq_last (PPage k) _ (pages_nonempty _ _ _ E)) as (m1 & Em).
    destruct (seq_first (PPage (S k)) _ (pages_nonempty _ _ _ E')) as (m2 & Em').
    unfold places. rewrite Ep, Em. cbn [pages_from]. rewrite Em'. apply next_in.
    exists (l1 ++ m1), (m2 ++ pages_from (S (S k)) l2). rewrite <- !app_assoc. reflexivity.
  Qed.
  Lemma next_approve k h ss : nth_error screens k = Some (h, ss) -> List.length screens = S k ->
    next_to (places hw screens) (PPage k (pred (List.length ss))) PApprove.
  Proof.
    intros E L. destruct (pages_at _ _ _ _ E) as (l1 & l2 & Ep & Le & _).
    assert (l2 = []) as -> by (destruct l2; [reflexivity|cbn [List.length] in Le; lia]).
    destruct (seq_last (PPage k) _ (pages_nonempty _ _ _ E)) as (m1 & Em).
    unfold places. rewrite Ep, Em. cbn [pages_from]. rewrite app_nil_r.
    exists ((match hw with NanoS => [] | NanoX => [PTitle] end) ++ l1 ++ m1), [PReject]. now rewrite <- !app_assoc.
  Qed.
  Lemma next_reject : next_to (places hw screens) PApprove PReject.
  Proof.
    unfold places. exists ((match hw with NanoS => [] | NanoX => [PTitle] end) ++ pages_from 0 screens), [].
    now rewrite <- app_assoc.
  Qed.
  Lemma last_reject : exists l1, places hw screens = l1 ++ [PReject].
  Proof.
    unfold places. exists ((match hw with NanoS => [] | NanoX => [PTitle] end) ++ pages_from 0 screens ++ [PApprove]).
    now rewrite <- !app_assoc.
  Qed.
  Lemma first_page h ss : nth_error screens 0 = Some (h, ss) ->
    exists l2, places hw screens = match hw with NanoS => [] | NanoX => [PTitle] end ++ PPage 0 0 :: l2.
  Proof.
    intros E. destruct (pages_at _ _ _ _ E) as (l1 & l2 & Ep & _ & L1 & _). rewrite (L1 eq_refl) in Ep.
    destruct (seq_first (PPage 0) _ (pages_nonempty _ _ _ E)) as (m2 & Em). unfold places. rewrite Ep, Em.
    cbn [app]. eauto.
  Qed.
End Lists.

(** ** Buttons *)

Section Moves.
  Variable hw : hardware.
  Variable r : review.
  Variable L : N.
  Hypothesis R : rows_of hw r L.
  Hypothesis Small : L < 256.
  Variable screens : list (bytes * list bytes).
  Hypothesis Ls : len screens = L.
  Hypothesis Of : forall k h ss, nth_error screens k = Some (h, ss) -> offers hw r (N.of_nat k) h ss.

  Lemma mod_L : L mod 256 = L.
  Proof. now apply N.mod_small. Qed.
  Lemma row_at k : k < L -> exists h ss, nth_error screens (N.to_nat k) = Some (h, ss).
  Proof.
    intros H. destruct (nth_error screens (N.to_nat k)) as [[h ss]|] eqn:E; [eauto|].
    apply nth_error_None in E. unfold len in Ls. lia.
  Qed.
  Lemma Some_pages k h ss : nth_error screens k = Some (h, ss) -> ss <> [].
  Proof. intros E. apply (Of k h ss E). Qed.

  (** The place of a screen. *)
  Lemma page_appears z k p : nav hw r L z -> z_face z = info_face hw -> z_item z = N.of_nat k -> z_page z = N.of_nat p ->
    N.of_nat k < L -> appears hw screens z (PPage k p).
  Proof.
    intros Nv F Ek Ep Hk.
    assert (Cu : current hw r z).
    { destruct Nv as [_ Nv]. rewrite F in Nv. unfold info_face in Nv. rewrite mod_L in Nv. destruct hw; [apply Nv; lia|apply Nv]. }
    destruct (row_at _ Hk) as (h & ss & E). rewrite Nat2N.id in E.
    destruct Cu as (h' & ss' & s & lines & rest & Of' & _ & _ & N & I1 & Sn). rewrite Ek in Of'.
    destruct (offers_det hw r _ _ _ _ _ (Of _ _ _ E) Of') as [<- <-].
    split; [exact F|]. split; [exact Ek|]. split; [exact Ep|]. exists h, ss, s, lines, rest.
    split; [exact E|]. split; [rewrite Ep, Nat2N.id in N; exact N|]. split; [exact I1|]. now rewrite <- Ep.
  Qed.
  Lemma label_appears z : nav hw r L z -> z_face z = Review ->
    (z_item z = L -> appears hw screens z PApprove) /\ (z_item z = L + 1 -> appears hw screens z PReject).
  Proof.
    intros [_ Nv] F. rewrite F, mod_L in Nv. destruct Nv as (Hs & Ti & _ & _ & La & _).
    split; intros E; (destruct La as (_ & _ & rest & Sn); [lia|]); cbn [appears]; unfold offers_approval, offers_rejection;
      rewrite Hs; (split; [split; [exact F|lia]|]); intros _; exists rest; rewrite Sn, E.
    - now rewrite N.eqb_refl.
    - now replace (L + 1 =? L) with false by lia.
  Qed.

  Definition reviewing (z : zui) : Prop := In (z_face z) [Review; Title; Page; Approval; Rejection].
  Lemma nav_appears z : nav hw r L z -> reviewing z -> exists a, appears hw screens z a /\
    match a with
    | PTitle => hw = NanoX /\ z_face z = Title
    | PPage k p => z_face z = info_face hw /\ N.of_nat k < L
    | PApprove => match hw with NanoS => z_face z = Review /\ z_item z = L | NanoX => z_face z = Approval end
    | PReject => match hw with NanoS => z_face z = Review /\ z_item z = L + 1 | NanoX => z_face z = Rejection end
    end.
  Proof.
    intros Nv Rv. pose proof Nv as [B N]. destruct (z_face z) eqn:F; unfold reviewing in Rv; rewrite F in Rv; cbn in Rv; try (exfalso; intuition congruence).
    - destruct N as (Hs & Ti & Hi & _). rewrite mod_L in *.
      destruct (N.lt_ge_cases (z_item z) L) as [H|H].
      + exists (PPage (N.to_nat (z_item z)) (N.to_nat (z_page z))).
        assert (Fi : z_face z = info_face hw) by (rewrite F, Hs; reflexivity).
        split; [apply page_appears; try lia; [exact Nv|exact Fi]|]. split; [congruence|lia].
      + destruct (label_appears z Nv F) as [A1 A2].
        destruct (N.eq_dec (z_item z) L) as [E|E].
        * exists PApprove. split; [now apply A1|]. rewrite Hs. auto.
        * exists PReject. assert (z_item z = L + 1) by lia. split; [now apply A2|]. rewrite Hs. auto.
    - exists PTitle. split; [exact F|]. auto.
    - destruct N as (Hx & Ti & Hi & Cu & _). rewrite mod_L in *.
      assert (H : z_item z < L).
      { destruct (N.lt_ge_cases (z_item z) L) as [H|H]; [exact H|]. exfalso.
        destruct R as (_ & _ & Rk). destruct (Rk (z_item z) ltac:(lia)) as [_ A].
        destruct Cu as (h & ss & _ & _ & _ & Of' & _). exact (offers_refuses hw r _ _ _ _ Of' (A H)). }
      exists (PPage (N.to_nat (z_item z)) (N.to_nat (z_page z))).
      assert (Fi : z_face z = info_face hw) by (rewrite F, Hx; reflexivity).
      split; [apply page_appears; try lia; [exact Nv|exact Fi]|]. split; [congruence|lia].
    - exists PApprove. destruct N as (Hx & _). split; [split; [rewrite Hx; exact F|congruence]|]. now rewrite Hx.
    - exists PReject. destruct N as (Hx & _). split; [split; [rewrite Hx; exact F|congruence]|]. now rewrite Hx.
  Qed.

  Lemma press_nav z b : nav hw r L z -> nav hw r L (fst (press hw (Some r) z b)).
  Proof.
    intros Nv. destruct hw eqn:Eh.
    - exact (proj1 (press_s_nav NanoS r L R z b eq_refl Nv)).
    - exact (proj1 (press_x_nav NanoX r L R z b eq_refl Nv)).
  Qed.

  Lemma arrow_stays z b : nav hw r L z -> reviewing z -> b = Left \/ b = Right -> snd (press hw (Some r) z b) = Stay.
  Proof.
    intros Nv Rv Hb.
    assert (NF : z_face z <> Failure) by (intros F; unfold reviewing in Rv; rewrite F in Rv; cbn in Rv; intuition congruence).
    assert (NB : b <> Both) by (destruct Hb; congruence).
    assert (X : let a := snd (press hw (Some r) z b) in a <> Crash /\ (a = Refuse -> b = Both) /\ (a = Ack -> z_face z = Failure) /\ (a = Accept -> b = Both)).
    { destruct hw eqn:Eh; cbv zeta.
      - destruct (press_s_nav NanoS r L R z b eq_refl Nv) as (_ & A1 & A2 & A3 & A4). split; [exact A1|].
        split; [intros Y; apply (A2 Y)|]. split; [intros Y; apply (A3 Y)|intros Y; apply (A4 Y)].
      - destruct (press_x_nav NanoX r L R z b eq_refl Nv) as (_ & A1 & A2 & A3 & A4). split; [exact A1|].
        split; [intros Y; apply (A2 Y)|]. split; [intros Y; apply (A3 Y)|intros Y; apply (A4 Y)]. }
    cbv zeta in X. destruct X as (X1 & X2 & X3 & X4). destruct (snd (press hw (Some r) z b)); try reflexivity; exfalso; auto.
  Qed.

  (** A button that leads to a page. *)
  Lemma to_page z z1 b k p h ss : nav hw r L z ->
    (forall z', update_data hw (Some r) z1 = Shown z' -> let z2 := fst (press hw (Some r) z b) in
     z_face z2 = info_face hw /\ z_item z2 = z_item z' /\ z_page z2 = z_page z') ->
    bufs_ok hw z1 -> z_item z1 = N.of_nat k -> nth_error screens k = Some (h, ss) ->
    z_page z1 = N.of_nat p /\ (p < List.length ss)%nat \/ z_page z1 = 255 /\ p = pred (List.length ss) ->
    appears hw screens (fst (press hw (Some r) z b)) (PPage k p).
  Proof.
    intros Nv Ep B1 Ek E Hp. pose proof (Of _ _ _ E) as Ok. pose proof (pages_nonempty screens Some_pages _ _ _ E) as Hss.
    assert (Hk : N.of_nat k < L).
    { assert (k < List.length screens)%nat by (apply nth_error_Some; congruence). unfold len in Ls. lia. }
    assert (Hp' : z_page z1 < len ss \/ z_page z1 = 255) by (unfold len; lia).
    assert (Lss : len ss <= 254) by apply Ok.
    pose proof (proj1 (proj2 R)) as Hn. rewrite mod_L in Hn.
    destruct (update_offers hw r L Hn z1 (N.of_nat k) h ss B1 Ek ltac:(lia) Ok Hp' (fun _ => Hk))
      as (z' & s & U & S1 & B' & I1 & T1 & N1 & P1 & _).
    destruct (Ep z' U) as (F2 & I2 & P2). cbv zeta in *.
    assert (Pz : z_page z' = N.of_nat p).
    { rewrite P1. unfold len in *. destruct Hp as [[-> H]|[-> ->]].
      - replace (N.of_nat p <? N.of_nat (List.length ss)) with true by lia. reflexivity.
      - replace (255 <? N.of_nat (List.length ss)) with false by lia. lia. }
    apply page_appears; [now apply press_nav|exact F2|congruence|congruence|exact Hk].
  Qed.
  (** A button of the Nano S that leads to an action. *)
  Lemma to_label z z1 b : hw = NanoS -> nav hw r L z -> z_face z = Review ->
    press hw (Some r) z b = put_review hw (update_data hw (Some r) z1) ->
    bufs_ok hw z1 -> z_item z1 = L \/ z_item z1 = L + 1 ->
    appears hw screens (fst (press hw (Some r) z b)) (if z_item z1 =? L then PApprove else PReject).
  Proof.
    intros Hs Nv F Ep B1 Hi. pose proof (press_nav z b Nv) as Nv'.
    pose proof (proj1 (proj2 R)) as Hn. rewrite mod_L in Hn.
    destruct (update_label hw r L Hn z1 Hs B1 Hi) as (z' & U & _ & _ & I1 & _).
    rewrite Ep, U in *. cbn [put_review fst snd] in *.
    destruct (label_appears _ Nv' eq_refl) as [A1 A2].
    change (z_item (snapshot hw (set_face Review z'))) with (z_item z') in A1, A2. rewrite I1 in A1, A2.
    destruct (N.eqb_spec (z_item z1) L); [now apply A1|]. apply A2. lia.
  Qed.

  Lemma page_facts z k p : nav hw r L z -> appears hw screens z (PPage k p) -> N.of_nat k < L ->
    exists h ss, nth_error screens k = Some (h, ss) /\ (p < List.length ss)%nat /\ z_pages z = len ss /\ z_items z = L + 1.
  Proof.
    intros Nv (F & Ek & Ep & h & ss & s & lines & rest & E & Es & _) Hk. exists h, ss. split; [exact E|].
    split; [apply nth_error_Some; congruence|].
    pose proof Nv as [_ Nz]. rewrite F, mod_L in Nz.
    assert (X : current hw r z /\ z_items z = L + 1) by (destruct hw; [split; [apply Nz; lia|apply Nz]|split; apply Nz]).
    destruct X as ((h' & ss' & _ & _ & _ & Of' & Pn & _) & Ti). rewrite Ek in Of'.
    destruct (offers_det hw r _ _ _ _ _ (Of _ _ _ E) Of') as [<- <-]. auto.
  Qed.

  Lemma dec_bufs z : bufs_ok hw z -> bufs_ok hw (paging_decrease z).
  Proof. intros B. unfold paging_decrease. destruct (negb (z_page z =? 0)); [exact B|]. destruct (0 <? z_item z); exact B. Qed.

  Definition right_from (z : zui) (a : place) : Prop :=
    exists a', appears hw screens (fst (press hw (Some r) z Right)) a' /\ moves (places hw screens) a a'.
  Definition left_from (z : zui) (a : place) : Prop :=
    exists a', appears hw screens (fst (press hw (Some r) z Left)) a' /\ moves (rev (places hw screens)) a a'.

  Lemma title_moves z : nav hw r L z -> hw = NanoX -> z_face z = Title -> right_from z PTitle /\ left_from z PTitle.
  Proof.
    intros Nv Hx F. pose proof Nv as [B _]. assert (L0 : 0 < L) by apply R.
    destruct (row_at 0 L0) as (h & ss & E0). change (N.to_nat 0) with 0%nat in E0.
    destruct (first_page hw screens Some_pages h ss E0) as (l2 & El). rewrite Hx in El. cbn [app] in El.
    split.
    - exists (PPage 0 0). split.
      + apply (to_page z (paging_init z) Right 0 0 h ss Nv); auto.
        * intros z' U. cbv zeta. unfold press, info_face. rewrite Hx in *. unfold press_x. rewrite F, U. cbn. auto.
        * left. split; [reflexivity|]. exact (pages_nonempty screens Some_pages _ _ _ E0).
      + left. exists [], l2. now rewrite Hx, El.
    - exists PTitle. split; [unfold press, press_x; rewrite Hx, F; exact F|]. right. split; [reflexivity|].
      rewrite Hx, El. cbn [rev]. eauto.
  Qed.

  Lemma page_right z k p : nav hw r L z -> appears hw screens z (PPage k p) -> N.of_nat k < L -> right_from z (PPage k p).
  Proof.
    intros Nv A Hk. destruct (page_facts z k p Nv A Hk) as (h & ss & E & Hp & Pn & Ti).
    destruct A as (F & Ek & Ep & _). pose proof Nv as [B _].
    assert (Go : forall z1, paging_increase hw z = z1 -> forall z', update_data hw (Some r) z1 = Shown z' ->
      let z2 := fst (press hw (Some r) z Right) in z_face z2 = info_face hw /\ z_item z2 = z_item z' /\ z_page z2 = z_page z').
    { intros z1 E1 z' U. cbv zeta. unfold press, info_face. destruct hw; unfold press_s, press_x; rewrite F, E1, U; cbn; auto. }
    destruct (Nat.eq_dec (p + 1) (List.length ss)) as [Le|Lt].
    - assert (Pp : p = pred (List.length ss)) by lia. rewrite Pp.
      assert (P1 : paging_increase hw z = set_pos (z_item z + 1) 0 z).
      { unfold paging_increase, more_items. rewrite Pn, Ti, Ek, Ep. unfold len.
        replace (N.of_nat p + 1 <? N.of_nat (List.length ss)) with false by lia.
        replace ((0 <? L + 1) && (N.of_nat k <? L + 1 - 1 + actions hw)) with true by (destruct hw; cbn; lia). reflexivity. }
      destruct (N.lt_ge_cases (N.of_nat (S k)) L) as [H|H].
      + destruct (row_at _ H) as (h' & ss' & E'). rewrite Nat2N.id in E'. exists (PPage (S k) 0). split.
        * apply (to_page z (set_pos (z_item z + 1) 0 z) Right (S k) 0 h' ss' Nv (Go _ P1)); auto.
          -- cbn. lia.
          -- left. split; [reflexivity|]. exact (pages_nonempty screens Some_pages _ _ _ E').
        * left. exact (next_row hw screens Some_pages k h ss h' ss' E E').
      + exists PApprove. split; [|left; apply (next_approve hw screens Some_pages k h ss E); unfold len in Ls; lia].
        assert (All : forall j, j < L mod 256 -> exists h ss, offers hw r j h ss).
        { intros j Hj. rewrite mod_L in Hj. destruct (row_at j Hj) as (h1 & ss1 & E1). exists h1, ss1.
          rewrite <- (N2Nat.id j). now apply Of. }
        assert (Kl : L mod 256 - 1 = N.of_nat k) by (rewrite mod_L; lia).
        assert (Ap : at_approval hw r L (rights hw r 1 z)).
        { apply (right_approval hw r L R All z h ss); rewrite ?Kl.
          - rewrite mod_L. lia.
          - split; [exact Nv|]. split; [exact F|]. split; [exact Ek|]. rewrite Ep. unfold len. lia.
          - now apply Of.
          - intros _. now rewrite mod_L. }
        destruct Ap as [Nv' Ap]. cbn [rights] in *. rewrite mod_L in Ap.
        pose proof (label_appears _ Nv') as La. destruct hw eqn:Eh.
        * destruct Ap as [F' I']. apply (La F'). exact I'.
        * split; [exact Ap|discriminate].
    - assert (P1 : paging_increase hw z = set_pos (z_item z) (z_page z + 1) z).
      { unfold paging_increase. rewrite Pn, Ep. unfold len. replace (N.of_nat p + 1 <? N.of_nat (List.length ss)) with true by lia.
        reflexivity. }
      exists (PPage k (p + 1)). split; [|left; apply (next_page hw screens k h ss p E); lia].
      apply (to_page z (set_pos (z_item z) (z_page z + 1) z) Right k (p + 1) h ss Nv (Go _ P1)); auto.
      left. cbn. lia.
  Qed.

  Lemma page_left z k p : nav hw r L z -> appears hw screens z (PPage k p) -> N.of_nat k < L -> left_from z (PPage k p).
  Proof.
    intros Nv A Hk. destruct (page_facts z k p Nv A Hk) as (h & ss & E & Hp & Pn & Ti).
    destruct A as (F & Ek & Ep & _). pose proof Nv as [B _].
    assert (Go : hw = NanoS \/ can_decrease z = true -> forall z1, paging_decrease z = z1 -> forall z', update_data hw (Some r) z1 = Shown z' ->
      let z2 := fst (press hw (Some r) z Left) in z_face z2 = info_face hw /\ z_item z2 = z_item z' /\ z_page z2 = z_page z').
    { intros Hc z1 E1 z' U. cbv zeta. unfold press, info_face. destruct hw; unfold press_s, press_x; rewrite F.
      - rewrite E1, U. cbn. auto.
      - destruct Hc as [Hc|Hc]; [discriminate|]. rewrite Hc, E1, U. cbn. auto. }
    unfold can_decrease in Go. destruct p as [|p].
    - destruct k as [|k].
      + destruct (first_page hw screens Some_pages h ss E) as (l2 & El).
        assert (P1 : paging_decrease z = z) by (unfold paging_decrease; rewrite Ep, Ek; reflexivity).
        pose proof (to_page z) as Tp. unfold left_from. destruct hw eqn:Eh.
        * exists (PPage 0 0). split.
          -- apply (Tp z Left 0%nat 0%nat h ss Nv (Go (or_introl eq_refl) _ P1)); auto.
          -- right. split; [reflexivity|]. rewrite El. cbn [app rev]. eauto.
        * exists PTitle. split.
          -- unfold press, press_x. rewrite F. unfold can_decrease. rewrite Ep, Ek. reflexivity.
          -- left. rewrite El. cbn [app rev]. exists (rev l2), []. now rewrite <- app_assoc.
      + destruct (row_at (N.of_nat k) ltac:(lia)) as (h' & ss' & E'). rewrite Nat2N.id in E'.
        assert (P1 : paging_decrease z = set_pos (z_item z - 1) 255 z).
        { unfold paging_decrease. rewrite Ep, Ek. change (negb (N.of_nat 0 =? 0)) with false.
          replace (0 <? N.of_nat (S k)) with true by lia. reflexivity. }
        assert (Hc : hw = NanoS \/ negb (z_page z =? 0) || (0 <? z_item z) = true) by (right; rewrite Ek; lia).
        exists (PPage k (pred (List.length ss'))). split.
        * apply (to_page z (set_pos (z_item z - 1) 255 z) Left k _ h' ss' Nv (Go Hc _ P1)); auto. cbn. lia.
        * left. apply next_rev. exact (next_row hw screens Some_pages k h' ss' h ss E' E).
    - assert (P1 : paging_decrease z = set_pos (z_item z) (z_page z - 1) z).
      { unfold paging_decrease. rewrite Ep. replace (negb (N.of_nat (S p) =? 0)) with true by lia. reflexivity. }
      assert (Hc : hw = NanoS \/ negb (z_page z =? 0) || (0 <? z_item z) = true) by (right; rewrite Ep; lia).
      exists (PPage k p). split.
      + apply (to_page z (set_pos (z_item z) (z_page z - 1) z) Left k p h ss Nv (Go Hc _ P1)); auto. left. cbn. lia.
      + left. apply next_rev. replace (S p) with (p + 1)%nat by lia. apply (next_page hw screens k h ss p E). lia.
  Qed.

  Lemma action_moves z : nav hw r L z ->
    (match hw with NanoS => z_face z = Review /\ z_item z = L | NanoX => z_face z = Approval end ->
     right_from z PApprove /\ left_from z PApprove) /\
    (match hw with NanoS => z_face z = Review /\ z_item z = L + 1 | NanoX => z_face z = Rejection end ->
     right_from z PReject /\ left_from z PReject).
  Proof.
    intros Nv. pose proof Nv as [B Nz]. assert (L0 : 0 < L) by apply R.
    destruct (row_at (L - 1) ltac:(lia)) as (h & ss & E).
    pose proof (next_approve hw screens Some_pages _ h ss E ltac:(unfold len in Ls; lia)) as Na.
    pose proof (next_reject hw screens) as Nr. destruct (last_reject hw screens) as [l1 Lr].
    assert (Rr : moves (places hw screens) PReject PReject) by (right; eauto).
    pose proof (to_label z) as Tl. pose proof (to_page z) as Tp.
    unfold right_from, left_from. rewrite mod_L in Nz.
    destruct hw eqn:Eh; split; intros Ha.
    - destruct Ha as [F Ei]. rewrite F in Nz. destruct Nz as (_ & Ti & _ & _ & La & _). destruct (La ltac:(lia)) as (Pg & Pn & _). split.
      + exists PReject. split; [|now left].
        assert (P1 : paging_increase NanoS z = set_pos (L + 1) 0 z).
        { unfold paging_increase, more_items. rewrite Pg, Pn, Ti, Ei. cbn [actions].
          replace ((0 <? L + 1) && (L <? L + 1 - 1 + 1)) with true by lia. reflexivity. }
        specialize (Tl (set_pos (L + 1) 0 z) Right eq_refl Nv F). cbn [set_pos z_item] in Tl.
        replace (L + 1 =? L) with false in Tl by lia. apply Tl; auto.
        unfold press, press_s. now rewrite F, P1.
      + exists (PPage (N.to_nat (L - 1)) (pred (List.length ss))). split; [|left; now apply next_rev].
        assert (P1 : paging_decrease z = set_pos (L - 1) 255 z).
        { unfold paging_decrease. rewrite Pg, Ei. cbn [N.eqb negb]. replace (0 <? L) with true by lia. reflexivity. }
        apply (Tp (set_pos (L - 1) 255 z) Left _ _ h ss Nv); auto.
        * intros z' U. cbv zeta. unfold press, press_s, info_face. rewrite F, P1, U. cbn. auto.
        * cbn. lia.
    - destruct Ha as [F Ei]. rewrite F in Nz. destruct Nz as (_ & Ti & _ & _ & La & _). destruct (La ltac:(lia)) as (Pg & Pn & _). split.
      + exists PReject. split; [|exact Rr].
        assert (P1 : paging_increase NanoS z = z).
        { unfold paging_increase, more_items. rewrite Pg, Pn, Ti, Ei. cbn [actions].
          replace ((0 <? L + 1) && (L + 1 <? L + 1 - 1 + 1)) with false by lia. reflexivity. }
        specialize (Tl z Right eq_refl Nv F). replace (z_item z =? L) with false in Tl by lia. apply Tl; auto.
        unfold press, press_s. now rewrite F, P1.
      + exists PApprove. split; [|left; now apply next_rev].
        assert (P1 : paging_decrease z = set_pos L 255 z).
        { unfold paging_decrease. rewrite Pg, Ei. cbn [N.eqb negb]. replace (0 <? L + 1) with true by lia.
          now replace (L + 1 - 1) with L by lia. }
        specialize (Tl (set_pos L 255 z) Left eq_refl Nv F). cbn [set_pos z_item] in Tl. rewrite N.eqb_refl in Tl. apply Tl; auto.
        unfold press, press_s. now rewrite F, P1.
    - rewrite Ha in Nz. destruct Nz as (_ & Ti & Ei & Pg & _). split.
      + exists PReject. split; [|now left]. unfold press, press_x. rewrite Ha. cbn. split; [reflexivity|discriminate].
      + exists (PPage (N.to_nat (L - 1)) (pred (List.length ss))). split; [|left; now apply next_rev].
        assert (P1 : paging_decrease z = set_pos (L - 1) 255 z).
        { unfold paging_decrease. rewrite Pg, Ei. cbn [N.eqb negb]. replace (0 <? L) with true by lia. reflexivity. }
        apply (Tp (set_pos (L - 1) 255 z) Left _ _ h ss Nv); auto.
        * intros z' U. cbv zeta. unfold press, press_x, info_face. rewrite Ha, P1, U. cbn. auto.
        * cbn. lia.
    - split.
      + exists PReject. split; [|exact Rr]. unfold press, press_x. rewrite Ha. cbn. split; [exact Ha|discriminate].
      + exists PApprove. split; [|left; now apply next_rev]. unfold press, press_x. rewrite Ha. cbn. split; [reflexivity|discriminate].
  Qed.

  Lemma arrows_move z : nav hw r L z -> reviewing z -> exists a, appears hw screens z a /\
    snd (press hw (Some r) z Right) = Stay /\ snd (press hw (Some r) z Left) = Stay /\ right_from z a /\ left_from z a.
  Proof.
    intros Nv Rv. destruct (nav_appears z Nv Rv) as (a & A & Ha). exists a. split; [exact A|].
    split; [apply arrow_stays; auto|]. split; [apply arrow_stays; auto|].
    destruct a as [|k p| |].
    - destruct Ha as [Hx F]. now apply title_moves.
    - destruct Ha as [F Hk]. split; [now apply page_right|now apply page_left].
    - now apply action_moves.
    - now apply action_moves.
  Qed.
End Moves.
