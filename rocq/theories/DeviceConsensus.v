(** Consequences of the order of consensus signatures. *)
From Coq Require Import List NArith ZArith Lia Bool Arith Sorted ZifyBool ZifyNat ZifyN.
From Verif Require Import Base BaseFacts Flash FlashFacts Codecs CodecsSpec CodecsFacts
  Upload UploadSpec UploadFacts Baking BakingSpec BakingFacts Operations Oracles Address
  Device DeviceSpec DeviceFacts DeviceProofs.
Import ListNotations.
Open Scope N_scope.

(** Two positions of an increasing list of signatures. *)
Lemma sorted_pairs l : forall ps, consensus_positions l = map Some ps -> StronglySorted cpos_lt ps ->
  forall i j g h, (i < j)%nat -> nth_error l i = Some g -> nth_error l j = Some h ->
  is_consensus g = true -> is_consensus h = true ->
  exists p q, signed_pos (sg_data g) = Some p /\ signed_pos (sg_data h) = Some q /\ cpos_lt p q.
Proof.
  assert (Q : forall l ps j h, consensus_positions l = map Some ps -> nth_error l j = Some h ->
    is_consensus h = true -> exists q, signed_pos (sg_data h) = Some q /\ In q ps).
  { clear. intros l ps j h E Hj Hc.
    assert (In (signed_pos (sg_data h)) (map Some ps)) as X.
    { rewrite <- E. unfold consensus_positions. apply in_map_iff. exists h. split; auto.
      apply filter_In. split; auto. eapply nth_error_In; eauto. }
    apply in_map_iff in X as (q & X & Y). eauto. }
  induction l as [|x l IH]; intros ps E S i j g h Hij Hi Hj Hg Hh; [destruct i; discriminate|].
  destruct j as [|j]; [lia|]. cbn [nth_error] in Hj.
  unfold consensus_positions in E. cbn [filter] in E.
  destruct (is_consensus x) eqn:Ex; cbn [map] in E.
  - destruct ps as [|p ps]; [discriminate|]. cbn [map] in E. injection E as E1 E2.
    inversion S; subst. destruct i as [|i].
    + cbn in Hi. injection Hi as <-. destruct (Q l ps j h E2 Hj Hh) as (q & Eq & Iq).
      exists p, q. repeat split; auto. rewrite Forall_forall in H2. auto.
    + apply (IH ps E2 H1 i j); auto; lia.
  - destruct i as [|i]; [cbn in Hi; injection Hi as <-; congruence|].
    apply (IH ps E S i j); auto; lia.
Qed.

Section Histories.
  Variable C : config.
  Variable O : oracles.
  Variables (f u : list fault) (es1 es2 : list event).
  Hypothesis (F : Forall slot_fault_ok f) (U : Forall up_fault_ok u).
  Hypothesis (E : Forall event_ok (es1 ++ es2)) (L : len (es1 ++ es2) < 2 ^ 64).
  Let d1 := snd (run C O (dev_fresh f u) es1).
  Let d2 := snd (run C O d1 es2).
  Hypothesis (R : no_reset C O d1 es2).

  (** Any two consensus messages signed in [es2] are ordered by time. *)
  Lemma pairs_ordered l i j g h : signed_between d1 d2 l -> (i < j)%nat ->
    nth_error l i = Some g -> nth_error l j = Some h ->
    is_consensus g = true -> is_consensus h = true ->
    exists p q, signed_pos (sg_data g) = Some p /\ signed_pos (sg_data h) = Some q /\ cpos_lt p q.
  Proof.
    intros Hl. destruct (consensus_ordered C O f u es1 es2 F U E L R) as (l' & Hl' & ps & Hp & Hs).
    assert (l = l') as ->.
    { unfold signed_between in *. fold d1 in Hl'. fold d2 in Hl'. rewrite Hl in Hl'.
      apply app_inv_tail in Hl'. apply (f_equal (@rev sigrec)) in Hl'. now rewrite !rev_involutive in Hl'. }
    eapply sorted_pairs; eauto.
  Qed.

  Lemma no_conflict l i j g h : signed_between d1 d2 l -> i <> j ->
    nth_error l i = Some g -> nth_error l j = Some h ->
    is_consensus g = true -> is_consensus h = true ->
    ~ exists p, signed_pos (sg_data g) = Some p /\ signed_pos (sg_data h) = Some p.
  Proof.
    intros Hl N Hi Hj Hg Hh (p & P1 & P2).
    destruct (Nat.lt_trichotomy i j) as [X|[X|X]]; [|congruence|].
    - destruct (pairs_ordered l i j g h) as (a & b & A1 & A2 & A3); auto.
      assert (a = b) by congruence. subst. now apply cpos_lt_irrefl in A3.
    - destruct (pairs_ordered l j i h g) as (a & b & A1 & A2 & A3); auto.
      assert (a = b) by congruence. subst. now apply cpos_lt_irrefl in A3.
  Qed.

  Lemma no_emmy_after_tenderbake l i j g h level round kind : signed_between d1 d2 l -> (i < j)%nat ->
    nth_error l i = Some g -> nth_error l j = Some h ->
    is_consensus g = true -> is_consensus h = true ->
    signed_pos (sg_data g) = Some (PTB level round kind) ->
    exists level' round' kind', signed_pos (sg_data h) = Some (PTB level' round' kind').
  Proof.
    intros Hl X Hi Hj Hg Hh P. destruct (pairs_ordered l i j g h) as (a & b & A1 & A2 & A3); auto.
    rewrite P in A1. injection A1 as <-. destruct b as [lv en|lv rd kd]; [contradiction|].
    rewrite A2. eauto.
  Qed.

  (** The stored watermark only moves forward, and covers everything signed. *)
  Lemma watermark_monotone p1 p2 : wear_reads (d_main d1) p1 -> wear_reads (d_main d2) p2 ->
    cpos_le (wm_pos (wm_parse p1)) (wm_pos (wm_parse p2)).
  Proof.
    intros R1 R2. apply Forall_app in E as [E1 E2]. rewrite len_app in L.
    pose proof (reach_dok C O f u es1 F U E1 ltac:(lia)) as V1. fold d1 in V1.
    pose proof (run_inv C O es2 (len es1) [wm_pos (wm_parse p1)] (d_log d1) d1 E2 R L) as V2.
    destruct V2 as [_ _ _ _ (l & ps & Hl & Hp & Hs & Hd)].
    - apply inv_of_dok; auto. intros p Hp. assert (p = p1) as -> by (unfold wear_reads in *; congruence).
      constructor; [apply cpos_le_refl|constructor].
    - fold d2 in Hd. specialize (Hd p2 R2). apply Forall_app in Hd as [Hd _]. now inversion Hd.
  Qed.

  Lemma watermark_covers l g p : signed_between d1 d2 l -> In g l -> is_consensus g = true ->
    wear_reads (d_main d2) p ->
    exists q, signed_pos (sg_data g) = Some q /\ cpos_le q (wm_pos (wm_parse p)).
  Proof.
    intros Hl G Gc Rp. apply Forall_app in E as [E1 E2]. rewrite len_app in L.
    pose proof (reach_dok C O f u es1 F U E1 ltac:(lia)) as V1. fold d1 in V1.
    pose proof (run_inv C O es2 (len es1) [] (d_log d1) d1 E2 R L (inv_of_dok _ _ [] V1 ltac:(auto))) as V2.
    fold d2 in V2. destruct V2 as [_ _ _ _ (l' & ps & Hl' & Hp & Hs & Hd)].
    assert (l = l') as ->.
    { unfold signed_between in *. rewrite Hl in Hl'.
      apply app_inv_tail in Hl'. apply (f_equal (@rev sigrec)) in Hl'. now rewrite !rev_involutive in Hl'. }
    specialize (Hd p Rp). cbn [app] in Hd.
    assert (In (signed_pos (sg_data g)) (map Some ps)) as X.
    { rewrite <- Hp. unfold consensus_positions. apply in_map_iff. exists g. split; auto.
      apply filter_In. auto. }
    apply in_map_iff in X as (q & X & Y). exists q. split; [auto|].
    rewrite Forall_forall in Hd. auto.
  Qed.
End Histories.
