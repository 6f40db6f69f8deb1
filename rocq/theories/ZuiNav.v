(** Navigation: what the user has seen at each moment of a review. *)
From Coq Require Import NArith Bool Arith String List Lia.
From Coq Require Import ZifyBool ZifyNat ZifyN.
From Verif Require Import Base BaseFacts Text TextSpec TextFacts TextExamples Device Screens Zui UiSpec ZuiFacts.
Import ListNotations.
Open Scope N_scope.

(** A review of [L] rows, the items after which have no data. *)
Definition rows_of (hw : hardware) (r : review) (L : N) : Prop :=
  0 < L /\ r_items r = VOk (L mod 256) /\
  forall k, k < 256 ->
  (k < L -> (exists h ss, offers hw r k h ss) \/ refuses hw r k Unknown) /\
  (L <= k -> refuses hw r k NoData).

Section Nav.
  Variable hw : hardware.
  Variable r : review.
  Variable L : N.
  Notation n := (L mod 256).

  (** The screen shows the current page of the current item. *)
  Definition current (z : zui) : Prop :=
    exists h ss s lines rest, offers hw r (z_item z) h ss /\ z_pages z = len ss /\ z_page z < len ss
      /\ nth_error ss (N.to_nat (z_page z)) = Some s /\ in_lines hw (visible s) lines
      /\ z_seen z = mkShot (page_title hw (visible h) (z_page z) (len ss)) lines :: rest.
  (** All pages up to the current one have been seen. *)
  Definition covered (z : zui) : Prop :=
    (forall k, k < n -> k < z_item z -> exists h ss, offers hw r k h ss) /\
    (forall k h ss p s, offers hw r k h ss -> k < n -> nth_error ss p = Some s ->
      k < z_item z \/ (k = z_item z /\ N.of_nat p <= z_page z) -> page_seen hw (z_seen z) h ss p s).
  (** All pages before the current one have been seen. *)
  Definition entering (z : zui) : Prop :=
    (forall k, k < n -> k < z_item z -> exists h ss, offers hw r k h ss) /\
    (forall k h ss p s, offers hw r k h ss -> k < n -> nth_error ss p = Some s ->
      k < z_item z \/ (k = z_item z /\ N.of_nat p < z_page z) -> page_seen hw (z_seen z) h ss p s).

  Definition nav (z : zui) : Prop :=
    bufs_ok hw z /\
    match z_face z with
    | Review =>
      hw = NanoS /\ z_items z = n + 1 /\ z_item z <= n + 1 /\ (z_item z < n -> current z)
      /\ (n <= z_item z -> z_page z = 0 /\ z_pages z = 1 /\
          exists rest, z_seen z = label_shot (if z_item z =? n then "APPROVE" else "REJECT") :: rest)
      /\ (z_expert z = false -> covered z)
    | Title => hw = NanoX
    | Page => hw = NanoX /\ z_items z = n + 1 /\ z_item z <= n /\ current z /\ covered z
    | Approval | Rejection =>
      hw = NanoX /\ z_items z = n + 1 /\ z_item z = n /\ z_page z = 0 /\ n = L /\ covered z
    | Idle | Failure => True
    end.

  Hypothesis R : rows_of hw r L.

  Lemma n_small : n < 256.
  Proof. apply N.mod_lt. discriminate. Qed.
  Lemma n_le : n <= L.
  Proof. apply N.mod_le. discriminate. Qed.

  Lemma page_seen_more seen x h ss p s : page_seen hw seen h ss p s -> page_seen hw (x :: seen) h ss p s.
  Proof. intros (lines & A & B). exists lines. split; [exact A|]. now right. Qed.

  (** Arriving at a page. *)
  Lemma arrive z h ss (E : Prop) : bufs_ok hw z -> z_item z < 256 -> offers hw r (z_item z) h ss ->
    (z_page z < len ss \/ z_page z = 255) -> (actions hw = 1 -> z_item z < n) -> (E -> entering z) ->
    exists z', update_data hw (Some r) z = Shown z' /\ same_rest z z' /\ bufs_ok hw z'
      /\ z_item z' = z_item z /\ z_items z' = n + 1
      /\ forall f b, let z2 := snapshot hw (set_inside b (set_face f z')) in
         current z2 /\ (E -> covered z2).
  Proof.
    intros B Hk Of Hp Ha En. destruct R as (_ & Hn & _).
    destruct (update_offers hw r n Hn z (z_item z) h ss B eq_refl Hk Of Hp Ha)
      as (z' & s & U & S1 & B1 & I1 & T1 & N1 & P1 & Es & lines & Il & Sh).
    assert (Lss : len ss <= 254) by apply Of.
    assert (Pz : z_page z' < len ss).
    { unfold len. assert (H : (N.to_nat (z_page z') < List.length ss)%nat) by (apply nth_error_Some; congruence). lia. }
    assert (Pz2 : z_page z' <= z_page z) by (rewrite P1; destruct (z_page z <? len ss) eqn:Q; lia).
    exists z'. split; [exact U|]. split; [exact S1|]. split; [exact B1|]. split; [exact I1|]. split; [exact T1|].
    intros f b z2. assert (Sn : z_seen z2 = shot_of hw z' :: z_seen z).
    { unfold z2, snapshot. cbn. destruct S1 as (_ & _ & _ & ->). reflexivity. }
    split.
    - exists h, ss, s, lines, (z_seen z).
      change (z_item z2) with (z_item z'). change (z_pages z2) with (z_pages z'). change (z_page z2) with (z_page z').
      rewrite I1, Sn, Sh. repeat (split; [assumption|]). reflexivity.
    - intros HE. destruct (En HE) as [E1 E2]. split.
      + intros k Hk1 Hk2. apply E1; [exact Hk1|]. unfold z2 in Hk2. cbn in Hk2. rewrite I1 in Hk2. exact Hk2.
      + intros k h' ss' p s' Of' Hk' Np Hpos. rewrite Sn. unfold z2 in Hpos. cbn in Hpos. rewrite I1 in Hpos.
        destruct (N.eq_dec k (z_item z)) as [->|Nk]; [destruct (N.eq_dec (N.of_nat p) (z_page z')) as [Pe|Pn]|].
        * destruct (offers_det hw r _ _ _ _ _ Of Of') as [<- <-].
          assert (s' = s) as -> by (rewrite <- Pe, Nat2N.id in Es; congruence).
          exists lines. split; [exact Il|]. left. rewrite Sh, Pe. reflexivity.
        * apply page_seen_more, (E2 _ _ _ _ _ Of' Hk' Np). right. split; [reflexivity|]. lia.
        * apply page_seen_more, (E2 _ _ _ _ _ Of' Hk' Np). lia.
  Qed.

  Lemma error_nav z : bufs_ok hw z -> nav (show_error hw z).
  Proof. intros B. split; [now apply show_error_bufs|exact Logic.I]. Qed.
  Lemma idle_nav z : bufs_ok hw z -> nav (show_idle z).
  Proof. intros B. split; [now apply show_idle_bufs|exact Logic.I]. Qed.

  (** Updating the screen of a Nano S. *)
  Lemma put_review_nav z : hw = NanoS -> bufs_ok hw z -> z_item z <= n + 1 ->
    (z_item z < n -> forall h ss, offers hw r (z_item z) h ss -> z_page z < len ss \/ z_page z = 255) ->
    (z_expert z = false -> entering z) ->
    nav (fst (put_review hw (update_data hw (Some r) z))) /\ snd (put_review hw (update_data hw (Some r) z)) = Stay.
  Proof.
    intros Hs B Hi Hp En. pose proof n_small as Sn. pose proof n_le as Le. destruct R as (_ & Hn & Rk).
    destruct (N.lt_ge_cases (z_item z) n) as [Hl|Hg].
    - destruct (Rk (z_item z) ltac:(lia)) as [A _].
      destruct (A ltac:(lia)) as [(h & ss & Of)|Rf].
      + destruct (arrive z h ss (z_expert z = false) B ltac:(lia) Of (Hp Hl h ss Of) (fun _ => Hl) En)
          as (z' & U & (_ & Si & Se & _) & B1 & I1 & T1 & Cv).
        rewrite U. cbn [put_review fst snd]. split; [|reflexivity].
        specialize (Cv Review (z_inside z')). cbv zeta in Cv.
        replace (set_inside (z_inside z') (set_face Review z')) with (set_face Review z') in Cv by reflexivity.
        destruct Cv as [C1 C2]. split; [exact B1|]. cbn [snapshot set_seen set_face z_face]. split; [exact Hs|]. split; [exact T1|].
        split; [change (z_item z' <= n + 1); lia|]. split; [intros _; exact C1|]. split.
        { intros H. change (n <= z_item z') in H. lia. }
        intros Ex. apply C2. change (z_expert z' = false) in Ex. congruence.
      + rewrite (update_refuses hw r n Hn z (z_item z) Unknown B eq_refl ltac:(lia) Rf (fun _ => Hl)).
        cbn [put_review fst snd]. split; [|reflexivity]. apply error_nav. exact B.
    - destruct (update_label hw r n Hn z Hs B ltac:(lia)) as (z' & U & (_ & Si & Se & Ss) & B1 & I1 & T1 & P1 & N1 & Sh).
      rewrite U. cbn [put_review fst snd]. split; [|reflexivity].
      split; [exact B1|]. cbn [snapshot set_seen set_face z_face].
      split; [exact Hs|]. split; [exact T1|]. split; [change (z_item z' <= n + 1); lia|].
      split. { intros H. change (z_item z' < n) in H. lia. }
      split.
      { intros _. split; [exact P1|]. split; [exact N1|]. exists (z_seen z).
        change (shot_of hw (set_face Review z') :: z_seen z' = label_shot (if z_item z' =? n then "APPROVE" else "REJECT") :: z_seen z).
        change (shot_of hw (set_face Review z')) with (shot_of hw z'). now rewrite Ss, Sh, I1. }
      intros Ex. change (z_expert z' = false) in Ex. rewrite Se in Ex. destruct (En Ex) as [E1 E2].
      split.
      + intros k K1 K2. apply E1; [exact K1|]. change (k < z_item z') in K2. lia.
      + intros k h ss p s Of Hk Np Hpos.
        change (page_seen hw (shot_of hw (set_face Review z') :: z_seen z') h ss p s). apply page_seen_more. rewrite Ss.
        apply (E2 k h ss p s Of Hk Np). left. lia.
  Qed.

  (** Updating the screen of a Nano X. *)
  Lemma put_page_nav z : hw = NanoX -> bufs_ok hw z -> z_item z < L -> z_item z <= n ->
    (forall h ss, offers hw r (z_item z) h ss -> z_page z < len ss \/ z_page z = 255) -> entering z ->
    nav (fst (put_page hw (update_data hw (Some r) z))) /\ snd (put_page hw (update_data hw (Some r) z)) = Stay
    /\ forall z', update_data hw (Some r) z <> Failed NoData z'.
  Proof.
    intros Hx B Hi Hin Hp En. pose proof n_small as Sn. pose proof n_le as Le. destruct R as (_ & Hn & Rk).
    assert (Ax : actions hw = 1 -> z_item z < n) by (rewrite Hx; discriminate).
    destruct (Rk (z_item z) ltac:(lia)) as [A _].
    destruct (A ltac:(lia)) as [(h & ss & Of)|Rf].
    - destruct (arrive z h ss True B ltac:(lia) Of (Hp h ss Of) Ax (fun _ => En))
        as (z' & U & (_ & Si & Se & _) & B1 & I1 & T1 & Cv).
      rewrite U. cbn [put_page fst snd]. split; [|split; [reflexivity|discriminate]].
      destruct (Cv Page true) as [C1 C2]. split; [exact B1|]. cbn [snapshot set_seen set_inside set_face z_face].
      split; [exact Hx|]. split; [exact T1|]. split; [change (z_item z' <= n); lia|]. split; [exact C1|exact (C2 Logic.I)].
    - rewrite (update_refuses hw r n Hn z (z_item z) Unknown B eq_refl ltac:(lia) Rf Ax).
      cbn [put_page fst snd]. split; [|split; [reflexivity|discriminate]]. apply error_nav. exact B.
  Qed.

  (** ** Positions *)

  Lemma covered_entering z : covered z -> entering z.
  Proof.
    intros [A1 A2]. split; [exact A1|]. intros k h ss p s Of Hk Np Hpos. apply (A2 _ _ _ _ _ Of Hk Np). lia.
  Qed.
  (** Going on from a covered position whose item is exhausted. *)
  Lemma entering_next_item z z' : covered z -> (z_item z < n -> current z /\ z_pages z <= z_page z + 1) ->
    z_item z' = z_item z + 1 -> z_page z' = 0 -> z_seen z' = z_seen z -> entering z'.
  Proof.
    intros [A1 A2] Hc Ei Ep Es. split.
    - intros k K1 K2. rewrite Ei in K2. destruct (N.eq_dec k (z_item z)) as [->|].
      + destruct (Hc K1) as ((h & ss & _ & _ & _ & Of & _) & _). eauto.
      + apply A1; lia.
    - intros k h ss p s Of Hk Np Hpos. rewrite Ei, Ep in Hpos. rewrite Es. apply (A2 _ _ _ _ _ Of Hk Np).
      destruct (N.eq_dec k (z_item z)) as [->|]; [right|left; lia]. split; [reflexivity|].
      destruct (Hc Hk) as ((h' & ss' & _ & _ & _ & Of' & Pn & _) & Pg).
      destruct (offers_det hw r _ _ _ _ _ Of Of') as [<- <-].
      assert (H : (p < List.length ss)%nat) by (apply nth_error_Some; congruence). unfold len in Pn. lia.
  Qed.
  Lemma entering_next_page z z' : covered z ->
    z_item z' = z_item z -> z_page z' = z_page z + 1 -> z_seen z' = z_seen z -> entering z'.
  Proof.
    intros [A1 A2] Ei Ep Es. split.
    - intros k K1 K2. rewrite Ei in K2. auto.
    - intros k h ss p s Of Hk Np Hpos. rewrite Ei, Ep in Hpos. rewrite Es. apply (A2 _ _ _ _ _ Of Hk Np). lia.
  Qed.
  Lemma entering_back z z' : covered z ->
    z_item z' < z_item z \/ (z_item z' = z_item z /\ z_page z' <= z_page z + 1) -> z_seen z' = z_seen z -> entering z'.
  Proof.
    intros [A1 A2] Hb Es. split.
    - intros k K1 K2. apply A1; lia.
    - intros k h ss p s Of Hk Np Hpos. rewrite Es. apply (A2 _ _ _ _ _ Of Hk Np). lia.
  Qed.

  (** ** Showing a review, and buttons *)

  Lemma show_nav z : bufs_ok hw z ->
    nav (fst (zui_show hw r z)) /\ snd (zui_show hw r z) = Stay.
  Proof.
    intros B. unfold zui_show. destruct hw eqn:Eh.
    - rewrite <- Eh in *. apply put_review_nav; [exact Eh|exact B|cbn; lia| |].
      + intros _ h ss (Nn & _). left. cbn. destruct ss; [easy|]. unfold len. cbn [List.length]. lia.
      + intros _. split; cbn; intros; lia.
    - rewrite <- Eh in *. cbn [fst snd]. split; [|reflexivity]. split; [exact B|exact Eh].
  Qed.

  Lemma current_page0 z h ss : offers hw r (z_item z) h ss -> z_page z = 0 -> z_page z < len ss \/ z_page z = 255.
  Proof. intros (Nn & _) ->. left. destruct ss; [easy|]. unfold len. cbn [List.length]. lia. Qed.

  Lemma press_s_nav z b : hw = NanoS -> nav z ->
    nav (fst (press hw (Some r) z b)) /\ snd (press hw (Some r) z b) <> Crash /\
    (snd (press hw (Some r) z b) = Refuse -> b = Both /\ z_face z = Review /\ z_item z = n + 1) /\
    (snd (press hw (Some r) z b) = Ack -> b = Right /\ z_face z = Failure) /\
    (snd (press hw (Some r) z b) = Accept -> b = Both /\ z_face z = Review /\ z_item z = n).
  Proof.
    intros Hs Nv. assert (Nv' := Nv). destruct Nv as [B Nv]. unfold press. rewrite Hs. rewrite <- Hs.
    assert (Stuck : nav z /\ Stay <> Crash /\ (Stay = Refuse -> b = Both /\ z_face z = Review /\ z_item z = n + 1) /\
      (Stay = Ack -> b = Right /\ z_face z = Failure) /\ (Stay = Accept -> b = Both /\ z_face z = Review /\ z_item z = n)).
    { split; [exact Nv'|]. repeat split; discriminate. }
    unfold press_s. destruct (z_face z) eqn:Fz; destruct b; try exact Stuck; clear Stuck.
    - (* toggle *) split; [|repeat split; discriminate]. split; [exact B|]. cbn. now rewrite Fz.
    - (* left *)
      destruct Nv as (_ & Ti & Hi & Hc & Ha & Hv).
      destruct (put_review_nav (paging_decrease z)) as [A1 A2].
      + exact Hs.
      + unfold paging_decrease. destruct (negb (z_page z =? 0)); [exact B|]. destruct (0 <? z_item z); exact B.
      + unfold paging_decrease. destruct (negb (z_page z =? 0)); [exact Hi|]. destruct (0 <? z_item z); cbn; lia.
      + unfold paging_decrease. destruct (negb (z_page z =? 0)) eqn:E1; [|destruct (0 <? z_item z) eqn:E2].
        * cbn. intros Hl h ss Of. destruct (Hc Hl) as (h' & ss' & _ & _ & _ & Of' & Pn & Pl & _).
          destruct (offers_det hw r _ _ _ _ _ Of Of') as [<- <-]. lia.
        * cbn. auto.
        * intros Hl h ss Of. apply (current_page0 z h ss Of). lia.
      + intros Ex. apply (entering_back z); [apply Hv|..].
        * unfold paging_decrease in Ex. destruct (negb (z_page z =? 0)); [exact Ex|]. destruct (0 <? z_item z); exact Ex.
        * unfold paging_decrease. destruct (negb (z_page z =? 0)) eqn:E1; [|destruct (0 <? z_item z) eqn:E2]; cbn; lia.
        * unfold paging_decrease. destruct (negb (z_page z =? 0)); [reflexivity|]. destruct (0 <? z_item z); reflexivity.
      + rewrite A2. split; [exact A1|]. repeat split; discriminate.
    - (* right *)
      destruct Nv as (_ & Ti & Hi & Hc & Ha & Hv).
      assert (Ac : actions hw = 1) by (rewrite Hs; reflexivity).
      destruct (put_review_nav (paging_increase hw z)) as [A1 A2].
      + exact Hs.
      + unfold paging_increase. destruct (z_page z + 1 <? z_pages z); [exact B|]. destruct (more_items hw z); exact B.
      + unfold paging_increase. destruct (z_page z + 1 <? z_pages z); [exact Hi|]. destruct (more_items hw z) eqn:E; [|exact Hi].
        unfold more_items in E. cbn. lia.
      + unfold paging_increase. destruct (z_page z + 1 <? z_pages z) eqn:E1; [|destruct (more_items hw z) eqn:E].
        * cbn. intros Hl h ss Of. destruct (Hc Hl) as (h' & ss' & _ & _ & _ & Of' & Pn & Pl & _).
          destruct (offers_det hw r _ _ _ _ _ Of Of') as [<- <-]. lia.
        * intros Hl h ss Of. now apply (current_page0 _ h ss Of).
        * intros Hl h ss Of. destruct (Hc Hl) as (h' & ss' & _ & _ & _ & Of' & Pn & Pl & _).
          destruct (offers_det hw r _ _ _ _ _ Of Of') as [<- <-]. now left.
      + unfold paging_increase. destruct (z_page z + 1 <? z_pages z) eqn:E1; [|destruct (more_items hw z) eqn:E].
        * intros Ex. apply (entering_next_page z); [now apply Hv|reflexivity..].
        * intros Ex. apply (entering_next_item z); [now apply Hv| |reflexivity..].
          intros Hl. split; [now apply Hc|]. lia.
        * intros Ex. now apply covered_entering, Hv.
      + rewrite A2. split; [exact A1|]. repeat split; discriminate.
    - (* both *)
      destruct Nv as (_ & Ti & Hi & Hc & Ha & Hv).
      unfold is_accept, is_reject. rewrite Ti. replace (n + 1 =? 0) with false by lia. replace (n + 1 - 1) with n by lia.
      cbn [negb andb]. destruct ((z_item z =? n) || (z_item z =? n + 1)) eqn:E.
      + cbn [fst snd]. split.
        { destruct (z_expert z); [|now apply idle_nav]. cbn [update_data put_review fst]. apply error_nav.
          apply (show_idle_bufs hw z B). }
        destruct (N.eqb_spec (z_item z) n) as [E1|E1].
        * repeat split; try discriminate; auto.
        * repeat split; try discriminate; auto. lia.
      + destruct (z_expert z) eqn:Ex; [|cbn [fst snd]; split; [exact Nv'|repeat split; discriminate]].
        destruct (put_review_nav (set_pos n 0 z)) as [A1 A2].
        * exact Hs.
        * exact B.
        * cbn. lia.
        * cbn. lia.
        * cbn. congruence.
        * rewrite A2. split; [exact A1|]. repeat split; discriminate.
    - (* error *)
      cbn [fst snd]. split; [now apply idle_nav|]. repeat split; discriminate.
  Qed.

  Lemma press_x_nav z b : hw = NanoX -> nav z ->
    nav (fst (press hw (Some r) z b)) /\ snd (press hw (Some r) z b) <> Crash /\
    (snd (press hw (Some r) z b) = Refuse -> b = Both /\ z_face z = Rejection) /\
    (snd (press hw (Some r) z b) = Ack -> b = Both /\ z_face z = Failure) /\
    (snd (press hw (Some r) z b) = Accept -> b = Both /\ z_face z = Approval).
  Proof.
    intros Hx Nv. assert (Nv' := Nv). destruct Nv as [B Nv]. unfold press. rewrite Hx. rewrite <- Hx.
    assert (Ac : actions hw = 0) by (rewrite Hx; reflexivity).
    assert (Lp : 0 < L) by apply R. pose proof n_le as Le. pose proof n_small as Sn.
    assert (Stuck : forall z, nav z -> nav z /\ Stay <> Crash /\ (Stay = Refuse -> b = Both /\ z_face z = Rejection) /\
      (Stay = Ack -> b = Both /\ z_face z = Failure) /\ (Stay = Accept -> b = Both /\ z_face z = Approval)).
    { intros z' H. split; [exact H|]. repeat split; discriminate. }
    unfold press_x. destruct (z_face z) eqn:Fz; destruct b; cbn [fst snd];
      try (destruct (Stuck z Nv') as (S1 & S2 & _); split; [exact S1|]; split; [exact S2|]; repeat split; discriminate).
    - (* toggle *)
      split; [|repeat split; discriminate]. split; [|cbn; now rewrite Fz].
      destruct B as [B1 B2]. split; [exact B1|]. cbn [z_msg set_expert set_text]. unfold len in *. rewrite overwrite_length; [exact B2|].
      rewrite Hx in B2. cbn [message_size] in B2. destruct (negb (z_expert z)); cbn; lia.
    - (* title, right *)
      destruct (put_page_nav (paging_init z)) as (A1 & A2 & _).
      + exact Hx.
      + exact B.
      + cbn. exact Lp.
      + cbn. lia.
      + intros h ss Of. now apply (current_page0 _ h ss Of).
      + split; cbn; intros; lia.
      + rewrite A2. split; [exact A1|]. repeat split; discriminate.
    - (* page, left *)
      destruct Nv as (_ & Ti & Hi & Hc & Hv).
      assert (Hl : z_item z < L).
      { destruct (N.lt_ge_cases (z_item z) L) as [H|H]; [exact H|]. exfalso.
        destruct R as (_ & _ & Rk). destruct (Rk (z_item z) ltac:(lia)) as [_ A].
        destruct Hc as (h & ss & _ & _ & _ & Of & _). exact (offers_refuses hw r _ _ _ _ Of (A H)). }
      destruct (can_decrease z) eqn:Ec.
      + destruct (put_page_nav (paging_decrease z)) as (A1 & A2 & _).
        * exact Hx.
        * unfold paging_decrease. destruct (negb (z_page z =? 0)); [exact B|]. destruct (0 <? z_item z); exact B.
        * unfold paging_decrease. destruct (negb (z_page z =? 0)); [exact Hl|]. destruct (0 <? z_item z); cbn; lia.
        * unfold paging_decrease. destruct (negb (z_page z =? 0)); [exact Hi|]. destruct (0 <? z_item z); cbn; lia.
        * unfold paging_decrease. destruct (negb (z_page z =? 0)) eqn:E1; [|destruct (0 <? z_item z) eqn:E2].
          -- cbn. intros h ss Of. destruct Hc as (h' & ss' & _ & _ & _ & Of' & Pn & Pl & _).
             destruct (offers_det hw r _ _ _ _ _ Of Of') as [<- <-]. lia.
          -- cbn. auto.
          -- intros h ss Of. apply (current_page0 z h ss Of). lia.
        * apply (entering_back z); [apply Hv|..].
          -- unfold paging_decrease. destruct (negb (z_page z =? 0)) eqn:E1; [|destruct (0 <? z_item z) eqn:E2]; cbn; lia.
          -- unfold paging_decrease. destruct (negb (z_page z =? 0)); [reflexivity|]. destruct (0 <? z_item z); reflexivity.
        * rewrite A2. split; [exact A1|]. repeat split; discriminate.
      + cbn [fst snd]. split; [|repeat split; discriminate]. split; [exact B|exact Hx].
    - (* page, right *)
      destruct Nv as (_ & Ti & Hi & Hc & Hv).
      assert (Hl : z_item z < L).
      { destruct (N.lt_ge_cases (z_item z) L) as [H|H]; [exact H|]. exfalso.
        destruct R as (_ & _ & Rk). destruct (Rk (z_item z) ltac:(lia)) as [_ A].
        destruct Hc as (h & ss & _ & _ & _ & Of & _). exact (offers_refuses hw r _ _ _ _ Of (A H)). }
      assert (Ax : actions hw = 1 -> z_item (paging_increase hw z) < n) by (rewrite Ac; discriminate).
      unfold paging_increase in *.
      destruct (z_page z + 1 <? z_pages z) eqn:E1; [|destruct (more_items hw z) eqn:E].
      + destruct (put_page_nav (set_pos (z_item z) (z_page z + 1) z)) as (A1 & A2 & A3).
        * exact Hx.
        * exact B.
        * exact Hl.
        * exact Hi.
        * intros h ss Of. cbn. destruct Hc as (h' & ss' & _ & _ & _ & Of' & Pn & Pl & _).
          destruct (offers_det hw r _ _ _ _ _ Of Of') as [<- <-]. lia.
        * now apply (entering_next_page z).
        * destruct (update_data _ _ _) as [z'|[]|] eqn:U; try (now destruct (A3 z)); cbn [put_page fst snd] in *;
            try (exfalso; exact (A3 _ eq_refl)); (split; [exact A1|]; repeat split; discriminate).
      + unfold more_items in E. assert (Hin : z_item z < n) by (rewrite Ac, Ti in E; lia).
        assert (En : entering (set_pos (z_item z + 1) 0 z)).
        { apply (entering_next_item z); [exact Hv| |reflexivity..]. intros _. split; [exact Hc|]. lia. }
        destruct (N.lt_ge_cases (z_item z + 1) L) as [Hl'|Hl'].
        * destruct (put_page_nav (set_pos (z_item z + 1) 0 z)) as (A1 & A2 & A3).
          -- exact Hx.
          -- exact B.
          -- exact Hl'.
          -- cbn. lia.
          -- intros h ss Of. now apply (current_page0 _ h ss Of).
          -- exact En.
          -- destruct (update_data _ _ _) as [z'|[]|] eqn:U; cbn [put_page fst snd] in *;
               try (exfalso; exact (A3 _ eq_refl)); (split; [exact A1|]; repeat split; discriminate).
        * assert (Rf := proj2 (proj2 (proj2 R) (z_item z + 1) ltac:(lia)) Hl').
          rewrite (update_refuses hw r n (proj1 (proj2 R)) (set_pos (z_item z + 1) 0 z) (z_item z + 1) NoData B eq_refl ltac:(lia) Rf)
            by (rewrite Ac; discriminate).
          cbn [fst snd]. split; [|repeat split; discriminate]. split; [exact B|]. cbn [set_inside set_face z_face].
          split; [exact Hx|]. split; [reflexivity|]. cbn [z_item z_page set_inside set_face set_pages set_items set_pos].
          split; [lia|]. split; [reflexivity|]. split; [lia|].
          destruct En as [En1 En2]. split; [exact En1|]. intros k h ss p s Of Hk Np Hpos.
          apply (En2 _ _ _ _ _ Of Hk Np). cbn in Hpos. cbn. lia.
      + destruct (put_page_nav z) as (A1 & A2 & A3).
        * exact Hx.
        * exact B.
        * exact Hl.
        * exact Hi.
        * intros h ss Of. destruct Hc as (h' & ss' & _ & _ & _ & Of' & Pn & Pl & _).
          destruct (offers_det hw r _ _ _ _ _ Of Of') as [<- <-]. now left.
        * now apply covered_entering.
        * destruct (update_data _ _ _) as [z'|[]|] eqn:U; cbn [put_page fst snd] in *;
            try (exfalso; exact (A3 _ eq_refl)); (split; [exact A1|]; repeat split; discriminate).
    - (* approval, left *)
      destruct Nv as (_ & Ti & Hi & Hp & Hl & Hv).
      unfold paging_decrease. rewrite Hp. cbn [N.eqb negb]. replace (0 <? z_item z) with true by lia.
      destruct (put_page_nav (set_pos (z_item z - 1) 255 z)) as (A1 & A2 & _).
      + exact Hx.
      + exact B.
      + cbn. lia.
      + cbn. lia.
      + cbn. auto.
      + apply (entering_back z); [exact Hv| |reflexivity]. cbn. lia.
      + rewrite A2. split; [exact A1|]. repeat split; discriminate.
    - (* approval, right *)
      split; [|repeat split; discriminate]. split; [exact B|exact Nv].
    - (* approval, both *)
      split; [now apply idle_nav|]. repeat split; discriminate.
    - (* rejection, left *)
      split; [|repeat split; discriminate]. split; [exact B|exact Nv].
    - (* rejection, both *)
      split; [now apply idle_nav|]. repeat split; discriminate.
    - (* error *)
      split; [now apply idle_nav|]. repeat split; discriminate.
  Qed.
End Nav.
