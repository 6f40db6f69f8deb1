(** Where the arrow buttons lead in a review. *)
From Coq Require Import NArith Bool Arith String List FinFun Lia.
From Coq Require Import ZifyBool ZifyNat ZifyN.
From Verif Require Import Base BaseFacts Flash Oracles Address AddressSpec AddressExamples Upload UploadSpec UploadFacts Operations OperationsSpec OperationsFacts OperationsExamples
  Text TextSpec TextFacts TextExamples Bakers BakersSpec Device DeviceSpec DeviceFacts DeviceProofs DeviceSigs DeviceReviews DeviceCases
  Screens ScreensSpec ScreensFacts ScreensViews ScreensPages ScreensDevice ScreensExamples
  Zui UiSpec ZuiFacts ZuiNav ZuiReach ZuiMoves UiDevice UiFacts UiRun UiCases ArrowsSpec.
Import ListNotations.
Open Scope list_scope.
Open Scope N_scope.

(** ** Lists of places *)

Lemma walk_app last a b : forall i, walk last i (a ++ b) = walk last (walk last i a) b.
Proof. induction a as [|x a IH]; intros i; [reflexivity|]. destruct x; cbn [app walk]; apply IH. Qed.
Lemma walk_rights last n : forall i, (i <= last)%nat -> walk last i (repeat Right n) = Nat.min (i + n) last.
Proof. induction n as [|n IH]; intros i H; cbn [repeat walk]; [lia|]. rewrite IH; lia. Qed.
Lemma walk_bound last bs : forall i, (i <= last)%nat -> (walk last i bs <= last)%nat.
Proof. induction bs as [|b bs IH]; intros i H; [exact H|]. destruct b; cbn [walk]; apply IH; lia. Qed.

Lemma index_unique {A} (l : list A) i j a : NoDup l -> nth_error l i = Some a -> nth_error l j = Some a -> i = j.
Proof.
  intros D Hi Hj. apply (proj1 (NoDup_nth_error l)); [exact D|apply nth_error_Some; congruence|congruence].
Qed.
Lemma nth_middle {A} (l1 l2 : list A) a : nth_error (l1 ++ a :: l2) (List.length l1) = Some a.
Proof. rewrite nth_error_app2 by lia. now rewrite Nat.sub_diag. Qed.

Lemma moves_right l a b i : NoDup l -> nth_error l i = Some a -> moves l a b ->
  nth_error l (Nat.min (S i) (pred (List.length l))) = Some b.
Proof.
  intros D Hi [(l1 & l2 & E)|[-> (l1 & E)]].
  - assert (Ei : i = List.length l1) by (apply (index_unique l i _ a D Hi); rewrite E; apply nth_middle).
    assert (Eb : nth_error l (S (List.length l1)) = Some b).
    { rewrite E. replace (l1 ++ a :: b :: l2) with ((l1 ++ [a]) ++ b :: l2) by now rewrite <- app_assoc.
      replace (S (List.length l1)) with (List.length (l1 ++ [a])) by (rewrite app_length; cbn [List.length]; lia). apply nth_middle. }
    replace (Nat.min (S i) (pred (List.length l))) with (S (List.length l1)); [exact Eb|].
    rewrite E, app_length. cbn [List.length]. lia.
  - assert (Ei : i = List.length l1) by (apply (index_unique l i _ a D Hi); rewrite E; apply nth_middle).
    replace (Nat.min (S i) (pred (List.length l))) with i; [exact Hi|]. rewrite E, app_length. cbn [List.length]. lia.
Qed.
Lemma moves_left l a b i : NoDup l -> nth_error l i = Some a -> moves (rev l) a b -> nth_error l (pred i) = Some b.
Proof.
  intros D Hi [(l1 & l2 & E)|[-> (l1 & E)]]; apply (f_equal (@rev place)) in E; rewrite rev_involutive, rev_app_distr in E.
  - cbn [rev] in E. rewrite <- !app_assoc in E. cbn [app] in E.
    assert (Ei : i = S (List.length (rev l2))).
    { apply (index_unique l i _ a D Hi). rewrite E. replace (rev l2 ++ b :: a :: rev l1) with ((rev l2 ++ [b]) ++ a :: rev l1) by now rewrite <- app_assoc.
      replace (S (List.length (rev l2))) with (List.length (rev l2 ++ [b])) by (rewrite app_length; cbn [List.length]; lia). apply nth_middle. }
    rewrite Ei, E. cbn [pred]. apply nth_middle.
  - cbn [rev app] in E. assert (Ei : i = 0%nat) by (apply (index_unique l i _ a D Hi); rewrite E; reflexivity).
    rewrite Ei in *. exact Hi.
Qed.

Lemma pages_from_in screens : forall k a, In a (pages_from k screens) -> exists k' p, a = PPage k' p /\ (k <= k')%nat.
Proof.
  induction screens as [|[h ss] screens IH]; intros k a H; cbn [pages_from] in H; [destruct H|].
  apply in_app_or in H as [H|H].
  - apply in_map_iff in H as (p & <- & _). eauto.
  - apply IH in H as (k' & p & -> & H). exists k', p. split; [reflexivity|lia].
Qed.
Lemma nodup_pages screens : forall k, NoDup (pages_from k screens).
Proof.
  induction screens as [|[h ss] screens IH]; intros k; cbn [pages_from]; [constructor|].
  assert (D : NoDup (map (PPage k) (seq 0 (List.length ss)))).
  { apply Injective_map_NoDup; [|apply seq_NoDup]. intros x y E. now injection E. }
  revert D. generalize (seq 0 (List.length ss)). intros l. induction l as [|p l IHl]; intros D; cbn [map app]; [apply IH|].
  cbn [map] in D. apply NoDup_cons_iff in D as [N D]. apply NoDup_cons; [|now apply IHl].
  intros X. apply in_app_or in X as [X|X]; [auto|]. apply pages_from_in in X as (k' & p' & E & L). injection E as <- _. lia.
Qed.
Lemma nodup_places hw screens : NoDup (places hw screens).
Proof.
  unfold places. assert (D : NoDup (pages_from 0 screens ++ [PApprove; PReject])).
  { pose proof (nodup_pages screens 0) as D. revert D.
    assert (X : forall a, In a (pages_from 0 screens) -> exists k p, a = PPage k p).
    { intros a H. apply pages_from_in in H as (k & p & -> & _). eauto. }
    revert X. generalize (pages_from 0 screens). intros l X D. induction l as [|a l IH]; cbn [app].
    - apply NoDup_cons; [intros [Y|[]]; discriminate Y|]. apply NoDup_cons; [intros []|constructor].
    - apply NoDup_cons_iff in D as [N D]. apply NoDup_cons.
      + intros Y. apply in_app_or in Y as [Y|Y]; [auto|]. destruct (X a (or_introl eq_refl)) as (k & p & ->).
        destruct Y as [Y|[Y|[]]]; discriminate Y.
      + apply IH; [intros b Hb; apply X; now right|exact D]. }
  destruct hw; cbn [app]; [exact D|]. apply NoDup_cons; [|exact D]. intros X. apply in_app_or in X as [X|X].
  - apply pages_from_in in X as (k & p & E & _). discriminate E.
  - destruct X as [X|[X|[]]]; discriminate X.
Qed.
Lemma pages_count screens : forall k, List.length (pages_from k screens) = list_sum (map (fun hs => List.length (snd hs)) screens).
Proof.
  induction screens as [|[h ss] screens IH]; intros k; cbn [pages_from map]; [reflexivity|].
  change (list_sum (?x :: ?l)) with (x + list_sum l)%nat. cbn [snd].
  rewrite app_length, map_length, seq_length, IH. reflexivity.
Qed.
Lemma places_count hw screens : List.length (places hw screens) = (presses_needed hw screens + 2)%nat.
Proof. unfold places, presses_needed. rewrite !app_length, pages_count. destruct hw; cbn [List.length]; lia. Qed.
Lemma place_approve hw screens : nth_error (places hw screens) (presses_needed hw screens) = Some PApprove.
Proof.
  unfold places, presses_needed. rewrite app_assoc. rewrite nth_error_app2; rewrite app_length, pages_count; [|destruct hw; cbn [List.length]; lia].
  replace (_ - _)%nat with 0%nat by (destruct hw; cbn [List.length]; lia). reflexivity.
Qed.
Lemma place_reject hw screens : nth_error (places hw screens) (S (presses_needed hw screens)) = Some PReject.
Proof.
  unfold places, presses_needed. rewrite app_assoc. rewrite nth_error_app2; rewrite app_length, pages_count; [|destruct hw; cbn [List.length]; lia].
  replace (_ - _)%nat with 1%nat by (destruct hw; cbn [List.length]; lia). reflexivity.
Qed.

(** ** Screens *)

Section Walk.
  Variable hw : hardware.
  Variable r : review.
  Variable L : N.
  Hypothesis R : rows_of hw r L.
  Hypothesis Small : L < 256.
  Variable screens : list (bytes * list bytes).
  Hypothesis Ls : len screens = L.
  Hypothesis Of : forall k h ss, nth_error screens k = Some (h, ss) -> offers hw r (N.of_nat k) h ss.
  Notation P := (places hw screens).

  Lemma appears_reviewing z a : appears hw screens z a -> reviewing z.
  Proof.
    unfold reviewing. destruct a as [|k p| |]; cbn [appears].
    - intros ->. cbn [In]. tauto.
    - intros (-> & _). destruct hw; cbn [In]; tauto.
    - unfold offers_approval. intros [H _]. destruct hw; [destruct H as [-> _]|rewrite H]; cbn [In]; tauto.
    - unfold offers_rejection. intros [H _]. destruct hw; [destruct H as [-> _]|rewrite H]; cbn [In]; tauto.
  Qed.
  Lemma page_row z k p : appears hw screens z (PPage k p) -> N.of_nat k < L.
  Proof.
    intros (_ & _ & _ & h & ss & s & lines & rest & E & _). apply nth_error_Some' in E. unfold len in Ls. lia.
  Qed.
  Lemma page_items z k p : nav hw r L z -> appears hw screens z (PPage k p) -> z_items z = L + 1 /\ z_item z < L.
  Proof.
    intros Nv A. pose proof (page_row z k p A) as Hk.
    destruct (page_facts hw r L R Small screens Ls Of z k p Nv A Hk) as (h & ss & _ & _ & _ & Ti).
    split; [exact Ti|]. destruct A as (_ & -> & _). exact Hk.
  Qed.

  Lemma appears_one z a b : nav hw r L z -> appears hw screens z a -> appears hw screens z b -> a = b.
  Proof.
    intros Nv A B.
    assert (PA : forall k p x, appears hw screens z (PPage k p) -> appears hw screens z x -> x = PPage k p).
    { intros k p x Ap Ax. destruct (page_items z k p Nv Ap) as [Ti Hi]. destruct Ap as (F & Ek & Ep & _).
      destruct x as [|k' p'| |].
      - cbn [appears] in Ax. rewrite F in Ax. destruct hw; discriminate Ax.
      - destruct Ax as (_ & Ek' & Ep' & _). f_equal; lia.
      - destruct Ax as [Ax _]. unfold offers_approval in Ax. destruct hw; [destruct Ax; lia|congruence].
      - destruct Ax as [Ax _]. unfold offers_rejection in Ax. destruct hw; [destruct Ax; lia|congruence]. }
    destruct a as [|k p| |]; destruct b as [|k' p'| |]; try reflexivity;
      try (exact (PA _ _ _ B A)); try (symmetry; exact (PA _ _ _ A B)); exfalso;
      cbn [appears] in A, B; unfold offers_approval, offers_rejection in A, B; destruct hw;
      repeat match goal with H : _ /\ _ |- _ => destruct H end; try congruence; lia.
  Qed.

  (** One press of an arrow. *)
  Lemma arrow_at z i a b : nav hw r L z -> nth_error P i = Some a -> appears hw screens z a -> arrow b ->
    let z' := fst (press hw (Some r) z b) in
    snd (press hw (Some r) z b) = Stay /\ nav hw r L z' /\
    exists a', nth_error P (walk (S (presses_needed hw screens)) i [b]) = Some a' /\ appears hw screens z' a'.
  Proof.
    intros Nv Hi A Hb z'. pose proof (appears_reviewing z a A) as Rv.
    destruct (arrows_move hw r L R Small screens Ls Of z Nv Rv) as (a0 & A0 & S1 & S2 & (a1 & A1 & M1) & (a2 & A2 & M2)).
    pose proof (appears_one z _ _ Nv A0 A) as ->.
    assert (El : pred (List.length P) = S (presses_needed hw screens)) by (rewrite places_count; lia).
    split; [destruct Hb as [-> | ->]; assumption|]. split; [exact (press_nav hw r L R screens Of z b Nv)|].
    destruct Hb as [-> | ->]; cbn [walk].
    - exists a2. split; [|exact A2]. exact (moves_left P a a2 i (nodup_places hw screens) Hi M2).
    - exists a1. split; [|exact A1]. rewrite <- El. exact (moves_right P a a1 i (nodup_places hw screens) Hi M1).
  Qed.

  (** Both buttons: they decide at the two actions and nowhere else. *)
  Lemma both_at z a : nav hw r L z -> appears hw screens z a ->
    snd (press hw (Some r) z Both) = match a with PApprove => Accept | PReject => Refuse | _ => Stay end.
  Proof.
    intros Nv A. destruct a as [|k p| |].
    - cbn [appears] in A. destruct Nv as [_ Nv]. rewrite A in Nv. unfold press. rewrite Nv. unfold press_x. rewrite A. reflexivity.
    - destruct (page_items z k p Nv A) as [Ti Hi]. destruct A as (F & _).
      assert (Mm : L mod 256 = L) by now apply N.mod_small.
      assert (X : let a := snd (press hw (Some r) z Both) in a <> Crash /\ a <> Refuse /\ a <> Ack /\ a <> Accept).
      { destruct hw eqn:Eh; cbv zeta.
        - destruct (press_s_nav NanoS r L R z Both eq_refl Nv) as (_ & A1 & A2 & A3 & A4). rewrite Mm in *.
          split; [exact A1|]. split; [intros Y; apply A2 in Y; lia|]. split; [intros Y; apply A3 in Y as [Y _]; discriminate Y|].
          intros Y. apply A4 in Y. lia.
        - destruct (press_x_nav NanoX r L R z Both eq_refl Nv) as (_ & A1 & A2 & A3 & A4).
          split; [exact A1|]. split; [intros Y; apply A2 in Y as [_ Y]; congruence|].
          split; [intros Y; apply A3 in Y as [_ Y]; congruence|]. intros Y. apply A4 in Y as [_ Y]. congruence. }
      cbv zeta in X. destruct (snd (press hw (Some r) z Both)); intuition congruence.
    - destruct A as [A _]. unfold offers_approval in A. unfold press. destruct hw.
      + destruct A as [F E]. unfold press_s. rewrite F. unfold is_accept, is_reject.
        replace (z_items z =? 0) with false by lia. replace (z_item z =? z_items z - 1) with true by lia. reflexivity.
      + unfold press_x. rewrite A. reflexivity.
    - destruct A as [A _]. unfold offers_rejection in A. unfold press. destruct hw.
      + destruct A as [F E]. unfold press_s. rewrite F. unfold is_accept, is_reject. rewrite E, N.eqb_refl, orb_true_r.
        destruct Nv as [_ Nv]. rewrite F in Nv. destruct Nv as (_ & Ti & _).
        replace (negb (z_items z =? 0) && (z_items z =? z_items z - 1)) with false by lia. reflexivity.
      + unfold press_x. rewrite A. reflexivity.
  Qed.

  (** The start of a review is the first place. *)
  Lemma start_at z : bufs_ok hw z -> let z0 := fst (zui_show hw r z) in
    nav hw r L z0 /\ exists a, nth_error P 0 = Some a /\ appears hw screens z0 a.
  Proof.
    intros B z0. destruct (show_nav hw r L R z B) as [Nv _]. split; [exact Nv|].
    assert (Lp : 0 < L) by apply R.
    destruct (nth_error screens 0) as [[h ss]|] eqn:E0; [|apply nth_error_None in E0; unfold len in Ls; lia].
    pose proof (Of 0%nat h ss E0) as O0.
    destruct (first_page hw screens (Some_pages hw r screens Of) h ss E0) as (l2 & Ep). rewrite Ep.
    destruct hw eqn:Eh.
    - exists (PPage 0 0). split; [reflexivity|].
      assert (Nn : 0 < len ss) by (destruct O0 as (Nn & _); destruct ss; [easy|]; unfold len; cbn [List.length]; lia).
      assert (Bi : bufs_ok NanoS (paging_init (set_seen [] z))) by exact B.
      pose proof (proj1 (proj2 R)) as Hn. rewrite (N.mod_small L 256 Small) in Hn.
      destruct (update_offers NanoS r L Hn _ 0 h ss Bi eq_refl ltac:(lia) O0 (or_introl Nn) (fun _ => Lp))
        as (z' & s & U & S1 & B' & I1 & T1 & N1 & P1 & _).
      assert (Ez : z0 = snapshot NanoS (set_face Review z')).
      { unfold z0, zui_show. change (set_seen [] (paging_init z)) with (paging_init (set_seen [] z)). rewrite U. reflexivity. }
      apply (page_appears NanoS r L R Small screens Ls Of); [exact Nv| | | |lia].
      + fold z0. rewrite Ez. reflexivity.
      + fold z0. rewrite Ez. cbn [snapshot set_seen set_face z_item]. exact I1.
      + fold z0. rewrite Ez. cbn [snapshot set_seen set_face z_page]. rewrite P1. cbn [paging_init set_pages set_pos z_page].
        replace (0 <? len ss) with true by lia. reflexivity.
    - exists PTitle. split; [reflexivity|]. reflexivity.
  Qed.
End Walk.

(** ** Devices *)

Section Arrows.
  Variables (C : config) (O : oracles) (hw : hardware) (f u : list fault).
  Hypotheses (K : oracles_ok O) (Uok : Forall up_fault_ok u).
  Notation fresh := (ui_fresh hw f u).
  Notation uirun := (ui_run C O known hw).
  Notation at_ is := (snd (uirun fresh is)).
  Notation said is := (fst (uirun fresh is)).
  Notation pending is := (d_ui (u_dev (at_ is))).
  Notation screen is := (u_zui (at_ is)).

  Lemma row_screens v rows k row : view_wf v -> view_shown v = Some rows -> nth_error rows k = Some row -> (k < 256)%nat ->
    ~ unshowable O (snd row) -> exists hs, offers hw (review_of O known hw v) (N.of_nat k) (fst hs) (snd hs) /\
    (entitles (fst row) (fst hs) /\ shows O known (snd row) (concat (snd hs)) /\ (1 <= List.length (snd hs) <= 2)%nat).
  Proof.
    intros W E N Hk Sh. assert (Hs : (18 <= key_size hw)%nat) by (destruct hw; cbn; lia).
    destruct (view_item_row O known (key_size hw) v rows k row K known_sorted known_fit Hs W E N Hk) as (i & V & I').
    destruct (item_displays O known hw v k row i V I') as [(h & t & ss & A & B & (C1 & C2 & C3) & _ & _ & C4)|[U1 _]]; [|now destruct (Sh U1)].
    exists (h, ss). cbn [fst snd]. split; [split; [exact C1|split; [unfold len; lia|exact C3]]|]. split; [exact A|]. split; [now rewrite C2|].
    split; [|exact C4]. destruct ss; [easy|]. cbn [List.length]. lia.
  Qed.

  Lemma press_decides d v z b a e : d_ui d = Some v -> snd (press hw (Some (review_of O known hw v)) z b) = a -> event_of a = [e] ->
    fst (ui_step C O known hw (mkUi d z) (IPress b)) = [fst (step C O d e)] /\
    u_dev (snd (ui_step C O known hw (mkUi d z) (IPress b))) = snd (step C O d e).
  Proof.
    intros U Ea Ee. cbn [ui_step u_dev u_zui]. unfold pending_review. rewrite U.
    destruct (press hw (Some (review_of O known hw v)) z b) as [z' act]. cbn [snd] in Ea. subst act.
    unfold perform. rewrite Ee. cbn [run]. destruct (step C O d e) as [x d']. split; reflexivity.
  Qed.
  Lemma press_stays d v z b : d_ui d = Some v -> snd (press hw (Some (review_of O known hw v)) z b) = Stay ->
    ui_step C O known hw (mkUi d z) (IPress b) = ([], mkUi d (fst (press hw (Some (review_of O known hw v)) z b))).
  Proof.
    intros U Ea. cbn [ui_step u_dev u_zui]. unfold pending_review. rewrite U.
    destruct (press hw (Some (review_of O known hw v)) z b) as [z' act]. cbn [fst snd] in *. subst act. reflexivity.
  Qed.

  Lemma arrows is buf rx v rows : Forall input_ok is -> apdu_ok buf ->
    fst (ui_step C O known hw (at_ is) (IApdu buf rx)) = [APending] ->
    pending (is ++ [IApdu buf rx]) = Some v -> view_sheet v = Some rows -> (List.length rows < 256)%nat ->
    (forall row, In row rows -> ~ unshowable O (snd row)) ->
    let d := u_dev (at_ (is ++ [IApdu buf rx])) in
    exists screens,
      Forall2 (fun row hs => entitles (fst row) (fst hs) /\ shows O known (snd row) (concat (snd hs)) /\ (1 <= List.length (snd hs) <= 2)%nat) rows screens /\
      forall bs, Forall arrow bs ->
      let here := is ++ IApdu buf rx :: map IPress bs in
      let n := presses_needed hw screens in
      let i := walk (S n) 0 bs in
      said here = said is ++ [APending] /\ u_dev (at_ here) = d /\
      (exists a, nth_error (places hw screens) i = Some a /\ appears hw screens (screen here) a) /\
      ((i < n)%nat -> said (here ++ [IPress Both]) = said is ++ [APending] /\ u_dev (at_ (here ++ [IPress Both])) = d) /\
      (i = n -> said (here ++ [IPress Both]) = said is ++ [APending; fst (step C O d EApprove)] /\
        u_dev (at_ (here ++ [IPress Both])) = snd (step C O d EApprove)) /\
      (i = S n -> said (here ++ [IPress Both]) = said is ++ [APending; fst (step C O d EReject)] /\
        u_dev (at_ (here ++ [IPress Both])) = snd (step C O d EReject)).
  Proof.
    intros H Hb Ea U E Sm Sh d. pose proof (small_fits v rows E Sm) as Fi. rewrite <- (view_fits_shown v Fi) in E.
    assert (H' : Forall input_ok (is ++ [IApdu buf rx])) by (apply Forall_app; split; [exact H|constructor; [exact Hb|constructor]]).
    destruct (shown_review C O hw f u K Uok is buf rx H Hb Ea) as (v' & z0 & U' & B & Ez).
    rewrite U in U'. injection U' as <-. fold d in Ez, U.
    destruct (reach C O hw f u K Uok _ H') as (_ & P & _). fold d in P. destruct (P v U) as [_ W].
    pose proof (view_rows_of O known hw K known_sorted known_fit v rows W E) as R.
    set (r := review_of O known hw v) in *.
    destruct (choose_rows rows 0 (fun k hs => offers hw r (N.of_nat k) (fst hs) (snd hs))
      (fun row hs => entitles (fst row) (fst hs) /\ shows O known (snd row) (concat (snd hs)) /\ (1 <= List.length (snd hs) <= 2)%nat)) as (screens & F2 & Fo).
    { intros k row N. pose proof (nth_error_Some' _ _ _ N) as Hk.
      exact (row_screens v rows k row W E N ltac:(lia) (Sh row (nth_error_In _ _ N))). }
    exists screens. split; [exact F2|].
    assert (Ls : len screens = len rows) by (unfold len; now rewrite (Forall2_len _ _ _ F2)).
    assert (Fo' : forall k h ss, nth_error screens k = Some (h, ss) -> offers hw r (N.of_nat k) h ss) by (intros k h ss N; exact (Fo k (h, ss) N)).
    assert (Sl : len rows < 256) by (unfold len; lia).
    set (n := presses_needed hw screens).
    assert (Go : forall bs z i a, Forall arrow bs -> nav hw r (len rows) z -> nth_error (places hw screens) i = Some a -> appears hw screens z a ->
      exists z', uirun (mkUi d z) (map IPress bs) = ([], mkUi d z') /\ nav hw r (len rows) z' /\
      exists a', nth_error (places hw screens) (walk (S n) i bs) = Some a' /\ appears hw screens z' a').
    { intros bs. induction bs as [|b bs IH]; intros z i a Hbs Nv Ni A; [exists z; split; [reflexivity|]; split; [exact Nv|]; exists a; now split|].
      inversion Hbs as [|? ? Hb1 Hb2]; subst.
      destruct (arrow_at hw r (len rows) R Sl screens Ls Fo' z i a b Nv Ni A Hb1) as (St & Nv1 & a1 & Ni1 & A1).
      destruct (IH _ _ _ Hb2 Nv1 Ni1 A1) as (z' & Rn & Nv' & a' & Ni' & A'). exists z'.
      split; [|split; [exact Nv'|]].
      - cbn [map ui_run]. rewrite (press_stays d v z b U St). fold r. rewrite Rn. reflexivity.
      - exists a'. split; [|exact A']. change (b :: bs) with ([b] ++ bs). rewrite walk_app. exact Ni'. }
    destruct (start_at hw r (len rows) R Sl screens Ls Fo' z0 B) as (Nv0 & a0 & Ni0 & A0).
    intros bs Hbs. destruct (Go bs _ _ _ Hbs Nv0 Ni0 A0) as (z & Rn & Nv & a & Ni & A). cbv zeta.
    set (here := is ++ IApdu buf rx :: map IPress bs) in *. fold n. set (i := walk (S n) 0 bs) in *.
    assert (Eh : uirun fresh here = (said is ++ [APending], mkUi d z)).
    { unfold here. change (IApdu buf rx :: map IPress bs) with ([IApdu buf rx] ++ map IPress bs). rewrite app_assoc, ui_run_app.
      rewrite Ez at 1 2. rewrite Rn. cbn [fst snd]. rewrite app_nil_r. f_equal. rewrite ui_run_app, ui_run_one. cbn [fst]. now rewrite Ea. }
    split; [now rewrite Eh|]. split; [now rewrite Eh|]. split; [exists a; rewrite Eh; now split|].
    pose proof (both_at hw r (len rows) R Sl screens Ls Fo' z a Nv A) as Bo.
    rewrite (ui_run_app C O known hw fresh here [IPress Both]), Eh. cbn [fst snd]. rewrite ui_run_one.
    assert (Bi : (i <= S n)%nat) by (apply walk_bound; lia).
    split; [|split]; intros Hi.
    - assert (Na : a <> PApprove /\ a <> PReject).
      { split; intros ->.
        - pose proof (index_unique _ _ _ _ (nodup_places hw screens) Ni (place_approve hw screens)). fold n in H0. lia.
        - pose proof (index_unique _ _ _ _ (nodup_places hw screens) Ni (place_reject hw screens)). fold n in H0. lia. }
      assert (St : snd (press hw (Some r) z Both) = Stay) by (rewrite Bo; destruct a; [reflexivity|reflexivity|now destruct (proj1 Na)|now destruct (proj2 Na)]).
      rewrite (press_stays d v z Both U St). cbn [fst snd u_dev]. rewrite app_nil_r. split; reflexivity.
    - rewrite Hi in Ni. unfold n in Ni. rewrite place_approve in Ni. injection Ni as <-.
      destruct (press_decides d v z Both Accept EApprove U Bo eq_refl) as [A1 A2]. rewrite A1, A2, <- app_assoc. split; reflexivity.
    - rewrite Hi in Ni. unfold n in Ni. rewrite place_reject in Ni. injection Ni as <-.
      destruct (press_decides d v z Both Refuse EReject U Bo eq_refl) as [A1 A2]. rewrite A1, A2, <- app_assoc. split; reflexivity.
  Qed.
End Arrows.
