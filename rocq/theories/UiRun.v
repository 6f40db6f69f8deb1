(** Histories of the device with its screen and buttons. *)
From Coq Require Import NArith Bool Arith String List Lia.
From Coq Require Import ZifyBool ZifyNat ZifyN.
From Verif Require Import Base BaseFacts Flash Oracles Address AddressSpec AddressExamples Upload UploadSpec UploadFacts Operations OperationsSpec OperationsFacts
  Text TextSpec TextFacts Bakers BakersSpec Device DeviceSpec DeviceFacts DeviceProofs DeviceSigs DeviceReviews DeviceCases
  Screens ScreensSpec ScreensFacts ScreensViews ScreensPages ScreensDevice Zui UiSpec ZuiFacts ZuiNav UiDevice UiFacts.
Import ListNotations.
Open Scope list_scope.
Open Scope N_scope.

Definition input_ok (i : input) : Prop := match i with IApdu buf _ => apdu_ok buf | _ => True end.

(** ** Rows of a review *)

Lemma view_none v : view_wf v -> view_shown v = None -> view_items v = VErr Unknown.
Proof.
  destruct v as [? ? [[branch ops]|] ?|? ? ? ? ?| | | | |]; cbn [view_shown view_sheet]; try discriminate.
  cbn [view_wf view_items]. intros (_ & _ & W). destruct ops as [src n]. cbn [eo_source eo_read] in *. subst n. unfold batch_fuel. cbn [eo_source].
  pose proof (eo_all_spec (S (List.length src)) src 0 ltac:(lia) ltac:(lia)) as A.
  destruct (eo_all _ _); try contradiction; try discriminate. reflexivity.
Qed.

Section Rows.
  Variables (O : oracles) (table : list baker) (hw : hardware).
  Hypotheses (K : oracles_ok O) (St : sorted table) (Fit : names_fit table).

  Lemma shown_nonempty v rows : view_shown v = Some rows -> rows <> [].
  Proof.
    destruct v as [? ? [[branch ops]|] ?|? ? ? ? ?| | | | |]; cbn [view_shown view_sheet]; intros E;
      try (injection E as <-; discriminate).
    destruct (eo_all _ _); try discriminate. injection E as <-. discriminate.
  Qed.

  Lemma row_offers v rows k row : view_wf v -> view_shown v = Some rows -> nth_error rows k = Some row -> (k < 256)%nat ->
    (exists h ss, offers hw (review_of O table hw v) (N.of_nat k) h ss /\ entitles (fst row) h /\ shows O table (snd row) (concat ss))
    \/ (unshowable O (snd row) /\ refuses hw (review_of O table hw v) (N.of_nat k) Unknown).
  Proof.
    intros W E N Hk. assert (Hs : (18 <= key_size hw)%nat) by (destruct hw; cbn; lia).
    destruct (view_item_row O table (key_size hw) v rows k row K St Fit Hs W E N Hk) as (i & V & I').
    destruct (item_displays O table hw v k row i V I') as [(h & t & ss & A & B & (C1 & C2 & C3) & _ & _ & C4)|[U1 U2]].
    - left. exists h, ss. split; [|split; [exact A|now rewrite C2]]. split; [exact C1|]. split; [unfold len; lia|exact C3].
    - right. split; [exact U1|exact U2].
  Qed.

  Lemma view_rows_of v rows : view_wf v -> view_shown v = Some rows -> rows_of hw (review_of O table hw v) (len rows).
  Proof.
    intros W E. split; [|split].
    - pose proof (shown_nonempty v rows E). destruct rows; [easy|]. unfold len. cbn [List.length]. lia.
    - now apply view_items_shown.
    - intros k Hk. split; intros Hl.
      + destruct (nth_error rows (N.to_nat k)) as [row|] eqn:N; [|apply nth_error_None in N; unfold len in Hl; lia].
        pose proof (row_offers v rows _ row W E N ltac:(lia)) as X. rewrite N2Nat.id in X.
        destruct X as [(h & ss & X & _)|[_ X]]; eauto.
      + intros key out page _ _. cbn [review_of r_render]. unfold view_render. replace k with (N.of_nat (N.to_nat k)) by lia.
        rewrite (view_item_none O table _ v rows (N.to_nat k) W E); [reflexivity|]. unfold len in Hl. lia.
  Qed.

  (** The pages of a covered review. *)
  Lemma covered_rows v rows z k row : view_wf v -> view_shown v = Some rows ->
    covered hw (review_of O table hw v) (len rows) z ->
    nth_error rows k = Some row -> N.of_nat k < len rows mod 256 -> N.of_nat k < z_item z ->
    row_seen O table hw (z_seen z) row.
  Proof.
    intros W E [Cv1 Cv2] N Hk Hi. assert (H256 : (k < 256)%nat) by (pose proof (N.mod_lt (len rows) 256 ltac:(lia)); lia).
    destruct (Cv1 _ Hk Hi) as (h & ss & Of).
    destruct (row_offers v rows k row W E N H256) as [(h' & ss' & Of' & Et & Sh)|[_ Rf]].
    2: { destruct (offers_refuses _ _ _ _ _ _ Of Rf). }
    destruct (offers_det _ _ _ _ _ _ _ Of Of') as [<- <-].
    exists h, (concat ss), ss. split; [exact Et|]. split; [exact Sh|]. split; [reflexivity|].
    intros p s Np. apply (Cv2 _ _ _ _ _ Of Hk Np). now left.
  Qed.
End Rows.

(** ** Invariant *)

Section Run.
  Variables (C : config) (O : oracles) (table : list baker) (hw : hardware).
  Hypotheses (K : oracles_ok O) (St : sorted table) (Fit : names_fit table).
  Notation review_of := (review_of O table hw).

  (** A pending review is well-formed. *)
  Definition proper (d : dev) : Prop := forall v, d_ui d = Some v -> view_ok O v /\ view_wf v.

  Definition good (s : uidev) : Prop :=
    ranged hw (pending_review O table hw (u_dev s)) (u_zui s) /\
    forall v, d_ui (u_dev s) = Some v ->
    match view_shown v with
    | Some rows => nav hw (review_of v) (len rows) (u_zui s)
    | None => match z_face (u_zui s) with Failure | Title => True | _ => False end
    end.

  (** The events of the device behind some inputs. *)
  Definition events_of_input (s : uidev) (i : input) : list event :=
    match i with
    | IApdu buf rx => [EApdu buf rx]
    | IPress b => event_of (snd (press hw (pending_review O table hw (u_dev s)) (u_zui s) b))
    | IPower => [EPower]
    end.
  Fixpoint events_of (s : uidev) (is : list input) : list event :=
    match is with
    | [] => []
    | i :: is' => events_of_input s i ++ events_of (snd (ui_step C O table hw s i)) is'
    end.

  Lemma run_pair d es1 es2 : run C O d (es1 ++ es2) =
    (fst (run C O d es1) ++ fst (run C O (snd (run C O d es1)) es2), snd (run C O (snd (run C O d es1)) es2)).
  Proof.
    revert d. induction es1 as [|e es1 IH]; intros d; cbn [app run].
    - cbn [fst snd app]. now destruct (run C O d es2).
    - destruct (step C O d e) as [a d1]. rewrite IH. now destruct (run C O d1 es1).
  Qed.

  (** Showing a review does not decide it. *)
  Lemma show_good d v z : d_ui d = Some v -> proper d -> bufs_ok hw z ->
    snd (zui_show hw (review_of v) z) = Stay /\ good (mkUi d (fst (zui_show hw (review_of v) z))).
  Proof.
    intros U P B. destruct (P v U) as [V W]. pose proof (view_tame O table hw v V) as T.
    destruct (show_ranged hw (review_of v) T z B) as [A _].
    assert (Q : snd (zui_show hw (review_of v) z) = Stay /\
      match view_shown v with
      | Some rows => nav hw (review_of v) (len rows) (fst (zui_show hw (review_of v) z))
      | None => match z_face (fst (zui_show hw (review_of v) z)) with Failure | Title => True | _ => False end
      end).
    { destruct (view_shown v) as [rows|] eqn:E.
      - destruct (show_nav hw (review_of v) (len rows) (view_rows_of O table hw K St Fit v rows W E) z B). auto.
      - pose proof (view_none v W E) as N. unfold zui_show. destruct hw eqn:Eh; [|split; [reflexivity|exact Logic.I]].
        rewrite <- Eh. unfold update_data. cbn [UiDevice.review_of r_items]. rewrite N. cbn. auto. }
    destruct Q as [Q1 Q2]. split; [exact Q1|].
    unfold after in A. rewrite Q1 in A. split.
    - unfold pending_review. cbn [u_dev u_zui]. rewrite U. exact A.
    - cbn [u_dev u_zui]. intros v' U'. assert (v' = v) as -> by congruence. exact Q2.
  Qed.

  Lemma press_good d z b : good (mkUi d z) -> proper d ->
    let a := snd (press hw (pending_review O table hw d) z b) in
    let z' := fst (press hw (pending_review O table hw d) z b) in
    a <> Crash /\ deliberate hw z b a /\ (a = Accept \/ a = Refuse -> d_ui d <> None) /\
    match a with Stay => good (mkUi d z') | _ => ranged hw None z' end.
  Proof.
    intros [Rg Nv] P. cbn [u_dev u_zui] in *. cbv zeta. unfold pending_review in *.
    destruct (d_ui d) as [v|] eqn:U.
    - destruct (P v U) as [V W]. pose proof (view_tame O table hw v V) as T. specialize (Nv v eq_refl).
      destruct (press_ranged hw (review_of v) T z b Rg) as [A D]. unfold after in A.
      assert (Q : snd (press hw (Some (review_of v)) z b) <> Crash /\
        (snd (press hw (Some (review_of v)) z b) = Stay ->
         match view_shown v with
         | Some rows => nav hw (review_of v) (len rows) (fst (press hw (Some (review_of v)) z b))
         | None => match z_face (fst (press hw (Some (review_of v)) z b)) with Failure | Title => True | _ => False end
         end)).
      { destruct (view_shown v) as [rows|] eqn:E.
        - pose proof (view_rows_of O table hw K St Fit v rows W E) as R.
          destruct hw eqn:Eh; rewrite <- Eh in *.
          + destruct (press_s_nav hw (review_of v) (len rows) R z b Eh Nv) as (N1 & N2 & _). auto.
          + destruct (press_x_nav hw (review_of v) (len rows) R z b Eh Nv) as (N1 & N2 & _). auto.
        - pose proof (view_none v W E) as N. unfold press.
          destruct hw eqn:Eh; rewrite <- Eh in *.
          + unfold press_s. destruct (z_face z) eqn:Fz; try contradiction;
              destruct b; cbn [fst snd]; rewrite ?Fz; split; try discriminate; intros; try discriminate; exact Logic.I.
          + unfold press_x. destruct (z_face z) eqn:Fz; try contradiction;
              destruct b; cbn [fst snd]; rewrite ?Fz; try (split; try discriminate; intros; try discriminate; exact Logic.I).
            unfold update_data. cbn [UiDevice.review_of r_items]. rewrite N. cbn [put_page fst snd show_error set_face z_face].
            split; [discriminate|]. intros _. exact Logic.I. }
      destruct Q as [Q1 Q2]. split; [exact Q1|]. split; [exact D|]. split; [discriminate|].
      destruct (snd (press hw (Some (review_of v)) z b)) eqn:Ea; try exact A.
      split; cbn [u_dev u_zui]; [unfold pending_review; rewrite U; exact A|].
      intros v' U'. assert (v' = v) as -> by congruence. exact (Q2 eq_refl).
    - destruct (press_none hw z b Rg) as [A [Ea|[Ea Fz]]]; unfold after in A; rewrite Ea in *.
      + split; [discriminate|]. split; [exact Logic.I|]. split; [intros [X|X]; discriminate X|].
        split; cbn [u_dev u_zui]; [unfold pending_review; rewrite U; exact A|]. intros v' U'. congruence.
      + split; [discriminate|]. split; [exact Fz|]. split; [intros [X|X]; discriminate X|exact A].
  Qed.

  Lemma none_good d z : d_ui d = None -> ranged hw None z -> good (mkUi d z).
  Proof.
    intros U R. split; cbn [u_dev u_zui]; [unfold pending_review; rewrite U; exact R|]. intros v U'. congruence.
  Qed.

  Lemma decided_none d a : a = EApprove \/ a = EReject \/ a = EUiError -> d_ui (snd (step C O d a)) = None.
  Proof.
    intros H. destruct (d_ui d) eqn:U.
    - destruct (pending_step C O d a) as [[A _]|[_ E]]; [congruence| |exact E].
      destruct H as [->|[->| ->]]; destruct A.
    - destruct H as [->|[->| ->]]; cbn [step]; unfold decide; rewrite U; exact U.
  Qed.

  Lemma perform_good a z d : a <> Crash -> match a with Stay => good (mkUi d z) | _ => ranged hw None z end ->
    good (snd (perform C O hw a z d)) /\
    run C O d (event_of a) = (fst (perform C O hw a z d), u_dev (snd (perform C O hw a z d))).
  Proof.
    intros Na G. unfold perform. split; [|now destruct (run C O d (event_of a))].
    destruct a; try congruence; cbn [event_of run].
    - exact G.
    - pose proof (decided_none d EApprove (or_introl eq_refl)) as U. destruct (step C O d EApprove) as [x d'].
      cbn [snd] in *. apply none_good; [exact U|]. destruct (existsb died [x]); [apply start_ranged|exact G].
    - pose proof (decided_none d EReject (or_intror (or_introl eq_refl))) as U. destruct (step C O d EReject) as [x d'].
      cbn [snd] in *. apply none_good; [exact U|]. destruct (existsb died [x]); [apply start_ranged|exact G].
    - pose proof (decided_none d EUiError (or_intror (or_intror eq_refl))) as U. destruct (step C O d EUiError) as [x d'].
      cbn [snd] in *. apply none_good; [exact U|]. destruct (existsb died [x]); [apply start_ranged|exact G].
  Qed.

  Lemma ui_step_good s i : input_ok i -> good s -> proper (u_dev s) ->
    (forall buf rx, i = IApdu buf rx -> proper (snd (step C O (u_dev s) (EApdu buf rx)))) ->
    good (snd (ui_step C O table hw s i)) /\
    run C O (u_dev s) (events_of_input s i) = (fst (ui_step C O table hw s i), u_dev (snd (ui_step C O table hw s i))).
  Proof.
    intros Hi G P Pa. destruct s as [d z]. cbn [u_dev u_zui] in *. destruct i as [buf rx|b|]; cbn [ui_step events_of_input u_dev u_zui].
    - cbn [input_ok] in Hi. specialize (Pa buf rx eq_refl). cbn [run].
      destruct (d_ui d) as [v|] eqn:U.
      + destruct (pending_step C O d (EApdu buf rx)) as [[_ E]|[[] _]]; [congruence| |exact Logic.I].
        rewrite E. cbn [snd fst u_dev died]. split; [exact G|reflexivity].
      + destruct (step_requested C O d (EApdu buf rx) Hi U) as [(Ea & v & Uv & _)|(Ea & Uv)].
        * destruct (step C O d (EApdu buf rx)) as [a d']. cbn [fst snd] in *. subst a. rewrite Uv.
          destruct (show_good d' v z Uv Pa) as [Sa Sg]. { apply G. }
          destruct (zui_show hw (review_of v) z) as [z' act]. cbn [fst snd] in *. subst act.
          unfold perform. cbn [event_of run existsb fst snd u_dev]. split; [exact Sg|reflexivity].
        * destruct (step C O d (EApdu buf rx)) as [a d']. cbn [fst snd] in *.
          assert (R : ranged hw None z) by (destruct G as [R _]; unfold pending_review in R; cbn [u_dev u_zui] in R; rewrite U in R; exact R).
          replace (match a, d_ui d' with
            | APending, Some v => let (z0, act) := zui_show hw (review_of v) z in let (l, s') := perform C O hw act z0 d' in (a :: l, s')
            | _, _ => ([a], mkUi d' (if died a then zui_start hw else z)) end)
            with ([a], mkUi d' (if died a then zui_start hw else z)) by (destruct a; rewrite ?Uv; reflexivity).
          cbn [fst snd u_dev]. split; [|reflexivity]. apply none_good; [exact Uv|]. destruct (died a); [apply start_ranged|exact R].
    - pose proof (press_good d z b G P) as (Na & _ & _ & G'). cbv zeta in *.
      destruct (press hw (pending_review O table hw d) z b) as [z' a]. cbn [fst snd] in *.
      exact (perform_good a z' d Na G').
    - cbn [step run fst snd u_dev]. split; [|reflexivity]. apply none_good; [reflexivity|apply start_ranged].
  Qed.

  Lemma fresh_good f u : good (ui_fresh hw f u).
  Proof. apply none_good; [reflexivity|apply start_ranged]. Qed.

  Lemma ui_run_app s is1 is2 : ui_run C O table hw s (is1 ++ is2) =
    (fst (ui_run C O table hw s is1) ++ fst (ui_run C O table hw (snd (ui_run C O table hw s is1)) is2),
     snd (ui_run C O table hw (snd (ui_run C O table hw s is1)) is2)).
  Proof.
    revert s. induction is1 as [|i is1 IH]; intros s; cbn [app ui_run].
    - cbn [fst snd app]. now destruct (ui_run C O table hw s is2).
    - destruct (ui_step C O table hw s i) as [a s1]. rewrite IH. destruct (ui_run C O table hw s1 is1). cbn [fst snd].
      now rewrite app_assoc.
  Qed.
  Lemma events_of_app s is1 is2 : events_of s (is1 ++ is2) = events_of s is1 ++ events_of (snd (ui_run C O table hw s is1)) is2.
  Proof.
    revert s. induction is1 as [|i is1 IH]; intros s; cbn [app ui_run events_of]; [reflexivity|].
    rewrite IH, <- app_assoc. destruct (ui_step C O table hw s i) as [a s1]. cbn [snd]. now destruct (ui_run C O table hw s1 is1).
  Qed.
  Lemma ui_run_one s i : ui_run C O table hw s [i] = ui_step C O table hw s i.
  Proof. cbn [ui_run]. destruct (ui_step C O table hw s i) as [a s1]. cbn. now rewrite app_nil_r. Qed.

  Lemma events_ok s is : Forall input_ok is -> Forall event_ok (events_of s is).
  Proof.
    intros H. revert s. induction H as [|i is Hi His IH]; intros s; cbn [events_of]; [constructor|].
    apply Forall_app. split; [|apply IH]. destruct i as [buf rx|b|]; cbn [events_of_input].
    - constructor; [exact Hi|constructor].
    - destruct (snd (press _ _ _ _)); repeat constructor.
    - repeat constructor.
  Qed.

  Variables (f u : list fault).
  Hypothesis Uok : Forall up_fault_ok u.
  Notation fresh := (ui_fresh hw f u).
  Notation at_ is := (snd (ui_run C O table hw fresh is)).

  (** A history of inputs is a history of the device. *)
  Lemma ui_reach is : Forall input_ok is ->
    good (at_ is) /\ proper (u_dev (at_ is)) /\
    run C O (dev_fresh f u) (events_of fresh is) = (fst (ui_run C O table hw fresh is), u_dev (at_ is)).
  Proof.
    assert (Pr : forall es d, Forall event_ok es -> d = snd (run C O (dev_fresh f u) es) -> proper d).
    { intros es d He -> v U. split; [exact (reach_ui C O f u es He v U)|exact (pending_wf C O f u es v K Uok He U)]. }
    induction is as [|i is IH] using rev_ind; intros Hi.
    - split; [apply fresh_good|]. split; [|reflexivity]. intros v U. discriminate U.
    - apply Forall_app in Hi as [H1 H2]. inversion H2 as [|? ? H2' _]; subst. destruct (IH H1) as (G & P & R).
      destruct (ui_step_good (at_ is) i H2' G P) as [G' R'].
      { intros buf rx ->. apply (Pr (events_of fresh is ++ [EApdu buf rx])).
        - apply Forall_app. split; [now apply events_ok|]. constructor; [exact H2'|constructor].
        - rewrite run_pair, R. cbn [fst snd]. cbn [run]. now destruct (step C O (u_dev (at_ is)) (EApdu buf rx)). }
      assert (E : run C O (dev_fresh f u) (events_of fresh (is ++ [i])) =
        (fst (ui_run C O table hw fresh (is ++ [i])), u_dev (at_ (is ++ [i])))).
      { rewrite events_of_app, run_pair, R. cbn [fst snd]. cbn [events_of]. rewrite app_nil_r, R'.
        rewrite ui_run_app, ui_run_one. reflexivity. }
      assert (Ea : at_ (is ++ [i]) = snd (ui_step C O table hw (at_ is) i)) by (rewrite ui_run_app, ui_run_one; reflexivity).
      split; [rewrite Ea; exact G'|]. split; [|exact E].
      apply (Pr (events_of fresh (is ++ [i]))); [apply events_ok, Forall_app; auto|]. now rewrite E.
  Qed.
End Run.
