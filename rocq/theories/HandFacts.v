(** Requests decided by hand: the host's packets and the user's buttons together. *)
From Coq Require Import NArith ZArith Bool Arith String List Lia.
From Coq Require Import ZifyBool ZifyNat ZifyN.
From Verif Require Import Base BaseFacts Flash Codecs CodecsSpec Oracles Address AddressSpec AddressExamples Upload UploadSpec UploadFacts
  Baking BakingSpec Operations OperationsSpec OperationsFacts OperationsExamples
  Text TextSpec TextFacts TextExamples Bakers BakersSpec Device DeviceSpec ServiceSpec DeviceFacts DeviceProofs DeviceSigs DeviceReviews DeviceCases DeviceAnswers
  DeviceLive DeviceAdmin DeviceCommands Screens ScreensSpec ScreensFacts ScreensViews ScreensPages ScreensDevice ScreensExamples
  Zui UiSpec ZuiFacts ZuiNav ZuiReach ZuiMoves UiDevice UiFacts UiRun UiCases HandSpec ClientText.
Import ListNotations.
Open Scope list_scope.
Open Scope N_scope.

Lemma app_inj_len {A} (a b c d : list A) : a ++ b = c ++ d -> List.length a = List.length c -> a = c /\ b = d.
Proof.
  revert c. induction a as [|x a IH]; intros [|y c] E L; try discriminate L; [auto|].
  cbn [app] in E. assert (x = y) by congruence. destruct (IH c) as [-> ->]; [congruence|now injection L|]. subst. auto.
Qed.

(** ** Expert mode is switched on by its menu entry only *)

Section Expert.
  Variable hw : hardware.
  Notation off z := (z_expert z = false).
  Definition kept (u : update) : Prop := match u with Shown z | Failed _ z => off z | Dead => True end.

  Lemma render_kept r z p : off z -> kept (render_page hw r z p).
  Proof.
    intros H. unfold render_page. destruct (r_render r _ _ _ _) as [[[? ?] ?]| |]; try exact H; try exact Logic.I.
    destruct (lines_of hw _); [exact H|exact Logic.I].
  Qed.
  Lemma mark_kept z : off z -> off (mark_page hw z).
  Proof. intros H. unfold mark_page. destruct (1 <? z_pages z); [|exact H]. destruct (_ <? _)%nat; exact H. Qed.
  Lemma increase_kept z : off z -> off (paging_increase hw z).
  Proof. intros H. unfold paging_increase. destruct (_ <? _); [exact H|]. destruct (more_items hw z); exact H. Qed.
  Lemma decrease_kept z : off z -> off (paging_decrease z).
  Proof. intros H. unfold paging_decrease. destruct (negb _); [exact H|]. destruct (0 <? z_item z); exact H. Qed.
  Lemma item_kept fuel : forall r z, off z -> kept (show_item hw fuel r z).
  Proof.
    induction fuel as [|fuel IH]; intros r z H; cbn [show_item]; [exact Logic.I|].
    pose proof (render_kept r z 0 H) as H1. destruct (render_page hw r z 0) as [z1|e z1|]; [|exact H1|exact Logic.I].
    cbn [kept] in H1.
    set (z2 := if _ : bool then set_pos _ _ z1 else z1).
    assert (H2 : off z2) by (unfold z2; destruct (negb _ && _); exact H1). clearbody z2.
    pose proof (render_kept r z2 (z_page z2) H2) as H3. destruct (render_page hw r z2 (z_page z2)) as [z3|e z3|]; [|exact H3|exact Logic.I].
    cbn [kept] in H3. pose proof (mark_kept z3 H3) as H4.
    destruct (z_pages (mark_page hw z3) =? 0); [|exact H4]. apply IH, increase_kept, H4.
  Qed.
  Lemma update_kept o z : off z -> kept (update_data hw o z).
  Proof.
    intros H. unfold update_data. destruct o as [r|]; [|exact H]. destruct (r_items r) as [n|e|]; [|exact H|exact Logic.I].
    destruct (_ && _); [exact H|]. destruct (_ && _); [exact H|]. apply item_kept. exact H.
  Qed.
  Lemma put_review_kept u : kept u -> off (fst (put_review hw u)).
  Proof. destruct u as [z|[| |] z|]; intros H; solve [exact H|reflexivity]. Qed.
  Lemma put_page_kept u : kept u -> off (fst (put_page hw u)).
  Proof. destruct u as [z|[| |] z|]; intros H; solve [exact H|reflexivity]. Qed.
  Lemma show_kept r z : off z -> off (fst (zui_show hw r z)).
  Proof.
    intros H. unfold zui_show. destruct hw eqn:E; rewrite <- ?E.
    - apply put_review_kept, update_kept. exact H.
    - cbn [fst set_inside set_face z_expert]. apply decrease_kept. exact H.
  Qed.
  Lemma press_kept o z b : b <> Toggle -> off z -> off (fst (press hw o z b)).
  Proof.
    intros Nt H. unfold press. destruct hw eqn:E.
    - unfold press_s. destruct (z_face z), b; try (destruct (Nt eq_refl)); try exact H;
        rewrite <- ?E; try (apply put_review_kept, update_kept; auto using increase_kept, decrease_kept).
      rewrite H. destruct (is_accept z || is_reject z); exact H.
    - unfold press_x. destruct (z_face z), b; try (destruct (Nt eq_refl)); try exact H; rewrite <- ?E.
      + apply put_page_kept, update_kept. exact H.
      + destruct (can_decrease z); [|exact H]. apply put_page_kept, update_kept, decrease_kept, H.
      + pose proof (update_kept o _ (increase_kept z H)) as U. destruct (update_data hw o _) as [z'|[| |] z'|]; solve [exact U|reflexivity].
      + apply put_page_kept, update_kept, decrease_kept, H.
  Qed.
End Expert.

Section Hand.
  Variables (C : config) (O : oracles) (hw : hardware) (f u : list fault).
  Hypotheses (K : oracles_ok O) (Uok : Forall up_fault_ok u).
  Notation fresh := (ui_fresh hw f u).
  Notation uirun := (ui_run C O known hw).
  Notation at_ is := (snd (ui_run C O known hw fresh is)).
  Notation said is := (fst (ui_run C O known hw fresh is)).
  Notation pending is := (d_ui (u_dev (at_ is))).
  Notation screen is := (u_zui (at_ is)).
  Notation decision is b := (snd (press hw (pending_review O known hw (u_dev (at_ is))) (screen is) b)).

  (** Nothing but the menu entry switches expert mode on. *)
  Lemma step_kept s i : i <> IPress Toggle -> z_expert (u_zui s) = false -> z_expert (u_zui (snd (ui_step C O known hw s i))) = false.
  Proof.
    intros Ni H.
    assert (P : forall a z d, z_expert z = false -> z_expert (u_zui (snd (perform C O hw a z d))) = false).
    { intros a z d Hz. unfold perform. destruct (run C O d (event_of a)) as [l d']. cbn [snd u_zui].
      destruct (existsb died l); [reflexivity|exact Hz]. }
    destruct i as [buf rx|b|]; cbn [ui_step].
    - destruct (step C O (u_dev s) (EApdu buf rx)) as [a d].
      assert (Q : z_expert (u_zui (mkUi d (if died a then zui_start hw else u_zui s))) = false)
        by (cbn [u_zui]; destruct (died a); [reflexivity|exact H]).
      destruct a; try exact Q. destruct (d_ui d) as [v|]; [|exact Q].
      pose proof (show_kept hw (review_of O known hw v) (u_zui s) H) as S1.
      destruct (zui_show hw (review_of O known hw v) (u_zui s)) as [z act]. cbn [fst] in S1.
      pose proof (P act z d S1) as S2. destruct (perform C O hw act z d). exact S2.
    - pose proof (press_kept hw (pending_review O known hw (u_dev s)) (u_zui s) b) as S1.
      destruct (press hw (pending_review O known hw (u_dev s)) (u_zui s) b) as [z a]. apply P, S1; [congruence|exact H].
    - destruct (step C O (u_dev s) EPower). reflexivity.
  Qed.
  Lemma run_kept is' : forall s, ~ In (IPress Toggle) is' -> z_expert (u_zui s) = false -> z_expert (u_zui (snd (uirun s is'))) = false.
  Proof.
    induction is' as [|i is' IH]; intros s Ni H; [exact H|]. cbn [ui_run].
    pose proof (step_kept s i (fun E => Ni (or_introl E)) H) as H1.
    destruct (ui_step C O known hw s i) as [a s1]. cbn [snd] in H1. specialize (IH s1 (fun E => Ni (or_intror E)) H1).
    destruct (uirun s1 is'). exact IH.
  Qed.

  (** At the screen that offers to approve, the next one offers to reject. *)
  Lemma refusal_next r L z : rows_of hw r L -> at_approval hw r L z ->
    snd (press hw (Some r) z Right) = Stay /\ snd (press hw (Some r) (fst (press hw (Some r) z Right)) Both) = Refuse.
  Proof.
    intros R [Nv Ap]. unfold press. destruct hw eqn:Eh.
    - destruct Ap as [Fz Ei]. destruct Nv as [B Nv]. rewrite Fz in Nv. destruct Nv as (_ & Ti & _ & _ & N2 & _).
      destruct (N2 ltac:(lia)) as (P0 & P1 & _).
      assert (E : paging_increase NanoS z = set_pos (L mod 256 + 1) 0 z).
      { unfold paging_increase, more_items. replace (z_page z + 1 <? z_pages z) with false by lia.
        rewrite Ti, Ei. replace ((0 <? L mod 256 + 1) && (L mod 256 <? L mod 256 + 1 - 1 + actions NanoS)) with true by (cbn; lia). reflexivity. }
      destruct (update_label NanoS r (L mod 256) (proj1 (proj2 R)) (set_pos (L mod 256 + 1) 0 z) eq_refl B (or_intror eq_refl))
        as (z' & U & _ & _ & I1 & T1 & _).
      unfold press_s at 1 3. rewrite Fz, E, U. cbn [put_review fst snd]. split; [reflexivity|].
      unfold press_s. cbn [snapshot set_seen set_face z_face].
      change (is_accept (snapshot NanoS (set_face Review z'))) with (is_accept z').
      change (is_reject (snapshot NanoS (set_face Review z'))) with (is_reject z').
      cbn [z_item set_pos] in I1. unfold is_accept, is_reject. cbn [snapshot set_seen set_face z_item z_items]. rewrite I1, T1.
      replace (L mod 256 + 1 =? L mod 256 + 1) with true by lia.
      replace (negb (L mod 256 + 1 =? 0) && (L mod 256 + 1 =? L mod 256 + 1 - 1)) with false by lia. reflexivity.
    - unfold press_x. rewrite Ap. cbn. auto.
  Qed.

  (** What a button makes of the pending review. *)
  Lemma decided_by s b a e : snd (press hw (pending_review O known hw (u_dev s)) (u_zui s) b) = a -> event_of a = [e] ->
    fst (ui_step C O known hw s (IPress b)) = [fst (step C O (u_dev s) e)] /\
    u_dev (snd (ui_step C O known hw s (IPress b))) = snd (step C O (u_dev s) e).
  Proof.
    intros Ea Ee. cbn [ui_step]. destruct (press hw (pending_review O known hw (u_dev s)) (u_zui s) b) as [z act]. cbn [snd] in Ea. subst act.
    unfold perform. rewrite Ee. cbn [run]. destruct (step C O (u_dev s) e) as [x d']. split; reflexivity.
  Qed.

  (** A review of less than 256 rows that can be shown, decided by hand. *)
  Lemma by_hand is buf rx v rows : Forall input_ok is -> apdu_ok buf ->
    fst (ui_step C O known hw (at_ is) (IApdu buf rx)) = [APending] ->
    pending (is ++ [IApdu buf rx]) = Some v -> view_sheet v = Some rows -> (List.length rows < 256)%nat ->
    (forall row, In row rows -> ~ unshowable O (snd row)) ->
    let d := u_dev (at_ (is ++ [IApdu buf rx])) in
    exists m, let read := is ++ IApdu buf rx :: repeat (IPress Right) m in
      said read = said is ++ [APending] /\ said (read ++ [IPress Right]) = said is ++ [APending] /\
      (hw = NanoX \/ z_expert (screen is) = false -> Forall (row_seen O known hw (z_seen (screen read))) rows) /\
      (said (read ++ [IPress Both]) = said is ++ [APending; fst (step C O d EApprove)] /\
       u_dev (at_ (read ++ [IPress Both])) = snd (step C O d EApprove)) /\
      (said (read ++ [IPress Right; IPress Both]) = said is ++ [APending; fst (step C O d EReject)] /\
       u_dev (at_ (read ++ [IPress Right; IPress Both])) = snd (step C O d EReject)).
  Proof.
    intros H Hb Ea U E Sm Sh d. pose proof (small_fits v rows E Sm) as Fi. rewrite <- (view_fits_shown v Fi) in E.
    assert (H' : Forall input_ok (is ++ [IApdu buf rx])) by (apply Forall_app; split; [exact H|constructor; [exact Hb|constructor]]).
    destruct (shown_review C O hw f u K Uok is buf rx H Hb Ea) as (v' & z0 & U' & B & Ez). assert (v' = v) as -> by congruence. clear U'.
    destruct (reach C O hw f u K Uok _ H') as (G & P & _). destruct (P v U) as [_ W].
    pose proof (view_rows_of O known hw K known_sorted known_fit v rows W E) as R.
    set (r := review_of O known hw v) in *.
    assert (Ln : len rows mod 256 = len rows) by (apply N.mod_small; unfold len; lia).
    assert (Of : forall k row, nth_error rows k = Some row -> exists h ss, offers hw r (N.of_nat k) h ss /\ entitles (fst row) h /\ shows O known (snd row) (concat ss)).
    { intros k row N. pose proof (nth_error_Some' _ _ _ N) as Hk.
      destruct (row_offers O known hw K known_sorted known_fit v rows k row W E N ltac:(lia)) as [X|[X _]]; [exact X|].
      destruct (Sh row (nth_error_In _ _ N) X). }
    assert (All : forall k, k < len rows mod 256 -> exists h ss, offers hw r k h ss).
    { intros k Hk. rewrite Ln in Hk. destruct (nth_error rows (N.to_nat k)) as [row|] eqn:N; [|apply nth_error_None in N; unfold len in Hk; lia].
      destruct (Of _ _ N) as (h & ss & X & _). rewrite N2Nat.id in X. eauto. }
    assert (Hn : 0 < len rows mod 256).
    { rewrite Ln. pose proof (shown_nonempty v rows E). destruct rows; [easy|]. unfold len. cbn [List.length]. lia. }
    destruct (approval_reachable hw r (len rows) R All z0 B Hn (fun _ => eq_sym Ln)) as (m & Ap & Ac).
    destruct (refusal_next r (len rows) _ R Ap) as [St Rf].
    set (zm := rights hw r m (fst (zui_show hw r z0))) in *.
    assert (Nf : z_face zm <> Idle) by (destruct Ap as [_ Ap]; destruct hw; [destruct Ap as [-> _]; discriminate|rewrite Ap; discriminate]).
    assert (Run : uirun fresh (is ++ IApdu buf rx :: repeat (IPress Right) m) = (said is ++ [APending], mkUi d zm)).
    { change (IApdu buf rx :: repeat (IPress Right) m) with ([IApdu buf rx] ++ repeat (IPress Right) m).
      rewrite app_assoc, ui_run_app. rewrite Ez at 1 2. rewrite Ez in G.
      destruct (rights_run C O hw K (u_dev (at_ (is ++ [IApdu buf rx]))) v (fst (zui_show hw r z0)) m U P G Nf) as [Rr _].
      fold r d zm in Rr. fold d. rewrite Rr. cbn [fst snd]. rewrite app_nil_r. f_equal.
      rewrite ui_run_app, ui_run_one. cbn [fst]. rewrite Ea. reflexivity. }
    assert (Pr : pending_review O known hw d = Some r) by (unfold pending_review, d; rewrite U; reflexivity).
    exists m. cbv zeta. set (read := is ++ IApdu buf rx :: repeat (IPress Right) m) in *.
    assert (Hr : Forall input_ok read).
    { apply Forall_app. split; [exact H|]. constructor; [exact Hb|]. apply Forall_forall. intros i Hi. apply repeat_spec in Hi. subst i. exact Logic.I. }
    assert (Run' : uirun fresh (read ++ [IPress Right]) = (said is ++ [APending], mkUi d (fst (press hw (Some r) zm Right)))).
    { rewrite ui_run_app, Run. cbn [fst snd]. rewrite ui_run_one. cbn [ui_step u_dev u_zui]. rewrite Pr.
      destruct (press hw (Some r) zm Right) as [z' a]. cbn [fst snd] in *. subst a. unfold perform. cbn [event_of run existsb fst snd].
      rewrite app_nil_r. reflexivity. }
    split; [rewrite Run; reflexivity|]. split; [rewrite Run'; reflexivity|]. split; [|split].
    - intros Ex. assert (Dc : decision read Both = Accept) by (rewrite Run; cbn [snd u_dev u_zui]; rewrite Pr; exact Ac).
      assert (Ex' : hw = NanoX \/ z_expert (screen read) = false).
      { destruct Ex as [Ex|Ex]; [now left|right]. unfold read. rewrite ui_run_app. cbn [snd]. apply run_kept; [|exact Ex].
        intros [X|X]; [discriminate X|]. apply repeat_spec in X. discriminate X. }
      assert (Ur : pending read = Some v) by (rewrite Run; exact U).
      destruct (approved_seen C O hw f u K Uok read Both v rows Hr Dc Ex' Ur E) as [_ Sn].
      apply Forall_forall. intros row Hi. apply In_nth_error in Hi as [k Hk]. apply (Sn k row Hk). rewrite Ln. exact (nth_error_len _ _ _ Hk).
    - rewrite ui_run_app, Run. cbn [fst snd]. rewrite ui_run_one.
      destruct (decided_by (mkUi d zm) Both Accept EApprove) as [A1 A2]; [cbn [u_dev u_zui]; rewrite Pr; exact Ac|reflexivity|].
      rewrite A1, A2, <- app_assoc. split; reflexivity.
    - replace (read ++ [IPress Right; IPress Both]) with ((read ++ [IPress Right]) ++ [IPress Both]) by (rewrite <- app_assoc; reflexivity).
      rewrite ui_run_app, Run'. cbn [fst snd]. rewrite ui_run_one.
      destruct (decided_by (mkUi d (fst (press hw (Some r) zm Right))) Both Refuse EReject) as [A1 A2]; [cbn [u_dev u_zui]; rewrite Pr; exact Rf|reflexivity|].
      rewrite A1, A2, <- app_assoc. split; reflexivity.
  Qed.

  (** ** Packets *)

  Lemma apdu_dev is buf rx : Forall input_ok is -> apdu_ok buf ->
    fst (ui_step C O known hw (at_ is) (IApdu buf rx)) = [fst (step C O (u_dev (at_ is)) (EApdu buf rx))] /\
    u_dev (at_ (is ++ [IApdu buf rx])) = snd (step C O (u_dev (at_ is)) (EApdu buf rx)).
  Proof.
    intros H Hb.
    assert (H' : Forall input_ok (is ++ [IApdu buf rx])) by (apply Forall_app; split; [exact H|constructor; [exact Hb|constructor]]).
    destruct (reach C O hw f u K Uok _ H) as (_ & _ & R). destruct (reach C O hw f u K Uok _ H') as (_ & _ & R').
    rewrite events_of_app, run_pair, R in R'. cbn [fst snd events_of events_of_input app run] in R'.
    rewrite ui_run_app, ui_run_one in R'. cbn [fst snd] in R'.
    rewrite ui_run_app, ui_run_one. cbn [snd].
    destruct (step C O (u_dev (at_ is)) (EApdu buf rx)) as [a d']. cbn [fst snd] in R' |- *.
    pose proof (f_equal fst R') as R1. pose proof (f_equal snd R') as R2. cbn [fst snd] in R1, R2.
    apply app_inv_head in R1. split; [symmetry; exact R1|symmetry; exact R2].
  Qed.

  Lemma packets_dev ps : forall is, Forall input_ok is -> Forall (fun p => apdu_ok (fst p)) ps ->
    Forall input_ok (is ++ map asked ps) /\
    said (is ++ map asked ps) = said is ++ fst (run C O (u_dev (at_ is)) (map sent ps)) /\
    u_dev (at_ (is ++ map asked ps)) = snd (run C O (u_dev (at_ is)) (map sent ps)).
  Proof.
    induction ps as [|p ps IH]; intros is H Hp.
    - cbn [map run fst snd]. rewrite !app_nil_r. auto.
    - inversion Hp as [|? ? Hp1 Hp2]; subst. destruct (apdu_dev is (fst p) (snd p) H Hp1) as [A1 A2].
      assert (H' : Forall input_ok (is ++ [asked p])) by (apply Forall_app; split; [exact H|constructor; [exact Hp1|constructor]]).
      destruct (IH (is ++ [asked p]) H' Hp2) as (B1 & B2 & B3).
      assert (E : is ++ map asked (p :: ps) = (is ++ [asked p]) ++ map asked ps) by (rewrite <- app_assoc; reflexivity).
      rewrite E. split; [exact B1|]. change (asked p) with (IApdu (fst p) (snd p)) in *.
      rewrite B2, B3, A2. cbn [map run]. change (sent p) with (EApdu (fst p) (snd p)).
      rewrite ui_run_app, ui_run_one. cbn [fst]. rewrite A1.
      destruct (step C O (u_dev (at_ is)) (EApdu (fst p) (snd p))) as [a d1]. cbn [fst snd].
      destruct (run C O d1 (map sent ps)) as [l d2]. cbn [fst snd]. split; [|reflexivity].
      rewrite <- app_assoc. reflexivity.
  Qed.

  Lemma upload_by_hand is ps last d' v rows : Forall input_ok is -> Forall (fun p => apdu_ok (fst p)) (ps ++ [last]) ->
    run C O (u_dev (at_ is)) (map sent (ps ++ [last])) = (map (fun _ => go_on) ps ++ [APending], d') ->
    d_ui d' = Some v -> view_sheet v = Some rows -> (List.length rows < 256)%nat ->
    (forall row, In row rows -> ~ unshowable O (snd row)) ->
    exists m, let read := is ++ map asked (ps ++ [last]) ++ repeat (IPress Right) m in
      said read = said is ++ map (fun _ => go_on) ps ++ [APending] /\ said (read ++ [IPress Right]) = said is ++ map (fun _ => go_on) ps ++ [APending] /\
      (hw = NanoX \/ z_expert (screen is) = false -> Forall (row_seen O known hw (z_seen (screen read))) rows) /\
      (said (read ++ [IPress Both]) = said is ++ map (fun _ => go_on) ps ++ [APending; fst (step C O d' EApprove)] /\
       u_dev (at_ (read ++ [IPress Both])) = snd (step C O d' EApprove)) /\
      (said (read ++ [IPress Right; IPress Both]) = said is ++ map (fun _ => go_on) ps ++ [APending; fst (step C O d' EReject)] /\
       u_dev (at_ (read ++ [IPress Right; IPress Both])) = snd (step C O d' EReject)).
  Proof.
    intros H Hp Er U E Sm Sh. apply Forall_app in Hp as [Hp Hl]. inversion Hl as [|? ? Hl1 _]; subst.
    destruct (packets_dev ps is H Hp) as (H1 & S1 & D1). destruct (apdu_dev (is ++ map asked ps) (fst last) (snd last) H1 Hl1) as [A1 A2].
    rewrite D1 in A1, A2. rewrite map_app, run_pair in Er. cbn [map run] in Er. change (sent last) with (EApdu (fst last) (snd last)) in Er.
    destruct (step C O (snd (run C O (u_dev (at_ is)) (map sent ps))) (EApdu (fst last) (snd last))) as [a d1]. cbn [fst snd] in *.
    pose proof (f_equal fst Er) as E1. pose proof (f_equal snd Er) as E2. cbn [fst snd] in E1, E2. rewrite E2 in A2. clear Er E2 d1.
    apply app_inj_tail in E1 as [E1 ->]. rewrite E1 in S1. clear E1 D1.
    assert (U' : pending ((is ++ map asked ps) ++ [IApdu (fst last) (snd last)]) = Some v) by (rewrite A2; exact U).
    destruct (by_hand (is ++ map asked ps) (fst last) (snd last) v rows H1 Hl1 A1 U' E Sm Sh) as (m & M0 & M0' & M1 & M2 & M3).
    rewrite S1 in M0, M0'. rewrite A2, S1 in M2, M3. exists m. cbv zeta in *.
    assert (Eq : (is ++ map asked ps) ++ IApdu (fst last) (snd last) :: repeat (IPress Right) m
      = is ++ map asked (ps ++ [last]) ++ repeat (IPress Right) m).
    { rewrite map_app, <- !app_assoc. reflexivity. }
    rewrite Eq, <- !app_assoc in *. split; [exact M0|]. split; [exact M0'|]. split; [|split; [exact M2|exact M3]].
    intros Ex. apply M1. destruct Ex as [Ex|Ex]; [now left|right]. rewrite ui_run_app. cbn [snd]. apply run_kept; [|exact Ex].
    intros X. apply in_map_iff in X as (p & Ep & _). discriminate Ep.
  Qed.

  Lemma request_apdus ins k data first mids last : request ins k data first mids last ->
    Forall (fun p => apdu_ok (fst p)) ((first :: mids) ++ [last]).
  Proof.
    intros (P1 & P2 & P3 & _). apply Forall_app. split; [constructor; [apply P1|]|constructor; [apply P3|constructor]].
    eapply Forall_impl; [|exact P2]. intros p Hp. apply Hp.
  Qed.

  Lemma pending_ok is ps d' v : Forall input_ok is -> Forall (fun p => apdu_ok (fst p)) ps ->
    snd (run C O (u_dev (at_ is)) (map sent ps)) = d' -> d_ui d' = Some v -> view_ok O v.
  Proof.
    intros H Hp <- U. destruct (packets_dev ps is H Hp) as (H1 & _ & D1). rewrite <- D1 in U.
    destruct (reach C O hw f u K Uok _ H1) as (_ & P & _). apply (P v U).
  Qed.

  (** A wallet's request to sign. *)
  Lemma wallet_by_hand is ins k data first mids last dg s rows : Forall input_ok is ->
    let d := u_dev (at_ is) in
    d_ui d = None -> d_ufaults d = [] -> upload_command C ins = Some AccSign ->
    request ins k data first mids last -> wallet_sheet data dg rows -> (List.length rows < 256)%nat ->
    (forall row, In row rows -> ~ unshowable O (snd row)) ->
    o_blake2b O 32 data = Some dg -> o_sign O (fst k) (snd k) dg = Some s -> (List.length s <= 100)%nat ->
    (forall sh p, exists room, cf_room C (VSign sh dg p data) = Some room /\ len dg + len s + 2 <= room) ->
    exists m, let read := is ++ map asked (first :: mids ++ [last]) ++ repeat (IPress Right) m in
      said read = said is ++ map (fun _ => go_on) (first :: mids) ++ [APending] /\ said (read ++ [IPress Right]) = said is ++ map (fun _ => go_on) (first :: mids) ++ [APending] /\
      (hw = NanoX \/ z_expert (screen is) = false -> Forall (row_seen O known hw (z_seen (screen read))) rows) /\
      (let d' := u_dev (at_ (read ++ [IPress Both])) in
       said (read ++ [IPress Both]) = said is ++ map (fun _ => go_on) (first :: mids)
         ++ [APending; AReply ((if (ins =? 0x04) || (ins =? 0x05) then [] else dg) ++ s ++ [0x90; 0])] /\
       d_log d' = mkSig SrcReview k dg data :: d_log d /\ d_ui d' = None /\
       forall sl, wear_read (get_slot sl d') = wear_read (get_slot sl d)) /\
      (let d' := u_dev (at_ (read ++ [IPress Right; IPress Both])) in
       said (read ++ [IPress Right; IPress Both]) = said is ++ map (fun _ => go_on) (first :: mids) ++ [APending; AReply [0x69; 0x86]] /\
       d_ui d' = None /\ untouched d d').
  Proof.
    intros H d U F Hc Q Ws Sm Sh Dg Sg Ls Rm. destruct (reach C O hw f u K Uok is H) as (_ & _ & R).
    assert (M : reviewed_message data) by (destruct Ws; [now apply RmOperation|apply RmMichelson]).
    assert (Ed : d = snd (run C O (dev_fresh f u) (events_of C O known hw fresh is))) by (rewrite R; reflexivity).
    pose proof (review_served C O f u (events_of C O known hw fresh is) ins k data first mids last dg s) as V.
    cbv zeta in V. rewrite <- Ed in V. destruct (V U F Hc Q M Dg Sg Ls Rm) as (d' & Er & Un & Ap & Rj). clear V.
    pose proof (request_apdus ins k data first mids last Q) as Hp.
    assert (Hv : exists sh p, d_ui d' = Some (VSign sh dg p data)).
    { destruct (packets_dev ((first :: mids) ++ [last]) is H Hp) as (H1 & _ & D1). fold d in D1. cbn [app] in H1, D1. rewrite Er in D1. cbn [snd] in D1.
      destruct (reach C O hw f u K Uok _ H1) as (_ & P & _). rewrite D1 in P.
      assert (Uk : ui_ok O d') by (intros v Uv; apply (P v Uv)).
      destruct (step_signs C O d' EApprove Logic.I Uk) as [L|(g & L & Ca & _)]; destruct (step C O d' EApprove) as [a d'']; destruct Ap as (_ & Lg & _); cbn [snd] in L.
      - destruct Un as [Lu _]. rewrite Lg, Lu in L. exfalso. revert L. clear. intros L. apply (f_equal (@List.length _)) in L. cbn [List.length] in L. lia.
      - rewrite Lg in L. assert (Eg : mkSig SrcReview k dg data = g) by congruence. subst g. apply Ca. }
    destruct Hv as (sh & p & Uv).
    assert (Vk : view_ok O (VSign sh dg p data)).
    { apply (pending_ok is ((first :: mids) ++ [last]) d' _ H Hp); [|exact Uv]. fold d. cbn [app]. rewrite Er. reflexivity. }
    assert (Vs : view_sheet (VSign sh dg p data) = Some rows).
    { destruct Vk as (_ & rest & Vk). destruct Ws as [branch os dg Lb Ok|rest' dg].
      - destruct Vk as [(E1 & _ & E2)|(E1 & _)]; [|discriminate E1]. assert (E3 : rest = branch ++ flat_map enc_op os) by congruence. subst rest.
        unfold operation_new in E2. rewrite take_app in E2 by (unfold len; lia). subst p.
        change (match eo_all (S (List.length (flat_map enc_op os))) (eo_new (flat_map enc_op os)) with
                | AllOk os => Some (batch_sheet branch os) | _ => None end = Some (batch_sheet branch (map op_of os))).
        now rewrite batch_decodes.
      - destruct Vk as [(E1 & _)|(_ & ->)]; [discriminate E1|]. reflexivity. }
    destruct (upload_by_hand is (first :: mids) last d' _ rows H Hp Er Uv Vs Sm Sh) as (m & M0 & M0' & M1 & (M2 & M3) & M4 & M5).
    exists m. cbv zeta in *. cbn [app] in M0, M0', M1, M2, M3, M4, M5. split; [exact M0|]. split; [exact M0'|]. split; [exact M1|]. rewrite M2, M3, M4, M5.
    destruct (step C O d' EApprove) as [a1 d1], (step C O d' EReject) as [a2 d2]. cbn [fst snd].
    destruct Ap as (-> & L1 & U1 & W1). destruct Rj as (-> & U2 & W2).
    split; [split; [reflexivity|split; [exact L1|split; [exact U1|exact W1]]]|].
    split; [reflexivity|split; [exact U2|exact W2]].
  Qed.

  (** An operation the baking app signs after a review. *)
  Lemma operation_by_hand is ins k kp branch o first mids last dg s : Forall input_ok is ->
    let d := u_dev (at_ is) in
    let data := 3 :: branch ++ enc_op o in
    let rows := batch_sheet branch [op_of o] in
    d_ui d = None -> d_ufaults d = [] ->
    cf_baking C = true -> In ins [0x04; 0x0F; 0xAF] -> List.length branch = 32%nat -> op_ok o -> baker_op o = true ->
    request ins k data first mids last ->
    wear_read (d_key d) = Some (RData kp) -> key_layout kp k ->
    (forall row, In row rows -> ~ unshowable O (snd row)) ->
    o_blake2b O 32 data = Some dg -> o_sign O (fst k) (snd k) dg = Some s -> (List.length s <= 100)%nat ->
    (forall sh p, exists room, cf_room C (VBakingSign sh dg branch p data) = Some room /\ len dg + len s + 2 <= room) ->
    exists m, let read := is ++ map asked (first :: mids ++ [last]) ++ repeat (IPress Right) m in
      said read = said is ++ map (fun _ => go_on) (first :: mids) ++ [APending] /\ said (read ++ [IPress Right]) = said is ++ map (fun _ => go_on) (first :: mids) ++ [APending] /\
      (hw = NanoX \/ z_expert (screen is) = false -> Forall (row_seen O known hw (z_seen (screen read))) rows) /\
      (let d' := u_dev (at_ (read ++ [IPress Both])) in
       said (read ++ [IPress Both]) = said is ++ map (fun _ => go_on) (first :: mids)
         ++ [APending; AReply ((if ins =? 0x04 then [] else dg) ++ s ++ [0x90; 0])] /\
       d_log d' = mkSig SrcBakingReview k dg data :: d_log d /\ d_ui d' = None /\
       forall sl, wear_read (get_slot sl d') = wear_read (get_slot sl d)) /\
      (let d' := u_dev (at_ (read ++ [IPress Right; IPress Both])) in
       said (read ++ [IPress Right; IPress Both]) = said is ++ map (fun _ => go_on) (first :: mids) ++ [APending; AReply [0x69; 0x86]] /\
       d_ui d' = None /\ untouched d d').
  Proof.
    intros H d data rows U F Cb Hi Lb Ho Hop Q Kr Kl Sh Dg Sg Ls Rm. destruct (reach C O hw f u K Uok is H) as (_ & _ & R).
    assert (Ed : d = snd (run C O (dev_fresh f u) (events_of C O known hw fresh is))) by (rewrite R; reflexivity).
    pose proof (operation_request_served C O f u (events_of C O known hw fresh is) ins k kp branch o first mids last dg s) as V.
    cbv zeta in V. rewrite <- Ed in V. destruct (V U F Cb Hi Lb Ho Q Kr Kl Dg Sg Ls Rm) as (a & d' & Er & Un & X). clear V.
    rewrite Hop in X. destruct X as (-> & Ap & Rj).
    pose proof (request_apdus ins k data first mids last Q) as Hp.
    assert (Hv : exists sh br o', d_ui d' = Some (VBakingSign sh dg br o' data)).
    { destruct (packets_dev ((first :: mids) ++ [last]) is H Hp) as (H1 & _ & D1). fold d in D1. cbn [app] in H1, D1. rewrite Er in D1. cbn [snd] in D1.
      destruct (reach C O hw f u K Uok _ H1) as (_ & P & _). rewrite D1 in P.
      assert (Uk : ui_ok O d') by (intros v Uv; apply (P v Uv)).
      destruct (step_signs C O d' EApprove Logic.I Uk) as [L|(g & L & Ca & _)]; destruct (step C O d' EApprove) as [a d'']; destruct Ap as (_ & Lg & _); cbn [snd] in L.
      - destruct Un as [Lu _]. rewrite Lg, Lu in L. exfalso. revert L. clear. intros L. apply (f_equal (@List.length _)) in L. cbn [List.length] in L. lia.
      - rewrite Lg in L. assert (Eg : mkSig SrcBakingReview k dg data = g) by exact (f_equal (hd (mkSig SrcBakingReview k dg data)) L). subst g. apply Ca. }
    destruct Hv as (sh & br & o' & Uv).
    assert (Vk : view_ok O (VBakingSign sh dg br o' data)).
    { apply (pending_ok is ((first :: mids) ++ [last]) d' _ H Hp); [|exact Uv]. fold d. cbn [app]. rewrite Er. reflexivity. }
    assert (Vs : view_sheet (VBakingSign sh dg br o' data) = Some rows /\ (List.length rows < 256)%nat).
    { destruct Vk as (_ & rest & ops & more & E1 & E2 & E3 & Ty). assert (E4 : rest = branch ++ enc_op o) by (unfold data in E1; congruence). subst rest.
      unfold operation_new in E2. rewrite take_app in E2 by (unfold len; lia).
      assert (br = branch /\ ops = eo_new (enc_op o)) as [-> ->] by (split; congruence).
      assert (o' = op_of o) as ->.
      { unfold eo_next, eo_new in E3. cbn [eo_source eo_read Nat.ltb Nat.leb skipn] in E3.
        pose proof (op_parse_enc o [] Ho) as Pe. rewrite app_nil_r in Pe.
        destruct (enc_op o) as [|x l] eqn:El; [destruct o; discriminate El|]. rewrite Pe in E3. congruence. }
      split; [reflexivity|]. unfold rows, batch_sheet. cbn [flat_map List.length]. rewrite app_nil_r.
      destruct (op_of o) as [| m [[? ?]|] | | | |m pk| | | | | |]; try contradiction; cbn [sheet limits app List.length] in *; lia. }
    destruct Vs as [Vs Sm].
    destruct (upload_by_hand is (first :: mids) last d' _ rows H Hp Er Uv Vs Sm Sh) as (m & M0 & M0' & M1 & (M2 & M3) & M4 & M5).
    exists m. cbv zeta in *. cbn [app] in M0, M0', M1, M2, M3, M4, M5. split; [exact M0|]. split; [exact M0'|]. split; [exact M1|]. rewrite M2, M3, M4, M5.
    destruct (step C O d' EApprove) as [a1 d1], (step C O d' EReject) as [a2 d2]. cbn [fst snd].
    destruct Ap as (-> & L1 & U1 & W1). destruct Rj as (-> & U2 & W2).
    split; [split; [reflexivity|split; [exact L1|split; [exact U1|exact W1]]]|].
    split; [reflexivity|split; [exact U2|exact W2]].
  Qed.

  (** ** Keys *)

  Lemma events_len s is : len (events_of C O known hw s is) <= len is.
  Proof.
    unfold len. revert s. induction is as [|i is IH]; intros s; [cbn; lia|]. cbn [events_of]. rewrite app_length.
    specialize (IH (snd (ui_step C O known hw s i))). cbn [List.length].
    assert (List.length (events_of_input O known hw s i) <= 1)%nat; [|lia].
    destruct i as [buf rx|b|]; cbn [events_of_input List.length]; try lia. destruct (snd (press _ _ _ _)); cbn [event_of List.length]; lia.
  Qed.

  Lemma address_seen seen k pk a : addressable O k pk -> addr_new O (fst k) pk = SOk a ->
    row_seen O known hw seen (row_of (Titled "Address") (FAddr a)) ->
    exists t, address_text O (fst k) pk t /\ text_seen hw seen "Address" t.
  Proof.
    intros (_ & l & h & F & Hh & T) Ea (h' & t & screens & Et & Sw & Ct & Sn). cbn [row_of fst snd entitles shows] in Et, Sw. subst h'.
    exists t. split; [|exists screens; auto]. exists l, h. split; [exact F|]. split; [exact Hh|].
    unfold addr_new in Ea. rewrite (pk_hash_ok O _ _ _ F), Hh in Ea. unfold addr_from_hash in Ea.
    assert (Hx : forall c, hash_prefix c = kind_prefix (AddressSpec.addr_kind c)) by (intros []; reflexivity).
    rewrite Hx, twice_spec in Ea.
    destruct (twice O (kind_prefix (AddressSpec.addr_kind (fst k)) ++ h)) as [dd|] eqn:Ed; [|destruct (T eq_refl)].
    cbn [option_map] in Ea. injection Ea as <-. exists dd. split; [exact Ed|exact Sw].
  Qed.
  Lemma word_seen seen title s : row_seen O known hw seen (row_of (Titled title) (FWord s)) -> text_seen hw seen title (chars s).
  Proof. intros (h & t & screens & -> & -> & Ct & Sn). exists screens. auto. Qed.

  (** Authorising a key. *)
  Lemma authorise_by_hand is buf rx ins k pk : Forall intact_fault f -> Forall input_ok is -> len is + 1 < 2 ^ 64 ->
    let d := u_dev (at_ is) in
    d_faults d = [] -> cf_baking C = true -> apdu_ok buf -> command d buf rx ins -> In ins [0x01; 0xA1] ->
    1 <= nth 2 buf 0 -> names BIP32_MAX_LENGTH buf k -> addressable O k pk -> roomy C 110 ->
    exists m, let read := is ++ IApdu buf rx :: repeat (IPress Right) m in
      said read = said is ++ [APending] /\ said (read ++ [IPress Right]) = said is ++ [APending] /\
      (hw = NanoX \/ z_expert (screen is) = false ->
       text_seen hw (z_seen (screen read)) "Type" (chars "Authorize Baking") /\
       exists t, address_text O (fst k) pk t /\ text_seen hw (z_seen (screen read)) "Address" t) /\
      (let d' := u_dev (at_ (read ++ [IPress Both])) in
       said (read ++ [IPress Both]) = said is ++ [APending; AReply (len pk :: pk ++ [0x90; 0])] /\
       d_log d' = d_log d /\ (forall k', stored_key d' k' <-> k' = k) /\
       forall s, s <> SKey -> wear_read (get_slot s d') = wear_read (get_slot s d)) /\
      (said (read ++ [IPress Right; IPress Both]) = said is ++ [APending; AReply [0x69; 0x86]] /\
       u_dev (at_ (read ++ [IPress Right; IPress Both])) = d).
  Proof.
    intros Ff H L d Fd Cb Hb Hc Hi H1 Hn Hk Rm. destruct (reach C O hw f u K Uok is H) as (_ & _ & R).
    assert (Ed : d = snd (run C O (dev_fresh f u) (events_of C O known hw fresh is))) by (rewrite R; reflexivity).
    pose proof (authorise_served C O K f u (events_of C O known hw fresh is) buf rx ins k pk Ff Uok (events_ok _ _ _ _ _ _ H)) as V.
    pose proof (events_len fresh is) as Le. cbv zeta in V. rewrite <- Ed in V.
    destruct (V ltac:(lia) Fd Cb Hb Hc Hi H1 Hn Hk Rm) as (d1 & d2 & S1 & S2 & S3 & Lg & X). clear V.
    destruct (authorise_request C O K d buf rx ins k pk Cb Hb Hc Hi H1 Hn Hk Rm) as [a Es].
    assert (E1 : d1 = set_ui (Some (VAuthorize k a)) d) by congruence.
    destruct (apdu_dev is buf rx H Hb) as [A1 A2]. fold d in A1, A2. rewrite S1 in A1, A2. cbn [fst snd] in A1, A2.
    assert (Up : pending (is ++ [IApdu buf rx]) = Some (VAuthorize k a)) by (rewrite A2, E1; destruct d; reflexivity).
    destruct (by_hand is buf rx _ _ H Hb A1 Up eq_refl) as (m & M0 & M0' & M1 & M2 & M3).
    { cbn [List.length]. lia. }
    { intros row [<-|[<-|[]]] []. }
    rewrite A2, S3 in M2. rewrite A2, S2 in M3. cbn [fst snd] in M2, M3. exists m. cbv zeta in *. split; [exact M0|]. split; [exact M0'|]. split; [|split].
    - intros Ex. specialize (M1 Ex). inversion M1 as [|? ? R1 M1']; subst. inversion M1' as [|? ? R2 _]; subst.
      split; [exact (word_seen _ _ _ R1)|]. apply (address_seen _ k pk a Hk); [|exact R2].
      assert (H' : Forall input_ok (is ++ [IApdu buf rx])) by (apply Forall_app; split; [exact H|constructor; [exact Hb|constructor]]).
      destruct (reach C O hw f u K Uok _ H') as (_ & P & _). destruct (P _ Up) as [(_ & pk' & E1 & E2) _].
      destruct Hk as [Hk _]. rewrite Hk in E1. injection E1 as <-. exact E2.
    - destruct M2 as [M2 ->]. split; [exact M2|]. split; [exact Lg|]. destruct (X d2 (or_introl eq_refl)) as (_ & X1 & X2). split; [exact X1|exact X2].
    - exact M3.
  Qed.

  (** Setting up. *)
  Lemma setup_by_hand is buf rx k main test chain enc rest pk : Forall intact_fault f -> Forall input_ok is -> len is + 2 < 2 ^ 64 ->
    let d := u_dev (at_ is) in
    d_faults d = [] -> cf_baking C = true -> apdu_ok buf -> command d buf rx 0x0A ->
    nth 3 buf 0 = byte_of_curve (fst k) ->
    pay buf = be 4 chain ++ be 4 main ++ be 4 test ++ enc ++ rest -> path_encodes BIP32_MAX_LENGTH enc (snd k) ->
    main < 2 ^ 32 -> test < 2 ^ 32 -> chain < 2 ^ 32 -> addressable O k pk -> roomy C 110 ->
    twice O (kind_prefix KindChain ++ be 4 chain) <> None ->
    exists m, let read := is ++ IApdu buf rx :: repeat (IPress Right) m in
      said read = said is ++ [APending] /\ said (read ++ [IPress Right]) = said is ++ [APending] /\
      (hw = NanoX \/ z_expert (screen is) = false ->
       let saw title := text_seen hw (z_seen (screen read)) title in
       saw "Type" (chars "Setup Baking") /\
       (exists t, address_text O (fst k) pk t /\ saw "Address" t) /\
       (exists t, chain_text O chain t /\ saw "Chain" t) /\
       (exists t, shows_number main t /\ saw "Main Chain HWM" t) /\
       (exists t, shows_number test t /\ saw "Test Chain HWM" t)) /\
      (let d' := u_dev (at_ (read ++ [IPress Both])) in
       said (read ++ [IPress Both]) = said is ++ [APending; AReply (len pk :: pk ++ [0x90; 0])] /\
       reports_all C O d' main test chain /\ (forall k', stored_key d' k' <-> k' = k)) /\
      (said (read ++ [IPress Right; IPress Both]) = said is ++ [APending; AReply [0x69; 0x86]] /\
       u_dev (at_ (read ++ [IPress Right; IPress Both])) = d).
  Proof.
    intros Ff H L d Fd Cb Hb Hc Hcu Hp He Hm Ht Hch Hk Rm Tw. destruct (reach C O hw f u K Uok is H) as (_ & _ & R).
    assert (Ed : d = snd (run C O (dev_fresh f u) (events_of C O known hw fresh is))) by (rewrite R; reflexivity).
    pose proof (setup_served C O K f u (events_of C O known hw fresh is) buf rx k main test chain enc rest pk Ff Uok (events_ok _ _ _ _ _ _ H)) as V.
    pose proof (events_len fresh is) as Le. cbv zeta in V. rewrite <- Ed in V.
    destruct (V ltac:(lia) Fd Cb Hb Hc Hcu Hp He Hm Ht Hch Hk Rm) as (d1 & d2 & S1 & S2 & S3 & X). clear V.
    destruct (setup_request C O K d buf rx k main test chain enc rest pk Cb Hb Hc Hcu Hp He Hm Ht Hch Hk Rm) as [a Es].
    assert (E1 : d1 = set_ui (Some (VSetup k main test (chain_of_u32 chain) a)) d) by congruence.
    destruct (apdu_dev is buf rx H Hb) as [A1 A2]. fold d in A1, A2. rewrite S1 in A1, A2. cbn [fst snd] in A1, A2.
    assert (Up : pending (is ++ [IApdu buf rx]) = Some (VSetup k main test (chain_of_u32 chain) a)) by (rewrite A2, E1; destruct d; reflexivity).
    assert (Ch : forall t, alias_of O (chain_of_u32 chain) t -> chain_text O chain t).
    { intros t. unfold chain_of_u32, chain_text. change MAINNET_CHAIN_ID with 0x7A06A770.
      destruct (chain =? 0); [auto|]. destruct (chain =? 0x7A06A770); auto. }
    destruct (by_hand is buf rx _ _ H Hb A1 Up eq_refl) as (m & M0 & M0' & M1 & M2 & M3).
    { cbn [List.length]. lia. }
    { intros row [<-|[<-|[<-|[<-|[<-|[]]]]]] Un; try exact Un. cbn [row_of snd] in Un. unfold chain_of_u32 in Un.
      destruct (chain =? 0); [exact Un|]. destruct (chain =? MAINNET_CHAIN_ID); [exact Un|]. exact (Tw Un). }
    rewrite A2, S3 in M2. rewrite A2, S2 in M3. cbn [fst snd] in M2, M3. exists m. cbv zeta in *. split; [exact M0|]. split; [exact M0'|]. split; [|split].
    - intros Ex. specialize (M1 Ex). rewrite !Forall_cons_iff in M1. destruct M1 as (R1 & R2 & R3 & R4 & R5 & _).
      split; [exact (word_seen _ _ _ R1)|]. split; [|split; [|split]].
      + apply (address_seen _ k pk a Hk); [|exact R2].
        assert (H' : Forall input_ok (is ++ [IApdu buf rx])) by (apply Forall_app; split; [exact H|constructor; [exact Hb|constructor]]).
        destruct (reach C O hw f u K Uok _ H') as (_ & P & _). destruct (P _ Up) as [(_ & (pk' & E2 & E3) & _) _].
        destruct Hk as [Hk _]. rewrite Hk in E2. injection E2 as <-. exact E3.
      + destruct R3 as (h & t & screens & Et & Sw & Ct & Sn). cbn [row_of fst snd entitles shows] in Et, Sw. subst h.
        exists t. split; [exact (Ch t Sw)|exists screens; auto].
      + destruct R4 as (h & t & screens & Et & Sw & Ct & Sn). cbn [row_of fst snd entitles shows] in Et, Sw. subst h.
        unfold shows_integer in Sw. replace (Z.of_N main <? 0)%Z with false in Sw by lia. rewrite N2Z.id in Sw.
        exists t. split; [exact Sw|exists screens; auto].
      + destruct R5 as (h & t & screens & Et & Sw & Ct & Sn). cbn [row_of fst snd entitles shows] in Et, Sw. subst h.
        unfold shows_integer in Sw. replace (Z.of_N test <? 0)%Z with false in Sw by lia. rewrite N2Z.id in Sw.
        exists t. split; [exact Sw|exists screens; auto].
    - destruct M2 as [M2 ->]. split; [exact M2|]. exact (X d2 (or_introl eq_refl)).
    - exact M3.
  Qed.

  (** Showing the address of a key. *)
  Lemma prompt_request d buf rx ins k pk a : apdu_ok buf -> command d buf rx ins -> wants_review buf ins -> names 6 buf k ->
    o_pubkey O (fst k) (snd k) = Some pk -> addr_new O (fst k) pk = SOk a -> roomy C 110 ->
    step C O d (EApdu buf rx) = (APending, set_ui (Some (VAddr true pk a)) d).
  Proof.
    intros Hb Hc Hp Hn Hk Ha Hr. destruct (Hr (VAddr true pk a)) as (room & Er & _).
    rewrite (step_command C O d buf rx _ Hb Hc). destruct Hc as (_ & _ & E0 & E1).
    rewrite (addr_command C O buf _ E0 E1) by (destruct Hp as [->|[-> _]]; cbn; auto).
    destruct Hp as [->|[-> Hp]].
    - change (0x03 =? 0x03) with true. cbn iota. unfold h_prompt. unfold bind at 1.
      rewrite (requested_key_ok O buf k pk d Hb Hn Hk), Ha. unfold bind. cbn [of_sres]. unfold ret, show. rewrite Er. reflexivity.
    - change (0x11 =? 0x03) with false. cbn iota. unfold h_get_address. unfold bind at 1.
      rewrite (requested_key_ok O buf k pk d Hb Hn Hk), Ha. unfold bind at 1. cbn [of_sres]. unfold ret at 1.
      unfold needs_review, apdu_p1. replace (1 <=? nth 2 buf 0) with true by lia. unfold show. rewrite Er. reflexivity.
  Qed.
  Lemma address_by_hand is buf rx ins k pk : Forall input_ok is ->
    let d := u_dev (at_ is) in
    apdu_ok buf -> command d buf rx ins -> wants_review buf ins -> names 6 buf k -> addressable O k pk -> roomy C 110 ->
    exists m t, let read := is ++ IApdu buf rx :: repeat (IPress Right) m in
      said read = said is ++ [APending] /\ said (read ++ [IPress Right]) = said is ++ [APending] /\ address_text O (fst k) pk t /\
      (hw = NanoX \/ z_expert (screen is) = false -> text_seen hw (z_seen (screen read)) "Address" t) /\
      (said (read ++ [IPress Both]) = said is ++ [APending; AReply (len pk :: pk ++ t ++ [0x90; 0])] /\
       u_dev (at_ (read ++ [IPress Both])) = d) /\
      (said (read ++ [IPress Right; IPress Both]) = said is ++ [APending; AReply [0x69; 0x86]] /\
       u_dev (at_ (read ++ [IPress Right; IPress Both])) = d).
  Proof.
    intros H d Hb Hc Hw Hn Hka Rm. pose proof Hka as (Hk & l & h & F & Hh & T).
    destruct (prompted C O d buf rx ins k pk l h K Hb Hc Hw Hn Hk F Hh T Rm) as (t & Kt & V).
    destruct (key_text_new O (fst k) pk l h K F Hh T) as (a & t0 & Ha & _ & _).
    destruct (apdu_dev is buf rx H Hb) as [A1 A2]. fold d in A1, A2.
    pose proof (prompt_request d buf rx ins k pk a Hb Hc Hw Hn Hk Ha Rm) as Es. rewrite Es in V, A1, A2. cbn [fst snd] in A1, A2.
    destruct V as (_ & Sa & Sr).
    assert (Up : pending (is ++ [IApdu buf rx]) = Some (VAddr true pk a)) by (rewrite A2; destruct d; reflexivity).
    assert (At : address_text O (fst k) pk t) by (destruct Kt as (l1 & h1 & K1 & K2 & K3 & _); exists l1, h1; auto).
    destruct (by_hand is buf rx _ _ H Hb A1 Up eq_refl) as (m & M0 & M0' & M1 & M2 & M3).
    { cbn [List.length]. lia. }
    { intros row [<-|[]] []. }
    rewrite A2, Sa in M2. rewrite A2, Sr in M3. cbn [fst snd] in M2, M3. exists m, t. cbv zeta in *. split; [exact M0|]. split; [exact M0'|]. split; [exact At|].
    split; [|split; [exact M2|exact M3]].
    intros Ex. specialize (M1 Ex). inversion M1 as [|? ? R1 _]; subst.
    destruct (address_seen _ k pk a Hka Ha R1) as (t1 & At1 & Sn).
    assert (t1 = t) as ->; [|exact Sn].
    destruct At as (l1 & h1 & B1 & B2 & q1 & B3 & B4), At1 as (l2 & h2 & C1 & C2 & q2 & C3 & C4).
    assert (l2 = l1) as ->.
    { clear -B1 C1. unfold hashed_form in *. destruct (fst k).
      all: first [destruct B1 as (b1 & B1), C1 as (b2 & C1); congruence|idtac].
      all: destruct B1 as (x1 & y1 & B1 & Lx1 & Ly1 & ->), C1 as (x2 & y2 & C1 & Lx2 & Ly2 & ->).
      all: rewrite B1 in C1; injection C1 as C1; apply app_inj_len in C1 as [-> ->]; [reflexivity|congruence]. }
    rewrite B2 in C2. injection C2 as <-. rewrite B3 in C3. injection C3 as <-. exact (reads58_text _ _ _ C4 B4).
  Qed.
End Hand.
