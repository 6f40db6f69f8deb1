(** Properties of histories with screen and buttons in final form. *)
From Coq Require Import NArith Bool Arith String List Lia.
From Coq Require Import ZifyBool ZifyNat ZifyN.
From Verif Require Import Base BaseFacts Flash Oracles Address AddressSpec AddressExamples Upload UploadSpec UploadFacts Operations OperationsSpec OperationsFacts OperationsExamples
  Text TextSpec TextFacts TextExamples Bakers BakersSpec Device DeviceSpec DeviceFacts DeviceProofs DeviceSigs DeviceReviews DeviceCases
  Screens ScreensSpec ScreensFacts ScreensViews ScreensPages ScreensDevice ScreensExamples
  Zui UiSpec ZuiFacts ZuiNav ZuiReach ZuiMoves UiDevice UiFacts UiRun.
Import ListNotations.
Open Scope list_scope.
Open Scope N_scope.

Lemma nth_error_len {A} (l : list A) k x : nth_error l k = Some x -> N.of_nat k < len l.
Proof. intros H. apply nth_error_Some' in H. unfold len. lia. Qed.

Lemma approval_x hw z : hw = NanoX -> offers_approval hw z -> z_face z = Approval.
Proof. now intros ->. Qed.
Lemma rejection_x hw z : hw = NanoX -> offers_rejection hw z -> z_face z = Rejection.
Proof. now intros ->. Qed.

Lemma choose_rows {A B : Type} (l : list A) (i : nat) (Q : nat -> B -> Prop) (T : A -> B -> Prop) :
  (forall k x, nth_error l k = Some x -> exists y, Q (i + k)%nat y /\ T x y) ->
  exists l', Forall2 T l l' /\ forall k y, nth_error l' k = Some y -> Q (i + k)%nat y.
Proof.
  revert i. induction l as [|x l IH]; intros i H.
  - exists []. split; [constructor|]. intros [|k] y E; discriminate E.
  - destruct (H 0%nat x eq_refl) as (y & Hq & Ht).
    destruct (IH (S i)) as (l' & F & G).
    { intros k x' E. destruct (H (S k) x' E) as (y' & A1 & A2). exists y'. split; [|exact A2]. now replace (S i + k)%nat with (i + S k)%nat by lia. }
    exists (y :: l'). split; [now constructor|]. intros [|k] y' E.
    + injection E as <-. exact Hq.
    + replace (i + S k)%nat with (S i + k)%nat by lia. now apply G.
Qed.
Lemma Forall2_len {A B : Type} (T : A -> B -> Prop) l l' : Forall2 T l l' -> List.length l' = List.length l.
Proof. induction 1; cbn [List.length]; congruence. Qed.

Section Cases.
  Variables (C : config) (O : oracles) (hw : hardware) (f u : list fault).
  Hypotheses (K : oracles_ok O) (Uok : Forall up_fault_ok u).
  Notation fresh := (ui_fresh hw f u).
  Notation at_ is := (snd (ui_run C O known hw fresh is)).
  Notation pending is := (d_ui (u_dev (at_ is))).
  Notation screen is := (u_zui (at_ is)).
  Notation decision is b := (snd (press hw (pending_review O known hw (u_dev (at_ is))) (screen is) b)).

  Lemma reach is : Forall input_ok is ->
    good O known hw (at_ is) /\ proper O (u_dev (at_ is)) /\
    run C O (dev_fresh f u) (events_of C O known hw fresh is) = (fst (ui_run C O known hw fresh is), u_dev (at_ is)).
  Proof. exact (ui_reach C O known hw K known_sorted known_fit f u Uok is). Qed.

  (** Ranges. *)
  Lemma in_range is : Forall input_ok is ->
    (In (z_face (screen is)) [Review; Title; Page; Approval; Rejection] -> pending is <> None) /\
    forall v, pending is = Some v -> In (z_face (screen is)) [Review; Page; Approval; Rejection] ->
    exists n, view_items v = VOk n /\ z_items (screen is) = n + 1 /\ z_item (screen is) <= n + actions hw /\
    (In (z_face (screen is)) [Review; Page] -> z_page (screen is) < z_pages (screen is)).
  Proof.
    intros H. destruct (reach is H) as ([[B Rg] Nv] & P & _). unfold pending_review in Rg.
    destruct (pending is) as [v|] eqn:U.
    - split; [discriminate|]. intros v' Ev. injection Ev as <-. intros Hf. specialize (Nv v eq_refl).
      destruct (P v U) as [V W].
      assert (Q : exists n, view_items v = VOk n /\ within hw n (screen is)).
      { destruct (z_face (screen is)); cbn [In] in Hf; try (repeat (destruct Hf as [Hf|Hf]; try discriminate Hf); contradiction);
          destruct Rg as (_ & r & n & Er & Hn & Wn); injection Er as <-; cbn [review_of r_items] in Hn; eauto. }
      destruct Q as (n & Hn & W1 & W2). exists n. split; [exact Hn|]. split; [exact W1|]. split; [exact W2|].
      destruct (view_shown v) as [rows|] eqn:E.
      2: { destruct (z_face (screen is)); cbn [In] in Hf; try contradiction; repeat (destruct Hf as [Hf|Hf]; try discriminate Hf); contradiction. }
      intros Hp. destruct Nv as [_ Nv].
      assert (Cu : forall z, current hw (review_of O known hw v) z -> z_page z < z_pages z).
      { intros z (h & ss & s & lines & rest & _ & P1 & P2 & _). lia. }
      destruct (z_face (screen is)); cbn [In] in Hp; try (repeat (destruct Hp as [Hp|Hp]; try discriminate Hp); contradiction).
      + destruct Nv as (_ & _ & _ & N1 & N2 & _).
        destruct (N.lt_ge_cases (z_item (screen is)) (len rows mod 256)) as [Hl|Hl]; [exact (Cu _ (N1 Hl))|].
        destruct (N2 Hl) as (-> & -> & _). lia.
      + destruct Nv as (_ & _ & _ & N1 & _). exact (Cu _ N1).
    - split; [|discriminate]. intros Hf. exfalso.
      destruct (z_face (screen is)); cbn [In] in Hf;
        try (repeat (destruct Hf as [Hf|Hf]; try discriminate Hf); contradiction);
        try (destruct Rg as (_ & r & n & Er & _); discriminate Er). destruct Rg as [_ Rg]. congruence.
  Qed.

  (** Decisions. *)
  Lemma decided is b : Forall input_ok is ->
    match decision is b with
    | Stay => True
    | Accept => b = Both /\ pending is <> None /\ offers_approval hw (screen is) /\
        (hw = NanoS -> exists rest, z_seen (screen is) = label "APPROVE" :: rest)
    | Refuse => b = Both /\ pending is <> None /\ offers_rejection hw (screen is) /\
        (hw = NanoS -> exists rest, z_seen (screen is) = label "REJECT" :: rest)
    | Ack => z_face (screen is) = Failure
    | Crash => False
    end.
  Proof.
    intros H. destruct (reach is H) as (G & P & _). assert (Gs := G). destruct (at_ is) as [d z] eqn:Es. cbn [u_dev u_zui] in *.
    destruct (press_good O known hw K known_sorted known_fit d z b G P) as (Na & D & Pn & _). cbv zeta in *.
    assert (Lb : hw = NanoS -> z_face z = Review -> forall v, d_ui d = Some v -> exists n, z_items z = n + 1 /\
      (n <= z_item z -> exists rest, z_seen z = label (if z_item z =? n then "APPROVE" else "REJECT") :: rest)).
    { intros Hs Fz v U. destruct Gs as [_ Nv]. specialize (Nv v U). cbn [u_zui] in Nv.
      destruct (view_shown v) as [rows|]; [|rewrite Fz in Nv; contradiction]. destruct Nv as [_ Nv]. rewrite Fz in Nv.
      destruct Nv as (_ & N1 & _ & _ & N2 & _). exists (len rows mod 256). split; [exact N1|].
      intros Hl. destruct (N2 Hl) as (_ & _ & N3). exact N3. }
    destruct (snd (press hw (pending_review O known hw d) z b)); try exact Logic.I.
    - destruct D as [D1 D2]. specialize (Pn (or_introl eq_refl)). do 3 (split; [assumption|]). intros Hs.
      rewrite Hs in D2. destruct D2 as [Fz Ei]. destruct (d_ui d) as [v|] eqn:U; [|congruence].
      destruct (Lb Hs Fz v eq_refl) as (n & N1 & N2). destruct (N2 ltac:(lia)) as [rest N3]. exists rest.
      replace (z_item z =? n) with true in N3 by lia. exact N3.
    - destruct D as [D1 D2]. specialize (Pn (or_intror eq_refl)). do 3 (split; [assumption|]). intros Hs.
      rewrite Hs in D2. destruct D2 as [Fz Ei]. destruct (d_ui d) as [v|] eqn:U; [|congruence].
      destruct (Lb Hs Fz v eq_refl) as (n & N1 & N2). destruct (N2 ltac:(lia)) as [rest N3]. exists rest.
      replace (z_item z =? n) with false in N3 by lia. exact N3.
    - exact D.
    - congruence.
  Qed.

  (** What has been seen when a review is approved. *)
  Lemma approved_seen is b v rows : Forall input_ok is -> decision is b = Accept ->
    hw = NanoX \/ z_expert (screen is) = false ->
    pending is = Some v -> view_shown v = Some rows ->
    (hw = NanoX -> len rows < 256) /\
    forall k row, nth_error rows k = Some row -> N.of_nat k < len rows mod 256 ->
    row_seen O known hw (z_seen (screen is)) row.
  Proof.
    intros H Dc Ex U E. pose proof (decided is b H) as D. rewrite Dc in D. destruct D as (_ & _ & Oa & _).
    destruct (reach is H) as ([_ Nv] & P & _). specialize (Nv v U). rewrite E in Nv. destruct (P v U) as [_ W].
    assert (Q : (hw = NanoX -> len rows < 256) /\ covered hw (review_of O known hw v) (len rows) (screen is)
              /\ z_item (screen is) = len rows mod 256).
    { destruct Nv as [_ Nv]. unfold offers_approval in Oa. pose proof (N.mod_lt (len rows) 256 ltac:(lia)).
      destruct hw eqn:Eh.
      - destruct Oa as [Fz Ei]. rewrite Fz in Nv. destruct Nv as (_ & N1 & _ & _ & _ & N2). split; [discriminate|].
        split; [|lia]. destruct Ex as [Ex|Ex]; [discriminate Ex|exact (N2 Ex)].
      - rewrite Oa in Nv. destruct Nv as (_ & N1 & N2 & _ & N3 & N4). split; [intros _; lia|]. split; [exact N4|exact N2]. }
    destruct Q as (Q1 & Q2 & Q3). split; [exact Q1|]. intros k row N Hk.
    assert (Hi : N.of_nat k < z_item (screen is)) by (rewrite Q3; exact Hk).
    exact (covered_rows O known hw K known_sorted known_fit v rows _ k row W E Q2 N Hk Hi).
  Qed.

  (** Both buttons on an information screen decide nothing. *)
  Lemma both_on_information is v n : Forall input_ok is -> pending is = Some v -> view_items v = VOk n ->
    z_face (screen is) = Title \/ z_face (screen is) = Page \/ (z_face (screen is) = Review /\ z_item (screen is) < n) ->
    decision is Both = Stay.
  Proof.
    intros H U Hn Hf. pose proof (decided is Both H) as D. destruct (in_range is H) as [_ Rg]. specialize (Rg v U).
    destruct (reach is H) as ([[_ Rw] _] & _ & _).
    destruct (decision is Both); try reflexivity; exfalso.
    - destruct D as (_ & _ & Oa & _). unfold offers_approval in Oa. destruct hw.
      + destruct Oa as [Fz Ei]. rewrite Fz in *. destruct Hf as [Hf|[Hf|[_ Hf]]]; try discriminate Hf.
        destruct (Rg (or_introl eq_refl)) as (n' & Hn' & Ti & _). assert (n' = n) by congruence. lia.
      + rewrite Oa in Hf. destruct Hf as [Hf|[Hf|[Hf _]]]; discriminate Hf.
    - destruct D as (_ & _ & Oa & _). unfold offers_rejection in Oa. destruct hw.
      + destruct Oa as [Fz Ei]. rewrite Fz in *. destruct Hf as [Hf|[Hf|[_ Hf]]]; try discriminate Hf.
        destruct (Rg (or_introl eq_refl)) as (n' & Hn' & Ti & _). assert (n' = n) by congruence. lia.
      + rewrite Oa in Hf. destruct Hf as [Hf|[Hf|[Hf _]]]; discriminate Hf.
    - rewrite D in Hf. destruct Hf as [Hf|[Hf|[Hf _]]]; discriminate Hf.
    - exact D.
  Qed.

  (** ** Histories of the device *)

  (** The input behind an event. *)
  Definition input_of (is1 : list input) (i : input) (e : event) : Prop :=
    match e with
    | EApdu buf rx => i = IApdu buf rx
    | EApprove => i = IPress Both /\ offers_approval hw (screen is1)
    | EReject => i = IPress Both /\ offers_rejection hw (screen is1)
    | EUiError => exists b, i = IPress b /\ z_face (screen is1) = Failure
    | EPower => i = IPower
    end.

  Lemma split_app_cons {A} (a b es1 : list A) e es2 : a ++ b = es1 ++ e :: es2 ->
    (exists c, a = es1 ++ e :: c /\ es2 = c ++ b) \/ (exists c, es1 = a ++ c /\ b = c ++ e :: es2).
  Proof.
    revert es1. induction a as [|x a IH]; intros es1 E.
    - right. exists es1. auto.
    - destruct es1 as [|y es1]; cbn [app] in E.
      + left. injection E as <- <-. exists a. auto.
      + injection E as <- E. destruct (IH es1 E) as [(c & -> & ->)|(c & -> & ->)]; [left|right]; exists c; auto.
  Qed.

  Lemma events_caused is : Forall input_ok is -> forall es1 e es2, events_of C O known hw fresh is = es1 ++ e :: es2 ->
    exists is1 i is2, is = is1 ++ i :: is2 /\ input_of is1 i e /\
      run C O (dev_fresh f u) es1 = (fst (ui_run C O known hw fresh is1), u_dev (at_ is1)) /\
      events_of_input O known hw (at_ is1) i = [e].
  Proof.
    induction is as [|i is IH] using rev_ind; intros H es1 e es2 E.
    - destruct es1; discriminate E.
    - apply Forall_app in H as [H1 H2]. inversion H2 as [|? ? H2' _]; subst.
      rewrite events_of_app in E. cbn [events_of] in E. rewrite app_nil_r in E.
      destruct (split_app_cons _ _ _ _ _ E) as [(c & E1 & _)|(c & E1 & E2)].
      + destruct (IH H1 es1 e c E1) as (is1 & i' & is2 & -> & R). exists is1, i', (is2 ++ [i]). split; [|exact R].
        now rewrite <- app_assoc.
      + assert (Ec : c = [] /\ events_of_input O known hw (at_ is) i = [e] /\ input_of is i e).
        { pose proof (fun b => decided is b H1) as D.
          destruct i as [buf rx|b|]; cbn [events_of_input] in *.
          - destruct c as [|? [|]]; try discriminate E2. injection E2 as <- _. repeat split.
          - specialize (D b). destruct (snd (press hw (pending_review O known hw (u_dev (at_ is))) (screen is) b));
              cbn [event_of] in E2; destruct c as [|? [|]]; try discriminate E2; injection E2 as <- _; cbn [event_of input_of].
            + destruct D as (-> & _ & D & _). auto.
            + destruct D as (-> & _ & D & _). auto.
            + eauto.
            + contradiction.
          - destruct c as [|? [|]]; try discriminate E2. injection E2 as <- _. repeat split. }
        destruct Ec as (-> & Ee & Ei). rewrite app_nil_r in E1. subst es1.
        exists is, i, []. split; [reflexivity|]. split; [exact Ei|]. split; [|exact Ee]. apply (reach is H1).
  Qed.

  Lemma ui_history is : Forall input_ok is ->
    exists es, Forall event_ok es /\
      run C O (dev_fresh f u) es = (fst (ui_run C O known hw fresh is), u_dev (at_ is)) /\
      forall es1 e es2, es = es1 ++ e :: es2 ->
      exists is1 i is2, is = is1 ++ i :: is2 /\ input_of is1 i e /\
        snd (run C O (dev_fresh f u) es1) = u_dev (at_ is1).
  Proof.
    intros H. exists (events_of C O known hw fresh is). split; [now apply events_ok|]. split; [apply (reach is H)|].
    intros es1 e es2 E. destruct (events_caused is H es1 e es2 E) as (is1 & i & is2 & A & B & R & _).
    exists is1, i, is2. split; [exact A|]. split; [exact B|]. now rewrite R.
  Qed.

  (** ** Signatures *)

  Lemma signed_seen is g : Forall input_ok is -> In g (d_log (u_dev (at_ is))) ->
    sg_src g = SrcReview \/ sg_src g = SrcBakingReview ->
    exists is1 is2 v, is = is1 ++ IPress Both :: is2 /\ offers_approval hw (screen is1) /\
      pending is1 = Some v /\ decision is1 Both = Accept /\ view_ok O v /\
      match v with
      | VSign _ dg _ data => sg_src g = SrcReview /\ sg_digest g = dg /\ sg_data g = data
      | VBakingSign _ dg _ _ data => sg_src g = SrcBakingReview /\ sg_digest g = dg /\ sg_data g = data
      | _ => False
      end.
  Proof.
    intros H Hg Hs. destruct (reach is H) as (_ & _ & R).
    assert (He : Forall event_ok (events_of C O known hw fresh is)) by now apply events_ok.
    assert (Sb : signed_between (dev_fresh f u) (snd (run C O (dev_fresh f u) (events_of C O known hw fresh is))) (rev (d_log (u_dev (at_ is))))).
    { rewrite R. unfold signed_between. cbn [snd]. now rewrite rev_involutive, app_nil_r. }
    assert (Uf : ui_ok O (dev_fresh f u)) by (intros v U; discriminate U).
    destruct (history_signs C O _ _ _ He Uf Sb g (proj1 (in_rev _ _) Hg)) as (es1 & e & es2 & Ee & Ca & _).
    destruct (events_caused is H es1 e es2 Ee) as (is1 & i & is2 & Ei & Io & R1 & Ev).
    rewrite R1 in Ca. cbn [snd] in Ca. unfold sig_cause in Ca.
    assert (Is1 : Forall input_ok is1) by (rewrite Ei in H; apply Forall_app in H; apply H).
    assert (Dc : e = EApprove -> i = IPress Both /\ offers_approval hw (screen is1) /\ decision is1 Both = Accept).
    { intros ->. destruct Io as [-> Oa]. split; [reflexivity|]. split; [exact Oa|]. cbn [events_of_input] in Ev.
      destruct (decision is1 Both); try discriminate Ev. reflexivity. }
    destruct Hs as [Hs|Hs]; rewrite Hs in Ca.
    - destruct Ca as (E1 & _ & sh & p & U). destruct (Dc E1) as (-> & Oa & Da).
      exists is1, is2, (VSign sh (sg_digest g) p (sg_data g)). split; [exact Ei|]. split; [exact Oa|]. split; [exact U|].
      split; [exact Da|]. split; [apply (proj1 (proj2 (reach is1 Is1)) _ U)|]. auto.
    - destruct Ca as (E1 & _ & sh & br & o & U). destruct (Dc E1) as (-> & Oa & Da).
      exists is1, is2, (VBakingSign sh (sg_digest g) br o (sg_data g)). split; [exact Ei|]. split; [exact Oa|]. split; [exact U|].
      split; [exact Da|]. split; [apply (proj1 (proj2 (reach is1 Is1)) _ U)|]. auto.
  Qed.

  (** Expert mode is off when it matters. *)
  Definition watched (is1 : list input) : Prop := hw = NanoX \/ z_expert (screen is1) = false.

  Lemma encoded_shown sh dg branch os data : List.length branch = 32%nat -> Forall op_ok os ->
    view_shown (VSign sh dg (operation_new (branch ++ flat_map enc_op os)) data) =
    Some (row_of (Titled "Operation") (FIdent KindBranch branch) :: flat_map shown_rows (map op_of os)).
  Proof.
    intros L H. unfold operation_new. rewrite take_app by (unfold len; lia).
    change (match eo_all (S (List.length (flat_map enc_op os))) (eo_new (flat_map enc_op os)) with
            | AllOk os => Some (row_of (Titled "Operation") (FIdent KindBranch branch) :: flat_map shown_rows os) | _ => None end =
      Some (row_of (Titled "Operation") (FIdent KindBranch branch) :: flat_map shown_rows (map op_of os))).
    now rewrite batch_decodes.
  Qed.

  Lemma batch_signed is g branch os : Forall input_ok is -> In g (d_log (u_dev (at_ is))) -> sg_src g = SrcReview ->
    List.length branch = 32%nat -> Forall op_ok os -> sg_data g = 3 :: branch ++ flat_map enc_op os ->
    exists is1 is2, is = is1 ++ IPress Both :: is2 /\ offers_approval hw (screen is1) /\
      (watched is1 ->
       let shown := row_of (Titled "Operation") (FIdent KindBranch branch) :: flat_map shown_rows (map op_of os) in
       (hw = NanoX -> len shown < 256) /\
       forall k row, nth_error shown k = Some row -> N.of_nat k < len shown mod 256 ->
       row_seen O known hw (z_seen (screen is1)) row).
  Proof.
    intros H Hg Hs Lb Ok Ed. destruct (signed_seen is g H Hg (or_introl Hs)) as (is1 & is2 & v & Ei & Oa & U & Da & V & Ev).
    assert (Is1 : Forall input_ok is1) by (rewrite Ei in H; apply Forall_app in H; apply H).
    exists is1, is2. split; [exact Ei|]. split; [exact Oa|]. intros Wt. cbv zeta.
    destruct v as [sh dg p data|sh dg br o data| | | | |]; try contradiction; [|destruct Ev; congruence].
    destruct Ev as (_ & _ & Ev). cbn [view_ok] in V. destruct V as (_ & rest & V).
    assert (Ep : p = operation_new (branch ++ flat_map enc_op os)).
    { destruct V as [(E & _ & <-)|(E & _)]; [|congruence]. f_equal. congruence. }
    pose proof (encoded_shown sh dg branch os data Lb Ok) as S1. rewrite <- Ep in S1.
    exact (approved_seen is1 Both _ _ Is1 Da Wt U S1).
  Qed.

  Lemma small_batch_signed is g branch os : Forall input_ok is -> In g (d_log (u_dev (at_ is))) -> sg_src g = SrcReview ->
    List.length branch = 32%nat -> Forall op_ok os -> sg_data g = 3 :: branch ++ flat_map enc_op os ->
    (List.length (batch_sheet branch (map op_of os)) < 256)%nat ->
    exists is1 is2, is = is1 ++ IPress Both :: is2 /\ offers_approval hw (screen is1) /\
      (watched is1 -> Forall (row_seen O known hw (z_seen (screen is1))) (batch_sheet branch (map op_of os))).
  Proof.
    intros H Hg Hs Lb Ok Ed Sm. destruct (batch_signed is g branch os H Hg Hs Lb Ok Ed) as (is1 & is2 & Ei & Oa & Se).
    exists is1, is2. split; [exact Ei|]. split; [exact Oa|]. intros Wt. destruct (Se Wt) as [_ Sn]. cbv zeta in Sn.
    assert (Fi : rows_fit (map op_of os)).
    { unfold batch_sheet in Sm. cbn [List.length] in Sm. apply Forall_forall. intros o Ho.
      assert (List.length (sheet o) <= List.length (flat_map sheet (map op_of os)))%nat; [|lia].
      clear -Ho. induction (map op_of os) as [|x l IH]; [easy|]. cbn [flat_map]. rewrite app_length.
      destruct Ho as [->|Ho]; [lia|]. specialize (IH Ho). lia. }
    rewrite (rows_fit_shown _ Fi) in Sn. change (row_of (Titled "Operation") (FIdent KindBranch branch) :: flat_map sheet (map op_of os))
      with (batch_sheet branch (map op_of os)) in Sn.
    apply Forall_forall. intros row Hr. apply In_nth_error in Hr as [k Hk]. apply (Sn k row Hk).
    rewrite N.mod_small by (unfold len; lia). apply nth_error_Some' in Hk. unfold len. lia.
  Qed.

  Lemma michelson_signed is g rest : Forall input_ok is -> In g (d_log (u_dev (at_ is))) -> sg_src g = SrcReview ->
    sg_data g = 5 :: rest ->
    exists is1 is2, is = is1 ++ IPress Both :: is2 /\ offers_approval hw (screen is1) /\
      (watched is1 -> row_seen O known hw (z_seen (screen is1)) (row_of (Titled "Sign Michelson") (FHex (sg_digest g)))).
  Proof.
    intros H Hg Hs Ed. destruct (signed_seen is g H Hg (or_introl Hs)) as (is1 & is2 & v & Ei & Oa & U & Da & V & Ev).
    assert (Is1 : Forall input_ok is1) by (rewrite Ei in H; apply Forall_app in H; apply H).
    exists is1, is2. split; [exact Ei|]. split; [exact Oa|]. intros Wt.
    destruct v as [sh dg p data|sh dg br o data| | | | |]; try contradiction; [|destruct Ev; congruence].
    destruct Ev as (_ & E1 & E2). destruct V as (_ & rest' & [(E & _)|(E & ->)]); [congruence|].
    destruct (approved_seen is1 Both _ _ Is1 Da Wt U eq_refl) as [_ Sn].
    rewrite E1. apply (Sn 0%nat _ eq_refl). reflexivity.
  Qed.

  Lemma baking_signed is g branch o1 rest : Forall input_ok is -> In g (d_log (u_dev (at_ is))) -> sg_src g = SrcBakingReview ->
    List.length branch = 32%nat -> op_ok o1 -> sg_data g = 3 :: branch ++ enc_op o1 ++ rest ->
    exists is1 is2, is = is1 ++ IPress Both :: is2 /\ offers_approval hw (screen is1) /\
      (watched is1 -> Forall (row_seen O known hw (z_seen (screen is1))) (batch_sheet branch [op_of o1])).
  Proof.
    intros H Hg Hs Lb Ok Ed. destruct (signed_seen is g H Hg (or_intror Hs)) as (is1 & is2 & v & Ei & Oa & U & Da & V & Ev).
    assert (Is1 : Forall input_ok is1) by (rewrite Ei in H; apply Forall_app in H; apply H).
    exists is1, is2. split; [exact Ei|]. split; [exact Oa|]. intros Wt.
    destruct v as [sh dg p data|sh dg br o data| | | | |]; try contradiction; [destruct Ev; congruence|].
    destruct Ev as (_ & E1 & E2). destruct V as (_ & rest' & ops & more & E3 & E4 & E5 & Ty).
    assert (E6 : rest' = branch ++ enc_op o1 ++ rest) by congruence. subst rest'.
    unfold operation_new in E4. rewrite take_app in E4 by (unfold len; lia).
    assert (br = branch /\ ops = eo_new (enc_op o1 ++ rest)) as [-> ->] by (split; congruence).
    assert (o = op_of o1) as ->.
    { unfold eo_next, eo_new in E5. cbn [eo_source eo_read Nat.ltb Nat.leb skipn] in E5.
      destruct (enc_op o1 ++ rest) as [|x l] eqn:El; [now destruct (enc_op o1)|].
      rewrite <- El, op_parse_enc in E5 by exact Ok. congruence. }
    destruct (approved_seen is1 Both _ _ Is1 Da Wt U eq_refl) as [_ Sn].
    apply Forall_forall. intros row Hr. apply In_nth_error in Hr as [k Hk]. apply (Sn k row Hk).
    assert (Sm : (List.length (batch_sheet branch [op_of o1]) < 256)%nat).
    { unfold batch_sheet. cbn [flat_map List.length]. rewrite app_nil_r.
      destruct (op_of o1) as [| m [[? ?]|] | | | |m pk| | | | | |]; try contradiction; cbn [sheet limits app List.length] in *; lia. }
    rewrite N.mod_small by (unfold len; lia). apply nth_error_Some' in Hk. unfold len. lia.
  Qed.

  (** ** Reachability *)

  Lemma right_ack o z : snd (press hw o z Right) = Ack -> z_face (fst (press hw o z Right)) = Idle.
  Proof.
    assert (A : forall x, snd (put_review hw x) <> Ack) by (intros [?|[| |] ?|]; discriminate).
    assert (B : forall x, snd (put_page hw x) <> Ack) by (intros [?|[| |] ?|]; discriminate).
    intros E. unfold press in *. destruct hw; unfold press_s, press_x in *; destruct (z_face z); try discriminate E; try reflexivity.
    - destruct (A _ E).
    - destruct (B _ E).
    - destruct (update_data NanoX o (paging_increase NanoX z)) as [x|[| |] x|]; try discriminate E; destruct (B _ E).
  Qed.

  Lemma rights_run d v z m : d_ui d = Some v -> proper O d -> good O known hw (mkUi d z) ->
    z_face (rights hw (review_of O known hw v) m z) <> Idle ->
    ui_run C O known hw (mkUi d z) (repeat (IPress Right) m) = ([], mkUi d (rights hw (review_of O known hw v) m z))
    /\ good O known hw (mkUi d (rights hw (review_of O known hw v) m z)).
  Proof.
    intros U P G. induction m as [|m IH]; intros Nf; [split; [reflexivity|exact G]|].
    cbn [rights] in *. set (r := review_of O known hw v) in *. set (zm := rights hw r m z) in *.
    assert (Nm : z_face zm <> Idle).
    { intros F. apply Nf. unfold press. destruct hw; unfold press_s, press_x; rewrite F; exact F. }
    destruct (IH Nm) as [R Gm].
    destruct (press_good O known hw K known_sorted known_fit d zm Right Gm P) as (Na & D & _ & G'). cbv zeta in *.
    unfold pending_review in *. rewrite U in *. fold r in Na, D, G'.
    assert (St : snd (press hw (Some r) zm Right) = Stay).
    { pose proof (right_ack (Some r) zm) as Ack'. destruct (snd (press hw (Some r) zm Right)); try reflexivity.
      - destruct D as [D _]. discriminate D.
      - destruct D as [D _]. discriminate D.
      - destruct (Nf (Ack' eq_refl)).
      - congruence. }
    rewrite St in G'. split; [|exact G'].
    replace (repeat (IPress Right) (S m)) with (repeat (IPress Right) m ++ [IPress Right]) by (symmetry; apply repeat_cons).
    rewrite ui_run_app, R. cbn [fst snd app]. rewrite ui_run_one. cbn [ui_step u_dev u_zui].
    unfold pending_review. rewrite U. fold r. destruct (press hw (Some r) zm Right) as [z' a]. cbn [fst snd] in *. subst a. reflexivity.
  Qed.

  (** A review that has just been put on the screen. *)
  Lemma shown_review is buf rx : Forall input_ok is -> apdu_ok buf ->
    fst (ui_step C O known hw (at_ is) (IApdu buf rx)) = [APending] ->
    exists v z, pending (is ++ [IApdu buf rx]) = Some v /\ bufs_ok hw z /\
      at_ (is ++ [IApdu buf rx]) = mkUi (u_dev (at_ (is ++ [IApdu buf rx]))) (fst (zui_show hw (review_of O known hw v) z)).
  Proof.
    intros H Hb Ea. destruct (reach is H) as (G & P & R).
    assert (P' : proper O (snd (step C O (u_dev (at_ is)) (EApdu buf rx)))).
    { set (es := events_of C O known hw fresh is ++ [EApdu buf rx]).
      assert (He : Forall event_ok es) by (apply Forall_app; split; [now apply events_ok|constructor; [exact Hb|constructor]]).
      assert (Er : snd (step C O (u_dev (at_ is)) (EApdu buf rx)) = snd (run C O (dev_fresh f u) es)).
      { unfold es. rewrite run_pair, R. cbn [fst snd run]. now destruct (step C O (u_dev (at_ is)) (EApdu buf rx)). }
      rewrite Er. intros v U. split; [exact (reach_ui C O f u es He v U)|exact (pending_wf C O f u es v K Uok He U)]. }
    assert (Es : at_ (is ++ [IApdu buf rx]) = snd (ui_step C O known hw (at_ is) (IApdu buf rx))) by (rewrite ui_run_app, ui_run_one; reflexivity).
    rewrite Es. destruct (at_ is) as [d z]. cbn [u_dev u_zui] in *. cbn [ui_step u_dev u_zui] in *.
    destruct (d_ui d) as [v|] eqn:U.
    - destruct (pending_step C O d (EApdu buf rx)) as [[_ E]|[[] _]]; [congruence| |exact Logic.I]. rewrite E in Ea. discriminate Ea.
    - destruct (step_requested C O d (EApdu buf rx) Hb U) as [(E1 & v & E2 & _)|(E1 & E2)].
      + destruct (step C O d (EApdu buf rx)) as [a d']. cbn [fst snd] in E1, E2, P'. subst a. rewrite E2 in *.
        assert (B : bufs_ok hw z) by apply G. destruct (show_good O known hw K known_sorted known_fit d' v z E2 P' B) as [St _].
        exists v, z. destruct (zui_show hw (review_of O known hw v) z) as [z' act]. cbn [fst snd] in *. subst act.
        unfold perform. cbn [event_of run existsb fst snd u_dev]. auto.
      + destruct (step C O d (EApdu buf rx)) as [a d']. cbn [fst snd] in E1, E2. exfalso.
        destruct a; rewrite ?E2 in Ea; cbn [fst] in Ea; congruence.
  Qed.

  Lemma small_fits v rows : view_sheet v = Some rows -> (List.length rows < 256)%nat -> view_fits v.
  Proof.
    destruct v as [? ? [[branch ops]|] ?| | | | | |]; try (intros; exact Logic.I). cbn [view_sheet view_fits]. intros E Sm os Eo.
    rewrite Eo in E. injection E as <-. unfold batch_sheet in Sm. cbn [List.length] in Sm. apply Forall_forall. intros o Ho.
    assert (List.length (sheet o) <= List.length (flat_map sheet os))%nat; [|lia].
    clear -Ho. induction os as [|x l IH]; [easy|]. cbn [flat_map]. rewrite app_length.
    destruct Ho as [->|Ho]; [lia|]. specialize (IH Ho). lia.
  Qed.

  Lemma all_reachable is buf rx v rows : Forall input_ok is -> apdu_ok buf ->
    fst (ui_step C O known hw (at_ is) (IApdu buf rx)) = [APending] ->
    pending (is ++ [IApdu buf rx]) = Some v -> view_sheet v = Some rows -> (List.length rows < 256)%nat ->
    (forall row, In row rows -> ~ unshowable O (snd row)) ->
    (forall k row, nth_error rows k = Some row ->
     exists h ss, entitles (fst row) h /\ shows O known (snd row) (concat ss) /\
     forall p s, nth_error ss p = Some s ->
     exists m lines rest, in_lines hw (visible s) lines /\
       z_seen (screen (is ++ IApdu buf rx :: repeat (IPress Right) m)) =
       mkShot (page_title hw (visible h) (N.of_nat p) (len ss)) lines :: rest) /\
    exists m, decision (is ++ IApdu buf rx :: repeat (IPress Right) m) Both = Accept.
  Proof.
    intros H Hb Ea U E Sm Sh. pose proof (small_fits v rows E Sm) as Fi. rewrite <- (view_fits_shown v Fi) in E.
    assert (H' : Forall input_ok (is ++ [IApdu buf rx])) by (apply Forall_app; split; [exact H|constructor; [exact Hb|constructor]]).
    destruct (shown_review is buf rx H Hb Ea) as (v' & z0 & U' & B & Ez). assert (v' = v) as -> by congruence. clear U'.
    destruct (reach _ H') as (G & P & _). destruct (P v U) as [_ W].
    pose proof (view_rows_of O known hw K known_sorted known_fit v rows W E) as R.
    set (r := review_of O known hw v) in *.
    assert (Ln : len rows mod 256 = len rows) by (apply N.mod_small; unfold len; lia).
    assert (Of : forall k row, nth_error rows k = Some row -> exists h ss, offers hw r (N.of_nat k) h ss /\ entitles (fst row) h /\ shows O known (snd row) (concat ss)).
    { intros k row N. pose proof (nth_error_Some' _ _ _ N) as Hk.
      destruct (row_offers O known hw K known_sorted known_fit v rows k row W E N ltac:(lia)) as [X|[X _]]; [exact X|].
      destruct (Sh row (nth_error_In _ _ N) X). }
    assert (All : forall k, k < len rows mod 256 -> exists h ss, offers hw r k h ss).
    { intros k Hk. rewrite Ln in Hk. destruct (nth_error rows (N.to_nat k)) as [row|] eqn:N; [|apply nth_error_None in N; unfold len in Hk; lia].
      destruct (Of _ _ N) as (h & ss & X & _). rewrite N2Nat.id in X. eauto. }
    assert (Run : forall m, z_face (rights hw r m (fst (zui_show hw r z0))) <> Idle ->
      at_ (is ++ IApdu buf rx :: repeat (IPress Right) m) = mkUi (u_dev (at_ (is ++ [IApdu buf rx]))) (rights hw r m (fst (zui_show hw r z0)))).
    { intros m Nf. change (IApdu buf rx :: repeat (IPress Right) m) with ([IApdu buf rx] ++ repeat (IPress Right) m).
      rewrite app_assoc, ui_run_app. cbn [snd]. rewrite Ez at 1. rewrite Ez in G.
      destruct (rights_run (u_dev (at_ (is ++ [IApdu buf rx]))) v (fst (zui_show hw r z0)) m U P G Nf) as [Rr _].
      fold r in Rr. rewrite Rr. reflexivity. }
    split.
    - intros k row N. destruct (Of k row N) as (h & ss & X & Et & Sw). exists h, ss. split; [exact Et|]. split; [exact Sw|].
      intros p s Np. pose proof (nth_error_Some' _ _ _ N) as Hk. pose proof (nth_error_Some' _ _ _ Np) as Hp.
      destruct (every_page hw r (len rows) R All z0 (N.of_nat k) h ss (N.of_nat p) B) as [m A].
      { rewrite Ln. exact (nth_error_len _ _ _ N). } { exact X. } { exact (nth_error_len _ _ _ Np). }
      destruct A as (Nv & Fz & Ei & Ep).
      assert (Nf : z_face (rights hw r m (fst (zui_show hw r z0))) <> Idle).
      { rewrite Fz. unfold info_face. destruct hw; discriminate. }
      assert (Cu : current hw r (rights hw r m (fst (zui_show hw r z0)))).
      { destruct Nv as [_ Nv]. rewrite Fz in Nv. unfold info_face in Nv. destruct hw.
        - apply Nv. rewrite Ln, Ei. unfold len. lia.
        - apply Nv. }
      destruct Cu as (h' & ss' & s' & lines & rest & O' & P1 & P2 & P3 & P4 & P5). rewrite Ei in O'.
      destruct (offers_det _ _ _ _ _ _ _ X O') as [<- <-]. rewrite Ep, Nat2N.id in P3. pose proof (eq_trans (eq_sym Np) P3) as Q. injection Q as <-.
      exists m, lines, rest. split; [exact P4|]. rewrite (Run m Nf). cbn [u_zui]. rewrite P5, Ep. reflexivity.
    - assert (Hn : 0 < len rows mod 256).
      { rewrite Ln. pose proof (shown_nonempty v rows E). destruct rows; [easy|]. unfold len. cbn [List.length]. lia. }
      destruct (approval_reachable hw r (len rows) R All z0 B Hn (fun _ => eq_sym Ln)) as (m & (Nv & Ap) & Ac).
      exists m. rewrite (Run m).
      + cbn [u_dev u_zui]. unfold pending_review. rewrite U. exact Ac.
      + destruct hw; [destruct Ap as [-> _]; discriminate|rewrite Ap; discriminate].
  Qed.

  (** Each button leads to the neighbouring place. *)
  Lemma navigation is v rows : Forall input_ok is -> pending is = Some v -> view_sheet v = Some rows ->
    (List.length rows < 256)%nat -> (forall row, In row rows -> ~ unshowable O (snd row)) ->
    In (z_face (screen is)) [Review; Title; Page; Approval; Rejection] ->
    exists screens, Forall2 (fun row hs => entitles (fst row) (fst hs) /\ shows O known (snd row) (concat (snd hs))) rows screens /\
    exists a, appears hw screens (screen is) a /\
    (pending (is ++ [IPress Right]) = Some v /\
     exists a', appears hw screens (screen (is ++ [IPress Right])) a' /\ moves (places hw screens) a a') /\
    (pending (is ++ [IPress Left]) = Some v /\
     exists a', appears hw screens (screen (is ++ [IPress Left])) a' /\ moves (rev (places hw screens)) a a').
  Proof.
    intros H U E Sm Sh Rv. pose proof (small_fits v rows E Sm) as Fi. rewrite <- (view_fits_shown v Fi) in E.
    destruct (reach _ H) as ([_ G] & P & _). destruct (P v U) as [_ W]. specialize (G v U). rewrite E in G.
    pose proof (view_rows_of O known hw K known_sorted known_fit v rows W E) as R.
    set (r := review_of O known hw v) in *.
    assert (Of : forall k row, nth_error rows k = Some row -> exists hs, offers hw r (N.of_nat k) (fst hs) (snd hs) /\
      (entitles (fst row) (fst hs) /\ shows O known (snd row) (concat (snd hs)))).
    { intros k row N. pose proof (nth_error_Some' _ _ _ N) as Hk.
      destruct (row_offers O known hw K known_sorted known_fit v rows k row W E N ltac:(lia)) as [(h & ss & X)|[X _]].
      - exists (h, ss). exact X.
      - destruct (Sh row (nth_error_In _ _ N) X). }
    destruct (choose_rows rows 0 (fun k hs => offers hw r (N.of_nat k) (fst hs) (snd hs)) _ Of) as (screens & F2 & Fo). exists screens. split; [exact F2|].
    assert (Ls : len screens = len rows) by (unfold len; now rewrite (Forall2_len _ _ _ F2)).
    assert (Fo' : forall k h ss, nth_error screens k = Some (h, ss) -> offers hw r (N.of_nat k) h ss) by (intros k h ss N; exact (Fo k (h, ss) N)).
    destruct (arrows_move hw r (len rows) R ltac:(unfold len; lia) screens Ls Fo' (screen is) G Rv) as (a & A & S1 & S2 & (a1 & A1 & M1) & (a2 & A2 & M2)).
    exists a. split; [exact A|].
    assert (Go : forall b, snd (press hw (Some r) (screen is) b) = Stay ->
      at_ (is ++ [IPress b]) = mkUi (u_dev (at_ is)) (fst (press hw (Some r) (screen is) b))).
    { intros b Sb. rewrite ui_run_app, ui_run_one. cbn [snd ui_step]. unfold pending_review. rewrite U. fold r.
      destruct (press hw (Some r) (screen is) b) as [z' act]. cbn [fst snd] in *. subst act. reflexivity. }
    rewrite (Go Right S1), (Go Left S2). cbn [u_dev u_zui].
    split; (split; [exact U|]); eauto.
  Qed.

  (** With 256 rows or more the Nano X offers no decision. *)
  Lemma stuck is b v rows : Forall input_ok is -> hw = NanoX -> pending is = Some v ->
    view_sheet v = Some rows -> view_fits v -> 256 <= len rows -> decision is b <> Accept /\ decision is b <> Refuse.
  Proof.
    intros H Hx U E Fi Lr. rewrite <- (view_fits_shown v Fi) in E. pose proof (decided is b H) as D. destruct (reach is H) as ([_ Nv] & P & _).
    specialize (Nv v U). rewrite E in Nv. destruct Nv as [_ Nv]. pose proof (N.mod_lt (len rows) 256 ltac:(lia)) as M.
    destruct (decision is b); try (split; discriminate).
    - destruct D as (_ & _ & Oa & _). rewrite (approval_x hw _ Hx Oa) in Nv. lia.
    - destruct D as (_ & _ & Oa & _). rewrite (rejection_x hw _ Hx Oa) in Nv. lia.
  Qed.
End Cases.
