(** The pages of a row on a screen. *)
From Coq Require Import NArith ZArith Bool Arith String List Lia.
From Coq Require Import ZifyBool ZifyNat ZifyN.
From Verif Require Import Base BaseFacts Codecs CodecsFacts Oracles Address AddressSpec AddressFacts
  Text TextSpec TextFacts TextExamples Bakers BakersSpec BakersFacts
  Operations OperationsSpec OperationsFacts Device Screens ScreensSpec ScreensFacts ScreensViews.
Import ListNotations.
Open Scope string_scope.
Open Scope list_scope.
Open Scope N_scope.

(** Item [k] of the review shows title [h] and the text [t] on the pages [screens],
    whatever the buffers held before, and announces the right number of pages. *)
Definition shown_as O table hw v (k : nat) (h t : bytes) (screens : list bytes) : Prop :=
  screens <> [] /\ concat screens = t /\
  forall key out, List.length key = key_size hw -> len out = message_size hw ->
  forall p s, nth_error screens p = Some s ->
  exists key' out',
    view_render O table (key_size hw) v (N.of_nat k) key out (N.of_nat p) = VOk (key', out', len screens)
    /\ List.length key' = List.length key /\ List.length out' = List.length out
    /\ In 0 key' /\ In 0 out' /\ cstr key' = h /\ cstr out' = s.
(** Item [k] shows a row. *)
Definition displays O table hw v k (r : row) : Prop :=
  exists h t screens, entitles (fst r) h /\ shows O table (snd r) t /\ shown_as O table hw v k h t screens.
(** Item [k] fails. *)
Definition fails O table hw v (k : nat) (e : view_error) : Prop :=
  forall key out page, List.length key = key_size hw -> len out = message_size hw ->
  view_render O table (key_size hw) v (N.of_nat k) key out page = VErr e.

Definition screens_of (m n : N) (t : bytes) : list bytes := map (fun p => page m (N.of_nat p) t) (seq 0 (N.to_nat n)).

Lemma cstr_title h key : printable h -> cstr (overwrite (h ++ [0]) key) = h.
Proof.
  intros P. now apply cstr_overwrite, printable_nonzero.
Qed.

Lemma handy_announced hw item out p b n : len out = message_size hw -> handy (List.length item) ->
  ui_message item out p = VOk (b, n) -> n = pages (message_size hw - 1) item.
Proof.
  intros L Hd E. pose proof (announced item out p b n) as A. cbv zeta in A. rewrite L in A.
  apply A; auto.
  - unfold len in L. destruct hw; cbn [message_size] in L; lia.
  - unfold handy in Hd. unfold len. destruct hw; cbn [message_size]; lia.
  - unfold handy in Hd. unfold len. destruct hw; cbn [message_size]; lia.
Qed.

(** An item for a row displays it or fails because a field cannot be shown. *)
Lemma item_displays O table hw v k r i : view_item O table (key_size hw) v (N.of_nat k) = VOk i ->
  item_for O table r i ->
  (exists h t screens, entitles (fst r) h /\ shows O table (snd r) t /\ shown_as O table hw v k h t screens
     /\ printable h /\ (printable t \/ exists b, In b table /\ bk_name b = t)
     /\ (List.length screens <= 2)%nat)
  \/ (unshowable O (snd r) /\ fails O table hw v k Unknown).
Proof.
  intros E F. destruct i as [title msg|e]; [|contradiction]. destruct F as [(h & Eh & -> & Ph & Lh) M].
  assert (TK : forall key : bytes, List.length key = key_size hw ->
    Nat.ltb (List.length key) (List.length (h ++ [0])) = false).
  { intros key Lk. rewrite app_length. cbn [List.length]. apply Nat.ltb_ge. destruct hw; cbn [key_size] in Lk; lia. }
  destruct msg as [x|e|]; cbn [message_for] in M.
  - destruct M as (t & T & Sh & Hd & Pt). left.
    set (m := message_size hw - 1). assert (Hm : m <> 0) by (destruct hw; cbv; discriminate).
    exists h, t, (screens_of m (pages m x) t).
    assert (Ln : len (screens_of m (pages m x) t) = pages m x).
    { unfold screens_of, len. rewrite map_length, seq_length. lia. }
    assert (P1 : 1 <= pages m x) by (unfold pages; lia).
    split; [exact Eh|]. split; [exact Sh|]. split; [|split; [exact Ph|split; [exact Pt|]]].
    + split. { intros Z. rewrite Z in Ln. change (len []) with 0 in Ln. lia. }
      split. { apply pages_concat_more; auto. now apply pages_text. }
      intros key out Lk Lo p s H.
      assert (Hp : (p < N.to_nat (pages m x))%nat).
      { apply nth_error_Some' in H. unfold screens_of in H. now rewrite map_length, seq_length in H. }
      unfold screens_of in H. rewrite nth_error_map in H.
      rewrite (nth_error_nth' _ 0%nat), seq_nth in H; [|auto|now rewrite seq_length].
      cbn [option_map plus] in H. injection H as <-.
      assert (L2 : (2 <= List.length out)%nat) by (unfold len in Lo; destruct hw; cbn [message_size] in Lo; lia).
      pose proof (ui_message_shows t x out (N.of_nat p) T L2) as U. cbv zeta in U. rewrite Lo in U. fold m in U.
      destruct U as (b & n & U1 & U2 & U3 & U4); [lia|].
      exists (overwrite (h ++ [0]) key), b. unfold view_render. rewrite E. cbn [vbind render].
      rewrite (TK key Lk). cbn [vbind]. rewrite U1. cbn [vbind]. rewrite Ln.
      rewrite (handy_announced hw x out (N.of_nat p) b n Lo Hd U1).
      split; [reflexivity|]. split.
      { apply overwrite_length. specialize (TK key Lk). apply Nat.ltb_ge in TK. exact TK. }
      split; [exact U2|]. split.
      { unfold overwrite. rewrite !in_app_iff. left. right. now left. }
      split; [exact U3|]. split; [now apply cstr_title|exact U4].
    + unfold screens_of. rewrite map_length, seq_length. unfold pages, handy, len in *. destruct hw; cbn [message_size] in m; subst m; lia.
  - destruct M as [-> U]. right. split; [exact U|]. intros key out page Lk Lo.
    unfold view_render. rewrite E. cbn [vbind render]. now rewrite (TK key Lk).
  - contradiction.
Qed.

Lemma view_item_none O table ks v rows k : view_wf v -> view_shown v = Some rows ->
  (List.length rows <= k < 256)%nat -> view_item O table ks v (N.of_nat k) = VOk (NoItem NoData).
Proof.
  intros W E H.
  destruct v as [sh digest [[branch ops]|] data|sh digest branch o data|kk a|a|wc kk a|wa pk a|kk main test chain a];
    cbn [view_shown view_sheet view_wf] in E, W;
    try (injection E as <-; cbn [List.length] in H; unfold view_item;
      remember (N.of_nat k) as n eqn:En;
      destruct n as [|[[[?|?|]|[?|?|]|]|[[?|?|]|[?|?|]|]|]]; (reflexivity || lia)).
  - destruct (eo_all _ ops) as [| | |os] eqn:EA; try discriminate. injection E as <-.
    destruct k as [|k]; [cbn in H; lia|]. cbn [view_item].
    change (N.of_nat (S k)) with (N.pos (Pos.of_succ_nat k)).
    unfold batch_fuel. rewrite (find_op_pick _ _ _ _ EA).
    replace (N.pos (Pos.of_succ_nat k) - 1) with (N.of_nat k) by lia.
    pose proof (pick_rows os k) as P.
    assert (Z : nth_error (flat_map shown_rows os) k = None).
    { apply nth_error_None. cbn [List.length] in H. lia. }
    rewrite Z in P. rewrite P. reflexivity.
  - injection E as <-. destruct W as (_ & _ & Wr). unfold batch_sheet in H. cbn [flat_map List.length] in H.
    rewrite app_nil_r in H.
    destruct k as [|k]; [lia|]. cbn [view_item].
    change (N.of_nat (S k)) with (N.pos (Pos.of_succ_nat k)). cbv iota.
    replace (N.pos (Pos.of_succ_nat k) - 1) with (N.of_nat k) by lia.
    f_equal. pose proof (op_items_sheet o) as L. unfold len in L.
    rewrite op_item_none; [destruct o; (reflexivity || contradiction)|lia|destruct o; try contradiction; reflexivity|lia].
Qed.

(** ** Reviews in final form *)

Lemma shown_review_rows O table hw v rows : oracles_ok O -> sorted table -> names_fit table ->
  view_wf v -> view_shown v = Some rows ->
  view_items v = VOk (len rows mod 256) /\
  forall k, (k < 256)%nat ->
  match nth_error rows k with
  | Some r => displays O table hw v k r \/ (unshowable O (snd r) /\ fails O table hw v k Unknown)
  | None => fails O table hw v k NoData
  end.
Proof.
  intros K St F W E. split; [now apply view_items_shown|]. intros k Hk.
  assert (Hs : (18 <= key_size hw)%nat) by (destruct hw; cbn; lia).
  destruct (nth_error rows k) as [r|] eqn:N.
  - destruct (view_item_row O table (key_size hw) v rows k r K St F Hs W E N Hk) as (i & V & I').
    destruct (item_displays O table hw v k r i V I') as [(h & t & ss & A & B & C & _)|U]; [left|right; exact U].
    exists h, t, ss. auto.
  - apply nth_error_None in N. intros key out page _ _. unfold view_render.
    rewrite (view_item_none O table _ v rows k W E); [reflexivity|lia].
Qed.
Lemma review_rows O table hw v rows : oracles_ok O -> sorted table -> names_fit table ->
  view_wf v -> view_fits v -> view_sheet v = Some rows ->
  view_items v = VOk (len rows mod 256) /\
  forall k, (k < 256)%nat ->
  match nth_error rows k with
  | Some r => displays O table hw v k r \/ (unshowable O (snd r) /\ fails O table hw v k Unknown)
  | None => fails O table hw v k NoData
  end.
Proof. intros K St F W Fit E. rewrite <- (view_fits_shown v Fit) in E. now apply shown_review_rows. Qed.
