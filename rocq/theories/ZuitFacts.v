(** What the test driver of reviews collects. *)
From Coq Require Import NArith ZArith Bool Arith String List Lia.
From Coq Require Import ZifyBool ZifyNat ZifyN.
From Verif Require Import Base BaseFacts Codecs CodecsFacts Oracles Address AddressSpec AddressFacts
  Text TextSpec TextFacts TextExamples Bakers BakersSpec BakersFacts
  Operations OperationsSpec OperationsFacts Device Screens ScreensSpec ScreensFacts ScreensViews ScreensPages Zuit.
Import ListNotations.
Open Scope string_scope.
Open Scope list_scope.
Open Scope N_scope.

(** ** UTF-8 *)

Lemma utf8_from_app a b : forall due, utf8_from due a = true -> utf8_from due (a ++ b) = utf8 b.
Proof.
  induction a as [|x a IH]; intros due H; cbn [app utf8_from] in *.
  - destruct due; [reflexivity|discriminate].
  - destruct due as [|[lo hi] due].
    + destruct (utf8_follow x) as [due|]; [now apply IH|discriminate].
    + apply andb_true_iff in H as [H1 H2]. rewrite H1. cbn [andb]. now apply IH.
Qed.
Lemma utf8_app a b : utf8 a = true -> utf8 b = true -> utf8 (a ++ b) = true.
Proof. intros A B. unfold utf8 at 1. rewrite utf8_from_app; auto. Qed.
Lemma utf8_ascii l : Forall (fun c => c < 128) l -> utf8 l = true.
Proof.
  induction 1 as [|c l H _ IH]; [reflexivity|]. unfold utf8. cbn [utf8_from]. unfold utf8_follow.
  replace (c <? 0x80) with true by (symmetry; now apply N.ltb_lt). exact IH.
Qed.
Lemma utf8_printable t : printable t -> utf8 t = true.
Proof. intros P. apply utf8_ascii. eapply Forall_impl; [|exact P]. cbv beta. lia. Qed.
Lemma utf8_zeros n : utf8 (zeros n) = true.
Proof. apply utf8_ascii. unfold zeros. apply Forall_forall. intros x X. apply repeat_spec in X. lia. Qed.
Lemma zeros_skip n k : skipn k (zeros n) = zeros (n - k).
Proof.
  unfold zeros. revert k. induction n as [|n IH]; intros [|k]; try reflexivity. cbn [repeat skipn]. rewrite IH. reflexivity.
Qed.
Lemma utf8_buffer t n : utf8 t = true -> utf8 (overwrite (t ++ [0]) (zeros n)) = true.
Proof.
  intros H. unfold overwrite. rewrite zeros_skip. apply utf8_app; [|apply utf8_zeros]. apply utf8_app; [exact H|reflexivity].
Qed.

(** ** Titles do not depend on the size of their buffer *)

Lemma proposal_title_same ks n : (18 <= ks)%nat -> proposal_title ks n = proposal_title 18 n.
Proof.
  intros H. unfold proposal_title. cbv zeta.
  assert (M : (n + 1) mod 256 < 256) by (apply N.mod_lt; lia).
  assert (L : len (itoa ((n + 1) mod 256)) <= 3) by (apply number_length; lia). unfold len in L.
  replace (10 + List.length (itoa ((n + 1) mod 256)) + 1 <? ks)%nat with true by (symmetry; apply Nat.ltb_lt; lia).
  replace (10 + List.length (itoa ((n + 1) mod 256)) + 1 <? 18)%nat with true by (symmetry; apply Nat.ltb_lt; lia).
  reflexivity.
Qed.
Lemma op_item_same O table ks o n : (18 <= ks)%nat -> op_item O table ks o n = op_item O table 18 o n.
Proof. intros H. unfold op_item. destruct o; try reflexivity. now rewrite (proposal_title_same ks). Qed.
Lemma view_item_same O table ks v n : (18 <= ks)%nat -> view_item O table ks v n = view_item O table 18 v n.
Proof.
  intros H.
  destruct v as [sh digest [[branch ops]|] data|sh digest branch o data|kk a|a|wc kk a|wa pk a|kk main test chain a];
    try reflexivity.
  - cbn [view_item]. destruct n; [reflexivity|].
    destruct (find_op _ ops _) as [[[o i]|]|e|]; cbn [vbind]; try reflexivity. now rewrite (op_item_same O table ks).
  - cbn [view_item]. destruct n; [reflexivity|]. destruct o; rewrite ?(op_item_same O table ks) by exact H; reflexivity.
Qed.

(** ** Items *)

(** An item on a device, with the text it shows. *)
Lemma item_text O table hw v k h t x :
  view_item O table (key_size hw) v (N.of_nat k) = VOk (Item (h ++ [0]) (VOk x)) ->
  printable h -> (List.length h < 18)%nat -> text_of t x -> handy (List.length x) ->
  exists screens, shown_as O table hw v k h t screens.
Proof.
  intros E Ph Lh T Hd.
  assert (TK : forall key : bytes, List.length key = key_size hw ->
    Nat.ltb (List.length key) (List.length (h ++ [0])) = false).
  { intros key Lk. rewrite app_length. cbn [List.length]. apply Nat.ltb_ge. destruct hw; cbn [key_size] in Lk; lia. }
  set (m := message_size hw - 1). assert (Hm : m <> 0) by (destruct hw; cbv; discriminate).
  exists (screens_of m (pages m x) t).
  assert (Ln : len (screens_of m (pages m x) t) = pages m x).
  { unfold screens_of, len. rewrite map_length, seq_length. lia. }
  assert (P1 : 1 <= pages m x) by (unfold pages; lia).
  split. { intros Z. rewrite Z in Ln. change (len []) with 0 in Ln. lia. }
  split. { apply pages_concat_more; auto. now apply pages_text. }
  intros key out Lk Lo p s H.
  assert (Hp : (p < N.to_nat (pages m x))%nat).
  { apply nth_error_Some' in H. unfold screens_of in H. now rewrite map_length, seq_length in H. }
  unfold screens_of in H. rewrite nth_error_map in H.
  rewrite (nth_error_nth' _ 0%nat), seq_nth in H; [|auto|now rewrite seq_length].
  cbn [option_map plus] in H. injection H as <-.
  assert (L2 : (2 <= List.length out)%nat) by (unfold len in Lo; destruct hw; cbn [message_size] in Lo; lia).
  pose proof (ui_message_shows t x out (N.of_nat p) T L2) as U. cbv zeta in U. rewrite Lo in U. fold m in U.
  destruct U as (b & n & U1 & U2 & U3 & U4); [lia|].
  exists (overwrite (h ++ [0]) key), b. unfold view_render. rewrite E. cbn [vbind render].
  rewrite (TK key Lk). cbn [vbind]. rewrite U1. cbn [vbind]. rewrite Ln.
  rewrite (handy_announced hw x out (N.of_nat p) b n Lo Hd U1).
  split; [reflexivity|]. split.
  { apply overwrite_length. specialize (TK key Lk). apply Nat.ltb_ge in TK. exact TK. }
  split; [exact U2|]. split.
  { unfold overwrite. rewrite !in_app_iff. left. right. now left. }
  split; [exact U3|]. split; [now apply cstr_title|exact U4].
Qed.

(** What the driver gets for an item: one page, or a panic. *)
Lemma driven_item O table print v k h t x :
  view_item O table 18 v (N.of_nat k) = VOk (Item (h ++ [0]) (VOk x)) ->
  printable h -> (List.length h < 18)%nat -> text_of t x -> handy (List.length x) -> utf8 t = true ->
  exists kb mb, drive_item O table 18 4096 print 256 v (N.of_nat k) 0 255 = Some [(kb, mb)] /\ cstr kb = h /\ cstr mb = t.
Proof.
  intros E Ph Lh T Hd Ut.
  assert (R : view_render O table 18 v (N.of_nat k) (zeros 18) (zeros 4096) 0
    = VOk (overwrite (h ++ [0]) (zeros 18), overwrite (x ++ [0]) (zeros 4096), 1)).
  { unfold view_render. rewrite E. cbn [vbind render].
    replace (Nat.ltb (List.length (zeros 18)) (List.length (h ++ [0]))) with false.
    2:{ symmetry. apply Nat.ltb_ge. rewrite app_length. cbn [List.length]. unfold zeros. rewrite repeat_length. lia. }
    cbn [vbind]. assert (L : List.length (zeros 4096) = 4096%nat) by (unfold zeros; apply repeat_length).
    pose proof (ui_message_page x (zeros 4096) 0 ltac:(lia)) as UM. cbv zeta in UM.
    assert (Lz : len (zeros 4096) - 1 = 4095) by (unfold len; rewrite L; lia). rewrite Lz in UM. rewrite UM. clear UM Lz L.
    assert (Hx : len x < 4095) by (unfold handy in Hd; unfold len; lia).
    replace (len x <? 4095) with true by (symmetry; apply N.ltb_lt; exact Hx). cbn [vbind].
    replace (page 4095 0 x) with x; [reflexivity|].
    unfold page. symmetry. rewrite N.mul_0_l. cbn [N.to_nat skipn]. apply firstn_all2. unfold len in Hx. lia. }
  set (zs := zeros 4096) in *.
  exists (overwrite (h ++ [0]) (zeros 18)), (overwrite (x ++ [0]) zs).
  split.
  - change 256%nat with (S 255). cbn [drive_item]. replace (0 <? 255) with true by reflexivity. fold zs. rewrite R.
    assert (Ux : utf8 x = true).
    { destruct T as [_ [->| ->]]; [exact Ut|]. apply utf8_app; [exact Ut|reflexivity]. }
    unfold zs. rewrite (utf8_buffer h 18 (utf8_printable h Ph)), (utf8_buffer x 4096 Ux). cbn [andb negb].
    rewrite andb_false_r. cbn [drive_item]. change (0 + 1 <? 1) with false. reflexivity.
  - split; [now apply cstr_title|]. destruct T as [T [->| ->]]; [now apply cstr_overwrite|].
    unfold overwrite. rewrite <- !app_assoc. rewrite cstr_app by exact T. cbn [app cstr]. change (0 =? 0) with true.
    cbv iota. apply app_nil_r.
Qed.
Lemma stuck_item O table print v k h e :
  view_item O table 18 v (N.of_nat k) = VOk (Item h (VErr e)) -> (List.length h <= 18)%nat ->
  drive_item O table 18 4096 print 256 v (N.of_nat k) 0 255 = None.
Proof.
  intros E L. set (zs := zeros 4096). assert (R : view_render O table 18 v (N.of_nat k) (zeros 18) zs 0 = VErr e).
  { unfold view_render. rewrite E. cbn [vbind render].
    replace (Nat.ltb (List.length (zeros 18)) (List.length h)) with false; [reflexivity|].
    symmetry. apply Nat.ltb_ge. unfold zeros. rewrite repeat_length. exact L. }
  change 256%nat with (S 255). cbn [drive_item]. replace (0 <? 255) with true by reflexivity. fold zs. now rewrite R.
Qed.

(** ** Reviews *)

Definition names_utf8 (table : list baker) : Prop := Forall (fun b => utf8 (bk_name b) = true) table.

(** The page the driver has for row [r], which is item [k]. *)
Definition page_of O table v (k : nat) (r : row) (pages : list upage) : Prop :=
  exists kb mb, pages = [(kb, mb)] /\ entitles (fst r) (cstr kb) /\ shows O table (snd r) (cstr mb) /\
    forall hw, exists screens, shown_as O table hw v k (cstr kb) (cstr mb) screens.

Section Review.
  Context (O : oracles) (table : list baker) (print : bool) (v : viewable) (rows : list row).
  Hypothesis K : oracles_ok O.
  Hypothesis St : sorted table.
  Hypothesis F : names_fit table.
  Hypothesis U : names_utf8 table.
  Hypothesis W : view_wf v.
  Hypothesis E : view_shown v = Some rows.

  Lemma drive_row k r : nth_error rows k = Some r -> (k < 256)%nat ->
    match drive_item O table 18 4096 print 256 v (N.of_nat k) 0 255 with
    | Some pages => page_of O table v k r pages
    | None => unshowable O (snd r) /\ forall hw, fails O table hw v k Unknown
    end.
  Proof.
    intros N Hk. destruct (view_item_row O table 18 v rows k r K St F ltac:(lia) W E N Hk) as (i & V & I').
    destruct i as [title msg|e]; [|contradiction]. destruct I' as [(h & Eh & -> & Ph & Lh) M].
    assert (Vh : forall hw, view_item O table (key_size hw) v (N.of_nat k) = VOk (Item (h ++ [0]) msg)).
    { intros hw. rewrite view_item_same; [exact V|destruct hw; cbn [key_size]; lia]. }
    destruct msg as [x|e|]; cbn [message_for] in M; [| |contradiction].
    - destruct M as (t & T & Sh & Hd & Pt).
      assert (Ut : utf8 t = true).
      { destruct Pt as [Pt|(b & Ib & <-)]; [now apply utf8_printable|]. unfold names_utf8 in U. rewrite Forall_forall in U. now apply U. }
      destruct (driven_item O table print v k h t x V Ph ltac:(lia) T Hd Ut) as (kb & mb & D & <- & <-).
      rewrite D. exists kb, mb. split; [reflexivity|]. split; [exact Eh|]. split; [exact Sh|].
      intros hw. exact (item_text O table hw v k _ _ x (Vh hw) Ph ltac:(lia) T Hd).
    - destruct M as [-> Us]. rewrite (stuck_item O table print v k _ _ V) by (rewrite app_length; cbn [List.length]; lia).
      split; [exact Us|]. intros hw key out page Lk Lo.
      destruct (item_displays O table hw v k r _ (Vh hw)) as [(h' & t & s & X)|[_ X]]; [| |exact (X key out page Lk Lo)].
      + split; [exists h; split; [exact Eh|]; split; [reflexivity|]; split; [exact Ph|exact Lh]|split; [reflexivity|exact Us]].
      + unfold view_render. rewrite Vh. cbn [vbind render].
        replace (Nat.ltb (List.length key) (List.length (h ++ [0]))) with false; [reflexivity|].
        symmetry. apply Nat.ltb_ge. rewrite app_length. cbn [List.length]. destruct hw; cbn [key_size] in Lk; lia.
  Qed.

  Lemma collect_map {A} (f : nat -> option A) (Q : nat -> A -> Prop) (B : nat -> Prop) n :
    forall s, (forall k, (s <= k < s + n)%nat -> match f k with Some a => Q k a | None => B k end) ->
    match collect (map f (seq s n)) with
    | Some l => List.length l = n /\ forall k a, nth_error l k = Some a -> Q (s + k)%nat a
    | None => exists k, (s <= k < s + n)%nat /\ B k
    end.
  Proof.
    induction n as [|n IH]; intros s H; cbn [seq map collect].
    - split; [reflexivity|]. intros [|k] a X; discriminate X.
    - pose proof (H s ltac:(lia)) as Hs. destruct (f s) as [a|]; [|exists s; split; [lia|exact Hs]].
      specialize (IH (S s)). destruct (collect (map f (seq (S s) n))) as [l|]; cbn [option_map].
      + destruct IH as [I1 I2]; [intros k Hk; apply H; lia|]. split; [cbn [List.length]; lia|].
        intros [|k] b X; cbn [nth_error] in X.
        * injection X as <-. now rewrite Nat.add_0_r.
        * replace (s + S k)%nat with (S s + k)%nat by lia. now apply I2.
      + destruct IH as (k & Hk & Bk); [intros k Hk; apply H; lia|]. exists k. split; [lia|exact Bk].
  Qed.

  Lemma drive_review :
    let n := N.to_nat (len rows mod 256) in
    match drive O table 18 4096 print v with
    | Some out => List.length out = n /\
      forall k r, (k < n)%nat -> nth_error rows k = Some r ->
      exists pages, nth_error out k = Some pages /\ page_of O table v k r pages
    | None => exists k r, (k < n)%nat /\ nth_error rows k = Some r /\ unshowable O (snd r) /\
      forall hw, fails O table hw v k Unknown
    end.
  Proof.
    intros n. assert (Hn : (n < 256)%nat) by (unfold n; pose proof (N.mod_lt (len rows) 256); lia).
    assert (Hr : (n <= List.length rows)%nat).
    { unfold n. pose proof (N.mod_le (len rows) 256 ltac:(lia)). unfold len in *. lia. }
    unfold drive. rewrite (view_items_shown v rows E). fold n.
    pose proof (collect_map (fun k => drive_item O table 18 4096 print 256 v (N.of_nat k) 0 255)
      (fun k pages => forall r, nth_error rows k = Some r -> page_of O table v k r pages)
      (fun k => exists r, nth_error rows k = Some r /\ unshowable O (snd r) /\ forall hw, fails O table hw v k Unknown) n 0) as CM.
    cbv beta in CM. destruct (collect _) as [out|].
    - destruct CM as [L Q].
      { intros k Hk. destruct (nth_error rows k) as [r|] eqn:N; [|apply nth_error_None in N; lia].
        pose proof (drive_row k r N ltac:(lia)) as D. destruct (drive_item _ _ _ _ _ _ _ _ _ _) as [pages|].
        - intros r' X. injection X as <-. exact D.
        - exists r. split; [reflexivity|exact D]. }
      split; [exact L|]. intros k r Hk N. destruct (nth_error out k) as [pages|] eqn:P; [|apply nth_error_None in P; lia].
      exists pages. split; [reflexivity|]. exact (Q k pages P r N).
    - destruct CM as (k & Hk & r & N & X).
      { intros k Hk. destruct (nth_error rows k) as [r|] eqn:N; [|apply nth_error_None in N; lia].
        pose proof (drive_row k r N ltac:(lia)) as D. destruct (drive_item _ _ _ _ _ _ _ _ _ _) as [pages|].
        - intros r' X. injection X as <-. exact D.
        - exists r. split; [reflexivity|exact D]. }
      exists k, r. split; [lia|]. split; [exact N|exact X].
  Qed.
End Review.

Lemma starts_with_prefix p : forall l, starts_with p l = true -> exists rest, l = p ++ rest.
Proof.
  induction p as [|a p IH]; intros l H; [now exists l|]. destruct l as [|b l]; [discriminate|]. cbn [starts_with] in H.
  apply andb_true_iff in H as [H1 H2]. apply N.eqb_eq in H1. subst b. destruct (IH l H2) as [rest ->]. now exists rest.
Qed.

(** A passing vector: what it says of an item is what either device shows. *)
Lemma passing O table v rows ui i title m more : oracles_ok O -> sorted table -> names_fit table -> names_utf8 table ->
  view_wf v -> view_shown v = Some rows ->
  verify_ui O table v ui = true -> In (mkExpected i title (m :: more)) ui ->
  exists r h, nth_error rows i = Some r /\ entitles (fst r) h /\ shows O table (snd r) m /\
    (exists rest, h = title ++ rest) /\ forall hw, exists screens, shown_as O table hw v i h m screens.
Proof.
  intros K St F U W E P M. unfold verify_ui in P.
  pose proof (drive_review O table true v rows K St F U W E) as D. cbv zeta in D.
  destruct (drive O table 18 4096 true v) as [out|]; [|discriminate P].
  destruct D as [L Q]. rewrite forallb_forall in P. specialize (P _ M). unfold entry_matches in P. cbn [ex_idx ex_title ex_message] in P.
  destruct (nth_error out i) as [pages|] eqn:N; [|discriminate P].
  assert (Hi : (i < List.length out)%nat) by (apply nth_error_Some; rewrite N; discriminate).
  assert (Hr : (i < List.length rows)%nat).
  { pose proof (N.mod_le (len rows) 256 ltac:(lia)). unfold len in *. lia. }
  destruct (nth_error rows i) as [r|] eqn:R; [|apply nth_error_None in R; lia].
  destruct (Q i r ltac:(lia) R) as (pages' & N' & kb & mb & X & A & B & S').
  rewrite N in N'. injection N' as <-. subst pages. cbn [combine forallb page_matches] in P.
  rewrite !andb_true_iff in P. destruct P as [[[[_ P2] _] P4] _]. apply bytes_eqb_eq in P4. subst m.
  exists r, (cstr kb). split; [reflexivity|]. split; [exact A|]. split; [exact B|].
  split; [now apply starts_with_prefix|exact S'].
Qed.

(** ** Pages of an item, whatever the sizes of the buffers *)

Lemma drive_item_pages O table ts ms print v item : forall fuel page most ps,
  drive_item O table ts ms print fuel v item page most = Some ps ->
  (page < most <-> (0 < List.length ps)%nat) /\
  forall i, (i < List.length ps)%nat -> exists t m c,
    view_render O table ts v item (zeros ts) (zeros ms) (page + N.of_nat i) = VOk (t, m, c) /\ nth_error ps i = Some (t, m) /\
    (page + N.of_nat i + 1 < c <-> (i + 1 < List.length ps)%nat).
Proof.
  induction fuel as [|fuel IH]; intros page most ps H; cbn [drive_item] in H;
    destruct (page <? most) eqn:E; try apply N.ltb_lt in E; try apply N.ltb_ge in E.
  - discriminate H.
  - injection H as <-. cbn [List.length]. split; [lia|]. intros i X. lia.
  - destruct (view_render O table ts v item (zeros ts) (zeros ms) page) as [[[t m] c]|e|] eqn:R; try discriminate H.
    destruct (print && negb (utf8 t && utf8 m)); [discriminate H|].
    destruct (drive_item O table ts ms print fuel v item (page + 1) c) as [ps'|] eqn:D; [|discriminate H].
    cbn [option_map] in H. injection H as <-. apply IH in D as [D1 D2]. cbn [List.length]. split; [lia|].
    intros [|i] X.
    + exists t, m, c. rewrite N.add_0_r. split; [exact R|]. split; [reflexivity|]. lia.
    + destruct (D2 i) as (t' & m' & c' & R' & N' & C'); [lia|]. exists t', m', c'.
      replace (page + N.of_nat (S i)) with (page + 1 + N.of_nat i) by lia.
      split; [exact R'|]. split; [exact N'|]. lia.
  - injection H as <-. cbn [List.length]. split; [lia|]. intros i X. lia.
Qed.
Lemma collect_some {A} (f : nat -> option A) : forall n s l, collect (map f (seq s n)) = Some l ->
  List.length l = n /\ forall k a, nth_error l k = Some a -> f (s + k)%nat = Some a.
Proof.
  induction n as [|n IH]; intros s l H; cbn [seq map collect] in H.
  - injection H as <-. split; [reflexivity|]. intros [|k] a X; discriminate X.
  - destruct (f s) as [a|] eqn:F; [|discriminate H].
    destruct (collect (map f (seq (S s) n))) as [l'|] eqn:C; [|discriminate H]. cbn [option_map] in H. injection H as <-.
    apply IH in C as [C1 C2]. split; [cbn [List.length]; lia|]. intros [|k] b X; cbn [nth_error] in X.
    + injection X as <-. now rewrite Nat.add_0_r.
    + apply C2 in X. now rewrite <- Nat.add_succ_comm.
Qed.
