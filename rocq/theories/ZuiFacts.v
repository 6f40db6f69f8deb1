(** Facts about the navigation through a review. *)
From Coq Require Import NArith Bool Arith String List Lia.
From Coq Require Import ZifyBool ZifyNat ZifyN.
From Verif Require Import Base BaseFacts Text TextSpec TextFacts TextExamples Device Screens Zui UiSpec.
Import ListNotations.
Open Scope N_scope.

(** ** Texts *)

Lemma asciify_length l : List.length (asciify l) = List.length l.
Proof. induction l as [|c t IH]; [reflexivity|]. cbn [asciify]. destruct (c =? 0); cbn [List.length]; lia. Qed.
Lemma asciify_cstr l : cstr (asciify l) = visible (cstr l).
Proof.
  induction l as [|c t IH]; [reflexivity|]. cbn [asciify cstr]. destruct (N.eqb_spec c 0) as [->|Hc].
  - reflexivity.
  - unfold visible in *. cbn [cstr map]. fold (cstr (asciify t)).
    destruct ((32 <=? c) && (c <=? 127)) eqn:E.
    + cbn [cstr]. replace (c =? 0) with false by lia. now rewrite IH.
    + cbn [cstr]. change (46 =? 0) with false. cbv iota. now rewrite IH.
Qed.
Lemma cstr_shorter l : In 0 l -> (List.length (cstr l) < List.length l)%nat.
Proof.
  induction l as [|c t IH]; [easy|]. intros H. cbn [cstr List.length]. destruct (N.eqb_spec c 0) as [->|Hc].
  - cbn. lia.
  - destruct H as [H|H]; [congruence|]. cbn [List.length]. specialize (IH H). lia.
Qed.
Lemma visible_length t : List.length (visible t) = List.length t.
Proof. apply map_length. Qed.
Lemma visible_nonzero t : Forall (fun c => c <> 0) (visible t).
Proof.
  unfold visible. apply Forall_map, Forall_forall. intros c _. destruct ((32 <=? c) && (c <=? 127)) eqn:E; [|discriminate].
  intros ->. discriminate.
Qed.

Lemma itoa_nonzero n : Forall (fun c => c <> 0) (itoa n).
Proof.
  destruct (itoa_spec n) as [D _]. eapply Forall_impl; [|exact D]. intros c H. unfold is_digit in H. lia.
Qed.

Section Nav.
  Variable hw : hardware.
  Variable r : review.

  Definition bufs_ok (z : zui) : Prop :=
    List.length (z_key z) = key_size hw /\ len (z_msg z) = message_size hw.

  Definition offers (k : N) (h : bytes) (ss : list bytes) : Prop :=
    ss <> [] /\ len ss <= 254 /\
    forall key out, List.length key = key_size hw -> len out = message_size hw ->
    forall p s, nth_error ss p = Some s ->
    exists key' out', r_render r k key out (N.of_nat p) = VOk (key', out', len ss)
      /\ List.length key' = List.length key /\ List.length out' = List.length out
      /\ In 0 key' /\ In 0 out' /\ cstr key' = h /\ cstr out' = s.
  Definition refuses (k : N) (e : view_error) : Prop :=
    forall key out page, List.length key = key_size hw -> len out = message_size hw ->
    r_render r k key out page = VErr e.

  Lemma offers_det k h ss h' ss' : offers k h ss -> offers k h' ss' -> h = h' /\ ss = ss'.
  Proof.
    intros (N1 & _ & F) (N2 & _ & F').
    set (key := zeros (key_size hw)). set (out := zeros (N.to_nat (message_size hw))).
    assert (Lk : List.length key = key_size hw) by apply repeat_length.
    assert (Lo : len out = message_size hw) by (unfold len, out, zeros; rewrite repeat_length; lia).
    destruct ss as [|s0 ss]; [easy|]. destruct ss' as [|s0' ss']; [easy|].
    destruct (F key out Lk Lo 0%nat s0 eq_refl) as (k1 & o1 & R1 & _ & _ & _ & _ & H1 & _).
    destruct (F' key out Lk Lo 0%nat s0' eq_refl) as (k2 & o2 & R2 & _ & _ & _ & _ & H2 & _).
    rewrite R1 in R2. assert (E : len (s0 :: ss) = len (s0' :: ss')) by congruence.
    split; [congruence|].
    assert (L : List.length (s0 :: ss) = List.length (s0' :: ss')) by (unfold len in E; lia).
    apply (nth_ext _ _ ([] : bytes) ([] : bytes) L). intros p Hp. change (list N) with bytes in *.
    destruct (nth_error (s0 :: ss) p) as [s|] eqn:E1; [|apply nth_error_None in E1; lia].
    destruct (nth_error (s0' :: ss') p) as [s'|] eqn:E2; [|apply nth_error_None in E2; lia].
    destruct (F key out Lk Lo p s E1) as (k3 & o3 & R3 & _ & _ & _ & _ & _ & H3).
    destruct (F' key out Lk Lo p s' E2) as (k4 & o4 & R4 & _ & _ & _ & _ & _ & H4).
    assert (o3 = o4) as -> by congruence.
    rewrite (nth_error_nth _ _ _ E1), (nth_error_nth _ _ _ E2). congruence.
  Qed.
  Lemma offers_refuses k h ss e : offers k h ss -> refuses k e -> False.
  Proof.
    intros (N1 & _ & F) R.
    set (key := zeros (key_size hw)). set (out := zeros (N.to_nat (message_size hw))).
    assert (Lk : List.length key = key_size hw) by apply repeat_length.
    assert (Lo : len out = message_size hw) by (unfold len, out, zeros; rewrite repeat_length; lia).
    destruct ss as [|s0 ss]; [easy|].
    destruct (F key out Lk Lo 0%nat s0 eq_refl) as (k1 & o1 & R1 & _). rewrite (R key out _ Lk Lo) in R1. discriminate.
  Qed.

  Lemma message_buf_len z : bufs_ok z -> len (message_buf hw z) = message_size hw.
  Proof. intros [_ H]. unfold message_buf. destruct hw; [reflexivity|exact H]. Qed.

  Lemma lines_ok msg : len msg = message_size hw -> In 0 msg ->
    exists lines, lines_of hw msg = Some lines /\ in_lines hw (cstr msg) lines.
  Proof.
    intros L Z. pose proof (cstr_shorter msg Z) as H. unfold len in L. unfold lines_of, in_lines.
    destruct hw; cbn [message_size] in L.
    - destruct (18 <=? List.length (cstr msg))%nat eqn:E.
      + destruct (35 <=? List.length (cstr msg))%nat eqn:E2; [apply Nat.leb_le in E2; lia|].
        eexists. split; [reflexivity|]. split; [cbn [concat]; rewrite app_nil_r; apply firstn_skipn|].
        eexists _, _. split; [reflexivity|]. rewrite firstn_length, skipn_length. apply Nat.leb_gt in E2. lia.
      + eexists. split; [reflexivity|]. split; [cbn [concat]; rewrite !app_nil_r; reflexivity|].
        eexists _, _. split; [reflexivity|]. apply Nat.leb_gt in E. cbn [List.length]. lia.
    - eexists. split; [reflexivity|]. split; [cbn [concat]; apply app_nil_r|reflexivity].
  Qed.

  (** Nothing but the position, the counts and the texts changes. *)
  Definition same_rest (z z' : zui) : Prop :=
    z_face z' = z_face z /\ z_inside z' = z_inside z /\ z_expert z' = z_expert z /\ z_seen z' = z_seen z.
  Lemma same_rest_refl z : same_rest z z.
  Proof. repeat split. Qed.
  Lemma same_rest_trans a b c : same_rest a b -> same_rest b c -> same_rest a c.
  Proof. unfold same_rest. intuition congruence. Qed.

  Lemma render_page_offers z k h ss p s : bufs_ok z -> z_item z = k -> k < 256 -> offers k h ss ->
    nth_error ss p = Some s ->
    exists z', render_page hw r z (N.of_nat p) = Shown z' /\ same_rest z z' /\ bufs_ok z'
      /\ z_item z' = k /\ z_items z' = z_items z /\ z_page z' = z_page z /\ z_pages z' = len ss
      /\ cstr (z_key z') = visible h /\ In 0 (z_key z')
      /\ (exists lines, lines_of hw (z_msg z') = Some lines /\ in_lines hw (visible s) lines).
  Proof.
    intros B Ek Hk (Nn & L4 & F) E. unfold render_page. rewrite Ek, (N.mod_small k) by lia.
    assert (Hp : (p < List.length ss)%nat) by (apply nth_error_Some; congruence).
    rewrite (N.mod_small (N.of_nat p)) by (unfold len in L4; lia).
    destruct (F (z_key z) (message_buf hw z) (proj1 B) (message_buf_len z B) p s E)
      as (key' & out' & R & Lk & Lo & Zk & Zo & Ck & Co).
    rewrite R. cbv zeta.
    assert (Lo' : len (asciify out') = message_size hw).
    { unfold len. rewrite asciify_length, Lo. now apply message_buf_len. }
    assert (In0 : forall l, In 0 l -> In 0 (asciify l)).
    { clear. induction l as [|c t IH]; [easy|]. intros H. cbn [asciify]. destruct (N.eqb_spec c 0); [now subst; left|].
      destruct H as [H|H]; [congruence|]. right. auto. }
    destruct (lines_ok (asciify out') Lo' (In0 _ Zo)) as (lines & El & Il). rewrite El.
    eexists. split; [reflexivity|]. split; [repeat split|]. unfold bufs_ok, set_pages, set_text; cbn [z_key z_msg z_item z_items z_page z_pages].
    split; [split; [rewrite asciify_length, Lk; apply B|exact Lo']|].
    split; [exact Ek|]. do 3 (split; [reflexivity|]).
    split; [now rewrite asciify_cstr, Ck|]. split; [now apply In0|]. exists lines. split; [exact El|].
    now rewrite asciify_cstr, Co in Il.
  Qed.

  Lemma mark_page_ok z h : bufs_ok z -> cstr (z_key z) = visible h ->
    exists key, mark_page hw z = set_text key (z_msg z) z /\ List.length key = key_size hw
      /\ cstr key = page_title hw (visible h) (z_page z) (z_pages z).
  Proof.
    intros [B1 B2] C. unfold mark_page, page_title, page_mark. cbv zeta. rewrite C.
    set (t := visible h ++ str " [" ++ itoa (z_page z + 1) ++ str "/" ++ itoa (z_pages z) ++ str "]").
    assert (Et : visible h ++ str " [" ++ itoa (z_page z + 1) ++ str "/" ++ itoa (z_pages z) ++ str "]" ++ [0] = t ++ [0]).
    { unfold t. now rewrite <- !app_assoc. }
    assert (Lt : List.length (t ++ [0]) = S (List.length t)) by (rewrite app_length; cbn [List.length]; lia).
    assert (Zt : Forall (fun c => c <> 0) t).
    { unfold t. repeat (apply Forall_app; split); auto using visible_nonzero, itoa_nonzero;
      repeat constructor; discriminate. }
    destruct (1 <? z_pages z) eqn:E1; cbn [andb].
    - rewrite Et, Lt. destruct (Nat.ltb (S (List.length t)) (key_size hw)) eqn:E2.
      + exists (overwrite (t ++ [0]) (z_key z)). apply Nat.ltb_lt in E2.
        split; [reflexivity|]. split; [rewrite overwrite_length; lia|]. now apply cstr_overwrite.
      + exists (z_key z). split; [now destruct z|auto].
    - exists (z_key z). split; [now destruct z|auto].
  Qed.

  Variable n : N.
  Hypothesis Hn : r_items r = VOk n.

  (** Showing a page of an item that can be shown. *)
  Lemma update_offers z k h ss : bufs_ok z -> z_item z = k -> k < 256 -> offers k h ss ->
    (z_page z < len ss \/ z_page z = 255) -> (actions hw = 1 -> k < n) ->
    exists z' s, update_data hw (Some r) z = Shown z' /\ same_rest z z' /\ bufs_ok z'
      /\ z_item z' = k /\ z_items z' = n + 1 /\ z_pages z' = len ss
      /\ z_page z' = (if z_page z <? len ss then z_page z else len ss - 1)
      /\ nth_error ss (N.to_nat (z_page z')) = Some s
      /\ exists lines, in_lines hw (visible s) lines /\
         shot_of hw z' = mkShot (page_title hw (visible h) (z_page z') (len ss)) lines.
  Proof.
    intros B Ek Hk Of Hp Ha. unfold update_data. rewrite Hn. set (z0 := set_pages 1 (set_items (n + 1) z)).
    assert (A1 : (actions hw =? 1) && is_accept z0 = false).
    { unfold is_accept. cbn. destruct (N.eqb_spec (actions hw) 1); [|reflexivity]. lia. }
    assert (A2 : (actions hw =? 1) && is_reject z0 = false).
    { unfold is_reject. cbn. destruct (N.eqb_spec (actions hw) 1); [|reflexivity]. lia. }
    rewrite A1, A2. clear A1 A2. unfold skip_fuel. cbn [show_item].
    assert (Lss : 0 < len ss <= 254).
    { destruct Of as (Nn & L4 & _). split; [|exact L4]. destruct ss; [easy|]. unfold len. cbn [List.length]. lia. }
    destruct (nth_error ss 0) as [s0|] eqn:E0.
    2: { apply nth_error_None in E0. unfold len in Lss. lia. }
    destruct (render_page_offers z0 k h ss 0 s0 B Ek Hk Of E0) as (z1 & R1 & S1 & B1 & I1 & T1 & P1 & N1 & _).
    change (N.of_nat 0) with 0 in R1. rewrite R1.
    set (p := if z_page z <? len ss then z_page z else len ss - 1).
    assert (Pp : p < len ss) by (unfold p; destruct (z_page z <? len ss) eqn:E; lia).
    set (z2 := if negb (z_pages z1 =? 0) && (z_pages z1 <? z_page z1)
                then set_pos (z_item z1) (z_pages z1 - 1) z1 else z1).
    assert (F2 : same_rest z1 z2 /\ bufs_ok z2 /\ z_item z2 = k /\ z_items z2 = n + 1 /\ z_page z2 = p).
    { assert (Z1 : z_page z1 = z_page z) by (rewrite P1; reflexivity).
      assert (Z2 : z_items z1 = n + 1) by (rewrite T1; reflexivity).
      unfold z2, p. rewrite N1, Z1. destruct (z_page z <? len ss) eqn:E.
      - replace (negb (len ss =? 0) && (len ss <? z_page z)) with false by lia.
        split; [apply same_rest_refl|]. auto.
      - replace (negb (len ss =? 0) && (len ss <? z_page z)) with true by lia.
        split; [repeat split|]. split; [exact B1|]. cbn. auto. }
    destruct F2 as (S2 & B2 & I2 & T2 & P2).
    destruct (nth_error ss (N.to_nat p)) as [s|] eqn:Ep.
    2: { apply nth_error_None in Ep. unfold len in Pp. lia. }
    destruct (render_page_offers z2 k h ss _ s B2 I2 Hk Of Ep) as (z3 & R3 & S3 & B3 & I3 & T3 & P3 & N3 & C3 & _ & lines & L3 & Il).
    rewrite N2Nat.id in R3. rewrite P2, R3.
    destruct (mark_page_ok z3 h B3 C3) as (key & M & Lk & Ck). rewrite M.
    change (z_pages (set_text key (z_msg z3) z3)) with (z_pages z3). rewrite N3.
    replace (len ss =? 0) with false by lia.
    eexists _, s. split; [reflexivity|].
    split. { eapply same_rest_trans; [|eapply same_rest_trans; [exact S2|eapply same_rest_trans; [exact S3|repeat split]]].
             destruct S1 as (? & ? & ? & ?). repeat split; assumption. }
    split; [split; [exact Lk|apply B3]|].
    unfold set_text; cbn [z_item z_items z_pages z_page]. rewrite P3, P2.
    split; [exact I3|]. split; [congruence|]. split; [exact N3|]. split; [reflexivity|]. split; [exact Ep|].
    exists lines. split; [exact Il|]. unfold shot_of. cbn [z_key z_msg]. rewrite L3, Ck, P3, P2, N3. reflexivity.
  Qed.

  Lemma update_refuses z k e : bufs_ok z -> z_item z = k -> k < 256 -> refuses k e -> (actions hw = 1 -> k < n) ->
    update_data hw (Some r) z = Failed e (set_pages 1 (set_items (n + 1) z)).
  Proof.
    intros B Ek Hk Rf Ha. unfold update_data. rewrite Hn. set (z0 := set_pages 1 (set_items (n + 1) z)).
    assert (A1 : (actions hw =? 1) && is_accept z0 = false).
    { unfold is_accept. cbn. destruct (N.eqb_spec (actions hw) 1); [|reflexivity]. lia. }
    assert (A2 : (actions hw =? 1) && is_reject z0 = false).
    { unfold is_reject. cbn. destruct (N.eqb_spec (actions hw) 1); [|reflexivity]. lia. }
    rewrite A1, A2. clear A1 A2. unfold skip_fuel. cbn [show_item]. unfold render_page.
    change (z_item z0) with (z_item z). rewrite Ek, (N.mod_small k) by lia.
    rewrite Rf; [reflexivity|apply B|]. exact (message_buf_len z B).
  Qed.

  (** The labels of the actions. *)
  Definition label_shot (s : string) : shot := mkShot [] [str s; []].
  Lemma update_label z : hw = NanoS -> bufs_ok z -> z_item z = n \/ z_item z = n + 1 ->
    exists z', update_data hw (Some r) z = Shown z' /\ same_rest z z' /\ bufs_ok z'
      /\ z_item z' = z_item z /\ z_items z' = n + 1 /\ z_page z' = 0 /\ z_pages z' = 1
      /\ shot_of hw z' = label_shot (if z_item z =? n then "APPROVE" else "REJECT").
  Proof.
    intros Hs B Hi. unfold update_data. rewrite Hn. set (z0 := set_pages 1 (set_items (n + 1) z)).
    assert (Lab : forall s, (List.length (lit s) <= 17)%nat -> Forall (fun c => c <> 0) (str s) -> exists z', show_label hw s z0 = Shown z' /\ same_rest z z' /\ bufs_ok z'
      /\ z_item z' = z_item z /\ z_items z' = n + 1 /\ z_page z' = 0 /\ z_pages z' = 1 /\ shot_of hw z' = label_shot s).
    { intros s Ls Zs. unfold show_label. eexists. split; [reflexivity|]. split; [repeat split|].
      destruct B as [B1 B2].
      split. { split; cbn [z_key z_msg set_text set_pos].
        - rewrite overwrite_length; [exact B1|]. cbn [List.length]. change (z_key z0) with (z_key z). rewrite B1. destruct hw; cbn; lia.
        - unfold len. rewrite overwrite_length; [exact (message_buf_len z (conj B1 B2))|].
          pose proof (message_buf_len z (conj B1 B2)) as H. unfold len in H. change (message_buf hw z0) with (message_buf hw z).
          rewrite Hs in *. cbn [message_size] in H. lia. }
      do 4 (split; [reflexivity|]). unfold shot_of, label_shot. cbn [z_key z_msg set_text set_pos].
      unfold lines_of. rewrite Hs. unfold lit. rewrite cstr_overwrite by exact Zs.
      unfold lit in Ls. rewrite app_length in Ls. cbn [List.length] in Ls.
      replace (18 <=? List.length (str s))%nat with false by (symmetry; apply Nat.leb_gt; lia).
      reflexivity. }
    replace (actions hw =? 1) with true by (rewrite Hs; reflexivity). cbn [andb].
    unfold is_accept, is_reject. change (z_item z0) with (z_item z). change (z_items z0) with (n + 1).
    replace (n + 1 - 1) with n by lia. replace (n + 1 =? 0) with false by lia. cbn [negb andb].
    destruct (N.eqb_spec (z_item z) n) as [E|E].
    - apply Lab; [cbn; lia|repeat constructor; discriminate].
    - replace (z_item z =? n + 1) with true by lia. apply Lab; [cbn; lia|repeat constructor; discriminate].
  Qed.
End Nav.

Lemma show_error_bufs hw z : bufs_ok hw z -> bufs_ok hw (show_error hw z).
Proof.
  intros B. pose proof (message_buf_len hw z B) as Lm. destruct B as [B1 B2]. split; unfold show_error; cbn [z_key z_msg set_face set_text].
  - rewrite overwrite_length; [exact B1|]. cbn. rewrite B1. destruct hw; cbn; lia.
  - unfold len in *. rewrite overwrite_length; [exact Lm|]. cbn. destruct hw; cbn [message_size] in Lm; lia.
Qed.
Lemma show_idle_bufs hw z : bufs_ok hw z -> bufs_ok hw (show_idle z).
Proof.
  intros [B1 B2]. split; unfold show_idle; cbn [z_key z_msg set_face set_text]; [|exact B2].
  rewrite overwrite_length; [exact B1|]. cbn. rewrite B1. destruct hw; cbn; lia.
Qed.
