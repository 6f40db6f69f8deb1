(** The device with its screen and buttons: ranges, and histories of the device. *)
From Coq Require Import NArith Bool Arith String List Lia.
From Coq Require Import ZifyBool ZifyNat ZifyN.
From Verif Require Import Base BaseFacts Flash Oracles Address Operations Text TextSpec TextFacts Bakers BakersSpec Device DeviceSpec
  DeviceFacts DeviceProofs DeviceSigs DeviceReviews Screens ScreensSpec ScreensFacts ScreensViews ScreensPages ScreensDevice
  Zui UiSpec ZuiFacts ZuiNav UiDevice.
Import ListNotations.
Open Scope list_scope.
Open Scope N_scope.

(** ** Any review *)

(** Rendering keeps the lengths of the buffers; it is not cancelled. *)
Definition tame (hw : hardware) (r : review) : Prop :=
  (forall e, r_items r = VErr e -> e = Unknown) /\
  forall k key out p, List.length key = key_size hw -> len out = message_size hw ->
  match r_render r k key out p with
  | VOk (key', out', _) => List.length key' = List.length key /\ List.length out' = List.length out
  | VErr e => e <> Rejected
  | VPanic => True
  end.

Lemma ui_message_length m out p out' n : ui_message m out p = VOk (out', n) ->
  List.length out' = List.length out.
Proof.
  unfold ui_message. destruct (List.length out) as [|[|k]] eqn:El; try discriminate.
  destruct (S k <=? List.length m)%nat eqn:Em.
  - unfold nth_chunk. destruct (p * N.of_nat (S k) <? len m); [|discriminate]. intros E.
    assert (out' = overwrite (slice (N.to_nat p * S k) (S k) m ++ [0]) out) as -> by congruence.
    rewrite overwrite_length; [exact El|]. unfold slice. rewrite app_length, firstn_length. cbn [List.length]. lia.
  - intros E. assert (out' = overwrite (m ++ [0]) out) as -> by congruence.
    rewrite overwrite_length; [exact El|]. rewrite app_length. cbn [List.length]. apply Nat.leb_gt in Em. lia.
Qed.

Lemma ui_message_err m out p e : ui_message m out p = VErr e -> e = Unknown.
Proof.
  unfold ui_message. destruct (List.length out) as [|[|k]]; try discriminate.
  destruct (S k <=? List.length m)%nat; [|discriminate]. destruct (nth_chunk (S k) p m); congruence.
Qed.

(** Messages fail with [Unknown]. *)
Definition plain (i : item) : Prop :=
  match i with
  | Item _ m => forall e, m = VErr e -> e = Unknown
  | NoItem e => e <> Rejected
  end.
Lemma render_tame i key out p : plain i ->
  match render i key out p with
  | VOk (key', out', _) => List.length key' = List.length key /\ List.length out' = List.length out
  | VErr e => e <> Rejected
  | VPanic => True
  end.
Proof.
  intros P. destruct i as [t m|e]; cbn [render plain] in *; [|exact P].
  destruct (List.length key <? List.length t)%nat eqn:E; [exact Logic.I|]. apply Nat.ltb_ge in E.
  destruct m as [m|e|]; cbn [vbind]; [|rewrite (P e eq_refl); discriminate|exact Logic.I].
  destruct (ui_message m out p) as [[o n]|e|] eqn:U; cbn [vbind]; [| |exact Logic.I].
  - split; [now apply overwrite_length|]. now apply ui_message_length in U.
  - apply ui_message_err in U. congruence.
Qed.

Lemma text_plain r e : text r = VErr e -> e = Unknown.
Proof. destruct r; cbn; congruence. Qed.
Lemma number_plain z e : number z = VErr e -> e = Unknown.
Proof. unfold number, read_usize. destruct (zarith_read_as USIZE_BITS z) as [[? ?]|]; cbn [vbind]; congruence. Qed.
Lemma tez_plain z e : tez z = VErr e -> e = Unknown.
Proof.
  unfold tez, read_usize. destruct (zarith_read_as USIZE_BITS z) as [[? ?]|]; cbn [vbind]; [|congruence].
  destruct (fpstr _ 6); congruence.
Qed.
Lemma digest_plain O l e : digest_hex O l = VErr e -> e = Unknown.
Proof. unfold digest_hex. destruct (o_sha256 O l); congruence. Qed.
Lemma pkh_plain O p e : pkh O p = VErr e -> e = Unknown.
Proof. apply text_plain. Qed.

Lemma op_item_plain O table ks o n : o <> OAnonymous -> plain (op_item O table ks o n).
Proof.
  intros Na. destruct o; try congruence; cbn [op_item];
  repeat match goal with
  | |- plain (match ?n with 0 => _ | N.pos _ => _ end) => destruct n
  | |- plain (match ?p with xI _ => _ | xO _ => _ | xH => _ end) => destruct p
  | |- plain (if ?c then _ else _) => destruct c
  | |- plain (match ?o with Some _ => _ | None => _ end) => destruct o
  | |- plain (match ?o with Implicit _ _ => _ | Originated _ => _ end) => destruct o
  | |- plain (NoItem NoData) => discriminate
  | |- plain (Item _ ?m) =>
    let e := fresh in let E := fresh in
    intros e E; unfold word in E;
    repeat match type of E with (match ?x with _ => _ end) = _ => destruct x end;
    first [discriminate E|exact (pkh_plain _ _ _ E)|exact (text_plain _ _ E)|exact (number_plain _ _ E)
          |exact (tez_plain _ _ E)|exact (digest_plain _ _ _ E)|congruence]
  end.
Qed.

Lemma find_op_plain fuel : forall e idx,
  match find_op fuel e idx with
  | VOk (Some (o, _)) => o <> OAnonymous
  | VOk None => True
  | VErr e => e = Unknown
  | VPanic => True
  end.
Proof.
  induction fuel as [|fuel IH]; intros e idx; cbn [find_op]; [exact Logic.I|].
  destruct (eo_next e) as [| | |o e']; try exact Logic.I; try reflexivity.
  cbv zeta. destruct (idx <? op_items o mod 256) eqn:E; [|apply IH].
  intros ->. cbn [op_items] in E. change (0 mod 256) with 0 in E. lia.
Qed.

Lemma view_tame O table hw v : view_ok O v -> tame hw (review_of O table hw v).
Proof.
  intros V. split; cbn [review_of r_items r_render].
  - destruct v as [sh digest [[branch ops]|] data|sh digest branch o data|k a|a|wc k a|wa pk a|k main test chain a];
      cbn [view_items]; intros e E; try discriminate E.
    destruct (eo_all (batch_fuel ops) ops); congruence.
  - intros k key out p _ _. unfold view_render.
    assert (P : match view_item O table (key_size hw) v k with
                | VOk i => plain i | VErr e => e <> Rejected | VPanic => True end).
    { destruct v as [sh digest [[branch ops]|] data|sh digest branch o data|kk a|a|wc kk a|wa pk a|kk main test chain a];
        cbn [view_item].
      - assert (Z : plain (Item (lit "Operation") (text (branch_text O branch)))) by (intros e E; exact (text_plain _ _ E)).
        assert (X : match vbind (find_op (batch_fuel ops) ops (k - 1)) (fun r =>
            VOk (match r with Some (o, i) => op_item O table (key_size hw) o i | None => NoItem NoData end)) with
            | VOk i => plain i | VErr e => e <> Rejected | VPanic => True end).
        { pose proof (find_op_plain (batch_fuel ops) ops (k - 1)) as F.
          destruct (find_op (batch_fuel ops) ops (k - 1)) as [[[o i]|]|e|]; cbn [vbind].
          - now apply op_item_plain.
          - discriminate.
          - rewrite F. discriminate.
          - exact Logic.I. }
        destruct k; [exact Z|exact X].
      - destruct k; [intros e E; discriminate E|discriminate].
      - assert (Na : o <> OAnonymous).
        { intros ->. destruct V as (_ & rest & ops & more & _ & _ & _ & F). exact F. }
        destruct k; [intros e E; exact (text_plain _ _ E)|]. now apply op_item_plain.
      - destruct k as [|[?|?|]]; try discriminate; intros e E; exact (text_plain _ _ E).
      - destruct k as [|[?|?|]]; try discriminate; intros e E; exact (text_plain _ _ E).
      - destruct k as [|[?|?|]]; try discriminate; intros e E; exact (text_plain _ _ E).
      - destruct k as [|?]; try discriminate; intros e E; exact (text_plain _ _ E).
      - destruct k as [|[[?|?|]|[?|[?|?|]|]|]]; try discriminate; intros e E; exact (text_plain _ _ E). }
    destruct (view_item O table (key_size hw) v k) as [i|e|]; cbn [vbind]; [|exact P|exact Logic.I].
    now apply render_tame.
Qed.

Section Any.
  Variable hw : hardware.
  Variable r : review.
  Hypothesis T : tame hw r.

  Lemma render_page_any z p : bufs_ok hw z ->
    match render_page hw r z p with
    | Shown z' => same_rest z z' /\ bufs_ok hw z' /\ z_item z' = z_item z /\ z_items z' = z_items z
    | Failed e z' => e <> Rejected /\ z' = z
    | Dead => True
    end.
  Proof.
    intros B. unfold render_page.
    pose proof (proj2 T (z_item z mod 256) (z_key z) (message_buf hw z) (p mod 256) (proj1 B) (message_buf_len hw z B)) as K.
    destruct (r_render r _ _ _ _) as [[[key msg] n]|e|]; [|auto|exact Logic.I].
    cbv zeta. destruct (lines_of hw (asciify msg)); [|exact Logic.I].
    split; [repeat split|]. split; [|split; reflexivity].
    destruct B as [B1 B2]. pose proof (message_buf_len hw z (conj B1 B2)) as Lm.
    split; cbn [set_pages set_text z_key z_msg]; unfold len in *; rewrite asciify_length; [lia|].
    rewrite (proj2 K). exact Lm.
  Qed.

  Lemma mark_page_any z : bufs_ok hw z ->
    same_rest z (mark_page hw z) /\ bufs_ok hw (mark_page hw z) /\ z_item (mark_page hw z) = z_item z
    /\ z_items (mark_page hw z) = z_items z /\ z_pages (mark_page hw z) = z_pages z.
  Proof.
    intros B. unfold mark_page. destruct (1 <? z_pages z); [|repeat split; apply B].
    cbv zeta. destruct (_ <? key_size hw)%nat eqn:E; [|repeat split; apply B].
    split; [repeat split|]. split; [|repeat split]. split; cbn [set_text z_key z_msg]; [|apply B].
    apply Nat.ltb_lt in E. rewrite overwrite_length; [apply B|]. rewrite (proj1 B). lia.
  Qed.

  (** An item within the range. *)
  Definition within (n : N) (z : zui) : Prop := z_items z = n + 1 /\ z_item z <= n + actions hw.

  Lemma paging_increase_within n z : within n z -> within n (paging_increase hw z).
  Proof.
    intros [A B]. unfold paging_increase, more_items. destruct (z_page z + 1 <? z_pages z); [now split|].
    destruct ((0 <? z_items z) && (z_item z <? z_items z - 1 + actions hw)) eqn:E; [|now split].
    split; cbn [set_pos z_items z_item]; lia.
  Qed.
  Lemma paging_increase_rest z : same_rest z (paging_increase hw z) /\ (bufs_ok hw z -> bufs_ok hw (paging_increase hw z)).
  Proof.
    unfold paging_increase. destruct (z_page z + 1 <? z_pages z); [repeat split; apply H|].
    destruct (more_items hw z); repeat split; apply H.
  Qed.
  Lemma paging_decrease_within n z : within n z -> within n (paging_decrease z).
  Proof.
    intros [A B]. unfold paging_decrease. destruct (negb (z_page z =? 0)); [now split|].
    destruct (0 <? z_item z) eqn:E; [|now split]. split; cbn [set_pos z_items z_item]; lia.
  Qed.
  Lemma paging_decrease_rest z : same_rest z (paging_decrease z) /\ (bufs_ok hw z -> bufs_ok hw (paging_decrease z)).
  Proof.
    unfold paging_decrease. destruct (negb (z_page z =? 0)); [repeat split; apply H|].
    destruct (0 <? z_item z); repeat split; apply H.
  Qed.

  Lemma show_item_any n fuel : forall z, bufs_ok hw z -> within n z ->
    match show_item hw fuel r z with
    | Shown z' => same_rest z z' /\ bufs_ok hw z' /\ within n z'
    | Failed e z' => e <> Rejected /\ same_rest z z' /\ bufs_ok hw z' /\ within n z'
    | Dead => True
    end.
  Proof.
    induction fuel as [|fuel IH]; intros z B W; cbn [show_item]; [exact Logic.I|].
    pose proof (render_page_any z 0 B) as R1.
    destruct (render_page hw r z 0) as [z1|e z1|]; [| |exact Logic.I].
    2: { destruct R1 as [R1 ->]. split; [exact R1|]. split; [apply same_rest_refl|]. now split. }
    destruct R1 as (S1 & B1 & I1 & N1). cbv zeta.
    set (z2 := if negb (z_pages z1 =? 0) && (z_pages z1 <? z_page z1) then set_pos (z_item z1) (z_pages z1 - 1) z1 else z1).
    assert (K2 : same_rest z1 z2 /\ bufs_ok hw z2 /\ z_item z2 = z_item z1 /\ z_items z2 = z_items z1).
    { unfold z2. destruct (_ && _); repeat split; apply B1. }
    destruct K2 as (S2 & B2 & I2 & N2).
    pose proof (render_page_any z2 (z_page z2) B2) as R3.
    assert (W2 : within n z2) by (destruct W; split; congruence).
    destruct (render_page hw r z2 (z_page z2)) as [z3|e z3|]; [| |exact Logic.I].
    2: { destruct R3 as [R3 ->]. split; [exact R3|]. split; [now apply (same_rest_trans z z1)|]. now split. }
    destruct R3 as (S3 & B3 & I3 & N3).
    destruct (mark_page_any z3 B3) as (S4 & B4 & I4 & N4 & _).
    assert (W4 : within n (mark_page hw z3)) by (destruct W2; split; congruence).
    assert (S04 : same_rest z (mark_page hw z3)).
    { apply (same_rest_trans z z1); auto. apply (same_rest_trans z1 z2); auto. now apply (same_rest_trans z2 z3). }
    destruct (z_pages (mark_page hw z3) =? 0); [|now split].
    destruct (paging_increase_rest (mark_page hw z3)) as [S5 B5].
    specialize (IH (paging_increase hw (mark_page hw z3)) (B5 B4) (paging_increase_within n _ W4)).
    destruct (show_item hw fuel r _) as [z6|e z6|]; [| |exact Logic.I].
    - destruct IH as (S6 & B6 & W6). split; [|now split]. apply (same_rest_trans z _ z6 S04). now apply (same_rest_trans _ _ z6 S5).
    - destruct IH as (E6 & S6 & B6 & W6). split; [exact E6|]. split; [|now split].
      apply (same_rest_trans z _ z6 S04). now apply (same_rest_trans _ _ z6 S5).
  Qed.

  Lemma lit_short s : (List.length (lit s) <= 17)%nat -> forall z, bufs_ok hw z ->
    List.length (overwrite (lit s) (message_buf hw z)) = List.length (message_buf hw z).
  Proof.
    intros L z B. apply overwrite_length. pose proof (message_buf_len hw z B) as M. unfold len in M.
    destruct hw; cbn [message_size] in M; lia.
  Qed.
  Lemma show_label_any n s z : (List.length (lit s) <= 17)%nat -> bufs_ok hw z -> within n z ->
    exists z', show_label hw s z = Shown z' /\ same_rest z z' /\ bufs_ok hw z' /\ within n z'.
  Proof.
    intros L B W. eexists. split; [reflexivity|]. split; [repeat split|]. split; [|exact W].
    pose proof (message_buf_len hw z B) as M. change (bufs_ok hw (set_text (overwrite [0] (z_key z))
      (overwrite (lit s) (message_buf hw z)) z)). split; cbn [set_text z_key z_msg].
    - rewrite overwrite_length; [apply B|]. rewrite (proj1 B). destruct hw; cbn; lia.
    - unfold len in *. rewrite lit_short; auto.
  Qed.

  Lemma update_any z : bufs_ok hw z ->
    match r_items r with
    | VOk n => z_item z <= n + actions hw ->
      match update_data hw (Some r) z with
      | Shown z' => same_rest z z' /\ bufs_ok hw z' /\ within n z'
      | Failed e z' => e <> Rejected /\ same_rest z z' /\ bufs_ok hw z' /\ within n z'
      | Dead => True
      end
    | VErr e => update_data hw (Some r) z = Failed e z
    | VPanic => update_data hw (Some r) z = Dead
    end.
  Proof.
    intros B. unfold update_data. destruct (r_items r) as [n|e|]; auto. intros Hi.
    set (z0 := set_pages 1 (set_items (n + 1) z)).
    assert (B0 : bufs_ok hw z0) by exact B. assert (W0 : within n z0) by (split; [reflexivity|exact Hi]).
    assert (S0 : same_rest z z0) by repeat split.
    assert (Lb : forall s, (List.length (lit s) <= 17)%nat ->
      match show_label hw s z0 with
      | Shown z' => same_rest z z' /\ bufs_ok hw z' /\ within n z'
      | Failed e z' => e <> Rejected /\ same_rest z z' /\ bufs_ok hw z' /\ within n z'
      | Dead => True end).
    { intros s Ls. destruct (show_label_any n s z0 Ls B0 W0) as (z' & -> & S1 & R1).
      split; [now apply (same_rest_trans z z0)|exact R1]. }
    destruct ((actions hw =? 1) && is_accept z0); [apply Lb; cbn; lia|].
    destruct ((actions hw =? 1) && is_reject z0); [apply Lb; cbn; lia|].
    pose proof (show_item_any n skip_fuel z0 B0 W0) as K.
    destruct (show_item hw skip_fuel r z0) as [z'|e z'|]; [| |exact Logic.I].
    - destruct K as (K1 & K2). split; [now apply (same_rest_trans z z0)|exact K2].
    - destruct K as (K0 & K1 & K2). split; [exact K0|]. split; [now apply (same_rest_trans z z0)|exact K2].
  Qed.
End Any.

(** ** Ranges *)

Section Ranged.
  Variable hw : hardware.

  (** The screen is consistent with the pending review. *)
  Definition ranged (o : option review) (z : zui) : Prop :=
    bufs_ok hw z /\
    match z_face z with
    | Idle | Failure => True
    | Title => hw = NanoX /\ o <> None
    | Review => hw = NanoS /\ exists r n, o = Some r /\ r_items r = VOk n /\ within hw n z
    | Page | Approval | Rejection => hw = NanoX /\ exists r n, o = Some r /\ r_items r = VOk n /\ within hw n z
    end.
  Definition after (o : option review) (za : zui * act) : Prop :=
    ranged (match snd za with Stay => o | _ => None end) (fst za).

  Lemma start_ranged o : ranged o (zui_start hw).
  Proof.
    split; [|exact Logic.I]. split; cbn [zui_start z_key z_msg]; unfold zeros, len; rewrite repeat_length; [reflexivity|lia].
  Qed.
  Lemma error_ranged o z : bufs_ok hw z -> ranged o (show_error hw z).
  Proof. intros B. split; [now apply show_error_bufs|exact Logic.I]. Qed.
  Lemma idle_ranged o z : bufs_ok hw z -> ranged o (show_idle z).
  Proof. intros B. split; [now apply show_idle_bufs|exact Logic.I]. Qed.
  Lemma idle_expert o z e : bufs_ok hw z ->
    ranged o (if e : bool then fst (put_review hw (update_data hw None (set_pos (z_items z - 1) 0 (show_idle z)))) else show_idle z).
  Proof.
    intros B. destruct e; [|now apply idle_ranged]. cbn [update_data put_review fst].
    apply error_ranged. exact (show_idle_bufs hw _ B).
  Qed.

  Variable r : review.
  Hypothesis T : tame hw r.

  Lemma put_review_ranged z : hw = NanoS -> bufs_ok hw z -> (forall n, r_items r = VOk n -> z_item z <= n + actions hw) ->
    let za := put_review hw (update_data hw (Some r) z) in
    after (Some r) za /\ (snd za = Stay \/ snd za = Crash).
  Proof.
    intros Hs B Hi. cbv zeta. pose proof (update_any hw r T z B) as U.
    destruct (r_items r) as [n|e|] eqn:Hn.
    - specialize (U (Hi n eq_refl)). destruct (update_data hw (Some r) z) as [z'|e z'|]; cbn [put_review snd fst].
      + destruct U as (S1 & B1 & W1). split; [|now left]. split; [exact B1|]. cbn [snd fst snapshot set_seen set_face z_face].
        split; [exact Hs|]. exists r, n. repeat split; auto; apply W1.
      + destruct U as (E1 & S1 & B1 & W1). destruct e; cbn [snd fst]; (split; [|auto; try congruence]); now apply error_ranged.
      + split; [|now right]. apply start_ranged.
    - rewrite (proj1 T e Hn) in U. rewrite U. cbn [put_review]. split; [now apply error_ranged|now left].
    - rewrite U. split; [apply start_ranged|now right].
  Qed.

  Lemma put_page_ranged z : hw = NanoX -> bufs_ok hw z -> (forall n, r_items r = VOk n -> z_item z <= n + actions hw) ->
    let za := put_page hw (update_data hw (Some r) z) in
    after (Some r) za /\ (snd za = Stay \/ snd za = Crash).
  Proof.
    intros Hs B Hi. cbv zeta. pose proof (update_any hw r T z B) as U.
    destruct (r_items r) as [n|e|] eqn:Hn.
    - specialize (U (Hi n eq_refl)).
      assert (Pg : forall z', bufs_ok hw z' -> within hw n z' ->
        after (Some r) (snapshot hw (set_inside true (set_face Page z')), Stay)).
      { intros z' B1 W1. split; [exact B1|]. cbn [snd fst snapshot set_seen set_inside set_face z_face].
        split; [exact Hs|]. exists r, n. repeat split; auto; apply W1. }
      destruct (update_data hw (Some r) z) as [z'|e z'|]; cbn [put_page snd fst].
      + destruct U as (S1 & B1 & W1). split; [now apply Pg|now left].
      + destruct U as (E1 & S1 & B1 & W1). destruct e; cbn [snd fst];
          [split; [now apply error_ranged|now left]|split; [now apply Pg|now left]|congruence].
      + split; [apply start_ranged|now right].
    - rewrite (proj1 T e Hn) in U. rewrite U. cbn [put_page]. split; [now apply error_ranged|now left].
    - rewrite U. split; [apply start_ranged|now right].
  Qed.

  Lemma show_ranged z : bufs_ok hw z ->
    after (Some r) (zui_show hw r z) /\ (snd (zui_show hw r z) = Stay \/ snd (zui_show hw r z) = Crash).
  Proof.
    intros B. unfold zui_show. cbv zeta. destruct hw eqn:Eh; rewrite <- Eh in *.
    - apply put_review_ranged; [exact Eh|exact B|]. intros n _. cbn. lia.
    - split; [|now left]. split; [exact B|]. split; [exact Eh|discriminate].
  Qed.

  Definition deliberate (z : zui) (b : button) (a : act) : Prop :=
    match a with
    | Accept => b = Both /\ offers_approval hw z
    | Refuse => b = Both /\ offers_rejection hw z
    | Ack => z_face z = Failure
    | Stay | Crash => True
    end.

  Lemma stay_or_crash z b a : a = Stay \/ a = Crash -> deliberate z b a.
  Proof. intros [->| ->]; exact Logic.I. Qed.

  Lemma press_ranged z b : ranged (Some r) z ->
    after (Some r) (press hw (Some r) z b) /\ deliberate z b (snd (press hw (Some r) z b)).
  Proof.
    intros Rz. assert (Rz' := Rz). destruct Rz as [B Rz]. unfold press.
    assert (St : after (Some r) (z, Stay) /\ deliberate z b Stay) by (split; [exact Rz'|exact Logic.I]).
    destruct hw eqn:Eh; rewrite <- Eh in *.
    - unfold press_s. destruct (z_face z) eqn:Fz; try (now destruct Rz).
      + destruct b; exact St.
      + destruct Rz as (_ & r' & n & Er & Hn & W). injection Er as <-.
        destruct b; auto.
        * destruct (paging_decrease_rest hw z) as [_ Bd].
          destruct (put_review_ranged (paging_decrease z) Eh (Bd B)) as [P1 P2].
          { intros n' Hn'. assert (n' = n) as -> by congruence. apply (paging_decrease_within hw n z W). }
          split; [exact P1|now apply stay_or_crash].
        * destruct (paging_increase_rest hw z) as [_ Bd].
          destruct (put_review_ranged (paging_increase hw z) Eh (Bd B)) as [P1 P2].
          { intros n' Hn'. assert (n' = n) as -> by congruence. apply (paging_increase_within hw n z W). }
          split; [exact P1|now apply stay_or_crash].
        * destruct (is_accept z || is_reject z) eqn:Ar.
          -- cbv zeta. split.
             { unfold after. cbn [fst snd].
               pose proof (idle_expert (match (if is_accept z then Accept else Refuse) with Stay => Some r | _ => None end) z (z_expert z) B) as I1.
               exact I1. }
             cbn [snd]. unfold deliberate, offers_approval, offers_rejection. rewrite Eh.
             unfold is_accept, is_reject in *. destruct (negb (z_items z =? 0) && (z_item z =? z_items z - 1)) eqn:Ea;
               (split; [reflexivity|]; split; [exact Fz|]; lia).
          -- destruct (z_expert z); auto.
             destruct (put_review_ranged (set_pos (z_items z - 1) 0 z) Eh B) as [P1 P2].
             { intros n' Hn'. assert (n' = n) as -> by congruence. destruct W as [W1 W2]. cbn [set_pos z_item]. lia. }
             split; [exact P1|now apply stay_or_crash].
      + destruct b; auto. split; [|exact Fz]. now apply idle_ranged.
    - unfold press_x. destruct (z_face z) eqn:Fz; try (now destruct Rz).
      + destruct b; auto. split; [|exact Logic.I]. split; [|cbn [fst snd set_expert set_text z_face]; now rewrite Fz].
        cbn [fst]. destruct B as [B1 B2]. split; cbn [set_expert set_text z_key z_msg]; [exact B1|].
        unfold len in *. rewrite overwrite_length; [exact B2|].
        rewrite Eh in B2. cbn [message_size] in B2. destruct (negb (z_expert z)); cbn [List.length lit str]; cbn; lia.
      + destruct b; auto.
        destruct (put_page_ranged (paging_init z) Eh B) as [P1 P2].
        { intros n' _. cbn. lia. }
        split; [exact P1|now apply stay_or_crash].
      + destruct Rz as (_ & r' & n & Er & Hn & W). injection Er as <-.
        destruct b; auto.
        * destruct (can_decrease z).
          -- destruct (paging_decrease_rest hw z) as [_ Bd].
             destruct (put_page_ranged (paging_decrease z) Eh (Bd B)) as [P1 P2].
             { intros n' Hn'. assert (n' = n) as -> by congruence. apply (paging_decrease_within hw n z W). }
             split; [exact P1|now apply stay_or_crash].
          -- split; [|exact Logic.I]. split; [exact B|]. split; [exact Eh|discriminate].
        * destruct (paging_increase_rest hw z) as [_ Bd].
          destruct (put_page_ranged (paging_increase hw z) Eh (Bd B)) as [P1 P2].
          { intros n' Hn'. assert (n' = n) as -> by congruence. apply (paging_increase_within hw n z W). }
          pose proof (update_any hw r T (paging_increase hw z) (Bd B)) as U. rewrite Hn in U.
          specialize (U (proj2 (paging_increase_within hw n z W))).
          destruct (update_data hw (Some r) (paging_increase hw z)) as [z'|[| |] z'|] eqn:Eu;
            (split; [exact P1|first [exact Logic.I|now apply stay_or_crash]]).
      + destruct Rz as (_ & r' & n & Er & Hn & W). injection Er as <-.
        destruct b; auto.
        * destruct (paging_decrease_rest hw z) as [_ Bd].
          destruct (put_page_ranged (paging_decrease z) Eh (Bd B)) as [P1 P2].
          { intros n' Hn'. assert (n' = n) as -> by congruence. apply (paging_decrease_within hw n z W). }
          split; [exact P1|now apply stay_or_crash].
        * split; [|exact Logic.I]. split; [exact B|]. split; [exact Eh|]. exists r, n. repeat split; auto; apply W.
        * split; [now apply idle_ranged|]. cbn [snd deliberate]. unfold offers_approval. rewrite Eh. auto.
      + destruct Rz as (_ & r' & n & Er & Hn & W). injection Er as <-.
        destruct b; auto.
        * split; [|exact Logic.I]. split; [exact B|]. split; [exact Eh|]. exists r, n. repeat split; auto; apply W.
        * split; [now apply idle_ranged|]. cbn [snd deliberate]. unfold offers_rejection. rewrite Eh. auto.
      + destruct b; auto. split; [|exact Fz]. now apply idle_ranged.
  Qed.
End Ranged.

(** Without a review only the menu and the error screen react. *)
Lemma press_none hw z b : ranged hw None z ->
  after hw None (press hw None z b) /\ (snd (press hw None z b) = Stay \/ (snd (press hw None z b) = Ack /\ z_face z = Failure)).
Proof.
  intros Rz. assert (Rz' := Rz). destruct Rz as [B Rz].
  assert (St : after hw None (z, Stay) /\ (Stay = Stay \/ Stay = Ack /\ z_face z = Failure)) by (split; [exact Rz'|now left]).
  unfold press. destruct hw eqn:Eh; rewrite <- Eh in *.
  - unfold press_s. destruct (z_face z) eqn:Fz; try (destruct Rz as (_ & ? & ? & ? & _); discriminate); try (destruct Rz; congruence).
    + destruct b; exact St.
    + destruct b; auto. split; [|right; auto]. now apply idle_ranged.
  - unfold press_x. destruct (z_face z) eqn:Fz; try (destruct Rz as (_ & ? & ? & ? & _); discriminate); try (destruct Rz; congruence).
    + destruct b; auto. split; [|now left]. split; [|cbn [fst snd set_expert set_text z_face]; now rewrite Fz].
      cbn [fst]. destruct B as [B1 B2]. split; cbn [set_expert set_text z_key z_msg]; [exact B1|].
      unfold len in *. rewrite overwrite_length; [exact B2|].
      rewrite Eh in B2. cbn [message_size] in B2. destruct (negb (z_expert z)); cbn [List.length lit str]; cbn; lia.
    + destruct b; auto. split; [|right; auto]. now apply idle_ranged.
Qed.
