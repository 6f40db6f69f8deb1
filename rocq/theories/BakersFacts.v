(** Lemmas about the table of bakers. *)
From Coq Require Import NArith ZArith Lia Bool Arith List.
From Coq Require Import ZifyBool ZifyNat ZifyN.
From Verif Require Import Base BaseFacts Address AddressSpec AddressFacts Bakers BakersSpec.
Import ListNotations.
Open Scope N_scope.

(** ** The order *)

Lemma bytes_cmp_refl a : bytes_cmp a a = Eq.
Proof. induction a; cbn; auto. now rewrite N.compare_refl. Qed.

Lemma bytes_cmp_eq a : forall b, bytes_cmp a b = Eq -> a = b.
Proof.
  induction a; intros [|y b] H; cbn in H; try discriminate; auto.
  destruct (N.compare_spec a y); try discriminate. subst. f_equal. auto.
Qed.

Lemma bytes_cmp_antisym a : forall b, bytes_cmp b a = CompOpp (bytes_cmp a b).
Proof.
  induction a; intros [|y b]; cbn; auto.
  rewrite (N.compare_antisym a y). destruct (a ?= y); cbn; auto.
Qed.

Lemma bytes_cmp_trans a : forall b c, bytes_cmp a b = Lt -> bytes_cmp b c = Lt -> bytes_cmp a c = Lt.
Proof.
  induction a; intros [|y b] [|z c] H1 H2; cbn in *; try discriminate; auto.
  destruct (N.compare_spec a y), (N.compare_spec y z), (N.compare_spec a z); try discriminate;
    try lia; subst; eauto.
Qed.

Lemma key_cmp_refl a : key_cmp a a = Eq.
Proof. unfold key_cmp. now rewrite !bytes_cmp_refl. Qed.

Lemma key_cmp_eq a b : key_cmp a b = Eq -> a = b.
Proof.
  unfold key_cmp. destruct a as [p h], b as [q k]; cbn [fst snd].
  destruct (bytes_cmp p q) eqn:E; try discriminate. intros H.
  apply bytes_cmp_eq in E, H. congruence.
Qed.

Lemma key_cmp_antisym a b : key_cmp b a = CompOpp (key_cmp a b).
Proof.
  unfold key_cmp. rewrite (bytes_cmp_antisym (fst a) (fst b)).
  destruct (bytes_cmp (fst a) (fst b)); cbn; auto. apply bytes_cmp_antisym.
Qed.

Lemma key_cmp_trans a b c : key_cmp a b = Lt -> key_cmp b c = Lt -> key_cmp a c = Lt.
Proof.
  unfold key_cmp. intros H1 H2.
  destruct (bytes_cmp (fst a) (fst b)) eqn:E1; try discriminate;
  destruct (bytes_cmp (fst b) (fst c)) eqn:E2; try discriminate.
  - apply bytes_cmp_eq in E1, E2. rewrite E1, E2, bytes_cmp_refl. eapply bytes_cmp_trans; eauto.
  - apply bytes_cmp_eq in E1. now rewrite E1, E2.
  - apply bytes_cmp_eq in E2. now rewrite <- E2, E1.
  - now rewrite (bytes_cmp_trans _ _ _ E1 E2).
Qed.

Lemma key_le_trans a b c : key_cmp a b <> Gt -> key_cmp b c <> Gt -> key_cmp a c <> Gt.
Proof.
  intros H1 H2. destruct (key_cmp a b) eqn:E1; try congruence.
  - apply key_cmp_eq in E1. now subst.
  - destruct (key_cmp b c) eqn:E2; try congruence.
    + apply key_cmp_eq in E2. subst. congruence.
    + rewrite (key_cmp_trans _ _ _ E1 E2). discriminate.
Qed.

Lemma key_le_lt a b c : key_cmp a b <> Gt -> key_cmp b c = Lt -> key_cmp a c = Lt.
Proof.
  intros H1 H2. destruct (key_cmp a b) eqn:E1; try congruence.
  - apply key_cmp_eq in E1. now subst.
  - eapply key_cmp_trans; eauto.
Qed.

Lemma key_lt_le a b c : key_cmp a b = Lt -> key_cmp b c <> Gt -> key_cmp a c = Lt.
Proof.
  intros H1 H2. destruct (key_cmp b c) eqn:E1; try congruence.
  - apply key_cmp_eq in E1. now subst.
  - eapply key_cmp_trans; eauto.
Qed.

(** ** Searching *)

Lemma sorted_le t i j a b : sorted t -> nth_error t i = Some a -> nth_error t j = Some b ->
  (i <= j)%nat -> key_cmp (bk_key a) (bk_key b) <> Gt.
Proof.
  intros S Ha Hb L. destruct (Nat.eq_dec i j) as [->|Hn].
  - rewrite Ha in Hb. injection Hb as ->. rewrite key_cmp_refl. discriminate.
  - apply (S i j); auto. lia.
Qed.

Lemma bsearch_spec t key : sorted t -> forall fuel left right,
  (right <= length t)%nat -> (right - left < fuel)%nat ->
  (forall i b, nth_error t i = Some b -> (i < left)%nat -> key_cmp (bk_key b) key = Lt) ->
  (forall i b, nth_error t i = Some b -> (right <= i)%nat -> key_cmp (bk_key b) key = Gt) ->
  match bsearch fuel key t left right with
  | Some i => exists b, nth_error t i = Some b /\ bk_key b = key
  | None => forall b, In b t -> bk_key b <> key
  end.
Proof.
  intros S. induction fuel; intros left right Hr Hf HL HR; [lia|].
  cbn [bsearch]. destruct (Nat.ltb_spec left right) as [Hlt|Hge].
  - set (mid := (left + (right - left) / 2)%nat).
    assert (Hm : (left <= mid < right)%nat) by (unfold mid; lia).
    destruct (nth_error t mid) eqn:Em; [|apply nth_error_None in Em; lia].
    destruct (key_cmp (bk_key b) key) eqn:Ek.
    + exists b. split; auto. now apply key_cmp_eq.
    + apply IHfuel; auto; try lia. intros i c Hc Hi.
      eapply key_le_lt; eauto. eapply (sorted_le t i mid); eauto. lia.
    + apply IHfuel; auto; try lia. intros i c Hc Hi.
      pose proof (sorted_le t mid i b c S Em Hc Hi).
      rewrite key_cmp_antisym. rewrite key_cmp_antisym in Ek.
      destruct (key_cmp key (bk_key b)) eqn:Ek'; try discriminate.
      now rewrite (key_lt_le _ _ _ Ek' H).
  - intros b Hb E. apply In_nth_error in Hb as [i Hi].
    destruct (Nat.lt_ge_cases i left) as [H|H].
    + specialize (HL i b Hi H). rewrite E, key_cmp_refl in HL. discriminate.
    + assert (right <= i)%nat by lia. specialize (HR i b Hi H0).
      rewrite E, key_cmp_refl in HR. discriminate.
Qed.

Lemma lookup_spec t p h : sorted t ->
  match baker_lookup t p h with
  | Some n => exists b, In b t /\ bk_key b = (p, h) /\ bk_name b = n
  | None => forall b, In b t -> bk_key b <> (p, h)
  end.
Proof.
  intros S. unfold baker_lookup.
  pose proof (bsearch_spec t (p, h) S (Datatypes.S (length t)) 0 (length t)) as H.
  destruct (bsearch _ _ _ _ _) eqn:E.
  - destruct H as (b & Hb & Hk); try lia.
    { intros i c Hc Hi. assert (i < length t)%nat by (apply nth_error_Some; congruence). lia. }
    rewrite Hb. cbn. exists b. repeat split; auto. eapply nth_error_In; eauto.
  - apply H; try lia. intros i b Hb Hi.
    assert (i < length t)%nat by (apply nth_error_Some; congruence). lia.
Qed.

(** ** Decoding texts *)

Fixpoint le256 (ds : list N) : N :=
  match ds with [] => 0 | d :: ds' => d + 256 * le256 ds' end.

Lemma index_in_of c l : forall i, index_in c l i = option_map (N.add i) (index_of c l).
Proof.
  induction l as [|x l IH]; intros i; cbn [index_in index_of option_map]; auto.
  destruct (x =? c); cbn [option_map]; [f_equal; lia|]. rewrite IH.
  destruct (index_of c l); cbn [option_map]; auto. f_equal. lia.
Qed.

Lemma index_alphabet c : index_in c b58_alphabet 0 = index_of c base58_digits.
Proof.
  change base58_digits with b58_alphabet. rewrite index_in_of.
  destruct (index_of _ _); reflexivity.
Qed.

Lemma index_of_lt c l d : index_of c l = Some d -> d < len l.
Proof.
  revert d. induction l as [|x l IH]; intros d H; cbn [index_of] in H; [discriminate|].
  unfold len in *. cbn [length].
  destruct (x =? c); [injection H as <-; lia|].
  destruct (index_of c l) eqn:E; [|discriminate]. cbn [option_map] in H. injection H as <-.
  specialize (IH _ eq_refl). lia.
Qed.

Lemma d58_carry_spec ds : forall c r c', bytes_ok ds -> c < 58 -> d58_carry ds c = (r, c') ->
  bytes_ok r /\ c' < 58 /\ length r = length ds
  /\ le256 r + 256 ^ len ds * c' = c + 58 * le256 ds
  /\ (forall x, last r x = 0 -> c' = 0 -> last ds x = 0 \/ ds = []).
Proof.
  induction ds as [|d ds IH]; intros c r c' B Hc E; cbn [d58_carry] in E.
  - injection E as <- <-. repeat split; auto. change (len (@nil N)) with 0. rewrite N.pow_0_r. cbn [le256]. lia.
  - apply Forall_cons_iff in B as [Bd B]. change (d < 256) in Bd.
    destruct (d58_carry ds ((c + d * 58) / 256)) as [r0 c0] eqn:E0. injection E as <- <-.
    assert (Hq : (c + d * 58) / 256 < 58) by (apply N.div_lt_upper_bound; lia).
    destruct (IH _ _ _ B Hq E0) as (I1 & I2 & I3 & I4 & I5).
    split; [apply Forall_cons; auto; apply N.mod_lt; lia|].
    split; auto. split; [cbn [length]; lia|]. split.
    + cbn [le256]. replace (len (d :: ds)) with (N.succ (len ds)) by (unfold len; cbn [length]; lia).
      rewrite N.pow_succ_r'. pose proof (N.div_mod' (c + d * 58) 256). lia.
    + intros x HL Hz. left. destruct ds as [|e ds].
      * cbn [d58_carry] in E0. injection E0 as <- <-. cbn [last] in *.
        pose proof (N.div_mod' (c + d * 58) 256). lia.
      * destruct r0 as [|y r0]; [discriminate|].
        destruct (I5 x) as [L|L]; auto. discriminate.
Qed.

Definition canon256 (ds : list N) : Prop := ds = [] \/ last ds 0 <> 0.

Lemma le256_app a b : le256 (a ++ b) = le256 a + 256 ^ len a * le256 b.
Proof.
  induction a as [|x a IH]; cbn [le256 app].
  - change (len (@nil N)) with 0. rewrite N.pow_0_r. lia.
  - replace (len (x :: a)) with (N.succ (len a)) by (unfold len; cbn [length]; lia).
    rewrite N.pow_succ_r', IH. lia.
Qed.

Lemma unbe_rev ds : unbe (rev ds) = le256 ds.
Proof.
  induction ds as [|d ds IH]; [reflexivity|]. cbn [rev le256]. rewrite unbe_snoc, IH. lia.
Qed.

Lemma d58_char_spec ds c : bytes_ok ds -> canon256 ds ->
  match d58_char (Some ds) c, index_of c base58_digits with
  | Some r, Some v => bytes_ok r /\ canon256 r /\ le256 r = le256 ds * 58 + v
  | None, None => True
  | _, _ => False
  end.
Proof.
  intros B C. unfold d58_char. rewrite index_alphabet.
  destruct (index_of c base58_digits) as [v|] eqn:E; auto.
  assert (Hv : v < 58) by (apply index_of_lt in E; exact E).
  destruct (d58_carry ds v) as [r c'] eqn:Ec.
  destruct (d58_carry_spec ds v r c' B Hv Ec) as (I1 & I2 & I3 & I4 & I5).
  split; [|split].
  - apply bytes_ok_app. split; auto.
    destruct (c' =? 0); [constructor|]. constructor; [|constructor]. change (c' < 256). lia.
  - destruct (N.eqb_spec c' 0) as [->|Hn].
    + rewrite app_nil_r. destruct r as [|y r]; [now left|]. right. intros L.
      destruct (I5 0 L eq_refl) as [L'|L']; destruct C as [C|C]; subst; auto; discriminate.
    + right. now rewrite last_last.
  - rewrite le256_app. replace (len r) with (len ds) by (unfold len; lia).
    destruct (N.eqb_spec c' 0) as [->|Hn]; cbn [le256]; lia.
Qed.

Lemma d58_fold_none t : fold_left d58_char t None = None.
Proof. induction t; cbn; auto. Qed.

Lemma d58_fold_spec t : forall ds, bytes_ok ds -> canon256 ds ->
  match fold_left d58_char t (Some ds), text_value (le256 ds) t with
  | Some r, Some v => bytes_ok r /\ canon256 r /\ le256 r = v
  | None, None => True
  | _, _ => False
  end.
Proof.
  induction t as [|c t IH]; intros ds B C; cbn [fold_left text_value]; auto.
  pose proof (d58_char_spec ds c B C) as H.
  destruct (d58_char (Some ds) c) as [r|], (index_of c base58_digits) as [v|]; try contradiction.
  - destruct H as (H1 & H2 & H3). rewrite <- H3. apply IH; auto.
  - now rewrite d58_fold_none.
Qed.

Lemma leading_ones_spec t : leading_ones t = leading 49 t.
Proof.
  induction t as [|c t IH]; [reflexivity|]. cbn [leading].
  destruct (N.eqb_spec c 49) as [->|Hn].
  - cbn [leading_ones]. now f_equal.
  - destruct c; [reflexivity|]. cbn [leading_ones].
    repeat (destruct p; try reflexivity; try congruence).
Qed.

Lemma canon256_leading ds : canon256 ds -> leading 0 (rev ds) = 0%nat.
Proof.
  intros [->|C]; [reflexivity|].
  destruct (@exists_last _ ds) as (l & d & ->). { intros ->. cbn in C. congruence. }
  rewrite last_last in C. rewrite rev_app_distr. cbn [rev app leading].
  now destruct (N.eqb_spec d 0).
Qed.

(** Decoding gives the bytes the text reads as, and fails only on texts that are not
    base58. *)
Lemma b58_decode_spec t :
  match b58_decode t with
  | Some l => bytes_ok l /\ reads58 t l
  | None => text_value 0 t = None
  end.
Proof.
  unfold b58_decode. pose proof (d58_fold_spec t [] (Forall_nil _) (or_introl eq_refl)) as H.
  cbn [le256] in H. revert H. unfold bytes.
  destruct (fold_left d58_char t (Some [])) as [ds|], (text_value 0 t) as [v|] eqn:E;
    try contradiction; auto.
  intros (H1 & H2 & H3). rewrite rev_app_distr.
  assert (R : forall n, rev (repeat 0 n) = repeat 0 n).
  { induction n; cbn; auto. rewrite IHn. now rewrite repeat_cons. }
  rewrite R. split; [|split].
  - apply bytes_ok_app. split.
    + apply Forall_forall. intros x X. apply repeat_spec in X. subst. reflexivity.
    + apply Forall_rev. auto.
  - rewrite E, unbe_app, unbe_rev, H3. f_equal.
    assert (Z : forall n, unbe (repeat 0 n) = 0).
    { intros n. rewrite <- R, unbe_rev. induction n; cbn [repeat le256]; lia. }
    rewrite Z. lia.
  - rewrite leading_repeat_app, canon256_leading by auto. rewrite leading_ones_spec. lia.
Qed.

Lemma b58_decode_reads t l : bytes_ok l -> reads58 t l -> b58_decode t = Some l.
Proof.
  intros B R. pose proof (b58_decode_spec t) as H. destruct (b58_decode t) as [l'|].
  - destruct H as [B' R']. f_equal. eapply reads58_inj; eauto.
  - destruct R as [R _]. congruence.
Qed.

(** ** Building the table *)

Lemma skipn_skipn' {A} (l : list A) : forall a b, skipn a (skipn b l) = skipn (b + a) l.
Proof.
  intros a b. revert l. induction b; intros [|x l]; cbn [skipn Nat.add]; auto. now rewrite skipn_nil.
Qed.

Lemma firstn_exact {A} n (a b : list A) : length a = n -> firstn n (a ++ b) = a.
Proof. intros <-. rewrite firstn_app, firstn_all, Nat.sub_diag. apply app_nil_r. Qed.
Lemma skipn_exact {A} n (a b : list A) : length a = n -> skipn n (a ++ b) = b.
Proof. intros <-. now rewrite skipn_app, skipn_all, Nat.sub_diag. Qed.

Lemma reduce_some e b : reduce e = Some b ->
  exists checksum, bytes_ok checksum /\ bytes_ok (bk_prefix b ++ bk_hash b) /\ bk_name b = snd e
  /\ length (bk_prefix b) = 3%nat /\ length (bk_hash b) = 20%nat /\ (4 <= length checksum)%nat
  /\ reads58 (fst e) (bk_prefix b ++ bk_hash b ++ checksum).
Proof.
  unfold reduce. pose proof (b58_decode_spec (fst e)) as H.
  destruct (b58_decode (fst e)) as [l|]; [|discriminate]. destruct H as [B R].
  destruct (Nat.ltb_spec (length l) 27); [discriminate|]. intros E. injection E as <-.
  cbn [bk_prefix bk_hash bk_name]. exists (skipn 23 l).
  assert (D : l = slice 0 3 l ++ slice 3 20 l ++ skipn 23 l).
  { unfold slice. cbn [skipn]. rewrite <- (firstn_skipn 3 l) at 1. f_equal.
    rewrite <- (firstn_skipn 20 (skipn 3 l)) at 1. f_equal. now rewrite skipn_skipn'. }
  pose proof B as B'. rewrite D in B'. apply bytes_ok_app in B' as [B1 B2].
  apply bytes_ok_app in B2 as [B2 B3].
  repeat split; auto.
  - apply bytes_ok_app. auto.
  - unfold slice. rewrite firstn_length, skipn_length. lia.
  - unfold slice. rewrite firstn_length, skipn_length. lia.
  - rewrite skipn_length. lia.
  - rewrite <- D. apply R.
  - rewrite <- D. apply R.
Qed.

Lemma reduce_all_in l : forall t, reduce_all l = Some t ->
  forall b, In b t <-> exists e, In e l /\ reduce e = Some b.
Proof.
  induction l as [|e l IH]; intros t H b; cbn [reduce_all] in H.
  - injection H as <-. split; [contradiction|]. intros (? & [] & _).
  - destruct (reduce e) as [b0|] eqn:E; [|discriminate].
    destruct (reduce_all l) as [t0|]; [|discriminate]. injection H as <-.
    cbn [In]. rewrite (IH t0 eq_refl b). split.
    + intros [<-|(e' & I1 & I2)]; [exists e; auto|exists e'; auto].
    + intros (e' & [<-|I1] & I2); [left; congruence|right; exists e'; auto].
Qed.

Lemma baker_eqb_eq a b : baker_eqb a b = true -> a = b.
Proof.
  unfold baker_eqb. rewrite !andb_true_iff, !bytes_eqb_eq. intros [[H1 H2] H3].
  destruct a, b; cbn in *; congruence.
Qed.

Lemma dedup_in l b : In b (dedup l) <-> In b l.
Proof.
  induction l as [|a l IH]; [reflexivity|]. cbn [dedup In]. rewrite <- IH.
  destruct (dedup l) as [|c t]; [reflexivity|].
  destruct (baker_eqb a c) eqn:E; [|reflexivity]. apply baker_eqb_eq in E. subst.
  cbn [In]. tauto.
Qed.

Lemma insert_in a l b : In b (insert a l) <-> b = a \/ In b l.
Proof.
  induction l as [|c l IH]; cbn [insert].
  - cbn. intuition.
  - destruct (key_cmp (bk_key a) (bk_key c)); cbn [In]; rewrite ?IH; intuition.
Qed.

Lemma sort_in l b : In b (sort l) <-> In b l.
Proof.
  induction l as [|a l IH]; [reflexivity|]. cbn [sort fold_right]. fold (sort l).
  rewrite insert_in, IH. cbn. intuition.
Qed.

Lemma sorted_cons a l : sorted (a :: l) <->
  (forall b, In b l -> key_cmp (bk_key a) (bk_key b) <> Gt) /\ sorted l.
Proof.
  split.
  - intros S. split.
    + intros b I. apply In_nth_error in I as [i Hi].
      apply (S 0%nat (Datatypes.S i)); auto. lia.
    + intros i j x y Hx Hy L. apply (S (Datatypes.S i) (Datatypes.S j)); auto. lia.
  - intros [H S] [|i] [|j] x y Hx Hy L; try lia; cbn in Hx, Hy.
    + injection Hx as <-. apply H. eapply nth_error_In; eauto.
    + apply (S i j); auto. lia.
Qed.

Lemma insert_sorted a l : sorted l -> sorted (insert a l).
Proof.
  induction l as [|c l IH]; intros S; cbn [insert].
  - apply sorted_cons. split; [contradiction|auto].
  - destruct (key_cmp (bk_key a) (bk_key c)) eqn:E.
    + apply sorted_cons. split; auto. intros b [<-|I]; [rewrite E; discriminate|].
      apply sorted_cons in S as [S _]. eapply key_le_trans; [rewrite E; discriminate|]. auto.
    + apply sorted_cons. split; auto. intros b [<-|I]; [rewrite E; discriminate|].
      apply sorted_cons in S as [S _]. eapply key_le_trans; [rewrite E; discriminate|]. auto.
    + apply sorted_cons in S as [S1 S2]. apply sorted_cons. split; auto.
      intros b I. apply insert_in in I as [->|I]; auto.
      rewrite key_cmp_antisym, E. discriminate.
Qed.

Lemma sort_sorted l : sorted (sort l).
Proof.
  induction l as [|a l IH]; cbn [sort fold_right].
  - intros i j a b H. destruct i; discriminate.
  - fold (sort l). now apply insert_sorted.
Qed.

Lemma build_sorted reg t : build_table reg = Some t -> sorted t.
Proof.
  unfold build_table. destruct (reduce_all reg); [|discriminate]. intros H. injection H as <-.
  apply sort_sorted.
Qed.

Lemma build_in reg t : build_table reg = Some t ->
  forall b, In b t <-> exists e, In e reg /\ reduce e = Some b.
Proof.
  unfold build_table. destruct (reduce_all reg) as [l|] eqn:E; [|discriminate].
  intros H b. injection H as <-. rewrite sort_in, dedup_in. now apply reduce_all_in.
Qed.

Lemma reduce_address e data : bytes_ok data -> length data = 27%nat -> reads58 (fst e) data ->
  reduce e = Some (mkBaker (firstn 3 data) (firstn 20 (skipn 3 data)) (snd e)).
Proof.
  intros B L R. unfold reduce. rewrite (b58_decode_reads _ _ B R).
  destruct (Nat.ltb_spec (length data) 27); [lia|]. reflexivity.
Qed.

Lemma build_some reg : addresses reg -> exists t, build_table reg = Some t.
Proof.
  intros A. unfold build_table.
  assert (H : exists l, reduce_all reg = Some l).
  { induction A as [|e l (data & B & L & R) A IH]; [exists []; reflexivity|].
    destruct IH as [t IH]. cbn [reduce_all]. rewrite (reduce_address e data B L R), IH. eauto. }
  destruct H as [l ->]. cbn. eauto.
Qed.

Lemma build_registered reg t p h n : addresses reg -> build_table reg = Some t ->
  bytes_ok (p ++ h) -> length p = 3%nat -> length h = 20%nat ->
  registered reg p h n <-> In (mkBaker p h n) t.
Proof.
  intros A Ht B Lp Lh. rewrite (build_in _ _ Ht). split.
  - intros (text & chk & I1 & Bc & Lc & R). exists (text, n). split; auto.
    rewrite (reduce_address (text, n) (p ++ h ++ chk)).
    + replace (firstn 3 (p ++ h ++ chk)) with p by (symmetry; now apply firstn_exact).
      replace (skipn 3 (p ++ h ++ chk)) with (h ++ chk) by (symmetry; now apply skipn_exact).
      now rewrite firstn_exact.
    + rewrite app_assoc. apply bytes_ok_app. auto.
    + rewrite !app_length. lia.
    + exact R.
  - intros ([text n'] & I1 & R). unfold addresses in A. rewrite Forall_forall in A.
    destruct (A _ I1) as (data & Bd & Ld & Rd). rewrite (reduce_address _ data) in R by auto.
    injection R as Ep Eh En. subst n'. exists text, (skipn 23 data).
    assert (D : data = p ++ h ++ skipn 23 data).
    { rewrite <- Ep, <- Eh, <- (firstn_skipn 3 data) at 1. f_equal.
      rewrite <- (firstn_skipn 20 (skipn 3 data)) at 1. f_equal. now rewrite skipn_skipn'. }
    repeat split; auto.
    + rewrite D in Bd. apply bytes_ok_app in Bd as [_ Bd]. now apply bytes_ok_app in Bd as [_ Bd].
    + rewrite skipn_length. lia.
    + rewrite <- D. apply Rd.
    + rewrite <- D. apply Rd.
Qed.

Lemma lookup_registered reg p h : addresses reg ->
  bytes_ok (p ++ h) -> length p = 3%nat -> length h = 20%nat ->
  exists t, build_table reg = Some t /\
  match baker_lookup t p h with
  | Some n => registered reg p h n
  | None => forall n, ~ registered reg p h n
  end.
Proof.
  intros A B Lp Lh. destruct (build_some reg A) as [t Ht]. exists t. split; auto.
  pose proof (lookup_spec t p h (build_sorted _ _ Ht)) as H.
  destruct (baker_lookup t p h) as [n|].
  - destruct H as ([p' h' n'] & I1 & K & E). cbn in K, E. injection K as -> ->. subst n'.
    now apply (build_registered reg t p h n A Ht B Lp Lh).
  - intros n R. apply (build_registered reg t p h n A Ht B Lp Lh) in R. now apply (H _ R).
Qed.

Lemma lookup_consistent reg p h : addresses reg -> consistent reg ->
  bytes_ok (p ++ h) -> length p = 3%nat -> length h = 20%nat ->
  exists t, build_table reg = Some t /\
  forall n, baker_lookup t p h = Some n <-> registered reg p h n.
Proof.
  intros A C B Lp Lh. destruct (lookup_registered reg p h A B Lp Lh) as (t & Ht & H).
  exists t. split; auto. intros n. split.
  - intros E. now rewrite E in H.
  - intros R. destruct (baker_lookup t p h) as [n'|].
    + f_equal. exact (C p h n' n B Lp Lh H R).
    + now destruct (H n).
Qed.

(** Checking that texts are addresses. *)
Lemma addresses_checked reg :
  forallb (fun e => match b58_decode (fst e) with Some l => Nat.eqb (length l) 27 | None => false end)
    reg = true -> addresses reg.
Proof.
  intros H. rewrite forallb_forall in H. apply Forall_forall. intros e I1. specialize (H e I1).
  pose proof (b58_decode_spec (fst e)) as D. destruct (b58_decode (fst e)) as [l|]; [|discriminate].
  destruct D as [D1 D2]. exists l. repeat split; auto; try apply D2. now apply Nat.eqb_eq.
Qed.
