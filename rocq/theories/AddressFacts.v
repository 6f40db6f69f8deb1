(** Lemmas about base58 and identifier texts. *)
From Coq Require Import List NArith ZArith Lia Bool Arith.
From Coq Require Import ZifyBool ZifyNat ZifyN.
From Verif Require Import Base BaseFacts Codecs Oracles Address AddressSpec.
Import ListNotations.
Open Scope N_scope.

(** ** Digits, least significant first *)

Fixpoint le58 (ds : list N) : N :=
  match ds with [] => 0 | d :: ds' => d + 58 * le58 ds' end.
Definition digits_ok (ds : list N) : Prop := Forall (fun d => d < 58) ds.
Definition canon (ds : list N) : Prop := ds = [] \/ last ds 0 <> 0.

Lemma le58_app a b : le58 (a ++ b) = le58 a + 58 ^ len a * le58 b.
Proof.
  induction a as [|x a IH]; cbn [le58 app].
  - change (len (@nil N)) with 0. rewrite N.pow_0_r. lia.
  - rewrite IH. replace (len (x :: a)) with (N.succ (len a)) by (unfold len; cbn [length]; lia).
    rewrite N.pow_succ_r'. lia.
Qed.

Lemma b58_carry_spec ds : forall c, digits_ok ds ->
  let (r, c') := b58_carry ds c in
  length r = length ds /\ digits_ok r /\ le58 r + 58 ^ len ds * c' = c + 256 * le58 ds
  /\ (c < 256 -> c' < 256)
  /\ (ds <> [] -> last ds 0 <> 0 -> c' <> 0).
Proof.
  induction ds as [|d ds IH]; intros c D; cbn [b58_carry].
  - repeat split; auto; try constructor; try congruence. change (len (@nil N)) with 0. rewrite N.pow_0_r. cbn [le58]. lia.
  - apply Forall_cons_iff in D as [Dd D].
    specialize (IH ((c + d * 256) / 58) D).
    destruct (b58_carry ds ((c + d * 256) / 58)) as [r c'] eqn:E.
    destruct IH as (I1 & I2 & I3 & I4 & I5).
    repeat split.
    + cbn; lia.
    + constructor; auto. apply N.mod_lt. lia.
    + cbn [le58]. replace (len (d :: ds)) with (N.succ (len ds)) by (unfold len; cbn [length]; lia).
      rewrite N.pow_succ_r'. pose proof (N.div_mod' (c + d * 256) 58). nia.
    + intros. apply I4. apply N.div_lt_upper_bound; lia.
    + intros _ L. destruct ds as [|d2 ds2].
      * cbn in E. inversion E; subst. cbn in L.
        intros Z. apply N.div_small_iff in Z; lia.
      * apply I5; [discriminate|]. exact L.
Qed.

Lemma b58_push_spec n : forall c, c < 58 ^ N.of_nat n ->
  le58 (b58_push n c) = c /\ digits_ok (b58_push n c) /\ canon (b58_push n c)
  /\ (c <> 0 -> b58_push n c <> []).
Proof.
  induction n as [|n IH]; intros c H; cbn [b58_push].
  - cbn in H. repeat split; try constructor; auto; cbn; lia.
  - rewrite Nat2N.inj_succ, N.pow_succ_r' in H.
    destruct (N.eqb_spec c 0) as [->|Hc].
    + repeat split; try constructor; auto; congruence.
    + specialize (IH (c / 58)). destruct IH as (I1 & I2 & I3 & I4).
      { apply N.div_lt_upper_bound; lia. }
      repeat split.
      * cbn [le58]. rewrite I1. pose proof (N.div_mod' c 58). lia.
      * constructor; auto. apply N.mod_lt. lia.
      * right. destruct I3 as [I3|I3].
        -- rewrite I3. cbn. intros Z.
           assert (c / 58 = 0). { destruct (N.eq_dec (c / 58) 0); auto. now apply I4 in I3. }
           apply N.div_small_iff in H0; [|lia]. rewrite N.mod_small in Z; lia.
        -- destruct (b58_push n (c / 58)); [cbn in I3; congruence|]. exact I3.
      * discriminate.
Qed.

Lemma last_app_ne {A} (a b : list A) d : b <> [] -> last (a ++ b) d = last b d.
Proof.
  intros H. induction a as [|x a IH]; auto. cbn [app].
  destruct (a ++ b) eqn:E.
  - apply app_eq_nil in E as [_ E]. congruence.
  - rewrite <- IH. reflexivity.
Qed.

Lemma b58_byte_spec ds v : digits_ok ds -> canon ds -> v < 256 ->
  digits_ok (b58_byte ds v) /\ canon (b58_byte ds v) /\ le58 (b58_byte ds v) = v + 256 * le58 ds.
Proof.
  intros D C V. unfold b58_byte. pose proof (b58_carry_spec ds v D) as S.
  destruct (b58_carry ds v) as [r c]. destruct S as (S1 & S2 & S3 & S4 & S5).
  specialize (S4 V). destruct (b58_push_spec 6 c) as (P1 & P2 & P3 & P4).
  { eapply N.lt_trans; [apply S4|reflexivity]. }
  repeat split.
  - apply Forall_app. split; auto.
  - destruct ds as [|d ds].
    + destruct r; [|cbn in S1; lia]. exact P3.
    + right. destruct C as [C|C]; [congruence|].
      assert (c <> 0) by (apply S5; [discriminate|auto]). specialize (P4 H).
      rewrite last_app_ne by auto. destruct P3; congruence.
  - rewrite le58_app, P1. replace (len r) with (len ds) by (unfold len; lia). lia.
Qed.

Lemma b58_fold_spec l : forall ds, bytes_ok l -> digits_ok ds -> canon ds ->
  let r := fold_left b58_byte l ds in
  digits_ok r /\ canon r /\ le58 r = le58 ds * 256 ^ len l + unbe l.
Proof.
  induction l as [|b l IH]; intros ds B D C.
  - cbn [fold_left]. repeat split; auto. change (len (@nil N)) with 0. change (unbe []) with 0. rewrite N.pow_0_r. lia.
  - apply Forall_cons_iff in B as [Hb B]. cbn [fold_left].
    destruct (b58_byte_spec ds b D C Hb) as (D' & C' & V').
    destruct (IH _ B D' C') as (D'' & C'' & V''). cbn zeta. repeat split; auto.
    rewrite V'', V'. change (b :: l) with ([b] ++ l). rewrite unbe_app.
    rewrite len_app. change (len [b]) with 1. rewrite N.add_comm with (n := 1).
    rewrite N.pow_add_r, N.pow_1_r. cbn [unbe fold_left]. lia.
Qed.

Lemma le58_lower ds : digits_ok ds -> canon ds -> ds <> [] -> 58 ^ (len ds - 1) <= le58 ds.
Proof.
  induction ds as [|d ds IH]; intros D C H; [congruence|].
  apply Forall_cons_iff in D as [Dd D]. destruct C as [C|C]; [congruence|].
  destruct ds as [|d2 ds2].
  - cbn in C |- *. lia.
  - assert (I : 58 ^ (len (d2 :: ds2) - 1) <= le58 (d2 :: ds2)).
    { apply IH; auto. right. exact C. discriminate. }
    cbn [le58] in *. replace (len (d :: d2 :: ds2) - 1) with (N.succ (len (d2 :: ds2) - 1))
      by (unfold len; cbn [length]; lia).
    rewrite N.pow_succ_r'. lia.
Qed.

(** ** Leading zeros *)

Lemma leading_zeros_leading l : leading_zeros l = leading 0 l.
Proof. induction l as [|[|p] l IH]; cbn; auto. Qed.

Lemma leading_split l : l = repeat 0 (leading 0 l) ++ skipn (leading 0 l) l.
Proof.
  induction l as [|x l IH]; auto. cbn [leading].
  destruct (N.eqb_spec x 0) as [->|]; cbn [repeat skipn app]; [now f_equal|reflexivity].
Qed.

Lemma leading_le x l : (leading x l <= length l)%nat.
Proof. induction l as [|y l IH]; cbn; [lia|]. destruct (y =? x); lia. Qed.

Lemma skipn_leading_head l : nth 0 (skipn (leading 0 l) l) 1 <> 0.
Proof.
  induction l as [|x l IH]; cbn [leading]; [cbn; lia|].
  destruct (N.eqb_spec x 0); [exact IH|]. exact n.
Qed.

Lemma unbe_zeros n l : unbe (repeat 0 n ++ l) = unbe l.
Proof.
  rewrite unbe_app. replace (unbe (repeat 0 n)) with 0; [lia|].
  induction n; auto.
Qed.

Lemma unbe_head_pos l : nth 0 l 1 <> 0 -> l <> [] -> 256 ^ (len l - 1) <= unbe l.
Proof.
  destruct l as [|x l]; [congruence|]. cbn [nth]. intros H _.
  change (x :: l) with ([x] ++ l). rewrite unbe_app, len_app. change (len [x]) with 1.
  replace (1 + len l - 1) with (len l) by lia.
  replace (unbe [x]) with x by (cbn; lia). nia.
Qed.

Lemma map_repeat_n {A B} (f : A -> B) x n : map f (repeat x n) = repeat (f x) n.
Proof. induction n; cbn; congruence. Qed.
Lemma rev_repeat_n {A} (x : A) n : rev (repeat x n) = repeat x n.
Proof.
  induction n; cbn; auto. rewrite IHn. clear. induction n; cbn; auto. now f_equal.
Qed.

(** A byte string is determined by its number and its leading zeros. *)
Lemma number_and_zeros a b : bytes_ok a -> bytes_ok b ->
  unbe a = unbe b -> leading 0 a = leading 0 b -> a = b.
Proof.
  intros A B U L. rewrite (leading_split a), (leading_split b). rewrite <- L. f_equal.
  pose proof (skipn_leading_head a) as Ha. pose proof (skipn_leading_head b) as Hb.
  rewrite <- L in Hb.
  rewrite (leading_split a), (leading_split b), !unbe_zeros, <- L in U.
  set (x := skipn _ a) in *. set (y := skipn _ b) in *.
  assert (X : bytes_ok x) by now apply bytes_ok_skipn.
  assert (Y : bytes_ok y) by now apply bytes_ok_skipn.
  assert (length x = length y) as E.
  { destruct x as [|x0 x1] eqn:Ex; destruct y as [|y0 y1] eqn:Ey; auto.
    - assert (N1 := unbe_head_pos _ Hb ltac:(discriminate)). rewrite <- U in N1.
      change (unbe []) with 0 in N1. pose proof (N.pow_nonzero 256 (len (y0 :: y1) - 1)). lia.
    - assert (N1 := unbe_head_pos _ Ha ltac:(discriminate)). rewrite U in N1.
      change (unbe []) with 0 in N1. pose proof (N.pow_nonzero 256 (len (x0 :: x1) - 1)). lia.
    - rewrite <- Ex, <- Ey in *.
      assert (N1 := unbe_head_pos _ Ha ltac:(congruence)).
      assert (N2 := unbe_head_pos _ Hb ltac:(congruence)).
      pose proof (unbe_lt _ X) as U1. pose proof (unbe_lt _ Y) as U2.
      assert (len x - 1 < len y) by (apply (N.pow_lt_mono_r_iff 256); lia).
      assert (len y - 1 < len x) by (apply (N.pow_lt_mono_r_iff 256); lia).
      assert (length x <> 0)%nat by (rewrite Ex; cbn; lia).
      unfold len in *. lia. }
  rewrite <- (be_unbe x X), <- (be_unbe y Y). congruence.
Qed.

Lemma reads58_inj t a b : bytes_ok a -> bytes_ok b -> reads58 t a -> reads58 t b -> a = b.
Proof.
  intros A B [A1 A2] [B1 B2]. apply number_and_zeros; auto; congruence.
Qed.

(** ** The encoder produces a text that reads back *)

Lemma alphabet_is_digits : b58_alphabet = base58_digits.
Proof. reflexivity. Qed.

Lemma all_below n (P : N -> bool) :
  forallb P (map N.of_nat (seq 0 n)) = true -> forall d, d < N.of_nat n -> P d = true.
Proof.
  intros H d Hd. rewrite forallb_forall in H. apply H.
  apply in_map_iff. exists (N.to_nat d). split; [lia|]. apply in_seq. lia.
Qed.

Lemma index_char d : d < 58 -> index_of (b58_char d) base58_digits = Some d.
Proof.
  intros H.
  assert (E : (match index_of (b58_char d) base58_digits with
               | Some x => x =? d | None => false end) = true).
  { apply (all_below 58 (fun d => match index_of (b58_char d) base58_digits with
               | Some x => x =? d | None => false end)); auto. }
  destruct (index_of (b58_char d) base58_digits); [|discriminate].
  apply N.eqb_eq in E. now subst.
Qed.

Lemma char_one d : d < 58 -> (b58_char d =? 49) = (d =? 0).
Proof.
  intros H. apply eqb_prop.
  apply (all_below 58 (fun d => Bool.eqb (b58_char d =? 49) (d =? 0))); auto.
Qed.

Lemma text_value_app a b : forall acc, text_value acc (a ++ b) =
  match text_value acc a with Some v => text_value v b | None => None end.
Proof.
  induction a as [|c a IH]; intros acc; cbn [app text_value]; auto.
  destruct (index_of c base58_digits); auto.
Qed.

Lemma text_value_rev ds : digits_ok ds -> text_value 0 (rev (map b58_char ds)) = Some (le58 ds).
Proof.
  induction ds as [|d ds IH]; intros D; [reflexivity|].
  apply Forall_cons_iff in D as [Dd D]. cbn [map rev le58].
  rewrite text_value_app, IH by auto. cbn [text_value]. rewrite index_char by auto.
  f_equal. lia.
Qed.

Lemma leading_repeat_app x n b : leading x (repeat x n ++ b) = (n + leading x b)%nat.
Proof. induction n; cbn; auto. rewrite N.eqb_refl. now f_equal. Qed.

Lemma canon_leading ds : digits_ok ds -> canon ds -> leading 49 (rev (map b58_char ds)) = 0%nat.
Proof.
  intros D [->|C]; [reflexivity|].
  destruct (@exists_last _ ds) as (l & d & ->). { intros ->. cbn in C. congruence. }
  rewrite last_last in C. rewrite map_app, rev_app_distr. cbn [map rev app leading].
  apply Forall_app in D as [_ D]. inversion D; subst.
  rewrite char_one by auto. now destruct (N.eqb_spec d 0).
Qed.

Lemma b58_encode_spec cap l t : bytes_ok l -> b58_encode cap l = Some t ->
  reads58 t l /\ (length t <= cap)%nat.
Proof.
  intros B. unfold b58_encode.
  destruct (b58_fold_spec l [] B) as (D & C & V); [constructor|left; auto|].
  cbn [le58] in V. set (r := fold_left b58_byte l []) in *.
  destruct (Nat.leb_spec (length (r ++ repeat 0 (leading_zeros l))) cap) as [H|]; [|discriminate].
  intros E; inversion E; subst t; clear E.
  assert (DR : digits_ok (r ++ repeat 0 (leading_zeros l))).
  { apply Forall_app. split; auto. apply Forall_forall. intros x I. apply repeat_spec in I. subst. reflexivity. }
  split.
  - split.
    + rewrite text_value_rev by auto. f_equal. rewrite le58_app, V.
      assert (Z : forall n, le58 (repeat 0 n) = 0).
      { induction n as [|n IHn]; [reflexivity|]. cbn [repeat le58]. rewrite IHn. reflexivity. }
      rewrite Z. rewrite N.mul_0_r, N.mul_0_l. apply N.add_0_r.
    + rewrite map_app, rev_app_distr, map_repeat_n, rev_repeat_n.
      change (b58_char 0) with 49. rewrite leading_repeat_app, canon_leading by auto.
      rewrite leading_zeros_leading. lia.
  - now rewrite rev_length, map_length.
Qed.

Lemma b58_encode_fits cap l : bytes_ok l -> 256 ^ len l <= 58 ^ N.of_nat cap ->
  exists t, b58_encode cap l = Some t.
Proof.
  intros B H. unfold b58_encode.
  destruct (b58_fold_spec l [] B) as (D & C & V); [constructor|left; auto|].
  cbn [le58] in V. set (r := fold_left b58_byte l []) in *.
  enough ((length (r ++ repeat 0%N (leading_zeros l)) <= cap)%nat) as E.
  { apply Nat.leb_le in E. rewrite E. eauto. }
  rewrite app_length, repeat_length, leading_zeros_leading.
  pose proof (leading_le 0 l) as L.
  destruct (Nat.eq_dec (length r) 0) as [Z|Z].
  - assert (58 ^ len l <= 58 ^ N.of_nat cap).
    { etransitivity; [|apply H]. apply N.pow_le_mono_l. lia. }
    apply N.pow_le_mono_r_iff in H0; [|lia]. unfold len in *. lia.
  - assert (NE : r <> []) by (destruct r; [cbn in Z; lia|discriminate]).
    pose proof (le58_lower r D C NE) as LO.
    rewrite V in LO. rewrite N.mul_0_l, N.add_0_l in LO.
    rewrite (leading_split l), unbe_zeros in LO.
    set (z := leading 0 l) in *. pose proof (unbe_lt _ (bytes_ok_skipn z l B)) as U.
    assert (LS : len l = N.of_nat z + len (skipn z l)).
    { unfold len. rewrite skipn_length. lia. }
    rewrite LS, N.pow_add_r in H.
    assert (58 ^ (len r - 1 + N.of_nat z) < 58 ^ N.of_nat cap).
    { rewrite N.pow_add_r. eapply N.lt_le_trans; [|apply H].
      assert (58 ^ N.of_nat z <= 256 ^ N.of_nat z) by (apply N.pow_le_mono_l; lia).
      assert (0 < 58 ^ N.of_nat z) by (apply N.neq_0_lt_0, N.pow_nonzero; lia).
      nia. }
    apply N.pow_lt_mono_r_iff in H0; [|lia]. unfold len in *. lia.
Qed.
