(** Lemmas about texts on the screen. *)
From Coq Require Import NArith ZArith Lia Bool Arith List.
From Coq Require Import ZifyBool ZifyNat ZifyN.
From Verif Require Import Base BaseFacts Text TextSpec.
Import ListNotations.
Open Scope N_scope.

(** ** Buffers *)

Lemma cstr_app a b : Forall (fun c => c <> 0) a -> cstr (a ++ b) = a ++ cstr b.
Proof.
  induction 1; cbn [app cstr]; auto.
  replace (x =? 0) with false by lia. now rewrite IHForall.
Qed.

Lemma cstr_zeros n : cstr (zeros n) = [].
Proof. now destruct n. Qed.

Lemma cstr_zero l : cstr (0 :: l) = [].
Proof. reflexivity. Qed.

Lemma cstr_none l : Forall (fun c => c <> 0) l -> cstr l = l.
Proof. intros H. rewrite <- (app_nil_r l) at 1. rewrite cstr_app by auto. now rewrite app_nil_r. Qed.

Lemma cstr_nonzero l : Forall (fun c => c <> 0) (cstr l).
Proof. induction l; cbn [cstr]; auto. destruct (N.eqb_spec a 0); auto. Qed.

Lemma overwrite_length c out : (length c <= length out)%nat -> length (overwrite c out) = length out.
Proof. intros. unfold overwrite. rewrite app_length, skipn_length. lia. Qed.

Lemma cstr_overwrite c out : Forall (fun x => x <> 0) c -> cstr (overwrite (c ++ [0]) out) = c.
Proof.
  intros H. unfold overwrite. rewrite <- app_assoc. rewrite cstr_app by auto.
  cbn [app cstr N.eqb]. now rewrite app_nil_r.
Qed.

Lemma firstn_app_l {A} n (a b : list A) : length a = n -> firstn n (a ++ b) = a.
Proof. intros <-. rewrite firstn_app, Nat.sub_diag, firstn_all. cbn. now rewrite app_nil_r. Qed.
Lemma skipn_app_l {A} n (a b : list A) : length a = n -> skipn n (a ++ b) = b.
Proof. intros <-. rewrite skipn_app, Nat.sub_diag, skipn_all. reflexivity. Qed.

(** ** Paging *)

Lemma nth_chunk_spec m p item : m <> O ->
  nth_chunk m p item = if p * N.of_nat m <? len item then Some (page (N.of_nat m) p item) else None.
Proof.
  intros. unfold nth_chunk, page, slice. destruct (_ <? _); auto.
  rewrite Nat2N.id. do 3 f_equal. lia.
Qed.

Lemma page_length m p item : m <> 0 ->
  len (page m p item) = N.min m (len item - p * m).
Proof. intros. unfold page, len. rewrite firstn_length, skipn_length. lia. Qed.

Lemma pages_concat_nat m item k : m <> 0 ->
  concat (map (fun p => page m (N.of_nat p) item) (seq 0 k)) = firstn (N.to_nat m * k) item.
Proof.
  intros Hm. induction k.
  - cbn. now rewrite Nat.mul_0_r.
  - rewrite seq_S, map_app, concat_app, IHk. cbn [map concat plus]. rewrite app_nil_r.
    unfold page.
    replace (N.to_nat m * S k)%nat with (N.to_nat m * k + N.to_nat m)%nat by lia.
    replace (N.to_nat (N.of_nat k * m)) with (N.to_nat m * k)%nat by lia.
    rewrite <- (firstn_skipn (N.to_nat m * k) item) at 3.
    set (a := firstn (N.to_nat m * k) item).
    rewrite firstn_app. f_equal.
    + symmetry. apply firstn_all2. unfold a. rewrite firstn_length. lia.
    + destruct (Nat.le_gt_cases (N.to_nat m * k) (length item)).
      * f_equal. unfold a. rewrite firstn_length. lia.
      * rewrite skipn_all2 by lia. now rewrite !firstn_nil.
Qed.

Lemma pages_enough m item : m <> 0 -> len item <= pages m item * m.
Proof. intros. unfold pages. nia. Qed.

Lemma pages_needed m item p : m <> 0 -> p < pages m item -> p = 0 \/ p * m < len item.
Proof. intros. unfold pages in *. nia. Qed.

Lemma pages_concat m item : m <> 0 ->
  concat (map (fun p => page m (N.of_nat p) item) (seq 0 (N.to_nat (pages m item)))) = item.
Proof.
  intros. rewrite pages_concat_nat by auto. apply firstn_all2.
  pose proof (pages_enough m item H). unfold len in *. lia.
Qed.

(** What [handle_ui_message] does, in terms of the pages of the text. *)
Lemma ui_message_page item out p : (2 <= length out)%nat ->
  let m := len out - 1 in
  ui_message item out p =
    if len item <? m then VOk (overwrite (page m 0 item ++ [0]) out, 1)
    else if p * m <? len item
         then VOk (overwrite (page m p item ++ [0]) out, (1 + len item / m) mod 256)
         else VErr Unknown.
Proof.
  intros Hl m. unfold ui_message. destruct (length out) as [|[|k]] eqn:El; try lia.
  assert (Em : m = N.of_nat (S k)) by (unfold m, len; lia).
  destruct (Nat.leb_spec (S k) (length item)).
  - replace (len item <? m) with false by (unfold len; lia).
    rewrite nth_chunk_spec, <- Em by lia. destruct (_ <? _); auto. do 2 f_equal.
    rewrite N.add_mod_idemp_r; lia.
  - replace (len item <? m) with true by (unfold len; lia).
    do 2 f_equal. unfold page. cbn [N.mul N.to_nat skipn].
    rewrite firstn_all2; auto. unfold len in *. lia.
Qed.

(** ** Digit strings *)

Lemma all_digits_nonzero l : all_digits l -> Forall (fun c => c <> 0) l.
Proof. apply Forall_impl. unfold is_digit. lia. Qed.

Lemma dec_app a b : dec (a ++ b) = dec a * 10 ^ len b + dec b.
Proof.
  unfold dec. rewrite fold_left_app. generalize (fold_left (fun a c => a * 10 + (c - 48)) a 0).
  induction b using rev_ind; intros x0.
  - change (len (@nil N)) with 0. cbn [fold_left]. lia.
  - rewrite !fold_left_app, IHb, len_app. cbn [fold_left].
    change (len [x]) with 1. rewrite N.pow_add_r. cbv beta. lia.
Qed.

Lemma dec_cons c l : dec (c :: l) = (c - 48) * 10 ^ len l + dec l.
Proof. change (c :: l) with ([c] ++ l). rewrite dec_app. reflexivity. Qed.

Lemma dec_zeros n l : dec (repeat 48 n ++ l) = dec l.
Proof. induction n; auto. Qed.

Lemma dec_lt l : all_digits l -> dec l < 10 ^ len l.
Proof.
  induction 1.
  - cbn. lia.
  - rewrite dec_cons. change (x :: l) with ([x] ++ l). rewrite len_app. change (len [x]) with 1.
    rewrite N.pow_add_r. unfold is_digit in H. nia.
Qed.

Lemma strip_spec l : l = repeat 48 (length l - length (strip l)) ++ strip l
  /\ (length (strip l) <= length l)%nat /\ (strip l = [] \/ nth 0 (strip l) 0 <> 48).
Proof.
  induction l as [|c l [E [L H]]]; cbn [strip length].
  - auto.
  - destruct (N.eqb_spec c 48).
    + split; [|split]; [|lia|auto].
      replace (S (length l) - length (strip l))%nat with (S (length l - length (strip l))) by lia.
      cbn [repeat app]. now rewrite <- E, e.
    + split; [|split]; [|cbn; lia|auto].
      replace (S (length l) - length (c :: l))%nat with O by (cbn; lia). reflexivity.
Qed.

Lemma strip_digits l : all_digits l -> all_digits (strip l).
Proof. induction 1; cbn [strip]; [constructor|]. destruct (x =? 48); [auto|now constructor]. Qed.

Lemma strip_dec l : dec (strip l) = dec l.
Proof. destruct (strip_spec l) as [E _]. rewrite E at 2. now rewrite dec_zeros. Qed.

Lemma strip_nonzero l : Exists (fun c => c <> 48) l -> strip l <> [].
Proof.
  induction l; intros H; inversion H; subst; cbn [strip].
  - now replace (a =? 48) with false by lia.
  - destruct (a =? 48); [auto|discriminate].
Qed.

Lemma plain_lower l : all_digits l -> plain l -> l <> [48] -> 10 ^ (len l - 1) <= dec l.
Proof.
  intros D [?|[Hne H]] N48; [contradiction|].
  destruct l as [|c l]; [contradiction|]. cbn in H. inversion D; subst.
  rewrite dec_cons. change (c :: l) with ([c] ++ l). rewrite len_app. change (len [c]) with 1.
  replace (1 + len l - 1) with (len l) by lia. unfold is_digit in *. nia.
Qed.

Lemma plain_length a b : all_digits a -> all_digits b -> plain a -> plain b -> dec a = dec b ->
  len a <= len b.
Proof.
  intros Da Db Pa Pb E.
  destruct (list_eq_dec N.eq_dec a [48]) as [->|Na].
  - destruct b; [destruct Pb as [|[]]; congruence|]. unfold len. cbn [length]. lia.
  - pose proof (plain_lower a Da Pa Na). pose proof (dec_lt b Db).
    apply N.nlt_ge. intros Hlt.
    assert (10 ^ len b <= 10 ^ (len a - 1)) by (apply N.pow_le_mono_r; lia). lia.
Qed.

Lemma dec_inj a : forall b, all_digits a -> all_digits b -> length a = length b -> dec a = dec b -> a = b.
Proof.
  induction a; intros b Da Db L E; destruct b; try discriminate; auto.
  inversion Da; inversion Db; subst. cbn in L. injection L as L.
  rewrite !dec_cons in E. assert (len a0 = len b) by (unfold len; lia).
  pose proof (dec_lt a0 H2). pose proof (dec_lt b H6). unfold is_digit in *.
  rewrite H in *. assert (a = n) by nia. subst. f_equal. apply IHa; auto. nia.
Qed.

Lemma shows_number_inj n a b : shows_number n a -> shows_number n b -> a = b.
Proof.
  intros (Da & Pa & Ea) (Db & Pb & Eb). apply dec_inj; auto; try congruence.
  pose proof (plain_length a b Da Db Pa Pb). pose proof (plain_length b a Db Da Pb Pa).
  unfold len in *. lia.
Qed.

(** ** [itoa] *)

Lemma digits_spec fuel : forall n acc, n < 2 ^ N.of_nat fuel ->
  exists ds, digits (S fuel) n acc = ds ++ acc /\ shows_number n ds.
Proof.
  induction fuel; intros n acc H.
  - cbn in H. assert (n = 0) by lia. subst. exists [48]. cbn. repeat split.
    + constructor; [unfold is_digit; lia|constructor].
    + now left.
  - cbn [digits]. destruct (N.ltb_spec n 10).
    + exists [48 + n mod 10]. split; auto. rewrite N.mod_small by auto. split; [|split].
      * constructor; [unfold is_digit; lia|constructor].
      * destruct (N.eq_dec n 0); [subst; now left|]. right. split; [discriminate|]. cbn [nth]. lia.
      * unfold dec. cbn [fold_left]. lia.
    + destruct (IHfuel (n / 10) (48 + n mod 10 :: acc)) as (ds & E & D & P & V).
      { rewrite Nat2N.inj_succ, N.pow_succ_r' in H. lia. }
      cbn [digits] in E. rewrite E. exists (ds ++ [48 + n mod 10]).
      split; [now rewrite <- app_assoc|]. split; [|split].
      * apply Forall_app; split; auto. constructor; [unfold is_digit; lia|constructor].
      * right. destruct P as [->|[Pn Ph]].
        -- unfold dec in V. cbn [fold_left] in V. lia.
        -- destruct ds; [contradiction|]. split; [discriminate|]. cbn [app nth] in *. auto.
      * rewrite dec_app, V. change (len [48 + n mod 10]) with 1. unfold dec at 1. cbn [fold_left].
        rewrite N.pow_1_r. lia.
Qed.

Lemma size_lt n : n < 2 ^ N.of_nat (N.size_nat n).
Proof.
  destruct n; [cbn; lia|]. unfold N.size_nat. rename p into q.
  pose proof (N.size_gt (N.pos q)). cbn [N.size] in H.
  replace (N.of_nat (Pos.size_nat q)) with (N.pos (Pos.size q)); auto.
  induction q; cbn [Pos.size_nat Pos.size]; try rewrite Nat2N.inj_succ; auto.
  - rewrite <- IHq; [lia|apply N.size_gt].
  - rewrite <- IHq; [lia|apply N.size_gt].
Qed.

Lemma itoa_spec n : shows_number n (itoa n).
Proof.
  unfold itoa. destruct (digits_spec (N.size_nat n) n [] (size_lt n)) as (ds & E & H).
  rewrite E, app_nil_r. auto.
Qed.

Lemma itoa_z_spec z : shows_integer z (itoa_z z).
Proof. unfold shows_integer, itoa_z. destruct (z <? 0)%Z; eauto using itoa_spec. Qed.

Lemma shows_number_length n t k : shows_number n t -> n < 10 ^ k -> 0 < k -> len t <= k.
Proof.
  intros (D & P & V) H Hk. destruct (list_eq_dec N.eq_dec t [48]) as [->|Nt].
  - change (len [48]) with 1. lia.
  - pose proof (plain_lower t D P Nt). apply N.nlt_ge. intros Hlt.
    assert (10 ^ k <= 10 ^ (len t - 1)) by (apply N.pow_le_mono_r; lia). lia.
Qed.

Lemma shows_number_proper n t : shows_number n t -> proper t.
Proof.
  intros (D & P & V). destruct P as [->|[Hn Hh]]; unfold proper; auto.
  destruct t; [contradiction|]. right; right. now constructor.
Qed.

(** ** Fixed point *)

Lemma first_digit_strip l : all_digits l ->
  first_digit l = Some (match strip l with [] => None | _ => Some (length l - length (strip l))%nat end).
Proof.
  induction 1; cbn [first_digit strip]; auto.
  unfold is_digit in H. replace (48 <=? x) with true by lia. replace (x <=? 57) with true by lia.
  cbn [andb]. destruct (x =? 48) eqn:E.
  - rewrite IHForall. destruct (strip_spec l) as (_ & L & _).
    destruct (strip l) eqn:Es; auto. do 2 f_equal. cbn [length] in *. lia.
  - do 2 f_equal. lia.
Qed.

Lemma fill_spec a b x s : (a <= b)%nat -> (b <= length s)%nat ->
  fill a b x s = Some (firstn a s ++ repeat x (b - a) ++ skipn b s).
Proof. intros. unfold fill. now replace (_ && _) with true by lia. Qed.

Lemma copy_within_spec a n dst s : (a + n <= length s)%nat -> (dst + n <= length s)%nat ->
  copy_within a n dst s = Some (firstn dst s ++ slice a n s ++ skipn (dst + n) s).
Proof. intros. unfold copy_within. now replace (_ && _) with true by lia. Qed.

Lemma upd_app {A} (a : list A) x y b : upd (length a) y (a ++ x :: b) = a ++ y :: b.
Proof. induction a; cbn [length app upd]; auto. now rewrite IHa. Qed.

Lemma skipn_zeros n k : skipn n (zeros k) = zeros (k - n).
Proof. revert k. induction n; intros [|k]; cbn; auto. Qed.

Lemma fp_point_spec D d k : all_digits D -> (d <= length D)%nat -> (1 <= k)%nat ->
  fp_point (D ++ zeros k) (length D) d
  = FOk (firstn (length D - d) D ++ 46 :: skipn (length D - d) D).
Proof.
  intros HD Hd Hk. unfold fp_point. replace (length D <? d)%nat with false by lia.
  set (p := (length D - d)%nat).
  rewrite copy_within_spec; [|rewrite app_length, zeros_length; lia..]. cbn [fp_bind].
  assert (E1 : slice p d (D ++ zeros k) = skipn p D).
  { unfold slice. rewrite skipn_app. replace (p - length D)%nat with O by lia. cbn [skipn].
    apply firstn_app_l. rewrite skipn_length. lia. }
  assert (E2 : skipn (p + 1 + d) (D ++ zeros k) = zeros (k - 1)).
  { rewrite skipn_app, skipn_all2 by lia. rewrite skipn_zeros. cbn [app]. f_equal. lia. }
  assert (E3 : exists x, firstn (p + 1) (D ++ zeros k) = firstn p D ++ [x]).
  { destruct (Nat.eq_dec p (length D)) as [Ep|Ep].
    - exists 0. rewrite Ep, firstn_all. destruct k; [lia|]. cbn [zeros repeat].
      change (0 :: repeat 0 k) with ([0] ++ repeat 0 k). rewrite app_assoc.
      apply firstn_app_l. rewrite app_length. cbn. lia.
    - exists (nth p D 0). rewrite firstn_app. replace (p + 1 - length D)%nat with O by lia.
      rewrite firstn_O, app_nil_r. clear - Ep. assert (p < length D)%nat by (unfold p in *; lia).
      clear Ep. revert H. generalize p. induction D; intros [|q] H; cbn in *; try lia; auto.
      f_equal. apply IHD. lia. }
  destruct E3 as [x E3]. rewrite E1, E2, E3. rewrite <- app_assoc. cbn [app].
  assert (Lp : length (firstn p D) = p) by (rewrite firstn_length; lia).
  rewrite <- Lp at 1. rewrite upd_app. f_equal.
  assert (F1 : all_digits (firstn p D)) by (apply Forall_forall; intros y Hy;
    apply (proj1 (Forall_forall _ _) HD);
    rewrite <- (firstn_skipn p D); apply in_or_app; auto).
  assert (F2 : all_digits (skipn p D)) by (apply Forall_forall; intros y Hy;
    apply (proj1 (Forall_forall _ _) HD); rewrite <- (firstn_skipn p D); apply in_or_app; auto).
  rewrite cstr_app by now apply all_digits_nonzero. f_equal. cbn [cstr N.eqb].
  f_equal. rewrite cstr_app by now apply all_digits_nonzero.
  now rewrite cstr_zeros, app_nil_r.
Qed.

Lemma all_digits_repeat n : all_digits (repeat 48 n).
Proof. induction n; cbn; constructor; auto. unfold is_digit. lia. Qed.

Lemma all_digits_firstn n l : all_digits l -> all_digits (firstn n l).
Proof. intros H. rewrite <- (firstn_skipn n l) in H. now apply Forall_app in H. Qed.
Lemma all_digits_skipn n l : all_digits l -> all_digits (skipn n l).
Proof. intros H. rewrite <- (firstn_skipn n l) in H. now apply Forall_app in H. Qed.

Lemma cut_shows D d v : all_digits D -> (d < length D)%nat -> d <> O ->
  plain (firstn (length D - d) D) -> dec D = v ->
  shows_decimal d v (firstn (length D - d) D ++ 46 :: skipn (length D - d) D).
Proof.
  intros HD Hd Hd0 Hp <-. exists (firstn (length D - d) D), (skipn (length D - d) D).
  split; [destruct d; [contradiction|reflexivity]|].
  split; [now apply all_digits_firstn|]. split; [now apply all_digits_skipn|].
  assert (L : length (skipn (length D - d) D) = d) by (rewrite skipn_length; lia).
  split; auto. split; auto.
  transitivity (dec (firstn (length D - d) D ++ skipn (length D - d) D));
    [|now rewrite firstn_skipn].
  rewrite dec_app. unfold len. now rewrite L.
Qed.

Lemma fp_insert_spec D d k : all_digits D -> plain D -> d <> O ->
  (Nat.max (length D) (d + 1) + 1 <= length D + k)%nat ->
  exists t, fp_insert (D ++ zeros k) (length D) d = FOk t /\ shows_decimal d (dec D) t.
Proof.
  intros HD HP Hd Hk. unfold fp_insert.
  destruct (Nat.ltb_spec (length D) (d + 1)).
  - set (pad := (d - length D + 1)%nat).
    assert (LD : length (D ++ zeros k) = (length D + k)%nat) by now rewrite app_length, zeros_length.
    rewrite copy_within_spec by lia. cbn [fp_bind].
    assert (E1 : slice 0 (length D) (D ++ zeros k) = D)
      by (unfold slice; cbn [skipn]; now apply firstn_app_l).
    assert (E2 : skipn (pad + length D) (D ++ zeros k) = zeros (length D + k - d - 1)).
    { rewrite skipn_app, skipn_all2 by lia. rewrite skipn_zeros. cbn [app]. f_equal. lia. }
    rewrite E1, E2.
    assert (LF : length (firstn pad (D ++ zeros k)) = pad) by (rewrite firstn_length; lia).
    rewrite fill_spec; [|lia|rewrite app_length, LF; lia]. cbn [fp_bind firstn app].
    rewrite skipn_app_l by auto. rewrite Nat.sub_0_r, app_assoc.
    set (D' := repeat 48 pad ++ D).
    assert (HD' : all_digits D') by (apply Forall_app; split; [apply all_digits_repeat|auto]).
    assert (LD' : length D' = (d + 1)%nat) by (unfold D'; rewrite app_length, repeat_length; lia).
    assert (ES : strlen (D' ++ zeros (length D + k - d - 1)) = length D').
    { unfold strlen. rewrite cstr_app by now apply all_digits_nonzero.
      now rewrite cstr_zeros, app_nil_r. }
    rewrite ES, fp_point_spec by (auto; lia). eexists. split; [reflexivity|].
    apply cut_shows; auto; [lia| |unfold D'; apply dec_zeros].
    left. rewrite LD'. replace (d + 1 - d)%nat with 1%nat by lia. unfold D'.
    unfold pad. replace (d - length D + 1)%nat with (S (d - length D)) by lia. reflexivity.
  - rewrite fp_point_spec by (auto; lia). eexists. split; [reflexivity|].
    apply cut_shows; auto; [lia|].
    destruct HP as [->|[Hn Hh]]; [cbn in *; lia|].
    right. destruct D as [|c D]; [contradiction|].
    cbn [length] in *. replace (S (length D) - d)%nat with (S (length D - d)) by lia.
    cbn [firstn nth]. cbn in Hh. split; [discriminate|auto].
Qed.

Lemma cstr_digits_zeros D k : all_digits D -> cstr (D ++ zeros k) = D.
Proof.
  intros. rewrite cstr_app by now apply all_digits_nonzero. now rewrite cstr_zeros, app_nil_r.
Qed.

Lemma fp_tail D d k : all_digits D -> plain D ->
  (d = 0 \/ Nat.max (length D) (d + 1) + 1 <= length D + k)%nat ->
  exists t, (if (d =? 0)%nat then FOk (cstr (D ++ zeros k)) else fp_insert (D ++ zeros k) (length D) d)
            = FOk t /\ shows_decimal d (dec D) t.
Proof.
  intros HD HP HK. destruct (Nat.eqb_spec d 0).
  - subst. exists D. rewrite cstr_digits_zeros by auto. split; auto.
    exists D, []. rewrite app_nil_r. split; auto. repeat split; auto. constructor.
    cbn [N.of_nat]. rewrite N.pow_0_r. unfold dec at 2. cbn [fold_left]. lia.
  - apply fp_insert_spec; auto. lia.
Qed.

(** The shortest form of a digit string: what is left after removing leading zeros, but
    at least one digit. *)
Definition core (l : bytes) : bytes := match strip l with [] => [48] | s => s end.

Lemma core_spec l : all_digits l -> all_digits (core l) /\ plain (core l) /\ dec (core l) = dec l.
Proof.
  intros H. pose proof (strip_digits l H). pose proof (strip_dec l).
  destruct (strip_spec l) as (_ & _ & S). unfold core. destruct (strip l).
  - split; [|split]; [|now left|rewrite <- H1; reflexivity].
    constructor; [unfold is_digit; lia|constructor].
  - split; auto. split; auto. right. split; [discriminate|]. destruct S; [discriminate|auto].
Qed.

(** What is left to do once the leading zeros are gone. *)
Lemma fpstr_moved ds junk d : all_digits ds -> proper ds ->
  let buf := ds ++ 0 :: junk in
  exists k, (length (core ds) + k = length buf)%nat /\
    fpstr buf d = if (d =? 0)%nat then FOk (cstr (core ds ++ zeros k))
                  else fp_insert (core ds ++ zeros k) (length (core ds)) d.
Proof.
  intros HD HP buf. unfold fpstr.
  assert (EN : strlen buf = length ds).
  { unfold strlen, buf. rewrite cstr_app by now apply all_digits_nonzero.
    rewrite cstr_zero. now rewrite app_nil_r. }
  assert (LB : length buf = (length ds + 1 + length junk)%nat)
    by (unfold buf; rewrite app_length; cbn; lia).
  rewrite EN. replace (length ds =? length buf)%nat with false by lia.
  destruct (core_spec ds HD) as (CD & CP & CE).
  destruct (Nat.eqb_spec (length ds) 0) as [E0|E0].
  - destruct ds; [|discriminate]. unfold buf. cbn [app upd firstn].
    cbn [first_digit]. change ((48 <=? 48) && (48 <=? 57)) with true. cbv iota.
    change (48 =? 48) with true. cbv iota.
    rewrite fill_spec by (cbn; lia). cbn [option_map firstn length].
    rewrite skipn_all2 by (cbn; lia). rewrite app_nil_r.
    exists (S (length junk) - 1)%nat. split; [cbn [core strip length]; lia|reflexivity].
  - assert (FN : firstn (length ds) buf = ds) by (unfold buf; now apply firstn_app_l).
    rewrite FN, first_digit_strip by auto.
    destruct (strip_spec ds) as (ES & LS & SS).
    destruct (strip ds) as [|b l] eqn:Est.
    + assert (ds = [48]).
      { destruct HP as [->|[->|HE]]; [cbn in E0; lia|auto|]. apply strip_nonzero in HE. congruence. }
      subst ds. unfold buf. rewrite fill_spec by (cbn; lia). cbn [option_map firstn length app].
      rewrite skipn_all2 by (cbn; lia). rewrite app_nil_r.
      exists (S (S (length junk)) - 1)%nat.
      split; [change (length (core [48])) with 1%nat; lia|reflexivity].
    + assert (EC : core ds = b :: l) by (unfold core; now rewrite Est).
      set (S0 := b :: l) in *. set (i := (length ds - length S0)%nat) in *.
      rewrite copy_within_spec by lia. cbn [firstn app].
      assert (E1 : slice i (length buf - i) buf = S0 ++ 0 :: junk).
      { unfold slice. rewrite firstn_all2 by (rewrite skipn_length; lia). unfold buf.
        rewrite ES, <- app_assoc. apply skipn_app_l. apply repeat_length. }
      rewrite E1. cbn [Nat.add].
      set (tail := skipn (length buf - i) buf).
      assert (LT : length tail = i) by (unfold tail; rewrite skipn_length; lia).
      replace (length ds - i)%nat with (length S0) by lia.
      set (body := (S0 ++ 0 :: junk) ++ tail).
      assert (LBody : length body = length buf).
      { unfold body. rewrite !app_length. cbn [length]. lia. }
      rewrite fill_spec by (unfold body; rewrite !app_length; cbn [length]; lia).
      rewrite skipn_all2 by lia. rewrite app_nil_r. cbn [option_map].
      assert (EF : firstn (length S0) body = S0).
      { unfold body. rewrite <- app_assoc. now apply firstn_app_l. }
      rewrite EF. fold (zeros (length body - length S0)).
      rewrite EC. exists (length body - length S0)%nat. split; [lia|reflexivity].
Qed.

Lemma core_length ds : length (core ds) = Nat.max 1 (length (strip ds)).
Proof. unfold core. destruct (strip ds); cbn [length]; lia. Qed.

Theorem fpstr_ok ds junk d : all_digits ds -> proper ds ->
  let buf := ds ++ 0 :: junk in
  (d = 0 \/ Nat.max (length (strip ds)) (d + 1) + 1 <= length buf)%nat ->
  exists t, fpstr buf d = FOk t /\ shows_decimal d (dec ds) t.
Proof.
  intros HD HP buf HK. destruct (fpstr_moved ds junk d HD HP) as (k & L & E).
  fold buf in L, E. rewrite E. destruct (core_spec ds HD) as (CD & CP & CE).
  rewrite <- CE. pose proof (core_length ds). apply fp_tail; auto. lia.
Qed.

Lemma copy_within_none a n dst s : (length s < dst + n)%nat -> copy_within a n dst s = None.
Proof. intros. unfold copy_within. now replace (_ && _) with false by lia. Qed.

Lemma fp_point_small D d : (d <= length D)%nat -> fp_point D (length D) d = FPanic.
Proof.
  intros Hd. unfold fp_point. replace (length D <? d)%nat with false by lia.
  now rewrite copy_within_none by lia.
Qed.

Lemma fp_insert_small D d k : all_digits D -> (1 <= length D)%nat ->
  (length D + k < Nat.max (length D) (d + 1) + 1)%nat ->
  fp_insert (D ++ zeros k) (length D) d = FPanic.
Proof.
  intros HD H1 Hk. unfold fp_insert.
  assert (LD : length (D ++ zeros k) = (length D + k)%nat) by now rewrite app_length, zeros_length.
  destruct (Nat.ltb_spec (length D) (d + 1)).
  - set (pad := (d - length D + 1)%nat).
    destruct (Nat.eq_dec (length D + k) (d + 1)) as [F|F];
      [|now rewrite copy_within_none by lia].
    rewrite copy_within_spec by lia. cbn [fp_bind].
    assert (E1 : slice 0 (length D) (D ++ zeros k) = D)
      by (unfold slice; cbn [skipn]; now apply firstn_app_l).
    assert (E2 : skipn (pad + length D) (D ++ zeros k) = []) by (apply skipn_all2; lia).
    rewrite E1, E2, app_nil_r.
    assert (LF : length (firstn pad (D ++ zeros k)) = pad) by (rewrite firstn_length; lia).
    rewrite fill_spec; [|lia|rewrite app_length, LF; lia]. cbn [fp_bind firstn app].
    rewrite skipn_app_l by auto. rewrite Nat.sub_0_r.
    set (D' := repeat 48 pad ++ D).
    assert (HD' : all_digits D') by (apply Forall_app; split; [apply all_digits_repeat|auto]).
    assert (LD' : length D' = (d + 1)%nat) by (unfold D'; rewrite app_length, repeat_length; lia).
    assert (ES : strlen D' = length D').
    { rewrite <- (app_nil_r D') at 1. unfold strlen.
      rewrite cstr_app by now apply all_digits_nonzero. cbn [cstr]. now rewrite app_nil_r. }
    rewrite ES. apply fp_point_small. lia.
  - assert (k = 0%nat) by lia. subst k. cbn [zeros repeat]. rewrite app_nil_r.
    apply fp_point_small. lia.
Qed.

(** A buffer with no room for the point and the padding stops the program. *)
Theorem fpstr_small ds junk d : all_digits ds -> proper ds ->
  let buf := ds ++ 0 :: junk in
  (d <> 0 -> length buf < Nat.max (length (strip ds)) (d + 1) + 1 -> fpstr buf d = FPanic)%nat.
Proof.
  intros HD HP buf H0 HK. destruct (fpstr_moved ds junk d HD HP) as (k & L & E).
  fold buf in L, E. rewrite E. destruct (Nat.eqb_spec d 0); [contradiction|].
  pose proof (core_length ds). destruct (core_spec ds HD) as (CD & _).
  apply fp_insert_small; auto; lia.
Qed.

(** A buffer without a final zero, or something else than a digit before the first digit
    other than zero, is refused. *)
Theorem fpstr_full s d : Forall (fun c => c <> 0) s -> fpstr s d = FErr.
Proof.
  intros H. unfold fpstr. assert (E : strlen s = length s).
  { rewrite <- (app_nil_r s) at 1. unfold strlen.
    rewrite cstr_app by auto. cbn [cstr]. now rewrite app_nil_r. }
  rewrite E. now rewrite Nat.eqb_refl.
Qed.

Lemma first_digit_bad n c t : ~ is_digit c -> first_digit (repeat 48 n ++ c :: t) = None.
Proof.
  intros H. induction n; cbn [repeat app first_digit].
  - unfold is_digit in H. now replace (_ && _) with false by lia.
  - change ((48 <=? 48) && (48 <=? 57)) with true. cbv iota. change (48 =? 48) with true. cbv iota.
    now rewrite IHn.
Qed.

Theorem fpstr_letters n c t junk d : ~ is_digit c -> Forall (fun c => c <> 0) (c :: t) ->
  fpstr (repeat 48 n ++ c :: t ++ 0 :: junk) d = FErr.
Proof.
  intros H F. unfold fpstr. set (w := repeat 48 n ++ c :: t).
  replace (repeat 48 n ++ c :: t ++ 0 :: junk) with (w ++ 0 :: junk)
    by (unfold w; now rewrite <- app_assoc).
  assert (W : Forall (fun c => c <> 0) w).
  { apply Forall_app. split; auto. apply all_digits_nonzero, all_digits_repeat. }
  assert (EN : strlen (w ++ 0 :: junk) = length w).
  { unfold strlen. rewrite cstr_app by auto. rewrite cstr_zero. now rewrite app_nil_r. }
  assert (L : length w <> 0%nat) by (unfold w; rewrite app_length; cbn [length]; lia).
  rewrite EN. replace (length w =? _)%nat with false by (rewrite app_length; cbn [length]; lia).
  replace (length w =? 0)%nat with false by lia.
  rewrite firstn_app_l by reflexivity. unfold w. now rewrite first_digit_bad.
Qed.

Lemma split_point a b a' b' : all_digits a -> all_digits a' -> a ++ 46 :: b = a' ++ 46 :: b' -> a = a' /\ b = b'.
Proof.
  revert a'. induction a; intros a' Ha Ha' E; destruct a'; cbn in E.
  - injection E; auto.
  - injection E as E1 E2. inversion Ha'; subst. unfold is_digit in *. lia.
  - injection E as E1 E2. inversion Ha; subst. unfold is_digit in *. lia.
  - injection E as E1 E2. inversion Ha; inversion Ha'; subst.
    destruct (IHa a' H2 H6 E2). now subst.
Qed.

Lemma shows_decimal_inj d v t t' : shows_decimal d v t -> shows_decimal d v t' -> t = t'.
Proof.
  intros (a & b & -> & Da & Db & Lb & Pa & V) (a' & b' & -> & Da' & Db' & Lb' & Pa' & V').
  pose proof (dec_lt b Db). pose proof (dec_lt b' Db').
  assert (L1 : len b = N.of_nat d) by (unfold len; lia).
  assert (L2 : len b' = N.of_nat d) by (unfold len; lia). rewrite L1 in *. rewrite L2 in *.
  assert (dec a = dec a') by nia.
  assert (a = a') by (apply (shows_number_inj (dec a)); repeat split; auto).
  subst a'. assert (b = b') by (apply dec_inj; auto; [lia|nia]). now subst.
Qed.

Lemma shows_decimal_value d v v' t : shows_decimal d v t -> shows_decimal d v' t -> v = v'.
Proof.
  intros (a & b & E & Da & Db & Lb & Pa & V) (a' & b' & E' & Da' & Db' & Lb' & Pa' & V').
  destruct d.
  - rewrite app_nil_r in *. destruct b; [|discriminate]. destruct b'; [|discriminate]. congruence.
  - rewrite E in E'. apply split_point in E' as [-> ->]; auto. congruence.
Qed.

(** ** Hexadecimal *)

Lemma hex_value_digit d : d < 16 -> hex_value (hex_digit d) = Some d.
Proof.
  intros. unfold hex_value, hex_digit. destruct (N.ltb_spec d 10).
  - replace (_ && _) with true by lia. f_equal. lia.
  - replace ((48 <=? 87 + d) && (87 + d <=? 57)) with false by lia.
    replace ((97 <=? 87 + d) && (87 + d <=? 102)) with true by lia. f_equal. lia.
Qed.

Lemma hex_reads l : bytes_ok l -> reads_hex (hex l) = Some l.
Proof.
  induction 1; auto. cbv beta in H. unfold hex. cbn [map concat app reads_hex]. fold (hex l).
  rewrite !hex_value_digit by lia. rewrite IHForall. do 2 f_equal. lia.
Qed.

Lemma hex_length l : length (hex l) = (2 * length l)%nat.
Proof. induction l; auto. unfold hex. cbn [map concat app length]. fold (hex l). lia. Qed.
