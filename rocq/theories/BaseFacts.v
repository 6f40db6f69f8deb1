(** Lemmas about [Base]. *)
From Coq Require Import List NArith ZArith Lia Bool Arith.
From Coq Require Import ZifyBool ZifyNat ZifyN.
From Verif Require Import Base.
Import ListNotations.
Open Scope N_scope.

Ltac Zify.zify_post_hook ::= Z.div_mod_to_equations.

Lemma be_length k n : length (be k n) = k.
Proof. revert n; induction k; intros; cbn [be]; rewrite ?app_length, ?IHk; cbn; lia. Qed.

Lemma bytes_ok_app a b : bytes_ok (a ++ b) <-> bytes_ok a /\ bytes_ok b.
Proof. unfold bytes_ok. apply Forall_app. Qed.

Lemma be_ok k n : bytes_ok (be k n).
Proof.
  revert n; induction k; intros; cbn [be].
  - constructor.
  - apply bytes_ok_app. split; auto. constructor; [|constructor].
    apply N.mod_lt; discriminate.
Qed.

Lemma unbe_app a b : unbe (a ++ b) = unbe a * 256 ^ len b + unbe b.
Proof.
  unfold unbe. rewrite fold_left_app.
  assert (H : forall l acc, fold_left (fun acc b => acc * 256 + b) l acc
             = acc * 256 ^ len l + fold_left (fun acc b => acc * 256 + b) l 0).
  { clear. induction l using rev_ind; intros.
    - unfold len; cbn. lia.
    - rewrite !fold_left_app. cbn [fold_left]. rewrite IHl.
      unfold len. rewrite app_length. cbn [length].
      replace (N.of_nat (length l + 1)) with (N.succ (N.of_nat (length l))) by lia.
      rewrite N.pow_succ_r'. lia. }
  apply H.
Qed.

Lemma unbe_snoc a b : unbe (a ++ [b]) = unbe a * 256 + b.
Proof. unfold unbe. rewrite fold_left_app. reflexivity. Qed.

Lemma unbe_be k n : unbe (be k n) = n mod 256 ^ N.of_nat k.
Proof.
  revert n; induction k; intros.
  - cbn. now rewrite N.mod_1_r.
  - cbn [be]. rewrite unbe_snoc, IHk, Nat2N.inj_succ, N.pow_succ_r'.
    rewrite (N.mod_mul_r n 256 (256 ^ N.of_nat k)); lia.
Qed.

Lemma unbe_be_small k n : n < 256 ^ N.of_nat k -> unbe (be k n) = n.
Proof. intros. rewrite unbe_be. now apply N.mod_small. Qed.

Lemma unbe_lt l : bytes_ok l -> unbe l < 256 ^ len l.
Proof.
  induction l using rev_ind; intros H.
  - cbn; lia.
  - apply bytes_ok_app in H as [H1 H2]. inversion H2; subst.
    rewrite unbe_snoc. specialize (IHl H1). unfold len in *. rewrite app_length.
    cbn [length]. replace (N.of_nat (length l + 1)) with (N.succ (N.of_nat (length l))) by lia.
    rewrite N.pow_succ_r'. cbv beta in *. lia.
Qed.

Lemma be_unbe l : bytes_ok l -> be (length l) (unbe l) = l.
Proof.
  induction l using rev_ind; intros H; [reflexivity|].
  apply bytes_ok_app in H as [H1 H2]. inversion H2; subst.
  rewrite app_length, Nat.add_comm. cbn [be Nat.add length].
  rewrite unbe_snoc. cbv beta in *.
  replace ((unbe l * 256 + x) / 256) with (unbe l) by lia.
  replace ((unbe l * 256 + x) mod 256) with x by lia.
  now rewrite (IHl H1).
Qed.

Lemma be_mod k n : be k (n mod 256 ^ N.of_nat k) = be k n.
Proof.
  rewrite <- unbe_be. rewrite <- (be_length k n) at 1. apply be_unbe, be_ok.
Qed.

Lemma slice_length {A} i n (l : list A) : (i + n <= length l)%nat -> length (slice i n l) = n.
Proof. intros. unfold slice. rewrite firstn_length, skipn_length. lia. Qed.

Lemma bytes_ok_firstn n l : bytes_ok l -> bytes_ok (firstn n l).
Proof. intros H. rewrite <- (firstn_skipn n l) in H. now apply bytes_ok_app in H. Qed.

Lemma bytes_ok_skipn n l : bytes_ok l -> bytes_ok (skipn n l).
Proof. intros H. rewrite <- (firstn_skipn n l) in H. now apply bytes_ok_app in H. Qed.

Lemma bytes_ok_slice i n l : bytes_ok l -> bytes_ok (slice i n l).
Proof. intros. unfold slice. now apply bytes_ok_firstn, bytes_ok_skipn. Qed.

Lemma zeros_ok n : bytes_ok (zeros n).
Proof. unfold zeros, bytes_ok. induction n; cbn; constructor; auto; lia. Qed.

Lemma zeros_length n : length (zeros n) = n.
Proof. apply repeat_length. Qed.

Lemma pad_to_length n l : (length l <= n)%nat -> length (pad_to n l) = n.
Proof. intros. unfold pad_to. rewrite app_length, zeros_length. lia. Qed.

Lemma pad_to_ok n l : bytes_ok l -> bytes_ok (pad_to n l).
Proof. intros. apply bytes_ok_app. split; auto using zeros_ok. Qed.

Lemma upd_length {A} i (x : A) l : length (upd i x l) = length l.
Proof. revert i; induction l; destruct i; cbn; auto. Qed.

Lemma nth_error_upd_same {A} i (x : A) l :
  (i < length l)%nat -> nth_error (upd i x l) i = Some x.
Proof. revert i; induction l; destruct i; cbn; intros; try lia; auto. apply IHl; lia. Qed.

Lemma nth_error_upd_other {A} i j (x : A) l :
  i <> j -> nth_error (upd i x l) j = nth_error l j.
Proof. revert i j; induction l; destruct i, j; cbn; intros; try congruence; auto. Qed.

Lemma nth_upd_same {A} i (x d : A) l : (i < length l)%nat -> nth i (upd i x l) d = x.
Proof. revert i; induction l; destruct i; cbn; intros; try lia; auto. apply IHl; lia. Qed.

Lemma nth_upd_other {A} i j (x d : A) l : i <> j -> nth j (upd i x l) d = nth j l d.
Proof. revert i j; induction l; destruct i, j; cbn; intros; try congruence; auto. Qed.

Lemma bytes_eqb_eq a b : bytes_eqb a b = true <-> a = b.
Proof.
  revert b; induction a; destruct b; cbn; split; intros; try congruence; auto.
  - apply andb_prop in H as [H1 H2]. apply N.eqb_eq in H1. apply IHa in H2. congruence.
  - inversion H; subst. rewrite N.eqb_refl. cbn. now apply IHa.
Qed.

Lemma len_app {A} (a b : list A) : len (a ++ b) = len a + len b.
Proof. unfold len. rewrite app_length. lia. Qed.

Lemma len_be k n : len (be k n) = N.of_nat k.
Proof. unfold len. now rewrite be_length. Qed.

Lemma take_app a b n : len a = n -> take n (a ++ b) = POk b a.
Proof.
  intros <-. unfold take, len. rewrite app_length.
  replace (N.of_nat (length a) <=? N.of_nat (length a + length b)) with true by lia.
  rewrite Nat2N.id, skipn_app, firstn_app, skipn_all, firstn_all, Nat.sub_diag.
  cbn. now rewrite app_nil_r.
Qed.

Lemma take_inv n l rem a : take n l = POk rem a -> l = a ++ rem /\ len a = n.
Proof.
  unfold take. destruct (N.leb_spec n (len l)); [|discriminate].
  intros E; inversion E; subst. split.
  - now rewrite firstn_skipn.
  - unfold len in *. rewrite firstn_length. lia.
Qed.

Lemma take_not_panic n l : take n l <> PPanic.
Proof. unfold take. destruct (n <=? len l); discriminate. Qed.

Lemma be_uint_app k n rest : n < 256 ^ N.of_nat k ->
  be_uint (N.of_nat k) (be k n ++ rest) = POk rest n.
Proof.
  intros. unfold be_uint. rewrite (take_app _ _ _ (len_be k n)). cbn [pbind].
  now rewrite unbe_be_small.
Qed.

Lemma be_uint_inv k l rem v :
  be_uint k l = POk rem v -> exists a, l = a ++ rem /\ len a = k /\ v = unbe a.
Proof.
  unfold be_uint. destruct (take k l) eqn:E; cbn; try discriminate.
  intros X; inversion X; subst. apply take_inv in E as [-> H]. eauto.
Qed.

Lemma be_uint_not_panic n l : be_uint n l <> PPanic.
Proof.
  unfold be_uint. pose proof (take_not_panic n l).
  destruct (take n l); cbn; congruence.
Qed.

Lemma firstn_app_exact {A} (a b : list A) n : length a = n -> firstn n (a ++ b) = a.
Proof. intros <-. rewrite firstn_app, Nat.sub_diag, firstn_all. cbn. apply app_nil_r. Qed.

Lemma skipn_app_exact {A} (a b : list A) n : length a = n -> skipn n (a ++ b) = b.
Proof. intros <-. rewrite skipn_app, Nat.sub_diag, skipn_all. reflexivity. Qed.

Lemma unbe_lt_len l k : length l = k -> bytes_ok l -> unbe l < 256 ^ N.of_nat k.
Proof. intros <- H. now apply unbe_lt. Qed.
