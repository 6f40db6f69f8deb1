(** C101: every combination, once, in order. *)
From Coq Require Import List Arith Lia FinFun.
From Verif Require Import Cartesian.
Import ListNotations.

Lemma cartesian_from {A} (arr : list (list A)) : forall a,
  fold_left (fun a b => flat_map (fun c => map (fun d => c ++ [d]) b) a) arr a =
  flat_map (fun c => map (fun t => c ++ t) (cartesian arr)) a.
Proof.
  induction arr as [|b arr IH]; intros a.
  - change (cartesian (@nil (list A))) with [@nil A]. cbn [fold_left].
    induction a as [|c a Ia]; [reflexivity|]. cbn [flat_map map app]. rewrite app_nil_r. now f_equal.
  - cbn [fold_left]. rewrite IH. unfold cartesian at 2. cbn [fold_left flat_map]. rewrite app_nil_r.
    rewrite IH. generalize (cartesian arr). intros p. clear IH.
    induction a as [|c a Ia]; [reflexivity|]. cbn [flat_map]. rewrite flat_map_app, Ia. f_equal. clear Ia.
    cbn [app]. induction b as [|d b Ib]; [reflexivity|]. cbn [map flat_map]. rewrite Ib, map_app. f_equal.
    rewrite map_map. apply map_ext. intros t. now rewrite <- app_assoc.
Qed.
(** The first list varies slowest. *)
Lemma cartesian_cons {A} (b : list A) arr : cartesian (b :: arr) = flat_map (fun x => map (cons x) (cartesian arr)) b.
Proof.
  unfold cartesian at 1. cbn [fold_left flat_map]. rewrite app_nil_r, cartesian_from.
  cbn [app]. induction b as [|d b Ib]; [reflexivity|]. cbn [map flat_map]. rewrite Ib. f_equal.
Qed.
Lemma cartesian_in {A} (arr : list (list A)) : forall t, In t (cartesian arr) <-> Forall2 (fun x l => In x l) t arr.
Proof.
  induction arr as [|b arr IH]; intros t.
  - cbn. split; [intros [<-|[]]; constructor|]. intros F. inversion F. now left.
  - rewrite cartesian_cons, in_flat_map. split.
    + intros (x & Hx & Ht). apply in_map_iff in Ht as (u & <- & Hu). constructor; [exact Hx|now apply IH].
    + intros F. inversion F as [|x u l r Hx Hu]; subst. exists x. split; [exact Hx|]. apply in_map. now apply IH.
Qed.
Lemma cartesian_length {A} (arr : list (list A)) : length (cartesian arr) = fold_right (fun l n => length l * n) 1 arr.
Proof.
  induction arr as [|b arr IH]; [reflexivity|]. rewrite cartesian_cons. cbn [fold_right]. rewrite <- IH.
  induction b as [|x b Ib]; [reflexivity|]. cbn [flat_map length]. rewrite app_length, map_length, Ib. lia.
Qed.
Lemma nodup_app {A} (l m : list A) : NoDup l -> NoDup m -> (forall x, In x l -> ~ In x m) -> NoDup (l ++ m).
Proof.
  intros Hl Hm J. induction Hl as [|x l Nx Hl IH]; [exact Hm|]. cbn [app]. constructor.
  - rewrite in_app_iff. intros [X|X]; [exact (Nx X)|exact (J x (or_introl eq_refl) X)].
  - apply IH. intros y Hy. apply J. now right.
Qed.
Lemma cartesian_once {A} (arr : list (list A)) : Forall (@NoDup A) arr -> NoDup (cartesian arr).
Proof.
  induction arr as [|b arr IH]; intros F; [repeat constructor; intros []|].
  rewrite cartesian_cons. pose proof (Forall_inv F) as Fb. specialize (IH (Forall_inv_tail F)). clear F.
  revert IH. generalize (cartesian arr). intros p Np. induction Fb as [|x b Nx Fb Ib]; [constructor|]. cbn [flat_map].
  apply nodup_app; [|exact Ib|].
  - apply Injective_map_NoDup; [|exact Np]. intros u v [= E]. exact E.
  - intros u Hu Hv. apply in_map_iff in Hu as (t & <- & _). apply in_flat_map in Hv as (y & Hy & Hv).
    apply in_map_iff in Hv as (t' & E & _). injection E as -> _. contradiction.
Qed.

(** The keys that the wallet tests ask for: four curves, two paths. *)
Lemma cartesian_case : Forall (@NoDup nat) [[0; 1; 2; 3]; [10; 11]] /\ Forall2 (fun x l => In x l) [2; 10] [[0; 1; 2; 3]; [10; 11]] /\
  cartesian [[0; 1; 2; 3]; [10; 11]] = [[0; 10]; [0; 11]; [1; 10]; [1; 11]; [2; 10]; [2; 11]; [3; 10]; [3; 11]].
Proof.
  split; [|split; [|reflexivity]].
  - repeat (apply Forall_cons || apply Forall_nil || apply NoDup_cons || apply NoDup_nil); cbn [In]; lia.
  - repeat (apply Forall2_cons || apply Forall2_nil); cbn [In]; auto.
Qed.
