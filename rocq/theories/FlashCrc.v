(** The checksum of a page detects damage within four consecutive bytes. *)
From Coq Require Import List NArith Bool Arith Lia.
From Coq Require Import ZifyBool ZifyNat ZifyN.
From Verif Require Import Base BaseFacts Flash FlashFacts.
Import ListNotations.
Open Scope N_scope.

Lemma crc_bit_lxor a b : crc_bit (N.lxor a b) = N.lxor (crc_bit a) (crc_bit b).
Proof.
  unfold crc_bit. rewrite <- !N.bit0_odd, N.lxor_spec, !N.div2_spec, N.shiftr_lxor.
  destruct (N.testbit a 0), (N.testbit b 0); cbn [xorb]; apply N.bits_inj; intros i; rewrite ?N.lxor_spec;
    repeat match goal with |- context [N.testbit ?x i] => destruct (N.testbit x i) end; reflexivity.
Qed.
Definition crc_8 (c : N) : N := crc_bit (crc_bit (crc_bit (crc_bit (crc_bit (crc_bit (crc_bit (crc_bit c))))))).
Lemma crc_8_lxor a b : crc_8 (N.lxor a b) = N.lxor (crc_8 a) (crc_8 b).
Proof. unfold crc_8. now rewrite !crc_bit_lxor. Qed.
Lemma crc_bit_double c : crc_bit (2 * c) = c.
Proof. unfold crc_bit. rewrite N.odd_mul. cbn [N.odd andb]. now rewrite N.div2_double. Qed.
Lemma crc_8_shift c : crc_8 (2 ^ 8 * c) = c.
Proof.
  unfold crc_8. replace (2 ^ 8 * c) with (2 * (2 * (2 * (2 * (2 * (2 * (2 * (2 * c)))))))) by lia.
  now rewrite !crc_bit_double.
Qed.

(** The state before is determined by the state after. *)
Definition uncrc_bit (r : N) : N := if N.testbit r 31 then 2 * N.lxor r 0xEDB88320 + 1 else 2 * r.
Lemma uncrc_crc c : c < 2 ^ 32 -> uncrc_bit (crc_bit c) = c.
Proof.
  intros H. assert (Hd : N.testbit (N.div2 c) 31 = false).
  { rewrite N.div2_spec, N.shiftr_spec'. destruct (N.eq_dec c 0) as [->|Hc]; [reflexivity|].
    apply N.bits_above_log2. apply N.log2_lt_pow2; lia. }
  unfold crc_bit, uncrc_bit. destruct (N.odd c) eqn:E.
  - rewrite N.lxor_spec, Hd. cbn [xorb N.testbit Pos.testbit]. rewrite N.lxor_assoc, N.lxor_nilpotent, N.lxor_0_r.
    symmetry. rewrite (N.div2_odd c) at 1. rewrite E. reflexivity.
  - rewrite Hd. symmetry. rewrite (N.div2_odd c) at 1. rewrite E. cbn [N.b2n]. lia.
Qed.
Lemma crc_8_inj a b : a < 2 ^ 32 -> b < 2 ^ 32 -> crc_8 a = crc_8 b -> a = b.
Proof.
  assert (I1 : forall x y, x < 2 ^ 32 -> y < 2 ^ 32 -> crc_bit x = crc_bit y -> x = y).
  { intros x y Hx Hy E. now rewrite <- (uncrc_crc x Hx), E, uncrc_crc. }
  intros Ha Hb E. unfold crc_8 in E. repeat (apply I1 in E; [|repeat apply crc_bit_lt; assumption..]). exact E.
Qed.

(** Four bytes enter the state as one word. *)
Definition word (m : bytes) : N := N.lxor (nth 0 m 0) (N.lxor (2 ^ 8 * nth 1 m 0) (N.lxor (2 ^ 16 * nth 2 m 0) (2 ^ 24 * nth 3 m 0))).
Lemma crc_byte_8 c b : crc_byte c b = crc_8 (N.lxor c b).
Proof. reflexivity. Qed.
Lemma fold_word c m : length m = 4%nat ->
  fold_left crc_byte m c = crc_8 (crc_8 (crc_8 (crc_8 (N.lxor c (word m))))).
Proof.
  destruct m as [|m1 [|m2 [|m3 [|m4 [|]]]]]; try discriminate. intros _. cbn [fold_left]. unfold word. cbn [nth].
  rewrite !crc_byte_8.
  replace (2 ^ 16 * m3) with (2 ^ 8 * (2 ^ 8 * m3)) by lia. replace (2 ^ 24 * m4) with (2 ^ 8 * (2 ^ 8 * (2 ^ 8 * m4))) by lia.
  rewrite !crc_8_lxor, !crc_8_shift.
  rewrite !N.lxor_assoc. reflexivity.
Qed.

Lemma four_ok a b c d : bytes_ok [a; b; c; d] -> a < 256 /\ b < 256 /\ c < 256 /\ d < 256.
Proof.
  intros H. inversion H as [|? ? H1 K1]; subst. inversion K1 as [|? ? H2 K2]; subst. inversion K2 as [|? ? H3 K3]; subst.
  inversion K3; subst. auto.
Qed.
Lemma word_value m1 m2 m3 m4 : bytes_ok [m1; m2; m3; m4] -> word [m1; m2; m3; m4] = m1 + 2 ^ 8 * m2 + 2 ^ 16 * m3 + 2 ^ 24 * m4.
Proof.
  intros H. apply four_ok in H as (H1 & H2 & H3 & H4). unfold word. cbn [nth].
  assert (A : forall k a b, a < 2 ^ k -> N.lxor a (2 ^ k * b) = a + 2 ^ k * b).
  { intros k a b Ha. symmetry. apply N.add_nocarry_lxor. apply N.bits_inj_0. intros i. rewrite N.land_spec.
    destruct (N.lt_ge_cases i k) as [Hi|Hi].
    - rewrite (N.mul_comm (2 ^ k) b), N.mul_pow2_bits_low by exact Hi. apply andb_false_r.
    - rewrite (proj1 (lt_pow2_bits a k) Ha i Hi). reflexivity. }
  replace (N.lxor (2 ^ 16 * m3) (2 ^ 24 * m4)) with (2 ^ 16 * (m3 + 2 ^ 8 * m4)).
  2: { rewrite <- (A 8 m3 m4) by (lia). rewrite !(N.mul_comm (2 ^ _)), <- !N.shiftl_mul_pow2, N.shiftl_lxor, N.shiftl_shiftl. reflexivity. }
  replace (N.lxor (2 ^ 8 * m2) (2 ^ 16 * (m3 + 2 ^ 8 * m4))) with (2 ^ 8 * (m2 + 2 ^ 8 * (m3 + 2 ^ 8 * m4))).
  2: { rewrite <- (A 8 m2) by (lia). rewrite !(N.mul_comm (2 ^ _)), <- !N.shiftl_mul_pow2, N.shiftl_lxor, N.shiftl_shiftl. reflexivity. }
  rewrite A by (lia). lia.
Qed.
Lemma word_lt m : length m = 4%nat -> bytes_ok m -> word m < 2 ^ 32.
Proof.
  destruct m as [|m1 [|m2 [|m3 [|m4 [|]]]]]; try discriminate. intros _ H. rewrite word_value by exact H.
  apply four_ok in H. lia.
Qed.
Lemma word_inj m m' : length m = 4%nat -> length m' = 4%nat -> bytes_ok m -> bytes_ok m' -> word m = word m' -> m = m'.
Proof.
  destruct m as [|m1 [|m2 [|m3 [|m4 [|]]]]]; try discriminate. destruct m' as [|n1 [|n2 [|n3 [|n4 [|]]]]]; try discriminate.
  intros _ _ H H' E. rewrite !word_value in E by assumption.
  apply four_ok in H, H'.
  assert (m1 = n1 /\ m2 = n2 /\ m3 = n3 /\ m4 = n4) as (-> & -> & -> & ->) by lia. reflexivity.
Qed.

Lemma fold_lt l : forall c, bytes_ok l -> c < 2 ^ 32 -> fold_left crc_byte l c < 2 ^ 32.
Proof.
  induction l as [|b l IH]; intros c H Hc; [exact Hc|]. inversion H; subst. cbn [fold_left]. apply IH; [assumption|].
  now apply crc_byte_lt.
Qed.
Lemma fold_inj l : forall c c', bytes_ok l -> c < 2 ^ 32 -> c' < 2 ^ 32 -> fold_left crc_byte l c = fold_left crc_byte l c' -> c = c'.
Proof.
  induction l as [|b l IH]; intros c c' H Hc Hc' E; [exact E|]. inversion H as [|? ? Hb Hl]; subst. cbn [fold_left] in E.
  apply IH in E; [|exact Hl|now apply crc_byte_lt..]. assert (B : b < 2 ^ 32) by lia.
  rewrite !crc_byte_8 in E. apply crc_8_inj in E; [|now apply lxor_lt..].
  apply (f_equal (fun x => N.lxor x b)) in E. now rewrite !N.lxor_assoc, N.lxor_nilpotent, !N.lxor_0_r in E.
Qed.

(** Strings that differ within four consecutive bytes have different checksums. *)
Lemma burst_detected a m m' z : length m = 4%nat -> length m' = 4%nat -> bytes_ok (a ++ m ++ z) -> bytes_ok m' ->
  crc32_bytes (a ++ m ++ z) = crc32_bytes (a ++ m' ++ z) -> m = m'.
Proof.
  intros Lm Lm' H Hm' E. apply bytes_ok_app in H as [Ha H]. apply bytes_ok_app in H as [Hm Hz].
  unfold crc32_bytes in E. apply (f_equal (fun x => N.lxor x 0xFFFFFFFF)) in E.
  rewrite !N.lxor_assoc, N.lxor_nilpotent, !N.lxor_0_r, !fold_left_app in E.
  set (c := fold_left crc_byte a 0xFFFFFFFF) in E.
  assert (Hc : c < 2 ^ 32) by (apply fold_lt; [exact Ha|reflexivity]).
  apply fold_inj in E; [|exact Hz|now apply fold_lt..]. rewrite !fold_word in E by assumption.
  pose proof (word_lt m Lm Hm). pose proof (word_lt m' Lm' Hm').
  assert (K : forall x, x < 2 ^ 32 -> crc_8 x < 2 ^ 32) by (intros x Hx; unfold crc_8; repeat apply crc_bit_lt; exact Hx).
  assert (forall x, x < 2 ^ 32 -> N.lxor c x < 2 ^ 32) by (intros x Hx; now apply lxor_lt).
  repeat (apply crc_8_inj in E; [|auto..]).
  apply word_inj; try assumption. apply (f_equal (N.lxor c)) in E. now rewrite <- !N.lxor_assoc, N.lxor_nilpotent, !N.lxor_0_l in E.
Qed.

(** Pages. *)
Lemma unbe_inj a b : length a = length b -> bytes_ok a -> bytes_ok b -> unbe a = unbe b -> a = b.
Proof.
  intros L Ha Hb E. rewrite <- (be_unbe a Ha), <- (be_unbe b Hb), L, E. reflexivity.
Qed.
Lemma from_storage_eq p : length p = PAGE_SIZE -> bytes_ok p ->
  from_storage p = if unbe (skipn 60 p) =? crc32_bytes (firstn 60 p) then Some (unbe (firstn 8 p), slice 8 52 p) else None.
Proof.
  intros L H. unfold from_storage, slot_crc. change (COUNTER_SIZE + SLOT_SIZE)%nat with 60%nat.
  replace (be 8 (unbe (firstn COUNTER_SIZE p)) ++ slice COUNTER_SIZE SLOT_SIZE p) with (firstn 60 p); [reflexivity|].
  assert (E8 : be 8 (unbe (firstn 8 p)) = firstn 8 p).
  { replace 8%nat with (length (firstn 8 p)) at 1 by (rewrite firstn_length, L; reflexivity).
    now apply be_unbe, bytes_ok_firstn. }
  change COUNTER_SIZE with 8%nat. rewrite E8. unfold slice. change SLOT_SIZE with 52%nat.
  change 60%nat with (8 + 52)%nat.
  rewrite <- (firstn_skipn 8 p) at 1. rewrite firstn_app, firstn_firstn, firstn_length, L.
  change (Nat.min (8 + 52) 8) with 8%nat. change (8 + 52 - Nat.min 8 PAGE_SIZE)%nat with 52%nat. reflexivity.
Qed.

Lemma skipn_skipn_add {A} (l : list A) : forall a b, skipn a (skipn b l) = skipn (b + a) l.
Proof.
  intros a b. revert l. induction b as [|b IH]; intros l; [reflexivity|]. destruct l; [now rewrite !skipn_nil|]. cbn [skipn Nat.add]. apply IH.
Qed.
Lemma split_at (l : bytes) i j : (i <= j)%nat -> l = firstn i l ++ firstn (j - i) (skipn i l) ++ skipn j l.
Proof.
  intros H. rewrite <- (firstn_skipn i l) at 1. f_equal. rewrite <- (firstn_skipn (j - i) (skipn i l)) at 1. f_equal.
  rewrite skipn_skipn_add. f_equal. lia.
Qed.

Lemma damage_detected p q i r : length p = PAGE_SIZE -> length q = PAGE_SIZE -> bytes_ok p -> bytes_ok q ->
  from_storage p = Some r -> (i <= 56)%nat \/ i = 60%nat ->
  firstn i q = firstn i p -> skipn (i + 4) q = skipn (i + 4) p -> q <> p -> from_storage q = None.
Proof.
  intros Lp Lq Hp Hq F Hi E1 E2 N. rewrite from_storage_eq in * by assumption.
  destruct (unbe (skipn 60 q) =? crc32_bytes (firstn 60 q)) eqn:Eq; [|reflexivity]. exfalso. apply N.
  destruct (unbe (skipn 60 p) =? crc32_bytes (firstn 60 p)) eqn:Ep; [|discriminate F].
  apply N.eqb_eq in Ep, Eq. unfold PAGE_SIZE in *. destruct Hi as [Hi| ->].
  - assert (S60 : skipn 60 q = skipn 60 p).
    { replace 60%nat with ((i + 4) + (56 - i))%nat by lia. rewrite <- (skipn_skipn_add q (56 - i) (i + 4)), <- (skipn_skipn_add p (56 - i) (i + 4)). now rewrite E2. }
    assert (Ec : crc32_bytes (firstn 60 q) = crc32_bytes (firstn 60 p)) by congruence.
    assert (Q : forall l : bytes, length l = 64%nat -> firstn 60 l = firstn i l ++ firstn 4 (skipn i l) ++ firstn (56 - i) (skipn (i + 4) l)).
    { intros l L. rewrite (split_at (firstn 60 l) i (i + 4)) by lia. rewrite firstn_firstn, !skipn_firstn_comm, firstn_firstn.
      replace (Nat.min i 60) with i by lia. replace (Nat.min (i + 4 - i) (60 - i)) with 4%nat by lia.
      replace (60 - (i + 4))%nat with (56 - i)%nat by lia. reflexivity. }
    assert (Lm : forall l : bytes, length l = 64%nat -> length (firstn 4 (skipn i l)) = 4%nat) by (intros l L; rewrite firstn_length, skipn_length; lia).
    assert (M : firstn 4 (skipn i q) = firstn 4 (skipn i p)).
    { rewrite (Q q Lq), (Q p Lp), E1, E2 in Ec. apply burst_detected in Ec; auto.
      - rewrite <- E1, <- E2, <- (Q q Lq). now apply bytes_ok_firstn.
      - now apply bytes_ok_firstn, bytes_ok_skipn. }
    rewrite (split_at q i (i + 4)), (split_at p i (i + 4)) by lia. replace (i + 4 - i)%nat with 4%nat by lia. congruence.
  - assert (E3 : skipn 60 q = skipn 60 p).
    { apply unbe_inj; [rewrite !skipn_length; lia|now apply bytes_ok_skipn..|]. congruence. }
    rewrite <- (firstn_skipn 60 q), <- (firstn_skipn 60 p). congruence.
Qed.

(** A page as written, and the same with one byte of the counter changed. *)
Lemma damage_case : exists p q r, length p = PAGE_SIZE /\ length q = PAGE_SIZE /\ bytes_ok p /\ bytes_ok q /\
  from_storage p = Some r /\ (3 <= 56)%nat /\ firstn 3 q = firstn 3 p /\ skipn (3 + 4) q = skipn (3 + 4) p /\ q <> p.
Proof.
  exists (slot_page 7 (repeat 9 52)), (firstn 4 (slot_page 7 (repeat 9 52)) ++ [1] ++ skipn 5 (slot_page 7 (repeat 9 52))), (7, repeat 9 52).
  assert (B : bytes_ok (slot_page 7 (repeat 9 52))).
  { unfold slot_page, as_storage. rewrite !bytes_ok_app. split; [apply be_ok|]. split; [|apply be_ok].
    apply Forall_forall. intros x Hx. apply repeat_spec in Hx as ->. reflexivity. }
  split; [vm_compute; reflexivity|]. split; [vm_compute; reflexivity|]. split; [exact B|]. split.
  { rewrite !bytes_ok_app. split; [now apply bytes_ok_firstn|]. split; [|now apply bytes_ok_skipn].
    constructor; [reflexivity|constructor]. }
  split; [vm_compute; reflexivity|]. split; [lia|]. split; [vm_compute; reflexivity|]. split; [vm_compute; reflexivity|].
  vm_compute. discriminate.
Qed.
