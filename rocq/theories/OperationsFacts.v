(** Lemmas about the operation parsers. *)
From Coq Require Import List NArith ZArith Lia Bool Arith.
From Coq Require Import ZifyBool ZifyNat ZifyN.
From Verif Require Import Base BaseFacts Codecs Operations OperationsSpec.
Import ListNotations.
Open Scope N_scope.

(** ** Single bytes *)
Lemma forall_byte (P : N -> bool) :
  forallb P (map N.of_nat (seq 0 256)) = true -> forall b, b < 256 -> P b = true.
Proof.
  intros H b Hb. rewrite forallb_forall in H. apply H.
  rewrite <- (N2Nat.id b). apply in_map, in_seq. lia.
Qed.

Lemma land_msb b : b < 256 -> (N.land b 0x80 =? 0) = (b <? 128).
Proof.
  intros H. apply eqb_prop. revert b H. apply forall_byte. now vm_compute.
Qed.
Lemma land_sign b : b < 256 -> negb (N.land b 0x40 =? 0) = N.testbit b 6.
Proof.
  intros H. apply eqb_prop. revert b H. apply forall_byte. now vm_compute.
Qed.
Lemma land_7F b : N.land b 0x7F = b mod 128.
Proof. change 0x7F with (N.ones 7). apply N.land_ones. Qed.
Lemma land_3F b : N.land b 0x3F = b mod 64.
Proof. change 0x3F with (N.ones 6). apply N.land_ones. Qed.

Lemma lor_shift a x s : a < 2 ^ s -> N.lor a (N.shiftl x s) = a + x * 2 ^ s.
Proof.
  intros H.
  assert (E : N.land a (N.shiftl x s) = 0).
  { apply N.bits_inj_0. intros n. rewrite N.land_spec.
    destruct (N.lt_ge_cases n s).
    - rewrite N.shiftl_spec_low by auto. apply andb_false_r.
    - replace (N.testbit a n) with false; auto. symmetry.
      destruct (N.eq_dec a 0) as [->|]; [apply N.bits_0|].
      apply N.bits_above_log2. apply N.log2_lt_pow2; [lia|].
      apply N.lt_le_trans with (2 ^ s); auto. apply N.pow_le_mono_r; lia. }
  rewrite <- N.lxor_lor by auto. rewrite <- N.add_nocarry_lxor by auto.
  now rewrite N.shiftl_mul_pow2.
Qed.

(** ** Integers *)
Lemma take_msb_spec init last rem :
  Forall (fun b => 128 <= b < 256) init -> last < 128 ->
  take_msb (init ++ last :: rem) = init.
Proof.
  induction 1; intros; cbn [app take_msb].
  - rewrite land_msb by lia. replace (last <? 128) with true by lia. reflexivity.
  - rewrite land_msb by lia. replace (x <? 128) with false by lia. now rewrite IHForall.
Qed.

Lemma take_msb_all l : Forall (fun b => 128 <= b < 256) l -> take_msb l = l.
Proof.
  induction 1; cbn [take_msb]; auto.
  rewrite land_msb by lia. replace (x <? 128) with false by lia. now rewrite IHForall.
Qed.

Lemma split_msb l : bytes_ok l ->
  Forall (fun b => 128 <= b < 256) l \/
  exists init last rem, l = init ++ last :: rem /\ Forall (fun b => 128 <= b < 256) init /\ last < 128.
Proof.
  induction 1.
  - left; constructor.
  - destruct (N.lt_ge_cases x 128).
    + right. exists [], x, l. repeat split; auto.
    + destruct IHForall as [|(i & la & r & -> & Hi & Hl)].
      * left. constructor; auto; lia.
      * right. exists (x :: i), la, r. repeat split; auto; constructor; auto; lia.
Qed.

Lemma z_complete_ok l : z_complete l -> bytes_ok l /\ l <> [].
Proof.
  intros (i & la & -> & Hi & Hl). split.
  - apply bytes_ok_app. split.
    + eapply Forall_impl; [|exact Hi]. cbv beta; lia.
    + constructor; [lia|constructor].
  - destruct i; discriminate.
Qed.

Lemma zarith_parse_complete (sgn : bool) l rem : z_complete l ->
  zarith_parse sgn (l ++ rem) =
  POk rem (mkZ l (if sgn then Some (negative l) else None)).
Proof.
  intros H. pose proof (z_complete_ok _ H) as [Hok Hne].
  destruct H as (i & la & -> & Hi & Hl).
  unfold zarith_parse. rewrite <- app_assoc. cbn [app].
  rewrite take_msb_spec by auto.
  change (i ++ la :: rem) with (i ++ [la] ++ rem). rewrite app_assoc.
  rewrite take_app by (rewrite len_app; reflexivity).
  cbn [pbind]. destruct sgn; auto. do 3 f_equal.
  destruct (i ++ [la]) as [|b t] eqn:E; [congruence|].
  cbn [nth negative]. inversion Hok; subst. now apply land_sign.
Qed.

Lemma zarith_parse_incomplete sgn l : Forall (fun b => 128 <= b < 256) l ->
  zarith_parse sgn l = PErr.
Proof.
  intros H. unfold zarith_parse. rewrite take_msb_all by auto.
  unfold take. replace (len l + 1 <=? len l) with false by lia. reflexivity.
Qed.

Lemma zarith_parse_inv (sgn : bool) l rem z : bytes_ok l -> zarith_parse sgn l = POk rem z ->
  exists b, l = b ++ rem /\ z_complete b /\ z = mkZ b (if sgn then Some (negative b) else None).
Proof.
  intros Hl H. destruct (split_msb l Hl) as [Ha|(i & la & r & -> & Hi & Hla)].
  - rewrite zarith_parse_incomplete in H by auto. discriminate.
  - assert (C : z_complete (i ++ [la])) by (exists i, la; auto).
    assert (E : i ++ la :: r = (i ++ [la]) ++ r) by now rewrite <- app_assoc.
    rewrite E, zarith_parse_complete in H by auto. rewrite E.
    injection H as <- <-. eauto.
Qed.

Lemma zarith_loop_groups bits signed first l shift out :
  first && signed = false -> out < 2 ^ shift ->
  zarith_loop bits signed first l shift out =
  if shift + 7 * len l <=? bits then Some (out + 2 ^ shift * groups_value l)
  else match l with [] => Some out | _ => None end.
Proof.
  intros Hf. revert shift out. induction l as [|b t IH]; intros shift out Ho.
  - cbn. destruct (shift + 0 <=? bits); f_equal; lia.
  - cbn [zarith_loop]. rewrite Hf. unfold len in *. cbn [length].
    rewrite Nat2N.inj_succ.
    destruct (N.ltb_spec bits (shift + 7)).
    + replace (shift + 7 * N.succ (N.of_nat (length t)) <=? bits) with false by lia. reflexivity.
    + rewrite land_7F.
      assert (Hb : b mod 128 < 128) by (apply N.mod_lt; lia).
      assert (P : 2 ^ (shift + 7) = 2 ^ shift * 128) by (rewrite N.pow_add_r; reflexivity).
      assert (Q : 2 ^ (shift + 7) <= 2 ^ bits) by (apply N.pow_le_mono_r; lia).
      rewrite N.mod_small by (rewrite N.shiftl_mul_pow2; nia).
      rewrite lor_shift by auto.
      rewrite IH by nia.
      destruct t as [|c t'].
      * cbn. replace (shift + 7 + 0 <=? bits) with true by lia.
        replace (shift + 7 <=? bits) with true by lia. f_equal. nia.
      * replace (shift + 7 + 7 * N.of_nat (length (c :: t')) <=? bits)
          with (shift + 7 * N.succ (N.of_nat (length (c :: t'))) <=? bits) by lia.
        destruct (shift + 7 * N.succ (N.of_nat (length (c :: t'))) <=? bits); auto.
        f_equal. cbn [groups_value]. rewrite P. nia.
Qed.

(** The exact behaviour of [read_as] on any complete encoding. *)
Lemma zarith_read_spec bits (sgn : bool) (l : bytes) : l <> [] ->
  zarith_read_as bits (mkZ l (if sgn then Some (negative l) else None)) =
  if payload_bits sgn l <=? bits
  then Some (if sgn then negative l else false, magnitude sgn l) else None.
Proof.
  intros Hne. unfold zarith_read_as. cbn [z_neg z_bytes].
  destruct l as [|b t]; [congruence|].
  destruct sgn; cbn [payload_bits magnitude].
  - cbn [zarith_loop andb]. unfold len. cbn [length]. rewrite Nat2N.inj_succ.
    destruct (N.ltb_spec bits (0 + 6)).
    + replace (7 * N.succ (N.of_nat (length t)) - 1 <=? bits) with false by lia. reflexivity.
    + rewrite land_3F.
      assert (Hb : b mod 64 < 64) by (apply N.mod_lt; lia).
      assert (Q : 2 ^ 6 <= 2 ^ bits) by (apply N.pow_le_mono_r; lia).
      change (2 ^ 6) with 64 in Q.
      rewrite N.shiftl_0_r. rewrite N.mod_small by lia.
      rewrite N.lor_0_l.
      rewrite zarith_loop_groups by (auto; change (2 ^ (0 + 6)) with 64; lia).
      unfold len. replace (0 + 6 + 7 * N.of_nat (length t) <=? bits)
        with (7 * N.succ (N.of_nat (length t)) - 1 <=? bits) by lia.
      destruct (7 * N.succ (N.of_nat (length t)) - 1 <=? bits) eqn:E; auto.
      destruct t; [cbn in E; lia|]. reflexivity.
  - rewrite zarith_loop_groups by (auto; cbn; lia).
    rewrite N.sub_0_r, !N.add_0_l.
    destruct (7 * len (b :: t) <=? bits); auto.
    do 2 f_equal. change (2 ^ 0) with 1. lia.
Qed.

Lemma groups_value_lt l : groups_value l < 2 ^ (7 * len l).
Proof.
  induction l; cbn [groups_value].
  - cbn; lia.
  - unfold len in *. cbn [length]. rewrite Nat2N.inj_succ.
    replace (7 * N.succ (N.of_nat (length l))) with (7 * N.of_nat (length l) + 7) by lia.
    rewrite N.pow_add_r. change (2 ^ 7) with 128. nia.
Qed.

Lemma magnitude_lt sgn l : magnitude sgn l < 2 ^ payload_bits sgn l.
Proof.
  destruct l as [|b t]; [destruct sgn; cbn; lia|].
  destruct sgn; cbn [magnitude payload_bits].
  - pose proof (groups_value_lt t). unfold len in *. cbn [length]. rewrite Nat2N.inj_succ.
    replace (7 * N.succ (N.of_nat (length t)) - 1) with (7 * N.of_nat (length t) + 6) by lia.
    rewrite N.pow_add_r. change (2 ^ 6) with 64. nia.
  - rewrite N.sub_0_r. apply groups_value_lt.
Qed.

(** *** Minimal encodings *)
Lemma enc_groups_complete f n : n < 2 ^ N.of_nat f -> z_complete (enc_groups (S f) n).
Proof.
  revert n; induction f; intros n Hn.
  - cbn in Hn. cbn. replace (n <? 128) with true by lia.
    exists [], n. repeat split; auto; lia.
  - change (enc_groups (S (S f)) n)
      with (if n <? 128 then [n] else (128 + n mod 128) :: enc_groups (S f) (n / 128)).
    destruct (N.ltb_spec n 128).
    + exists [], n. repeat split; auto.
    + assert (n / 128 < 2 ^ N.of_nat f).
      { rewrite Nat2N.inj_succ, N.pow_succ_r' in Hn. nia. }
      destruct (IHf _ H0) as (i & la & E & Hi & Hl).
      exists ((128 + n mod 128) :: i), la. rewrite E. repeat split; auto.
      constructor; auto. lia.
Qed.

Lemma enc_groups_value f n : n < 2 ^ N.of_nat f -> groups_value (enc_groups (S f) n) = n.
Proof.
  revert n; induction f; intros n Hn.
  - cbn in Hn. cbn. replace (n <? 128) with true by lia. cbn [groups_value]. lia.
  - change (enc_groups (S (S f)) n)
      with (if n <? 128 then [n] else (128 + n mod 128) :: enc_groups (S f) (n / 128)).
    destruct (N.ltb_spec n 128).
    + cbn [groups_value]. lia.
    + assert (n / 128 < 2 ^ N.of_nat f).
      { rewrite Nat2N.inj_succ, N.pow_succ_r' in Hn. nia. }
      cbn [groups_value]. rewrite IHf by auto. lia.
Qed.

Lemma size_bound n : n < 2 ^ N.of_nat (N.size_nat n).
Proof.
  destruct n as [|p]; [cbn; lia|].
  replace (N.of_nat (N.size_nat (N.pos p))) with (N.size (N.pos p)).
  - apply N.size_gt.
  - cbn [N.size N.size_nat]. induction p; cbn; auto.
    + rewrite <- !positive_nat_N in *. lia.
    + rewrite <- !positive_nat_N in *. lia.
Qed.

Lemma enc_nat_complete n : z_complete (enc_nat n).
Proof. apply enc_groups_complete, size_bound. Qed.
Lemma enc_nat_value n : groups_value (enc_nat n) = n.
Proof. apply enc_groups_value, size_bound. Qed.

Lemma enc_groups_len f n k : n < 2 ^ N.of_nat f -> n < 2 ^ (7 * N.of_nat k) -> k <> O ->
  (length (enc_groups (S f) n) <= k)%nat.
Proof.
  revert n k; induction f; intros n k Hn Hk Hk0.
  - cbn in Hn. cbn. replace (n <? 128) with true by lia. cbn; lia.
  - change (enc_groups (S (S f)) n)
      with (if n <? 128 then [n] else (128 + n mod 128) :: enc_groups (S f) (n / 128)).
    destruct (N.ltb_spec n 128); [cbn; lia|].
    cbn [length]. destruct k as [|[|k]]; [lia| |].
    + cbn in Hk. lia.
    + apply le_n_S, IHf; try lia.
      * rewrite Nat2N.inj_succ, N.pow_succ_r' in Hn. nia.
      * replace (7 * N.of_nat (S (S k))) with (7 * N.of_nat (S k) + 7) in Hk by lia.
        rewrite N.pow_add_r in Hk. change (2 ^ 7) with 128 in Hk. nia.
Qed.

Lemma enc_nat_len_le n k : n < 2 ^ (7 * N.of_nat k) -> k <> O -> (length (enc_nat n) <= k)%nat.
Proof. intros. apply enc_groups_len; auto using size_bound. Qed.

(** A minimal encoding is read back exactly when the value is below the number
    of whole 7-bit groups of the container. *)
Lemma enc_nat_read bits n : 7 <= bits ->
  zarith_read_as bits (z_of n) = if n <? 2 ^ (7 * (bits / 7)) then Some (false, n) else None.
Proof.
  intros Hb. unfold z_of.
  pose proof (zarith_read_spec bits false (enc_nat n)) as R. cbn match in R.
  rewrite R by (apply z_complete_ok, enc_nat_complete).
  cbn [magnitude]. rewrite enc_nat_value.
  replace (payload_bits false (enc_nat n)) with (7 * len (enc_nat n))
    by (unfold payload_bits; destruct (enc_nat n) eqn:E; cbn; lia).
  destruct (N.ltb_spec n (2 ^ (7 * (bits / 7)))).
  - assert (L : (length (enc_nat n) <= N.to_nat (bits / 7))%nat).
    { apply enc_nat_len_le; [|lia]. rewrite N2Nat.id. auto. }
    unfold len. replace (7 * N.of_nat (length (enc_nat n)) <=? bits) with true by lia. reflexivity.
  - destruct (N.leb_spec (7 * len (enc_nat n)) bits); auto. exfalso.
    pose proof (groups_value_lt (enc_nat n)). rewrite enc_nat_value in H1.
    assert (2 ^ (7 * len (enc_nat n)) <= 2 ^ (7 * (bits / 7)))
      by (apply N.pow_le_mono_r; lia). lia.
Qed.

Lemma enc_int_complete z : z_complete (enc_int z).
Proof.
  unfold enc_int. destruct (N.ltb_spec (Z.abs_N z) 64).
  - eexists [], _. repeat split; auto. destruct (z <? 0)%Z; lia.
  - destruct (enc_nat_complete (Z.abs_N z / 64)) as (i & la & -> & Hi & Hl).
    eexists (_ :: i), la. repeat split; auto. constructor; auto.
    destruct (z <? 0)%Z; lia.
Qed.

Lemma testbit6 b : N.testbit b 6 = ((b / 64) mod 2 =? 1).
Proof.
  rewrite N.testbit_eqb. reflexivity.
Qed.

Lemma enc_int_value z :
  magnitude true (enc_int z) = Z.abs_N z /\ negative (enc_int z) = (z <? 0)%Z.
Proof.
  unfold enc_int. destruct (N.ltb_spec (Z.abs_N z) 64).
  - cbn [magnitude negative groups_value]. rewrite testbit6.
    destruct (z <? 0)%Z eqn:E; split; lia.
  - cbn [magnitude negative]. rewrite enc_nat_value, testbit6.
    destruct (z <? 0)%Z eqn:E; split; lia.
Qed.

(** ** Pieces of operations *)
Lemma le_u8_cons b l : le_u8 (b :: l) = POk l b.
Proof. unfold le_u8, be_uint. change (b :: l) with ([b] ++ l). rewrite take_app by reflexivity. reflexivity. Qed.

Lemma be_u32_app n rest : n < 2 ^ 32 -> be_u32 (be 4 n ++ rest) = POk rest n.
Proof. intros. apply (be_uint_app 4). auto. Qed.
Lemma be_u16_app n rest : n < 2 ^ 16 -> be_u16 (be 2 n ++ rest) = POk rest n.
Proof. intros. apply (be_uint_app 2). auto. Qed.
Lemma be_u64_app n rest : n < 2 ^ 64 -> be_u64 (be 8 n ++ rest) = POk rest n.
Proof. intros. apply (be_uint_app 8). auto. Qed.

Lemma take_exact n (a b : bytes) : length a = N.to_nat n -> take n (a ++ b) = POk b a.
Proof. intros. apply take_app. unfold len. lia. Qed.

Lemma dyn_parse_enc l rest : size_ok l -> dyn_parse (enc_dyn l ++ rest) = POk rest l.
Proof.
  intros. unfold dyn_parse, enc_dyn. rewrite <- app_assoc, be_u32_app by auto.
  cbn [pbind]. now apply take_app.
Qed.

Lemma be_i32_enc z rest : i32_ok z -> be_i32 (enc_i32 z ++ rest) = POk rest z.
Proof.
  intros H. unfold be_i32, enc_i32. rewrite be_u32_app.
  - cbn [pbind]. f_equal. unfold to_i32. unfold i32_ok in H.
    destruct (Z.ltb_spec z 0).
    + assert (E : (z mod 2 ^ 32 = z + 2 ^ 32)%Z).
      { symmetry. apply Z.mod_unique_pos with (q := (-1)%Z); lia. }
      rewrite E. destruct (N.ltb_spec (Z.to_N (z + 2 ^ 32)) (2 ^ 31)); lia.
    + rewrite Z.mod_small by lia. destruct (N.ltb_spec (Z.to_N z) (2 ^ 31)); lia.
  - pose proof (Z.mod_pos_bound z (2 ^ 32)). lia.
Qed.

Lemma i32_length z : length (enc_i32 z) = 4%nat.
Proof. apply be_length. Qed.

Lemma zarith_parse_enc n rest : zarith_parse false (enc_nat n ++ rest) = POk rest (z_of n).
Proof. apply (zarith_parse_complete false). apply enc_nat_complete. Qed.

Lemma pkh_parse_enc p rest : pkh_ok p -> pkh_parse (enc_pkh p ++ rest) = POk rest (pkh_of p).
Proof.
  intros H. unfold pkh_parse, enc_pkh. cbn [app]. rewrite le_u8_cons. cbn [pbind].
  rewrite take_exact by exact H. cbn [pbind]. destruct p as [[] h]; reflexivity.
Qed.

Lemma boolean_255 rest : boolean (255 :: rest) = POk rest true.
Proof. unfold boolean. now rewrite le_u8_cons. Qed.
Lemma boolean_0 rest : boolean (0 :: rest) = POk rest false.
Proof. unfold boolean. now rewrite le_u8_cons. Qed.
Lemma boolean_enc b rest : boolean (enc_bool b ++ rest) = POk rest b.
Proof. destruct b; [apply boolean_255 | apply boolean_0]. Qed.

Lemma opt_parse_enc {A B} (p : bytes -> presult B) (f : A -> bytes) (g : A -> B) (P : A -> Prop) o rest :
  (forall a rest, P a -> p (f a ++ rest) = POk rest (g a)) -> opt_ok P o ->
  (let* (rem, b) := boolean (enc_opt f o ++ rest) in cond b p rem) = POk rest (option_map g o).
Proof.
  intros Hp Ho. destruct o; cbn [enc_opt app].
  - rewrite boolean_255. cbn [pbind cond]. rewrite Hp by exact Ho. reflexivity.
  - rewrite boolean_0. reflexivity.
Qed.

(** The same, in the shape in which the parsers use it. *)
Lemma opt_parse_k {A B C} (p : bytes -> presult B) (f : A -> bytes) (g : A -> B) (P : A -> Prop) o rest
    (k : bytes -> option B -> presult C) :
  (forall a rest, P a -> p (f a ++ rest) = POk rest (g a)) -> opt_ok P o ->
  (let* (rem, b) := boolean (enc_opt f o ++ rest) in let* (rem, x) := cond b p rem in k rem x)
  = k rest (option_map g o).
Proof.
  intros Hp Ho. pose proof (opt_parse_enc p f g P o rest Hp Ho) as H.
  destruct (boolean (enc_opt f o ++ rest)); cbn [pbind] in *; try discriminate.
  now rewrite H.
Qed.

Lemma manager_parse_enc m rest : pkh_ok (tm_source m) ->
  manager_parse (enc_manager m ++ rest) = POk rest (manager_of m).
Proof.
  intros H. unfold manager_parse, enc_manager. rewrite <- !app_assoc.
  rewrite pkh_parse_enc by auto. cbn [pbind].
  rewrite zarith_parse_enc. cbn [pbind]. rewrite zarith_parse_enc. cbn [pbind].
  rewrite zarith_parse_enc. cbn [pbind]. rewrite zarith_parse_enc. reflexivity.
Qed.

Lemma contract_parse_enc c rest : contract_ok c ->
  contract_parse (enc_contract c ++ rest) = POk rest (contract_of c).
Proof.
  intros H. unfold contract_parse. destruct c; cbn [enc_contract app].
  - rewrite le_u8_cons. cbn [pbind]. change (0 =? 0) with true. cbv iota.
    rewrite pkh_parse_enc by auto. reflexivity.
  - rewrite le_u8_cons. cbn [pbind]. change (1 =? 0) with false. change (1 =? 1) with true.
    cbv iota. rewrite <- app_assoc. rewrite take_exact by exact H. cbn [pbind].
    now rewrite take_exact by reflexivity.
Qed.

Lemma params_parse_enc p rest : params_ok p -> params_parse (enc_params p ++ rest) = POk rest p.
Proof.
  intros [H1 H2]. destruct p as [e m]. cbn [fst snd] in *.
  unfold params_parse, enc_params. cbn [fst snd]. rewrite <- app_assoc.
  assert (E : forall r, entrypoint_parse (enc_entrypoint e ++ r) = POk r e).
  { intros r. unfold entrypoint_parse. destruct e; cbn [enc_entrypoint app]; rewrite le_u8_cons; try reflexivity.
    cbn [pbind]. change (255 =? 0) with false. change (255 =? 1) with false.
    change (255 =? 2) with false. change (255 =? 3) with false. change (255 =? 4) with false.
    change (255 =? 255) with true. cbv iota. rewrite le_u8_cons. cbn [pbind].
    now rewrite take_app by reflexivity. }
  rewrite E. cbn [pbind]. now rewrite dyn_parse_enc.
Qed.

Lemma inlined_parse_enc e rest : inlined_ok e ->
  inlined_parse (enc_inlined e ++ rest) = POk rest (ti_branch e, ti_level e, ti_sig e).
Proof.
  intros (Hb & Hl & Hs). unfold inlined_parse, enc_inlined, enc_dyn.
  assert (L : len (ti_branch e ++ [0] ++ enc_i32 (ti_level e) ++ ti_sig e) = 37 + len (ti_sig e)).
  { unfold len. rewrite !app_length, i32_length, Hb. cbn [length]. lia. }
  rewrite <- !app_assoc. rewrite be_u32_app by lia. cbn [pbind].
  rewrite take_exact by exact Hb. cbn [pbind app]. rewrite le_u8_cons. cbn [pbind].
  change (0 =? 0) with true. cbv iota. rewrite be_i32_enc by auto. cbn [pbind]. cbv zeta.
  assert (U : len (enc_i32 (ti_level e) ++ ti_sig e ++ rest) - len (ti_sig e ++ rest) = 4).
  { unfold len. rewrite !app_length, i32_length. lia. }
  rewrite U. cbn [app] in L. rewrite L.
  replace (37 + len (ti_sig e) <? 33) with false by lia.
  replace (37 + len (ti_sig e) - 33 <? 4) with false by lia.
  rewrite take_app by lia. reflexivity.
Qed.

Lemma chunks32_concat hs : Forall (fun h => length h = 32%nat) hs ->
  chunks32 (length hs) (concat hs) = hs.
Proof.
  induction 1; cbn [length concat chunks32]; auto.
  rewrite firstn_app_exact, skipn_app_exact by auto. now rewrite IHForall.
Qed.

Lemma concat32_length hs : Forall (fun h : bytes => length h = 32%nat) hs ->
  length (concat hs) = (32 * length hs)%nat.
Proof. induction 1; cbn [length concat]; rewrite ?app_length; lia. Qed.

Lemma fitnesses_count_enc fs fuel : Forall size_ok fs ->
  (length (flat_map enc_dyn fs) < fuel)%nat ->
  fitnesses_count fuel (flat_map enc_dyn fs) = POk [] (len fs).
Proof.
  intros H. revert fuel. induction H; intros fuel Hf.
  - destruct fuel; [cbn in Hf; lia|]. reflexivity.
  - destruct fuel; [lia|]. cbn [flat_map] in *.
    assert (Lx : length (enc_dyn x) = (4 + length x)%nat)
      by (unfold enc_dyn; rewrite app_length, be_length; auto).
    cbn [fitnesses_count].
    destruct (enc_dyn x ++ flat_map enc_dyn l) eqn:E.
    { apply (f_equal (@length N)) in E. rewrite app_length in E. cbn in E. lia. }
    rewrite <- E. rewrite dyn_parse_enc by auto. cbn [pbind].
    rewrite IHForall.
    + cbn [pbind]. f_equal. unfold len. cbn [length]. lia.
    + rewrite <- E in Hf. rewrite app_length in Hf. lia.
Qed.

Lemma full_header_parse_enc h rest : tz_header_ok h ->
  full_header_parse (enc_tz_header h ++ rest) = POk rest tt.
Proof.
  intros (H1 & H2 & H3 & H4 & H5 & H6 & H7 & H8 & H9 & H10 & H11 & H12 & H13).
  unfold full_header_parse, enc_tz_header. rewrite <- !app_assoc.
  rewrite be_i32_enc by auto. cbn [pbind app]. rewrite le_u8_cons. cbn [pbind].
  rewrite take_exact by exact H3. cbn [pbind].
  rewrite be_u64_app by auto. cbn [pbind]. rewrite le_u8_cons. cbn [pbind].
  rewrite take_exact by exact H6. cbn [pbind].
  rewrite dyn_parse_enc by auto. cbn [pbind].
  rewrite fitnesses_count_enc by (auto; lia). cbn [pbind].
  rewrite take_exact by exact H9. cbn [pbind].
  rewrite be_u16_app by auto. cbn [pbind].
  rewrite take_exact by exact H11. cbn [pbind].
  rewrite (opt_parse_k (take 32) (fun s => s) (fun s => s) (fun s => length s = 32%nat)); auto.
  - rewrite boolean_enc. cbn [pbind]. now rewrite take_exact by exact H13.
  - intros. now apply take_exact.
Qed.

(** ** Whole operations *)
Lemma op_parse_enc o rest : op_ok o -> op_parse (enc_op o ++ rest) = POk rest (op_of o).
Proof.
  intros H. unfold op_parse.
  destruct o; cbn [enc_op app op_ok op_of] in *; rewrite le_u8_cons; cbn [pbind];
    repeat match goal with
           | |- context [?a =? ?b] =>
             let v := eval vm_compute in (a =? b) in change (a =? b) with v
           end; cbv iota; cbn [orb].
  - destruct H as (Hm & Hd & Hp). unfold transfer_parse. rewrite <- !app_assoc.
    rewrite manager_parse_enc by auto. cbn [pbind]. rewrite zarith_parse_enc. cbn [pbind].
    rewrite contract_parse_enc by auto. cbn [pbind].
    rewrite (opt_parse_k params_parse enc_params (fun x => x) params_ok); auto using params_parse_enc.
    destruct params; reflexivity.
  - destruct H as (Hm & Hd). unfold delegation_parse. rewrite <- !app_assoc.
    rewrite manager_parse_enc by auto. cbn [pbind].
    rewrite (opt_parse_k pkh_parse enc_pkh pkh_of pkh_ok); auto using pkh_parse_enc.
  - unfold endorsement_parse. now rewrite be_i32_enc.
  - destruct H as (He & Hs). unfold endorsement_slot_parse. rewrite <- !app_assoc.
    rewrite inlined_parse_enc by auto. cbn [pbind]. now rewrite be_u16_app.
  - destruct H as (Hs & Hp & Hh). unfold ballot_parse. rewrite <- !app_assoc.
    rewrite pkh_parse_enc by auto. cbn [pbind]. rewrite be_i32_enc by auto. cbn [pbind].
    rewrite take_exact by exact Hh. cbn [pbind app]. rewrite le_u8_cons. cbn [pbind].
    destruct v; reflexivity.
  - destruct H as (Hm & Hk). unfold reveal_parse. rewrite <- !app_assoc.
    rewrite manager_parse_enc by auto. cbn [pbind]. unfold pk_parse. cbn [app].
    rewrite le_u8_cons. cbn [pbind]. destruct kind; cbn [kind_tag pk_size] in *.
    + change (curve_of_tag 0) with (Some Bip32Ed25519). cbv iota. now rewrite take_exact by exact Hk.
    + change (curve_of_tag 1) with (Some Secp256K1). cbv iota. now rewrite take_exact by exact Hk.
    + change (curve_of_tag 2) with (Some Secp256R1). cbv iota. now rewrite take_exact by exact Hk.
  - destruct H as (Hs & Hp & Hh & Hz). unfold proposals_parse. rewrite <- !app_assoc.
    rewrite pkh_parse_enc by auto. cbn [pbind]. rewrite be_i32_enc by auto. cbn [pbind].
    rewrite dyn_parse_enc by auto. cbn [pbind]. unfold len. rewrite concat32_length by auto.
    replace (N.of_nat (32 * length proposals) mod 32 =? 0) with true by lia.
    replace (32 * length proposals / 32)%nat with (length proposals)
      by (rewrite Nat.mul_comm, Nat.div_mul; lia).
    now rewrite chunks32_concat.
  - destruct H as (Hm & Hd & Hc & Hs). unfold origination_parse. rewrite <- !app_assoc.
    rewrite manager_parse_enc by auto. cbn [pbind]. rewrite zarith_parse_enc. cbn [pbind].
    rewrite (opt_parse_k pkh_parse enc_pkh pkh_of pkh_ok); auto using pkh_parse_enc.
    rewrite dyn_parse_enc by auto. cbn [pbind]. now rewrite dyn_parse_enc.
  - destruct H as (Hh & Hs). unfold activate_parse. rewrite <- !app_assoc.
    rewrite take_exact by exact Hh. cbn [pbind]. now rewrite take_exact by exact Hs.
  - unfold noop_parse. now rewrite dyn_parse_enc.
  - destruct H as (Hl & Hn). unfold anonymous_parse. change (1 =? 1) with true. cbv iota.
    unfold seed_nonce_parse. rewrite <- !app_assoc. rewrite be_i32_enc by auto. cbn [pbind].
    now rewrite take_exact by exact Hn.
  - destruct H as (Ha & Hb & Hs). unfold anonymous_parse.
    change (2 =? 1) with false. change (2 =? 2) with true. cbv iota.
    unfold double_endorsement_parse. rewrite <- !app_assoc.
    rewrite inlined_parse_enc by auto. cbn [pbind]. rewrite inlined_parse_enc by auto. cbn [pbind].
    now rewrite be_u16_app.
  - destruct H as (Ha & Hb). unfold anonymous_parse.
    change (3 =? 1) with false. change (3 =? 2) with false. change (3 =? 3) with true. cbv iota.
    unfold double_baking_parse. rewrite <- !app_assoc.
    rewrite full_header_parse_enc by auto. cbn [pbind]. now rewrite full_header_parse_enc.
Qed.

(** ** Locality: a parser that never panics, returns a suffix of its input and
    whose result depends only on the bytes it consumed. *)
Definition good {A} (p : bytes -> presult A) : Prop :=
  forall l, p l <> PPanic /\
    forall rem a, p l = POk rem a ->
    exists pre, l = pre ++ rem /\ forall r, p (pre ++ r) = POk r a.

Lemma good_ext {A} (p q : bytes -> presult A) : (forall l, p l = q l) -> good p -> good q.
Proof.
  intros E G l. destruct (G l) as [G1 G2]. rewrite <- E. split; auto.
  intros. destruct (G2 _ _ H) as (pre & -> & Hp). exists pre. split; auto.
  intros. now rewrite <- E.
Qed.

Lemma good_ret {A} (a : A) : good (fun l => POk l a).
Proof.
  intros l; split; [discriminate|]. intros rem a' H; inversion H; subst.
  exists []. split; auto.
Qed.

Lemma good_err {A} : good (fun _ => @PErr A).
Proof. intros l; split; discriminate. Qed.

Lemma good_take n : good (take n).
Proof.
  intros l; split; [apply take_not_panic|]. intros rem a H.
  apply take_inv in H as [-> Hl]. exists a. split; auto. intros. now apply take_app.
Qed.

Lemma good_bind {A B} (p : bytes -> presult A) (k : A -> bytes -> presult B) :
  good p -> (forall a, good (k a)) -> good (fun l => pbind (p l) (fun rem a => k a rem)).
Proof.
  intros Gp Gk l. destruct (Gp l) as [Hp1 Hp2].
  destruct (p l) as [rem a| |] eqn:E; cbn [pbind].
  - destruct (Gk a rem) as [Hk1 Hk2]. split; auto.
    intros rem' b Hb. destruct (Hk2 _ _ Hb) as (pre2 & -> & Hr2).
    destruct (Hp2 _ _ eq_refl) as (pre1 & -> & Hr1).
    exists (pre1 ++ pre2). split; [now rewrite app_assoc|].
    intros r. rewrite <- app_assoc, Hr1. cbn [pbind]. apply Hr2.
  - split; discriminate.
  - congruence.
Qed.

Lemma good_side {A B} (r : presult A) (k : A -> bytes -> presult B) :
  r <> PPanic -> (forall a, good (k a)) -> good (fun l => pbind r (fun _ a => k a l)).
Proof.
  intros Hr Gk. destruct r; cbn [pbind]; auto using good_err. congruence.
Qed.

Lemma good_cond {A} b (p : bytes -> presult A) : good p -> good (cond b p).
Proof.
  intros G. unfold cond. destruct b; [|apply good_ret].
  apply (good_bind p (fun x l => POk l (Some x))); auto using good_ret.
Qed.

Ltac good_step :=
  match goal with
  | |- good (fun l => pbind (?p l) (fun rem x => @?k rem x)) =>
    apply (good_bind p (fun a rem => k rem a)); [|let a := fresh "a" in intro a]
  | |- good (fun l => pbind (?p ?c l) (fun rem x => @?k rem x)) =>
    apply (good_bind (p c) (fun a rem => k rem a)); [|let a := fresh "a" in intro a]
  | |- good (fun l => POk l ?a) => apply good_ret
  | |- good (fun l => PErr) => apply good_err
  | |- good (fun l => if ?b then _ else _) => destruct b
  | |- good (fun l => match ?b with _ => _ end) => destruct b
  | |- good (take _) => apply good_take
  | |- good (fun l => take _ l) => apply good_take
  end.

Lemma good_be_uint n : good (be_uint n).
Proof. unfold be_uint. repeat good_step. Qed.
Lemma good_le_u8 : good le_u8. Proof. apply good_be_uint. Qed.
Lemma good_be_u16 : good be_u16. Proof. apply good_be_uint. Qed.
Lemma good_be_u32 : good be_u32. Proof. apply good_be_uint. Qed.
Lemma good_be_u64 : good be_u64. Proof. apply good_be_uint. Qed.
Local Hint Resolve good_ret good_err good_take good_le_u8 good_be_u16 good_be_u32 good_be_u64 : good.

Ltac goods := repeat (cbv beta; first [good_step | apply good_cond | solve [auto with good]]).

Lemma good_boolean : good boolean. Proof. unfold boolean. goods. Qed.
Lemma good_be_i32 : good be_i32. Proof. unfold be_i32. goods. Qed.
Lemma good_dyn : good dyn_parse.
Proof.
  unfold dyn_parse. apply (good_bind be_u32 (fun n rem => take n rem)); auto with good.
Qed.
Local Hint Resolve good_boolean good_be_i32 good_dyn : good.
Lemma good_pkh : good pkh_parse. Proof. unfold pkh_parse. goods. Qed.
Local Hint Resolve good_pkh : good.
Lemma good_pk : good pk_parse. Proof. unfold pk_parse. goods. Qed.
Lemma good_contract : good contract_parse. Proof. unfold contract_parse. goods. Qed.
Lemma good_entrypoint : good entrypoint_parse. Proof. unfold entrypoint_parse. goods. Qed.
Local Hint Resolve good_pk good_contract good_entrypoint : good.
Lemma good_params : good params_parse. Proof. unfold params_parse. goods. Qed.
Local Hint Resolve good_params : good.

Lemma take_msb_app init last rest :
  Forall (fun b => (N.land b 0x80 =? 0) = false) init -> (N.land last 0x80 =? 0) = true ->
  take_msb (init ++ last :: rest) = init.
Proof.
  induction 1; intros; cbn [app take_msb].
  - now rewrite H.
  - now rewrite H, IHForall.
Qed.

Lemma take_msb_split l :
  Forall (fun b => (N.land b 0x80 =? 0) = false) (take_msb l) /\
  (take_msb l = l \/ exists last rest, l = take_msb l ++ last :: rest /\ (N.land last 0x80 =? 0) = true).
Proof.
  induction l; cbn [take_msb].
  - split; auto.
  - destruct (N.land a 0x80 =? 0) eqn:E.
    + split; auto. right. exists a, l. auto.
    + destruct IHl as [F [I|(la & r & I & J)]]; (split; [constructor; auto|]).
      * left. now rewrite I.
      * right. exists la, r. split; auto. cbn [app]. now rewrite <- I.
Qed.

Lemma good_zarith s : good (zarith_parse s).
Proof.
  intros l. split.
  - unfold zarith_parse. pose proof (take_not_panic (len (take_msb l) + 1) l).
    destruct (take (len (take_msb l) + 1) l); cbn; congruence.
  - intros rem a H. unfold zarith_parse in H.
    destruct (take_msb_split l) as [F [I|(la & r & I & J)]].
    + rewrite I in H. unfold take in H. replace (len l + 1 <=? len l) with false in H by lia.
      discriminate.
    + assert (G : forall r', zarith_parse s (take_msb l ++ la :: r') =
        POk r' (mkZ (take_msb l ++ [la])
          (if s then Some (negb (N.land (nth 0 (take_msb l ++ [la]) 0) 0x40 =? 0)) else None))).
      { intros r'. unfold zarith_parse. rewrite take_msb_app by auto.
        change (take_msb l ++ la :: r') with (take_msb l ++ [la] ++ r'). rewrite app_assoc.
        rewrite take_app by (rewrite len_app; reflexivity). reflexivity. }
      pose proof (G r) as E. rewrite <- I in E. unfold zarith_parse in E at 1. rewrite E in H.
      injection H as <- <-. exists (take_msb l ++ [la]). split.
      * rewrite <- app_assoc. exact I.
      * intros r'. rewrite <- app_assoc. apply G.
Qed.
Local Hint Resolve good_zarith : good.

Lemma good_manager : good manager_parse. Proof. unfold manager_parse. goods. Qed.
Local Hint Resolve good_manager : good.

Lemma be_i32_used rem rem2 l : be_i32 rem = POk rem2 l -> len rem - len rem2 = 4.
Proof.
  unfold be_i32. destruct (be_u32 rem) eqn:E; cbn; try discriminate.
  intros H; inversion H; subst. apply be_uint_inv in E as (a' & -> & L & _).
  rewrite len_app. lia.
Qed.

Lemma good_inlined : good inlined_parse.
Proof.
  apply (good_ext (fun input =>
    let* (rem, n) := be_u32 input in
    let* (rem, branch) := take 32 rem in
    let* (rem, t) := le_u8 rem in
    if t =? 0 then
      let* (rem2, l) := be_i32 rem in
      if n <? 33 then PErr
      else if n - 33 <? 4 then PErr
      else
        let* (rem, s) := take (n - 33 - 4) rem2 in
        POk rem (branch, l, s)
    else PErr)).
  - intros l. unfold inlined_parse.
    destruct (be_u32 l) as [rem n| |]; auto; cbn [pbind].
    destruct (take 32 rem) as [rem1 br| |]; auto; cbn [pbind].
    destruct (le_u8 rem1) as [rem2 t| |]; auto; cbn [pbind].
    destruct (t =? 0); auto.
    destruct (be_i32 rem2) as [rem3 lv| |] eqn:E; auto; cbn [pbind].
    rewrite (be_i32_used _ _ _ E). reflexivity.
  - goods.
Qed.
Local Hint Resolve good_inlined : good.

Lemma fitnesses_count_not_panic f l : fitnesses_count f l <> PPanic.
Proof.
  revert l; induction f; intros l; cbn; [discriminate|].
  destruct l as [|b l]; [discriminate|].
  destruct (good_dyn (b :: l)) as [H _].
  destruct (dyn_parse (b :: l)); cbn; try congruence.
  specialize (IHf rem). destruct (fitnesses_count f rem); cbn; congruence.
Qed.

Lemma good_full_header : good full_header_parse.
Proof.
  unfold full_header_parse. do 7 (good_step; [auto with good|]).
  cbv beta. match goal with |- good (fun l => pbind ?r (fun _ _ => @?k l)) =>
    apply (good_side r (fun _ => k)) end.
  - apply fitnesses_count_not_panic.
  - intros _. goods.
Qed.
Local Hint Resolve good_full_header : good.

Lemma good_transfer : good transfer_parse. Proof. unfold transfer_parse. goods. Qed.
Lemma good_delegation : good delegation_parse. Proof. unfold delegation_parse. goods. Qed.
Lemma good_reveal : good reveal_parse. Proof. unfold reveal_parse. goods. Qed.
Lemma good_origination : good origination_parse. Proof. unfold origination_parse. goods. Qed.
Lemma good_endorsement : good endorsement_parse. Proof. unfold endorsement_parse. goods. Qed.
Lemma good_endorsement_slot : good endorsement_slot_parse.
Proof. unfold endorsement_slot_parse. goods. Qed.
Lemma good_ballot : good ballot_parse. Proof. unfold ballot_parse. goods. Qed.
Lemma good_proposals : good proposals_parse. Proof. unfold proposals_parse. goods. Qed.
Lemma good_activate : good activate_parse. Proof. unfold activate_parse. goods. Qed.
Lemma good_noop : good noop_parse. Proof. unfold noop_parse. goods. Qed.
Lemma good_seed : good seed_nonce_parse. Proof. unfold seed_nonce_parse. goods. Qed.
Lemma good_double_endo : good double_endorsement_parse.
Proof. unfold double_endorsement_parse. goods. Qed.
Lemma good_double_baking : good double_baking_parse.
Proof. unfold double_baking_parse. goods. Qed.
Lemma good_anonymous t : good (anonymous_parse t).
Proof.
  unfold anonymous_parse. destruct (t =? 1); [|destruct (t =? 2); [|destruct (t =? 3)]].
  - apply (good_bind seed_nonce_parse (fun _ l => POk l OAnonymous)); auto using good_seed, good_ret.
  - apply (good_bind double_endorsement_parse (fun _ l => POk l OAnonymous));
      auto using good_double_endo, good_ret.
  - apply (good_bind double_baking_parse (fun _ l => POk l OAnonymous));
      auto using good_double_baking, good_ret.
  - apply good_err.
Qed.

(** The parser for a tag, [None] for an unknown one. *)
Definition tag_parser (tag : N) : option (bytes -> presult op) :=
  if tag =? 0x00 then Some endorsement_parse
  else if (tag =? 0x01) || (tag =? 0x02) || (tag =? 0x03) then Some (anonymous_parse tag)
  else if tag =? 0x04 then Some activate_parse
  else if tag =? 0x05 then Some proposals_parse
  else if tag =? 0x06 then Some ballot_parse
  else if tag =? 0x0A then Some endorsement_slot_parse
  else if tag =? 0x11 then Some noop_parse
  else if tag =? 0x6B then Some reveal_parse
  else if tag =? 0x6C then Some transfer_parse
  else if tag =? 0x6D then Some origination_parse
  else if tag =? 0x6E then Some delegation_parse
  else None.

Lemma op_parse_tag tag rem : op_parse (tag :: rem) =
  match tag_parser tag with Some p => p rem | None => POk [] (OUnknown rem) end.
Proof.
  unfold op_parse, tag_parser. rewrite le_u8_cons. cbn [pbind].
  repeat match goal with |- context [if ?b then _ else _] => destruct b end; reflexivity.
Qed.

Lemma good_tag tag p : tag_parser tag = Some p -> good p.
Proof.
  unfold tag_parser.
  repeat match goal with |- context [if ?b then _ else _] => destruct b end;
    intros H; inversion H; subst;
    auto using good_transfer, good_delegation, good_reveal, good_origination, good_endorsement,
      good_endorsement_slot, good_ballot, good_proposals, good_activate, good_noop, good_anonymous.
Qed.

Lemma op_parse_not_panic l : op_parse l <> PPanic.
Proof.
  destruct l as [|t l]; [discriminate|]. rewrite op_parse_tag.
  destruct (tag_parser t) eqn:E; [|discriminate]. apply (good_tag _ _ E).
Qed.

(** What an operation decodes to depends only on the bytes it consumed, of
    which there is at least one. *)
Lemma op_parse_local l rem o : op_parse l = POk rem o ->
  exists pre, l = pre ++ rem /\ pre <> [] /\ op_parse pre = POk [] o /\
    (rem <> [] -> forall r, op_parse (pre ++ r) = POk r o).
Proof.
  destruct l as [|t l]; [discriminate|]. rewrite op_parse_tag.
  destruct (tag_parser t) as [p|] eqn:E.
  - intros H. apply (good_tag _ _ E) in H as (pre & -> & Hr).
    exists (t :: pre). split; auto. split; [discriminate|]. split.
    + rewrite op_parse_tag, E. specialize (Hr []). now rewrite app_nil_r in Hr.
    + intros _ r. cbn [app]. rewrite op_parse_tag, E. apply Hr.
  - intros H; inversion H; subst. exists (t :: l). split; [now rewrite app_nil_r|].
    split; [discriminate|]. split; [|congruence].
    now rewrite op_parse_tag, E.
Qed.

(** ** Batches *)
Lemma eo_next_spec src n : (n <= length src)%nat ->
  match eo_next (mkOps src n) with
  | NPanic => False
  | NErr => op_parse (skipn n src) = PErr
  | NNone => skipn n src = []
  | NSome o e => exists rem, op_parse (skipn n src) = POk rem o /\ eo_source e = src
      /\ skipn (eo_read e) src = rem /\ (n < eo_read e <= length src)%nat
  end.
Proof.
  intros Hn. unfold eo_next. cbn [eo_source eo_read].
  replace (length src <? n)%nat with false by lia.
  destruct (skipn n src) as [|b t] eqn:E; auto.
  pose proof (op_parse_not_panic (b :: t)).
  destruct (op_parse (b :: t)) as [rem o| |] eqn:P; auto.
  exists rem. cbn [eo_source eo_read]. split; auto. split; auto.
  apply op_parse_local in P as (pre & Q & Hne & _ & _).
  assert (S : src = firstn n src ++ pre ++ rem) by (rewrite <- Q, <- E; symmetry; apply firstn_skipn).
  assert (L : length src = (n + length pre + length rem)%nat).
  { rewrite S at 1. rewrite !app_length, firstn_length. lia. }
  assert (length pre <> O) by (destruct pre; cbn; congruence).
  split; [|lia].
  rewrite S at 2. rewrite app_assoc.
  rewrite skipn_app_exact; auto. rewrite app_length, firstn_length. lia.
Qed.

(** Iterating over any byte string stops within one step per byte, and on
    success the operations come from consecutive pieces covering it. *)
Lemma eo_all_spec fuel src n : (n <= length src)%nat -> (length src - n < fuel)%nat ->
  match eo_all fuel (mkOps src n) with
  | AllFuel | AllPanic => False
  | AllErr => True
  | AllOk os => exists pieces, concat pieces = skipn n src /\
      Forall2 (fun p o => p <> [] /\ op_parse p = POk [] o) pieces os
  end.
Proof.
  revert n; induction fuel; intros n Hn Hf; [lia|]. cbn [eo_all].
  pose proof (eo_next_spec src n Hn) as S.
  destruct (eo_next (mkOps src n)) as [| | |o e]; auto.
  - exists []. split; [now rewrite S|constructor].
  - destruct S as (rem & P & Es & Er & Hr). destruct e as [src' n']. cbn [eo_source eo_read] in *.
    subst src'. specialize (IHfuel n'). 
    destruct (eo_all fuel (mkOps src n')); try (apply IHfuel; lia); auto.
    destruct IHfuel as (pieces & C & F); [lia|lia|].
    apply op_parse_local in P as (pre & Q & Hne & Hp & _).
    exists (pre :: pieces). split.
    + cbn [concat]. rewrite C, Q. now rewrite Er.
    + constructor; auto.
Qed.

Lemma eo_all_mono fuel src n : (n <= length src)%nat -> (length src - n < fuel)%nat ->
  forall fuel', (length src - n < fuel')%nat -> eo_all fuel (mkOps src n) = eo_all fuel' (mkOps src n).
Proof.
  revert n; induction fuel; intros n Hn Hf fuel' Hf'; [lia|]. destruct fuel'; [lia|].
  cbn [eo_all]. pose proof (eo_next_spec src n Hn) as S.
  destruct (eo_next (mkOps src n)) as [| | |o e]; auto.
  destruct S as (rem & P & Es & Er & Hr). destruct e as [src' n']. cbn [eo_source eo_read] in *.
  subst src'. rewrite (IHfuel n') with (fuel' := fuel'); auto; lia.
Qed.

Lemma enc_op_nonempty o : enc_op o <> [].
Proof. destruct o; discriminate. Qed.

Lemma flat_map_enc_nil os : flat_map enc_op os = [] -> os = [].
Proof.
  destruct os; auto. cbn. intros H. apply app_eq_nil in H as [H _].
  now apply enc_op_nonempty in H.
Qed.

Lemma eo_all_enc os : Forall op_ok os -> forall done fuel,
  (length (flat_map enc_op os) < fuel)%nat ->
  eo_all fuel (mkOps (done ++ flat_map enc_op os) (length done)) = AllOk (map op_of os).
Proof.
  induction 1 as [|o os Ho Hos IH]; intros done fuel Hf.
  - destruct fuel; [cbn in Hf; lia|]. cbn [flat_map eo_all]. unfold eo_next. cbn [eo_source eo_read].
    rewrite app_length. cbn [length]. replace (length done + 0 <? length done)%nat with false by lia.
    now rewrite skipn_app_exact.
  - destruct fuel; [lia|]. cbn [flat_map eo_all map] in *. unfold eo_next. cbn [eo_source eo_read].
    rewrite !app_length.
    replace (length done + (length (enc_op o) + length (flat_map enc_op os)) <? length done)%nat
      with false by lia.
    rewrite skipn_app_exact by auto.
    destruct (enc_op o ++ flat_map enc_op os) eqn:E.
    { apply app_eq_nil in E as [E _]. now apply enc_op_nonempty in E. }
    rewrite <- E. rewrite op_parse_enc by auto.
    replace (length done + (length (enc_op o) + length (flat_map enc_op os)) - length (flat_map enc_op os))%nat
      with (length (done ++ enc_op o)) by (rewrite app_length; lia).
    rewrite app_assoc. rewrite IH; auto.
    rewrite <- E, app_length in Hf.
    assert (length (enc_op o) <> O) by (pose proof (enc_op_nonempty o); destruct (enc_op o); cbn; congruence).
    lia.
Qed.
