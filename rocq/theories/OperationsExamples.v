(** Final forms of the operation lemmas and concrete demonstration values. *)
From Coq Require Import List NArith ZArith Lia Bool Arith.
From Coq Require Import ZifyBool ZifyNat ZifyN.
From Verif Require Import Base BaseFacts Codecs Operations OperationsSpec OperationsFacts.
Import ListNotations.
Open Scope N_scope.

(** ** Integers *)
Definition sign_of (signed : bool) (l : bytes) : option bool :=
  if signed then Some (negative l) else None.

Lemma zarith_consumes (signed : bool) (l : bytes) : bytes_ok l ->
  (forall enc rem, z_complete enc -> l = enc ++ rem ->
     zarith_parse signed l = POk rem (mkZ enc (sign_of signed enc))) /\
  (Forall (fun b => 128 <= b) l -> zarith_parse signed l = PErr).
Proof.
  intros Hl. split.
  - intros enc rem C ->. now apply zarith_parse_complete.
  - intros H. apply zarith_parse_incomplete.
    rewrite Forall_forall in *. intros x Hx. split; auto.
    unfold bytes_ok in Hl. rewrite Forall_forall in Hl. auto.
Qed.

Lemma zarith_exact_or_refused bits (signed : bool) enc : z_complete enc ->
  (payload_bits signed enc <= bits ->
     zarith_read_as bits (mkZ enc (sign_of signed enc)) =
       Some (if signed then negative enc else false, magnitude signed enc)
     /\ magnitude signed enc < 2 ^ bits) /\
  (bits < payload_bits signed enc -> zarith_read_as bits (mkZ enc (sign_of signed enc)) = None).
Proof.
  intros C. apply z_complete_ok in C as [_ Hne]. unfold sign_of.
  rewrite zarith_read_spec by auto. split; intros H.
  - replace (payload_bits signed enc <=? bits) with true by lia. split; auto.
    eapply N.lt_le_trans; [apply magnitude_lt|]. apply N.pow_le_mono_r; lia.
  - replace (payload_bits signed enc <=? bits) with false by lia. reflexivity.
Qed.

Lemma nat_roundtrip bits n rest : 7 <= bits -> n < 2 ^ (7 * (bits / 7)) ->
  exists z, zarith_parse false (enc_nat n ++ rest) = POk rest z /\
    zarith_read_as bits z = Some (false, n).
Proof.
  intros Hb Hn. exists (z_of n). split; [apply zarith_parse_enc|].
  rewrite enc_nat_read by auto. now replace (n <? 2 ^ (7 * (bits / 7))) with true by lia.
Qed.

Lemma int_roundtrip bits z rest : payload_bits true (enc_int z) <= bits ->
  exists y, zarith_parse true (enc_int z ++ rest) = POk rest y /\
    zarith_read_as bits y = Some ((z <? 0)%Z, Z.abs_N z).
Proof.
  intros H. pose proof (enc_int_complete z) as C. destruct (enc_int_value z) as [V1 V2].
  eexists. split; [apply zarith_parse_complete; auto|].
  pose proof (z_complete_ok _ C) as [_ Hne].
  rewrite (zarith_read_spec bits true) by auto.
  replace (payload_bits true (enc_int z) <=? bits) with true by lia. now rewrite V1, V2.
Qed.

(** On the device amounts are read into a 32-bit [usize]: four groups of seven
    bits, so everything from 2^28 on is refused. *)
Lemma device_limit n : zarith_read_as USIZE_BITS (z_of n) = None <-> 2 ^ 28 <= n.
Proof.
  unfold USIZE_BITS. rewrite enc_nat_read by lia. change (7 * (32 / 7)) with 28.
  destruct (N.ltb_spec n (2 ^ 28)); split; intros; try congruence; try lia.
Qed.

(** ** Operations *)
Lemma ops_decode (o : tz_op) (rest : bytes) : op_ok o ->
  op_parse (enc_op o ++ rest) = POk rest (op_of o).
Proof. apply op_parse_enc. Qed.

Lemma batch_decodes (os : list tz_op) : Forall op_ok os ->
  eo_all (S (length (flat_map enc_op os))) (eo_new (flat_map enc_op os)) = AllOk (map op_of os).
Proof. intros H. apply (eo_all_enc os H []). lia. Qed.

Lemma batch_terminates (l : bytes) :
  match eo_all (S (length l)) (eo_new l) with
  | AllFuel | AllPanic => False
  | AllErr => True
  | AllOk os => exists pieces, concat pieces = l /\
      Forall2 (fun p o => p <> [] /\ op_parse p = POk [] o) pieces os
  end.
Proof. apply (eo_all_spec (S (length l)) l 0); lia. Qed.

Lemma next_advances (e : encoded_ops) : (eo_read e <= length (eo_source e))%nat ->
  match eo_next e with
  | NPanic => False
  | NErr => True
  | NNone => eo_read e = length (eo_source e)
  | NSome _ e' => eo_source e' = eo_source e /\ (eo_read e < eo_read e' <= length (eo_source e))%nat
  end.
Proof.
  intros H. destruct e as [src n]. cbn [eo_read eo_source] in *.
  pose proof (eo_next_spec src n H) as S. destruct (eo_next (mkOps src n)); auto.
  - apply (f_equal (@length N)) in S. rewrite skipn_length in S. cbn in S. lia.
  - destruct S as (rem & _ & E & _ & L). auto.
Qed.

Lemma op_total_local (l : bytes) :
  op_parse l <> PPanic /\
  forall rem o, op_parse l = POk rem o ->
  exists pre, l = pre ++ rem /\ pre <> [] /\ op_parse pre = POk [] o /\
    (rem <> [] -> forall r, op_parse (pre ++ r) = POk r o).
Proof. split; [apply op_parse_not_panic|]. intros. now apply op_parse_local. Qed.

(** *** Injectivity of the decoded form *)
Definition anonymous (o : tz_op) : Prop :=
  match o with TSeedNonce _ _ | TDoubleEndorsement _ _ _ | TDoubleBaking _ _ => True | _ => False end.

Lemma z_of_inj a b : z_of a = z_of b -> a = b.
Proof.
  unfold z_of. intros H. injection H as H. apply (f_equal groups_value) in H.
  now rewrite !enc_nat_value in H.
Qed.
Lemma kind_curve_inj a b : kind_curve a = kind_curve b -> a = b.
Proof. destruct a, b; cbn; congruence. Qed.
Lemma pkh_of_inj a b : pkh_of a = pkh_of b -> a = b.
Proof.
  destruct a, b. unfold pkh_of. cbn. intros H. injection H as H ->.
  now rewrite (kind_curve_inj _ _ H).
Qed.
Lemma manager_of_inj a b : manager_of a = manager_of b -> a = b.
Proof.
  intros H.
  pose proof (pkh_of_inj _ _ (f_equal m_source H)) as E1.
  pose proof (z_of_inj _ _ (f_equal m_fee H)) as E2.
  pose proof (z_of_inj _ _ (f_equal m_counter H)) as E3.
  pose proof (z_of_inj _ _ (f_equal m_gas H)) as E4.
  pose proof (z_of_inj _ _ (f_equal m_storage H)) as E5.
  destruct a, b. cbn in *. congruence.
Qed.
Lemma contract_of_inj a b : contract_of a = contract_of b -> a = b.
Proof.
  destruct a as [[]|], b as [[]|]; cbn; try discriminate; intros H.
  - injection H as H ->. now rewrite (kind_curve_inj _ _ H).
  - injection H as ->. reflexivity.
Qed.
Lemma option_map_pkh_inj a b : option_map pkh_of a = option_map pkh_of b -> a = b.
Proof.
  destruct a, b; cbn; try discriminate; auto. intros H. inversion H.
  f_equal. apply pkh_of_inj. unfold pkh_of. congruence.
Qed.


Lemma op_of_inj a b : ~ anonymous a -> op_of a = op_of b -> a = b.
Proof.
  intros Ha. destruct a, b; cbn [op_of anonymous] in *; try discriminate; try tauto; intros H.
  - assert (manager_of m = manager_of m0 /\ z_of amount = z_of amount0
            /\ contract_of dest = contract_of dest0 /\ params = params0) as (A & B & C & D)
      by (repeat split; congruence).
    apply manager_of_inj in A. apply z_of_inj in B. apply contract_of_inj in C. congruence.
  - assert (manager_of m = manager_of m0 /\ option_map pkh_of delegate = option_map pkh_of delegate0)
      as (A & B) by (split; congruence).
    apply manager_of_inj in A. apply option_map_pkh_inj in B. congruence.
  - congruence.
  - destruct e, e0. cbn in H. congruence.
  - assert (pkh_of source = pkh_of source0) as A by congruence. apply pkh_of_inj in A. congruence.
  - assert (manager_of m = manager_of m0 /\ kind_curve kind = kind_curve kind0 /\ pk = pk0)
      as (A & B & C) by (repeat split; congruence).
    apply manager_of_inj in A. apply kind_curve_inj in B. congruence.
  - assert (pkh_of source = pkh_of source0) as A by congruence. apply pkh_of_inj in A. congruence.
  - assert (manager_of m = manager_of m0 /\ z_of balance = z_of balance0 /\
            option_map pkh_of delegate = option_map pkh_of delegate0) as (A & B & C)
      by (repeat split; congruence).
    apply manager_of_inj in A. apply z_of_inj in B. apply option_map_pkh_inj in C. congruence.
  - congruence.
  - congruence.
Qed.

Lemma map_op_of_inj (a b : list tz_op) : Forall (fun o => ~ anonymous o) a ->
  map op_of a = map op_of b -> a = b.
Proof.
  intros H. revert b. induction H; intros [|y b]; cbn; try discriminate; auto.
  intros E. injection E as E1 E2. f_equal; auto. now apply op_of_inj.
Qed.

Lemma decode_injective (a b : list tz_op) : Forall op_ok a -> Forall op_ok b ->
  Forall (fun o => ~ anonymous o) a ->
  eo_all (S (length (flat_map enc_op a))) (eo_new (flat_map enc_op a)) =
  eo_all (S (length (flat_map enc_op b))) (eo_new (flat_map enc_op b)) ->
  flat_map enc_op a = flat_map enc_op b.
Proof.
  intros Ha Hb Hn. rewrite !batch_decodes by auto. intros H. injection H as H.
  f_equal. now apply map_op_of_inj.
Qed.

(** ** Demonstration values *)
Definition demo_pkh : tz_pkh := mkPkh Tz1 (repeat 7 20).
Definition demo_pkh2 : tz_pkh := mkPkh Tz3 (repeat 9 20).
Definition demo_man : tz_manager := mkTzMan demo_pkh 50000 8 10600 300.
Definition demo_inlined : tz_inlined := mkInl (repeat 1 32) 1331 (repeat 5 64).
Definition demo_tz_header : tz_header :=
  mkTzHeader 1331 1 (repeat 2 32) 1400000000 4 (repeat 3 32) [[1]; [0; 0; 0; 0; 0; 0; 0; 10]]
    (repeat 4 32) 0 (repeat 5 8) (Some (repeat 6 32)) false (repeat 7 64).
Definition demo_batch : list tz_op :=
  [ TReveal demo_man Tz2 (repeat 2 33);
    TTransfer demo_man 100000000 (TzOriginated (repeat 3 20)) (Some (EpCustom [97; 98; 99], [2; 3; 11]));
    TTransfer demo_man 1 (TzImplicit demo_pkh2) None;
    TDelegation demo_man (Some demo_pkh2);
    TOrigination demo_man 17 None [2; 0; 0; 0; 23] [0; 7];
    TBallot demo_pkh (-5) (repeat 8 32) Pass;
    TProposals demo_pkh 10 [repeat 1 32; repeat 2 32];
    TActivate (repeat 1 20) (repeat 2 20);
    TFailingNoop [1; 2; 3];
    TEndorsement 42;
    TEndorsementWithSlot demo_inlined 0 ].
Definition demo_anonymous : list tz_op :=
  [ TSeedNonce 25550 (repeat 255 32); TDoubleEndorsement demo_inlined demo_inlined 3;
    TDoubleBaking demo_tz_header demo_tz_header ].

Lemma demo_batch_ok : Forall op_ok (demo_batch ++ demo_anonymous).
Proof.
  repeat (first [apply Forall_nil | apply Forall_cons]); cbn [op_ok];
    repeat match goal with
           | |- _ /\ _ => split
           | |- True => exact I
           | |- Forall _ _ => constructor
           | |- _ = _ => vm_compute; reflexivity
           | |- (_ < _)%N => vm_compute; reflexivity
           | |- (_ <= _)%Z => vm_compute; discriminate
           | |- (_ < _)%Z => vm_compute; reflexivity
           | |- i32_ok _ => unfold i32_ok
           | |- size_ok _ => unfold size_ok
           | |- pkh_ok _ => unfold pkh_ok
           | |- inlined_ok _ => unfold inlined_ok
           | |- tz_header_ok _ => unfold tz_header_ok
           | |- params_ok _ => unfold params_ok; cbn [fst snd]
           | |- contract_ok _ => cbn [contract_ok]
           | |- opt_ok _ _ => cbn [opt_ok th_seed demo_tz_header]
           | |- Forall size_ok _ => cbn [th_fitness demo_tz_header]
           end.
Qed.

Lemma demo_batch_not_anonymous : Forall (fun o => ~ anonymous o) demo_batch.
Proof. repeat (first [apply Forall_nil | apply Forall_cons]); cbn; tauto. Qed.

(** A signed number, and the amount from the unit test parser.rs. *)
Lemma demo_numbers : enc_nat 1000000 = [192; 132; 61] /\ enc_int (-100) = [228; 1]
  /\ z_complete [192; 132; 61] /\ payload_bits false [192; 132; 61] = 21.
Proof.
  split; [reflexivity|]. split; [reflexivity|]. split; [|reflexivity].
  exists [192; 132], 61. repeat split; auto; repeat constructor; lia.
Qed.

(** Different bytes, same decoded operation: a padded fee, a boolean that is
    neither 0 nor 255, a contract's padding byte, and any anonymous operation. *)
Definition dup_fee : bytes * bytes :=
  let rest := enc_nat 8 ++ enc_nat 9 ++ enc_nat 10 ++ [0] in
  (110 :: enc_pkh demo_pkh ++ [5] ++ rest, 110 :: enc_pkh demo_pkh ++ [133; 0] ++ rest).
Definition dup_bool : bytes * bytes :=
  (110 :: enc_manager demo_man ++ [0], 110 :: enc_manager demo_man ++ [1]).
Definition dup_padding : bytes * bytes :=
  (108 :: enc_manager demo_man ++ enc_nat 5 ++ 1 :: repeat 3 20 ++ [0; 0],
   108 :: enc_manager demo_man ++ enc_nat 5 ++ 1 :: repeat 3 20 ++ [9; 0]).
Definition dup_anonymous : bytes * bytes :=
  (enc_op (TSeedNonce 1 (repeat 0 32)), enc_op (TSeedNonce 2 (repeat 1 32))).

Definition same_shown (p : bytes * bytes) : Prop :=
  fst p <> snd p /\ exists o, op_parse (fst p) = POk [] o /\ op_parse (snd p) = POk [] o.

Lemma decode_not_injective : same_shown dup_bool /\ same_shown dup_padding /\ same_shown dup_anonymous.
Proof.
  repeat split; try (vm_compute; discriminate);
    (eexists; split; vm_compute; reflexivity).
Qed.

(** The padded fee decodes to other bytes but reads as the same number. *)
Lemma padded_fee : exists m1 m2, op_parse (fst dup_fee) = POk [] (ODelegation m1 None) /\
  op_parse (snd dup_fee) = POk [] (ODelegation m2 None) /\
  zarith_read_as USIZE_BITS (m_fee m1) = Some (false, 5) /\
  zarith_read_as USIZE_BITS (m_fee m2) = Some (false, 5).
Proof. do 2 eexists. repeat split; vm_compute; reflexivity. Qed.
