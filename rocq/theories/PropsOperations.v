(** Property theorems C31, C32, C33, C45, C46: integers and operations. *)
From Coq Require Import List NArith ZArith Bool Arith.
From Verif Require Import Base Codecs Operations OperationsSpec OperationsFacts OperationsExamples.
Import ListNotations.
Open Scope N_scope.

(** C31. Parsing consumes exactly the bytes up to the first one without the
    continuation bit, and fails when there is none. *)
Theorem C31_consumes_one_encoding : forall (signed : bool) (l : bytes), bytes_ok l ->
  (forall enc rem, z_complete enc -> l = enc ++ rem ->
     zarith_parse signed l = POk rem (mkZ enc (sign_of signed enc))) /\
  (Forall (fun b => 128 <= b) l -> zarith_parse signed l = PErr).
Proof. exact zarith_consumes. Qed.
Print Assumptions C31_consumes_one_encoding.

(** C31. Reading into a container of any width gives the exact sign and
    magnitude when the encoding's bits fit and nothing otherwise. *)
Theorem C31_exact_or_refused : forall (bits : N) (signed : bool) (enc : bytes), z_complete enc ->
  (payload_bits signed enc <= bits ->
     zarith_read_as bits (mkZ enc (sign_of signed enc)) =
       Some (if signed then negative enc else false, magnitude signed enc)
     /\ magnitude signed enc < 2 ^ bits) /\
  (bits < payload_bits signed enc -> zarith_read_as bits (mkZ enc (sign_of signed enc)) = None).
Proof. exact zarith_exact_or_refused. Qed.
Print Assumptions C31_exact_or_refused.

(** C31. Minimal encodings of naturals and integers are read back. *)
Theorem C31_naturals_round_trip : forall (bits n : N) (rest : bytes),
  7 <= bits -> n < 2 ^ (7 * (bits / 7)) ->
  exists z, zarith_parse false (enc_nat n ++ rest) = POk rest z /\
    zarith_read_as bits z = Some (false, n).
Proof. exact nat_roundtrip. Qed.
Print Assumptions C31_naturals_round_trip.

Theorem C31_integers_round_trip : forall (bits : N) (z : Z) (rest : bytes),
  payload_bits true (enc_int z) <= bits ->
  exists y, zarith_parse true (enc_int z ++ rest) = POk rest y /\
    zarith_read_as bits y = Some ((z <? 0)%Z, Z.abs_N z).
Proof. exact int_roundtrip. Qed.
Print Assumptions C31_integers_round_trip.

(** C31 (finding). The device reads every amount into a 32-bit integer, and so
    refuses exactly those of 2^28 and above (268.435456 tez). *)
Theorem C31_device_refuses_from_2_28 : forall n : N,
  zarith_read_as USIZE_BITS (z_of n) = None <-> 2 ^ 28 <= n.
Proof. exact device_limit. Qed.
Print Assumptions C31_device_refuses_from_2_28.

Example C31_case_numbers : enc_nat 1000000 = [192; 132; 61] /\ enc_int (-100) = [228; 1]
  /\ z_complete [192; 132; 61] /\ payload_bits false [192; 132; 61] = 21.
Proof. exact demo_numbers. Qed.
Example C31_case_signed_fits : payload_bits true (enc_int (-100)) <= 32.
Proof. discriminate. Qed.

(** C32. Decoding the protocol encoding of any operation of any kind followed
    by anything gives that operation's fields and leaves what follows. *)
Theorem C32_operations_decode : forall (o : tz_op) (rest : bytes), op_ok o ->
  op_parse (enc_op o ++ rest) = POk rest (op_of o).
Proof. exact ops_decode. Qed.
Print Assumptions C32_operations_decode.

Example C32_case_every_kind : Forall op_ok (demo_batch ++ demo_anonymous).
Proof. exact demo_batch_ok. Qed.

(** C33. A batch decodes to exactly its operations, in order, to the end. *)
Theorem C33_batches_decode : forall os : list tz_op, Forall op_ok os ->
  eo_all (S (length (flat_map enc_op os))) (eo_new (flat_map enc_op os)) = AllOk (map op_of os).
Proof. exact batch_decodes. Qed.
Print Assumptions C33_batches_decode.

(** C33. Every step moves the cursor forward within the buffer. *)
Theorem C33_every_step_advances : forall e : encoded_ops,
  (eo_read e <= length (eo_source e))%nat ->
  match eo_next e with
  | NPanic => False
  | NErr => True
  | NNone => eo_read e = length (eo_source e)
  | NSome _ e' => eo_source e' = eo_source e /\ (eo_read e < eo_read e' <= length (eo_source e))%nat
  end.
Proof. exact next_advances. Qed.
Print Assumptions C33_every_step_advances.

(** C33. Iterating over any byte string ends within one step per byte; a
    success accounts for every byte of it. *)
Theorem C33_iteration_ends : forall l : bytes,
  match eo_all (S (length l)) (eo_new l) with
  | AllFuel | AllPanic => False
  | AllErr => True
  | AllOk os => exists pieces, concat pieces = l /\
      Forall2 (fun p o => p <> [] /\ op_parse p = POk [] o) pieces os
  end.
Proof. exact batch_terminates. Qed.
Print Assumptions C33_iteration_ends.

Example C33_case_batch : Forall op_ok (demo_batch ++ demo_anonymous) /\ length demo_batch = 11%nat.
Proof. split; [exact demo_batch_ok | reflexivity]. Qed.

(** C45. Decoding an operation never panics, consumes at least one byte, and
    depends on nothing but the bytes it consumes. *)
Theorem C45_decoding_total_and_local : forall l : bytes,
  op_parse l <> PPanic /\
  forall rem o, op_parse l = POk rem o ->
  exists pre, l = pre ++ rem /\ pre <> [] /\ op_parse pre = POk [] o /\
    (rem <> [] -> forall r, op_parse (pre ++ r) = POk r o).
Proof. exact op_total_local. Qed.
Print Assumptions C45_decoding_total_and_local.

(** C46 (partial). Different protocol encodings of batches without anonymous
    operations never decode to the same operations. Missing: byte strings
    outside the protocol encoding, for which it is false. *)
Theorem C46_decoding_injective_partial : forall a b : list tz_op,
  Forall op_ok a -> Forall op_ok b -> Forall (fun o => ~ anonymous o) a ->
  eo_all (S (length (flat_map enc_op a))) (eo_new (flat_map enc_op a)) =
  eo_all (S (length (flat_map enc_op b))) (eo_new (flat_map enc_op b)) ->
  flat_map enc_op a = flat_map enc_op b.
Proof. exact decode_injective. Qed.
Print Assumptions C46_decoding_injective_partial.

Example C46_case_batch : Forall (fun o => ~ anonymous o) demo_batch.
Proof. exact demo_batch_not_anonymous. Qed.

(** C46 (refuted in general). Different bytes decode to the same operation: a
    boolean other than 0 and 255, a contract padding byte, any two anonymous
    operations of one kind. *)
Theorem C46_decoding_injective_refuted :
  same_shown dup_bool /\ same_shown dup_padding /\ same_shown dup_anonymous.
Proof. exact decode_not_injective. Qed.
Print Assumptions C46_decoding_injective_refuted.

(** C46 (refuted in general). A fee padded with an empty group reads as the
    same number. *)
Theorem C46_padded_numbers_refuted : exists m1 m2,
  op_parse (fst dup_fee) = POk [] (ODelegation m1 None) /\
  op_parse (snd dup_fee) = POk [] (ODelegation m2 None) /\
  zarith_read_as USIZE_BITS (m_fee m1) = Some (false, 5) /\
  zarith_read_as USIZE_BITS (m_fee m2) = Some (false, 5).
Proof. exact padded_fee. Qed.
Print Assumptions C46_padded_numbers_refuted.
