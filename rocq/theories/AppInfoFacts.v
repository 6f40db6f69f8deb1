(** Reading the answer to [getAppInfo]: proofs and cases. *)
From Coq Require Import List NArith ZArith Bool Lia ZifyBool ZifyNat ZifyN.
From Verif Require Import Base BaseFacts Codecs Client AppInfo AppInfoSpec.
Import ListNotations.
Open Scope N_scope.

Lemma to_ascii_id l : ascii l -> to_ascii l = l.
Proof. intros H. induction H as [|b l Hb _ IH]; [reflexivity|]. cbn [to_ascii map]. rewrite N.mod_small by exact Hb. f_equal. exact IH. Qed.
Lemma nth_mid (a : bytes) x b n : n = length a -> nth_error (a ++ x :: b) n = Some x.
Proof. intros ->. rewrite nth_error_app2 by lia. now rewrite Nat.sub_diag. Qed.
Lemma slice_mid (a m b : bytes) (i j : Z) : i = Z.of_N (len a) -> j = (i + Z.of_N (len m))%Z -> js_slice i j (a ++ m ++ b) = m.
Proof.
  intros -> ->. unfold js_slice, js_index, len.
  rewrite !app_length. replace (Z.of_N (N.of_nat (length a)) <? 0)%Z with false by lia.
  replace (Z.of_N (N.of_nat (length a)) + Z.of_N (N.of_nat (length m)) <? 0)%Z with false by lia.
  replace (Z.to_nat (Z.min _ _ - _)) with (length m) by lia.
  replace (Z.to_nat (Z.min _ _)) with (length a) by lia.
  rewrite skipn_app, skipn_all, Nat.sub_diag. cbn [skipn app].
  rewrite firstn_app, firstn_all, Nat.sub_diag. cbn [firstn]. apply app_nil_r.
Qed.
Lemma flag_bit v k : flag (Some v) (2 ^ k) = N.testbit v k.
Proof.
  unfold flag. destruct (N.testbit v k) eqn:T.
  - apply negb_true_iff, N.eqb_neq. intros X. apply (f_equal (fun x => N.testbit x k)) in X.
    rewrite N.land_spec, T, N.pow2_bits_true, N.bits_0 in X. discriminate.
  - apply negb_false_iff, N.eqb_eq. apply N.bits_inj. intros i. rewrite N.land_spec, N.bits_0.
    destruct (N.eq_dec i k) as [->|D]; [now rewrite T|]. rewrite N.pow2_bits_false by congruence. apply andb_false_r.
Qed.

Lemma read_info name version flags st : ascii name -> ascii version ->
  read_app_info (info_bytes name version flags ++ st) =
    info_of name version (Some (len flags)) (nth_error (flags ++ st) 0).
Proof.
  intros Hn Hv. unfold info_bytes, field. cbn [app]. repeat (rewrite <- app_assoc; cbn [app]).
  set (r := 1 :: len name :: name ++ len version :: version ++ len flags :: flags ++ st).
  unfold read_app_info. change (nth_error r 0) with (Some 1). change (nth_error r 1) with (Some (len name)). cbv iota zeta.
  assert (E1 : nth_error r (N.to_nat (2 + len name)) = Some (len version)).
  { change r with ((1 :: len name :: name) ++ len version :: version ++ len flags :: flags ++ st).
    apply nth_mid. cbn [length]. unfold len. lia. }
  rewrite E1.
  assert (E2 : forall t n, n = N.to_nat (2 + len name + 1 + len version) ->
    nth_error r (n + t) = nth_error (len flags :: flags ++ st) t).
  { intros t n ->. change r with ((1 :: len name :: name) ++ (len version :: version) ++ len flags :: flags ++ st).
    rewrite app_assoc. rewrite nth_error_app2 by (rewrite app_length; cbn [length]; unfold len; lia).
    f_equal. rewrite app_length. cbn [length]. unfold len. lia. }
  replace (nth_error r (N.to_nat (2 + len name + 1 + len version))) with (Some (len flags))
    by (rewrite <- (Nat.add_0_r (N.to_nat _)); now rewrite E2).
  replace (nth_error r (N.to_nat (2 + len name + 1 + len version + 1))) with (nth_error (flags ++ st) 0).
  2:{ replace (N.to_nat (2 + len name + 1 + len version + 1)) with (N.to_nat (2 + len name + 1 + len version) + 1)%nat by lia.
      now rewrite E2. }
  f_equal.
  - rewrite <- (to_ascii_id name Hn) at 2. f_equal.
    change r with ([1; len name] ++ name ++ len version :: version ++ len flags :: flags ++ st). apply slice_mid; reflexivity.
  - rewrite <- (to_ascii_id version Hv) at 2. f_equal.
    change r with ((1 :: len name :: name) ++ (len version :: version) ++ len flags :: flags ++ st).
    change ((len version :: version) ++ len flags :: flags ++ st) with ([len version] ++ version ++ len flags :: flags ++ st).
    rewrite app_assoc. apply slice_mid; [|lia]. unfold len. rewrite app_length. cbn [length]. lia.
Qed.

Lemma status_end l : status_of (l ++ [0x90; 0x00]) = NO_ERRORS.
Proof.
  unfold status_of, js_slice_from, js_slice, js_index, len. rewrite app_length. cbn [length Z.ltb Z.compare].
  replace (_ <? 0)%Z with false by lia.
  replace (Z.to_nat (Z.max 0 _)) with (length l) by lia.
  replace (Z.to_nat (_ - _)) with 2%nat by lia.
  now rewrite skipn_app, skipn_all, Nat.sub_diag.
Qed.

Lemma status_pair l x y : status_of (l ++ [x; y]) = 256 * x + y.
Proof.
  unfold status_of, js_slice_from, js_slice, js_index, len. rewrite app_length. cbn [length Z.ltb Z.compare].
  replace (_ <? 0)%Z with false by lia.
  replace (Z.to_nat (Z.max 0 _)) with (length l) by lia.
  replace (Z.to_nat (_ - _)) with 2%nat by lia.
  rewrite skipn_app, skipn_all, Nat.sub_diag. cbn [app skipn firstn nth]. lia.
Qed.

Lemma get_answer {W} (X : transport W) w w' r : answers_with X w w' r ->
  get_app_info X w = (JData 0x9000 (read_app_info (r ++ [0x90; 0x00])), w').
Proof.
  intros E. unfold get_app_info. rewrite E. replace (len (r ++ [0x90; 0x00]) <? 2) with false.
  - now rewrite status_end.
  - symmetry. apply N.ltb_ge. unfold len. rewrite app_length. cbn [length]. lia.
Qed.

Lemma app_info_read {W} (X : transport W) w w' name version f more : ascii name -> ascii version ->
  answers_with X w w' (info_bytes name version (f :: more)) ->
  get_app_info X w = (JData 0x9000 (mkInfo name version (Some (len (f :: more))) (Some f)
    (N.testbit f 0) (N.testbit f 1) (N.testbit f 2) (N.testbit f 7)), w').
Proof.
  intros Hn Hv E. rewrite (get_answer X w w' _ E), read_info by auto.
  cbn [app nth_error]. unfold info_of.
  change (flag (Some f) 1) with (flag (Some f) (2 ^ 0)). change (flag (Some f) 2) with (flag (Some f) (2 ^ 1)).
  change (flag (Some f) 4) with (flag (Some f) (2 ^ 2)). change (flag (Some f) 128) with (flag (Some f) (2 ^ 7)).
  now rewrite !flag_bit.
Qed.
Lemma app_info_no_flags {W} (X : transport W) w w' name version : ascii name -> ascii version ->
  answers_with X w w' (info_bytes name version []) ->
  get_app_info X w = (JData 0x9000 (mkInfo name version (Some 0) (Some 0x90) false false false true), w').
Proof. intros Hn Hv E. rewrite (get_answer X w w' _ E), read_info by auto. reflexivity. Qed.
Lemma app_info_failure W (X : transport W) w w' :
  (forall data a b, X w [0xB0; 0x01; 0; 0; 0] = (Some (data ++ [a; b]), w') -> 256 * a + b <> 0x9000 ->
     get_app_info X w = (JCode (256 * a + b), w')) /\
  (forall r, X w [0xB0; 0x01; 0; 0; 0] = (r, w') -> (forall l, r = Some l -> len l < 2) -> get_app_info X w = (JCode 0xFFFF, w')).
Proof.
  split.
  - intros data a b E Ne. unfold get_app_info. rewrite E.
    replace (len (data ++ [a; b]) <? 2) with false by (symmetry; apply N.ltb_ge; unfold len; rewrite app_length; cbn [length]; lia).
    rewrite status_pair. unfold NO_ERRORS. destruct (N.eqb_spec (256 * a + b) 0x9000); [contradiction|reflexivity].
  - intros r E L. unfold get_app_info. rewrite E. destruct r as [l|]; [|reflexivity].
    specialize (L l eq_refl). apply N.ltb_lt in L. now rewrite L.
Qed.
Lemma app_info_format {W} (X : transport W) w w' f r : f <> 1 -> answers_with X w w' (f :: r) ->
  get_app_info X w = (JData 0x9000 (mkInfo ERR ERR (Some 0) (Some 0) false false false false), w').
Proof.
  intros Hf E. rewrite (get_answer X w w' _ E). unfold read_app_info. cbn [app nth_error].
  destruct f as [|[p|p|]]; try reflexivity. now destruct Hf.
Qed.

(** The app under its name, version 2.2.9, unlocked device. *)
Definition tezos_answer : bytes := info_bytes [84; 101; 122; 111; 115] [50; 46; 50; 46; 57] [0x84].
Lemma tezos_case : ascii [84; 101; 122; 111; 115] /\ ascii [50; 46; 50; 46; 57] /\
  answers_with (fun w _ => (Some (tezos_answer ++ [0x90; 0x00]), w)) tt tt tezos_answer /\
  fst (get_app_info (fun w _ => (Some (tezos_answer ++ [0x90; 0x00]), w)) tt) =
    JData 0x9000 (mkInfo [84; 101; 122; 111; 115] [50; 46; 50; 46; 57] (Some 1) (Some 0x84) false false true true).
Proof. repeat split; repeat constructor. Qed.
