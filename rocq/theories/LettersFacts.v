(** The first letters of base58 texts. *)
From Coq Require Import NArith Bool Arith String List Lia.
From Coq Require Import ZifyNat ZifyN.
From Verif Require Import Base BaseFacts Codecs Oracles Address AddressSpec AddressFacts AddressExamples LettersSpec.
Import ListNotations.
Open Scope N_scope.

Lemma index_bound c : forall l d, index_of c l = Some d -> d < len l.
Proof.
  induction l as [|x l IH]; intros d; cbn [index_of]; [discriminate|]. unfold len in *. cbn [length].
  destruct (x =? c); [intros [= <-]; lia|]. destruct (index_of c l) as [e|]; [|discriminate].
  cbn [option_map]. intros [= <-]. specialize (IH e eq_refl). lia.
Qed.
Lemma index_inj a b : forall l d, index_of a l = Some d -> index_of b l = Some d -> a = b.
Proof.
  induction l as [|x l IH]; intros d; cbn [index_of]; [discriminate|].
  destruct (N.eqb_spec x a), (N.eqb_spec x b).
  - congruence.
  - intros [= <-]. destruct (index_of b l); cbn [option_map]; [|discriminate]. intros [= X]. lia.
  - destruct (index_of a l); cbn [option_map]; [|discriminate]. intros [= X] [= Y]. lia.
  - destruct (index_of a l) as [i|], (index_of b l) as [j|]; cbn [option_map]; try discriminate.
    intros [= X] [= Y]. apply (IH i); [reflexivity|]. f_equal. lia.
Qed.
Lemma digit_bound c d : index_of c base58_digits = Some d -> d < 58.
Proof. apply index_bound. Qed.

Lemma value_split : forall t acc v, text_value acc t = Some v -> acc * 58 ^ len t <= v < (acc + 1) * 58 ^ len t.
Proof.
  induction t as [|c t IH]; intros acc v; cbn [text_value].
  - intros [= <-]. change (len []) with 0. rewrite N.pow_0_r. lia.
  - destruct (index_of c base58_digits) as [d|] eqn:E; [|discriminate]. intros V. apply digit_bound in E. apply IH in V.
    replace (len (c :: t)) with (1 + len t) by (unfold len; cbn [length]; lia).
    rewrite N.pow_add_r, N.pow_1_r. revert V. generalize (58 ^ len t). intros p V. nia.
Qed.
Lemma value_inj : forall a b x y v, length a = length b -> text_value x a = Some v -> text_value y b = Some v -> x = y /\ a = b.
Proof.
  induction a as [|c a IH]; intros [|d b] x y v L; try discriminate L; cbn [text_value].
  - intros [= <-] [= <-]. auto.
  - destruct (index_of c base58_digits) as [i|] eqn:Ei; [|discriminate].
    destruct (index_of d base58_digits) as [j|] eqn:Ej; [|discriminate]. intros A B. injection L as L.
    destruct (IH b _ _ v L A B) as [X ->]. pose proof (digit_bound _ _ Ei). pose proof (digit_bound _ _ Ej).
    assert (x = y /\ i = j) as [-> ->] by lia. split; [reflexivity|]. f_equal. now apply (index_inj _ _ base58_digits j).
Qed.

(** A text without leading '1' whose number lies between two texts that start with [ls]
    starts so, too. *)
Lemma starts t v n (ls : bytes) D : text_value 0 t = Some v -> leading 49 t = 0%nat ->
  58 ^ N.of_nat n <= v -> v < 58 ^ N.of_nat (S n) -> (length ls <= n)%nat -> text_value 0 ls = Some D ->
  D * 58 ^ (N.of_nat (S n) - len ls) <= v < (D + 1) * 58 ^ (N.of_nat (S n) - len ls) ->
  length t = S n /\ exists rest, t = ls ++ rest.
Proof.
  intros V Z Lo Hi Ll VD B.
  assert (L : length t = S n).
  { destruct t as [|c t]; [cbn [text_value] in V; injection V as <-; pose proof (N.pow_nonzero 58 (N.of_nat n)); lia|].
    cbn [leading] in Z. destruct (N.eqb_spec c 49); [discriminate|].
    pose proof (value_split _ _ _ V) as [_ Up]. cbn [text_value] in V.
    destruct (index_of c base58_digits) as [d|] eqn:E; [|discriminate].
    assert (d <> 0). { intros ->. apply n0. apply (index_inj c 49 base58_digits 0); [exact E|reflexivity]. }
    apply value_split in V as [Do _].
    assert (58 ^ len t <= v) by (revert Do; generalize (58 ^ len t); intros; nia).
    rewrite N.add_0_l, N.mul_1_l in Up.
    assert (len t < N.of_nat (S n)) by (apply (N.pow_lt_mono_r_iff 58); lia).
    assert (N.of_nat n < len (c :: t)) by (apply (N.pow_lt_mono_r_iff 58); lia).
    unfold len in *. cbn [length] in *. lia. }
  split; [exact L|]. exists (skipn (length ls) t).
  rewrite <- (firstn_skipn (length ls) t) at 1. f_equal.
  rewrite <- (firstn_skipn (length ls) t), text_value_app in V.
  destruct (text_value 0 (firstn (length ls) t)) as [a|] eqn:A; [|discriminate].
  apply value_split in V. assert (La : len (skipn (length ls) t) = N.of_nat (S n) - len ls).
  { unfold len. rewrite skipn_length, L. lia. }
  rewrite La in V. assert (a = D).
  { revert V B. generalize (58 ^ (N.of_nat (S n) - len ls)). intros p V B.
    destruct (N.lt_trichotomy a D) as [X|[X|X]]; [exfalso; nia|exact X|exfalso; nia]. }
  subst a. apply (value_inj _ _ 0 0 D); [|exact A|exact VD]. rewrite firstn_length. lia.
Qed.

Lemma prefix_range k m u : m = (N.of_nat (kind_data_length k) + 4) -> u < 256 ^ m -> let v := unbe (kind_prefix k) * 256 ^ m + u in
  exists D, let n := Nat.pred (text_length k) in
  58 ^ N.of_nat n <= v /\ v < 58 ^ N.of_nat (S n) /\ (length (letters k) <= n)%nat /\ text_value 0 (letters k) = Some D /\
  D * 58 ^ (N.of_nat (S n) - len (letters k)) <= v < (D + 1) * 58 ^ (N.of_nat (S n) - len (letters k)).
Proof.
  intros -> U. cbv zeta.
  destruct k;
    match goal with |- context [text_value 0 (letters ?k)] =>
      let d := eval vm_compute in (text_value 0 (letters k)) in match d with Some ?x => exists x end;
      let p := eval vm_compute in (256 ^ (N.of_nat (kind_data_length k) + 4)) in change (256 ^ (N.of_nat (kind_data_length k) + 4)) with p in *;
      let q := eval vm_compute in (unbe (kind_prefix k)) in change (unbe (kind_prefix k)) with q
    end;
    match goal with |- ?a <= _ /\ _ < ?b /\ _ /\ _ /\ (_ * ?c <= _ < _) =>
      let a' := eval vm_compute in a in change a with a';
      let b' := eval vm_compute in b in change b with b';
      let c' := eval vm_compute in c in change c with c' end;
    (split; [lia|split; [lia|split; [vm_compute; lia|split; [reflexivity|lia]]]]).
Qed.

Lemma prefix_head k : exists x l, kind_prefix k = x :: l /\ x <> 0.
Proof. destruct k; eexists _, _; (split; [reflexivity|discriminate]). Qed.
Lemma reads_letters k t (data : bytes) : bytes_ok data -> length data = (kind_data_length k + 4)%nat ->
  reads58 t (kind_prefix k ++ data) -> looks_like k t.
Proof.
  intros B L [V Z]. rewrite unbe_app in V.
  assert (U : unbe data < 256 ^ len data) by now apply unbe_lt.
  destruct (prefix_range k (len data) (unbe data) ltac:(unfold len; lia) U) as (D & A1 & A2 & A3 & A4 & A5).
  assert (Z' : leading 49 t = 0%nat).
  { destruct (prefix_head k) as (x & l & E & X). rewrite E in Z. cbn [app leading] in Z. rewrite Z.
    now destruct (N.eqb_spec x 0). }
  destruct (starts t _ _ _ D V Z' A1 A2 A3 A4 A5) as [Lt St].
  split; [rewrite Lt; destruct k; reflexivity|exact St].
Qed.
Lemma text_letters O k data t : oracles_ok O -> bytes_ok data -> length data = kind_data_length k ->
  tz_text (twice O) k data t -> looks_like k t.
Proof.
  intros K B L (d & Hd & R). unfold twice in Hd. destruct (o_sha256 O _) as [e|]; [|discriminate].
  destruct (ok_sha256 O K _ _ Hd) as [Ld Bd].
  apply (reads_letters k t (data ++ firstn 4 d)); [apply bytes_ok_app; split; [exact B|now apply bytes_ok_firstn]| |exact R].
  rewrite app_length, firstn_length. lia.
Qed.
