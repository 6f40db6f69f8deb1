(** C96: the vectors the generators write are those the device passes. *)
From Coq Require Import NArith ZArith Bool Arith String List.
From Verif Require Import Base Codecs Oracles Address AddressSpec AddressExamples HashDemo Text TextSpec TextExamples Bakers BakersSpec
  Operations OperationsSpec Device DeviceDemo Screens ScreensSpec ScreensExamples Zuit ZuitFacts ZuitExamples
  Generators GeneratorsSpec GeneratorsExamples.
Import ListNotations.
Open Scope string_scope.
Open Scope list_scope.
Open Scope N_scope.

(** C96. A generated vector passes on the operation it was generated for, and has an entry
    for every row of the review. *)
Theorem C96_generated : forall O table sha256 g branch o,
  oracles_ok O -> sorted table -> names_fit table -> names_utf8 table ->
  o_sha256 O FORGED_CODE = Some (sha256 FORGED_CODE) -> o_sha256 O FORGED_STORAGE = Some (sha256 FORGED_STORAGE) ->
  List.length branch = 32%nat -> op_ok o -> bytes_ok (branch ++ enc_op o) ->
  forged O g branch o -> well_named table g o -> small o ->
  exists p rows, operation_new (branch ++ enc_op o) = Some p /\ view_shown (test_view p) = Some rows /\
    verify_ui O table (test_view p) (output sha256 g) = true /\ map ex_idx (output sha256 g) = seq 0 (List.length rows).
Proof. exact generated_passes. Qed.
Print Assumptions C96_generated.
Example C96_delegation_case : delegation_branch ++ enc_op delegation_op = delegation_blob /\
  List.length delegation_branch = 32%nat /\ op_ok delegation_op /\ bytes_ok (delegation_branch ++ enc_op delegation_op) /\
  forged demo_oracles delegation_vector delegation_branch delegation_op /\ well_named known delegation_vector delegation_op /\
  small delegation_op.
Proof. exact delegation_vector_case. Qed.
Example C96_environment : oracles_ok demo_oracles /\ sorted known /\ names_fit known /\ names_utf8 known /\
  o_sha256 demo_oracles FORGED_CODE = Some (demo_sha256 FORGED_CODE) /\
  o_sha256 demo_oracles FORGED_STORAGE = Some (demo_sha256 FORGED_STORAGE).
Proof. exact (conj demo_oracles_ok (conj known_sorted (conj known_fit (conj known_utf8 demo_sha256_ok)))). Qed.
(** The model of the generators writes the vectors of the repository, the first of each kind. *)
Example C96_recorded : List.length recorded_outputs = 8%nat /\
  map (fun x => output demo_sha256 (fst x)) recorded_outputs = map (fun x => recited (snd x)) recorded_outputs.
Proof. exact (conj eq_refl recorded_output). Qed.

(** C96. Nothing else passes: a message that passes a generated vector shows, row by row,
    the texts of the operation it was generated for, under titles that start alike. *)
Theorem C96_decisive : forall O table sha256 g branch o blob' p',
  oracles_ok O -> sorted table -> names_fit table -> names_utf8 table ->
  o_sha256 O FORGED_CODE = Some (sha256 FORGED_CODE) -> o_sha256 O FORGED_STORAGE = Some (sha256 FORGED_STORAGE) ->
  List.length branch = 32%nat -> op_ok o -> bytes_ok (branch ++ enc_op o) ->
  forged O g branch o -> well_named table g o -> small o ->
  bytes_ok blob' -> operation_new blob' = Some p' -> verify_ui O table (test_view p') (output sha256 g) = true ->
  exists rows', view_shown (test_view p') = Some rows' /\
  forall i r, nth_error ("Operation" --> FIdent KindBranch branch :: sheet (op_of o)) i = Some r -> exists r' title m rest,
    nth_error rows' i = Some r' /\ entitles (fst r) title /\ entitles (fst r') (title ++ rest) /\
    shows O table (snd r) m /\ shows O table (snd r') m.
Proof. exact generated_decides. Qed.
Print Assumptions C96_decisive.
Example C96_decisive_case :
  map (fun b => verify_ui demo_oracles known (test_view (parsed_or b)) (output demo_sha256 delegation_vector))
    [delegation_blob; with_delegate 244408 obsidian_hash; with_delegate 244407 other_hash] = [true; false; false].
Proof. exact delegation_checks. Qed.

(** C96. The generators write amounts below 2^33 tez exactly, in spite of their floating
    point; of 2^33 tez and a millionth they make two millionths. *)
Theorem C96_amounts : forall m, m < 2 ^ 33 * 1000000 -> exists t, ledger_fmt_currency m = [t] /\ shows_decimal 6 m t.
Proof. exact amounts_exact. Qed.
Print Assumptions C96_amounts.
Theorem C96_amounts_refuted : ledger_fmt_currency (2 ^ 33 * 1000000 + 1) = [str "8589934592.000002"] /\
  ~ exists t, ledger_fmt_currency (2 ^ 33 * 1000000 + 1) = [t] /\ shows_decimal 6 (2 ^ 33 * 1000000 + 1) t.
Proof. exact amounts_inexact. Qed.
Print Assumptions C96_amounts_refuted.
Example C96_amounts_case : ledger_fmt_currency 8589934591999999 = [str "8589934591.999999"] /\
  ledger_fmt_currency 7 = [str "0.000007"] /\ ledger_fmt_currency 0 = [str "0.000000"].
Proof. exact amounts_case. Qed.

(** C96. Which cases are generated: which delegate an origination has, how a ballot votes
    and how proposals are ordered depends on the number of the vector as follows. *)
Theorem C96_variety : forall h n, distinct_holders h ->
  (origination_choice h n = Some (ho_p256 h) <-> N.divide 3 n) /\
  (origination_choice h n = Some (ho_k1 h) <-> N.gcd n 6 = 2) /\
  (origination_choice h n = None <-> N.gcd n 30 = 5) /\
  (origination_choice h n = Some (ho_ed h) <-> N.gcd n 30 = 1) /\
  (ballot_choice n = (str "yay", GRANADA) <-> N.divide 3 n) /\
  (ballot_choice n = (str "nay", FLORENCE) <-> N.gcd n 6 = 2) /\
  (ballot_choice n = (str "pass", GRANADA) <-> N.gcd n 6 = 1) /\
  (proposals_choice n = (CARTHAGE, FLORENCE) <-> N.Even n) /\ (proposals_choice n = (FLORENCE, CARTHAGE) <-> N.Odd n).
Proof. exact variety. Qed.
Print Assumptions C96_variety.
Example C96_holders : distinct_holders vector_holders.
Proof. exact holders_distinct. Qed.
Example C96_first_originations : map (origination_choice vector_holders) (map N.of_nat (seq 0 10)) =
  let h := vector_holders in map (fun k => nth k [None; Some (ho_ed h); Some (ho_k1 h); Some (ho_p256 h)] None) [3; 1; 2; 3; 2; 0; 3; 1; 2; 3]%nat.
Proof. exact first_originations. Qed.

(** C96. Any five delegations in a row have a known baker, one delegate of each curve and
    a withdrawal. *)
Theorem C96_delegations : forall h q,
  delegation_choice h (5 * q) = (Some OBSIDIAN, str "Obsidian") /\
  delegation_choice h (5 * q + 1) = (Some (ho_ed h), ho_ed h) /\
  delegation_choice h (5 * q + 2) = (Some (ho_p256 h), ho_p256 h) /\
  delegation_choice h (5 * q + 3) = (Some (ho_k1 h), ho_k1 h) /\
  delegation_choice h (5 * q + 4) = (None, str "<REVOKED>").
Proof. exact delegations. Qed.
Print Assumptions C96_delegations.

(** C96. How many vectors must be generated for an origination without delegate, a
    withdrawal of a delegation, and a vote against; the default of 10 suffices. *)
Theorem C96_needed : forall h iters, distinct_holders h ->
  ((exists n, n < iters /\ origination_choice h n = None) <-> 5 < iters) /\
  ((exists n, n < iters /\ fst (delegation_choice h n) = None) <-> 4 < iters) /\
  ((exists n, n < iters /\ fst (ballot_choice n) = str "nay") <-> 2 < iters).
Proof. exact needed. Qed.
Print Assumptions C96_needed.
