(** The statements about generated vectors in their final form, and cases. *)
From Coq Require Import NArith ZArith Bool Arith String List Lia.
From Coq Require Import ZifyBool ZifyNat ZifyN.
From Verif Require Import Base BaseFacts Codecs CodecsFacts Oracles Address AddressSpec AddressFacts AddressExamples HashDemo
  Text TextSpec TextFacts TextExamples Bakers BakersSpec BakersFacts
  Operations OperationsSpec OperationsFacts OperationsExamples Device DeviceDemo Screens ScreensSpec ScreensFacts ScreensViews ScreensPages
  ScreensExamples ClientText Vectors Zuit ZuitFacts ZuitExamples Generators GeneratorsSpec GeneratorsFacts.
Import ListNotations.
Open Scope string_scope.
Open Scope list_scope.
Open Scope N_scope.

(** ** Final forms *)

(** The rows of a single operation. *)
Definition single_rows (branch : bytes) (o : tz_op) : list row := "Operation" --> FIdent KindBranch branch :: sheet (op_of o).
Lemma single_shown branch o p : List.length branch = 32%nat -> op_ok o -> (List.length (sheet (op_of o)) < 256)%nat ->
  operation_new (branch ++ enc_op o) = Some p -> view_shown (test_view p) = Some (single_rows branch o).
Proof.
  intros L H B E. unfold operation_new in E. rewrite take_app in E by (unfold len; lia). injection E as <-.
  unfold test_view. cbn [view_shown eo_source eo_new].
  assert (D : eo_all (S (List.length (enc_op o))) (eo_new (enc_op o)) = AllOk [op_of o]).
  { pose proof (batch_decodes [o] (Forall_cons _ H (Forall_nil _))) as X. cbn [flat_map map] in X. rewrite app_nil_r in X. exact X. }
  match goal with |- match ?x with _ => _ end = _ => change x with (eo_all (S (List.length (enc_op o))) (eo_new (enc_op o))) end.
  rewrite D. cbn [flat_map]. unfold single_rows, shown_rows. rewrite app_nil_r.
  rewrite N.mod_small by (unfold len; lia). rewrite firstn_all2 by (unfold len; lia). reflexivity.
Qed.
Lemma parses branch o : List.length branch = 32%nat -> exists p, operation_new (branch ++ enc_op o) = Some p.
Proof. intros L. unfold operation_new. rewrite take_app by (unfold len; lia). eexists. reflexivity. Qed.

Ltac titled := first [reflexivity | vm_compute; reflexivity].
Section Told.
  Context (O : oracles) (table : list baker) (sha256 : bytes -> bytes).
  Hypothesis K : oracles_ok O.
  Hypothesis U : names_utf8 table.
  Hypothesis S1 : o_sha256 O FORGED_CODE = Some (sha256 FORGED_CODE).
  Hypothesis S2 : o_sha256 O FORGED_STORAGE = Some (sha256 FORGED_STORAGE).

  Lemma word_told h w i k : entitles h (str k) -> utf8 (str k) = true -> utf8 (chars w) = true ->
    tells O table (h --> FWord w) (entry i k (ledger_fmt (chars w))).
  Proof. intros A B C. now apply tells_word. Qed.
  Lemma limits_told m i source fee gas storage counter : managed O source fee gas storage counter m -> small_manager m ->
    Forall2 (tells O table) (limits (manager_of m)) (limits_from i gas storage counter).
  Proof.
    intros (_ & _ & <- & <- & <-) (_ & G & S & C). unfold limits, limits_from. cbn [manager_of m_gas m_storage m_counter].
    constructor; [apply tells_nat; [titled|titled|exact G]|]. constructor; [apply tells_nat; [titled|titled|exact S]|].
    constructor; [apply tells_nat; [titled|titled|exact C]|]. constructor.
  Qed.
  Lemma person_told h p i k t : entitles h (str k) -> utf8 (str k) = true -> is_address O t p ->
    tells O table (person h (pkh_of p)) (entry i k (ledger_fmt t)).
  Proof. intros A B T. unfold person. now apply tells_ident. Qed.

  Lemma told g branch o : forged O g branch o -> well_named table g o -> small o -> bytes_ok (enc_op o) ->
    Forall2 (tells O table) (single_rows branch o) (output sha256 g).
  Proof.
    intros [Fb Fo] Wn Sm Bo. unfold single_rows.
    destruct g as [hash source h e counter|hash source h e counter n|hash source pk e counter|hash source h counter n|hash source n|hash source n|hash n|hash source secret];
      cbn [asked] in Fo; cbn [g_hash] in Fb; cbn [output].
    - destruct o; try contradiction. destruct dest as [d|]; [|contradiction]. destruct params; [contradiction|].
      destruct Fo as (M & -> & D). destruct Sm as [Sm Sa]. pose proof M as M'. destruct M' as (Ms & Mf & _).
      cbn [op_of sheet contract_of app]. constructor; [apply tells_ident; [titled|titled|exact Fb]|].
      constructor; [apply word_told; titled|]. constructor; [apply (person_told "Source"); [titled|titled|exact Ms]|].
      constructor; [apply (person_told "Destination" d); [titled|titled|exact D]|].
      constructor; [apply tells_tez; [titled|titled|exact Sa]|].
      constructor; [cbn [manager_of m_fee]; rewrite <- Mf; apply tells_tez; [titled|titled|apply Sm]|].
      constructor; [apply word_told; titled|]. exact (limits_told _ _ _ _ _ _ _ M Sm).
    - destruct o as [| m delegate | | | | | | | | | | |]; try contradiction. destruct Fo as (M & D). pose proof M as M'. destruct M' as (Ms & Mf & _).
      cbn [well_named] in Wn. cbn [op_of sheet app]. constructor; [apply tells_ident; [titled|titled|exact Fb]|].
      set (ch := delegation_choice h n) in *.
      assert (Cn : fst ch = None -> snd ch = chars "<REVOKED>").
      { unfold ch, delegation_choice. assert (n mod 5 < 5) by (apply N.mod_lt; lia).
        destruct (N.to_nat (n mod 5)) as [|[|[|[|[|k]]]]] eqn:E; cbn [nth fst snd]; try discriminate; [reflexivity|lia]. }
      destruct (fst ch) as [t|] eqn:Ec; destruct delegate as [p|]; try contradiction; cbn [option_map].
      + constructor; [apply word_told; titled|]. constructor; [apply (person_told "Source"); [titled|titled|exact Ms]|].
        constructor; [apply (tells_baker O table U "Delegation" p t); [titled|titled|exact D|exact Wn]|].
        constructor; [cbn [manager_of m_fee]; rewrite <- Mf; apply tells_tez; [titled|titled|apply Sm]|].
        exact (limits_told _ _ _ _ _ _ _ M Sm).
      + constructor; [apply word_told; titled|]. constructor; [apply (person_told "Source"); [titled|titled|exact Ms]|].
        rewrite (Cn eq_refl). constructor; [apply word_told; titled|].
        constructor; [cbn [manager_of m_fee]; rewrite <- Mf; apply tells_tez; [titled|titled|apply Sm]|].
        exact (limits_told _ _ _ _ _ _ _ M Sm).
    - destruct o as [| | | | | m k key | | | | | | |]; try contradiction. destruct Fo as (M & D). pose proof M as M'. destruct M' as (Ms & Mf & _).
      cbn [op_of sheet app fst snd]. constructor; [apply tells_ident; [titled|titled|exact Fb]|].
      constructor; [apply word_told; titled|]. constructor; [apply (person_told "Source"); [titled|titled|exact Ms]|].
      constructor; [apply tells_ident; [titled|titled|exact D]|].
      constructor; [cbn [manager_of m_fee]; rewrite <- Mf; apply tells_tez; [titled|titled|apply Sm]|].
      exact (limits_told _ _ _ _ _ _ _ M Sm).
    - destruct o as [| | | | | | | m balance delegate code storage | | | | |]; try contradiction.
      destruct Fo as (M & -> & D & -> & ->). destruct Sm as [Sm Sb]. pose proof M as M'. destruct M' as (Ms & Mf & _).
      cbn [op_of sheet app]. constructor; [apply tells_ident; [titled|titled|exact Fb]|].
      constructor; [apply word_told; titled|]. constructor; [apply (person_told "Source"); [titled|titled|exact Ms]|].
      constructor; [apply tells_tez; [titled|titled|exact Sb]|].
      constructor.
      { destruct (origination_choice h n) as [t|]; destruct delegate as [p|]; try contradiction; cbn [option_map].
        - apply (person_told "Delegate" p); [titled|titled|exact D].
        - apply word_told; titled. }
      constructor; [cbn [manager_of m_fee]; unfold ORIGINATION_FEE; rewrite <- Mf; apply tells_tez; [titled|titled|apply Sm]|].
      constructor; [apply tells_digest; [exact K|titled|titled|exact S1]|]. constructor; [apply tells_digest; [exact K|titled|titled|exact S2]|].
      exact (limits_told _ _ _ _ _ _ _ M Sm).
    - destruct o; try contradiction. destruct Fo as (M & -> & D & V).
      cbn [op_of sheet app]. constructor; [apply tells_ident; [titled|titled|exact Fb]|].
      constructor; [apply word_told; titled|]. constructor; [apply (person_told "Source"); [titled|titled|exact M]|].
      constructor; [apply tells_int; titled|]. constructor; [apply tells_ident; [titled|titled|exact D]|].
      constructor; [|constructor]. unfold is_vote in V. rewrite V. apply word_told; [titled|titled|]. destruct v; titled.
    - destruct o; try contradiction. destruct Fo as (M & -> & a & b & -> & A & B).
      cbn [op_of sheet app proposal_rows]. constructor; [apply tells_ident; [titled|titled|exact Fb]|].
      constructor; [apply word_told; titled|]. constructor; [apply (person_told "Source"); [titled|titled|exact M]|].
      constructor; [apply tells_int; titled|].
      constructor; [apply tells_ident; [exists (str "1"); split; [exact (itoa_spec 1)|reflexivity]|titled|exact A]|].
      constructor; [apply tells_ident; [exists (str "2"); split; [exact (itoa_spec 2)|reflexivity]|titled|exact B]|]. constructor.
    - destruct o; try contradiction. subst level.
      cbn [op_of sheet app]. constructor; [apply tells_ident; [titled|titled|exact Fb]|].
      constructor; [apply word_told; titled|]. constructor; [apply tells_int; titled|]. constructor.
    - destruct o as [| | | | | | | | hh ss | | | |]; try contradiction. destruct Fo as (M & ->).
      cbn [op_of sheet app]. constructor; [apply tells_ident; [titled|titled|exact Fb]|].
      constructor; [apply word_told; titled|]. constructor; [apply tells_ident; [titled|titled|exact M]|].
      constructor; [|constructor]. apply tells_hex; [titled|titled|]. cbn [enc_op] in Bo. apply Forall_inv_tail in Bo.
      apply bytes_ok_app in Bo. apply Bo.
  Qed.
End Told.

Lemma output_indexed sha256 g : map ex_idx (output sha256 g) = seq 0 (List.length (output sha256 g)).
Proof. destruct g; reflexivity. Qed.
Lemma forall2_length {A B} (P : A -> B -> Prop) l l' : Forall2 P l l' -> List.length l = List.length l'.
Proof. induction 1 as [|? ? ? ? _ _ IH]; [reflexivity|cbn [List.length]; now rewrite IH]. Qed.

Lemma generated_passes O table sha256 g branch o : oracles_ok O -> sorted table -> names_fit table -> names_utf8 table ->
  o_sha256 O FORGED_CODE = Some (sha256 FORGED_CODE) -> o_sha256 O FORGED_STORAGE = Some (sha256 FORGED_STORAGE) ->
  List.length branch = 32%nat -> op_ok o -> bytes_ok (branch ++ enc_op o) ->
  forged O g branch o -> well_named table g o -> small o ->
  exists p rows, operation_new (branch ++ enc_op o) = Some p /\ view_shown (test_view p) = Some rows /\
    verify_ui O table (test_view p) (output sha256 g) = true /\ map ex_idx (output sha256 g) = seq 0 (List.length rows).
Proof.
  intros K St F U S1 S2 L Ho B Fg Wn Sm. destruct (parses branch o L) as [p Ep]. pose proof B as Bb. apply bytes_ok_app in Bb as [_ Bo].
  pose proof (told O table sha256 K U S1 S2 g branch o Fg Wn Sm Bo) as T. pose proof (forall2_length _ _ _ T) as Lr.
  assert (Lo : (List.length (output sha256 g) <= 11)%nat) by (destruct g; cbn [output app List.length limits_from]; lia).
  assert (Ls : (List.length (sheet (op_of o)) < 256)%nat) by (unfold single_rows in Lr; cbn [List.length] in Lr; lia).
  pose proof (single_shown branch o p L Ho Ls Ep) as E.
  exists p, (single_rows branch o). split; [exact Ep|]. split; [exact E|]. split; [|rewrite Lr; apply output_indexed].
  apply (told_passes O table _ (single_rows branch o)); try assumption; [exact (test_view_wf _ p B Ep)|lia|].
  rewrite Lr. apply output_indexed.
Qed.

(** Another message that passes shows what this one shows, row by row. *)
Lemma generated_decides O table sha256 g branch o blob' p' : oracles_ok O -> sorted table -> names_fit table -> names_utf8 table ->
  o_sha256 O FORGED_CODE = Some (sha256 FORGED_CODE) -> o_sha256 O FORGED_STORAGE = Some (sha256 FORGED_STORAGE) ->
  List.length branch = 32%nat -> op_ok o -> bytes_ok (branch ++ enc_op o) ->
  forged O g branch o -> well_named table g o -> small o ->
  bytes_ok blob' -> operation_new blob' = Some p' -> verify_ui O table (test_view p') (output sha256 g) = true ->
  exists rows', view_shown (test_view p') = Some rows' /\
  forall i r, nth_error ("Operation" --> FIdent KindBranch branch :: sheet (op_of o)) i = Some r -> exists r' title m rest,
    nth_error rows' i = Some r' /\ entitles (fst r) title /\ entitles (fst r') (title ++ rest) /\
    shows O table (snd r) m /\ shows O table (snd r') m.
Proof.
  intros K St F U S1 S2 L Ho B Fg Wn Sm B' E' V. pose proof B as Bb. apply bytes_ok_app in Bb as [_ Bo].
  pose proof (told O table sha256 K U S1 S2 g branch o Fg Wn Sm Bo) as T. unfold single_rows in T.
  pose proof (test_view_wf blob' p' B' E') as W.
  destruct (view_shown (test_view p')) as [rows'|] eqn:Es.
  2:{ unfold verify_ui in V. rewrite (unreadable_fails O table 18 4096 true p' Es) in V. discriminate V. }
  exists rows'. split; [reflexivity|]. intros i r N.
  assert (Q : exists e, nth_error (output sha256 g) i = Some e /\ tells O table r e).
  { clear -T N. revert i N. induction T as [|r0 e rows ui H _ IH]; intros [|i] N; try discriminate N.
    - cbn [nth_error] in *. injection N as <-. now exists e.
    - exact (IH i N). }
  destruct Q as (e & He & m & Em & A & Sh & _).
  assert (Ei : ex_idx e = i).
  { assert (Bi : (i < List.length (output sha256 g))%nat) by (apply nth_error_Some; rewrite He; discriminate).
    assert (Y : nth_error (map ex_idx (output sha256 g)) i = Some (ex_idx e)) by (now apply map_nth_error). rewrite output_indexed in Y.
    rewrite (nth_error_nth' _ 0%nat) in Y by (rewrite seq_length; exact Bi). rewrite seq_nth in Y by exact Bi. now injection Y. }
  assert (M : In (mkExpected i (ex_title e) (m :: [])) (output sha256 g)).
  { apply nth_error_In in He. destruct e as [ix tt mm]. cbn [ex_idx ex_title ex_message] in *. subst ix mm. exact He. }
  destruct (passing O table (test_view p') rows' _ i (ex_title e) m [] K St F U W Es V M) as (r' & hh & R & A' & Sh' & (rest & Eh) & _).
  subst hh. exists r', (ex_title e), m, rest. split; [exact R|]. split; [exact A|]. split; [exact A'|]. split; [exact Sh|exact Sh'].
Qed.

(** ** Cases *)

Lemma amounts_exact m : m < 2 ^ 33 * 1000000 -> exists t, ledger_fmt_currency m = [t] /\ shows_decimal 6 m t.
Proof. exact (currency_shows m). Qed.
(** From 2^33 tez on quotients are rounded to multiples of 2^-19. *)
Lemma amounts_inexact : ledger_fmt_currency (2 ^ 33 * 1000000 + 1) = [str "8589934592.000002"] /\
  ~ exists t, ledger_fmt_currency (2 ^ 33 * 1000000 + 1) = [t] /\ shows_decimal 6 (2 ^ 33 * 1000000 + 1) t.
Proof.
  assert (E : ledger_fmt_currency (2 ^ 33 * 1000000 + 1) = [str "8589934592.000002"]) by (vm_compute; reflexivity).
  split; [exact E|]. rewrite E. intros (t & [= <-] & T).
  pose proof (shows_decimal_inj _ _ _ _ T (fixed_decimal (2 ^ 33 * 1000000 + 1))) as X.
  assert (Y : bytes_eqb (str "8589934592.000002") (js_fixed (2 ^ 33 * 1000000 + 1)) = false) by (vm_compute; reflexivity).
  apply bytes_eqb_eq in X. rewrite X in Y. discriminate Y.
Qed.
Lemma amounts_case : ledger_fmt_currency 8589934591999999 = [str "8589934591.999999"] /\
  ledger_fmt_currency 7 = [str "0.000007"] /\ ledger_fmt_currency 0 = [str "0.000000"].
Proof. split; [vm_compute; reflexivity|]. split; vm_compute; reflexivity. Qed.

Definition demo_sha256 (l : bytes) : bytes := match o_sha256 demo_oracles l with Some d => d | None => [] end.
Lemma demo_sha256_ok : o_sha256 demo_oracles FORGED_CODE = Some (demo_sha256 FORGED_CODE) /\
  o_sha256 demo_oracles FORGED_STORAGE = Some (demo_sha256 FORGED_STORAGE).
Proof. split; vm_compute; reflexivity. Qed.

(** The first vectors of zemu/test-vectors/*.json. *)
Definition vector_holders : holders := mkHolders (str "tz1duXjMpT43K7F1nQajzH5oJLTytLUNxoTZ") (str "tz2LongKpD5pxHHK5FmvDKvFAFJ2wzsujrZP") (str "tz3XNmLgSyBTNH2mKWM71fCmLU5umMiBod3u").
Definition recorded_outputs : list (generated * list (nat * string * string)) :=
  [(GTransaction (str "BLLt5vjgYuRRv7a9c1JzXJ8VjEe1LKgaRCYLqQPf5dcCPaEke6J") (str "tz1ZiJS5gAXD5nrBtUd2YW3BaELJAPou1fmH") vector_holders (mkEstimate 441 1520 257) 244407,
    [(0%nat, "Operation", "BLLt5vjgYuRRv7a9c1JzXJ8VjEe1LKgaRCYLqQPf5dcCPaEke6J");
     (1%nat, "Type", "Transaction");
     (2%nat, "Source", "tz1ZiJS5gAXD5nrBtUd2YW3BaELJAPou1fmH");
     (3%nat, "Destination", "tz2LongKpD5pxHHK5FmvDKvFAFJ2wzsujrZP");
     (4%nat, "Amount", "0.010000");
     (5%nat, "Fee", "0.000441");
     (6%nat, "Parameters", "no parameters...");
     (7%nat, "Gas Limit", "1520");
     (8%nat, "Storage Limit", "257");
     (9%nat, "Counter", "244407")]);
   (GDelegation (str "BKvVY4VJi769Yo8AB5MSgcrqwnqiUerAxZ6yV7aLPH5YRivrTRx") (str "tz1ZiJS5gAXD5nrBtUd2YW3BaELJAPou1fmH") vector_holders (mkEstimate 396 1100 0) 244407 0,
    [(0%nat, "Operation", "BKvVY4VJi769Yo8AB5MSgcrqwnqiUerAxZ6yV7aLPH5YRivrTRx");
     (1%nat, "Type", "Delegation");
     (2%nat, "Source", "tz1ZiJS5gAXD5nrBtUd2YW3BaELJAPou1fmH");
     (3%nat, "Delegation", "Obsidian");
     (4%nat, "Fee", "0.000396");
     (5%nat, "Gas Limit", "1100");
     (6%nat, "Storage Limit", "0");
     (7%nat, "Counter", "244407")]);
   (GReveal (str "BKrAMVc38UGFh29BgYg3BfYgEfHMYvDGSY7DYgS44QkBxDDWSu9") (str "tz28R5qucJUYPE3oo1gk2Qtd16EVXz9YKu8J") (str "sppk7Zt4j5hS3FQcyLzbKnyY2XmiMZ8zV8DPPEyrLvdWhpSn1drhNfi") (mkEstimate 374 1100 0) 476482,
    [(0%nat, "Operation", "BKrAMVc38UGFh29BgYg3BfYgEfHMYvDGSY7DYgS44QkBxDDWSu9");
     (1%nat, "Type", "Revelation");
     (2%nat, "Source", "tz28R5qucJUYPE3oo1gk2Qtd16EVXz9YKu8J");
     (3%nat, "Public Key", "sppk7Zt4j5hS3FQcyLzbKnyY2XmiMZ8zV8DPPEyrLvdWhpSn1drhNfi");
     (4%nat, "Fee", "0.000374");
     (5%nat, "Gas Limit", "1100");
     (6%nat, "Storage Limit", "0");
     (7%nat, "Counter", "476482")]);
   (GOrigination (str "BLiA3ZdkzYdn59Zgz4RkLrC5hubUFkXv29jaggQDzb3AeQiHCpe") (str "tz1ZiJS5gAXD5nrBtUd2YW3BaELJAPou1fmH") vector_holders 244407 0,
    [(0%nat, "Operation", "BLiA3ZdkzYdn59Zgz4RkLrC5hubUFkXv29jaggQDzb3AeQiHCpe");
     (1%nat, "Type", "Origination");
     (2%nat, "Source", "tz1ZiJS5gAXD5nrBtUd2YW3BaELJAPou1fmH");
     (3%nat, "Balance", "0.000000");
     (4%nat, "Delegate", "tz3XNmLgSyBTNH2mKWM71fCmLU5umMiBod3u");
     (5%nat, "Fee", "0.010000");
     (6%nat, "Code", "14aa2dc4debdb8dea6698a89d77f47ea3bced7af498ace553477012860db0c46");
     (7%nat, "Storage", "ab2491c3b754d3ba49e93fb08892f7c6ac126efab9c7a77638009b7fe275af36");
     (8%nat, "Gas Limit", "10");
     (9%nat, "Storage Limit", "10");
     (10%nat, "Counter", "244407")]);
   (GBallot (str "BMXv5Vi3SjLsodZyUSstYbJ9Fzeu5wWbuJnCu5rTPbkUwDp5E21") (str "tz1ZiJS5gAXD5nrBtUd2YW3BaELJAPou1fmH") 0,
    [(0%nat, "Operation", "BMXv5Vi3SjLsodZyUSstYbJ9Fzeu5wWbuJnCu5rTPbkUwDp5E21");
     (1%nat, "Type", "Ballot");
     (2%nat, "Source", "tz1ZiJS5gAXD5nrBtUd2YW3BaELJAPou1fmH");
     (3%nat, "Period", "0");
     (4%nat, "Proposal", "PtGRANADsDU8R9daYKAgWnQYAJ64omN1o3KMGVCykShA97vQbvV");
     (5%nat, "Vote", "yay")]);
   (GProposals (str "BM55pywwm3TMe2rVaNU6eq1oBZL2SMqCDoqnp9XUH4hAs7raTdY") (str "tz1ZiJS5gAXD5nrBtUd2YW3BaELJAPou1fmH") 0,
    [(0%nat, "Operation", "BM55pywwm3TMe2rVaNU6eq1oBZL2SMqCDoqnp9XUH4hAs7raTdY");
     (1%nat, "Type", "Proposals");
     (2%nat, "Source", "tz1ZiJS5gAXD5nrBtUd2YW3BaELJAPou1fmH");
     (3%nat, "Period", "0");
     (4%nat, "Proposal #1", "PsCARTHAGazKbHtnKfLzQg3kms52kSRpgnDY982a9oYsSXRLQEb");
     (5%nat, "Proposal #2", "PsFLorenaUUuikDWvMDr6fGBRG8kt3e3D3fHoXK1j1BFRxeSH4i")]);
   (GEndorsement (str "BMGWXKnWKSopuerabeAtwFwJoJFVnPYhynkGavYwq6cdaqK9L2M") 0,
    [(0%nat, "Operation", "BMGWXKnWKSopuerabeAtwFwJoJFVnPYhynkGavYwq6cdaqK9L2M");
     (1%nat, "Type", "Endorsement");
     (2%nat, "Level", "0")]);
   (GActivation (str "BLyFa6vTazhbnJfbUPzniBxCVAd9zVjnPxtNX4wWiAc4Hh5RzwL") (str "tz1ZiJS5gAXD5nrBtUd2YW3BaELJAPou1fmH") (unhex "d64537bdf3f6ed8c314075d22f2e03ab867448e1"),
    [(0%nat, "Operation", "BLyFa6vTazhbnJfbUPzniBxCVAd9zVjnPxtNX4wWiAc4Hh5RzwL");
     (1%nat, "Type", "Acct. Activation");
     (2%nat, "Public Key Hash", "tz1ZiJS5gAXD5nrBtUd2YW3BaELJAPou1fmH");
     (3%nat, "Secret", "d64537bdf3f6ed8c314075d22f2e03ab867448e1")])].
Definition recited (l : list (nat * string * string)) : list expected :=
  map (fun x => mkExpected (fst (fst x)) (str (snd (fst x))) [str (snd x)]) l.
Lemma recorded_output : map (fun x => output demo_sha256 (fst x)) recorded_outputs = map (fun x => recited (snd x)) recorded_outputs.
Proof. vm_compute. reflexivity. Qed.

(** The first delegation: to "Obsidian". *)
Definition delegation_vector : generated :=
  GDelegation (str "BKvVY4VJi769Yo8AB5MSgcrqwnqiUerAxZ6yV7aLPH5YRivrTRx") (str "tz1ZiJS5gAXD5nrBtUd2YW3BaELJAPou1fmH") vector_holders
    (mkEstimate 396 1100 0) 244407 0.
Definition delegation_branch : bytes := unhex "1bb9a0d1ded53abdfc8add21f55a852b4fd5e661984155fa460a039a4234b937".
Definition delegation_op : tz_op :=
  TDelegation (mkTzMan (mkPkh Tz1 (unhex "9a6090844356d979899622d85ba1602740fcaa84")) 396 244407 1100 0)
    (Some (mkPkh Tz1 (unhex "cf49f66b9ea137e11818f2a78b4b6fc9895b4e50"))).
Definition delegation_blob : bytes := unhex
  "1bb9a0d1ded53abdfc8add21f55a852b4fd5e661984155fa460a039a4234b9376e009a6090844356d979899622d85ba1602740fcaa848c03b7f50ecc0800ff00cf49f66b9ea137e11818f2a78b4b6fc9895b4e50".

Definition tz_textb (k : tz_kind) (data t : bytes) : bool :=
  match twice demo_oracles (kind_prefix k ++ data) with
  | Some d =>
    match text_value 0 t with
    | Some v => (v =? unbe (kind_prefix k ++ data ++ firstn 4 d)) && Nat.eqb (leading 49 t) (leading 0 (kind_prefix k ++ data ++ firstn 4 d))
    | None => false
    end
  | None => false
  end.
Lemma tz_textb_ok k data t : tz_textb k data t = true -> tz_text (twice demo_oracles) k data t.
Proof.
  unfold tz_textb, tz_text. destruct (twice demo_oracles (kind_prefix k ++ data)) as [d|]; [|discriminate]. intros H. exists d.
  split; [reflexivity|]. unfold reads58. destruct (text_value 0 t) as [v|]; [|discriminate H]. apply andb_true_iff in H as [H1 H2].
  apply N.eqb_eq in H1. apply Nat.eqb_eq in H2. now rewrite H1, H2.
Qed.
Definition entry_forb (p : tz_pkh) (b : baker) : bool :=
  bytes_eqb (bk_prefix b) (kind_prefix (AddressSpec.addr_kind (kind_curve (pkh_kind p)))) && bytes_eqb (bk_hash b) (pkh_hash p).
Lemma entry_forb_ok p b : entry_forb p b = true <-> entry_for p b.
Proof. unfold entry_forb, entry_for. rewrite andb_true_iff, !bytes_eqb_eq. reflexivity. Qed.
Lemma named_ok p name table : existsb (entry_forb p) table = true ->
  forallb (fun b => negb (entry_forb p b) || bytes_eqb (bk_name b) name) table = true ->
  (exists b, In b table /\ entry_for p b) /\ (forall b, In b table -> entry_for p b -> bk_name b = name).
Proof.
  intros A B. split.
  - apply existsb_exists in A as (b & Ib & E). exists b. split; [exact Ib|now apply entry_forb_ok].
  - intros b Ib E. rewrite forallb_forall in B. specialize (B b Ib). apply entry_forb_ok in E. rewrite E in B. now apply bytes_eqb_eq.
Qed.
Lemma delegation_vector_case : delegation_branch ++ enc_op delegation_op = delegation_blob /\
  List.length delegation_branch = 32%nat /\ op_ok delegation_op /\ bytes_ok (delegation_branch ++ enc_op delegation_op) /\
  forged demo_oracles delegation_vector delegation_branch delegation_op /\ well_named known delegation_vector delegation_op /\
  small delegation_op.
Proof.
  split; [vm_compute; reflexivity|]. split; [vm_compute; reflexivity|].
  split; [split; vm_compute; reflexivity|]. split; [apply bytes_okb_ok; vm_compute; reflexivity|].
  split.
  { split; [apply tz_textb_ok; vm_compute; reflexivity|]. split; [split; [apply tz_textb_ok; vm_compute; reflexivity|]|].
    - split; [reflexivity|]. split; [reflexivity|]. split; reflexivity.
    - apply tz_textb_ok. vm_compute. reflexivity. }
  split; [left; apply named_ok; vm_compute; reflexivity|].
  split; [vm_compute; reflexivity|]. split; [vm_compute; reflexivity|]. split; vm_compute; reflexivity.
Qed.

(** With its counter or its delegate changed, a message does not pass. *)
Definition obsidian_hash : bytes := unhex "cf49f66b9ea137e11818f2a78b4b6fc9895b4e50".
Definition other_hash : bytes := unhex "c860be673ae47ec549f9b5a01a8ccb657be75b6a".
Definition with_delegate (counter : N) (h : bytes) : bytes :=
  delegation_branch ++ enc_op (TDelegation (mkTzMan (mkPkh Tz1 (unhex "9a6090844356d979899622d85ba1602740fcaa84")) 396 counter 1100 0) (Some (mkPkh Tz1 h))).
Lemma delegation_checks :
  map (fun b => verify_ui demo_oracles known (test_view (parsed_or b)) (output demo_sha256 delegation_vector))
    [delegation_blob; with_delegate 244408 obsidian_hash;
     with_delegate 244407 other_hash] = [true; false; false].
Proof. vm_compute. reflexivity. Qed.

(** ** Which cases the vectors contain *)
Lemma below (b : nat) (P : N -> Prop) : Forall P (map N.of_nat (seq 0 b)) -> forall n, n < N.of_nat b -> P n.
Proof.
  intros F n L. apply (proj1 (Forall_forall P _) F). apply in_map_iff. exists (N.to_nat n). split; [apply N2Nat.id|].
  apply in_seq. lia.
Qed.
Lemma mod_of n a b : b <> 0 -> a <> 0 -> n mod a = (n mod (a * b)) mod a.
Proof. intros B A. rewrite (N.mod_mul_r n a b A B), N.mul_comm, N.mod_add by exact A. symmetry. now apply N.mod_mod. Qed.
Definition origination_class (n : N) : N :=
  if n mod 3 =? 0 then 3 else if n mod 2 =? 0 then 2 else if n mod 5 =? 0 then 5 else 1.
Lemma classes_below : Forall (fun r => let c := origination_class r in
    (c =? 3) = (r mod 3 =? 0) /\ (c =? 2) = (N.gcd r 6 =? 2) /\ (c =? 5) = (N.gcd r 30 =? 5) /\ (c =? 1) = (N.gcd r 30 =? 1) /\
    (negb (c =? 3) && negb (c =? 2)) = (N.gcd r 6 =? 1))
  (map N.of_nat (seq 0 30)).
Proof. vm_compute. repeat (apply Forall_cons; [repeat split; reflexivity|]). apply Forall_nil. Qed.
Lemma gcd_mod_of n a b : a <> 0 -> b <> 0 -> N.gcd n a = N.gcd (n mod (a * b)) a.
Proof.
  intros A B. rewrite (N.gcd_comm n a), <- N.gcd_mod, (mod_of n a b B A), N.gcd_mod, (N.gcd_comm a) by exact A. reflexivity.
Qed.
Lemma eqb_alike a b c d : (a =? b) = (c =? d) -> (a = b <-> c = d).
Proof. rewrite <- (N.eqb_eq a b), <- (N.eqb_eq c d). now intros ->. Qed.
Lemma classes n : let c := origination_class n in
  (c = 3 <-> N.divide 3 n) /\ (c = 2 <-> N.gcd n 6 = 2) /\ (c = 5 <-> N.gcd n 30 = 5) /\ (c = 1 <-> N.gcd n 30 = 1) /\
  (c <> 3 /\ c <> 2 <-> N.gcd n 6 = 1).
Proof.
  pose proof (below 30 _ classes_below (n mod 30) ltac:(apply N.mod_lt; discriminate)) as H. cbv beta zeta in H |- *.
  replace (origination_class (n mod 30)) with (origination_class n) in H.
  2:{ unfold origination_class. now rewrite (mod_of n 3 10), (mod_of n 2 15), (mod_of n 5 6) by discriminate. }
  replace ((n mod 30) mod 3) with (n mod 3) in H by (apply (mod_of n 3 10); discriminate).
  replace (N.gcd (n mod 30) 6) with (N.gcd n 6) in H by (apply (gcd_mod_of n 6 5); discriminate).
  replace (N.gcd (n mod 30) 30) with (N.gcd n 30) in H by (apply (gcd_mod_of n 30 1); discriminate).
  destruct H as (H1 & H2 & H3 & H4 & H5).
  rewrite <- (N.mod_divide n 3) by discriminate.
  repeat (apply conj; [now apply eqb_alike|]). rewrite <- (N.eqb_eq _ 1), <- H5, andb_true_iff, !negb_true_iff, !N.eqb_neq. tauto.
Qed.

Definition distinct_holders (h : holders) : Prop := ho_ed h <> ho_k1 h /\ ho_ed h <> ho_p256 h /\ ho_k1 h <> ho_p256 h.
Lemma variety h n : distinct_holders h ->
  (origination_choice h n = Some (ho_p256 h) <-> N.divide 3 n) /\
  (origination_choice h n = Some (ho_k1 h) <-> N.gcd n 6 = 2) /\
  (origination_choice h n = None <-> N.gcd n 30 = 5) /\
  (origination_choice h n = Some (ho_ed h) <-> N.gcd n 30 = 1) /\
  (ballot_choice n = (str "yay", GRANADA) <-> N.divide 3 n) /\
  (ballot_choice n = (str "nay", FLORENCE) <-> N.gcd n 6 = 2) /\
  (ballot_choice n = (str "pass", GRANADA) <-> N.gcd n 6 = 1) /\
  (proposals_choice n = (CARTHAGE, FLORENCE) <-> N.Even n) /\ (proposals_choice n = (FLORENCE, CARTHAGE) <-> N.Odd n).
Proof.
  intros (D1 & D2 & D3). destruct (classes n) as (<- & <- & <- & <- & <-).
  unfold origination_choice, ballot_choice, proposals_choice, origination_class.
  assert (V : str "yay" <> str "nay" /\ str "yay" <> str "pass" /\ str "nay" <> str "pass") by (repeat split; discriminate).
  assert (W : CARTHAGE <> FLORENCE) by discriminate.
  generalize dependent CARTHAGE. generalize dependent FLORENCE. generalize GRANADA. generalize dependent (str "yay").
  generalize dependent (str "nay"). generalize (str "pass"). intros pass nay yay (V1 & V2 & V3) granada florence carthage W.
  rewrite <- N.even_spec, <- N.odd_spec, <- (N.negb_even n).
  assert (Ev : (n mod 2 =? 0) = N.even n).
  { pose proof (N.bit0_mod n) as B. rewrite N.bit0_odd, <- N.negb_even in B. rewrite <- B. now destruct (N.even n). }
  rewrite Ev. destruct (n mod 3 =? 0), (N.even n), (n mod 5 =? 0);
    repeat split; intros X; try discriminate X; try congruence; try (destruct X; congruence); try reflexivity;
    try (split; discriminate).
Qed.
Lemma delegations h q :
  delegation_choice h (5 * q) = (Some OBSIDIAN, str "Obsidian") /\
  delegation_choice h (5 * q + 1) = (Some (ho_ed h), ho_ed h) /\
  delegation_choice h (5 * q + 2) = (Some (ho_p256 h), ho_p256 h) /\
  delegation_choice h (5 * q + 3) = (Some (ho_k1 h), ho_k1 h) /\
  delegation_choice h (5 * q + 4) = (None, str "<REVOKED>").
Proof.
  unfold delegation_choice.
  replace (5 * q) with (q * 5) by lia. replace ((q * 5) mod 5) with 0 by (symmetry; apply N.mod_mul; discriminate).
  assert (M : forall k, k < 5 -> (q * 5 + k) mod 5 = k).
  { intros k K. rewrite N.add_comm, N.mod_add by discriminate. now apply N.mod_small. }
  rewrite (M 1), (M 2), (M 3), (M 4) by reflexivity. repeat split; reflexivity.
Qed.
Lemma needed h iters : distinct_holders h ->
  ((exists n, n < iters /\ origination_choice h n = None) <-> 5 < iters) /\
  ((exists n, n < iters /\ fst (delegation_choice h n) = None) <-> 4 < iters) /\
  ((exists n, n < iters /\ fst (ballot_choice n) = str "nay") <-> 2 < iters).
Proof.
  intros D. split; [|split].
  - split.
    + intros (n & L & E). destruct (variety h n D) as (_ & _ & V & _). apply V in E.
      destruct (N.lt_ge_cases n 5) as [L5|]; [exfalso|lia].
      assert (K : n = 0 \/ n = 1 \/ n = 2 \/ n = 3 \/ n = 4) by lia.
      destruct K as [->|[->|[->|[->| ->]]]]; vm_compute in E; discriminate E.
    + intros L. exists 5. split; [exact L|reflexivity].
  - split.
    + intros (n & L & E). destruct (N.lt_ge_cases n 4) as [L4|]; [exfalso|lia].
      assert (K : n = 0 \/ n = 1 \/ n = 2 \/ n = 3) by lia.
      destruct K as [->|[->|[->| ->]]]; discriminate E.
    + intros L. exists 4. split; [exact L|reflexivity].
  - split.
    + intros (n & L & E). destruct (N.lt_ge_cases n 2) as [L2|]; [exfalso|lia].
      assert (K : n = 0 \/ n = 1) by lia. destruct K as [->| ->]; vm_compute in E; discriminate E.
    + intros L. exists 2. split; [exact L|reflexivity].
Qed.
Lemma holders_distinct : distinct_holders vector_holders.
Proof. repeat split; discriminate. Qed.
Lemma first_originations : map (origination_choice vector_holders) (map N.of_nat (seq 0 10)) =
  let h := vector_holders in map (fun k => nth k [None; Some (ho_ed h); Some (ho_k1 h); Some (ho_p256 h)] None) [3; 1; 2; 3; 2; 0; 3; 1; 2; 3]%nat.
Proof. vm_compute. reflexivity. Qed.
