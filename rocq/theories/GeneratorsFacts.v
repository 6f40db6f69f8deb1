(** Lemmas about the generated vectors. *)
From Coq Require Import NArith ZArith Bool Arith String List Lia.
From Coq Require Import ZifyBool ZifyNat ZifyN.
From Verif Require Import Base BaseFacts Codecs CodecsFacts Oracles Address AddressSpec AddressFacts
  Text TextSpec TextFacts TextExamples Bakers BakersSpec BakersFacts
  Operations OperationsSpec OperationsFacts OperationsExamples Device Screens ScreensSpec ScreensFacts ScreensViews ScreensPages
  ScreensExamples ClientText Zuit ZuitFacts ZuitExamples Generators GeneratorsSpec.
Import ListNotations.
Open Scope string_scope.
Open Scope list_scope.
Open Scope N_scope.

(** ** Amounts *)

Lemma shift_bounds m : 0 < m -> m < 2 ^ 53 -> 2 ^ 52 * MUTEZ_MULT <= m * 2 ^ js_shift m < 2 ^ 53 * MUTEZ_MULT.
Proof.
  intros P B. unfold js_shift. cbv zeta.
  pose proof (N.log2_spec m P) as [L1 L2]. set (a := N.log2 m) in *.
  assert (A : a < 53) by (apply (N.pow_lt_mono_r_iff 2); lia).
  assert (E : 2 ^ (71 - a) * 2 ^ a = 2 ^ 71) by (rewrite <- N.pow_add_r; f_equal; lia).
  assert (E2 : 2 ^ (71 - a) * 2 ^ N.succ a = 2 ^ 72) by (rewrite <- N.pow_add_r; f_equal; lia).
  assert (Q : 0 < 2 ^ (71 - a)) by (apply N.neq_0_lt_0, N.pow_nonzero; lia).
  assert (S1 : 2 ^ (71 - a + 1) = 2 ^ (71 - a) * 2) by (rewrite N.pow_add_r; reflexivity).
  unfold MUTEZ_MULT. destruct (2 ^ 52 * 1000000 <=? m * 2 ^ (71 - a)) eqn:T.
  - split; [now apply N.leb_le|].
    assert (m * 2 ^ (71 - a) < 2 ^ 72) by (rewrite <- E2; nia).
    eapply N.lt_le_trans; [eassumption|]. vm_compute. discriminate.
  - apply N.leb_gt in T. rewrite S1.
    assert (2 ^ 71 <= m * 2 ^ (71 - a)) by (rewrite <- E; nia).
    assert (X : 2 ^ 52 * 1000000 <= 2 ^ 71 * 2) by (vm_compute; discriminate).
    assert (Y : 2 * (2 ^ 52 * 1000000) = 2 ^ 53 * 1000000) by reflexivity. lia.
Qed.
Lemma mantissa_close m : let x := m * 2 ^ js_shift m in
  2 * x <= 2 * MUTEZ_MULT * js_mantissa m + MUTEZ_MULT /\ 2 * MUTEZ_MULT * js_mantissa m <= 2 * x + MUTEZ_MULT.
Proof.
  cbv zeta. unfold js_mantissa. cbv zeta. set (x := m * 2 ^ js_shift m). clearbody x.
  pose proof (N.div_mod x MUTEZ_MULT ltac:(discriminate)) as D. pose proof (N.mod_lt x MUTEZ_MULT ltac:(discriminate)) as L.
  set (q := x / MUTEZ_MULT) in *. set (r := x mod MUTEZ_MULT) in *. clearbody q r. subst x. unfold MUTEZ_MULT in *.
  destruct (1000000 <? 2 * r) eqn:E1; cbn [orb]; [lia|]. destruct (2 * r =? 1000000) eqn:E2; cbn [andb]; [|lia].
  destruct (N.odd q); lia.
Qed.
(** Below 2^33 tez the closest multiple of a millionth is the amount. *)
Lemma closest_exact m : m < 2 ^ 33 * MUTEZ_MULT -> js_closest (js_mantissa m) (js_shift m) = m.
Proof.
  intros B. unfold js_closest. destruct (mantissa_close m) as [C1 C2]. cbv zeta in C1, C2.
  set (s := js_shift m) in *. set (k := js_mantissa m) in *.
  assert (G : MUTEZ_MULT < 2 ^ s).
  { destruct (N.eq_dec m 0) as [->|Nz]; [subst s; vm_compute; reflexivity|].
    assert (B' : m < 2 ^ 53) by (eapply N.lt_trans; [exact B|vm_compute; reflexivity]).
    destruct (shift_bounds m ltac:(lia) B') as [S1 _]. fold s in S1.
    assert (T : 19 < s).
    { destruct (N.lt_ge_cases 19 s) as [|T]; [assumption|exfalso].
      assert (2 ^ s <= 2 ^ 19) by (apply N.pow_le_mono_r; lia).
      assert (m * 2 ^ s < (2 ^ 33 * MUTEZ_MULT) * 2 ^ 19).
      { eapply N.le_lt_trans; [apply N.mul_le_mono_l; eassumption|]. apply N.mul_lt_mono_pos_r; [vm_compute; reflexivity|exact B]. }
      assert (E : 2 ^ 33 * MUTEZ_MULT * 2 ^ 19 = 2 ^ 52 * MUTEZ_MULT) by reflexivity. lia. }
    eapply N.lt_le_trans; [|apply N.pow_le_mono_r; [discriminate|apply N.le_succ_l in T; exact T]]. vm_compute. reflexivity. }
  rewrite N.pow_add_r. change (2 ^ 1) with 2. clearbody s k. set (p := 2 ^ s) in *. clearbody p.
  symmetry. apply (N.div_unique _ (p * 2) m (2 * MUTEZ_MULT * k + p - m * (p * 2))); unfold MUTEZ_MULT in *; lia.
Qed.

Lemma dec_repeat k l : dec (repeat 48 k ++ l) = dec l.
Proof. induction k as [|k IH]; [reflexivity|]. cbn [repeat app]. rewrite dec_cons, IH. lia. Qed.
Lemma fixed_decimal n : shows_decimal 6 n (js_fixed n).
Proof.
  unfold js_fixed. cbv zeta. unfold js_integer. destruct (itoa_spec n) as (D & P & V).
  set (ds := itoa n) in *. clearbody ds.
  set (w := repeat 48 (7 - List.length ds) ++ ds).
  assert (Dw : all_digits w).
  { apply Forall_app. split; [|exact D]. apply Forall_forall. intros x X. apply repeat_spec in X. subst x. unfold is_digit. lia. }
  assert (Vw : dec w = n) by (unfold w; now rewrite dec_repeat).
  assert (Lw : List.length w = Nat.max 7 (List.length ds)) by (unfold w; rewrite app_length, repeat_length; lia).
  assert (E : w = firstn (List.length w - 6) w ++ skipn (List.length w - 6) w) by (symmetry; apply firstn_skipn).
  set (ip := firstn (List.length w - 6) w) in *. set (fp := skipn (List.length w - 6) w) in *.
  assert (Li : List.length ip = (List.length w - 6)%nat) by (unfold ip; rewrite firstn_length; lia).
  assert (Lf : List.length fp = 6%nat) by (unfold fp; rewrite skipn_length; lia).
  assert (Dif : all_digits ip /\ all_digits fp) by (apply Forall_app; rewrite <- E; exact Dw).
  exists ip, fp. split; [reflexivity|]. split; [apply Dif|]. split; [apply Dif|]. split; [exact Lf|]. split.
  - destruct (Nat.le_gt_cases (List.length ds) 7) as [H|H].
    + destruct ip as [|c [|c' ip']]; cbn [List.length] in Li; [lia| |lia].
      destruct (N.eq_dec c 48) as [->|Nc]; [now left|]. right. split; [discriminate|exact Nc].
    + right. assert (Ew : w = ds) by (unfold w; replace (7 - List.length ds)%nat with 0%nat by lia; reflexivity).
      destruct P as [->|[P1 P2]]; [cbn [List.length] in H; lia|].
      destruct ip as [|c ip']; [cbn [List.length] in Li; lia|]. split; [discriminate|].
      rewrite <- Ew, E in P2. exact P2.
  - rewrite E, dec_app in Vw. unfold len in Vw. rewrite Lf in Vw. exact Vw.
Qed.
Lemma currency_shows m : m < 2 ^ 33 * MUTEZ_MULT -> exists t, ledger_fmt_currency m = [t] /\ shows_decimal 6 m t.
Proof. intros B. unfold ledger_fmt_currency. rewrite closest_exact by exact B. eexists. split; [reflexivity|apply fixed_decimal]. Qed.

(** ** Texts are determined *)

Lemma hex_value_inj a b v : hex_value a = Some v -> hex_value b = Some v -> a = b.
Proof.
  unfold hex_value. intros A B.
  repeat match type of A with (if ?c then _ else _) = _ => destruct c eqn:? end; try discriminate A;
  repeat match type of B with (if ?c then _ else _) = _ => destruct c eqn:? end; try discriminate B; injection A as <-; injection B as B; lia.
Qed.
Lemma hex_value_lt a v : hex_value a = Some v -> v < 16.
Proof.
  unfold hex_value. intros A.
  repeat match type of A with (if ?c then _ else _) = _ => destruct c eqn:? end; try discriminate A; injection A as <-; lia.
Qed.
Lemma reads_hex_text : forall d s t, reads_hex s = Some d -> reads_hex t = Some d -> s = t.
Proof.
  induction d as [|x d IH]; intros s t A B.
  - destruct s as [|a [|a' s]]; cbn [reads_hex] in A; [|discriminate A|].
    2:{ destruct (hex_value a), (hex_value a'), (reads_hex s); discriminate A. }
    destruct t as [|b [|b' t]]; cbn [reads_hex] in B; [reflexivity|discriminate B|].
    destruct (hex_value b), (hex_value b'), (reads_hex t); discriminate B.
  - destruct s as [|a [|a' s]]; cbn [reads_hex] in A; try discriminate A.
    destruct (hex_value a) as [u|] eqn:E1; [|discriminate A]. destruct (hex_value a') as [u'|] eqn:E2; [|discriminate A].
    destruct (reads_hex s) as [ds|] eqn:E3; [|discriminate A]. injection A as A1 A2.
    destruct t as [|b [|b' t]]; cbn [reads_hex] in B; try discriminate B.
    destruct (hex_value b) as [v|] eqn:F1; [|discriminate B]. destruct (hex_value b') as [v'|] eqn:F2; [|discriminate B].
    destruct (reads_hex t) as [dt|] eqn:F3; [|discriminate B]. injection B as B1 B2. subst ds dt.
    pose proof (hex_value_lt _ _ E1). pose proof (hex_value_lt _ _ E2). pose proof (hex_value_lt _ _ F1). pose proof (hex_value_lt _ _ F2).
    assert (v = u) by lia. assert (v' = u') by lia. subst v v'.
    rewrite (hex_value_inj _ _ _ E1 F1), (hex_value_inj _ _ _ E2 F2), (IH s t E3 F3). reflexivity.
Qed.
Lemma tz_text_same h2 k d s t : tz_text h2 k d s -> tz_text h2 k d t -> s = t.
Proof. intros (x & A & B) (y & C & D). rewrite A in C. injection C as <-. exact (reads58_text _ _ _ B D). Qed.
Lemma integer_same z s t : shows_integer z s -> shows_integer z t -> s = t.
Proof.
  unfold shows_integer. destruct (z <? 0)%Z.
  - intros (a & -> & A) (b & -> & B). now rewrite (shows_number_inj _ _ _ A B).
  - apply shows_number_inj.
Qed.
Lemma entitles_same h s t : entitles h s -> entitles h t -> s = t.
Proof.
  destruct h as [w|w n]; cbn [entitles]; [now intros -> ->|]. intros (a & A & ->) (b & B & ->). now rewrite (shows_number_inj _ _ _ A B).
Qed.

(** ** Texts are printable *)

Lemma digits_printable t : all_digits t -> printable t.
Proof. intros D. unfold printable. eapply Forall_impl; [|exact D]. cbv beta. unfold is_digit. lia. Qed.
Lemma hex_printable : forall n t d, (List.length t <= n)%nat -> reads_hex t = Some d -> printable t.
Proof.
  induction n as [|n IH]; intros t d L E.
  - destruct t; [constructor|cbn [List.length] in L; lia].
  - destruct t as [|a [|b t]]; [constructor|discriminate E|]. cbn [reads_hex] in E. cbn [List.length] in L.
    destruct (hex_value a) as [u|] eqn:E1; [|discriminate E]. destruct (hex_value b) as [v|] eqn:E2; [|discriminate E].
    destruct (reads_hex t) as [r|] eqn:E3; [|discriminate E].
    assert (H : forall c w, hex_value c = Some w -> 32 <= c <= 127).
    { clear. intros c w H. unfold hex_value in H.
      repeat match type of H with (if ?c then _ else _) = _ => destruct c eqn:? end; try discriminate H; lia. }
    constructor; [exact (H _ _ E1)|]. constructor; [exact (H _ _ E2)|]. apply (IH t r); [lia|exact E3].
Qed.

(** ** Passing *)

(** An entry that says of item [i] what row [r] says. *)
Definition tells (O : oracles) (table : list baker) (r : row) (e : expected) : Prop :=
  exists m, ex_message e = [m] /\ entitles (fst r) (ex_title e) /\ shows O table (snd r) m /\
    utf8 (ex_title e) = true /\ utf8 m = true /\ ~ unshowable O (snd r) /\
    forall t, shows O table (snd r) t -> t = m.

Lemma starts_with_refl l : starts_with l l = true.
Proof. induction l as [|a l IH]; [reflexivity|]. cbn [starts_with]. now rewrite N.eqb_refl. Qed.

Lemma told_passes O table v rows ui : oracles_ok O -> sorted table -> names_fit table -> names_utf8 table ->
  view_wf v -> view_shown v = Some rows -> (List.length rows < 256)%nat ->
  Forall2 (tells O table) rows ui -> map ex_idx ui = seq 0 (List.length rows) ->
  verify_ui O table v ui = true.
Proof.
  intros K St F U W E L T X. unfold verify_ui.
  pose proof (drive_review O table true v rows K St F U W E) as D. cbv zeta in D.
  rewrite N.mod_small in D by (unfold len; lia). replace (N.to_nat (len rows)) with (List.length rows) in D by (unfold len; lia).
  assert (Q : forall k r, nth_error rows k = Some r -> exists e, nth_error ui k = Some e /\ tells O table r e).
  { clear -T. induction T as [|r e rows ui H _ IH]; intros [|k] x N; try discriminate N.
    - cbn [nth_error] in *. injection N as <-. now exists e.
    - exact (IH k x N). }
  destruct (drive O table 18 4096 true v) as [out|].
  2:{ destruct D as (k & r & _ & N & Us & _). destruct (Q k r N) as (e & _ & m & _ & _ & _ & _ & _ & Ns & _). contradiction. }
  destruct D as [Lo D]. apply forallb_forall. intros e He. apply In_nth_error in He as [k Hk].
  assert (Lu : List.length rows = List.length ui) by (clear -T; induction T as [|? ? ? ? _ _ IH]; [reflexivity|cbn [List.length]; now rewrite IH]).
  assert (Bk : (k < List.length rows)%nat) by (rewrite Lu; apply nth_error_Some; rewrite Hk; discriminate).
  assert (Ek : ex_idx e = k).
  { assert (Y : nth_error (map ex_idx ui) k = Some (ex_idx e)) by (now apply map_nth_error). rewrite X in Y.
    rewrite (nth_error_nth' _ 0%nat) in Y by (rewrite seq_length; exact Bk). rewrite seq_nth in Y by exact Bk. now injection Y. }
  destruct (nth_error rows k) as [r|] eqn:N; [|apply nth_error_None in N; lia].
  destruct (Q k r N) as (e' & Hk' & m & Em & A & B & U1 & U2 & Ns & Un). rewrite Hk in Hk'. injection Hk' as <-.
  destruct (D k r Bk N) as (pages & P & kb & mb & -> & A' & B' & _).
  unfold entry_matches. rewrite Ek, P, Em. cbn [combine forallb page_matches].
  rewrite (entitles_same _ _ _ A' A), (Un _ B'), U1, U2, starts_with_refl. cbn [andb].
  replace (bytes_eqb m m) with true by (symmetry; now apply bytes_eqb_eq). reflexivity.
Qed.

(** ** Rows *)

Section Rows.
  Context (O : oracles) (table : list baker).
  Hypothesis K : oracles_ok O.
  Hypothesis U : names_utf8 table.

  Lemma tells_word h w i k t : ex_title (entry i k t) = str k -> entitles h (str k) -> utf8 (str k) = true -> utf8 (chars w) = true ->
    t = [chars w] -> tells O table (h --> FWord w) (entry i k t).
  Proof.
    intros _ A B C ->. exists (chars w). split; [reflexivity|]. split; [exact A|]. split; [reflexivity|].
    split; [exact B|]. split; [exact C|]. split; [intros X; exact X|]. intros x X. exact X.
  Qed.
  Lemma tells_ident h kind d i k t : entitles h (str k) -> utf8 (str k) = true -> tz_text (twice O) kind d t ->
    tells O table (h --> FIdent kind d) (entry i k (ledger_fmt t)).
  Proof.
    intros A B T. exists t. split; [reflexivity|]. split; [exact A|]. split; [exact T|]. split; [exact B|].
    destruct T as (x & T1 & T2). split; [exact (utf8_printable _ (reads58_printable _ _ T2))|]. split.
    - cbn [unshowable snd row_of]. rewrite T1. discriminate.
    - intros y Y. apply (tz_text_same (twice O) kind d); [exact Y|]. now exists x.
  Qed.
  Lemma tells_tez h n i k : entitles h (str k) -> utf8 (str k) = true -> n < 2 ^ 28 ->
    tells O table (h --> FTez (z_of n)) (entry i k (ledger_fmt_currency n)).
  Proof.
    intros A B L. destruct (currency_shows n) as (t & E & T).
    { eapply N.lt_trans; [exact L|]. vm_compute. reflexivity. }
    rewrite E. exists t. split; [reflexivity|]. split; [exact A|].
    assert (V : z_value (z_of n) = n) by (unfold z_value, z_of; cbn [z_bytes]; unfold magnitude; apply enc_nat_value).
    split; [cbn [shows snd row_of]; now rewrite V|]. split; [exact B|]. split.
    - apply utf8_printable. destruct T as (ip & fp & -> & D1 & D2 & _). apply Forall_app. split; [now apply digits_printable|].
      constructor; [lia|now apply digits_printable].
    - split; [intros X; apply large_numbers in X; lia|]. intros x X. cbn [shows snd row_of] in X. rewrite V in X.
      exact (shows_decimal_inj _ _ _ _ X T).
  Qed.
  Lemma tells_nat h n i k : entitles h (str k) -> utf8 (str k) = true -> n < 2 ^ 28 ->
    tells O table (h --> FNat (z_of n)) (entry i k (ledger_fmt (js_integer n))).
  Proof.
    intros A B L. pose proof (itoa_spec n) as T. exists (itoa n). split; [reflexivity|]. split; [exact A|].
    assert (V : z_value (z_of n) = n) by (unfold z_value, z_of; cbn [z_bytes]; unfold magnitude; apply enc_nat_value).
    split; [cbn [shows snd row_of]; now rewrite V|]. split; [exact B|].
    split; [apply utf8_printable, digits_printable, T|].
    split; [intros X; apply large_numbers in X; lia|]. intros x X. cbn [shows snd row_of] in X. rewrite V in X.
    exact (shows_number_inj _ _ _ X T).
  Qed.
  Lemma tells_int h n i k : entitles h (str k) -> utf8 (str k) = true ->
    tells O table (h --> FInt (Z.of_N n)) (entry i k (ledger_fmt (js_integer n))).
  Proof.
    intros A B. pose proof (itoa_spec n) as T. exists (itoa n). split; [reflexivity|]. split; [exact A|].
    assert (T' : shows_integer (Z.of_N n) (itoa n)).
    { unfold shows_integer. replace (Z.of_N n <? 0)%Z with false by lia. now rewrite N2Z.id. }
    split; [exact T'|]. split; [exact B|]. split; [apply utf8_printable, digits_printable, T|].
    split; [intros X; exact X|]. intros x X. exact (integer_same _ _ _ X T').
  Qed.
  Lemma tells_hex h d i k : entitles h (str k) -> utf8 (str k) = true -> bytes_ok d ->
    tells O table (h --> FHex d) (entry i k (ledger_fmt (hex d))).
  Proof.
    intros A B D. pose proof (hex_reads d D) as T. exists (hex d). split; [reflexivity|]. split; [exact A|].
    split; [exact T|]. split; [exact B|]. split; [exact (utf8_printable _ (hex_printable _ _ _ (le_n _) T))|].
    split; [intros X; exact X|]. intros x X. exact (reads_hex_text _ _ _ X T).
  Qed.
  Lemma tells_digest h x d i k : entitles h (str k) -> utf8 (str k) = true -> o_sha256 O x = Some d ->
    tells O table (h --> FDigest x) (entry i k (ledger_fmt (hex d))).
  Proof.
    intros A B E. pose proof (hex_reads d (proj2 (ok_sha256 O K _ _ E))) as T. exists (hex d). split; [reflexivity|].
    split; [exact A|]. split; [now exists d|]. split; [exact B|].
    split; [exact (utf8_printable _ (hex_printable _ _ _ (le_n _) T))|].
    split; [cbn [unshowable snd row_of]; rewrite E; discriminate|]. intros y (d' & E' & Y). rewrite E in E'. injection E' as <-.
    exact (reads_hex_text _ _ _ Y T).
  Qed.
  (** The delegate: [t] its address, [name] what the generator calls it. *)
  Lemma tells_baker h p t name i k : entitles h (str k) -> utf8 (str k) = true -> is_address O t p ->
    (exists b, In b table /\ entry_for p b) /\ (forall b, In b table -> entry_for p b -> bk_name b = name) \/
    (forall b, In b table -> ~ entry_for p b) /\ Some t = Some name ->
    tells O table (h --> FBaker (kind_curve (pkh_kind p)) (pkh_hash p)) (entry i k (ledger_fmt name)).
  Proof.
    intros A B T C. exists name. split; [reflexivity|]. split; [exact A|].
    assert (Ns : ~ unshowable O (FBaker (kind_curve (pkh_kind p)) (pkh_hash p))).
    { cbn [unshowable]. destruct T as (x & T1 & _). rewrite T1. discriminate. }
    destruct C as [[(b & Ib & Eb) All]|[None_ E]].
    - split; [left; exists b; split; [exact Ib|]; destruct Eb as [E1 E2]; split; [exact E1|]; split; [exact E2|]; apply All; [exact Ib|split; assumption]|].
      split; [exact B|]. split.
      { rewrite <- (All b Ib Eb). unfold names_utf8 in U. rewrite Forall_forall in U. now apply U. }
      split; [exact Ns|]. intros x [(b' & Ib' & E1 & E2 & <-)|[N _]]; [apply All; [exact Ib'|split; assumption]|].
      exfalso. destruct Eb as [E1 E2]. exact (N b Ib E1 E2).
    - injection E as <-. split; [right; split; [intros b Ib E1 E2; exact (None_ b Ib (conj E1 E2))|exact T]|].
      split; [exact B|]. split; [destruct T as (x & _ & T2); exact (utf8_printable _ (reads58_printable _ _ T2))|].
      split; [exact Ns|]. intros x [(b' & Ib' & E1 & E2 & _)|[_ X]]; [exfalso; exact (None_ b' Ib' (conj E1 E2))|].
      exact (tz_text_same _ _ _ _ _ X T).
  Qed.
End Rows.
