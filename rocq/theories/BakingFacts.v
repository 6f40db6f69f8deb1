(** Facts about the consensus parsers and the watermark check. *)
From Coq Require Import List NArith ZArith Lia Bool Arith ZifyBool ZifyNat ZifyN.
From Verif Require Import Base BaseFacts Codecs CodecsSpec CodecsFacts Baking BakingSpec.
Import ListNotations.
Open Scope N_scope.

(** ** The order *)

Lemma cpos_lt_irrefl a : ~ cpos_lt a a.
Proof. destruct a as [l []|l r []]; cbn; lia. Qed.

Lemma cpos_lt_trans a b c : cpos_lt a b -> cpos_lt b c -> cpos_lt a c.
Proof.
  destruct a as [l e|l r k], b as [l' e'|l' r' k'], c as [l'' e''|l'' r'' k'']; cbn; try tauto.
  - destruct e, e', e''; intros; lia.
  - intros. lia.
Qed.

Lemma cpos_le_lt_trans a b c : cpos_le a b -> cpos_lt b c -> cpos_lt a c.
Proof. intros [->|H] H'; [exact H'|eapply cpos_lt_trans; eassumption]. Qed.

Lemma cpos_le_refl a : cpos_le a a.
Proof. left; reflexivity. Qed.

Lemma cpos_le_trans a b c : cpos_le a b -> cpos_le b c -> cpos_le a c.
Proof.
  intros [->|H] [->|H']; [left; reflexivity|right; exact H'|right; exact H|right].
  eapply cpos_lt_trans; eassumption.
Qed.

(** ** The check is exactly the order *)

Lemma block_validate_iff b hw :
  block_validate b hw = true <->
  bd_level b < 2 ^ 31 /\ cpos_lt (wm_pos hw) (wm_pos (block_watermark b)).
Proof.
  unfold block_validate, block_watermark, is_valid_blocklevel.
  destruct hw as [l he|l he r hp], (bd_fitness b) as [p f|f r']; cbn [wm_pos cpos_lt];
    try (destruct he); try (destruct hp); cbn [kind_rank]; lia.
Qed.

Definition endo_level (e : endorsement) : N :=
  match e with EmmyE _ _ l => l | TBE _ _ _ _ l _ _ => l end.

Lemma endo_validate_iff e hw :
  endo_validate e hw = true <->
  endo_level e < 2 ^ 31 /\ cpos_lt (wm_pos hw) (wm_pos (endo_watermark e)).
Proof.
  unfold endo_validate, is_valid_blocklevel.
  destruct e as [c br l'|c br ty sl l' r' ph], hw as [l he|l he r hp];
    cbn [wm_pos endo_watermark endo_level]; try destruct ty; cbn [wm_pos cpos_lt endo_type_eqb];
    try (destruct he); try (destruct hp); cbn [kind_rank]; lia.
Qed.

(** ** Reading fields by offset *)

Lemma field_skip i n (a b : bytes) : (length a <= i)%nat -> field i n (a ++ b) = field (i - length a) n b.
Proof. intros H. unfold field. rewrite skipn_app, skipn_all2 by lia. reflexivity. Qed.

Lemma field_here n (a b : bytes) : length a = n -> field 0 n (a ++ b) = unbe a.
Proof. intros H. unfold field. cbn [skipn]. now rewrite firstn_app_exact. Qed.

Lemma field_cons i n x (l : bytes) : field (S i) n (x :: l) = field i n l.
Proof. reflexivity. Qed.

Lemma field_sub i n (a b : bytes) : (i + n <= length a)%nat -> field i n (a ++ b) = field i n a.
Proof.
  intros H. unfold field. rewrite skipn_app, firstn_app.
  rewrite skipn_length. replace (n - (length a - i))%nat with 0%nat by lia.
  cbn [firstn]. now rewrite app_nil_r.
Qed.

Lemma be_uint_inv' n l rem v : be_uint n l = POk rem v ->
  exists a, l = a ++ rem /\ length a = N.to_nat n /\ v = unbe a.
Proof.
  unfold be_uint, pbind. destruct (take n l) as [rem' a| |] eqn:E; try discriminate.
  intros H; injection H as <- <-. apply take_inv in E as [-> E].
  exists a. unfold len in E. repeat split; lia.
Qed.

Lemma take_inv' n l rem a : take n l = POk rem a -> l = a ++ rem /\ length a = N.to_nat n.
Proof. intros H. apply take_inv in H as [-> H]. unfold len in H. split; [reflexivity|lia]. Qed.

Lemma tag1_inv t l rem v : tag1 t l = POk rem v -> l = t :: rem /\ v = t.
Proof.
  destruct l as [|b l]; cbn; [discriminate|]. destruct (N.eqb_spec b t) as [->|]; [|discriminate].
  intros H; injection H as <- <-. split; reflexivity.
Qed.

Lemma tag1_not_panic t l : tag1 t l <> PPanic.
Proof. destruct l as [|b l]; cbn; [discriminate|]. destruct (b =? t); discriminate. Qed.

(** Evaluate [field]s of a list given as a concatenation of parts of known length. *)
Ltac fields :=
  repeat match goal with
         | |- context [field ?i ?n (?x :: ?l)] =>
           change (field i n (x :: l)) with (field (pred i) n l); cbn [pred]
         | L : length ?a = ?n |- context [field 0 ?n (?a ++ ?b)] => rewrite (field_here n a b L)
         | L : length ?a = ?k |- context [field ?i ?n (?a ++ ?b)] =>
           rewrite (field_skip i n a b) by (rewrite L; lia); rewrite L; cbn [Nat.sub]
         end.

(** Peel the parsers of a successful parse one by one. *)
Ltac peel H :=
  match type of H with
  | pbind ?e _ = POk _ _ =>
    let E := fresh "E" in
    destruct e eqn:E; cbn [pbind] in H; [|discriminate H|discriminate H];
    first [ apply be_uint_inv' in E as (? & -> & ? & ->)
          | apply take_inv' in E as [-> ?]
          | apply tag1_inv in E as [-> ->]
          | idtac ]
  end.

(** ** Fitness *)

Lemma emmy_fitness_not_panic l : emmy_fitness_parse l <> PPanic.
Proof.
  unfold emmy_fitness_parse, pbind. pose proof (take_not_panic 4 l).
  destruct (take 4 l) as [rem a| |]; try congruence.
  pose proof (tag1_not_panic 0 rem). destruct (tag1 0 rem); try congruence.
  pose proof (tag1_not_panic 1 rem). destruct (tag1 1 rem); congruence.
Qed.

Lemma emmy_fitness_inv l rem p f : emmy_fitness_parse l = POk rem (p, f) ->
  exists a, l = a ++ p :: rem /\ length a = 4%nat /\ (p = 0 \/ p = 1) /\ f = rem.
Proof.
  unfold emmy_fitness_parse. intros H. peel H.
  destruct (tag1 0 rem0) eqn:E0; [|destruct (tag1 1 rem0) eqn:E1|]; try discriminate;
    injection H as <- <- <-.
  - apply tag1_inv in E0 as [-> ->]. eexists; repeat split; eauto.
  - apply tag1_inv in E1 as [-> ->]. eexists; repeat split; eauto.
Qed.

Lemma tb_fitness_inv l rem f r : tb_fitness_parse l = POk rem (f, r) ->
  exists a, l = a ++ 2 :: rem /\ length a = 4%nat /\ f = rem /\ (4 <= length rem)%nat /\
            r = unbe (skipn (length rem - 4) rem).
Proof.
  unfold tb_fitness_parse. intros H. peel H. peel H.
  destruct (Nat.ltb_spec (length rem1) 4) as [|L]; [discriminate|].
  destruct (be_u32 (skipn (length rem1 - 4) rem1)) as [rem2 v| |] eqn:E;
    cbn [pbind] in H; try discriminate.
  injection H as <- <- <-. apply be_uint_inv' in E as (b & E & Lb & ->).
  exists a. repeat split; auto.
  assert (length rem2 = 0%nat).
  { apply (f_equal (@length N)) in E. rewrite skipn_length, app_length in E. lia. }
  destruct rem2; [|discriminate]. now rewrite app_nil_r in E; rewrite E.
Qed.

Lemma fitness_emmy_inv l rem p f : fitness_parse l = POk rem (FEmmy p f) ->
  exists a, l = a ++ p :: f /\ length a = 4%nat /\ (p = 0 \/ p = 1).
Proof.
  unfold fitness_parse.
  destruct (emmy_fitness_parse l) as [r1 [p1 f1]| |] eqn:E1,
           (tb_fitness_parse l) as [r2 [f2 n2]| |]; try discriminate.
  intros H; injection H as <- <- <-.
  apply emmy_fitness_inv in E1 as (a & -> & ? & ? & ->). exists a. auto.
Qed.

Lemma fitness_tb_inv l rem f r : fitness_parse l = POk rem (FTenderbake f r) ->
  exists a, l = a ++ 2 :: f /\ length a = 4%nat /\ (4 <= length f)%nat /\
            r = unbe (skipn (length f - 4) f).
Proof.
  unfold fitness_parse.
  destruct (emmy_fitness_parse l) as [r1 [p1 f1]| |],
           (tb_fitness_parse l) as [r2 [f2 n2]| |] eqn:E2; try discriminate.
  intros H; injection H as <- <- <-.
  apply tb_fitness_inv in E2 as (a & -> & ? & -> & ? & ->). exists a. auto.
Qed.

(** The panic of a fitness: version 2 with fewer than four bytes after it. *)
Definition short_tb_fitness (l : bytes) : Prop :=
  (length l < 9)%nat /\ nth_error l 4 = Some 2.

Lemma take4_split (l : bytes) : (4 <= length l)%nat ->
  exists a b, l = a ++ b /\ length a = 4%nat /\ take 4 l = POk b a.
Proof.
  intros H. exists (firstn 4 l), (skipn 4 l). rewrite firstn_skipn, firstn_length.
  repeat split; [lia|]. unfold take, len.
  destruct (N.leb_spec 4 (N.of_nat (length l))); [reflexivity|lia].
Qed.

Lemma take_short n l : len l < n -> take n l = PErr.
Proof. intros. unfold take. destruct (N.leb_spec n (len l)); [lia|reflexivity]. Qed.

Lemma fitness_panic_iff l : fitness_parse l = PPanic <-> short_tb_fitness l.
Proof.
  unfold short_tb_fitness.
  destruct (Nat.ltb_spec (length l) 4) as [S|S].
  - unfold fitness_parse, emmy_fitness_parse, tb_fitness_parse.
    rewrite take_short by (unfold len; lia). cbn [pbind]. split; [discriminate|].
    intros [_ H]. assert (nth_error l 4 <> None) as H' by congruence.
    apply nth_error_Some in H'. lia.
  - destruct (take4_split l S) as (a & b & -> & La & T).
    unfold fitness_parse, emmy_fitness_parse, tb_fitness_parse. rewrite T. cbn [pbind].
    rewrite nth_error_app2, La, app_length, La by lia.
    replace (4 - 4)%nat with 0%nat by lia.
    destruct b as [|v b]; cbn [tag1 nth_error]; [split; [discriminate|intros [_ H]; discriminate]|].
    cbn [length].
    destruct (N.eqb_spec v 0) as [->|]; [cbn; split; [discriminate|intros [_ H]; discriminate]|].
    destruct (N.eqb_spec v 1) as [->|]; [cbn; split; [discriminate|intros [_ H]; discriminate]|].
    destruct (N.eqb_spec v 2) as [->|]; cbn [pbind];
      [|split; [discriminate|intros [_ H]; congruence]].
    destruct (Nat.ltb_spec (length b) 4); [split; [intros _; split; [lia|reflexivity]|reflexivity]|].
    destruct (be_u32 (skipn (length b - 4) b)) eqn:E; cbn [pbind].
    + split; [discriminate|lia].
    + split; [discriminate|lia].
    + now apply be_uint_not_panic in E.
Qed.

(** ** Blocks *)

Lemma be_uint_eq k (l : bytes) : (N.to_nat k <= length l)%nat ->
  be_uint k l = POk (skipn (N.to_nat k) l) (field 0 (N.to_nat k) l).
Proof.
  intros H. unfold be_uint, take, len, field.
  destruct (N.leb_spec k (N.of_nat (length l))); [reflexivity|lia].
Qed.

Lemma take_eq k (l : bytes) : (N.to_nat k <= length l)%nat ->
  take k l = POk (skipn (N.to_nat k) l) (slice 0 (N.to_nat k) l).
Proof.
  intros H. unfold take, len. destruct (N.leb_spec k (N.of_nat (length l))); [reflexivity|lia].
Qed.

Lemma skipn_skipn' {A} x y (l : list A) : skipn x (skipn y l) = skipn (y + x) l.
Proof.
  revert l; induction y; intros; [reflexivity|].
  destruct l; cbn [skipn Nat.add]; [now rewrite !skipn_nil|apply IHy].
Qed.

Lemma field_skipn i n k (l : bytes) : field i n (skipn k l) = field (k + i) n l.
Proof. unfold field. now rewrite skipn_skipn'. Qed.

Lemma slice_skipn {A} i n k (l : list A) : slice i n (skipn k l) = slice (k + i) n l.
Proof. unfold slice. now rewrite skipn_skipn'. Qed.

Lemma be_uint_short k l : len l < k -> be_uint k l = PErr.
Proof. intros. unfold be_uint. now rewrite take_short. Qed.

(** The parsed block, field by field at its offset. *)
Definition block_fields (l : bytes) (fit : fitness) : block_data :=
  mkBlock (field 0 4 l) (field 4 4 l) (field 8 1 l) (slice 9 32 l) (field 41 8 l)
          (field 49 1 l) (slice 50 32 l) fit.

Lemma block_parse_eq l : (86 <= length l)%nat ->
  block_parse l =
  (let* (_, f) := take (field 82 4 l) (skipn 86 l) in
   let* (rem, fit) := fitness_parse f in POk rem (block_fields l fit)).
Proof.
  intros H. unfold block_parse, be_u32, le_u8, be_u64.
  do 8 (first [rewrite be_uint_eq by (rewrite ?skipn_length; lia)
              |rewrite take_eq by (rewrite ?skipn_length; lia)];
        cbn [pbind]; rewrite ?skipn_skipn').
  rewrite !field_skipn, !slice_skipn. reflexivity.
Qed.

Ltac peel_short :=
  match goal with
  | |- pbind (be_uint ?k ?l) _ = PErr =>
    let H := fresh in
    destruct (N.ltb_spec (len l) k) as [H|H];
    [now rewrite (be_uint_short k l H)|
     rewrite (be_uint_eq k l) by (unfold len in H; lia); cbn [pbind]; rewrite ?skipn_skipn']
  | |- pbind (take ?k ?l) _ = PErr =>
    let H := fresh in
    destruct (N.ltb_spec (len l) k) as [H|H];
    [now rewrite (take_short k l H)|
     rewrite (take_eq k l) by (unfold len in H; lia); cbn [pbind]; rewrite ?skipn_skipn']
  end.

Lemma block_parse_short l : (length l < 86)%nat -> block_parse l = PErr.
Proof.
  intros S. unfold block_parse, be_u32, le_u8, be_u64.
  repeat peel_short. exfalso.
  repeat match goal with H : _ <= len _ |- _ => unfold len in H; rewrite ?skipn_length in H end.
  lia.
Qed.

(** The fitness field of the bytes after the preamble of a block. *)
Definition fitness_bytes (l : bytes) : bytes := slice 86 (N.to_nat (field 82 4 l)) l.

(** Everything the app does with a block it can parse. *)
Lemma block_parse_inv l rem b : block_parse l = POk rem b ->
  (86 + N.to_nat (field 82 4 l) <= length l)%nat /\
  b = block_fields l (bd_fitness b) /\
  fitness_parse (fitness_bytes l) = POk rem (bd_fitness b).
Proof.
  destruct (Nat.ltb_spec (length l) 86) as [S|S].
  - rewrite block_parse_short by exact S. discriminate.
  - rewrite block_parse_eq by exact S. unfold fitness_bytes.
    destruct (N.ltb_spec (len (skipn 86 l)) (field 82 4 l)) as [L|L].
    + rewrite take_short by exact L. discriminate.
    + rewrite take_eq by (unfold len in L; lia). cbn [pbind].
      rewrite slice_skipn. replace (86 + 0)%nat with 86%nat by lia.
      destruct (fitness_parse _) as [rem' fit| |]; cbn [pbind]; try discriminate.
      intros H; injection H as <- <-. cbn [block_fields bd_fitness].
      unfold len in L. rewrite skipn_length in L. repeat split. lia.
Qed.

Lemma block_panic_iff l : block_parse l = PPanic <->
  (86 + N.to_nat (field 82 4 l) <= length l)%nat /\ short_tb_fitness (fitness_bytes l).
Proof.
  rewrite <- fitness_panic_iff.
  destruct (Nat.ltb_spec (length l) 86) as [S|S].
  - rewrite block_parse_short by exact S. split; [discriminate|intros [H _]; lia].
  - rewrite block_parse_eq by exact S. unfold fitness_bytes.
    destruct (N.ltb_spec (len (skipn 86 l)) (field 82 4 l)) as [L|L];
      unfold len in L; rewrite skipn_length in L.
    + rewrite take_short by (unfold len; rewrite skipn_length; lia). cbn [pbind].
      split; [discriminate|]. intros [H _]. lia.
    + rewrite take_eq by (rewrite skipn_length; lia). cbn [pbind].
      rewrite slice_skipn. replace (86 + 0)%nat with 86%nat by lia.
      destruct (fitness_parse _) as [rem' fit| |]; cbn [pbind];
        split; try discriminate; try (intros [_ X]; discriminate X); intros _;
        [split; [lia|reflexivity]|reflexivity].
Qed.

Lemma block_pos m l rem b p : block_parse l = POk rem b -> preemble_of_byte m = Some p ->
  block_matches p b = true -> signed_pos (m :: l) = Some (wm_pos (block_watermark b)).
Proof.
  intros H P M. apply block_parse_inv in H as (L & -> & F).
  unfold block_matches, block_watermark in *. cbn [block_fields bd_fitness bd_level] in *.
  assert (Hm : (m = 0x01 /\ p = PreBlock) \/ (m = 0x11 /\ p = PreTBBlock)).
  { unfold preemble_of_byte in P.
    repeat match type of P with
           | (if ?x =? ?y then _ else _) = _ =>
             destruct (N.eqb_spec x y); [injection P as <-; first [discriminate M|auto]|]
           end; discriminate. }
  destruct Hm as [[-> ->]|[-> ->]]; destruct (bd_fitness b) as [v f|f r]; try discriminate M;
    cbn [signed_pos wm_pos N.eqb Pos.eqb].
  - now rewrite field_cons.
  - rewrite !field_cons. do 2 f_equal.
    apply fitness_tb_inv in F as (a & F & La & Lf & ->).
    assert (LF : length (fitness_bytes l) = N.to_nat (field 82 4 l)).
    { unfold fitness_bytes. apply slice_length. lia. }
    rewrite F, app_length in LF. cbn [length] in LF.
    replace (87 + N.to_nat (field 82 4 l) - 4)%nat
      with (S (86 + (N.to_nat (field 82 4 l) - 4)))%nat by lia.
    rewrite field_cons. unfold field at 1. rewrite <- skipn_skipn'.
    rewrite <- (firstn_skipn (N.to_nat (field 82 4 l)) (skipn 86 l)).
    change (firstn (N.to_nat (field 82 4 l)) (skipn 86 l)) with (fitness_bytes l).
    rewrite F, <- LF, skipn_app, firstn_app.
    rewrite skipn_app. rewrite (skipn_all2 a) by lia. cbn [app].
    replace (length a + S (length f) - 4 - length a)%nat with (S (length f - 4)) by lia.
    cbn [skipn]. rewrite firstn_all2 by (rewrite skipn_length; lia).
    rewrite skipn_length.
    replace (4 - (length f - (length f - 4)))%nat with 0%nat by lia.
    cbn [firstn]. now rewrite app_nil_r.
Qed.

(** ** Endorsements *)

Lemma emmy_endo_inv l rem e : emmy_endo_parse l = POk rem e ->
  exists chain branch level,
    l = chain ++ branch ++ 0 :: level ++ rem /\ length chain = 4%nat /\
    length branch = 32%nat /\ length level = 4%nat /\
    e = EmmyE (unbe chain) branch (unbe level).
Proof.
  unfold emmy_endo_parse. intros H. do 4 peel H. injection H as <- <-.
  do 3 eexists. repeat split; assumption.
Qed.

Lemma tb_endo_inv l rem e : tb_endo_parse l = POk rem e ->
  exists chain branch t ty slot level round payload,
    l = chain ++ branch ++ t :: slot ++ level ++ round ++ payload ++ rem /\
    length chain = 4%nat /\ length branch = 32%nat /\ endo_type_of_tag t = Some ty /\
    length slot = 2%nat /\ length level = 4%nat /\ length round = 4%nat /\
    length payload = 32%nat /\
    e = TBE (unbe chain) branch ty (unbe slot) (unbe level) (unbe round) payload.
Proof.
  unfold tb_endo_parse. intros H. do 3 peel H.
  destruct x0 as [|t [|]]; try discriminate.
  replace (unbe [t]) with t in H by reflexivity.
  destruct (endo_type_of_tag t) as [ty|] eqn:T; [|discriminate].
  do 4 peel H. injection H as <- <-.
  do 8 eexists. repeat split; eassumption.
Qed.

Lemma emmy_endo_not_panic l : emmy_endo_parse l <> PPanic.
Proof.
  unfold emmy_endo_parse, be_u32.
  repeat match goal with
         | |- pbind ?e _ <> PPanic =>
           let E := fresh in
           destruct e eqn:E; cbn [pbind]; try discriminate;
           try (now apply be_uint_not_panic in E); try (now apply take_not_panic in E);
           try (now apply tag1_not_panic in E)
         end.
Qed.

Lemma tb_endo_not_panic l : tb_endo_parse l <> PPanic.
Proof.
  unfold tb_endo_parse, be_u32, le_u8, be_u16.
  repeat (match goal with
         | |- pbind ?e _ <> PPanic =>
           let E := fresh in
           destruct e eqn:E; cbn [pbind]; try discriminate;
           try (now apply be_uint_not_panic in E); try (now apply take_not_panic in E)
         | |- (match ?e with _ => _ end) <> PPanic => destruct e; try discriminate
         end).
Qed.

Lemma endo_not_panic l : endo_parse l <> PPanic.
Proof.
  unfold endo_parse. pose proof (emmy_endo_not_panic l).
  destruct (emmy_endo_parse l); try congruence. apply tb_endo_not_panic.
Qed.

Lemma endo_pos m l rem e p : endo_parse l = POk rem e -> preemble_of_byte m = Some p ->
  endo_matches p e = true -> signed_pos (m :: l) = Some (wm_pos (endo_watermark e)).
Proof.
  intros H P M.
  assert (Hm : (m = 0x02 /\ p = PreEndorsement) \/ (m = 0x12 /\ p = PreTBPreendorsement)
               \/ (m = 0x13 /\ p = PreTBEndorsement)).
  { unfold preemble_of_byte in P.
    repeat match type of P with
           | (if ?x =? ?y then _ else _) = _ =>
             destruct (N.eqb_spec x y); [injection P as <-; first [discriminate M|auto]|]
           end; discriminate. }
  unfold endo_parse in H. destruct (emmy_endo_parse l) as [r1 e1| |] eqn:E; try discriminate.
  - injection H as <- <-.
    apply emmy_endo_inv in E as (ch & br & lv & -> & Lc & Lb & Ll & ->).
    destruct Hm as [[-> ->]|[[-> ->]|[-> ->]]]; try discriminate M.
    cbn [signed_pos N.eqb Pos.eqb endo_watermark wm_pos]. rewrite field_cons.
    rewrite !field_skip by lia. rewrite Lc, Lb. cbn [Nat.sub]. rewrite field_cons.
    rewrite field_here by assumption. reflexivity.
  - apply tb_endo_inv in H as (ch & br & t & ty & sl & lv & rd & pl & -> & Lc & Lb & T & Ls & Ll & Lr & Lp & ->).
    destruct Hm as [[-> ->]|[[-> ->]|[-> ->]]]; destruct ty; try discriminate M;
      cbn [signed_pos N.eqb Pos.eqb endo_watermark wm_pos]; fields; reflexivity.
Qed.

(** ** The check performed before a consensus signature *)

Lemma field_lt i (l : bytes) : bytes_ok l -> field i 4 l < 2 ^ 32.
Proof.
  intros H. unfold field.
  pose proof (unbe_lt _ (bytes_ok_firstn 4 _ (bytes_ok_skipn i _ H))) as U.
  assert (256 ^ len (firstn 4 (skipn i l)) <= 256 ^ 4).
  { apply N.pow_le_mono_r; [discriminate|]. unfold len. rewrite firstn_length. lia. }
  change (2 ^ 32) with (256 ^ 4). lia.
Qed.

Lemma signed_pos_wm_ok d w : bytes_ok d -> signed_pos d = Some (wm_pos w) -> wm_ok w.
Proof.
  intros B. unfold signed_pos. destruct d as [|m d]; [discriminate|].
  pose proof (fun i => field_lt i (m :: d) B) as F.
  repeat destruct (m =? _); intros H; try discriminate; injection H as H;
    destruct w as [l he|l he r hp]; cbn [wm_pos] in H; try discriminate H;
    injection H; intros; subst; cbn [wm_ok]; try split; apply F.
Qed.

Lemma consensus_check_ok m p l hw wm :
  preemble_of_byte m = Some p -> consensus_check p l hw = Some (AOk wm) ->
  signed_pos (m :: l) = Some (wm_pos wm) /\ cpos_lt (wm_pos hw) (wm_pos wm) /\ wm_level wm < 2 ^ 31.
Proof.
  intros P H.
  assert (
    (exists rem e, endo_parse l = POk rem e /\ endo_matches p e = true /\
                   endo_validate e hw = true /\ wm = endo_watermark e) \/
    (exists rem b, block_parse l = POk rem b /\ block_matches p b = true /\
                   block_validate b hw = true /\ wm = block_watermark b)) as [C|C].
  { unfold consensus_check in H.
    destruct p; try discriminate H;
    first [ destruct (endo_parse l) as [rem e| |] eqn:E; try discriminate H;
            destruct (endo_matches _ e) eqn:M; cbn [andb] in H; [|discriminate H];
            destruct (endo_validate e hw) eqn:V; [|discriminate H]; injection H as <-;
            left; exists rem, e; auto
          | destruct (block_parse l) as [rem b| |] eqn:E; try discriminate H;
            destruct (block_matches _ b) eqn:M; cbn [andb] in H; [|discriminate H];
            destruct (block_validate b hw) eqn:V; [|discriminate H]; injection H as <-;
            right; exists rem, b; auto ]. }
  - destruct C as (rem & e & E & M & V & ->).
    split; [now apply (endo_pos m l rem e p)|].
    apply endo_validate_iff in V as [V1 V2]. split; [exact V2|].
    destruct e as [? ? ?|? ? [] ? ? ? ?]; exact V1.
  - destruct C as (rem & b & E & M & V & ->).
    split; [now apply (block_pos m l rem b p)|].
    apply block_validate_iff in V as [V1 V2]. split; [exact V2|].
    unfold block_watermark. destruct (bd_fitness b); exact V1.
Qed.

Lemma consensus_check_cases p l hw r : consensus_check p l hw = r ->
  match r with
  | Some (AOk wm) =>
    (exists rem e, endo_parse l = POk rem e /\ endo_matches p e = true /\
                   endo_validate e hw = true /\ wm = endo_watermark e) \/
    (exists rem b, block_parse l = POk rem b /\ block_matches p b = true /\
                   block_validate b hw = true /\ wm = block_watermark b)
  | Some (AErr e) => e = DataInvalid \/ e = CommandNotAllowed
  | None => block_parse l = PPanic
  end.
Proof.
  intros <-. unfold consensus_check.
  destruct p; try (cbn; tauto);
    first [ pose proof (endo_not_panic l) as NP;
            destruct (endo_parse l) as [rem e| |] eqn:E; try tauto; try congruence;
            destruct (endo_matches _ e) eqn:M; cbn [andb]; [|cbn; tauto];
            destruct (endo_validate e hw) eqn:V; [|cbn; tauto]; left; exists rem, e; auto
          | destruct (block_parse l) as [rem b| |] eqn:E; try tauto;
            destruct (block_matches _ b) eqn:M; cbn [andb]; [|cbn; tauto];
            destruct (block_validate b hw) eqn:V; [|cbn; tauto]; right; exists rem, b; auto ].
Qed.

(** ** Kind bytes *)

Lemma nth_error_slice (l : bytes) i n k : (k < n)%nat -> (i + n <= length l)%nat ->
  nth_error (slice i n l) k = nth_error l (i + k).
Proof.
  intros K L. unfold slice.
  rewrite <- (firstn_skipn i l) at 2. rewrite nth_error_app2 by (rewrite firstn_length; lia).
  rewrite firstn_length. replace (i + k - min i (length l))%nat with k by lia.
  rewrite <- (firstn_skipn n (skipn i l)) at 2. rewrite nth_error_app1; [reflexivity|].
  rewrite firstn_length, skipn_length. lia.
Qed.

Lemma consensus_kind m p l hw wm :
  preemble_of_byte m = Some p -> consensus_check p l hw = Some (AOk wm) -> kind_agrees (m :: l).
Proof.
  intros P H. apply consensus_check_cases in H as [(rem & e & E & M & _ & _)|(rem & b & E & M & _ & _)].
  - assert (Hm : (m = 0x02 /\ p = PreEndorsement) \/ (m = 0x12 /\ p = PreTBPreendorsement)
               \/ (m = 0x13 /\ p = PreTBEndorsement)).
    { unfold preemble_of_byte in P.
      repeat match type of P with
             | (if ?x =? ?y then _ else _) = _ =>
               destruct (N.eqb_spec x y); [injection P as <-; first [discriminate M|auto]|]
             end; discriminate. }
    assert (Q : nth_error l 36 = Some (match e with EmmyE _ _ _ => 0
                                       | TBE _ _ EPre _ _ _ _ => 20 | _ => 21 end)).
    { unfold endo_parse in E. destruct (emmy_endo_parse l) as [r1 e1| |] eqn:E1; try discriminate.
      - injection E as <- <-. apply emmy_endo_inv in E1 as (ch & br & lv & -> & Lc & Lb & Ll & ->).
        rewrite app_assoc, nth_error_app2; rewrite app_length, Lc, Lb; [reflexivity|lia].
      - apply tb_endo_inv in E as (ch & br & t & ty & sl & lv & rd & pl & -> & Lc & Lb & T & _ & _ & _ & _ & ->).
        rewrite app_assoc, nth_error_app2; rewrite app_length, Lc, Lb; [|lia]. cbn.
        unfold endo_type_of_tag in T.
        destruct (N.eqb_spec t 20) as [->|]; [injection T as <-; reflexivity|].
        destruct (N.eqb_spec t 21) as [->|]; [injection T as <-; reflexivity|discriminate]. }
    unfold kind_agrees. change (nth_error (m :: l) 37) with (nth_error l 36). rewrite Q.
    destruct Hm as [[-> ->]|[[-> ->]|[-> ->]]];
      destruct e as [? ? ?|? ? [] ? ? ? ?]; try discriminate M; reflexivity.
  - assert (Hm : (m = 0x01 /\ p = PreBlock) \/ (m = 0x11 /\ p = PreTBBlock)).
    { unfold preemble_of_byte in P.
      unfold block_matches in M.
      repeat match type of P with
             | (if ?x =? ?y then _ else _) = _ =>
               destruct (N.eqb_spec x y); [injection P as <-; first [discriminate M|auto]|]
             end; discriminate. }
    apply block_parse_inv in E as (L & _ & F).
    assert (LF : length (fitness_bytes l) = N.to_nat (field 82 4 l)).
    { unfold fitness_bytes. apply slice_length. lia. }
    unfold kind_agrees, block_matches in *.
    change (nth_error (m :: l) 91) with (nth_error l 90).
    destruct Hm as [[-> ->]|[-> ->]]; destruct (bd_fitness b) as [v f|f r]; try discriminate M.
    + apply fitness_emmy_inv in F as (a & F & La & Hv).
      assert (N4 : nth_error (fitness_bytes l) 4 = Some v)
        by (rewrite F, nth_error_app2, La by lia; reflexivity).
      assert (5 <= length (fitness_bytes l))%nat by (rewrite F, app_length, La; cbn; lia).
      unfold fitness_bytes in N4. rewrite nth_error_slice in N4 by lia.
      change (86 + 4)%nat with 90%nat in N4.
      change (nth_error l 90 = Some 0 \/ nth_error l 90 = Some 1).
      rewrite N4. destruct Hv as [-> | ->]; auto.
    + apply fitness_tb_inv in F as (a & F & La & _).
      assert (N4 : nth_error (fitness_bytes l) 4 = Some 2)
        by (rewrite F, nth_error_app2, La by lia; reflexivity).
      assert (5 <= length (fitness_bytes l))%nat by (rewrite F, app_length, La; cbn; lia).
      unfold fitness_bytes in N4. rewrite nth_error_slice in N4 by lia.
      exact N4.
Qed.

(** ** Decoding the protocol encodings *)

Lemma enc_fitness_cons f fs : enc_fitness (f :: fs) = be 4 (len f) ++ f ++ enc_fitness fs.
Proof. unfold enc_fitness. cbn [map concat]. now rewrite app_assoc. Qed.

Lemma enc_fitness_app a b : enc_fitness (a ++ b) = enc_fitness a ++ enc_fitness b.
Proof. unfold enc_fitness. now rewrite map_app, concat_app. Qed.

Lemma fitness_emmy_enc v more : v = 0 \/ v = 1 ->
  fitness_parse (enc_fitness (emmy_fit v more)) = POk (enc_fitness more) (FEmmy v (enc_fitness more)).
Proof.
  intros Hv. unfold emmy_fit. rewrite enc_fitness_cons.
  unfold fitness_parse, emmy_fitness_parse, tb_fitness_parse.
  rewrite take_app by apply len_be. cbn [pbind app tag1].
  destruct Hv as [-> | ->]; reflexivity.
Qed.

Lemma fitness_tb_enc more round : round < 2 ^ 32 ->
  exists f, fitness_parse (enc_fitness ([2] :: more ++ [be 4 round])) = POk f (FTenderbake f round).
Proof.
  intros R. rewrite enc_fitness_cons, enc_fitness_app.
  set (f := enc_fitness more ++ enc_fitness [be 4 round]). exists f.
  unfold fitness_parse, emmy_fitness_parse, tb_fitness_parse.
  rewrite take_app by apply len_be. cbn [pbind app tag1 N.eqb Pos.eqb].
  assert (Hf : f = (enc_fitness more ++ be 4 4) ++ be 4 round).
  { unfold f. rewrite enc_fitness_cons, len_be. cbn [N.of_nat].
    unfold enc_fitness at 2. cbn [map concat]. rewrite app_nil_r. apply app_assoc. }
  assert (Lf : length f = (length (enc_fitness more ++ be 4 4) + 4)%nat)
    by (rewrite Hf, app_length, be_length; reflexivity).
  destruct (Nat.ltb_spec (length f) 4); [lia|].
  assert (E : be_u32 (skipn (length f - 4) f) = POk [] round).
  { replace (length f - 4)%nat with (length (enc_fitness more ++ be 4 4)) by lia.
    rewrite Hf, skipn_app_exact by reflexivity.
    pose proof (be_uint_app 4 round []) as E. rewrite app_nil_r in E. apply E. exact R. }
  rewrite E. reflexivity.
Qed.

Lemma block_parse_enc h fit rem : header_ok h ->
  fitness_parse (enc_fitness (h_fitness h)) = POk rem fit ->
  block_parse (enc_header h) =
  POk rem (mkBlock (h_chain h) (h_level h) (h_proto h) (h_pred h) (h_time h) (h_vpass h)
                   (h_ophash h) fit).
Proof.
  intros (H1 & H2 & H3 & H4 & H5 & H6 & H7 & H8) F.
  unfold block_parse, enc_header, be_u32, le_u8, be_u64.
  rewrite (be_uint_app 4) by exact H1. cbn [pbind].
  rewrite (be_uint_app 4) by exact H2. cbn [pbind].
  rewrite (be_uint_app 1) by exact H3. cbn [pbind].
  rewrite take_app by (unfold len; lia). cbn [pbind].
  rewrite (be_uint_app 8) by exact H5. cbn [pbind].
  rewrite (be_uint_app 1) by exact H6. cbn [pbind].
  rewrite take_app by (unfold len; lia). cbn [pbind].
  rewrite (be_uint_app 4) by exact H8. cbn [pbind].
  rewrite take_app by reflexivity. cbn [pbind].
  rewrite F. reflexivity.
Qed.

Lemma emmy_endo_parse_enc chain branch level rest :
  chain < 2 ^ 32 -> length branch = 32%nat -> level < 2 ^ 32 ->
  endo_parse (enc_emmy_endo chain branch level rest) = POk rest (EmmyE chain branch level).
Proof.
  intros H1 H2 H3. unfold endo_parse, emmy_endo_parse, enc_emmy_endo, be_u32.
  rewrite (be_uint_app 4) by exact H1. cbn [pbind].
  rewrite take_app by (unfold len; lia). cbn [pbind app tag1 N.eqb].
  rewrite (be_uint_app 4) by exact H3. reflexivity.
Qed.

Lemma tb_endo_parse_enc chain branch is_pre slot level round payload rest :
  chain < 2 ^ 32 -> length branch = 32%nat -> slot < 2 ^ 16 -> level < 2 ^ 32 -> round < 2 ^ 32 ->
  length payload = 32%nat ->
  endo_parse (enc_tb_endo chain branch is_pre slot level round payload rest) =
  POk rest (TBE chain branch (if is_pre then EPre else EEnd) slot level round payload).
Proof.
  intros H1 H2 H3 H4 H5 H6.
  unfold endo_parse, emmy_endo_parse, tb_endo_parse, enc_tb_endo, be_u32, le_u8, be_u16.
  rewrite (be_uint_app 4) by exact H1. cbn [pbind].
  rewrite take_app by (unfold len; lia). cbn [pbind].
  replace (tag1 0 ([if is_pre then 20 else 21] ++ be 2 slot ++ be 4 level ++ be 4 round ++ payload ++ rest))
    with (@PErr N) by (destruct is_pre; reflexivity).
  cbn [pbind].
  replace [if is_pre then 20 else 21] with (be 1 (if is_pre then 20 else 21))
    by (destruct is_pre; reflexivity).
  rewrite (be_uint_app 1) by (destruct is_pre; reflexivity). cbn [pbind].
  replace (endo_type_of_tag (if is_pre then 20 else 21)) with (Some (if is_pre then EPre else EEnd))
    by (destruct is_pre; reflexivity).
  rewrite (be_uint_app 2) by exact H3. cbn [pbind].
  rewrite (be_uint_app 4) by exact H4. cbn [pbind].
  rewrite (be_uint_app 4) by exact H5. cbn [pbind].
  rewrite take_app by (unfold len; lia). reflexivity.
Qed.
