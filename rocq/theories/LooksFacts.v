(** Screens that look the same are of requests that are alike. *)
From Coq Require Import NArith ZArith Bool Arith String List Lia.
From Coq Require Import ZifyBool ZifyNat ZifyN.
From Verif Require Import Base BaseFacts Codecs CodecsFacts Oracles Address AddressSpec AddressFacts
  AddressExamples Text TextSpec TextFacts TextExamples Bakers BakersSpec BakersFacts
  Operations OperationsSpec OperationsFacts Device Screens ScreensSpec ScreensFacts ScreensViews
  ScreensPages LooksSpec.
Import ListNotations.
Open Scope string_scope.
Open Scope list_scope.
Open Scope N_scope.

(** ** Texts of fields *)

Lemma shows_number_value n n' t : shows_number n t -> shows_number n' t -> n = n'.
Proof. intros (_ & _ & <-) (_ & _ & <-). reflexivity. Qed.

Lemma minus_not_number n t : ~ shows_number n (45 :: t).
Proof. intros (D & _ & _). apply Forall_inv in D. unfold is_digit in D. lia. Qed.

Lemma shows_integer_value z z' t : shows_integer z t -> shows_integer z' t -> z = z'.
Proof.
  unfold shows_integer. destruct (Z.ltb_spec z 0), (Z.ltb_spec z' 0).
  - intros (a & -> & A) (b & E & B). injection E as <-. pose proof (shows_number_value _ _ _ A B). lia.
  - intros (a & -> & A) B. destruct (minus_not_number _ _ B).
  - intros A (b & -> & B). destruct (minus_not_number _ _ A).
  - intros A B. pose proof (shows_number_value _ _ _ A B). lia.
Qed.

Lemma text_value_lt t : forall acc v, text_value acc t = Some v ->
  v < (acc + 1) * 58 ^ len t.
Proof.
  induction t as [|c t IH]; intros acc v E; cbn [text_value] in E.
  - injection E as <-. change (len []) with 0. lia.
  - destruct (index_of c base58_digits) as [d|] eqn:D; [|discriminate].
    apply IH in E. assert (d < 58).
    { assert (H : forall l x i, index_of x l = Some i -> i < len l).
      { clear. induction l as [|y l IH]; intros x i H; cbn [index_of] in H; [discriminate|].
        destruct (y =? x); [injection H as <-; unfold len; cbn [List.length]; lia|].
        destruct (index_of x l) as [j|] eqn:J; [|discriminate]. injection H as <-.
        apply IH in J. unfold len in *. cbn [List.length]. lia. }
      apply H in D. exact D. }
    replace (len (c :: t)) with (N.succ (len t)) by (unfold len; cbn [List.length]; lia).
    rewrite N.pow_succ_r'. nia.
Qed.

(** A name of less than 34 characters is not an address. *)
Lemma name_not_address O k data t : oracles_ok O -> bytes_ok data -> length data = 20%nat ->
  In k [KindTz1; KindTz2; KindTz3] -> (length t < 34)%nat -> ~ tz_text (twice O) k data t.
Proof.
  intros K B L Hk Lt (h & H & V & _).
  destruct (tz_bytes_ok _ _ _ _ K B H) as [_ C]. apply text_value_lt in V.
  assert (P : 256 ^ 26 <= unbe (kind_prefix k ++ data ++ firstn 4 h)).
  { etransitivity; [|apply unbe_head_pos].
    - apply N.pow_le_mono_r; [lia|]. rewrite !len_app. unfold len.
      destruct Hk as [<-|[<-|[<-|[]]]]; cbn [kind_prefix List.length]; lia.
    - destruct Hk as [<-|[<-|[<-|[]]]]; cbn [kind_prefix app nth]; lia.
    - destruct Hk as [<-|[<-|[<-|[]]]]; discriminate. }
  assert (Q : 58 ^ len t <= 58 ^ 33) by (apply N.pow_le_mono_r; unfold len; lia).
  assert (58 ^ 33 < 256 ^ 26) by reflexivity. lia.
Qed.

Section Reads.
  Variable O : oracles.
  Variable table : list baker.
  Hypothesis K : oracles_ok O.
  Hypothesis F : names_fit table.

  (** A screen, that is a title and a text, reads as a row. *)
  Definition reads (r : row) (s : bytes * bytes) : Prop :=
    entitles (fst r) (fst s) /\ shows O table (snd r) (snd s).

  Lemma ident_same k k' d d' t : hash_ok (kind_data_length k) d -> hash_ok (kind_data_length k') d' ->
    shows O table (FIdent k d) t -> shows O table (FIdent k' d') t -> k = k' /\ d = d'.
  Proof. intros [B L] [B' L'] S S'. exact (tz_text_inj O k k' d d' t K B B' L L' S S'). Qed.

  Lemma addr_kind_length c : kind_data_length (AddressSpec.addr_kind c) = 20%nat.
  Proof. now destruct c. Qed.

  Lemma person_same p q t : hash_ok 20 (snd p) -> hash_ok 20 (snd q) ->
    shows O table (FIdent (AddressSpec.addr_kind (fst p)) (snd p)) t ->
    shows O table (FIdent (AddressSpec.addr_kind (fst q)) (snd q)) t -> same_person p q.
  Proof. intros Hp Hq. apply ident_same; rewrite addr_kind_length; auto. Qed.

  Lemma baker_name_short b : In b table -> (length (bk_name b) < 34)%nat.
  Proof. intros H. exact (proj2 (proj1 (Forall_forall _ _) F b H)). Qed.

  Lemma addr_kind_in c : In (AddressSpec.addr_kind c) [KindTz1; KindTz2; KindTz3].
  Proof. destruct c; cbn; auto. Qed.

  Lemma addr_prefix_inj c c' :
    kind_prefix (AddressSpec.addr_kind c) = kind_prefix (AddressSpec.addr_kind c') ->
    AddressSpec.addr_kind c = AddressSpec.addr_kind c'.
  Proof. destruct c, c'; intros E; auto; discriminate. Qed.

  Lemma baker_same c h c' h' t : hash_ok 20 h -> hash_ok 20 h' ->
    shows O table (FBaker c h) t -> shows O table (FBaker c' h') t -> same_baker table (c, h) (c', h').
  Proof.
    intros [B L] [B' L'] [(b & I1 & P & E & N)|[_ T]] [(b' & I1' & P' & E' & N')|[_ T']].
    - right. exists b, b'. repeat split; auto. congruence.
    - exfalso. apply (name_not_address O (AddressSpec.addr_kind c') h' t); auto using addr_kind_in.
      rewrite <- N. now apply baker_name_short.
    - exfalso. apply (name_not_address O (AddressSpec.addr_kind c) h t); auto using addr_kind_in.
      rewrite <- N'. now apply baker_name_short.
    - left. apply (person_same (c, h) (c', h') t); [split|split| |]; auto.
  Qed.

  Lemma tez_same z z' t : shows O table (FTez z) t -> shows O table (FTez z') t -> same_number z z'.
  Proof. apply shows_decimal_value. Qed.
  Lemma nat_same z z' t : shows O table (FNat z) t -> shows O table (FNat z') t -> same_number z z'.
  Proof. apply shows_number_value. Qed.
  Lemma int_same z z' t : shows O table (FInt z) t -> shows O table (FInt z') t -> z = z'.
  Proof. apply shows_integer_value. Qed.
  Lemma digest_same x y t : shows O table (FDigest x) t -> shows O table (FDigest y) t -> same_digest O x y.
  Proof. intros (d & E & R) (d' & E' & R'). exists d. split; congruence. Qed.
  Lemma hex_same x y t : shows O table (FHex x) t -> shows O table (FHex y) t -> x = y.
  Proof. cbn [shows]. intros. congruence. Qed.
  Lemma hash_same x y t : shows O table (FHash x) t -> shows O table (FHash y) t ->
    exists d, o_blake2b O 32 x = Some d /\ o_blake2b O 32 y = Some d.
  Proof.
    intros (d & c & E & T & R) (d' & c' & E' & T' & R'). exists d. split; auto. rewrite E'. f_equal.
    destruct (ok_blake2b _ K _ _ _ E) as [L B]. destruct (ok_blake2b _ K _ _ _ E') as [L' B'].
    assert (X : d ++ firstn 4 c = d' ++ firstn 4 c').
    { destruct (twice_len _ _ _ K T) as [_ C]. destruct (twice_len _ _ _ K T') as [_ C'].
      apply (reads58_inj t); auto; apply bytes_ok_app; split; auto; now apply bytes_ok_firstn. }
    apply (f_equal (firstn 32)) in X. rewrite !firstn_app_l in X by assumption. now symmetry.
  Qed.
  Lemma word_not_ident s k d t : text_value 0 (chars s) = None ->
    shows O table (FWord s) t -> shows O table (FIdent k d) t -> False.
  Proof. cbn [shows]. intros E -> (h & _ & V & _). congruence. Qed.

  (** ** Rows of operations *)

  Definition starts (rows : list row) : Prop :=
    match rows with [] => True | r :: _ => fst r = Titled "Type" end.

  Lemma sheet_starts o rest : visible o = true -> starts (sheet o ++ rest).
  Proof. destruct o; intros V; (reflexivity || discriminate). Qed.
  Lemma sheets_start os : forallb visible os = true -> starts (flat_map sheet os).
  Proof.
    destruct os as [|o os]; [easy|]. cbn [forallb flat_map]. intros V. apply andb_prop in V as [V _].
    now apply sheet_starts.
  Qed.

  Lemma title_word n t : entitles (Numbered "Proposal #" n) t -> entitles (Titled "Type") t -> False.
  Proof. intros (d & _ & E) ->. discriminate. Qed.

  Lemma proposals_same ps : forall ps' n rest rest' screens,
    Forall (hash_ok 32) ps -> Forall (hash_ok 32) ps' -> starts rest -> starts rest' ->
    Forall2 reads (proposal_rows n ps ++ rest) screens ->
    Forall2 reads (proposal_rows n ps' ++ rest') screens ->
    ps = ps' /\ exists screens', Forall2 reads rest screens' /\ Forall2 reads rest' screens'.
  Proof.
    induction ps as [|p ps IH]; intros ps' n rest rest' screens W W' St St' R R'.
    - destruct ps' as [|p' ps']; [eauto|]. exfalso.
      cbn [proposal_rows app] in R, R'. inversion R' as [|r s rows ss [T _] Rs E1 E2]; subst.
      inversion R as [|r0 s0 rows0 ss0 [T0 _] Rs0 E1 E2]; subst. cbn [starts] in St. rewrite St in T0.
      exact (title_word _ _ T T0).
    - destruct ps' as [|p' ps'].
      { exfalso. cbn [proposal_rows app] in R, R'. inversion R as [|r s rows ss [T _] Rs E1 E2]; subst.
        inversion R' as [|r0 s0 rows0 ss0 [T0 _] Rs0 E1 E2]; subst. cbn [starts] in St'. rewrite St' in T0.
        exact (title_word _ _ T T0). }
      cbn [proposal_rows app] in R, R'. inversion R as [|r s rows ss [_ S1] Rs E1 E2]; subst.
      inversion R' as [|r0 s0 rows0 ss0 [_ S2] Rs0 E1 E2]; subst.
      destruct (ident_same KindProposal KindProposal p p' (snd s)) as [_ <-]; auto.
      { exact (Forall_inv W). } { exact (Forall_inv W'). }
      destruct (IH ps' (n + 1) rest rest' ss) as [<- X]; auto.
      { exact (Forall_inv_tail W). } { exact (Forall_inv_tail W'). }
  Qed.

  Lemma pull r r' rows rows' ss : Forall2 reads (r :: rows) ss -> Forall2 reads (r' :: rows') ss ->
    (exists h, entitles (fst r) h /\ entitles (fst r') h)
    /\ (exists t, shows O table (snd r) t /\ shows O table (snd r') t)
    /\ exists ss', Forall2 reads rows ss' /\ Forall2 reads rows' ss'.
  Proof.
    intros R R'. destruct ss as [|s ss]; inversion R as [|? ? ? ? [T S] Rs]; subst.
    inversion R' as [|? ? ? ? [T' S'] Rs']; subst. eauto 10.
  Qed.
  Ltac row R R' T S :=
    let ss := fresh "ss" in let R0 := fresh R in let R0' := fresh R' in
    destruct (pull _ _ _ _ _ R R') as (T & S & ss & R0 & R0'); clear R R';
    rename R0 into R; rename R0' into R'; cbn [fst snd row_of person] in T, S;
    let t := fresh "t" in let S' := fresh "S'" in destruct S as (t & S & S').

  Lemma limits_same m m' rest rest' ss :
    Forall2 reads (limits m ++ rest) ss -> Forall2 reads (limits m' ++ rest') ss ->
    (same_number (m_counter m) (m_counter m') /\ same_number (m_gas m) (m_gas m')
     /\ same_number (m_storage m) (m_storage m'))
    /\ exists ss', Forall2 reads rest ss' /\ Forall2 reads rest' ss'.
  Proof.
    unfold limits. cbn [app]. intros R R'. row R R' T1 S1. row R R' T2 S2. row R R' T3 S3.
    split; [|eauto]. repeat split; eapply nat_same; eassumption.
  Qed.

  Lemma op_alike o o' rest rest' screens : visible o = true -> visible o' = true ->
    op_wf o -> op_wf o' -> starts rest -> starts rest' ->
    Forall2 reads (sheet o ++ rest) screens -> Forall2 reads (sheet o' ++ rest') screens ->
    alike O table o o' /\ exists screens', Forall2 reads rest screens' /\ Forall2 reads rest' screens'.
  Proof.
    intros V V' W W' St St' R R'.
    assert (T : exists w w', snd (nth 0 (sheet o) ("" --> FWord "")) = FWord w
      /\ snd (nth 0 (sheet o') ("" --> FWord "")) = FWord w' /\ chars w = chars w').
    { destruct o; try discriminate; destruct o'; try discriminate;
      destruct (pull _ _ _ _ _ R R') as (_ & (t & A & A') & _);
      cbn [snd row_of shows] in A, A'; do 2 eexists; (split; [reflexivity|split; [reflexivity|congruence]]). }
    destruct T as (w & w' & Tw & Tw' & Ew).
    destruct o, o'; try discriminate; cbn [sheet nth snd row_of app] in Tw, Tw';
      try (exfalso; injection Tw as <-; injection Tw' as <-;
           repeat match goal with
                  | X : context [match ?p with Some _ => _ | None => _ end] |- _ =>
                    match type of X with chars _ = chars _ => destruct p end end;
           discriminate Ew).
    all: cbn [sheet] in R, R'; injection Tw as <-; injection Tw' as <-; rewrite <- ?app_assoc in R, R';
      cbn [app] in R, R';
      apply (pull _ _ _ _ _ R) in R' as (_ & _ & ss0 & R0 & R0'); clear R; rename R0 into R; rename R0' into R'.
    - (* transfer *)
      destruct W as ((Hs & _) & _ & Hd), W' as ((Hs' & _) & _ & Hd').
      row R R' T1 S1. row R R' T2 S2. row R R' T3 S3. row R R' T4 S4. row R R' T5 S5.
      destruct (limits_same _ _ _ _ _ R R') as [(L1 & L2 & L3) X].
      split; [|exact X]. cbn [alike].
      split; [|split; [|split]].
      + pose proof (person_same _ _ _ Hs Hs' S1 S'). pose proof (tez_same _ _ _ S4 S'2). repeat split; auto; apply H.
      + exact (tez_same _ _ _ S3 S'1).
      + destruct dest, dest0; cbn [row_of person fst snd] in T2, S2, S'0.
        * exact (person_same (_, _) (_, _) _ Hd Hd' S2 S'0).
        * destruct T2 as (x & E1 & E2). cbn [entitles] in E1, E2. subst x. discriminate E2.
        * destruct T2 as (x & E1 & E2). cbn [entitles] in E1, E2. subst x. discriminate E2.
        * destruct (ident_same KindKT1 KindKT1 _ _ _ Hd Hd' S2 S'0) as [_ E]. exact E.
      + destruct params as [[e1 c1]|], params0 as [[e2 c2]|]; try discriminate Ew; cbn [same_option]; auto.
        exact (digest_same _ _ _ S5 S'3).
    - (* delegation *)
      destruct W as ((Hs & _) & Hd), W' as ((Hs' & _) & Hd').
      row R R' T1 S1. row R R' T2 S2. row R R' T3 S3.
      destruct (limits_same _ _ _ _ _ R R') as [(L1 & L2 & L3) X].
      split; [|exact X]. cbn [alike]. split.
      + pose proof (person_same _ _ _ Hs Hs' S1 S'). pose proof (tez_same _ _ _ S3 S'1). repeat split; auto; apply H.
      + destruct delegate as [[c h]|], delegate0 as [[c' h']|]; try discriminate Ew; cbn [same_option]; auto.
        exact (baker_same _ _ _ _ _ Hd Hd' S2 S'0).
    - (* endorsement *)
      row R R' T1 S1. split; [exact (int_same _ _ _ S1 S')|eauto].
    - exfalso. row R R' T1 S1. destruct T1 as (x & E1 & E2). cbn [entitles] in E1, E2. subst x. discriminate E2.
    - exfalso. row R R' T1 S1. destruct T1 as (x & E1 & E2). cbn [entitles] in E1, E2. subst x. discriminate E2.
    - (* endorsement with slot *)
      row R R' T1 S1. row R R' T2 S2. row R R' T3 S3. row R R' T4 S4. split; [|eauto].
      destruct W as (Hb & _), W' as (Hb' & _).
      destruct (ident_same KindBranch KindBranch _ _ _ Hb Hb' S1 S') as [_ E1].
      pose proof (int_same _ _ _ S2 S'0). pose proof (int_same _ _ _ S4 S'2). repeat split; auto. lia.
    - (* ballot *)
      destruct W as (Hs & _ & Hp), W' as (Hs' & _ & Hp').
      row R R' T1 S1. row R R' T2 S2. row R R' T3 S3. row R R' T4 S4. split; [|eauto].
      destruct (ident_same KindProposal KindProposal _ _ _ Hp Hp' S3 S'1) as [_ E1].
      split; [exact (person_same _ _ _ Hs Hs' S1 S')|]. split; [exact (int_same _ _ _ S2 S'0)|].
      split; [exact E1|]. cbn [shows] in S4, S'2. subst t2. destruct v, v0; try reflexivity; discriminate S'2.
    - (* reveal *)
      destruct W as ((Hs & _) & Hd), W' as ((Hs' & _) & Hd').
      row R R' T1 S1. row R R' T2 S2. row R R' T3 S3.
      destruct (limits_same _ _ _ _ _ R R') as [(L1 & L2 & L3) X].
      split; [|exact X]. cbn [alike]. split.
      + pose proof (person_same _ _ _ Hs Hs' S1 S'). pose proof (tez_same _ _ _ S3 S'1). repeat split; auto; apply H.
      + apply (ident_same (pk_kind (fst pk)) (pk_kind (fst pk0)) _ _ t0); auto;
          [destruct pk as [[] ?]|destruct pk0 as [[] ?]]; auto.
    - (* proposals *)
      destruct W as (Hs & _ & Hp), W' as (Hs' & _ & Hp').
      row R R' T1 S1. row R R' T2 S2.
      destruct (proposals_same _ _ _ _ _ _ Hp Hp' St St' R R') as [E X]. split; [|exact X].
      split; [exact (person_same _ _ _ Hs Hs' S1 S')|]. split; [exact (int_same _ _ _ S2 S'0)|exact E].
    - (* origination *)
      destruct W as ((Hs & _) & _ & Hd), W' as ((Hs' & _) & _ & Hd').
      row R R' T1 S1. row R R' T2 S2. row R R' T3 S3. row R R' T4 S4. row R R' T5 S5. row R R' T6 S6.
      destruct (limits_same _ _ _ _ _ R R') as [(L1 & L2 & L3) X].
      split; [|exact X]. cbn [alike]. split; [|split; [|split; [|split]]].
      + pose proof (person_same _ _ _ Hs Hs' S1 S'). pose proof (tez_same _ _ _ S4 S'2). repeat split; auto; apply H.
      + exact (tez_same _ _ _ S2 S'0).
      + destruct delegate as [[c h]|], delegate0 as [[c' h']|]; cbn [same_option]; auto;
          cbn [row_of person fst snd] in S3, S'1.
        * exact (person_same (_, _) (_, _) _ Hd Hd' S3 S'1).
        * apply (word_not_ident "no delegate" (AddressSpec.addr_kind c) h t1); auto.
        * apply (word_not_ident "no delegate" (AddressSpec.addr_kind c') h' t1); auto.
      + exact (digest_same _ _ _ S5 S'3).
      + exact (digest_same _ _ _ S6 S'4).
    - (* activation *)
      destruct W as (Hh & _), W' as (Hh' & _). row R R' T1 S1. row R R' T2 S2. split; [|eauto].
      destruct (ident_same KindTz1 KindTz1 _ _ _ Hh Hh' S1 S') as [_ E]. split; [exact E|].
      exact (hex_same _ _ _ S2 S'0).
    - row R R' T1 S1. split; [exact (digest_same _ _ _ S1 S')|eauto].
    - row R R' T1 S1. split; [exact (hash_same _ _ _ S1 S')|eauto].
  Qed.

  Lemma sheets_visible os : flat_map sheet os = flat_map sheet (filter visible os).
  Proof.
    induction os as [|o os IH]; [reflexivity|]. cbn [flat_map filter].
    destruct (visible o) eqn:V; cbn [flat_map]; [now rewrite IH|]. destruct o; try discriminate. exact IH.
  Qed.

  Lemma visible_alike os : forall os' screens, forallb visible os = true -> forallb visible os' = true ->
    Forall op_wf os -> Forall op_wf os' ->
    Forall2 reads (flat_map sheet os) screens -> Forall2 reads (flat_map sheet os') screens ->
    Forall2 (alike O table) os os'.
  Proof.
    induction os as [|o os IH]; intros [|o' os'] screens V V' W W' R R'.
    - constructor.
    - exfalso. inversion R. subst. cbn [forallb] in V'. apply andb_prop in V' as [V' _].
      destruct o'; try discriminate; inversion R'.
    - exfalso. inversion R'. subst. cbn [forallb] in V. apply andb_prop in V as [V _].
      destruct o; try discriminate; inversion R.
    - cbn [forallb flat_map] in *. apply andb_prop in V as [V Vs], V' as [V' Vs'].
      destruct (op_alike o o' _ _ screens V V' (Forall_inv W) (Forall_inv W')
                  (sheets_start os Vs) (sheets_start os' Vs') R R') as (A & ss & Rs & Rs').
      constructor; [exact A|].
      exact (IH os' ss Vs Vs' (Forall_inv_tail W) (Forall_inv_tail W') Rs Rs').
  Qed.

  Lemma filter_visible os : forallb visible (filter visible os) = true.
  Proof. apply forallb_forall. intros o H. now apply filter_In in H. Qed.
  Lemma filter_wf os : Forall op_wf os -> Forall op_wf (filter visible os).
  Proof.
    intros W. apply Forall_forall. intros o H. apply filter_In in H as [H _].
    exact (proj1 (Forall_forall _ _) W o H).
  Qed.

  Lemma batches_alike b b' os os' screens : hash_ok 32 b -> hash_ok 32 b' ->
    Forall op_wf os -> Forall op_wf os' ->
    Forall2 reads (batch_sheet b os) screens -> Forall2 reads (batch_sheet b' os') screens ->
    b = b' /\ Forall2 (alike O table) (filter visible os) (filter visible os').
  Proof.
    unfold batch_sheet. intros Hb Hb' W W' R R'. row R R' T1 S1. split.
    - apply (ident_same KindBranch KindBranch _ _ t Hb Hb' S1 S').
    - rewrite sheets_visible in R, R'.
      apply (visible_alike _ _ ss (filter_visible os) (filter_visible os') (filter_wf os W) (filter_wf os' W') R R').
  Qed.

  (** ** Rows of the other reviews *)

  Lemma address_same a a' t : addr_wf a -> addr_wf a' ->
    shows O table (FAddr a) t -> shows O table (FAddr a') t -> same_address a a'.
  Proof.
    intros (P & [B L] & [C M]) (P' & [B' L'] & [C' M']). cbn [shows]. intros R R'.
    assert (G : forall p, In p (map kind_prefix [KindTz1; KindTz2; KindTz3]) -> bytes_ok p /\ length p = 3%nat).
    { intros p H. cbn [map kind_prefix In] in H. unfold bytes_ok.
      destruct H as [<-|[<-|[<-|[]]]]; (split; [repeat constructor|reflexivity]). }
    destruct (G _ P) as [Bp Lp], (G _ P') as [Bp' Lp'].
    assert (E : a_prefix a ++ a_hash a ++ a_checksum a = a_prefix a' ++ a_hash a' ++ a_checksum a').
    { apply (reads58_inj t); auto; repeat (apply bytes_ok_app; split; auto). }
    pose proof (f_equal (firstn 3) E) as E1. rewrite !firstn_app_l in E1 by assumption.
    split; [exact E1|]. rewrite E1 in E. apply app_inv_head in E.
    apply (f_equal (firstn 20)) in E. rewrite !firstn_app_l in E by assumption. exact E.
  Qed.

  Definition chain_fine (v : viewable) : Prop :=
    match v with VSetup _ _ _ chain _ => chain_wf chain | _ => True end.

  Lemma reviews_alike v v' rows rows' screens : view_wf v -> view_wf v' -> chain_fine v -> chain_fine v' ->
    view_sheet v = Some rows -> view_sheet v' = Some rows' ->
    Forall2 reads rows screens -> Forall2 reads rows' screens ->
    exists r r', asks v = Some r /\ asks v' = Some r' /\ alike_requests O table r r'.
  Proof.
    assert (Norm : forall v rows, view_wf v -> view_sheet v = Some rows -> exists r, asks v = Some r /\
      match r with
      | AskOperations b os => rows = batch_sheet b os /\ hash_ok 32 b /\ Forall op_wf os
      | AskDigest d => rows = ["Sign Michelson" --> FHex d]
      | AskAuthorize a => rows = ["Type" --> FWord "Authorize Baking"; "Address" --> FAddr a] /\ addr_wf a
      | AskDeauthorize a => rows = ["Type" --> FWord "DeAuthorize Baking"; "Address" --> FAddr a] /\ addr_wf a
      | AskQuery a => rows = ["Type" --> FWord "Query Authorized"; "Address" --> FAddr a] /\ addr_wf a
      | AskAddress a => rows = ["Address" --> FAddr a] /\ addr_wf a
      | AskSetup main test chain a =>
        rows = ["Type" --> FWord "Setup Baking"; "Address" --> FAddr a; "Chain" --> FChain chain;
                "Main Chain HWM" --> FInt (Z.of_N main); "Test Chain HWM" --> FInt (Z.of_N test)] /\ addr_wf a
      end).
    { clear - K F. intros v rows W E.
      destruct v as [sh digest [[branch ops]|] data|sh digest branch o data|kk a|a|wc kk a|wa pk a|kk main test chain a];
        cbn [view_wf view_sheet asks] in *;
        try (injection E as <-; eexists; split; [reflexivity|]; cbv beta iota; auto; fail).
      - destruct (eo_all _ ops) as [| | |os] eqn:EA; try discriminate. injection E as <-.
        eexists. split; [reflexivity|]. destruct W as (Hb & B & Z). split; [reflexivity|]. split; [exact Hb|].
        destruct ops as [src n]. cbn [eo_source eo_read] in *. subst n.
        apply (eo_all_wf (S (List.length src)) src 0 os); [exact B|lia|exact EA].
      - injection E as <-. eexists. split; [reflexivity|]. destruct W as (Hb & Wo & _). auto.
      - injection E as <-. eexists. split; [reflexivity|]. destruct W as (Wa & _). auto. }
    intros W W' C C' E E' R R'.
    destruct (Norm v rows W E) as (r & A & P). destruct (Norm v' rows' W' E') as (r' & A' & P').
    exists r, r'. split; [exact A|]. split; [exact A'|].
    assert (Cf : match r with AskSetup _ _ c _ => chain_wf c | _ => True end).
    { destruct v as [? ? [[? ?]|] ?| | | | | |]; cbn [asks] in A; try (injection A as <-; exact C || exact Logic.I).
      destruct (eo_all _ _); try discriminate. now injection A as <-. }
    assert (Cf' : match r' with AskSetup _ _ c _ => chain_wf c | _ => True end).
    { destruct v' as [? ? [[? ?]|] ?| | | | | |]; cbn [asks] in A'; try (injection A' as <-; exact C' || exact Logic.I).
      destruct (eo_all _ _); try discriminate. now injection A' as <-. }
    clear Norm A A' W W' C C' E E'.
    assert (Clash : forall h h' (f f' : field) rs rs', chars h <> chars h' ->
      Forall2 reads (h --> f :: rs) screens -> Forall2 reads (h' --> f' :: rs') screens -> False).
    { intros h h' f f' rs rs' Hne Q Q'. row Q Q' T1 S1. destruct T1 as (x & E1 & E2).
      cbn [entitles] in E1, E2. congruence. }
    assert (Clash2 : forall h w w' rs rs', chars w <> chars w' ->
      Forall2 reads (h --> FWord w :: rs) screens -> Forall2 reads (h --> FWord w' :: rs') screens -> False).
    { intros h w w' rs rs' Hne Q Q'. row Q Q' T1 S1. cbn [shows] in S1, S'. congruence. }
    destruct r, r'; cbn [alike_requests];
      repeat match goal with H : _ /\ _ |- _ => destruct H end; subst rows rows';
      unfold batch_sheet in *;
      try (exfalso; first [eapply Clash; [|exact R|exact R']; vm_compute; discriminate
                          |eapply Clash2; [|exact R|exact R']; vm_compute; discriminate]; fail).
    - eapply batches_alike; eassumption.
    - row R R' T1 S1. exact (hex_same _ _ _ S1 S').
    - row R R' T1 S1. row R R' T2 S2. eapply address_same; eassumption.
    - row R R' T1 S1. row R R' T2 S2. eapply address_same; eassumption.
    - row R R' T1 S1. row R R' T2 S2. eapply address_same; eassumption.
    - row R R' T1 S1. eapply address_same; eassumption.
    - row R R' T1 S1. row R R' T2 S2. row R R' T3 S3. row R R' T4 S4. row R R' T5 S5.
      pose proof (int_same _ _ _ S4 S'2). pose proof (int_same _ _ _ S5 S'3).
      split; [lia|]. split; [lia|]. split; [exact (alias_inj O _ _ _ K Cf Cf' S3 S'1)|].
      eapply address_same; eassumption.
  Qed.
End Reads.

(** ** Screens of the device *)

Lemma shown_as_same O table hw v v' k h t ss h' t' ss' :
  (forall page key out, List.length key = key_size hw -> len out = message_size hw ->
     view_render O table (key_size hw) v (N.of_nat k) key out page
     = view_render O table (key_size hw) v' (N.of_nat k) key out page) ->
  shown_as O table hw v k h t ss -> shown_as O table hw v' k h' t' ss' -> h = h' /\ t = t'.
Proof.
  intros E (N0 & C & R) (N0' & C' & R').
  set (key := zeros (key_size hw)). set (out := zeros (N.to_nat (message_size hw))).
  assert (Lk : List.length key = key_size hw) by apply zeros_length.
  assert (Lo : len out = message_size hw) by (unfold len, out; rewrite zeros_length; lia).
  specialize (R key out Lk Lo). specialize (R' key out Lk Lo).
  assert (X : forall p s s', nth_error ss p = Some s -> nth_error ss' p = Some s' ->
    len ss = len ss' /\ h = h' /\ s = s').
  { intros p s s' H H'. destruct (R p s H) as (k1 & o1 & V & _ & _ & _ & _ & A & B).
    destruct (R' p s' H') as (k2 & o2 & V' & _ & _ & _ & _ & A' & B').
    rewrite (E (N.of_nat p) key out Lk Lo), V' in V. injection V as -> -> L. repeat split; congruence. }
  destruct ss as [|s0 ss]; [contradiction|]. destruct ss' as [|s0' ss']; [contradiction|].
  destruct (X 0%nat s0 s0' eq_refl eq_refl) as (L & Eh & E0). split; [exact Eh|].
  rewrite <- C, <- C'. f_equal. apply nth_ext with (d := []) (d' := []).
  - unfold len in L. lia.
  - intros n Hn. assert (Hn' : (n < List.length (s0' :: ss'))%nat) by (unfold len in L; lia).
    destruct (X n (nth n (s0 :: ss) []) (nth n (s0' :: ss') [])) as (_ & _ & Y); auto; now apply nth_error_nth'.
Qed.

Lemma gather {A B} (R : A -> B -> Prop) (P : nat -> B -> Prop) rows : forall i,
  (forall k r, nth_error rows k = Some r -> exists s, R r s /\ P (i + k)%nat s) ->
  exists ss, Forall2 R rows ss /\ forall k s, nth_error ss k = Some s -> P (i + k)%nat s.
Proof.
  induction rows as [|r rows IH]; intros i H.
  - exists []. split; [constructor|]. intros [|k] s E; discriminate.
  - destruct (H 0%nat r eq_refl) as (s & Rs & Ps).
    destruct (IH (S i)) as (ss & F & Q).
    { intros k r' E. destruct (H (S k) r' E) as (s' & A1 & A2). exists s'. split; auto.
      now replace (S i + k)%nat with (i + S k)%nat by lia. }
    exists (s :: ss). split; [now constructor|]. intros [|k] s' E; cbn [nth_error] in E.
    + injection E as <-. exact Ps.
    + replace (i + S k)%nat with (S i + k)%nat by lia. now apply Q.
Qed.

Lemma scatter {A B} (R : A -> B -> Prop) rows : forall ss, List.length rows = List.length ss ->
  (forall k r s, nth_error rows k = Some r -> nth_error ss k = Some s -> R r s) -> Forall2 R rows ss.
Proof.
  induction rows as [|r rows IH]; intros [|s ss] L H; try discriminate; constructor.
  - exact (H 0%nat r s eq_refl eq_refl).
  - apply IH; [now injection L|]. intros k r' s' E E'. exact (H (S k) r' s' E E').
Qed.

Lemma looks_alike O table hw v v' rows rows' : oracles_ok O -> sorted table -> names_fit table ->
  view_wf v -> view_wf v' -> chain_fine v -> chain_fine v' ->
  view_fits v -> view_fits v' -> view_sheet v = Some rows -> view_sheet v' = Some rows' ->
  (List.length rows < 256)%nat -> (List.length rows' < 256)%nat ->
  look_the_same O table hw v v' -> shows_all O table hw v ->
  exists r r', asks v = Some r /\ asks v' = Some r' /\ alike_requests O table r r'.
Proof.
  intros K St F W W' C C' Fi Fi' E E' L L' [En Er] Sh.
  destruct (review_rows O table hw v rows K St F W Fi E) as [Ni Ri].
  destruct (review_rows O table hw v' rows' K St F W' Fi' E') as [Ni' Ri'].
  rewrite N.mod_small in Ni, Ni' by (unfold len; lia).
  assert (EL : List.length rows = List.length rows').
  { rewrite Ni, Ni' in En. injection En as En. unfold len in En. lia. }
  set (key := zeros (key_size hw)). set (out := zeros (N.to_nat (message_size hw))).
  assert (Lk : List.length key = key_size hw) by apply zeros_length.
  assert (Lo : len out = message_size hw) by (unfold len, out; rewrite zeros_length; lia).
  assert (NF : forall k, (k < List.length rows)%nat -> ~ fails O table hw v k Unknown).
  { intros k Hk X. destruct (Sh k (len rows) key out Ni) as (sc & V); auto. { unfold len. lia. }
    rewrite (X key out 0 Lk Lo) in V. discriminate. }
  destruct (gather (reads O table) (fun k s => exists ss, shown_as O table hw v k (fst s) (snd s) ss) rows 0)
    as (screens & R & Q).
  { intros k r H. assert (Hk : (k < List.length rows)%nat) by (apply nth_error_Some; congruence).
    pose proof (Ri k ltac:(lia)) as X. rewrite H in X.
    destruct X as [(h & t & ss & A1 & A2 & A3)|[_ X]]; [|destruct (NF k Hk X)].
    exists (h, t). split; [split; auto|]. exists ss. exact A3. }
  cbn [Nat.add] in Q.
  assert (R' : Forall2 (reads O table) rows' screens).
  { apply scatter. { rewrite <- EL. clear - R. induction R; cbn [List.length]; congruence. }
    intros k r s H H'. assert (Hk : (k < List.length rows')%nat) by (apply nth_error_Some; congruence).
    pose proof (Ri' k ltac:(lia)) as X. rewrite H in X.
    destruct (Q k s H') as (ss & A).
    destruct X as [(h & t & ss' & A1 & A2 & A3)|[_ X]].
    - destruct (shown_as_same O table hw v v' k _ _ _ _ _ _ (fun p ke o => Er k p ke o ltac:(lia)) A A3) as [E1 E2].
      unfold reads. rewrite E1, E2. auto.
    - exfalso. apply (NF k ltac:(lia)). intros ke o p Ek Eo. rewrite (Er k p ke o ltac:(lia) Ek Eo).
      now apply X. }
  exact (reviews_alike O table K F v v' rows rows' screens W W' C C' E E' R R').
Qed.
