(** The parsers of the device model read requests as the ideal app does. *)
From Coq Require Import List NArith ZArith Lia Bool Arith ZifyBool ZifyNat ZifyN.
From Verif Require Import Base BaseFacts Codecs CodecsSpec CodecsFacts Upload UploadSpec Baking BakingSpec BakingFacts
  Oracles Address Device IdealSpec.
Import ListNotations.
Open Scope N_scope.

Lemma curve_in_eq p2 : curve_in p2 = curve_of_byte p2.
Proof.
  unfold curve_in, curve_of_byte.
  destruct (N.eqb_spec p2 0) as [->|]; [reflexivity|].
  destruct (N.eqb_spec p2 1) as [->|]; [reflexivity|].
  destruct (N.eqb_spec p2 2) as [->|]; [reflexivity|].
  destruct (N.eqb_spec p2 3) as [->|]; [reflexivity|].
  apply nth_error_None. cbn [length]. lia.
Qed.

Lemma chunks_fields n : forall (l : bytes),
  be32_chunks n l = map (fun i => field (4 * i) 4 l) (seq 0 n).
Proof.
  induction n as [|n IH]; intros l; [reflexivity|].
  cbn [be32_chunks seq map]. rewrite <- seq_shift, map_map, IH. f_equal.
  apply map_ext. intros i. rewrite field_skipn. f_equal. lia.
Qed.

Lemma path_in_eq LEN (l : bytes) : path_in (N.of_nat LEN) l = path_read LEN l.
Proof.
  unfold path_in, path_read. destruct l as [|n rest]; [reflexivity|].
  cbn [nth]. replace (len (n :: rest)) with (1 + len rest) by (unfold len; cbn [length]; lia).
  pose proof (N.div_mod' (len rest) 4) as D. pose proof (N.mod_lt (len rest) 4 ltac:(discriminate)) as M.
  destruct (N.eqb_spec (len rest) 0).
  { replace ((1 <=? n) && (n <=? N.of_nat LEN) && (1 + len rest =? 1 + 4 * n)) with false by lia. reflexivity. }
  destruct (N.eqb_spec (len rest mod 4) 0); cbn [negb].
  2:{ replace ((1 <=? n) && (n <=? N.of_nat LEN) && (1 + len rest =? 1 + 4 * n)) with false by lia. reflexivity. }
  destruct (N.eqb_spec n 0).
  { replace ((1 <=? n) && (n <=? N.of_nat LEN) && (1 + len rest =? 1 + 4 * n)) with false by lia. reflexivity. }
  destruct ((N.of_nat LEN <? n) || (n <? len rest / 4)) eqn:E.
  { replace ((1 <=? n) && (n <=? N.of_nat LEN) && (1 + len rest =? 1 + 4 * n)) with false by lia. reflexivity. }
  destruct (N.ltb_spec (len rest / 4) n).
  { replace ((1 <=? n) && (n <=? N.of_nat LEN) && (1 + len rest =? 1 + 4 * n)) with false by lia. reflexivity. }
  replace ((1 <=? n) && (n <=? N.of_nat LEN) && (1 + len rest =? 1 + 4 * n)) with true by lia.
  f_equal. rewrite chunks_fields. apply map_ext. intros i. apply field_cons.
Qed.

Lemma later_iff q p : later q p = true <-> cpos_lt p q.
Proof.
  destruct p as [l e|l r k], q as [l' e'|l' r' k']; cbn [later cpos_lt];
    try (destruct e, e'); cbn [negb andb]; try lia; split; try discriminate; tauto.
Qed.

Lemma wm_level_pos w : wm_level w = cpos_level (wm_pos w).
Proof. destruct w; reflexivity. Qed.

(** ** Consensus messages *)

Lemma five (F : bytes) : (5 <= length F)%nat -> exists a b c e v r, F = a :: b :: c :: e :: v :: r.
Proof. intros H. do 5 (destruct F as [|? F]; [cbn [length] in H; lia|]). do 6 eexists. reflexivity. Qed.

Lemma fitness_short (F : bytes) : (length F < 5)%nat -> fitness_parse F = PErr.
Proof.
  intros H. unfold fitness_parse, emmy_fitness_parse, tb_fitness_parse.
  destruct (Nat.ltb_spec (length F) 4).
  - rewrite take_short by (unfold len; lia). reflexivity.
  - destruct (take4_split F ltac:(lia)) as (a & b & -> & La & T). rewrite T.
    rewrite app_length in H. destruct b; [|cbn [length] in H; lia]. reflexivity.
Qed.

Lemma fitness_eq (F : bytes) : (5 <= length F)%nat ->
  let v := nth 4 F 0 in
  if v <=? 1 then exists rem f, fitness_parse F = POk rem (FEmmy v f)
  else if v =? 2 then
    if (length F <? 9)%nat then fitness_parse F = PPanic
    else exists rem f, fitness_parse F = POk rem (FTenderbake f (unbe (skipn (length F - 4) F)))
  else fitness_parse F = PErr.
Proof.
  intros H. destruct (five F H) as (a & b & c & e & v & r & ->). clear H. cbn [nth]. cbv zeta.
  unfold fitness_parse, emmy_fitness_parse, tb_fitness_parse.
  assert (T : take 4 (a :: b :: c :: e :: v :: r) = POk (v :: r) [a; b; c; e]).
  { unfold take, len. cbn [length]. replace (4 <=? N.of_nat (S (S (S (S (S (length r))))))) with true by lia.
    reflexivity. }
  rewrite T. cbn [pbind tag1].
  destruct (N.leb_spec v 1).
  - destruct (N.eqb_spec v 0) as [->|]; cbn [N.eqb Pos.eqb pbind]; [eauto|].
    destruct (N.eqb_spec v 1) as [->|]; [|lia]. cbn [N.eqb Pos.eqb pbind]. eauto.
  - destruct (N.eqb_spec v 0) as [|_]; [lia|]. destruct (N.eqb_spec v 1) as [|_]; [lia|].
    destruct (N.eqb_spec v 2) as [->|]; cbn [pbind]; [|reflexivity].
    cbn [length].
    destruct (Nat.ltb_spec (length r) 4).
    + replace (S (S (S (S (S (length r))))) <? 9)%nat with true by lia. reflexivity.
    + replace (S (S (S (S (S (length r))))) <? 9)%nat with false by lia.
      replace (S (S (S (S (S (length r))))) - 4)%nat with (5 + (length r - 4))%nat by lia.
      cbn [Nat.add skipn]. unfold be_u32. rewrite be_uint_eq by (rewrite skipn_length; lia). cbn [pbind].
      exists r, r. do 2 f_equal. unfold field. cbn [skipn]. rewrite firstn_all2; [reflexivity|].
      rewrite skipn_length. change (N.to_nat 4) with 4%nat. lia.
Qed.

Lemma emmy_endo_eq (l : bytes) : emmy_endo_parse l =
  if (nth 36 l 0 =? 0) && (41 <=? len l)
  then POk (skipn 41 l) (EmmyE (field 0 4 l) (slice 4 32 l) (field 37 4 l)) else PErr.
Proof.
  unfold emmy_endo_parse, be_u32.
  destruct (N.leb_spec 41 (len l)) as [H|H].
  - unfold len in H. rewrite be_uint_eq by lia. cbn [pbind].
    rewrite take_eq by (rewrite skipn_length; lia). cbn [pbind]. rewrite skipn_skipn'.
    replace (N.to_nat 4 + N.to_nat 32)%nat with 36%nat by lia.
    assert (exists t r, skipn 36 l = t :: r /\ t = nth 36 l 0 /\ r = skipn 37 l) as (t & r & -> & Ht & Hr).
    { destruct (skipn 36 l) as [|t r] eqn:E.
      - apply (f_equal (@length N)) in E. rewrite skipn_length in E. cbn [length] in E. lia.
      - exists t, r. split; [reflexivity|]. rewrite <- (firstn_skipn 36 l), E.
        rewrite app_nth2 by (rewrite firstn_length; lia).
        rewrite firstn_length. replace (36 - Nat.min 36 (length l))%nat with 0%nat by lia.
        split; [reflexivity|]. rewrite skipn_app, skipn_all2 by (rewrite firstn_length; lia).
        rewrite firstn_length. replace (37 - Nat.min 36 (length l))%nat with 1%nat by lia. reflexivity. }
    cbn [tag1]. rewrite <- Ht. destruct (N.eqb_spec t 0); cbn [pbind andb]; [|reflexivity].
    rewrite Hr, be_uint_eq by (rewrite skipn_length; lia). cbn [pbind].
    rewrite !field_skipn, slice_skipn, skipn_skipn'. reflexivity.
  - rewrite andb_false_r. repeat peel_short.
    match goal with |- pbind (tag1 0 ?x) _ = _ => destruct (tag1 0 x) as [r t| |] eqn:E end; cbn [pbind]; try reflexivity.
    2:{ now apply tag1_not_panic in E. }
    apply tag1_inv in E as [E ->]. rewrite be_uint_short; [reflexivity|].
    apply (f_equal (@length N)) in E. rewrite skipn_length in E. cbn [length] in E. unfold len in *. lia.
Qed.

Lemma tb_endo_eq (l : bytes) : tb_endo_parse l =
  match endo_type_of_tag (nth 36 l 0) with
  | Some ty => if 79 <=? len l
      then POk (skipn 79 l) (TBE (field 0 4 l) (slice 4 32 l) ty (field 37 2 l) (field 39 4 l) (field 43 4 l) (slice 47 32 l))
      else PErr
  | None => PErr
  end.
Proof.
  unfold tb_endo_parse, be_u32, le_u8, be_u16.
  assert (T : (37 <= length l)%nat -> field 36 1 l = nth 36 l 0).
  { intros H. unfold field. rewrite <- (firstn_skipn 36 l) at 2. rewrite app_nth2 by (rewrite firstn_length; lia).
    rewrite firstn_length. replace (36 - Nat.min 36 (length l))%nat with 0%nat by lia.
    destruct (skipn 36 l) as [|t r] eqn:E; [|reflexivity].
    apply (f_equal (@length N)) in E. rewrite skipn_length in E. cbn [length] in E. lia. }
  destruct (N.leb_spec 79 (len l)) as [H|H].
  - unfold len in H.
    do 3 (first [rewrite be_uint_eq by (rewrite ?skipn_length; lia)
                |rewrite take_eq by (rewrite ?skipn_length; lia)]; cbn [pbind]; rewrite ?skipn_skipn').
    rewrite !field_skipn. replace (field (N.to_nat 4 + N.to_nat 32 + 0) (N.to_nat 1) l) with (nth 36 l 0) by (symmetry; apply T; lia).
    destruct (endo_type_of_tag (nth 36 l 0)) as [ty|]; [|reflexivity].
    do 4 (first [rewrite be_uint_eq by (rewrite ?skipn_length; lia)
                |rewrite take_eq by (rewrite ?skipn_length; lia)]; cbn [pbind]; rewrite ?skipn_skipn').
    rewrite !field_skipn, !slice_skipn. reflexivity.
  - assert (endo_type_of_tag (nth 36 l 0) = None \/ exists t, endo_type_of_tag (nth 36 l 0) = Some t) as [E|[t E]]
      by (destruct (endo_type_of_tag (nth 36 l 0)); eauto); rewrite E.
    + repeat peel_short.
      rewrite !field_skipn.
      replace (field (N.to_nat 4 + N.to_nat 32 + 0) (N.to_nat 1) l) with (nth 36 l 0); [now rewrite E|].
      symmetry; apply T.
      repeat match goal with H : _ <= len _ |- _ => unfold len in H; rewrite ?skipn_length in H end. lia.
    + repeat peel_short.
      match goal with |- match ?x with _ => _ end = _ => destruct x; [|reflexivity] end.
      repeat peel_short. exfalso.
      repeat match goal with H : _ <= len _ |- _ => unfold len in H; rewrite ?skipn_length in H end.
      unfold len in H. lia.
Qed.

Definition consensus_kinds : list N := [0x01; 0x02; 0x11; 0x12; 0x13].

Lemma position_check m p (l : bytes) hw : In m consensus_kinds -> preemble_of_byte m = Some p ->
  match consensus_in (m :: l) with
  | Crash => consensus_check p l hw = None
  | Malformed => consensus_check p l hw = Some (AErr DataInvalid)
  | Position q =>
    if (cpos_level q <? 2 ^ 31) && later q (wm_pos hw)
    then exists wm, consensus_check p l hw = Some (AOk wm) /\ wm_pos wm = q
    else consensus_check p l hw = Some (AErr DataInvalid)
  end.
Proof.
  intros Hm Hp.
  (* blocks *)
  assert (Blk : forall (m : N), (m = 0x01 /\ p = PreBlock) \/ (m = 0x11 /\ p = PreTBBlock) ->
    match consensus_in (m :: l) with
    | Crash => consensus_check p l hw = None
    | Malformed => consensus_check p l hw = Some (AErr DataInvalid)
    | Position q =>
      if (cpos_level q <? 2 ^ 31) && later q (wm_pos hw)
      then exists wm, consensus_check p l hw = Some (AOk wm) /\ wm_pos wm = q
      else consensus_check p l hw = Some (AErr DataInvalid)
    end).
  { clear m Hm Hp. intros m Hm. unfold consensus_in. cbn [nth].
    assert (Em : (m =? 0x01) || (m =? 0x11) = true) by (destruct Hm as [[-> _]|[-> _]]; reflexivity).
    rewrite Em. rewrite (field_cons 82), (field_cons 4).
    replace (87 + N.to_nat (field 82 4 l) - 4)%nat with (if (field 82 4 l <? 9) then (87 + N.to_nat (field 82 4 l) - 4)%nat else S (86 + (N.to_nat (field 82 4 l) - 4)))
      by (destruct (N.ltb_spec (field 82 4 l) 9); lia).
    replace (len (m :: l)) with (1 + len l) by (unfold len; cbn [length]; lia).
    assert (CC : consensus_check p l hw = match block_parse l with
      | PPanic => None | PErr => Some (AErr DataInvalid)
      | POk _ b => if block_matches p b && block_validate b hw then Some (AOk (block_watermark b)) else Some (AErr DataInvalid) end)
      by (destruct Hm as [[_ ->]|[_ ->]]; reflexivity).
    rewrite CC; clear CC.
    destruct (N.ltb_spec (1 + len l) (87 + field 82 4 l)) as [L|L]; cbn [orb].
    { replace (block_parse l) with (@PErr block_data); [reflexivity|].
      destruct (Nat.ltb_spec (length l) 86); [now rewrite block_parse_short|].
      rewrite block_parse_eq by assumption. rewrite take_short; [reflexivity|].
      unfold len in *. rewrite skipn_length. lia. }
    assert (LF : length (fitness_bytes l) = N.to_nat (field 82 4 l))
      by (unfold fitness_bytes; apply slice_length; unfold len in L; lia).
    assert (BP : block_parse l = (let* (rem, fit) := fitness_parse (fitness_bytes l) in POk rem (block_fields l fit))).
    { rewrite block_parse_eq by (unfold len in L; lia).
      rewrite take_eq by (rewrite skipn_length; unfold len in L; lia). cbn [pbind].
      rewrite slice_skipn. reflexivity. }
    rewrite BP; clear BP.
    destruct (N.ltb_spec (field 82 4 l) 5) as [L5|L5].
    { rewrite fitness_short by lia. reflexivity. }
    pose proof (fitness_eq (fitness_bytes l) ltac:(lia)) as FE. cbv zeta in FE.
    assert (V : nth 4 (fitness_bytes l) 0 = nth 90 l 0).
    { apply nth_error_nth. unfold fitness_bytes. rewrite nth_error_slice by (unfold len in L; lia).
      change (86 + 4)%nat with 90%nat. apply nth_error_nth'. unfold len in L. lia. }
    rewrite V, LF in FE. change (nth 91 (m :: l) 0) with (nth 90 l 0). revert FE. generalize (nth 90 l 0). intros v FE.
    replace (N.to_nat (field 82 4 l) <? 9)%nat with (field 82 4 l <? 9) in FE by lia.
    destruct (N.leb_spec v 1) as [V1|V1].
    - destruct FE as (rem & f & ->). cbn [pbind].
      replace (v =? 2) with false by lia. rewrite !andb_false_r. cbn [andb].
      destruct Hm as [[-> ->]|[-> ->]]; cbn [N.eqb Pos.eqb andb block_matches bd_fitness block_fields]; [|reflexivity].
      pose proof (block_validate_iff (block_fields l (FEmmy v f)) hw) as BV.
      cbn [bd_level block_fields block_watermark bd_fitness wm_pos] in BV |- *.
      cbn [cpos_level]. pose proof (later_iff (PEmmy (field 4 4 l) false) (wm_pos hw)) as LI.
      destruct (N.ltb_spec (field 4 4 l) (2 ^ 31)); cbn [andb];
        [destruct (later (PEmmy (field 4 4 l) false) (wm_pos hw)) eqn:EL|].
      + replace (block_validate _ hw) with true by (symmetry; apply BV; split; [assumption|now apply LI]). eauto.
      + replace (block_validate _ hw) with false; [reflexivity|].
        symmetry. apply not_true_iff_false. intros X. apply BV in X as [_ X]. apply LI in X. congruence.
      + replace (block_validate _ hw) with false; [reflexivity|].
        symmetry. apply not_true_iff_false. intros X. apply BV in X as [X _]. lia.
    - destruct (N.eqb_spec v 2) as [V2|V2]; cbn [andb]; [|rewrite FE; rewrite !andb_false_r; reflexivity].
      destruct (N.ltb_spec (field 82 4 l) 9) as [L9|L9]; [rewrite FE; reflexivity|].
      destruct FE as (rem & f & FP). replace (v <=? 1) with false by lia. rewrite andb_false_r, andb_true_r.
      destruct Hm as [[-> ->]|[-> ->]]; cbn [N.eqb Pos.eqb andb];
        [rewrite FP; cbn [pbind block_matches bd_fitness block_fields andb]; reflexivity|].
      rewrite field_cons.
      set (r := field (86 + (N.to_nat (field 82 4 l) - 4)) 4 l).
      set (b := block_fields l (FTenderbake f r)).
      assert (ER : unbe (skipn (N.to_nat (field 82 4 l) - 4) (fitness_bytes l)) = r).
      { unfold r, field at 2. f_equal. unfold fitness_bytes, slice. rewrite skipn_firstn_comm, skipn_skipn'.
        f_equal. lia. }
      rewrite ER in FP. rewrite FP. cbn [pbind]. fold b.
      replace (block_matches PreTBBlock b) with true by reflexivity. cbn [andb].
      pose proof (block_validate_iff b hw) as BV.
      replace (bd_level b) with (field 4 4 l) in BV by reflexivity.
      replace (block_watermark b) with (WTenderbake (field 4 4 l) false r false) in BV |- * by reflexivity.
      cbn [wm_pos] in BV. cbn [cpos_level].
      pose proof (later_iff (PTB (field 4 4 l) r KBlock) (wm_pos hw)) as LI.
      destruct (N.ltb_spec (field 4 4 l) (2 ^ 31)); cbn [andb];
        [destruct (later (PTB (field 4 4 l) r KBlock) (wm_pos hw)) eqn:EL|].
      + replace (block_validate b hw) with true by (symmetry; apply BV; split; [assumption|now apply LI]).
        eexists; split; reflexivity.
      + replace (block_validate b hw) with false; [reflexivity|].
        symmetry. apply not_true_iff_false. intros X. apply BV in X as [_ X]. apply LI in X. congruence.
      + replace (block_validate b hw) with false; [reflexivity|].
        symmetry. apply not_true_iff_false. intros X. apply BV in X as [X _]. lia. }
  (* endorsements *)
  assert (Endo : forall e, match e with EmmyE _ _ _ => p = PreEndorsement
                           | TBE _ _ EPre _ _ _ _ => p = PreTBPreendorsement
                           | TBE _ _ EEnd _ _ _ _ => p = PreTBEndorsement end ->
    forall rem, endo_parse l = POk rem e ->
    forall q, q = wm_pos (endo_watermark e) ->
    if (cpos_level q <? 2 ^ 31) && later q (wm_pos hw)
    then exists wm, consensus_check p l hw = Some (AOk wm) /\ wm_pos wm = q
    else consensus_check p l hw = Some (AErr DataInvalid)).
  { intros e He rem Hr q ->.
    assert (CC : consensus_check p l hw = if endo_validate e hw then Some (AOk (endo_watermark e)) else Some (AErr DataInvalid)).
    { destruct e as [? ? ?|? ? [] ? ? ? ?]; subst p; unfold consensus_check; rewrite Hr; reflexivity. }
    rewrite CC; clear CC.
    pose proof (endo_validate_iff e hw) as EV.
    replace (endo_level e) with (cpos_level (wm_pos (endo_watermark e))) in EV
      by (destruct e as [? ? ?|? ? [] ? ? ? ?]; reflexivity).
    pose proof (later_iff (wm_pos (endo_watermark e)) (wm_pos hw)) as LI.
    destruct (N.ltb_spec (cpos_level (wm_pos (endo_watermark e))) (2 ^ 31)); cbn [andb];
      [destruct (later (wm_pos (endo_watermark e)) (wm_pos hw)) eqn:EL|].
    - replace (endo_validate e hw) with true by (symmetry; apply EV; split; [assumption|now apply LI]). eauto.
    - replace (endo_validate e hw) with false; [reflexivity|].
      symmetry. apply not_true_iff_false. intros X. apply EV in X as [_ X]. apply LI in X. congruence.
    - replace (endo_validate e hw) with false; [reflexivity|].
      symmetry. apply not_true_iff_false. intros X. apply EV in X as [X _]. lia. }
  cbn [consensus_kinds In] in Hm.
  destruct Hm as [<-|[<-|[<-|[<-|[<-|[]]]]]]; injection Hp as <-; try (apply Blk; tauto);
    clear Blk; unfold consensus_in; cbn [nth N.eqb Pos.eqb orb andb];
    replace (len (_ :: l)) with (1 + len l) by (unfold len; cbn [length]; lia);
    rewrite ?(field_cons 37), ?(field_cons 39), ?(field_cons 43);
    assert (EP : endo_parse l = match emmy_endo_parse l with
                                | POk rem e => POk rem e | PPanic => PPanic | PErr => tb_endo_parse l end)
      by reflexivity;
    rewrite emmy_endo_eq, tb_endo_eq in EP.
  - replace (42 <=? 1 + len l) with (41 <=? len l) by lia.
    destruct ((nth 36 l 0 =? 0) && (41 <=? len l)).
    + eapply Endo; [|exact EP|reflexivity]. reflexivity.
    + unfold consensus_check. rewrite EP.
      destruct (endo_type_of_tag (nth 36 l 0)); [|reflexivity]. destruct (79 <=? len l); reflexivity.
  - replace (80 <=? 1 + len l) with (79 <=? len l) by lia.
    destruct (N.eqb_spec (nth 36 l 0) 20) as [T|T]; cbn [andb].
    + rewrite T in EP. cbn [N.eqb Pos.eqb andb endo_type_of_tag] in EP.
      destruct (79 <=? len l).
      * eapply Endo; [|exact EP|reflexivity]. reflexivity.
      * unfold consensus_check. rewrite EP. reflexivity.
    + unfold consensus_check. rewrite EP.
      destruct ((nth 36 l 0 =? 0) && (41 <=? len l)); [reflexivity|].
      unfold endo_type_of_tag. destruct (N.eqb_spec (nth 36 l 0) 20); [contradiction|].
      destruct (nth 36 l 0 =? 21); [|reflexivity]. destruct (79 <=? len l); reflexivity.
  - replace (80 <=? 1 + len l) with (79 <=? len l) by lia.
    destruct (N.eqb_spec (nth 36 l 0) 21) as [T|T]; cbn [andb].
    + rewrite T in EP. cbn [N.eqb Pos.eqb andb endo_type_of_tag] in EP.
      destruct (79 <=? len l).
      * eapply Endo; [|exact EP|reflexivity]. reflexivity.
      * unfold consensus_check. rewrite EP. reflexivity.
    + unfold consensus_check. rewrite EP.
      destruct ((nth 36 l 0 =? 0) && (41 <=? len l)); [reflexivity|].
      unfold endo_type_of_tag. destruct (nth 36 l 0 =? 20); [destruct (79 <=? len l); reflexivity|].
      destruct (N.eqb_spec (nth 36 l 0) 21); [contradiction|reflexivity].
Qed.
