(** What the library returns as a signature. *)
From Coq Require Import List NArith ZArith Lia Bool Arith ZifyBool ZifyNat ZifyN.
From Verif Require Import Base BaseFacts Flash FlashFacts Codecs CodecsSpec CodecsFacts
  Upload UploadSpec UploadFacts Baking BakingSpec BakingFacts Operations Oracles Address AddressSpec
  Device DeviceSpec DeviceFacts DeviceProofs DeviceHist DeviceSigs DeviceAnswers DeviceReviews DeviceKeys
  DeviceSlots DeviceCommands DeviceUploads AcceptedSpec AcceptedFacts ServiceSpec InterruptFacts
  Client ClientSpec ClientFacts ClientSign ReturnedSpec.
Import ListNotations.
Open Scope N_scope.

Lemma read_or_err s e d e' d' : read_or s e d = (Err e', d') -> e' = e.
Proof.
  unfold read_or, bind, read_slot. destruct (wear_init (get_slot s d)); [|discriminate].
  destruct (wear_read_at (get_slot s d) n); unfold ret, fail; congruence.
Qed.
Lemma write_or_err s p e d e' d' : write_or s p e d = (Err e', d') -> e' = e.
Proof.
  unfold write_or, bind. destruct (write_slot s p d) as [[b|x| |] d1] eqn:E; try discriminate.
  - destruct b; unfold check, ret, fail; congruence.
  - intros _. exfalso. revert E. unfold write_slot. 
    repeat match goal with |- context [match ?x with _ => _ end] => destruct x end; discriminate.
Qed.

Lemma rel2_weaken u st : rel2 u None -> rel2 u st.
Proof.
  intros [S R]. split; [exact S|]. destruct (u_lock u); [|exact Logic.I]. left.
  destruct R as [R|(p2 & init & data & E & _)]; [exact R|discriminate].
Qed.

Lemma log_set_up u d : d_log (set_up u d) = d_log d.
Proof. destruct d; reflexivity. Qed.

Section Returned.
  Variable C : config.
  Variable O : oracles.

  (** The key and digest a signing command works with. *)
  Definition named (up : upload_out) (k : key) (dg : bytes) : Prop :=
    curve_of_byte (uo_p2 up) = Some (fst k) /\ path_read BIP32_MAX_LENGTH (uo_first up) = Some (snd k) /\
    o_blake2b O 32 (uo_data up) = Some dg.
  Definition waiting (data : bytes) (d : dev) (k : key) (dg : bytes) : Prop :=
    exists v, d_ui d = Some v /\ cf_room C v <> None /\
      ((exists p, v = VSign true dg p data /\ d_path d = Some k) \/
       (exists br o, v = VBakingSign true dg br o data /\ stored_key d k)).
  Definition exact (up : upload_out) (d : dev) (x : outcome reply * dev) : Prop :=
    match x with
    | (Ok (Now out), d') => exists g s, named up (sg_key g) (sg_digest g) /\ sg_data g = uo_data up /\ sg_src g <> SrcHmac /\
        o_sign O (fst (sg_key g)) (snd (sg_key g)) (sg_digest g) = Some s /\
        out = sg_digest g ++ s /\ d_log d' = g :: d_log d
    | (Ok Later, d') => d_log d' = d_log d /\ exists k dg, named up k dg /\ waiting (uo_data up) d' k dg
    | (Err e, d') => e <> Success /\ d_log d' = d_log d
    | (_, d') => d_log d' = d_log d
    end.

  Lemma start_exact up d : exact up d (start_sign C O true up d).
  Proof.
    remember (start_sign C O true up d) as x eqn:Ex. unfold start_sign in Ex. unfold bind at 1 in Ex.
    destruct (curve_of_byte (uo_p2 up)) as [c|] eqn:Ec; cbn [of_option] in Ex; [|subst x; split; [discriminate|reflexivity]].
    unfold ret at 1 in Ex. cbv beta iota in Ex. unfold bind at 1 in Ex.
    destruct (path_read BIP32_MAX_LENGTH (uo_first up)) as [pa|] eqn:Ep; cbn [of_option] in Ex; [|subst x; split; [discriminate|reflexivity]].
    unfold ret at 1 in Ex. cbv beta iota in Ex. unfold bind at 1 in Ex.
    set (d1 := set_path (Some (c, pa)) d) in Ex.
    assert (L1 : d_log d1 = d_log d) by (destruct d; reflexivity).
    assert (P1 : d_path d1 = Some (c, pa)) by (destruct d; reflexivity). clearbody d1.
    cbv beta iota in Ex. unfold bind at 1 in Ex. unfold digest32 in Ex.
    destruct (o_blake2b O 32 (uo_data up)) as [dg|] eqn:Dg; cbn [of_option] in Ex; [|subst x; split; [discriminate|exact L1]].
    unfold ret at 1 in Ex. cbv beta iota in Ex.
    assert (Sh : forall v, exact up d (show C (VSign true dg v (uo_data up)) d1)).
    { intros v. unfold show. destruct (cf_room C _) eqn:Er; [|split; [discriminate|exact L1]]. split; [destruct d1; exact L1|].
      exists (c, pa), dg. split; [split; [exact Ec|split; [exact Ep|exact Dg]]|]. exists (VSign true dg v (uo_data up)).
      split; [destruct d1; reflexivity|]. split; [congruence|]. left. exists v. destruct d1; auto. }
    destruct (preemble_parse (uo_data up)) as [rem p| |]; [|subst x; split; [discriminate|exact L1]|subst x; exact L1].
    destruct p; try (subst x; split; [discriminate|exact L1]).
    - unfold bind in Ex. destruct (operation_new rem); cbn [of_option] in Ex; [|subst x; split; [discriminate|exact L1]].
      subst x. apply Sh.
    - subst x. apply Sh.
  Qed.

  Lemma consensus_exact m p rem dg up d : preemble_of_byte m = Some p -> uo_data up = m :: rem ->
    o_blake2b O 32 (uo_data up) = Some dg ->
    (exists k, stored_key d k) ->
    match handle_consensus O p rem true dg (uo_data up) d with
    | (Ok (Now out), d') => exists g s, stored_key d (sg_key g) /\ sg_data g = uo_data up /\ sg_src g <> SrcHmac /\
        sg_digest g = dg /\ o_sign O (fst (sg_key g)) (snd (sg_key g)) (sg_digest g) = Some s /\
        out = sg_digest g ++ s /\ d_log d' = g :: d_log d
    | (Ok Later, d') => False
    | (Err e, d') => e <> Success /\ d_log d' = d_log d
    | (_, d') => d_log d' = d_log d
    end.
  Proof.
    intros P Ed Dg Sk. unfold handle_consensus. unfold bind at 1.
    pose proof (keeps_read_or eff_none SMain ExecutionError d) as F1.
    assert (L1 : d_log (snd (read_or SMain ExecutionError d)) = d_log d) by apply read_or_log.
    pose proof (read_or_err SMain ExecutionError d) as E1.
    destruct (read_or SMain ExecutionError d) as [[hw|e| |] d1]; cbn [snd] in *; try exact L1.
    2:{ split; [|exact L1]. rewrite (E1 _ _ eq_refl). discriminate. }
    destruct (consensus_check p rem (wm_parse hw)) as [[wm|e]|] eqn:K; cbn [of_ares]; [| |exact L1].
    2:{ split; [exact (consensus_err _ _ _ _ K)|exact L1]. }
    unfold bind at 1, ret at 1. cbv beta iota. unfold bind at 1.
    set (Ef := mkEff (fun s => s = SMain) (fun _ => False) False False (fun _ => False)).
    pose proof (keeps_write_or Ef SMain (wm_serialize wm) ExecutionError eq_refl d1) as F2.
    assert (L2 : d_log (snd (write_or SMain (wm_serialize wm) ExecutionError d1)) = d_log d1)
      by (apply (frame_log_none Ef); auto).
    pose proof (write_or_err SMain (wm_serialize wm) ExecutionError d1) as E2.
    destruct (write_or SMain (wm_serialize wm) ExecutionError d1) as [[[]|e| |] d2]; cbn [snd] in *; try congruence.
    2:{ split; [|congruence]. rewrite (E2 _ _ eq_refl). discriminate. }
    assert (W : weq (d_key d) (d_key d2)).
    { eapply weq_trans; [exact (fr_slot _ _ _ F1 SKey ltac:(cbn; tauto))|].
      exact (fr_slot _ _ _ F2 SKey ltac:(cbn; discriminate)). }
    assert (Wk : forall k, stored_key d2 k <-> stored_key d k).
    { intros k. split; intros (pp & H1 & H2); exists pp; split; auto; pose proof (weq_read _ _ W); congruence. }
    unfold bind at 1.
    pose proof (baking_sign_spec O SrcConsensus dg (uo_data up) d2) as S.
    destruct Sk as [k Sk]. apply Wk in Sk. pose proof (baking_sign_err O SrcConsensus dg (uo_data up) d2 k Sk) as Eb.
    destruct (baking_sign O SrcConsensus dg (uo_data up) d2) as [r d3].
    destruct S as [[S1 S2]|(pp & k' & s & -> & R & Kk & Sg & Ls & Lg)].
    - destruct r as [s|e| |]; [now specialize (S2 s)| |congruence|congruence].
      split; [rewrite Eb; discriminate|congruence].
    - cbv beta iota. unfold ret, signed. exists (mkSig SrcConsensus k' dg (uo_data up)), s. cbn [sg_key sg_data sg_digest sg_src].
      split; [apply Wk; exists pp; auto|]. split; [reflexivity|]. split; [discriminate|]. split; [reflexivity|]. split; [exact Sg|].
      split; [reflexivity|congruence].
  Qed.

  Lemma stored_unique d k k' : stored_key d k -> stored_key d k' -> k = k'.
  Proof. intros (p & H1 & H2) (p' & H3 & H4). congruence. Qed.

  Lemma baker_exact up d : exact up d (baker_sign C O true up d).
  Proof.
    remember (baker_sign C O true up d) as x eqn:Ex. unfold baker_sign in Ex. unfold bind at 1 in Ex.
    destruct (curve_of_byte (uo_p2 up)) as [c|] eqn:Ec; cbn [of_option] in Ex; [|subst x; split; [discriminate|reflexivity]].
    unfold ret at 1 in Ex. cbv beta iota in Ex. unfold bind at 1 in Ex.
    destruct (path_read BIP32_MAX_LENGTH (uo_first up)) as [pa|] eqn:Ep; cbn [of_option] in Ex; [|subst x; split; [discriminate|reflexivity]].
    unfold ret at 1 in Ex. cbv beta iota in Ex. unfold bind at 1 in Ex.
    pose proof (keeps_check_with_stored eff_none (c, pa) d) as F1.
    pose proof (check_with_stored_spec (c, pa) d) as K1. pose proof (check_quiet (c, pa) d) as Q1.
    assert (L1 := frame_log_none eff_none _ _ ltac:(cbn; tauto) F1).
    destruct (check_with_stored (c, pa) d) as [[ok|e| |] d1]; cbn [snd fst] in *; [|subst x; split; assumption|subst x; exact L1|contradiction].
    unfold bind at 1 in Ex. destruct ok; cbn [check] in Ex; [|subst x; split; [discriminate|exact L1]].
    destruct K1 as [Sk W1].
    assert (Wk : forall k, stored_key d1 k <-> stored_key d k).
    { intros k. split; intros (pp & H1 & H2); exists pp; split; auto; pose proof (weq_read _ _ W1); congruence. }
    apply Wk in Sk.
    unfold ret at 1 in Ex. cbv beta iota in Ex. unfold bind at 1, digest32 in Ex.
    destruct (o_blake2b O 32 (uo_data up)) as [dg|] eqn:Dg; cbn [of_option] in Ex; [|subst x; split; [discriminate|exact L1]].
    unfold ret at 1 in Ex. cbv beta iota in Ex.
    destruct (preemble_parse (uo_data up)) as [rem p| |] eqn:P; [|subst x; split; [discriminate|exact L1]|subst x; exact L1].
    apply preemble_parse_inv in P as (m & Em & Pm).
    assert (Nm : named up (c, pa) dg) by (split; [exact Ec|split; [exact Ep|exact Dg]]).
    assert (Cs : exact up d (handle_consensus O p rem true dg (uo_data up) d1)).
    { pose proof (consensus_exact m p rem dg up d1 Pm Em Dg (ex_intro _ _ Sk)) as X. unfold exact.
      destruct (handle_consensus O p rem true dg (uo_data up) d1) as [[[out|]|e| |] d2].
      - destruct X as (g & s & X1 & X2 & X3 & X4 & X5 & X6 & X7). exists g, s.
        rewrite <- (stored_unique d1 _ _ Sk X1) in *. rewrite X4. rewrite X4 in X5, X6.
        split; [exact Nm|]. split; [exact X2|]. split; [exact X3|]. split; [exact X5|]. split; [exact X6|congruence].
      - contradiction.
      - split; [apply X|]. rewrite <- L1. apply X.
      - congruence.
      - congruence. }
    assert (Dl : exact up d (handle_delegation C rem true dg (uo_data up) d1)).
    { unfold handle_delegation. destruct (operation_new rem) as [[br ops]|]; [|split; [discriminate|exact L1]].
      destruct (eo_next ops) as [| | |o e]; try exact L1; try (split; [discriminate|exact L1]).
      assert (Sh : exact up d (show C (VBakingSign true dg br o (uo_data up)) d1)).
      { unfold show. destruct (cf_room C _) eqn:Er; [|split; [discriminate|exact L1]]. split; [destruct d1; exact L1|].
        exists (c, pa), dg. split; [exact Nm|]. exists (VBakingSign true dg br o (uo_data up)).
        split; [destruct d1; reflexivity|]. split; [congruence|]. right. exists br, o. split; [reflexivity|destruct d1; exact Sk]. }
      destruct o; try exact Sh; (split; [discriminate|exact L1]). }
    destruct p; subst x; try exact Cs; try exact Dl; (split; [discriminate|exact L1]).
  Qed.

  (** ** One packet *)

  Lemma with_upload_exact a buf f d st p2 init data : (forall up d, exact up d (f up d)) ->
    apdu_ok buf -> Forall whole_fault (d_ufaults d) -> rel2 (d_up d) st -> st = Some (a, p2, init, data) ->
    length init <> 255%nat -> kind_of (nth 2 buf 0) = Some KLast ->
    exact (mkUO p2 init (data ++ pay buf)) d (with_upload a buf f d).
  Proof.
    intros Hf Hb U R Es Li Kl. remember (with_upload a buf f d) as x eqn:Ex. unfold with_upload, the_upload in Ex.
    unfold bind at 1 in Ex. pose proof (upload_step2 a buf (d_up d) (d_ufaults d) st Hb U R) as X.
    destruct (upload a buf (d_up d) (d_ufaults d)) as [[o u'] s]. destruct X as (_ & _ & X).
    set (d1 := set_up u' (set_ufaults s d)) in Ex.
    assert (L1 : d_log d1 = d_log d) by (unfold d1; destruct d; reflexivity). clearbody d1.
    destruct o as [[up|]|e| |].
    - specialize (Hf up d1).
      destruct X as (_ & _ & [X|(p2' & init' & data' & E & ->)]).
      + (* too long for a path *)
        assert (Nn : forall k dg, ~ named up k dg).
        { intros k dg (_ & N & _). revert X. eapply long_path; [exact N|]. unfold BIP32_MAX_LENGTH. lia. }
        destruct (f up d1) as [[[out|]|e| |] d2]; cbv beta iota in Ex; unfold bind, drop_upload, ret, fail in Ex; subst x; unfold exact in *.
        * destruct Hf as (g & s' & N & _). now apply Nn in N.
        * destruct Hf as (_ & k & dg & N & _). now apply Nn in N.
        * split; [apply Hf|]. rewrite log_set_up, <- L1. apply Hf.
        * congruence.
        * congruence.
      + rewrite Es in E. injection E as <- <- <-.
        destruct (f _ d1) as [[[out|]|e| |] d2]; cbv beta iota in Ex; unfold bind, drop_upload, ret, fail in Ex; subst x; unfold exact in *.
        * destruct Hf as (g & s' & N1 & N2 & N3 & N4 & N5 & N6). exists g, s'. do 5 (split; [assumption|]). rewrite log_set_up. congruence.
        * destruct Hf as (N0 & k & dg & N1 & N2). split; [rewrite log_set_up; congruence|]. exists k, dg. split; [exact N1|].
          destruct d2. exact N2.
        * split; [apply Hf|]. rewrite log_set_up, <- L1. apply Hf.
        * congruence.
        * congruence.
    - destruct X as [_ X]. contradiction.
    - subst x. split; [apply X|exact L1].
    - subst x. exact L1.
    - subst x. exact L1.
  Qed.
  Lemma with_upload_middle a buf f d st : apdu_ok buf -> Forall whole_fault (d_ufaults d) -> rel2 (d_up d) st ->
    kind_of (nth 2 buf 0) <> Some KLast ->
    d_log (snd (with_upload a buf f d)) = d_log d /\
    match fst (with_upload a buf f d) with
    | Ok (Now out) => out = []
    | Ok Later => False
    | Err e => e <> Success
    | _ => True
    end.
  Proof.
    intros Hb U R Kl. remember (with_upload a buf f d) as x eqn:Ex. unfold with_upload, the_upload in Ex.
    unfold bind at 1 in Ex. pose proof (upload_step2 a buf (d_up d) (d_ufaults d) st Hb U R) as X.
    destruct (upload a buf (d_up d) (d_ufaults d)) as [[o u'] s]. destruct X as (_ & _ & X).
    set (d1 := set_up u' (set_ufaults s d)) in Ex.
    assert (L1 : d_log d1 = d_log d) by (unfold d1; destruct d; reflexivity). clearbody d1.
    destruct o as [[up|]|e| |].
    - now destruct X as (X & _).
    - subst x. split; [exact L1|reflexivity].
    - subst x. split; [exact L1|apply X].
    - subst x. split; [exact L1|exact Logic.I].
    - subst x. split; [exact L1|exact Logic.I].
  Qed.

  Hypothesis room : leaves_room C 134.
  Hypothesis Ok_ : oracles_ok O.

  (** A call that brings no signature. *)
  Definition nothing (d : dev) (r : sign_res) (d' : dev) : Prop :=
    d_log d' = d_log d /\ sr_code r <> 0x9000 /\ sr_hash r = None /\ sr_sig r = None.
  Lemma nothing_none d d' wh : d_log d' = d_log d -> nothing d (read_sign wh None) d'.
  Proof. intros L. split; [exact L|]. repeat split. discriminate. Qed.
  Lemma nothing_err d d' wh e : d_log d' = d_log d -> e <> Success -> nothing d (read_sign wh (Some (be 2 (sw e)))) d'.
  Proof.
    intros L Ne. split; [exact L|]. destruct e; try (now elim Ne); (split; [vm_compute; discriminate|split; reflexivity]).
  Qed.
  Lemma faithful_nothing k data d r d' : nothing d r d' -> faithful O k data (d_log d) (d_log d') r.
  Proof. intros X. right. exact X. Qed.

  Lemma named_digest up k dg : named up k dg -> length dg = 32%nat.
  Proof. intros (_ & _ & D). apply (ok_blake2b O Ok_) in D. apply D. Qed.

  Lemma finish_exact rm up d x user : exact up d x -> 134 <= rm ->
    (exists k, curve_of_byte (uo_p2 up) = Some (fst k) /\ path_read BIP32_MAX_LENGTH (uo_first up) = Some (snd k) /\
       let y := settle C O (finish rm x) user in faithful O k (uo_data up) (d_log d) (d_log (snd y)) (read_sign true (fst y))) \/
    (let y := settle C O (finish rm x) user in nothing d (read_sign true (fst y)) (snd y)).
  Proof.
    intros E Hr. destruct x as [[[out|]|e| |] d']; cbn [exact] in E.
    - destruct E as (g & s & N & E1 & E2 & E3 & -> & E4). left. exists (sg_key g). split; [apply N|]. split; [apply N|].
      pose proof (named_digest _ _ _ N) as Ld. pose proof (proj1 (ok_sign O Ok_ _ _ _ _ E3)) as Ls.
      cbn [finish]. replace (rm <? len (sg_digest g ++ s) + 2) with false
        by (symmetry; unfold len; rewrite app_length; lia).
      cbv zeta. cbn [settle fst snd]. left. exists g, s. split; [exact E4|]. split; [reflexivity|]. split; [exact E1|].
      split; [exact E2|]. split; [apply N|]. split; [exact E3|].
      change (be 2 (sw Success)) with [0x90; 0]. rewrite <- app_assoc. now apply read_hashed.
    - destruct E as (L & k & dg & N & Wt). left. exists k. split; [apply N|]. split; [apply N|].
      pose proof (named_digest _ _ _ N) as Ld.
      cbn [finish]. cbv zeta. cbn [settle].
      destruct Wt as (v & V & Cr & Wt).
      assert (L0 : d_log (set_ui None d') = d_log d) by (destruct d'; exact L).
      set (rm' := match cf_room C v with Some r => r | None => 0 end).
      assert (Hr' : 134 <= rm').
      { unfold rm'. destruct (cf_room C v) as [r|] eqn:Er; [exact (room _ _ Er)|congruence]. }
      assert (Dc : forall f e, (exists d2, f v rm' (set_ui None d') = (Err e, d2) /\ d_log d2 = d_log d) -> e <> Success ->
        faithful O k (uo_data up) (d_log d) (d_log (snd (settle C O (decide C f d') EPower)))
          (read_sign true (fst (settle C O (decide C f d') EPower)))).
      { intros f e (d2 & F & L2) Ne. unfold decide. rewrite V. fold rm'. unfold bind. rewrite F. cbn [finish].
        replace (rm' <? len [] + 2) with false by (symmetry; cbn; lia). cbn [settle fst snd app].
        now apply faithful_nothing, nothing_err. }
      destruct user as [buf rx| | | |].
      + cbn [step]. rewrite V. cbn [fst snd]. apply faithful_nothing, nothing_none. exact L.
      + (* approval *)
        cbn [step]. unfold decide. rewrite V.
        fold rm'.
        assert (A : match accept O v rm' (set_ui None d') with
          | (Ok out, d2) => exists g s, sg_key g = k /\ sg_digest g = dg /\ sg_data g = uo_data up /\ sg_src g <> SrcHmac /\
              o_sign O (fst k) (snd k) dg = Some s /\ out = dg ++ s /\ d_log d2 = g :: d_log d
          | (Err e, d2) => e <> Success /\ d_log d2 = d_log d
          | (_, d2) => d_log d2 = d_log d
          end).
        { clearbody rm'. clear Dc. destruct Wt as [(p & -> & P)|(br & o & -> & Sk)].
          - cbn [accept]. unfold bind at 1. replace (d_path (set_ui None d')) with (Some k) by (destruct d'; symmetry; exact P).
            unfold bind at 1, sign_with. destruct (o_sign O (fst k) (snd k) dg) as [s|]; [|split; [discriminate|exact L0]].
            destruct (100 <? length s)%nat; [exact L0|]. unfold bind, ret, signed.
            exists (mkSig SrcReview k dg (uo_data up)), s. cbn [sg_key sg_digest sg_data sg_src].
            do 3 (split; [reflexivity|]). split; [discriminate|]. do 2 (split; [reflexivity|]). destruct d'; cbn in *. congruence.
          - cbn [accept]. unfold bind at 1.
            assert (Sk' : stored_key (set_ui None d') k) by (destruct d'; exact Sk).
            pose proof (baking_sign_spec O SrcBakingReview dg (uo_data up) (set_ui None d')) as S.
            pose proof (baking_sign_err O SrcBakingReview dg (uo_data up) _ k Sk') as Eb.
            destruct (baking_sign O SrcBakingReview dg (uo_data up) (set_ui None d')) as [r d2].
            destruct S as [[S1 S2]|(pp & k' & s & -> & R & Kk & Sg & Ls & Lg)].
            + destruct r as [s|e| |]; [now specialize (S2 s)| |congruence|congruence].
              split; [rewrite Eb; discriminate|congruence].
            + assert (k' = k) by (apply (stored_unique (set_ui None d')); [exists pp; auto|exact Sk']). subst k'.
              unfold ret, signed. exists (mkSig SrcBakingReview k dg (uo_data up)), s. cbn [sg_key sg_digest sg_data sg_src].
              do 3 (split; [reflexivity|]). split; [discriminate|]. split; [exact Sg|]. split; [reflexivity|congruence]. }
        unfold bind. destruct (accept O v rm' (set_ui None d')) as [[out|e| |] d2].
        * destruct A as (g & s & <- & <- & A1 & A2 & A3 & -> & A4). unfold ret. cbn [finish].
          pose proof (proj1 (ok_sign O Ok_ _ _ _ _ A3)) as Ls.
          replace (rm' <? len (sg_digest g ++ s) + 2) with false by (symmetry; unfold len; rewrite app_length; lia).
          cbn [fst snd]. left. exists g, s. split; [exact A4|]. split; [reflexivity|]. split; [exact A1|].
          split; [exact A2|]. split; [apply N|]. split; [exact A3|].
          change (be 2 (sw Success)) with [0x90; 0]. rewrite <- app_assoc. now apply read_hashed.
        * cbn [finish]. replace (rm' <? len [] + 2) with false by (symmetry; cbn; lia). cbn [fst snd app].
          apply faithful_nothing, nothing_err; apply A.
        * cbn [finish fst snd]. apply faithful_nothing, nothing_none. destruct d2; exact A.
        * cbn [finish fst snd]. apply faithful_nothing, nothing_none. destruct d2; exact A.
      + cbn [step]. specialize (Dc (fun v _ => reject v) CommandNotAllowed). revert Dc. unfold decide. rewrite V. fold rm'.
        unfold bind. pose proof (reject_log v (set_ui None d')) as Rl.
        assert (Re : fst (reject v (set_ui None d')) = Err CommandNotAllowed) by (destruct v; reflexivity).
        destruct (reject v (set_ui None d')) as [o d2]. cbn [fst snd] in Re, Rl. subst o. intros Dc.
        specialize (Dc (ex_intro _ d2 (conj eq_refl (eq_trans Rl L0))) ltac:(discriminate)). revert Dc. cbn [finish].
        replace (rm' <? len [] + 2) with false by (symmetry; cbn; lia). cbn [settle fst snd]. auto.
      + cbn [step]. specialize (Dc (fun _ _ => fail DataInvalid) DataInvalid). revert Dc. unfold decide. rewrite V. fold rm'.
        unfold bind, fail. intros Dc.
        specialize (Dc (ex_intro _ _ (conj eq_refl L0)) ltac:(discriminate)). revert Dc. cbn [finish].
        replace (rm' <? len [] + 2) with false by (symmetry; cbn; lia). cbn [settle fst snd]. auto.
      + cbn [step fst snd]. apply faithful_nothing, nothing_none. destruct d'; exact L.
    - right. destruct E as [Ne L]. cbn [finish]. replace (rm <? len [] + 2) with false by (symmetry; cbn; lia).
      cbv zeta. cbn [settle fst snd app]. now apply nothing_err.
    - right. cbn [finish settle fst snd]. apply nothing_none. destruct d'; exact E.
    - right. cbn [finish settle fst snd]. apply nothing_none. destruct d'; exact E.
  Qed.

  (** ** Commands *)

  Definition serves (ins : N) (a : accessor) (f : upload_out -> M reply) : Prop :=
    (forall buf, nth 0 buf 0 = 0x80 -> nth 1 buf 0 = ins -> dispatch C O buf = with_upload a buf f) /\
    (exists E, ~ e_up E /\ forall up, keeps E (f up)) /\ (forall up d, exact up d (f up d)).
  Definition refuses (ins : N) : Prop :=
    forall buf, nth 0 buf 0 = 0x80 -> nth 1 buf 0 = ins -> dispatch C O buf = fail CommandNotAllowed.
  Lemma served ins : In ins [0x12; 0x0F; 0xAF] -> (exists a f, serves ins a f) \/ refuses ins.
  Proof.
    assert (S1 : forall ins, (forall buf, nth 0 buf 0 = 0x80 -> nth 1 buf 0 = ins -> dispatch C O buf = h_sign C O true buf) ->
      exists a f, serves ins a f).
    { intros i E. exists AccSign, (start_sign C O true). split; [exact E|]. split; [|exact start_exact].
      eexists. split; [|apply keeps_start_sign]. cbn; tauto. }
    assert (S2 : forall ins, (forall buf, nth 0 buf 0 = 0x80 -> nth 1 buf 0 = ins -> dispatch C O buf = h_baker_sign C O true buf) ->
      exists a f, serves ins a f).
    { intros i E. exists AccBaking, (baker_sign C O true). split; [exact E|]. split; [|exact baker_exact].
      eexists. split; [|apply keeps_baker_sign]. cbn; tauto. }
    intros [<-|[<-|[<-|[]]]].
    - left. apply S1. intros buf E0 E1. rewrite (dispatch_at C O buf _ E0 E1). destruct (cf_baking C); reflexivity.
    - left. destruct (cf_baking C) eqn:Cb; [apply S2|apply S1]; intros buf E0 E1; rewrite (dispatch_at C O buf _ E0 E1), Cb;
      unfold dispatch_common; rewrite Cb; reflexivity.
    - destruct (cf_baking C) eqn:Cb; [left; apply S2|right]; intros buf E0 E1; rewrite (dispatch_at C O buf _ E0 E1), Cb; reflexivity.
  Qed.

  (** The device holds what was sent, or does not listen. *)
  Definition holds (d : dev) (st : pstate) : Prop :=
    Forall whole_fault (d_ufaults d) /\ (d_ui d <> None \/ rel2 (d_up d) st).

  Lemma step_deaf d buf rx : d_ui d <> None -> step C O d (EApdu buf rx) = (ANone, d).
  Proof. intros U. cbn [step]. destruct (d_ui d); [reflexivity|congruence]. Qed.

  Definition middle (ins : N) (kind : pkind) (d : dev) (st : pstate) (chunk : bytes) (p2 : N) (user : event) (buf : bytes) (rx : N) (a : accessor) : Prop :=
    let y := settle C O (step C O d (EApdu buf rx)) user in
    d_log (snd y) = d_log d /\ sr_hash (read_sign true (fst y)) = None /\ sr_sig (read_sign true (fst y)) = None /\
    Forall whole_fault (d_ufaults (snd y)) /\
    match kind with
    | KInit => holds (snd y) (Some (a, p2, chunk, []))
    | _ => sr_code (read_sign true (fst y)) = 0x9000 ->
           holds (snd y) (match st with Some (h, q, init, data) => Some (h, q, init, data ++ chunk) | None => None end)
    end.
  Lemma middle_served ins a f kind d st chunk p2 p1 old user : serves ins a f -> holds d st ->
    (length chunk <= 255)%nat -> bytes_ok chunk -> ins < 256 -> p1 < 256 -> p2 < 256 -> apdu_ok old -> kind_of p1 = Some kind ->
    kind <> KLast ->
    let p := pkt_of ins p1 p2 chunk old in
    middle ins kind d st chunk p2 user (fst p) (snd p) a.
  Proof.
    intros (Sd & (Ef & Nu & Kf) & _) [Wf Hst] Lc Bc Hi H1 H2 Ho Kd Nk p.
    destruct (pkt_packet ins p1 p2 chunk old kind Lc Bc Hi H1 H2 Ho Kd) as ((P1 & P2 & P3 & P4 & P5) & Pp & P6). fold p in P1, P2, P3, P4, P5, Pp, P6.
    clearbody p. destruct p as [buf rx]. cbn [fst snd] in *. unfold middle.
    assert (Dec : d_ui d <> None \/ d_ui d = None) by (destruct (d_ui d); [left; discriminate|right; reflexivity]).
    destruct Dec as [U|U].
    { rewrite (step_deaf _ _ _ U). cbn [settle fst snd]. do 3 (split; [reflexivity|]). split; [exact Wf|].
      destruct kind; [split; [exact Wf|now left]|discriminate|now elim Nk]. }
    destruct Hst as [Hst|Hst]; [congruence|].
    cbn [step]. rewrite U. assert (El : len buf = 260) by (destruct P1 as [P1 _]; unfold len; lia). rewrite El.
    replace (apdu_read_ok buf rx) with true by (unfold apdu_read_ok; rewrite El; symmetry; lia).
    rewrite (Sd buf P3 P4).
    destruct (with_upload_kept2 a buf f Ef d st P1 Wf Hst Nu Kf) as [Kp _].
    destruct (with_upload_middle a buf f d st P1 Wf Hst ltac:(congruence)) as [Lg Om].
    destruct (with_upload a buf f d) as [o d1]. cbn [fst snd] in Lg, Om.
    unfold acc_cmd in Kp. rewrite P5 in Kp. rewrite Pp, P6 in Kp.
    pose proof (finish_kept2 260 _ _ Kp) as Fk. cbv zeta in Fk. destruct Fk as [Fw Fr].
    destruct o as [[out|]|e| |]; [subst out|contradiction| | |]; cbn [finish] in Fw, Fr |- *.
    - change (260 <? len [] + 2) with false in *. cbv iota in Fw, Fr |- *. cbn [settle fst snd app accepts] in Fw, Fr |- *.
      split; [exact Lg|]. do 2 (split; [reflexivity|]). split; [exact Fw|].
      destruct kind; [split; [exact Fw|now right]| |now elim Nk]. intros _. split; [exact Fw|right].
      destruct st as [[[[h q] init] data]|]; exact Fr.
    - change (260 <? len [] + 2) with false in *. cbv iota in Fw, Fr |- *. cbn [settle fst snd app accepts] in Fw, Fr |- *.
      split; [exact Lg|]. destruct (nothing_err d d1 true e Lg Om) as (_ & N1 & N2 & N3).
      split; [exact N2|]. split; [exact N3|]. split; [exact Fw|].
      destruct kind; [|intros E; now elim N1|now elim Nk]. split; [exact Fw|right]. now apply rel2_weaken.
    - cbn [settle fst snd] in Fw, Fr |- *. split; [destruct d1; exact Lg|]. do 2 (split; [reflexivity|]). split; [exact Fw|].
      destruct kind; [|discriminate|now elim Nk]. split; [exact Fw|right]. now apply rel2_weaken.
    - cbn [settle fst snd] in Fw, Fr |- *. split; [destruct d1; exact Lg|]. do 2 (split; [reflexivity|]). split; [exact Fw|].
      destruct kind; [|discriminate|now elim Nk]. split; [exact Fw|right]. now apply rel2_weaken.
  Qed.

  Lemma last_served ins a f d c pa sp data chunk p1 p2 old user : serves ins a f ->
    holds d (Some (a, byte_of_curve c, sp, data)) -> path_encodes BIP32_MAX_LENGTH sp pa -> length sp <> 255%nat ->
    (length chunk <= 255)%nat -> bytes_ok chunk -> ins < 256 -> p1 < 256 -> p2 < 256 -> apdu_ok old -> kind_of p1 = Some KLast ->
    let p := pkt_of ins p1 p2 chunk old in
    let y := settle C O (step C O d (EApdu (fst p) (snd p))) user in
    faithful O (c, pa) (data ++ chunk) (d_log d) (d_log (snd y)) (read_sign true (fst y)).
  Proof.
    intros (Sd & _ & Ex) [Wf Hst] Pe Ls Lc Bc Hi H1 H2 Ho Kd p.
    destruct (pkt_packet ins p1 p2 chunk old KLast Lc Bc Hi H1 H2 Ho Kd) as ((P1 & P2 & P3 & P4 & P5) & Pp & P6). fold p in P1, P2, P3, P4, P5, Pp, P6.
    clearbody p. destruct p as [buf rx]. cbn [fst snd] in *.
    assert (Dec : d_ui d <> None \/ d_ui d = None) by (destruct (d_ui d); [left; discriminate|right; reflexivity]).
    destruct Dec as [U|U].
    { rewrite (step_deaf _ _ _ U). cbn [settle fst snd]. apply faithful_nothing, nothing_none. reflexivity. }
    destruct Hst as [Hst|Hst]; [congruence|].
    cbn [step]. rewrite U. assert (El : len buf = 260) by (destruct P1 as [P1 _]; unfold len; lia). rewrite El.
    replace (apdu_read_ok buf rx) with true by (unfold apdu_read_ok; rewrite El; symmetry; lia).
    rewrite (Sd buf P3 P4).
    pose proof (with_upload_exact a buf f d _ _ _ _ Ex P1 Wf Hst eq_refl Ls P5) as X. rewrite Pp in X.
    destruct (finish_exact 260 _ d _ user X ltac:(lia)) as [(k & K1 & K2 & Y)|Y].
    - cbn [uo_p2 uo_first uo_data] in K1, K2, Y. rewrite curve_round in K1. apply path_read_complete in Pe. rewrite Pe in K2.
      destruct k as [kc kp]. cbn [fst snd] in K1, K2. injection K1 as <-. injection K2 as <-. exact Y.
    - apply faithful_nothing. exact Y.
  Qed.

  Lemma refused_packet ins d chunk p1 p2 old user kind : refuses ins -> 
    (length chunk <= 255)%nat -> bytes_ok chunk -> ins < 256 -> p1 < 256 -> p2 < 256 -> apdu_ok old -> kind_of p1 = Some kind ->
    let p := pkt_of ins p1 p2 chunk old in
    let y := settle C O (step C O d (EApdu (fst p) (snd p))) user in
    nothing d (read_sign true (fst y)) (snd y).
  Proof.
    intros Rf Lc Bc Hi H1 H2 Ho Kd p.
    destruct (pkt_packet ins p1 p2 chunk old kind Lc Bc Hi H1 H2 Ho Kd) as ((P1 & P2 & P3 & P4 & P5) & Pp & P6). fold p in P1, P2, P3, P4, P5, Pp, P6.
    clearbody p. destruct p as [buf rx]. cbn [fst snd] in *. cbn [step].
    destruct (d_ui d); [cbn [settle fst snd]; now apply nothing_none|].
    assert (El : len buf = 260) by (destruct P1 as [P1 _]; unfold len; lia). rewrite El.
    replace (apdu_read_ok buf rx) with true by (unfold apdu_read_ok; rewrite El; symmetry; lia).
    rewrite (Rf buf P3 P4). unfold fail. cbn [finish]. change (260 <? len [] + 2) with false. cbn [settle fst snd app].
    now apply nothing_err.
  Qed.

  (** ** The calls *)

  Definition sched_ok (l : list (bytes * event)) : Prop := Forall (fun p => apdu_ok (fst p)) l.

  Lemma send_empty idx num chunk legacy c ins wh d : (length chunk <= 255)%nat ->
    sign_send_chunk (plugged C O) idx num chunk legacy c ins wh (d, []) = (read_sign wh None, (d, [])).
  Proof.
    intros L. unfold sign_send_chunk, send_codes. replace (256 <=? len chunk) with false by (unfold len; lia). reflexivity.
  Qed.

  Lemma later_p1 i num legacy : (1 <= i)%nat -> chunk_p1 (1 + i) num legacy = if (1 + i =? num)%nat then last_p1 legacy else 1.
  Proof.
    intros L. unfold chunk_p1, last_p1. replace (1 + i =? 1)%nat with false by (symmetry; apply Nat.eqb_neq; lia).
    destruct (1 + i =? num)%nat; [destruct legacy; reflexivity|reflexivity].
  Qed.
  Lemma later_p2 i c : (1 <= i)%nat -> chunk_p2 (1 + i) c = 0.
  Proof. intros L. unfold chunk_p2. replace (1 + i =? 1)%nat with false by (symmetry; apply Nat.eqb_neq; lia). reflexivity. Qed.

  Lemma rest_served ins a f c pa sp legacy : serves ins a f -> ins < 256 -> path_encodes BIP32_MAX_LENGTH sp pa -> length sp <> 255%nat ->
    forall chunks i num data res d sched, chunks <> [] -> (1 <= i)%nat -> num = (i + length chunks)%nat ->
    Forall (fun ch => (length ch <= 255)%nat) chunks -> Forall bytes_ok chunks -> sched_ok sched ->
    holds d (Some (a, byte_of_curve c, sp, data)) ->
    let x := sign_rest (plugged C O) i num chunks legacy c ins true res (d, sched) in
    faithful O (c, pa) (data ++ concat chunks) (d_log d) (d_log (fst (snd x))) (fst x).
  Proof.
    intros Sv Hi Pe Ls chunks. induction chunks as [|ch chunks IH]; intros i num data res d sched Ne I1 En Fl Fb So Hd; [now elim Ne|].
    pose proof (Forall_inv Fl) as L1. pose proof (Forall_inv_tail Fl) as Fl'. pose proof (Forall_inv Fb) as B1. pose proof (Forall_inv_tail Fb) as Fb'.
    cbv beta in L1. cbv zeta. cbn [sign_rest].
    destruct sched as [|[old user] sched].
    { rewrite send_empty by exact L1. change (sr_code (read_sign true None) =? NO_ERRORS) with false. cbv iota. cbn [fst snd].
      apply faithful_nothing, nothing_none. reflexivity. }
    rewrite send_chunk_eq by exact L1. rewrite later_p1 by exact I1. rewrite later_p2 by exact I1.
    pose proof (Forall_inv So) as Ho. cbn [fst] in Ho. pose proof (Forall_inv_tail So) as So'.
    destruct chunks as [|ch2 chunks].
    - cbn [length] in En. replace (1 + i =? num)%nat with true by (symmetry; apply Nat.eqb_eq; lia).
      pose proof (last_served ins a f d c pa sp data ch (last_p1 legacy) 0 old user Sv Hd Pe Ls L1 B1 Hi
        ltac:(destruct legacy; reflexivity) ltac:(reflexivity) Ho ltac:(destruct legacy; reflexivity)) as X.
      unfold pkt_of in X. cbn [fst snd] in X. cbv zeta. cbn [concat]. rewrite app_nil_r.
      match goal with |- context [settle C O ?x user] => destruct (settle C O x user) as [o d1] end. cbn [fst snd] in X |- *.
      cbn [sign_rest]. destruct (sr_code (read_sign true o) =? NO_ERRORS); exact X.
    - cbn [length] in En. replace (1 + i =? num)%nat with false by (symmetry; apply Nat.eqb_neq; lia).
      pose proof (middle_served ins a f KNext d (Some (a, byte_of_curve c, sp, data)) ch 0 1 old user Sv Hd L1 B1 Hi
        ltac:(reflexivity) ltac:(reflexivity) Ho eq_refl ltac:(discriminate)) as X.
      unfold middle, pkt_of in X. cbn [fst snd] in X. cbv zeta in X |- *.
      match goal with |- context [settle C O ?x user] => destruct (settle C O x user) as [o d1] end. cbn [fst snd] in X |- *.
      destruct X as (X1 & X2 & X3 & X4 & X5).
      destruct (N.eqb_spec (sr_code (read_sign true o)) NO_ERRORS) as [E|E].
      + specialize (IH (S i) num (data ++ ch) (read_sign true o) d1 sched ltac:(discriminate) ltac:(lia) ltac:(cbn [length]; lia) Fl' Fb' So' (X5 E)).
        cbv zeta in IH. rewrite X1 in IH. rewrite <- app_assoc in IH. exact IH.
      + cbn [fst snd]. right. rewrite X1. split; [reflexivity|]. split; [exact E|]. split; assumption.
  Qed.

  Lemma rest_refused ins c legacy chunks i num res d sched : refuses ins -> ins < 256 -> chunks <> [] -> (1 <= i)%nat ->
    Forall (fun ch => (length ch <= 255)%nat) chunks -> Forall bytes_ok chunks -> sched_ok sched ->
    let x := sign_rest (plugged C O) i num chunks legacy c ins true res (d, sched) in
    nothing d (fst x) (fst (snd x)).
  Proof.
    intros Rf Hi Ne I1 Fl Fb So. destruct chunks as [|ch chunks]; [now elim Ne|].
    pose proof (Forall_inv Fl) as L1. pose proof (Forall_inv Fb) as B1. cbv beta in L1. cbv zeta. cbn [sign_rest].
    destruct sched as [|[old user] sched].
    { rewrite send_empty by exact L1. change (sr_code (read_sign true None) =? NO_ERRORS) with false. cbv iota. cbn [fst snd].
      apply nothing_none. reflexivity. }
    rewrite send_chunk_eq by exact L1. rewrite later_p1 by exact I1. rewrite later_p2 by exact I1.
    pose proof (Forall_inv So) as Ho. cbn [fst] in Ho.
    set (p1 := if (1 + i =? num)%nat then last_p1 legacy else 1).
    assert (Hp : p1 < 256 /\ exists kind, kind_of p1 = Some kind)
      by (unfold p1; destruct (1 + i =? num)%nat, legacy; split; try reflexivity; eexists; reflexivity).
    destruct Hp as (Hp & kind & Kp).
    pose proof (refused_packet ins d ch p1 0 old user kind Rf L1 B1 Hi Hp ltac:(reflexivity) Ho Kp) as X.
    unfold pkt_of in X. cbn [fst snd] in X. cbv zeta in X |- *.
    match goal with |- context [settle C O ?x user] => destruct (settle C O x user) as [o d1] end. cbn [fst snd] in X |- *.
    destruct (N.eqb_spec (sr_code (read_sign true o)) NO_ERRORS) as [E|E]; [now elim (proj1 (proj2 X))|exact X].
  Qed.

  Variable H : host.
  Hypothesis K : host_ok H O.

  Lemma message_faithful text c pa data legacy ins d st sched : In ins [0x12; 0x0F; 0xAF] -> path_text text pa ->
    bytes_ok data -> data <> [] -> sched_ok sched -> holds d st ->
    let x := sign_message H (plugged C O) text c data legacy ins true (d, sched) in
    faithful O (c, pa) data (d_log d) (d_log (fst (snd x))) (fst x).
  Proof.
    intros Hin T B Ne So Hd. cbv zeta. unfold sign_message.
    assert (Hi : ins < 256) by (destruct Hin as [<-|[<-|[<-|[]]]]; reflexivity).
    assert (Dec : (length pa = 2%nat \/ length pa = 4%nat) \/ (length pa <> 2%nat /\ length pa <> 4%nat)) by lia.
    destruct Dec as [L|[L2 L4]].
    2:{ rewrite (path_text_refused H O text pa K T L2 L4). cbn [fst snd]. right.
        split; [reflexivity|]. split; [discriminate|]. split; reflexivity. }
    destruct (path_text_serialized H O text pa K T L) as [Es F32]. rewrite Es.
    destruct (chunks_spec data (plain_path pa)) as (cs & Ec & Cc & Fc & Lc). rewrite Ec.
    assert (Nc : cs <> []) by (intros ->; apply Ne; now rewrite <- Cc).
    assert (Fl : Forall (fun ch => (length ch <= 255)%nat) cs).
    { revert Fc. apply Forall_impl. intros; lia. }
    assert (Fb : Forall bytes_ok cs) by (apply concat_bytes_ok; now rewrite Cc).
    assert (Lp : (length (plain_path pa) <= 17)%nat) by (rewrite plain_path_length; lia).
    assert (Lq : length (plain_path pa) <> 255%nat) by lia.
    assert (Lr : (length (plain_path pa) <= 255)%nat) by lia.
    assert (Bp : bytes_ok (plain_path pa)) by (apply plain_path_ok; lia).
    assert (Pe : path_encodes BIP32_MAX_LENGTH (plain_path pa) pa).
    { unfold plain_path. apply encodes_components; [destruct L as [L|L]; destruct pa; discriminate|unfold BIP32_MAX_LENGTH; lia|exact F32]. }
    destruct sched as [|[old user] sched].
    { rewrite send_empty by lia.
      destruct cs as [|ch cs]; [now elim Nc|]. cbn [sign_rest]. rewrite send_empty by exact (Forall_inv Fl).
      change (sr_code (read_sign true None) =? NO_ERRORS) with false. cbv iota. cbn [fst snd]. apply faithful_nothing, nothing_none. reflexivity. }
    rewrite send_chunk_eq by lia.
    replace (chunk_p1 1 (S (length cs)) legacy) with 0
      by (unfold chunk_p1; destruct cs; [now elim Nc|]; reflexivity).
    change (chunk_p2 1 c) with (byte_of_curve c).
    pose proof (Forall_inv So) as Ho. cbn [fst] in Ho. pose proof (Forall_inv_tail So) as So'.
    destruct (served ins Hin) as [(a & f & Sv)|Rf].
    - pose proof (middle_served ins a f KInit d st (plain_path pa) (byte_of_curve c) 0 old user Sv Hd Lr Bp Hi
        ltac:(reflexivity) (byte_of_curve_lt c) Ho eq_refl ltac:(discriminate)) as X.
      unfold middle, pkt_of in X. cbn [fst snd] in X. cbv zeta in X |- *.
      match goal with |- context [settle C O ?x user] => destruct (settle C O x user) as [o d1] end. cbn [fst snd] in X |- *.
      destruct X as (X1 & _ & _ & _ & X5).
      pose proof (rest_served ins a f c pa (plain_path pa) legacy Sv Hi Pe Lq cs 1 (S (length cs)) []
        (mkSignRes (sr_code (read_sign true o)) None None) d1 sched Nc (le_n 1) eq_refl Fl Fb So' X5) as Y.
      cbv zeta in Y. rewrite X1, Cc in Y. exact Y.
    - pose proof (refused_packet ins d (plain_path pa) 0 (byte_of_curve c) old user KInit Rf Lr Bp Hi
        ltac:(reflexivity) (byte_of_curve_lt c) Ho eq_refl) as X.
      unfold pkt_of in X. cbn [fst snd] in X. cbv zeta in X |- *.
      match goal with |- context [settle C O ?x user] => destruct (settle C O x user) as [o d1] end. cbn [fst snd] in X |- *.
      pose proof (rest_refused ins c legacy cs 1 (S (length cs)) (mkSignRes (sr_code (read_sign true o)) None None) d1 sched
        Rf Hi Nc (le_n 1) Fl Fb So') as Y.
      cbv zeta in Y. apply faithful_nothing. destruct Y as (Y1 & Y2). split; [rewrite Y1; apply X|exact Y2].
  Qed.

  Lemma magic_byte kind m magic : baker_magic kind m = Some magic -> magic < 256.
  Proof.
    unfold baker_magic. destruct kind.
    - destruct (nth_error m _) as [v|]; [destruct (v =? 20); [|destruct (v =? 21)]|]; intros [= <-]; reflexivity.
    - destruct (nth_error m _) as [v|]; [|discriminate]. destruct (_ || _); [intros [= <-]; reflexivity|].
      destruct (v =? 2); [intros [= <-]; reflexivity|discriminate].
    - intros [= <-]. reflexivity.
  Qed.

  (** C88. *)
  Lemma returned_faithful f u es text c pa call data sched : Forall event_ok es -> Forall whole_fault u ->
    asks_for H (plugged C O) text c call data -> path_text text pa -> bytes_ok (tl data) ->
    Forall (fun p => apdu_ok (fst p)) sched ->
    let d := snd (run C O (dev_fresh f u) es) in
    let x := call (d, sched) in
    faithful O (c, pa) data (d_log d) (d_log (fst (snd x))) (fst x).
  Proof.
    intros He Hu A T B So d.
    assert (Hd : holds d (accepted C O (dev_fresh f u) None es)).
    { destruct (run_accepted C O es (dev_fresh f u) None He Hu fresh_rel2) as [Uf Ur]. fold d in Uf, Ur. split; [exact Uf|now right]. }
    clearbody d.
    assert (G : forall m ms legacy ins, data = m :: ms -> m < 256 -> In ins [0x12; 0x0F; 0xAF] ->
      let x := sign_message H (plugged C O) text c data legacy ins true (d, sched) in
      faithful O (c, pa) data (d_log d) (d_log (fst (snd x))) (fst x)).
    { intros m ms legacy ins E Hm Hin. eapply message_faithful; [exact Hin|exact T| |rewrite E; discriminate|exact So|exact Hd].
      rewrite E in B |- *. apply Forall_cons; [exact Hm|exact B]. }
    cbv zeta in G |- *. destruct A as [m|m|m kind magic Em|m kind].
    - apply (G 3 m false 0x12); cbn [In]; auto. reflexivity.
    - apply (G 5 m false 0x12); cbn [In]; auto. reflexivity.
    - unfold sign_baker. rewrite Em. specialize (G magic m false 0xAF eq_refl (magic_byte _ _ _ Em) ltac:(cbn [In]; auto)).
      destruct (sign_message H (plugged C O) text c (magic :: m) false 175 true (d, sched)) as [r w]. exact G.
    - apply (G (legacy_magic kind) m true 0x0F); cbn [In]; auto. destruct kind; reflexivity.
  Qed.
End Returned.
