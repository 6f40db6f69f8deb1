(** What refused requests, RESET and SETUP leave in the slots. *)
From Coq Require Import List NArith ZArith Lia Bool Arith ZifyBool ZifyNat ZifyN.
From Verif Require Import Base BaseFacts Flash FlashFacts FlashSpec FlashProofs Codecs CodecsSpec CodecsFacts
  Upload UploadSpec UploadFacts Baking BakingSpec BakingFacts Operations Oracles Address
  Device DeviceSpec DeviceFacts DeviceProofs DeviceHist DeviceSigs DeviceAnswers DeviceReviews DeviceKeys.
Import ListNotations.
Open Scope N_scope.

Definition weq_all (d d' : dev) : Prop := forall s, weq (get_slot s d) (get_slot s d').
Lemma weq_all_refl d : weq_all d d.
Proof. intros s. apply weq_refl. Qed.
Lemma weq_all_trans a b c : weq_all a b -> weq_all b c -> weq_all a c.
Proof. intros H1 H2 s. eapply weq_trans; eauto. Qed.
Lemma frame_weq E d d' : (forall s, ~ e_slot E s) -> frame E d d' -> weq_all d d'.
Proof. intros H F s. apply (fr_slot _ _ _ F), H. Qed.
Lemma weq_same d d' s : weq (get_slot s d) (get_slot s d') -> same_slot d d' s.
Proof.
  intros W. split; [now apply weq_read|]. rewrite !get_slot_restart. now rewrite (weq_restart _ _ W).
Qed.
Lemma frame_no_faults E d d' : frame E d d' -> d_faults d = [] -> d_faults d' = [].
Proof.
  intros F H. destruct (fr_faults _ _ _ F) as [l Hl]. rewrite H in Hl. symmetry in Hl. now apply app_eq_nil in Hl.
Qed.

(** With a working flash a write succeeds, or the area cannot be opened. *)
Lemma write_works s p e d : d_faults d = [] ->
  match write_or s p e d with
  | (Ok _, d') => d_faults d' = []
  | (Panic, _) => True
  | _ => False
  end.
Proof.
  intros F. unfold write_or, bind, write_slot. destruct (wear_init (get_slot s d)) as [k|]; [|exact Logic.I].
  rewrite F. cbn [next_fault]. unfold wear_write_at. cbn [fault_res]. cbn [check ret].
  rewrite set_slot_faults. destruct d; reflexivity.
Qed.

Section Slots.
  Variable C : config.
  Variable O : oracles.

  (** ** Refused requests *)

  (** A computation that fails leaves the slots. *)
  Definition refuses {A} (m : M A) : Prop := forall d, d_faults d = [] ->
    match m d with (Err _, d') => weq_all d d' | _ => True end.
  Lemma refuses_keeps {A} E (m : M A) : (forall s, ~ e_slot E s) -> keeps E m -> refuses m.
  Proof.
    intros H K d _. specialize (K d). destruct (m d) as [[]]; auto. eapply frame_weq; eauto.
  Qed.

  (** A computation that does not fail. *)
  Definition works {A} (m : M A) : Prop := forall d, d_faults d = [] ->
    match m d with (Ok _, d') => d_faults d' = [] | (Err _, _) => False | _ => True end.
  Lemma works_bind {A B} (m : M A) (f : A -> M B) : works m -> (forall a, works (f a)) -> works (bind m f).
  Proof.
    intros H Hf d F. specialize (H d F). unfold bind. destruct (m d) as [[a|e| |] d1]; auto. now apply Hf.
  Qed.
  Lemma works_ret {A} (a : A) : works (ret a).
  Proof. intros d F. exact F. Qed.
  Lemma works_write s p e : works (write_or s p e).
  Proof. intros d F. pose proof (write_works s p e d F). destruct (write_or s p e d) as [[]]; auto. Qed.
  Lemma works_read s : works (read_slot s).
  Proof.
    intros d F. pose proof (frame_no_faults _ _ _ (keeps_read_slot eff_none s d) F) as F1.
    unfold read_slot in *. destruct (wear_init (get_slot s d)); auto.
  Qed.
  Lemma refuses_works {A} (m : M A) : works m -> refuses m.
  Proof. intros H d F. specialize (H d F). destruct (m d) as [[]]; auto. contradiction. Qed.
  Lemma refuses_opt {A B} e (o : option A) (f : A -> M B) : (forall a, refuses (f a)) ->
    refuses (bind (of_option e o) f).
  Proof. intros H. destruct o; [apply H|]. intros d _. apply weq_all_refl. Qed.
  Lemma refuses_check {B} b e (f : unit -> M B) : refuses (f tt) -> refuses (bind (check b e) f).
  Proof. intros H. destruct b; [exact H|]. intros d _. apply weq_all_refl. Qed.

  Lemma reset_refuses buf : refuses (h_reset buf).
  Proof.
    unfold h_reset, the_payload. apply refuses_opt. intros pl. apply refuses_check.
    apply refuses_works. apply works_bind; [apply works_write|]. intros _.
    apply works_bind; [apply works_write|]. intros _. apply works_bind; [apply works_read|].
    intros [p| |]; try apply works_ret. apply works_bind; [apply works_write|]. intros _. apply works_ret.
  Qed.
  Lemma accept_refuses v room : refuses (accept O v room).
  Proof.
    pose proof (keeps_accept O v room) as K.
    destruct v; try (refine (refuses_keeps _ _ _ K); intros s' X'; exact X'); cbn [accept] in *; unfold pubkey,
      store_baking_key, remove_baking_key in *.
    - apply refuses_opt. intros pk. apply refuses_works. apply works_bind; [apply works_write|].
      intros _. apply works_ret.
    - apply refuses_works. apply works_bind; [apply works_write|]. intros _. apply works_ret.
    - apply refuses_opt. intros pk. apply refuses_works.
      repeat (apply works_bind; [apply works_write|intros _]). apply works_ret.
  Qed.

  (** A consensus message refused after the watermark was raised. *)
  Definition late (d : dev) (data : bytes) (e : apdu_error) (d' : dev) : Prop :=
    e = ExecutionError /\ (forall s, s <> SMain -> weq (get_slot s d) (get_slot s d')) /\
    exists wm, signed_pos data = Some (wm_pos wm) /\ wm_ok wm /\ wear_reads (d_main d') (wm_serialize wm).

  Lemma baking_sign_err src dg data d k : stored_key d k ->
    match baking_sign O src dg data d with (Err e, _) => e = ExecutionError | _ => True end.
  Proof.
    intros (p & R & K). unfold wear_read in R.
    unfold baking_sign, read_or, read_slot, bind. cbn [get_slot].
    destruct (wear_init (d_key d)) as [i|]; [|discriminate]. injection R as ->. unfold ret at 1.
    rewrite K. cbn [of_ares]. unfold ret at 1. cbn [of_option]. unfold ret at 1. unfold sign_with.
    destruct (o_sign O (fst k) (snd k) dg) as [s|]; [|reflexivity]. destruct (100 <? length s)%nat; exact Logic.I.
  Qed.

  Lemma consensus_refuses B k m p rem sh dg data d : preemble_of_byte m = Some p -> data = m :: rem ->
    bytes_ok data -> wf_wear B (d_main d) -> B + 1 < 2 ^ 64 -> d_faults d = [] -> stored_key d k ->
    match handle_consensus O p rem sh dg data d with
    | (Err e, d') => weq_all d d' \/ late d data e d'
    | _ => True
    end.
  Proof.
    intros P Ed Bd W HB F Sk. unfold handle_consensus. unfold bind at 1.
    pose proof (keeps_read_or eff_none SMain ExecutionError d) as F1.
    destruct (read_or SMain ExecutionError d) as [[hw|e| |] d1]; cbn [snd] in *; try exact Logic.I.
    2:{ left. apply (frame_weq eff_none); [cbn; tauto|exact F1]. }
    pose proof (frame_weq eff_none _ _ (fun s x => x) F1) as W1.
    destruct (consensus_check p rem (wm_parse hw)) as [[wm|e]|] eqn:K; cbn [of_ares]; try exact Logic.I.
    2:{ left. exact W1. }
    pose proof (consensus_check_ok _ _ _ _ _ P K) as (Kp & _ & _). rewrite <- Ed in Kp.
    pose proof (signed_pos_wm_ok _ _ Bd Kp) as Kw.
    unfold bind at 1. unfold ret at 1. unfold bind at 1.
    pose proof (frame_no_faults _ _ _ F1 F) as Fd.
    pose proof (weq_wf B _ _ (W1 SMain) W) as Wf. cbn [get_slot] in Wf.
    unfold write_or. unfold bind at 1. unfold write_slot. cbn [get_slot].
    destruct (wear_init (d_main d1)) as [i|] eqn:I; [|exact Logic.I].
    rewrite Fd. cbn [next_fault].
    pose proof (write_step B (d_main d1) i (wm_serialize wm) WOk Wf HB (wm_payload wm) Logic.I I) as X.
    destruct (wear_write_at (d_main d1) i (wm_serialize wm) WOk) as [w' r] eqn:Ew.
    assert (r = WDone) as -> by (unfold wear_write_at in Ew; inversion Ew; reflexivity).
    destruct X as (_ & X & _). specialize (X eq_refl).
    cbn [check]. unfold ret at 1. set (d2 := set_slot SMain w' (set_faults [] d1)).
    assert (K2 : forall s, s <> SMain -> get_slot s d2 = get_slot s d1).
    { intros s N. unfold d2. rewrite get_set_other by congruence. apply get_slot_set_faults. }
    assert (M2 : d_main d2 = w') by (unfold d2; destruct d1; reflexivity).
    assert (Sk2 : stored_key d2 k).
    { destruct Sk as (pl & R & Kp'). exists pl. split; [|exact Kp'].
      change (d_key d2) with (get_slot SKey d2). rewrite K2 by discriminate.
      pose proof (weq_read _ _ (W1 SKey)) as R1. cbn [get_slot] in R1 |- *. now rewrite R1. }
    set (Es := mkEff (fun _ => False) (fun _ => True) False False (fun _ => False)).
    pose proof (keeps_baking_sign O Es SrcConsensus dg data (fun _ => Logic.I) d2) as FB.
    pose proof (baking_sign_err SrcConsensus dg data d2 k Sk2) as Eb.
    unfold bind. destruct (baking_sign O SrcConsensus dg data d2) as [[s|e| |] d3]; try exact Logic.I.
    cbn [snd] in FB. pose proof (frame_weq Es _ _ (fun s x => x) FB) as W3.
    right. split; [exact Eb|]. split.
    - intros s N. eapply weq_trans; [apply W1|]. rewrite <- (K2 s N). apply W3.
    - exists wm. split; [exact Kp|]. split; [exact Kw|]. unfold wear_reads.
      pose proof (weq_read _ _ (W3 SMain)) as R3. cbn [get_slot] in R3. rewrite R3, M2. exact X.
  Qed.

  Lemma baker_refuses B sh up d : uo_ok up -> wf_wear B (d_main d) -> B + 1 < 2 ^ 64 -> d_faults d = [] ->
    match baker_sign C O sh up d with
    | (Err e, d') => weq_all d d' \/ late d (uo_data up) e d'
    | _ => True
    end.
  Proof.
    intros [_ Ud] W HB F. destruct (baker_sign_cases C O sh up d) as [[Fr _]|(k & d1 & m & p & rem & dg & Fr & Sk & _ & _ & Em & Pm & _ & ->)].
    - pose proof (frame_weq eff_show _ _ (fun s x => x) Fr) as W1.
      destruct (baker_sign C O sh up d) as [[]]; auto.
    - pose proof (frame_weq eff_none _ _ (fun s x => x) Fr) as W1.
      assert (Sk1 : stored_key d1 k).
      { destruct Sk as (pl & R & K). exists pl. split; [|exact K].
        pose proof (weq_read _ _ (W1 SKey)) as R1. cbn [get_slot] in R1. now rewrite R1. }
      pose proof (consensus_refuses B k m p rem sh dg (uo_data up) d1 Pm Em Ud
        (weq_wf B _ _ (W1 SMain) W) HB (frame_no_faults _ _ _ Fr F) Sk1) as X.
      destruct (handle_consensus O p rem sh dg (uo_data up) d1) as [[r|e| |] d']; auto.
      destruct X as [X|(X1 & X2 & X3)]; [left; eapply weq_all_trans; eauto|]. right.
      split; [exact X1|]. split; [|exact X3]. intros s N. eapply weq_trans; [apply W1|now apply X2].
  Qed.

  Lemma with_upload_err a buf f d : match with_upload a buf f d with
    | (Err e, d') => (forall s, get_slot s d' = get_slot s d) \/
        exists up u s d1, upload a buf (d_up d) (d_ufaults d) = (Ok (Some up), u, s) /\
          f up (set_up u (set_ufaults s d)) = (Err e, d1) /\ forall s', get_slot s' d' = get_slot s' d1
    | _ => True
    end.
  Proof.
    unfold with_upload, the_upload. unfold bind at 1.
    destruct (upload a buf (d_up d) (d_ufaults d)) as [[r u] s].
    assert (G : forall s', get_slot s' (set_up u (set_ufaults s d)) = get_slot s' d) by (intros []; destruct d; reflexivity).
    destruct r as [[up|]|e| |]; try exact Logic.I; [|left; exact G].
    destruct (f up (set_up u (set_ufaults s d))) as [[r|e| |] d1] eqn:E; cbn; try exact Logic.I.
    right. exists up, u, s, d1. split; [reflexivity|]. split; [exact E|]. intros []; destruct d1; reflexivity.
  Qed.

  Lemma status_err e : e = Success \/ ~ succeeds (AReply (be 2 (sw e))).
  Proof.
    destruct e; auto; right; intros [data X]; injection X as X; revert X; cbn; intros X;
      apply (last_two [] data) in X as [? ?]; discriminate.
  Qed.
  Lemma not_success room x out d' : finish room x = (AReply out, d') -> ~ succeeds (AReply out) ->
    exists e, x = (Err e, d') /\ out = be 2 (sw e).
  Proof.
    intros E N. destruct x as [[[data|]|e| |] d]; cbn [finish] in E; try discriminate;
      match type of E with (if ?b then _ else _) = _ => destruct b; [discriminate|] end.
    - exfalso. apply N. exists data. assert (out = data ++ be 2 (sw Success)) as -> by congruence. reflexivity.
    - exists e. assert (X : out = [] ++ be 2 (sw e) /\ d = d') by (split; congruence).
      destruct X as [-> ->]. auto.
  Qed.

  (** C09. *)
  Lemma refused_keeps f u es e out : Forall slot_fault_ok f -> Forall up_fault_ok u ->
    Forall event_ok (es ++ [e]) -> len es + 1 < 2 ^ 64 ->
    let d := snd (run C O (dev_fresh f u) es) in
    let d' := snd (step C O d e) in
    d_faults d = [] -> fst (step C O d e) = AReply out -> ~ succeeds (AReply out) ->
    (forall s, same_slot d d' s) \/
    (exists q p, offered C d e q /\ out = [0x64; 0] /\ (forall s, s <> SMain -> same_slot d d' s) /\
       wear_read (d_main d') = Some (RData p) /\ wm_pos (wm_parse p) = q).
  Proof.
    intros Ff Fu E L d d' Fd Ea Ns. apply Forall_app in E as [E E1]. inversion E1 as [|? ? He _]; subst.
    pose proof (reach_dok C O f u es Ff Fu E ltac:(lia)) as D. fold d in D.
    assert (Es : step C O d e = (AReply out, d')) by (rewrite <- Ea; apply surjective_pairing).
    clear Ea. clearbody d'.
    assert (Q : weq_all d d' -> forall s, same_slot d d' s) by (intros W s; apply weq_same, W).
    assert (Dec : forall g, (forall v room, refuses (g v room)) -> decide C g d = (AReply out, d') -> forall s, same_slot d d' s).
    { intros g Hg X. unfold decide in X. destruct (d_ui d) as [v|] eqn:U; [|discriminate].
      apply not_success in X as (x & X & _); [|exact Ns]. apply Q.
      set (room := match cf_room C v with Some r => r | None => 0 end) in X.
      assert (F0 : d_faults (set_ui None d) = []) by (destruct d; exact Fd).
      specialize (Hg v room _ F0). unfold bind in X.
      destruct (g v room (set_ui None d)) as [[a|y| |] d1]; try discriminate.
      injection X as _ ->. intros s. specialize (Hg s).
      replace (get_slot s (set_ui None d)) with (get_slot s d) in Hg by (destruct s, d; reflexivity). exact Hg. }
    destruct e as [buf rx| | | |]; cbn [step] in Es.
    - destruct (d_ui d) eqn:U; [discriminate|].
      apply not_success in Es as (x & X & Eo); [|exact Ns].
      destruct (apdu_read_ok buf rx) eqn:Ok; [|injection X as _ <-; left; apply Q, weq_all_refl].
      cbn [event_ok] in He.
      destruct (dispatch_kinds C O buf) as [(_ & _ & _ & R)|[(Cb & E0 & Hi & sh & R)|[(_ & sh & R)|[K _]]]];
        try rewrite R in X.
      + left. apply Q. pose proof (reset_refuses buf d Fd) as Y. rewrite X in Y. exact Y.
      + pose proof (with_upload_err AccBaking buf (baker_sign C O sh) d) as Y.
        unfold h_baker_sign in X. rewrite X in Y. destruct Y as [Y|(up & uu & ss & d1 & Eu & Y1 & Y2)].
        * left. apply Q. intros s. rewrite Y. apply weq_refl.
        * set (d0 := set_up uu (set_ufaults ss d)) in *.
          assert (G : forall s, get_slot s d0 = get_slot s d) by (intros []; unfold d0; destruct d; reflexivity).
          assert (F0 : d_faults d0 = []) by (unfold d0; destruct d; exact Fd).
          pose proof (with_upload_bytes AccBaking buf d up uu ss He (dok_up _ _ _ _ D) (dok_ufaults _ _ _ _ D) Eu) as Uo.
          assert (Wf : wf_wear (len es) (d_main d0)).
          { change (d_main d0) with (get_slot SMain d0). rewrite G. apply (dok_wf _ _ _ _ D SMain). }
          pose proof (baker_refuses (len es) sh up d0 Uo Wf L F0) as Z. rewrite Y1 in Z.
          destruct Z as [Z|(Z1 & Z2 & wm & Z3 & Z4 & Z5)].
          -- left. apply Q. intros s. rewrite Y2, <- (G s). apply Z.
          -- right. exists (wm_pos wm), (wm_serialize wm). split.
             ++ split; [exact Cb|]. exists buf, rx, (nth 1 buf 0), up, uu, ss. split; [reflexivity|].
                split; [|split; [exact Hi|split; [exact Eu|exact Z3]]].
                unfold apdu_read_ok in Ok. destruct He as [Hl _]. unfold command, len in *.
                repeat split; auto; lia.
             ++ split; [rewrite Eo, Z1; reflexivity|]. split.
                ** intros s N. apply weq_same. rewrite Y2, <- (G s). now apply Z2.
                ** split; [|now rewrite wm_round].
                   change (d_main d') with (get_slot SMain d'). rewrite Y2. exact Z5.
      + left. apply Q. pose proof (keeps_h_sign C O sh buf d) as Fr. rewrite X in Fr.
        exact (frame_weq (eff_with_up eff_sign) _ _ (fun s x => x) Fr).
      + left. apply Q. pose proof (K d) as Fr. rewrite X in Fr. exact (frame_weq (eff_other C buf) _ _ (fun s x => x) Fr).
    - left. apply (Dec (accept O)); auto. apply accept_refuses.
    - left. apply (Dec (fun v _ => reject v)); auto. intros v room d0 _. destruct v, d0; cbn; intros []; apply weq_refl.
    - left. apply (Dec (fun _ _ => fail DataInvalid)); auto. intros v room d0 _. apply weq_all_refl.
    - discriminate.
  Qed.

  (** ** RESET and SETUP *)

  Lemma stores_main b a d p : stores b a d -> a SMain = Some p -> cf_baking C = true -> d_ui d = None ->
    answers C O d 0x08 (be 4 (wm_level (wm_parse p)) ++ [0x90; 0]).
  Proof.
    intros S A Cb U. split; [exact U|]. intros buf rx Hb Hc. rewrite (main_hwm_answer C O d buf rx Cb Hb Hc).
    pose proof (ss_read _ _ _ (st_slot _ _ _ S SMain)) as R. cbn [get_slot] in R. rewrite R, A. reflexivity.
  Qed.
  Lemma stores_all b a d m t c : stores b a d -> a SMain = Some m -> a STest = Some t -> a SChain = Some c ->
    cf_baking C = true -> d_ui d = None ->
    answers C O d 0x0B (be 4 (wm_level (wm_parse m)) ++ be 4 (wm_level (wm_parse t)) ++ be 4 (chain_parse_u32 c) ++ [0x90; 0]).
  Proof.
    intros S Am At Ac Cb U. split; [exact U|]. intros buf rx Hb Hc.
    rewrite (step_command C O d buf rx 0x0B Hb Hc).
    destruct Hc as (_ & _ & E0 & E1). rewrite (dispatch_at C O buf 0x0B E0 E1), Cb.
    change (0x0B =? 0x06) with false. change (0x0B =? 0x08) with false. change (0x0B =? 0x0B) with true. cbn iota.
    unfold h_all_hwm.
    destruct (read_slot_stores b a d SMain S) as (d1 & E & S1 & _). unfold bind at 1. rewrite E, Am. cbn [expected_read].
    clear E. destruct (read_slot_stores b a d1 STest S1) as (d2 & E & S2 & _). unfold bind at 1. rewrite E, At.
    cbn [expected_read].
    clear E. destruct (read_slot_stores b a d2 SChain S2) as (d3 & E & S3 & _). unfold bind at 1. rewrite E, Ac.
    cbn [expected_read]. unfold ret. rewrite finish_ok.
    - cbn [fst]. now rewrite <- !app_assoc.
    - unfold len. rewrite !app_length, !be_length. lia.
  Qed.
  Lemma stores_reports b a d wm wt c n : stores b a d ->
    a SMain = Some (wm_serialize wm) -> a STest = Some (wm_serialize wt) ->
    a SChain = Some c -> wm_ok wm -> wm_ok wt -> chain_parse_u32 c = n -> cf_baking C = true -> d_ui d = None ->
    reports_all C O d (wm_level wm) (wm_level wt) n.
  Proof.
    intros S Am At Ac Wm Wt <- Cb U. split.
    - pose proof (stores_main b a d _ S Am Cb U) as X. rewrite wm_round in X by exact Wm. exact X.
    - pose proof (stores_all b a d _ _ _ S Am At Ac Cb U) as X. now rewrite !wm_round in X.
  Qed.

  Lemma stores_key b a d d' : stores b a d ->
    forall b' a', stores b' a' d' -> a' SKey = a SKey -> forall k, stored_key d' k <-> stored_key d k.
  Proof.
    intros S b' a' S' E k.
    assert (X : wear_read (d_key d') = wear_read (d_key d)).
    { pose proof (ss_read _ _ _ (st_slot _ _ _ S SKey)) as R. pose proof (ss_read _ _ _ (st_slot _ _ _ S' SKey)) as R'.
      cbn [get_slot] in *. congruence. }
    unfold stored_key. now rewrite X.
  Qed.

  Lemma unbe_slice buf : apdu_ok buf -> 4 <= nth 4 buf 0 -> unbe (firstn 4 (pay buf)) < 2 ^ 32.
  Proof.
    intros [Hl Hb] H. unfold pay. rewrite firstn_firstn, Nat.min_l by lia.
    eapply N.lt_le_trans; [apply unbe_lt, bytes_ok_firstn, bytes_ok_skipn, Hb|].
    unfold len. rewrite firstn_length, skipn_length. replace (Nat.min 4 (length buf - 5)) with 4%nat by lia.
    vm_compute. discriminate.
  Qed.
  Lemma reset_ok L b : L < 2 ^ 32 -> wm_ok (wm_reset L b).
  Proof. intros H. unfold wm_reset, wm_ok. destruct b; repeat split; auto; lia. Qed.

  (** C12. *)
  Lemma reset_sets f u es buf rx : Forall intact_fault f -> Forall up_fault_ok u -> Forall event_ok es ->
    len es + 1 < 2 ^ 64 ->
    let d := snd (run C O (dev_fresh f u) es) in
    let d' := snd (step C O d (EApdu buf rx)) in
    d_faults d = [] -> cf_baking C = true -> apdu_ok buf -> command d buf rx 0x06 -> 4 <= nth 4 buf 0 ->
    fst (step C O d (EApdu buf rx)) = AReply [0x90; 0] /\
    exists o, holds_slot d SChain o /\
    forall x, x = d' \/ x = restart d' ->
      reports_all C O x (unbe (firstn 4 (pay buf))) (unbe (firstn 4 (pay buf)))
        (match o with Some c => unbe (firstn 4 c) | None => 0x7A06A770 end) /\
      (forall k, stored_key x k <-> stored_key d k).
  Proof.
    intros Ff Fu E L d d' Fd Cb Hb Hc Hn.
    pose proof (reach_sound C O f u es Ff Fu E ltac:(lia)) as D. fold d in D.
    destruct (sound_stores _ _ D Fd) as [a S]. clear D.
    set (lv := unbe (firstn 4 (pay buf))).
    assert (Hl : lv < 2 ^ 32) by now apply unbe_slice.
    assert (X : exists d1 b1 a1, h_reset buf d = (Ok (Now []), d1) /\ stores b1 a1 d1 /\ same_rest d d1 /\
              a1 SMain = Some (wm_serialize (wm_reset lv false)) /\
              a1 STest = Some (wm_serialize (wm_reset lv false)) /\ a1 SKey = a SKey /\
              a1 SChain = Some (match a SChain with Some c => c | None => chain_serialize (chain_of_u32 MAINNET_CHAIN_ID) end)).
    { unfold h_reset, the_payload. destruct (apdu_payload_260 buf Hb) as (pl & -> & Ep & _).
      change (pl = pay buf) in Ep.
      unfold bind at 1. cbn [of_option]. unfold ret at 1. unfold bind at 1.
      replace (4 <=? length pl)%nat with true
        by (rewrite Ep; unfold pay; rewrite firstn_length, skipn_length; destruct Hb; lia).
      cbn [check]. unfold ret at 1. rewrite Ep. fold lv.
      unfold bind at 1.
      destruct (write_or_stores _ _ _ SMain (wm_serialize (wm_reset lv false)) ExecutionError L (wm_payload _) S)
        as (d1 & -> & S1 & R1).
      unfold bind at 1.
      destruct (write_or_stores _ _ _ STest (wm_serialize (wm_reset lv false)) ExecutionError (L : bump SMain (fun _ => len es) STest + 1 < 2 ^ 64) (wm_payload _) S1)
        as (d2 & -> & S2 & R2).
      unfold bind at 1. destruct (read_slot_stores _ _ _ SChain S2) as (d3 & -> & S3 & R3).
      apply frame_none_rest in R3. pose proof (same_rest_trans _ _ _ R1 (same_rest_trans _ _ _ R2 R3)) as R.
      change (aset STest (wm_serialize (wm_reset lv false)) (aset SMain (wm_serialize (wm_reset lv false)) a) SChain)
        with (a SChain).
      destruct (a SChain) as [c|] eqn:Ac; cbn [expected_read].
      - do 3 eexists. split; [reflexivity|]. split; [exact S3|]. split; [exact R|]. repeat split; auto.
      - unfold bind at 1.
        destruct (write_or_stores _ _ _ SChain (chain_serialize (chain_of_u32 MAINNET_CHAIN_ID)) ExecutionError
            (L : bump STest (bump SMain (fun _ => len es)) SChain + 1 < 2 ^ 64) (chain_payload _) S3)
          as (d4 & -> & S4 & R4).
        do 3 eexists. split; [reflexivity|]. split; [exact S4|]. split; [eapply same_rest_trans; eauto|].
        repeat split; auto. }
    destruct X as (d1 & b1 & a1 & Eh & S1 & (_ & _ & _ & _ & Ru) & Am & At & Ak & Ac).
    assert (Es : step C O d (EApdu buf rx) = (AReply [0x90; 0], d1)).
    { rewrite (step_command C O d buf rx 0x06 Hb Hc). destruct Hc as (U & _ & E0 & E1).
      rewrite (dispatch_at C O buf 0x06 E0 E1), Cb. change (0x06 =? 0x06) with true. cbn iota.
      rewrite Eh. reflexivity. }
    unfold d'. rewrite Es. cbn [fst snd]. split; [reflexivity|].
    exists (a SChain). split; [eapply stores_holds; eauto|].
    assert (U1 : d_ui d1 = None) by (rewrite Ru; apply Hc).
    intros x Hx.
    assert (Sx : stores b1 a1 x /\ d_ui x = None).
    { destruct Hx as [->| ->]; [auto|]. split; [now apply stores_restart|]. destruct d1; reflexivity. }
    destruct Sx as [Sx Ux]. split.
    - eapply (stores_reports b1 a1 x (wm_reset lv false) (wm_reset lv false)); eauto using reset_ok.
      destruct (a SChain); [reflexivity|]. reflexivity.
    - eapply stores_key; eauto.
  Qed.
  Lemma reset_short d buf rx : cf_baking C = true -> apdu_ok buf -> command d buf rx 0x06 -> nth 4 buf 0 < 4 ->
    step C O d (EApdu buf rx) = (AReply [0x67; 0], d).
  Proof.
    intros Cb Hb Hc Hn. rewrite (step_command C O d buf rx 0x06 Hb Hc). destruct Hc as (U & _ & E0 & E1).
    rewrite (dispatch_at C O buf 0x06 E0 E1), Cb. change (0x06 =? 0x06) with true. cbn iota.
    rewrite h_reset_short by (auto; lia). reflexivity.
  Qed.

  (** C13. *)
  Lemma setup_sets f u es k main test chain a0 room pk : Forall intact_fault f -> Forall up_fault_ok u ->
    Forall event_ok es -> len es + 1 < 2 ^ 64 ->
    let d := snd (run C O (dev_fresh f u) es) in
    let d' := snd (step C O d EApprove) in
    d_faults d = [] -> cf_baking C = true -> d_ui d = Some (VSetup k main test chain a0) ->
    cf_room C (VSetup k main test chain a0) = Some room -> len pk + 3 <= room ->
    o_pubkey O (fst k) (snd k) = Some pk -> len pk < 256 ->
    fst (step C O d EApprove) = AReply (len pk :: pk ++ [0x90; 0]) /\
    forall x, x = d' \/ x = restart d' ->
      reports_all C O x main test (u32_of_chain chain) /\ (forall k', stored_key x k' <-> k' = k).
  Proof.
    intros Ff Fu E L d d' Fd Cb U Hr Hroom Hpk Hl.
    pose proof (reach_sound C O f u es Ff Fu E ltac:(lia)) as D. fold d in D.
    destruct (sound_stores _ _ D Fd) as [a S]. clear D.
    pose proof (reach_ui C O f u es E _ U) as (Kk & _ & Hm & Ht & Hch).
    assert (S0 : stores (fun _ => len es) a (set_ui None d)).
    { destruct S as [S1 S2]. constructor; [|destruct d; exact S2].
      intros s. specialize (S1 s). destruct s, d; exact S1. }
    assert (X : exists d1 b1 a1, accept O (VSetup k main test chain a0) room (set_ui None d) = (Ok (len pk mod 256 :: pk), d1) /\
              stores b1 a1 d1 /\ same_rest (set_ui None d) d1 /\
              a1 SMain = Some (wm_serialize (wm_reset main false)) /\
              a1 STest = Some (wm_serialize (wm_reset test false)) /\ a1 SKey = Some (key_serialize k) /\
              a1 SChain = Some (chain_serialize chain)).
    { cbn [accept]. unfold pubkey. rewrite Hpk. cbn [of_option]. unfold bind at 1. unfold ret at 1.
      unfold store_baking_key. unfold bind at 1.
      destruct (write_or_stores _ _ _ SKey (key_serialize k) ExecutionError L (key_payload _) S0) as (d1 & -> & S1 & R1).
      unfold bind at 1.
      destruct (write_or_stores _ _ _ SMain (wm_serialize (wm_reset main false)) Busy
        (L : bump SKey (fun _ => len es) SMain + 1 < 2 ^ 64) (wm_payload _) S1) as (d2 & -> & S2 & R2).
      unfold bind at 1.
      destruct (write_or_stores _ _ _ STest (wm_serialize (wm_reset test false)) Busy
        (L : bump SMain (bump SKey (fun _ => len es)) STest + 1 < 2 ^ 64) (wm_payload _) S2) as (d3 & -> & S3 & R3).
      unfold bind at 1.
      destruct (write_or_stores _ _ _ SChain (chain_serialize chain) Busy
        (L : bump STest (bump SMain (bump SKey (fun _ => len es))) SChain + 1 < 2 ^ 64) (chain_payload _) S3) as (d4 & E4 & S4 & R4).
      unfold chain_serialize in E4. rewrite E4.
      do 3 eexists. split; [reflexivity|]. split; [exact S4|].
      split; [exact (same_rest_trans _ _ _ R1 (same_rest_trans _ _ _ R2 (same_rest_trans _ _ _ R3 R4)))|].
      repeat split; auto. }
    destruct X as (d1 & b1 & a1 & Eh & S1 & (_ & _ & _ & _ & Ru) & Am & At & Ak & Ac).
    assert (Es : step C O d EApprove = (AReply (len pk :: pk ++ [0x90; 0]), d1)).
    { cbn [step]. unfold decide. rewrite U, Hr. unfold bind. rewrite Eh. unfold ret.
      rewrite N.mod_small by exact Hl. cbn [finish].
      replace (room <? len (len pk :: pk) + 2) with false by (unfold len in *; cbn [length]; lia). reflexivity. }
    unfold d'. rewrite Es. cbn [fst snd]. split; [reflexivity|].
    assert (U1 : d_ui d1 = None) by (rewrite Ru; destruct d; reflexivity).
    intros x Hx.
    assert (Sx : stores b1 a1 x /\ d_ui x = None).
    { destruct Hx as [->| ->]; [auto|]. split; [now apply stores_restart|]. destruct d1; reflexivity. }
    destruct Sx as [Sx Ux]. split.
    - eapply (stores_reports b1 a1 x (wm_reset main false) (wm_reset test false)); eauto using reset_ok.
      now apply CodecsFacts.chain_round.
    - intros k'. pose proof (ss_read _ _ _ (st_slot _ _ _ Sx SKey)) as R. rewrite Ak in R. cbn [get_slot expected_read] in R.
      unfold stored_key. rewrite R. split.
      + intros (p & Ep & Kp). injection Ep as <-. rewrite key_round in Kp by exact Kk. congruence.
      + intros ->. exists (key_serialize k). split; [reflexivity|]. now apply key_round.
  Qed.

  (** Rejections, of SETUP and of anything else. *)
  Lemma rejected d v room e : d_ui d = Some v -> cf_room C v = Some room -> 2 <= room ->
    e = EReject \/ e = EUiError ->
    fst (step C O d e) = AReply (match e with EReject => [0x69; 0x86] | _ => [0x69; 0x84] end) /\
    d_ui (snd (step C O d e)) = None /\ d_log (snd (step C O d e)) = d_log d /\
    (forall s, get_slot s (snd (step C O d e)) = get_slot s d).
  Proof.
    intros U R Hr [->| ->]; cbn [step]; unfold decide; rewrite U, R.
    - assert (X : bind (reject v) (fun out => ret (Now out)) (set_ui None d) =
               (Err CommandNotAllowed, match v with VSign _ _ _ _ => set_path None (set_ui None d) | _ => set_ui None d end)).
      { destruct v; reflexivity. }
      rewrite X. cbn [finish]. replace (room <? len [] + 2) with false by (unfold len; cbn [length]; lia).
      split; [reflexivity|]. destruct d, v; repeat split; intros []; reflexivity.
    - unfold bind. cbn [fail]. unfold fail. cbn [finish].
      replace (room <? len [] + 2) with false by (unfold len; cbn [length]; lia).
      split; [reflexivity|]. destruct d; repeat split; intros []; reflexivity.
  Qed.
End Slots.
