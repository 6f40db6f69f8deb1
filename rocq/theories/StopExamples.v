(** C64: results in their final form, and concrete histories. *)
From Coq Require Import NArith Bool Arith List Lia.
From Coq Require Import ZifyBool ZifyNat ZifyN.
From Verif Require Import Base BaseFacts Flash FlashFacts Codecs CodecsSpec CodecsFacts Upload UploadSpec UploadFacts UploadExamples
  Baking BakingSpec BakingFacts BakingExamples Operations OperationsFacts Oracles Address AddressExamples
  Device DeviceSpec DeviceFacts DeviceProofs DeviceHist DeviceSigs DeviceAnswers DeviceUploads DeviceCases DeviceDemo
  ScreensDevice ServiceSpec StopSpec StopFacts.
Import ListNotations.
Open Scope list_scope.
Open Scope N_scope.

(** Every pending view can be decided. *)
Lemma reach_view_calm C O f es v : Forall event_ok es -> d_ui (snd (run C O (dev_fresh f []) es)) = Some v -> view_calm O v.
Proof.
  intros E V. split; [exact (reach_ui C O f [] es E v V)|].
  destruct v as [| | | |wc k a| |]; auto.
  destruct (review_requested C O f [] es _ E V) as (es1 & e & es2 & _ & _ & _ & R).
  destruct R as (buf & rx & ins & _ & _ & _ & _ & _ & p & _ & Pp). exact (parsed_key_short _ _ Pp).
Qed.

Lemma reach_uploading C O f es : Forall event_ok es ->
  let d := snd (run C O (dev_fresh f []) es) in
  d_ufaults d = [] /\ u_rel (d_up d) (uploading C O (dev_fresh f []) None es).
Proof.
  intros E. apply run_uploading; auto. exact (restart_rel u_fresh (zeros_length FLASH_CAP)).
Qed.

Lemma stop_step C O f es e : oracles_ok O -> (8 <= length (cf_commit C))%nat -> roomy C 134 ->
  Forall event_ok es -> event_ok e ->
  let d := snd (run C O (dev_fresh f []) es) in
  (forall s, wear_init (get_slot s d) <> None) ->
  ends (d_faults d) (e = EPower \/ fatal C O d (uploading C O (dev_fresh f []) None es) e) (step C O d e).
Proof.
  intros K Lc Rm Es Ee d Dec.
  destruct (reach_uploading C O f es Es) as [U R]. fold d in U, R.
  apply step_calm; auto.
  - apply reach_up_fine; auto.
  - intros v. exact (reach_view_calm C O f es v Es).
  - split; [exact Dec|]. exists []. split; [reflexivity|]. intros t [].
Qed.

Lemma stop_causes C O f es e : oracles_ok O -> (8 <= length (cf_commit C))%nat -> roomy C 134 ->
  Forall event_ok es -> event_ok e ->
  let d := snd (run C O (dev_fresh f []) es) in
  fst (step C O d e) = ADied ->
  e = EPower \/ power_cut d (snd (step C O d e)) \/ (exists s, wear_read (get_slot s d) = None) \/
  fatal C O d (uploading C O (dev_fresh f []) None es) e.
Proof.
  intros K Lc Rm Es Ee d H.
  assert (Dec : (exists s, wear_read (get_slot s d) = None) \/ forall s, wear_init (get_slot s d) <> None).
  { assert (X : forall s, wear_read (get_slot s d) = None \/ wear_init (get_slot s d) <> None).
    { intros s. unfold wear_read. destruct (wear_init (get_slot s d)); [right|left]; congruence. }
    destruct (X SMain); [left; eauto|]. destruct (X STest); [left; eauto|]. destruct (X SChain); [left; eauto|].
    destruct (X SKey); [left; eauto|]. right. intros []; assumption. }
  destruct Dec as [Dec|Dec]; [auto|].
  destruct (reach_uploading C O f es Es) as [U R]. fold d in U, R.
  pose proof (stop_step C O f es e K Lc Rm Es Ee Dec) as S. fold d in S. unfold ends in S. rewrite H in S.
  destruct S as [[S|S]|S]; auto.
Qed.

Lemma intact_init C O f es : Forall intact_fault f -> Forall event_ok es -> len es < 2 ^ 64 ->
  forall s, wear_init (get_slot s (snd (run C O (dev_fresh f []) es))) <> None.
Proof.
  intros Hf Es L s. destruct (reach_sound C O f [] es Hf ltac:(constructor) Es L) as [D _ _ _].
  destruct (D s) as [l Sl]. destruct (ss_init _ _ _ Sl) as [k Ik]. congruence.
Qed.

(** Such a message does stop the app, and nothing is signed or stored. *)
Lemma fatal_baker C O sh up d : fatal_up O d up -> bytes_ok (uo_data up) ->
  exists d2, frame eff_none d d2 /\ baker_sign C O sh up d = (Panic, d2).
Proof.
  intros (k & p & (kp & Kr & Kp) & E2 & Ep & Dg & Mr & m & bf & fit & af & Ed & Hm & Lb & Lf & Ln) Bo.
  assert (Ec : curve_of_byte (uo_p2 up) = Some (fst k)) by (rewrite E2; apply curve_round).
  destruct (o_blake2b O 32 (uo_data up)) as [dg|] eqn:Dg'; [|congruence].
  unfold baker_sign. unfold bind at 1. rewrite Ec. cbn [of_option]. unfold ret at 1.
  unfold bind at 1. rewrite Ep. cbn [of_option]. unfold ret at 1. unfold bind at 1.
  destruct (check_stored_result k d) as [F R]. rewrite Kr, Kp in R.
  replace (fst k, snd k) with k by (destruct k; reflexivity).
  destruct (check_with_stored k d) as [r d1]. cbn [fst snd] in F, R. subst r.
  rewrite (proj2 (key_eqb_eq k k) eq_refl). unfold bind at 1. cbn [check]. unfold ret at 1.
  unfold bind at 1, digest32. rewrite Dg'. cbn [of_option]. unfold ret at 1.
  rewrite Ed.
  assert (Pp : exists q, (q = PreBlock \/ q = PreTBBlock) /\ preemble_of_byte m = Some q).
  { destruct Hm as [-> | ->]; [exists PreBlock|exists PreTBBlock]; auto. }
  destruct Pp as (q & Hq & Pq).
  assert (Pr : preemble_parse (m :: bf ++ be 4 (len fit) ++ fit ++ af) = POk (bf ++ be 4 (len fit) ++ fit ++ af) q).
  { unfold preemble_parse. rewrite le_u8_cons. cbn [pbind]. now rewrite Pq. }
  rewrite Pr.
  assert (Hc : handle_consensus O q (bf ++ be 4 (len fit) ++ fit ++ af) sh dg (uo_data up) d1 =
    (Panic, snd (read_or SMain ExecutionError d1))).
  { unfold handle_consensus. unfold bind at 1.
    assert (Rm : wear_read (d_main d1) = Some (RData p)).
    { rewrite <- Mr. apply weq_read. exact (fr_slot _ _ _ F SMain (fun x => x)). }
    assert (Er : fst (read_or SMain ExecutionError d1) = Ok p).
    { unfold read_or, bind, read_slot. cbn [get_slot]. unfold wear_read in Rm.
      destruct (wear_init (d_main d1)) as [i|]; [|discriminate]. injection Rm as ->. reflexivity. }
    destruct (read_or SMain ExecutionError d1) as [r d2]. cbn [fst snd] in *. subst r.
    replace (consensus_check q (bf ++ be 4 (len fit) ++ fit ++ af) (wm_parse p)) with (@None (ares watermark)); [reflexivity|].
    symmetry. apply check_panic_iff; [rewrite Ed in Bo; now inversion Bo|]. split; [exact Hq|].
    exists bf, fit, af. auto. }
  exists (snd (read_or SMain ExecutionError d1)). split.
  - eapply frame_trans; [exact F|]. apply (keeps_read_or eff_none SMain ExecutionError d1).
  - rewrite <- Ed. destruct Hq as [-> | ->]; exact Hc.
Qed.

Lemma fatal_stops C O f es e : Forall event_ok es -> event_ok e ->
  let d := snd (run C O (dev_fresh f []) es) in
  fatal C O d (uploading C O (dev_fresh f []) None es) e ->
  fst (step C O d e) = ADied /\ d_log (snd (step C O d e)) = d_log d /\
  forall s, w_pages (get_slot s (snd (step C O d e))) = w_pages (get_slot s d).
Proof.
  intros Es Ee d (buf & rx & ins & up & k & p & -> & (Nu & Rx & E0 & E1) & Uc & Pu & Fa).
  destruct (reach_uploading C O f es Es) as [U R]. fold d in U, R.
  assert (S : exists d2 u', frame eff_none (set_up u' (set_ufaults [] d)) d2 /\ step C O d (EApdu buf rx) = (ADied, restart d2)).
  { cbn [step]. rewrite Nu.
    assert (L : len buf = 260) by (destruct Ee as [Ee _]; unfold len; lia).
    replace (apdu_read_ok buf rx) with true.
    2:{ unfold apdu_read_ok. rewrite L. symmetry. apply andb_true_intro. split; [apply andb_true_intro; split|]; apply N.leb_le; lia. }
    pose proof (dispatch_uploads C O buf) as D. rewrite E0, E1, Uc in D. cbn [N.eqb Pos.eqb] in D.
    destruct D as [sh ->]. unfold h_baker_sign, with_upload, the_upload. unfold bind at 1. rewrite U.
    pose proof (upload_step AccBaking buf (d_up d) _ Ee R) as Y.
    pose proof (up_data_ok AccBaking buf d up) as Bd. rewrite U in Bd.
    assert (Fi : up_fine d) by (apply reach_up_fine; auto).
    destruct (upload AccBaking buf (d_up d) []) as [[o u'] s']. destruct Y as (-> & Eo & _). rewrite Pu in Eo. subst o.
    specialize (Bd u' [] Ee Fi eq_refl).
    set (d1 := set_up u' (set_ufaults [] d)).
    assert (Fa1 : fatal_up O d1 up) by (exists k, p; unfold d1; destruct d; exact Fa).
    destruct (fatal_baker C O sh up d1 Fa1 Bd) as (d2 & F2 & ->). exists d2, u'. split; [exact F2|reflexivity]. }
  destruct S as (d2 & u' & F2 & ->). cbn [fst snd]. set (d1 := set_up u' (set_ufaults [] d)) in *.
  split; [reflexivity|]. split.
  - transitivity (d_log d2); [reflexivity|]. transitivity (d_log d1); [exact (frame_log_none eff_none _ _ ltac:(cbn; tauto) F2)|].
    unfold d1. destruct d; reflexivity.
  - intros s. destruct (fr_slot _ _ _ F2 s (fun x => x)) as [Pg _].
    transitivity (w_pages (get_slot s d2)); [destruct s; reflexivity|]. transitivity (w_pages (get_slot s d1)); [congruence|].
    unfold d1. destruct d, s; reflexivity.
Qed.

Lemma stops_exactly C O f es e : oracles_ok O -> (8 <= length (cf_commit C))%nat -> roomy C 134 ->
  Forall intact_fault f -> Forall event_ok es -> event_ok e -> len es < 2 ^ 64 ->
  let d := snd (run C O (dev_fresh f []) es) in
  (fst (step C O d e) = ADied <->
   e = EPower \/ power_cut d (snd (step C O d e)) \/ fatal C O d (uploading C O (dev_fresh f []) None es) e).
Proof.
  intros K Lc Rm Hf Es Ee L d.
  pose proof (stop_step C O f es e K Lc Rm Es Ee (intact_init C O f es Hf Es L)) as S. fold d in S. unfold ends in S. split.
  - intros H. rewrite H in S. destruct S as [[S|S]|S]; auto.
  - intros [->|[H|H]]; [reflexivity| |now apply fatal_stops].
    assert (N : J (d_faults d) (snd (step C O d e)) -> False).
    { intros [_ (l & E & Nc)]. destruct H as (l' & t & E'). apply (Nc t).
      assert (X : l = l' ++ [WCut t]).
      { apply (app_inv_tail (d_faults (snd (step C O d e)))). rewrite <- E, E', <- app_assoc. reflexivity. }
      rewrite X. apply in_or_app. right. now left. }
    destruct (fst (step C O d e)); [destruct (N S)..|reflexivity|destruct (N S)].
Qed.

(** ** Concrete histories *)

Lemma room_134 : roomy demo_config 134.
Proof. intros v. exists 200. split; [reflexivity|lia]. Qed.

(** The authorised key is asked to sign a block whose fitness stops after the version. *)
Definition stop_events : list event := demo_before ++ [send 0x04 0 0 (path_serialize demo_path)].
Definition stop_event : event := send 0x04 0x81 0 (0x11 :: demo_short_block).
Lemma stop_case : (8 <= length (cf_commit demo_config))%nat /\ roomy demo_config 134 /\
  Forall event_ok stop_events /\ event_ok stop_event /\ len stop_events < 2 ^ 64 /\
  fst (step demo_config demo_oracles (snd (run demo_config demo_oracles (dev_fresh [] []) stop_events)) stop_event) = ADied /\
  Forall intact_fault [WCut TOld] /\
  fst (run demo_config demo_oracles (dev_fresh [WCut TOld] []) authorise) = [APending; ADied].
Proof.
  split; [vm_compute; repeat constructor|]. split; [exact room_134|]. split; [apply events_okb_ok; vm_compute; reflexivity|].
  split; [exact (Forall_inv (events_okb_ok [stop_event] ltac:(vm_compute; reflexivity)))|].
  split; [vm_compute; reflexivity|]. split; [vm_compute; reflexivity|].
  split; [constructor; [exact Logic.I|constructor]|]. vm_compute. reflexivity.
Qed.

Lemma stop_fatal : fatal demo_config demo_oracles (snd (run demo_config demo_oracles (dev_fresh [] []) stop_events))
  (uploading demo_config demo_oracles (dev_fresh [] []) None stop_events) stop_event.
Proof.
  destruct stop_case as (Lc & Rm & Es & Ee & L & S & _).
  pose proof (proj1 (stops_exactly demo_config demo_oracles [] stop_events stop_event demo_oracles_ok Lc Rm (Forall_nil _) Es Ee L) S) as [H|[H|H]].
  - discriminate H.
  - destruct H as (l & t & H).
    assert (E : d_faults (snd (run demo_config demo_oracles (dev_fresh [] []) stop_events)) = []) by (vm_compute; reflexivity).
    rewrite E in H. exact (False_ind _ (app_cons_not_nil _ _ _ H)).
  - exact H.
Qed.

(** A page of the watermark is torn by a power cut: the app cannot be started again. *)
Definition torn_events : list event := authorise ++ [reset_to 100].
Definition torn_faults : list fault := [WOk; WCut (TTorn [1])].
Lemma torn_case : Forall event_ok torn_events /\
  (let d := snd (run demo_config demo_oracles (dev_fresh torn_faults []) torn_events) in
   fst (step demo_config demo_oracles d (send 0x08 0 0 [])) = ADied /\ wear_read (get_slot SMain d) = None).
Proof. split; [apply events_okb_ok; vm_compute; reflexivity|]. vm_compute. auto. Qed.
