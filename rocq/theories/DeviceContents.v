(** What the slots can contain. *)
From Coq Require Import List NArith ZArith Lia Bool Arith ZifyBool ZifyNat ZifyN.
From Verif Require Import Base BaseFacts Flash FlashFacts Codecs CodecsSpec CodecsFacts
  Upload UploadSpec UploadFacts Baking BakingSpec BakingFacts Operations Oracles Address
  Device DeviceSpec DeviceFacts DeviceProofs DeviceSigs DeviceAnswers DeviceExamples ServiceSpec.
Import ListNotations.
Open Scope N_scope.

Definition page_in (s : slot) (p : page) : Prop :=
  forall c pl, from_storage p = Some (c, pl) -> c = 0 \/ proper s pl.

Record contents (d : dev) : Prop := {
  ct_pages : forall s, Forall (page_in s) (w_pages (get_slot s d));
  ct_faults : Forall detected_fault (d_faults d);
  ct_up : up_bytes (d_up d);
  ct_ufaults : Forall up_fault_ok (d_ufaults d)
}.

Lemma ct_restart d : contents d -> contents (restart d).
Proof.
  intros [A1 A2 A3 A4]. constructor; cbn; auto using restart_bytes.
  intros s. rewrite get_slot_restart. apply A1.
Qed.
Lemma ct_frame E d d' : (forall s, ~ e_slot E s) -> frame E d d' ->
  up_bytes (d_up d') -> Forall up_fault_ok (d_ufaults d') -> contents d -> contents d'.
Proof.
  intros S F U UF [A1 A2 A3 A4]. destruct (fr_faults _ _ _ F) as (fs & Ef). constructor; auto.
  - intros s. rewrite (proj1 (fr_slot _ _ _ F s (S s))). apply A1.
  - rewrite Ef in A2. now apply Forall_app in A2.
Qed.

Definition pres {A} (m : M A) : Prop := forall d, contents d -> contents (snd (m d)).
Lemma pres_keeps {A} E (m : M A) : (forall s, ~ e_slot E s) -> ~ e_up E -> keeps E m -> pres m.
Proof.
  intros S U K d V. specialize (K d). destruct (fr_up _ _ _ K U) as [E1 E2].
  eapply ct_frame; eauto; [rewrite E1|rewrite E2]; apply V.
Qed.
Lemma pres_none {A} (m : M A) : keeps eff_none m -> pres m.
Proof. apply pres_keeps; cbn; tauto. Qed.
Lemma pres_bind {A B} (m : M A) (f : A -> M B) : pres m -> (forall a, pres (f a)) -> pres (bind m f).
Proof.
  intros H K d V. specialize (H d V). unfold bind. destruct (m d) as [[a|e| |] d1]; auto. now apply K.
Qed.
Lemma pres_ret {A} (a : A) : pres (ret a).
Proof. intros d V. exact V. Qed.
Lemma pres_fail {A} e : pres (fail (A := A) e).
Proof. intros d V. exact V. Qed.
Lemma pres_panic {A} : pres (panic (A := A)).
Proof. intros d V. exact V. Qed.
Lemma pres_option {A} e (o : option A) : pres (of_option e o).
Proof. destruct o; intros d V; exact V. Qed.
Lemma pres_ares {A} (r : ares A) : pres (of_ares r).
Proof. destruct r; intros d V; exact V. Qed.
Lemma pres_check b e : pres (check b e).
Proof. destruct b; intros d V; exact V. Qed.
Lemma pres_read_slot s : pres (read_slot s).
Proof. apply pres_none, keeps_read_slot. Qed.
Lemma pres_read_or s e : pres (read_or s e).
Proof. apply pres_none, keeps_read_or. Qed.

Lemma proper_page s k pl : k < 2 ^ 64 -> payload_ok pl -> proper s pl -> page_in s (slot_page k pl).
Proof. intros Hk Hp Hg c pl' E. rewrite from_storage_slot_page in E by auto. injection E as _ <-. auto. Qed.

Lemma pres_write s p : payload_ok p -> proper s p -> pres (write_slot s p).
Proof.
  intros Hp Hg d V. unfold write_slot. destruct (wear_init (get_slot s d)) as [k|]; [|exact V].
  destruct (next_fault (d_faults d)) as [f fs] eqn:F.
  apply (next_fault_forall detected_fault) in F as [Ff Ffs]; [|exact Logic.I|apply V].
  unfold wear_write_at.
  set (k' := (k + 1) mod 2 ^ 64). assert (Hk : k' < 2 ^ 64) by (apply N.mod_lt; discriminate).
  set (i := page_no (get_slot s d) k').
  set (ps := w_pages (get_slot s d)).
  set (w := mkWear (upd i (fault_page (nth i ps []) (slot_page k' p) f) ps) (Some k')).
  assert (P : Forall (page_in s) (w_pages w)).
  { assert (T : forall t, slot_tear_ok t ->
      Forall (page_in s) (upd i (tear_page (nth i ps []) (slot_page k' p) t) ps)).
    { intros [| |q] Ht; cbn [tear_page slot_tear_ok] in *.
      - rewrite upd_same_nth. apply V.
      - apply Forall_upd; [apply V|]. now apply proper_page.
      - apply Forall_upd; [apply V|]. intros c pl E. congruence. }
    unfold w. cbn [w_pages]. destruct f as [|t|t]; cbn [fault_page]; [|now apply T..].
    apply Forall_upd; [apply V|]. now apply proper_page. }
  assert (X : contents (set_slot s w (set_faults fs d))).
  { destruct V as [A1 A2 A3 A4]. constructor.
    - intros s'. destruct (slot_eq_dec s s') as [<-|N].
      + now rewrite get_set_same.
      + rewrite get_set_other by auto. rewrite get_slot_set_faults. apply A1.
    - rewrite set_slot_faults. destruct d; exact Ffs.
    - rewrite set_slot_up. destruct d; exact A3.
    - rewrite set_slot_ufaults. destruct d; exact A4. }
  destruct (fault_res f); exact X.
Qed.
Lemma pres_write_or s p e : payload_ok p -> proper s p -> pres (write_or s p e).
Proof. intros. unfold write_or. apply pres_bind; [now apply pres_write|]. intros. apply pres_check. Qed.

Lemma pres_weaken {A} (m : M A) d : pres m -> contents d -> contents (snd (m d)).
Proof. auto. Qed.

(** ** What the app writes *)

Lemma wm_layout w : wm_ok w -> mark_bytes (wm_serialize w) w.
Proof.
  destruct w as [l e|l e r p]; unfold wm_ok, wm_serialize, pad_to.
  - intros H. rewrite <- app_comm_cons, <- app_comm_cons. cbn [length]. rewrite be_length.
    exact (MarkEmmy l e H).
  - intros [H1 H2]. rewrite <- !app_comm_cons. cbn [length]. rewrite app_length. cbn [length].
    rewrite !be_length, <- app_assoc, <- app_comm_cons.
    exact (MarkTenderbake l e r p H1 H2).
Qed.
Lemma mark_serialize p w : mark_bytes p w -> wm_ok w /\ p = wm_serialize w.
Proof.
  intros []; (split; [cbn; auto|]); unfold wm_serialize, pad_to.
  - rewrite <- !app_comm_cons. cbn [length]. rewrite be_length. reflexivity.
  - rewrite <- !app_comm_cons. cbn [length]. rewrite app_length. cbn [length].
    rewrite !be_length, <- app_assoc, <- app_comm_cons. reflexivity.
Qed.
Lemma chain_layout c : u32_of_chain c < 2 ^ 32 -> proper SChain (pad_to 52 (be 4 (u32_of_chain c))).
Proof.
  intros H. exists (u32_of_chain c). split; [exact H|]. unfold pad_to. rewrite be_length. reflexivity.
Qed.
Lemma concat_be4_length pa : length (concat (map (be 4) pa)) = (4 * length pa)%nat.
Proof. induction pa; [reflexivity|]. cbn [map concat length]. rewrite app_length, be_length, IHpa. lia. Qed.
Lemma key_layout_serialize k : key_ok k -> key_layout (key_serialize k) k.
Proof.
  intros H. split; [exact H|]. destruct H as (N & L & _). unfold BIP32_MAX_LENGTH in L.
  unfold key_serialize, pad_to. rewrite <- !app_comm_cons. cbn [length app].
  rewrite firstn_all2 by lia. rewrite N.mod_small by (unfold len; lia).
  rewrite concat_be4_length. reflexivity.
Qed.

Section Contents.
  Variable C : config.
  Variable O : oracles.

  Lemma unbe4 l : bytes_ok l -> unbe (firstn 4 l) < 2 ^ 32.
  Proof.
    intros H. pose proof (unbe_lt (firstn 4 l) (bytes_ok_firstn 4 l H)) as X.
    eapply N.lt_le_trans; [exact X|]. change (2 ^ 32) with (256 ^ 4).
    apply N.pow_le_mono_r; [discriminate|]. unfold len. rewrite firstn_length. lia.
  Qed.

  Lemma pres_reset buf : apdu_ok buf -> pres (h_reset buf).
  Proof.
    intros Hb. unfold h_reset, the_payload.
    destruct (apdu_payload_260 buf Hb) as (pl & Ep & _ & _ & Hpl). rewrite Ep. cbn [of_option].
    change (bind (ret pl)) with (fun f : bytes -> M reply => (fun d => f pl d)).
    apply (pres_bind (check _ _)); [apply pres_check|]. intros _.
    assert (G : proper SMain (wm_serialize (wm_reset (unbe (firstn 4 pl)) false))).
    { eexists. apply wm_layout. cbn. now apply unbe4. }
    apply pres_bind; [apply pres_write_or; [apply wm_payload|exact G]|]. intros _.
    apply pres_bind; [apply pres_write_or; [apply wm_payload|exact G]|]. intros _.
    apply pres_bind; [apply pres_read_slot|]. intros [p| |]; try apply pres_ret.
    apply pres_bind; [|intros; apply pres_ret]. apply pres_write_or; [apply chain_payload|].
    apply chain_layout. vm_compute. reflexivity.
  Qed.

  Lemma pres_accept v room : view_ok O v -> pres (accept O v room).
  Proof.
    intros Vw. destruct v as [sh dg p data|sh dg br o data|k a|a|w k a|w pk a|k m t ch a];
      try (eapply pres_keeps; [| |apply keeps_accept]; cbn; tauto).
    - unfold accept, pubkey. apply pres_bind; [apply pres_option|]. intros pk.
      apply pres_bind; [|intros; apply pres_ret]. apply pres_write_or; [apply key_payload|].
      right. exists k. apply key_layout_serialize, Vw.
    - unfold accept, remove_baking_key. apply pres_bind; [|intros; apply pres_ret].
      apply pres_write_or; [apply key_empty_payload|]. now left.
    - destruct Vw as (K & _ & Hm & Ht & Hc). unfold accept, pubkey, store_baking_key.
      apply pres_bind; [apply pres_option|]. intros pk.
      apply pres_bind; [apply pres_write_or; [apply key_payload|]|].
      { right. exists k. now apply key_layout_serialize. }
      intros _. apply pres_bind; [apply pres_write_or; [apply wm_payload|]|].
      { eexists. apply wm_layout. exact Hm. }
      intros _. apply pres_bind; [apply pres_write_or; [apply wm_payload|]|].
      { eexists. apply wm_layout. exact Ht. }
      intros _. apply pres_bind; [apply pres_write_or; [apply (chain_payload ch)|]|].
      { now apply chain_layout. }
      intros _. apply pres_ret.
  Qed.

  Lemma pres_consensus m p rem sh dg data : preemble_of_byte m = Some p -> data = m :: rem -> bytes_ok data ->
    pres (handle_consensus O p rem sh dg data).
  Proof.
    intros P Ed Bd. unfold handle_consensus. apply pres_bind; [apply pres_read_or|]. intros hw.
    destruct (consensus_check p rem (wm_parse hw)) as [[wm|e]|] eqn:K; cbn [of_ares].
    - pose proof (consensus_check_ok _ _ _ _ _ P K) as (Kp & _). rewrite <- Ed in Kp.
      pose proof (signed_pos_wm_ok _ _ Bd Kp) as Kw.
      change (bind (ret wm)) with (fun f : watermark -> M reply => (fun d => f wm d)).
      apply (pres_bind (write_or _ _ _)); [apply pres_write_or; [apply wm_payload|]|].
      { eexists. now apply wm_layout. }
      intros _. apply pres_bind; [|intros; apply pres_ret].
      apply (pres_keeps (mkEff (fun _ => False) (fun _ => True) False False (fun _ => False)));
        [cbn; tauto..|]. apply keeps_baking_sign. intros; exact Logic.I.
    - intros d V. exact V.
    - apply pres_panic.
  Qed.

  Lemma pres_baker sh up : uo_ok up -> pres (baker_sign C O sh up).
  Proof.
    intros [_ Hd] d V.
    destruct (baker_sign_cases C O sh up d)
      as [[F1 N]|(k & d1 & m & p & rem & dg & F1 & K1 & K2 & K3 & Ed & Pm & Dg & E)].
    - destruct (fr_up _ _ _ F1 (fun x => x)) as [E1 E2].
      eapply ct_frame; [|exact F1|..|exact V]; [cbn; tauto|rewrite E1; apply V|rewrite E2; apply V].
    - rewrite E. apply (pres_consensus m); auto.
      destruct (fr_up _ _ _ F1 (fun x => x)) as [E1 E2].
      eapply ct_frame; [|exact F1|..|exact V]; [cbn; tauto|rewrite E1; apply V|rewrite E2; apply V].
  Qed.

  Lemma ct_set_up u s d : up_bytes u -> Forall up_fault_ok s -> contents d ->
    contents (set_up u (set_ufaults s d)).
  Proof.
    intros Hu Hs [A1 A2 A3 A4]. destruct d. constructor; auto.
  Qed.
  Lemma ct_drop a d : contents d -> contents (set_up (upload_drop a (d_up d)) d).
  Proof.
    intros V. pose proof (ct_set_up (upload_drop a (d_up d)) (d_ufaults d) d) as X.
    destruct d. apply X; [|apply V|exact V]. apply drop_bytes, V.
  Qed.
  Lemma ct_set_ui v d : contents d -> contents (set_ui v d).
  Proof.
    intros [A1 A2 A3 A4]. destruct d. constructor; auto.
  Qed.
  Lemma ct_set_path v d : contents d -> contents (set_path v d).
  Proof.
    intros [A1 A2 A3 A4]. destruct d. constructor; auto.
  Qed.

  Lemma pres_with_upload a buf f : apdu_ok buf -> (forall up, uo_ok up -> pres (f up)) ->
    pres (with_upload a buf f).
  Proof.
    intros Hb Hf d V. unfold with_upload, the_upload, drop_upload, bind.
    pose proof (upload_bytes a buf (d_up d) (d_ufaults d) Hb (ct_up _ V) (ct_ufaults _ V)) as X.
    destruct (upload a buf (d_up d) (d_ufaults d)) as [[r u] s]. destruct X as (Xu & Xs & Xr).
    pose proof (ct_set_up u s d Xu Xs V) as V1.
    destruct r as [[up|]|e| |]; try exact V1.
    specialize (Hf up Xr _ V1). destruct (f up _) as [[rr|e| |] d2]; cbn [snd] in Hf;
      first [exact Hf|apply ct_drop; exact Hf].
  Qed.

  Lemma finish_contents room x : contents (snd x) -> contents (snd (finish room x)).
  Proof.
    destruct x as [[[data|]|e| |] d]; cbn; intros H; auto using ct_restart;
      match goal with |- context [if ?b then _ else _] => destruct b end; cbn; auto using ct_restart.
  Qed.
  Lemma decide_contents f d :
    (forall v room, d_ui d = Some v -> contents (snd (f v room (set_ui None d)))) ->
    contents d -> contents (snd (decide C f d)).
  Proof.
    intros Hf V. unfold decide. destruct (d_ui d) as [v|] eqn:U; [|exact V].
    apply finish_contents. specialize (Hf v (match cf_room C v with Some r => r | None => 0 end) eq_refl).
    unfold bind. destruct (f v _ _) as [[]]; exact Hf.
  Qed.

  Lemma step_contents d e : event_ok e -> ui_ok O d -> contents d -> contents (snd (step C O d e)).
  Proof.
    intros He Ui V. destruct e as [buf rx| | | |]; cbn [step].
    - cbn [event_ok] in He.
      destruct (d_ui d); [exact V|]. apply finish_contents.
      destruct (apdu_read_ok buf rx); [|exact V].
      destruct (dispatch_kinds C O buf) as [(Cb & E0 & E1 & ->)|[(Cb & E0 & E1 & sh & ->)|[(E0 & sh & ->)|[K _]]]].
      + now apply pres_reset.
      + apply pres_with_upload; auto. intros. now apply pres_baker.
      + apply pres_with_upload; auto. intros up _.
        eapply pres_keeps; [| |apply keeps_start_sign]; cbn; tauto.
      + eapply pres_keeps; [| |exact K|exact V]; cbn; tauto.
    - apply decide_contents; auto. intros v room U. apply pres_accept; [now apply Ui|]. now apply ct_set_ui.
    - apply decide_contents; auto. intros v room U.
      assert (VU := ct_set_ui None _ V). destruct v; try exact VU. cbn. now apply ct_set_path.
    - apply decide_contents; auto. intros v room U. cbn. now apply ct_set_ui.
    - now apply ct_restart.
  Qed.
  Lemma run_contents es : forall d, Forall event_ok es -> ui_ok O d -> contents d ->
    contents (snd (run C O d es)).
  Proof.
    induction es as [|e es IH]; intros d He Ui V; cbn [run]; auto. inversion He; subst.
    pose proof (step_contents d e H1 Ui V) as V1. pose proof (step_ui C O d e H1 Ui) as U1.
    destruct (step C O d e) as [a d1]. cbn [snd] in *.
    specialize (IH d1 H2 U1 V1). destruct (run C O d1 es); exact IH.
  Qed.

  Lemma zeroed_in s : page_in s ZEROED_STORAGE.
  Proof. intros c pl E. rewrite zeroed_storage_valid in E. injection E as <- _. now left. Qed.
  Lemma fresh_contents f u : Forall detected_fault f -> Forall up_fault_ok u -> contents (dev_fresh f u).
  Proof.
    intros F U. constructor; auto.
    - assert (G : forall s n, Forall (page_in s) (repeat ZEROED_STORAGE n)).
      { intros s n. induction n; cbn [repeat]; constructor; auto using zeroed_in. }
      intros []; apply G.
    - split; apply zeros_ok.
  Qed.

  Lemma reach_contents f u es : Forall detected_fault f -> Forall up_fault_ok u -> Forall event_ok es ->
    contents (snd (run C O (dev_fresh f u) es)).
  Proof. intros. apply run_contents; auto using fresh_contents. apply (reach_ui C O f u []). constructor. Qed.

  (** C15: what a slot can read as. *)
  Lemma contents_read s d : contents d ->
    match wear_read (get_slot s d) with Some (RData p) => proper s p | _ => True end.
  Proof.
    intros V. unfold wear_read. destruct (wear_init (get_slot s d)) as [k|]; [|exact Logic.I].
    unfold wear_read_at. set (i := page_no (get_slot s d) k).
    destruct (from_storage (nth i (w_pages (get_slot s d)) [])) as [[c pl]|] eqn:E; [|exact Logic.I].
    destruct (N.eqb_spec c 0); [exact Logic.I|].
    destruct (Nat.lt_ge_cases i (length (w_pages (get_slot s d)))) as [L|L].
    - pose proof (ct_pages _ V s) as P. rewrite Forall_forall in P.
      destruct (P _ (nth_In _ [] L) _ _ E); [contradiction|assumption].
    - rewrite nth_overflow in E by exact L.
      assert (X : from_storage [] = None) by (vm_compute; reflexivity).
      exfalso. exact (eq_ind None (fun o => match o with None => True | Some _ => False end) Logic.I _
        (eq_trans (eq_sym X) E)).
  Qed.
  Lemma slots_proper f u es s : Forall detected_fault f -> Forall up_fault_ok u -> Forall event_ok es ->
    match wear_read (get_slot s (snd (run C O (dev_fresh f u) es))) with Some (RData p) => proper s p | _ => True end.
  Proof. intros. now apply contents_read, reach_contents. Qed.

  (** ** Signatures are made over a mark that reads well *)

  Lemma consensus_reads m p rem sh dg data d : preemble_of_byte m = Some p -> data = m :: rem ->
    d_log (snd (handle_consensus O p rem sh dg data d)) = d_log d \/
    exists hw q, wear_read (d_main d) = Some (RData hw) /\ signed_pos data = Some q /\
      cpos_lt (wm_pos (wm_parse hw)) q.
  Proof.
    intros P Ed. unfold handle_consensus. unfold bind at 1.
    pose proof (read_or_spec SMain ExecutionError d) as R1.
    assert (L1 : d_log (snd (read_or SMain ExecutionError d)) = d_log d) by apply read_or_log.
    destruct (read_or SMain ExecutionError d) as [[hw|e| |] d1]; cbn [snd] in *; auto.
    destruct R1 as [R1 _]. cbn [get_slot] in R1.
    destruct (consensus_check p rem (wm_parse hw)) as [[wm|e]|] eqn:K; cbn [of_ares]; [|now left..].
    pose proof (consensus_check_ok _ _ _ _ _ P K) as (Kp & Kl & _). rewrite <- Ed in Kp.
    right. eauto.
  Qed.
  Lemma baker_reads sh up d :
    d_log (snd (baker_sign C O sh up d)) = d_log d \/
    exists hw q, wear_read (d_main d) = Some (RData hw) /\ signed_pos (uo_data up) = Some q /\
      cpos_lt (wm_pos (wm_parse hw)) q.
  Proof.
    destruct (baker_sign_cases C O sh up d)
      as [[F1 N]|(k & d1 & m & p & rem & dg & F1 & K1 & K2 & K3 & Ed & Pm & Dg & E)].
    - left. exact (frame_log_none eff_show _ _ (fun g x => x) F1).
    - rewrite E. destruct (still_none _ _ F1) as [S1 L1].
      destruct (consensus_reads m p rem sh dg (uo_data up) d1 Pm Ed) as [L|(hw & q & R & H)].
      + left. congruence.
      + right. exists hw, q. split; [|exact H]. apply S1; [discriminate|exact R].
  Qed.
  Lemma step_reads d e g : event_ok e -> ui_ok O d -> contents d ->
    d_log (snd (step C O d e)) = g :: d_log d -> is_consensus g = true ->
    exists p w q, wear_read (d_main d) = Some (RData p) /\ mark_bytes p w /\
      signed_pos (sg_data g) = Some q /\ cpos_lt (wm_pos w) q.
  Proof.
    intros He U V Hl Hc.
    destruct (step_signs C O d e He U) as [L|(g' & L & Sc & _)].
    { exfalso. rewrite L in Hl. apply (f_equal (@length sigrec)) in Hl. cbn in Hl. lia. }
    assert (g' = g) as -> by congruence. clear L.
    assert (Es : sg_src g = SrcConsensus) by (unfold is_consensus in Hc; destruct (sg_src g); congruence).
    unfold sig_cause in Sc. rewrite Es in Sc.
    destruct Sc as (Cb & _ & buf & rx & ins & up & u & s & -> & Hcm & Hin & Eu & Ed & _).
    cbn [event_ok] in He. rewrite (step_command C O d buf rx ins He Hcm) in Hl. rewrite finish_log in Hl.
    destruct Hcm as (_ & _ & E0 & E1). rewrite (dispatch_baker C O buf ins Cb E0 E1 Hin) in Hl.
    unfold h_baker_sign, with_upload, the_upload, bind, drop_upload in Hl. rewrite Eu in Hl.
    set (d1 := set_up u (set_ufaults s d)) in Hl.
    assert (D1 : d_log d1 = d_log d /\ d_main d1 = d_main d) by (destruct d; auto). destruct D1 as [Dl Dm].
    assert (X : d_log (snd (baker_sign C O (negb (ins =? 4)) up d1)) = g :: d_log d).
    { destruct (baker_sign C O (negb (ins =? 4)) up d1) as [[] d2]; cbn [snd] in *; try exact Hl;
        rewrite <- Hl; destruct d2; reflexivity. }
    destruct (baker_reads (negb (ins =? 4)) up d1) as [L|(hw & q & R & Hq & Hlt)].
    { exfalso. rewrite X, Dl in L. apply (f_equal (@length sigrec)) in L. cbn in L. lia. }
    rewrite Dm in R. pose proof (contents_read SMain d V) as P. cbn [get_slot] in P. rewrite R in P.
    destruct P as [w Hw]. destruct (mark_serialize _ _ Hw) as [Ow Ew].
    exists hw, w, q. rewrite <- Ed. split; [exact R|]. split; [exact Hw|]. split; [exact Hq|].
    rewrite Ew, (wm_round w Ow) in Hlt. exact Hlt.
  Qed.
  Lemma signs_over_mark f u es e g : Forall detected_fault f -> Forall up_fault_ok u ->
    Forall event_ok (es ++ [e]) ->
    let d := snd (run C O (dev_fresh f u) es) in
    d_log (snd (step C O d e)) = g :: d_log d -> is_consensus g = true ->
    exists p w q, wear_read (d_main d) = Some (RData p) /\ mark_bytes p w /\
      signed_pos (sg_data g) = Some q /\ cpos_lt (wm_pos w) q.
  Proof.
    intros F U E d Hl Hc. apply Forall_app in E as [E1 E2]. inversion E2; subst.
    apply (step_reads d e g); auto; [now apply reach_ui|now apply reach_contents].
  Qed.

  (** ** A mark that does not read refuses *)

  Lemma unreadable_refused d buf rx up k dg q : completes C d buf rx up ->
    curve_of_byte (uo_p2 up) = Some (fst k) -> path_read BIP32_MAX_LENGTH (uo_first up) = Some (snd k) ->
    stored_key d k -> o_blake2b O 32 (uo_data up) = Some dg -> signed_pos (uo_data up) = Some q ->
    wear_read (d_main d) = Some RUninit \/ wear_read (d_main d) = Some RCrc ->
    fst (step C O d (EApdu buf rx)) = AReply [0x64; 0x00] /\
    untouched d (snd (step C O d (EApdu buf rx))).
  Proof.
    intros (Cb & Hb & ins & u & s & Hc & Hi & Eu) Ec Ep (pk & K1 & K2) Dg Sp Rm.
    rewrite (step_command C O d buf rx ins Hb Hc). destruct Hc as (_ & _ & E0 & E1).
    rewrite (dispatch_baker C O buf ins Cb E0 E1 Hi). unfold h_baker_sign, with_upload, the_upload, bind, drop_upload.
    rewrite Eu. set (d1 := set_up u (set_ufaults s d)).
    assert (D1 : d_key d1 = d_key d /\ d_main d1 = d_main d) by (destruct d; auto). destruct D1 as [Dk Dm].
    assert (G : forall sh, exists d2, baker_sign C O sh up d1 = (Err ExecutionError, d2) /\ frame eff_none d1 d2).
    { intros sh. unfold baker_sign. unfold bind at 1. rewrite Ec. cbn [of_option]. unfold ret at 1.
      unfold bind at 1. rewrite Ep. cbn [of_option]. unfold ret at 1. unfold bind at 1.
      destruct (check_stored_result k d1) as [F R]. rewrite Dk, K1, K2 in R.
      replace (fst k, snd k) with k by (destruct k; reflexivity).
      destruct (check_with_stored k d1) as [r d2]. cbn [fst snd] in F, R. subst r.
      rewrite (proj2 (key_eqb_eq k k) eq_refl). unfold bind at 1. cbn [check]. unfold ret at 1.
      unfold bind at 1, digest32. rewrite Dg. cbn [of_option]. unfold ret at 1.
      assert (R2 : wear_read (d_main d2) = Some RUninit \/ wear_read (d_main d2) = Some RCrc).
      { pose proof (weq_read _ _ (fr_slot _ _ _ F SMain (fun x => x))) as X. cbn [get_slot] in X.
        rewrite Dm in X. now rewrite X. }
      assert (H : forall p rem, exists d3, handle_consensus O p rem sh dg (uo_data up) d2 = (Err ExecutionError, d3)
                  /\ frame eff_none d1 d3).
      { intros p rem. pose proof (keeps_read_or eff_none SMain ExecutionError d2) as F2.
        unfold handle_consensus. unfold bind at 1.
        assert (X : fst (read_or SMain ExecutionError d2) = Err ExecutionError).
        { unfold read_or, read_slot, bind. cbn [get_slot]. unfold wear_read in R2.
          destruct (wear_init (d_main d2)) as [i|]; [|destruct R2; discriminate].
          destruct (wear_read_at (d_main d2) i); try reflexivity. destruct R2; discriminate. }
        destruct (read_or SMain ExecutionError d2) as [r d3]. cbn [fst snd] in X, F2. subst r.
        exists d3. split; [reflexivity|]. eapply frame_trans; eassumption. }
      unfold signed_pos in Sp. destruct (uo_data up) as [|m rest]; [discriminate|].
      revert Sp.
      destruct (N.eqb_spec m 0x01) as [->|?]; [intros _; rewrite preemble_cons by lia; apply H|].
      destruct (N.eqb_spec m 0x02) as [->|?]; [intros _; rewrite preemble_cons by lia; apply H|].
      destruct (N.eqb_spec m 0x11) as [->|?]; [intros _; rewrite preemble_cons by lia; apply H|].
      destruct (N.eqb_spec m 0x12) as [->|?]; [intros _; rewrite preemble_cons by lia; apply H|].
      destruct (N.eqb_spec m 0x13) as [->|?]; [intros _; rewrite preemble_cons by lia; apply H|]. discriminate. }
    destruct (G (negb (ins =? 4))) as (d2 & E2 & F2). rewrite E2.
    unfold fail. rewrite finish_err.
    cbn [fst snd]. split; [reflexivity|].
    destruct (untouched_frame _ _ F2) as [L2 S2].
    assert (L1 : d_log d1 = d_log d) by (destruct d; reflexivity).
    assert (S1 : forall s0, get_slot s0 d1 = get_slot s0 d) by (destruct d, s0; reflexivity).
    split.
    - rewrite <- L1, <- L2. destruct d2; reflexivity.
    - intros s0. rewrite <- S1, <- S2. destruct d2, s0; reflexivity.
  Qed.
End Contents.
