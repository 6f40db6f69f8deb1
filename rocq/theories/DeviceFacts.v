(** What each command can change. *)
From Coq Require Import List NArith ZArith Lia Bool Arith ZifyBool ZifyNat ZifyN.
From Verif Require Import Base BaseFacts Flash FlashFacts Codecs Upload Baking Operations Oracles
  Address Device.
Import ListNotations.
Open Scope N_scope.

(** ** State accessors *)

Definition slot_eq_dec (a b : slot) : {a = b} + {a <> b}.
Proof. decide equality. Defined.

Lemma get_set_same s w d : get_slot s (set_slot s w d) = w.
Proof. destruct s, d; reflexivity. Qed.
Lemma get_set_other s s' w d : s <> s' -> get_slot s' (set_slot s w d) = get_slot s' d.
Proof. destruct s, s', d; intros; try congruence; reflexivity. Qed.
Lemma set_slot_log s w d : d_log (set_slot s w d) = d_log d.
Proof. destruct s, d; reflexivity. Qed.
Lemma set_slot_up s w d : d_up (set_slot s w d) = d_up d.
Proof. destruct s, d; reflexivity. Qed.
Lemma set_slot_path s w d : d_path (set_slot s w d) = d_path d.
Proof. destruct s, d; reflexivity. Qed.
Lemma set_slot_ui s w d : d_ui (set_slot s w d) = d_ui d.
Proof. destruct s, d; reflexivity. Qed.
Lemma set_slot_faults s w d : d_faults (set_slot s w d) = d_faults d.
Proof. destruct s, d; reflexivity. Qed.
Lemma set_slot_ufaults s w d : d_ufaults (set_slot s w d) = d_ufaults d.
Proof. destruct s, d; reflexivity. Qed.
Lemma get_slot_set_faults s f d : get_slot s (set_faults f d) = get_slot s d.
Proof. destruct s, d; reflexivity. Qed.
Lemma get_slot_restart s d : get_slot s (restart d) = wear_restart (get_slot s d).
Proof. destruct s, d; reflexivity. Qed.

(** ** Areas that read the same *)

(** Same pages, and the same position once it is needed. *)
Definition weq (w w' : wear) : Prop :=
  w_pages w' = w_pages w /\ wear_init w' = wear_init w.

Lemma weq_refl w : weq w w.
Proof. split; auto. Qed.
Lemma weq_trans a b c : weq a b -> weq b c -> weq a c.
Proof. intros [] []. split; congruence. Qed.
Lemma weq_read w w' : weq w w' -> wear_read w' = wear_read w.
Proof.
  intros [P I]. unfold wear_read. rewrite I. destruct (wear_init w); auto.
  unfold wear_read_at, page_no. now rewrite P.
Qed.
Lemma weq_init w k : wear_init w = Some k -> weq w (mkWear (w_pages w) (Some k)).
Proof. intros H. split; cbn; auto. Qed.
Lemma weq_restart w w' : weq w w' -> wear_restart w' = wear_restart w.
Proof. intros [P _]. unfold wear_restart. now rewrite P. Qed.
Lemma weq_wf B w w' : weq w w' -> wf_wear B w -> wf_wear B w'.
Proof.
  intros [P I] W. destruct w' as [ps i]. cbn in P. subst ps.
  destruct i as [k|].
  - unfold wear_init at 1 in I. cbn in I. apply wf_init with (1 := W). now symmetry.
  - destruct W as [W1 W2 W3]. constructor; cbn; auto. discriminate.
Qed.

(** ** Frames *)

(** What a computation may touch. *)
Record effects := mkEff {
  e_slot : slot -> Prop;      (** slots written *)
  e_sig : sigrec -> Prop;     (** signatures made *)
  e_up : Prop;                (** the upload buffer *)
  e_path : Prop;              (** the key of the pending wallet signature *)
  e_view : viewable -> Prop   (** reviews started *)
}.
Record frame (E : effects) (d d' : dev) : Prop := {
  fr_slot : forall s, ~ e_slot E s -> weq (get_slot s d) (get_slot s d');
  fr_log : exists l, d_log d' = l ++ d_log d /\ Forall (e_sig E) l;
  fr_up : ~ e_up E -> d_up d' = d_up d /\ d_ufaults d' = d_ufaults d;
  fr_path : ~ e_path E -> d_path d' = d_path d;
  fr_ui : d_ui d' = d_ui d \/ exists v, d_ui d' = Some v /\ e_view E v;
  fr_faults : exists l, d_faults d = l ++ d_faults d'
}.

Lemma frame_refl E d : frame E d d.
Proof.
  constructor; auto using weq_refl. all: exists []; auto.
Qed.
Lemma frame_trans E a b c : frame E a b -> frame E b c -> frame E a c.
Proof.
  intros [a1 a2 a3 a4 a5 a6] [b1 b2 b3 b4 b5 b6]. constructor.
  - intros s H. eapply weq_trans; eauto.
  - destruct a2 as (l & E1 & F1), b2 as (l' & E2 & F2). exists (l' ++ l).
    split; [rewrite E2, E1; apply app_assoc|]. apply Forall_app. auto.
  - intros H. destruct (a3 H), (b3 H). split; congruence.
  - intros H. rewrite b4, a4; auto.
  - destruct b5 as [->|?]; auto.
  - destruct a6 as [l E1], b6 as [l' E2]. exists (l ++ l'). rewrite E1, E2. apply app_assoc.
Qed.

Definition eff_le (E E' : effects) : Prop :=
  (forall s, e_slot E s -> e_slot E' s) /\ (forall g, e_sig E g -> e_sig E' g) /\
  (e_up E -> e_up E') /\ (e_path E -> e_path E') /\ (forall v, e_view E v -> e_view E' v).
Lemma frame_mono E E' d d' : eff_le E E' -> frame E d d' -> frame E' d d'.
Proof.
  intros (H1 & H2 & H3 & H4 & H5) [a1 a2 a3 a4 a5 a6]. constructor; auto.
  - destruct a2 as (l & ? & F). exists l. split; auto. eapply Forall_impl; eauto.
  - destruct a5 as [|(v & ? & ?)]; eauto.
Qed.

Definition keeps {A} (E : effects) (m : M A) : Prop := forall d, frame E d (snd (m d)).

Lemma keeps_mono {A} E E' (m : M A) : eff_le E E' -> keeps E m -> keeps E' m.
Proof. intros L K d. eapply frame_mono; eauto. Qed.
Lemma keeps_ret {A} E (a : A) : keeps E (ret a).
Proof. intros d. apply frame_refl. Qed.
Lemma keeps_fail {A} E e : keeps (A:=A) E (fail e).
Proof. intros d. apply frame_refl. Qed.
Lemma keeps_panic {A} E : keeps (A:=A) E panic.
Proof. intros d. apply frame_refl. Qed.
Lemma keeps_bind {A B} E (m : M A) (f : A -> M B) :
  keeps E m -> (forall a, keeps E (f a)) -> keeps E (bind m f).
Proof.
  intros Km Kf d. unfold bind. specialize (Km d). destruct (m d) as [[a|e| |] d1]; auto.
  eapply frame_trans; eauto. apply Kf.
Qed.
Lemma keeps_option {A} E e (o : option A) : keeps E (of_option e o).
Proof. destruct o; [apply keeps_ret|apply keeps_fail]. Qed.
Lemma keeps_sres {A} E e (r : sres A) : keeps E (of_sres e r).
Proof. destruct r; [apply keeps_ret|apply keeps_fail|apply keeps_panic]. Qed.
Lemma keeps_ares {A} E (r : ares A) : keeps E (of_ares r).
Proof. destruct r; [apply keeps_ret|apply keeps_fail]. Qed.
Lemma keeps_check E b e : keeps E (check b e).
Proof. destruct b; [apply keeps_ret|apply keeps_fail]. Qed.

Lemma keeps_read_slot E s : keeps E (read_slot s).
Proof.
  intros d. unfold read_slot. destruct (wear_init (get_slot s d)) as [k|] eqn:I; [|apply frame_refl].
  constructor; cbn [snd].
  - intros s' _. destruct (slot_eq_dec s s') as [<-|N].
    + rewrite get_set_same. now apply weq_init.
    + rewrite get_set_other by auto. apply weq_refl.
  - exists []. split; [apply set_slot_log|constructor].
  - intros _. now rewrite set_slot_up, set_slot_ufaults.
  - intros _. apply set_slot_path.
  - left. apply set_slot_ui.
  - exists []. now rewrite set_slot_faults.
Qed.

Lemma next_fault_suffix l : exists p, l = p ++ snd (next_fault l).
Proof. destruct l as [|f l]; [now exists []|now exists [f]]. Qed.

Lemma keeps_write_slot (E : effects) s p : e_slot E s -> keeps E (write_slot s p).
Proof.
  intros He d. unfold write_slot. destruct (wear_init (get_slot s d)) as [k|] eqn:I; [|apply frame_refl].
  destruct (next_fault (d_faults d)) as [f fs] eqn:F.
  destruct (wear_write_at (get_slot s d) k p f) as [w' r].
  assert (frame E d (set_slot s w' (set_faults fs d))) as X.
  { constructor.
    - intros s' H'. rewrite get_set_other by congruence. rewrite get_slot_set_faults. apply weq_refl.
    - exists []. split; [|constructor]. rewrite set_slot_log. destruct d; reflexivity.
    - intros _. rewrite set_slot_up, set_slot_ufaults. destruct d; auto.
    - intros _. rewrite set_slot_path. destruct d; auto.
    - left. rewrite set_slot_ui. destruct d; auto.
    - rewrite set_slot_faults. destruct (next_fault_suffix (d_faults d)) as [p' Hp].
      rewrite F in Hp. exists p'. rewrite Hp. destruct d; reflexivity. }
  destruct r; exact X.
Qed.
Lemma keeps_write_or (E : effects) s p e : e_slot E s -> keeps E (write_or s p e).
Proof. intros. apply keeps_bind; [now apply keeps_write_slot|intros; apply keeps_check]. Qed.
Lemma keeps_read_or E s e : keeps E (read_or s e).
Proof.
  apply keeps_bind; [apply keeps_read_slot|]. intros [p| |]; [apply keeps_ret|apply keeps_fail..].
Qed.

Lemma keeps_upload (E : effects) a buf : e_up E -> keeps E (the_upload a buf).
Proof.
  intros He d. unfold the_upload. destruct (upload a buf (d_up d) (d_ufaults d)) as [[r u] s].
  cbn [snd]. destruct d. constructor; cbn; auto.
  - intros s0 _. destruct s0; apply weq_refl.
  - exists []. auto.
  - tauto.
  - exists []. auto.
Qed.
Lemma keeps_drop (E : effects) a : e_up E -> keeps E (drop_upload a).
Proof.
  intros He d. unfold drop_upload. cbn [snd]. destruct d. constructor; cbn; auto.
  - intros s0 _. destruct s0; apply weq_refl.
  - exists []. auto.
  - tauto.
  - exists []. auto.
Qed.

Section Handlers.
  Variable C : config.
  Variable O : oracles.

  Lemma keeps_show (E : effects) v : e_view E v -> keeps E (show C v).
  Proof.
    intros He d. unfold show. destruct (cf_room C v); [|apply frame_refl].
    destruct d. constructor; cbn; auto; try (exists []; auto); eauto.
    intros s _. destruct s; apply weq_refl.
  Qed.
  Lemma keeps_sign_with (E : effects) src k dg data :
    e_sig E (mkSig src k dg data) -> keeps E (sign_with O src k dg data).
  Proof.
    intros He d. unfold sign_with. destruct (o_sign O (fst k) (snd k) dg); [|apply frame_refl].
    destruct (100 <? length b)%nat; [apply frame_refl|].
    destruct d. constructor; cbn; auto.
    - intros s _. destruct s; apply weq_refl.
    - exists [mkSig src k dg data]. auto.
    - exists []. auto.
  Qed.
  Lemma keeps_set_path (E : effects) p : e_path E -> keeps E (fun d => (Ok tt, set_path p d)).
  Proof.
    intros He d. destruct d. constructor; cbn; auto; try (exists []; auto); try tauto.
    intros s _. destruct s; apply weq_refl.
  Qed.

  Ltac frames :=
    repeat first
      [ apply keeps_ret | apply keeps_fail | apply keeps_panic | apply keeps_option
      | apply keeps_sres | apply keeps_ares | apply keeps_check | apply keeps_read_slot
      | apply keeps_read_or | apply keeps_write_or | apply keeps_show | apply keeps_sign_with
      | apply keeps_set_path
      | apply keeps_bind; [|intros]
      | match goal with |- keeps _ (match ?x with _ => _ end) => destruct x end ];
    try exact I; try (cbn; tauto).

  Definition eff_none : effects :=
    mkEff (fun _ => False) (fun _ => False) False False (fun _ => False).
  Lemma eff_none_le E : eff_le eff_none E.
  Proof. repeat split; cbn; tauto. Qed.
  Lemma keeps_none {A} E (m : M A) : keeps eff_none m -> keeps E m.
  Proof. apply keeps_mono, eff_none_le. Qed.

  Lemma keeps_digest32 E data : keeps E (digest32 O data).
  Proof. unfold digest32. frames. Qed.
  Lemma keeps_pubkey E k : keeps E (pubkey O k).
  Proof. unfold pubkey. frames. Qed.
  Lemma keeps_address E k : keeps E (address O k).
  Proof. unfold address. apply keeps_bind; [apply keeps_pubkey|intros; apply keeps_sres]. Qed.
  Lemma keeps_read_baking_key E : keeps E read_baking_key.
  Proof. unfold read_baking_key. frames. Qed.
  Lemma keeps_check_with_stored E k : keeps E (check_with_stored k).
  Proof. unfold check_with_stored. frames. Qed.
  Lemma keeps_payload E buf : keeps E (the_payload buf).
  Proof. unfold the_payload. frames. Qed.
  Lemma keeps_curve E buf : keeps E (the_curve buf).
  Proof. unfold the_curve. frames. Qed.
  Lemma keeps_requested_key E buf : keeps E (requested_key O buf).
  Proof.
    unfold requested_key. apply keeps_bind; [apply keeps_curve|intros].
    apply keeps_bind; [apply keeps_payload|intros]. apply keeps_bind; [frames|intros].
    apply keeps_bind; [apply keeps_pubkey|intros]. frames.
  Qed.
  Lemma keeps_baking_sign (E : effects) src dg data :
    (forall k, e_sig E (mkSig src k dg data)) -> keeps E (baking_sign O src dg data).
  Proof. intros H. unfold baking_sign. frames. apply H. Qed.

  Ltac hframes :=
    repeat first
      [ apply keeps_digest32 | apply keeps_pubkey | apply keeps_address | apply keeps_read_baking_key
      | apply keeps_check_with_stored | apply keeps_payload | apply keeps_curve
      | apply keeps_requested_key | apply keeps_baking_sign; [intros]
      | apply keeps_ret | apply keeps_fail | apply keeps_panic | apply keeps_option
      | apply keeps_sres | apply keeps_ares | apply keeps_check | apply keeps_read_slot
      | apply keeps_read_or | apply keeps_write_or | apply keeps_show | apply keeps_sign_with
      | apply keeps_set_path
      | apply keeps_bind; [|intros]
      | match goal with |- keeps _ (match ?x with _ => _ end) => destruct x end ];
    try exact I; try (cbn; tauto).

  (** ** Effects of the commands *)

  Definition eff_view (V : viewable -> Prop) : effects :=
    mkEff (fun _ => False) (fun _ => False) False False V.

  Lemma keeps_authorize buf :
    keeps (eff_view (fun v => exists k a, v = VAuthorize k a)) (h_authorize C O buf).
  Proof. unfold h_authorize. hframes. cbn. eauto. Qed.
  Lemma keeps_deauthorize buf :
    keeps (eff_view (fun v => exists a, v = VDeauthorize a)) (h_deauthorize C O buf).
  Proof. unfold h_deauthorize. hframes. cbn. eauto. Qed.
  Lemma keeps_query wc buf :
    keeps (eff_view (fun v => exists k a, v = VQuery wc k a)) (h_query C O wc buf).
  Proof. unfold h_query. hframes. cbn. eauto. Qed.
  Lemma keeps_get_address buf :
    keeps (eff_view (fun v => exists pk a, v = VAddr true pk a)) (h_get_address C O buf).
  Proof. unfold h_get_address. hframes. cbn. eauto. Qed.
  Lemma keeps_get_public buf : keeps eff_none (h_get_public O buf).
  Proof. unfold h_get_public. hframes. Qed.
  Lemma keeps_prompt buf :
    keeps (eff_view (fun v => exists pk a, v = VAddr true pk a)) (h_prompt C O buf).
  Proof. unfold h_prompt. hframes. cbn. eauto. Qed.
  Lemma keeps_setup buf :
    keeps (eff_view (fun v => exists k m t c a, v = VSetup k m t c a)) (h_setup C O buf).
  Proof. unfold h_setup. hframes. cbn. eauto 8. Qed.
  Definition eff_hmac : effects :=
    mkEff (fun _ => False) (fun g => sg_src g = SrcHmac) False False (fun _ => False).
  Lemma keeps_hmac buf : keeps eff_hmac (h_hmac O buf).
  Proof. unfold h_hmac. hframes. Qed.
  Definition eff_reset : effects :=
    mkEff (fun s => s <> SKey) (fun _ => False) False False (fun _ => False).
  Lemma keeps_reset buf : keeps eff_reset (h_reset buf).
  Proof. unfold h_reset. hframes; cbn; discriminate. Qed.
  Lemma keeps_main_hwm : keeps eff_none h_main_hwm.
  Proof. unfold h_main_hwm. hframes. Qed.
  Lemma keeps_all_hwm : keeps eff_none h_all_hwm.
  Proof. unfold h_all_hwm. hframes. Qed.

  (** Wallet signing commands start a review of the uploaded data. *)
  Definition eff_sign : effects :=
    mkEff (fun _ => False) (fun _ => False) False True (fun v => exists sh dg p data, v = VSign sh dg p data).
  Lemma keeps_start_sign sh up : keeps eff_sign (start_sign C O sh up).
  Proof. unfold start_sign. hframes; cbn; eauto. Qed.

  (** Baking signing commands may raise the main watermark, sign, or start a review. *)
  Definition eff_baker : effects :=
    mkEff (fun s => s = SMain) (fun g => sg_src g = SrcConsensus) False False
          (fun v => exists sh dg br o data, v = VBakingSign sh dg br o data).
  Lemma keeps_consensus p rem sh dg data : keeps eff_baker (handle_consensus O p rem sh dg data).
  Proof. unfold handle_consensus. hframes; cbn; auto. Qed.
  Lemma keeps_delegation rem sh dg data : keeps eff_baker (handle_delegation C rem sh dg data).
  Proof. unfold handle_delegation. hframes; cbn; eauto 8. Qed.
  Lemma keeps_baker_sign sh up : keeps eff_baker (baker_sign C O sh up).
  Proof.
    unfold baker_sign.
    repeat first [ apply keeps_consensus | apply keeps_delegation | progress hframes ].
  Qed.

  (** The same with the upload buffer. *)
  Definition eff_with_up (E : effects) : effects :=
    mkEff (e_slot E) (e_sig E) True (e_path E) (e_view E).
  Lemma keeps_with_upload (E : effects) a buf f :
    (forall up, keeps E (f up)) -> keeps (eff_with_up E) (with_upload a buf f).
  Proof.
    intros Hf. unfold with_upload. apply keeps_bind; [now apply keeps_upload|].
    assert (L : eff_le E (eff_with_up E)) by (repeat split; cbn; tauto).
    intros [up|]; [|apply keeps_ret]. intros d. pose proof (frame_mono _ _ _ _ L (Hf up d)) as F.
    destruct (f up d) as [[r|e| |] d1]; auto; (eapply frame_trans; [exact F|]);
      apply keeps_bind; auto using keeps_ret, keeps_fail; now apply keeps_drop.
  Qed.
  Lemma keeps_h_sign sh buf : keeps (eff_with_up eff_sign) (h_sign C O sh buf).
  Proof. apply keeps_with_upload. apply keeps_start_sign. Qed.
  Lemma keeps_h_baker_sign sh buf : keeps (eff_with_up eff_baker) (h_baker_sign C O sh buf).
  Proof. apply keeps_with_upload. apply keeps_baker_sign. Qed.
  Lemma keeps_version : keeps eff_none (h_version C).
  Proof. unfold h_version. hframes. Qed.
  Lemma keeps_legacy_version : keeps eff_none (h_legacy_version C).
  Proof. unfold h_legacy_version. hframes. Qed.
  Lemma keeps_git : keeps eff_none (h_git C).
  Proof. unfold h_git. hframes. Qed.

  (** ** Effects of decisions *)

  Definition is_review (g : sigrec) : Prop := sg_src g = SrcReview \/ sg_src g = SrcBakingReview.
  Definition eff_accept (v : viewable) : effects :=
    mkEff (fun s => match v with
                    | VAuthorize _ _ | VDeauthorize _ => s = SKey
                    | VSetup _ _ _ _ _ => True
                    | _ => False
                    end)
          (fun g => match v with
                    | VSign _ dg _ data => sg_src g = SrcReview /\ sg_digest g = dg /\ sg_data g = data
                    | VBakingSign _ dg _ _ data =>
                      sg_src g = SrcBakingReview /\ sg_digest g = dg /\ sg_data g = data
                    | _ => False
                    end)
          False (match v with VSign _ _ _ _ => True | _ => False end) (fun _ => False).
  Lemma keeps_get_path E : keeps E (fun d => match d_path d with
                                      | None => (Err ConditionsNotSatisfied, d)
                                      | Some k => (Ok k, d)
                                      end).
  Proof. intros d. destruct (d_path d); apply frame_refl. Qed.
  Lemma keeps_accept v room : keeps (eff_accept v) (accept O v room).
  Proof.
    destruct v; cbn [accept]; unfold store_baking_key, remove_baking_key;
      repeat first [ apply keeps_get_path | progress hframes ]; cbn; auto.
  Qed.
  Lemma keeps_reject v : keeps (eff_accept v) (reject v).
  Proof.
    destruct v; cbn [reject]; try apply keeps_fail.
    intros d. destruct d. constructor; cbn; auto; try (exists []; auto); try tauto.
    intros s _. destruct s; apply weq_refl.
  Qed.
End Handlers.
