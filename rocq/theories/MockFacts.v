(** The build of the unit tests behaves as a device whose user approves every review. *)
From Coq Require Import NArith ZArith Bool Arith List Lia.
From Coq Require Import ZifyBool ZifyNat ZifyN.
From Verif Require Import Base BaseFacts Flash FlashFacts Codecs CodecsSpec CodecsFacts Upload UploadSpec UploadFacts
  Baking Operations Oracles Address AddressSpec AddressFacts
  Device DeviceSpec DeviceFacts DeviceHist DeviceProofs DeviceSigs DeviceReviews ServiceSpec StopFacts StopExamples Mock MockSpec.
Import ListNotations.
Open Scope list_scope.
Open Scope N_scope.

(** ** Computations that do not look at the upload *)

Definition up_free {A} (m : M A) : Prop :=
  forall u d, m (set_up u d) = (fst (m d), set_up u (snd (m d))).

Lemma up_free_ret {A} (a : A) : up_free (ret a).
Proof. intros u d. reflexivity. Qed.
Lemma up_free_fail {A} e : up_free (@fail A e).
Proof. intros u d. reflexivity. Qed.
Lemma up_free_panic {A} : up_free (@panic A).
Proof. intros u d. reflexivity. Qed.
Lemma up_free_bind {A B} (m : M A) (f : A -> M B) : up_free m -> (forall a, up_free (f a)) -> up_free (bind m f).
Proof.
  intros H F u d. unfold bind. rewrite (H u d).
  destruct (m d) as [[a|e| |] d'] eqn:E; cbn [fst snd]; auto. apply F.
Qed.
Lemma up_free_option {A} e (o : option A) : up_free (of_option e o).
Proof. destruct o; [apply up_free_ret|apply up_free_fail]. Qed.
Lemma up_free_sres {A} e (r : sres A) : up_free (of_sres e r).
Proof. destruct r; [apply up_free_ret|apply up_free_fail|apply up_free_panic]. Qed.
Lemma up_free_ares {A} (r : ares A) : up_free (of_ares r).
Proof. destruct r; [apply up_free_ret|apply up_free_fail]. Qed.
Lemma up_free_check b e : up_free (check b e).
Proof. destruct b; [apply up_free_ret|apply up_free_fail]. Qed.

Lemma get_up s u d : get_slot s (set_up u d) = get_slot s d.
Proof. destruct d, s; reflexivity. Qed.
Lemma set_slot_up s w u d : set_slot s w (set_up u d) = set_up u (set_slot s w d).
Proof. destruct d, s; reflexivity. Qed.
Lemma set_faults_up f u d : set_faults f (set_up u d) = set_up u (set_faults f d).
Proof. destruct d; reflexivity. Qed.
Lemma faults_up u d : d_faults (set_up u d) = d_faults d.
Proof. destruct d; reflexivity. Qed.

Lemma up_free_read s : up_free (read_slot s).
Proof.
  intros u d. unfold read_slot. rewrite get_up. destruct (wear_init (get_slot s d)); cbn [fst snd]; [|reflexivity].
  now rewrite set_slot_up.
Qed.
Lemma up_free_write s p : up_free (write_slot s p).
Proof.
  intros u d. unfold write_slot. rewrite get_up, faults_up. destruct (wear_init (get_slot s d)) as [k|]; cbn [fst snd]; [|reflexivity].
  destruct (next_fault (d_faults d)) as [f fs]. destruct (wear_write_at (get_slot s d) k p f) as [w r].
  rewrite set_faults_up, set_slot_up. destruct r; reflexivity.
Qed.
Lemma up_free_write_or s p e : up_free (write_or s p e).
Proof. apply up_free_bind; [apply up_free_write|intros; apply up_free_check]. Qed.
Lemma up_free_read_or s e : up_free (read_or s e).
Proof. apply up_free_bind; [apply up_free_read|]. intros []; first [apply up_free_ret|apply up_free_fail]. Qed.
Lemma up_free_sign O src k dg data : up_free (sign_with O src k dg data).
Proof.
  intros u d. unfold sign_with. destruct (o_sign O (fst k) (snd k) dg) as [s|]; [|reflexivity].
  destruct (100 <? length s)%nat; [reflexivity|]. destruct d; reflexivity.
Qed.

Lemma up_free_accept O v room : up_free (accept O v room).
Proof.
  destruct v as [sh dg p data|sh dg br o data|k a|a|w k a|w pk a|k m t ch a]; cbn [accept].
  - apply up_free_bind; [intros u d; destruct d as [? ? ? ? ? [k|] ? ? ? ?]; reflexivity|]. intros k.
    apply up_free_bind; [apply up_free_sign|]. intros s.
    apply up_free_bind; [intros u d; destruct d; reflexivity|]. intros _. apply up_free_ret.
  - apply up_free_bind; [|intros; apply up_free_ret]. unfold baking_sign.
    apply up_free_bind; [apply up_free_read_or|]. intros p. apply up_free_bind; [apply up_free_ares|]. intros q.
    apply up_free_bind; [apply up_free_option|]. intros k. apply up_free_sign.
  - apply up_free_bind; [apply up_free_option|]. intros pk.
    apply up_free_bind; [apply up_free_write_or|]. intros _. apply up_free_ret.
  - apply up_free_bind; [apply up_free_write_or|]. intros _. apply up_free_ret.
  - destruct (query_answer w k room); [apply up_free_ret|apply up_free_panic].
  - apply up_free_sres.
  - apply up_free_bind; [apply up_free_option|]. intros pk.
    do 4 (apply up_free_bind; [apply up_free_write_or|]; intros _). apply up_free_ret.
Qed.

(** ** The two builds of a command *)

Section Agree.
  Variable C : config.
  Variable O : oracles.
  Hypothesis Rm : forall v, cf_room C v <> None.

  (** The review is approved at once: [x] is what [accept] does. *)
  Definition shown (x : outcome bytes * dev) : outcome mreply * dev :=
    let put out e d' :=
      if UI_OUT_SIZE <? len out + 2 then (Panic, d') else (Ok (MShown (out ++ be 2 (sw e))), d') in
    match x with
    | (Ok out, d') => put out Success d'
    | (Err e, d') => put [] e d'
    | (Panic, d') => (Panic, d')
    | (Cut, d') => (Cut, d')
    end.

  (** Results of the two builds; nothing is said of the state after a panic in a review. *)
  Definition agree_at (x : outcome reply * dev) (y : outcome mreply * dev) : Prop :=
    match x with
    | (Ok (Now data), d) => y = (Ok (MNow data), d)
    | (Ok Later, d) => exists v, d_ui d = Some v /\
        match shown (accept O v UI_OUT_SIZE (set_ui None d)) with
        | (Ok r, d') => y = (Ok r, d')
        | (Err _, _) => False
        | (Panic, _) => fst y = Panic
        | (Cut, _) => fst y = Cut
        end
    | (Err e, d) => y = (Err e, d)
    | (Panic, d) => y = (Panic, d)
    | (Cut, d) => y = (Cut, d)
    end.
  Definition agree (m : M reply) (m' : M mreply) : Prop := forall d, d_ui d = None -> agree_at (m d) (m' d).
  (** A computation that leaves the display alone. *)
  Definition quiet {A} (m : M A) : Prop := forall d, d_ui (snd (m d)) = d_ui d.

  Lemma agree_fail e : agree (fail e) (fail e).
  Proof. intros d D. reflexivity. Qed.
  Lemma agree_panic : agree panic panic.
  Proof. intros d D. reflexivity. Qed.
  Lemma agree_now data : agree (ret (Now data)) (ret (MNow data)).
  Proof. intros d D. reflexivity. Qed.
  Lemma agree_bind {A} (m : M A) f g : quiet m -> (forall a, agree (f a) (g a)) -> agree (bind m f) (bind m g).
  Proof.
    intros Q H d D. unfold bind. specialize (Q d). destruct (m d) as [[a|e| |] d']; cbn [snd] in Q; try reflexivity.
    apply H. congruence.
  Qed.
  Lemma agree_show v : agree (show C v) (mshow O v).
  Proof.
    intros d D. unfold show. destruct (cf_room C v) eqn:E; [|destruct (Rm v E)]. cbn [agree_at].
    exists v. split; [destruct d; reflexivity|].
    assert (X : set_ui None (set_ui (Some v) d) = d) by (destruct d as [? ? ? ? ? ? o ? ? ?]; change (o = None) in D; subst o; reflexivity).
    rewrite X. fold (shown (accept O v UI_OUT_SIZE d)).
    change (mshow O v d) with (shown (accept O v UI_OUT_SIZE d)).
    destruct (accept O v UI_OUT_SIZE d) as [[out|e| |] d']; cbn [shown]; try reflexivity;
      match goal with |- context [if ?b then _ else _] => destruct b end; reflexivity.
  Qed.
  Lemma agree_plain m : (forall d, fst (m d) <> Ok Later) -> agree m (plain m).
  Proof.
    intros H d D. specialize (H d). unfold plain. destruct (m d) as [[[data|]|e| |] d']; cbn [fst] in H; try reflexivity. congruence.
  Qed.

  (** ** What leaves the display alone *)

  Lemma quiet_ret {A} (a : A) : quiet (ret a).
  Proof. intros d. reflexivity. Qed.
  Lemma quiet_fail {A} e : quiet (@fail A e).
  Proof. intros d. reflexivity. Qed.
  Lemma quiet_panic {A} : quiet (@panic A).
  Proof. intros d. reflexivity. Qed.
  Lemma quiet_bind {A B} (m : M A) (f : A -> M B) : quiet m -> (forall a, quiet (f a)) -> quiet (bind m f).
  Proof.
    intros H F d. unfold bind. specialize (H d). destruct (m d) as [[a|e| |] d']; cbn [snd] in *; auto. now rewrite F.
  Qed.
  Lemma quiet_option {A} e (o : option A) : quiet (of_option e o).
  Proof. destruct o; [apply quiet_ret|apply quiet_fail]. Qed.
  Lemma quiet_sres {A} e (r : sres A) : quiet (of_sres e r).
  Proof. destruct r; [apply quiet_ret|apply quiet_fail|apply quiet_panic]. Qed.
  Lemma quiet_ares {A} (r : ares A) : quiet (of_ares r).
  Proof. destruct r; [apply quiet_ret|apply quiet_fail]. Qed.
  Lemma quiet_check b e : quiet (check b e).
  Proof. destruct b; [apply quiet_ret|apply quiet_fail]. Qed.
  Lemma quiet_read s : quiet (read_slot s).
  Proof. intros d. unfold read_slot. destruct (wear_init (get_slot s d)); [destruct d, s; reflexivity|reflexivity]. Qed.
  Lemma quiet_read_or s e : quiet (read_or s e).
  Proof. apply quiet_bind; [apply quiet_read|]. intros []; first [apply quiet_ret|apply quiet_fail]. Qed.
  Lemma quiet_key : quiet read_baking_key.
  Proof. apply quiet_bind; [apply quiet_read_or|]. intros. apply quiet_ares. Qed.
  Lemma quiet_stored k : quiet (check_with_stored k).
  Proof.
    apply quiet_bind; [apply quiet_read_or|]. intros p. apply quiet_bind; [apply quiet_ares|]. intros o.
    apply quiet_bind; [apply quiet_option|]. intros. apply quiet_ret.
  Qed.
  Lemma quiet_address k : quiet (address O k).
  Proof. apply quiet_bind; [apply quiet_option|]. intros. apply quiet_sres. Qed.
  Lemma quiet_requested buf : quiet (requested_key O buf).
  Proof.
    apply quiet_bind; [apply quiet_option|]. intros c. apply quiet_bind; [apply quiet_option|]. intros l.
    apply quiet_bind; [apply quiet_option|]. intros pa. apply quiet_bind; [apply quiet_option|]. intros. apply quiet_ret.
  Qed.

  Ltac opt := apply agree_bind; [apply quiet_option|intros ?].

  (** ** Commands *)

  Definition never_later {A} (P : A -> Prop) (m : M A) : Prop := forall d a d', m d = (Ok a, d') -> P a.
  Lemma plain_agree m : never_later (fun r => r <> Later) m -> agree m (plain m).
  Proof.
    intros H. apply agree_plain. intros d E. destruct (m d) as [r d'] eqn:Em. cbn [fst] in E. subst r.
    exact (H d Later d' Em eq_refl).
  Qed.
  Lemma nl_bind {A B} (m : M A) (f : A -> M B) P : (forall a, never_later P (f a)) -> never_later P (bind m f).
  Proof.
    intros H d b d' E. unfold bind in E. destruct (m d) as [[a|e| |] d1]; try discriminate. exact (H a d1 b d' E).
  Qed.
  Lemma nl_now data : never_later (fun r => r <> Later) (ret (Now data)).
  Proof. intros d a d' E. injection E as <- _. discriminate. Qed.
  Lemma nl_fail {A} (P : A -> Prop) e : never_later P (fail e).
  Proof. intros d a d' E. discriminate. Qed.
  Lemma nl_panic {A} (P : A -> Prop) : never_later P panic.
  Proof. intros d a d' E. discriminate. Qed.

  Lemma agree_consensus p rem sh dg data : agree (handle_consensus O p rem sh dg data) (plain (handle_consensus O p rem sh dg data)).
  Proof.
    apply plain_agree. unfold handle_consensus. apply nl_bind. intros hw.
    destruct (consensus_check p rem (wm_parse hw)) as [r|]; [|apply nl_panic].
    do 3 (apply nl_bind; intros ?). apply nl_now.
  Qed.
  Lemma agree_delegation rem sh dg data : agree (handle_delegation C rem sh dg data) (mock_delegation O rem sh dg data).
  Proof.
    unfold handle_delegation, mock_delegation. destruct (operation_new rem) as [[branch ops]|]; [|apply agree_fail].
    destruct (eo_next ops) as [| | |o r]; first [apply agree_panic|apply agree_fail|idtac].
    destruct o; first [apply agree_fail|apply agree_show].
  Qed.
  Lemma agree_baker sh up : agree (baker_sign C O sh up) (mock_baker_sign O sh up).
  Proof.
    unfold baker_sign, mock_baker_sign. opt. opt. apply agree_bind; [apply quiet_stored|intros ok].
    apply agree_bind; [apply quiet_check|intros _]. apply agree_bind; [apply quiet_option|intros dg].
    destruct (preemble_parse (uo_data up)) as [rem p| |]; [|apply agree_fail|apply agree_panic].
    destruct p; first [apply agree_consensus|apply agree_delegation|apply agree_fail].
  Qed.
  Lemma agree_start sh up : agree (start_sign C O sh up) (mock_start_sign O sh up).
  Proof.
    unfold start_sign, mock_start_sign. opt. opt.
    apply agree_bind; [intros d; destruct d; reflexivity|intros _]. apply agree_bind; [apply quiet_option|intros dg].
    destruct (preemble_parse (uo_data up)) as [rem p| |]; [|apply agree_fail|apply agree_panic].
    destruct p; try apply agree_fail; [|apply agree_show]. opt. apply agree_show.
  Qed.
  Lemma quiet_upload a buf : quiet (the_upload a buf).
  Proof. intros d. unfold the_upload. destruct (upload a buf (d_up d) (d_ufaults d)) as [[r u] s]. destruct d; reflexivity. Qed.

  Lemma shown_up u x : shown (fst x, set_up u (snd x)) = (fst (shown x), set_up u (snd (shown x))).
  Proof.
    destruct x as [[out|e| |] d]; cbn [fst snd shown]; try reflexivity;
      match goal with |- context [if ?b then _ else _] => destruct b end; reflexivity.
  Qed.
  Lemma accept_keeps_up v room d : d_up (snd (accept O v room d)) = d_up d.
  Proof.
    pose proof (up_free_accept O v room (d_up d) d) as H.
    assert (X : set_up (d_up d) d = d) by (destruct d; reflexivity).
    rewrite X in H. apply (f_equal snd) in H. cbn [snd] in H. rewrite H.
    destruct (snd (accept O v room d)); reflexivity.
  Qed.
  Lemma shown_keeps_up x : d_up (snd (shown x)) = d_up (snd x).
  Proof.
    destruct x as [[out|e| |] d]; cbn [fst snd shown]; try reflexivity;
      match goal with |- context [if ?b then _ else _] => destruct b end; reflexivity.
  Qed.

  (** Approving before the upload is dropped and approving afterwards come to the same. *)
  Lemma agree_with_upload a buf f g : (forall up, agree (f up) (g up)) -> agree (with_upload a buf f) (mock_upload a buf g).
  Proof.
    intros H. unfold with_upload, mock_upload. apply agree_bind; [apply quiet_upload|].
    intros [up|]; [|apply agree_now]. intros d D. specialize (H up d D). unfold agree_at in H.
    destruct (f up d) as [[[data|]|e| |] d1]; try (rewrite H; reflexivity).
    destruct H as (v & V & H).
    unfold bind, drop_upload, ret. cbn [agree_at].
    exists v. split; [destruct d1; exact V|].
    assert (X : set_ui None (set_up (upload_drop a (d_up d1)) d1) = set_up (upload_drop a (d_up d1)) (set_ui None d1))
      by (destruct d1; reflexivity).
    rewrite X, (up_free_accept O v UI_OUT_SIZE), shown_up.
    pose proof (shown_keeps_up (accept O v UI_OUT_SIZE (set_ui None d1))) as Eu. rewrite accept_keeps_up in Eu.
    destruct (shown (accept O v UI_OUT_SIZE (set_ui None d1))) as [[r|e| |] d2]; cbn [fst snd] in *.
    - rewrite H. cbn [fst snd]. rewrite Eu. destruct d1; reflexivity.
    - exact H.
    - destruct (g up d) as [r d3]. cbn [fst] in *. subst r. reflexivity.
    - destruct (g up d) as [r d3]. cbn [fst] in *. subst r. reflexivity.
  Qed.

  Lemma agree_authorize buf : agree (h_authorize C O buf) (mock_authorize O buf).
  Proof.
    unfold h_authorize, mock_authorize. apply agree_bind; [apply quiet_check|intros _]. opt. opt. opt.
    apply agree_bind; [apply quiet_address|intros]. apply agree_show.
  Qed.
  Lemma agree_deauthorize buf : agree (h_deauthorize C O buf) (mock_deauthorize O buf).
  Proof.
    unfold h_deauthorize, mock_deauthorize. apply agree_bind; [apply quiet_check|intros _].
    apply agree_bind; [apply quiet_key|intros o]. opt. apply agree_bind; [apply quiet_address|intros]. apply agree_show.
  Qed.
  Lemma agree_query wc buf : agree (h_query C O wc buf) (mock_query O wc buf).
  Proof.
    unfold h_query, mock_query. apply agree_bind; [apply quiet_key|intros o]. opt.
    apply agree_bind; [apply quiet_address|intros]. destruct (needs_review buf); [apply agree_show|].
    destruct (query_answer wc a (len buf)); [apply agree_now|apply agree_panic].
  Qed.
  Lemma agree_setup buf : agree (h_setup C O buf) (mock_setup O buf).
  Proof.
    unfold h_setup, mock_setup. opt. opt. apply agree_bind; [apply quiet_check|intros _].
    apply agree_bind; [apply quiet_check|intros _]. opt. apply agree_bind; [apply quiet_address|intros]. apply agree_show.
  Qed.
  Lemma agree_get_address buf : agree (h_get_address C O buf) (mock_get_address O buf).
  Proof.
    unfold h_get_address, mock_get_address. apply agree_bind; [apply quiet_requested|intros [c pk]].
    apply agree_bind; [apply quiet_sres|intros]. destruct (needs_review buf); [apply agree_show|].
    apply agree_bind; [apply quiet_sres|intros]. apply agree_now.
  Qed.
  Lemma agree_prompt buf : agree (h_prompt C O buf) (mock_prompt O buf).
  Proof.
    unfold h_prompt, mock_prompt. apply agree_bind; [apply quiet_requested|intros [c pk]].
    apply agree_bind; [apply quiet_sres|intros]. apply agree_show.
  Qed.

  Ltac nl := repeat first [apply nl_now|apply nl_fail|apply nl_panic|apply nl_bind; intros ?
    |match goal with |- never_later _ (match ?x with _ => _ end) => destruct x end].
  Lemma agree_reset buf : agree (h_reset buf) (plain (h_reset buf)).
  Proof. apply plain_agree. unfold h_reset. nl. Qed.
  Lemma agree_main : agree h_main_hwm (plain h_main_hwm).
  Proof. apply plain_agree. unfold h_main_hwm. nl. Qed.
  Lemma agree_all : agree h_all_hwm (plain h_all_hwm).
  Proof. apply plain_agree. unfold h_all_hwm. nl. Qed.
  Lemma agree_hmac buf : agree (h_hmac O buf) (plain (h_hmac O buf)).
  Proof. apply plain_agree. unfold h_hmac. nl. Qed.
  Lemma agree_public buf : agree (h_get_public O buf) (plain (h_get_public O buf)).
  Proof. apply plain_agree. unfold h_get_public. nl. Qed.
  Lemma agree_git : agree (h_git C) (plain (h_git C)).
  Proof. apply plain_agree. unfold h_git. nl. Qed.
  Lemma agree_version : agree (h_version C) (plain (h_version C)).
  Proof. apply plain_agree. unfold h_version. apply nl_now. Qed.
  Lemma agree_legacy_version : agree (h_legacy_version C) (plain (h_legacy_version C)).
  Proof. apply plain_agree. unfold h_legacy_version. apply nl_now. Qed.

  Lemma agree_dispatch buf : agree (dispatch C O buf) (mock_dispatch C O buf).
  Proof.
    unfold dispatch, mock_dispatch, dispatch_common, mock_common, h_sign, mock_sign, h_baker_sign, mock_baking. cbv zeta.
    repeat match goal with |- agree (if ?b then _ else _) _ => destruct b end;
    first [ apply agree_reset|apply agree_main|apply agree_all|apply agree_authorize|apply agree_deauthorize|apply agree_query
      |apply agree_setup|apply agree_hmac|apply agree_public|apply agree_git|apply agree_version|apply agree_legacy_version
      |apply agree_get_address|apply agree_prompt|apply agree_fail
      |apply agree_with_upload; intros; first [apply agree_baker|apply agree_start] ].
  Qed.
End Agree.

(** ** Whole commands *)

Section Steps.
  Variable C : config.
  Variable O : oracles.
  Hypothesis K : oracles_ok O.
  Hypothesis Rm : roomy C 134.

  Lemma query_rooms wc k r1 r2 : (length (snd k) <= 10)%nat -> 134 <= r1 -> 134 <= r2 ->
    query_answer wc k r1 = query_answer wc k r2.
  Proof.
    intros L R1 R2. unfold query_answer. cbv zeta.
    set (head := _ ++ _).
    assert (Lh : len head <= 2) by (unfold head; destruct wc; cbn [app]; rewrite ?len_cons; unfold len; cbn [length]; lia).
    replace (r1 <? len head) with false by lia. replace (r2 <? len head) with false by lia.
    assert (Y : forall r, 134 <= r -> firstn (N.to_nat ((r - len head) / 4)) (snd k) = snd k).
    { intros r Hr. apply firstn_all2. enough (33 <= (r - len head) / 4) by (unfold path in *; lia).
      apply N.div_le_lower_bound; lia. }
    now rewrite !Y.
  Qed.
  Lemma accept_rooms v r1 r2 d : view_calm O v -> 134 <= r1 -> 134 <= r2 -> accept O v r1 d = accept O v r2 d.
  Proof.
    intros [_ Q] R1 R2. destruct v; try reflexivity. cbn [accept]. now rewrite (query_rooms with_curve k r1 r2).
  Qed.

  Notation ys := (never_later).
  Lemma ys_bind {A B} (m : M A) (f : A -> M B) P R : ys P m -> (forall a, P a -> ys R (f a)) -> ys R (bind m f).
  Proof.
    intros Hm H d b d' E. unfold bind in E. destruct (m d) as [[a|e| |] d1] eqn:Em; try discriminate.
    exact (H a (Hm _ _ _ Em) d1 b d' E).
  Qed.
  Lemma ys_any {A} (m : M A) : ys (fun _ => True) m.
  Proof. intros d a d' _. exact Logic.I. Qed.
  Lemma ys_ret {A} (P : A -> Prop) a : P a -> ys P (ret a).
  Proof. intros H d b d' E. injection E as <- _. exact H. Qed.
  Lemma ys_sign src k dg data : ys (fun s => (length s <= 100)%nat) (sign_with O src k dg data).
  Proof.
    intros d s d' E. unfold sign_with in E. destruct (o_sign O (fst k) (snd k) dg) as [s'|]; [|discriminate].
    destruct (Nat.ltb_spec 100 (length s')); [discriminate|]. injection E as <- _. lia.
  Qed.
  Lemma ys_baking_sign src dg data : ys (fun s => (length s <= 100)%nat) (baking_sign O src dg data).
  Proof.
    unfold baking_sign. do 3 (apply nl_bind; intros ?). apply ys_sign.
  Qed.
  Lemma ys_pubkey k : ys (fun pk => length pk = pubkey_length (fst k)) (pubkey O k).
  Proof.
    intros d pk d' E. unfold pubkey in E. destruct (o_pubkey O (fst k) (snd k)) as [pk'|] eqn:P; [|discriminate].
    injection E as <- _. now apply (ok_pubkey _ K) in P.
  Qed.
  Lemma accept_fits v room : view_calm O v -> 134 <= room -> ys fits (accept O v room).
  Proof.
    intros [W Q] R. destruct v as [sh dg p data|sh dg br o data|k a|a|w k a|w pk a|k m t ch a]; cbn [accept view_ok] in *.
    - destruct W as [Dg _]. apply (ok_blake2b _ K) in Dg as [Dg _].
      apply nl_bind; intros k. eapply ys_bind; [apply ys_sign|]. intros s Hs. apply nl_bind; intros _.
      apply ys_ret. now apply signed_fits.
    - destruct W as [Dg _]. apply (ok_blake2b _ K) in Dg as [Dg _].
      eapply ys_bind; [apply ys_baking_sign|]. intros s Hs. apply ys_ret. now apply signed_fits.
    - eapply ys_bind; [apply ys_pubkey|]. intros pk L. apply nl_bind; intros _. apply ys_ret. now apply (fits_pubkey (fst k)).
    - apply nl_bind; intros _. apply ys_ret. unfold fits. cbn [length]. lia.
    - destruct (query_calm w k room Q R) as (out & -> & F). now apply ys_ret.
    - destruct W as (k & Pk & A). apply (ok_pubkey _ K) in Pk as [Pk _].
      destruct (addr_answer_calm O K (fst k) w pk a Pk A) as [_ F].
      destruct (addr_answer w pk a); cbn [of_sres]; [apply ys_ret; now apply F|apply nl_fail|apply nl_panic].
    - eapply ys_bind; [apply ys_pubkey|]. intros pk L. do 4 (apply nl_bind; intros _).
      apply ys_ret. now apply (fits_pubkey (fst k)).
  Qed.

  (** One command and an approval. *)
  Lemma mock_pair d buf rx : d_ui d = None -> apdu_ok buf ->
    (forall v, d_ui (snd (step C O d (EApdu buf rx))) = Some v -> view_calm O v) ->
    let s := mock_step C O d buf rx in
    let p := step C O d (EApdu buf rx) in
    let q := step C O (snd p) EApprove in
    same_pair (fst s) (fst p) (fst q) /\ (fst s <> Panicked -> snd s = snd q /\ d_ui (snd q) = None).
  Proof.
    intros D Ab V. assert (Lb : (2 <= length buf)%nat) by (destruct Ab as [-> _]; lia). cbn [step] in *. rewrite D in *. unfold mock_step.
    assert (Rn : forall v, cf_room C v <> None) by (intros v; destruct (Rm v) as (r & -> & _); discriminate).
    assert (Z : forall e d', finish (len buf) (Err e, d') = (AReply (be 2 (sw e)), d')).
    { intros e d'. cbn [finish]. change (len (@nil N)) with 0. replace (len buf <? 0 + 2) with false by (unfold len; lia). reflexivity. }
    assert (Q : forall x : dev, d_ui x = None -> decide C (accept O) x = (ANone, x)).
    { intros x Hx. unfold decide. now rewrite Hx. }
    destruct (apdu_read_ok buf rx) eqn:Ra.
    2:{ rewrite Z in *. cbn [fst snd]. replace (len buf <? len [] + 2) with false by (unfold len; cbn [length]; lia).
        cbn [fst snd app]. unfold decide. rewrite D. cbn [fst snd]. split; [apply same_now|]. intros _. now split. }
    pose proof (agree_dispatch C O Rn buf d D) as A.
    assert (Dq : match fst (dispatch C O buf d) with
      | Ok (Now _) | Err _ => d_ui (snd (dispatch C O buf d)) = None | _ => True end).
    { assert (Hr : 5 <= rx <= 260).
      { destruct Ab as [Lq _]. unfold apdu_read_ok, len in Ra. rewrite Lq in Ra. lia. }
      pose proof (dispatch_asks C O d buf rx Ab D Hr) as B. unfold asked in B.
      destruct (dispatch C O buf d) as [[[data|]|e| |] d1]; cbn [fst snd]; auto. }
    destruct (dispatch C O buf d) as [[[data|]|e| |] d1] eqn:Ed; cbn [agree_at fst snd] in *.
    - rewrite A. cbn [finish].
      destruct (len buf <? len data + 2); cbn [fst snd].
      + rewrite (Q (restart d1)) by reflexivity. split; [apply same_stop|]. intros X; now contradiction X.
      + rewrite (Q d1) by exact Dq. cbn [fst snd]. split; [apply same_now|]. intros _. now split.
    - destruct A as (v & Ev & A). specialize (V v Ev). cbn [finish fst snd]. unfold decide. rewrite Ev.
      destruct (Rm v) as (room & Er & Hr). rewrite Er. unfold bind.
      rewrite (accept_rooms v room UI_OUT_SIZE) by (auto; unfold UI_OUT_SIZE; lia).
      pose proof (accept_fits v UI_OUT_SIZE V ltac:(unfold UI_OUT_SIZE; lia) (set_ui None d1)) as F.
      assert (Du : d_ui (snd (accept O v UI_OUT_SIZE (set_ui None d1))) = None).
      { destruct (fr_ui _ _ _ (keeps_accept O v UI_OUT_SIZE (set_ui None d1))) as [->|(w' & _ & [])]. destruct d1; reflexivity. }
      destruct (accept O v UI_OUT_SIZE (set_ui None d1)) as [[out|e| |] d2]; cbn [shown fst snd] in *.
      + specialize (F out d2 eq_refl). unfold fits in F.
        replace (UI_OUT_SIZE <? len out + 2) with false in A by (unfold UI_OUT_SIZE, len; lia).
        rewrite A. cbn [finish ret]. replace (room <? len out + 2) with false by (unfold len; lia).
        replace (len buf <? len [] + 2) with false by (unfold len; cbn [length]; lia).
        cbn [fst snd app]. split; [apply same_review|]. intros _. now split.
      + replace (UI_OUT_SIZE <? len [] + 2) with false in A by reflexivity.
        rewrite A. cbn [finish ret]. replace (room <? len [] + 2) with false by (unfold len; cbn [length]; lia).
        replace (len buf <? len [] + 2) with false by (unfold len; cbn [length]; lia).
        cbn [fst snd app]. split; [apply same_review|]. intros _. now split.
      + destruct (mock_dispatch C O buf d) as [r d3]. cbn [fst] in A. subst r. cbn [finish fst snd].
        split; [apply same_stop_review|]. intros X; now contradiction X.
      + destruct (mock_dispatch C O buf d) as [r d3]. cbn [fst] in A. subst r. cbn [finish fst snd].
        split; [apply same_stop_review|]. intros X; now contradiction X.
    - rewrite A, Z. cbn [fst snd].
      replace (len buf <? len [] + 2) with false by (unfold len; cbn [length]; lia).
      rewrite (Q d1) by exact Dq. cbn [fst snd app]. split; [apply same_now|]. intros _. now split.
    - rewrite A. cbn [finish fst snd]. rewrite (Q (restart d1)) by reflexivity.
      split; [apply same_stop|]. intros X; now contradiction X.
    - rewrite A. cbn [finish fst snd]. rewrite (Q (restart d1)) by reflexivity.
      split; [apply same_stop|]. intros X; now contradiction X.
  Qed.


  Lemma run_two d e1 e2 es : run C O d (e1 :: e2 :: es) =
    let p := step C O d e1 in let q := step C O (snd p) e2 in
    (fst p :: fst q :: fst (run C O (snd q) es), snd (run C O (snd q) es)).
  Proof.
    cbn [run]. destruct (step C O d e1) as [a d1]. cbn [fst snd].
    destruct (step C O d1 e2) as [b d2]. cbn [fst snd]. destruct (run C O d2 es). reflexivity.
  Qed.

  Lemma run_events f es0 es : snd (run C O (snd (run C O (dev_fresh f []) es0)) es) = snd (run C O (dev_fresh f []) (es0 ++ es)).
  Proof. now rewrite run_app. Qed.

  Lemma mock_tells f cs : forall es0, Forall event_ok es0 -> Forall (fun c => apdu_ok (fst c)) cs ->
    d_ui (snd (run C O (dev_fresh f []) es0)) = None ->
    let d := snd (run C O (dev_fresh f []) es0) in
    tells (fst (mock_run C O d cs)) (fst (run C O d (approving cs))) /\
    (~ In Panicked (fst (mock_run C O d cs)) -> snd (mock_run C O d cs) = snd (run C O d (approving cs))).
  Proof.
    induction cs as [|[buf rx] cs IH]; intros es0 E0 Ec D d; [split; [apply tells_nil|reflexivity]|].
    inversion Ec as [|? ? Eb Ec']; subst. cbn [fst] in Eb.
    change (approving ((buf, rx) :: cs)) with (EApdu buf rx :: EApprove :: approving cs).
    rewrite run_two. cbv zeta. cbn [mock_run].
    assert (E1 : Forall event_ok (es0 ++ [EApdu buf rx])) by (apply Forall_app; split; [exact E0|]; constructor; [exact Eb|constructor]).
    assert (E2 : Forall event_ok ((es0 ++ [EApdu buf rx]) ++ [EApprove])) by (apply Forall_app; split; [exact E1|]; constructor; [exact Logic.I|constructor]).
    assert (R1 : snd (step C O d (EApdu buf rx)) = snd (run C O (dev_fresh f []) (es0 ++ [EApdu buf rx]))).
    { rewrite run_app, run_one. reflexivity. }
    destruct (mock_pair d buf rx D Eb) as [P Q].
    { rewrite R1. intros v V. exact (reach_view_calm C O f _ v E1 V). }
    cbv zeta in P, Q.
    assert (R2 : snd (step C O (snd (step C O d (EApdu buf rx))) EApprove)
      = snd (run C O (dev_fresh f []) ((es0 ++ [EApdu buf rx]) ++ [EApprove]))).
    { symmetry. rewrite (run_app C O (dev_fresh f []) (es0 ++ [EApdu buf rx]) [EApprove]), run_one. f_equal. f_equal. symmetry. exact R1. }
    destruct (mock_step C O d buf rx) as [[a o|] d1]; cbn [fst snd] in *.
    - destruct (Q ltac:(discriminate)) as [Q1 Q2]. rewrite R2 in Q2. subst d1. rewrite R2.
      destruct (IH _ E2 Ec' Q2) as [T1 T2].
      set (d2 := snd (run C O (dev_fresh f []) ((es0 ++ [EApdu buf rx]) ++ [EApprove]))) in *.
      destruct (mock_run C O d2 cs) as [l d3]. cbn [fst snd] in *. split.
      + apply tells_cons; [exact P|discriminate|exact T1].
      + intros Np. apply T2. intros X. apply Np. now right.
    - split; [now apply tells_stop|]. intros Np. contradiction Np. now left.
  Qed.
End Steps.
