(** Nothing else stops the app. *)
From Coq Require Import NArith ZArith Bool Arith List Lia.
From Coq Require Import ZifyBool ZifyNat ZifyN.
From Verif Require Import Base BaseFacts Flash FlashFacts FlashSpec FlashProofs Codecs CodecsSpec CodecsFacts Upload UploadSpec UploadFacts
  Baking BakingSpec BakingFacts BakingExamples Operations OperationsSpec OperationsFacts Oracles Address AddressSpec AddressFacts AddressExamples
  Device DeviceSpec DeviceFacts DeviceProofs DeviceHist DeviceSigs DeviceUploads DeviceCases ScreensDevice ServiceSpec StopSpec.
Import ListNotations.
Open Scope list_scope.
Open Scope N_scope.

Lemma path_read_short LEN l p : path_read LEN l = Some p -> (length p <= LEN)%nat.
Proof.
  intros H. apply path_read_sound in H. inversion H; subst. rewrite map_length. lia.
Qed.

Lemma parsed_key_short p k : key_parse p = AOk (Some k) -> (length (snd k) <= 10)%nat.
Proof.
  unfold key_parse. intros H.
  repeat match type of H with
  | context [match path_read ?a ?b with _ => _ end] => destruct (path_read a b) as [pa|] eqn:P
  | context [match ?x with _ => _ end] => destruct x
  end; try discriminate.
  injection H as <-. exact (path_read_short _ _ _ P).
Qed.

Lemma preemble_total l : preemble_parse l <> PPanic.
Proof.
  assert (le_u8 l <> PPanic) by (unfold le_u8, be_uint, take; destruct (1 <=? len l); discriminate).
  unfold preemble_parse. destruct (le_u8 l) as [r b| |]; cbn [pbind]; try congruence.
  destruct (preemble_of_byte b); discriminate.
Qed.

Section Stop.
  Variable C : config.
  Variable O : oracles.
  Hypothesis K : oracles_ok O.
  (** The faults ahead when the event arrives. *)
  Variable F0 : list fault.

  Definition J (d : dev) : Prop :=
    (forall s, wear_init (get_slot s d) <> None) /\
    (exists l, F0 = l ++ d_faults d /\ forall t, ~ In (WCut t) l).
  Definition was_cut (d : dev) : Prop := exists l t, F0 = l ++ WCut t :: d_faults d.
  Definition calm_at {A} (P : Prop) (Q : A -> Prop) (x : outcome A * dev) : Prop :=
    match fst x with
    | Ok a => J (snd x) /\ Q a
    | Err _ => J (snd x)
    | Panic => P
    | Cut => was_cut (snd x)
    end.
  Definition calm {A} (Q : A -> Prop) (m : M A) : Prop := forall d, J d -> calm_at False Q (m d).

  Lemma calm_ret {A} (Q : A -> Prop) a : Q a -> calm Q (ret a).
  Proof. intros H d D. split; auto. Qed.
  Lemma calm_fail {A} (Q : A -> Prop) e : calm Q (fail e).
  Proof. intros d D. exact D. Qed.
  Lemma calm_bind {A B} (Q : A -> Prop) (R : B -> Prop) (m : M A) f : calm Q m -> (forall a, Q a -> calm R (f a)) ->
    calm R (bind m f).
  Proof.
    intros H F d D. unfold bind. specialize (H d D). unfold calm_at in H.
    destruct (m d) as [[a|e| |] d']; cbn [fst snd] in *; [destruct H; now apply F|exact H..].
  Qed.
  Lemma calm_weaken {A} (Q R : A -> Prop) m : (forall a, Q a -> R a) -> calm Q m -> calm R m.
  Proof.
    intros H F d D. specialize (F d D). unfold calm_at in *. destruct (fst (m d)); auto. destruct F; auto.
  Qed.
  Lemma calm_option {A} (Q : A -> Prop) e o : (forall a, o = Some a -> Q a) -> calm Q (of_option e o).
  Proof. intros H. destruct o; [apply calm_ret; auto|apply calm_fail]. Qed.
  Lemma calm_ares {A} (Q : A -> Prop) r : (forall a, r = AOk a -> Q a) -> calm Q (of_ares r).
  Proof. intros H. destruct r; [apply calm_ret; auto|apply calm_fail]. Qed.
  Lemma calm_sres {A} (Q : A -> Prop) e r : r <> SPanic -> (forall a, r = SOk a -> Q a) -> calm Q (of_sres e r).
  Proof. intros N H. destruct r; [apply calm_ret; auto|apply calm_fail|congruence]. Qed.
  Lemma calm_check b e : calm (fun _ => True) (check b e).
  Proof. destruct b; [now apply calm_ret|apply calm_fail]. Qed.

  Lemma J_set s w d : wear_init w <> None -> J d -> J (set_slot s w d).
  Proof.
    intros H [D1 D2]. split.
    - intros s'. specialize (D1 s'). destruct d, s, s'; cbn in *; auto.
    - destruct d, s; exact D2.
  Qed.
  Lemma calm_read s : calm (fun _ => True) (read_slot s).
  Proof.
    intros d D. unfold read_slot. destruct (wear_init (get_slot s d)) as [k|] eqn:E; [|now destruct (proj1 D s)].
    split; cbn [fst snd]; auto. apply J_set; auto. discriminate.
  Qed.
  Lemma calm_write s p : calm (fun _ => True) (write_slot s p).
  Proof.
    intros d D. unfold write_slot. destruct (wear_init (get_slot s d)) as [k|] eqn:E; [|now destruct (proj1 D s)].
    destruct (next_fault (d_faults d)) as [f fs] eqn:Nf. unfold wear_write_at.
    assert (D' : (forall t, f <> WCut t) -> J (set_faults fs d)).
    { intros Ncut. destruct D as [D1 [l D2]]. split; [intros s'; specialize (D1 s'); destruct d, s'; exact D1|].
      destruct D2 as [D2 D3]. destruct d; cbn in *. destruct d_faults as [|x fs']; injection Nf as <- <-; [now exists l|].
      exists (l ++ [x]). rewrite <- app_assoc. split; [exact D2|]. intros t Ht. apply in_app_or in Ht as [Ht|[Ht|[]]]; [now apply (D3 t)|].
      now apply (Ncut t). }
    assert (Y : (forall t, f <> WCut t) -> forall w, wear_init w <> None -> J (set_slot s w (set_faults fs d))) by (intros; apply J_set; auto).
    destruct f as [|t|t]; cbn [fault_res]; unfold calm_at; cbn [fst snd]; try (split; [apply Y; [intros; discriminate|discriminate]|auto]).
    destruct D as [_ [l [D2 _]]]. exists l, t. destruct (d_faults d) as [|x fs'] eqn:Ef; [discriminate|]. injection Nf as -> ->.
    rewrite D2. destruct d, s; reflexivity.
  Qed.
  Lemma calm_write_or s p e : calm (fun _ => True) (write_or s p e).
  Proof. eapply calm_bind; [apply calm_write|]. intros; apply calm_check. Qed.
  Lemma calm_read_or s e : calm (fun _ => True) (read_or s e).
  Proof. eapply calm_bind; [apply calm_read|]. intros [] _; [now apply calm_ret|apply calm_fail..]. Qed.

  Lemma calm_sign src k dg data : calm (fun s => (length s <= 100)%nat) (sign_with O src k dg data).
  Proof.
    intros d D. unfold sign_with. destruct (o_sign O (fst k) (snd k) dg) as [s|] eqn:E.
    - apply (ok_sign _ K) in E as [E _]. destruct (Nat.ltb_spec 100 (length s)); [lia|].
      split; cbn [fst snd]; auto. destruct D as [D1 D2]. split; [intros s'; specialize (D1 s'); destruct d, s'; exact D1|destruct d; exact D2].
    - exact D.
  Qed.
  Lemma calm_digest data : calm (fun dg => length dg = 32%nat) (digest32 O data).
  Proof. apply calm_option. intros a H. apply (ok_blake2b _ K _ _ _ H). Qed.
  Lemma calm_pubkey k : calm (fun pk => length pk = pubkey_length (fst k)) (pubkey O k).
  Proof. apply calm_option. intros a H. apply (ok_pubkey _ K _ _ _ H). Qed.
  Lemma new_total c pk : length pk = pubkey_length c -> addr_new O c pk <> SPanic.
  Proof. intros L H. pose proof (key_address_total O c pk K L) as T. unfold key_address in T. now rewrite H in T. Qed.
  Lemma calm_address k : calm (fun _ => True) (address O k).
  Proof.
    eapply calm_bind; [apply calm_pubkey|]. intros pk L. apply calm_sres; auto. now apply new_total.
  Qed.

  (** Answers of at most 132 bytes. *)
  Definition fits (out : bytes) : Prop := (length out <= 132)%nat.
  Definition reply_fits (r : reply) : Prop := match r with Now out => fits out | Later => True end.

  Lemma pubkey_bound c : (pubkey_length c <= 65)%nat.
  Proof. destruct c; cbn; lia. Qed.
  Lemma fits_pubkey c pk : length pk = pubkey_length c -> fits (len pk mod 256 :: pk).
  Proof. intros L. unfold fits. cbn [length]. pose proof (pubkey_bound c). lia. Qed.

  Lemma calm_baking_sign src dg data : calm (fun s => (length s <= 100)%nat) (baking_sign O src dg data).
  Proof.
    unfold baking_sign. eapply calm_bind; [apply calm_read_or|]. intros p _.
    eapply calm_bind; [apply (calm_ares (fun _ => True)); auto|]. intros o _.
    eapply calm_bind; [apply (calm_option (fun _ => True)); auto|]. intros k _. apply calm_sign.
  Qed.
  Lemma signed_fits sh dg s : length dg = 32%nat -> (length s <= 100)%nat -> fits (signed sh dg s).
  Proof. intros H1 H2. unfold fits, signed. rewrite app_length. destruct sh; cbn [length]; lia. Qed.

  Lemma query_calm wc k room : (length (snd k) <= 10)%nat -> 134 <= room ->
    exists out, query_answer wc k room = Some out /\ fits out.
  Proof.
    intros L R. unfold query_answer. cbv zeta.
    match goal with |- context [if ?r <? ?l then _ else _] =>
      assert (Lh : l <= 2) by (destruct wc; cbn [app]; rewrite ?len_cons; unfold len; cbn [length]; lia);
      destruct (N.ltb_spec r l) as [H|H] end; [lia|].
    eexists. split; [reflexivity|].
    unfold fits. rewrite app_length.
    assert (Y : forall l : list N, length (concat (map (be 4) l)) = (4 * length l)%nat).
    { induction l as [|a l IH]; [reflexivity|]. cbn [map concat]. rewrite app_length, be_length, IH. cbn [length]. lia. }
    rewrite Y. match goal with |- context [firstn ?n ?l] => assert (F : (length (firstn n l) <= length l)%nat) by (rewrite firstn_length; apply Nat.le_min_r) end.
    clear Y Lh H R.
    unfold bytes, byte, path in *. destruct wc; cbn [app length] in *; lia.
  Qed.

  Lemma addr_answer_calm c w pk a : length pk = pubkey_length c -> addr_new O c pk = SOk a ->
    addr_answer w pk a <> SPanic /\ forall out, addr_answer w pk a = SOk out -> fits out.
  Proof.
    intros L E. pose proof (key_address_total O c pk K L) as T. unfold key_address in T. rewrite E in T.
    pose proof (pubkey_bound c) as B. unfold addr_answer.
    destruct w.
    - destruct (addr_base58 a) as [t| |] eqn:Eb; [|split; discriminate|congruence]. split; [discriminate|].
      intros out H. injection H as <-.
      assert (length t <= 37)%nat.
      { unfold addr_base58 in Eb. destruct (b58_encode 37 _) as [t'|] eqn:Ec; [|discriminate]. injection Eb as <-.
        unfold b58_encode in Ec. cbv zeta in Ec.
        match type of Ec with (if (length ?r <=? 37)%nat then _ else _) = _ => destruct (Nat.leb_spec (length r) 37) as [H|]; [|discriminate] end.
        injection Ec as <-. rewrite rev_length, map_length. exact H. }
      unfold fits. cbn [app length]. rewrite app_length. lia.
    - split; [discriminate|]. intros out H. injection H as <-. now apply (fits_pubkey c).
  Qed.

  (** ** Handlers *)

  Lemma calm_show v : calm reply_fits (show C v).
  Proof.
    intros d D. unfold show. destruct (cf_room C v); [|exact D]. split; cbn [fst snd]; [|exact I].
    destruct D as [D1 D2]. split; [intros s'; specialize (D1 s'); destruct d, s'; exact D1|destruct d; exact D2].
  Qed.
  Lemma calm_now out : fits out -> calm reply_fits (ret (Now out)).
  Proof. intros H. now apply calm_ret. Qed.

  Ltac opt := eapply calm_bind; [apply (calm_option (fun _ => True)); auto|intros ? _].
  Ltac chk := eapply calm_bind; [apply calm_check|intros _ _].

  Lemma calm_authorize buf : calm reply_fits (h_authorize C O buf).
  Proof.
    unfold h_authorize, the_curve, the_payload. chk. opt. opt. opt. eapply calm_bind; [apply calm_address|]. intros; apply calm_show.
  Qed.
  Lemma calm_key : calm (fun o => match o with Some k => (length (snd k) <= 10)%nat | None => True end) read_baking_key.
  Proof.
    unfold read_baking_key. eapply calm_bind; [apply calm_read_or|]. intros p _. apply calm_ares.
    intros [k|] H; auto. exact (parsed_key_short _ _ H).
  Qed.
  Lemma calm_stored : calm (fun k : key => (length (snd k) <= 10)%nat)
    (do o <- read_baking_key; of_option ConditionsNotSatisfied o).
  Proof. eapply calm_bind; [apply calm_key|]. intros o H. apply calm_option. intros k ->. exact H. Qed.
  Lemma calm_deauthorize buf : calm reply_fits (h_deauthorize C O buf).
  Proof.
    unfold h_deauthorize. chk. eapply calm_bind; [apply calm_key|]. intros o _. opt.
    eapply calm_bind; [apply calm_address|]. intros; apply calm_show.
  Qed.
  Lemma calm_query wc buf : apdu_ok buf -> calm reply_fits (h_query C O wc buf).
  Proof.
    intros [L _]. unfold h_query. eapply calm_bind; [apply calm_key|]. intros o Ho.
    eapply calm_bind; [apply (calm_option (fun k : key => (length (snd k) <= 10)%nat)); intros k ->; exact Ho|]. intros k Hk.
    eapply calm_bind; [apply calm_address|]. intros a _. destruct (needs_review buf); [apply calm_show|].
    destruct (query_calm wc k (len buf) Hk) as (out & -> & F); [unfold len; lia|]. now apply calm_now.
  Qed.
  Lemma calm_hmac buf : calm reply_fits (h_hmac O buf).
  Proof.
    unfold h_hmac, the_curve, the_payload. opt. opt. destruct a0 as [|n cdata]; [apply calm_fail|]. cbv zeta.
    chk. opt. eapply calm_bind; [apply calm_sign|]. intros s _. opt.
    eapply calm_bind; [apply (calm_option (fun out => length out = 32%nat)); intros out H; apply (ok_hmac256 _ K _ _ _ H)|].
    intros out H. apply calm_now. unfold fits, bytes, byte in *. lia.
  Qed.
  Lemma calm_setup buf : calm reply_fits (h_setup C O buf).
  Proof.
    unfold h_setup, the_curve, the_payload. opt. opt. chk. cbv zeta. chk. opt.
    eapply calm_bind; [apply calm_address|]. intros; apply calm_show.
  Qed.
  Lemma calm_reset buf : calm reply_fits (h_reset buf).
  Proof.
    unfold h_reset, the_payload. opt. chk. cbv zeta. do 2 (eapply calm_bind; [apply calm_write_or|intros _ _]).
    eapply calm_bind; [apply calm_read|]. intros [] _; try (apply calm_now; unfold fits; cbn; lia).
    eapply calm_bind; [apply calm_write_or|intros _ _]. apply calm_now; unfold fits; cbn; lia.
  Qed.
  Lemma calm_main_hwm : calm reply_fits h_main_hwm.
  Proof.
    unfold h_main_hwm. eapply calm_bind; [apply calm_read|]. intros [] _; try apply calm_fail; apply calm_now; unfold fits; rewrite be_length; lia.
  Qed.
  Lemma default_fits : fits all_default.
  Proof. unfold fits, all_default. rewrite !app_length, !be_length. lia. Qed.
  Lemma calm_all_hwm : calm reply_fits h_all_hwm.
  Proof.
    unfold h_all_hwm. eapply calm_bind; [apply calm_read|]. intros [] _; try apply calm_fail; [|apply calm_now, default_fits].
    eapply calm_bind; [apply calm_read|]. intros [] _; try apply calm_fail; [|apply calm_now, default_fits].
    eapply calm_bind; [apply calm_read|]. intros [] _; try apply calm_fail; [|apply calm_now, default_fits].
    apply calm_now. unfold fits. rewrite !app_length, !be_length. lia.
  Qed.
  Lemma calm_requested buf : calm (fun r => length (snd r) = pubkey_length (fst r)) (requested_key O buf).
  Proof.
    unfold requested_key, the_curve, the_payload. opt. opt. opt. eapply calm_bind; [apply calm_pubkey|].
    intros pk L. apply calm_ret. exact L.
  Qed.
  Lemma calm_get_address buf : calm reply_fits (h_get_address C O buf).
  Proof.
    unfold h_get_address. eapply calm_bind; [apply calm_requested|]. intros [c pk] L. cbn [fst snd] in L.
    eapply calm_bind; [apply (calm_sres (fun a => addr_new O c pk = SOk a)); [now apply new_total|auto]|]. intros a E.
    destruct (needs_review buf); [apply calm_show|]. destruct (addr_answer_calm c true pk a L E) as [N F].
    eapply calm_bind; [apply (calm_sres fits); auto|]. intros out H. now apply calm_now.
  Qed.
  Lemma calm_get_public buf : calm reply_fits (h_get_public O buf).
  Proof.
    unfold h_get_public. eapply calm_bind; [apply calm_requested|]. intros [c pk] L. apply calm_now. now apply (fits_pubkey c).
  Qed.
  Lemma calm_prompt buf : calm reply_fits (h_prompt C O buf).
  Proof.
    unfold h_prompt. eapply calm_bind; [apply calm_requested|]. intros [c pk] L. cbn [fst snd] in L.
    eapply calm_bind; [apply (calm_sres (fun _ => True)); [now apply new_total|auto]|]. intros a _. apply calm_show.
  Qed.
  Lemma version_length : length (version_bytes C) = 3%nat.
  Proof. unfold version_bytes. now destruct (cf_version C) as [[]]. Qed.
  Lemma calm_version : calm reply_fits (h_version C).
  Proof. apply calm_now. unfold fits. rewrite !app_length, be_length, version_length. cbn [length]. lia. Qed.
  Lemma calm_legacy_version : calm reply_fits (h_legacy_version C).
  Proof. apply calm_now. unfold fits. cbn [length]. rewrite version_length. lia. Qed.
  Lemma calm_git : (8 <= length (cf_commit C))%nat -> calm reply_fits (h_git C).
  Proof.
    intros L. unfold h_git. destruct (Nat.ltb_spec (length (cf_commit C)) 8); [lia|]. apply calm_now. unfold fits.
    rewrite app_length, firstn_length. cbn [length]. lia.
  Qed.
  Lemma calm_start_sign sh up : calm reply_fits (start_sign C O sh up).
  Proof.
    unfold start_sign. opt. opt.
    eapply calm_bind; [instantiate (1 := fun _ => True); intros d D; split; cbn [fst snd]; auto;
      destruct D as [D1 D2]; split; [intros s'; specialize (D1 s'); destruct d, s'; exact D1|destruct d; exact D2]|]. intros _ _.
    eapply calm_bind; [apply calm_digest|]. intros dg _.
    destruct (preemble_parse (uo_data up)) as [rem p| |] eqn:E; [|apply calm_fail|].
    - destruct p; try apply calm_fail; [opt; apply calm_show|apply calm_show].
    - destruct (preemble_total (uo_data up)). exact E.
  Qed.
  Lemma calm_delegation rem sh dg data : calm reply_fits (handle_delegation C rem sh dg data).
  Proof.
    unfold handle_delegation. destruct (operation_new rem) as [[br ops]|] eqn:E; [|apply calm_fail].
    assert (H0 : eo_read ops = 0%nat).
    { unfold operation_new in E. destruct (take 32 rem); try discriminate. injection E as <- <-. reflexivity. }
    destruct ops as [src n]. cbn [eo_read] in H0. subst n.
    pose proof (eo_next_spec src 0 ltac:(lia)) as Y. destruct (eo_next (mkOps src 0)) as [| | |o e]; try apply calm_fail; try contradiction.
    destruct o; first [apply calm_show|apply calm_fail].
  Qed.
  (** ** Consensus messages *)

  Lemma calm_at_weaken {A} (P R : Prop) (Q : A -> Prop) x : (P -> R) -> calm_at P Q x -> calm_at R Q x.
  Proof. unfold calm_at. intros H H1. destruct (fst x); auto. Qed.
  Lemma consensus_calm p rem sh dg data d : J d -> length dg = 32%nat ->
    calm_at (exists q, wear_read (d_main d) = Some (RData q) /\ consensus_check p rem (wm_parse q) = None)
      reply_fits (handle_consensus O p rem sh dg data d).
  Proof.
    intros D L. unfold handle_consensus. unfold bind at 1.
    pose proof (calm_read_or SMain ExecutionError d D) as D1. unfold calm_at in D1.
    pose proof (read_or_spec SMain ExecutionError d) as R1.
    destruct (read_or SMain ExecutionError d) as [[hw|e| |] d1]; cbn [fst snd] in *; try exact D1; try contradiction.
    destruct D1 as [D1 _]. destruct R1 as [R1 _]. cbn [get_slot] in R1. unfold wear_reads in R1.
    destruct (consensus_check p rem (wm_parse hw)) as [r|] eqn:Ec; [|unfold calm_at, panic; cbn [fst]; eauto].
    apply (calm_at_weaken False); [tauto|]. revert D1. generalize d1.
    change (calm reply_fits (do wm <- of_ares r; do _ <- write_or SMain (wm_serialize wm) ExecutionError;
      do s <- baking_sign O SrcConsensus dg data; ret (Now (signed sh dg s)))).
    eapply calm_bind; [apply (calm_ares (fun _ => True)); auto|]. intros wm _.
    eapply calm_bind; [apply calm_write_or|]. intros _ _.
    eapply calm_bind; [apply calm_baking_sign|]. intros s Hs. apply calm_now. now apply signed_fits.
  Qed.

  Definition fatal_up (d : dev) (up : upload_out) : Prop :=
    exists k p, stored_key d k /\ uo_p2 up = byte_of_curve (fst k) /\
      path_read BIP32_MAX_LENGTH (uo_first up) = Some (snd k) /\
      o_blake2b O 32 (uo_data up) <> None /\ wear_read (d_main d) = Some (RData p) /\
      short_fitness (uo_data up).

  Lemma panic_short p rem m hw : bytes_ok rem -> preemble_of_byte m = Some p -> consensus_check p rem hw = None ->
    short_fitness (m :: rem).
  Proof.
    intros B P H. apply check_panic_iff in H as [Hp (bf & fit & af & -> & Lb & Lf & Ln)]; [|exact B].
    exists m, bf, fit, af. split; [reflexivity|]. split; [|auto].
    assert (forall k q, preemble_of_byte k = Some q -> (q = PreBlock -> k = 0x01) /\ (q = PreTBBlock -> k = 0x11)) as Y.
    { clear. intros k q. unfold preemble_of_byte.
      repeat match goal with |- context [k =? ?x] => destruct (N.eqb_spec k x) as [->|?] end;
        intros H; try discriminate; injection H as <-; split; intros H; congruence. }
    destruct (Y _ _ P). destruct Hp as [-> | ->]; auto.
  Qed.

  Lemma baker_calm sh up d : J d -> bytes_ok (uo_data up) ->
    calm_at (fatal_up d up) reply_fits (baker_sign C O sh up d).
  Proof.
    intros D B. unfold baker_sign. unfold bind at 1.
    assert (Q : forall (d' : dev) e, J d' -> calm_at (fatal_up d up) reply_fits (Err e, d')) by (intros; assumption).
    destruct (curve_of_byte (uo_p2 up)) as [c|] eqn:Ec; cbn [of_option]; [|now apply Q].
    unfold ret at 1, bind at 1.
    destruct (path_read BIP32_MAX_LENGTH (uo_first up)) as [pa|] eqn:Ep; cbn [of_option]; [|now apply Q].
    unfold ret at 1, bind at 1.
    pose proof (keeps_check_with_stored eff_none (c, pa) d) as F1.
    pose proof (check_with_stored_spec (c, pa) d) as K1.
    assert (C1 : calm (fun _ => True) (check_with_stored (c, pa))).
    { unfold check_with_stored. eapply calm_bind; [apply calm_read_or|]. intros p _.
      eapply calm_bind; [apply (calm_ares (fun _ => True)); auto|]. intros o _. opt. now apply calm_ret. }
    specialize (C1 d D). unfold calm_at in C1.
    destruct (check_with_stored (c, pa) d) as [[ok|e| |] d1]; cbn [fst snd] in *; try exact C1; try contradiction.
    destruct C1 as [D1 _]. unfold bind at 1. destruct ok; cbn [check]; [|now apply Q].
    destruct K1 as [K1 W1]. unfold ret at 1, bind at 1.
    pose proof (calm_digest (uo_data up) d1 D1) as Ld. unfold digest32, calm_at in *.
    destruct (o_blake2b O 32 (uo_data up)) as [dg|] eqn:Dg; cbn [of_option] in *; [|now apply Q].
    unfold ret in Ld at 1. cbn [fst] in Ld. destruct Ld as [_ Ld]. unfold ret at 1.
    destruct (preemble_parse (uo_data up)) as [rem p| |] eqn:P; [|now apply Q|now destruct (preemble_total (uo_data up))].
    apply preemble_parse_inv in P as (m & Em & Pm).
    assert (Y : calm_at (fatal_up d up) reply_fits (handle_consensus O p rem sh dg (uo_data up) d1)).
    { eapply calm_at_weaken; [|exact (consensus_calm p rem sh dg (uo_data up) d1 D1 Ld)].
      intros (q & Rq & Cq). exists (c, pa), q. split; [exact K1|]. split; [now apply curve_of_byte_inv|].
      split; [exact Ep|]. split; [congruence|]. split.
      - rewrite <- Rq. symmetry. apply weq_read. exact (fr_slot _ _ _ F1 SMain (fun x => x)).
      - rewrite Em. eapply panic_short; eauto. rewrite Em in B. now inversion B. }
    destruct p; try exact Y; try (now apply Q).
    apply (calm_at_weaken False); [tauto|]. now apply calm_delegation.
  Qed.
  (** ** Uploads *)

  Lemma proto_no_stop a buf st : fst (proto_step a buf st) <> Panic /\ fst (proto_step a buf st) <> Cut.
  Proof.
    unfold proto_step. destruct (kind_of (nth 2 buf 0)) as [[]|]; try (split; discriminate);
      destruct st as [[[[h q2] init] data]|]; try (split; discriminate);
      destruct (negb (acc_eqb h a)); try (split; discriminate);
      match goal with |- context [if ?b then _ else _] => destruct b end; split; discriminate.
  Qed.

  Lemma with_upload_calm a buf f (P : upload_out -> dev -> Prop) d st : apdu_ok buf -> d_ufaults d = [] -> u_rel (d_up d) st ->
    up_fine d -> J d ->
    (forall up d, J d -> bytes_ok (uo_data up) -> calm_at (P up d) reply_fits (f up d)) ->
    (forall up u s, P up (set_up u (set_ufaults s d)) -> P up d) ->
    calm_at (exists up, fst (proto_step a buf st) = Ok (Some up) /\ P up d) reply_fits (with_upload a buf f d).
  Proof.
    intros Hb U R Fi D K1 K2. unfold with_upload, the_upload. unfold bind at 1.
    pose proof (up_data_ok a buf d) as Bd. rewrite U in Bd. rewrite U.
    pose proof (upload_step a buf (d_up d) st Hb R) as Y. destruct (proto_no_stop a buf st) as [N1 N2].
    destruct (upload a buf (d_up d) []) as [[o u'] s]. destruct Y as (-> & Eo & _).
    set (d1 := set_up u' (set_ufaults [] d)).
    assert (D1 : J d1).
    { destruct D as [D1 D2]. unfold d1. split; [intros s'; specialize (D1 s'); destruct d, s'; exact D1|destruct d; exact D2]. }
    destruct o as [[up|]|e| |]; try congruence.
    - specialize (K1 up d1 D1 (Bd up u' [] Hb Fi eq_refl)).
      assert (Y : forall d', J d' -> J (set_up (upload_drop a (d_up d')) d')).
      { intros d' [E1 E2]. split; [intros s'; specialize (E1 s'); destruct d', s'; exact E1|destruct d'; exact E2]. }
      unfold calm_at in K1. destruct (f up d1) as [[r|e| |] d2]; cbn [fst snd] in *;
        unfold bind, drop_upload, ret, fail, calm_at; cbn [fst snd]; auto.
      + destruct K1. auto.
      + exists up. split; [auto|]. exact (K2 _ _ _ K1).
    - split; unfold ret; cbn [fst snd reply_fits]; [exact D1|]. apply Nat.le_0_l.
    - exact D1.
  Qed.

  Lemma dispatch_calm buf d st : (8 <= length (cf_commit C))%nat -> apdu_ok buf -> d_ufaults d = [] -> u_rel (d_up d) st ->
    up_fine d -> J d ->
    calm_at (nth 0 buf 0 = 0x80 /\ upload_command C (nth 1 buf 0) = Some AccBaking /\
             exists up, fst (proto_step AccBaking buf st) = Ok (Some up) /\ fatal_up d up)
      reply_fits (dispatch C O buf d).
  Proof.
    intros Lc Hb U R Fi D. unfold dispatch, apdu_cla, apdu_ins, CLA.
    destruct (N.eqb_spec (nth 0 buf 0) 0x80) as [E0|E0]; cbn [negb]; [|exact D].
    cbv zeta.
    assert (Z : forall m, calm reply_fits m -> forall P : Prop, calm_at P reply_fits (m d)).
    { intros m H P. apply (calm_at_weaken False); [tauto|]. now apply H. }
    assert (Zs : forall sh P, calm_at P reply_fits (h_sign C O sh buf d)).
    { intros sh P. apply (calm_at_weaken (exists up, fst (proto_step AccSign buf st) = Ok (Some up) /\ False)); [intros (up & _ & []) |].
      apply (with_upload_calm AccSign buf (start_sign C O sh) (fun _ _ => False)); auto.
      intros up d' D' _. now apply calm_start_sign. }
    assert (Zb : forall sh, upload_command C (nth 1 buf 0) = Some AccBaking -> calm_at
       (nth 0 buf 0 = 0x80 /\ upload_command C (nth 1 buf 0) = Some AccBaking /\
             exists up, fst (proto_step AccBaking buf st) = Ok (Some up) /\ fatal_up d up) reply_fits (h_baker_sign C O sh buf d)).
    { intros sh Ec. apply (calm_at_weaken (exists up, fst (proto_step AccBaking buf st) = Ok (Some up) /\ fatal_up d up)); [auto|].
      apply (with_upload_calm AccBaking buf (baker_sign C O sh) (fun up d => fatal_up d up)); auto.
      - intros up d' D' B'. now apply baker_calm.
      - intros up u s. destruct d; auto. }
    unfold dispatch_common.
    destruct (cf_baking C) eqn:Cb;
    repeat match goal with |- context [if ?x =? ?y then _ else _] => destruct (N.eqb_spec x y) as [?E|?E] end;
    first [ apply Zs
          | apply Z; first [ apply calm_reset | apply calm_main_hwm | apply calm_all_hwm | apply calm_authorize
              | apply calm_deauthorize | now apply calm_query | apply calm_setup | apply calm_hmac | apply calm_legacy_version
              | apply calm_get_public | apply calm_prompt | apply calm_get_address | now apply calm_git | apply calm_version | apply calm_fail ]
          | apply Zb; unfold upload_command; rewrite Cb; match goal with H : nth 1 buf 0 = _ |- _ => rewrite H; reflexivity end ].
  Qed.

  (** ** Decisions *)

  Definition view_calm (v : viewable) : Prop :=
    view_ok O v /\ match v with VQuery _ k _ => (length (snd k) <= 10)%nat | _ => True end.
  Lemma calm_accept v room : view_calm v -> 134 <= room -> calm fits (accept O v room).
  Proof.
    intros [W Q] R. destruct v as [sh dg p data|sh dg br o data|k a|a|w k a|w pk a|k m t ch a]; cbn [accept view_ok] in *.
    - destruct W as [Dg _]. apply (ok_blake2b _ K) in Dg as [Dg _].
      eapply calm_bind; [instantiate (1 := fun _ => True); intros d D; destruct (d_path d); [split; cbn [fst snd]; auto|exact D]|]. intros k _.
      eapply calm_bind; [apply calm_sign|]. intros s Hs.
      eapply calm_bind; [instantiate (1 := fun _ => True); intros d D; split; cbn [fst snd]; auto;
        destruct D as [D1 D2]; split; [intros s'; specialize (D1 s'); destruct d, s'; exact D1|destruct d; exact D2]|]. intros _ _.
      apply calm_ret. now apply signed_fits.
    - destruct W as [Dg _]. apply (ok_blake2b _ K) in Dg as [Dg _].
      eapply calm_bind; [apply calm_baking_sign|]. intros s Hs. apply calm_ret. now apply signed_fits.
    - eapply calm_bind; [apply calm_pubkey|]. intros pk L. eapply calm_bind; [apply calm_write_or|]. intros _ _.
      apply calm_ret. now apply (fits_pubkey (fst k)).
    - eapply calm_bind; [apply calm_write_or|]. intros _ _. apply calm_ret. unfold fits. cbn. lia.
    - destruct (query_calm w k room Q R) as (out & -> & F). now apply calm_ret.
    - destruct W as (k & Pk & A). apply (ok_pubkey _ K) in Pk as [Pk _].
      destruct (addr_answer_calm (fst k) w pk a Pk A). now apply calm_sres.
    - eapply calm_bind; [apply calm_pubkey|]. intros pk L. do 4 (eapply calm_bind; [apply calm_write_or|]; intros _ _).
      apply calm_ret. now apply (fits_pubkey (fst k)).
  Qed.
  Lemma calm_reject v : calm fits (reject v).
  Proof.
    destruct v; try apply calm_fail. intros d D. unfold calm_at. cbn [fst snd reject].
    destruct D as [D1 D2]; split; [intros s'; specialize (D1 s'); destruct d, s'; exact D1|destruct d; exact D2].
  Qed.

  Definition ends (P : Prop) (x : answer * dev) : Prop :=
    match fst x with ADied => P \/ was_cut (snd x) | _ => J (snd x) end.
  Lemma finish_calm P room x : 134 <= room -> calm_at P reply_fits x -> ends P (finish room x).
  Proof.
    intros R H. unfold calm_at in H. unfold ends. assert (Y : forall data : bytes, fits data -> (room <? len data + 2) = false).
    { unfold fits, len. intros. apply N.ltb_ge. lia. }
    destruct x as [[[data|]|e| |] d]; cbn [finish fst snd reply_fits] in *; auto.
    - rewrite Y by apply H. apply H.
    - apply H.
    - rewrite Y by (unfold fits; cbn; lia). exact H.
  Qed.
  Lemma decide_calm f d : roomy C 134 -> J d -> (forall v room, d_ui d = Some v -> 134 <= room -> calm fits (f v room)) ->
    ends False (decide C f d).
  Proof.
    intros Rm D H. unfold decide. destruct (d_ui d) as [v|] eqn:Ev; [|exact D].
    destruct (Rm v) as (room & -> & Hr). apply finish_calm; [exact Hr|].
    assert (D' : J (set_ui None d)) by (destruct D as [D1 D2]; split; [intros s'; specialize (D1 s'); destruct d, s'; exact D1|destruct d; exact D2]).
    revert D'. generalize (set_ui None d). apply (calm_bind fits); [now apply H|]. intros out Ho. now apply calm_now.
  Qed.

  Lemma step_calm d st e : (8 <= length (cf_commit C))%nat -> roomy C 134 -> event_ok e -> d_ufaults d = [] -> u_rel (d_up d) st ->
    up_fine d -> (forall v, d_ui d = Some v -> view_calm v) -> J d ->
    ends (e = EPower \/ fatal C O d st e) (step C O d e).
  Proof.
    intros Lc Rm He U R Fi V D.
    assert (W : forall (P Q : Prop) x, (P -> Q) -> ends P x -> ends Q x).
    { intros P Q x H. unfold ends. destruct (fst x); tauto. }
    destruct e as [buf rx| | | |].
    - cbn [step]. destruct (d_ui d) eqn:Eu; [exact D|].
      assert (L : len buf = 260) by (destruct He as [He _]; unfold len; lia).
      apply (W (fatal C O d st (EApdu buf rx))); [auto|]. apply finish_calm; [rewrite L; lia|].
      destruct (apdu_read_ok buf rx) eqn:Ra; [|exact D].
      eapply calm_at_weaken; [|apply (dispatch_calm buf d st); auto].
      intros (E0 & Eu' & up & Pu & k & p & F). exists buf, rx, (nth 1 buf 0), up, k, p.
      split; [reflexivity|]. split; [|split; [exact Eu'|split; [exact Pu|exact F]]].
      unfold apdu_read_ok in Ra. rewrite L in Ra. apply andb_true_iff in Ra as [Ra R2]. apply andb_true_iff in Ra as [_ R1].
      apply N.leb_le in R1. apply N.leb_le in R2. repeat split; auto.
    - apply (W False); [tauto|]. apply decide_calm; auto. intros v room Ev Hr. apply calm_accept; auto.
    - apply (W False); [tauto|]. apply decide_calm; auto. intros v room Ev Hr. apply calm_reject.
    - apply (W False); [tauto|]. apply decide_calm; auto. intros v room Ev Hr. apply calm_fail.
    - left. now left.
  Qed.
End Stop.
