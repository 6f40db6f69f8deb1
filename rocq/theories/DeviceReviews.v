(** Which request a pending review comes from. *)
From Coq Require Import List NArith ZArith Lia Bool Arith ZifyBool ZifyNat ZifyN.
From Verif Require Import Base BaseFacts Flash FlashFacts Codecs CodecsSpec CodecsFacts
  Upload UploadSpec UploadFacts Baking BakingSpec Operations Oracles Address
  Device DeviceSpec DeviceFacts DeviceProofs DeviceSigs DeviceAnswers.
Import ListNotations.
Open Scope N_scope.

Section Reviews.
  Variable C : config.
  Variable O : oracles.

  Definition sim (d0 d : dev) : Prop := d_ui d = None /\ weq (d_key d0) (d_key d).
  Lemma sim_refl d : d_ui d = None -> sim d d.
  Proof. split; [auto|apply weq_refl]. Qed.
  Lemma sim_frame d0 d d' : frame eff_none d d' -> sim d0 d -> sim d0 d'.
  Proof.
    intros F [U W]. split.
    - destruct (fr_ui _ _ _ F) as [->|(v & _ & [])]. exact U.
    - eapply weq_trans; [exact W|]. exact (fr_slot _ _ _ F SKey (fun x => x)).
  Qed.

  (** A command, started in a state like [d0], starts a review satisfying [P] or none. *)
  Definition asked (P : dev -> viewable -> Prop) (x : outcome reply * dev) : Prop :=
    match x with
    | (Ok Later, d') => exists v, d_ui d' = Some v /\ P d' v
    | (Ok (Now _), d') | (Err _, d') => d_ui d' = None
    | _ => True
    end.
  Definition asks (d0 : dev) (m : M reply) (P : dev -> viewable -> Prop) : Prop :=
    forall d, sim d0 d -> asked P (m d).

  Lemma asks_bind {A} d0 (m : M A) (Q : A -> Prop) f (P : dev -> viewable -> Prop) : keeps eff_none m ->
    (forall d, sim d0 d -> match m d with (Ok a, _) => Q a | _ => True end) ->
    (forall a, Q a -> asks d0 (f a) P) -> asks d0 (bind m f) P.
  Proof.
    intros K HQ Hf d S. specialize (K d). specialize (HQ d S). unfold bind.
    destruct (m d) as [[a|e| |] d1]; cbn [snd] in K; try exact I.
    - apply Hf; [exact HQ|]. exact (sim_frame _ _ _ K S).
    - exact (proj1 (sim_frame _ _ _ K S)).
  Qed.
  Lemma asks_opt {A} d0 e (o : option A) f (P : dev -> viewable -> Prop) :
    (forall a, o = Some a -> asks d0 (f a) P) -> asks d0 (bind (of_option e o) f) P.
  Proof. intros H. destruct o; [exact (H a eq_refl)|]. intros d S. exact (proj1 S). Qed.
  Lemma asks_sres {A} d0 e (r : sres A) f (P : dev -> viewable -> Prop) :
    (forall a, r = SOk a -> asks d0 (f a) P) -> asks d0 (bind (of_sres e r) f) P.
  Proof. intros H. destruct r; [exact (H a eq_refl)| |]; intros d S; [exact (proj1 S)|exact I]. Qed.
  Lemma asks_check d0 e b f (P : dev -> viewable -> Prop) : (b = true -> asks d0 (f tt) P) -> asks d0 (bind (check b e) f) P.
  Proof. intros H. destruct b; [exact (H eq_refl)|]. intros d S. exact (proj1 S). Qed.
  Lemma asks_fail d0 e P : asks d0 (fail e) P.
  Proof. intros d S. exact (proj1 S). Qed.
  Lemma asks_panic d0 P : asks d0 panic P.
  Proof. intros d S. exact I. Qed.
  Lemma asks_now d0 l P : asks d0 (ret (Now l)) P.
  Proof. intros d S. exact (proj1 S). Qed.
  Lemma asks_show d0 v (P : dev -> viewable -> Prop) : (forall d, sim d0 d -> P (set_ui (Some v) d) v) -> asks d0 (show C v) P.
  Proof.
    intros H d S. unfold show. destruct (cf_room C v); [|exact (proj1 S)].
    cbn [asked]. exists v. split; [destruct d; reflexivity|auto].
  Qed.
  Lemma asks_address d0 k f (P : dev -> viewable -> Prop) : (forall a, address_of O k a -> asks d0 (f a) P) ->
    asks d0 (bind (address O k) f) P.
  Proof.
    intros H. apply asks_bind with (Q := address_of O k); [apply keeps_address| |exact H].
    intros d S. unfold address, pubkey, bind, of_option, of_sres, ret, fail, panic.
    destruct (o_pubkey O (fst k) (snd k)) as [pk|] eqn:Pk; [|exact I].
    destruct (addr_new O (fst k) pk) eqn:A; try exact I. exists pk. auto.
  Qed.
  Lemma asks_stored d0 f (P : dev -> viewable -> Prop) : (forall k, stored_key d0 k -> asks d0 (f k) P) ->
    asks d0 (bind read_baking_key (fun o => bind (of_option ConditionsNotSatisfied o) f)) P.
  Proof.
    intros H. apply asks_bind with (Q := fun o => forall k, o = Some k -> stored_key d0 k).
    - apply keeps_read_baking_key.
    - intros d [U W]. pose proof (read_or_spec SKey ConditionsNotSatisfied d) as R.
      unfold read_baking_key, bind. destruct (read_or SKey ConditionsNotSatisfied d) as [[p|e| |] d1]; try exact I.
      unfold of_ares, ret, fail. destruct (key_parse p) as [o|] eqn:K; [|exact I].
      intros k ->. apply (stored_key_weq _ d); [exact W|]. exists p. destruct R. auto.
    - intros o Q. apply asks_opt. intros k E. apply H. auto.
  Qed.
  Lemma asks_weak d0 m (P Q : dev -> viewable -> Prop) : (forall d v, P d v -> Q d v) ->
    asks d0 m P -> asks d0 m Q.
  Proof.
    intros PQ H d S. specialize (H d S). unfold asked in *.
    destruct (m d) as [[[l|]|e| |] d']; auto. destruct H as (v & E & H). exists v. auto.
  Qed.
  Lemma asks_quiet d0 m (P : dev -> viewable -> Prop) : keeps eff_none m -> (forall d, fst (m d) <> Ok Later) -> asks d0 m P.
  Proof.
    intros K N d S. specialize (K d). specialize (N d). unfold asked.
    pose proof (proj1 (sim_frame _ _ _ K S)) as U.
    destruct (m d) as [[[l|]|e| |] d']; cbn [fst snd] in *; auto; congruence.
  Qed.

  (** What the handlers ask. *)
  Section Commands.
    Variables (d0 : dev) (buf : bytes).
    Hypothesis Hb : apdu_ok buf.
    Let curve_is c := curve_of_byte (nth 3 buf 0) = Some c.

    Lemma payload_is pl : apdu_payload buf = Some pl -> pl = pay buf /\ bytes_ok pl.
    Proof.
      intros E. destruct (apdu_payload_260 buf Hb) as (pl' & E' & -> & _ & B).
      assert (pl = firstn (N.to_nat (nth 4 buf 0)) (skipn 5 buf)) as -> by congruence. auto.
    Qed.
    Lemma review_byte : needs_review buf = true -> 1 <= nth 2 buf 0.
    Proof. unfold needs_review, apdu_p1. apply N.leb_le. Qed.

    Lemma asks_authorize : asks d0 (h_authorize C O buf) (fun _ v =>
      match v with VAuthorize k a => 1 <= nth 2 buf 0 /\ curve_is (fst k) /\
        path_read BIP32_MAX_LENGTH (pay buf) = Some (snd k) | _ => False end).
    Proof.
      unfold h_authorize, the_curve, the_payload.
      apply asks_check. intros R. apply asks_opt. intros c Ec. apply asks_opt. intros pl Ep.
      apply payload_is in Ep as [-> _]. apply asks_opt. intros pa Epa.
      apply asks_address. intros a _. apply asks_show. intros d _. cbn [fst snd].
      split; [now apply review_byte|]. split; [exact Ec|exact Epa].
    Qed.
    Lemma asks_deauthorize : asks d0 (h_deauthorize C O buf) (fun _ v =>
      match v with VDeauthorize a => 1 <= nth 2 buf 0 /\ exists k, stored_key d0 k /\ address_of O k a
      | _ => False end).
    Proof.
      unfold h_deauthorize. apply asks_check. intros R. apply asks_stored. intros k Sk.
      apply asks_address. intros a Ha. apply asks_show. intros d _.
      split; [now apply review_byte|]. eauto.
    Qed.
    Lemma asks_query wc : asks d0 (h_query C O wc buf) (fun _ v =>
      match v with VQuery w k a => w = wc /\ 1 <= nth 2 buf 0 /\ stored_key d0 k | _ => False end).
    Proof.
      unfold h_query. apply asks_stored. intros k Sk. apply asks_address. intros a Ha.
      destruct (needs_review buf) eqn:R.
      - apply asks_show. intros d _. split; [reflexivity|]. split; [now apply review_byte|exact Sk].
      - destruct (query_answer wc k (len buf)); [apply asks_now|apply asks_panic].
    Qed.
    Lemma asks_requested f (P : dev -> viewable -> Prop) :
      (forall c pa pk, curve_is c -> path_read 6 (pay buf) = Some pa -> o_pubkey O c pa = Some pk ->
         asks d0 (f (c, pk)) P) -> asks d0 (bind (requested_key O buf) f) P.
    Proof.
      intros H. apply asks_bind with (Q := fun x => exists pa, curve_is (fst x) /\
        path_read 6 (pay buf) = Some pa /\ o_pubkey O (fst x) pa = Some (snd x)).
      - apply keeps_requested_key.
      - intros d _. unfold requested_key, the_curve, the_payload, pubkey, bind, of_option, ret, fail.
        destruct (curve_of_byte (apdu_p2 buf)) as [c|] eqn:Ec; [|exact I].
        destruct (apdu_payload buf) as [pl|] eqn:Ep; [|exact I]. apply payload_is in Ep as [-> _].
        destruct (path_read 6 (pay buf)) as [pa|] eqn:Epa; [|exact I]. cbn [fst snd].
        destruct (o_pubkey O c pa) as [pk|] eqn:Pk; [|exact I].
        exists pa. auto.
      - intros [c pk] (pa & X1 & X2 & X3). exact (H c pa pk X1 X2 X3).
    Qed.
    Definition addr_view (v : viewable) : Prop :=
      match v with
      | VAddr wa pk a => wa = true /\ exists c pa, curve_is c /\ path_read 6 (pay buf) = Some pa /\
          o_pubkey O c pa = Some pk /\ addr_new O c pk = SOk a
      | _ => False
      end.
    Lemma asks_get_address : asks d0 (h_get_address C O buf) (fun _ v => addr_view v /\ 1 <= nth 2 buf 0).
    Proof.
      unfold h_get_address. apply asks_requested. intros c pa pk Ec Ep Pk.
      apply asks_sres. intros a Ha. destruct (needs_review buf) eqn:R.
      - apply asks_show. intros d _. split; [|now apply review_byte]. split; [reflexivity|].
        exists c, pa. auto.
      - apply asks_sres. intros. apply asks_now.
    Qed.
    Lemma asks_prompt : asks d0 (h_prompt C O buf) (fun _ v => addr_view v).
    Proof.
      unfold h_prompt. apply asks_requested. intros c pa pk Ec Ep Pk.
      apply asks_sres. intros a Ha. apply asks_show. intros d _. split; [reflexivity|].
      exists c, pa. auto.
    Qed.
    Lemma be4_unbe i (pl : bytes) : bytes_ok pl -> (i + 4 <= length pl)%nat ->
      be 4 (unbe (slice i 4 pl)) = slice i 4 pl.
    Proof.
      intros B L. pose proof (be_unbe (slice i 4 pl) (bytes_ok_slice i 4 _ B)) as X.
      replace (length (slice i 4 pl)) with 4%nat in X; [exact X|].
      unfold slice. rewrite firstn_length, skipn_length. lia.
    Qed.
    Lemma chain_round n : u32_of_chain (chain_of_u32 n) = n.
    Proof.
      unfold chain_of_u32. destruct (N.eqb_spec n 0); [now subst|].
      destruct (N.eqb_spec n MAINNET_CHAIN_ID); [now subst|reflexivity].
    Qed.
    Lemma skipn_plus {A} a b (l : list A) : skipn a (skipn b l) = skipn (b + a) l.
    Proof.
      revert l. induction b as [|b IH]; intros l; [reflexivity|]. destruct l; [|apply IH].
      now rewrite !skipn_nil.
    Qed.
    Lemma asks_setup : asks d0 (h_setup C O buf) (fun _ v =>
      match v with
      | VSetup k main test chain a => curve_is (fst k) /\
          exists enc rest, path_read BIP32_MAX_LENGTH enc = Some (snd k) /\
            pay buf = be 4 (u32_of_chain chain) ++ be 4 main ++ be 4 test ++ enc ++ rest
      | _ => False
      end).
    Proof.
      unfold h_setup, the_curve, the_payload. apply asks_opt. intros c Ec. apply asks_opt. intros pl Ep.
      apply payload_is in Ep as [-> B]. apply asks_check. intros L1. apply asks_check. intros L2.
      apply asks_opt. intros pa Epa. apply asks_address. intros a _. apply asks_show. intros d _.
      split; [exact Ec|]. eexists _, _. split; [exact Epa|].
      apply Nat.leb_le in L1, L2. rewrite chain_round, !be4_unbe by (auto; lia).
      unfold slice. set (pl := pay buf). set (n := (1 + 4 * N.to_nat (nth 12 pl 0%N))%nat).
      rewrite skipn_O.
      transitivity (firstn 4 pl ++ skipn 4 pl); [symmetry; apply firstn_skipn|]. f_equal.
      transitivity (firstn 4 (skipn 4 pl) ++ skipn 4 (skipn 4 pl)); [symmetry; apply firstn_skipn|]. f_equal.
      rewrite (skipn_plus 4 4).
      transitivity (firstn 4 (skipn 8 pl) ++ skipn 4 (skipn 8 pl)); [symmetry; apply firstn_skipn|]. f_equal.
      rewrite (skipn_plus 4 8). symmetry. apply (firstn_skipn n).
    Qed.
  End Commands.

  (** Upload commands. *)
  Lemma asks_upload d0 a buf f (P : dev -> viewable -> Prop) : apdu_ok buf -> d_ui d0 = None ->
    (forall up u s, upload a buf (d_up d0) (d_ufaults d0) = (Ok (Some up), u, s) ->
       asks d0 (f up) P) ->
    (forall d u v, P d v -> P (set_up u d) v) ->
    asked P (with_upload a buf f d0).
  Proof.
    intros Hb U H HP. unfold with_upload, the_upload. unfold bind at 1.
    destruct (upload a buf (d_up d0) (d_ufaults d0)) as [[r u] s].
    set (d1 := set_up u (set_ufaults s d0)).
    assert (S1 : sim d0 d1).
    { split; [destruct d0; exact U|]. destruct d0. apply weq_refl. }
    destruct r as [[up|]|e| |]; cbn [asked ret fst]; try exact I; try exact (proj1 S1).
    specialize (H up u s eq_refl d1 S1). unfold asked in H.
    destruct (f up d1) as [[[l|]|e| |] d2]; unfold bind, drop_upload, ret, fail; cbn [asked]; auto.
    - destruct d2; exact H.
    - destruct H as (v & E & H). exists v. split; [destruct d2; exact E|]. now apply HP.
    - destruct d2; exact H.
  Qed.

  Lemma asks_start_sign d0 sh up : asks d0 (start_sign C O sh up) (fun d' v =>
    match v with
    | VSign sh' dg parsed data => sh' = sh /\ data = uo_data up /\
        exists c pa, curve_of_byte (uo_p2 up) = Some c /\
          path_read BIP32_MAX_LENGTH (uo_first up) = Some pa /\ d_path d' = Some (c, pa)
    | _ => False
    end).
  Proof.
    unfold start_sign, digest32. apply asks_opt. intros c Ec. apply asks_opt. intros pa Ep.
    intros d S. unfold bind at 1. set (d1 := set_path (Some (c, pa)) d).
    assert (S1 : sim d0 d1) by (destruct S; split; destruct d; assumption).
    assert (D1 : d_path d1 = Some (c, pa)) by (destruct d; reflexivity).
    clearbody d1. unfold bind at 1. destruct (o_blake2b O 32 (uo_data up)) as [dg|]; [|exact (proj1 S1)].
    cbn [of_option]. unfold ret at 1.
    assert (K : forall p, asked (fun (d' : dev) (v : viewable) =>
      match v with
      | VSign sh' dg parsed data => sh' = sh /\ data = uo_data up /\
          exists c pa, curve_of_byte (uo_p2 up) = Some c /\
            path_read BIP32_MAX_LENGTH (uo_first up) = Some pa /\ d_path d' = Some (c, pa)
      | _ => False
      end) (show C (VSign sh dg p (uo_data up)) d1)).
    { intros p. unfold show. destruct (cf_room C _); [|exact (proj1 S1)]. cbn [asked].
      eexists. split; [destruct d1; reflexivity|]. cbv beta iota. split; [reflexivity|]. split; [reflexivity|].
      exists c, pa. split; [exact Ec|]. split; [exact Ep|]. destruct d1; exact D1. }
    destruct (preemble_parse (uo_data up)) as [rem p| |]; [|exact (proj1 S1)|exact I].
    destruct p; try exact (proj1 S1); [|apply K].
    unfold bind. destruct (operation_new rem) as [parsed|]; [|exact (proj1 S1)]. apply K.
  Qed.

  Definition eff_quiet : effects := mkEff (fun _ => True) (fun _ => True) False False (fun _ => False).
  Lemma quiet_ui {A} (m : M A) d : keeps eff_quiet m -> d_ui d = None -> d_ui (snd (m d)) = None.
  Proof. intros K U. destruct (fr_ui _ _ _ (K d)) as [->|(v & _ & [])]. exact U. Qed.
  Lemma consensus_ui p rem sh dg data d : d_ui d = None ->
    d_ui (snd (handle_consensus O p rem sh dg data d)) = None /\
    fst (handle_consensus O p rem sh dg data d) <> Ok Later.
  Proof.
    set (Q := fun x : outcome reply * dev => d_ui (snd x) = None /\ fst x <> Ok Later).
    change (d_ui d = None -> Q (handle_consensus O p rem sh dg data d)).
    intros U. unfold handle_consensus. unfold bind at 1.
    pose proof (quiet_ui _ d (keeps_read_or eff_quiet SMain ExecutionError) U) as U1.
    destruct (read_or SMain ExecutionError d) as [[hw|e| |] d1]; cbn [snd] in U1; try (split; [exact U1|discriminate]).
    destruct (consensus_check p rem (wm_parse hw)) as [[wm|e]|]; cbn [of_ares];
      [|split; [exact U1|discriminate]..].
    unfold bind at 1. unfold ret at 1. unfold bind at 1.
    pose proof (quiet_ui _ d1 (keeps_write_or eff_quiet SMain (wm_serialize wm) ExecutionError Logic.I) U1) as U2.
    destruct (write_or SMain (wm_serialize wm) ExecutionError d1) as [[[]|e| |] d2];
      cbn [snd] in U2; try (split; [exact U2|discriminate]).
    pose proof (quiet_ui _ d2 (keeps_baking_sign O eff_quiet SrcConsensus dg data (fun _ => Logic.I)) U2) as U3.
    unfold bind at 1. destruct (baking_sign O SrcConsensus dg data d2) as [[s|e| |] d3];
      cbn [snd] in U3; split; try exact U3; discriminate.
  Qed.

  Lemma asks_baker_sign d0 sh up : asks d0 (baker_sign C O sh up) (fun _ v =>
    match v with
    | VBakingSign sh' dg br o data => sh' = sh /\ data = uo_data up /\
        exists k, stored_key d0 k /\ curve_of_byte (uo_p2 up) = Some (fst k) /\
          path_read BIP32_MAX_LENGTH (uo_first up) = Some (snd k)
    | _ => False
    end).
  Proof.
    unfold baker_sign, digest32. apply asks_opt. intros c Ec. apply asks_opt. intros pa Ep.
    apply asks_bind with (Q := fun ok => ok = true -> stored_key d0 (c, pa)).
    { apply keeps_check_with_stored. }
    { intros d [U W]. pose proof (check_with_stored_spec (c, pa) d) as X.
      destruct (check_with_stored (c, pa) d) as [[[]|e| |] d1]; auto; [|discriminate].
      intros _. apply (stored_key_weq _ d); [exact W|apply X]. }
    intros ok Hk. apply asks_check. intros ->. specialize (Hk eq_refl).
    apply asks_opt. intros dg Edg.
    destruct (preemble_parse (uo_data up)) as [rem p| |]; [|apply asks_fail|apply asks_panic].
    assert (K : forall p (P : dev -> viewable -> Prop), asks d0 (handle_consensus O p rem sh dg (uo_data up)) P).
    { intros p' P d S. pose proof (consensus_ui p' rem sh dg (uo_data up) d (proj1 S)) as [U1 U2].
      unfold asked.
      destruct (handle_consensus O p' rem sh dg (uo_data up) d) as [[[l|]|e| |] d']; cbn [fst snd] in *; auto.
      congruence. }
    destruct p; try apply K; try apply asks_fail.
    unfold handle_delegation. destruct (operation_new rem) as [[br ops]|]; [|apply asks_fail].
    destruct (eo_next ops) as [| | |o more]; try apply asks_fail; [apply asks_panic|].
    destruct o; try apply asks_fail; apply asks_show; intros d _; cbv beta iota;
      (split; [reflexivity|]); (split; [reflexivity|]); exists (c, pa); auto.
  Qed.

  (** ** Events *)

  Lemma not_later_bind {A} (m : M A) f d : (forall a d, fst (f a d) <> Ok Later) -> fst (bind m f d) <> Ok Later.
  Proof. intros H. unfold bind. destruct (m d) as [[a|e| |] d1]; try discriminate. apply H. Qed.

  Ltac quiet := repeat first
    [ apply not_later_bind; intros | discriminate
    | match goal with |- fst (?m _) <> _ => match m with
        | match ?x with _ => _ end => destruct x
        | ret _ => discriminate | fail _ => discriminate | panic => discriminate
        end end
    | match goal with |- fst (match ?x with _ => _ end _) <> _ => destruct x end ].

  Lemma quiet_asked (m : M reply) P d : keeps eff_quiet m -> (forall d, fst (m d) <> Ok Later) ->
    d_ui d = None -> asked P (m d).
  Proof.
    intros K N U. pose proof (quiet_ui m d K U) as U1. specialize (N d). unfold asked.
    destruct (m d) as [[[l|]|e| |] d']; cbn [fst snd] in *; auto. congruence.
  Qed.

  Lemma upload_path_up (d : dev) u : d_path (set_up u d) = d_path d.
  Proof. destruct d; reflexivity. Qed.

  Lemma dispatch_asks d buf rx : apdu_ok buf -> d_ui d = None -> 5 <= rx <= 260 ->
    asked (fun d' v => requested C O d (EApdu buf rx) d' v) (dispatch C O buf d).
  Proof.
    intros Hb U Hr.
    destruct (N.eqb_spec (nth 0 buf 0) 0x80) as [E0|E0].
    2:{ unfold dispatch, apdu_cla, CLA. apply N.eqb_neq in E0. rewrite E0. exact U. }
    remember (nth 1 buf 0) as ins eqn:E1. symmetry in E1.
    assert (Cm : command d buf rx ins) by (repeat split; auto; apply Hr).
    rewrite (dispatch_at C O buf ins E0 E1).
    assert (S : sim d d) by now apply sim_refl.
    assert (HS : forall sh, (sh = true <-> In ins [0x0F; 0x12]) ->
              (ins = 0x12 \/ (cf_baking C = false /\ In ins [0x04; 0x05; 0x0F])) ->
              asked (fun d' v => requested C O d (EApdu buf rx) d' v) (h_sign C O sh buf d)).
    { intros sh Hsh Hi. apply asks_upload; [exact Hb|exact U| |].
      - intros up u s Eu. eapply asks_weak; [|apply asks_start_sign].
        intros d' v. destruct v; try tauto. intros (-> & -> & c & pa & H1 & H2 & H3).
        exists buf, rx, ins. split; [reflexivity|]. split; [exact Cm|]. cbv zeta.
        exists up. split; [split; [exact Hb|exists ins, u, s; auto]|]. split; [reflexivity|].
        split; [exact Hsh|]. exists c, pa. auto.
      - intros d' u v (b & r & i & H1 & H2 & H3). exists b, r, i. split; [exact H1|]. split; [exact H2|].
        cbv zeta in *. destruct v; try exact H3. rewrite upload_path_up. exact H3. }
    assert (HB : forall sh, (sh = true <-> In ins [0x0F; 0xAF]) -> cf_baking C = true -> In ins [0x04; 0x0F; 0xAF] ->
              asked (fun d' v => requested C O d (EApdu buf rx) d' v) (h_baker_sign C O sh buf d)).
    { intros sh Hsh Hc Hi. apply asks_upload; [exact Hb|exact U| |].
      - intros up u s Eu. eapply asks_weak; [|apply asks_baker_sign].
        intros d' v. destruct v; try tauto. intros (-> & -> & k & H1 & H2 & H3).
        exists buf, rx, ins. split; [reflexivity|]. split; [exact Cm|]. cbv zeta.
        exists up. split; [split; [exact Hc|split; [exact Hb|exists ins, u, s; auto]]|]. split; [reflexivity|].
        split; [exact Hsh|]. exists k. auto.
      - intros d' u v (b & r & i & H1 & H2 & H3). exists b, r, i. split; [exact H1|]. split; [exact H2|].
        cbv zeta in *. destruct v; try exact H3. rewrite upload_path_up. exact H3. }
    assert (HA : cf_baking C = true -> In ins [0x01; 0xA1] ->
              asked (fun d' v => requested C O d (EApdu buf rx) d' v) (h_authorize C O buf d)).
    { intros Hc Hi. refine (asks_weak d _ _ _ _ (asks_authorize d buf Hb) d S).
      intros d' v. destruct v; try tauto. intros (H1 & H2 & H3).
      exists buf, rx, ins. split; [reflexivity|]. split; [exact Cm|]. cbv zeta. auto. }
    assert (HD : cf_baking C = true -> In ins [0x0C; 0xAC] ->
              asked (fun d' v => requested C O d (EApdu buf rx) d' v) (h_deauthorize C O buf d)).
    { intros Hc Hi. refine (asks_weak d _ _ _ _ (asks_deauthorize d buf) d S).
      intros d' v. destruct v; try tauto. intros (H1 & H2).
      exists buf, rx, ins. split; [reflexivity|]. split; [exact Cm|]. cbv zeta. auto. }
    assert (HQ : forall wc : bool, cf_baking C = true -> In ins (if wc then [0x0D; 0xAD] else [0x07; 0xA7]) ->
              asked (fun d' v => requested C O d (EApdu buf rx) d' v) (h_query C O wc buf d)).
    { intros wc Hc Hi. refine (asks_weak d _ _ _ _ (asks_query d buf wc) d S).
      intros d' v. destruct v; try tauto. intros (-> & H1 & H2).
      exists buf, rx, ins. split; [reflexivity|]. split; [exact Cm|]. cbv zeta. auto. }
    assert (HU : cf_baking C = true -> ins = 0x0A ->
              asked (fun d' v => requested C O d (EApdu buf rx) d' v) (h_setup C O buf d)).
    { intros Hc Hi. refine (asks_weak d _ _ _ _ (asks_setup d buf Hb) d S).
      intros d' v. destruct v; try tauto. intros (H1 & H2).
      exists buf, rx, ins. split; [reflexivity|]. split; [exact Cm|]. cbv zeta. auto. }
    assert (HP : ins = 0x03 -> asked (fun d' v => requested C O d (EApdu buf rx) d' v) (h_prompt C O buf d)).
    { intros Hi. refine (asks_weak d _ _ _ _ (asks_prompt d buf Hb) d S).
      intros d' v. destruct v; cbn [addr_view]; try tauto. intros (H1 & H2).
      exists buf, rx, ins. split; [reflexivity|]. split; [exact Cm|]. cbv zeta. auto. }
    assert (HG : ins = 0x11 -> asked (fun d' v => requested C O d (EApdu buf rx) d' v) (h_get_address C O buf d)).
    { intros Hi. refine (asks_weak d _ _ _ _ (asks_get_address d buf Hb) d S).
      intros d' v. destruct v; cbn [addr_view]; try tauto. intros ((H1 & H2) & H3).
      exists buf, rx, ins. split; [reflexivity|]. split; [exact Cm|]. cbv zeta. auto. }
    assert (Z : forall m : M reply, keeps eff_quiet m -> (forall d, fst (m d) <> Ok Later) ->
              asked (fun d' v => requested C O d (EApdu buf rx) d' v) (m d)).
    { intros m K N. now apply quiet_asked. }
    assert (ZF : forall e, asked (fun d' v => requested C O d (EApdu buf rx) d' v) (fail e d)).
    { intros e. exact U. }
    assert (Le : forall E, (forall v, ~ e_view E v) -> ~ e_up E -> ~ e_path E -> eff_le E eff_quiet).
    { intros E X1 X2 X3. repeat split; cbn; auto. }
    assert (K1 : asked (fun d' v => requested C O d (EApdu buf rx) d' v) (h_reset buf d)).
    { apply Z. - eapply keeps_mono; [|apply keeps_reset]. apply Le; cbn; tauto.
      - intros. unfold h_reset. quiet. }
    assert (K2 : asked (fun d' v => requested C O d (EApdu buf rx) d' v) (h_main_hwm d)).
    { apply Z; [apply keeps_none, keeps_main_hwm|]. intros d1. unfold h_main_hwm. quiet. }
    assert (K3 : asked (fun d' v => requested C O d (EApdu buf rx) d' v) (h_all_hwm d)).
    { apply Z; [apply keeps_none, keeps_all_hwm|]. intros. unfold h_all_hwm. quiet. }
    assert (K4 : asked (fun d' v => requested C O d (EApdu buf rx) d' v) (h_hmac O buf d)).
    { apply Z. - eapply keeps_mono; [|apply keeps_hmac]. apply Le; cbn; tauto.
      - intros. unfold h_hmac. quiet. }
    assert (K5 : asked (fun d' v => requested C O d (EApdu buf rx) d' v) (h_get_public O buf d)).
    { apply Z; [apply keeps_none, keeps_get_public|]. intros. unfold h_get_public. quiet. }
    assert (K6 : asked (fun d' v => requested C O d (EApdu buf rx) d' v) (h_legacy_version C d)).
    { apply Z; [apply keeps_none, keeps_legacy_version|]. discriminate. }
    assert (K7 : asked (fun d' v => requested C O d (EApdu buf rx) d' v) (h_version C d)).
    { apply Z; [apply keeps_none, keeps_version|]. discriminate. }
    assert (K8 : asked (fun d' v => requested C O d (EApdu buf rx) d' v) (h_git C d)).
    { apply Z; [apply keeps_none, keeps_git|]. intros. unfold h_git. quiet. }
    clear Z Le Hb U Hr E0 E1 Cm S.
    unfold dispatch_common. destruct (cf_baking C) eqn:Cb;
    repeat match goal with
    | |- asked _ ((if ?x =? ?y then _ else _) _) => destruct (N.eqb_spec x y) as [->|?]
    end;
    first
      [ exact K1 | exact K2 | exact K3 | exact K4 | exact K5 | exact K6 | exact K7 | exact K8 | exact (ZF _)
      | apply HA; [reflexivity || exact Cb|cbn; tauto] | apply HD; [reflexivity || exact Cb|cbn; tauto]
      | apply HQ; [reflexivity || exact Cb|cbn; tauto] | apply HU; [reflexivity || exact Cb|reflexivity] | apply HP; reflexivity | apply HG; reflexivity
      | apply HB; [cbn; intuition discriminate|reflexivity || exact Cb|cbn; tauto]
      | apply HS; [cbn; intuition discriminate|cbn; tauto] ].
  Qed.

  (** An event received when no review is pending starts one exactly when it is
      answered [APending], and then for the reason stated. *)
  Lemma step_requested d e : event_ok e -> d_ui d = None ->
    (fst (step C O d e) = APending /\
       exists v, d_ui (snd (step C O d e)) = Some v /\ requested C O d e (snd (step C O d e)) v) \/
    (fst (step C O d e) <> APending /\ d_ui (snd (step C O d e)) = None).
  Proof.
    intros He U. destruct e as [buf rx| | | |]; cbn [step].
    - rewrite U. unfold apdu_read_ok. cbn [event_ok] in He.
      destruct ((5 <=? len buf) && (5 <=? rx) && (rx <=? len buf)) eqn:R.
      + assert (Hr : 5 <= rx <= 260) by (destruct He as [Hl _]; unfold len in *; lia).
        pose proof (dispatch_asks d buf rx He U Hr) as A. unfold asked in A.
        destruct (dispatch C O buf d) as [[[l|]|e| |] d']; cbn [finish].
        * right. destruct (len buf <? len l + 2); cbn [fst snd]; split; auto; discriminate.
        * left. auto.
        * right. destruct (len buf <? len [] + 2); cbn [fst snd]; split; auto; discriminate.
        * right. split; [discriminate|reflexivity].
        * right. split; [discriminate|reflexivity].
      + right. cbn [finish]. destruct (len buf <? len [] + 2); cbn [fst snd]; split; auto; discriminate.
    - right. unfold decide. rewrite U. split; [discriminate|exact U].
    - right. unfold decide. rewrite U. split; [discriminate|exact U].
    - right. unfold decide. rewrite U. split; [discriminate|exact U].
    - right. split; [discriminate|reflexivity].
  Qed.

  (** While a review is pending, APDUs do nothing; any other event ends it. *)
  Lemma pending_step d e : d_ui d <> None ->
    (is_apdu e /\ step C O d e = (ANone, d)) \/
    (~ is_apdu e /\ d_ui (snd (step C O d e)) = None).
  Proof.
    intros U. destruct e as [buf rx| | | |]; cbn [step is_apdu].
    - left. split; [exact Logic.I|]. destruct (d_ui d); [reflexivity|contradiction].
    - right. split; [tauto|]. apply decide_ui. intros v room.
      destruct (fr_ui _ _ _ (keeps_accept O v room (set_ui None d))) as [->|(w' & _ & [])]. destruct d; reflexivity.
    - right. split; [tauto|]. apply decide_ui. intros v room.
      destruct (fr_ui _ _ _ (keeps_reject v (set_ui None d))) as [->|(w' & _ & [])]. destruct d; reflexivity.
    - right. split; [tauto|]. apply decide_ui. intros v room. destruct d; reflexivity.
    - right. split; [tauto|reflexivity].
  Qed.

  (** A pending review was started by a request, and only APDUs came since. *)
  Lemma pending_origin es : forall d0 v, Forall event_ok es -> d_ui d0 = None ->
    d_ui (snd (run C O d0 es)) = Some v ->
    exists es1 e es2, es = es1 ++ e :: es2 /\ Forall is_apdu es2 /\
      let d := snd (run C O d0 es1) in
      step C O d e = (APending, snd (run C O d0 es)) /\ requested C O d e (snd (run C O d0 es)) v.
  Proof.
    induction es as [|e es IH] using rev_ind; intros d0 v He U0 U; [cbn in U; congruence|].
    apply Forall_app in He as [He He1]. inversion He1 as [|? ? He2 _]; subst.
    rewrite run_app, run_one in U |- *.
    set (d := snd (run C O d0 es)) in *.
    destruct (d_ui d) as [w|] eqn:Ud.
    - destruct (pending_step d e) as [[A E]|[_ E]]; [congruence| |congruence].
      rewrite E in U |- *. cbn [snd] in U |- *. assert (w = v) as -> by congruence.
      destruct (IH d0 v He U0 Ud) as (es1 & e' & es2 & -> & F & H).
      exists es1, e', (es2 ++ [e]). split; [now rewrite <- app_assoc|]. split; [|exact H].
      apply Forall_app. auto.
    - destruct (step_requested d e He2 Ud) as [(P & w & E & R)|[_ E]]; [|congruence].
      assert (w = v) as -> by congruence.
      exists es, e, []. split; [reflexivity|]. split; [constructor|]. cbv zeta. fold d. split; [|exact R].
      rewrite <- P. apply surjective_pairing.
  Qed.
End Reviews.
