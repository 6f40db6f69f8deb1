(** Well-formed requests are served. *)
From Coq Require Import List NArith ZArith Lia Bool Arith ZifyBool ZifyNat ZifyN.
From Verif Require Import Base BaseFacts Flash FlashFacts Codecs CodecsSpec CodecsFacts
  Upload UploadSpec UploadFacts Baking BakingSpec BakingFacts BakingExamples
  Operations OperationsSpec OperationsFacts Oracles Address AddressSpec
  Device DeviceSpec DeviceFacts DeviceProofs DeviceHist DeviceSigs DeviceAnswers DeviceSlots DeviceUploads
  DeviceExamples ServiceSpec DeviceContents.
Import ListNotations.
Open Scope N_scope.

(** ** The upload buffer keeps its sizes *)

Definition sized (u : ustate) : Prop := sbuf_ok RAM_CAP FLASH_CAP (u_buf u).

Lemma blit_length i src dst : (i + length src <= length dst)%nat -> length (blit i src dst) = length dst.
Proof. intros H. unfold blit. rewrite !app_length, firstn_length, skipn_length. lia. Qed.
Lemma nvm_length i src dst f : (i + length src <= length dst)%nat ->
  length (fst (nvm_blit i src dst f)) = length dst.
Proof.
  intros H. unfold nvm_blit. cbn [fst].
  destruct f as [|[| |p]|[| |p]]; auto using blit_length; rewrite firstn_length, app_length; lia.
Qed.
Lemma sb_write_sized RAM FLASH b l s : (RAM <= FLASH)%nat -> sbuf_ok RAM FLASH b ->
  sbuf_ok RAM FLASH (fst (fst (sb_write RAM FLASH b l s))).
Proof.
  intros RF H.
  assert (W : forall b cnt s, sbuf_ok RAM FLASH b -> (cnt <= FLASH)%nat ->
    sbuf_ok RAM FLASH (fst (fst (sb_write_flash FLASH b cnt l s)))).
  { clear b s H. intros b cnt s H Hc. unfold sb_write_flash.
    destruct (Nat.ltb_spec FLASH (cnt + length l)); [exact H|].
    destruct (next_fault s) as [f s']. destruct H as (H1 & H2 & H3).
    pose proof (nvm_length cnt l (sb_flash b) f ltac:(lia)) as X.
    destruct (nvm_blit cnt l (sb_flash b) f) as [fl r]. cbn [fst] in *.
    repeat split; cbn; try lia. destruct r; lia. }
  unfold sb_write. pose proof H as (H1 & H2 & H3). destruct (sb_state b) as [cnt|cnt]; [|now apply W].
  destruct (Nat.ltb_spec RAM (cnt + length l)).
  - destruct (Nat.ltb_spec FLASH (length (sb_ram b))); [exact H|].
    destruct (next_fault s) as [f s'].
    pose proof (nvm_length 0 (sb_ram b) (sb_flash b) f ltac:(lia)) as X.
    destruct (nvm_blit 0 (sb_ram b) (sb_flash b) f) as [fl r]. cbn [fst] in *.
    assert (G : forall st, match st with InRam c => (c <= RAM)%nat | InFlash c => (c <= FLASH)%nat end ->
      sbuf_ok RAM FLASH (mkSbuf (sb_ram b) fl st)).
    { intros st Hst. repeat split; cbn; auto. lia. }
    destruct r; [apply W; [apply G|]; lia|apply G; exact H3..].
  - repeat split; cbn; auto. rewrite blit_length; lia.
Qed.
Lemma u_write_sized u l s : sized u -> sized (snd (fst (u_write u l s))).
Proof.
  intros H. unfold u_write. pose proof (sb_write_sized _ _ (u_buf u) l s ram_le_flash H) as X.
  destruct (sb_write RAM_CAP FLASH_CAP (u_buf u) l s) as [[b r] s']. destruct r; exact X.
Qed.
Lemma reset_sized u a n : sized u -> sized (mkU (sb_reset (u_buf u)) a n).
Proof. intros (A & B & _). repeat split; cbn; auto. lia. Qed.
Lemma upload_sized a buf u s : sized u -> sized (snd (fst (upload a buf u s))).
Proof.
  intros H. unfold upload. destruct (packet_of_p1 (apdu_p1 buf)) as [pt|]; [|exact H].
  destruct (is_init pt).
  - pose proof (u_write_sized _ [apdu_p2 buf] s (reset_sized u (lock_lock acc_eqb (u_lock u) a) (u_init_len u) H)) as X.
    destruct (u_write _ [apdu_p2 buf] s) as [[r u2] s2]. cbn [fst snd] in X.
    destruct r as [[]|e| |]; try exact X. destruct (apdu_payload buf) as [pl|]; [|exact X].
    assert (X3 : sized (mkU (u_buf u2) (u_lock u2) (len pl))) by exact X.
    pose proof (u_write_sized _ pl s2 X3) as Y.
    destruct (u_write _ pl s2) as [[r4 u4] s4]. destruct r4; exact Y.
  - destruct (lock_acquire acc_eqb (u_lock u) a); [exact H|].
    unfold u_write_payload. destruct (apdu_payload buf) as [pl|].
    + pose proof (u_write_sized u pl s H) as X. destruct (u_write u pl s) as [[r u1] s1].
      destruct r as [[]|e| |]; try exact X. destruct (is_next pt); [exact X|].
      destruct (u_split u1); exact X.
    + destruct (is_next pt); [exact H|]. destruct (u_split u); exact H.
Qed.
Lemma drop_sized a u : sized u -> sized (upload_drop a u).
Proof. intros H. unfold upload_drop. destruct (lock_acquire _ _ _); [exact H|]. now apply reset_sized. Qed.
Lemma restart_sized u : sized u -> sized (u_restart u).
Proof. intros (_ & B & _). repeat split; cbn; auto using zeros_length. lia. Qed.

Section Sized.
  Variable C : config.
  Variable O : oracles.

  Lemma frame_sized E d d' : ~ e_up E -> frame E d d' -> sized (d_up d) -> sized (d_up d').
  Proof. intros N F H. destruct (fr_up _ _ _ F N) as [-> _]. exact H. Qed.
  Lemma with_upload_sized a buf f E d : ~ e_up E -> (forall up, keeps E (f up)) -> sized (d_up d) ->
    sized (d_up (snd (with_upload a buf f d))).
  Proof.
    intros N K H. unfold with_upload, the_upload, bind, drop_upload.
    pose proof (upload_sized a buf (d_up d) (d_ufaults d) H) as X.
    destruct (upload a buf (d_up d) (d_ufaults d)) as [[r u] s]. cbn [fst snd] in X.
    assert (V1 : sized (d_up (set_up u (set_ufaults s d)))) by (destruct d; exact X).
    destruct r as [[up|]|e| |]; try exact V1.
    pose proof (frame_sized E _ _ N (K up (set_up u (set_ufaults s d))) V1) as Y.
    destruct (f up _) as [[rr|e| |] d2]; cbn [snd] in Y; try exact Y;
      destruct d2; cbn; now apply drop_sized.
  Qed.
  Lemma finish_sized room x : sized (d_up (snd x)) -> sized (d_up (snd (finish room x))).
  Proof.
    destruct x as [[[data|]|e| |] d]; cbn [finish snd]; intros H; try exact H;
      try (destruct d; now apply restart_sized);
      (match goal with |- context [if ?b then _ else _] => destruct b end; [destruct d; now apply restart_sized|exact H]).
  Qed.
  Lemma step_sized d e : sized (d_up d) -> sized (d_up (snd (step C O d e))).
  Proof.
    intros V.
    assert (Dc : forall f, (forall v room, exists E, ~ e_up E /\ keeps E (f v room)) -> sized (d_up (snd (decide C f d)))).
    { intros f Hf. unfold decide. destruct (d_ui d) as [v|]; [|exact V].
      apply finish_sized. set (room := match cf_room C v with Some r => r | None => 0 end).
      destruct (Hf v room) as (E & N & K). specialize (K (set_ui None d)).
      assert (V1 : sized (d_up (set_ui None d))) by (destruct d; exact V).
      pose proof (frame_sized E _ _ N K V1) as Y.
      unfold bind. destruct (f v room (set_ui None d)) as [[]]; exact Y. }
    destruct e as [buf rx| | | |]; cbn [step].
    - destruct (d_ui d); [exact V|]. apply finish_sized.
      destruct (apdu_read_ok buf rx); [|exact V].
      pose proof (dispatch_uploads C O buf) as X.
      destruct (if nth 0 buf 0 =? 0x80 then upload_command C (nth 1 buf 0) else None) as [[]|]; try contradiction.
      + destruct X as [sh ->]. eapply with_upload_sized; [|apply keeps_start_sign|exact V]. cbn; tauto.
      + destruct X as [sh ->]. eapply with_upload_sized; [|apply keeps_baker_sign|exact V]. cbn; tauto.
      + destruct X as (E & N & K). exact (frame_sized E _ _ N (K d) V).
    - apply Dc. intros v room. exists (eff_accept v). split; [cbn; tauto|apply keeps_accept].
    - apply Dc. intros v room. exists (eff_accept v). split; [cbn; tauto|apply keeps_reject].
    - apply Dc. intros v room. exists eff_none. split; [cbn; tauto|apply keeps_fail].
    - destruct d. now apply restart_sized.
  Qed.
  Lemma run_sized es : forall d, sized (d_up d) -> sized (d_up (snd (run C O d es))).
  Proof.
    induction es as [|e es IH]; intros d V; cbn [run]; auto.
    pose proof (step_sized d e V) as V1. destruct (step C O d e) as [a d1]. cbn [snd] in V1.
    specialize (IH d1 V1). destruct (run C O d1 es); exact IH.
  Qed.
  Lemma reach_sized f u es : sized (d_up (snd (run C O (dev_fresh f u) es))).
  Proof. apply run_sized. exact (proj1 u_fresh_rel). Qed.
End Sized.

(** ** Packets *)

Lemma init_packet a buf u : apdu_ok buf -> sized u -> kind_of (nth 2 buf 0) = Some KInit ->
  exists u', upload a buf u [] = (Ok None, u', []) /\ u_rel u' (Some (a, nth 3 buf 0, pay buf, [])).
Proof.
  intros Hb H K. set (v := mkU (u_buf u) None (u_init_len u)).
  assert (Rv : u_rel v None) by (split; [exact H|reflexivity]).
  assert (E : upload a buf u [] = upload a buf v []).
  { unfold upload. rewrite <- packet_kind in K. fold (apdu_p1 buf) in K.
    destruct (packet_of_p1 (apdu_p1 buf)) as [pt|]; [|discriminate].
    cbn [option_map] in K. unfold upk in K. destruct (is_init pt).
    - unfold v. cbn [u_buf u_lock u_init_len].
      replace (lock_lock acc_eqb (u_lock u) a) with (lock_lock acc_eqb None a); auto.
      destruct (u_lock u) as [h|]; auto. cbn. destruct (acc_eqb h a) eqn:Eh; auto.
      apply acc_eqb_eq in Eh. congruence.
    - destruct (is_next pt); discriminate. }
  rewrite E. pose proof (upload_step a buf v None Hb Rv) as X. unfold proto_step in X. rewrite K in X.
  destruct (upload a buf v []) as [[o u'] s]. cbn [fst snd] in X. destruct X as (-> & -> & _ & X).
  exists u'. auto.
Qed.
Lemma next_packet a buf u p2 init data : apdu_ok buf -> u_rel u (Some (a, p2, init, data)) ->
  kind_of (nth 2 buf 0) = Some KNext -> (1 + length init + length data + length (pay buf) <= CAPACITY)%nat ->
  exists u', upload a buf u [] = (Ok None, u', []) /\ u_rel u' (Some (a, p2, init, data ++ pay buf)).
Proof.
  intros Hb R K L. pose proof (upload_step a buf u _ Hb R) as X. unfold proto_step in X.
  rewrite K, acc_eqb_refl in X. cbn [negb] in X.
  rewrite (proj2 (Nat.ltb_ge _ _)) in X by exact L.
  destruct (upload a buf u []) as [[o u'] s]. cbn [fst snd] in X. destruct X as (-> & -> & _ & X).
  exists u'. auto.
Qed.
Lemma last_packet a buf u p2 init data : apdu_ok buf -> u_rel u (Some (a, p2, init, data)) ->
  kind_of (nth 2 buf 0) = Some KLast -> (1 + length init + length data + length (pay buf) <= CAPACITY)%nat ->
  exists u', upload a buf u [] = (Ok (Some (mkUO p2 init (data ++ pay buf))), u', []).
Proof.
  intros Hb R K L. pose proof (upload_step a buf u _ Hb R) as X. unfold proto_step in X.
  rewrite K, acc_eqb_refl in X. cbn [negb] in X.
  rewrite (proj2 (Nat.ltb_ge _ _)) in X by exact L.
  destruct (upload a buf u []) as [[o u'] s]. cbn [fst snd] in X. destruct X as (-> & -> & _ & X).
  exists u'. auto.
Qed.

Section Live.
  Variable C : config.
  Variable O : oracles.

  Definition handles (ins : N) (a : accessor) (f : upload_out -> M reply) : Prop :=
    forall buf, nth 0 buf 0 = 0x80 -> nth 1 buf 0 = ins -> dispatch C O buf = with_upload a buf f.

  Lemma set_up_twice u v d : set_up u (set_up v d) = set_up u d.
  Proof. destruct d; reflexivity. Qed.
  Lemma set_no_ufaults d : d_ufaults d = [] -> set_ufaults [] d = d.
  Proof. destruct d; cbn. now intros ->. Qed.

  Lemma packet_command ins kind p d : d_ui d = None -> packet ins kind p ->
    apdu_ok (fst p) /\ command d (fst p) (snd p) ins.
  Proof. intros U (P1 & P2 & P3 & P4 & _). split; [exact P1|]. unfold command. auto. Qed.

  Lemma packet_step ins a f kind p d u' : handles ins a f -> packet ins kind p -> d_ui d = None ->
    d_ufaults d = [] -> upload a (fst p) (d_up d) [] = (Ok None, u', []) ->
    step C O d (sent p) = (go_on, set_up u' d).
  Proof.
    intros H P U F E. destruct (packet_command ins kind p d U P) as [Hb Hc].
    unfold sent. rewrite (step_command C O d _ _ _ Hb Hc). destruct Hc as (_ & _ & E0 & E1).
    rewrite (H _ E0 E1). unfold with_upload, the_upload, bind. rewrite F, E. unfold ret.
    rewrite (finish_ok (set_up u' (set_ufaults [] d)) []) by (cbn; lia).
    rewrite (set_no_ufaults d F). reflexivity.
  Qed.
  Lemma last_step ins a f p d u' up : handles ins a f -> packet ins KLast p -> d_ui d = None ->
    d_ufaults d = [] -> upload a (fst p) (d_up d) [] = (Ok (Some up), u', []) ->
    step C O d (sent p) = finish 260
      match f up (set_up u' d) with
      | (Ok r, d') => (Ok r, set_up (upload_drop a (d_up d')) d')
      | (Err e, d') => (Err e, set_up (upload_drop a (d_up d')) d')
      | (Panic, d') => (Panic, d')
      | (Cut, d') => (Cut, d')
      end.
  Proof.
    intros H P U F E. destruct (packet_command ins KLast p d U P) as [Hb Hc].
    unfold sent. rewrite (step_command C O d _ _ _ Hb Hc). destruct Hc as (_ & _ & E0 & E1).
    rewrite (H _ E0 E1). unfold with_upload, the_upload, bind. rewrite F, E.
    rewrite (set_no_ufaults d F). reflexivity.
  Qed.

  Lemma mids_run ins a f p2 init : handles ins a f -> forall mids d data, Forall (packet ins KNext) mids ->
    d_ui d = None -> d_ufaults d = [] -> u_rel (d_up d) (Some (a, p2, init, data)) ->
    (1 + length init + length data + length (concat (map (fun p : bytes * N => pay (fst p)) mids)) <= CAPACITY)%nat ->
    exists u, run C O d (map sent mids) = (map (fun _ => go_on) mids, set_up u d) /\
      u_rel u (Some (a, p2, init, data ++ concat (map (fun p : bytes * N => pay (fst p)) mids))).
  Proof.
    intros H. induction mids as [|p mids IH]; intros d data P U F R L.
    - exists (d_up d). cbn [map concat run]. rewrite app_nil_r. split; [destruct d; reflexivity|exact R].
    - inversion P as [|? ? P1 P2]; subst. cbn [map concat] in L. rewrite app_length in L.
      destruct (next_packet a (fst p) (d_up d) p2 init data) as (u1 & E1 & R1);
        [apply P1|exact R|apply P1|unfold bytes, byte in *; lia|].
      pose proof (packet_step ins a f KNext p d u1 H P1 U F E1) as S1.
      destruct (IH (set_up u1 d) (data ++ pay (fst p))) as (u2 & E2 & R2); auto;
        try (destruct d; assumption).
      { rewrite app_length. unfold bytes, byte in *; lia. }
      exists u2. cbn [map run concat]. rewrite S1, E2, set_up_twice. split; [reflexivity|].
      now rewrite app_assoc.
  Qed.

  Lemma run_cons d e es a d1 : step C O d e = (a, d1) ->
    run C O d (e :: es) = (a :: fst (run C O d1 es), snd (run C O d1 es)).
  Proof. intros E. cbn [run]. rewrite E. destruct (run C O d1 es); reflexivity. Qed.

  Lemma request_run ins a f k data first mids last d : handles ins a f ->
    request ins k data first mids last -> sized (d_up d) -> d_ui d = None -> d_ufaults d = [] ->
    exists u u' up, uo_p2 up = byte_of_curve (fst k) /\
      path_read BIP32_MAX_LENGTH (uo_first up) = Some (snd k) /\ uo_data up = data /\
      run C O d (map sent (first :: mids)) = (map (fun _ => go_on) (first :: mids), set_up u d) /\
      upload a (fst last) u [] = (Ok (Some up), u', []).
  Proof.
    intros H (Q1 & Q2 & Q3 & (Q4 & Q5) & Q6 & Q7) S U F.
    destruct (init_packet a (fst first) (d_up d)) as (u0 & E0 & R0); [apply Q1|exact S|apply Q1|].
    pose proof (packet_step ins a f KInit first d u0 H Q1 U F E0) as S0.
    rewrite map_app, concat_app in Q6. cbn [map concat] in Q6. rewrite app_nil_r in Q6.
    assert (L : (1 + length (pay (fst first)) + length (concat (map (fun p : bytes * N => pay (fst p)) mids))
                 + length (pay (fst last)) <= CAPACITY)%nat).
    { rewrite <- Q6, app_length in Q7. unfold bytes, byte in *. lia. }
    destruct (mids_run ins a f (nth 3 (fst first) 0) (pay (fst first)) H mids (set_up u0 d) [] Q2)
      as (u1 & E1 & R1); try (destruct d; assumption).
    { cbn [length]. unfold bytes, byte in *. lia. }
    cbn [app] in R1. rewrite set_up_twice in E1.
    destruct (last_packet a (fst last) u1 _ _ _ (proj1 Q3) R1) as (u2 & E2); [apply Q3|exact L|].
    exists u1, u2. eexists. split; [|split; [|split; [|split; [|exact E2]]]]; cbn [uo_p2 uo_first uo_data].
    - exact Q4.
    - now apply path_read_complete.
    - exact Q6.
    - cbn [map]. rewrite (run_cons _ _ _ _ _ S0), E1. reflexivity.
  Qed.

  Lemma run_app es1 : forall d es2, run C O d (es1 ++ es2) =
    (fst (run C O d es1) ++ fst (run C O (snd (run C O d es1)) es2),
     snd (run C O (snd (run C O d es1)) es2)).
  Proof.
    induction es1 as [|e es IH]; intros d es2; cbn [run app].
    - cbn [fst snd app]. destruct (run C O d es2); reflexivity.
    - destruct (step C O d e) as [a d1]. rewrite IH. destruct (run C O d1 es) as [l d2]. reflexivity.
  Qed.

  (** The whole request: every packet but the last is acknowledged, the last one is
      answered by [f]. *)
  Lemma request_answer ins a f k data first mids last d : handles ins a f ->
    request ins k data first mids last -> sized (d_up d) -> d_ui d = None -> d_ufaults d = [] ->
    exists u' up, uo_p2 up = byte_of_curve (fst k) /\
      path_read BIP32_MAX_LENGTH (uo_first up) = Some (snd k) /\ uo_data up = data /\
      let x := finish 260
        match f up (set_up u' d) with
        | (Ok r, d') => (Ok r, set_up (upload_drop a (d_up d')) d')
        | (Err e, d') => (Err e, set_up (upload_drop a (d_up d')) d')
        | (Panic, d') => (Panic, d')
        | (Cut, d') => (Cut, d')
        end in
      run C O d (map sent (first :: mids ++ [last]))
      = (map (fun _ => go_on) (first :: mids) ++ [fst x], snd x).
  Proof.
    intros H Q S U F.
    destruct (request_run ins a f k data first mids last d H Q S U F) as (u & u' & up & E1 & E2 & E3 & E4 & E5).
    exists u', up. split; [exact E1|]. split; [exact E2|]. split; [exact E3|].
    change (first :: mids ++ [last]) with ((first :: mids) ++ [last]).
    rewrite map_app, run_app, E4. cbn [fst snd map].
    pose proof (last_step ins a f last (set_up u d) u' up H (proj1 (proj2 (proj2 Q)))) as X.
    assert (Y : step C O (set_up u d) (sent last) = finish 260
        match f up (set_up u' d) with
        | (Ok r, d') => (Ok r, set_up (upload_drop a (d_up d')) d')
        | (Err e, d') => (Err e, set_up (upload_drop a (d_up d')) d')
        | (Panic, d') => (Panic, d')
        | (Cut, d') => (Cut, d')
        end).
    { rewrite X; [now rewrite set_up_twice|destruct d; assumption..|].
      replace (d_up (set_up u d)) with u by (destruct d; reflexivity). exact E5. }
    cbv zeta. cbn [run]. rewrite Y. match goal with |- context [finish 260 ?y] => destruct (finish 260 y) end.
    reflexivity.
  Qed.

  (** ** Reviews *)

  Lemma handles_sign ins : upload_command C ins = Some AccSign ->
    handles ins AccSign (start_sign C O (negb ((ins =? 0x04) || (ins =? 0x05)))).
  Proof.
    intros H buf E0 E1. rewrite (dispatch_at C O buf ins E0 E1). unfold upload_command in H. unfold dispatch_common.
    clear E1. destruct (cf_baking C); cbn [existsb] in H; revert H.
    - destruct (N.eqb_spec ins 0x12) as [->|?]; [reflexivity|]. cbn [orb].
      destruct (N.eqb_spec ins 4); [discriminate|]. destruct (N.eqb_spec ins 15); [discriminate|].
      destruct (N.eqb_spec ins 175); discriminate.
    - destruct (N.eqb_spec ins 0x04) as [->|?]; [reflexivity|].
      destruct (N.eqb_spec ins 0x05) as [->|?]; [reflexivity|].
      destruct (N.eqb_spec ins 0x0F) as [->|?]; [reflexivity|].
      destruct (N.eqb_spec ins 0x12) as [->|?]; [reflexivity|]. discriminate.
  Qed.

  Lemma start_sign_shows sh up k dg d : curve_of_byte (uo_p2 up) = Some (fst k) ->
    path_read BIP32_MAX_LENGTH (uo_first up) = Some (snd k) -> o_blake2b O 32 (uo_data up) = Some dg ->
    reviewed_message (uo_data up) ->
    (forall p, exists room, cf_room C (VSign sh dg p (uo_data up)) = Some room) ->
    exists p, start_sign C O sh up d = (Ok Later, set_ui (Some (VSign sh dg p (uo_data up))) (set_path (Some k) d)).
  Proof.
    intros Ec Ep Ed M Rm. unfold start_sign, bind. rewrite Ec, Ep. cbn [of_option]. unfold ret.
    unfold digest32. rewrite Ed. cbn [of_option]. unfold ret.
    replace (fst k, snd k) with k by (destruct k; reflexivity).
    destruct M as [branch rest Hb|rest]; rewrite preemble_cons by lia.
    - change (preemble_of_byte 3) with (Some PreOperation). cbv iota.
      exists (Some (branch, eo_new rest)). unfold operation_new.
      rewrite take_app by (unfold len; lia). cbn [of_option]. unfold ret, show.
      destruct (Rm (Some (branch, eo_new rest))) as [room R].
      match goal with |- context [cf_room C ?v] => replace (cf_room C v) with (Some room) by (symmetry; exact R) end.
      reflexivity.
    - change (preemble_of_byte 5) with (Some PreMichelson). cbv iota.
      exists None. unfold show. destruct (Rm None) as [room ->]. reflexivity.
  Qed.

  (** A well-formed request to review a message is pended; approving it signs exactly
      that message with exactly that key, rejecting it signs nothing. *)
  Lemma review_served f u es ins k data first mids last dg s :
    let d := snd (run C O (dev_fresh f u) es) in
    d_ui d = None -> d_ufaults d = [] -> upload_command C ins = Some AccSign ->
    request ins k data first mids last -> reviewed_message data ->
    o_blake2b O 32 data = Some dg -> o_sign O (fst k) (snd k) dg = Some s -> (length s <= 100)%nat ->
    (forall sh p, exists room, cf_room C (VSign sh dg p data) = Some room /\ len dg + len s + 2 <= room) ->
    exists d', run C O d (map sent (first :: mids ++ [last]))
               = (map (fun _ => go_on) (first :: mids) ++ [APending], d') /\
      untouched d d' /\
      (let (a, d'') := step C O d' EApprove in
       a = AReply ((if (ins =? 0x04) || (ins =? 0x05) then [] else dg) ++ s ++ [0x90; 0]) /\
       d_log d'' = mkSig SrcReview k dg data :: d_log d /\ d_ui d'' = None /\
       forall sl, wear_read (get_slot sl d'') = wear_read (get_slot sl d)) /\
      (let (a, d'') := step C O d' EReject in
       a = AReply [0x69; 0x86] /\ d_ui d'' = None /\ untouched d d'').
  Proof.
    intros d U F Hi Q M Dg Sg Ls Rm.
    destruct (request_answer ins AccSign _ k data first mids last d (handles_sign ins Hi) Q
      (reach_sized C O f u es) U F) as (u' & up & E1 & E2 & <- & E4).
    set (sh := negb ((ins =? 0x04) || (ins =? 0x05))) in *.
    destruct (start_sign_shows sh up k dg (set_up u' d)) as [p Es]; auto.
    { rewrite E1. apply curve_round. }
    { intros p. destruct (Rm sh p) as (room & R & _). eauto. }
    destruct (Rm sh p) as (room & Er & Hr).
    rewrite Es in E4. cbn [finish fst snd] in E4. clearbody d. clear Es Q U F Rm E1 E2 M.
    eexists. split; [exact E4|]. clear E4.
    split; [|split].
    - destruct d; split; [reflexivity|]. intros sl; destruct sl; reflexivity.
    - cbn [step]. unfold decide.
      set (dp := set_up _ _).
      assert (Ud : d_ui dp = Some (VSign sh dg p (uo_data up))) by (destruct d; reflexivity).
      assert (Pd : d_path dp = Some k) by (destruct d; reflexivity).
      assert (Ld : d_log dp = d_log d) by (destruct d; reflexivity).
      assert (Sd : forall sl, get_slot sl dp = get_slot sl d) by (destruct d, sl; reflexivity).
      clearbody dp. rewrite Ud, Er. cbn [accept]. unfold bind.
      replace (d_path (set_ui None dp)) with (Some k) by (destruct dp; auto).
      unfold sign_with. rewrite Sg. rewrite (proj2 (Nat.ltb_ge _ _)) by exact Ls.
      unfold ret. cbn [finish].
      assert (Lr : room <? len (signed sh dg s) + 2 = false).
      { unfold signed. destruct sh; unfold len in *; cbn [app]; rewrite ?app_length; lia. }
      rewrite Lr. split; [|split; [|split]].
      + unfold signed. rewrite <- app_assoc. unfold sh. destruct ((ins =? 4) || (ins =? 5)); reflexivity.
      + rewrite <- Ld. destruct dp; reflexivity.
      + destruct dp; reflexivity.
      + intros sl. rewrite <- Sd. destruct dp, sl; reflexivity.
    - cbn [step]. unfold decide.
      set (dp := set_up _ _).
      assert (Ud : d_ui dp = Some (VSign sh dg p (uo_data up))) by (destruct d; reflexivity).
      assert (Ld : d_log dp = d_log d) by (destruct d; reflexivity).
      assert (Sd : forall sl, get_slot sl dp = get_slot sl d) by (destruct d, sl; reflexivity).
      clearbody dp. rewrite Ud, Er. cbn [reject]. unfold bind. cbn [finish].
      assert (Lr : room <? len (@nil N) + 2 = false) by (unfold len in *; cbn [length]; lia).
      rewrite Lr. split; [reflexivity|]. split; [destruct dp; reflexivity|]. split.
      + rewrite <- Ld. destruct dp; reflexivity.
      + intros sl. rewrite <- Sd. destruct dp, sl; reflexivity.
  Qed.

  (** ** Consensus messages *)

  Lemma handles_baker ins : cf_baking C = true -> In ins [0x04; 0x0F; 0xAF] ->
    handles ins AccBaking (baker_sign C O (negb (ins =? 0x04))).
  Proof. intros Cb Hi buf E0 E1. exact (dispatch_baker C O buf ins Cb E0 E1 Hi). Qed.

  Lemma layout_parse p k : key_layout p k -> key_parse p = AOk (Some k).
  Proof.
    intros [H E]. pose proof (key_layout_serialize k H) as [_ E']. rewrite E, <- E'. now apply key_round.
  Qed.

  (** The part common to all messages: the key is the authorised one. *)
  Lemma baker_sign_key sh up k kp dg d : curve_of_byte (uo_p2 up) = Some (fst k) ->
    path_read BIP32_MAX_LENGTH (uo_first up) = Some (snd k) -> wear_read (d_key d) = Some (RData kp) ->
    key_layout kp k -> o_blake2b O 32 (uo_data up) = Some dg ->
    exists d1, frame eff_none d d1 /\ baker_sign C O sh up d =
      match preemble_parse (uo_data up) with
      | PPanic => panic
      | PErr => fail DataInvalid
      | POk rem p =>
        match p with
        | PreTBPreendorsement | PreTBEndorsement | PreEndorsement | PreTBBlock | PreBlock =>
          handle_consensus O p rem sh dg (uo_data up)
        | PreOperation => handle_delegation C rem sh dg (uo_data up)
        | _ => fail CommandNotAllowed
        end
      end d1.
  Proof.
    intros Ec Ep Kr Kl Ed. unfold baker_sign. unfold bind at 1. rewrite Ec. cbn [of_option]. unfold ret at 1.
    unfold bind at 1. rewrite Ep. cbn [of_option]. unfold ret at 1. unfold bind at 1.
    destruct (check_stored_result k d) as [F R]. rewrite Kr, (layout_parse _ _ Kl) in R.
    replace (fst k, snd k) with k by (destruct k; reflexivity).
    destruct (check_with_stored k d) as [r d1]. cbn [fst snd] in F, R. subst r.
    rewrite (proj2 (key_eqb_eq k k) eq_refl). unfold bind at 1. cbn [check]. unfold ret at 1.
    unfold bind at 1, digest32. rewrite Ed. cbn [of_option]. unfold ret at 1.
    exists d1. split; [exact F|reflexivity].
  Qed.

  Definition consensus_pre (p : preemble) : Prop :=
    match p with
    | PreTBPreendorsement | PreTBEndorsement | PreEndorsement | PreTBBlock | PreBlock => True
    | _ => False
    end.
  Lemma message_checks data q hw : consensus_message data q -> exists m p rem, data = m :: rem /\ m < 256 /\
    preemble_of_byte m = Some p /\ consensus_pre p /\
    (cpos_level q < 2 ^ 31 /\ cpos_lt (wm_pos hw) q ->
     exists wm, consensus_check p rem hw = Some (AOk wm) /\ wm_pos wm = q /\ wm_ok wm) /\
    (~ (cpos_level q < 2 ^ 31 /\ cpos_lt (wm_pos hw) q) -> consensus_check p rem hw = Some (AErr DataInvalid)).
  Proof.
    assert (L : forall h, header_ok h -> h_level h < 2 ^ 32) by (intros h H; apply H).
    intros [h v more Hh Hv Hf|h more round Hh Hr Hf|chain branch level rest H1 H2 H3|chain branch is_pre slot level round payload rest H1 H2 H3 H4 H5 H6].
    - exists 0x01, PreBlock, (enc_header h). repeat (split; [try reflexivity; exact Logic.I|]).
      destruct (check_block_emmy h v more hw Hh ltac:(lia) Hf) as [A B]. cbn [cpos_level]. split; [|exact B].
      intros X. exists (WEmmy (h_level h) false). split; [exact (A X)|]. split; [reflexivity|]. exact (L _ Hh).
    - exists 0x11, PreTBBlock, (enc_header h). repeat (split; [try reflexivity; exact Logic.I|]).
      destruct (check_block_tb h more round hw Hh Hr Hf) as [A B]. cbn [cpos_level]. split; [|exact B].
      intros X. exists (WTenderbake (h_level h) false round false). split; [exact (A X)|]. split; [reflexivity|].
      split; [exact (L _ Hh)|exact Hr].
    - exists 0x02, PreEndorsement, (enc_emmy_endo chain branch level rest). repeat (split; [try reflexivity; exact Logic.I|]).
      destruct (check_endo_emmy chain branch level rest hw H1 H2 H3) as [A B]. cbn [cpos_level]. split; [|exact B].
      intros X. exists (WEmmy level true). split; [exact (A X)|]. split; [reflexivity|]. exact H3.
    - destruct (check_endo_tb chain branch is_pre slot level round payload rest hw H1 H2 H3 H4 H5 H6) as [A B].
      exists (if is_pre then 0x12 else 0x13), (if is_pre then PreTBPreendorsement else PreTBEndorsement),
        (enc_tb_endo chain branch is_pre slot level round payload rest).
      split; [reflexivity|]. split; [destruct is_pre; reflexivity|]. split; [destruct is_pre; reflexivity|].
      split; [destruct is_pre; exact Logic.I|]. cbn [cpos_level]. split; [|exact B].
      intros X. exists (WTenderbake level (negb is_pre) round true). split; [exact (A X)|].
      split; [destruct is_pre; reflexivity|]. split; assumption.
  Qed.

  Lemma reads_mark p w : mark_bytes p w -> wm_parse p = w.
  Proof. intros H. destruct (mark_serialize p w H) as [A ->]. now apply wm_round. Qed.

  (** Signing with the stored key. *)
  Lemma baking_sign_works src dg data d k kp s : wear_read (d_key d) = Some (RData kp) -> key_layout kp k ->
    o_sign O (fst k) (snd k) dg = Some s -> (length s <= 100)%nat ->
    exists d', baking_sign O src dg data d = (Ok s, add_sig (mkSig src k dg data) d') /\ frame eff_none d d'.
  Proof.
    intros R L Sg Ls. pose proof (keeps_read_or eff_none SKey ExecutionError d) as F.
    unfold baking_sign. unfold bind at 1. unfold wear_read in R.
    unfold read_or, read_slot, bind in *. cbn [get_slot] in *.
    destruct (wear_init (d_key d)) as [i|]; [|discriminate]. injection R as R. rewrite R in *.
    unfold ret at 1. unfold ret in F at 1. cbn [fst snd] in F.
    rewrite (layout_parse _ _ L). cbn [of_ares]. unfold ret at 1. cbn [of_option]. unfold ret at 1.
    unfold sign_with. rewrite Sg.
    rewrite (proj2 (Nat.ltb_ge _ _)) by exact Ls. eexists. split; [reflexivity|exact F].
  Qed.

  Lemma consensus_served B k kp p rem sh dg data d wm w mp s : 
    wf_wear B (d_main d) -> B + 1 < 2 ^ 64 -> d_faults d = [] ->
    wear_read (d_key d) = Some (RData kp) -> key_layout kp k ->
    wear_read (d_main d) = Some (RData mp) -> mark_bytes mp w ->
    consensus_check p rem w = Some (AOk wm) -> wm_ok wm ->
    o_sign O (fst k) (snd k) dg = Some s -> (length s <= 100)%nat ->
    exists d', handle_consensus O p rem sh dg data d = (Ok (Now (signed sh dg s)), d') /\
      d_log d' = mkSig SrcConsensus k dg data :: d_log d /\ d_ui d' = d_ui d /\
      wear_read (d_main d') = Some (RData (wm_serialize wm)) /\
      forall sl, sl <> SMain -> wear_read (get_slot sl d') = wear_read (get_slot sl d).
  Proof.
    intros W HB F Kr Kl Mr Ml K Ko Sg Ls. unfold handle_consensus. unfold bind at 1.
    assert (F1 : frame eff_none d (snd (read_or SMain ExecutionError d))) by apply keeps_read_or.
    assert (R1 : fst (read_or SMain ExecutionError d) = Ok mp).
    { unfold read_or, read_slot, bind. cbn [get_slot]. unfold wear_read in Mr.
      destruct (wear_init (d_main d)) as [i|]; [|discriminate]. injection Mr as ->. reflexivity. }
    assert (U1 : d_ui (snd (read_or SMain ExecutionError d)) = d_ui d).
    { destruct (fr_ui _ _ _ F1) as [X|(v & _ & [])]. exact X. }
    destruct (read_or SMain ExecutionError d) as [r d1]. cbn [fst snd] in *. subst r.
    rewrite (reads_mark _ _ Ml), K. cbn [of_ares]. unfold bind at 1. unfold ret at 1. unfold bind at 1.
    pose proof (frame_no_faults _ _ _ F1 F) as Fd.
    pose proof (weq_wf B _ _ (fr_slot _ _ _ F1 SMain (fun x => x)) W) as Wf. cbn [get_slot] in Wf.
    assert (Rd : forall sl, wear_read (get_slot sl d1) = wear_read (get_slot sl d)).
    { intros sl. apply weq_read. exact (fr_slot _ _ _ F1 sl (fun x => x)). }
    unfold write_or. unfold bind at 1. unfold write_slot. cbn [get_slot].
    destruct (wear_init (d_main d1)) as [i|] eqn:I1.
    2:{ exfalso. specialize (Rd SMain). cbn [get_slot] in Rd. unfold wear_read at 1 in Rd. rewrite I1, Mr in Rd. discriminate. }
    rewrite Fd. cbn [next_fault].
    pose proof (write_step B (d_main d1) i (wm_serialize wm) WOk Wf HB (wm_payload wm) Logic.I I1) as X.
    destruct (wear_write_at (d_main d1) i (wm_serialize wm) WOk) as [w' r] eqn:Ew.
    assert (r = WDone) as -> by (unfold wear_write_at in Ew; inversion Ew; reflexivity).
    destruct X as (_ & X & _). specialize (X eq_refl).
    cbn [check]. unfold ret at 1. set (d2 := set_slot SMain w' (set_faults [] d1)).
    assert (K2 : forall sl, sl <> SMain -> get_slot sl d2 = get_slot sl d1).
    { intros sl N. unfold d2. rewrite get_set_other by congruence. apply get_slot_set_faults. }
    assert (M2 : d_main d2 = w') by (unfold d2; destruct d1; reflexivity).
    assert (L2 : d_log d2 = d_log d1) by (unfold d2; destruct d1; reflexivity).
    assert (U2 : d_ui d2 = d_ui d1) by (unfold d2; destruct d1; reflexivity).
    clearbody d2.
    assert (Kr2 : wear_read (d_key d2) = Some (RData kp)).
    { change (d_key d2) with (get_slot SKey d2). rewrite K2 by discriminate. rewrite Rd. exact Kr. }
    destruct (baking_sign_works SrcConsensus dg data d2 k kp s Kr2 Kl Sg Ls) as (d3 & E3 & F3).
    unfold bind. rewrite E3. unfold ret. eexists. split; [reflexivity|].
    split; [|split; [|split]].
    - transitivity (mkSig SrcConsensus k dg data :: d_log d3); [destruct d3; reflexivity|].
      rewrite (frame_log_none eff_none _ _ (fun g x => x) F3), L2.
      now rewrite (frame_log_none eff_none _ _ (fun g x => x) F1).
    - transitivity (d_ui d3); [destruct d3; reflexivity|].
      destruct (fr_ui _ _ _ F3) as [Y|(v & _ & [])]. congruence.
    - transitivity (wear_read (get_slot SMain d3)); [destruct d3; reflexivity|].
      rewrite (weq_read _ _ (fr_slot _ _ _ F3 SMain (fun x => x))). cbn [get_slot]. rewrite M2. exact X.
    - intros sl N. transitivity (wear_read (get_slot sl d3)); [destruct d3, sl; reflexivity|].
      rewrite (weq_read _ _ (fr_slot _ _ _ F3 sl (fun x => x))). rewrite (K2 sl N). apply Rd.
  Qed.

  Lemma consensus_refused_low p rem sh dg data d w mp : 
    wear_read (d_main d) = Some (RData mp) -> mark_bytes mp w ->
    consensus_check p rem w = Some (AErr DataInvalid) ->
    exists d', handle_consensus O p rem sh dg data d = (Err DataInvalid, d') /\ frame eff_none d d'.
  Proof.
    intros Mr Ml K. unfold handle_consensus. unfold bind at 1.
    assert (F1 : frame eff_none d (snd (read_or SMain ExecutionError d))) by apply keeps_read_or.
    assert (R1 : fst (read_or SMain ExecutionError d) = Ok mp).
    { unfold read_or, read_slot, bind. cbn [get_slot]. unfold wear_read in Mr.
      destruct (wear_init (d_main d)) as [i|]; [|discriminate]. injection Mr as ->. reflexivity. }
    destruct (read_or SMain ExecutionError d) as [r d1]. cbn [fst snd] in *. subst r.
    rewrite (reads_mark _ _ Ml), K. cbn [of_ares]. exists d1. split; [reflexivity|exact F1].
  Qed.

  Lemma above_decidable a q : (cpos_level q < 2 ^ 31 /\ cpos_lt a q) \/ ~ (cpos_level q < 2 ^ 31 /\ cpos_lt a q).
  Proof.
    assert (D : cpos_lt a q \/ ~ cpos_lt a q).
    { destruct a as [l e|l r k], q as [l' e'|l' r' k']; cbn [cpos_lt]; try tauto.
      - destruct e, e'; try (destruct (N.lt_trichotomy l l') as [|[|]]); try (now left; left);
          try (now left; right); right; intros [?|(?&?&?)]; try discriminate; lia.
      - lia. }
    destruct (N.lt_ge_cases (cpos_level q) (2 ^ 31)); [tauto|]. right. lia.
  Qed.
  Lemma slot_set_up u d sl : get_slot sl (set_up u d) = get_slot sl d.
  Proof. destruct d, sl; reflexivity. Qed.
  Lemma set_up_rest u d : d_log (set_up u d) = d_log d /\ d_ui (set_up u d) = d_ui d /\ d_faults (set_up u d) = d_faults d.
  Proof. destruct d; auto. Qed.

  (** A well-formed request to sign a consensus message is answered with the signature
      if the message is above the stored watermark, and refused otherwise. *)
  Lemma consensus_request_served f u es ins k kp data q first mids last dg s mp w :
    Forall slot_fault_ok f -> Forall up_fault_ok u -> Forall event_ok es -> len es + 1 < 2 ^ 64 ->
    let d := snd (run C O (dev_fresh f u) es) in
    d_ui d = None -> d_faults d = [] -> d_ufaults d = [] ->
    cf_baking C = true -> In ins [0x04; 0x0F; 0xAF] ->
    request ins k data first mids last -> consensus_message data q ->
    wear_read (d_key d) = Some (RData kp) -> key_layout kp k ->
    wear_read (d_main d) = Some (RData mp) -> mark_bytes mp w ->
    o_blake2b O 32 data = Some dg -> (length dg <= 32)%nat ->
    o_sign O (fst k) (snd k) dg = Some s -> (length s <= 100)%nat ->
    exists a d', run C O d (map sent (first :: mids ++ [last]))
                 = (map (fun _ => go_on) (first :: mids) ++ [a], d') /\ d_ui d' = None /\
      (cpos_level q < 2 ^ 31 /\ cpos_lt (wm_pos w) q ->
       a = AReply ((if ins =? 0x04 then [] else dg) ++ s ++ [0x90; 0]) /\
       d_log d' = mkSig SrcConsensus k dg data :: d_log d /\
       (exists mp' w', wear_read (d_main d') = Some (RData mp') /\ mark_bytes mp' w' /\ wm_pos w' = q) /\
       forall sl, sl <> SMain -> wear_read (get_slot sl d') = wear_read (get_slot sl d)) /\
      (~ (cpos_level q < 2 ^ 31 /\ cpos_lt (wm_pos w) q) -> a = AReply [0x69; 0x84] /\ untouched d d').
  Proof.
    intros Ff Fu Fe Le d U F Fup Cb Hi Q M Kr Kl Mr Ml Dg Ld Sg Ls.
    pose proof (dok_wf _ _ _ _ (reach_dok C O f u es Ff Fu Fe ltac:(lia)) SMain) as W. fold d in W. cbn [get_slot] in W.
    destruct (request_answer ins AccBaking _ k data first mids last d (handles_baker ins Cb Hi) Q
      (reach_sized C O f u es) U Fup) as (u' & up & E1 & E2 & Eud & E4).
    clearbody d. set (dd := set_up u' d) in *.
    assert (Sd : forall sl, get_slot sl dd = get_slot sl d) by (intros sl; apply slot_set_up).
    destruct (set_up_rest u' d) as (Lgd & Uid & Fd). fold dd in Lgd, Uid, Fd. clearbody dd.
    rewrite <- Eud in M, Dg.
    destruct (baker_sign_key (negb (ins =? 0x04)) up k kp dg dd) as (d1 & F1 & E5); auto.
    { rewrite E1. apply curve_round. }
    { change (d_key dd) with (get_slot SKey dd). now rewrite Sd. }
    assert (Rd : forall sl, wear_read (get_slot sl d1) = wear_read (get_slot sl d)).
    { intros sl. rewrite <- Sd. apply weq_read. exact (fr_slot _ _ _ F1 sl (fun x => x)). }
    assert (W1 : wf_wear (len es) (d_main d1)).
    { refine (weq_wf (len es) (get_slot SMain dd) (get_slot SMain d1) (fr_slot _ _ _ F1 SMain (fun x => x)) _).
      rewrite Sd. exact W. }
    assert (Fl1 : d_faults d1 = []) by (apply (frame_no_faults _ _ _ F1); congruence).
    assert (Lg1 : d_log d1 = d_log d) by (rewrite <- Lgd; exact (frame_log_none eff_none _ _ (fun g x => x) F1)).
    assert (Ui1 : d_ui d1 = None).
    { destruct (fr_ui _ _ _ F1) as [X|(v & _ & [])]. congruence. }
    destruct (message_checks _ q w M) as (m & p & rem & Ed & Hm & Pm & Pc & A & B).
    assert (E6 : baker_sign C O (negb (ins =? 4)) up dd = handle_consensus O p rem (negb (ins =? 4)) dg (uo_data up) d1).
    { rewrite E5, Ed, preemble_cons by exact Hm. rewrite Pm. destruct p; try contradiction; reflexivity. }
    rewrite E6 in E4. clear E5 E6.
    destruct (above_decidable (wm_pos w) q) as [Y|Y].
    - destruct (A Y) as (wm & K & Kq & Ko).
      destruct (consensus_served (len es) k kp p rem (negb (ins =? 4)) dg (uo_data up) d1 wm w mp s)
        as (d2 & E7 & L7 & U7 & R7 & S7); auto.
      { specialize (Rd SKey). cbn [get_slot] in Rd. now rewrite Rd. }
      { specialize (Rd SMain). cbn [get_slot] in Rd. now rewrite Rd. }
      rewrite E7 in E4.
      rewrite finish_ok in E4.
      2:{ unfold signed, len. destruct (negb (ins =? 4)); cbn [app]; rewrite ?app_length; lia. }
      cbn [fst snd] in E4. eexists _, _. split; [exact E4|].
      destruct (set_up_rest (upload_drop AccBaking (d_up d2)) d2) as (X1 & X2 & _).
      split; [congruence|]. split; [|intros N; contradiction]. intros _.
      split; [|split; [|split]].
      + unfold signed. rewrite <- app_assoc. destruct (ins =? 4); reflexivity.
      + rewrite X1, L7, Lg1, Eud. reflexivity.
      + exists (wm_serialize wm), wm. split; [|split; [now apply wm_layout|exact Kq]].
        change (d_main (set_up (upload_drop AccBaking (d_up d2)) d2))
          with (get_slot SMain (set_up (upload_drop AccBaking (d_up d2)) d2)).
        rewrite slot_set_up. exact R7.
      + intros sl N. rewrite slot_set_up, (S7 sl N). apply Rd.
    - destruct (consensus_refused_low p rem (negb (ins =? 4)) dg (uo_data up) d1 w mp) as (d2 & E7 & F7); auto.
      { specialize (Rd SMain). cbn [get_slot] in Rd. now rewrite Rd. }
      rewrite E7 in E4. rewrite finish_err in E4. cbn [fst snd] in E4. eexists _, _. split; [exact E4|].
      destruct (set_up_rest (upload_drop AccBaking (d_up d2)) d2) as (X1 & X2 & _).
      split.
      { rewrite X2. destruct (fr_ui _ _ _ F7) as [X|(v & _ & [])]. congruence. }
      split; [intros N; contradiction|]. intros _. split; [reflexivity|]. split.
      + rewrite X1, (frame_log_none eff_none _ _ (fun g x => x) F7). exact Lg1.
      + intros sl. rewrite slot_set_up, (weq_read _ _ (fr_slot _ _ _ F7 sl (fun x => x))). apply Rd.
  Qed.

  (** ** Operations in the baking app *)

  Lemma delegation_of_op branch o sh dg data d : length branch = 32%nat -> op_ok o ->
    handle_delegation C (branch ++ enc_op o) sh dg data d =
    if baker_op o then show C (VBakingSign sh dg branch (op_of o) data) d else (Err CommandNotAllowed, d).
  Proof.
    intros Hb Ho. unfold handle_delegation, operation_new. rewrite take_app by (unfold len; lia).
    unfold eo_next, eo_new. cbn [eo_source eo_read]. rewrite (proj2 (Nat.ltb_ge _ _)) by lia. cbn [skipn].
    pose proof (op_parse_enc o [] Ho) as E. rewrite app_nil_r in E.
    destruct (enc_op o) as [|b l] eqn:Eo; [destruct o; discriminate|]. rewrite E.
    destruct o; reflexivity.
  Qed.

  Lemma operation_request_served f u es ins k kp branch o first mids last dg s :
    let d := snd (run C O (dev_fresh f u) es) in
    let data := 3 :: branch ++ enc_op o in
    d_ui d = None -> d_ufaults d = [] ->
    cf_baking C = true -> In ins [0x04; 0x0F; 0xAF] -> length branch = 32%nat -> op_ok o ->
    request ins k data first mids last ->
    wear_read (d_key d) = Some (RData kp) -> key_layout kp k ->
    o_blake2b O 32 data = Some dg -> o_sign O (fst k) (snd k) dg = Some s -> (length s <= 100)%nat ->
    (forall sh p, exists room, cf_room C (VBakingSign sh dg branch p data) = Some room /\ len dg + len s + 2 <= room) ->
    exists a d', run C O d (map sent (first :: mids ++ [last])) = (map (fun _ => go_on) (first :: mids) ++ [a], d') /\
      untouched d d' /\
      if baker_op o then
        a = APending /\
        (let (a', d'') := step C O d' EApprove in
         a' = AReply ((if ins =? 0x04 then [] else dg) ++ s ++ [0x90; 0]) /\
         d_log d'' = mkSig SrcBakingReview k dg data :: d_log d /\ d_ui d'' = None /\
         forall sl, wear_read (get_slot sl d'') = wear_read (get_slot sl d)) /\
        (let (a', d'') := step C O d' EReject in
         a' = AReply [0x69; 0x86] /\ d_ui d'' = None /\ untouched d d'')
      else a = AReply [0x69; 0x86] /\ d_ui d' = None.
  Proof.
    intros d data U Fup Cb Hi Hb Ho Q Kr Kl Dg Sg Ls Rm.
    destruct (request_answer ins AccBaking _ k data first mids last d (handles_baker ins Cb Hi) Q
      (reach_sized C O f u es) U Fup) as (u' & up & E1 & E2 & Eud & E4).
    clearbody d. set (dd := set_up u' d) in *.
    assert (Sd : forall sl, get_slot sl dd = get_slot sl d) by (intros sl; apply slot_set_up).
    destruct (set_up_rest u' d) as (Lgd & Uid & _). fold dd in Lgd, Uid. clearbody dd.
    set (sh := negb (ins =? 0x04)) in *. rewrite <- Eud in Dg.
    destruct (baker_sign_key sh up k kp dg dd) as (d1 & F1 & E5); auto.
    { rewrite E1. apply curve_round. }
    { change (d_key dd) with (get_slot SKey dd). now rewrite Sd. }
    assert (Rd : forall sl, wear_read (get_slot sl d1) = wear_read (get_slot sl d)).
    { intros sl. rewrite <- Sd. apply weq_read. exact (fr_slot _ _ _ F1 sl (fun x => x)). }
    assert (Lg1 : d_log d1 = d_log d) by (rewrite <- Lgd; exact (frame_log_none eff_none _ _ (fun g x => x) F1)).
    assert (Ui1 : d_ui d1 = None).
    { destruct (fr_ui _ _ _ F1) as [X|(v & _ & [])]. congruence. }
    rewrite Eud in E5. unfold data in E5 at 1. rewrite preemble_cons in E5 by lia.
    change (preemble_of_byte 3) with (Some PreOperation) in E5. cbv iota in E5.
    rewrite (delegation_of_op branch o sh dg data d1 Hb Ho) in E5. rewrite E5 in E4. clear E5.
    destruct (baker_op o).
    - destruct (Rm sh (op_of o)) as (room & Er & Hr). unfold show in E4. rewrite Er in E4.
      cbn [finish fst snd] in E4. eexists _, _. split; [exact E4|]. clear E4.
      set (dp := set_up _ _).
      assert (Ud : d_ui dp = Some (VBakingSign sh dg branch (op_of o) data)) by (destruct d1; reflexivity).
      assert (Ld : d_log dp = d_log d) by (rewrite <- Lg1; destruct d1; reflexivity).
      assert (Sp : forall sl, wear_read (get_slot sl dp) = wear_read (get_slot sl d)).
      { intros sl. rewrite <- Rd. destruct d1, sl; reflexivity. }
      clearbody dp. split; [split; [exact Ld|exact Sp]|]. split; [reflexivity|]. split.
      + cbn [step]. unfold decide. rewrite Ud, Er. cbn [accept].
        destruct (baking_sign_works SrcBakingReview dg data (set_ui None dp) k kp s) as (d3 & E3 & F3); auto.
        { specialize (Sp SKey). cbn [get_slot] in Sp. rewrite <- Kr, <- Sp. destruct dp; reflexivity. }
        unfold bind. rewrite E3. unfold ret. cbn [finish].
        assert (Lr : room <? len (signed sh dg s) + 2 = false).
        { unfold signed. destruct sh; unfold len in *; cbn [app]; rewrite ?app_length; lia. }
        rewrite Lr. split; [|split; [|split]].
        * unfold signed. rewrite <- app_assoc. unfold sh. destruct (ins =? 4); reflexivity.
        * transitivity (mkSig SrcBakingReview k dg data :: d_log d3); [destruct d3; reflexivity|].
          rewrite (frame_log_none eff_none _ _ (fun g x => x) F3), <- Ld. destruct dp; reflexivity.
        * transitivity (d_ui d3); [destruct d3; reflexivity|].
          destruct (fr_ui _ _ _ F3) as [Y|(v & _ & [])]. rewrite Y. destruct dp; reflexivity.
        * intros sl. transitivity (wear_read (get_slot sl d3)); [destruct d3, sl; reflexivity|].
          rewrite (weq_read _ _ (fr_slot _ _ _ F3 sl (fun x => x))), <- Sp. destruct dp, sl; reflexivity.
      + cbn [step]. unfold decide. rewrite Ud, Er. cbn [reject]. unfold bind, fail. cbn [finish].
        assert (Lr : room <? len (@nil N) + 2 = false) by (unfold len in *; cbn [length]; lia).
        rewrite Lr. split; [reflexivity|]. split; [destruct dp; reflexivity|]. split.
        * rewrite <- Ld. destruct dp; reflexivity.
        * intros sl. rewrite <- Sp. destruct dp, sl; reflexivity.
    - rewrite finish_err in E4. cbn [fst snd] in E4. eexists _, _. split; [exact E4|].
      destruct (set_up_rest (upload_drop AccBaking (d_up d1)) d1) as (X1 & X2 & _).
      split; [split; [congruence|]|split; [reflexivity|congruence]].
      intros sl. rewrite slot_set_up. apply Rd.
  Qed.
End Live.
