(** Only the signatures of the log leave the device. *)
From Coq Require Import NArith Bool Arith String List Lia.
From Coq Require Import ZifyBool ZifyNat ZifyN.
From Verif Require Import Base BaseFacts Flash Codecs Upload Baking Operations Oracles Address Text Bakers Device DeviceSpec
  Screens Zui UiDevice SecretSpec.
Import ListNotations.
Open Scope list_scope.
Open Scope N_scope.

Section Secret.
  Variable C : config.
  Variable O : oracles.
  Variable sg : curve -> path -> bytes -> option bytes.
  Hypotheses (K : oracles_ok O) (K' : oracles_ok (with_sign O sg)) (Re : resigned O sg).
  Notation O' := (with_sign O sg).
  Notation agrees := (agree_on O sg).

  Definition agreed (d : dev) : Prop := forall g, In g (d_log d) -> agrees g.
  Definition ni {A : Type} (m m' : M A) : Prop := forall d,
    (exists l, d_log (snd (m d)) = l ++ d_log d) /\ (agreed (snd (m d)) -> m' d = m d).

  Lemma grow_agreed (d d' : dev) l : d_log d' = l ++ d_log d -> agreed d' -> agreed d.
  Proof. intros E H g Hg. apply H. rewrite E. apply in_or_app. now right. Qed.

  Lemma ni_bind {A B : Type} (m m' : M A) (f f' : A -> M B) : ni m m' -> (forall a, ni (f a) (f' a)) -> ni (bind m f) (bind m' f').
  Proof.
    intros Hm Hf d. destruct (Hm d) as [[l El] Em]. unfold bind. destruct (m d) as [[a|e| |] d1]; cbn [snd] in *.
    - destruct (Hf a d1) as [[l' El'] Ef]. split.
      + exists (l' ++ l). now rewrite El', El, app_assoc.
      + intros Ag. rewrite Em by exact (grow_agreed _ _ _ El' Ag). now apply Ef.
    - split; [eauto|]. intros Ag. now rewrite Em.
    - split; [eauto|]. intros Ag. now rewrite Em.
    - split; [eauto|]. intros Ag. now rewrite Em.
  Qed.
  Lemma ni_same {A : Type} (m : M A) : (forall d, d_log (snd (m d)) = d_log d) -> ni m m.
  Proof. intros H d. split; [exists []; apply H|reflexivity]. Qed.
  Lemma ni_ret {A : Type} (a : A) : ni (ret a) (ret a).
  Proof. now apply ni_same. Qed.
  Lemma ni_fail {A : Type} e : ni (fail e : M A) (fail e).
  Proof. now apply ni_same. Qed.
  Lemma ni_panic {A : Type} : ni (panic : M A) panic.
  Proof. now apply ni_same. Qed.
  Lemma ni_option {A : Type} e (o : option A) : ni (of_option e o) (of_option e o).
  Proof. now apply ni_same; destruct o. Qed.
  Lemma ni_sres {A : Type} e (r : sres A) : ni (of_sres e r) (of_sres e r).
  Proof. now apply ni_same; destruct r. Qed.
  Lemma ni_ares {A : Type} (r : ares A) : ni (of_ares r) (of_ares r).
  Proof. now apply ni_same; destruct r. Qed.
  Lemma ni_check b e : ni (check b e) (check b e).
  Proof. now apply ni_same; destruct b. Qed.
  Lemma ni_read s : ni (read_slot s) (read_slot s).
  Proof. apply ni_same. intros d. unfold read_slot. destruct (wear_init (get_slot s d)); [|reflexivity]. now destruct d, s. Qed.
  Lemma ni_write s p : ni (write_slot s p) (write_slot s p).
  Proof.
    apply ni_same. intros d. unfold write_slot. destruct (wear_init (get_slot s d)); [|reflexivity].
    destruct (next_fault (d_faults d)) as [f fs]. destruct (wear_write_at (get_slot s d) n p f) as [w' []]; now destruct d, s.
  Qed.
  Lemma ni_write_or s p e : ni (write_or s p e) (write_or s p e).
  Proof. apply ni_bind; [apply ni_write|intros; apply ni_check]. Qed.
  Lemma ni_read_or s e : ni (read_or s e) (read_or s e).
  Proof. apply ni_bind; [apply ni_read|]. intros []; [apply ni_fail|apply ni_fail|apply ni_ret] || (intros []; (apply ni_ret || apply ni_fail)). Qed.
  Lemma ni_upload a buf : ni (the_upload a buf) (the_upload a buf).
  Proof. apply ni_same. intros d. unfold the_upload. destruct (upload a buf (d_up d) (d_ufaults d)) as [[r u] s]. now destruct d. Qed.
  Lemma ni_drop a : ni (drop_upload a) (drop_upload a).
  Proof. apply ni_same. intros d. now destruct d. Qed.
  Lemma ni_show v : ni (show C v) (show C v).
  Proof. apply ni_same. intros d. unfold show. destruct (cf_room C v); [|reflexivity]. now destruct d. Qed.
  Lemma ni_set_path p : ni (fun d => (Ok tt, set_path p d)) (fun d => (Ok tt, set_path p d)).
  Proof. apply ni_same. intros d. now destruct d. Qed.
  Lemma ni_sign src k dg data : src <> SrcHmac -> ni (sign_with O src k dg data) (sign_with O' src k dg data).
  Proof.
    intros Hs d. unfold sign_with. cbn [o_sign with_sign]. specialize (Re (fst k) (snd k) dg).
    destruct (o_sign O (fst k) (snd k) dg) as [s|] eqn:E.
    - pose proof (proj1 (ok_sign O K _ _ _ _ E)) as L. replace (100 <? List.length s)%nat with false by lia.
      cbn [snd]. split; [exists [mkSig src k dg data]; now destruct d|]. intros Ag.
      assert (A : agrees (mkSig src k dg data)) by (apply Ag; destruct d; now left).
      unfold agree_on in A. cbn [sg_src sg_key sg_digest] in A. rewrite E in A.
      assert (X : sg (fst k) (snd k) dg = Some s) by (destruct src; congruence).
      rewrite X. now replace (100 <? List.length s)%nat with false by lia.
    - rewrite (proj2 Re eq_refl). split; [now exists []|reflexivity].
  Qed.

  Lemma addr_same c pk : addr_new O' c pk = addr_new O c pk.
  Proof. reflexivity. Qed.
  Lemma ni_address k : ni (address O k) (address O' k).
  Proof. apply ni_bind; [apply ni_option|]. intros pk. rewrite addr_same. apply ni_sres. Qed.
  Lemma ni_baking_key : ni read_baking_key read_baking_key.
  Proof. apply ni_bind; [apply ni_read_or|intros; apply ni_ares]. Qed.
  Lemma ni_check_stored k : ni (check_with_stored k) (check_with_stored k).
  Proof.
    apply ni_bind; [apply ni_read_or|]. intros p. apply ni_bind; [apply ni_ares|]. intros o. apply ni_bind; [apply ni_option|].
    intros st. apply ni_ret.
  Qed.
  Lemma ni_baking_sign src dg data : src <> SrcHmac -> ni (baking_sign O src dg data) (baking_sign O' src dg data).
  Proof.
    intros Hs. apply ni_bind; [apply ni_read_or|]. intros p. apply ni_bind; [apply ni_ares|]. intros o. apply ni_bind; [apply ni_option|].
    intros st. now apply ni_sign.
  Qed.
  Lemma ni_requested buf : ni (requested_key O buf) (requested_key O' buf).
  Proof.
    apply ni_bind; [apply ni_option|]. intros c. apply ni_bind; [apply ni_option|]. intros cd. apply ni_bind; [apply ni_option|].
    intros pa. apply ni_bind; [apply ni_option|]. intros pk. apply ni_ret.
  Qed.

  Ltac ni_step :=
    match goal with
    | |- ni (bind _ _) (bind _ _) => apply ni_bind; [|intros ?]
    | |- ni (ret _) _ => apply ni_ret
    | |- ni (fail _) _ => apply ni_fail
    | |- ni panic _ => apply ni_panic
    | |- ni (of_option _ _) _ => apply ni_option
    | |- ni (of_sres _ _) _ => apply ni_sres
    | |- ni (of_ares _) _ => apply ni_ares
    | |- ni (check _ _) _ => apply ni_check
    | |- ni (read_slot _) _ => apply ni_read
    | |- ni (write_or _ _ _) _ => apply ni_write_or
    | |- ni (read_or _ _) _ => apply ni_read_or
    | |- ni (the_upload _ _) _ => apply ni_upload
    | |- ni (show _ _) _ => apply ni_show
    | |- ni (address _ _) _ => apply ni_address
    | |- ni (pubkey _ _) _ => apply ni_option
    | |- ni (digest32 _ _) _ => apply ni_option
    | |- ni (the_curve _) _ => apply ni_option
    | |- ni (the_payload _) _ => apply ni_option
    | |- ni read_baking_key _ => apply ni_baking_key
    | |- ni (check_with_stored _) _ => apply ni_check_stored
    | |- ni (baking_sign _ _ _ _) _ => apply ni_baking_sign; discriminate
    | |- ni (requested_key _ _) _ => apply ni_requested
    | |- ni (store_baking_key _) _ => apply ni_write_or
    | |- ni remove_baking_key _ => apply ni_write_or
    | |- ni (match ?x with _ => _ end) _ => destruct x
    end.
  Ltac nis := repeat ni_step.

  Lemma ni_consensus p rem sh dg data : ni (handle_consensus O p rem sh dg data) (handle_consensus O' p rem sh dg data).
  Proof. unfold handle_consensus. nis. Qed.
  Lemma ni_delegation rem sh dg data : ni (handle_delegation C rem sh dg data) (handle_delegation C rem sh dg data).
  Proof. unfold handle_delegation. nis. Qed.
  Lemma ni_baker sh up : ni (baker_sign C O sh up) (baker_sign C O' sh up).
  Proof. unfold baker_sign. nis; first [apply ni_consensus|apply ni_delegation]. Qed.
  Lemma ni_start sh up : ni (start_sign C O sh up) (start_sign C O' sh up).
  Proof. unfold start_sign. nis. apply ni_set_path. Qed.
  Lemma ni_with_upload a buf f f' : (forall up, ni (f up) (f' up)) -> ni (with_upload a buf f) (with_upload a buf f').
  Proof.
    intros H. unfold with_upload. nis. intros d. destruct (H u d) as [[l El] Ef].
    destruct (f u d) as [[r|e| |] d1]; cbn [snd] in *.
    - destruct (ni_drop a d1) as [[l' El'] _]. unfold bind, ret. cbn [drop_upload snd fst] in *. split; [exists (l' ++ l); now rewrite El', El, app_assoc|].
      intros Ag. now rewrite (Ef (grow_agreed _ _ _ El' Ag)).
    - destruct (ni_drop a d1) as [[l' El'] _]. unfold bind, fail. cbn [drop_upload snd fst] in *. split; [exists (l' ++ l); now rewrite El', El, app_assoc|].
      intros Ag. now rewrite (Ef (grow_agreed _ _ _ El' Ag)).
    - split; [eauto|]. intros Ag. now rewrite (Ef Ag).
    - split; [eauto|]. intros Ag. now rewrite (Ef Ag).
  Qed.

  (** The signature made for an HMAC: only its hash matters. *)
  Lemma ni_hmac_sign k dg data (f : bytes -> M reply) : (forall hk, ni (f hk) (f hk)) ->
    ni (do s <- sign_with O SrcHmac k dg data; do hk <- of_option ExecutionError (o_sha512 O s); f hk)
       (do s <- sign_with O' SrcHmac k dg data; do hk <- of_option ExecutionError (o_sha512 O' s); f hk).
  Proof.
    intros Hf d. unfold sign_with. cbn [o_sign o_sha512 with_sign]. unfold bind at 1 3 5. specialize (Re (fst k) (snd k) dg).
    destruct (o_sign O (fst k) (snd k) dg) as [s|] eqn:E.
    - pose proof (proj1 (ok_sign O K _ _ _ _ E)) as L. replace (100 <? List.length s)%nat with false by lia.
      set (d1 := add_sig (mkSig SrcHmac k dg data) d).
      assert (L1 : d_log d1 = [mkSig SrcHmac k dg data] ++ d_log d) by now destruct d.
      assert (N : ni (do hk <- of_option ExecutionError (o_sha512 O s); f hk) (do hk <- of_option ExecutionError (o_sha512 O s); f hk))
        by (apply ni_bind; [apply ni_option|exact Hf]).
      destruct (N d1) as [[l El] _]. split; [exists (l ++ [mkSig SrcHmac k dg data]); rewrite El, L1, <- app_assoc; reflexivity|].
      intros Ag. pose proof (grow_agreed _ _ _ El Ag) as Ag1.
      assert (A : agrees (mkSig SrcHmac k dg data)) by (apply Ag1; rewrite L1; now left).
      unfold agree_on in A. cbn [sg_src sg_key sg_digest] in A. rewrite E in A. cbn [option_map] in A.
      destruct (sg (fst k) (snd k) dg) as [s'|] eqn:E'; [|discriminate A]. cbn [option_map] in A.
      pose proof (proj1 (ok_sign O' K' _ _ _ _ E')) as L'. replace (100 <? List.length s')%nat with false by lia.
      unfold bind. injection A as ->. reflexivity.
    - rewrite (proj2 Re eq_refl). split; [now exists []|reflexivity].
  Qed.
  Lemma ni_hmac buf : ni (h_hmac O buf) (h_hmac O' buf).
  Proof.
    unfold h_hmac. apply ni_bind; [nis|]. intros c. apply ni_bind; [nis|]. intros [|n cd]; [nis|]. cbv zeta.
    apply ni_bind; [nis|]. intros _. apply ni_bind; [nis|]. intros pa. apply ni_hmac_sign. intros hk. nis.
  Qed.

  Lemma ni_dispatch_common ins buf : ni (dispatch_common C O ins buf) (dispatch_common C O' ins buf).
  Proof.
    unfold dispatch_common, h_legacy_version, h_get_public, h_prompt, h_get_address, h_git, h_version, h_baker_sign, h_sign.
    repeat (ni_step || rewrite addr_same || (apply ni_with_upload; intros; first [apply ni_baker|apply ni_start])).
  Qed.
  Lemma ni_dispatch buf : ni (dispatch C O buf) (dispatch C O' buf).
  Proof.
    unfold dispatch, h_reset, h_main_hwm, h_all_hwm, h_authorize, h_deauthorize, h_query, h_setup, h_baker_sign, h_sign. cbv zeta.
    repeat (ni_step || apply ni_hmac || apply ni_dispatch_common || (apply ni_with_upload; intros; first [apply ni_baker|apply ni_start])).
  Qed.
  Lemma ni_accept v room : ni (accept O v room) (accept O' v room).
  Proof.
    unfold accept. destruct v; nis.
    - apply ni_same. intros d. now destruct (d_path d).
    - apply ni_sign. discriminate.
    - apply ni_set_path.
  Qed.
  Lemma ni_reject v : ni (reject v) (reject v).
  Proof. apply ni_same. intros d. destruct v; try reflexivity. now destruct d. Qed.

  Lemma finish_log room x : d_log (snd (finish room x)) = d_log (snd x).
  Proof.
    destruct x as [[[data|]|e| |] d]; cbn [finish snd]; try reflexivity.
    - destruct (room <? len data + 2); reflexivity.
    - destruct (room <? len [] + 2); reflexivity.
  Qed.
  Lemma ni_decide f f' d : (forall v room, ni (f v room) (f' v room)) ->
    (exists l, d_log (snd (decide C f d)) = l ++ d_log d) /\ (agreed (snd (decide C f d)) -> decide C f' d = decide C f d).
  Proof.
    intros H. unfold decide. destruct (d_ui d) as [v|]; [|split; [now exists []|reflexivity]].
    set (room := match cf_room C v with Some r => r | None => 0 end).
    assert (N : ni (bind (f v room) (fun out => ret (Now out))) (bind (f' v room) (fun out => ret (Now out)))) by (apply ni_bind; [apply H|intros; apply ni_ret]).
    destruct (N (set_ui None d)) as [[l El] Ef]. unfold agreed. rewrite finish_log. split.
    - exists l. rewrite El. now destruct d.
    - intros Ag. now rewrite (Ef Ag).
  Qed.
  Lemma ni_step' d e : (exists l, d_log (snd (step C O d e)) = l ++ d_log d) /\ (agreed (snd (step C O d e)) -> step C O' d e = step C O d e).
  Proof.
    destruct e as [buf rx| | | |]; cbn [step].
    - destruct (d_ui d); [split; [now exists []|reflexivity]|]. unfold agreed. rewrite finish_log.
      destruct (apdu_read_ok buf rx); [|split; [now exists []|reflexivity]].
      destruct (ni_dispatch buf d) as [El Ef]. split; [exact El|]. intros Ag. now rewrite (Ef Ag).
    - apply ni_decide. intros; apply ni_accept.
    - apply ni_decide. intros; apply ni_reject.
    - apply ni_decide. intros; apply ni_fail.
    - split; [now exists []|reflexivity].
  Qed.
  Lemma ni_run es : forall d, (exists l, d_log (snd (run C O d es)) = l ++ d_log d) /\ (agreed (snd (run C O d es)) -> run C O' d es = run C O d es).
  Proof.
    induction es as [|e es IH]; intros d; cbn [run]; [split; [now exists []|reflexivity]|].
    destruct (ni_step' d e) as [[l El] Ef]. destruct (step C O d e) as [a d1]. destruct (IH d1) as [[l' El'] Er].
    destruct (run C O d1 es) as [as_ d2]. cbn [snd] in *. split; [exists (l' ++ l); now rewrite El', El, app_assoc|].
    intros Ag. rewrite (Ef (grow_agreed _ _ _ El' Ag)). now rewrite (Er Ag).
  Qed.

  (** With the screen and the buttons. *)
  Variable table : list baker.
  Variable hw : hardware.
  Lemma review_same v : review_of O' table hw v = review_of O table hw v.
  Proof. reflexivity. Qed.
  Lemma pending_same d : pending_review O' table hw d = pending_review O table hw d.
  Proof. reflexivity. Qed.
  Lemma ni_perform a z d : (exists l, d_log (u_dev (snd (perform C O hw a z d))) = l ++ d_log d) /\
    (agreed (u_dev (snd (perform C O hw a z d))) -> perform C O' hw a z d = perform C O hw a z d).
  Proof.
    unfold perform. destruct (ni_run (event_of a) d) as [El Er]. destruct (run C O d (event_of a)) as [l d']. cbn [snd u_dev] in *.
    split; [exact El|]. intros Ag. now rewrite (Er Ag).
  Qed.
  Lemma ni_ui_step s i : (exists l, d_log (u_dev (snd (ui_step C O table hw s i))) = l ++ d_log (u_dev s)) /\
    (agreed (u_dev (snd (ui_step C O table hw s i))) -> ui_step C O' table hw s i = ui_step C O table hw s i).
  Proof.
    destruct i as [buf rx|b|]; cbn [ui_step].
    - destruct (ni_step' (u_dev s) (EApdu buf rx)) as [[l El] Es]. destruct (step C O (u_dev s) (EApdu buf rx)) as [a d]. cbn [snd] in El, Es.
      destruct a; try (cbn [snd u_dev]; split; [eauto|]; intros Ag; rewrite (Es Ag); reflexivity).
      destruct (d_ui d) as [v|] eqn:U; [|cbn [snd u_dev]; split; [eauto|]; intros Ag; rewrite (Es Ag), U; reflexivity].
      destruct (zui_show hw (review_of O table hw v) (u_zui s)) as [z act] eqn:Z.
      destruct (ni_perform act z d) as [[l' El'] Ep]. destruct (perform C O hw act z d) as [as_ s']. cbn [snd] in *.
      split; [exists (l' ++ l); now rewrite El', El, app_assoc|]. intros Ag.
      rewrite (Es (grow_agreed _ _ _ El' Ag)), U. rewrite review_same, Z, (Ep Ag). reflexivity.
    - rewrite pending_same. destruct (press hw (pending_review O table hw (u_dev s)) (u_zui s) b) as [z act].
      apply ni_perform.
    - destruct (ni_step' (u_dev s) EPower) as [El Es]. destruct (step C O (u_dev s) EPower) as [a d]. cbn [snd u_dev] in *.
      split; [exact El|]. intros Ag. now rewrite (Es Ag).
  Qed.
  Lemma ni_ui_run is : forall s, (exists l, d_log (u_dev (snd (ui_run C O table hw s is))) = l ++ d_log (u_dev s)) /\
    (agreed (u_dev (snd (ui_run C O table hw s is))) -> ui_run C O' table hw s is = ui_run C O table hw s is).
  Proof.
    induction is as [|i is IH]; intros s; cbn [ui_run]; [split; [now exists []|reflexivity]|].
    destruct (ni_ui_step s i) as [[l El] Es]. destruct (ui_step C O table hw s i) as [a s1]. destruct (IH s1) as [[l' El'] Er].
    destruct (ui_run C O table hw s1 is) as [as_ s2]. cbn [snd] in *. split; [exists (l' ++ l); now rewrite El', El, app_assoc|].
    intros Ag. rewrite (Es (grow_agreed _ _ _ El' Ag)). now rewrite (Er Ag).
  Qed.
End Secret.
