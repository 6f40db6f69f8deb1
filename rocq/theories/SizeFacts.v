(** No message that does not fit the upload buffer is ever signed. *)
From Coq Require Import List NArith ZArith Lia Bool Arith ZifyBool ZifyNat ZifyN.
From Verif Require Import Base BaseFacts Flash FlashFacts Codecs CodecsSpec CodecsFacts
  Upload UploadSpec UploadFacts Baking BakingSpec BakingFacts Operations Oracles Address AddressSpec
  Device DeviceSpec DeviceFacts DeviceProofs DeviceHist DeviceSigs DeviceAnswers DeviceReviews DeviceKeys
  DeviceSlots DeviceCommands DeviceUploads DeviceLive AcceptedFacts.
Import ListNotations.
Open Scope N_scope.

(** What a final packet leaves fits the buffer. *)
Lemma split_size u up : sbuf_ok RAM_CAP FLASH_CAP (u_buf u) -> u_split u = Ok up ->
  (1 + length (uo_first up) + length (uo_data up) <= CAPACITY)%nat.
Proof.
  intros Hok. pose proof (contents_length RAM_CAP FLASH_CAP ltac:(unfold RAM_CAP, FLASH_CAP; lia) _ Hok) as L. destruct Hok as (_ & _ & Hc).
  assert (Hl : (length (sb_read_exact (u_buf u)) <= CAPACITY)%nat).
  { rewrite L. destruct (sb_state (u_buf u)); unfold RAM_CAP, FLASH_CAP, CAPACITY in *; lia. }
  unfold u_split. destruct (sb_read_exact (u_buf u)) as [|q rest]; [discriminate|].
  destruct (len rest <? u_init_len u); [discriminate|]. intros E. injection E as <-. cbn [uo_first uo_data].
  rewrite firstn_length, skipn_length. cbn [length] in Hl. lia.
Qed.
Lemma upload_size a buf u s up uu ss : sized u ->
  upload a buf u s = (Ok (Some up), uu, ss) -> (1 + length (uo_first up) + length (uo_data up) <= CAPACITY)%nat.
Proof.
  intros Hok. unfold upload. destruct (packet_of_p1 (apdu_p1 buf)) as [pt|]; [|discriminate].
  destruct (is_init pt).
  - destruct (u_write _ _ s) as [[r u2] s2]. destruct r; try discriminate.
    destruct (apdu_payload buf) as [pl|]; [|discriminate].
    destruct (u_write _ pl s2) as [[r3 u4] s4]. destruct r3; discriminate.
  - destruct (lock_acquire acc_eqb (u_lock u) a); [discriminate|].
    destruct (u_write_payload u (apdu_payload buf) s) as [[r u1] s1] eqn:W.
    destruct r as [x| | |]; try discriminate. destruct (is_next pt); [discriminate|].
    assert (Hok1 : sbuf_ok RAM_CAP FLASH_CAP (u_buf u1)).
    { unfold u_write_payload in W. destruct (apdu_payload buf) as [pl|].
      - pose proof (u_write_sized u pl s Hok) as X. rewrite W in X. exact X.
      - injection W as _ <- _. exact Hok. }
    destruct (u_split u1) as [o| | |] eqn:S1; try discriminate.
    intros E. injection E as <- <- <-. exact (split_size _ _ Hok1 S1).
Qed.

Lemma encoded_length LEN l p : path_encodes LEN l p -> length l = (1 + 4 * length p)%nat /\ (1 <= length p)%nat.
Proof.
  intros [n gs H1 H2 H3 H4]. cbn [length]. rewrite map_length.
  assert (length (concat gs) = 4 * length gs)%nat.
  { clear H3. induction H4 as [|g gs Hg _ IH]; [reflexivity|]. cbn [concat length]. rewrite app_length. lia. }
  lia.
Qed.

Section Size.
  Variable C : config.
  Variable O : oracles.

  Lemma completed_size f u es a buf up uu ss p :
    let d := snd (run C O (dev_fresh f u) es) in
    upload a buf (d_up d) (d_ufaults d) = (Ok (Some up), uu, ss) ->
    path_read BIP32_MAX_LENGTH (uo_first up) = Some p ->
    (1 <= length p)%nat /\ (2 + 4 * length p + length (uo_data up) <= CAPACITY)%nat.
  Proof.
    intros d Eu Ep. pose proof (upload_size _ _ _ _ _ _ _ (reach_sized C O f u es) Eu) as X.
    apply path_read_sound, encoded_length in Ep. lia.
  Qed.

  (** C99. *)
  Lemma signed_fits f u es g : Forall event_ok es ->
    In g (d_log (snd (run C O (dev_fresh f u) es))) -> sg_src g <> SrcHmac ->
    (1 <= length (snd (sg_key g)))%nat /\ (2 + 4 * length (snd (sg_key g)) + length (sg_data g) <= CAPACITY)%nat.
  Proof.
    intros E Hg Ns.
    destruct (history_signs C O es (dev_fresh f u) (rev (d_log (snd (run C O (dev_fresh f u) es)))) E
      (reach_ui C O f u [] (Forall_nil _))) with (g := g) as (es0 & e & es3 & Ee & Ca & So & An & Lg).
    - unfold signed_between. rewrite rev_involutive. cbn. now rewrite app_nil_r.
    - now rewrite <- in_rev.
    - cbn zeta in *. subst es. apply Forall_app in E as [E0 E3]. unfold sig_cause in Ca. clear So An.
      destruct (sg_src g) eqn:Sg; [| | |now elim Ns].
      + destruct Ca as (Cb & _ & buf & rx & ins & up & uu & ss & -> & Cm & Hi & Eu & Ed & Ec & Ep).
        inversion E3 as [|? ? He _]; subst. cbn [event_ok] in He. rewrite <- Ed.
        exact (completed_size f u es0 AccBaking buf up uu ss _ Eu Ep).
      + destruct Ca as (-> & Sk & sh & br & o & Ud).
        destruct (pending_origin C O es0 (dev_fresh f u) _ E0 eq_refl Ud) as (es1 & e & es2 & -> & Fa & Sp & Rq).
        cbn zeta in Sp, Rq. pose proof E0 as E0'. apply Forall_app in E0' as [E1 E2]. inversion E2 as [|? ? He _]; subst.
        destruct Rq as (buf & rx & ins & -> & Cm & up & Cs & Ed & _ & k & K & Ec & Ep).
        assert (Ek : k = sg_key g).
        { pose proof (key_stays C O f u es1 (EApdu buf rx) k eq_refl) as X. cbv zeta in X. rewrite Sp in X. cbn [snd] in X.
          apply X in K. destruct K as (q & K1 & K2), Sk as (q' & S1 & S2). rewrite S1 in K1.
          apply read_eq, data_eq in K1. subst q'. rewrite S2 in K2. congruence. }
        subst k. destruct Cs as (Cb & Hb & ins' & uu & ss & Cm' & Hi & Eu). rewrite Ed.
        exact (completed_size f u es1 AccBaking buf up uu ss _ Eu Ep).
      + destruct Ca as (-> & Sk & sh & p & Ud).
        destruct (pending_origin C O es0 (dev_fresh f u) _ E0 eq_refl Ud) as (es1 & e & es2 & -> & Fa & Sp & Rq).
        cbn zeta in Sp, Rq. pose proof E0 as E0'. apply Forall_app in E0' as [E1 E2]. inversion E2 as [|? ? He _]; subst.
        destruct Rq as (buf & rx & ins & -> & Cm & up & Cs & Ed & _ & c & pa & Ec & Ep & Epath).
        assert (Ek : sg_key g = (c, pa)) by congruence.
        destruct Cs as (Hb & ins' & uu & ss & Cm' & Hi & Eu). rewrite Ek, Ed.
        exact (completed_size f u es1 AccSign buf up uu ss pa Eu Ep).
  Qed.
End Size.
