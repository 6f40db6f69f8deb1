(** Requests that concern the stored key, the HMAC command and the version commands are
    served. *)
From Coq Require Import List NArith ZArith Lia Bool Arith ZifyBool ZifyNat ZifyN.
From Verif Require Import Base BaseFacts Flash FlashFacts Codecs CodecsSpec CodecsFacts
  Upload UploadSpec UploadFacts Baking BakingSpec BakingFacts Operations Oracles Address AddressSpec
  AddressFacts AddressExamples
  FlashSpec Device DeviceSpec DeviceFacts DeviceProofs DeviceHist DeviceSigs DeviceAnswers DeviceReviews DeviceKeys
  DeviceSlots DeviceCommands ServiceSpec.
Import ListNotations.
Open Scope N_scope.

Section Admin.
  Variable C : config.
  Variable O : oracles.
  Hypothesis K : oracles_ok O.

  Lemma pubkey_short k pk : o_pubkey O (fst k) (snd k) = Some pk -> len pk <= 65.
  Proof. intros H. destruct (ok_pubkey _ K _ _ _ H) as [L _]. unfold len, pubkey_length in *. destruct (fst k); lia. Qed.

  Lemma address_ok k pk d : addressable O k pk -> exists a, address O k d = (Ok a, d).
  Proof.
    intros (Hk & l & h & F & H & T). destruct (key_text_new O _ _ _ _ K F H T) as (a & t & Ha & _).
    exists a. unfold address, pubkey. rewrite Hk. unfold bind. cbn [of_option]. unfold ret. rewrite Ha. reflexivity.
  Qed.

  Lemma ui_back d v : d_ui d = None -> set_ui None (set_ui (Some v) d) = d.
  Proof. destruct d; cbn. congruence. Qed.
  Lemma ui_set d v : d_ui (set_ui v d) = v.
  Proof. destruct d; reflexivity. Qed.
  Lemma slot_ui d v s : get_slot s (set_ui v d) = get_slot s d.
  Proof. destruct d, s; reflexivity. Qed.
  Lemma faults_ui d v : d_faults (set_ui v d) = d_faults d.
  Proof. destruct d; reflexivity. Qed.

  (** A rejected review. *)
  Lemma reject_plain d v : roomy C 110 -> d_ui d = None ->
    match v with VSign _ _ _ _ => False | _ => True end ->
    step C O (set_ui (Some v) d) EReject = (AReply [0x69; 0x86], d).
  Proof.
    intros R U V. destruct (R v) as (room & Er & Lr). cbn [step]. unfold decide. rewrite ui_set, Er, ui_back by exact U.
    replace (bind (reject v) (fun out => ret (Now out)) d) with (@Err reply CommandNotAllowed, d)
      by (destruct v; [contradiction|reflexivity..]).
    cbn [finish]. replace (room <? len [] + 2) with false by (unfold len; cbn [length]; lia). reflexivity.
  Qed.

  (** ** Authorise *)

  Lemma authorise_request d buf rx ins k pk : cf_baking C = true -> apdu_ok buf -> command d buf rx ins ->
    In ins [0x01; 0xA1] -> 1 <= nth 2 buf 0 -> names BIP32_MAX_LENGTH buf k -> addressable O k pk -> roomy C 110 ->
    exists a, step C O d (EApdu buf rx) = (APending, set_ui (Some (VAuthorize k a)) d).
  Proof.
    intros Cb Hb Hc Hi H1 Hn Hk R. destruct (address_ok k pk d Hk) as [a Ha]. exists a.
    rewrite (step_command C O d buf rx ins Hb Hc). destruct Hc as (U & _ & E0 & E1).
    rewrite (dispatch_at C O buf _ E0 E1), Cb.
    replace (if ins =? 0x06 then _ else _) with (h_authorize C O buf) by (destruct Hi as [<-|[<-|[]]]; reflexivity).
    destruct (names_reads BIP32_MAX_LENGTH buf k Hb Hn) as (E2 & E3 & E4).
    unfold h_authorize. unfold needs_review, apdu_p1. replace (1 <=? nth 2 buf 0) with true by lia.
    rewrite E2, E3. cbn [check]. unfold bind at 1, ret at 1. unfold bind at 1, ret at 1. unfold bind at 1, ret at 1.
    rewrite E4. unfold bind at 1. cbn [of_option]. unfold ret at 1. unfold bind at 1.
    rewrite <- surjective_pairing, Ha. destruct (R (VAuthorize k a)) as (room & Er & _). unfold show. rewrite Er. reflexivity.
  Qed.

  Lemma key_names LEN buf k : apdu_ok buf -> names LEN buf k -> path_ok LEN (snd k).
  Proof.
    intros [_ Hb] [_ P]. apply path_read_complete in P. eapply path_read_ok; [|exact P].
    apply bytes_ok_firstn, bytes_ok_skipn, Hb.
  Qed.

  Lemma stores_ui b a d v : stores b a d -> stores b a (set_ui v d).
  Proof.
    intros [S F]. constructor; [|now rewrite faults_ui]. intros s. rewrite slot_ui. apply S.
  Qed.
  Lemma stores_reads b a d b' a' d' s : stores b a d -> stores b' a' d' -> a' s = a s ->
    wear_read (get_slot s d') = wear_read (get_slot s d).
  Proof.
    intros S S' E. pose proof (ss_read _ _ _ (st_slot _ _ _ S s)) as R. pose proof (ss_read _ _ _ (st_slot _ _ _ S' s)) as R'.
    congruence.
  Qed.

  Lemma authorise_approved b a d k v pk : stores b a d -> b SKey + 1 < 2 ^ 64 -> d_ui d = None -> roomy C 110 ->
    key_ok k -> o_pubkey O (fst k) (snd k) = Some pk ->
    exists d2, step C O (set_ui (Some (VAuthorize k v)) d) EApprove = (AReply (len pk :: pk ++ [0x90; 0]), d2) /\
      d_log d2 = d_log d /\
      forall x, x = d2 \/ x = restart d2 ->
        d_ui x = None /\ (forall k', stored_key x k' <-> k' = k) /\
        forall s, s <> SKey -> wear_read (get_slot s x) = wear_read (get_slot s d).
  Proof.
    intros S L U R Kk Pk. pose proof (pubkey_short _ _ Pk) as Hl.
    destruct (write_or_stores _ _ _ SKey (key_serialize k) ExecutionError L (key_payload _) S) as (d1 & E1 & S1 & R1).
    destruct (R (VAuthorize k v)) as (room & Er & Lr).
    exists d1. split; [|split; [apply R1|]].
    - cbn [step]. unfold decide. rewrite ui_set, Er, ui_back by exact U. cbn [accept]. unfold pubkey. rewrite Pk.
      unfold bind at 1. unfold bind at 1. cbn [of_option]. unfold ret at 1. unfold bind, store_baking_key. rewrite E1.
      unfold ret. rewrite N.mod_small by lia. cbn [finish].
      replace (room <? len (len pk :: pk) + 2) with false by (unfold len in *; cbn [length]; lia). reflexivity.
    - intros x Hx. assert (U1 : d_ui d1 = None) by (destruct R1 as (_ & _ & _ & _ & ->); exact U).
      assert (Sx : stores (bump SKey b) (aset SKey (key_serialize k) a) x /\ d_ui x = None).
      { destruct Hx as [->| ->]; [auto|]. split; [now apply stores_restart|]. destruct d1; reflexivity. }
      destruct Sx as [Sx Ux]. split; [exact Ux|]. split.
      + intros k'. pose proof (ss_read _ _ _ (st_slot _ _ _ Sx SKey)) as Rd.
        change (aset SKey (key_serialize k) a SKey) with (Some (key_serialize k)) in Rd. cbn [get_slot expected_read] in Rd.
        unfold stored_key. rewrite Rd. split.
        * intros (p & Ep & Kp). injection Ep as <-. rewrite key_round in Kp by exact Kk. congruence.
        * intros ->. exists (key_serialize k). split; [reflexivity|]. now apply key_round.
      + intros s N. eapply stores_reads; [exact S|exact Sx|]. unfold aset. destruct (slot_eq_dec SKey s); congruence.
  Qed.

  Lemma authorise_served f u es buf rx ins k pk : Forall intact_fault f -> Forall up_fault_ok u ->
    Forall event_ok es -> len es + 1 < 2 ^ 64 ->
    let d := snd (run C O (dev_fresh f u) es) in
    d_faults d = [] -> cf_baking C = true -> apdu_ok buf -> command d buf rx ins -> In ins [0x01; 0xA1] ->
    1 <= nth 2 buf 0 -> names BIP32_MAX_LENGTH buf k -> addressable O k pk -> roomy C 110 ->
    exists d1 d2, step C O d (EApdu buf rx) = (APending, d1) /\
      step C O d1 EReject = (AReply [0x69; 0x86], d) /\
      step C O d1 EApprove = (AReply (len pk :: pk ++ [0x90; 0]), d2) /\ d_log d2 = d_log d /\
      forall x, x = d2 \/ x = restart d2 ->
        d_ui x = None /\ (forall k', stored_key x k' <-> k' = k) /\
        forall s, s <> SKey -> wear_read (get_slot s x) = wear_read (get_slot s d).
  Proof.
    intros Ff Fu E L d Fd Cb Hb Hc Hi H1 Hn Hk R.
    pose proof (reach_sound C O f u es Ff Fu E ltac:(lia)) as D. fold d in D.
    destruct (sound_stores _ _ D Fd) as [a S]. clear D.
    destruct (authorise_request d buf rx ins k pk Cb Hb Hc Hi H1 Hn Hk R) as [v Es].
    destruct (authorise_approved _ a d k v pk S L (proj1 Hc) R (key_names _ _ _ Hb Hn) (proj1 Hk)) as (d2 & E2 & Lg & X).
    exists (set_ui (Some (VAuthorize k v)) d), d2. split; [exact Es|].
    split; [apply reject_plain; [exact R|apply Hc|exact Logic.I]|]. split; [exact E2|]. split; [exact Lg|exact X].
  Qed.

  (** ** Deauthorise *)

  Lemma deauthorise_served f u es buf rx ins k pk : Forall intact_fault f -> Forall up_fault_ok u ->
    Forall event_ok es -> len es + 1 < 2 ^ 64 ->
    let d := snd (run C O (dev_fresh f u) es) in
    d_faults d = [] -> cf_baking C = true -> apdu_ok buf -> command d buf rx ins -> In ins [0x0C; 0xAC] ->
    1 <= nth 2 buf 0 -> stored_key d k -> addressable O k pk -> roomy C 110 ->
    exists d1 d2 d3, step C O d (EApdu buf rx) = (APending, d1) /\
      step C O d1 EReject = (AReply [0x69; 0x86], d3) /\ d_ui d3 = None /\ untouched d d3 /\
      step C O d1 EApprove = (AReply [0x90; 0], d2) /\ d_log d2 = d_log d /\
      forall x, x = d2 \/ x = restart d2 ->
        d_ui x = None /\ (forall k', ~ stored_key x k') /\
        forall s, s <> SKey -> wear_read (get_slot s x) = wear_read (get_slot s d).
  Proof.
    intros Ff Fu E L d Fd Cb Hb Hc Hi H1 (p & Rd & Kp) Hk R.
    pose proof (reach_sound C O f u es Ff Fu E ltac:(lia)) as D. fold d in D.
    destruct (sound_stores _ _ D Fd) as [a S]. clear D.
    destruct (read_or_stores _ _ _ SKey ConditionsNotSatisfied S) as (d0 & E0 & S0 & F0).
    assert (Ak : a SKey = Some p).
    { pose proof (ss_read _ _ _ (st_slot _ _ _ S SKey)) as X. cbn [get_slot] in X. rewrite Rd in X.
      destruct (a SKey); cbn [expected_read] in X; congruence. }
    rewrite Ak in E0. destruct (address_ok k pk d0 Hk) as [v Hv].
    pose proof (frame_none_rest _ _ F0) as (Lg0 & _ & _ & _ & Ui0).
    assert (U0 : d_ui d0 = None) by (rewrite Ui0; apply Hc).
    assert (Es : step C O d (EApdu buf rx) = (APending, set_ui (Some (VDeauthorize v)) d0)).
    { rewrite (step_command C O d buf rx ins Hb Hc). destruct Hc as (U & _ & E1 & E2).
      rewrite (dispatch_at C O buf _ E1 E2), Cb.
      replace (if ins =? 0x06 then _ else _) with (h_deauthorize C O buf) by (destruct Hi as [<-|[<-|[]]]; reflexivity).
      unfold h_deauthorize. unfold needs_review, apdu_p1. replace (1 <=? nth 2 buf 0) with true by lia.
      cbn [check]. unfold bind at 1, ret at 1. unfold read_baking_key. unfold bind at 1. unfold bind at 1.
      rewrite E0, Kp. cbn [of_ares]. unfold ret at 1. unfold bind at 1. cbn [of_option]. unfold ret at 1. unfold bind at 1.
      rewrite Hv. destruct (R (VDeauthorize v)) as (room & Er & _). unfold show. rewrite Er. reflexivity. }
    destruct (write_or_stores _ _ _ SKey key_empty ExecutionError L key_empty_ok S0) as (d2 & E2 & S2 & R2).
    exists (set_ui (Some (VDeauthorize v)) d0), d2, d0. split; [exact Es|].
    split; [apply reject_plain; [exact R|exact U0|exact Logic.I]|]. split; [exact U0|].
    split; [apply untouched_frame, F0|].
    split; [|split; [destruct R2 as [-> _]; exact Lg0|]].
    - destruct (R (VDeauthorize v)) as (room & Er & Lr).
      cbn [step]. unfold decide. rewrite ui_set, Er, ui_back by exact U0. cbn [accept].
      unfold bind at 1. unfold bind at 1. unfold remove_baking_key. rewrite E2. unfold ret. cbn [finish].
      replace (room <? len [] + 2) with false by (unfold len in *; cbn [length]; lia). reflexivity.
    - intros x Hx. assert (U2 : d_ui d2 = None) by (destruct R2 as (_ & _ & _ & _ & ->); exact U0).
      assert (Sx : stores (bump SKey (fun _ => len es)) (aset SKey key_empty a) x /\ d_ui x = None).
      { destruct Hx as [->| ->]; [auto|]. split; [now apply stores_restart|]. destruct d2; reflexivity. }
      destruct Sx as [Sx Ux]. split; [exact Ux|]. split.
      + intros k' (q & Eq & Kq). pose proof (ss_read _ _ _ (st_slot _ _ _ Sx SKey)) as Rx.
        change (aset SKey key_empty a SKey) with (Some key_empty) in Rx. cbn [get_slot expected_read] in Rx.
        rewrite Eq in Rx. injection Rx as ->. rewrite key_parse_empty in Kq. discriminate.
      + intros s N. eapply stores_reads; [exact S|exact Sx|]. unfold aset. destruct (slot_eq_dec SKey s); congruence.
  Qed.

  (** ** Setup *)

  Lemma encoding_length LEN enc p : path_encodes LEN enc p ->
    exists n rest, enc = n :: rest /\ length enc = (1 + 4 * N.to_nat n)%nat.
  Proof.
    intros [n groups H1 H2 H3 H4]. exists n, (concat groups). split; [reflexivity|]. cbn [length]. rewrite <- H3.
    clear H1 H2 H3. induction H4 as [|g gs Hg _ IH]; [reflexivity|]. cbn [concat length]. rewrite app_length, Hg. lia.
  Qed.
  Lemma slice_mid (x y z : bytes) : slice (length x) (length y) (x ++ y ++ z) = y.
  Proof. unfold slice. rewrite skipn_app_exact by reflexivity. now apply firstn_app_exact. Qed.

  Lemma setup_request d buf rx k main test chain enc rest pk : cf_baking C = true -> apdu_ok buf ->
    command d buf rx 0x0A -> nth 3 buf 0 = byte_of_curve (fst k) ->
    pay buf = be 4 chain ++ be 4 main ++ be 4 test ++ enc ++ rest -> path_encodes BIP32_MAX_LENGTH enc (snd k) ->
    main < 2 ^ 32 -> test < 2 ^ 32 -> chain < 2 ^ 32 -> addressable O k pk -> roomy C 110 ->
    exists a, step C O d (EApdu buf rx) = (APending, set_ui (Some (VSetup k main test (chain_of_u32 chain) a)) d).
  Proof.
    intros Cb Hb Hc Hcu Hp He Hm Ht Hch Hk R. destruct (address_ok k pk d Hk) as [a Ha]. exists a.
    rewrite (step_command C O d buf rx _ Hb Hc). destruct Hc as (U & _ & E0 & E1).
    rewrite (dispatch_at C O buf _ E0 E1), Cb.
    replace (if 0x0A =? 0x06 then _ else _) with (h_setup C O buf) by reflexivity.
    destruct (apdu_payload_260 buf Hb) as (pl & Epl & Ep & _). change (pl = pay buf) in Ep.
    destruct (encoding_length _ _ _ He) as (n & er & En & Ln).
    pose proof (be_length 4 chain) as L1. pose proof (be_length 4 main) as L2. pose proof (be_length 4 test) as L3.
    unfold h_setup, the_curve, the_payload, apdu_p2. rewrite Hcu, curve_round, Epl, Ep, Hp. cbn [of_option].
    unfold bind at 1, ret at 1. unfold bind at 1, ret at 1.
    set (A := be 4 chain) in *. set (B := be 4 main) in *. set (T := be 4 test) in *.
    set (P := A ++ B ++ T ++ enc ++ rest).
    assert (LP : length P = (12 + length enc + length rest)%nat) by (unfold P; rewrite !app_length, L1, L2, L3; lia).
    assert (S1 : slice 0 4 P = A) by (unfold slice, P; cbn [skipn]; now apply firstn_app_exact).
    assert (S2 : slice 4 4 P = B) by (rewrite <- L1 at 1; rewrite <- L2; apply slice_mid).
    assert (S3 : slice 8 4 P = T).
    { unfold P. rewrite (app_assoc A B). replace 8%nat with (length (A ++ B)) by (rewrite app_length; lia).
      rewrite <- L3. apply slice_mid. }
    assert (S4 : nth 12 P 0 = n).
    { unfold P. rewrite (app_assoc A B), (app_assoc (A ++ B) T). rewrite app_nth2 by (rewrite !app_length; lia).
      replace (12 - length ((A ++ B) ++ T))%nat with 0%nat by (rewrite !app_length; lia). rewrite En. reflexivity. }
    assert (S5 : slice 12 (1 + 4 * N.to_nat n) P = enc).
    { unfold P. rewrite (app_assoc A B), (app_assoc (A ++ B) T).
      replace 12%nat with (length ((A ++ B) ++ T)) by (rewrite !app_length; lia). rewrite <- Ln. apply slice_mid. }
    rewrite S1, S2, S3, S4, S5.
    replace (13 <=? length P)%nat with true by lia. cbn [check]. unfold bind at 1, ret at 1.
    replace (12 + (1 + 4 * N.to_nat n) <=? length P)%nat with true by lia. cbn [check]. unfold bind at 1, ret at 1.
    rewrite (path_read_complete _ _ _ He). cbn [of_option]. unfold bind at 1, ret at 1.
    unfold A, B, T. rewrite !unbe_be_small by assumption.
    unfold bind at 1. rewrite <- surjective_pairing, Ha.
    destruct (R (VSetup k main test (chain_of_u32 chain) a)) as (room & Er & _). unfold show. rewrite Er. reflexivity.
  Qed.

  Lemma setup_served f u es buf rx k main test chain enc rest pk : Forall intact_fault f -> Forall up_fault_ok u ->
    Forall event_ok es -> len es + 2 < 2 ^ 64 ->
    let d := snd (run C O (dev_fresh f u) es) in
    d_faults d = [] -> cf_baking C = true -> apdu_ok buf -> command d buf rx 0x0A ->
    nth 3 buf 0 = byte_of_curve (fst k) ->
    pay buf = be 4 chain ++ be 4 main ++ be 4 test ++ enc ++ rest -> path_encodes BIP32_MAX_LENGTH enc (snd k) ->
    main < 2 ^ 32 -> test < 2 ^ 32 -> chain < 2 ^ 32 -> addressable O k pk -> roomy C 110 ->
    exists d1 d2, step C O d (EApdu buf rx) = (APending, d1) /\
      step C O d1 EReject = (AReply [0x69; 0x86], d) /\
      step C O d1 EApprove = (AReply (len pk :: pk ++ [0x90; 0]), d2) /\
      forall x, x = d2 \/ x = restart d2 ->
        reports_all C O x main test chain /\ (forall k', stored_key x k' <-> k' = k).
  Proof.
    intros Ff Fu E L d Fd Cb Hb Hc Hcu Hp He Hm Ht Hch Hk R.
    destruct (setup_request d buf rx k main test chain enc rest pk Cb Hb Hc Hcu Hp He Hm Ht Hch Hk R) as [a Es].
    set (v := VSetup k main test (chain_of_u32 chain) a) in *.
    assert (Er : snd (run C O (dev_fresh f u) (es ++ [EApdu buf rx])) = set_ui (Some v) d).
    { rewrite run_app. fold d. cbn [run]. rewrite Es. reflexivity. }
    destruct (R v) as (room & Rm & Lr). pose proof (pubkey_short _ _ (proj1 Hk)) as Hl.
    assert (X := setup_sets C O f u (es ++ [EApdu buf rx]) k main test (chain_of_u32 chain) a room pk Ff Fu).
    rewrite Er in X. specialize (X ltac:(apply Forall_app; split; [exact E|]; apply Forall_cons; [exact Hb|apply Forall_nil])).
    specialize (X ltac:(rewrite len_app; change (len [EApdu buf rx]) with 1; lia)).
    specialize (X ltac:(rewrite faults_ui; exact Fd) Cb (ui_set _ _) Rm ltac:(lia) (proj1 Hk) ltac:(lia)).
    exists (set_ui (Some v) d). destruct (step C O (set_ui (Some v) d) EApprove) as [an d2] eqn:Ea.
    cbn [fst snd] in X. destruct X as [-> X]. exists d2. split; [exact Es|].
    split; [apply reject_plain; [exact R|apply Hc|exact Logic.I]|]. split; [reflexivity|].
    intros x Hx. specialize (X x Hx).
    rewrite chain_of_u32_round in X. exact X.
  Qed.

  (** ** HMAC and versions *)

  Lemma hmac_served d buf rx k enc message s hk out : cf_baking C = true -> apdu_ok buf -> command d buf rx 0x0E ->
    nth 3 buf 0 = byte_of_curve (fst k) -> pay buf = enc ++ message -> path_encodes BIP32_MAX_LENGTH enc (snd k) ->
    o_sign O (fst k) (snd k) HMAC_KEY = Some s -> o_sha512 O s = Some hk -> o_hmac256 O hk message = Some out ->
    exists d', step C O d (EApdu buf rx) = (AReply (out ++ [0x90; 0]), d') /\ d_ui d' = None /\
      d_log d' = mkSig SrcHmac k HMAC_KEY HMAC_KEY :: d_log d /\ forall sl, get_slot sl d' = get_slot sl d.
  Proof.
    intros Cb Hb Hc Hcu Hp He Hs Hk Ho.
    exists (add_sig (mkSig SrcHmac k HMAC_KEY HMAC_KEY) d).
    rewrite (step_command C O d buf rx _ Hb Hc). destruct Hc as (U & _ & E0 & E1).
    rewrite (dispatch_at C O buf _ E0 E1), Cb.
    replace (if 0x0E =? 0x06 then _ else _) with (h_hmac O buf) by reflexivity.
    destruct (apdu_payload_260 buf Hb) as (pl & Epl & Ep & _). change (pl = pay buf) in Ep.
    destruct (encoding_length _ _ _ He) as (n & er & En & Ln).
    split; [|destruct d; repeat split; try assumption; intros []; reflexivity].
    assert (X : h_hmac O buf d = (Ok (Now out), add_sig (mkSig SrcHmac k HMAC_KEY HMAC_KEY) d)).
    { unfold h_hmac, the_curve, the_payload, apdu_p2. rewrite Hcu, curve_round, Epl, Ep, Hp. cbn [of_option].
      unfold bind at 1, ret at 1. unfold bind at 1, ret at 1.
      assert (Hd : enc ++ message = n :: er ++ message) by (rewrite En; reflexivity). rewrite Hd. rewrite <- Hd.
      rewrite <- Ln. replace (length enc <=? length (enc ++ message))%nat with true by (rewrite app_length; lia).
      cbn [check]. unfold bind at 1, ret at 1. rewrite firstn_app_exact, skipn_app_exact by reflexivity.
      rewrite (path_read_complete _ _ _ He). cbn [of_option]. unfold bind at 1, ret at 1.
      unfold bind at 1. unfold sign_with. rewrite <- surjective_pairing, Hs.
      destruct (ok_sign _ K _ _ _ _ Hs) as [Ls _]. replace (100 <? length s)%nat with false by lia.
      rewrite Hk. unfold bind at 1. cbn [of_option]. unfold ret at 1. rewrite Ho. unfold bind. reflexivity. }
    rewrite X. apply finish_ok. destruct (ok_hmac256 _ K _ _ _ Ho) as [Lo _]. unfold len. lia.
  Qed.
End Admin.

Lemma versions C O d : d_ui d = None ->
  let '(major, minor, patch) := cf_version C in
  answers C O d 0x00 [if cf_baking C then 1 else 0; major; minor; patch; 0x90; 0] /\
  answers C O d 0x10 ([0; major; minor; patch; 0] ++ be 4 (cf_target C) ++ [0x90; 0]) /\
  ((8 <= length (cf_commit C))%nat -> answers C O d 0x09 (firstn 8 (cf_commit C) ++ [0; 0x90; 0])).
Proof.
  intros U. destruct (cf_version C) as [[major minor] patch] eqn:V. unfold answers.
  assert (G : forall buf rx ins out, apdu_ok buf -> command d buf rx ins ->
    dispatch_common C O ins buf d = (Ok (Now out), d) -> In ins [0x00; 0x09; 0x10] -> len out <= 200 ->
    fst (step C O d (EApdu buf rx)) = AReply (out ++ [0x90; 0])).
  { intros buf rx ins out Hb Hc X Hi L. rewrite (step_command C O d buf rx _ Hb Hc). destruct Hc as (_ & _ & E0 & E1).
    rewrite (dispatch_at C O buf _ E0 E1).
    replace (if cf_baking C then _ else _) with (dispatch_common C O ins buf)
      by (cbn [In] in Hi; destruct (cf_baking C); destruct Hi as [<-|[<-|[<-|[]]]]; reflexivity).
    rewrite X, finish_ok by lia. reflexivity. }
  split; [|split].
  - split; [exact U|]. intros buf rx Hb Hc.
    change [if cf_baking C then 1 else 0; major; minor; patch; 0x90; 0] with ([if cf_baking C then 1 else 0; major; minor; patch] ++ [0x90; 0]).
    apply (G buf rx 0x00); auto; [|cbn; auto|unfold len; cbn [length]; lia].
    change (dispatch_common C O 0 buf) with (h_legacy_version C). unfold h_legacy_version, version_bytes. rewrite V. reflexivity.
  - split; [exact U|]. intros buf rx Hb Hc. rewrite app_assoc.
    apply (G buf rx 0x10); auto; [|cbn; auto|unfold len; rewrite app_length, be_length; cbn [length]; lia].
    change (dispatch_common C O 0x10 buf) with (h_version C). unfold h_version, version_bytes. rewrite V. reflexivity.
  - intros L. split; [exact U|]. intros buf rx Hb Hc.
    replace (firstn 8 (cf_commit C) ++ [0; 0x90; 0]) with ((firstn 8 (cf_commit C) ++ [0]) ++ [0x90; 0]) by (now rewrite <- app_assoc).
    apply (G buf rx 0x09); auto; [|cbn; auto|unfold len; rewrite app_length, firstn_length; cbn [length]; lia].
    change (dispatch_common C O 0x09 buf) with (h_git C). unfold h_git.
    replace (length (cf_commit C) <? 8)%nat with false by lia. reflexivity.
Qed.
