(** The statements of [PropsDevice] in final form, and their cases. *)
From Coq Require Import List NArith ZArith Lia Bool Arith ZifyBool ZifyNat ZifyN.
From Verif Require Import Base BaseFacts Flash FlashFacts Codecs CodecsSpec CodecsFacts
  Upload UploadSpec UploadFacts UploadExamples Baking BakingSpec BakingFacts BakingExamples
  Operations Oracles Address AddressSpec AddressExamples
  Device DeviceSpec DeviceFacts DeviceProofs DeviceSigs DeviceAnswers DeviceReviews DeviceKeys DeviceSlots
  DeviceCommands DeviceUploads DeviceDemo.
Import ListNotations.
Open Scope N_scope.

(** The request behind a pending review. *)
Lemma review_requested C O f u es v : Forall event_ok es ->
  d_ui (snd (run C O (dev_fresh f u) es)) = Some v ->
  exists es1 e es2, es = es1 ++ e :: es2 /\ Forall is_apdu es2 /\
    let d := snd (run C O (dev_fresh f u) es1) in
    fst (step C O d e) = APending /\ requested C O d e (snd (step C O d e)) v.
Proof.
  intros E U. destruct (pending_origin C O es (dev_fresh f u) v E eq_refl U) as (es1 & e & es2 & Ee & F & S & R).
  exists es1, e, es2. split; [exact Ee|]. split; [exact F|]. cbn zeta in *. rewrite S. auto.
Qed.

Lemma approval_stores C O f u es v k : Forall detected_fault f -> Forall up_fault_ok u -> Forall event_ok es ->
  len es + 1 < 2 ^ 64 ->
  let d := snd (run C O (dev_fresh f u) es) in
  d_ui d = Some v -> authorises k v -> succeeds (fst (step C O d EApprove)) ->
  stored_key (snd (step C O d EApprove)) k.
Proof.
  intros F U E L d V A S. apply (key_approved C O f u es k); auto. fold d. cbn [key_decision]. rewrite V.
  destruct v; cbn [authorises] in A; try contradiction; congruence.
Qed.

Lemma setup_stores C O f u es k main test chain a room pk : Forall intact_fault f -> Forall up_fault_ok u ->
  Forall event_ok es -> len es + 1 < 2 ^ 64 ->
  let d := snd (run C O (dev_fresh f u) es) in
  let d' := snd (step C O d EApprove) in
  d_faults d = [] -> d_ui d = Some (VSetup k main test chain a) ->
  cf_room C (VSetup k main test chain a) = Some room -> len pk + 3 <= room ->
  o_pubkey O (fst k) (snd k) = Some pk -> len pk < 256 ->
  (exists es1 buf rx es2 enc rest, es = es1 ++ EApdu buf rx :: es2 /\ Forall is_apdu es2 /\
     command (snd (run C O (dev_fresh f u) es1)) buf rx 0x0A /\
     pay buf = be 4 (u32_of_chain chain) ++ be 4 main ++ be 4 test ++ enc ++ rest /\
     main < 2 ^ 32 /\ test < 2 ^ 32 /\ u32_of_chain chain < 2 ^ 32 /\
     nth 3 buf 0 = byte_of_curve (fst k) /\ path_encodes BIP32_MAX_LENGTH enc (snd k)) /\
  fst (step C O d EApprove) = AReply (len pk :: pk ++ [0x90; 0]) /\
  forall x, x = d' \/ x = restart d' ->
    reports_all C O x main test (u32_of_chain chain) /\ (forall k', stored_key x k' <-> k' = k).
Proof.
  intros Ff Fu E L d d' Fd U R Rm Pk Hl.
  destruct (review_requested C O f u es _ E U) as (es1 & e & es2 & Ee & Fa & _ & Rq).
  destruct Rq as (buf & rx & ins & -> & Cm & Cb & -> & Ec & enc & rest & Pe & Pb).
  pose proof (reach_ui C O f u es E _ U) as (_ & _ & Hm & Ht & Hc). split.
  - exists es1, buf, rx, es2, enc, rest. repeat (split; [assumption|]).
    split; [now apply curve_of_byte_inv|now apply path_read_sound].
  - exact (setup_sets C O f u es k main test chain a room pk Ff Fu E L Fd Cb U R Rm Pk Hl).
Qed.

(** The approval of a wallet request is answered with the signature. *)
Lemma approved_sign C O d sh dg parsed data k s room : d_ui d = Some (VSign sh dg parsed data) ->
  d_path d = Some k -> o_sign O (fst k) (snd k) dg = Some s -> (length s <= 100)%nat ->
  cf_room C (VSign sh dg parsed data) = Some room -> len dg + len s + 2 <= room ->
  fst (step C O d EApprove) = AReply ((if sh then dg else []) ++ s ++ [0x90; 0]) /\
  d_log (snd (step C O d EApprove)) = mkSig SrcReview k dg data :: d_log d.
Proof.
  intros U P S Ls R Lr. cbn [step]. unfold decide. rewrite U, R. cbn [accept].
  unfold bind, ret, sign_with.
  replace (d_path (set_ui None d)) with (Some k) by (destruct d; cbn in *; congruence).
  rewrite S. replace (100 <? length s)%nat with false by lia. cbn [finish].
  replace (room <? len (signed sh dg s) + 2) with false.
  - cbn [fst snd]. split; [|destruct d; reflexivity]. unfold signed. destruct sh; [now rewrite <- app_assoc|reflexivity].
  - unfold signed. destruct sh; rewrite ?len_app; symmetry; apply N.ltb_ge; [exact Lr|change (len []) with 0; lia].
Qed.

(** ** Cases *)

Definition demo_run (f : list fault) (es : list event) : dev := snd (run demo_config demo_oracles (dev_fresh f []) es).
Definition wallet_run (es : list event) : dev := snd (run wallet_config demo_oracles (dev_fresh [] []) es).

(** A device that is authorised, reset to 1499999 and has signed a block; then the
    block is requested again. *)
Definition busy_events : list event :=
  demo_before ++ send_message 4 demo_block ++ [send 4 0 0 (path_serialize demo_path)].
Definition again : event := send 4 0x81 0 demo_block.
Lemma again_refused : Forall event_ok (busy_events ++ [again]) /\ d_faults (demo_run [] busy_events) = [] /\
  fst (step demo_config demo_oracles (demo_run [] busy_events) again) = AReply [0x69; 0x84] /\
  map (fun s => wear_read (get_slot s (snd (step demo_config demo_oracles (demo_run [] busy_events) again))))
    [SMain; SKey] =
  [Some (RData (wm_serialize (WEmmy 1500000 false))); Some (RData (key_serialize demo_key))].
Proof.
  split; [apply events_okb_ok; vm_compute; reflexivity|]. split; [vm_compute; reflexivity|].
  split; vm_compute; reflexivity.
Qed.

(** The same device with a key that cannot sign: the watermark is raised. *)
Definition mute_oracles : oracles :=
  mkOracles (o_blake2b demo_oracles) (o_sha256 demo_oracles) (o_sha512 demo_oracles) (o_hmac256 demo_oracles)
    (o_pubkey demo_oracles) (fun _ _ _ => None).
Definition mute_events : list event := demo_before ++ [send 4 0 0 (path_serialize demo_path)].
Lemma mute_refused :
  let d := snd (run demo_config mute_oracles (dev_fresh [] []) mute_events) in
  d_faults d = [] /\ fst (step demo_config mute_oracles d again) = AReply [0x64; 0] /\
  wear_read (d_main d) = Some (RData (wm_serialize (WEmmy 1499999 false))) /\
  wear_read (d_main (snd (step demo_config mute_oracles d again))) = Some (RData (wm_serialize (WEmmy 1500000 false))).
Proof. vm_compute. repeat split. Qed.

(** A request for another key is ignored while the first one is under review. *)
Definition auth_request (p : path) : event := send 0xA1 1 0 (path_serialize p).
Definition auth_events : list event := [auth_request demo_path; auth_request [1; 2]].
Lemma auth_case : Forall event_ok auth_events /\
  fst (run demo_config demo_oracles (dev_fresh [] []) auth_events) = [APending; ANone] /\
  d_ui (demo_run [] auth_events) <> None /\
  (forall v, d_ui (demo_run [] auth_events) = Some v -> authorises demo_key v) /\
  succeeds (fst (step demo_config demo_oracles (demo_run [] auth_events) EApprove)).
Proof.
  split; [apply events_okb_ok; vm_compute; reflexivity|]. split; [vm_compute; reflexivity|].
  assert (U : match d_ui (demo_run [] auth_events) with Some (VAuthorize k _) => k = demo_key | _ => False end)
    by (vm_compute; reflexivity).
  split; [intros X; now rewrite X in U|]. split.
  - intros v X. rewrite X in U. destruct v; try contradiction. exact U.
  - exists (firstn 34 (match fst (step demo_config demo_oracles (demo_run [] auth_events) EApprove) with AReply o => o | _ => [] end)).
    vm_compute. reflexivity.
Qed.
(** Without an approval: a rejected request leaves the key. *)
Lemma auth_rejected : key_decision (demo_run [] (authorise ++ [auth_request [1; 2]])) EReject = None /\
  stored_key (snd (step demo_config demo_oracles (demo_run [] (authorise ++ [auth_request [1; 2]])) EReject)) demo_key.
Proof. split; [reflexivity|]. exists (key_serialize demo_key). split; vm_compute; reflexivity. Qed.

(** Authorise, reset, bake; deauthorise; then the next block is refused and queries
    fail, also after a power cycle. *)
Definition deauth_before : list event := demo_before ++ send_message 4 demo_block ++ [send 0xAC 1 0 []].
Definition deauth_after : list event := send_message 4 demo_tb_block ++ [EPower; send 0xA7 0 0 []].
Fixpoint no_authorisationb (C : config) (O : oracles) (d : dev) (es : list event) : bool :=
  match es with
  | [] => true
  | e :: es' => match key_decision d e with Some (Some _) => false | _ => true end
                && no_authorisationb C O (snd (step C O d e)) es'
  end.
Lemma no_authorisationb_ok C O es : forall d, no_authorisationb C O d es = true -> no_authorisation C O d es.
Proof.
  induction es as [|e es IH]; intros d H; cbn [no_authorisation no_authorisationb] in *; [exact Logic.I|].
  apply andb_prop in H as [H1 H2]. split; [|now apply IH]. intros k K. rewrite K in H1. discriminate.
Qed.
Lemma deauth_case :
  let d := demo_run [] deauth_before in
  let d1 := snd (step demo_config demo_oracles d EApprove) in
  Forall event_ok (deauth_before ++ EApprove :: deauth_after) /\
  (exists a, d_ui d = Some (VDeauthorize a)) /\ succeeds (fst (step demo_config demo_oracles d EApprove)) /\
  no_authorisation demo_config demo_oracles d1 deauth_after /\
  fst (run demo_config demo_oracles d1 deauth_after) =
    [AReply [0x90; 0]; AReply [0x69; 0x85]; ADied; AReply [0x69; 0x85]].
Proof.
  cbn zeta. split; [apply events_okb_ok; vm_compute; reflexivity|]. split.
  { assert (U : match d_ui (demo_run [] deauth_before) with Some (VDeauthorize _) => True | _ => False end)
      by (vm_compute; exact Logic.I).
    destruct (d_ui (demo_run [] deauth_before)) as [v|]; [|contradiction]. destruct v; try contradiction. eauto. }
  split; [exists []; vm_compute; reflexivity|].
  split; [apply no_authorisationb_ok; vm_compute; reflexivity|]. vm_compute. reflexivity.
Qed.

(** RESET on a device set up for another chain; a power cut before. *)
Definition setup_request : event :=
  send 0x0A 0 0 (be 4 0x12345678 ++ be 4 500 ++ be 4 7 ++ path_serialize demo_path).
Definition setup_events : list event := authorise ++ [EPower; setup_request].
Definition setup_done : list event := setup_events ++ [EApprove].
Lemma event_ok_of e : event_okb e = true -> event_ok e.
Proof. intros H. assert (X : Forall event_ok [e]) by (apply events_okb_ok; cbn; now rewrite H). now inversion X. Qed.
Lemma reset_case :
  let d := demo_run [WCut TOld] setup_done in
  Forall intact_fault [WCut TOld] /\ Forall event_ok setup_done /\ d_faults d = [] /\ event_ok (reset_to 42) /\
  command d (apdu 0x06 0 0 (be 4 42)) 9 0x06 /\
  fst (run demo_config demo_oracles d [reset_to 42; send 0x0B 0 0 []; EPower; send 0x0B 0 0 []; send 0x06 0 0 [1; 2; 3]]) =
  [AReply [0x90; 0]; AReply (be 4 42 ++ be 4 42 ++ be 4 0x12345678 ++ [0x90; 0]); ADied;
   AReply (be 4 42 ++ be 4 42 ++ be 4 0x12345678 ++ [0x90; 0]); AReply [0x67; 0]].
Proof.
  cbn zeta. split; [repeat constructor|]. split; [apply events_okb_ok; vm_compute; reflexivity|].
  split; [vm_compute; reflexivity|]. split; [apply event_ok_of; vm_compute; reflexivity|].
  split; [|vm_compute; reflexivity].
  unfold command. split; [vm_compute; reflexivity|]. split; [split; discriminate|]. split; reflexivity.
Qed.
Lemma setup_case :
  let d := demo_run [WCut TOld] setup_events in
  Forall event_ok setup_events /\ d_faults d = [] /\
  (exists a, d_ui d = Some (VSetup demo_key 500 7 (chain_of_u32 0x12345678) a)) /\
  fst (run demo_config demo_oracles d [EApprove; send 0x08 0 0 []; send 0x0B 0 0 []]) =
  [AReply (33 :: demo_pubkey Ed25519 demo_path ++ [0x90; 0]); AReply (be 4 500 ++ [0x90; 0]);
   AReply (be 4 500 ++ be 4 7 ++ be 4 0x12345678 ++ [0x90; 0])] /\
  fst (run demo_config demo_oracles d [EReject; send 0x0B 0 0 []]) =
  [AReply [0x69; 0x86]; AReply (be 4 (2 ^ 32 - 1) ++ be 4 (2 ^ 32 - 1) ++ be 4 0x7A06A770 ++ [0x90; 0])].
Proof.
  cbn zeta. split; [apply events_okb_ok; vm_compute; reflexivity|]. split; [vm_compute; reflexivity|]. split.
  { assert (U : match d_ui (demo_run [WCut TOld] setup_events) with
                | Some (VSetup k m t c _) => (k, m, t, c) = (demo_key, 500, 7, chain_of_u32 0x12345678)
                | _ => False end) by (vm_compute; reflexivity).
    destruct (d_ui (demo_run [WCut TOld] setup_events)) as [v|]; [|contradiction].
    destruct v; try contradiction. injection U as -> -> -> ->. eauto. }
  split; vm_compute; reflexivity.
Qed.

(** Commands that are not understood. *)
Lemma unknown_case :
  fst (run demo_config demo_oracles (dev_fresh [] [])
        [EApdu (apdu 4 0 0 []) 4; EApdu (0x81 :: tl (apdu 4 0 0 [])) 5; send 0x05 0 0 []; send 0xFF 0 0 [1]]) =
  [AReply [0x67; 0]; AReply [0x6E; 0]; AReply [0x69; 0x86]; AReply [0x69; 0x86]] /\
  ~ In 0xFF (assigned demo_config) /\ ~ In 0x06 (assigned wallet_config).
Proof. split; [vm_compute; reflexivity|]. split; cbn; intuition discriminate. Qed.

(** A wallet signs a message after approval; baking commands are refused. *)
Definition demo_text : bytes := 0x05 :: [1; 2; 3; 4].
Definition wallet_events : list event :=
  [send 0x06 0 0 (be 4 7); send 4 0 0 (path_serialize demo_path); send 0x02 0 0 [9]; send 4 1 0 (firstn 2 demo_text);
   send 4 0x81 0 (skipn 2 demo_text); send 0x08 0 0 []; EApprove].
Lemma wallet_case : Forall event_ok wallet_events /\ cf_baking wallet_config = false /\
  fst (run wallet_config demo_oracles (dev_fresh [] []) (firstn 6 wallet_events)) =
  [AReply [0x69; 0x86]; AReply [0x90; 0]; AReply [0x69; 0x84]; AReply [0x90; 0]; APending; ANone] /\
  uploading wallet_config demo_oracles (dev_fresh [] []) None (firstn 4 wallet_events)
    = Some (AccSign, 0, path_serialize demo_path, firstn 2 demo_text) /\
  match d_log (wallet_run wallet_events) with
  | [g] => sg_src g = SrcReview /\ sg_data g = demo_text /\ sg_key g = demo_key
  | _ => False
  end.
Proof.
  split; [apply events_okb_ok; vm_compute; reflexivity|]. split; [reflexivity|].
  split; [vm_compute; reflexivity|]. split; [vm_compute; reflexivity|]. vm_compute. repeat split.
Qed.

(** Public keys, with and without review. *)
Lemma names_case : names 6 (apdu 0x02 0 0 (path_serialize demo_path)) demo_key /\
  names 6 (apdu 0x11 1 1 (path_serialize demo_path)) (Secp256K1, demo_path).
Proof.
  split; (split; [reflexivity|]); apply path_read_sound; vm_compute; reflexivity.
Qed.
Lemma pubkey_case :
  fst (run wallet_config demo_oracles (dev_fresh [] [])
    [send 0x02 0 0 (path_serialize demo_path); send 0x02 0 4 (path_serialize demo_path); send 0x11 1 0 (1 :: be 4 7 ++ [0]);
     send 0x03 0 1 (path_serialize demo_path)]) =
  [AReply (33 :: demo_pubkey Ed25519 demo_path ++ [0x90; 0]); AReply [0x6B; 0]; AReply [0x69; 0x84]; APending].
Proof. vm_compute. reflexivity. Qed.
Lemma query_case :
  fst (run demo_config demo_oracles (demo_run [] authorise) [send 0xAD 0 0 []; send 0xA7 1 0 []; EApprove]) =
  [AReply (key_bytes true demo_key ++ [0x90; 0]); APending; AReply (key_bytes false demo_key ++ [0x90; 0])].
Proof. vm_compute. reflexivity. Qed.
