(** Property theorems C09-C13, C25, C26, C28 and C40: what each command and decision does
    to the device, over whole histories.

    [run C O (dev_fresh f u) es] is a device as installed that goes through the events
    [es], its flash behaving as [f] (slots) and [u] (upload buffer) say; [step] is one
    more event. Build, hash functions, key derivation and signing are arbitrary. *)
From Coq Require Import List NArith Bool.
From Verif Require Import Base Flash Codecs CodecsSpec Upload UploadSpec UploadExamples
  Baking BakingSpec Operations Oracles Address AddressSpec AddressExamples
  Device DeviceSpec DeviceReviews DeviceKeys DeviceSlots DeviceCommands DeviceUploads DeviceDemo DeviceCases.
Import ListNotations.
Open Scope N_scope.

(** C09. A command or decision answered with an error leaves all that can be read from
    the slots, also after a restart; or it offered the consensus message at position
    [q], and the error is that no signature could be made after the watermark was
    raised to [q]. *)
Theorem C09_refusal_keeps_state : forall C O f u es e out,
  Forall slot_fault_ok f -> Forall up_fault_ok u -> Forall event_ok (es ++ [e]) -> len es + 1 < 2 ^ 64 ->
  let d := snd (run C O (dev_fresh f u) es) in
  let d' := snd (step C O d e) in
  d_faults d = [] -> fst (step C O d e) = AReply out -> ~ succeeds (AReply out) ->
  (forall s, same_slot d d' s) \/
  (exists q p, offered C d e q /\ out = [0x64; 0] /\ (forall s, s <> SMain -> same_slot d d' s) /\
     wear_read (d_main d') = Some (RData p) /\ wm_pos (wm_parse p) = q).
Proof. exact refused_keeps. Qed.
Print Assumptions C09_refusal_keeps_state.

(** The block that was signed last is refused; a key that cannot sign. *)
Example C09_case : Forall event_ok (busy_events ++ [again]) /\ d_faults (demo_run [] busy_events) = [] /\
  fst (step demo_config demo_oracles (demo_run [] busy_events) again) = AReply [0x69; 0x84] /\
  map (fun s => wear_read (get_slot s (snd (step demo_config demo_oracles (demo_run [] busy_events) again))))
    [SMain; SKey] =
  [Some (RData (wm_serialize (WEmmy 1500000 false))); Some (RData (key_serialize demo_key))].
Proof. exact again_refused. Qed.
Example C09_raised_case :
  let d := snd (run demo_config mute_oracles (dev_fresh [] []) mute_events) in
  d_faults d = [] /\ fst (step demo_config mute_oracles d again) = AReply [0x64; 0] /\
  wear_read (d_main d) = Some (RData (wm_serialize (WEmmy 1499999 false))) /\
  wear_read (d_main (snd (step demo_config mute_oracles d again))) = Some (RData (wm_serialize (WEmmy 1500000 false))).
Proof. exact mute_refused. Qed.

(** C10. The stored key changes in no event but the approval of an authorise, setup or
    deauthorise request, however the flash fails. *)
Theorem C10_key_changes_by_approval_only : forall C O f u es e k,
  let d := snd (run C O (dev_fresh f u) es) in
  key_decision d e = None -> (stored_key (snd (step C O d e)) k <-> stored_key d k).
Proof. exact key_stays. Qed.
Print Assumptions C10_key_changes_by_approval_only.
Example C10_rejection_case :
  key_decision (demo_run [] (authorise ++ [auth_request [1; 2]])) EReject = None /\
  stored_key (snd (step demo_config demo_oracles (demo_run [] (authorise ++ [auth_request [1; 2]])) EReject)) demo_key.
Proof. exact auth_rejected. Qed.

(** C10. After an approval that succeeds the stored key is the one under review. *)
Theorem C10_approved_key_is_stored : forall C O f u es v k,
  Forall detected_fault f -> Forall up_fault_ok u -> Forall event_ok es -> len es + 1 < 2 ^ 64 ->
  let d := snd (run C O (dev_fresh f u) es) in
  d_ui d = Some v -> authorises k v -> succeeds (fst (step C O d EApprove)) ->
  stored_key (snd (step C O d EApprove)) k.
Proof. exact approval_stores. Qed.
Print Assumptions C10_approved_key_is_stored.

(** C10. What is under review is what the last command that was not ignored asked for. *)
Theorem C10_review_shows_request : forall C O f u es v, Forall event_ok es ->
  d_ui (snd (run C O (dev_fresh f u) es)) = Some v ->
  exists es1 e es2, es = es1 ++ e :: es2 /\ Forall is_apdu es2 /\
    let d := snd (run C O (dev_fresh f u) es1) in
    fst (step C O d e) = APending /\ requested C O d e (snd (step C O d e)) v.
Proof. exact review_requested. Qed.
Print Assumptions C10_review_shows_request.
Example C10_case : Forall event_ok auth_events /\
  fst (run demo_config demo_oracles (dev_fresh [] []) auth_events) = [APending; ANone] /\
  d_ui (demo_run [] auth_events) <> None /\
  (forall v, d_ui (demo_run [] auth_events) = Some v -> authorises demo_key v) /\
  succeeds (fst (step demo_config demo_oracles (demo_run [] auth_events) EApprove)).
Proof. exact auth_case. Qed.

(** C10. Any key that is stored was requested by a command and approved, and no approval
    concerning the key has succeeded since. *)
Theorem C10_stored_key_was_approved : forall C O f u es k,
  Forall detected_fault f -> Forall up_fault_ok u -> Forall event_ok es -> len es < 2 ^ 64 ->
  stored_key (snd (run C O (dev_fresh f u) es)) k ->
  exists es1 e es2 es3 v, es = es1 ++ (e :: es2) ++ EApprove :: es3 /\ authorises k v /\ Forall is_apdu es2 /\
    let d := snd (run C O (dev_fresh f u) es1) in
    let d' := snd (step C O d e) in
    fst (step C O d e) = APending /\ d_ui d' = Some v /\ requested C O d e d' v /\
    (forall es4 e' es5 o, es3 = es4 ++ e' :: es5 ->
       let d3 := snd (run C O (dev_fresh f u) (es1 ++ (e :: es2) ++ EApprove :: es4)) in
       key_decision d3 e' = Some o -> ~ succeeds (fst (step C O d3 e'))).
Proof. exact key_origin. Qed.
Print Assumptions C10_stored_key_was_approved.

(** C11. After an approved deauthorise, until a request for a key is approved: no key is
    stored, no signature is made with a stored key, and the four queries for it are
    answered ConditionsNotSatisfied. *)
Theorem C11_deauthorised : forall C O f u es es' l,
  Forall detected_fault f -> Forall up_fault_ok u -> Forall event_ok (es ++ EApprove :: es') -> len es + 1 < 2 ^ 64 ->
  let d := snd (run C O (dev_fresh f u) es) in
  let d1 := snd (step C O d EApprove) in
  let d2 := snd (run C O d1 es') in
  (exists a, d_ui d = Some (VDeauthorize a)) -> succeeds (fst (step C O d EApprove)) ->
  no_authorisation C O d1 es' ->
  (forall k, ~ stored_key d2 k) /\
  (signed_between d1 d2 l -> Forall (fun g => ~ by_stored_key g) l) /\
  (forall buf rx ins, cf_baking C = true -> apdu_ok buf -> command d2 buf rx ins -> In ins [0x07; 0xA7; 0x0D; 0xAD] ->
     fst (step C O d2 (EApdu buf rx)) = AReply [0x69; 0x85] /\ untouched d2 (snd (step C O d2 (EApdu buf rx)))).
Proof. exact deauthorised. Qed.
Print Assumptions C11_deauthorised.
Example C11_case :
  let d := demo_run [] deauth_before in
  let d1 := snd (step demo_config demo_oracles d EApprove) in
  Forall event_ok (deauth_before ++ EApprove :: deauth_after) /\
  (exists a, d_ui d = Some (VDeauthorize a)) /\ succeeds (fst (step demo_config demo_oracles d EApprove)) /\
  no_authorisation demo_config demo_oracles d1 deauth_after /\
  fst (run demo_config demo_oracles d1 deauth_after) =
    [AReply [0x90; 0]; AReply [0x69; 0x85]; ADied; AReply [0x69; 0x85]].
Proof. exact deauth_case. Qed.

(** C12. RESET to the level in the first four bytes: both watermarks report it, now and
    after a restart, the key stays, and so does a chain id that is stored. *)
Theorem C12_reset_sets_levels : forall C O f u es buf rx,
  Forall intact_fault f -> Forall up_fault_ok u -> Forall event_ok es -> len es + 1 < 2 ^ 64 ->
  let d := snd (run C O (dev_fresh f u) es) in
  let d' := snd (step C O d (EApdu buf rx)) in
  d_faults d = [] -> cf_baking C = true -> apdu_ok buf -> command d buf rx 0x06 -> 4 <= nth 4 buf 0 ->
  fst (step C O d (EApdu buf rx)) = AReply [0x90; 0] /\
  exists o, holds_slot d SChain o /\
  forall x, x = d' \/ x = restart d' ->
    reports_all C O x (unbe (firstn 4 (pay buf))) (unbe (firstn 4 (pay buf)))
      (match o with Some c => unbe (firstn 4 c) | None => 0x7A06A770 end) /\
    (forall k, stored_key x k <-> stored_key d k).
Proof. exact reset_sets. Qed.
Print Assumptions C12_reset_sets_levels.

(** C12. A shorter payload is refused with WrongLength and no effect at all. *)
Theorem C12_short_reset_refused : forall C O d buf rx,
  cf_baking C = true -> apdu_ok buf -> command d buf rx 0x06 -> nth 4 buf 0 < 4 ->
  step C O d (EApdu buf rx) = (AReply [0x67; 0], d).
Proof. exact reset_short. Qed.
Print Assumptions C12_short_reset_refused.
Example C12_case :
  let d := demo_run [WCut TOld] setup_done in
  Forall intact_fault [WCut TOld] /\ Forall event_ok setup_done /\ d_faults d = [] /\ event_ok (reset_to 42) /\
  command d (apdu 0x06 0 0 (be 4 42)) 9 0x06 /\
  fst (run demo_config demo_oracles d [reset_to 42; send 0x0B 0 0 []; EPower; send 0x0B 0 0 []; send 0x06 0 0 [1; 2; 3]]) =
  [AReply [0x90; 0]; AReply (be 4 42 ++ be 4 42 ++ be 4 0x12345678 ++ [0x90; 0]); ADied;
   AReply (be 4 42 ++ be 4 42 ++ be 4 0x12345678 ++ [0x90; 0]); AReply [0x67; 0]].
Proof. exact reset_case. Qed.

(** C13. The setup under review was sent by the host, with exactly these levels, chain,
    curve and path, and its approval answers the public key and stores all of it. *)
Theorem C13_setup_stores_request : forall C O f u es k main test chain a room pk,
  Forall intact_fault f -> Forall up_fault_ok u -> Forall event_ok es -> len es + 1 < 2 ^ 64 ->
  let d := snd (run C O (dev_fresh f u) es) in
  let d' := snd (step C O d EApprove) in
  d_faults d = [] -> d_ui d = Some (VSetup k main test chain a) ->
  cf_room C (VSetup k main test chain a) = Some room -> len pk + 3 <= room ->
  o_pubkey O (fst k) (snd k) = Some pk -> len pk < 256 ->
  (exists es1 buf rx es2 enc rest, es = es1 ++ EApdu buf rx :: es2 /\ Forall is_apdu es2 /\
     command (snd (run C O (dev_fresh f u) es1)) buf rx 0x0A /\
     pay buf = be 4 (u32_of_chain chain) ++ be 4 main ++ be 4 test ++ enc ++ rest /\
     main < 2 ^ 32 /\ test < 2 ^ 32 /\ u32_of_chain chain < 2 ^ 32 /\
     nth 3 buf 0 = byte_of_curve (fst k) /\ path_encodes BIP32_MAX_LENGTH enc (snd k)) /\
  fst (step C O d EApprove) = AReply (len pk :: pk ++ [0x90; 0]) /\
  forall x, x = d' \/ x = restart d' ->
    reports_all C O x main test (u32_of_chain chain) /\ (forall k', stored_key x k' <-> k' = k).
Proof. exact setup_stores. Qed.
Print Assumptions C13_setup_stores_request.

(** C13, C28. Rejecting any review, or a review that cannot be displayed, answers
    CommandNotAllowed or DataInvalid, signs nothing and leaves every slot as it is. *)
Theorem C13_C28_rejection_changes_nothing : forall C O d v room e,
  d_ui d = Some v -> cf_room C v = Some room -> 2 <= room -> e = EReject \/ e = EUiError ->
  fst (step C O d e) = AReply (match e with EReject => [0x69; 0x86] | _ => [0x69; 0x84] end) /\
  d_ui (snd (step C O d e)) = None /\ d_log (snd (step C O d e)) = d_log d /\
  (forall s, get_slot s (snd (step C O d e)) = get_slot s d).
Proof. exact rejected. Qed.
Print Assumptions C13_C28_rejection_changes_nothing.
Example C13_case :
  let d := demo_run [WCut TOld] setup_events in
  Forall event_ok setup_events /\ d_faults d = [] /\
  (exists a, d_ui d = Some (VSetup demo_key 500 7 (chain_of_u32 0x12345678) a)) /\
  fst (run demo_config demo_oracles d [EApprove; send 0x08 0 0 []; send 0x0B 0 0 []]) =
  [AReply (33 :: demo_pubkey Ed25519 demo_path ++ [0x90; 0]); AReply (be 4 500 ++ [0x90; 0]);
   AReply (be 4 500 ++ be 4 7 ++ be 4 0x12345678 ++ [0x90; 0])] /\
  fst (run demo_config demo_oracles d [EReject; send 0x0B 0 0 []]) =
  [AReply [0x69; 0x86]; AReply (be 4 (2 ^ 32 - 1) ++ be 4 (2 ^ 32 - 1) ++ be 4 0x7A06A770 ++ [0x90; 0])].
Proof. exact setup_case. Qed.

(** C25. Commands of a wrong length, of another class, or with an unassigned instruction
    are refused with the device unchanged. *)
Theorem C25_wrong_length : forall C O d buf rx,
  apdu_ok buf -> d_ui d = None -> ~ 5 <= rx <= 260 -> step C O d (EApdu buf rx) = (AReply [0x67; 0], d).
Proof. exact too_short. Qed.
Print Assumptions C25_wrong_length.
Theorem C25_other_class : forall C O d buf rx,
  apdu_ok buf -> d_ui d = None -> 5 <= rx <= 260 -> nth 0 buf 0 <> 0x80 ->
  step C O d (EApdu buf rx) = (AReply [0x6E; 0], d).
Proof. exact other_class. Qed.
Print Assumptions C25_other_class.
Theorem C25_unassigned_instruction : forall C O d buf rx ins,
  apdu_ok buf -> command d buf rx ins -> ~ In ins (assigned C) ->
  step C O d (EApdu buf rx) = (AReply [0x69; 0x86], d).
Proof. exact unassigned. Qed.
Print Assumptions C25_unassigned_instruction.

(** C25. Every answer fits its buffer and ends with a status word; with an error status
    there is nothing else in it. *)
Theorem C25_answers_end_with_status : forall C O d e room out,
  answer_room C d e room -> fst (step C O d e) = AReply out ->
  len out <= room /\ exists data st, out = data ++ be 2 (sw st) /\ (st <> Success -> data = []).
Proof. exact answer_form. Qed.
Print Assumptions C25_answers_end_with_status.

(** C25. A command is ignored only while a review is pending. *)
Theorem C25_commands_are_answered : forall C O d buf rx,
  d_ui d = None -> fst (step C O d (EApdu buf rx)) <> ANone.
Proof. exact command_answered. Qed.
Print Assumptions C25_commands_are_answered.
Example C25_case :
  fst (run demo_config demo_oracles (dev_fresh [] [])
        [EApdu (apdu 4 0 0 []) 4; EApdu (0x81 :: tl (apdu 4 0 0 [])) 5; send 0x05 0 0 []; send 0xFF 0 0 [1]]) =
  [AReply [0x67; 0]; AReply [0x6E; 0]; AReply [0x69; 0x86]; AReply [0x69; 0x86]] /\
  ~ In 0xFF (assigned demo_config) /\ ~ In 0x06 (assigned wallet_config).
Proof. exact unknown_case. Qed.

(** C26. The wallet refuses baking instructions, writes no slot, and signs only what the
    user approved. *)
Theorem C26_wallet_refuses_baking : forall C O d buf rx ins,
  cf_baking C = false -> apdu_ok buf -> command d buf rx ins -> In ins baking_only ->
  step C O d (EApdu buf rx) = (AReply [0x69; 0x86], d).
Proof. exact wallet_refuses. Qed.
Print Assumptions C26_wallet_refuses_baking.
Theorem C26_wallet_writes_no_slot : forall C O f u es s,
  cf_baking C = false -> Forall event_ok es ->
  w_pages (get_slot s (snd (run C O (dev_fresh f u) es))) = w_pages (get_slot s (dev_fresh f u)).
Proof. exact wallet_pages. Qed.
Print Assumptions C26_wallet_writes_no_slot.
Theorem C26_wallet_signs_by_approval : forall C O f u es g,
  cf_baking C = false -> Forall event_ok es -> In g (d_log (snd (run C O (dev_fresh f u) es))) ->
  exists es1 es2 sh parsed, es = es1 ++ EApprove :: es2 /\ sg_src g = SrcReview /\
    let d := snd (run C O (dev_fresh f u) es1) in
    d_ui d = Some (VSign sh (sg_digest g) parsed (sg_data g)) /\ d_path d = Some (sg_key g) /\
    d_log (snd (step C O d EApprove)) = g :: d_log d.
Proof. exact wallet_signs. Qed.
Print Assumptions C26_wallet_signs_by_approval.
(** C26. The baking build refuses legacy SIGN_UNSAFE (0x05). *)
Theorem C26_baking_refuses_unsafe : forall C O d buf rx,
  cf_baking C = true -> apdu_ok buf -> command d buf rx 0x05 ->
  step C O d (EApdu buf rx) = (AReply [0x69; 0x86], d).
Proof. exact baking_refuses. Qed.
Print Assumptions C26_baking_refuses_unsafe.

(** C28. Behind every signature made by a signing review there is a command that
    completes an upload by the protocol of [proto_step]; what is signed is the hash of
    exactly the uploaded bytes, with the curve and path of the upload; the signature is
    made by the approval, and the answer to it carries it. *)
Theorem C28_signature_covers_upload : forall C O f es g,
  Forall event_ok es -> In g (d_log (snd (run C O (dev_fresh f []) es))) -> sg_src g = SrcReview ->
  exists es1 buf rx ins es2 es3 up,
    es = es1 ++ (EApdu buf rx :: es2) ++ EApprove :: es3 /\ Forall is_apdu es2 /\
    let d := snd (run C O (dev_fresh f []) es1) in
    command d buf rx ins /\ upload_command C ins = Some AccSign /\
    fst (proto_step AccSign buf (uploading C O (dev_fresh f []) None es1)) = Ok (Some up) /\
    fst (step C O d (EApdu buf rx)) = APending /\
    sg_data g = uo_data up /\ o_blake2b O 32 (uo_data up) = Some (sg_digest g) /\
    uo_p2 up = byte_of_curve (fst (sg_key g)) /\
    path_encodes BIP32_MAX_LENGTH (uo_first up) (snd (sg_key g)) /\
    let d2 := snd (run C O (dev_fresh f []) (es1 ++ EApdu buf rx :: es2)) in
    d_log (snd (step C O d2 EApprove)) = g :: d_log d2 /\ sig_answer O g (fst (step C O d2 EApprove)).
Proof. exact wallet_signature. Qed.
Print Assumptions C28_signature_covers_upload.

(** C28. The approval of a signing review answers the signature, after the digest if it
    was asked for. *)
Theorem C28_approval_answers_signature : forall C O d sh dg parsed data k s room,
  d_ui d = Some (VSign sh dg parsed data) -> d_path d = Some k ->
  o_sign O (fst k) (snd k) dg = Some s -> (length s <= 100)%nat ->
  cf_room C (VSign sh dg parsed data) = Some room -> len dg + len s + 2 <= room ->
  fst (step C O d EApprove) = AReply ((if sh then dg else []) ++ s ++ [0x90; 0]) /\
  d_log (snd (step C O d EApprove)) = mkSig SrcReview k dg data :: d_log d.
Proof. exact approved_sign. Qed.
Print Assumptions C28_approval_answers_signature.

(** An upload in two packets with other commands in between, then its approval. *)
Example C26_C28_case : Forall event_ok wallet_events /\ cf_baking wallet_config = false /\
  fst (run wallet_config demo_oracles (dev_fresh [] []) (firstn 6 wallet_events)) =
  [AReply [0x69; 0x86]; AReply [0x90; 0]; AReply [0x69; 0x84]; AReply [0x90; 0]; APending; ANone] /\
  uploading wallet_config demo_oracles (dev_fresh [] []) None (firstn 4 wallet_events)
    = Some (AccSign, 0, path_serialize demo_path, firstn 2 demo_text) /\
  match d_log (wallet_run wallet_events) with
  | [g] => sg_src g = SrcReview /\ sg_data g = demo_text /\ sg_key g = demo_key
  | _ => False
  end.
Proof. exact wallet_case. Qed.

(** C40. GET_PUBLIC_KEY without review: the length and the key. *)
Theorem C40_public_key_answer : forall C O d buf rx k pk,
  apdu_ok buf -> command d buf rx 0x02 -> names 6 buf k -> o_pubkey O (fst k) (snd k) = Some pk -> len pk <= 255 ->
  step C O d (EApdu buf rx) = (AReply (len pk :: pk ++ [0x90; 0]), d).
Proof. exact get_public. Qed.
Print Assumptions C40_public_key_answer.

(** C40. GET_ADDRESS without review: also the address. *)
Theorem C40_address_answer : forall C O d buf rx k pk l h,
  oracles_ok O -> apdu_ok buf -> command d buf rx 0x11 -> nth 2 buf 0 = 0 -> names 6 buf k ->
  o_pubkey O (fst k) (snd k) = Some pk -> hashed_form (fst k) pk l -> o_blake2b O 20 l = Some h ->
  twice O (kind_prefix (addr_kind (fst k)) ++ h) <> None ->
  exists t, key_text O (fst k) pk t /\ step C O d (EApdu buf rx) = (AReply (len pk :: pk ++ t ++ [0x90; 0]), d).
Proof. exact get_address. Qed.
Print Assumptions C40_address_answer.

(** C40. With review: the same once approved. *)
Theorem C40_reviewed_key_answer : forall C O d buf rx ins k pk l h,
  oracles_ok O -> apdu_ok buf -> command d buf rx ins -> wants_review buf ins -> names 6 buf k ->
  o_pubkey O (fst k) (snd k) = Some pk -> hashed_form (fst k) pk l -> o_blake2b O 20 l = Some h ->
  twice O (kind_prefix (addr_kind (fst k)) ++ h) <> None ->
  (forall v, exists room, cf_room C v = Some room /\ 110 <= room) ->
  exists t, key_text O (fst k) pk t /\
    let (a1, d1) := step C O d (EApdu buf rx) in
    a1 = APending /\ step C O d1 EApprove = (AReply (len pk :: pk ++ t ++ [0x90; 0]), d) /\
    step C O d1 EReject = (AReply [0x69; 0x86], d).
Proof. exact prompted. Qed.
Print Assumptions C40_reviewed_key_answer.

(** C40. Curve bytes and paths that are not well-formed are refused, without effect. *)
Theorem C40_bad_curve_refused : forall C O d buf rx ins,
  apdu_ok buf -> command d buf rx ins -> In ins [0x02; 0x03; 0x11] -> 3 < nth 3 buf 0 ->
  step C O d (EApdu buf rx) = (AReply [0x6B; 0], d).
Proof. exact bad_curve. Qed.
Print Assumptions C40_bad_curve_refused.
Theorem C40_bad_path_refused : forall C O d buf rx ins,
  apdu_ok buf -> command d buf rx ins -> In ins [0x02; 0x03; 0x11] -> nth 3 buf 0 <= 3 ->
  (forall pa, ~ path_encodes 6 (pay buf) pa) -> step C O d (EApdu buf rx) = (AReply [0x69; 0x84], d).
Proof. exact bad_path. Qed.
Print Assumptions C40_bad_path_refused.
Example C40_case : (names 6 (apdu 0x02 0 0 (path_serialize demo_path)) demo_key /\
    names 6 (apdu 0x11 1 1 (path_serialize demo_path)) (Secp256K1, demo_path)) /\
  fst (run wallet_config demo_oracles (dev_fresh [] [])
    [send 0x02 0 0 (path_serialize demo_path); send 0x02 0 4 (path_serialize demo_path); send 0x11 1 0 (1 :: be 4 7 ++ [0]);
     send 0x03 0 1 (path_serialize demo_path)]) =
  [AReply (33 :: demo_pubkey Ed25519 demo_path ++ [0x90; 0]); AReply [0x6B; 0]; AReply [0x69; 0x84]; APending].
Proof. exact (conj names_case pubkey_case). Qed.

(** C40. A successful approval of an authorise request answers the key's length and the
    key; the setup approval is [C13_setup_stores_request]. *)
Theorem C40_authorise_answer : forall C O d k a room pk out,
  d_ui d = Some (VAuthorize k a) -> cf_room C (VAuthorize k a) = Some room ->
  o_pubkey O (fst k) (snd k) = Some pk -> len pk <= 255 ->
  fst (step C O d EApprove) = AReply out -> succeeds (AReply out) -> out = len pk :: pk ++ [0x90; 0].
Proof. exact authorised_answer. Qed.
Print Assumptions C40_authorise_answer.

(** C40. The queries for the stored key answer its path, after its curve for the variants
    that ask for it, at once or after approval. *)
Theorem C40_query_answer : forall C O d buf rx ins k pk a,
  cf_baking C = true -> apdu_ok buf -> command d buf rx ins -> In ins [0x07; 0xA7; 0x0D; 0xAD] -> nth 2 buf 0 = 0 ->
  stored_key d k -> key_ok k -> o_pubkey O (fst k) (snd k) = Some pk -> addr_new O (fst k) pk = SOk a ->
  fst (step C O d (EApdu buf rx)) = AReply (key_bytes (existsb (N.eqb ins) [0x0D; 0xAD]) k ++ [0x90; 0]) /\
  untouched d (snd (step C O d (EApdu buf rx))).
Proof. exact query_answers. Qed.
Print Assumptions C40_query_answer.
Theorem C40_query_approval : forall C O d wc k a room,
  d_ui d = Some (VQuery wc k a) -> cf_room C (VQuery wc k a) = Some room -> 44 <= room -> key_ok k ->
  step C O d EApprove = (AReply (key_bytes wc k ++ [0x90; 0]), set_ui None d).
Proof. exact query_approved. Qed.
Print Assumptions C40_query_approval.
Example C40_query_case :
  fst (run demo_config demo_oracles (demo_run [] authorise) [send 0xAD 0 0 []; send 0xA7 1 0 []; EApprove]) =
  [AReply (key_bytes true demo_key ++ [0x90; 0]); APending; AReply (key_bytes false demo_key ++ [0x90; 0])].
Proof. exact query_case. Qed.
