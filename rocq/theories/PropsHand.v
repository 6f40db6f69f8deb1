(** Property theorems C86: requests decided by hand. *)
From Coq Require Import NArith ZArith Bool Arith String List.
From Verif Require Import Base Flash Codecs CodecsSpec Oracles Address AddressSpec AddressExamples HashDemo Upload UploadSpec UploadExamples
  Operations OperationsSpec OperationsExamples Text TextSpec TextExamples Bakers BakersSpec Device DeviceSpec DeviceDemo ServiceSpec ServiceExamples AdminExamples
  Screens ScreensSpec ScreensViews ScreensExamples Zui UiSpec UiDevice UiRun UiExamples HandSpec HandFacts HandExamples.
Import ListNotations.
Open Scope list_scope.
Open Scope N_scope.

(** C86. Any review of less than 256 rows that can all be shown: pressing the right
    button some number of times, then both, makes the device do what approval means;
    with one more press of the right button, what rejection means. Before, every page of
    every row has been on the screen, on the Nano S unless expert mode was on. *)
Theorem C86_by_hand : forall C O hw f u, oracles_ok O -> Forall up_fault_ok u ->
  forall is buf rx v rows,
  let at_ is := snd (ui_run C O known hw (ui_fresh hw f u) is) in
  let said is := fst (ui_run C O known hw (ui_fresh hw f u) is) in let screen is := u_zui (at_ is) in let pending is := d_ui (u_dev (at_ is)) in
  Forall input_ok is -> apdu_ok buf ->
  fst (ui_step C O known hw (at_ is) (IApdu buf rx)) = [APending] ->
  pending (is ++ [IApdu buf rx]) = Some v -> view_sheet v = Some rows -> (List.length rows < 256)%nat ->
  (forall row, In row rows -> ~ unshowable O (snd row)) ->
  let d := u_dev (at_ (is ++ [IApdu buf rx])) in
  exists m, let read := is ++ IApdu buf rx :: repeat (IPress Right) m in
    said read = said is ++ [APending] /\ said (read ++ [IPress Right]) = said is ++ [APending] /\
    (hw = NanoX \/ z_expert (screen is) = false -> Forall (row_seen O known hw (z_seen (screen read))) rows) /\
    (said (read ++ [IPress Both]) = said is ++ [APending; fst (step C O d EApprove)] /\
     u_dev (at_ (read ++ [IPress Both])) = snd (step C O d EApprove)) /\
    (said (read ++ [IPress Right; IPress Both]) = said is ++ [APending; fst (step C O d EReject)] /\
     u_dev (at_ (read ++ [IPress Right; IPress Both])) = snd (step C O d EReject)).
Proof. exact by_hand. Qed.
Print Assumptions C86_by_hand.
Example C86_case : let s := after_inputs wallet_config NanoS small_inputs in
  exists v rows, answers_of wallet_config NanoS small_inputs = [AReply [0x90; 0]; APending] /\
  d_ui (u_dev s) = Some v /\ view_sheet v = Some rows /\
  (List.length rows < 256)%nat /\ forall r, In r rows -> ~ unshowable demo_oracles (snd r).
Proof. exact reachable_case. Qed.

(** C86. A well-formed request for a signature on a wallet, for a batch of operations in
    the protocol's format or Michelson data: whatever was sent and pressed before, the
    buttons lead to the signature of exactly that message by exactly that key, every row
    having been shown; or to the refusal, without a signature. *)
Theorem C86_wallet_by_hand : forall C O hw f u, oracles_ok O -> Forall up_fault_ok u ->
  forall is ins k data first mids last dg s rows,
  let at_ is := snd (ui_run C O known hw (ui_fresh hw f u) is) in
  let said is := fst (ui_run C O known hw (ui_fresh hw f u) is) in let screen is := u_zui (at_ is) in
  Forall input_ok is ->
  let d := u_dev (at_ is) in
  d_ui d = None -> d_ufaults d = [] -> upload_command C ins = Some AccSign ->
  request ins k data first mids last -> wallet_sheet data dg rows -> (List.length rows < 256)%nat ->
  (forall row, In row rows -> ~ unshowable O (snd row)) ->
  o_blake2b O 32 data = Some dg -> o_sign O (fst k) (snd k) dg = Some s -> (List.length s <= 100)%nat ->
  (forall sh p, exists room, cf_room C (VSign sh dg p data) = Some room /\ len dg + len s + 2 <= room) ->
  exists m, let read := is ++ map asked (first :: mids ++ [last]) ++ repeat (IPress Right) m in
    said read = said is ++ map (fun _ => go_on) (first :: mids) ++ [APending] /\ said (read ++ [IPress Right]) = said is ++ map (fun _ => go_on) (first :: mids) ++ [APending] /\
    (hw = NanoX \/ z_expert (screen is) = false -> Forall (row_seen O known hw (z_seen (screen read))) rows) /\
    (let d' := u_dev (at_ (read ++ [IPress Both])) in
     said (read ++ [IPress Both]) = said is ++ map (fun _ => go_on) (first :: mids)
       ++ [APending; AReply ((if (ins =? 0x04) || (ins =? 0x05) then [] else dg) ++ s ++ [0x90; 0])] /\
     d_log d' = mkSig SrcReview k dg data :: d_log d /\ d_ui d' = None /\
     forall sl, wear_read (get_slot sl d') = wear_read (get_slot sl d)) /\
    (let d' := u_dev (at_ (read ++ [IPress Right; IPress Both])) in
     said (read ++ [IPress Right; IPress Both]) = said is ++ map (fun _ => go_on) (first :: mids) ++ [APending; AReply [0x69; 0x86]] /\
     d_ui d' = None /\ untouched d d').
Proof. exact wallet_by_hand. Qed.
Print Assumptions C86_wallet_by_hand.
Example C86_wallet_case : let d := u_dev (after_inputs wallet_config NanoS wallet_hand) in
  oracles_ok demo_oracles /\ Forall input_ok wallet_hand /\ d_ui d = None /\ d_ufaults d = [] /\ z_expert (u_zui (after_inputs wallet_config NanoS wallet_hand)) = false /\
  wallet_sheet wallet_message (blake2b 32 wallet_message) wallet_rows /\ List.length wallet_rows = 17%nat /\
  (forall r, In r wallet_rows -> ~ unshowable demo_oracles (snd r)) /\ o_blake2b demo_oracles 32 wallet_message = Some (blake2b 32 wallet_message) /\
  let read := wallet_hand ++ map asked (naming 0x0F :: wallet_mids ++ [wallet_last]) ++ presses Right 21 in
  exists s, o_sign demo_oracles (fst demo_key) (snd demo_key) (blake2b 32 wallet_message) = Some s /\
  answers_of wallet_config NanoS (read ++ [IPress Both]) = [go_on; go_on; go_on; go_on; APending; AReply (blake2b 32 wallet_message ++ s ++ [0x90; 0])] /\
  answers_of wallet_config NanoS (read ++ [IPress Right; IPress Both]) = [go_on; go_on; go_on; go_on; APending; AReply [0x69; 0x86]].
Proof. exact wallet_hand_case. Qed.

(** C86. The same of a delegation or a reveal by the authorised key of a baking app. *)
Theorem C86_operation_by_hand : forall C O hw f u, oracles_ok O -> Forall up_fault_ok u ->
  forall is ins k kp branch o first mids last dg s,
  let at_ is := snd (ui_run C O known hw (ui_fresh hw f u) is) in
  let said is := fst (ui_run C O known hw (ui_fresh hw f u) is) in let screen is := u_zui (at_ is) in
  Forall input_ok is ->
  let d := u_dev (at_ is) in
  let data := 3 :: branch ++ enc_op o in
  let rows := batch_sheet branch [op_of o] in
  d_ui d = None -> d_ufaults d = [] ->
  cf_baking C = true -> In ins [0x04; 0x0F; 0xAF] -> List.length branch = 32%nat -> op_ok o -> baker_op o = true ->
  request ins k data first mids last ->
  wear_read (d_key d) = Some (RData kp) -> key_layout kp k ->
  (forall row, In row rows -> ~ unshowable O (snd row)) ->
  o_blake2b O 32 data = Some dg -> o_sign O (fst k) (snd k) dg = Some s -> (List.length s <= 100)%nat ->
  (forall sh p, exists room, cf_room C (VBakingSign sh dg branch p data) = Some room /\ len dg + len s + 2 <= room) ->
  exists m, let read := is ++ map asked (first :: mids ++ [last]) ++ repeat (IPress Right) m in
    said read = said is ++ map (fun _ => go_on) (first :: mids) ++ [APending] /\ said (read ++ [IPress Right]) = said is ++ map (fun _ => go_on) (first :: mids) ++ [APending] /\
    (hw = NanoX \/ z_expert (screen is) = false -> Forall (row_seen O known hw (z_seen (screen read))) rows) /\
    (let d' := u_dev (at_ (read ++ [IPress Both])) in
     said (read ++ [IPress Both]) = said is ++ map (fun _ => go_on) (first :: mids)
       ++ [APending; AReply ((if ins =? 0x04 then [] else dg) ++ s ++ [0x90; 0])] /\
     d_log d' = mkSig SrcBakingReview k dg data :: d_log d /\ d_ui d' = None /\
     forall sl, wear_read (get_slot sl d') = wear_read (get_slot sl d)) /\
    (let d' := u_dev (at_ (read ++ [IPress Right; IPress Both])) in
     said (read ++ [IPress Right; IPress Both]) = said is ++ map (fun _ => go_on) (first :: mids) ++ [APending; AReply [0x69; 0x86]] /\
     d_ui d' = None /\ untouched d d').
Proof. exact operation_by_hand. Qed.
Print Assumptions C86_operation_by_hand.
Example C86_operation_case :
  (Forall input_ok baker_hand /\ len baker_hand + 2 < 2 ^ 64 /\
   z_expert (u_zui (after_inputs demo_config NanoS baker_hand)) = false /\
   d_ui baker_dev = None /\ d_faults baker_dev = [] /\ d_ufaults baker_dev = [] /\
   (exists kp, wear_read (d_key baker_dev) = Some (RData kp) /\ key_layout kp demo_key) /\
   answers_of demo_config NanoS baker_hand = [APending; AReply (len (demo_pubkey Ed25519 demo_path) :: demo_pubkey Ed25519 demo_path ++ [0x90; 0])]) /\
  op_ok small_delegation /\ baker_op small_delegation = true /\
  request 0x04 demo_key delegation_message (naming 0x04) [] delegation_last /\
  (forall r, In r (batch_sheet demo_branch [op_of small_delegation]) -> ~ unshowable demo_oracles (snd r)).
Proof. exact (conj baker_hand_ok delegation_hand_case). Qed.

(** C86. A well-formed request to authorise a key: the buttons lead to that key being the
    one stored, its address having been shown; or to the same state as before. *)
Theorem C86_authorise_by_hand : forall C O hw f u, oracles_ok O -> Forall up_fault_ok u ->
  forall is buf rx ins k pk,
  let at_ is := snd (ui_run C O known hw (ui_fresh hw f u) is) in
  let said is := fst (ui_run C O known hw (ui_fresh hw f u) is) in let screen is := u_zui (at_ is) in
  Forall intact_fault f -> Forall input_ok is -> len is + 1 < 2 ^ 64 ->
  let d := u_dev (at_ is) in
  d_faults d = [] -> cf_baking C = true -> apdu_ok buf -> command d buf rx ins -> In ins [0x01; 0xA1] ->
  1 <= nth 2 buf 0 -> names BIP32_MAX_LENGTH buf k -> addressable O k pk -> roomy C 110 ->
  exists m, let read := is ++ IApdu buf rx :: repeat (IPress Right) m in
    said read = said is ++ [APending] /\ said (read ++ [IPress Right]) = said is ++ [APending] /\
    (hw = NanoX \/ z_expert (screen is) = false ->
     text_seen hw (z_seen (screen read)) "Type" (chars "Authorize Baking") /\
     exists t, address_text O (fst k) pk t /\ text_seen hw (z_seen (screen read)) "Address" t) /\
    (let d' := u_dev (at_ (read ++ [IPress Both])) in
     said (read ++ [IPress Both]) = said is ++ [APending; AReply (len pk :: pk ++ [0x90; 0])] /\
     d_log d' = d_log d /\ (forall k', stored_key d' k' <-> k' = k) /\
     forall s, s <> SKey -> wear_read (get_slot s d') = wear_read (get_slot s d)) /\
    (said (read ++ [IPress Right; IPress Both]) = said is ++ [APending; AReply [0x69; 0x86]] /\
     u_dev (at_ (read ++ [IPress Right; IPress Both])) = d).
Proof. exact authorise_by_hand. Qed.
Print Assumptions C86_authorise_by_hand.
Example C86_authorise_case : let buf := apdu 0xA1 1 1 (path_serialize other_path) in
  apdu_ok buf /\ command baker_dev buf 18 0xA1 /\ 1 <= nth 2 buf 0 /\ names BIP32_MAX_LENGTH buf other_key.
Proof. exact authorise_hand_case. Qed.

(** C86. A well-formed request to set up: the buttons lead to that key, levels and chain
    being the ones stored, all of them having been shown; or to the same state as
    before. *)
Theorem C86_setup_by_hand : forall C O hw f u, oracles_ok O -> Forall up_fault_ok u ->
  forall is buf rx k main test chain enc rest pk,
  let at_ is := snd (ui_run C O known hw (ui_fresh hw f u) is) in
  let said is := fst (ui_run C O known hw (ui_fresh hw f u) is) in let screen is := u_zui (at_ is) in
  Forall intact_fault f -> Forall input_ok is -> len is + 2 < 2 ^ 64 ->
  let d := u_dev (at_ is) in
  d_faults d = [] -> cf_baking C = true -> apdu_ok buf -> command d buf rx 0x0A ->
  nth 3 buf 0 = byte_of_curve (fst k) ->
  pay buf = be 4 chain ++ be 4 main ++ be 4 test ++ enc ++ rest -> path_encodes BIP32_MAX_LENGTH enc (snd k) ->
  main < 2 ^ 32 -> test < 2 ^ 32 -> chain < 2 ^ 32 -> addressable O k pk -> roomy C 110 ->
  twice O (kind_prefix KindChain ++ be 4 chain) <> None ->
  exists m, let read := is ++ IApdu buf rx :: repeat (IPress Right) m in
    said read = said is ++ [APending] /\ said (read ++ [IPress Right]) = said is ++ [APending] /\
    (hw = NanoX \/ z_expert (screen is) = false ->
     let saw title := text_seen hw (z_seen (screen read)) title in
     saw "Type" (chars "Setup Baking") /\
     (exists t, address_text O (fst k) pk t /\ saw "Address" t) /\
     (exists t, chain_text O chain t /\ saw "Chain" t) /\
     (exists t, shows_number main t /\ saw "Main Chain HWM" t) /\
     (exists t, shows_number test t /\ saw "Test Chain HWM" t)) /\
    (let d' := u_dev (at_ (read ++ [IPress Both])) in
     said (read ++ [IPress Both]) = said is ++ [APending; AReply (len pk :: pk ++ [0x90; 0])] /\
     reports_all C O d' main test chain /\ (forall k', stored_key d' k' <-> k' = k)) /\
    (said (read ++ [IPress Right; IPress Both]) = said is ++ [APending; AReply [0x69; 0x86]] /\
     u_dev (at_ (read ++ [IPress Right; IPress Both])) = d).
Proof. exact setup_by_hand. Qed.
Print Assumptions C86_setup_by_hand.
Example C86_setup_case : let buf := apdu 0x0A 0 1 setup_payload in
  apdu_ok buf /\ command baker_dev buf 30 0x0A /\ nth 3 buf 0 = byte_of_curve (fst other_key) /\
  pay buf = be 4 0x7A06A770 ++ be 4 2000000 ++ be 4 17 ++ path_serialize other_path ++ [] /\
  path_encodes BIP32_MAX_LENGTH (path_serialize other_path) (snd other_key) /\
  addressable demo_oracles other_key (demo_pubkey Secp256K1 other_path) /\ roomy demo_config 110 /\
  twice demo_oracles (kind_prefix KindChain ++ be 4 0x7A06A770) <> None.
Proof. exact setup_hand_case. Qed.
Example C86_setup_run :
  setup_seen NanoS 6 =
    [s_shot "Type" "Setup Baking" ""; s_shot "Address [1/2]" "tz29AZfZ9Cn9jf6iH" "D5tf5e7mG3pLrahDT"; s_shot "Address [2/2]" "oU" "";
     s_shot "Chain" "mainnet" ""; s_shot "Main Chain HWM" "2000000" ""; s_shot "Test Chain HWM" "17" ""; label "APPROVE"] /\
  answers_of demo_config NanoS (baker_hand ++ setup_ask :: presses Right 6 ++ [IPress Both]) =
    answers_of demo_config NanoS baker_hand
    ++ [APending; AReply (len (demo_pubkey Secp256K1 other_path) :: demo_pubkey Secp256K1 other_path ++ [0x90; 0])].
Proof. exact setup_hand_run. Qed.

(** C86. A well-formed request to confirm the address of a key: the buttons lead to the
    answer with exactly the address that was shown; or to the refusal. The state is the
    same as before. *)
Theorem C86_address_by_hand : forall C O hw f u, oracles_ok O -> Forall up_fault_ok u ->
  forall is buf rx ins k pk,
  let at_ is := snd (ui_run C O known hw (ui_fresh hw f u) is) in
  let said is := fst (ui_run C O known hw (ui_fresh hw f u) is) in let screen is := u_zui (at_ is) in
  Forall input_ok is ->
  let d := u_dev (at_ is) in
  apdu_ok buf -> command d buf rx ins -> wants_review buf ins -> names 6 buf k -> addressable O k pk -> roomy C 110 ->
  exists m t, let read := is ++ IApdu buf rx :: repeat (IPress Right) m in
    said read = said is ++ [APending] /\ said (read ++ [IPress Right]) = said is ++ [APending] /\ address_text O (fst k) pk t /\
    (hw = NanoX \/ z_expert (screen is) = false -> text_seen hw (z_seen (screen read)) "Address" t) /\
    (said (read ++ [IPress Both]) = said is ++ [APending; AReply (len pk :: pk ++ t ++ [0x90; 0])] /\
     u_dev (at_ (read ++ [IPress Both])) = d) /\
    (said (read ++ [IPress Right; IPress Both]) = said is ++ [APending; AReply [0x69; 0x86]] /\
     u_dev (at_ (read ++ [IPress Right; IPress Both])) = d).
Proof. exact address_by_hand. Qed.
Print Assumptions C86_address_by_hand.
Example C86_address_case : let buf := apdu 0x11 1 1 (path_serialize other_path) in
  apdu_ok buf /\ command baker_dev buf 18 0x11 /\ wants_review buf 0x11 /\ names 6 buf other_key.
Proof. exact address_hand_case. Qed.
