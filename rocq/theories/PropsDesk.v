(** Property theorems C87: calls of the host library with the device in a user's hands. *)
From Coq Require Import NArith ZArith Bool Arith String List.
From Verif Require Import Base Flash Codecs CodecsSpec Oracles Address AddressSpec AddressExamples HashDemo Upload UploadSpec UploadExamples
  Operations OperationsSpec OperationsExamples Text TextSpec TextExamples Bakers BakersSpec Device DeviceSpec DeviceDemo ServiceSpec ServiceExamples AdminExamples
  Screens ScreensSpec ScreensViews ScreensExamples Zui UiSpec UiDevice UiRun UiExamples HandSpec HandExamples
  Client ClientSpec ClientText ClientExamples Desk DeskSpec DeskFacts DeskSim DeskExamples.
Import ListNotations.
Open Scope list_scope.
Open Scope N_scope.

(** C87. A call of the library that asks a wallet for a signature, with the device in a
    user's hands and whatever was sent and pressed before: pressing the right button some
    number of times, then both, makes the call return the hash and the signature of
    exactly that message by exactly that key, every row having been shown; with one more
    press of the right button it returns the status of a refusal, without a signature. *)
Theorem C87_wallet_call : forall C O hw f u, oracles_ok O -> Forall up_fault_ok u -> forall H, host_ok H O ->
  forall is call mg text k message dg s olds rows,
  let at_ is := snd (ui_run C O known hw (ui_fresh hw f u) is) in let screen is := u_zui (at_ is) in
  let desk_held := held C O known hw in
  Forall input_ok is -> wallet_call C call mg ->
  let d := u_dev (at_ is) in
  let data := mg :: message in
  signable C O d text k data dg s olds -> Forall apdu_ok olds ->
  wallet_sheet data dg rows -> (List.length rows < 256)%nat -> (forall row, In row rows -> ~ unshowable O (snd row)) ->
  (forall sh p, exists room, cf_room C (VSign sh dg p data) = Some room /\ len dg + len s + 2 <= room) ->
  exists ins first mids last m, let read := is ++ map asked (first :: mids ++ [last]) ++ repeat (IPress Right) m in
    request ins k data first mids last /\
    (hw = NanoX \/ z_expert (screen is) = false -> Forall (row_seen O known hw (z_seen (screen read))) rows) /\
    (forall later, let s' := at_ (read ++ [IPress Both]) in
     call H desk_held text (fst k) message (at_ is, map (fun old => (old, repeat Right m ++ [Both])) olds ++ later)
     = (mkSignRes 0x9000 (Some dg) (Some s), (s', later)) /\
     d_log (u_dev s') = mkSig SrcReview k dg data :: d_log d /\ d_ui (u_dev s') = None /\
     forall sl, wear_read (get_slot sl (u_dev s')) = wear_read (get_slot sl d)) /\
    (forall later, let s' := at_ (read ++ [IPress Right; IPress Both]) in
     call H desk_held text (fst k) message (at_ is, map (fun old => (old, repeat Right m ++ [Right; Both])) olds ++ later)
     = (mkSignRes 0x6986 None None, (s', later)) /\ d_ui (u_dev s') = None /\ untouched d (u_dev s')).
Proof. exact wallet_held. Qed.
Print Assumptions C87_wallet_call.
Example C87_wallet_case : let rows := wallet_rows in let dg := blake2b 32 (3 :: op_message) in
  Forall input_ok wallet_hand /\ wallet_call wallet_config (W := desk) (@sign_operation desk) 3 /\
  signable wallet_config demo_oracles (u_dev desk_wallet) client_text (client_key Ed25519) (3 :: op_message) dg op_sig (olds 2) /\
  Forall apdu_ok (olds 2) /\ wallet_sheet (3 :: op_message) dg rows /\ (List.length rows < 256)%nat /\
  (forall row, In row rows -> ~ unshowable demo_oracles (snd row)) /\
  (forall sh p, exists room, cf_room wallet_config (VSign sh dg p (3 :: op_message)) = Some room /\ len dg + len op_sig + 2 <= room) /\
  z_expert (u_zui desk_wallet) = false.
Proof. exact wallet_held_case. Qed.
Example C87_wallet_run : let call bs := fst (sign_operation demo_host (held wallet_config demo_oracles known NanoS) client_text Ed25519 op_message
    (desk_wallet, hands 2 bs)) in
  call (repeat Right 21 ++ [Both]) = mkSignRes 0x9000 (Some (blake2b 32 (3 :: op_message))) (Some op_sig) /\
  call (repeat Right 21 ++ [Right; Both]) = mkSignRes 0x6986 None None /\
  call (repeat Right 21) = mkSignRes OTHER_ERROR None None.
Proof. exact wallet_held_run. Qed.


(** C87. The same for [signBaker] and the delegation of the authorised key. *)
Theorem C87_delegation_call : forall C O hw f u, oracles_ok O -> Forall up_fault_ok u -> forall H, host_ok H O ->
  forall is text k kp branch o dg s olds,
  let at_ is := snd (ui_run C O known hw (ui_fresh hw f u) is) in let screen is := u_zui (at_ is) in
  let desk_held := held C O known hw in
  Forall input_ok is ->
  let d := u_dev (at_ is) in
  let data := 3 :: branch ++ enc_op o in
  let rows := batch_sheet branch [op_of o] in
  signable C O d text k data dg s olds -> Forall apdu_ok olds ->
  cf_baking C = true -> List.length branch = 32%nat -> op_ok o -> baker_op o = true ->
  wear_read (d_key d) = Some (RData kp) -> key_layout kp k ->
  (forall row, In row rows -> ~ unshowable O (snd row)) ->
  (forall sh p, exists room, cf_room C (VBakingSign sh dg branch p data) = Some room /\ len dg + len s + 2 <= room) ->
  exists ins first mids last m, let read := is ++ map asked (first :: mids ++ [last]) ++ repeat (IPress Right) m in
    request ins k data first mids last /\
    (hw = NanoX \/ z_expert (screen is) = false -> Forall (row_seen O known hw (z_seen (screen read))) rows) /\
    (forall later, let s' := at_ (read ++ [IPress Both]) in
     sign_baker H desk_held text (fst k) (branch ++ enc_op o) BkDelegation (at_ is, map (fun old => (old, repeat Right m ++ [Both])) olds ++ later)
     = (JData 0x9000 (mkSignRes 0x9000 (Some dg) (Some s)), (s', later)) /\
     d_log (u_dev s') = mkSig SrcBakingReview k dg data :: d_log d /\ d_ui (u_dev s') = None /\
     forall sl, wear_read (get_slot sl (u_dev s')) = wear_read (get_slot sl d)) /\
    (forall later, let s' := at_ (read ++ [IPress Right; IPress Both]) in
     sign_baker H desk_held text (fst k) (branch ++ enc_op o) BkDelegation (at_ is, map (fun old => (old, repeat Right m ++ [Right; Both])) olds ++ later)
     = (JData 0x6986 (mkSignRes 0x6986 None None), (s', later)) /\ d_ui (u_dev s') = None /\ untouched d (u_dev s')).
Proof. exact delegation_held. Qed.
Print Assumptions C87_delegation_call.
Example C87_delegation_case : let branch := AddressExamples.demo_branch in
  signable demo_config demo_oracles (u_dev desk_baker) client_text (client_key Ed25519) (3 :: branch ++ enc_op small_delegation)
    (blake2b 32 delegation_message) (baker_sig delegation_message) (olds 2) /\
  List.length branch = 32%nat /\ op_ok small_delegation /\ baker_op small_delegation = true /\
  (forall r, In r (batch_sheet branch [op_of small_delegation]) -> ~ unshowable demo_oracles (snd r)) /\
  forall sh p, exists room,
    cf_room demo_config (VBakingSign sh (blake2b 32 delegation_message) branch p (3 :: branch ++ enc_op small_delegation)) = Some room /\
    len (blake2b 32 delegation_message) + len (baker_sig delegation_message) + 2 <= room.
Proof. exact delegation_held_case. Qed.


(** C87. The same for the call that authorises a key: the user reads the request and
    the address of the key, and the call returns the public key once it is stored, or the
    refusal with the device as it was. *)
Theorem C87_authorise_call : forall C O hw f u, oracles_ok O -> Forall up_fault_ok u -> forall H, host_ok H O ->
  forall is text k pk old,
  let at_ is := snd (ui_run C O known hw (ui_fresh hw f u) is) in let screen is := u_zui (at_ is) in
  let desk_held := held C O known hw in
  Forall intact_fault f -> Forall input_ok is -> len is + 1 < 2 ^ 64 ->
  let d := u_dev (at_ is) in
  d_faults d = [] -> d_ui d = None -> cf_baking C = true -> apdu_ok old ->
  path_text text (snd k) -> List.length (snd k) = 2%nat \/ List.length (snd k) = 4%nat -> addressable O k pk -> roomy C 110 ->
  exists p m, let read := is ++ asked p :: repeat (IPress Right) m in
    (hw = NanoX \/ z_expert (screen is) = false ->
     text_seen hw (z_seen (screen read)) "Type" (chars "Authorize Baking") /\
     exists t, address_text O (fst k) pk t /\ text_seen hw (z_seen (screen read)) "Address" t) /\
    (forall later, let s' := at_ (read ++ [IPress Both]) in
     authorize_baking H desk_held text (fst k) (at_ is, (old, repeat Right m ++ [Both]) :: later)
     = (JData 0x9000 pk, (s', later)) /\
     d_log (u_dev s') = d_log d /\ (forall k', stored_key (u_dev s') k' <-> k' = k) /\
     forall sl, sl <> SKey -> wear_read (get_slot sl (u_dev s')) = wear_read (get_slot sl d)) /\
    (forall later, let s' := at_ (read ++ [IPress Right; IPress Both]) in
     authorize_baking H desk_held text (fst k) (at_ is, (old, repeat Right m ++ [Right; Both]) :: later)
     = (JCode 0x6986, (s', later)) /\ u_dev s' = d).
Proof. exact authorise_held. Qed.
Print Assumptions C87_authorise_call.
Example C87_baker_case : Forall intact_fault [] /\ Forall input_ok desk_hand /\ len desk_hand + 2 < 2 ^ 64 /\ z_expert (u_zui desk_baker) = false /\
  d_ui (u_dev desk_baker) = None /\ d_faults (u_dev desk_baker) = [] /\ d_ufaults (u_dev desk_baker) = [] /\
  (exists kp, wear_read (d_key (u_dev desk_baker)) = Some (RData kp) /\ key_layout kp (client_key Ed25519)) /\
  path_text client_text (snd (client_key Secp256K1)) /\ List.length (snd (client_key Secp256K1)) = 4%nat /\
  addressable demo_oracles (client_key Secp256K1) (demo_pubkey Secp256K1 client_path) /\ roomy demo_config 110 /\
  twice demo_oracles (kind_prefix KindChain ++ be 4 0x7A06A770) <> None.
Proof. exact desk_baker_case. Qed.


(** C87. The address that the call returns is the one the user reads on the screen. *)
Theorem C87_address_call : forall C O hw f u, oracles_ok O -> Forall up_fault_ok u -> forall H, host_ok H O ->
  forall is text k pk old,
  let at_ is := snd (ui_run C O known hw (ui_fresh hw f u) is) in let screen is := u_zui (at_ is) in
  let desk_held := held C O known hw in
  Forall input_ok is ->
  let d := u_dev (at_ is) in
  d_ui d = None -> apdu_ok old ->
  path_text text (snd k) -> List.length (snd k) = 2%nat \/ List.length (snd k) = 4%nat -> addressable O k pk -> roomy C 110 ->
  exists p m t, let read := is ++ asked p :: repeat (IPress Right) m in
    address_text O (fst k) pk t /\
    (hw = NanoX \/ z_expert (screen is) = false -> text_seen hw (z_seen (screen read)) "Address" t) /\
    (forall later, let s' := at_ (read ++ [IPress Both]) in
     show_address_and_pubkey H desk_held text (fst k) (at_ is, (old, repeat Right m ++ [Both]) :: later)
     = (JData 0x9000 (pk, t), (s', later)) /\ u_dev s' = d) /\
    (forall later, let s' := at_ (read ++ [IPress Right; IPress Both]) in
     show_address_and_pubkey H desk_held text (fst k) (at_ is, (old, repeat Right m ++ [Right; Both]) :: later)
     = (JCode 0x6986, (s', later)) /\ u_dev s' = d).
Proof. exact address_held. Qed.
Print Assumptions C87_address_call.
Example C87_baker_run : let X := held demo_config demo_oracles known NanoS in
  fst (sign_baker demo_host X client_text Ed25519 (AddressExamples.demo_branch ++ enc_op small_delegation) BkDelegation
         (desk_baker, hands 2 (repeat Right 11 ++ [Both])))
    = JData 0x9000 (mkSignRes 0x9000 (Some (blake2b 32 delegation_message)) (Some (baker_sig delegation_message))) /\
  fst (authorize_baking demo_host X client_text Secp256K1 (desk_baker, hands 1 (repeat Right 3 ++ [Both])))
    = JData 0x9000 (demo_pubkey Secp256K1 client_path) /\
  fst (authorize_baking demo_host X client_text Secp256K1 (desk_baker, hands 1 (repeat Right 4 ++ [Both]))) = JCode 0x6986 /\
  fst (show_address_and_pubkey demo_host X client_text Secp256K1 (desk_baker, hands 1 (repeat Right 3))) = JCode OTHER_ERROR.
Proof. exact baker_held_run. Qed.


(** C87. The same for the call that sets a baking device up: the user reads the key's
    address, the chain and both levels; after approval the device reports exactly them. *)
Theorem C87_setup_call : forall C O hw f u, oracles_ok O -> Forall up_fault_ok u -> forall H, host_ok H O ->
  forall is text k pk main test chain old,
  let at_ is := snd (ui_run C O known hw (ui_fresh hw f u) is) in let screen is := u_zui (at_ is) in
  let desk_held := held C O known hw in
  Forall intact_fault f -> Forall input_ok is -> len is + 2 < 2 ^ 64 ->
  let d := u_dev (at_ is) in
  d_faults d = [] -> d_ui d = None -> cf_baking C = true -> apdu_ok old ->
  main < 2 ^ 32 -> test < 2 ^ 32 -> chain < 2 ^ 32 ->
  path_text text (snd k) -> List.length (snd k) = 2%nat \/ List.length (snd k) = 4%nat -> addressable O k pk -> roomy C 110 ->
  twice O (kind_prefix KindChain ++ be 4 chain) <> None ->
  let call bs later := legacy_setup H desk_held text (fst k) (Z.of_N main) (Z.of_N test) (Z.of_N chain) (at_ is, (old, bs) :: later) in
  exists p m, let read := is ++ asked p :: repeat (IPress Right) m in
    (hw = NanoX \/ z_expert (screen is) = false ->
     let saw title := text_seen hw (z_seen (screen read)) title in
     saw "Type" (chars "Setup Baking") /\
     (exists t, address_text O (fst k) pk t /\ saw "Address" t) /\
     (exists t, chain_text O chain t /\ saw "Chain" t) /\
     (exists t, shows_number main t /\ saw "Main Chain HWM" t) /\
     (exists t, shows_number test t /\ saw "Test Chain HWM" t)) /\
    (forall later, let s' := at_ (read ++ [IPress Both]) in
     (exists r, call (repeat Right m ++ [Both]) later = (JData 0x9000 r, (s', later))) /\
     reports_all C O (u_dev s') main test chain /\ (forall k', stored_key (u_dev s') k' <-> k' = k)) /\
    (forall later, let s' := at_ (read ++ [IPress Right; IPress Both]) in
     call (repeat Right m ++ [Right; Both]) later = (JCode 0x6986, (s', later)) /\ u_dev s' = d).
Proof. exact setup_held. Qed.
Print Assumptions C87_setup_call.
Example C87_setup_case : (2000000 < 2 ^ 32 /\ 17 < 2 ^ 32 /\ 0x7A06A770 < 2 ^ 32) /\
  let call n := fst (legacy_setup demo_host (held demo_config demo_oracles known NanoS) client_text Secp256K1 2000000 17 0x7A06A770
    (desk_baker, hands 1 (repeat Right n ++ [Both]))) in
  (exists r, call 6%nat = JData 0x9000 r) /\ call 7%nat = JCode 0x6986.
Proof. exact setup_held_case. Qed.


(** C87. Any of the library's calls, whatever the hands do: the call returns what it
    returns with a device whose user decides, and leaves the device in the same state. The
    decisions approve only where a hand pressed both buttons, and all that reaches the
    device are the commands and a part of what the hands pressed. *)
Theorem C87_hands_decide : forall C O hw f u, oracles_ok O -> Forall up_fault_ok u -> forall H,
  forall is hs A call,
  let at_ is := snd (ui_run C O known hw (ui_fresh hw f u) is) in
  let desk_held := held C O known hw in
  library_call H A call -> Forall input_ok is ->
  Forall (fun h => apdu_ok (fst h)) hs ->
  exists r ls hs1 hs2 es, let is' := is ++ concat ls in
    hs = hs1 ++ hs2 /\ Forall2 stands_for hs1 es /\ Forall2 handled hs1 ls /\ Forall input_ok is' /\
    call desk desk_held (at_ is, hs) = (r, (at_ is', hs2)) /\
    call connection (plugged C O) (u_dev (at_ is), es) = (r, (u_dev (at_ is'), [])).
Proof. exact hands_decide. Qed.
Print Assumptions C87_hands_decide.
Example C87_hands_case : let hs := hands 2 (repeat Right 21 ++ [Both]) in
  library_call demo_host sign_res (fun W X => sign_operation demo_host X client_text Ed25519 op_message) /\
  Forall input_ok wallet_hand /\ Forall (fun h : bytes * list button => apdu_ok (fst h)) hs /\
  (exists s, sign_operation demo_host (held wallet_config demo_oracles known NanoS) client_text Ed25519 op_message (desk_wallet, hs)
     = (mkSignRes 0x9000 (Some (blake2b 32 (3 :: op_message))) (Some op_sig), (s, []))).
Proof. exact hands_case. Qed.


(** C87. Unless a hand presses both buttons, no call changes the authorised key or makes
    the device sign after a review; a wallet signs nothing at all. *)
Theorem C87_needs_both : forall C O hw f u, oracles_ok O -> Forall up_fault_ok u -> forall H,
  forall is hs A call,
  let at_ is := snd (ui_run C O known hw (ui_fresh hw f u) is) in
  let desk_held := held C O known hw in
  library_call H A call -> Forall input_ok is ->
  Forall (fun h => apdu_ok (fst h)) hs -> (forall h, In h hs -> ~ In Both (snd h)) ->
  let d := u_dev (at_ is) in
  let d' := u_dev (fst (snd (call desk desk_held (at_ is, hs)))) in
  (forall k, stored_key d' k <-> stored_key d k) /\
  exists l, d_log d' = l ++ d_log d /\ forall g, In g l -> cf_baking C = true /\ (sg_src g = SrcConsensus \/ sg_src g = SrcHmac).
Proof. exact needs_both. Qed.
Print Assumptions C87_needs_both.
Example C87_needs_both_case : let hs := hands 2 [Right; Left; Right] in
  library_call demo_host sign_res (fun W X => sign_operation demo_host X client_text Ed25519 op_message) /\
  Forall (fun h : bytes * list button => apdu_ok (fst h)) hs /\ forall h, In h hs -> ~ In Both (snd h).
Proof. exact needs_both_case. Qed.

