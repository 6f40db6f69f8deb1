(** Cases that meet the hypotheses of the statements about requests decided by hand. *)
From Coq Require Import NArith ZArith Bool Arith String List Lia.
From Coq Require Import ZifyBool ZifyNat ZifyN.
From Verif Require Import Base BaseFacts Flash Codecs CodecsSpec Upload UploadSpec UploadExamples Oracles Address AddressSpec AddressExamples HashDemo
  Operations OperationsSpec OperationsExamples Text TextSpec TextExamples Bakers BakersSpec
  Device DeviceSpec DeviceDemo DeviceExamples DeviceCases ServiceSpec ServiceExamples AdminExamples
  Screens ScreensSpec ScreensViews ScreensExamples Zui UiSpec UiDevice UiRun UiExamples HandSpec.
Import ListNotations.
Open Scope list_scope.
Open Scope N_scope.

Lemma rows_showableb (rows : list row) : forallb (fun r : row => showableb (snd r)) rows = true -> forall r : row, In r rows -> ~ unshowable demo_oracles (snd r).
Proof. rewrite forallb_forall. intros H r Hr. now apply showableb_ok, H. Qed.

(** A wallet whose last upload was abandoned is asked to sign a transfer and a
    delegation. *)
Definition wallet_hand : list input := inputs wallet_before.
Definition wallet_rows : list row :=
  batch_sheet demo_branch (map op_of [TTransfer demo_man 1500000 (TzImplicit demo_pkh2) None; TDelegation demo_man None]).
Lemma wallet_hand_case : let d := u_dev (after_inputs wallet_config NanoS wallet_hand) in
  oracles_ok demo_oracles /\ Forall input_ok wallet_hand /\ d_ui d = None /\ d_ufaults d = [] /\ z_expert (u_zui (after_inputs wallet_config NanoS wallet_hand)) = false /\
  wallet_sheet wallet_message (blake2b 32 wallet_message) wallet_rows /\ List.length wallet_rows = 17%nat /\
  (forall r, In r wallet_rows -> ~ unshowable demo_oracles (snd r)) /\ o_blake2b demo_oracles 32 wallet_message = Some (blake2b 32 wallet_message) /\
  let read := wallet_hand ++ map asked (naming 0x0F :: wallet_mids ++ [wallet_last]) ++ presses Right 21 in
  exists s, o_sign demo_oracles (fst demo_key) (snd demo_key) (blake2b 32 wallet_message) = Some s /\
  answers_of wallet_config NanoS (read ++ [IPress Both]) = [go_on; go_on; go_on; go_on; APending; AReply (blake2b 32 wallet_message ++ s ++ [0x90; 0])] /\
  answers_of wallet_config NanoS (read ++ [IPress Right; IPress Both]) = [go_on; go_on; go_on; go_on; APending; AReply [0x69; 0x86]].
Proof.
  cbv zeta. split; [exact demo_oracles_ok|]. split; [apply inputs_okb_ok; vm_compute; reflexivity|]. split; [vm_compute; reflexivity|].
  split; [vm_compute; reflexivity|]. split; [vm_compute; reflexivity|].
  split; [apply WsBatch; [reflexivity|]; constructor; [|constructor; [|constructor]]; repeat split|]. split; [vm_compute; reflexivity|].
  split; [apply rows_showableb; vm_compute; reflexivity|]. split; [reflexivity|].
  eexists. split; [reflexivity|]. split; vm_compute; reflexivity.
Qed.

(** A baking device whose key was authorised by hand. *)
Definition ask (ins p1 p2 : N) (payload : bytes) : input := IApdu (apdu ins p1 p2 payload) (5 + len payload).
Definition baker_hand : list input := ask 0xA1 1 0 (path_serialize demo_path) :: presses Right 3 ++ [IPress Both].
Definition baker_dev : dev := u_dev (after_inputs demo_config NanoS baker_hand).
Lemma baker_hand_ok : Forall input_ok baker_hand /\ len baker_hand + 2 < 2 ^ 64 /\
  z_expert (u_zui (after_inputs demo_config NanoS baker_hand)) = false /\
  d_ui baker_dev = None /\ d_faults baker_dev = [] /\ d_ufaults baker_dev = [] /\
  (exists kp, wear_read (d_key baker_dev) = Some (RData kp) /\ key_layout kp demo_key) /\
  answers_of demo_config NanoS baker_hand = [APending; AReply (len (demo_pubkey Ed25519 demo_path) :: demo_pubkey Ed25519 demo_path ++ [0x90; 0])].
Proof.
  split; [apply inputs_okb_ok; vm_compute; reflexivity|]. split; [reflexivity|]. split; [vm_compute; reflexivity|].
  split; [vm_compute; reflexivity|]. split; [vm_compute; reflexivity|]. split; [vm_compute; reflexivity|].
  split; [|vm_compute; reflexivity].
  exists (key_serialize demo_key). split; [vm_compute; reflexivity|]. split; [apply demo_path_ok|]. vm_compute. reflexivity.
Qed.
Lemma delegation_hand_case :
  op_ok small_delegation /\ baker_op small_delegation = true /\
  request 0x04 demo_key delegation_message (naming 0x04) [] delegation_last /\
  (forall r, In r (batch_sheet demo_branch [op_of small_delegation]) -> ~ unshowable demo_oracles (snd r)).
Proof.
  destruct delegation_served_case as (_ & A & B & _ & _ & Q & _). split; [exact A|]. split; [exact B|]. split; [exact Q|].
  apply rows_showableb. vm_compute. reflexivity.
Qed.

Definition setup_ask : input := ask 0x0A 0 1 setup_payload.
Lemma setup_hand_case : let buf := apdu 0x0A 0 1 setup_payload in
  apdu_ok buf /\ command baker_dev buf 30 0x0A /\ nth 3 buf 0 = byte_of_curve (fst other_key) /\
  pay buf = be 4 0x7A06A770 ++ be 4 2000000 ++ be 4 17 ++ path_serialize other_path ++ [] /\
  path_encodes BIP32_MAX_LENGTH (path_serialize other_path) (snd other_key) /\
  addressable demo_oracles other_key (demo_pubkey Secp256K1 other_path) /\ roomy demo_config 110 /\
  twice demo_oracles (kind_prefix KindChain ++ be 4 0x7A06A770) <> None.
Proof.
  destruct setup_case as (A & (_ & B) & C & D & E). cbv zeta. split; [exact A|].
  split; [split; [apply baker_hand_ok|exact B]|]. split; [exact C|]. split; [exact D|]. split; [exact E|].
  split; [apply demo_addressable|]. split; [apply demo_room|]. discriminate.
Qed.
(** What the user sees of it, on both devices. *)
Definition setup_seen (hw : hardware) (m : nat) : list shot :=
  rev (z_seen (u_zui (after_inputs demo_config hw (baker_hand ++ setup_ask :: presses Right m)))).
Lemma authorise_hand_case : let buf := apdu 0xA1 1 1 (path_serialize other_path) in
  apdu_ok buf /\ command baker_dev buf 18 0xA1 /\ 1 <= nth 2 buf 0 /\ names BIP32_MAX_LENGTH buf other_key.
Proof.
  destruct authorise_case as (A & (_ & B) & C & D & _). cbv zeta. split; [exact A|].
  split; [split; [apply baker_hand_ok|exact B]|]. split; [exact C|exact D].
Qed.
Lemma address_hand_case : let buf := apdu 0x11 1 1 (path_serialize other_path) in
  apdu_ok buf /\ command baker_dev buf 18 0x11 /\ wants_review buf 0x11 /\ names 6 buf other_key.
Proof.
  cbv zeta. split; [apply apdu_okb_ok; vm_compute; reflexivity|].
  split; [split; [apply baker_hand_ok|split; [lia|split; reflexivity]]|].
  split; [right; split; [reflexivity|vm_compute; discriminate]|].
  split; [reflexivity|]. exact (other_encodes 6 ltac:(lia)).
Qed.
Lemma setup_hand_run :
  setup_seen NanoS 6 =
    [s_shot "Type" "Setup Baking" ""; s_shot "Address [1/2]" "tz29AZfZ9Cn9jf6iH" "D5tf5e7mG3pLrahDT"; s_shot "Address [2/2]" "oU" "";
     s_shot "Chain" "mainnet" ""; s_shot "Main Chain HWM" "2000000" ""; s_shot "Test Chain HWM" "17" ""; label "APPROVE"] /\
  answers_of demo_config NanoS (baker_hand ++ setup_ask :: presses Right 6 ++ [IPress Both]) =
    answers_of demo_config NanoS baker_hand
    ++ [APending; AReply (len (demo_pubkey Secp256K1 other_path) :: demo_pubkey Secp256K1 other_path ++ [0x90; 0])].
Proof. split; vm_compute; reflexivity. Qed.
