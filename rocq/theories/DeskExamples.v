(** Cases that meet the hypotheses of the statements about the host library and a device
    in a user's hands. *)
From Coq Require Import NArith ZArith Bool Arith String List Lia.
From Coq Require Import ZifyBool ZifyNat ZifyN.
From Verif Require Import Base BaseFacts Flash Codecs CodecsSpec Upload UploadSpec UploadExamples Oracles Address AddressSpec AddressExamples HashDemo
  Operations OperationsSpec OperationsExamples Text TextSpec TextExamples Bakers BakersSpec
  Device DeviceSpec DeviceDemo DeviceExamples DeviceCases ServiceSpec ServiceExamples AdminExamples
  Screens ScreensSpec ScreensViews ScreensExamples Zui UiSpec UiDevice UiRun UiExamples HandSpec HandExamples
  Client ClientSpec ClientExamples Desk DeskSpec.
Import ListNotations.
Open Scope list_scope.
Open Scope N_scope.

Definition olds (n : nat) : list bytes := repeat stale n.
Lemma olds_ok n : Forall apdu_ok (olds n).
Proof. apply Forall_forall. intros x Hx. apply repeat_spec in Hx. subst x. apply stale_ok. Qed.
Definition hands (n : nat) (bs : list button) : list (bytes * list button) := repeat (stale, bs) n.
Lemma hands_ok n bs : Forall (fun h : bytes * list button => apdu_ok (fst h)) (hands n bs).
Proof. apply Forall_forall. intros x Hx. apply repeat_spec in Hx. subst x. apply stale_ok. Qed.

(** A wallet whose last upload was abandoned. *)
Definition desk_wallet : uidev := after_inputs wallet_config NanoS wallet_hand.
Definition op_sig : bytes := sha256 (demo_pubkey Ed25519 client_path ++ blake2b 32 (3 :: op_message)) ++ sha256 (blake2b 32 (3 :: op_message)).
Lemma wallet_held_case : let rows := wallet_rows in let dg := blake2b 32 (3 :: op_message) in
  Forall input_ok wallet_hand /\ wallet_call wallet_config (W := desk) (@sign_operation desk) 3 /\
  signable wallet_config demo_oracles (u_dev desk_wallet) client_text (client_key Ed25519) (3 :: op_message) dg op_sig (olds 2) /\
  Forall apdu_ok (olds 2) /\ wallet_sheet (3 :: op_message) dg rows /\ (List.length rows < 256)%nat /\
  (forall row, In row rows -> ~ unshowable demo_oracles (snd row)) /\
  (forall sh p, exists room, cf_room wallet_config (VSign sh dg p (3 :: op_message)) = Some room /\ len dg + len op_sig + 2 <= room) /\
  z_expert (u_zui desk_wallet) = false.
Proof.
  destruct wallet_hand_case as (_ & A1 & A2 & A3 & A4 & A5 & A6 & A7 & _). cbv zeta.
  split; [exact A1|]. split; [constructor|]. split.
  - constructor.
    + exact A2.
    + exact A3.
    + exact client_text_ok.
    + now right.
    + apply bytes_okb_ok. vm_compute. reflexivity.
    + apply Nat.leb_le. vm_compute. reflexivity.
    + vm_compute. reflexivity.
    + reflexivity.
    + apply blake2b_length. lia.
    + unfold op_sig, client_key. cbn [fst snd demo_oracles o_sign]. reflexivity.
    + unfold op_sig. rewrite app_length, !sha256_length. lia.
  - split; [apply olds_ok|]. split; [exact A5|]. split; [rewrite A6; lia|]. split; [exact A7|]. split; [|exact A4].
    apply client_room. unfold op_sig. rewrite app_length, !sha256_length. lia.
Qed.
(** The call, run: with the buttons that approve, that reject, and none. *)
Lemma wallet_held_run :
  let call bs := fst (sign_operation demo_host (held wallet_config demo_oracles known NanoS) client_text Ed25519 op_message
    (desk_wallet, hands 2 bs)) in
  call (repeat Right 21 ++ [Both]) = mkSignRes 0x9000 (Some (blake2b 32 (3 :: op_message))) (Some op_sig) /\
  call (repeat Right 21 ++ [Right; Both]) = mkSignRes 0x6986 None None /\
  call (repeat Right 21) = mkSignRes OTHER_ERROR None None.
Proof. cbv zeta. split; [|split]; vm_compute; reflexivity. Qed.

(** A baking device whose key was authorised by hand. *)
Definition desk_hand : list input := HandExamples.ask 0xA1 1 0 (path_serialize client_path) :: presses Right 3 ++ [IPress Both].
Definition desk_baker : uidev := after_inputs demo_config NanoS desk_hand.
Lemma desk_baker_case :
  Forall intact_fault [] /\ Forall input_ok desk_hand /\ len desk_hand + 2 < 2 ^ 64 /\ z_expert (u_zui desk_baker) = false /\
  d_ui (u_dev desk_baker) = None /\ d_faults (u_dev desk_baker) = [] /\ d_ufaults (u_dev desk_baker) = [] /\
  (exists kp, wear_read (d_key (u_dev desk_baker)) = Some (RData kp) /\ key_layout kp (client_key Ed25519)) /\
  path_text client_text (snd (client_key Secp256K1)) /\ List.length (snd (client_key Secp256K1)) = 4%nat /\
  addressable demo_oracles (client_key Secp256K1) (demo_pubkey Secp256K1 client_path) /\ roomy demo_config 110 /\
  twice demo_oracles (kind_prefix KindChain ++ be 4 0x7A06A770) <> None.
Proof.
  split; [constructor|]. split; [apply inputs_okb_ok; vm_compute; reflexivity|]. split; [reflexivity|]. split; [vm_compute; reflexivity|].
  split; [vm_compute; reflexivity|]. split; [vm_compute; reflexivity|]. split; [vm_compute; reflexivity|]. split.
  - exists (key_serialize (client_key Ed25519)). split; [vm_compute; reflexivity|].
    split; [split; [discriminate|split; [vm_compute; lia|repeat constructor]]|vm_compute; reflexivity].
  - split; [exact client_text_ok|]. split; [reflexivity|]. split; [apply client_addressable|]. split; [exact (demo_roomy true)|]. discriminate.
Qed.
Lemma delegation_held_case : let branch := AddressExamples.demo_branch in
  signable demo_config demo_oracles (u_dev desk_baker) client_text (client_key Ed25519) (3 :: branch ++ enc_op small_delegation)
    (blake2b 32 delegation_message) (baker_sig delegation_message) (olds 2) /\
  List.length branch = 32%nat /\ op_ok small_delegation /\ baker_op small_delegation = true /\
  (forall r, In r (batch_sheet branch [op_of small_delegation]) -> ~ unshowable demo_oracles (snd r)) /\
  forall sh p, exists room,
    cf_room demo_config (VBakingSign sh (blake2b 32 delegation_message) branch p (3 :: branch ++ enc_op small_delegation)) = Some room /\
    len (blake2b 32 delegation_message) + len (baker_sig delegation_message) + 2 <= room.
Proof.
  destruct delegation_case as (S0 & A & B & D & R). destruct delegation_hand_case as (_ & _ & _ & V).
  destruct desk_baker_case as (_ & _ & _ & _ & U1 & _ & U2 & _). cbv zeta.
  split; [|split; [exact A|split; [exact B|split; [exact D|split; [exact V|exact R]]]]].
  destruct S0 as [_ _ S1 S2 S3 S4 S5 S6 S7 S8 S9]. constructor; [exact U1|exact U2|exact S1|exact S2|exact S3|exact S4|exact S5|exact S6|exact S7|exact S8|exact S9].
Qed.

(** The calls of a baking device, run. *)
Lemma baker_held_run :
  let X := held demo_config demo_oracles known NanoS in
  fst (sign_baker demo_host X client_text Ed25519 (AddressExamples.demo_branch ++ enc_op small_delegation) BkDelegation
         (desk_baker, hands 2 (repeat Right 11 ++ [Both])))
    = JData 0x9000 (mkSignRes 0x9000 (Some (blake2b 32 delegation_message)) (Some (baker_sig delegation_message))) /\
  fst (authorize_baking demo_host X client_text Secp256K1 (desk_baker, hands 1 (repeat Right 3 ++ [Both])))
    = JData 0x9000 (demo_pubkey Secp256K1 client_path) /\
  fst (authorize_baking demo_host X client_text Secp256K1 (desk_baker, hands 1 (repeat Right 4 ++ [Both]))) = JCode 0x6986 /\
  fst (show_address_and_pubkey demo_host X client_text Secp256K1 (desk_baker, hands 1 (repeat Right 3))) = JCode OTHER_ERROR.
Proof. cbv zeta. split; [|split; [|split]]; vm_compute; reflexivity. Qed.

(** Two hands that never press both buttons. *)
Lemma needs_both_case : let hs := hands 2 [Right; Left; Right] in
  library_call demo_host sign_res (fun W X => sign_operation demo_host X client_text Ed25519 op_message) /\
  Forall (fun h : bytes * list button => apdu_ok (fst h)) hs /\ forall h, In h hs -> ~ In Both (snd h).
Proof.
  cbv zeta. split; [constructor; apply bytes_okb_ok; vm_compute; reflexivity|]. split; [apply hands_ok|].
  intros h Hh. apply repeat_spec in Hh. subst h. cbn [snd]. intros [X|[X|[X|[]]]]; discriminate X.
Qed.
Lemma setup_held_case : (2000000 < 2 ^ 32 /\ 17 < 2 ^ 32 /\ 0x7A06A770 < 2 ^ 32) /\
  let call n := fst (legacy_setup demo_host (held demo_config demo_oracles known NanoS) client_text Secp256K1 2000000 17 0x7A06A770
    (desk_baker, hands 1 (repeat Right n ++ [Both]))) in
  (exists r, call 6%nat = JData 0x9000 r) /\ call 7%nat = JCode 0x6986.
Proof. split; [split; [|split]; reflexivity|]. cbv zeta. split; [eexists|]; vm_compute; reflexivity. Qed.
Lemma hands_case : let hs := hands 2 (repeat Right 21 ++ [Both]) in
  library_call demo_host sign_res (fun W X => sign_operation demo_host X client_text Ed25519 op_message) /\
  Forall input_ok wallet_hand /\ Forall (fun h : bytes * list button => apdu_ok (fst h)) hs /\
  (exists s, sign_operation demo_host (held wallet_config demo_oracles known NanoS) client_text Ed25519 op_message (desk_wallet, hs)
     = (mkSignRes 0x9000 (Some (blake2b 32 (3 :: op_message))) (Some op_sig), (s, []))).
Proof.
  cbv zeta. split; [apply needs_both_case|]. split; [apply wallet_held_case|]. split; [apply hands_ok|].
  eexists. vm_compute. reflexivity.
Qed.
