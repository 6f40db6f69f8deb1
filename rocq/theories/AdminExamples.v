(** Cases that meet the hypotheses of the statements about the stored key, the set-up,
    the HMAC and the versions. *)
From Coq Require Import List NArith ZArith Lia Bool Arith.
From Verif Require Import Base BaseFacts Flash Codecs CodecsSpec Upload UploadSpec UploadExamples
  Oracles Address AddressSpec AddressExamples HashDemo
  Device DeviceSpec DeviceFacts DeviceDemo DeviceExamples DeviceCases ServiceSpec ServiceExamples.
Import ListNotations.
Open Scope N_scope.

Definition admin_hist : list event := authorise ++ [reset_to 1499999; EPower].
Definition admin_dev : dev := demo_run [] admin_hist.
(** m/44'/1729'/1' *)
Definition other_path : path := [0x8000002C; 0x800006C1; 0x80000001].
Definition other_key : key := (Secp256K1, other_path).

Lemma admin_hist_ok : Forall event_ok admin_hist /\ len admin_hist + 2 < 2 ^ 64 /\
  d_faults admin_dev = [] /\ d_ui admin_dev = None /\ stored_key admin_dev demo_key.
Proof.
  split; [apply events_okb_ok; vm_compute; reflexivity|]. split; [reflexivity|].
  split; [vm_compute; reflexivity|]. split; [vm_compute; reflexivity|].
  exists (key_serialize demo_key). split; vm_compute; reflexivity.
Qed.
Lemma demo_addressable c p : addressable demo_oracles (c, p) (demo_pubkey c p).
Proof.
  split; [reflexivity|]. destruct c; cbn [fst].
  1, 4: eexists; eexists; split; [eexists; reflexivity|split; [reflexivity|discriminate]].
  1, 2: eexists; eexists; (split;
    [eexists; eexists; split; [reflexivity|split; [apply sha256_length|split; [apply sha256_length|reflexivity]]]
    |split; [reflexivity|discriminate]]).
Qed.
Lemma demo_room : roomy demo_config 110.
Proof. intros v. exists 200. split; [reflexivity|discriminate]. Qed.

Lemma other_encodes LEN : (3 <= LEN)%nat -> path_encodes LEN (path_serialize other_path) other_path.
Proof.
  intros L. assert (E1 : path_serialize other_path = 3 :: concat (map (be 4) other_path)) by reflexivity.
  assert (E2 : other_path = map unbe (map (be 4) other_path)) by (vm_compute; reflexivity).
  rewrite E1. rewrite E2 at 2. apply (PathEncodes LEN 3 (map (be 4) other_path)); [lia|lia|reflexivity|repeat constructor].
Qed.

Lemma authorise_case : let buf := apdu 0xA1 1 1 (path_serialize other_path) in
  apdu_ok buf /\ command admin_dev buf 18 0xA1 /\ 1 <= nth 2 buf 0 /\ names BIP32_MAX_LENGTH buf other_key /\
  addressable demo_oracles other_key (demo_pubkey Secp256K1 other_path) /\ roomy demo_config 110.
Proof.
  cbv zeta. split; [apply apdu_okb_ok; vm_compute; reflexivity|].
  split; [split; [apply admin_hist_ok|split; [lia|split; reflexivity]]|]. split; [vm_compute; discriminate|].
  split; [split; [reflexivity|]; exact (other_encodes BIP32_MAX_LENGTH ltac:(unfold BIP32_MAX_LENGTH; lia))|].
  split; [apply demo_addressable|apply demo_room].
Qed.
Lemma deauthorise_case : let buf := apdu 0xAC 1 0 [] in
  apdu_ok buf /\ command admin_dev buf 5 0xAC /\ 1 <= nth 2 buf 0 /\ stored_key admin_dev demo_key /\
  addressable demo_oracles demo_key (demo_pubkey Ed25519 demo_path).
Proof.
  cbv zeta. split; [apply apdu_okb_ok; vm_compute; reflexivity|].
  split; [split; [apply admin_hist_ok|split; [lia|split; reflexivity]]|]. split; [vm_compute; discriminate|].
  split; [apply admin_hist_ok|apply demo_addressable].
Qed.
Definition setup_payload : bytes := be 4 0x7A06A770 ++ be 4 2000000 ++ be 4 17 ++ path_serialize other_path ++ [].
Lemma setup_case : let buf := apdu 0x0A 0 1 setup_payload in
  apdu_ok buf /\ command admin_dev buf 30 0x0A /\ nth 3 buf 0 = byte_of_curve (fst other_key) /\
  pay buf = be 4 0x7A06A770 ++ be 4 2000000 ++ be 4 17 ++ path_serialize other_path ++ [] /\
  path_encodes BIP32_MAX_LENGTH (path_serialize other_path) (snd other_key).
Proof.
  cbv zeta. split; [apply apdu_okb_ok; vm_compute; reflexivity|].
  split; [split; [apply admin_hist_ok|split; [lia|split; reflexivity]]|]. split; [reflexivity|].
  split; [vm_compute; reflexivity|]. exact (other_encodes BIP32_MAX_LENGTH ltac:(unfold BIP32_MAX_LENGTH; lia)).
Qed.
Lemma hmac_case : let buf := apdu 0x0E 0 1 (path_serialize other_path ++ [1; 2; 3]) in
  apdu_ok buf /\ command admin_dev buf 21 0x0E /\ nth 3 buf 0 = byte_of_curve (fst other_key) /\
  pay buf = path_serialize other_path ++ [1; 2; 3] /\
  path_encodes BIP32_MAX_LENGTH (path_serialize other_path) (snd other_key) /\
  exists s hk out, o_sign demo_oracles (fst other_key) (snd other_key) HMAC_KEY = Some s /\
    o_sha512 demo_oracles s = Some hk /\ o_hmac256 demo_oracles hk [1; 2; 3] = Some out.
Proof.
  cbv zeta. split; [apply apdu_okb_ok; vm_compute; reflexivity|].
  split; [split; [apply admin_hist_ok|split; [lia|split; reflexivity]]|]. split; [reflexivity|].
  split; [vm_compute; reflexivity|]. split; [exact (other_encodes BIP32_MAX_LENGTH ltac:(unfold BIP32_MAX_LENGTH; lia))|].
  eexists. eexists. eexists. split; [reflexivity|]. split; reflexivity.
Qed.
Lemma versions_case : (8 <=? length (cf_commit demo_config))%nat = true /\
  fst (step demo_config demo_oracles admin_dev (send 0x00 0 0 [])) = AReply [1; 2; 2; 9; 0x90; 0].
Proof. split; vm_compute; reflexivity. Qed.
