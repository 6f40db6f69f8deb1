(** Cases that meet the hypotheses of the statements about slots and requests. *)
From Coq Require Import List NArith ZArith Lia Bool Arith.
From Verif Require Import Base BaseFacts Flash Codecs CodecsSpec Upload UploadSpec UploadExamples
  Baking BakingSpec BakingExamples Operations OperationsSpec OperationsExamples Oracles Address AddressSpec AddressExamples HashDemo
  Device DeviceSpec DeviceFacts DeviceDemo DeviceExamples DeviceCases ServiceSpec.
Import ListNotations.
Open Scope N_scope.

Definition pkt (ins p1 : N) (payload : bytes) : bytes * N := (apdu ins p1 0 payload, 5 + len payload).
Definition naming (ins : N) : bytes * N := pkt ins 0 (path_serialize demo_path).

Lemma demo_path_ok : path_ok BIP32_MAX_LENGTH demo_path.
Proof. split; [discriminate|]. split; [vm_compute; lia|]. repeat constructor. Qed.
Lemma pkt_ok ins p1 payload kind : apdu_okb (apdu ins p1 0 payload) = true ->
  ((5 <=? 5 + len payload) && (5 + len payload <=? 260)) = true -> kind_of p1 = Some kind ->
  packet ins kind (pkt ins p1 payload).
Proof.
  intros A B K. apply andb_prop in B as [B1 B2]. apply N.leb_le in B1, B2.
  split; [now apply apdu_okb_ok|]. split; [now split|]. split; [reflexivity|]. split; [reflexivity|exact K].
Qed.
Lemma naming_names ins : names BIP32_MAX_LENGTH (fst (naming ins)) demo_key.
Proof.
  split; [reflexivity|].
  assert (E1 : pay (fst (naming ins)) = 3 :: concat (map (be 4) demo_path)) by reflexivity.
  assert (E2 : snd demo_key = map unbe (map (be 4) demo_path)) by (vm_compute; reflexivity).
  rewrite E1, E2. apply PathEncodes; [lia|vm_compute; discriminate|reflexivity|repeat constructor].
Qed.

(** ** A transfer and a delegation, in two pieces *)

Definition wallet_message : bytes :=
  3 :: AddressExamples.demo_branch ++ flat_map enc_op [TTransfer demo_man 1500000 (TzImplicit demo_pkh2) None; TDelegation demo_man None].
Definition wallet_mids : list (bytes * N) := [pkt 0x0F 1 (firstn 50 wallet_message)].
Definition wallet_last : bytes * N := pkt 0x0F 0x81 (skipn 50 wallet_message).

(** A wallet whose last upload was abandoned. *)
Definition wallet_before : list event := [send 0x04 0 0 (path_serialize [1; 2]); send 0x04 1 0 [3; 4]].

Lemma wallet_served_case :
  let d := snd (run wallet_config demo_oracles (dev_fresh [] []) wallet_before) in
  d_ui d = None /\ d_ufaults d = [] /\ upload_command wallet_config 0x0F = Some AccSign /\
  request 0x0F demo_key wallet_message (naming 0x0F) wallet_mids wallet_last /\
  reviewed_message wallet_message /\
  exists dg s, o_blake2b demo_oracles 32 wallet_message = Some dg /\
    o_sign demo_oracles (fst demo_key) (snd demo_key) dg = Some s /\ (length s <= 100)%nat /\
    forall sh p, exists room, cf_room wallet_config (VSign sh dg p wallet_message) = Some room /\
      len dg + len s + 2 <= room.
Proof.
  split; [vm_compute; reflexivity|]. split; [vm_compute; reflexivity|]. split; [reflexivity|].
  split; [|split].
  - split; [apply pkt_ok; vm_compute; reflexivity|].
    split; [constructor; [apply pkt_ok; vm_compute; reflexivity|constructor]|].
    split; [apply pkt_ok; vm_compute; reflexivity|]. split; [apply naming_names|].
    split; [vm_compute; reflexivity|]. apply Nat.leb_le. vm_compute. reflexivity.
  - apply RmOperation. reflexivity.
  - exists (blake2b 32 wallet_message). eexists. split; [reflexivity|]. split; [reflexivity|].
    split; [apply Nat.leb_le; vm_compute; reflexivity|].
    intros sh p. exists 200. split; [reflexivity|]. apply N.leb_le. vm_compute. reflexivity.
Qed.

(** ** A Tenderbake block on a baking device *)

Definition block_before : list event := demo_before ++ [EPower].
Definition block_last : bytes * N := pkt 0xAF 0x81 demo_tb_block.

Lemma block_served_case :
  Forall event_ok block_before /\ len block_before + 1 < 2 ^ 64 /\
  let d := demo_run [] block_before in
  d_ui d = None /\ d_faults d = [] /\ d_ufaults d = [] /\
  request 0xAF demo_key demo_tb_block (naming 0xAF) [] block_last /\
  consensus_message demo_tb_block (PTB 2500000 3 KBlock) /\
  (exists kp, wear_read (d_key d) = Some (RData kp) /\ key_layout kp demo_key) /\
  (exists mp, wear_read (d_main d) = Some (RData mp) /\ mark_bytes mp (WEmmy 1499999 false)) /\
  cpos_lt (wm_pos (WEmmy 1499999 false)) (PTB 2500000 3 KBlock) /\
  exists dg s, o_blake2b demo_oracles 32 demo_tb_block = Some dg /\ (length dg <= 32)%nat /\
    o_sign demo_oracles (fst demo_key) (snd demo_key) dg = Some s /\ (length s <= 100)%nat.
Proof.
  split; [apply events_okb_ok; vm_compute; reflexivity|]. split; [reflexivity|]. cbv zeta.
  split; [vm_compute; reflexivity|]. split; [vm_compute; reflexivity|]. split; [vm_compute; reflexivity|].
  split; [|split; [|split; [|split; [|split]]]].
  - split; [apply pkt_ok; vm_compute; reflexivity|]. split; [constructor|].
    split; [apply pkt_ok; vm_compute; reflexivity|]. split; [apply naming_names|].
    split; [vm_compute; reflexivity|]. apply Nat.leb_le. vm_compute. reflexivity.
  - apply (CmTenderbakeBlock demo_tb_header [be 4 2500000; be 4 1; be 4 (2 ^ 32 - 1 - 0)] 3);
      [apply demo_headers_ok|reflexivity|reflexivity].
  - exists (key_serialize demo_key). split; [vm_compute; reflexivity|]. split; [apply demo_path_ok|]. vm_compute. reflexivity.
  - exists (wm_serialize (WEmmy 1499999 false)). split; [vm_compute; reflexivity|]. exact (MarkEmmy 1499999 false eq_refl).
  - exact Logic.I.
  - exists (blake2b 32 demo_tb_block). eexists. split; [reflexivity|]. split; [apply Nat.leb_le; vm_compute; reflexivity|].
    split; [reflexivity|]. apply Nat.leb_le. vm_compute. reflexivity.
Qed.

(** ** A delegation on a baking device *)

Definition small_delegation : tz_op := TDelegation demo_man (Some demo_pkh2).
Definition delegation_message : bytes := 3 :: AddressExamples.demo_branch ++ enc_op small_delegation.
Definition delegation_last : bytes * N := pkt 0x04 0x81 delegation_message.

Lemma delegation_served_case :
  let d := demo_run [] block_before in
  length AddressExamples.demo_branch = 32%nat /\ op_ok small_delegation /\ baker_op small_delegation = true /\
  d_ui d = None /\ d_ufaults d = [] /\
  request 0x04 demo_key delegation_message (naming 0x04) [] delegation_last /\
  (exists kp, wear_read (d_key d) = Some (RData kp) /\ key_layout kp demo_key) /\
  exists dg s, o_blake2b demo_oracles 32 delegation_message = Some dg /\
    o_sign demo_oracles (fst demo_key) (snd demo_key) dg = Some s /\ (length s <= 100)%nat /\
    forall sh p, exists room, cf_room demo_config (VBakingSign sh dg AddressExamples.demo_branch p delegation_message) = Some room /\
      len dg + len s + 2 <= room.
Proof.
  cbv zeta. split; [reflexivity|]. split; [repeat split|]. split; [reflexivity|].
  split; [vm_compute; reflexivity|]. split; [vm_compute; reflexivity|].
  split; [|split].
  - split; [apply pkt_ok; vm_compute; reflexivity|]. split; [constructor|].
    split; [apply pkt_ok; vm_compute; reflexivity|]. split; [apply naming_names|].
    split; [vm_compute; reflexivity|]. apply Nat.leb_le. vm_compute. reflexivity.
  - exists (key_serialize demo_key). split; [vm_compute; reflexivity|]. split; [apply demo_path_ok|]. vm_compute. reflexivity.
  - exists (blake2b 32 delegation_message). eexists. split; [reflexivity|]. split; [reflexivity|].
    split; [apply Nat.leb_le; vm_compute; reflexivity|].
    intros sh p. exists 200. split; [reflexivity|]. apply N.leb_le. vm_compute. reflexivity.
Qed.

(** ** A torn watermark *)

Definition torn_page : bytes := repeat 255 (length ZEROED_STORAGE).
Definition torn_faults : list fault := [WOk; WFail (TTorn torn_page)].
Definition torn_events : list event :=
  authorise ++ [reset_to 1499999; send 4 0 0 (path_serialize demo_path)].
Definition torn_dev : dev := demo_run torn_faults torn_events.
Lemma torn_case :
  Forall detected_fault torn_faults /\ Forall event_ok (torn_events ++ [again]) /\
  wear_read (d_key torn_dev) = Some (RData (key_serialize demo_key)) /\
  completes demo_config torn_dev (apdu 4 0x81 0 demo_block) (5 + len demo_block) (demo_out 0) /\
  stored_key torn_dev demo_key /\
  (exists dg, o_blake2b demo_oracles 32 demo_block = Some dg) /\
  signed_pos demo_block = Some (PEmmy 1500000 false) /\
  wear_read (d_main torn_dev) = Some RCrc.
Proof.
  assert (T : slot_tear_ok (TTorn torn_page)) by (vm_compute; repeat split; repeat constructor).
  split; [repeat constructor; exact T|]. split; [apply events_okb_ok; vm_compute; reflexivity|].
  split; [vm_compute; reflexivity|]. split; [|split; [|split; [|split]]].
  - apply completes_intro; try (vm_compute; reflexivity). now left.
  - eexists. split; vm_compute; reflexivity.
  - eexists. reflexivity.
  - vm_compute. reflexivity.
  - vm_compute. reflexivity.
Qed.

(** A consensus signature over a readable watermark. *)
Lemma over_mark_case :
  let es := demo_before ++ [send 4 0 0 (path_serialize demo_path)] in
  Forall event_ok (es ++ [again]) /\
  exists g, d_log (snd (step demo_config demo_oracles (demo_run [] es) again)) = g :: d_log (demo_run [] es) /\
    is_consensus g = true.
Proof.
  split; [apply events_okb_ok; vm_compute; reflexivity|].
  exists (mkSig SrcConsensus demo_key (blake2b 32 demo_block) demo_block). split; [vm_compute; reflexivity|reflexivity].
Qed.
