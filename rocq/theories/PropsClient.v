(** Properties of the host library, alone and together with the device. *)
From Coq Require Import String.
From Coq Require Import List NArith ZArith Bool.
From Verif Require Import Base Flash Codecs CodecsSpec Upload UploadSpec UploadExamples
  Baking BakingSpec BakingExamples Operations OperationsSpec OperationsExamples
  Oracles Address AddressSpec AddressExamples HashDemo
  Device DeviceSpec DeviceDemo DeviceExamples DeviceCases ServiceSpec ServiceExamples
  Client ClientSpec ClientFacts ClientSign ClientCalls ClientAdmin ClientExamples.
Import ListNotations.
Open Scope N_scope.

(** C54. A path text with two or four components is serialised to bytes that the device
    reads as exactly those components. *)
Theorem C54_paths_serialised : forall (O : oracles) (H : host), host_ok H O ->
  forall text p, path_text text p -> List.length p = 2%nat \/ List.length p = 4%nat ->
  exists enc, serialize_path H text = Some enc /\ path_encodes 6 enc p.
Proof. exact path_serialized. Qed.
Print Assumptions C54_paths_serialised.
Example C54_serialised_case : host_ok demo_host demo_oracles /\ path_text client_text client_path /\
  serialize_path demo_host client_text = Some (4 :: be 4 0x8000002C ++ be 4 0x800006C1 ++ be 4 0x80000000 ++ be 4 0x80000001).
Proof. exact (conj demo_host_ok (conj client_text_ok (proj1 path_run))). Qed.

(** C54. Whatever text the library accepts, its bytes name a path of two or four
    components. *)
Theorem C54_only_paths : forall (H : host) text enc, serialize_path H text = Some enc ->
  exists p, path_encodes 6 enc p /\ (List.length p = 2%nat \/ List.length p = 4%nat).
Proof. exact serialized_encodes. Qed.
Print Assumptions C54_only_paths.
Example C54_only_case : serialize_path demo_host client_text = Some (4 :: be 4 0x8000002C ++ be 4 0x800006C1 ++ be 4 0x80000000 ++ be 4 0x80000001).
Proof. exact (proj1 path_run). Qed.

(** C54. Texts of other lengths are refused, although the device accepts one to six
    components (ten for a stored key). *)
Theorem C54_other_lengths_refused : forall (H : host) (O : oracles) text p, host_ok H O -> path_text text p ->
  List.length p <> 2%nat -> List.length p <> 4%nat -> serialize_path H text = None.
Proof. exact path_text_refused. Qed.
Print Assumptions C54_other_lengths_refused.
Example C54_other_case : path_text short_text demo_path /\ serialize_path demo_host short_text = None.
Proof. exact (conj short_text_ok (proj2 path_run)). Qed.

(** C55. The packets are the path, and pieces of one to 250 bytes that make up the
    message in order; as many as needed. *)
Theorem C55_chunks : forall message sp, exists cs, prepare_chunks message sp = sp :: cs /\ concat cs = message /\
  Forall (fun c => (1 <= List.length c <= 250)%nat) cs /\ S (List.length cs) = packets_for message.
Proof. exact chunks_spec. Qed.
Print Assumptions C55_chunks.
Example C55_case : map (@List.length N) (prepare_chunks (repeat 9 600) [1; 2]) = [2; 250; 250; 100]%nat /\
  packets_for (repeat 9 600) = 4%nat.
Proof. exact chunks_run. Qed.

(** C56. The calls that sign operations and Michelson data, run against the device in
    any state it can be in, return the hash and the whole signature of exactly the
    caller's message by exactly the caller's key if the user approves, and the code
    0x6986 without a signature if not. *)
Theorem C56_wallet_calls : forall (C : config) (O : oracles) (H : host), host_ok H O ->
  forall call m text k message dg s f u es sched later, wallet_call C call m ->
  let d := snd (run C O (dev_fresh f u) es) in
  let data := m :: message in
  signable C O d text k data dg s sched -> reviewed_message data ->
  (forall sh p, exists room, cf_room C (VSign sh dg p data) = Some room /\ len dg + len s + 2 <= room) ->
  (deciding EApprove sched ->
   exists d', call H (plugged C O) text (fst k) message (d, sched ++ later)
              = (mkSignRes 0x9000 (Some dg) (Some s), (d', later)) /\
     d_log d' = mkSig SrcReview k dg data :: d_log d /\ d_ui d' = None /\
     forall sl, wear_read (get_slot sl d') = wear_read (get_slot sl d)) /\
  (deciding EReject sched ->
   exists d', call H (plugged C O) text (fst k) message (d, sched ++ later)
              = (mkSignRes 0x6986 None None, (d', later)) /\ d_ui d' = None /\ untouched d d').
Proof. exact wallet_signed. Qed.
Print Assumptions C56_wallet_calls.
Example C56_case : host_ok demo_host demo_oracles /\ wallet_call (W := connection) wallet_config sign_operation 3 /\
  (forall e, signable wallet_config demo_oracles client_wallet client_text (client_key Ed25519)
    (3 :: op_message) (blake2b 32 (3 :: op_message))
    (sha256 (demo_pubkey Ed25519 client_path ++ blake2b 32 (3 :: op_message)) ++ sha256 (blake2b 32 (3 :: op_message)))
    (turns 2 e)) /\
  reviewed_message (3 :: op_message) /\ forall n e, deciding e (turns n e).
Proof.
  exact (conj demo_host_ok (conj (CallOperation _) (conj client_signable (conj client_reviewed turns_deciding)))).
Qed.

(** C56. [legacySign] does not: it returns the first 32 bytes of the signature, and
    zeros for the hash. *)
Theorem C56_legacy_sign_refuted : forall (C : config) (O : oracles) (H : host), host_ok H O ->
  forall kind text k message dg s f u es sched later,
  cf_baking C = false -> kind = LkOperation \/ kind = LkMichelson ->
  let d := snd (run C O (dev_fresh f u) es) in
  let data := legacy_magic kind :: message in
  signable C O d text k data dg s sched -> reviewed_message data -> (32 <= List.length s)%nat ->
  (forall sh p, exists room, cf_room C (VSign sh dg p data) = Some room /\ len dg + len s + 2 <= room) ->
  deciding EApprove sched ->
  exists d', legacy_sign H (plugged C O) text (fst k) message kind (d, sched ++ later)
             = (mkSignRes 0x9000 (Some (repeat 0 32)) (Some (firstn 32 s)), (d', later)) /\
    d_log d' = mkSig SrcReview k dg data :: d_log d.
Proof. exact legacy_truncates. Qed.
Print Assumptions C56_legacy_sign_refuted.
Example C56_legacy_case :
  let r := fst (sign_operation demo_host (plugged wallet_config demo_oracles) client_text Ed25519 op_message (client_wallet, turns 2 EApprove)) in
  let r' := fst (legacy_sign demo_host (plugged wallet_config demo_oracles) client_text Ed25519 op_message LkOperation (client_wallet, turns 2 EApprove)) in
  sr_code r = 0x9000 /\ option_map len (sr_sig r) = Some 64 /\
  sr_code r' = 0x9000 /\ option_map len (sr_sig r') = Some 32 /\ sr_hash r' <> sr_hash r /\
  sr_code (fst (sign_operation demo_host (plugged wallet_config demo_oracles) client_text Ed25519 op_message (client_wallet, turns 2 EReject))) = 0x6986.
Proof. exact wallet_call_run. Qed.

(** C57. [signBaker], given a protocol-encoded block, preendorsement or endorsement of
    either protocol and its type, puts the right byte in front, and returns the hash and
    the signature of exactly that message exactly if it is above the watermark; otherwise
    the code 0x6984, and nothing changes. *)
Theorem C57_baker_consensus : forall (C : config) (O : oracles) (H : host), host_ok H O ->
  forall text k kp m message q dg s mp w f u es sched later user,
  Forall slot_fault_ok f -> Forall up_fault_ok u -> Forall event_ok es -> len es + 1 < 2 ^ 64 ->
  let d := snd (run C O (dev_fresh f u) es) in
  let data := m :: message in
  signable C O d text k data dg s sched -> d_faults d = [] -> deciding user sched ->
  cf_baking C = true -> consensus_message data q ->
  wear_read (d_key d) = Some (RData kp) -> key_layout kp k ->
  wear_read (d_main d) = Some (RData mp) -> mark_bytes mp w ->
  exists r d', sign_baker H (plugged C O) text (fst k) message (kind_of_magic m) (d, sched ++ later)
               = (JData (sr_code r) r, (d', later)) /\ d_ui d' = None /\
    (cpos_level q < 2 ^ 31 /\ cpos_lt (wm_pos w) q ->
     r = mkSignRes 0x9000 (Some dg) (Some s) /\
     d_log d' = mkSig SrcConsensus k dg data :: d_log d /\
     (exists mp' w', wear_read (d_main d') = Some (RData mp') /\ mark_bytes mp' w' /\ wm_pos w' = q) /\
     forall sl, sl <> SMain -> wear_read (get_slot sl d') = wear_read (get_slot sl d)) /\
    (~ (cpos_level q < 2 ^ 31 /\ cpos_lt (wm_pos w) q) ->
     r = mkSignRes 0x6984 None None /\ untouched d d').
Proof. exact baker_consensus. Qed.
Print Assumptions C57_baker_consensus.
Example C57_consensus_case : (Forall event_ok baker_hist /\ len baker_hist + 1 < 2 ^ 64 /\
  signable demo_config demo_oracles client_baker client_text (client_key Ed25519) demo_tb_block (blake2b 32 demo_tb_block)
    (baker_sig demo_tb_block) (turns 2 EApprove) /\ d_faults client_baker = [] /\
  consensus_message demo_tb_block (PTB 2500000 3 KBlock) /\
  cpos_lt (wm_pos (WEmmy 1499999 false)) (PTB 2500000 3 KBlock)) /\
  exists kp mp,
  wear_read (d_key client_baker) = Some (RData kp) /\ key_layout kp (client_key Ed25519) /\
  wear_read (d_main client_baker) = Some (RData mp) /\ mark_bytes mp (WEmmy 1499999 false).
Proof. exact (conj baker_case baker_stored). Qed.

(** C57. [signBaker] on a delegation or a reveal returns its signature if the user
    approves; on other operations it returns 0x6986. *)
Theorem C57_baker_operation : forall (C : config) (O : oracles) (H : host), host_ok H O ->
  forall text k kp branch o dg s f u es sched later,
  let d := snd (run C O (dev_fresh f u) es) in
  let data := 3 :: branch ++ enc_op o in
  signable C O d text k data dg s sched ->
  cf_baking C = true -> List.length branch = 32%nat -> op_ok o ->
  wear_read (d_key d) = Some (RData kp) -> key_layout kp k ->
  (forall sh p, exists room, cf_room C (VBakingSign sh dg branch p data) = Some room /\ len dg + len s + 2 <= room) ->
  (deciding EApprove sched -> baker_op o = true ->
   exists d', sign_baker H (plugged C O) text (fst k) (branch ++ enc_op o) BkDelegation (d, sched ++ later)
              = (JData 0x9000 (mkSignRes 0x9000 (Some dg) (Some s)), (d', later)) /\
     d_log d' = mkSig SrcBakingReview k dg data :: d_log d /\ d_ui d' = None /\
     forall sl, wear_read (get_slot sl d') = wear_read (get_slot sl d)) /\
  (forall user, deciding user sched -> user = EReject \/ baker_op o = false ->
   exists d', sign_baker H (plugged C O) text (fst k) (branch ++ enc_op o) BkDelegation (d, sched ++ later)
              = (JData 0x6986 (mkSignRes 0x6986 None None), (d', later)) /\ d_ui d' = None /\ untouched d d').
Proof. exact baker_operation. Qed.
Print Assumptions C57_baker_operation.
Example C57_operation_case :
  let branch := AddressExamples.demo_branch in
  signable demo_config demo_oracles client_baker client_text (client_key Ed25519) (3 :: branch ++ enc_op small_delegation)
    (blake2b 32 delegation_message) (baker_sig delegation_message) (turns 2 EApprove) /\
  List.length branch = 32%nat /\ op_ok small_delegation /\ baker_op small_delegation = true /\
  forall sh p, exists room,
    cf_room demo_config (VBakingSign sh (blake2b 32 delegation_message) branch p (3 :: branch ++ enc_op small_delegation)) = Some room /\
    len (blake2b 32 delegation_message) + len (baker_sig delegation_message) + 2 <= room.
Proof. exact delegation_case. Qed.

(** C58. [getAddressAndPubKey], and [showAddressAndPubKey] if the user approves, return
    the public key of the path and the text of its address, which is also what
    [publicKeyToAddress] computes from that key on the host. *)
Theorem C58_addresses : forall (C : config) (O : oracles) (H : host), host_ok H O -> oracles_ok O ->
  forall d text k pk old user later, d_ui d = None -> path_text text (snd k) ->
  List.length (snd k) = 2%nat \/ List.length (snd k) = 4%nat -> apdu_ok old -> addressable O k pk ->
  exists t key', key_text O (fst k) pk t /\ public_key_to_address H pk (fst k) = Some (t, key') /\
    get_address_and_pubkey H (plugged C O) text (fst k) (d, (old, user) :: later)
    = (JData 0x9000 (pk, t), (d, later)) /\
    (roomy C 110 -> user = EApprove ->
     show_address_and_pubkey H (plugged C O) text (fst k) (d, (old, user) :: later)
     = (JData 0x9000 (pk, t), (d, later))) /\
    (roomy C 110 -> user = EReject ->
     show_address_and_pubkey H (plugged C O) text (fst k) (d, (old, user) :: later)
     = (JCode 0x6986, (d, later))).
Proof. exact address_call. Qed.
Print Assumptions C58_addresses.
Example C58_case : oracles_ok demo_oracles /\ host_ok demo_host demo_oracles /\ path_text client_text client_path /\
  (d_ui client_baker = None /\ d_faults client_baker = [] /\ d_ufaults client_baker = []) /\
  (forall c, addressable demo_oracles (client_key c) (demo_pubkey c client_path)) /\
  (forall b : bool, roomy (if b then demo_config else wallet_config) 110) /\ apdu_ok stale.
Proof.
  exact (conj demo_oracles_ok (conj demo_host_ok (conj client_text_ok (conj baker_idle
    (conj client_addressable (conj demo_roomy stale_ok)))))).
Qed.

(** C58. [legacyGetPubKey] and [legacyPromptPubKey] do not: what they return as public
    key never is the public key, and what they return as address is the address only if
    two different byte strings have the same hash, or for one freak key. *)
Theorem C58_legacy_get_refuted : forall (C : config) (O : oracles) (H : host), host_ok H O -> oracles_ok O ->
  forall d text (k : key) pk l h old user later, d_ui d = None -> path_text text (snd k) ->
  List.length (snd k) = 2%nat \/ List.length (snd k) = 4%nat -> apdu_ok old -> o_pubkey O (fst k) (snd k) = Some pk ->
  hashed_form (fst k) pk l -> o_blake2b O 20 l = Some h -> twice O (kind_prefix (addr_kind (fst k)) ++ h) <> None ->
  exists key' t', legacy_get_pubkey H (plugged C O) text (fst k) (d, (old, user) :: later)
                  = (JData 0x9000 (key', t'), (d, later)) /\
    key' <> pk /\
    forall t, key_text O (fst k) pk t -> t' = t ->
      exists l', h_blake2b H 20 l' = h /\ (l' <> l \/ exists b, l = b :: repeat 4 32).
Proof. exact legacy_key_call. Qed.
Print Assumptions C58_legacy_get_refuted.
Theorem C58_legacy_prompt_refuted : forall (C : config) (O : oracles) (H : host), host_ok H O -> oracles_ok O ->
  forall d text (k : key) pk l h old later, d_ui d = None -> path_text text (snd k) ->
  List.length (snd k) = 2%nat \/ List.length (snd k) = 4%nat -> apdu_ok old -> o_pubkey O (fst k) (snd k) = Some pk ->
  hashed_form (fst k) pk l -> o_blake2b O 20 l = Some h -> twice O (kind_prefix (addr_kind (fst k)) ++ h) <> None ->
  roomy C 110 ->
  exists key' t', legacy_prompt_pubkey H (plugged C O) text (fst k) (d, (old, EApprove) :: later)
                  = (JData 0x9000 (key', t'), (d, later)) /\
    key' <> pk /\
    forall t, key_text O (fst k) pk t -> t' = t ->
      exists l', h_blake2b H 20 l' = h /\ (l' <> l \/ exists b, l = b :: repeat 4 32).
Proof. exact legacy_prompt_call. Qed.
Print Assumptions C58_legacy_prompt_refuted.
(** The right answer against those of the legacy calls, for each curve. *)
Example C58_legacy_case : let w := (client_baker, turns 1 EApprove) in
  let X := plugged demo_config demo_oracles in
  let good c := fst (get_address_and_pubkey demo_host X client_text c w) in
  forall c, differs (good c) (fst (legacy_get_pubkey demo_host X client_text c w)) /\
    differs (good c) (fst (legacy_prompt_pubkey demo_host X client_text c w)) /\
    differs (good c) (fst (legacy_setup demo_host X client_text c 1 1 1 w)).
Proof. exact legacy_run. Qed.

(** C59. [legacyResetHighWatermark] with a 32-bit level sets it: reading the watermarks
    back, at once or after a restart, returns it (negative levels as their two's
    complement). Other levels throw before anything is sent. *)
Theorem C59_reset : forall (C : config) (O : oracles) f u es level old user later,
  Forall intact_fault f -> Forall up_fault_ok u -> Forall event_ok es -> len es + 1 < 2 ^ 64 ->
  let d := snd (run C O (dev_fresh f u) es) in
  d_faults d = [] -> d_ui d = None -> cf_baking C = true -> apdu_ok old ->
  ((- 2 ^ 31 <= level < 2 ^ 31)%Z ->
   let v := Z.to_N (level mod 2 ^ 32) in
   exists d' chain, legacy_reset (plugged C O) level (d, (old, user) :: later) = (JData 0x9000 tt, (d', later)) /\
     forall x, x = d' \/ x = restart d' -> forall old' user' later', apdu_ok old' ->
       fst (legacy_get_hwm (plugged C O) (x, (old', user') :: later')) = JData 0x9000 v /\
       fst (legacy_get_all (plugged C O) (x, (old', user') :: later')) = JData 0x9000 (v, v, chain)) /\
  (~ (- 2 ^ 31 <= level < 2 ^ 31)%Z ->
   legacy_reset (plugged C O) level (d, (old, user) :: later) = (JThrow, (d, (old, user) :: later))).
Proof. exact reset_reads. Qed.
Print Assumptions C59_reset.
Example C59_reset_case : (Forall event_ok baker_hist /\ len baker_hist + 2 < 2 ^ 64) /\
  (d_ui client_baker = None /\ d_faults client_baker = [] /\ d_ufaults client_baker = []) /\
  let X := plugged demo_config demo_oracles in
  let w z := snd (legacy_reset X z (client_baker, turns 3 EApprove)) in
  fst (legacy_get_hwm X (w 77%Z)) = JData 0x9000 77 /\
  fst (legacy_get_all X (w (-1)%Z)) = JData 0x9000 (2 ^ 32 - 1, 2 ^ 32 - 1, 0x7A06A770) /\
  fst (legacy_reset X (2 ^ 31)%Z (client_baker, turns 3 EApprove)) = JThrow.
Proof. exact (conj baker_hist_ok (conj baker_idle reset_run)). Qed.

(** C59. [legacySetup] stores exactly the caller's key, levels and chain if the user
    approves, and nothing if not. *)
Theorem C59_setup : forall (C : config) (O : oracles) (H : host), host_ok H O -> oracles_ok O ->
  forall f u es text k pk main test chain old later, Forall intact_fault f -> Forall up_fault_ok u ->
  Forall event_ok es -> len es + 2 < 2 ^ 64 ->
  let d := snd (run C O (dev_fresh f u) es) in
  d_faults d = [] -> d_ui d = None -> cf_baking C = true -> apdu_ok old ->
  main < 2 ^ 32 -> test < 2 ^ 32 -> chain < 2 ^ 32 ->
  path_text text (snd k) -> List.length (snd k) = 2%nat \/ List.length (snd k) = 4%nat -> addressable O k pk ->
  roomy C 110 ->
  let call user := legacy_setup H (plugged C O) text (fst k) (Z.of_N main) (Z.of_N test) (Z.of_N chain) (d, (old, user) :: later) in
  call EReject = (JCode 0x6986, (d, later)) /\
  exists r d', call EApprove = (JData 0x9000 r, (d', later)) /\
    forall x, x = d' \/ x = restart d' -> forall old' user' later', apdu_ok old' ->
      (forall k', stored_key x k' <-> k' = k) /\
      fst (legacy_get_all (plugged C O) (x, (old', user') :: later')) = JData 0x9000 (main, test, chain).
Proof. exact setup_reads. Qed.
Print Assumptions C59_setup.
Example C59_setup_case : (Forall event_ok baker_hist /\ len baker_hist + 2 < 2 ^ 64) /\ apdu_ok stale /\
  path_text client_text client_path /\
  forall c, addressable demo_oracles (client_key c) (demo_pubkey c client_path).
Proof. exact (conj baker_hist_ok (conj stale_ok (conj client_text_ok client_addressable))). Qed.

(** C60. [authorizeBaking] returns the public key and stores exactly the caller's key if
    the user approves, and [queryAuthKeyWithCurve] then returns that key, at once or
    after a restart; nothing changes if the user rejects. *)
Theorem C60_authorise : forall (C : config) (O : oracles) (H : host), host_ok H O -> oracles_ok O ->
  forall f u es text k pk old later, Forall intact_fault f -> Forall up_fault_ok u ->
  Forall event_ok es -> len es + 1 < 2 ^ 64 ->
  let d := snd (run C O (dev_fresh f u) es) in
  d_faults d = [] -> d_ui d = None -> cf_baking C = true -> apdu_ok old ->
  path_text text (snd k) -> List.length (snd k) = 2%nat \/ List.length (snd k) = 4%nat -> addressable O k pk ->
  roomy C 110 ->
  let call user := authorize_baking H (plugged C O) text (fst k) (d, (old, user) :: later) in
  call EReject = (JCode 0x6986, (d, later)) /\
  exists d', call EApprove = (JData 0x9000 pk, (d', later)) /\ d_log d' = d_log d /\
    forall x, x = d' \/ x = restart d' ->
      (forall k', stored_key x k' <-> k' = k) /\
      (forall s, s <> SKey -> wear_read (get_slot s x) = wear_read (get_slot s d)) /\
      forall old' user' later', apdu_ok old' ->
        fst (query_auth_key (plugged C O) false (x, (old', user') :: later'))
        = JData 0x9000 (byte_of_curve (fst k), concat (map (be 4) (snd k))).
Proof. exact authorise_reads. Qed.
Print Assumptions C60_authorise.
Example C60_authorise_case : (Forall event_ok baker_hist /\ len baker_hist + 2 < 2 ^ 64) /\ apdu_ok stale /\
  path_text client_text client_path /\
  forall c, addressable demo_oracles (client_key c) (demo_pubkey c client_path).
Proof. exact (conj baker_hist_ok (conj stale_ok (conj client_text_ok client_addressable))). Qed.

(** C60. [deauthorizeBaking] removes the key if the user approves, and only then. *)
Theorem C60_deauthorise : forall (C : config) (O : oracles), oracles_ok O ->
  forall f u es (k : key) pk old later, Forall intact_fault f -> Forall up_fault_ok u ->
  Forall event_ok es -> len es + 1 < 2 ^ 64 ->
  let d := snd (run C O (dev_fresh f u) es) in
  d_faults d = [] -> d_ui d = None -> cf_baking C = true -> apdu_ok old ->
  stored_key d k -> addressable O k pk -> roomy C 110 ->
  let call user := deauthorize_baking (plugged C O) (d, (old, user) :: later) in
  (exists d', call EReject = (JCode 0x6986, (d', later)) /\ d_ui d' = None /\ untouched d d') /\
  exists d', call EApprove = (JData 0x9000 tt, (d', later)) /\ d_log d' = d_log d /\
    forall x, x = d' \/ x = restart d' ->
      d_ui x = None /\ (forall k', ~ stored_key x k') /\
      forall s, s <> SKey -> wear_read (get_slot s x) = wear_read (get_slot s d).
Proof. exact deauthorise_call. Qed.
Print Assumptions C60_deauthorise.
Example C60_deauthorise_case : stored_key client_baker (client_key Ed25519) /\ key_ok (client_key Ed25519).
Proof. exact baker_key_stored. Qed.

(** C60. [legacyHMAC] returns the HMAC of exactly the caller's message. *)
Theorem C60_hmac : forall (C : config) (O : oracles) (H : host), host_ok H O -> oracles_ok O ->
  forall d text (k : key) message s hk out old user later, d_ui d = None -> cf_baking C = true -> apdu_ok old ->
  path_text text (snd k) -> List.length (snd k) = 2%nat \/ List.length (snd k) = 4%nat ->
  bytes_ok message -> (1 + 4 * List.length (snd k) + List.length message <= 255)%nat ->
  o_sign O (fst k) (snd k) HMAC_KEY = Some s -> o_sha512 O s = Some hk -> o_hmac256 O hk message = Some out ->
  exists d', legacy_hmac H (plugged C O) text (fst k) message (d, (old, user) :: later)
             = (JData 0x9000 out, (d', later)) /\ d_ui d' = None /\
    d_log d' = mkSig SrcHmac k HMAC_KEY HMAC_KEY :: d_log d /\ forall sl, get_slot sl d' = get_slot sl d.
Proof. exact hmac_call. Qed.
Print Assumptions C60_hmac.
Example C60_hmac_case : bytes_ok [1; 2; 3] /\
  (1 + 4 * List.length (snd (client_key Ed25519)) + List.length [1; 2; 3] <= 255)%nat /\
  exists s hk out, o_sign demo_oracles Ed25519 client_path HMAC_KEY = Some s /\
    o_sha512 demo_oracles s = Some hk /\ o_hmac256 demo_oracles hk [1; 2; 3] = Some out.
Proof. exact hmac_sizes. Qed.

(** C60. The version calls return what the app was built from, the target as a signed
    number; the commit text carries a NUL at its end. *)
Theorem C60_versions : forall (C : config) (O : oracles) d old user later,
  d_ui d = None -> apdu_ok old -> cf_target C < 2 ^ 32 ->
  let '(major, minor, patch) := cf_version C in
  (exists target, fst (get_version (plugged C O) (d, (old, user) :: later)) = JData 0x9000 (false, (major, minor, patch), false, target) /\
     (- 2 ^ 31 <= target < 2 ^ 31)%Z /\ (target mod 2 ^ 32)%Z = Z.of_N (cf_target C)) /\
  fst (legacy_get_version (plugged C O) (d, (old, user) :: later))
    = JData 0x9000 (cf_baking C, (major, minor, patch)) /\
  ((8 <= List.length (cf_commit C))%nat ->
   fst (legacy_get_git (plugged C O) (d, (old, user) :: later)) = JData 0x9000 (firstn 8 (cf_commit C) ++ [0])).
Proof. exact version_calls. Qed.
Print Assumptions C60_versions.
Example C60_versions_case : let w := (client_baker, turns 1 EApprove) in
  let X := plugged demo_config demo_oracles in
  fst (get_version X w) = JData 0x9000 (false, (2, 2, 9), false, 0x31100004%Z) /\
  fst (legacy_get_version X w) = JData 0x9000 (true, (2, 2, 9)) /\
  fst (legacy_get_git X w) = JData 0x9000 (chars "abcdef01" ++ [0]) /\
  d_ui client_baker = None /\ cf_target demo_config < 2 ^ 32.
Proof. exact version_run. Qed.

(** C60. Every status word the device can answer has a description in the library. *)
Theorem C60_codes_described : forall (C : config) (O : oracles) d e r d',
  step C O d e = (AReply r, d') -> In (status_of r) described_codes.
Proof. exact reply_described. Qed.
Print Assumptions C60_codes_described.
Example C60_codes_case : fst (step demo_config demo_oracles (demo_run [] busy_events) again) = AReply [0x69; 0x84].
Proof. exact refused_again. Qed.

(** C61. For operations and Michelson data the hash computed by [sig_hash] is the hash
    that the calls return and over which the returned signature is made. *)
Theorem C61_sig_hash : forall (C : config) (O : oracles) (H : host), host_ok H O ->
  forall call kind text k message dg s f u es sched later,
  wallet_call C call (legacy_magic kind) ->
  let d := snd (run C O (dev_fresh f u) es) in
  signable C O d text k (legacy_magic kind :: message) dg s sched -> reviewed_message (legacy_magic kind :: message) ->
  (forall sh p, exists room, cf_room C (VSign sh dg p (legacy_magic kind :: message)) = Some room /\ len dg + len s + 2 <= room) ->
  deciding EApprove sched ->
  exists r w, call H (plugged C O) text (fst k) message (d, sched ++ later) = (r, w) /\
    sr_hash r = Some (sig_hash H message kind) /\
    sr_sig r = o_sign O (fst k) (snd k) (sig_hash H message kind).
Proof. exact wallet_hash. Qed.
Print Assumptions C61_sig_hash.
Example C61_case : wallet_call (W := connection) wallet_config sign_operation (legacy_magic LkOperation) /\
  (forall e, signable wallet_config demo_oracles client_wallet client_text (client_key Ed25519)
    (3 :: op_message) (blake2b 32 (3 :: op_message))
    (sha256 (demo_pubkey Ed25519 client_path ++ blake2b 32 (3 :: op_message)) ++ sha256 (blake2b 32 (3 :: op_message)))
    (turns 2 e)) /\ reviewed_message (3 :: op_message).
Proof. exact (conj (CallOperation _) (conj client_signable client_reviewed)). Qed.

(** C61. For Tenderbake it is not: the hash that [signBaker] returns with a signature,
    and over which the signature is made, is none of those that [sig_hash] computes from
    the same message. *)
Theorem C61_tenderbake_refuted : exists C O H d w text k message hash s,
  host_ok H O /\ oracles_ok O /\ w = (d, turns 2 EApprove) /\
  consensus_message (0x11 :: message) (PTB 2500000 3 KBlock) /\
  fst (sign_baker H (plugged C O) text (fst k) message BkBlock w) = JData 0x9000 (mkSignRes 0x9000 (Some hash) (Some s)) /\
  o_sign O (fst k) (snd k) hash = Some s /\
  forall kind, sig_hash H message kind <> hash.
Proof. exact tenderbake_hash_refuted. Qed.
Print Assumptions C61_tenderbake_refuted.
