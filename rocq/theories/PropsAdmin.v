(** Properties of the requests that concern the stored key, the set-up, the HMAC and the
    versions. *)
From Coq Require Import List NArith Bool.
From Verif Require Import Base Flash Codecs CodecsSpec Upload UploadSpec UploadExamples
  Oracles Address AddressSpec AddressExamples Device DeviceSpec DeviceDemo DeviceExamples DeviceCases
  ServiceSpec DeviceAdmin AdminExamples.
Import ListNotations.
Open Scope N_scope.

(** C52. A well-formed request to authorise a key is put to the user. Approving it
    answers with the public key and stores exactly that key; rejecting it changes
    nothing. *)
Theorem C52_authorise_served : forall (C : config) (O : oracles), oracles_ok O ->
  forall f u es buf rx ins k pk, Forall intact_fault f -> Forall up_fault_ok u ->
  Forall event_ok es -> len es + 1 < 2 ^ 64 ->
  let d := snd (run C O (dev_fresh f u) es) in
  d_faults d = [] -> cf_baking C = true -> apdu_ok buf -> command d buf rx ins -> In ins [0x01; 0xA1] ->
  1 <= nth 2 buf 0 -> names BIP32_MAX_LENGTH buf k -> addressable O k pk -> roomy C 110 ->
  exists d1 d2, step C O d (EApdu buf rx) = (APending, d1) /\
    step C O d1 EReject = (AReply [0x69; 0x86], d) /\
    step C O d1 EApprove = (AReply (len pk :: pk ++ [0x90; 0]), d2) /\ d_log d2 = d_log d /\
    forall x, x = d2 \/ x = restart d2 ->
      d_ui x = None /\ (forall k', stored_key x k' <-> k' = k) /\
      forall s, s <> SKey -> wear_read (get_slot s x) = wear_read (get_slot s d).
Proof. exact authorise_served. Qed.
Print Assumptions C52_authorise_served.
Example C52_authorise_case :
  (Forall event_ok admin_hist /\ len admin_hist + 2 < 2 ^ 64 /\ d_faults admin_dev = [] /\ d_ui admin_dev = None /\
   stored_key admin_dev demo_key) /\
  let buf := apdu 0xA1 1 1 (path_serialize other_path) in
  apdu_ok buf /\ command admin_dev buf 18 0xA1 /\ 1 <= nth 2 buf 0 /\ names BIP32_MAX_LENGTH buf other_key /\
  addressable demo_oracles other_key (demo_pubkey Secp256K1 other_path) /\ roomy demo_config 110.
Proof. exact (conj admin_hist_ok authorise_case). Qed.

(** C52. A request to deauthorise is put to the user if a key is stored. Approving it
    leaves no key; rejecting it changes nothing. *)
Theorem C52_deauthorise_served : forall (C : config) (O : oracles), oracles_ok O ->
  forall f u es buf rx ins k pk, Forall intact_fault f -> Forall up_fault_ok u ->
  Forall event_ok es -> len es + 1 < 2 ^ 64 ->
  let d := snd (run C O (dev_fresh f u) es) in
  d_faults d = [] -> cf_baking C = true -> apdu_ok buf -> command d buf rx ins -> In ins [0x0C; 0xAC] ->
  1 <= nth 2 buf 0 -> stored_key d k -> addressable O k pk -> roomy C 110 ->
  exists d1 d2 d3, step C O d (EApdu buf rx) = (APending, d1) /\
    step C O d1 EReject = (AReply [0x69; 0x86], d3) /\ d_ui d3 = None /\ untouched d d3 /\
    step C O d1 EApprove = (AReply [0x90; 0], d2) /\ d_log d2 = d_log d /\
    forall x, x = d2 \/ x = restart d2 ->
      d_ui x = None /\ (forall k', ~ stored_key x k') /\
      forall s, s <> SKey -> wear_read (get_slot s x) = wear_read (get_slot s d).
Proof. exact deauthorise_served. Qed.
Print Assumptions C52_deauthorise_served.
Example C52_deauthorise_case :
  let buf := apdu 0xAC 1 0 [] in
  apdu_ok buf /\ command admin_dev buf 5 0xAC /\ 1 <= nth 2 buf 0 /\ stored_key admin_dev demo_key /\
  addressable demo_oracles demo_key (demo_pubkey Ed25519 demo_path).
Proof. exact deauthorise_case. Qed.

(** C52. A well-formed request to set up is put to the user. Approving it answers with
    the public key, stores exactly that key and both levels and the chain; rejecting it
    changes nothing. *)
Theorem C52_setup_served : forall (C : config) (O : oracles), oracles_ok O ->
  forall f u es buf rx k main test chain enc rest pk, Forall intact_fault f -> Forall up_fault_ok u ->
  Forall event_ok es -> len es + 2 < 2 ^ 64 ->
  let d := snd (run C O (dev_fresh f u) es) in
  d_faults d = [] -> cf_baking C = true -> apdu_ok buf -> command d buf rx 0x0A ->
  nth 3 buf 0 = byte_of_curve (fst k) ->
  pay buf = be 4 chain ++ be 4 main ++ be 4 test ++ enc ++ rest -> path_encodes BIP32_MAX_LENGTH enc (snd k) ->
  main < 2 ^ 32 -> test < 2 ^ 32 -> chain < 2 ^ 32 -> addressable O k pk -> roomy C 110 ->
  exists d1 d2, step C O d (EApdu buf rx) = (APending, d1) /\
    step C O d1 EReject = (AReply [0x69; 0x86], d) /\
    step C O d1 EApprove = (AReply (len pk :: pk ++ [0x90; 0]), d2) /\
    forall x, x = d2 \/ x = restart d2 ->
      reports_all C O x main test chain /\ (forall k', stored_key x k' <-> k' = k).
Proof. exact setup_served. Qed.
Print Assumptions C52_setup_served.
Example C52_setup_case :
  let buf := apdu 0x0A 0 1 setup_payload in
  apdu_ok buf /\ command admin_dev buf 30 0x0A /\ nth 3 buf 0 = byte_of_curve (fst other_key) /\
  pay buf = be 4 0x7A06A770 ++ be 4 2000000 ++ be 4 17 ++ path_serialize other_path ++ [] /\
  path_encodes BIP32_MAX_LENGTH (path_serialize other_path) (snd other_key).
Proof. exact setup_case. Qed.

(** C53. The HMAC command answers with the HMAC of the message under the hash of the
    key's signature of a constant, and changes nothing but the record of signatures. *)
Theorem C53_hmac_served : forall (C : config) (O : oracles), oracles_ok O ->
  forall d buf rx k enc message s hk out, cf_baking C = true -> apdu_ok buf -> command d buf rx 0x0E ->
  nth 3 buf 0 = byte_of_curve (fst k) -> pay buf = enc ++ message -> path_encodes BIP32_MAX_LENGTH enc (snd k) ->
  o_sign O (fst k) (snd k) HMAC_KEY = Some s -> o_sha512 O s = Some hk -> o_hmac256 O hk message = Some out ->
  exists d', step C O d (EApdu buf rx) = (AReply (out ++ [0x90; 0]), d') /\ d_ui d' = None /\
    d_log d' = mkSig SrcHmac k HMAC_KEY HMAC_KEY :: d_log d /\ forall sl, get_slot sl d' = get_slot sl d.
Proof. exact hmac_served. Qed.
Print Assumptions C53_hmac_served.
Example C53_hmac_case :
  let buf := apdu 0x0E 0 1 (path_serialize other_path ++ [1; 2; 3]) in
  apdu_ok buf /\ command admin_dev buf 21 0x0E /\ nth 3 buf 0 = byte_of_curve (fst other_key) /\
  pay buf = path_serialize other_path ++ [1; 2; 3] /\
  path_encodes BIP32_MAX_LENGTH (path_serialize other_path) (snd other_key) /\
  exists s hk out, o_sign demo_oracles (fst other_key) (snd other_key) HMAC_KEY = Some s /\
    o_sha512 demo_oracles s = Some hk /\ o_hmac256 demo_oracles hk [1; 2; 3] = Some out.
Proof. exact hmac_case. Qed.

(** C53. The version commands answer with which app this is, its version, the device it
    was built for and the start of the commit, in every state without a review. *)
Theorem C53_versions : forall (C : config) (O : oracles) d, d_ui d = None ->
  let '(major, minor, patch) := cf_version C in
  answers C O d 0x00 [if cf_baking C then 1 else 0; major; minor; patch; 0x90; 0] /\
  answers C O d 0x10 ([0; major; minor; patch; 0] ++ be 4 (cf_target C) ++ [0x90; 0]) /\
  ((8 <= length (cf_commit C))%nat -> answers C O d 0x09 (firstn 8 (cf_commit C) ++ [0; 0x90; 0])).
Proof. exact versions. Qed.
Print Assumptions C53_versions.
Example C53_versions_case : d_ui admin_dev = None /\ Nat.leb 8 (length (cf_commit demo_config)) = true /\
  fst (step demo_config demo_oracles admin_dev (send 0x00 0 0 [])) = AReply [1; 2; 2; 9; 0x90; 0].
Proof. exact (conj (proj1 (proj2 (proj2 (proj2 admin_hist_ok)))) versions_case). Qed.
