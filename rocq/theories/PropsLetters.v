(** Property theorems C97, C98: letters of identifiers, and the emulator tests of keys. *)
From Coq Require Import NArith ZArith Bool Arith String List.
From Verif Require Import Base Codecs CodecsSpec Oracles Address AddressSpec AddressExamples HashDemo
  UploadSpec Device DeviceSpec DeviceDemo ServiceSpec Client ClientSpec ClientExamples
  LettersSpec LettersFacts KeyTests KeyTestsFacts KeyTestsExamples.
Import ListNotations.
Open Scope list_scope.
Open Scope N_scope.

(** C97. Whatever the data, the text of an identifier begins with the letters of its kind
    and has the length of its kind. *)
Theorem C97_letters : forall O k data t, oracles_ok O -> bytes_ok data -> List.length data = kind_data_length k ->
  tz_text (twice O) k data t -> looks_like k t.
Proof. exact text_letters. Qed.
Print Assumptions C97_letters.

(** C97. So do the texts that the device makes. *)
Theorem C97_shown : forall O, oracles_ok O ->
  (forall c h t, bytes_ok h -> List.length h = 20%nat -> pkh_text O c h = SOk t -> looks_like (addr_kind c) t) /\
  (forall h t, bytes_ok h -> List.length h = 20%nat -> kt1_text O h = SOk t -> looks_like KindKT1 t) /\
  (forall h t, bytes_ok h -> List.length h = 32%nat -> branch_text O h = SOk t -> looks_like KindBranch t) /\
  (forall h t, bytes_ok h -> List.length h = 32%nat -> proposal_text O h = SOk t -> looks_like KindProposal t) /\
  (forall c k t, bytes_ok k -> List.length k = kind_data_length (pk_kind c) -> pk_text O c k = SOk t -> looks_like (pk_kind c) t) /\
  (forall id t, chain_text O id = SOk t -> looks_like KindChain t).
Proof. exact shown_letters. Qed.
Print Assumptions C97_shown.
Example C97_case : exists t, pkh_text demo_oracles Ed25519 (repeat 7 20) = SOk t /\ looks_like KindTz1 t /\
  bytes_ok (repeat 7 20) /\ ~ looks_like KindTz2 t.
Proof. exact letters_case. Qed.

(** C97. And the addresses that the library makes, of any bytes at all. *)
Theorem C97_library : forall O H, host_ok H O -> forall c key t key',
  public_key_to_address H key c = Some (t, key') -> looks_like (addr_kind c) t.
Proof. exact made_looks. Qed.
Print Assumptions C97_library.

(** C97. Letters and length tell the kinds apart. *)
Theorem C97_told_apart : forall t k1 k2, looks_like k1 t -> looks_like k2 t -> k1 = k2.
Proof. exact letters_told. Qed.
Print Assumptions C97_told_apart.

(** C98. The device passes the tests that ask for a public key, in any state without review,
    for every curve and path, and they change nothing. *)
Theorem C98_passes : forall O H, host_ok H O -> forall C d text k pk old user later, oracles_ok O -> d_ui d = None ->
  path_text text (snd k) -> List.length (snd k) = 2%nat \/ List.length (snd k) = 4%nat -> apdu_ok old -> addressable O k pk ->
  key_test get_address_and_pubkey H (plugged C O) text (fst k) (d, (old, user) :: later) = (true, (d, later)) /\
  key_test legacy_get_pubkey H (plugged C O) text (fst k) (d, (old, user) :: later) = (true, (d, later)).
Proof. exact device_key_test. Qed.
Print Assumptions C98_passes.
Example C98_passes_case : oracles_ok demo_oracles /\ host_ok demo_host demo_oracles /\ path_text client_text client_path /\
  d_ui client_baker = None /\ apdu_ok stale /\
  forall c, addressable demo_oracles (client_key c) (demo_pubkey c client_path).
Proof.
  exact (conj demo_oracles_ok (conj demo_host_ok (conj client_text_ok (conj (proj1 baker_idle) (conj stale_ok client_addressable))))).
Qed.

(** C98. A device that passes the first has returned the address of the key it returned. *)
Theorem C98_says : forall O H, host_ok H O -> forall W (X : transport W) text c w, oracles_ok O ->
  fst (key_test get_address_and_pubkey H X text c w) = true ->
  exists pk t, fst (get_address_and_pubkey H X text c w) = JData 0x9000 (pk, t) /\ looks_like (addr_kind c) t /\
    forall l h, hashed_form c pk l -> o_blake2b O 20 l = Some h -> twice O (kind_prefix (addr_kind c) ++ h) <> None ->
      tz_text (twice O) (addr_kind c) h t.
Proof. exact @key_test_says. Qed.
Print Assumptions C98_says.

(** C98. False: that key is the key of the path. A device that knows one key only and
    returns it for every path passes. *)
Theorem C98_path_refuted : forall H O text p c pk t key', host_ok H O -> path_text text p ->
  List.length p = 2%nat \/ List.length p = 4%nat -> len pk <= 65 -> public_key_to_address H pk c = Some (t, key') ->
  fst (get_address_and_pubkey H (parrot (len pk :: pk ++ t)) text c tt) = JData 0x9000 (pk, t) /\
  fst (key_test get_address_and_pubkey H (parrot (len pk :: pk ++ t)) text c tt) = true.
Proof. exact any_key. Qed.
Print Assumptions C98_path_refuted.

(** C98. The legacy test compares what the library computed with itself: it passes exactly
    if the answer has the status word 0x9000 and could be read. *)
Theorem C98_legacy : forall O H, host_ok H O -> forall W (X : transport W) text c w,
  fst (key_test legacy_get_pubkey H X text c w) = true <-> exists r, fst (legacy_get_pubkey H X text c w) = JData 0x9000 r.
Proof. exact @legacy_test_says. Qed.
Print Assumptions C98_legacy.

(** C98. False: a device that passes the legacy test has returned a public key, and its
    address. Any 65 bytes pass; and what the library returns on the device is wrong. *)
Theorem C98_legacy_refuted : forall H O text p c key, host_ok H O -> path_text text p ->
  List.length p = 2%nat \/ List.length p = 4%nat -> (64 < List.length key)%nat ->
  fst (key_test legacy_get_pubkey H (parrot key) text c tt) = true.
Proof. exact any_legacy_key. Qed.
Print Assumptions C98_legacy_refuted.
Example C98_legacy_case : let w := (client_baker, turns 1 EApprove) in let X := plugged demo_config demo_oracles in
  forall c, fst (key_test legacy_get_pubkey demo_host X client_text c w) = true /\
    differs (fst (get_address_and_pubkey demo_host X client_text c w)) (fst (legacy_get_pubkey demo_host X client_text c w)).
Proof. exact legacy_wrong_passes. Qed.

(** C98. The tests of versions pass, the legacy one exactly for the app it expects. *)
Theorem C98_versions : forall C O d old user later, d_ui d = None -> apdu_ok old -> cf_target C < 2 ^ 32 ->
  version_test (plugged C O) (d, (old, user) :: later) = true /\
  forall b, legacy_version_test b (plugged C O) (d, (old, user) :: later) = true <-> cf_baking C = b.
Proof. exact versions_told. Qed.
Print Assumptions C98_versions.
Example C98_versions_case : d_ui client_baker = None /\ apdu_ok stale /\ cf_target demo_config < 2 ^ 32.
Proof. exact (conj (proj1 baker_idle) (conj stale_ok eq_refl)). Qed.

(** C98. A test of versions that passes, whatever it talks to, has had an answer with the
    status word 0x9000, and the legacy one the kind of app it expects. *)
Theorem C98_versions_say : forall W (X : transport W) w,
  (version_test X w = true -> exists l x y, fst (X w [0x80; 0x10; 0; 0; 0]) = Some (l ++ [x; y]) /\ x * 256 + y = 0x9000) /\
  forall b, legacy_version_test b X w = true -> exists l x y,
    fst (X w [0x80; 0; 0; 0; 0]) = Some (l ++ [x; y]) /\ x * 256 + y = 0x9000 /\
    (nth 0 (l ++ [x; y]) 0 = 1 <-> b = true).
Proof. exact @versions_say. Qed.
Print Assumptions C98_versions_say.
Example C98_versions_say_case : version_test (parrot [0; 2; 0; 1; 0]) tt = true /\
  legacy_version_test true (parrot [1; 2; 0; 1]) tt = true /\ legacy_version_test false (parrot [0; 2; 0; 1]) tt = true.
Proof. vm_compute. auto. Qed.
