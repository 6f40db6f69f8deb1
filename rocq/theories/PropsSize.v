(** Property theorem C99: what is signed fits the upload buffer. *)
From Coq Require Import List NArith Lia Bool Arith.
From Verif Require Import Base Flash Codecs CodecsSpec Upload UploadSpec Oracles Address AddressExamples Device DeviceSpec
  DeviceHist DeviceDemo DeviceCases AcceptedExamples ServiceSpec SizeFacts SizeExamples.
Import ListNotations.
Open Scope N_scope.

(** C99. Whatever the host sends, the user decides, the power and the flash do: every
    message that is signed, except by the HMAC command, fits the 8191 bytes of the buffer
    together with the byte of the curve and the path of the key, which is not empty. *)
Theorem C99_signed_fits : forall C O f u es g,
  Forall event_ok es ->
  In g (d_log (snd (run C O (dev_fresh f u) es))) -> sg_src g <> SrcHmac ->
  (1 <= length (snd (sg_key g)))%nat /\ (2 + 4 * length (snd (sg_key g)) + length (sg_data g) <= N.to_nat 8191)%nat.
Proof. exact signed_fits. Qed.
Print Assumptions C99_signed_fits.
(** A message of 401 bytes, moved to flash in the middle of the upload. *)
Example C99_case : Forall event_ok rough_events /\
  map (fun g => (sg_src g, 2 + 4 * length (snd (sg_key g)) + length (sg_data g))%nat)
    (d_log (snd (run wallet_config demo_oracles rough_dev rough_events))) = [(SrcReview, 415)%nat].
Proof. exact fits_case. Qed.

(** C99. So no message of 8186 bytes or more is ever signed by review or as a consensus
    message, with any key: two of the sample operations, of 8276 and 8473 bytes, among
    them. *)
Theorem C99_large_never : forall C O f u es g,
  Forall event_ok es ->
  In g (d_log (snd (run C O (dev_fresh f u) es))) -> (N.to_nat 8186 <= length (sg_data g))%nat ->
  sg_src g = SrcHmac.
Proof. exact large_never. Qed.
Print Assumptions C99_large_never.

(** C99. The bound is exact: the wallet signs every operation or Michelson message that
    fits, with every key. *)
Theorem C99_fitting_signed : forall C O k data dg s, cf_baking C = false -> roomy C 134 ->
  path_ok BIP32_MAX_LENGTH (snd k) -> bytes_ok data -> reviewed_message data ->
  (2 + 4 * length (snd k) + length data <= N.to_nat 8191)%nat ->
  o_blake2b O 32 data = Some dg -> length dg = 32%nat -> o_sign O (fst k) (snd k) dg = Some s -> (length s <= 100)%nat ->
  exists es, Forall event_ok es /\
    d_log (snd (run C O (dev_fresh [] []) es)) = [mkSig SrcReview k dg data].
Proof. exact fitting_signed. Qed.
Print Assumptions C99_fitting_signed.
(** One byte more would not fit. *)
Example C99_fitting_case : cf_baking wallet_config = false /\ roomy wallet_config 134 /\
  path_ok BIP32_MAX_LENGTH (snd demo_key) /\ bytes_ok largest /\ reviewed_message largest /\
  (2 + 4 * length (snd demo_key) + length largest = N.to_nat 8191)%nat /\
  exists dg s, o_blake2b demo_oracles 32 largest = Some dg /\ length dg = 32%nat /\
    o_sign demo_oracles (fst demo_key) (snd demo_key) dg = Some s /\ (length s <= 100)%nat.
Proof. exact largest_case. Qed.
