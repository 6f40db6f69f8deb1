(** Vocabulary of the statements about the host library. *)
From Coq Require Import List NArith ZArith Bool.
From Verif Require Import Base Codecs CodecsSpec Upload UploadSpec Oracles Address AddressSpec Device DeviceSpec ServiceSpec Client.
Import ListNotations.
Open Scope N_scope.

(** ** Path texts *)

(** A decimal numeral and its value. 48 is the character '0'. *)
Inductive numeral : bytes -> N -> Prop :=
| NumeralOne d : d < 10 -> numeral [48 + d] d
| NumeralMore ds n d : numeral ds n -> d < 10 -> numeral (ds ++ [48 + d]) (10 * n + d).

(** A component: a number below 2^31, or such a number followed by an apostrophe (39),
    which stands for the hardened component. *)
Inductive component : bytes -> N -> Prop :=
| PlainComponent ds n : numeral ds n -> n < 2 ^ 31 -> component ds n
| HardComponent ds n : numeral ds n -> n < 2 ^ 31 -> component (ds ++ [39]) (2 ^ 31 + n).

(** 'm' (109), then each component after a slash (47). *)
Definition path_text (text : bytes) (p : path) : Prop :=
  exists parts, Forall2 component parts p /\ text = 109 :: concat (map (fun c => 47 :: c) parts).

(** ** Libraries *)

(** What is assumed of the JavaScript libraries: [Number] reads decimal numerals that a
    double represents exactly, the hash functions are those of the device, and [bs58]
    writes texts that read as the bytes. The hash functions are total. *)
Record host_ok (H : host) (O : oracles) : Prop := mkHostOk {
  hk_number : forall ds n, numeral ds n -> n < 2 ^ 53 -> h_number H ds = Some (Z.of_N n);
  hk_blake2b : forall n l d, o_blake2b O n l = Some d -> h_blake2b H n l = d;
  hk_sha256 : forall l d, o_sha256 O l = Some d -> h_sha256 H l = d;
  hk_blake2b_bytes : forall n l, (n <= 64)%nat -> length (h_blake2b H n l) = n /\ bytes_ok (h_blake2b H n l);
  hk_sha256_bytes : forall l, length (h_sha256 H l) = 32%nat /\ bytes_ok (h_sha256 H l);
  hk_base58 : forall l, bytes_ok l -> reads58 (h_base58 H l) l
}.

(** ** Connections *)

(** Packets needed for a message: one for the path, and one for every 250 bytes. *)
Definition packets_for (message : bytes) : nat := S (N.to_nat ((len message + 249) / 250)).

(** The buffer held anything before each command, and the user takes the decision [e]
    whenever asked. *)
Definition deciding {U} (e : U) (l : list (bytes * U)) : Prop :=
  Forall (fun p => apdu_ok (fst p) /\ snd p = e) l.

(** ** Signing calls *)

(** The calls that ask a wallet for a signature and return it with the hash, and the
    byte they put in front of the message. *)
Definition signing_call (W : Type) := host -> transport W -> bytes -> curve -> bytes -> W -> sign_res * W.
Inductive wallet_call (C : config) {W} : signing_call W -> N -> Prop :=
| CallOperation : wallet_call C sign_operation 3
| CallMichelson : wallet_call C sign_michelson 5
| CallLegacyOperation : cf_baking C = false ->
    wallet_call C (fun H X path c m => legacy_sign_with_hash H X path c m LkOperation) 3
| CallLegacyMichelson : cf_baking C = false ->
    wallet_call C (fun H X path c m => legacy_sign_with_hash H X path c m LkMichelson) 5.

(** The device can be asked to sign [data] with the key [k], named by [text], and what
    it computes. *)
Record signable (C : config) (O : oracles) (d : dev) (text : bytes) (k : key) (data dg s : bytes)
    {A} (sched : list A) : Prop := mkSignable {
  sb_ui : d_ui d = None;
  sb_upload : d_ufaults d = [];
  sb_text : path_text text (snd k);
  sb_path : length (snd k) = 2%nat \/ length (snd k) = 4%nat;
  sb_bytes : bytes_ok data;
  sb_size : (2 + 4 * length (snd k) + length data <= CAPACITY)%nat;
  sb_packets : length sched = packets_for data;
  sb_hash : o_blake2b O 32 data = Some dg;
  sb_digest : length dg = 32%nat;
  sb_sign : o_sign O (fst k) (snd k) dg = Some s;
  sb_sig : (length s <= 100)%nat
}.

(** The type of message a host passes to [signBaker]. *)
Definition kind_of_magic (m : N) : baker_kind :=
  if (m =? 0x01) || (m =? 0x11) then BkBlock else BkEndorsement.
