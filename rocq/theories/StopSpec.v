(** What stops the app: the vocabulary of C64. *)
From Coq Require Import List NArith.
From Verif Require Import Base Flash Codecs CodecsSpec Upload UploadSpec Oracles Device DeviceSpec.
Import ListNotations.
Open Scope N_scope.

(** A message sent as a block (Emmy or Tenderbake) whose fitness field has version 2 and
    fewer than four bytes after it; the field follows 82 bytes of header. *)
Definition short_fitness (data : bytes) : Prop :=
  exists m before fit after, data = m :: before ++ be 4 (len fit) ++ fit ++ after /\
    (m = 0x01 \/ m = 0x11) /\ length before = 82%nat /\ (5 <= length fit < 9)%nat /\ nth 4 fit 0 = 2.

(** The command completes, by the protocol of [proto_step], the upload of such a message
    to be signed with the authorised key, and the watermark can be read. [st] is the
    upload in progress before it. *)
Definition fatal (C : config) (O : oracles) (d : dev) (st : pstate) (e : event) : Prop :=
  exists buf rx ins up k p, e = EApdu buf rx /\ command d buf rx ins /\ upload_command C ins = Some AccBaking /\
    fst (proto_step AccBaking buf st) = Ok (Some up) /\
    stored_key d k /\ uo_p2 up = byte_of_curve (fst k) /\ path_read BIP32_MAX_LENGTH (uo_first up) = Some (snd k) /\
    o_blake2b O 32 (uo_data up) <> None /\ wear_read (d_main d) = Some (RData p) /\
    short_fitness (uo_data up).

(** A write to a slot was cut by a power loss between [d] and [d']. *)
Definition power_cut (d d' : dev) : Prop := exists l t, d_faults d = l ++ WCut t :: d_faults d'.
