(** Property theorem C65: signatures cover what was accepted. *)
From Coq Require Import List NArith Bool Arith.
From Verif Require Import Base Flash Codecs CodecsSpec Upload UploadSpec Oracles Address AddressExamples Device DeviceSpec
  DeviceHist DeviceDemo DeviceCases AcceptedSpec AcceptedFacts AcceptedExamples.
Import ListNotations.
Open Scope N_scope.

(** C65. Whatever the flash of the upload buffer does short of reporting an error and
    leaving it damaged, and whatever else happens to the device: every signature except
    those of the HMAC command covers the payloads of the packets that the device answered
    with success since the last accepted initial packet, followed by that of the final
    packet, and is made with the curve and the path of the accepted initial packet. A
    refused packet leaves no trace. A consensus message is signed by the final packet, the
    others by the approval of the review that the final packet started. *)
Theorem C65_signature_covers_accepted : forall C O f u es g,
  Forall event_ok es -> Forall whole_fault u ->
  In g (d_log (snd (run C O (dev_fresh f u) es))) -> sg_src g <> SrcHmac ->
  exists es1 buf rx es2 init data, es = es1 ++ EApdu buf rx :: es2 /\
    let d0 := dev_fresh f u in
    let d := snd (run C O d0 es1) in
    command d buf rx (nth 1 buf 0) /\ upload_command C (nth 1 buf 0) = Some (uploader (sg_src g)) /\
    kind_of (nth 2 buf 0) = Some KLast /\
    accepted C O d0 None es1 = Some (uploader (sg_src g), byte_of_curve (fst (sg_key g)), init, data) /\
    path_encodes BIP32_MAX_LENGTH init (snd (sg_key g)) /\
    sg_data g = data ++ pay buf /\ o_blake2b O 32 (data ++ pay buf) = Some (sg_digest g) /\
    match sg_src g with
    | SrcConsensus => d_log (snd (step C O d (EApdu buf rx))) = g :: d_log d
    | _ => exists es3 es4, es2 = es3 ++ EApprove :: es4 /\ Forall is_apdu es3 /\
           let d' := snd (run C O d0 (es1 ++ EApdu buf rx :: es3)) in
           d_log (snd (step C O d' EApprove)) = g :: d_log d'
    end.
Proof. exact accepted_signature. Qed.
Print Assumptions C65_signature_covers_accepted.

(** A power loss that damages the buffer, then a packet that the flash refuses and that
    is sent again: the message is signed as sent. *)
Example C65_case : Forall event_ok rough_events /\ Forall whole_fault rough_faults /\
  fst (run wallet_config demo_oracles rough_dev (firstn 7 rough_events)) =
  [AReply [0x90; 0]; AReply [0x90; 0]; ADied; AReply [0x90; 0]; AReply [0x90; 0]; AReply [0x69; 0x84]; APending] /\
  accepted wallet_config demo_oracles rough_dev None (firstn 6 rough_events)
    = Some (AccSign, 0, path_serialize demo_path, firstn 200 long_text) /\
  map (fun g => (sg_src g, sg_key g, sg_data g)) (d_log (snd (run wallet_config demo_oracles rough_dev rough_events)))
    = [(SrcReview, demo_key, long_text)].
Proof. exact rough_case. Qed.

(** C65. Without the restriction on the flash it is false: after a write that reports an
    error and damages the buffer, the upload goes on, and what is signed is not what was
    accepted. *)
Theorem C65_damaged_buffer_refuted :
  ~ (forall C O f u es buf rx g, Forall event_ok (es ++ [EApdu buf rx; EApprove]) -> Forall up_fault_ok u ->
     d_log (snd (run C O (dev_fresh f u) (es ++ [EApdu buf rx; EApprove]))) = [g] -> sg_src g = SrcReview ->
     exists a p2 init data, accepted C O (dev_fresh f u) None es = Some (a, p2, init, data) /\
       sg_data g = data ++ pay buf).
Proof. exact damaged_buffer. Qed.
Print Assumptions C65_damaged_buffer_refuted.
