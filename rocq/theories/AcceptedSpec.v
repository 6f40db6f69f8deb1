(** The packets a device has accepted: what the host can conclude from the answers. *)
From Coq Require Import List NArith Bool Arith.
From Verif Require Import Base Flash Codecs Upload UploadSpec Oracles Address Device DeviceSpec.
Import ListNotations.
Open Scope N_scope.

(** Any fault of a write to the upload buffer, except an error report that leaves the
    flash damaged. *)
Definition whole_fault (f : fault) : Prop :=
  match f with WFail (TTorn _) => False | _ => True end.

(** The initial packet answered with success last, and the payloads of the intermediate
    packets answered with success since: on whose behalf, P2, the initial payload, the
    rest. A restart and an initial packet that is refused leave nothing. *)
Definition accepted_after (C : config) (O : oracles) (d : dev) (st : pstate) (e : event) : pstate :=
  match fst (step C O d e), e with
  | ADied, _ => None
  | ANone, _ => st
  | a, EApdu buf rx =>
    if (5 <=? rx) && (rx <=? 260) && (nth 0 buf 0 =? 0x80) then
      match upload_command C (nth 1 buf 0), kind_of (nth 2 buf 0) with
      | Some acc, Some KInit =>
        match a with AReply [0x90; 0] => Some (acc, nth 3 buf 0, pay buf, []) | _ => None end
      | Some acc, Some KNext =>
        match a, st with
        | AReply [0x90; 0], Some (h, p2, init, data) => Some (h, p2, init, data ++ pay buf)
        | _, _ => st
        end
      | _, _ => st
      end
    else st
  | _, _ => st
  end.
Fixpoint accepted (C : config) (O : oracles) (d : dev) (st : pstate) (es : list event) : pstate :=
  match es with
  | [] => st
  | e :: es' => accepted C O (snd (step C O d e)) (accepted_after C O d st e) es'
  end.

(** On whose behalf the message of a signature is uploaded. *)
Definition uploader (s : sig_source) : accessor :=
  match s with SrcReview => AccSign | _ => AccBaking end.
