(** Vocabulary of the statements about the signatures the library returns. *)
From Coq Require Import List NArith ZArith.
From Verif Require Import Base Codecs Upload UploadSpec Oracles Address Screens Zui Device DeviceSpec Client ClientSpec Bakers UiDevice UiRun Desk.
Import ListNotations.
Open Scope N_scope.

(** A view that fits leaves room for an answer of [n] bytes. *)
Definition leaves_room (C : config) (n : N) : Prop := forall v room, cf_room C v = Some room -> n <= room.

(** The calls that return a signature with the hash it was made of, given what a host
    passes to them: path, curve and message, and the bytes they ask the device to sign. *)
Inductive asks_for (H : host) {W} (X : transport W) (text : bytes) (c : curve) : (W -> sign_res * W) -> bytes -> Prop :=
| AskOperation m : asks_for H X text c (sign_operation H X text c m) (3 :: m)
| AskMichelson m : asks_for H X text c (sign_michelson H X text c m) (5 :: m)
| AskBaker m kind magic : baker_magic kind m = Some magic ->
    asks_for H X text c (fun w => match sign_baker H X text c m kind w with
                                  | (JData _ r, w') => (r, w')
                                  | (_, w') => (mkSignRes OTHER_ERROR None None, w')
                                  end) (magic :: m)
| AskLegacy m kind : asks_for H X text c (legacy_sign_with_hash H X text c m kind) (legacy_magic kind :: m).

(** The result of such a call and the signatures of the device before and after it:
    either one signature was made, of that message with that key, and it is the one
    returned; or nothing was signed, nothing is returned, and the code says so. *)
Definition faithful (O : oracles) (k : key) (data : bytes) (before after : list sigrec) (r : sign_res) : Prop :=
  (exists g s, after = g :: before /\ sg_key g = k /\ sg_data g = data /\ sg_src g <> SrcHmac /\
     o_blake2b O 32 data = Some (sg_digest g) /\ o_sign O (fst k) (snd k) (sg_digest g) = Some s /\
     r = mkSignRes 0x9000 (Some (sg_digest g)) (Some s)) \/
  (after = before /\ sr_code r <> 0x9000 /\ sr_hash r = None /\ sr_sig r = None).

(** A host and a device, from the state [d0] on: the host makes signing calls, whose
    messages are listed if a signature came back, oldest first; and anything else may
    reach the device, but nothing resets its watermark. The number bounds the events the
    device has seen. *)
Inductive session (C : config) (O : oracles) (H : host) (d0 : dev) : dev -> list bytes -> N -> Prop :=
| SessionStart : session C O H d0 d0 [] 0
| SessionEvent d l n e : session C O H d0 d l n -> event_ok e -> ~ resets C d e ->
    session C O H d0 (snd (step C O d e)) l (n + 1)
| SessionCall d l n text c p call data sched : session C O H d0 d l n ->
    asks_for H (plugged C O) text c call data -> path_text text p -> bytes_ok (tl data) ->
    Forall (fun x => apdu_ok (fst x) /\ event_ok (snd x)) sched ->
    session C O H d0 (fst (snd (call (d, sched))))
      (l ++ match sr_sig (fst (call (d, sched))) with Some _ => [data] | None => [] end) (n + 2 * len sched).

(** The same with the device in a user's hands: the host makes signing calls while the
    user presses buttons, and anything else may be sent and pressed in between. *)
Inductive hand_session (C : config) (O : oracles) (H : host) (table : list baker) (hw : hardware) (s0 : uidev) : uidev -> list bytes -> N -> Prop :=
| HandStart : hand_session C O H table hw s0 s0 [] 0
| HandInput s l n i : hand_session C O H table hw s0 s l n -> input_ok i ->
    (forall e, In e (events_of_input O table hw s i) -> ~ resets C (u_dev s) e) ->
    hand_session C O H table hw s0 (snd (ui_step C O table hw s i)) l (n + 1)
| HandCall s l n text c p call data hs : hand_session C O H table hw s0 s l n ->
    asks_for H (held C O table hw) text c call data -> path_text text p -> bytes_ok (tl data) ->
    Forall (fun h => apdu_ok (fst h)) hs ->
    hand_session C O H table hw s0 (fst (snd (call (s, hs))))
      (l ++ match sr_sig (fst (call (s, hs))) with Some _ => [data] | None => [] end) (n + 2 * len hs).
