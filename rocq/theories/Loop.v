(** The main loop: rust/app/c/main.c l.112-177. *)
From Coq Require Import List NArith Bool Arith.
From Verif Require Import Base Codecs Oracles Device.
Import ListNotations.
Open Scope N_scope.

(** What passes over the wire. *)
Inductive wire := WIn (command : bytes) | WOut (answer : bytes) | WReset.

(** What happens to the loop. [tail] is whatever the APDU buffer holds behind the received
    command. *)
Inductive io :=
| IoInit (r : option N)                    (** l.127-132 return, or throw an exception *)
| IoCommand (c tail : bytes)               (** the host sends a command *)
| IoUser (e : event)                       (** the review is decided, inside [io_exchange] *)
| IoThrow (e : N)                          (** [io_exchange] (l.136) throws *)
| IoEscape (c tail : bytes) (e : N)        (** a command arrives and its handling throws at once *)
| IoPower.

Section Loop.
Variable C : config.
Variable O : oracles.

(** The state while the loop waits: in l.128-131 before the app is up, later in
    [io_exchange]. [l_reply] is G_io_apdu_buffer[..tx], [l_flags] whether [flags] contains
    IO_ASYNCH_REPLY. [l_media] is the SDK's record that a received command has not been
    answered (G_io_app.apdu_media): it is set when a command arrives, reset when
    [io_exchange] is called without IO_ASYNCH_REPLY, and while it is set the SDK takes no
    further command. *)
Record loop := mkLoop { l_up : bool; l_reply : bytes; l_flags : bool; l_media : bool; l_dev : dev }.

Definition boot (d : dev) : loop := mkLoop false [] false false d.

(** l.134-136 until [io_exchange] waits: the answer of the last round is sent, unless the
    flag says that it is sent later. *)
Definition enter (l : loop) : list wire * loop :=
  if l_flags l then ([], mkLoop (l_up l) [] true (l_media l) (l_dev l))
  else (match l_reply l with [] => [] | r => [WOut r] end, mkLoop (l_up l) [] false false (l_dev l)).

(** l.145-154: the status word of an exception in the initialisation ([e] is an unsigned
    short). *)
Definition init_status (e : N) : N :=
  let e := e mod 2 ^ 16 in
  if (e / 4096 =? 6) || (e / 4096 =? 9) then e else 0x6800 + e mod 0x800.
(** l.158-167. *)
Definition exception_reply (e : N) : bytes := [(e / 256) mod 256; e mod 256; 0x64; 0x00].

(** IO_APDU_BUFFER_SIZE. *)
Definition APDU_SIZE : N := 260.

(** One event. None: memory behind the APDU buffer is overwritten (l.155-157). *)
Definition loop_step (l : loop) (i : io) : option (list wire * loop) :=
  match i with
  | IoPower => Some ([WReset], boot (snd (step C O (l_dev l) EPower)))
  | IoInit r =>
    if l_up l then Some ([], l) else
    match r with
    | None => Some (enter (mkLoop true (l_reply l) (l_flags l) (l_media l) (l_dev l)))
    | Some e =>
      if APDU_SIZE <? len (l_reply l) + 2 then None
      else Some ([], mkLoop false (l_reply l ++ be 2 (init_status e)) (l_flags l) (l_media l) (l_dev l))
    end
  | IoCommand c tail =>
    if negb (l_up l) || l_media l then Some ([], l) else
    let (a, d) := step C O (l_dev l) (EApdu (c ++ tail) (len c)) in
    match a with
    | AReply out => let (w, l') := enter (mkLoop true out false true d) in Some (WIn c :: w, l')
    | APending => let (w, l') := enter (mkLoop true [] true true d) in Some (WIn c :: w, l')
    | ADied => Some ([WIn c; WReset], boot d)
    | ANone => let (w, l') := enter (mkLoop true [] false true d) in Some (WIn c :: w, l')
    end
  | IoUser e =>
    if negb (l_up l) then Some ([], l) else
    let (a, d) := step C O (l_dev l) e in
    match a with
    | AReply out => Some ([WOut out], mkLoop true (l_reply l) (l_flags l) false d)
    | ADied => Some ([WReset], boot d)
    | _ => Some ([], mkLoop true (l_reply l) (l_flags l) (l_media l) d)
    end
  | IoThrow e =>
    if negb (l_up l) then Some ([], l) else
    Some (enter (mkLoop true (exception_reply e) (l_flags l) (l_media l) (l_dev l)))
  | IoEscape c tail e =>
    if negb (l_up l) || l_media l then Some ([], l) else
    let (w, l') := enter (mkLoop true (exception_reply e) false true (l_dev l)) in Some (WIn c :: w, l')
  end.

Fixpoint loop_run (l : loop) (is : list io) : option (list wire * loop) :=
  match is with
  | [] => Some ([], l)
  | i :: is' =>
    match loop_step l i with
    | None => None
    | Some (w, l1) => match loop_run l1 is' with Some (w', l2) => Some (w ++ w', l2) | None => None end
    end
  end.
End Loop.
