(** What exceptions and the main loop should do. *)
From Coq Require Import List NArith Bool Arith.
From Verif Require Import Base Codecs UploadSpec Oracles Device DeviceSpec Catch Loop.
Import ListNotations.
Open Scope N_scope.

(** ** Structured exceptions *)

(** The meaning of code with try/catch: effects, and a value or an uncaught exception.
    [seen e] is the code that a handler gets for exception [e]. *)
Fixpoint meaning (seen : N -> N) (p : prog) : list N * (N + N) :=
  match p with
  | PRet v => ([], inl v)
  | PDo x k => let (t, r) := meaning seen k in (x :: t, r)
  | PThrow e => ([], inr e)
  | PCatch s ok err =>
    let (t, r) := meaning seen s in
    let (t', r') := match r with inl v => meaning seen (ok v) | inr e => meaning seen (err (seen e)) end in
    (t ++ t', r')
  end.
(** Every exception that the code can throw satisfies [P]. *)
Fixpoint throws (P : N -> Prop) (p : prog) : Prop :=
  match p with
  | PRet _ => True
  | PDo _ k => throws P k
  | PThrow e => P e
  | PCatch s ok err => throws P s /\ (forall v, throws P (ok v)) /\ (forall v, throws P (err v))
  end.
(** The run of [p] ends with [r], having had the effects [t]; no catch context is left. *)
Definition runs_to (p : prog) (t : list N) (r : N + N) : Prop :=
  exists n,
    machine_run n (machine_start p) = match r with inl v => MDone v | inr e => MThrown e end /\
    m_effects (machine_last n (machine_start p)) = t /\
    m_stack (machine_last n (machine_start p)) = [] /\
    m_context (machine_last n (machine_start p)) = None.

(** ** The wire *)

(** The user can do nothing but decide the review. *)
Definition io_ok (i : io) : Prop :=
  match i with
  | IoCommand c tail | IoEscape c tail _ => apdu_ok (c ++ tail)
  | IoUser e => e = EApprove \/ e = EReject \/ e = EUiError
  | _ => True
  end.
(** The exchange with the host throws no exception; neither does the handling of commands. *)
Definition steady_io (i : io) : Prop := match i with IoInit (Some _) | IoThrow _ => False | _ => True end.
Definition calm_io (i : io) : Prop := steady_io i /\ match i with IoEscape _ _ _ => False | _ => True end.

(** Commands and answers alternate, starting with a command; [waiting]: a command is not
    yet answered. A reset drops it. *)
Fixpoint alternates (waiting : bool) (w : list wire) : Prop :=
  match w with
  | [] => True
  | WIn _ :: t => waiting = false /\ alternates true t
  | WOut _ :: t => waiting = true /\ alternates false t
  | WReset :: t => alternates false t
  end.

(** The status word for an exception in the initialisation: itself when it is one of the
    classes 6 and 9, otherwise one of the class 0x68 with the same low bits. *)
Definition init_word (e word : N) : Prop :=
  (0x6000 <= e < 0x7000 \/ 0x9000 <= e < 0xA000) /\ word = e \/
  ~ (0x6000 <= e < 0x7000 \/ 0x9000 <= e < 0xA000) /\ 0x6800 <= word < 0x7000 /\ exists k, e + 0x6800 = word + k * 0x800.

(** What a history of the device model shows on the wire. *)
Definition shown (x : event * answer) : list wire :=
  match fst x with EApdu buf rx => [WIn (firstn (N.to_nat rx) buf)] | _ => [] end
  ++ match snd x with AReply out => [WOut out] | ADied => [WReset] | _ => [] end.
Definition on_wire (es : list event) (answers : list answer) : list wire := flat_map shown (combine es answers).
