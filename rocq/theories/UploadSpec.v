(** What a client of the upload protocol relies on: an abstract byte
    accumulator, and an abstract protocol machine that knows nothing of RAM,
    flash, locks or lengths kept aside. *)
From Coq Require Import List NArith Bool Arith.
From Verif Require Import Base Flash Codecs Upload.
Import ListNotations.
Open Scope N_scope.

(** ** Byte accumulator *)

Inductive sbop := BWrite (l : bytes) | BReset.

(** Contents after a history, and whether the last operation was accepted. *)
Definition acc_step (cap : nat) (c : bytes) (o : sbop) : bytes * bool :=
  match o with
  | BReset => ([], true)
  | BWrite l => if (length c + length l <=? cap)%nat then (c ++ l, true) else (c, false)
  end.
Fixpoint acc_run (cap : nat) (c : bytes) (ops : list sbop) : bytes * list bool :=
  match ops with
  | [] => (c, [])
  | o :: ops' =>
    let (c', r) := acc_step cap c o in
    let (c'', rs) := acc_run cap c' ops' in (c'', r :: rs)
  end.

(** The same operations on the modelled buffer, without flash faults. *)
Definition sb_step (RAM FLASH : nat) (b : sbuf) (o : sbop) : sbuf * bool :=
  match o with
  | BReset => (sb_reset b, true)
  | BWrite l =>
    let '(b', r, _) := sb_write RAM FLASH b l [] in
    (b', match r with SbOk => true | _ => false end)
  end.
Fixpoint sb_run (RAM FLASH : nat) (b : sbuf) (ops : list sbop) : sbuf * list bool :=
  match ops with
  | [] => (b, [])
  | o :: ops' =>
    let (b', r) := sb_step RAM FLASH b o in
    let (b'', rs) := sb_run RAM FLASH b' ops' in (b'', r :: rs)
  end.

(** Well-formed buffer: arrays of the declared sizes, counter within bounds. *)
Definition sbuf_ok (RAM FLASH : nat) (b : sbuf) : Prop :=
  length (sb_ram b) = RAM /\ length (sb_flash b) = FLASH /\
  match sb_state b with
  | InRam c => (c <= RAM)%nat
  | InFlash c => (c <= FLASH)%nat
  end.

(** ** Upload protocol *)

(** The meaning of the P1 byte of an upload packet (native: 0, 1, 2; legacy:
    0, 1, 3, 0x80, 0x81, 0x83). 0x80 starts an upload; it does not finish it. *)
Inductive pkind := KInit | KNext | KLast.
Definition kind_of (p1 : N) : option pkind :=
  if existsb (N.eqb p1) [0; 0x80] then Some KInit
  else if existsb (N.eqb p1) [1; 3] then Some KNext
  else if existsb (N.eqb p1) [2; 0x81; 0x83] then Some KLast
  else None.

(** The upload in progress: who, P2, initial payload, bytes so far. *)
Definition pstate := option (accessor * N * bytes * bytes).

(** The bytes a packet carries, by its Lc byte. *)
Definition pay (buf : bytes) : bytes := firstn (N.to_nat (nth 4 buf 0)) (skipn 5 buf).

(** Bytes the device can hold: P2, initial payload and data together. *)
Definition CAPACITY : nat := N.to_nat 8191.

Definition proto_step (a : accessor) (buf : bytes) (st : pstate)
  : outcome (option upload_out) * pstate :=
  let p2 := nth 3 buf 0 in
  let payload := pay buf in
  match kind_of (nth 2 buf 0) with
  | None => (Err InvalidP1P2, st)
  | Some KInit => (Ok None, Some (a, p2, payload, []))
  | Some k =>
    match st with
    | None => (Err ExecutionError, st)
    | Some (h, q2, init, data) =>
      if negb (acc_eqb h a) then (Err Busy, st)
      else if (CAPACITY <? 1 + length init + length data + length payload)%nat
      then (Err DataInvalid, st)
      else
        match k with
        | KLast => (Ok (Some (mkUO q2 init (data ++ payload))), None)
        | _ => (Ok None, Some (a, q2, init, data ++ payload))
        end
    end
  end.

Fixpoint proto_run (st : pstate) (trace : list (accessor * bytes))
  : list (outcome (option upload_out)) * pstate :=
  match trace with
  | [] => ([], st)
  | (a, buf) :: tr =>
    let (o, st') := proto_step a buf st in
    let (os, st'') := proto_run st' tr in (o :: os, st'')
  end.

(** The modelled uploader as the handlers use it: the output is dropped at the
    end of the command that completed the upload. *)
Definition up_step (a : accessor) (buf : bytes) (u : ustate)
  : outcome (option upload_out) * ustate :=
  let '(o, u', _) := upload a buf u [] in
  (o, match o with Ok (Some _) => upload_drop a u' | _ => u' end).

Fixpoint up_run (u : ustate) (trace : list (accessor * bytes))
  : list (outcome (option upload_out)) * ustate :=
  match trace with
  | [] => ([], u)
  | (a, buf) :: tr =>
    let (o, u') := up_step a buf u in
    let (os, u'') := up_run u' tr in (o :: os, u'')
  end.

(** APDU buffers are 260 bytes. *)
Definition apdu_ok (buf : bytes) : Prop := length buf = 260%nat /\ bytes_ok buf.

(** ** Lock histories *)

Inductive lop (A : Type) := LLock (a : A) | LAcquire (a : A) | LRelease (a : A).
Arguments LLock {A} a.
Arguments LAcquire {A} a.
Arguments LRelease {A} a.

Definition lock_step {A} (eqb : A -> A -> bool) (l : option A) (o : lop A) : option A :=
  match o with
  | LLock a => lock_lock eqb l a
  | LAcquire _ => l
  | LRelease a => fst (lock_release eqb l a)
  end.
Definition lock_run {A} (eqb : A -> A -> bool) (ops : list (lop A)) : option A :=
  fold_left (lock_step eqb) ops None.

(** [a] holds the lock after a history: [a] locked it, and since then nobody
    else locked it and [a] did not release it. *)
Definition holds {A} (a : A) (ops : list (lop A)) : Prop :=
  exists before after, ops = before ++ LLock a :: after /\
    forall o, In o after -> match o with
                            | LLock b => b = a
                            | LAcquire _ => True
                            | LRelease b => b <> a
                            end.
