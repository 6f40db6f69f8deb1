(** Exceptions of the secure element's system: rust/bolos-impl/src/errors.rs and
    errors/exceptions{S,X,SP}.rs. *)
From Coq Require Import List NArith Bool Arith.
From Verif Require Import Base.
Import ListNotations.
Open Scope N_scope.

(** Code that may throw, as a tree: it returns a value, has a visible effect, throws
    ([throw_raw], errors.rs l.90-97, or a system call of the SDK), or calls [catch_raw]
    on a closure and continues with the value or with the error. *)
Inductive prog :=
| PRet (v : N)
| PDo (effect : N) (k : prog)
| PThrow (e : N)
| PCatch (syscall : prog) (ok err : N -> prog).

(** A call of [catch_raw] on the stack. Its [try_context_t] is a local variable: the
    pointer to the previous context, and in [jmp_buf] the place of the [setjmp], from which
    the rest of the function (closure and continuations) is known. *)
Record frame := mkFrame { f_prev : option nat; f_syscall : prog; f_ok : N -> prog; f_err : N -> prog }.

(** The stack (innermost call first); the pointer of [try_context_get]/[try_context_set],
    as the number of the frame that holds the context, counted from the bottom, or None
    for the context of main.c l.123; and the effects so far. *)
Record machine := mkMachine { m_code : prog; m_stack : list frame; m_context : option nat; m_effects : list N }.

Inductive mstep :=
| MStep (m : machine)
| MDone (v : N)      (** the outermost code returns *)
| MThrown (e : N)    (** the exception reaches main.c *)
| MUndefined.        (** jump to a function that has returned *)

(** Conversions of errors.rs l.43: [longjmp] turns 0 into 1 (C standard, 7.13.2.1), the
    result of [setjmp] is cut to 16 bits. *)
Definition jumped (e : N) : N := if e =? 0 then 1 else e.
Definition as_u16 (n : N) : N := n mod 2 ^ 16.

Definition same_context (a b : option nat) : bool :=
  match a, b with Some x, Some y => Nat.eqb x y | None, None => true | _, _ => false end.

(** __FINALLYEX, errors.rs l.70-74, of the call in frame number [a] with previous
    context [prev]. *)
Definition finally (context : option nat) (a : nat) (prev : option nat) : option nat :=
  if same_context context (Some a) then prev else context.

(** One step. *)
Definition machine_step (m : machine) : mstep :=
  match m_code m with
  | PDo x k => MStep (mkMachine k (m_stack m) (m_context m) (m_effects m ++ [x]))
  | PCatch s ok err =>
    (* l.42-49: the first return of setjmp *)
    MStep (mkMachine s (mkFrame (m_context m) s ok err :: m_stack m) (Some (length (m_stack m))) (m_effects m))
  | PRet v =>
    match m_stack m with
    | [] => MDone v
    | f :: rest =>
      (* l.51, l.70-87 *)
      MStep (mkMachine (f_ok f v) rest (finally (m_context m) (length rest) (f_prev f)) (m_effects m))
    end
  | PThrow e =>
    match m_context m with
    | None => MThrown e
    | Some a =>
      if (length (m_stack m) <=? a)%nat then MUndefined else
      match skipn (length (m_stack m) - 1 - a) (m_stack m) with
      | [] => MUndefined
      | f :: rest =>
        let ex := as_u16 (jumped e) in
        if ex =? 0 then
          (* l.45-49 once more *)
          MStep (mkMachine (f_syscall f) (mkFrame (m_context m) (f_syscall f) (f_ok f) (f_err f) :: rest)
                   (Some a) (m_effects m))
        else
          (* l.52-67, l.70-87 *)
          MStep (mkMachine (f_err f ex) rest (finally (f_prev f) a (f_prev f)) (m_effects m))
      end
    end
  end.

Fixpoint machine_run (fuel : nat) (m : machine) : mstep :=
  match fuel with
  | O => MStep m
  | S n => match machine_step m with MStep m' => machine_run n m' | r => r end
  end.
(** The last machine of a run, before it ends. *)
Fixpoint machine_last (fuel : nat) (m : machine) : machine :=
  match fuel with
  | O => m
  | S n => match machine_step m with MStep m' => machine_last n m' | _ => m end
  end.
Definition machine_start (p : prog) : machine := mkMachine p [] None [].

(** exceptionsS.rs l.86-90, l.105-118 and l.120-129: [Error], its conversions from and to
    u32. *)
Inductive sys_error := ESyscall (code : N) | ECx (code : N).
Definition sys_error_of (raw : N) : sys_error := if raw =? as_u16 raw then ESyscall (as_u16 raw) else ECx raw.
Definition code_of (e : sys_error) : N := match e with ESyscall c => c | ECx c => c end.
(** exceptionsS.rs l.132-139: [catch] applies the conversion to the error of [catch_raw]. *)
Definition catch (s : prog) (ok : N -> prog) (err : sys_error -> prog) : prog :=
  PCatch s ok (fun e => err (sys_error_of e)).
