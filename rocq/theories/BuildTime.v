(** What the build puts into the app: the constants of [version!]
    (rust/app-derive/src/version.rs), the flash memory declared with [nvm]
    (rust/bolos-derive/src/nvm.rs) and how it is written (rust/bolos-impl/src/nvm.rs), and
    the statics declared with [lazy_static] (rust/bolos-derive/src/lazy_static.rs). *)
From Coq Require Import List NArith Bool Arith.
From Verif Require Import Base Flash.
Import ListNotations.
Open Scope N_scope.

(** ** version! *)

(** [char::is_whitespace] and [str::lines]; the file is taken to be ASCII. *)
Definition is_space (c : N) : bool := (9 <=? c) && (c <=? 13) || (c =? 32).
Fixpoint drop_space (l : bytes) : bytes :=
  match l with
  | [] => []
  | c :: l' => if is_space c then drop_space l' else l
  end.
(** [str::trim]. *)
Definition trim (l : bytes) : bytes := rev (drop_space (rev (drop_space l))).
(** The pieces before each [sep], and the rest. [str::lines] leaves out an empty last piece
    and carriage returns, which here are removed as empty lines and by [trim]. *)
Fixpoint pieces (sep : N) (l : bytes) : list bytes :=
  match l with
  | [] => [[]]
  | c :: l' =>
    if c =? sep then [] :: pieces sep l'
    else match pieces sep l' with p :: ps => (c :: p) :: ps | [] => [[c]] end
  end.
(** version.rs l.83 ([splitn(2, '=')]): None when there is no '='. *)
Fixpoint split_eq (l : bytes) : option (bytes * bytes) :=
  match l with
  | [] => None
  | c :: l' =>
    if c =? 61 then Some ([], l')
    else match split_eq l' with Some (a, b) => Some (c :: a, b) | None => None end
  end.
(** [str::parse::<u8>]: an optional '+', at least one digit, no overflow. *)
Fixpoint u8_digits (acc : N) (l : bytes) : option N :=
  match l with
  | [] => Some acc
  | c :: l' =>
    if (48 <=? c) && (c <=? 57) then
      let n := acc * 10 + (c - 48) in if 255 <? n then None else u8_digits n l'
    else None
  end.
Definition parse_u8 (l : bytes) : option N :=
  match l with
  | [] => None
  | c :: l' => if c =? 43 then match l' with [] => None | _ => u8_digits 0 l' end else u8_digits 0 l
  end.
(** [Ident::new] panics unless this is an identifier (keywords are not modelled). *)
Definition is_letter (c : N) : bool := (65 <=? c) && (c <=? 90) || (97 <=? c) && (c <=? 122) || (c =? 95).
Definition is_digit (c : N) : bool := (48 <=? c) && (c <=? 57).
Definition is_ident (l : bytes) : bool :=
  match l with
  | [] => false
  | c :: l' => is_letter c && forallb (fun c => is_letter c || is_digit c) l'
  end.
(** version.rs l.85-107: one line that is neither empty nor a comment. *)
Definition version_line (l : bytes) : option (bytes * N) :=
  match split_eq l with
  | None => None
  | Some (name, value) =>
    match parse_u8 value with
    | Some n => if is_ident name then Some (name, n) else None
    | None => None
    end
  end.
Fixpoint all_some {A} (l : list (option A)) : option (list A) :=
  match l with
  | [] => Some []
  | Some a :: l' => match all_some l' with Some r => Some (a :: r) | None => None end
  | None :: _ => None
  end.
Fixpoint distinct (l : list bytes) : bool :=
  match l with
  | [] => true
  | a :: l' => negb (existsb (fun b => if list_eq_dec N.eq_dec a b then true else false) l') && distinct l'
  end.
(** version.rs l.74-112 and l.28-48: the constants that are defined. None: the build fails,
    also because a constant is defined twice. *)
Definition version_defs (text : bytes) : option (list (bytes * N)) :=
  let ls := filter (fun l => match l with [] => false | c :: _ => negb (c =? 35) end) (map trim (pieces 10 text)) in
  match all_some (map version_line ls) with
  | Some defs => if distinct (map fst defs) then Some defs else None
  | None => None
  end.

(** ** Flash memory *)

(** The type in a declaration. *)
Inductive ty := TU8 | TOther | TArray (elem : ty) (n : nat).
(** nvm.rs (bolos-derive) l.80-109: [walk_multi_array]; the innermost length comes first. *)
Fixpoint walk (t : ty) : option (list nat) :=
  match t with
  | TArray TU8 n => Some [n]
  | TArray (TArray _ _ as a) n => match walk a with Some l => Some (l ++ [n]) | None => None end
  | _ => None
  end.
(** l.214-224: [reduce_lens]. *)
Definition reduce_lens (l : list nat) : nat := fold_left Nat.mul l 1%nat.
(** l.191-210: [expand_array], two loops that write byte by byte. *)
Definition expand_array (INIT TOTAL : nat) (init : bytes) : bytes :=
  fold_left (fun out i =>
      fold_left (fun out j => upd (i * INIT + j) (nth j init 0) out) (seq 0 INIT) out)
    (seq 0 (TOTAL / INIT)) (zeros TOTAL).
(** l.111-187: the contents of the static. None: the build fails (an unsuitable type, an
    initial value of another length, or a division by zero). *)
Definition nvm_static (t : ty) (init : option bytes) : option bytes :=
  match walk t with
  | None => None
  | Some lens =>
    match init with
    | None => Some (zeros (reduce_lens lens))
    | Some i =>
      match lens with
      | (S _ as n) :: _ => if (length i =? n)%nat then Some (expand_array n (reduce_lens lens) i) else None
      | _ => None
      end
    end
  end.

(** nvm.rs (bolos-impl) l.60-90: [NVM::write] to a memory [mem]. [from + len] wraps around
    (32 bits), and then the slice in l.76 panics. What [nvm_write] does when it fails is in
    Flash.v; here it succeeds. *)
Inductive nvm_res := NvmOk | NvmOverflow | NvmPanic.
Definition nvm_write (mem : bytes) (from : N) (slice : bytes) : bytes * nvm_res :=
  if len mem <? (from + len slice) mod 2 ^ 32 then (mem, NvmOverflow)
  else if len mem <? from then (mem, NvmPanic)
  else (firstn (N.to_nat from) mem ++ slice ++ skipn (N.to_nat from + length slice) mem, NvmOk).

(** ** lazy_static *)

Section Lazy.
  (** The value, the flash memory it is made from, and what a use answers. *)
  Variables A W R : Type.
  (** The initialiser; None is a panic. *)
  Variable start : W -> option A.

  (** lazy_static.rs l.139-142: [UNINITIALIZED_SENTINEL] and the static itself, with what is
      in its memory ([None] when nothing was written to it since power-on). *)
  Record cell := mkCell { c_sentinel : N; c_value : option A }.
  Inductive lazy_out := LDone (r : R) | LPanic | LGarbage.

  (** l.156-183: [init]. *)
  Definition lazy_init (c : cell) (w : W) : option cell :=
    if negb (c_sentinel c =? 1) then
      match start w with
      | None => None
      | Some a => Some (mkCell 1 (Some a))
      end
    else Some c.

  (** What happens to the static: the app uses it (l.185-199 and l.91-105: [get], [get_mut]),
      or it starts anew, and the sentinel's byte is then [b]. *)
  Inductive lazy_event := LUse (f : A -> W -> A * W * R) | LPower (b : N).
  (** A panic restarts the app; the sentinel is 0 then. *)
  Definition lazy_step (s : cell * W) (e : lazy_event) : list lazy_out * (cell * W) :=
    let (c, w) := s in
    match e with
    | LPower b => ([], (mkCell b None, w))
    | LUse f =>
      match lazy_init c w with
      | None => ([LPanic], (mkCell 0 None, w))
      | Some c1 =>
        match c_value c1 with
        | None => ([LGarbage], (c1, w))
        | Some a => let '(a', w', r) := f a w in ([LDone r], (mkCell (c_sentinel c1) (Some a'), w'))
        end
      end
    end.
  Fixpoint lazy_run (s : cell * W) (es : list lazy_event) : list lazy_out * (cell * W) :=
    match es with
    | [] => ([], s)
    | e :: es' => let (o, s1) := lazy_step s e in let (os, s2) := lazy_run s1 es' in (o ++ os, s2)
    end.
End Lazy.
Arguments mkCell {A}. Arguments c_sentinel {A}. Arguments c_value {A}.
Arguments LDone {R}. Arguments LPanic {R}. Arguments LGarbage {R}.
Arguments LUse {A W R}. Arguments LPower {A W R}.
Arguments lazy_init {A W}. Arguments lazy_step {A W R}. Arguments lazy_run {A W R}.
