(** What the build should put into the app. *)
From Coq Require Import List NArith Bool Arith.
From Verif Require Import Base Flash BuildTime.
Import ListNotations.
Open Scope N_scope.

(** ** Makefile.version *)

(** A blank on a line. *)
Definition blank (c : N) : Prop := c = 9 \/ c = 32 \/ c = 13 \/ c = 11 \/ c = 12.
(** A decimal numeral. *)
Definition numeral (t : bytes) (n : N) : Prop :=
  exists ds, t = map (fun d => 48 + d) ds /\ ds <> [] /\ Forall (fun d => d < 10) ds /\
    n = fold_left (fun a d => 10 * a + d) ds 0.
Definition letter (c : N) : Prop := 65 <= c <= 90 \/ 97 <= c <= 122 \/ c = 95.
Definition name_ok (t : bytes) : Prop :=
  exists c t', t = c :: t' /\ letter c /\ Forall (fun c => letter c \/ 48 <= c <= 57) t'.

(** A line of a file of definitions, as it is written and as GNU make reads it. *)
Inductive entry :=
| LBlank (sp : bytes)
| LComment (sp text : bytes)
| LDef (sp name value sp' : bytes).
Definition written (e : entry) : bytes :=
  match e with
  | LBlank sp => sp
  | LComment sp text => sp ++ [35] ++ text
  | LDef sp name value sp' => sp ++ name ++ [61] ++ value ++ sp'
  end.
Definition entry_ok (e : entry) : Prop :=
  match e with
  | LBlank sp => Forall blank sp
  | LComment sp text => Forall blank sp /\ ~ In 10 text
  | LDef sp name value sp' => Forall blank sp /\ Forall blank sp' /\ name_ok name
  end.
Definition defined (e : entry) : list (bytes * bytes) :=
  match e with LDef _ name value _ => [(name, value)] | _ => [] end.
(** The text of a value, with or without a sign, is that of a byte. *)
Definition means (d : bytes * bytes) (v : bytes * N) : Prop :=
  fst v = fst d /\ snd v < 256 /\ exists t, (snd d = t \/ snd d = 43 :: t) /\ numeral t (snd v).
(** The lines of a file; the last one may lack its end. *)
Fixpoint file_of (ls : list bytes) : bytes :=
  match ls with
  | [] => []
  | [l] => l
  | l :: ls' => l ++ [10] ++ file_of ls'
  end.

(** ** Memory of arrays *)

(** [mem] is the memory of a value of type [t] in which every row is [init]. *)
Inductive laid (init : bytes) : ty -> bytes -> Prop :=
| laid_row : laid init (TArray TU8 (length init)) init
| laid_rows : forall a n m, laid init a m -> laid init (TArray a n) (concat (repeat m n)).

(** ** Statics *)

(** The static as one expects it: it gets its value when the app starts. *)
Definition eager_step {A W R} (start : W -> option A) (s : option A * W) (e : lazy_event A W R)
  : list (lazy_out R) * (option A * W) :=
  let (v, w) := s in
  match e with
  | LPower _ => ([], (start w, w))
  | LUse f =>
    match v with
    | None => ([LPanic], (start w, w))
    | Some a => let '(a', w', r) := f a w in ([LDone r], (Some a', w'))
    end
  end.
Fixpoint eager_run {A W R} (start : W -> option A) (s : option A * W) (es : list (lazy_event A W R))
  : list (lazy_out R) * (option A * W) :=
  match es with
  | [] => ([], s)
  | e :: es' => let (o, s1) := eager_step start s e in let (os, s2) := eager_run start s1 es' in (o ++ os, s2)
  end.
(** The memory of the sentinel is not 1 after power-on. *)
Definition clean {A W R} (e : lazy_event A W R) : Prop := match e with LPower b => b <> 1 | LUse _ => True end.

(** The uses of a wear-levelled area as uses of a static that is made by [Wear::new]. *)
Definition wear_events (o : wop) : list (lazy_event N (list page) wres) :=
  match o with
  | ORestart => [LPower 0]
  | OWrite payload f =>
    LUse (fun k ps => let (w, r) := wear_write_at (mkWear ps (Some k)) k payload f in ((k + 1) mod 2 ^ 64, w_pages w, r))
    :: match f with WCut _ => [LPower 0] | _ => [] end
  end.
