(** Texts on the screen: paging, numbers, fixed-point amounts, hexadecimal. *)
From Coq Require Import NArith ZArith Bool Arith Ascii String List.
From Verif Require Import Base.
Import ListNotations.
Open Scope N_scope.

(** rust/zemu/src/ui.rs: [ViewError]; and the result of a display function. *)
Inductive view_error := Unknown | NoData | Rejected.
Inductive vres (A : Type) := VOk (a : A) | VErr (e : view_error) | VPanic.
Arguments VOk {A} a.
Arguments VErr {A} e.
Arguments VPanic {A}.
Definition vbind {A B} (r : vres A) (f : A -> vres B) : vres B :=
  match r with VOk a => f a | VErr e => VErr e | VPanic => VPanic end.

(** Bytes of a string literal; [lit] is [pic_str!(b"..")], which adds a NUL
    (rust/bolos-derive/src/pic_str.rs l.33-55). *)
Definition str (s : string) : bytes := map N_of_ascii (list_ascii_of_string s).
Definition lit (s : string) : bytes := str s ++ [0].

(** ** Strings in buffers *)

(** What a NUL-terminated buffer shows; [strlen] of handlers/utils.rs l.230-232 and
    rust/zemu/src/ui_toolkit.rs l.399-409 is its length. *)
Fixpoint cstr (l : bytes) : bytes :=
  match l with
  | [] => []
  | c :: t => if c =? 0 then [] else c :: cstr t
  end.
Definition strlen (l : bytes) : nat := length (cstr l).

(** [out[..c.len()].copy_from_slice(c)], in bounds. *)
Definition overwrite (c out : bytes) : bytes := c ++ skipn (length c) out.

(** ** Paging: handlers/utils.rs l.199-219 *)

(** [item.chunks(m).nth(p)] for [m > 0]. *)
Definition nth_chunk (m : nat) (p : N) (item : bytes) : option bytes :=
  if p * N.of_nat m <? len item then Some (slice (N.to_nat p * m) m item) else None.

(** [handle_ui_message]: the new contents of [out] and the announced number of pages.
    A buffer of no or one byte panics ([out.len() - 1] wraps around and the copy is out
    of bounds; [chunks(0)]). *)
Definition ui_message (item out : bytes) (page : N) : vres (bytes * N) :=
  match length out with
  | O | S O => VPanic
  | S m =>
    if (m <=? length item)%nat then
      match nth_chunk m page item with
      | None => VErr Unknown
      | Some c => VOk (overwrite (c ++ [0]) out, (1 + len item / N.of_nat m mod 256) mod 256)
      end
    else VOk (overwrite (item ++ [0]) out, 1)
  end.

(** ** Numbers: [lexical_core::write], version 0.7 *)

(** Decimal digits without leading zeros. *)
Fixpoint digits (fuel : nat) (n : N) (acc : bytes) : bytes :=
  match fuel with
  | O => acc
  | S fuel' =>
    let acc' := 48 + n mod 10 :: acc in
    if n <? 10 then acc' else digits fuel' (n / 10) acc'
  end.
Definition itoa (n : N) : bytes := digits (S (N.size_nat n)) n [].
(** Signed integers get a minus sign. *)
Definition itoa_z (z : Z) : bytes :=
  if (z <? 0)%Z then 45 :: itoa (Z.to_N (- z)) else itoa (Z.to_N z).

(** [hex::encode_to_slice]: two lower-case digits for each byte. *)
Definition hex_digit (d : N) : N := if d <? 10 then 48 + d else 87 + d.
Definition hex (l : bytes) : bytes :=
  concat (map (fun b => [hex_digit (b / 16); hex_digit (b mod 16)]) l).

(** ** Fixed-point numbers: handlers/utils.rs l.234-335 *)

Inductive fp_res := FOk (t : bytes) | FErr | FPanic.

(** [s.copy_within(a..a+n, dst)]; [None] is a panic. *)
Definition copy_within (a n dst : nat) (s : bytes) : option bytes :=
  if (a + n <=? length s)%nat && (dst + n <=? length s)%nat
  then Some (firstn dst s ++ slice a n s ++ skipn (dst + n) s)
  else None.
(** [s[a..b].fill(x)]. *)
Definition fill (a b : nat) (x : N) (s : bytes) : option bytes :=
  if (a <=? b)%nat && (b <=? length s)%nat
  then Some (firstn a s ++ repeat x (b - a) ++ skipn b s)
  else None.

(** l.268-278: looks for the first digit other than 0. [None] is an error: something
    before it is not a digit. *)
Fixpoint first_digit (l : bytes) : option (option nat) :=
  match l with
  | [] => Some None
  | c :: t =>
    if (48 <=? c) && (c <=? 57) then
      if c =? 48 then
        match first_digit t with
        | None => None
        | Some None => Some None
        | Some (Some i) => Some (Some (S i))
        end
      else Some (Some O)
    else None
  end.

Definition fp_bind (o : option bytes) (f : bytes -> fp_res) : fp_res :=
  match o with Some s => f s | None => FPanic end.

(** l.322-334: inserts the point; [n] is [num_chars]. When the subtraction of l.323
    wraps around, the range of the copy is reversed, which panics. *)
Definition fp_point (s : bytes) (n decimals : nat) : fp_res :=
  if (n <? decimals)%nat then FPanic
  else
    let p := (n - decimals)%nat in
    fp_bind (copy_within p decimals (p + 1) s) (fun s =>
    let s := upd p 46 s in
    FOk (cstr s)).
(** l.304-320: pads with zeros on the left first. *)
Definition fp_insert (s : bytes) (n decimals : nat) : fp_res :=
  if (n <? decimals + 1)%nat then
    let padding := (decimals - n + 1)%nat in
    fp_bind (copy_within 0 n padding s) (fun s =>
    fp_bind (fill 0 padding 48 s) (fun s => fp_point s (strlen s) decimals))
  else fp_point s n decimals.

(** [intstr_to_fpstr_inplace]. *)
Definition fpstr (s : bytes) (decimals : nat) : fp_res :=
  let n := strlen s in
  if (n =? length s)%nat then FErr
  else
    let '(s, n) := if (n =? 0)%nat then (upd 0 48 s, 1%nat) else (s, n) in
    match first_digit (firstn n s) with
    | None => FErr
    | Some f =>
      let moved :=
        match f with
        | Some i =>
          match copy_within i (length s - i) 0 s with
          | Some s => option_map (fun s => (s, (n - i)%nat)) (fill (n - i) (length s) 0 s)
          | None => None
          end
        | None => option_map (fun s => (s, n)) (fill 1 (length s) 0 s)
        end in
      match moved with
      | None => FPanic
      | Some (s, n) =>
        if (decimals =? 0)%nat then FOk (cstr s) else fp_insert s n decimals
      end
    end.
