(** What texts on a screen mean, independently of how they are made. *)
From Coq Require Import NArith ZArith Bool Arith List.
From Verif Require Import Base Text.
Import ListNotations.
Open Scope N_scope.

(** ** Numbers *)

Definition is_digit (c : N) : Prop := 48 <= c <= 57.
Definition all_digits (l : bytes) : Prop := Forall is_digit l.
(** The number a digit string denotes. *)
Definition dec (l : bytes) : N := fold_left (fun a c => a * 10 + (c - 48)) l 0.
(** A number is written without superfluous zeros. *)
Definition plain (l : bytes) : Prop := l = [48] \/ (l <> [] /\ nth 0 l 0 <> 48).
Definition shows_number (n : N) (t : bytes) : Prop := all_digits t /\ plain t /\ dec t = n.
Definition shows_integer (z : Z) (t : bytes) : Prop :=
  if (z <? 0)%Z then exists t', t = 45 :: t' /\ shows_number (Z.to_N (- z)) t'
  else shows_number (Z.to_N z) t.

(** [t] is the number [v / 10^d] with [d] digits after the point. *)
Definition shows_decimal (d : nat) (v : N) (t : bytes) : Prop :=
  exists ip fp,
    t = ip ++ match d with O => [] | S _ => 46 :: fp end
    /\ all_digits ip /\ all_digits fp /\ length fp = d /\ plain ip
    /\ dec ip * 10 ^ N.of_nat d + dec fp = v.

(** Digit strings [lexical_core] can produce, and the empty one: "0", or not only
    zeros. *)
Definition proper (l : bytes) : Prop := l = [] \/ l = [48] \/ Exists (fun c => c <> 48) l.
(** Digits without leading zeros. *)
Fixpoint strip (l : bytes) : bytes :=
  match l with
  | c :: t => if c =? 48 then strip t else l
  | [] => []
  end.

(** Hexadecimal text: two lower-case digits for each byte. *)
Definition hex_value (c : N) : option N :=
  if (48 <=? c) && (c <=? 57) then Some (c - 48)
  else if (97 <=? c) && (c <=? 102) then Some (c - 87)
  else None.
Fixpoint reads_hex (t : bytes) : option bytes :=
  match t with
  | [] => Some []
  | h :: l :: t' =>
    match hex_value h, hex_value l, reads_hex t' with
    | Some a, Some b, Some r => Some (a * 16 + b :: r)
    | _, _, _ => None
    end
  | [_] => None
  end.

(** ** Pages *)

(** Number of screens of [m] characters needed for a text; even nothing takes one. *)
Definition pages (m : N) (item : bytes) : N := N.max 1 ((len item + m - 1) / m).
(** The characters [p*m], ..., of the text. *)
Definition page (m p : N) (item : bytes) : bytes :=
  firstn (N.to_nat m) (skipn (N.to_nat (p * m)) item).
