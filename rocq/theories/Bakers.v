(** The table of known bakers and the search in it: rust/app-derive/src/unroll.rs. *)
From Coq Require Import NArith Bool Arith List.
From Verif Require Import Base Address.
Import ListNotations.
Open Scope N_scope.

(** unroll.rs l.40-44: [ReducedBaker]. *)
Record baker := mkBaker { bk_prefix : bytes; bk_hash : bytes; bk_name : bytes }.

(** [<[u8] as Ord>::cmp]. *)
Fixpoint bytes_cmp (a b : bytes) : comparison :=
  match a, b with
  | [], [] => Eq
  | [], _ :: _ => Lt
  | _ :: _, [] => Gt
  | x :: a', y :: b' => match x ?= y with Eq => bytes_cmp a' b' | c => c end
  end.
(** unroll.rs l.46-55 ([ReducedBaker::cmp]), and l.149-158 against the key looked for. *)
Definition key_cmp (a b : bytes * bytes) : comparison :=
  match bytes_cmp (fst a) (fst b) with Eq => bytes_cmp (snd a) (snd b) | c => c end.
Definition bk_key (b : baker) : bytes * bytes := (bk_prefix b, bk_hash b).

(** ** Lookup *)

(** [core::slice::binary_search_by]: the index of some element equal to the target.
    [fuel] bounds the iterations, each of which shrinks the interval. *)
Fixpoint bsearch (fuel : nat) (key : bytes * bytes) (t : list baker) (left right : nat) : option nat :=
  match fuel with
  | O => None
  | S fuel' =>
    if (left <? right)%nat then
      let mid := (left + (right - left) / 2)%nat in
      match nth_error t mid with
      | None => None
      | Some b =>
        match key_cmp (bk_key b) key with
        | Lt => bsearch fuel' key t (mid + 1) right
        | Gt => bsearch fuel' key t left mid
        | Eq => Some mid
        end
      end
    else None
  end.

(** unroll.rs l.131-165: [baker_lookup]. *)
Definition baker_lookup (t : list baker) (prefix hash : bytes) : option bytes :=
  match bsearch (S (length t)) (prefix, hash) t 0 (length t) with
  | None => None
  | Some i => option_map bk_name (nth_error t i)
  end.

(** ** Building the table *)

(** [bs58::decode(text).into_vec()], version 0.4.0: the mirror image of
    [Address.b58_encode]. *)
Fixpoint index_in (c : N) (l : bytes) (i : N) : option N :=
  match l with
  | [] => None
  | x :: l' => if x =? c then Some i else index_in c l' (i + 1)
  end.
Fixpoint d58_carry (ds : list N) (carry : N) : list N * N :=
  match ds with
  | [] => ([], carry)
  | d :: ds' =>
    let c := carry + d * 58 in
    let (r, c') := d58_carry ds' (c / 256) in
    (c mod 256 :: r, c')
  end.
Definition d58_char (ds : option (list N)) (c : N) : option (list N) :=
  match ds, index_in c b58_alphabet 0 with
  | Some ds, Some v => let (r, c') := d58_carry ds v in Some (r ++ if c' =? 0 then [] else [c'])
  | _, _ => None
  end.
Fixpoint leading_ones (l : bytes) : nat :=
  match l with
  | 49 :: l' => S (leading_ones l')
  | _ => O
  end.
Definition b58_decode (t : bytes) : option bytes :=
  match fold_left d58_char t (Some []) with
  | None => None
  | Some ds => Some (rev (ds ++ repeat 0 (leading_ones t)))
  end.

(** unroll.rs l.63-76: an entry of the registry, address text and name. [None] is an
    error or panic at build time. *)
Definition reduce (e : bytes * bytes) : option baker :=
  match b58_decode (fst e) with
  | None => None
  | Some a =>
    if (length a <? 27)%nat then None else Some (mkBaker (slice 0 3 a) (slice 3 20 a) (snd e))
  end.
Fixpoint reduce_all (l : list (bytes * bytes)) : option (list baker) :=
  match l with
  | [] => Some []
  | e :: l' =>
    match reduce e, reduce_all l' with
    | Some b, Some t => Some (b :: t)
    | _, _ => None
    end
  end.

(** [Vec::dedup]: drops elements equal to the one before. *)
Definition baker_eqb (a b : baker) : bool :=
  bytes_eqb (bk_prefix a) (bk_prefix b) && bytes_eqb (bk_hash a) (bk_hash b)
  && bytes_eqb (bk_name a) (bk_name b).
Fixpoint dedup (l : list baker) : list baker :=
  match l with
  | a :: l' =>
    match dedup l' with
    | b :: t => if baker_eqb a b then b :: t else a :: b :: t
    | [] => [a]
    end
  | [] => []
  end.

(** [Vec::sort]: stable, so any stable sort gives the same result. *)
Fixpoint insert (a : baker) (l : list baker) : list baker :=
  match l with
  | [] => [a]
  | b :: l' => match key_cmp (bk_key a) (bk_key b) with Gt => b :: insert a l' | _ => a :: l end
  end.
Definition sort (l : list baker) : list baker := fold_right insert [] l.

(** unroll.rs l.178-225: [retrieve_data]. *)
Definition build_table (registry : list (bytes * bytes)) : option (list baker) :=
  option_map (fun l => sort (dedup l)) (reduce_all registry).
