(** The messages of the emulator tests of the baking app, and the tests that sign them. *)
From Coq Require Import NArith ZArith Bool Arith List.
From Verif Require Import Base Codecs Client.
Import ListNotations.
Open Scope N_scope.

(** ** zemu/tests/baking_utils.ts *)

(** A [Buffer] of 100 bytes and an offset into it: the bytes in front of the offset, which
    are all that [subarray(0, offset)] returns. [None] is an exception. *)
Definition BLOB_SIZE : nat := 100.
(** [offset = result.writeUInt8/16/32BE(v, offset)] and [writeBigUint64BE], with [n] bytes:
    out of range, in value or in place, is an exception. Numbers are integers. *)
Definition put (n : nat) (v : Z) (w : bytes) : option bytes :=
  if (0 <=? v)%Z && (v <? 256 ^ Z.of_nat n)%Z && (length w + n <=? BLOB_SIZE)%nat
  then Some (w ++ be n (Z.to_N v)) else None.
(** [offset = offset + b.copy(result, offset)]: as much as there is room for. *)
Definition copy (b : bytes) (w : bytes) : bytes := w ++ firstn (BLOB_SIZE - length w) b.
Notation "'let?' w := o 'in' f" := (match o with Some w => f | None => None end) (at level 200, w name).

(** baking_utils.ts l.1-29: [get_endorsement_info]. A round that is not given is an
    exception in [writeUInt32BE]. *)
Inductive endo_type := TEmmy | TEndorsement | TPreendorsement.
Definition get_endorsement_info (chain_id : Z) (branch : bytes) (level : Z) (type : endo_type) (round : option Z)
    : option bytes :=
  let? w := put 4 chain_id [] in
  let w := copy branch w in
  match type with
  | TEmmy =>
    let? w := put 1 0 w in
    put 4 level w
  | TPreendorsement | TEndorsement =>
    let? w := put 1 (match type with TPreendorsement => 20 | _ => 21 end)%Z w in
    let? w := put 2 0 w in
    let? w := put 4 level w in
    let? round := round in
    let? w := put 4 round w in
    Some (copy (repeat 0 32) w)
  end.

(** baking_utils.ts l.44-57: the fitness. [if (round)] is false for 0 as well as for
    [undefined]. *)
Definition blob_fitness (round : option Z) : option bytes :=
  match round with
  | None | Some 0%Z => Some (repeat 1 5)
  | Some r => match write_u32 r with Some b => Some (repeat 2 5 ++ b) | None => None end
  end.
(** baking_utils.ts l.31-62: [get_blocklevel_info]. *)
Definition get_blocklevel_info (chain_id level : Z) (round : option Z) : option bytes :=
  let? w := put 4 chain_id [] in
  let? w := put 4 level w in
  let? w := put 1 42 w in
  let w := copy (repeat 0 32) w in
  let? w := put 8 0 w in
  let? w := put 1 0 w in
  let w := copy (repeat 0 32) w in
  let? fitness := blob_fitness round in
  let? w := put 4 (Z.of_nat (length fitness)) w in
  Some (copy fitness w).

(** ** zemu/tests/baking.test.ts *)

(** A call of one of the two, and the type of message under which it is signed. *)
Inductive blob_call :=
| CallEndo (chain_id : Z) (branch : bytes) (level : Z) (type : endo_type) (round : option Z)
| CallBlock (chain_id level : Z) (round : option Z).
Definition blob (c : blob_call) : option bytes :=
  match c with
  | CallEndo chain_id branch level type round => get_endorsement_info chain_id branch level type round
  | CallBlock chain_id level round => get_blocklevel_info chain_id level round
  end.
Definition blob_kind (c : blob_call) : baker_kind :=
  match c with CallEndo _ _ _ _ _ => BkEndorsement | CallBlock _ _ _ => BkBlock end.

(** baking.test.ts l.403-408 and the like: a message is made and signed, and its return
    code is expected to be 0x9000, or not to be. The result is whether the test goes on. *)
Fixpoint test_steps {W} (H : host) (X : transport W) (path : bytes) (c : curve) (l : list (blob_call * bool)) (w : W)
    : bool * W :=
  match l with
  | [] => (true, w)
  | (call, expected) :: l' =>
    match blob call with
    | None => (false, w)
    | Some m =>
      match sign_baker H X path c m (blob_kind call) w with
      | (JData code _, w') => if Bool.eqb (code =? NO_ERRORS) expected then test_steps H X path c l' w' else (false, w')
      | (_, w') => (false, w')
      end
    end
  end.

(** baking.test.ts l.382-614: the tests of endorsements and blocks. The reset is not
    checked; the authorisation is. *)
Definition baking_test {W} (H : host) (X : transport W) (path : bytes) (c : curve) (l : list (blob_call * bool)) (w : W)
    : bool * W :=
  let (_, w1) := legacy_reset X 0 w in
  match authorize_baking H X path c w1 with
  | (JData code _, w2) => if code =? NO_ERRORS then test_steps H X path c l w2 else (false, w2)
  | (_, w2) => (false, w2)
  end.

(** baking.test.ts l.383-413, l.415-446, l.448-489 and l.493-523, l.525-556, l.558-613: what
    the six tests sign, and whether it is to succeed. *)
Definition NO_BRANCH : bytes := repeat 0 32.
Definition EMMY_TESTS : list (list (blob_call * bool)) :=
  [[(CallEndo 0 NO_BRANCH 2 TEmmy None, true)];
   [(CallBlock 0 123456 None, true)];
   [(CallBlock 0 5 None, true); (CallBlock 0 5 None, false); (CallEndo 0 NO_BRANCH 5 TEmmy None, true)]].
Definition TENDERBAKE_TESTS : list (list (blob_call * bool)) :=
  [[(CallEndo 0 NO_BRANCH 2 TEndorsement (Some 0), true)];
   [(CallBlock 0 123456 (Some 0), true)];
   [(CallBlock 0 5 (Some 0), true); (CallBlock 0 5 (Some 0), false); (CallBlock 0 5 (Some 1), true);
    (CallEndo 0 NO_BRANCH 5 TPreendorsement (Some 1), true); (CallEndo 0 NO_BRANCH 5 TEndorsement (Some 1), true)]]%Z.
