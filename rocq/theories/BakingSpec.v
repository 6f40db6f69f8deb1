(** Consensus messages as the protocol defines them: where a signed message
    stands in the consensus order, and how messages are encoded. Nothing here
    uses the parsers of the model. *)
From Coq Require Import List NArith Bool Arith.
From Verif Require Import Base Codecs.
Import ListNotations.
Open Scope N_scope.

(** ** Position of a message in the consensus order *)

Inductive ckind := KBlock | KPre | KEnd.
Definition kind_rank (k : ckind) : N := match k with KBlock => 0 | KPre => 1 | KEnd => 2 end.

(** Emmy: a level, block before endorsement. Tenderbake: level, round, kind. *)
Inductive cpos := PEmmy (level : N) (endo : bool) | PTB (level round : N) (kind : ckind).

Definition cpos_level (p : cpos) : N := match p with PEmmy l _ => l | PTB l _ _ => l end.

(** Strict order: all Emmy messages come before all Tenderbake messages; inside
    an era the order is lexicographic. *)
Definition cpos_lt (a b : cpos) : Prop :=
  match a, b with
  | PEmmy l e, PEmmy l' e' => l < l' \/ (l = l' /\ e = false /\ e' = true)
  | PEmmy _ _, PTB _ _ _ => True
  | PTB _ _ _, PEmmy _ _ => False
  | PTB l r k, PTB l' r' k' =>
    l < l' \/ (l = l' /\ r < r') \/ (l = l' /\ r = r' /\ kind_rank k < kind_rank k')
  end.
Definition cpos_le (a b : cpos) : Prop := a = b \/ cpos_lt a b.

(** ** Reading the position off the signed bytes by offsets *)

Definition field (i n : nat) (d : bytes) : N := unbe (firstn n (skipn i d)).

(** Layout of a signed block: magic 1, chain id 4, level 4, proto 1,
    predecessor 32, timestamp 8, validation pass 1, operations hash 32,
    fitness size 4, fitness. Layout of a signed endorsement: magic 1, chain id
    4, branch 32, tag 1, then level 4 (Emmy) or slot 2, level 4, round 4
    (Tenderbake). The round of a Tenderbake block is the end of its fitness. *)
Definition signed_pos (d : bytes) : option cpos :=
  match d with
  | [] => None
  | m :: _ =>
    if m =? 0x01 then Some (PEmmy (field 5 4 d) false)
    else if m =? 0x02 then Some (PEmmy (field 38 4 d) true)
    else if m =? 0x11 then
      Some (PTB (field 5 4 d) (field (87 + N.to_nat (field 83 4 d) - 4) 4 d) KBlock)
    else if m =? 0x12 then Some (PTB (field 40 4 d) (field 44 4 d) KPre)
    else if m =? 0x13 then Some (PTB (field 40 4 d) (field 44 4 d) KEnd)
    else None
  end.

(** The position a stored watermark stands for: the last message it admits. *)
Definition wm_pos (w : watermark) : cpos :=
  match w with
  | WEmmy l he => PEmmy l he
  | WTenderbake l he r hp => PTB l r (if he then KEnd else if hp then KPre else KBlock)
  end.

(** ** Protocol encodings *)

(** A fitness is a list of byte strings, each preceded by its length. *)
Definition enc_fitness (fs : list bytes) : bytes :=
  concat (map (fun f => be 4 (len f) ++ f) fs).

(** A block header as signed: shell header followed by the protocol data. *)
Record header := mkHeader {
  h_chain : N; h_level : N; h_proto : N; h_pred : bytes; h_time : N;
  h_vpass : N; h_ophash : bytes; h_fitness : list bytes; h_rest : bytes
}.
Definition enc_header (h : header) : bytes :=
  be 4 (h_chain h) ++ be 4 (h_level h) ++ be 1 (h_proto h) ++ h_pred h ++ be 8 (h_time h)
  ++ be 1 (h_vpass h) ++ h_ophash h ++ be 4 (len (enc_fitness (h_fitness h)))
  ++ enc_fitness (h_fitness h) ++ h_rest h.

(** Field ranges of a header. *)
Definition header_ok (h : header) : Prop :=
  h_chain h < 2 ^ 32 /\ h_level h < 2 ^ 32 /\ h_proto h < 2 ^ 8 /\ length (h_pred h) = 32%nat /\
  h_time h < 2 ^ 64 /\ h_vpass h < 2 ^ 8 /\ length (h_ophash h) = 32%nat /\
  len (enc_fitness (h_fitness h)) < 2 ^ 32.

(** Fitness of the Emmy era: version 0 or 1 and the rest. *)
Definition emmy_fit (v : N) (more : list bytes) : list bytes := [v] :: more.

(** Fitness of the Tenderbake era: version 2, level, locked round (if any),
    predecessor round (complemented), round. *)
Definition tb_fit (level : N) (locked : option N) (pred_round round : N) : list bytes :=
  [[2]; be 4 level; match locked with None => [] | Some r => be 4 r end;
   be 4 (2 ^ 32 - 1 - pred_round); be 4 round].

(** Signed endorsements without the magic byte. *)
Definition enc_emmy_endo (chain : N) (branch : bytes) (level : N) (rest : bytes) : bytes :=
  be 4 chain ++ branch ++ [0] ++ be 4 level ++ rest.
Definition enc_tb_endo (chain : N) (branch : bytes) (is_pre : bool) (slot level round : N)
    (payload rest : bytes) : bytes :=
  be 4 chain ++ branch ++ [if is_pre then 20 else 21] ++ be 2 slot ++ be 4 level ++ be 4 round
  ++ payload ++ rest.

(** The byte inside a signed message that tells its kind (the version of the
    fitness, or the tag of the endorsement) agrees with the magic byte. *)
Definition kind_agrees (d : bytes) : Prop :=
  match nth_error d 0 with
  | Some 0x01 => nth_error d 91 = Some 0 \/ nth_error d 91 = Some 1
  | Some 0x02 => nth_error d 37 = Some 0
  | Some 0x11 => nth_error d 91 = Some 2
  | Some 0x12 => nth_error d 37 = Some 20
  | Some 0x13 => nth_error d 37 = Some 21
  | _ => False
  end.
