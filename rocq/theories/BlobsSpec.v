(** What the messages of the emulator tests are: the vocabulary of C94. *)
From Coq Require Import NArith ZArith Bool List.
From Verif Require Import Base Codecs BakingSpec Oracles Device IdealSpec Blobs.
Import ListNotations.
Open Scope N_scope.

(** A number of 32 bits. *)
Definition word (z : Z) : Prop := (0 <= z < 2 ^ 32)%Z.

(** Arguments in their ranges: with a round, if the message has one. *)
Definition fits (c : blob_call) : Prop :=
  match c with
  | CallEndo chain branch level type round =>
    word chain /\ length branch = 32%nat /\ bytes_ok branch /\ word level /\
    match type, round with TEmmy, _ => True | _, Some r => word r | _, None => False end
  | CallBlock chain level round => word chain /\ word level /\ match round with Some r => word r | None => True end
  end.

(** The position a call states: a block with a round is a block of Tenderbake. *)
Definition stated (c : blob_call) : cpos :=
  match c with
  | CallEndo _ _ level TEmmy _ => PEmmy (Z.to_N level) true
  | CallEndo _ _ level TEndorsement round => PTB (Z.to_N level) (Z.to_N (match round with Some r => r | None => 0 end)) KEnd
  | CallEndo _ _ level TPreendorsement round => PTB (Z.to_N level) (Z.to_N (match round with Some r => r | None => 0 end)) KPre
  | CallBlock _ level None => PEmmy (Z.to_N level) false
  | CallBlock _ level (Some r) => PTB (Z.to_N level) (Z.to_N r) KBlock
  end.

(** A block of round 0. *)
Definition round_zero (c : blob_call) : Prop := match c with CallBlock _ _ (Some 0%Z) => True | _ => False end.

(** The position of the message a call makes. *)
Definition built (c : blob_call) : cpos :=
  match c with
  | CallBlock _ level (Some 0%Z) => PEmmy (Z.to_N level) false
  | _ => stated c
  end.

(** Which of these messages a baker signs, one after the other, if the last one was at [w];
    and where. *)
Definition accepts (w p : cpos) : bool := (cpos_level p <? 2 ^ 31) && later p w.
Fixpoint verdicts (w : cpos) (ps : list cpos) : list bool :=
  match ps with
  | [] => []
  | p :: ps' => accepts w p :: verdicts (if accepts w p then p else w) ps'
  end.
Fixpoint accepted (w : cpos) (ps : list cpos) : list cpos :=
  match ps with
  | [] => []
  | p :: ps' => if accepts w p then p :: accepted p ps' else accepted w ps'
  end.

(** A key whose signatures the device can make. *)
Definition signs_all (O : oracles) (k : key) : Prop :=
  forall l, bytes_ok l -> exists dg s, o_blake2b O 32 l = Some dg /\ o_sign O (fst k) (snd k) dg = Some s.

(** A signature of the key [k] on a message at the position [p], made without a review. *)
Definition signed_at (k : key) (p : cpos) (g : sigrec) : Prop :=
  sg_src g = SrcConsensus /\ sg_key g = k /\ signed_pos (sg_data g) = Some p.

(** The verdicts of an app that follows another rule than [accepts]. *)
Fixpoint verdicts_by (rule : cpos -> cpos -> bool) (w : cpos) (ps : list cpos) : list bool :=
  match ps with
  | [] => []
  | p :: ps' => rule w p :: verdicts_by rule (if rule w p then p else w) ps'
  end.
(** A rule that is right about messages of one round, and about a message without a round
    on either side, and says anything about two different rounds. *)
Definition ignores_rounds (rule : cpos -> cpos -> bool) : Prop :=
  forall w p, match w, p with PTB _ r _, PTB _ r' _ => r = r' | _, _ => True end -> rule w p = accepts w p.
