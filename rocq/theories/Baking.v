(** Consensus messages: preambles, blocks, endorsements and the watermark check. *)
From Coq Require Import List NArith Bool Arith.
From Verif Require Import Base Codecs.
Import ListNotations.
Open Scope N_scope.

(** ** Preambles: rust/app/src/parser.rs *)

(** parser.rs l.228-252: [Preemble]. *)
Inductive preemble :=
| PreBlock | PreEndorsement | PreOperation | PreTBD | PreMichelson
| PreTBBlock | PreTBPreendorsement | PreTBEndorsement.

(** parser.rs l.255-268: [Preemble::from_bytes]. *)
Definition preemble_of_byte (b : N) : option preemble :=
  if b =? 0x01 then Some PreBlock
  else if b =? 0x02 then Some PreEndorsement
  else if b =? 0x03 then Some PreOperation
  else if b =? 0x04 then Some PreTBD
  else if b =? 0x05 then Some PreMichelson
  else if b =? 0x11 then Some PreTBBlock
  else if b =? 0x12 then Some PreTBPreendorsement
  else if b =? 0x13 then Some PreTBEndorsement
  else None.
Definition preemble_parse (l : bytes) : presult preemble :=
  let* (rem, b) := le_u8 l in
  match preemble_of_byte b with Some p => POk rem p | None => PErr end.

(** ** Block fitness: rust/app/src/parser/baking.rs, baking/{emmy,tenderbake}.rs *)

(** baking.rs l.165-170, emmy.rs l.67-72, tenderbake.rs l.119-124. *)
Inductive fitness :=
| FEmmy (proto : N) (rest : bytes)
| FTenderbake (rest : bytes) (round : N).

(** emmy.rs l.79-95: [EmmyFitness::from_bytes]. *)
Definition emmy_fitness_parse (l : bytes) : presult (N * bytes) :=
  let* (rem, _) := take 4 l in
  match tag1 0 rem with
  | POk rem' p => POk rem' (p, rem')
  | PPanic => PPanic
  | PErr =>
    match tag1 1 rem with
    | POk rem' p => POk rem' (p, rem')
    | PErr => PErr
    | PPanic => PPanic
    end
  end.

(** tenderbake.rs l.130-145: [TenderbakeFitness::from_bytes]. The range
    [rem.len() - 4..] panics when fewer than four bytes remain. *)
Definition tb_fitness_parse (l : bytes) : presult (bytes * N) :=
  let* (rem, _) := take 4 l in
  let* (rem1, _) := tag1 2 rem in
  if (length rem1 <? 4)%nat then PPanic
  else
    let* (_, round) := be_u32 (skipn (length rem1 - 4) rem1) in
    POk rem1 (rem1, round).

(** baking.rs l.181-191: [Fitness::from_bytes]; both parsers always run. *)
Definition fitness_parse (l : bytes) : presult fitness :=
  match emmy_fitness_parse l, tb_fitness_parse l with
  | PPanic, _ => PPanic
  | _, PPanic => PPanic
  | POk rem (p, f), PErr => POk rem (FEmmy p f)
  | PErr, POk rem (f, r) => POk rem (FTenderbake f r)
  | PErr, PErr => PErr
  | POk _ _, POk _ _ => PPanic
  end.

(** ** Blocks *)

(** baking.rs l.41-50: [BlockData]. *)
Record block_data := mkBlock {
  bd_chain : N; bd_level : N; bd_proto : N; bd_pred : bytes; bd_time : N;
  bd_vpass : N; bd_ophash : bytes; bd_fitness : fitness
}.

(** baking.rs l.54-84: [BlockData::from_bytes]. *)
Definition block_parse (l : bytes) : presult block_data :=
  let* (rem, chain) := be_u32 l in
  let* (rem, level) := be_u32 rem in
  let* (rem, proto) := le_u8 rem in
  let* (rem, pred) := take 32 rem in
  let* (rem, time) := be_u64 rem in
  let* (rem, vpass) := le_u8 rem in
  let* (rem, ophash) := take 32 rem in
  let* (rem, fsize) := be_u32 rem in
  let* (_, f) := take fsize rem in
  let* (rem, fit) := fitness_parse f in
  POk rem (mkBlock chain level proto pred time vpass ophash fit).

(** baking.rs l.87-104: [BlockData::validate_with_watermark]. *)
Definition block_validate (b : block_data) (hw : watermark) : bool :=
  is_valid_blocklevel (bd_level b) &&
  match hw, bd_fitness b with
  | WEmmy level _, FEmmy _ _ => level <? bd_level b
  | WTenderbake _ _ _ _, FEmmy _ _ => false
  | WEmmy _ _, FTenderbake _ _ => true
  | WTenderbake level _ round _, FTenderbake _ r =>
    (level <? bd_level b) || ((bd_level b =? level) && (round <? r))
  end.

(** baking.rs l.106-119: [BlockData::derive_watermark]. *)
Definition block_watermark (b : block_data) : watermark :=
  match bd_fitness b with
  | FEmmy _ _ => WEmmy (bd_level b) false
  | FTenderbake _ r => WTenderbake (bd_level b) false r false
  end.

(** ** Endorsements *)

(** tenderbake.rs l.26-42: [EndorsementType] and [from_tag]. *)
Inductive endo_type := EPre | EEnd.
Definition endo_type_of_tag (t : N) : option endo_type :=
  if t =? 20 then Some EPre else if t =? 21 then Some EEnd else None.
Definition endo_type_eqb (a b : endo_type) : bool :=
  match a, b with EPre, EPre | EEnd, EEnd => true | _, _ => false end.

(** emmy.rs l.26-30 and tenderbake.rs l.44-53, joined as in baking.rs l.194-197. *)
Inductive endorsement :=
| EmmyE (chain : N) (branch : bytes) (level : N)
| TBE (chain : N) (branch : bytes) (ty : endo_type) (slot level round : N) (payload : bytes).

(** emmy.rs l.36-51: [EmmyEndorsement::from_bytes]. *)
Definition emmy_endo_parse (l : bytes) : presult endorsement :=
  let* (rem, chain) := be_u32 l in
  let* (rem, branch) := take 32 rem in
  let* (rem, _) := tag1 0 rem in
  let* (rem, level) := be_u32 rem in
  POk rem (EmmyE chain branch level).

(** tenderbake.rs l.57-83: [TenderbakeEndorsement::from_bytes]. *)
Definition tb_endo_parse (l : bytes) : presult endorsement :=
  let* (rem, chain) := be_u32 l in
  let* (rem, branch) := take 32 rem in
  let* (rem, tag) := le_u8 rem in
  match endo_type_of_tag tag with
  | None => PErr
  | Some ty =>
    let* (rem, slot) := be_u16 rem in
    let* (rem, level) := be_u32 rem in
    let* (rem, round) := be_u32 rem in
    let* (rem, payload) := take 32 rem in
    POk rem (TBE chain branch ty slot level round payload)
  end.

(** baking.rs l.243-251: [EndorsementData::from_bytes]. *)
Definition endo_parse (l : bytes) : presult endorsement :=
  match emmy_endo_parse l with
  | POk rem e => POk rem e
  | PPanic => PPanic
  | PErr => tb_endo_parse l
  end.

(** baking.rs l.253-258, emmy.rs l.54-64, tenderbake.rs l.86-116:
    [validate_with_watermark]. *)
Definition endo_validate (e : endorsement) (hw : watermark) : bool :=
  match e with
  | EmmyE _ _ l =>
    is_valid_blocklevel l &&
    match hw with
    | WEmmy level he => (level <? l) || ((level =? l) && negb he)
    | WTenderbake _ _ _ _ => false
    end
  | TBE _ _ ty _ l r _ =>
    is_valid_blocklevel l &&
    match hw with
    | WEmmy _ _ => true
    | WTenderbake level he round hp =>
      (level <? l)
      || ((l =? level) && (round <? r))
      || ((l =? level) && (r =? round) && endo_type_eqb ty EEnd && negb he)
      || ((l =? level) && (r =? round) && endo_type_eqb ty EPre && negb he && negb hp)
    end
  end.

(** baking.rs l.260-289: [EndorsementData::derive_watermark]. *)
Definition endo_watermark (e : endorsement) : watermark :=
  match e with
  | EmmyE _ _ l => WEmmy l true
  | TBE _ _ EEnd _ l r _ => WTenderbake l true r true
  | TBE _ _ EPre _ l r _ => WTenderbake l false r true
  end.

(** ** Matching preamble and message: rust/app/src/handlers/baking.rs *)

(** handlers/baking.rs l.205-226: the accepted (preamble, endorsement) pairs. *)
Definition endo_matches (p : preemble) (e : endorsement) : bool :=
  match p, e with
  | PreTBEndorsement, TBE _ _ EEnd _ _ _ _ => true
  | PreTBPreendorsement, TBE _ _ EPre _ _ _ _ => true
  | PreEndorsement, EmmyE _ _ _ => true
  | _, _ => false
  end.

(** handlers/baking.rs l.260-268: the accepted (preamble, fitness) pairs. *)
Definition block_matches (p : preemble) (b : block_data) : bool :=
  match p, bd_fitness b with
  | PreBlock, FEmmy _ _ => true
  | PreTBBlock, FTenderbake _ _ => true
  | _, _ => false
  end.

(** handlers/baking.rs l.199-228 and l.255-270 without the flash accesses: the
    watermark to store for a message with this preamble under the stored
    watermark [hw], or the error answered. [None] is a panic. *)
Definition consensus_check (p : preemble) (input : bytes) (hw : watermark)
  : option (ares watermark) :=
  match p with
  | PreTBPreendorsement | PreTBEndorsement | PreEndorsement =>
    match endo_parse input with
    | PPanic => None
    | PErr => Some (AErr DataInvalid)
    | POk _ e =>
      if endo_matches p e && endo_validate e hw then Some (AOk (endo_watermark e))
      else Some (AErr DataInvalid)
    end
  | PreTBBlock | PreBlock =>
    match block_parse input with
    | PPanic => None
    | PErr => Some (AErr DataInvalid)
    | POk _ b =>
      if block_matches p b && block_validate b hw then Some (AOk (block_watermark b))
      else Some (AErr DataInvalid)
    end
  | _ => Some (AErr CommandNotAllowed)
  end.
