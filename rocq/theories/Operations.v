(** Manager, voting and anonymous operations: rust/app/src/parser.rs and
    rust/app/src/parser/operations/. *)
From Coq Require Import List NArith ZArith Bool Arith.
From Verif Require Import Base Codecs.
Import ListNotations.
Open Scope N_scope.

(** ** Arbitrary-precision integers: parser.rs l.56-135 *)

(** parser.rs l.58-61: [Zarith]; the raw bytes are kept. *)
Record zarith := mkZ { z_bytes : bytes; z_neg : option bool }.

(** parser.rs l.72: [take_till(|byte| byte & 0x80 == 0)]. *)
Fixpoint take_msb (l : bytes) : bytes :=
  match l with
  | b :: t => if N.land b 0x80 =? 0 then [] else b :: take_msb t
  | [] => []
  end.

(** parser.rs l.70-85: [Zarith::from_bytes]. *)
Definition zarith_parse (want_sign : bool) (input : bytes) : presult zarith :=
  let* (rem, b) := take (len (take_msb input) + 1) input in
  POk rem (mkZ b (if want_sign then Some (negb (N.land (nth 0 b 0) 0x40 =? 0)) else None)).

(** parser.rs l.104-131: the loop of [read_as] for a container of [bits] bits;
    [first] is [is_first]. The shifted byte is cut to the container as the
    Rust [<<] does. *)
Fixpoint zarith_loop (bits : N) (signed first : bool) (l : bytes) (shift out : N) : option N :=
  match l with
  | [] => Some out
  | b :: t =>
    let '(mask, add, first') :=
      if first && signed then (0x3F, 6, false) else (0x7F, 7, first) in
    if bits <? shift + add then None
    else zarith_loop bits signed first' t (shift + add)
           (N.lor out (N.shiftl (N.land b mask) shift mod 2 ^ bits))
  end.

(** parser.rs l.94-134: [Zarith::read_as]. *)
Definition zarith_read_as (bits : N) (z : zarith) : option (bool * N) :=
  let signed := match z_neg z with Some _ => true | None => false end in
  match zarith_loop bits signed true (z_bytes z) 0 0 with
  | Some v => Some (match z_neg z with Some s => s | None => false end, v)
  | None => None
  end.

(** [usize] on the device has 32 bits. *)
Definition USIZE_BITS : N := 32.

(** ** Common pieces: parser.rs l.188-222 *)

(** parser.rs l.191-196: the curve tags used inside operations. *)
Definition curve_of_tag (b : N) : option curve :=
  if b =? 0 then Some Bip32Ed25519
  else if b =? 1 then Some Secp256K1
  else if b =? 2 then Some Secp256R1
  else None.

(** parser.rs l.188-201: [public_key_hash]. *)
Definition pkh_parse (input : bytes) : presult (curve * bytes) :=
  let* (rem, t) := le_u8 input in
  let* (rem, h) := take 20 rem in
  match curve_of_tag t with Some c => POk rem (c, h) | None => PErr end.

(** parser.rs l.203-216: [public_key]. *)
Definition pk_parse (input : bytes) : presult (curve * bytes) :=
  let* (rem, t) := le_u8 input in
  match curve_of_tag t with
  | Some c =>
    let* (rem, k) := take (match c with Bip32Ed25519 => 32 | _ => 33 end) rem in
    POk rem (c, k)
  | None => PErr
  end.

(** parser.rs l.218-222: [boolean]. *)
Definition boolean (input : bytes) : presult bool :=
  let* (rem, b) := le_u8 input in POk rem (b =? 255).

(** [nom::cond]. *)
Definition cond {A} (b : bool) (p : bytes -> presult A) (input : bytes) : presult (option A) :=
  if b then let* (rem, x) := p input in POk rem (Some x) else POk input None.

(** [be_u32 >> take(length)], the length-prefixed byte strings. *)
Definition dyn_parse (input : bytes) : presult bytes :=
  let* (rem, n) := be_u32 input in take n rem.

(** [nom::number::complete::be_i32]. *)
Definition to_i32 (n : N) : Z :=
  if n <? 2 ^ 31 then Z.of_N n else (Z.of_N n - 2 ^ 32)%Z.
Definition be_i32 (input : bytes) : presult Z :=
  let* (rem, n) := be_u32 input in POk rem (to_i32 n).

(** operations.rs l.274-277: [ContractID]. *)
Inductive contract_id := Implicit (c : curve) (h : bytes) | Originated (h : bytes).

(** operations.rs l.312-327: [ContractID::from_bytes]; the byte after an
    originated contract's hash is dropped. *)
Definition contract_parse (input : bytes) : presult contract_id :=
  let* (rem, t) := le_u8 input in
  if t =? 0 then let* (rem, (c, h)) := pkh_parse rem in POk rem (Implicit c h)
  else if t =? 1 then
    let* (rem, h) := take 20 rem in
    let* (rem, _) := take 1 rem in
    POk rem (Originated h)
  else PErr.

(** ** Operation kinds *)

(** operations/transfer.rs l.36-43: [Entrypoint]. *)
Inductive entrypoint := EpDefault | EpRoot | EpDo | EpSetDelegate | EpRemoveDelegate | EpCustom (name : bytes).

(** transfer.rs l.46-66: [Entrypoint::from_bytes]. *)
Definition entrypoint_parse (input : bytes) : presult entrypoint :=
  let* (rem, t) := le_u8 input in
  if t =? 0 then POk rem EpDefault
  else if t =? 1 then POk rem EpRoot
  else if t =? 2 then POk rem EpDo
  else if t =? 3 then POk rem EpSetDelegate
  else if t =? 4 then POk rem EpRemoveDelegate
  else if t =? 255 then
    let* (rem, n) := le_u8 rem in
    let* (rem, name) := take n rem in
    POk rem (EpCustom name)
  else PErr.

(** transfer.rs l.93-111: [Parameters::from_bytes]. *)
Definition params_parse (input : bytes) : presult (entrypoint * bytes) :=
  let* (rem, e) := entrypoint_parse input in
  let* (rem, m) := dyn_parse rem in
  POk rem (e, m).

(** The four fields shared by the manager operations: transfer.rs l.117-121,
    delegation.rs l.32-36, origination.rs l.55-59, reveal.rs l.33-37. *)
Record manager := mkMan {
  m_source : curve * bytes; m_fee : zarith; m_counter : zarith;
  m_gas : zarith; m_storage : zarith
}.
Definition manager_parse (input : bytes) : presult manager :=
  let* (rem, s) := pkh_parse input in
  let* (rem, f) := zarith_parse false rem in
  let* (rem, c) := zarith_parse false rem in
  let* (rem, g) := zarith_parse false rem in
  let* (rem, st) := zarith_parse false rem in
  POk rem (mkMan s f c g st).

(** operations/ballot.rs l.41-58: [Vote]. *)
Inductive vote := Yay | Nay | Pass.
Definition vote_of_byte (b : N) : option vote :=
  if b =? 0 then Some Yay else if b =? 1 then Some Nay else if b =? 2 then Some Pass else None.

(** operations/operation_type.rs l.71-87: [OperationType]. Anonymous
    operations keep no data outside tests (l.83-84). *)
Inductive op :=
| OTransfer (m : manager) (amount : zarith) (dest : contract_id) (params : option (entrypoint * bytes))
| ODelegation (m : manager) (delegate : option (curve * bytes))
| OEndorsement (level : Z)
| OEndorsementWithSlot (branch : bytes) (level : Z) (sig : bytes) (slot : N)
| OBallot (source : curve * bytes) (period : Z) (proposal : bytes) (v : vote)
| OReveal (m : manager) (pk : curve * bytes)
| OProposals (source : curve * bytes) (period : Z) (proposals : list bytes)
| OOrigination (m : manager) (balance : zarith) (delegate : option (curve * bytes)) (code storage : bytes)
| OActivate (pkh : bytes) (secret : bytes)
| OFailingNoop (arbitrary : bytes)
| OUnknown (rest : bytes)
| OAnonymous.

(** transfer.rs l.165-202: [Transfer::from_bytes_into]. *)
Definition transfer_parse (input : bytes) : presult op :=
  let* (rem, m) := manager_parse input in
  let* (rem, a) := zarith_parse false rem in
  let* (rem, d) := contract_parse rem in
  let* (rem, has) := boolean rem in
  let* (rem, p) := cond has params_parse rem in
  POk rem (OTransfer m a d p).

(** delegation.rs l.70-99: [Delegation::from_bytes_into]. *)
Definition delegation_parse (input : bytes) : presult op :=
  let* (rem, m) := manager_parse input in
  let* (rem, has) := boolean rem in
  let* (rem, d) := cond has pkh_parse rem in
  POk rem (ODelegation m d).

(** reveal.rs l.68-94: [Reveal::from_bytes_into]. *)
Definition reveal_parse (input : bytes) : presult op :=
  let* (rem, m) := manager_parse input in
  let* (rem, k) := pk_parse rem in
  POk rem (OReveal m k).

(** origination.rs l.37-48 ([Script::from_bytes]) and l.97-128
    ([Origination::from_bytes_into]). *)
Definition origination_parse (input : bytes) : presult op :=
  let* (rem, m) := manager_parse input in
  let* (rem, b) := zarith_parse false rem in
  let* (rem, has) := boolean rem in
  let* (rem, d) := cond has pkh_parse rem in
  let* (rem, code) := dyn_parse rem in
  let* (rem, storage) := dyn_parse rem in
  POk rem (OOrigination m b d code storage).

(** endorsement.rs l.46-58: [Endorsement::from_bytes_into]. *)
Definition endorsement_parse (input : bytes) : presult op :=
  let* (rem, l) := be_i32 input in POk rem (OEndorsement l).

(** endorsement.rs l.154-170, l.273-289 and l.293-309: an endorsement with its
    signature, preceded by their total length (32 + 1 + 4 + signature). *)
Definition inlined_parse (input : bytes) : presult (bytes * Z * bytes) :=
  let* (rem, n) := be_u32 input in
  let* (rem, branch) := take 32 rem in
  let* (rem, t) := le_u8 rem in
  if t =? 0 then
    let* (rem2, l) := be_i32 rem in
    let used := len rem - len rem2 in
    if n <? 33 then PErr
    else if n - 33 <? used then PErr
    else
      let* (rem, s) := take (n - 33 - used) rem2 in
      POk rem (branch, l, s)
  else PErr.

(** endorsement.rs l.150-183: [EndorsementWithSlot::from_bytes_into]. *)
Definition endorsement_slot_parse (input : bytes) : presult op :=
  let* (rem, (branch, l, s)) := inlined_parse input in
  let* (rem, slot) := be_u16 rem in
  POk rem (OEndorsementWithSlot branch l s slot).

(** ballot.rs l.100-128: [Ballot::from_bytes_into]. *)
Definition ballot_parse (input : bytes) : presult op :=
  let* (rem, s) := pkh_parse input in
  let* (rem, p) := be_i32 rem in
  let* (rem, h) := take 32 rem in
  let* (rem, v) := le_u8 rem in
  match vote_of_byte v with Some v => POk rem (OBallot s p h v) | None => PErr end.

(** [bytemuck::try_cast_slice] to 32-byte arrays: the consecutive chunks, an
    error unless the length is a multiple of 32. *)
Fixpoint chunks32 (n : nat) (l : bytes) : list bytes :=
  match n with
  | O => []
  | S n' => firstn 32 l :: chunks32 n' (skipn 32 l)
  end.

(** proposals.rs l.69-94: [Proposals::from_bytes_into]. *)
Definition proposals_parse (input : bytes) : presult op :=
  let* (rem, s) := pkh_parse input in
  let* (rem, p) := be_i32 rem in
  let* (rem, hs) := dyn_parse rem in
  if len hs mod 32 =? 0 then POk rem (OProposals s p (chunks32 (length hs / 32) hs)) else PErr.

(** activate_account.rs l.58-81: [ActivateAccount::from_bytes_into]. *)
Definition activate_parse (input : bytes) : presult op :=
  let* (rem, h) := take 20 input in
  let* (rem, s) := take 20 rem in
  POk rem (OActivate h s).

(** failing_noop.rs l.42-54: [FailingNoop::from_bytes_into]. *)
Definition noop_parse (input : bytes) : presult op :=
  let* (rem, a) := dyn_parse input in POk rem (OFailingNoop a).

(** seed_nonce_revelation.rs l.31-37: [SeedNonceRevelation::from_bytes]. *)
Definition seed_nonce_parse (input : bytes) : presult unit :=
  let* (rem, _) := be_i32 input in
  let* (rem, _) := take 32 rem in
  POk rem tt.

(** endorsement.rs l.272-325: [DoubleEndorsementEvidence::from_bytes]. *)
Definition double_endorsement_parse (input : bytes) : presult unit :=
  let* (rem, _) := inlined_parse input in
  let* (rem, _) := inlined_parse rem in
  let* (rem, _) := be_u16 rem in
  POk rem tt.

(** double_baking_evidence.rs l.30-37, l.52-100: [Fitnesses::count]; reads
    length-prefixed strings until the slice is empty. [fuel] bounds the
    iterations, each of which consumes at least four bytes. *)
Fixpoint fitnesses_count (fuel : nat) (input : bytes) : presult N :=
  match fuel with
  | O => PErr
  | S fuel' =>
    match input with
    | [] => POk [] 0
    | _ =>
      let* (rem, _) := dyn_parse input in
      let* (rem, n) := fitnesses_count fuel' rem in
      POk rem (n + 1)
    end
  end.

(** double_baking_evidence.rs l.138-222: [FullBlockHeader::from_bytes]. *)
Definition full_header_parse (input : bytes) : presult unit :=
  let* (rem, _) := be_i32 input in
  let* (rem, _) := le_u8 rem in
  let* (rem, _) := take 32 rem in
  let* (rem, _) := be_u64 rem in
  let* (rem, _) := le_u8 rem in
  let* (rem, _) := take 32 rem in
  let* (rem, fs) := dyn_parse rem in
  let* (_, _) := fitnesses_count (S (length fs)) fs in
  let* (rem, _) := take 32 rem in
  let* (rem, _) := be_u16 rem in
  let* (rem, _) := take 8 rem in
  let* (rem, present) := boolean rem in
  let* (rem, _) := cond present (take 32) rem in
  let* (rem, _) := boolean rem in
  let* (rem, _) := take 64 rem in
  POk rem tt.

(** double_baking_evidence.rs l.234-245: [DoubleBakingEvidence::from_bytes]. *)
Definition double_baking_parse (input : bytes) : presult unit :=
  let* (rem, _) := full_header_parse input in
  let* (rem, _) := full_header_parse rem in
  POk rem tt.

(** operations.rs l.227-246: [AnonymousOp::from_bytes]. *)
Definition anonymous_parse (tag : N) (rem : bytes) : presult op :=
  let* (rem, _) :=
    (if tag =? 1 then seed_nonce_parse rem
     else if tag =? 2 then double_endorsement_parse rem
     else if tag =? 3 then double_baking_parse rem
     else PErr) in
  POk rem OAnonymous.

(** operation_type.rs l.93-245: [OperationType::from_bytes_into]. An unknown
    tag yields [UnknownOp] with everything after the tag, and nothing left. *)
Definition op_parse (input : bytes) : presult op :=
  let* (rem, tag) := le_u8 input in
  if tag =? 0x00 then endorsement_parse rem
  else if (tag =? 0x01) || (tag =? 0x02) || (tag =? 0x03) then anonymous_parse tag rem
  else if tag =? 0x04 then activate_parse rem
  else if tag =? 0x05 then proposals_parse rem
  else if tag =? 0x06 then ballot_parse rem
  else if tag =? 0x0A then endorsement_slot_parse rem
  else if tag =? 0x11 then noop_parse rem
  else if tag =? 0x6B then reveal_parse rem
  else if tag =? 0x6C then transfer_parse rem
  else if tag =? 0x6D then origination_parse rem
  else if tag =? 0x6E then delegation_parse rem
  else POk [] (OUnknown rem).

(** ** Batches: operations.rs *)

(** operations.rs l.95-104: [EncodedOperations]. *)
Record encoded_ops := mkOps { eo_source : bytes; eo_read : nat }.
Definition eo_new (source : bytes) : encoded_ops := mkOps source 0.

(** operations.rs l.107-173: [parse_into], [parse_next], [parse_next_into].
    [POk] carries the operation, if any, and the advanced cursor in place of
    the remaining input. The arm of l.123 (an [UnknownOperation] error with 64
    bytes left) cannot be taken: [OperationType::from_bytes_into] never returns
    that error. Slicing past the end panics. *)
Inductive next_res := NPanic | NErr | NNone | NSome (o : op) (e : encoded_ops).
Definition eo_next (e : encoded_ops) : next_res :=
  if (length (eo_source e) <? eo_read e)%nat then NPanic
  else
    match skipn (eo_read e) (eo_source e) with
    | [] => NNone
    | input =>
      match op_parse input with
      | PPanic => NPanic
      | PErr => NErr
      | POk rem o => NSome o (mkOps (eo_source e) (length (eo_source e) - length rem))
      end
    end.

(** The [while let Some(op) = ops.parse_next()?] loop over a batch, e.g.
    handlers/signing.rs l.212-220; [fuel] bounds the iterations. *)
Inductive all_res := AllFuel | AllPanic | AllErr | AllOk (os : list op).
Fixpoint eo_all (fuel : nat) (e : encoded_ops) : all_res :=
  match fuel with
  | O => AllFuel
  | S fuel' =>
    match eo_next e with
    | NPanic => AllPanic
    | NErr => AllErr
    | NNone => AllOk []
    | NSome o e' =>
      match eo_all fuel' e' with
      | AllOk os => AllOk (o :: os)
      | r => r
      end
    end
  end.

(** operations.rs l.42-51: [Operation::new]. *)
Definition operation_new (input : bytes) : option (bytes * encoded_ops) :=
  match take 32 input with
  | POk rem branch => Some (branch, eo_new rem)
  | _ => None
  end.
