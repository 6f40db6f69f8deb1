(** What a review must show: the fields of each operation, as a sheet of titles and
    fields, and what it means for a text to show a field. *)
From Coq Require Import NArith ZArith Bool Arith String List.
From Verif Require Import Base Codecs Oracles Address AddressSpec Text TextSpec Bakers BakersSpec
  Operations OperationsSpec Device.
Import ListNotations.
Open Scope string_scope.
Open Scope list_scope.
Open Scope N_scope.

Inductive field :=
| FWord (s : string)                       (** a fixed text *)
| FIdent (k : tz_kind) (data : bytes)      (** an address, key or hash *)
| FTez (z : zarith)                        (** an amount in tez, encoded in mutez *)
| FNat (z : zarith)                        (** an encoded natural number *)
| FInt (z : Z)                             (** an integer *)
| FDigest (data : bytes)                   (** the SHA-256 hash of some data *)
| FHex (data : bytes)                      (** the data itself *)
| FBaker (c : curve) (hash : bytes)        (** the name of a known baker, or the address *)
| FHash (data : bytes)                     (** the Blake2b hash of some data, with checksum *)
| FChain (c : chain_id)                    (** a chain *)
| FAddr (a : addr).                        (** an address with its checksum *)

(** The number an encoding stands for. *)
Definition z_value (z : zarith) : N := magnitude false (z_bytes z).

(** A text shows a field. *)
Definition shows (O : oracles) (table : list baker) (f : field) (t : bytes) : Prop :=
  match f with
  | FWord s => t = chars s
  | FIdent k data => tz_text (twice O) k data t
  | FTez z => shows_decimal 6 (z_value z) t
  | FNat z => shows_number (z_value z) t
  | FInt z => shows_integer z t
  | FDigest data => exists d, o_sha256 O data = Some d /\ reads_hex t = Some d
  | FHex data => reads_hex t = Some data
  | FBaker c h =>
    (exists b, In b table /\ bk_prefix b = kind_prefix (AddressSpec.addr_kind c) /\ bk_hash b = h
            /\ bk_name b = t)
    \/ ((forall b, In b table -> bk_prefix b = kind_prefix (AddressSpec.addr_kind c) -> bk_hash b <> h)
        /\ tz_text (twice O) (AddressSpec.addr_kind c) h t)
  | FHash data =>
    exists d c, o_blake2b O 32 data = Some d /\ twice O d = Some c /\ reads58 t (d ++ firstn 4 c)
  | FChain c => alias_of O c t
  | FAddr a => reads58 t (a_prefix a ++ a_hash a ++ a_checksum a)
  end.

(** The device cannot show a field: the encoding of a number has more than 32 bits of
    payload (28 bits for minimal encodings), or the hash function fails. *)
Definition unshowable (O : oracles) (f : field) : Prop :=
  match f with
  | FWord _ | FInt _ | FHex _ | FAddr _ => False
  | FTez z | FNat z => 32 < payload_bits false (z_bytes z)
  | FIdent k data => twice O (kind_prefix k ++ data) = None
  | FDigest data => o_sha256 O data = None
  | FBaker c h => twice O (kind_prefix (AddressSpec.addr_kind c) ++ h) = None
  | FHash data => forall d, o_blake2b O 32 data = Some d -> twice O d = None
  | FChain (ChainCustom id) => twice O (kind_prefix KindChain ++ be 4 id) = None
  | FChain _ => False
  end.

(** ** Sheets *)

Inductive title :=
| Titled (s : string)
| Numbered (s : string) (n : N).  (** a word and a number *)
Coercion Titled : string >-> title.
Definition entitles (h : title) (t : bytes) : Prop :=
  match h with
  | Titled s => t = chars s
  | Numbered s n => exists d, shows_number n d /\ t = chars s ++ d
  end.

Definition row := (title * field)%type.
Definition row_of (h : title) (f : field) : row := (h, f).
Notation "h --> f" := (row_of h f) (at level 60).
Definition person (h : title) (p : curve * bytes) : row :=
  h --> FIdent (AddressSpec.addr_kind (fst p)) (snd p).

(** The rows common to the operations of managers. *)
Definition limits (m : manager) : list row :=
  ["Gas Limit" --> FNat (m_gas m); "Storage Limit" --> FNat (m_storage m); "Counter" --> FNat (m_counter m)].

(** Proposals are numbered from [n] on. *)
Fixpoint proposal_rows (n : N) (ps : list bytes) : list row :=
  match ps with
  | [] => []
  | p :: ps' => Numbered "Proposal #" n --> FIdent KindProposal p :: proposal_rows (n + 1) ps'
  end.

Definition sheet (o : op) : list row :=
  match o with
  | OTransfer m amount dest params =>
    ["Type" --> FWord (match params with Some _ => "Contract Execution" | None => "Transaction" end);
     person "Source" (m_source m);
     match dest with
     | Implicit c h => person "Destination" (c, h)
     | Originated h => "Contract Addr" --> FIdent KindKT1 h
     end;
     "Amount" --> FTez amount;
     "Fee" --> FTez (m_fee m);
     "Parameters" --> match params with Some (_, code) => FDigest code | None => FWord "no parameters..." end]
    ++ limits m
  | ODelegation m delegate =>
    ["Type" --> FWord (match delegate with Some _ => "Delegation" | None => "Delegation Withdrawal" end);
     person "Source" (m_source m);
     "Delegation" --> match delegate with Some (c, h) => FBaker c h | None => FWord "<REVOKED>" end;
     "Fee" --> FTez (m_fee m)]
    ++ limits m
  | OEndorsement level => ["Type" --> FWord "Endorsement"; "Level" --> FInt level]
  | OEndorsementWithSlot branch level _ slot =>
    ["Type" --> FWord "Endorsement"; "Branch" --> FIdent KindBranch branch; "Slot" --> FInt (Z.of_N slot);
     "Type" --> FWord "Endorsement"; "Level" --> FInt level]
  | OBallot source period proposal v =>
    ["Type" --> FWord "Ballot"; person "Source" source; "Period" --> FInt period;
     "Proposal" --> FIdent KindProposal proposal;
     "Vote" --> FWord (match v with Yay => "yay" | Nay => "nay" | Pass => "pass" end)]
  | OReveal m pk =>
    ["Type" --> FWord "Revelation"; person "Source" (m_source m);
     "Public Key" --> FIdent (pk_kind (fst pk)) (snd pk); "Fee" --> FTez (m_fee m)]
    ++ limits m
  | OProposals source period proposals =>
    ["Type" --> FWord "Proposals"; person "Source" source; "Period" --> FInt period]
    ++ proposal_rows 1 proposals
  | OOrigination m balance delegate code storage =>
    ["Type" --> FWord "Origination"; person "Source" (m_source m); "Balance" --> FTez balance;
     match delegate with Some d => person "Delegate" d | None => "Delegate" --> FWord "no delegate" end;
     "Fee" --> FTez (m_fee m); "Code" --> FDigest code; "Storage" --> FDigest storage]
    ++ limits m
  | OActivate h secret =>
    ["Type" --> FWord "Acct. Activation"; "Public Key Hash" --> FIdent KindTz1 h; "Secret" --> FHex secret]
  | OFailingNoop arbitrary => ["Type" --> FWord "Failing Noop"; "Data Hash" --> FDigest arbitrary]
  | OUnknown rest => ["Type" --> FWord "Unknown Operation"; "Hash" --> FHash rest]
  | OAnonymous => []
  end.

(** The review of a batch: its branch, then the operations one after the other. *)
Definition batch_sheet (branch : bytes) (os : list op) : list row :=
  "Operation" --> FIdent KindBranch branch :: flat_map sheet os.

(** The other reviews. *)
Definition view_sheet (v : viewable) : option (list row) :=
  match v with
  | VSign _ digest None _ => Some ["Sign Michelson" --> FHex digest]
  | VSign _ _ (Some (branch, ops)) _ =>
    match eo_all (S (length (eo_source ops))) ops with
    | AllOk os => Some (batch_sheet branch os)
    | _ => None
    end
  | VBakingSign _ _ branch o _ => Some (batch_sheet branch [o])
  | VAuthorize _ a => Some ["Type" --> FWord "Authorize Baking"; "Address" --> FAddr a]
  | VDeauthorize a => Some ["Type" --> FWord "DeAuthorize Baking"; "Address" --> FAddr a]
  | VQuery _ _ a => Some ["Type" --> FWord "Query Authorized"; "Address" --> FAddr a]
  | VAddr _ _ a => Some ["Address" --> FAddr a]
  | VSetup _ main test chain a =>
    Some ["Type" --> FWord "Setup Baking"; "Address" --> FAddr a; "Chain" --> FChain chain;
          "Main Chain HWM" --> FInt (Z.of_N main); "Test Chain HWM" --> FInt (Z.of_N test)]
  end.

(** What the device makes of the sheet: the number of rows of an operation is a [u8], so
    that of an operation with 256 rows or more only the first are shown. Only lists of
    proposals have so many. *)
Definition shown_rows (o : op) : list row := firstn (N.to_nat (len (sheet o) mod 256)) (sheet o).
Definition view_shown (v : viewable) : option (list row) :=
  match v with
  | VSign _ _ (Some (branch, ops)) _ =>
    match eo_all (S (length (eo_source ops))) ops with
    | AllOk os => Some ("Operation" --> FIdent KindBranch branch :: flat_map shown_rows os)
    | _ => None
    end
  | _ => view_sheet v
  end.

(** ** Values as the parsers make them *)

Definition hash_ok (n : nat) (h : bytes) : Prop := bytes_ok h /\ length h = n.
Definition natural (z : zarith) : Prop := z_neg z = None /\ z_bytes z <> [] /\ bytes_ok (z_bytes z).
Definition manager_wf (m : manager) : Prop :=
  hash_ok 20 (snd (m_source m)) /\ natural (m_fee m) /\ natural (m_counter m)
  /\ natural (m_gas m) /\ natural (m_storage m).
Definition opt_wf {A} (P : A -> Prop) (o : option A) : Prop :=
  match o with Some a => P a | None => True end.
Definition op_wf (o : op) : Prop :=
  match o with
  | OTransfer m amount dest _ =>
    manager_wf m /\ natural amount /\ hash_ok 20 (match dest with Implicit _ h | Originated h => h end)
  | ODelegation m delegate => manager_wf m /\ opt_wf (fun d => hash_ok 20 (snd d)) delegate
  | OEndorsement level => i32_ok level
  | OFailingNoop _ | OUnknown _ | OAnonymous => True
  | OEndorsementWithSlot branch level _ slot => hash_ok 32 branch /\ i32_ok level /\ slot < 2 ^ 16
  | OBallot source period proposal _ => hash_ok 20 (snd source) /\ i32_ok period /\ hash_ok 32 proposal
  | OReveal m pk =>
    manager_wf m /\ hash_ok (match fst pk with Ed25519 | Bip32Ed25519 => 32 | _ => 33 end) (snd pk)
  | OProposals source period proposals => hash_ok 20 (snd source) /\ i32_ok period /\ Forall (hash_ok 32) proposals
  | OOrigination m balance delegate _ _ =>
    manager_wf m /\ natural balance /\ opt_wf (fun d => hash_ok 20 (snd d)) delegate
  | OActivate h secret => hash_ok 20 h /\ hash_ok 20 secret
  end.

Definition addr_wf (a : addr) : Prop :=
  In (a_prefix a) (map kind_prefix [KindTz1; KindTz2; KindTz3])
  /\ hash_ok 20 (a_hash a) /\ hash_ok 4 (a_checksum a).
(** An operation reviewed by the baking app is a delegation or a reveal. *)
Definition reviewable (o : op) : Prop :=
  match o with ODelegation _ _ | OReveal _ _ => True | _ => False end.
Definition view_wf (v : viewable) : Prop :=
  match v with
  | VSign _ digest None _ => hash_ok 32 digest
  | VSign _ digest (Some (branch, ops)) _ =>
    hash_ok 32 branch /\ bytes_ok (eo_source ops) /\ eo_read ops = 0%nat
  | VBakingSign _ _ branch o _ => hash_ok 32 branch /\ op_wf o /\ reviewable o
  | VAuthorize _ a | VDeauthorize a | VQuery _ _ a | VAddr _ _ a => addr_wf a
  | VSetup _ main test chain a => addr_wf a /\ main < 2 ^ 32 /\ test < 2 ^ 32
  end.

(** Names of bakers fit one line and have no NUL. *)
Definition names_fit (table : list baker) : Prop :=
  Forall (fun b => Forall (fun c => c <> 0) (bk_name b) /\ (length (bk_name b) < 34)%nat) table.
