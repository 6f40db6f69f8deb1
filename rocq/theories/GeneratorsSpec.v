(** What the operation of a generated vector is: the one the generator asks the node to
    forge, in the encoding of the protocol. *)
From Coq Require Import NArith ZArith Bool Arith String List.
From Verif Require Import Base Codecs Oracles Address AddressSpec Bakers Operations OperationsSpec Generators.
Import ListNotations.
Open Scope string_scope.
Open Scope list_scope.
Open Scope N_scope.

(** [t] is the address of [p], or the public key [pk]. *)
Definition is_address (O : oracles) (t : bytes) (p : tz_pkh) : Prop :=
  tz_text (twice O) (AddressSpec.addr_kind (kind_curve (pkh_kind p))) (pkh_hash p) t.
Definition is_public_key (O : oracles) (t : bytes) (k : OperationsSpec.addr_kind) (pk : bytes) : Prop :=
  tz_text (twice O) (pk_kind (kind_curve k)) pk t.
Definition is_proposal (O : oracles) (t h : bytes) : Prop := tz_text (twice O) KindProposal h t.
Definition is_vote (t : bytes) (v : vote) : Prop :=
  t = chars (match v with Yay => "yay" | Nay => "nay" | Pass => "pass" end).

Definition managed (O : oracles) (source : bytes) (fee gas storage counter : N) (m : tz_manager) : Prop :=
  is_address O source (tm_source m) /\ tm_fee m = fee /\ tm_gas m = gas /\ tm_storage m = storage /\ tm_counter m = counter.

Definition g_hash (g : generated) : bytes :=
  match g with
  | GTransaction hash _ _ _ _ | GDelegation hash _ _ _ _ _ | GReveal hash _ _ _ _ | GOrigination hash _ _ _ _
  | GBallot hash _ _ | GProposals hash _ _ | GEndorsement hash _ | GActivation hash _ _ => hash
  end.

(** The member [operation]. *)
Definition asked (O : oracles) (g : generated) (o : tz_op) : Prop :=
  match g, o with
  | GTransaction _ source h e counter, TTransfer m amount (TzImplicit d) None =>
    managed O source (es_fee e) (es_gas e) (es_storage e) counter m /\ amount = 10000 /\ is_address O (ho_k1 h) d
  | GDelegation _ source h e counter n, TDelegation m delegate =>
    managed O source (es_fee e) (es_gas e) (es_storage e) counter m /\
    match fst (delegation_choice h n), delegate with
    | Some t, Some d => is_address O t d
    | None, None => True
    | _, _ => False
    end
  | GReveal _ source pk e counter, TReveal m k key =>
    managed O source (es_fee e) (es_gas e) (es_storage e) counter m /\ is_public_key O pk k key
  | GOrigination _ source h counter n, TOrigination m balance delegate code storage =>
    managed O source 10000 10 10 counter m /\ balance = n /\
    match origination_choice h n, delegate with
    | Some t, Some d => is_address O t d
    | None, None => True
    | _, _ => False
    end /\ code = FORGED_CODE /\ storage = FORGED_STORAGE
  | GBallot _ source n, TBallot s period p v =>
    is_address O source s /\ period = Z.of_N n /\ is_proposal O (snd (ballot_choice n)) p /\ is_vote (fst (ballot_choice n)) v
  | GProposals _ source n, TProposals s period ps =>
    is_address O source s /\ period = Z.of_N n /\
    exists p q, ps = [p; q] /\ is_proposal O (fst (proposals_choice n)) p /\ is_proposal O (snd (proposals_choice n)) q
  | GEndorsement _ n, TEndorsement level => level = Z.of_N n
  | GActivation _ source secret, TActivate h s => is_address O source (mkPkh Tz1 h) /\ s = secret
  | _, _ => False
  end.
Definition forged (O : oracles) (g : generated) (branch : bytes) (o : tz_op) : Prop :=
  tz_text (twice O) KindBranch branch (g_hash g) /\ asked O g o.

(** The list of names of the generator agrees with the table of the device about the
    delegate: the name is that of every entry, and the address if there is none. *)
Definition entry_for (p : tz_pkh) (b : baker) : Prop :=
  bk_prefix b = kind_prefix (AddressSpec.addr_kind (kind_curve (pkh_kind p))) /\ bk_hash b = pkh_hash p.
Definition well_named (table : list baker) (g : generated) (o : tz_op) : Prop :=
  match g, o with
  | GDelegation _ _ h _ _ n, TDelegation _ (Some d) =>
    (exists b, In b table /\ entry_for d b) /\ (forall b, In b table -> entry_for d b -> bk_name b = snd (delegation_choice h n)) \/
    (forall b, In b table -> ~ entry_for d b) /\ fst (delegation_choice h n) = Some (snd (delegation_choice h n))
  | _, _ => True
  end.

(** The numbers the device can show. *)
Definition small_manager (m : tz_manager) : Prop :=
  tm_fee m < 2 ^ 28 /\ tm_gas m < 2 ^ 28 /\ tm_storage m < 2 ^ 28 /\ tm_counter m < 2 ^ 28.
Definition small (o : tz_op) : Prop :=
  match o with
  | TTransfer m amount _ _ => small_manager m /\ amount < 2 ^ 28
  | TDelegation m _ | TReveal m _ _ => small_manager m
  | TOrigination m balance _ _ _ => small_manager m /\ balance < 2 ^ 28
  | _ => True
  end.
