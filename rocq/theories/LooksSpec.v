(** What the screens tell about a request: when two requests may look the same, and what
    it means that they do. *)
From Coq Require Import NArith ZArith Bool Arith String List.
From Verif Require Import Base Codecs Oracles Address AddressSpec Text TextSpec Bakers
  Operations OperationsSpec Device Screens ScreensSpec.
Import ListNotations.
Open Scope N_scope.

(** ** Requests that may look the same *)

Definition same_person (p q : curve * bytes) : Prop :=
  AddressSpec.addr_kind (fst p) = AddressSpec.addr_kind (fst q) /\ snd p = snd q.
Definition same_option {A} (R : A -> A -> Prop) (p q : option A) : Prop :=
  match p, q with
  | Some a, Some b => R a b
  | None, None => True
  | _, _ => False
  end.
Definition same_number (z z' : zarith) : Prop := z_value z = z_value z'.
Definition same_manager (m m' : manager) : Prop :=
  same_person (m_source m) (m_source m') /\ same_number (m_fee m) (m_fee m')
  /\ same_number (m_counter m) (m_counter m') /\ same_number (m_gas m) (m_gas m')
  /\ same_number (m_storage m) (m_storage m').
Definition same_contract (d d' : contract_id) : Prop :=
  match d, d' with
  | Implicit c h, Implicit c' h' => same_person (c, h) (c', h')
  | Originated h, Originated h' => h = h'
  | _, _ => False
  end.

(** Delegates the table of bakers has under the same name. *)
Definition is_baker (b : baker) (p : curve * bytes) : Prop :=
  bk_prefix b = kind_prefix (AddressSpec.addr_kind (fst p)) /\ bk_hash b = snd p.
Definition namesakes (table : list baker) (p q : curve * bytes) : Prop :=
  exists a b, In a table /\ In b table /\ is_baker a p /\ is_baker b q /\ bk_name a = bk_name b.
Definition same_baker (table : list baker) (p q : curve * bytes) : Prop :=
  same_person p q \/ namesakes table p q.

Section Alike.
  Variable O : oracles.
  Variable table : list baker.

  (** Programs and data are shown by their hashes. *)
  Definition same_digest (x y : bytes) : Prop :=
    exists d, o_sha256 O x = Some d /\ o_sha256 O y = Some d.

  (** Two operations agree on everything but the entrypoint of a transfer, the signature
      inside an endorsement with a slot, and which of several bakers of one name is the
      delegate. *)
  Definition alike (o o' : op) : Prop :=
    match o, o' with
    | OTransfer m a d p, OTransfer m' a' d' p' =>
      same_manager m m' /\ same_number a a' /\ same_contract d d'
      /\ same_option (fun x y => same_digest (snd x) (snd y)) p p'
    | ODelegation m d, ODelegation m' d' => same_manager m m' /\ same_option (same_baker table) d d'
    | OEndorsement l, OEndorsement l' => l = l'
    | OEndorsementWithSlot b l _ s, OEndorsementWithSlot b' l' _ s' => b = b' /\ l = l' /\ s = s'
    | OBallot p n h v, OBallot p' n' h' v' => same_person p p' /\ n = n' /\ h = h' /\ v = v'
    | OReveal m k, OReveal m' k' =>
      same_manager m m' /\ pk_kind (fst k) = pk_kind (fst k') /\ snd k = snd k'
    | OProposals p n hs, OProposals p' n' hs' => same_person p p' /\ n = n' /\ hs = hs'
    | OOrigination m b d c s, OOrigination m' b' d' c' s' =>
      same_manager m m' /\ same_number b b' /\ same_option same_person d d'
      /\ same_digest c c' /\ same_digest s s'
    | OActivate h s, OActivate h' s' => h = h' /\ s = s'
    | OFailingNoop a, OFailingNoop a' => same_digest a a'
    | OUnknown r, OUnknown r' => exists d, o_blake2b O 32 r = Some d /\ o_blake2b O 32 r' = Some d
    | _, _ => False
    end.

  Definition same_address (a b : addr) : Prop := a_prefix a = a_prefix b /\ a_hash a = a_hash b.

  (** What is asked for. *)
  Inductive request :=
  | AskOperations (branch : bytes) (os : list op)
  | AskDigest (digest : bytes)
  | AskAuthorize (a : addr) | AskDeauthorize (a : addr) | AskQuery (a : addr) | AskAddress (a : addr)
  | AskSetup (main test : N) (chain : chain_id) (a : addr).
  Definition asks (v : viewable) : option request :=
    match v with
    | VSign _ digest None _ => Some (AskDigest digest)
    | VSign _ _ (Some (branch, ops)) _ =>
      match eo_all (S (length (eo_source ops))) ops with
      | AllOk os => Some (AskOperations branch os)
      | _ => None
      end
    | VBakingSign _ _ branch o _ => Some (AskOperations branch [o])
    | VAuthorize _ a => Some (AskAuthorize a)
    | VDeauthorize a => Some (AskDeauthorize a)
    | VQuery _ _ a => Some (AskQuery a)
    | VAddr _ _ a => Some (AskAddress a)
    | VSetup _ main test chain a => Some (AskSetup main test chain a)
    end.

  (** Operations that have rows at all. *)
  Definition visible (o : op) : bool := match o with OAnonymous => false | _ => true end.

  Definition alike_requests (r r' : request) : Prop :=
    match r, r' with
    | AskOperations b os, AskOperations b' os' =>
      b = b' /\ Forall2 alike (filter visible os) (filter visible os')
    | AskDigest d, AskDigest d' => d = d'
    | AskAuthorize a, AskAuthorize a' | AskDeauthorize a, AskDeauthorize a'
    | AskQuery a, AskQuery a' | AskAddress a, AskAddress a' => same_address a a'
    | AskSetup m t c a, AskSetup m' t' c' a' => m = m' /\ t = t' /\ c = c' /\ same_address a a'
    | _, _ => False
    end.
End Alike.

(** ** Looking the same *)

(** Whatever the buffers hold, and for every item and page, the device writes the same to
    the screen. *)
Definition look_the_same O table hw (v v' : viewable) : Prop :=
  view_items v = view_items v' /\
  forall k page key out, (k < 256)%nat -> List.length key = key_size hw -> len out = message_size hw ->
    view_render O table (key_size hw) v (N.of_nat k) key out page
    = view_render O table (key_size hw) v' (N.of_nat k) key out page.
(** Every announced item is shown rather than an error. *)
Definition shows_all O table hw (v : viewable) : Prop :=
  forall k n key out, view_items v = VOk n -> N.of_nat k < n ->
  List.length key = key_size hw -> len out = message_size hw ->
  exists screen, view_render O table (key_size hw) v (N.of_nat k) key out 0 = VOk screen.

(** ** Encoded operations *)

(** What must agree of two encoded operations: all but entrypoints, the signatures inside
    endorsements with a slot and which of several bakers of one name is the delegate, and
    contents shown by their hash. *)
Definition alike_params (O : oracles) (p q : entrypoint * bytes) : Prop := same_digest O (snd p) (snd q).
Definition alike_encoded (O : oracles) (table : list baker) (o o' : tz_op) : Prop :=
  match o, o' with
  | TTransfer m a d p, TTransfer m' a' d' p' =>
    m = m' /\ a = a' /\ d = d' /\ same_option (alike_params O) p p'
  | TDelegation m d, TDelegation m' d' =>
    m = m' /\ same_option (fun p q => same_baker table (pkh_of p) (pkh_of q)) d d'
  | TEndorsementWithSlot e s, TEndorsementWithSlot e' s' =>
    ti_branch e = ti_branch e' /\ ti_level e = ti_level e' /\ s = s'
  | TOrigination m b d c s, TOrigination m' b' d' c' s' =>
    m = m' /\ b = b' /\ d = d' /\ same_digest O c c' /\ same_digest O s s'
  | TFailingNoop a, TFailingNoop a' => same_digest O a a'
  | _, _ => o = o'
  end.
(** Operations whose every field is shown as it is. *)
Definition transparent (table : list baker) (o : tz_op) : Prop :=
  match o with
  | TDelegation _ (Some p) => forall q, namesakes table (pkh_of p) q -> same_person (pkh_of p) q
  | TTransfer _ _ _ None | TDelegation _ None | TEndorsement _ | TBallot _ _ _ _ | TReveal _ _ _
  | TProposals _ _ _ | TActivate _ _ => True
  | _ => False
  end.
(** Every entry of the table for this address has this name, and there is one. *)
Definition named (table : list baker) (p : curve * bytes) (name : bytes) : Prop :=
  (exists b, In b table /\ is_baker b p) /\ forall b, In b table -> is_baker b p -> bk_name b = name.
(** Operations that differ at most in what is not shown at all, or in delegates shown by
    one name. *)
Definition unseen (table : list baker) (o o' : tz_op) : Prop :=
  o = o' \/
  match o, o' with
  | TTransfer m a d (Some (_, c)), TTransfer m' a' d' (Some (_, c')) => m = m' /\ a = a' /\ d = d' /\ c = c'
  | TDelegation m (Some p), TDelegation m' (Some p') => m = m' /\ exists n, named table (pkh_of p) n /\ named table (pkh_of p') n
  | TEndorsementWithSlot e s, TEndorsementWithSlot e' s' =>
    ti_branch e = ti_branch e' /\ ti_level e = ti_level e' /\ s = s'
  | _, _ => False
  end.
