(** The generators of test vectors: zemu/test-vectors-gen. *)
From Coq Require Import NArith ZArith Bool Arith String List.
From Verif Require Import Base Text Zuit.
Import ListNotations.
Open Scope string_scope.
Open Scope list_scope.
Open Scope N_scope.

(** ** Numbers *)

(** [Number.prototype.toString] of an integer below 2^53. *)
Definition js_integer (n : N) : bytes := itoa n.

(** common.ts l.1: [MUTEZ_MULT]. *)
Definition MUTEZ_MULT : N := 1000000.

(** Division of an integer below 2^53 by [MUTEZ_MULT] in IEEE 754 doubles: the quotient is
    [mantissa / 2^shift] with a mantissa of 53 bits, rounded to nearest, ties to even. *)
Definition js_shift (m : N) : N :=
  let s := 71 - N.log2 m in
  if 2 ^ 52 * MUTEZ_MULT <=? m * 2 ^ s then s else s + 1.
Definition js_mantissa (m : N) : N :=
  let x := m * 2 ^ js_shift m in
  let q := x / MUTEZ_MULT in
  let r := x mod MUTEZ_MULT in
  if (MUTEZ_MULT <? 2 * r) || ((2 * r =? MUTEZ_MULT) && N.odd q) then q + 1 else q.

(** [Number.prototype.toFixed] (6 digits) of [mantissa / 2^shift]: the integer [n] for which
    [n / 10^6] is closest, the larger one of two; at least seven digits of it, and a point
    before the last six. *)
Definition js_closest (mantissa shift : N) : N := (2 * MUTEZ_MULT * mantissa + 2 ^ shift) / 2 ^ (shift + 1).
Definition js_fixed (n : N) : bytes :=
  let ds := js_integer n in
  let ds := repeat 48 (7 - length ds) ++ ds in
  firstn (length ds - 6) ds ++ [46] ++ skipn (length ds - 6) ds.

(** common.ts l.7-9: [ledger_fmt]. *)
Definition ledger_fmt (t : bytes) : list bytes := [t].
(** common.ts l.12-18: [ledger_fmt_currency] of the text of an integer below 2^53, which
    [Number.parseInt] reads exactly. *)
Definition ledger_fmt_currency (m : N) : list bytes := [js_fixed (js_closest (js_mantissa m) (js_shift m))].

(** ** Vectors *)

(** The addresses of the emulated device (e.g. delegation.ts l.51-56) and what the node
    estimates (l.73; reveal.ts l.78-79). *)
Record holders := mkHolders { ho_ed : bytes; ho_k1 : bytes; ho_p256 : bytes }.
Record estimate := mkEstimate { es_fee : N; es_gas : N; es_storage : N }.

(** What the generators put into a vector: [hash] is the text of the branch, [source] that
    of the signer, [n] the number of the vector. The seed nonces (seed_nonce_revelation.ts)
    have no expected pages. *)
Inductive generated :=
| GTransaction (hash source : bytes) (h : holders) (e : estimate) (counter : N)
| GDelegation (hash source : bytes) (h : holders) (e : estimate) (counter n : N)
| GReveal (hash source pk : bytes) (e : estimate) (counter : N)
| GOrigination (hash source : bytes) (h : holders) (counter n : N)
| GBallot (hash source : bytes) (n : N)
| GProposals (hash source : bytes) (n : N)
| GEndorsement (hash : bytes) (n : N)
| GActivation (hash source secret : bytes).

(** delegation.ts l.41: [knownBakers]. *)
Definition OBSIDIAN : bytes := str "tz1eY5Aqa1kXDFoiebL28emyXFoneAoVg1zh".
(** delegation.ts l.83-92: the address, which may be undefined, and the name. *)
Definition delegation_choice (h : holders) (n : N) : option bytes * bytes :=
  nth (N.to_nat (n mod 5))
    [(Some OBSIDIAN, str "Obsidian"); (Some (ho_ed h), ho_ed h); (Some (ho_p256 h), ho_p256 h);
     (Some (ho_k1 h), ho_k1 h); (None, str "<REVOKED>")] (None, []).

(** origination.ts l.79-90: the delegate. *)
Definition origination_choice (h : holders) (n : N) : option bytes :=
  if n mod 3 =? 0 then Some (ho_p256 h)
  else if n mod 2 =? 0 then Some (ho_k1 h)
  else if n mod 5 =? 0 then None
  else Some (ho_ed h).

(** ballot.ts l.78-85: the vote and the proposal; proposals.ts l.78-86. *)
Definition GRANADA : bytes := str "PtGRANADsDU8R9daYKAgWnQYAJ64omN1o3KMGVCykShA97vQbvV".
Definition FLORENCE : bytes := str "PsFLorenaUUuikDWvMDr6fGBRG8kt3e3D3fHoXK1j1BFRxeSH4i".
Definition CARTHAGE : bytes := str "PsCARTHAGazKbHtnKfLzQg3kms52kSRpgnDY982a9oYsSXRLQEb".
Definition ballot_choice (n : N) : bytes * bytes :=
  if n mod 3 =? 0 then (str "yay", GRANADA)
  else if n mod 2 =? 0 then (str "nay", FLORENCE)
  else (str "pass", GRANADA).
Definition proposals_choice (n : N) : bytes * bytes :=
  if n mod 2 =? 0 then (CARTHAGE, FLORENCE) else (FLORENCE, CARTHAGE).

(** origination.ts l.140-143: [forgedCode] and [forgedStorage]. *)
Definition FORGED_CODE : bytes :=
  [0x02; 0x00; 0x00; 0x00; 0x0c; 0x05; 0x00; 0x03; 0x6c; 0x05; 0x01; 0x03; 0x6c; 0x05; 0x02; 0x03; 0x02].
Definition FORGED_STORAGE : bytes := [0x03; 0x0b].
(** legacy.ts l.81: [0.01 * MUTEZ_MULT]; origination.ts l.100-102. *)
Definition AMOUNT : N := 10000.
Definition ORIGINATION_FEE : N := 10000.
Definition ORIGINATION_LIMIT : N := 10.

Definition entry (i : nat) (k : string) (v : list bytes) : expected := mkExpected i (str k) v.
(** The last entries of the operations of managers. *)
Definition limits_from (i : nat) (gas storage counter : N) : list expected :=
  [entry i "Gas Limit" (ledger_fmt (js_integer gas));
   entry (i + 1) "Storage Limit" (ledger_fmt (js_integer storage));
   entry (i + 2) "Counter" (ledger_fmt (js_integer counter))].

(** The member [output] of a vector: legacy.ts l.112-123, delegation.ts l.121-130, reveal.ts
    l.117-126, origination.ts l.156-168, ballot.ts l.113-120, proposals.ts l.112-119,
    endorsement.ts l.100-104, activate_account.ts l.101-106. [sha256] is that of node's
    crypto (origination.ts l.141-143). *)
Definition output (sha256 : bytes -> bytes) (g : generated) : list expected :=
  match g with
  | GTransaction hash source h e counter =>
    [entry 0 "Operation" (ledger_fmt hash);
     entry 1 "Type" (ledger_fmt (str "Transaction"));
     entry 2 "Source" (ledger_fmt source);
     entry 3 "Destination" (ledger_fmt (ho_k1 h));
     entry 4 "Amount" (ledger_fmt_currency AMOUNT);
     entry 5 "Fee" (ledger_fmt_currency (es_fee e));
     entry 6 "Parameters" (ledger_fmt (str "no parameters..."))]
    ++ limits_from 7 (es_gas e) (es_storage e) counter
  | GDelegation hash source h e counter n =>
    let d := delegation_choice h n in
    [entry 0 "Operation" (ledger_fmt hash);
     entry 1 "Type" (ledger_fmt (match fst d with Some _ => str "Delegation" | None => str "Delegation Withdrawal" end));
     entry 2 "Source" (ledger_fmt source);
     entry 3 "Delegation" (ledger_fmt (snd d));
     entry 4 "Fee" (ledger_fmt_currency (es_fee e))]
    ++ limits_from 5 (es_gas e) (es_storage e) counter
  | GReveal hash source pk e counter =>
    [entry 0 "Operation" (ledger_fmt hash);
     entry 1 "Type" (ledger_fmt (str "Revelation"));
     entry 2 "Source" (ledger_fmt source);
     entry 3 "Public Key" (ledger_fmt pk);
     entry 4 "Fee" (ledger_fmt_currency (es_fee e))]
    ++ limits_from 5 (es_gas e) (es_storage e) counter
  | GOrigination hash source h counter n =>
    [entry 0 "Operation" (ledger_fmt hash);
     entry 1 "Type" (ledger_fmt (str "Origination"));
     entry 2 "Source" (ledger_fmt source);
     entry 3 "Balance" (ledger_fmt_currency n);
     entry 4 "Delegate" (ledger_fmt (match origination_choice h n with Some d => d | None => str "no delegate" end));
     entry 5 "Fee" (ledger_fmt_currency ORIGINATION_FEE);
     entry 6 "Code" (ledger_fmt (hex (sha256 FORGED_CODE)));
     entry 7 "Storage" (ledger_fmt (hex (sha256 FORGED_STORAGE)))]
    ++ limits_from 8 ORIGINATION_LIMIT ORIGINATION_LIMIT counter
  | GBallot hash source n =>
    [entry 0 "Operation" (ledger_fmt hash);
     entry 1 "Type" (ledger_fmt (str "Ballot"));
     entry 2 "Source" (ledger_fmt source);
     entry 3 "Period" (ledger_fmt (js_integer n));
     entry 4 "Proposal" (ledger_fmt (snd (ballot_choice n)));
     entry 5 "Vote" (ledger_fmt (fst (ballot_choice n)))]
  | GProposals hash source n =>
    [entry 0 "Operation" (ledger_fmt hash);
     entry 1 "Type" (ledger_fmt (str "Proposals"));
     entry 2 "Source" (ledger_fmt source);
     entry 3 "Period" (ledger_fmt (js_integer n));
     entry 4 "Proposal #1" (ledger_fmt (fst (proposals_choice n)));
     entry 5 "Proposal #2" (ledger_fmt (snd (proposals_choice n)))]
  | GEndorsement hash n =>
    [entry 0 "Operation" (ledger_fmt hash);
     entry 1 "Type" (ledger_fmt (str "Endorsement"));
     entry 2 "Level" (ledger_fmt (js_integer n))]
  | GActivation hash source secret =>
    [entry 0 "Operation" (ledger_fmt hash);
     entry 1 "Type" (ledger_fmt (str "Acct. Activation"));
     entry 2 "Public Key Hash" (ledger_fmt source);
     entry 3 "Secret" (ledger_fmt (hex secret))]
  end.
