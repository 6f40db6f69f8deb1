(** An ideal Tezos app: what a host and a user may take the device for as long as the
    flash works. It remembers an authorised key, the position of the last consensus
    message, a test level, a chain, one upload, one review and the signatures made; it
    has no flash pages, no counters, no buffers and no stored paths. Messages are read
    by offsets. Of the device model only types, the public-key text of [Address] and the
    operation parser of [Operations] are used. *)
From Coq Require Import List NArith Bool Arith.
From Verif Require Import Base Codecs Upload UploadSpec BakingSpec Operations Oracles Address Device.
Import ListNotations.
Open Scope N_scope.

(** ** Reading requests *)

(** The curve of a P2 byte. *)
Definition curve_in (p2 : N) : option curve :=
  nth_error [Ed25519; Secp256K1; Secp256R1; Bip32Ed25519] (N.to_nat p2).

(** A path: its number of components, then exactly so many words. *)
Definition path_in (most : N) (l : bytes) : option path :=
  let n := nth 0 l 0 in
  if (1 <=? n) && (n <=? most) && (len l =? 1 + 4 * n)
  then Some (map (fun i => field (1 + 4 * i) 4 l) (seq 0 (N.to_nat n)))
  else None.

(** A consensus message: its position, or nothing the app understands, or a fitness of
    version 2 too short for a round, on which the app stops. *)
Inductive reading := Position (p : cpos) | Malformed | Crash.
Definition consensus_in (d : bytes) : reading :=
  let m := nth 0 d 0 in
  if (m =? 0x01) || (m =? 0x11) then
    let n := field 83 4 d in
    let version := nth 91 d 0 in
    if (len d <? 87 + n) || (n <? 5) then Malformed
    else if (version =? 2) && (n <? 9) then Crash
    else if (m =? 0x01) && (version <=? 1) then Position (PEmmy (field 5 4 d) false)
    else if (m =? 0x11) && (version =? 2)
    then Position (PTB (field 5 4 d) (field (87 + N.to_nat n - 4) 4 d) KBlock)
    else Malformed
  else
    let tag := nth 37 d 0 in
    if (m =? 0x02) && (tag =? 0) && (42 <=? len d) then Position (PEmmy (field 38 4 d) true)
    else if (m =? 0x12) && (tag =? 20) && (80 <=? len d)
    then Position (PTB (field 40 4 d) (field 44 4 d) KPre)
    else if (m =? 0x13) && (tag =? 21) && (80 <=? len d)
    then Position (PTB (field 40 4 d) (field 44 4 d) KEnd)
    else Malformed.

(** The order of positions, decided. *)
Definition later (new old : cpos) : bool :=
  match old, new with
  | PEmmy l e, PEmmy l' e' => (l <? l') || ((l =? l') && negb e && e')
  | PEmmy _ _, PTB _ _ _ => true
  | PTB _ _ _, PEmmy _ _ => false
  | PTB l r k, PTB l' r' k' =>
    (l <? l') || ((l =? l') && (r <? r')) || ((l =? l') && (r =? r') && (kind_rank k <? kind_rank k'))
  end.

(** ** The ideal app *)

Record ideal := mkIdeal {
  i_key : option key;                          (** the authorised key *)
  i_main : option cpos;                        (** the last position on the main chain *)
  i_test : option N;                           (** the level of the test chain *)
  i_chain : option N;                          (** the main chain's id *)
  i_upload : pstate;                           (** the upload in progress *)
  i_review : option (viewable * option key);   (** the review, and the key it will use *)
  i_sigs : list sigrec                         (** signatures made, newest first *)
}.
Definition ideal_fresh : ideal := mkIdeal None None None None None None [].
Definition unplug (s : ideal) : ideal :=
  mkIdeal (i_key s) (i_main s) (i_test s) (i_chain s) None None (i_sigs s).
Definition put_key (k : option key) (s : ideal) : ideal :=
  mkIdeal k (i_main s) (i_test s) (i_chain s) (i_upload s) (i_review s) (i_sigs s).
Definition put_main (p : cpos) (s : ideal) : ideal :=
  mkIdeal (i_key s) (Some p) (i_test s) (i_chain s) (i_upload s) (i_review s) (i_sigs s).
Definition put_marks (main test chain : N) (s : ideal) : ideal :=
  mkIdeal (i_key s) (Some (PEmmy main false)) (Some test) (Some chain) (i_upload s) (i_review s) (i_sigs s).
Definition put_upload (u : pstate) (s : ideal) : ideal :=
  mkIdeal (i_key s) (i_main s) (i_test s) (i_chain s) u (i_review s) (i_sigs s).
Definition put_review (r : option (viewable * option key)) (s : ideal) : ideal :=
  mkIdeal (i_key s) (i_main s) (i_test s) (i_chain s) (i_upload s) r (i_sigs s).
Definition put_sig (g : sigrec) (s : ideal) : ideal :=
  mkIdeal (i_key s) (i_main s) (i_test s) (i_chain s) (i_upload s) (i_review s) (g :: i_sigs s).

(** How a request ends. *)
Inductive effect :=
| Give (out : bytes) (s : ideal)        (** these bytes, and success *)
| Wait (s : ideal)                      (** the user decides *)
| Refuse (e : apdu_error) (s : ideal)
| Stop (s : ideal).                     (** the app stops *)
Notation "'get' x <- o 'or' e 'at' s ; f" := (match o with Some x => f | None => Refuse e s end)
  (at level 200, x pattern, o at level 100, e at level 100, s at level 100, f at level 200).

Section Ideal.
  Variable C : config.
  Variable O : oracles.

  Definition ask (v : viewable) (signer : option key) (s : ideal) : effect :=
    get _ <- cf_room C v or ExecutionError at s; Wait (put_review (Some (v, signer)) s).
  Definition sign (src : sig_source) (k : key) (digest data : bytes) (s : ideal)
      (f : bytes -> ideal -> effect) : effect :=
    get g <- o_sign O (fst k) (snd k) digest or ExecutionError at s;
    if (100 <? length g)%nat then Stop s else f g (put_sig (mkSig src k digest data) s).
  Definition sign_answer (with_hash : bool) (digest g : bytes) (s : ideal) : effect :=
    Give (if with_hash then digest ++ g else g) s.

  (** The key a request names, and its address. *)
  Definition with_address (refusal : apdu_error) (c : curve) (pk : bytes) (s : ideal) (f : addr -> effect) : effect :=
    match addr_new O c pk with SOk a => f a | SErr => Refuse refusal s | SPanic => Stop s end.
  Definition with_key_address (k : key) (s : ideal) (f : addr -> effect) : effect :=
    get pk <- o_pubkey O (fst k) (snd k) or ExecutionError at s;
    with_address ExecutionError (fst k) pk s f.

  (** ** Commands *)

  (** The messages the app knows by their first byte. *)
  Definition known_kind (d : bytes) : bool :=
    match d with m :: _ => existsb (N.eqb m) [1; 2; 3; 4; 5; 0x11; 0x12; 0x13] | [] => false end.

  (** A message signed with the authorised key: consensus messages if they come later
      than the last, delegations and reveals after a review. *)
  Definition bake (with_hash : bool) (up : upload_out) (s : ideal) : effect :=
    let data := uo_data up in
    get c <- curve_in (uo_p2 up) or InvalidP1P2 at s;
    get pa <- path_in 10 (uo_first up) or DataInvalid at s;
    get k <- i_key s or ConditionsNotSatisfied at s;
    if negb (key_eqb k (c, pa)) then Refuse DataInvalid s else
    get digest <- o_blake2b O 32 data or ExecutionError at s;
    if negb (known_kind data) then Refuse DataInvalid s
    else if existsb (N.eqb (nth 0 data 0)) [4; 5] then Refuse CommandNotAllowed s
    else if nth 0 data 0 =? 3 then
      get (branch, ops) <- operation_new (skipn 1 data) or DataInvalid at s;
      match eo_next ops with
      | NPanic => Stop s
      | NErr | NNone => Refuse DataInvalid s
      | NSome (ODelegation _ _ as o) _ | NSome (OReveal _ _ as o) _ =>
        ask (VBakingSign with_hash digest branch o data) (Some k) s
      | NSome _ _ => Refuse CommandNotAllowed s
      end
    else
      get last <- i_main s or ExecutionError at s;
      match consensus_in data with
      | Crash => Stop s
      | Malformed => Refuse DataInvalid s
      | Position p =>
        if (cpos_level p <? 2 ^ 31) && later p last
        then sign SrcConsensus k digest data (put_main p s) (sign_answer with_hash digest)
        else Refuse DataInvalid s
      end.

  (** A message signed with the key the request names, after a review. *)
  Definition review_sign (with_hash : bool) (up : upload_out) (s : ideal) : effect :=
    let data := uo_data up in
    get c <- curve_in (uo_p2 up) or InvalidP1P2 at s;
    get pa <- path_in 10 (uo_first up) or DataInvalid at s;
    get digest <- o_blake2b O 32 data or ExecutionError at s;
    if negb (known_kind data) then Refuse DataInvalid s
    else if nth 0 data 0 =? 3 then
      get parsed <- operation_new (skipn 1 data) or DataInvalid at s;
      ask (VSign with_hash digest (Some parsed) data) (Some (c, pa)) s
    else if nth 0 data 0 =? 5 then ask (VSign with_hash digest None data) (Some (c, pa)) s
    else Refuse CommandNotAllowed s.

  (** A packet of an upload; the last one hands the message over. *)
  Definition packet (a : accessor) (buf : bytes) (s : ideal) (f : upload_out -> ideal -> effect) : effect :=
    let (r, u) := proto_step a buf (i_upload s) in
    match r with
    | Ok None => Give [] (put_upload u s)
    | Ok (Some up) => f up (put_upload u s)
    | Err e => Refuse e (put_upload u s)
    | Panic | Cut => Stop s
    end.

  Definition authorize (buf : bytes) (s : ideal) : effect :=
    if nth 2 buf 0 =? 0 then Refuse ConditionsNotSatisfied s else
    get c <- curve_in (nth 3 buf 0) or InvalidP1P2 at s;
    get pa <- path_in 10 (pay buf) or DataInvalid at s;
    with_key_address (c, pa) s (fun a => ask (VAuthorize (c, pa) a) None s).
  Definition deauthorize (buf : bytes) (s : ideal) : effect :=
    if nth 2 buf 0 =? 0 then Refuse ConditionsNotSatisfied s else
    get k <- i_key s or ConditionsNotSatisfied at s;
    with_key_address k s (fun a => ask (VDeauthorize a) None s).

  (** The authorised key, told in at most [room] bytes. *)
  Definition tell_key (with_curve : bool) (k : key) (room : N) (s : ideal) : effect :=
    let head := (if with_curve then [byte_of_curve (fst k)] else []) ++ [len (snd k) mod 256] in
    if room <? len head then Stop s
    else Give (head ++ flat_map (be 4) (firstn (N.to_nat ((room - len head) / 4)) (snd k))) s.
  Definition ask_key (with_curve : bool) (buf : bytes) (s : ideal) : effect :=
    get k <- i_key s or ConditionsNotSatisfied at s;
    with_key_address k s (fun a =>
      if nth 2 buf 0 =? 0 then tell_key with_curve k 260 s else ask (VQuery with_curve k a) None s).

  Definition hmac (buf : bytes) (s : ideal) : effect :=
    let n := (1 + 4 * N.to_nat (nth 0 (pay buf) 0%N))%nat in
    get c <- curve_in (nth 3 buf 0) or InvalidP1P2 at s;
    if (length (pay buf) <? n)%nat then Refuse WrongLength s else
    get pa <- path_in 10 (firstn n (pay buf)) or DataInvalid at s;
    sign SrcHmac (c, pa) HMAC_KEY HMAC_KEY s (fun g s' =>
      get hk <- o_sha512 O g or ExecutionError at s';
      get out <- o_hmac256 O hk (skipn n (pay buf)) or ExecutionError at s';
      Give out s').

  (** Chain id, main and test level, key. *)
  Definition setup (buf : bytes) (s : ideal) : effect :=
    let p := pay buf in
    let n := (1 + 4 * N.to_nat (nth 12 p 0%N))%nat in
    get c <- curve_in (nth 3 buf 0) or InvalidP1P2 at s;
    if (length p <? 13)%nat || (length p <? 12 + n)%nat then Refuse WrongLength s else
    get pa <- path_in 10 (firstn n (skipn 12 p)) or DataInvalid at s;
    with_key_address (c, pa) s (fun a =>
      ask (VSetup (c, pa) (field 4 4 p) (field 8 4 p) (chain_of_u32 (field 0 4 p)) a) None s).

  Definition reset (buf : bytes) (s : ideal) : effect :=
    if (length (pay buf) <? 4)%nat then Refuse WrongLength s
    else
      let l := field 0 4 (pay buf) in
      let chain := match i_chain s with Some c => c | None => 0x7A06A770 end in
      Give [] (put_marks l l chain s).
  (** Nothing stored counts as the highest level. *)
  Definition main_mark (s : ideal) : effect :=
    Give (be 4 match i_main s with Some p => cpos_level p | None => 0xFFFFFFFF end) s.
  Definition all_marks (s : ideal) : effect :=
    match i_main s, i_test s, i_chain s with
    | Some p, Some t, Some c => Give (be 4 (cpos_level p) ++ be 4 t ++ be 4 c) s
    | _, _, _ => Give (be 4 0xFFFFFFFF ++ be 4 0xFFFFFFFF ++ be 4 0x7A06A770) s
    end.

  (** A public key with its length, and its address as text. *)
  Definition tell_address (with_addr : bool) (pk : bytes) (a : addr) (s : ideal) : effect :=
    if with_addr then
      match addr_base58 a with
      | SOk t => Give (len pk mod 256 :: pk ++ t) s
      | SErr => Refuse ExecutionError s
      | SPanic => Stop s
      end
    else Give (len pk mod 256 :: pk) s.
  Definition with_public_key (buf : bytes) (s : ideal) (f : curve -> bytes -> effect) : effect :=
    get c <- curve_in (nth 3 buf 0) or InvalidP1P2 at s;
    get pa <- path_in 6 (pay buf) or DataInvalid at s;
    get pk <- o_pubkey O c pa or ExecutionError at s;
    f c pk.
  Definition public_key (buf : bytes) (s : ideal) : effect :=
    with_public_key buf s (fun _ pk => Give (len pk mod 256 :: pk) s).
  Definition show_address (always : bool) (buf : bytes) (s : ideal) : effect :=
    with_public_key buf s (fun c pk =>
      with_address DataInvalid c pk s (fun a =>
        if always || negb (nth 2 buf 0 =? 0) then ask (VAddr true pk a) None s
        else tell_address true pk a s)).

  Definition release : bytes := let '(x, y, z) := cf_version C in [x; y; z].
  Definition commit (s : ideal) : effect :=
    if (length (cf_commit C) <? 8)%nat then Stop s else Give (firstn 8 (cf_commit C) ++ [0]) s.

  (** ** Instruction codes *)

  Definition command := bytes -> ideal -> effect.
  Definition sign_command (with_hash : bool) : command := fun buf s =>
    packet AccSign buf s (review_sign with_hash).
  Definition bake_command (with_hash : bool) : command := fun buf s =>
    packet AccBaking buf s (bake with_hash).
  Definition common_commands : list (N * command) :=
    [(0x00, fun _ => Give ((if cf_baking C then 1 else 0) :: release));
     (0x02, public_key);
     (0x03, show_address true);
     (0x09, fun _ => commit);
     (0x10, fun _ => Give ([0] ++ release ++ [0] ++ be 4 (cf_target C)));
     (0x11, show_address false);
     (0x12, sign_command true)].
  Definition wallet_commands : list (N * command) :=
    [(0x04, sign_command false); (0x05, sign_command false); (0x0F, sign_command true)].
  Definition baking_commands : list (N * command) :=
    [(0x04, bake_command false); (0x0F, bake_command true); (0xAF, bake_command true);
     (0x01, authorize); (0xA1, authorize);
     (0x0C, deauthorize); (0xAC, deauthorize);
     (0x07, ask_key false); (0xA7, ask_key false);
     (0x0D, ask_key true); (0xAD, ask_key true);
     (0x06, reset); (0x08, fun _ => main_mark); (0x0B, fun _ => all_marks);
     (0x0A, setup); (0x0E, hmac)].
  Definition commands : list (N * command) :=
    common_commands ++ if cf_baking C then baking_commands else wallet_commands.

  Definition request (buf : bytes) (rx : N) (s : ideal) : effect :=
    if (rx <? 5) || (260 <? rx) then Refuse WrongLength s
    else if negb (nth 0 buf 0 =? 0x80) then Refuse ClaNotSupported s
    else match find (fun p => fst p =? nth 1 buf 0) commands with
         | Some (_, f) => f buf s
         | None => Refuse CommandNotAllowed s
         end.

  (** ** Decisions *)

  Definition approve (v : viewable) (signer : option key) (room : N) (s : ideal) : effect :=
    match v with
    | VSign with_hash digest _ data =>
      get k <- signer or ConditionsNotSatisfied at s;
      sign SrcReview k digest data s (sign_answer with_hash digest)
    | VBakingSign with_hash digest _ _ data =>
      get k <- signer or ConditionsNotSatisfied at s;
      sign SrcBakingReview k digest data s (sign_answer with_hash digest)
    | VAuthorize k _ =>
      get pk <- o_pubkey O (fst k) (snd k) or ExecutionError at s;
      Give (len pk mod 256 :: pk) (put_key (Some k) s)
    | VDeauthorize _ => Give [] (put_key None s)
    | VQuery with_curve k _ => tell_key with_curve k room s
    | VAddr with_addr pk a => tell_address with_addr pk a s
    | VSetup k main test chain _ =>
      get pk <- o_pubkey O (fst k) (snd k) or ExecutionError at s;
      Give (len pk mod 256 :: pk) (put_marks main test (u32_of_chain chain) (put_key (Some k) s))
    end.

  (** ** Answers *)

  (** The answer and its status word must fit into [room] bytes. *)
  Definition conclude (room : N) (x : effect) : answer * ideal :=
    match x with
    | Give out s => if room <? len out + 2 then (ADied, unplug s) else (AReply (out ++ [0x90; 0x00]), s)
    | Wait s => (APending, s)
    | Refuse e s => if room <? 2 then (ADied, unplug s) else (AReply (be 2 (sw e)), s)
    | Stop s => (ADied, unplug s)
    end.
  Definition decided (s : ideal) (f : viewable -> option key -> N -> ideal -> effect) : answer * ideal :=
    match i_review s with
    | None => (ANone, s)
    | Some (v, signer) =>
      let room := match cf_room C v with Some r => r | None => 0 end in
      conclude room (f v signer room (put_review None s))
    end.
  Definition ideal_step (s : ideal) (e : event) : answer * ideal :=
    match e with
    | EApdu buf rx =>
      match i_review s with
      | Some _ => (ANone, s)
      | None => conclude 260 (request buf rx s)
      end
    | EApprove => decided s approve
    | EReject => decided s (fun _ _ _ => Refuse CommandNotAllowed)
    | EUiError => decided s (fun _ _ _ => Refuse DataInvalid)
    | EPower => (ADied, unplug s)
    end.
  Fixpoint ideal_run (s : ideal) (es : list event) : list answer * ideal :=
    match es with
    | [] => ([], s)
    | e :: es' =>
      let (a, s1) := ideal_step s e in
      let (l, s2) := ideal_run s1 es' in (a :: l, s2)
    end.
End Ideal.
