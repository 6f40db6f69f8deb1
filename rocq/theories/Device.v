(** The device: persistent and volatile state, command handlers, user decisions,
    power cycles. The [dev] feature's commands (dispatcher.rs l.129-139) are in
    DevBuild.v, the screens in the review model; timing is not modelled. *)
From Coq Require Import List NArith Bool Arith.
From Verif Require Import Base Flash Codecs Upload Baking Operations Oracles Address.
Import ListNotations.
Open Scope N_scope.

(** ** State *)

(** What waits for the user's decision. [data] is the uploaded message; it is not
    part of the Rust structures, which keep its digest, and is only used to state
    properties. *)
Inductive viewable :=
(** handlers/signing.rs l.135-139: [SignUI]. *)
| VSign (send_hash : bool) (digest : bytes) (parsed : option (bytes * encoded_ops)) (data : bytes)
(** handlers/baking.rs l.376-381: [BakingSignUI]. *)
| VBakingSign (send_hash : bool) (digest : bytes) (branch : bytes) (o : op) (data : bytes)
(** handlers/baking/authorization.rs l.54-58: [AuthorizeUI]. *)
| VAuthorize (k : key) (a : addr)
(** handlers/baking/authorization.rs l.193-195: [DeAuthorizeUI]. *)
| VDeauthorize (a : addr)
(** handlers/baking/queryauth.rs l.110-116: [QueryAuthUI]. *)
| VQuery (with_curve : bool) (k : key) (a : addr)
(** handlers/public_key.rs l.254-262: [AddrUI]. *)
| VAddr (with_addr : bool) (pk : bytes) (a : addr)
(** handlers/legacy/baking/setup.rs l.93-101: [SetupUI]. *)
| VSetup (k : key) (main test : N) (chain : chain_id) (a : addr).

(** Build and hardware parameters: the build flavour, the answers of the version
    commands, and how many bytes of the APDU buffer remain for the answer once a
    viewable is stored at its end ([None] if it does not fit;
    rust/zemu/src/ui_toolkit/backends). *)
Record config := mkConfig {
  cf_baking : bool;
  cf_version : N * N * N;
  cf_target : N;
  cf_commit : bytes;
  cf_room : viewable -> option N
}.

(** A record of every successful call of the signing function: for which purpose,
    with which key, over which bytes. [sg_data] is the message whose digest was
    signed. *)
Inductive sig_source := SrcConsensus | SrcBakingReview | SrcReview | SrcHmac.
Record sigrec := mkSig { sg_src : sig_source; sg_key : key; sg_digest : bytes; sg_data : bytes }.

Record dev := mkDev {
  (** handlers/hwm.rs l.37-44: [MAIN], [TEST], [CHAIN_ID]; handlers/baking.rs
      l.44-46: [BAKINGPATH]. *)
  d_main : wear; d_test : wear; d_chain : wear; d_key : wear;
  (** [BUFFER] and [INIT_LEN]. *)
  d_up : ustate;
  (** handlers/signing.rs l.40-41: [PATH]. *)
  d_path : option key;
  (** The viewable being reviewed. *)
  d_ui : option viewable;
  (** What the flash will do at the next writes to the slots and to the upload buffer. *)
  d_faults : list fault; d_ufaults : list fault;
  (** Signatures made, newest first. *)
  d_log : list sigrec
}.

Inductive slot := SMain | STest | SChain | SKey.
Definition get_slot (s : slot) (d : dev) : wear :=
  match s with SMain => d_main d | STest => d_test d | SChain => d_chain d | SKey => d_key d end.
Definition set_slot (s : slot) (w : wear) (d : dev) : dev :=
  match d with
  | mkDev m t c k u p v f uf l =>
    match s with
    | SMain => mkDev w t c k u p v f uf l
    | STest => mkDev m w c k u p v f uf l
    | SChain => mkDev m t w k u p v f uf l
    | SKey => mkDev m t c w u p v f uf l
    end
  end.
Definition set_up (u : ustate) (d : dev) : dev :=
  match d with mkDev m t c k _ p v f uf l => mkDev m t c k u p v f uf l end.
Definition set_path (p : option key) (d : dev) : dev :=
  match d with mkDev m t c k u _ v f uf l => mkDev m t c k u p v f uf l end.
Definition set_ui (v : option viewable) (d : dev) : dev :=
  match d with mkDev m t c k u p _ f uf l => mkDev m t c k u p v f uf l end.
Definition set_faults (f : list fault) (d : dev) : dev :=
  match d with mkDev m t c k u p v _ uf l => mkDev m t c k u p v f uf l end.
Definition set_ufaults (uf : list fault) (d : dev) : dev :=
  match d with mkDev m t c k u p v f _ l => mkDev m t c k u p v f uf l end.
Definition add_sig (g : sigrec) (d : dev) : dev :=
  match d with mkDev m t c k u p v f uf l => mkDev m t c k u p v f uf (g :: l) end.

(** A device as installed, with a flash behaviour. *)
Definition dev_fresh (faults ufaults : list fault) : dev :=
  mkDev (wear_fresh 8) (wear_fresh 8) (wear_fresh 8) (wear_fresh 1) u_fresh None None
        faults ufaults [].

(** Power cycle: flash stays, everything else starts over. *)
Definition restart (d : dev) : dev :=
  mkDev (wear_restart (d_main d)) (wear_restart (d_test d)) (wear_restart (d_chain d))
        (wear_restart (d_key d)) (u_restart (d_up d)) None None
        (d_faults d) (d_ufaults d) (d_log d).

(** ** Computations on the device *)

Definition M (A : Type) := dev -> outcome A * dev.
Definition ret {A} (a : A) : M A := fun d => (Ok a, d).
Definition fail {A} (e : apdu_error) : M A := fun d => (Err e, d).
Definition panic {A} : M A := fun d => (Panic, d).
Definition bind {A B} (m : M A) (f : A -> M B) : M B := fun d =>
  match m d with
  | (Ok a, d') => f a d'
  | (Err e, d') => (Err e, d')
  | (Panic, d') => (Panic, d')
  | (Cut, d') => (Cut, d')
  end.
Notation "'do' x <- m ; f" := (bind m (fun x => f))
  (at level 200, x pattern, m at level 100, f at level 200).
Definition of_option {A} (e : apdu_error) (o : option A) : M A :=
  match o with Some a => ret a | None => fail e end.
Definition of_sres {A} (e : apdu_error) (r : sres A) : M A :=
  match r with SOk a => ret a | SErr => fail e | SPanic => panic end.
Definition of_ares {A} (r : ares A) : M A :=
  match r with AOk a => ret a | AErr e => fail e end.
Definition check (b : bool) (e : apdu_error) : M unit := if b then ret tt else fail e.

(** [SLOT.read()]: first access aligns or panics. *)
Definition read_slot (s : slot) : M rres := fun d =>
  let w := get_slot s d in
  match wear_init w with
  | None => (Panic, d)
  | Some k => (Ok (wear_read_at w k), set_slot s (mkWear (w_pages w) (Some k)) d)
  end.
(** [SLOT.write(payload)]; [false] is an error. *)
Definition write_slot (s : slot) (payload : bytes) : M bool := fun d =>
  let w := get_slot s d in
  match wear_init w with
  | None => (Panic, d)
  | Some k =>
    let (f, faults) := next_fault (d_faults d) in
    let (w', r) := wear_write_at w k payload f in
    let d' := set_slot s w' (set_faults faults d) in
    match r with WDone => (Ok true, d') | WErr => (Ok false, d') | WLost => (Cut, d') end
  end.
Definition write_or (s : slot) (payload : bytes) (e : apdu_error) : M unit :=
  do b <- write_slot s payload; check b e.
(** [SLOT.read().map_err(|_| e)]. *)
Definition read_or (s : slot) (e : apdu_error) : M bytes :=
  do r <- read_slot s;
  match r with RData p => ret p | _ => fail e end.

Definition the_upload (a : accessor) (buf : bytes) : M (option upload_out) := fun d =>
  let '(r, u, s) := upload a buf (d_up d) (d_ufaults d) in (r, set_up u (set_ufaults s d)).
Definition drop_upload (a : accessor) : M unit := fun d => (Ok tt, set_up (upload_drop a (d_up d)) d).

(** What a command leaves: bytes to answer now, or a review. *)
Inductive reply := Now (data : bytes) | Later.

Section Device.
  Variable C : config.
  Variable O : oracles.

  (** ** Services *)

  (** [Viewable::show] ([.map_err(|_| ExecutionError)]): the viewable is stored, if
      it fits. *)
  Definition show (v : viewable) : M reply := fun d =>
    match cf_room C v with
    | None => (Err ExecutionError, d)
    | Some _ => (Ok Later, set_ui (Some v) d)
    end.

  (** The signing function, recording what was signed. *)
  Definition sign_with (src : sig_source) (k : key) (digest data : bytes) : M bytes := fun d =>
    match o_sign O (fst k) (snd k) digest with
    | None => (Err ExecutionError, d)
    | Some s =>
      (* the signature is written to an array of 100 bytes *)
      if (100 <? length s)%nat then (Panic, d)
      else (Ok s, add_sig (mkSig src k digest data) d)
    end.

  Definition digest32 (data : bytes) : M bytes := of_option ExecutionError (o_blake2b O 32 data).
  Definition pubkey (k : key) : M bytes :=
    of_option ExecutionError (o_pubkey O (fst k) (snd k)).
  (** handlers/public_key.rs l.54-71: [new_addr_into]. *)
  Definition address (k : key) : M addr :=
    do pk <- pubkey k; of_sres ExecutionError (addr_new O (fst k) pk).

  (** ** Authorised key: handlers/baking.rs *)

  (** baking.rs l.161-168: [read_baking_key]; also the shape of l.136-143 and
      queryauth.rs l.42-48. *)
  Definition read_baking_key : M (option key) :=
    do p <- read_or SKey ConditionsNotSatisfied; of_ares (key_parse p).
  (** baking.rs l.149-158. *)
  Definition store_baking_key (k : key) : M unit := write_or SKey (key_serialize k) ExecutionError.
  Definition remove_baking_key : M unit := write_or SKey key_empty ExecutionError.
  (** baking.rs l.136-146. *)
  Definition check_with_stored (k : key) : M bool :=
    do p <- read_or SKey ConditionsNotSatisfied;
    do o <- of_ares (key_parse p);
    do stored <- of_option ConditionsNotSatisfied o;
    ret (key_eqb stored k).
  (** baking.rs l.171-189. *)
  Definition baking_sign (src : sig_source) (digest data : bytes) : M bytes :=
    do p <- read_or SKey ExecutionError;
    do o <- of_ares (key_parse p);
    do stored <- of_option ConditionsNotSatisfied o;
    sign_with src stored digest data.

  (** Answer of the signing commands: the digest if asked for, then the signature. *)
  Definition signed (send_hash : bool) (digest s : bytes) : bytes :=
    (if send_hash then digest else []) ++ s.

  (** baking.rs l.192-245 and l.248-287: [handle_endorsement], [handle_blockdata]; the
      parsing and checking in between is [consensus_check]. *)
  Definition handle_consensus (p : preemble) (rem : bytes) (send_hash : bool) (digest data : bytes)
    : M reply :=
    do hw <- read_or SMain ExecutionError;
    match consensus_check p rem (wm_parse hw) with
    | None => panic
    | Some r =>
      do wm <- of_ares r;
      do _ <- write_or SMain (wm_serialize wm) ExecutionError;
      do s <- baking_sign SrcConsensus digest data;
      ret (Now (signed send_hash digest s))
    end.

  (** baking.rs l.290-329: [handle_delegation]. *)
  Definition handle_delegation (rem : bytes) (send_hash : bool) (digest data : bytes) : M reply :=
    match operation_new rem with
    | None => fail DataInvalid
    | Some (branch, ops) =>
      match eo_next ops with
      | NPanic => panic
      | NErr | NNone => fail DataInvalid
      | NSome o _ =>
        match o with
        | ODelegation _ _ | OReveal _ _ => show (VBakingSign send_hash digest branch o data)
        | _ => fail CommandNotAllowed
        end
      end
    end.

  (** baking.rs l.332-368: [baker_sign]. *)
  Definition baker_sign (send_hash : bool) (up : upload_out) : M reply :=
    do c <- of_option InvalidP1P2 (curve_of_byte (uo_p2 up));
    do pa <- of_option DataInvalid (path_read BIP32_MAX_LENGTH (uo_first up));
    do ok <- check_with_stored (c, pa);
    do _ <- check ok DataInvalid;
    do digest <- digest32 (uo_data up);
    match preemble_parse (uo_data up) with
    | PPanic => panic
    | PErr => fail DataInvalid
    | POk rem p =>
      match p with
      | PreTBPreendorsement | PreTBEndorsement | PreEndorsement | PreTBBlock | PreBlock =>
        handle_consensus p rem send_hash digest (uo_data up)
      | PreOperation => handle_delegation rem send_hash digest (uo_data up)
      | _ => fail CommandNotAllowed
      end
    end.

  (** signing.rs l.78-113: [start_sign]. *)
  Definition start_sign (send_hash : bool) (up : upload_out) : M reply :=
    do c <- of_option InvalidP1P2 (curve_of_byte (uo_p2 up));
    do pa <- of_option DataInvalid (path_read BIP32_MAX_LENGTH (uo_first up));
    do _ <- (fun d => (Ok tt, set_path (Some (c, pa)) d));
    do digest <- digest32 (uo_data up);
    match preemble_parse (uo_data up) with
    | PPanic => panic
    | PErr => fail DataInvalid
    | POk rem p =>
      match p with
      | PreOperation =>
        do parsed <- of_option DataInvalid (operation_new rem);
        show (VSign send_hash digest (Some parsed) (uo_data up))
      | PreMichelson => show (VSign send_hash digest None (uo_data up))
      | _ => fail CommandNotAllowed
      end
    end.

  (** An upload command: the collected upload is processed and dropped whatever the
      result (baking.rs l.462-484, signing.rs l.116-133, legacy/signing.rs l.29-135). *)
  Definition with_upload (a : accessor) (buf : bytes) (f : upload_out -> M reply) : M reply :=
    do o <- the_upload a buf;
    match o with
    | None => ret (Now [])
    | Some up => fun d =>
      match f up d with
      | (Ok r, d') => bind (drop_upload a) (fun _ => ret r) d'
      | (Err e, d') => bind (drop_upload a) (fun _ => fail e) d'
      | (Panic, d') => (Panic, d')
      | (Cut, d') => (Cut, d')
      end
    end.
  Definition h_sign (send_hash : bool) (buf : bytes) : M reply :=
    with_upload AccSign buf (start_sign send_hash).
  Definition h_baker_sign (send_hash : bool) (buf : bytes) : M reply :=
    with_upload AccBaking buf (baker_sign send_hash).

  (** ** Other handlers *)

  Definition the_payload (buf : bytes) : M bytes := of_option DataInvalid (apdu_payload buf).
  Definition the_curve (buf : bytes) : M curve := of_option InvalidP1P2 (curve_of_byte (apdu_p2 buf)).
  Definition needs_review (buf : bytes) : bool := 1 <=? apdu_p1 buf.

  (** baking/authorization.rs l.78-103 with l.60-76, and legacy/baking.rs l.35-65. *)
  Definition h_authorize (buf : bytes) : M reply :=
    do _ <- check (needs_review buf) ConditionsNotSatisfied;
    do c <- the_curve buf;
    do cdata <- the_payload buf;
    do pa <- of_option DataInvalid (path_read BIP32_MAX_LENGTH cdata);
    do a <- address (c, pa);
    show (VAuthorize (c, pa) a).

  (** baking/authorization.rs l.197-217 with l.175-190, and legacy/baking.rs. *)
  Definition h_deauthorize (buf : bytes) : M reply :=
    do _ <- check (needs_review buf) ConditionsNotSatisfied;
    do o <- read_baking_key;
    do k <- of_option ConditionsNotSatisfied o;
    do a <- address k;
    show (VDeauthorize a).

  (** queryauth.rs l.166-187: [QueryAuthUI::accept] into [room] bytes; components
      that do not fit are left out. *)
  Definition query_answer (with_curve : bool) (k : key) (room : N) : option bytes :=
    let head := (if with_curve then [byte_of_curve (fst k)] else []) ++ [len (snd k) mod 256] in
    if room <? len head then None
    else Some (head ++ concat (map (be 4) (firstn (N.to_nat ((room - len head) / 4)) (snd k)))).

  (** queryauth.rs l.35-63: [query]. The answer goes to the whole APDU buffer. *)
  Definition h_query (with_curve : bool) (buf : bytes) : M reply :=
    do o <- read_baking_key;
    do k <- of_option ConditionsNotSatisfied o;
    do a <- address k;
    if needs_review buf then show (VQuery with_curve k a)
    else match query_answer with_curve k (len buf) with
         | None => panic
         | Some out => ret (Now out)
         end.

  (** baking/hmac.rs l.36-41: [KEY_SHA256]. *)
  Definition HMAC_KEY : bytes :=
    [0x6c; 0x4e; 0x7e; 0x70; 0x6c; 0x54; 0xd3; 0x67; 0xc8; 0x7a; 0x8d; 0x89; 0xc1; 0x6a; 0xdf; 0xe0;
     0x6c; 0xb5; 0x68; 0x0c; 0xb7; 0xd1; 0x8e; 0x62; 0x5a; 0x90; 0x47; 0x5e; 0xc0; 0xdb; 0xdb; 0x9f].
  (** legacy/hmac.rs l.30-54 and baking/hmac.rs l.43-86. *)
  Definition h_hmac (buf : bytes) : M reply :=
    do c <- the_curve buf;
    do cdata <- the_payload buf;
    match cdata with
    | [] => fail WrongLength
    | n :: _ =>
      let plen := (1 + 4 * N.to_nat n)%nat in
      do _ <- check (plen <=? length cdata)%nat WrongLength;
      do pa <- of_option DataInvalid (path_read BIP32_MAX_LENGTH (firstn plen cdata));
      do s <- sign_with SrcHmac (c, pa) HMAC_KEY HMAC_KEY;
      do hk <- of_option ExecutionError (o_sha512 O s);
      do out <- of_option ExecutionError (o_hmac256 O hk (skipn plen cdata));
      ret (Now out)
    end.

  (** legacy/baking/setup.rs l.61-91 with l.40-58 and l.103-139. *)
  Definition h_setup (buf : bytes) : M reply :=
    do c <- the_curve buf;
    do cdata <- the_payload buf;
    do _ <- check (13 <=? length cdata)%nat WrongLength;
    let chain := unbe (slice 0 4 cdata) in
    let main := unbe (slice 4 4 cdata) in
    let test := unbe (slice 8 4 cdata) in
    let plen := (1 + 4 * N.to_nat (nth 12 cdata 0%N))%nat in
    do _ <- check (12 + plen <=? length cdata)%nat WrongLength;
    do pa <- of_option DataInvalid (path_read BIP32_MAX_LENGTH (slice 12 plen cdata));
    do a <- address (c, pa);
    show (VSetup (c, pa) main test (chain_of_u32 chain) a).

  (** legacy/hwm.rs l.32-55 with hwm.rs l.51-69: RESET. *)
  Definition h_reset (buf : bytes) : M reply :=
    do pl <- the_payload buf;
    do _ <- check (4 <=? length pl)%nat WrongLength;
    let wm := wm_serialize (wm_reset (unbe (firstn 4 pl)) false) in
    do _ <- write_or SMain wm ExecutionError;
    do _ <- write_or STest wm ExecutionError;
    do r <- read_slot SChain;
    match r with
    | RUninit =>
      do _ <- write_or SChain (chain_serialize (chain_of_u32 MAINNET_CHAIN_ID)) ExecutionError;
      ret (Now [])
    | _ => ret (Now [])
    end.

  (** legacy/hwm.rs l.57-83 with hwm.rs l.72-81: QUERY_MAIN_HWM. *)
  Definition h_main_hwm : M reply :=
    do r <- read_slot SMain;
    match r with
    | RData p => ret (Now (be 4 (wm_level (wm_parse p))))
    | RUninit => ret (Now (be 4 (wm_level wm_default)))
    | RCrc => fail ExecutionError
    end.

  (** legacy/hwm.rs l.85-111 with hwm.rs l.90-137: QUERY_ALL_HWM. The first slot that
      cannot be read decides. *)
  Definition all_default : bytes :=
    be 4 (wm_level wm_default) ++ be 4 (wm_level wm_default) ++ be 4 MAINNET_CHAIN_ID.
  Definition h_all_hwm : M reply :=
    do r <- read_slot SMain;
    match r with
    | RCrc => fail ExecutionError
    | RUninit => ret (Now all_default)
    | RData main =>
      do r <- read_slot STest;
      match r with
      | RCrc => fail ExecutionError
      | RUninit => ret (Now all_default)
      | RData test =>
        do r <- read_slot SChain;
        match r with
        | RCrc => fail ExecutionError
        | RUninit => ret (Now all_default)
        | RData chain =>
          ret (Now (be 4 (wm_level (wm_parse main)) ++ be 4 (wm_level (wm_parse test))
                    ++ be 4 (chain_parse_u32 chain)))
        end
      end
    end.

  (** public_key.rs l.289-306: [AddrUI::accept]. *)
  Definition addr_answer (with_addr : bool) (pk : bytes) (a : addr) : sres bytes :=
    if with_addr then
      match addr_base58 a with
      | SOk t => SOk ((len pk mod 256 :: pk) ++ t)
      | SErr => SErr
      | SPanic => SPanic
      end
    else SOk (len pk mod 256 :: pk).

  (** Key and address of a request for them; paths have at most 6 components. *)
  Definition requested_key (buf : bytes) : M (curve * bytes) :=
    do c <- the_curve buf;
    do cdata <- the_payload buf;
    do pa <- of_option DataInvalid (path_read 6 cdata);
    do pk <- pubkey (c, pa);
    ret (c, pk).

  (** public_key.rs l.73-142: GET_ADDRESS. *)
  Definition h_get_address (buf : bytes) : M reply :=
    do (c, pk) <- requested_key buf;
    do a <- of_sres DataInvalid (addr_new O c pk);
    if needs_review buf then show (VAddr true pk a)
    else do out <- of_sres ExecutionError (addr_answer true pk a); ret (Now out).
  (** legacy/public_key.rs l.34-70: GET_PUBLIC_KEY. *)
  Definition h_get_public (buf : bytes) : M reply :=
    do (c, pk) <- requested_key buf; ret (Now (len pk mod 256 :: pk)).
  (** legacy/public_key.rs l.72-125: PROMPT_PUBLIC_KEY. *)
  Definition h_prompt (buf : bytes) : M reply :=
    do (c, pk) <- requested_key buf;
    do a <- of_sres DataInvalid (addr_new O c pk);
    show (VAddr true pk a).

  (** version.rs l.24-48 and legacy/version.rs l.34-82. *)
  Definition version_bytes : bytes :=
    let '(m, n, p) := cf_version C in [m; n; p].
  Definition h_version : M reply := ret (Now ([0] ++ version_bytes ++ [0] ++ be 4 (cf_target C))).
  Definition h_legacy_version : M reply :=
    ret (Now ((if cf_baking C then 1 else 0) :: version_bytes)).
  Definition h_git : M reply :=
    if (length (cf_commit C) <? 8)%nat then panic else ret (Now (firstn 8 (cf_commit C) ++ [0])).

  (** ** Dispatch: dispatcher.rs l.111-196 *)

  Definition CLA : N := 0x80.
  Definition dispatch_common (ins : N) (buf : bytes) : M reply :=
    if ins =? 0x00 then h_legacy_version
    else if ins =? 0x02 then h_get_public buf
    else if ins =? 0x03 then h_prompt buf
    else if ins =? 0x11 then h_get_address buf
    else if ins =? 0x09 then h_git
    else if ins =? 0x04 then (if cf_baking C then h_baker_sign false buf else h_sign false buf)
    else if ins =? 0x0F then (if cf_baking C then h_baker_sign true buf else h_sign true buf)
    else if ins =? 0x12 then h_sign true buf
    else if ins =? 0x10 then h_version
    else fail CommandNotAllowed.
  Definition dispatch (buf : bytes) : M reply :=
    if negb (apdu_cla buf =? CLA) then fail ClaNotSupported
    else
      let ins := apdu_ins buf in
      if cf_baking C then
        if ins =? 0x06 then h_reset buf
        else if ins =? 0x08 then h_main_hwm
        else if ins =? 0x0B then h_all_hwm
        else if ins =? 0xA1 then h_authorize buf
        else if ins =? 0xAC then h_deauthorize buf
        else if ins =? 0xA7 then h_query false buf
        else if ins =? 0xAD then h_query true buf
        else if ins =? 0xAF then h_baker_sign true buf
        else if ins =? 0x01 then h_authorize buf
        else if ins =? 0x0C then h_deauthorize buf
        else if ins =? 0x07 then h_query false buf
        else if ins =? 0x0D then h_query true buf
        else if ins =? 0x0A then h_setup buf
        else if ins =? 0x0E then h_hmac buf
        else dispatch_common ins buf
      else
        if ins =? 0x05 then h_sign false buf
        else dispatch_common ins buf.

  (** ** Decisions *)

  (** [Viewable::accept] of each viewable, into [room] bytes. *)
  Definition accept (v : viewable) (room : N) : M bytes :=
    match v with
    | VSign send_hash digest _ data =>
      (* signing.rs l.318-347 *)
      do k <- (fun d => match d_path d with
                        | None => (Err ConditionsNotSatisfied, d)
                        | Some k => (Ok k, d)
                        end);
      do s <- sign_with SrcReview k digest data;
      do _ <- (fun d => (Ok tt, set_path None d));
      ret (signed send_hash digest s)
    | VBakingSign send_hash digest _ _ data =>
      (* handlers/baking.rs l.427-446 *)
      do s <- baking_sign SrcBakingReview digest data;
      ret (signed send_hash digest s)
    | VAuthorize k _ =>
      (* baking/authorization.rs l.138-164 *)
      do pk <- pubkey k;
      do _ <- store_baking_key k;
      ret (len pk mod 256 :: pk)
    | VDeauthorize _ =>
      (* baking/authorization.rs l.249-258 *)
      do _ <- remove_baking_key; ret []
    | VQuery with_curve k _ =>
      match query_answer with_curve k room with None => panic | Some out => ret out end
    | VAddr with_addr pk a => of_sres ExecutionError (addr_answer with_addr pk a)
    | VSetup k main test chain _ =>
      (* legacy/baking/setup.rs l.200-236 *)
      do pk <- pubkey k;
      do _ <- store_baking_key k;
      do _ <- write_or SMain (wm_serialize (wm_reset main false)) Busy;
      do _ <- write_or STest (wm_serialize (wm_reset test false)) Busy;
      do _ <- write_or SChain (pad_to 52 (be 4 (u32_of_chain chain))) Busy;
      ret (len pk mod 256 :: pk)
    end.

  (** [Viewable::reject]: all answer [CommandNotAllowed]; [SignUI] also forgets the
      path (signing.rs l.349-352). *)
  Definition reject (v : viewable) : M bytes :=
    match v with
    | VSign _ _ _ _ => fun d => (Err CommandNotAllowed, set_path None d)
    | _ => fail CommandNotAllowed
    end.

  (** ** Events *)

  Inductive event :=
  | EApdu (buf : bytes) (rx : N)  (** the APDU buffer and the received length *)
  | EApprove | EReject            (** the user decides the pending review *)
  | EUiError                      (** the review cannot be displayed *)
  | EPower.                       (** power cycle *)
  Inductive answer :=
  | AReply (out : bytes)  (** the bytes sent, status word last *)
  | APending              (** a review has started *)
  | ADied                 (** panic, or power loss during a flash write *)
  | ANone.                (** the event is ignored *)

  (** dispatcher.rs l.198-220 ([handle_apdu]) on the result of a command: data and
      status word, which must fit in [room] bytes. *)
  Definition finish (room : N) (r : outcome reply * dev) : answer * dev :=
    let put data e d :=
      if room <? len data + 2 then (ADied, restart d) else (AReply (data ++ be 2 (sw e)), d) in
    match r with
    | (Ok (Now data), d) => put data Success d
    | (Ok Later, d) => (APending, d)
    | (Err e, d) => put [] e d
    | (Panic, d) | (Cut, d) => (ADied, restart d)
    end.

  (** rust/zemu/src/ui_toolkit.rs l.55-104: the pending viewable is taken, decides, and
      its answer is sent. *)
  Definition decide (f : viewable -> N -> M bytes) (d : dev) : answer * dev :=
    match d_ui d with
    | None => (ANone, d)
    | Some v =>
      let room := match cf_room C v with Some r => r | None => 0 end in
      finish room (bind (f v room) (fun out => ret (Now out)) (set_ui None d))
    end.

  (** A review blocks the main loop until it is decided, so APDUs do not reach the app
      meanwhile ([IO_ASYNCH_REPLY]). *)
  Definition step (d : dev) (e : event) : answer * dev :=
    match e with
    | EApdu buf rx =>
      match d_ui d with
      | Some _ => (ANone, d)
      | None =>
        finish (len buf)
          (if apdu_read_ok buf rx then dispatch buf d else (Err WrongLength, d))
      end
    | EApprove => decide accept d
    | EReject => decide (fun v _ => reject v) d
    | EUiError => decide (fun _ _ => fail DataInvalid) d
    | EPower => (ADied, restart d)
    end.

  Fixpoint run (d : dev) (es : list event) : list answer * dev :=
    match es with
    | [] => ([], d)
    | e :: es' =>
      let (a, d1) := step d e in
      let (l, d2) := run d1 es' in (a :: l, d2)
    end.
End Device.
