(** Vocabulary of the statements about histories of the device. *)
From Coq Require Import List NArith Bool Sorted.
From Verif Require Import Base Flash Codecs CodecsSpec Upload UploadSpec Baking BakingSpec Operations Oracles
  Address AddressSpec Device.
Import ListNotations.
Open Scope N_scope.

(** ** Admissible histories *)

(** The APDU buffer always has 260 bytes. *)
Definition event_ok (e : event) : Prop :=
  match e with EApdu buf _ => apdu_ok buf | _ => True end.

(** Faults of a slot write: it succeeds; it is cut by a power loss leaving the page
    old, new or detectably corrupt; it reports an error leaving the page new or
    detectably corrupt. Excluded: an error report that leaves the old page, and torn
    pages whose checksum happens to be right. *)
Definition slot_tear_ok (t : tear) : Prop :=
  match t with TTorn p => from_storage p = None | _ => True end.
Definition slot_fault_ok (f : fault) : Prop :=
  match f with
  | WOk => True
  | WCut t => slot_tear_ok t
  | WFail t => t <> TOld /\ slot_tear_ok t
  end.
(** Faults of a write to the upload buffer: anything, made of bytes. *)
Definition up_fault_ok (f : fault) : Prop :=
  match f with WCut (TTorn p) | WFail (TTorn p) => bytes_ok p | _ => True end.

(** ** Resets of the watermark *)

(** A command APDU of the app's class and of instruction [ins], received by a device
    that is not busy with a review. *)
Definition command (d : dev) (buf : bytes) (rx ins : N) : Prop :=
  d_ui d = None /\ 5 <= rx <= 260 /\ nth 0 buf 0 = 0x80 /\ nth 1 buf 0 = ins.

(** A RESET command (0x06) with at least 4 bytes of data, or the approval of a SETUP. *)
Definition resets (C : config) (d : dev) (e : event) : Prop :=
  match e with
  | EApdu buf rx => cf_baking C = true /\ command d buf rx 0x06 /\ 4 <= nth 4 buf 0
  | EApprove => match d_ui d with Some (VSetup _ _ _ _ _) => True | _ => False end
  | _ => False
  end.

Fixpoint no_reset (C : config) (O : oracles) (d : dev) (es : list event) : Prop :=
  match es with
  | [] => True
  | e :: es' => ~ resets C d e /\ no_reset C O (snd (step C O d e)) es'
  end.

(** ** Signatures made *)

(** [l] are the signatures made from [d] to [d'], oldest first. *)
Definition signed_between (d d' : dev) (l : list sigrec) : Prop := d_log d' = rev l ++ d_log d.

Definition is_consensus (g : sigrec) : bool :=
  match sg_src g with SrcConsensus => true | _ => false end.
Definition consensus_positions (l : list sigrec) : list (option cpos) :=
  map (fun g => signed_pos (sg_data g)) (filter is_consensus l).

(** Every message has a position, and the positions strictly increase. *)
Definition increasing (l : list (option cpos)) : Prop :=
  exists ps, l = map Some ps /\ StronglySorted cpos_lt ps.

(** Two messages that must never both be signed: blocks, endorsements or
    pre-endorsements for the same level (Emmy) or the same level and round
    (Tenderbake), whatever else differs. *)
Definition conflict (a b : bytes) : Prop :=
  exists p, signed_pos a = Some p /\ signed_pos b = Some p.

(** ** Persistent contents *)

(** Faults that leave every page intact: a write succeeds, or power is lost before or
    after the page is programmed. *)
Definition intact_fault (f : fault) : Prop :=
  match f with WOk | WCut TOld | WCut TNew => True | _ => False end.

(** What is stored in a slot: what a read answers now and after any restart. [None] is
    a slot never written. *)
Definition holds_slot (d : dev) (s : slot) (o : option bytes) : Prop :=
  let r := match o with None => RUninit | Some p => RData p end in
  wear_read (get_slot s d) = Some r /\ wear_read (get_slot s (restart d)) = Some r.

(** The device answers [L] to a QUERY_MAIN_HWM command (0x08). *)
Definition reports (C : config) (O : oracles) (d : dev) (L : N) : Prop :=
  L < 2 ^ 32 /\ exists buf rx, apdu_ok buf /\ command d buf rx 0x08 /\
    fst (step C O d (EApdu buf rx)) = AReply (be 4 L ++ [0x90; 0]).

(** The message with position [q] was completed by the upload command [e]. *)
Definition offered (C : config) (d : dev) (e : event) (q : cpos) : Prop :=
  cf_baking C = true /\
  exists buf rx ins up u s, e = EApdu buf rx /\ command d buf rx ins /\ In ins [0x04; 0x0F; 0xAF] /\
    upload AccBaking buf (d_up d) (d_ufaults d) = (Ok (Some up), u, s) /\ signed_pos (uo_data up) = Some q.

(** The main watermark stands for a Tenderbake message, or for an Emmy one. *)
Definition tenderbake_mark (d : dev) : Prop :=
  exists p level round kind, wear_read (d_main d) = Some (RData p) /\ wm_pos (wm_parse p) = PTB level round kind.
Definition emmy_mark (d : dev) : Prop :=
  exists p level endo, wear_read (d_main d) = Some (RData p) /\ wm_pos (wm_parse p) = PEmmy level endo.

Definition is_tenderbake (q : cpos) : Prop := match q with PTB _ _ _ => True | _ => False end.

(** ** Where signatures come from *)

(** The key stored as authorised. *)
Definition stored_key (d : dev) (k : key) : Prop :=
  exists p, wear_read (d_key d) = Some (RData p) /\ key_parse p = AOk (Some k).

(** What a signature covers, by its purpose. Except for the HMAC command, which signs
    a constant, it is the hash of the message; a message signed after a review starts
    with the byte of an operation or of Michelson data. *)
Definition sig_sound (O : oracles) (g : sigrec) : Prop :=
  match sg_src g with
  | SrcHmac => sg_digest g = HMAC_KEY /\ sg_data g = HMAC_KEY
  | s =>
    o_blake2b O 32 (sg_data g) = Some (sg_digest g) /\
    match s with
    | SrcConsensus =>
      kind_agrees (sg_data g) /\ exists q, signed_pos (sg_data g) = Some q /\ cpos_level q < 2 ^ 31
    | SrcReview => nth_error (sg_data g) 0 = Some 3 \/ nth_error (sg_data g) 0 = Some 5
    | _ => nth_error (sg_data g) 0 = Some 3
    end
  end.

(** The event [e] that makes a device in state [d] produce the signature [g]. *)
Definition sig_cause (C : config) (d : dev) (e : event) (g : sigrec) : Prop :=
  match sg_src g with
  | SrcConsensus =>
    (* a signing command that completes the upload of the message and names the
       stored key *)
    cf_baking C = true /\ stored_key d (sg_key g) /\
    exists buf rx ins up u s,
      e = EApdu buf rx /\ command d buf rx ins /\ In ins [0x04; 0x0F; 0xAF] /\
      upload AccBaking buf (d_up d) (d_ufaults d) = (Ok (Some up), u, s) /\
      uo_data up = sg_data g /\ curve_of_byte (uo_p2 up) = Some (fst (sg_key g)) /\
      path_read BIP32_MAX_LENGTH (uo_first up) = Some (snd (sg_key g))
  | SrcHmac =>
    cf_baking C = true /\
    exists buf rx, e = EApdu buf rx /\ command d buf rx 0x0E
  | SrcReview =>
    e = EApprove /\ d_path d = Some (sg_key g) /\
    exists sh p, d_ui d = Some (VSign sh (sg_digest g) p (sg_data g))
  | SrcBakingReview =>
    e = EApprove /\ stored_key d (sg_key g) /\
    exists sh br o, d_ui d = Some (VBakingSign sh (sg_digest g) br o (sg_data g))
  end.

(** The answer that carries the signature: the digest if the command asks for it, then
    the signature, then the status word; nothing if the answer does not fit. *)
Definition sig_answer (O : oracles) (g : sigrec) (a : answer) : Prop :=
  exists s, o_sign O (fst (sg_key g)) (snd (sg_key g)) (sg_digest g) = Some s /\
  match sg_src g with
  | SrcHmac => True
  | _ => a = ADied \/ a = AReply (s ++ [0x90; 0]) \/ a = AReply (sg_digest g ++ s ++ [0x90; 0])
  end.

(** ** Requests refused *)

(** A completed upload of a baking-sign command. *)
Definition completes (C : config) (d : dev) (buf : bytes) (rx : N) (up : upload_out) : Prop :=
  cf_baking C = true /\ apdu_ok buf /\
  exists ins u s, command d buf rx ins /\ In ins [0x04; 0x0F; 0xAF] /\
    upload AccBaking buf (d_up d) (d_ufaults d) = (Ok (Some up), u, s).

(** A completed upload of a command that signs after a review. *)
Definition completes_sign (C : config) (d : dev) (buf : bytes) (rx : N) (up : upload_out) : Prop :=
  apdu_ok buf /\
  exists ins u s, command d buf rx ins /\
    (ins = 0x12 \/ (cf_baking C = false /\ In ins [0x04; 0x05; 0x0F])) /\
    upload AccSign buf (d_up d) (d_ufaults d) = (Ok (Some up), u, s).

(** Nothing is signed and every slot reads as before. *)
Definition untouched (d d' : dev) : Prop :=
  d_log d' = d_log d /\ forall s, wear_read (get_slot s d') = wear_read (get_slot s d).

(** No key is stored: never set, unreadable, or erased. *)
Definition no_key (d : dev) : Prop :=
  match wear_read (d_key d) with
  | Some RUninit | Some RCrc => True
  | Some (RData p) => nth 0 p 0 = 0
  | None => False
  end.

(** ** What a pending review stands for *)

(** The address of a key. *)
Definition address_of (O : oracles) (k : key) (a : addr) : Prop :=
  exists pk, o_pubkey O (fst k) (snd k) = Some pk /\ addr_new O (fst k) pk = SOk a.

(** The data kept by a review belongs together: digest and parsed contents are those
    of the message, the address shown is that of the key. *)
Definition view_ok (O : oracles) (v : viewable) : Prop :=
  match v with
  | VSign _ dg parsed data =>
    o_blake2b O 32 data = Some dg /\
    exists rest, (data = 3 :: rest /\ parsed <> None /\ operation_new rest = parsed) \/
                 (data = 5 :: rest /\ parsed = None)
  | VBakingSign _ dg br o data =>
    o_blake2b O 32 data = Some dg /\
    exists rest ops more, data = 3 :: rest /\ operation_new rest = Some (br, ops) /\
      eo_next ops = NSome o more /\
      match o with ODelegation _ _ | OReveal _ _ => True | _ => False end
  | VAuthorize k a => key_ok k /\ address_of O k a
  | VDeauthorize a => exists k, address_of O k a
  | VQuery _ k a => address_of O k a
  | VAddr _ pk a => exists k, o_pubkey O (fst k) (snd k) = Some pk /\ addr_new O (fst k) pk = SOk a
  | VSetup k main test chain a =>
    key_ok k /\ address_of O k a /\ main < 2 ^ 32 /\ test < 2 ^ 32 /\ u32_of_chain chain < 2 ^ 32
  end.

(** The request [e], received in state [d], that puts [v] on the screen, leaving [d']. *)
Definition requested (C : config) (O : oracles) (d : dev) (e : event) (d' : dev) (v : viewable) : Prop :=
  exists buf rx ins, e = EApdu buf rx /\ command d buf rx ins /\
  let curve_is c := curve_of_byte (nth 3 buf 0) = Some c in
  match v with
  | VSign sh dg parsed data =>
    exists up, completes_sign C d buf rx up /\ data = uo_data up /\
      (sh = true <-> In ins [0x0F; 0x12]) /\
      exists c pa, curve_of_byte (uo_p2 up) = Some c /\
        path_read BIP32_MAX_LENGTH (uo_first up) = Some pa /\ d_path d' = Some (c, pa)
  | VBakingSign sh dg br o data =>
    exists up, completes C d buf rx up /\ data = uo_data up /\
      (sh = true <-> In ins [0x0F; 0xAF]) /\
      exists k, stored_key d k /\ curve_of_byte (uo_p2 up) = Some (fst k) /\
        path_read BIP32_MAX_LENGTH (uo_first up) = Some (snd k)
  | VAuthorize k a =>
    cf_baking C = true /\ In ins [0x01; 0xA1] /\ 1 <= nth 2 buf 0 /\ curve_is (fst k) /\
    path_read BIP32_MAX_LENGTH (pay buf) = Some (snd k)
  | VDeauthorize a =>
    cf_baking C = true /\ In ins [0x0C; 0xAC] /\ 1 <= nth 2 buf 0 /\
    exists k, stored_key d k /\ address_of O k a
  | VQuery wc k a =>
    cf_baking C = true /\ In ins (if wc then [0x0D; 0xAD] else [0x07; 0xA7]) /\ 1 <= nth 2 buf 0 /\
    stored_key d k
  | VAddr wa pk a =>
    wa = true /\ (ins = 0x03 \/ (ins = 0x11 /\ 1 <= nth 2 buf 0)) /\
    exists c pa, curve_is c /\ path_read 6 (pay buf) = Some pa /\ o_pubkey O c pa = Some pk /\
      addr_new O c pk = SOk a
  | VSetup k main test chain a =>
    cf_baking C = true /\ ins = 0x0A /\ curve_is (fst k) /\
    exists enc rest, path_read BIP32_MAX_LENGTH enc = Some (snd k) /\
      pay buf = be 4 (u32_of_chain chain) ++ be 4 main ++ be 4 test ++ enc ++ rest
  end.

(** ** What the device answers about its slots *)

(** The device is free, and answers [out] to the instruction [ins] whatever the rest of
    the command. *)
Definition answers (C : config) (O : oracles) (d : dev) (ins : N) (out : bytes) : Prop :=
  d_ui d = None /\
  forall buf rx, apdu_ok buf -> command d buf rx ins -> fst (step C O d (EApdu buf rx)) = AReply out.

(** The levels and the chain id reported by QUERY_MAIN_HWM (0x08) and QUERY_ALL_HWM (0x0B). *)
Definition reports_all (C : config) (O : oracles) (d : dev) (main test chain : N) : Prop :=
  answers C O d 0x08 (be 4 main ++ [0x90; 0]) /\
  answers C O d 0x0B (be 4 main ++ be 4 test ++ be 4 chain ++ [0x90; 0]).

(** Slot [s] reads the same in [d'] as in [d], now and after a restart. *)
Definition same_slot (d d' : dev) (s : slot) : Prop :=
  wear_read (get_slot s d') = wear_read (get_slot s d) /\
  wear_read (get_slot s (restart d')) = wear_read (get_slot s (restart d)).

(** ** Commands of the two builds *)

(** The instructions of each build flavour, and those that concern baking only. *)
Definition assigned (C : config) : list N :=
  if cf_baking C
  then [0x00; 0x01; 0x02; 0x03; 0x04; 0x06; 0x07; 0x08; 0x09; 0x0A; 0x0B; 0x0C; 0x0D; 0x0E; 0x0F;
        0x10; 0x11; 0x12; 0xA1; 0xA7; 0xAC; 0xAD; 0xAF]
  else [0x00; 0x02; 0x03; 0x04; 0x05; 0x09; 0x0F; 0x10; 0x11; 0x12].
Definition baking_only : list N :=
  [0x01; 0x06; 0x07; 0x08; 0x0A; 0x0B; 0x0C; 0x0D; 0x0E; 0xA1; 0xA7; 0xAC; 0xAD; 0xAF].

(** The buffer into which the answer to an event is written. *)
Definition answer_room (C : config) (d : dev) (e : event) (room : N) : Prop :=
  match e with
  | EApdu buf _ => room = len buf
  | _ => exists v, d_ui d = Some v /\ cf_room C v = Some room
  end.

(** A text for the address of the public key [pk]. *)
Definition key_text (O : oracles) (c : curve) (pk t : bytes) : Prop :=
  exists l h, hashed_form c pk l /\ o_blake2b O 20 l = Some h /\ tz_text (twice O) (addr_kind c) h t /\
    (length t <= 37)%nat.

(** The curve and path named by the parameter P2 and the data of a command; paths in
    requests for public keys have at most 6 components. *)
Definition names (LEN : nat) (buf : bytes) (k : key) : Prop :=
  nth 3 buf 0 = byte_of_curve (fst k) /\ path_encodes LEN (pay buf) (snd k).

(** A command that asks for a public key to be reviewed. *)
Definition wants_review (buf : bytes) (ins : N) : Prop := ins = 0x03 \/ (ins = 0x11 /\ 1 <= nth 2 buf 0).

(** A key as the QUERY commands answer it. *)
Definition key_bytes (with_curve : bool) (k : key) : bytes :=
  (if with_curve then [byte_of_curve (fst k)] else []) ++ len (snd k) :: concat (map (be 4) (snd k)).

(** ** Uploads over a history *)

(** The commands that upload a message, and on whose behalf. *)
Definition upload_command (C : config) (ins : N) : option accessor :=
  if existsb (N.eqb ins) (if cf_baking C then [0x12] else [0x04; 0x05; 0x0F; 0x12]) then Some AccSign
  else if existsb (N.eqb ins) (if cf_baking C then [0x04; 0x0F; 0xAF] else []) then Some AccBaking
  else None.

(** The upload in progress after an event, by the protocol of [proto_step]: a command
    that is received while a review is pending is ignored, and a restart forgets it. *)
Definition upload_after (C : config) (O : oracles) (d : dev) (st : pstate) (e : event) : pstate :=
  match fst (step C O d e) with
  | ADied => None
  | ANone => st
  | _ =>
    match e with
    | EApdu buf rx =>
      if (5 <=? rx) && (rx <=? 260) && (nth 0 buf 0 =? 0x80) then
        match upload_command C (nth 1 buf 0) with
        | Some a => snd (proto_step a buf st)
        | None => st
        end
      else st
    | _ => st
    end
  end.
Fixpoint uploading (C : config) (O : oracles) (d : dev) (st : pstate) (es : list event) : pstate :=
  match es with
  | [] => st
  | e :: es' => uploading C O (snd (step C O d e)) (upload_after C O d st e) es'
  end.

(** ** Changes of the authorised key *)

(** The approval of a request that concerns the authorised key: the key to store, or
    [None] to remove it. *)
Definition key_decision (d : dev) (e : event) : option (option key) :=
  match e, d_ui d with
  | EApprove, Some (VAuthorize k _) | EApprove, Some (VSetup k _ _ _ _) => Some (Some k)
  | EApprove, Some (VDeauthorize _) => Some None
  | _, _ => None
  end.
(** The answer ends with the status word of success. *)
Definition succeeds (a : answer) : Prop := exists data, a = AReply (data ++ [0x90; 0]).

(** A review of a request for the key [k] to be authorised. *)
Definition authorises (k : key) (v : viewable) : Prop :=
  match v with VAuthorize k' _ | VSetup k' _ _ _ _ => k' = k | _ => False end.

Definition is_apdu (e : event) : Prop := match e with EApdu _ _ => True | _ => False end.
(** A signature with the stored key. *)
Definition by_stored_key (g : sigrec) : Prop := sg_src g = SrcConsensus \/ sg_src g = SrcBakingReview.

(** No request for a key is approved. *)
Fixpoint no_authorisation (C : config) (O : oracles) (d : dev) (es : list event) : Prop :=
  match es with
  | [] => True
  | e :: es' =>
    (forall k, key_decision d e <> Some (Some k)) /\ no_authorisation C O (snd (step C O d e)) es'
  end.

(** Any fault of a slot write, except a torn page whose checksum happens to be right. *)
Definition detected_fault (f : fault) : Prop :=
  match f with WOk => True | WCut t | WFail t => slot_tear_ok t end.

(** ** Power loss *)

(** Faults that are only losses of power: before or after the page is programmed, or
    half-way, leaving a page whose checksum is wrong. *)
Definition power_fault (f : fault) : Prop :=
  match f with WOk => True | WCut t => slot_tear_ok t | WFail _ => False end.

(** The histories of a device as installed: [es1] leads to [d1], then [es2] without a
    reset to [d2], signing [l] in this order. *)
Record segment (C : config) (O : oracles) (f u : list fault) (es1 es2 : list event)
    (d1 d2 : dev) (l : list sigrec) : Prop := {
  sg_faults : Forall slot_fault_ok f;
  sg_ufaults : Forall up_fault_ok u;
  sg_events : Forall event_ok (es1 ++ es2);
  sg_short : len (es1 ++ es2) < 2 ^ 64;
  sg_start : snd (run C O (dev_fresh f u) es1) = d1;
  sg_end : snd (run C O d1 es2) = d2;
  sg_no_reset : no_reset C O d1 es2;
  sg_signed : signed_between d1 d2 l
}.
