(** The host library (js/src): how it builds commands, cuts messages into packets and
    reads answers, over any transport; and the transport to the modelled device.

    Simplifications. Texts are lists of character codes. A call answers with its return
    code and its data; the error message is a function of the return code and is left
    out, and so are the hashes and the text encoding of the JavaScript libraries, which
    are parameters ([host]). A promise that is rejected is [JThrow]. [getAppInfo]
    (index.ts l.162-209) talks to the operating system of the device, not to the app, and
    is modelled apart, in AppInfo.v. *)
From Coq Require Import List NArith ZArith Bool.
From Verif Require Import Base Codecs Oracles Device.
Import ListNotations.
Open Scope N_scope.

(** ** JavaScript buffers *)

(** [Buffer.prototype.slice]: a negative index counts from the end; both indices are
    clamped. *)
Definition js_index (i : Z) (n : Z) : Z := if (i <? 0)%Z then Z.max 0 (n + i) else Z.min i n.
Definition js_slice (i j : Z) (l : bytes) : bytes :=
  let n := Z.of_N (len l) in
  let a := js_index i n in
  let b := js_index j n in
  firstn (Z.to_nat (b - a)) (skipn (Z.to_nat a) l).
Definition js_slice_from (i : Z) (l : bytes) : bytes := js_slice i (Z.of_N (len l)) l.

(** [writeUInt32BE] and [writeInt32BE], which throw out of range; [readUInt32BE] at the
    start of a buffer, which throws on fewer than four bytes. *)
Definition write_u32 (v : Z) : option bytes :=
  if ((0 <=? v) && (v <? 2 ^ 32))%Z then Some (be 4 (Z.to_N v)) else None.
Definition write_i32 (v : Z) : option bytes :=
  if ((- 2 ^ 31 <=? v) && (v <? 2 ^ 31))%Z then Some (be 4 (Z.to_N (v mod 2 ^ 32))) else None.
Definition read_u32 (l : bytes) : option N :=
  if (length l <? 4)%nat then None else Some (unbe (firstn 4 l)).

(** The JavaScript libraries: [Number] on texts ([None] is NaN; numbers that are not
    integers are not modelled), [blake2b] of hash-wasm with the length in bytes, SHA-256
    and [bs58.encode]. *)
Record host := mkHost {
  h_number : bytes -> option Z;
  h_blake2b : nat -> bytes -> bytes;
  h_sha256 : bytes -> bytes;
  h_base58 : bytes -> bytes
}.

(** ** Derivation paths: helper.ts *)

(** [String.prototype.split] by one character. *)
Fixpoint split_at (sep : N) (s : bytes) : list bytes :=
  match s with
  | [] => [[]]
  | c :: s' =>
    if c =? sep then [] :: split_at sep s'
    else match split_at sep s' with
         | [] => [[c]]
         | w :: ws => (c :: w) :: ws
         end
  end.
Definition ends_with (c : N) (s : bytes) : bool :=
  match rev s with x :: _ => x =? c | [] => false end.

(** helper.ts l.1. *)
Definition HARDENED : Z := 0x80000000.
(** helper.ts l.17-38: one component; [None] is an exception. 39 is the apostrophe. *)
Definition child_bytes (H : host) (child : bytes) : option bytes :=
  let hard := ends_with 39 child in
  let child := if hard then removelast child else child in
  match h_number H child with
  | None => None
  | Some z =>
    if (HARDENED <=? z)%Z then None
    else write_u32 ((if hard then HARDENED else 0) + z)
  end.
Fixpoint children_bytes (H : host) (l : list bytes) : option bytes :=
  match l with
  | [] => Some []
  | c :: l' =>
    match child_bytes H c, children_bytes H l' with
    | Some b, Some r => Some (b ++ r)
    | _, _ => None
    end
  end.
(** helper.ts l.3-41: [serializePath]; 109 is 'm', 47 is '/'. *)
Definition serialize_path (H : host) (text : bytes) : option bytes :=
  match text with
  | c :: _ =>
    if negb (c =? 109) then None
    else
      let parts := split_at 47 text in
      if negb ((length parts =? 5) || (length parts =? 3))%nat then None
      else option_map (fun r => (len parts - 1) :: r) (children_bytes H (tl parts))
  | [] => None
  end.

(** ** Packets: index.ts l.131-156 *)

(** common.ts l.4. *)
Definition CHUNK_SIZE : N := 250.
(** index.ts l.143-149: the loop; [fuel] bounds the number of turns. *)
Fixpoint chunk_loop (fuel : nat) (i : N) (buffer : bytes) : list bytes :=
  match fuel with
  | O => []
  | S fuel' =>
    if i <? len buffer then
      js_slice (Z.of_N i) (Z.of_N (i + CHUNK_SIZE)) buffer :: chunk_loop fuel' (i + CHUNK_SIZE) buffer
    else []
  end.
(** index.ts l.131-152: [prepareChunks]; l.154-156: [signGetChunks]. *)
Definition prepare_chunks (message path : bytes) : list bytes :=
  path :: chunk_loop (S (length message)) 0 message.

(** ** Sending *)

(** What a transport does with the bytes of a command: the bytes that come back, [None]
    if it fails. *)
Definition transport (W : Type) := W -> bytes -> option bytes * W.

(** common.ts l.3; l.68-91 for the codes. *)
Definition HOST_CLA : N := 0x80.
Definition NO_ERRORS : N := 0x9000.
(** common.ts l.127-151: [processErrorResponse] on anything but a status code. *)
Definition OTHER_ERROR : N := 0xFFFF.

(** [Transport.send] of @ledgerhq/hw-transport (not part of the repository): at most 255
    bytes of data, with their length in front; the last two bytes that come back are the
    status word, which must be one of [codes]. The result is what the first argument of
    [then] receives, or the return code made by [processErrorResponse]. *)
Inductive sent_result := SentOk (response : bytes) | SentErr (code : N).
Definition status_of (response : bytes) : N :=
  let e := js_slice_from (-2) response in
  match e with a :: b :: _ => a * 256 + b | _ => OTHER_ERROR end.
Definition send_codes {W} (X : transport W) (codes : list N) (ins p1 p2 : N) (data : bytes) (w : W)
    : sent_result * W :=
  if 256 <=? len data then (SentErr OTHER_ERROR, w)
  else
    match X w ([HOST_CLA; ins; p1; p2; len data] ++ data) with
    | (None, w') => (SentErr OTHER_ERROR, w')
    | (Some r, w') =>
      if len r <? 2 then (SentErr OTHER_ERROR, w')
      else if existsb (N.eqb (status_of r)) codes then (SentOk r, w')
      else (SentErr (status_of r), w')
    end.
Definition send_to {W} (X : transport W) := send_codes X [NO_ERRORS].

(** What a call answers: it throws, or a return code, with data or without. *)
Inductive jres (A : Type) := JThrow | JCode (code : N) | JData (code : N) (a : A).
Arguments JThrow {A}.
Arguments JCode {A} code.
Arguments JData {A} code a.

(** A call that sends one command and reads its answer with [f]; [None] of [f] is an
    exception. *)
Definition ask {W A} (X : transport W) (ins p1 p2 : N) (data : bytes) (f : bytes -> option A) (w : W)
    : jres A * W :=
  match send_to X ins p1 p2 data w with
  | (SentErr c, w') => (JCode c, w')
  | (SentOk r, w') =>
    (match f r with Some a => JData (status_of r) a | None => JThrow end, w')
  end.

(** ** Signing *)

(** index.ts l.246-316: what [signSendChunk] answers. *)
Record sign_res := mkSignRes { sr_code : N; sr_hash : option bytes; sr_sig : option bytes }.

(** index.ts l.255-271: P1 and P2 of a packet; common.ts l.43-47 for the packet types. *)
Definition chunk_p1 (idx num : nat) (legacy : bool) : N :=
  let t := if (idx =? 1)%nat then 0 else 1 in
  if (idx =? num)%nat then (if legacy then N.lor t 0x80 else 2) else t.
Definition chunk_p2 (idx : nat) (c : curve) : N := if (idx =? 1)%nat then byte_of_curve c else 0.

(** index.ts l.273-279: the status words that are not an error of the transport:
    NoErrors, DataIsInvalid, BadKeyHandle, SignVerifyError. *)
Definition SIGN_CODES : list N := [NO_ERRORS; 0x6984; 0x6A80; 0x6F01].
Definition sign_send_chunk {W} (X : transport W) (idx num : nat) (chunk : bytes) (legacy : bool)
    (c : curve) (ins : N) (with_hash : bool) (w : W) : sign_res * W :=
  match send_codes X SIGN_CODES ins (chunk_p1 idx num legacy) (chunk_p2 idx c) chunk w with
  | (SentErr code, w') => (mkSignRes code None None, w')
  | (SentOk r, w') =>
    (if (status_of r =? NO_ERRORS) && (2 <? len r) then
       (* l.292-308 *)
       if with_hash
       then mkSignRes (status_of r) (Some (js_slice 0 32 r)) (Some (js_slice 32 (-2) r))
       else mkSignRes (status_of r) (Some (repeat 0 32)) (Some (js_slice 0 32 r))
     else mkSignRes (status_of r) None None, w')
  end.

(** index.ts l.368-374: the packets after the first, until one is refused. *)
Fixpoint sign_rest {W} (X : transport W) (i num : nat) (chunks : list bytes) (legacy : bool)
    (c : curve) (ins : N) (with_hash : bool) (result : sign_res) (w : W) : sign_res * W :=
  match chunks with
  | [] => (result, w)
  | chunk :: chunks' =>
    let (r, w') := sign_send_chunk X (1 + i) num chunk legacy c ins with_hash w in
    if sr_code r =? NO_ERRORS then sign_rest X (S i) num chunks' legacy c ins with_hash r w'
    else (r, w')
  end.
(** index.ts l.360-377, l.384-400, l.407-423, l.683-699, l.729-745: the common end of
    the signing calls. The first packet's answer is not examined before the second is
    sent. An exception of [serializePath] is turned into a return code. *)
Definition sign_message {W} (H : host) (X : transport W) (path : bytes) (c : curve) (message : bytes)
    (legacy : bool) (ins : N) (with_hash : bool) (w : W) : sign_res * W :=
  match serialize_path H path with
  | None => (mkSignRes OTHER_ERROR None None, w)
  | Some sp =>
    match prepare_chunks message sp with
    | [] => (mkSignRes OTHER_ERROR None None, w)
    | first :: rest =>
      let num := S (length rest) in
      let (r, w') := sign_send_chunk X 1 num first legacy c ins with_hash w in
      sign_rest X 1 num rest legacy c ins with_hash (mkSignRes (sr_code r) None None) w'
    end
  end.

(** index.ts l.380-401: [signOperation]; l.403-424: [signMichelson]. *)
Definition sign_operation {W} (H : host) (X : transport W) path c message (w : W) :=
  sign_message H X path c (3 :: message) false 0x12 true w.
Definition sign_michelson {W} (H : host) (X : transport W) path c message (w : W) :=
  sign_message H X path c (5 :: message) false 0x12 true w.

(** index.ts l.319-356: the byte [signBaker] puts in front; [None] is an exception. *)
Inductive baker_kind := BkEndorsement | BkBlock | BkDelegation.
Definition baker_magic (kind : baker_kind) (message : bytes) : option N :=
  match kind with
  | BkBlock =>
    match nth_error message (4 + 4 + 1 + 32 + 8 + 1 + 32 + 4 + 4) with
    | Some v => if (v =? 0) || (v =? 1) then Some 0x01 else if v =? 2 then Some 0x11 else None
    | None => None
    end
  | BkEndorsement =>
    match nth_error message (4 + 32) with
    | Some v => if v =? 20 then Some 0x12 else if v =? 21 then Some 0x13 else Some 0x02
    | None => Some 0x02
    end
  | BkDelegation => Some 3
  end.
(** index.ts l.318-378: [signBaker]. *)
Definition sign_baker {W} (H : host) (X : transport W) path c message (kind : baker_kind) (w : W)
    : jres sign_res * W :=
  match baker_magic kind message with
  | None => (JThrow, w)
  | Some m =>
    let (r, w') := sign_message H X path c (m :: message) false 0xAF true w in
    (JData (sr_code r) r, w')
  end.

(** index.ts l.662-681, l.708-727, l.427-443: the byte by type of message, which knows
    nothing of Tenderbake. *)
Inductive legacy_kind := LkEndorsement | LkBlock | LkOperation | LkMichelson.
Definition legacy_magic (kind : legacy_kind) : N :=
  match kind with LkBlock => 1 | LkEndorsement => 2 | LkOperation => 3 | LkMichelson => 5 end.
(** index.ts l.656-700: [legacySignWithHash]; l.702-746: [legacySign]. *)
Definition legacy_sign_with_hash {W} (H : host) (X : transport W) path c message kind (w : W) :=
  sign_message H X path c (legacy_magic kind :: message) true 0x0F true w.
Definition legacy_sign {W} (H : host) (X : transport W) path c message kind (w : W) :=
  sign_message H X path c (legacy_magic kind :: message) true 0x04 false w.

(** index.ts l.426-450: [sig_hash]. *)
Definition sig_hash (H : host) (message : bytes) (kind : legacy_kind) : bytes :=
  h_blake2b H 32 (legacy_magic kind :: message).

(** ** Public keys and addresses *)

(** helper.ts l.45-48. *)
Definition sha256x2 (H : host) (l : bytes) : bytes := h_sha256 H (h_sha256 H l).
(** index.ts l.609-654: [publicKeyToAddress]. [Buffer.slice] shares memory, so that
    overwriting the first byte of the key changes the caller's buffer: the second
    component is the argument afterwards. *)
Definition address_prefix (c : curve) : bytes :=
  match c with
  | Ed25519 | Bip32Ed25519 => [6; 161; 159]
  | Secp256K1 => [6; 161; 161]
  | Secp256R1 => [6; 161; 164]
  end.
Definition public_key_to_address (H : host) (key : bytes) (c : curve) : option (bytes * bytes) :=
  let finish l key' :=
    let hash := h_blake2b H 20 l in
    let checksum := js_slice 0 4 (sha256x2 H (address_prefix c ++ hash)) in
    Some (h_base58 H (address_prefix c ++ hash ++ checksum), key') in
  match c with
  | Ed25519 | Bip32Ed25519 => finish (js_slice_from 1 key) key
  | Secp256K1 | Secp256R1 =>
    match nth_error key 64 with
    | None => None
    | Some last =>
      let key' := (2 + N.land last 1) :: tl key in
      finish (js_slice 0 33 key') key'
    end
  end.

(** index.ts l.50-71: [processGetAddrResponse]: public key and address. *)
Definition read_addr (r : bytes) : option (bytes * bytes) :=
  match r with
  | [] => None
  | n :: _ =>
    let pk := js_slice 1 (1 + Z.of_N n) r in
    let rest := js_slice_from (1 + Z.of_N n) r in
    Some (pk, js_slice 0 (-2) rest)
  end.
(** A call that starts with [serializePath], whose exception it passes on. *)
Definition with_path {W A} (H : host) (path : bytes) (f : bytes -> W -> jres A * W) (w : W) : jres A * W :=
  match serialize_path H path with
  | None => (JThrow, w)
  | Some sp => f sp w
  end.
(** index.ts l.211-223: [getAddressAndPubKey] and [showAddressAndPubKey]. *)
Definition get_address_and_pubkey {W} (H : host) (X : transport W) path (c : curve) (w : W)
    : jres (bytes * bytes) * W :=
  with_path H path (fun sp => ask X 0x11 0 (byte_of_curve c) sp read_addr) w.
Definition show_address_and_pubkey {W} (H : host) (X : transport W) path (c : curve) (w : W)
    : jres (bytes * bytes) * W :=
  with_path H path (fun sp => ask X 0x11 1 (byte_of_curve c) sp read_addr) w.

(** index.ts l.543-548, l.577-582, l.595-600: public key and address of the legacy
    calls. *)
Definition read_legacy_key (H : host) (c : curve) (r : bytes) : option (bytes * bytes) :=
  match public_key_to_address H (js_slice 0 (-2) r) c with
  | None => None
  | Some (t, key') => Some (key', t)
  end.
(** index.ts l.573-589: [legacyGetPubKey]; l.591-607: [legacyPromptPubKey]. *)
Definition legacy_get_pubkey {W} (H : host) (X : transport W) path (c : curve) (w : W)
    : jres (bytes * bytes) * W :=
  with_path H path (fun sp => ask X 0x02 0 (byte_of_curve c) sp (read_legacy_key H c)) w.
Definition legacy_prompt_pubkey {W} (H : host) (X : transport W) path (c : curve) (w : W)
    : jres (bytes * bytes) * W :=
  with_path H path (fun sp => ask X 0x03 0 (byte_of_curve c) sp (read_legacy_key H c)) w.

(** ** The authorised key *)

(** index.ts l.73-88: [processAuthorizeBakingResponse]. *)
Definition read_pubkey (r : bytes) : option bytes :=
  match r with [] => None | n :: _ => Some (js_slice 1 (1 + Z.of_N n) r) end.
(** index.ts l.225-230: [authorizeBaking]; l.232-236 with l.90-100: [deauthorizeBaking]. *)
Definition authorize_baking {W} (H : host) (X : transport W) path (c : curve) (w : W) : jres bytes * W :=
  with_path H path (fun sp => ask X 0xA1 1 (byte_of_curve c) sp read_pubkey) w.
Definition deauthorize_baking {W} (X : transport W) (w : W) : jres unit * W :=
  ask X 0xAC 1 0 [] (fun _ => Some tt) w.
(** index.ts l.102-119: [processQueryAuthKeyWithCurve]: curve byte and components, four
    bytes each. *)
Definition read_auth_key (r : bytes) : option (N * bytes) :=
  match r with
  | c :: n :: _ => Some (c, js_slice 2 (2 + 4 * Z.of_N n) r)
  | _ => None
  end.
(** index.ts l.238-244: [queryAuthKeyWithCurve]. *)
Definition query_auth_key {W} (X : transport W) (confirm : bool) (w : W) : jres (N * bytes) * W :=
  ask X 0xAD (if confirm then 1 else 0) 0 [] read_auth_key w.

(** ** Watermarks, set-up, HMAC *)

(** index.ts l.481-494: [legacyResetHighWatermark]. *)
Definition legacy_reset {W} (X : transport W) (level : Z) (w : W) : jres unit * W :=
  match write_i32 level with
  | None => (JThrow, w)
  | Some data => ask X 0x06 0 0 data (fun _ => Some tt) w
  end.
(** index.ts l.496-511: [legacyGetHighWatermark]. *)
Definition legacy_get_hwm {W} (X : transport W) (w : W) : jres N * W :=
  ask X 0x08 0 0 [] (fun r => read_u32 (js_slice 0 (-2) r)) w.
(** index.ts l.513-530: [legacyGetAllWatermark]. *)
Definition read_all (r : bytes) : option (N * N * N) :=
  match read_u32 (js_slice 0 4 r), read_u32 (js_slice 4 8 r), read_u32 (js_slice 8 (-2) r) with
  | Some m, Some t, Some c => Some (m, t, c)
  | _, _, _ => None
  end.
Definition legacy_get_all {W} (X : transport W) (w : W) : jres (N * N * N) * W :=
  ask X 0x0B 0 0 [] read_all w.
(** index.ts l.532-555: [legacySetup]. *)
Definition legacy_setup {W} (H : host) (X : transport W) path (c : curve) (main test chain : Z) (w : W)
    : jres (bytes * bytes) * W :=
  with_path H path (fun sp w =>
    match write_u32 chain, write_u32 main, write_u32 test with
    | Some a, Some b, Some d => ask X 0x0A 0 (byte_of_curve c) ((a ++ b ++ d) ++ sp) (read_legacy_key H c) w
    | _, _, _ => (JThrow, w)
    end) w.
(** index.ts l.557-571: [legacyHMAC]. *)
Definition legacy_hmac {W} (H : host) (X : transport W) path (c : curve) (message : bytes) (w : W)
    : jres bytes * W :=
  with_path H path (fun sp =>
    ask X 0x0E 0 (byte_of_curve c) (sp ++ message) (fun r => Some (js_slice 0 (-2) r))) w.

(** ** Versions *)

(** common.ts l.153-178: [getVersion]: test mode, version, locked, target. The shift by
    24 makes a target of 2^31 or more negative. Simplified: on an answer too short the
    fields are [undefined]; here the call throws. [legacy_get_version] alike. *)
Definition read_target (r : bytes) : Z :=
  if 9 <=? len r then
    let t := Z.of_N (unbe (firstn 4 (skipn 5 r))) in if (2 ^ 31 <=? t)%Z then (t - 2 ^ 32)%Z else t
  else 0%Z.
Definition read_version (r : bytes) : option (bool * (N * N * N) * bool * Z) :=
  match r with
  | t :: a :: b :: c :: l :: _ => Some (negb (t =? 0), (a, b, c), l =? 1, read_target r)
  | _ => None
  end.
Definition get_version {W} (X : transport W) (w : W) : jres (bool * (N * N * N) * bool * Z) * W :=
  ask X 0x10 0 0 [] read_version w.
(** index.ts l.452-466: [legacyGetVersion]. *)
Definition legacy_get_version {W} (X : transport W) (w : W) : jres (bool * (N * N * N)) * W :=
  ask X 0x00 0 0 [] (fun r =>
    match r with k :: a :: b :: c :: _ => Some (k =? 1, (a, b, c)) | _ => None end) w.
(** index.ts l.468-479: [legacyGetGit]. *)
Definition legacy_get_git {W} (X : transport W) (w : W) : jres bytes * W :=
  ask X 0x09 0 0 [] (fun r => Some (js_slice 0 (-2) r)) w.

(** ** Return codes *)

(** common.ts l.68-121: the codes that have a description. *)
Definition described_codes : list N :=
  [1; 2; 3; 4; 5; 14; 0x9000; 0x9001; 0x6802; 0x6400; 0x6700; 0x6982; 0x6983; 0x6984; 0x6985; 0x6986;
   0x6A80; 0x6B00; 0x6D00; 0x6E00; 0x6F00; 0x6F01].

(** ** The transport to the device *)

(** The device, and for each command to come: what the APDU buffer holds before it
    arrives, and what the user does if it starts a review. *)
Definition connection := (dev * list (bytes * event))%type.
(** A command overwrites the start of the buffer. *)
Definition received (command old : bytes) : bytes := command ++ skipn (length command) old.
Definition plugged (C : config) (O : oracles) : transport connection := fun w command =>
  match w with
  | (d, []) => (None, w)
  | (d, (old, user) :: later) =>
    match step C O d (EApdu (received command old) (len command)) with
    | (AReply r, d1) => (Some r, (d1, later))
    | (APending, d1) =>
      match step C O d1 user with
      | (AReply r, d2) => (Some r, (d2, later))
      | (_, d2) => (None, (d2, later))
      end
    | (_, d1) => (None, (d1, later))
    end
  end.
