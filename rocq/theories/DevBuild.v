(** Developer builds (feature "dev" of rust/app/Cargo.toml): the instructions of
    rust/app/src/handlers/dev. *)
From Coq Require Import List NArith Bool Arith.
From Verif Require Import Base Flash Codecs Upload Oracles Device Text Catch Loop.
Import ListNotations.
Open Scope N_scope.

(** What waits for a decision. *)
Inductive dview :=
(** echo.rs l.26-29: [Echo]; two lines of 17 bytes. *)
| DEcho (line1 line2 : bytes)
(** blind_sign.rs l.118-121: [BlindSignUi]; [data] is only used to state properties. *)
| DBlind (send_hash : bool) (digest data : bytes)
(** debug.rs l.27: [Debug]; what it shows is in [BUFFER]. *)
| DDebug.

(** The build: that of the app without the feature, and the room for the answer once one of
    these views is stored. *)
Record dconfig := mkDC { dc_conf : config; dc_room : dview -> option N }.

(** A blind signature: key, digest, message. *)
Record blindrec := mkBlind { bl_key : key; bl_digest : bytes; bl_data : bytes }.

Record ddev := mkDD {
  dd_dev : dev;
  (** blind_sign.rs l.33-34: [PATH]. *)
  dd_path : option key;
  dd_view : option dview;
  (** Blind signatures made, newest first. *)
  dd_log : list blindrec
}.
Definition set_dev (d : dev) (x : ddev) : ddev := mkDD d (dd_path x) (dd_view x) (dd_log x).
Definition set_dpath (p : option key) (x : ddev) : ddev := mkDD (dd_dev x) p (dd_view x) (dd_log x).
Definition set_view (v : option dview) (x : ddev) : ddev := mkDD (dd_dev x) (dd_path x) v (dd_log x).
Definition dd_fresh (f u : list fault) : ddev := mkDD (dev_fresh f u) None None [].
(** The power cycle: [PATH] and the view are lost. *)
Definition drestart (x : ddev) : ddev := mkDD (restart (dd_dev x)) None None (dd_log x).

(** dispatcher.rs l.142-195: the instructions of the app without the feature. *)
Definition COMMON : list N := [0x00; 0x02; 0x03; 0x11; 0x09; 0x04; 0x0F; 0x12; 0x10].
Definition known (baking : bool) (ins : N) : bool :=
  existsb (N.eqb ins)
    ((if baking then [0x06; 0x08; 0x0B; 0xA1; 0xAC; 0xA7; 0xAD; 0xAF; 0x01; 0x0C; 0x07; 0x0D; 0x0A; 0x0E] else [0x05]) ++ COMMON).

Section Dev.
  Variable D : dconfig.
  Variable O : oracles.

  (** [Viewable::show]. *)
  Definition dshow (v : dview) (x : ddev) : outcome reply * ddev :=
    match dc_room D v with
    | None => (Err ExecutionError, x)
    | Some _ => (Ok Later, set_view (Some v) x)
    end.

  (** sha256.rs l.27-64: both parts of the upload are hashed. *)
  Definition h_dev_hash (buf : bytes) : M reply :=
    with_upload AccSha256 buf (fun up =>
      do h <- of_option ExecutionError (o_sha256 O (uo_first up ++ uo_data up)); ret (Now h)).

  (** exception.rs l.26-82. Every u16 is an error of the system ([From<u16>],
      exceptionsS.rs l.106-110), so that [call] always throws; with P1 = 0 nobody catches
      it before main.c (l.158-167). *)
  Definition h_except (buf : bytes) : answer :=
    let ex := as_u16 (jumped (code_of (ESyscall (apdu_p2 buf)))) in
    if 1 <=? apdu_p1 buf then AReply (be 8 (code_of (sys_error_of ex)) ++ be 2 (sw Success))
    else AReply (exception_reply ex).

  (** echo.rs l.31-62. [len - 17] wraps around below 17 bytes, and then the second slice of
      the payload is out of bounds. *)
  Definition h_echo (buf : bytes) (x : ddev) : outcome reply * ddev :=
    match apdu_payload buf with
    | None => (Err DataInvalid, x)
    | Some pl =>
      if 34 <? len pl then (Err WrongLength, x)
      else if len pl <? 17 then (Panic, x)
      else dshow (DEcho (firstn 17 pl) (skipn 17 pl ++ zeros (34 - length pl))) x
    end.

  (** blind_sign.rs l.71-96: [blind_sign]. *)
  Definition blind_sign (send_hash : bool) (up : upload_out) (x : ddev) : outcome reply * ddev :=
    match curve_of_byte (uo_p2 up) with
    | None => (Err InvalidP1P2, x)
    | Some c =>
      match path_read BIP32_MAX_LENGTH (uo_first up) with
      | None => (Err DataInvalid, x)
      | Some pa =>
        let x := set_dpath (Some (c, pa)) x in
        match o_blake2b O 32 (uo_data up) with
        | None => (Err ExecutionError, x)
        | Some dg => dshow (DBlind send_hash dg (uo_data up)) x
        end
      end
    end.
  (** blind_sign.rs l.99-116; the upload is dropped at the end. *)
  Definition h_blind (buf : bytes) (x : ddev) : outcome reply * ddev :=
    match the_upload AccBlind buf (dd_dev x) with
    | (Ok None, d) => (Ok (Now []), set_dev d x)
    | (Ok (Some up), d) =>
      let (r, y) := blind_sign true up (set_dev d x) in
      match r with
      | Ok _ | Err _ => (r, set_dev (snd (drop_upload AccBlind (dd_dev y))) y)
      | _ => (r, y)
      end
    | (Err e, d) => (Err e, set_dev d x)
    | (Panic, d) => (Panic, set_dev d x)
    | (Cut, d) => (Cut, set_dev d x)
    end.

  (** [zbuffer.write(..).map_err(|_| ExecutionError)?]. *)
  Definition debug_write (l : bytes) : M unit := fun d =>
    let '(b, r, s) := sb_write RAM_CAP FLASH_CAP (u_buf (d_up d)) l (d_ufaults d) in
    let d' := set_up (mkU b (u_lock (d_up d)) (u_init_len (d_up d))) (set_ufaults s d) in
    match r with SbOk => (Ok tt, d') | SbErr => (Err ExecutionError, d') | SbCut => (Cut, d') end.
  (** debug.rs l.29-54. The buffer is locked, not reset. *)
  Definition h_debug (buf : bytes) (x : ddev) : outcome reply * ddev :=
    match apdu_payload buf with
    | None => (Err DataInvalid, x)
    | Some pl =>
      let m :=
        do _ <- (fun d => (Ok tt, set_up (mkU (u_buf (d_up d)) (lock_lock acc_eqb (u_lock (d_up d)) AccDebug)
                                            (u_init_len (d_up d))) d));
        do _ <- debug_write [apdu_cla buf; apdu_ins buf; apdu_p1 buf; apdu_p2 buf; len pl];
        debug_write pl in
      match m (dd_dev x) with
      | (Ok _, d) => dshow DDebug (set_dev d x)
      | (Err e, d) => (Err e, set_dev d x)
      | (Panic, d) => (Panic, set_dev d x)
      | (Cut, d) => (Cut, set_dev d x)
      end
    end.
  (** debug.rs l.57-68. *)
  Definition debug_cleanup (x : ddev) : ddev := set_dev (snd (drop_upload AccDebug (dd_dev x))) x.

  (** echo.rs l.93-95, debug.rs l.101-104, blind_sign.rs l.168-197; the signature is written
      to an array of 100 bytes (l.57). *)
  Definition daccept (v : dview) (x : ddev) : outcome reply * ddev :=
    match v with
    | DEcho _ _ => (Ok (Now []), x)
    | DDebug => (Ok (Now []), debug_cleanup x)
    | DBlind send_hash dg data =>
      match dd_path x with
      | None => (Err ConditionsNotSatisfied, x)
      | Some k =>
        match o_sign O (fst k) (snd k) dg with
        | None => (Err ExecutionError, x)
        | Some s =>
          if (100 <? length s)%nat then (Panic, x)
          else (Ok (Now (signed send_hash dg s)), mkDD (dd_dev x) None (dd_view x) (mkBlind k dg data :: dd_log x))
        end
      end
    end.
  (** echo.rs l.97-99, debug.rs l.106-109, blind_sign.rs l.199-202 with l.205-209. *)
  Definition dreject (v : dview) (x : ddev) : outcome reply * ddev :=
    (Err CommandNotAllowed,
     match v with DEcho _ _ => x | DDebug => debug_cleanup x | DBlind _ _ _ => set_dpath None x end).

  (** dispatcher.rs l.198-220 and ui_toolkit.rs l.55-104, as [finish] and [decide]. *)
  Definition dfinish (room : N) (r : outcome reply * ddev) : answer * ddev :=
    let put data e x :=
      if room <? len data + 2 then (ADied, drestart x) else (AReply (data ++ be 2 (sw e)), x) in
    match r with
    | (Ok (Now data), x) => put data Success x
    | (Ok Later, x) => (APending, x)
    | (Err e, x) => put [] e x
    | (Panic, x) | (Cut, x) => (ADied, drestart x)
    end.
  Definition ddecide (f : dview -> ddev -> outcome reply * ddev) (v : dview) (x : ddev) : answer * ddev :=
    dfinish (match dc_room D v with Some r => r | None => 0 end) (f v (set_view None x)).

  (** An event of the app without the feature. *)
  Definition dplain (x : ddev) (e : event) : answer * ddev :=
    let (a, d) := step (dc_conf D) O (dd_dev x) e in
    (a, match a with ADied => mkDD d None None (dd_log x) | _ => set_dev d x end).

  (** dispatcher.rs l.111-196. *)
  Definition dstep (x : ddev) (e : event) : answer * ddev :=
    match dd_view x, e with
    | _, EPower => (ADied, drestart x)
    | Some _, EApdu _ _ => (ANone, x)
    | Some v, EApprove => ddecide daccept v x
    | Some v, EReject => ddecide dreject v x
    | Some v, EUiError => ddecide (fun _ y => (Err DataInvalid, y)) v x
    | None, EApdu buf rx =>
      match d_ui (dd_dev x) with
      | Some _ => (ANone, x)
      | None =>
        if apdu_read_ok buf rx && (apdu_cla buf =? CLA) then
          let ins := apdu_ins buf in
          if ins =? 0xF0 then
            dfinish (len buf) (let (r, d) := h_dev_hash buf (dd_dev x) in (r, set_dev d x))
          else if ins =? 0xF1 then (h_except buf, x)
          else if ins =? 0xF2 then dfinish (len buf) (h_echo buf x)
          else if ins =? 0xF3 then dfinish (len buf) (h_blind buf x)
          else if known (cf_baking (dc_conf D)) ins then dplain x e
          else dfinish (len buf) (h_debug buf x)
        else dplain x e
      end
    | None, _ => dplain x e
    end.
  Fixpoint drun (x : ddev) (es : list event) : list answer * ddev :=
    match es with
    | [] => ([], x)
    | e :: es' => let (a, x1) := dstep x e in let (l, x2) := drun x1 es' in (a :: l, x2)
    end.
End Dev.

(** ** Screens *)

(** echo.rs l.69-91. *)
Definition echo_render (line1 line2 out : bytes) : vres (bytes * N) :=
  if (length out <? 35)%nat then VErr Unknown else VOk (overwrite (line1 ++ line2 ++ [0]) out, 1).

(** blind_sign.rs l.128-166: the digest in hexadecimal, in pieces of half as many bytes as
    fit on a page. A buffer of at most two bytes panics. *)
Definition blind_render (digest out : bytes) (page : N) : vres (bytes * N) :=
  match length out with
  | O | 1%nat | 2%nat => VPanic
  | S m =>
    if (m <=? 64)%nat then
      match nth_chunk (m / 2) page digest with
      | None => VErr Unknown
      | Some c => VOk (overwrite (hex c ++ [0]) out, (1 + 64 / N.of_nat m mod 256) mod 256)
      end
    else VOk (overwrite (hex digest ++ [0]) out, 1)
  end.

(** debug.rs l.70-73, l.81-99. *)
Definition debug_render (x : ddev) (out : bytes) (page : N) : vres (bytes * N) :=
  match lock_acquire acc_eqb (u_lock (d_up (dd_dev x))) AccDebug with
  | Some _ => VErr Unknown
  | None => ui_message (sb_read_exact (u_buf (d_up (dd_dev x)))) out page
  end.
