(** APDU access, upload buffer, lock and multi-packet upload. *)
From Coq Require Import List NArith Bool Arith.
From Verif Require Import Base Flash Codecs.
Import ListNotations.
Open Scope N_scope.

(** Outcome of a device computation: a value, an error status, a panic
    ([exit_app(255)]) or a power loss. *)
Inductive outcome (A : Type) := Ok (a : A) | Err (e : apdu_error) | Panic | Cut.
Arguments Ok {A} a.
Arguments Err {A} e.
Arguments Panic {A}.
Arguments Cut {A}.

(** The next decision of the fault schedule; no decision left means success. *)
Definition next_fault (s : list fault) : fault * list fault :=
  match s with [] => (WOk, []) | f :: s' => (f, s') end.

(** ** APDU access: rust/app/src/utils/apdu_wrapper.rs *)

(** apdu_wrapper.rs l.57-69: [ApduBufferRead::new] accepts. *)
Definition apdu_read_ok (buf : bytes) (rx : N) : bool :=
  (5 <=? len buf) && (5 <=? rx) && (rx <=? len buf).

(** apdu_wrapper.rs l.72-89: header accessors. *)
Definition apdu_cla (buf : bytes) : N := nth 0 buf 0.
Definition apdu_ins (buf : bytes) : N := nth 1 buf 0.
Definition apdu_p1 (buf : bytes) : N := nth 2 buf 0.
Definition apdu_p2 (buf : bytes) : N := nth 3 buf 0.

(** apdu_wrapper.rs l.95-103: [payload]. The bound is the length of the whole
    buffer, not the received length. *)
Definition apdu_payload (buf : bytes) : option bytes :=
  let plen := nth 4 buf 0 in
  if len buf - 5 <? plen then None else Some (slice 5 (N.to_nat plen) buf).

(** ** Upload buffer: rust/bolos/src/swapping_buffer.rs *)

(** swapping_buffer.rs l.23-26: [BufferState]. *)
Inductive bstate := InRam (cnt : nat) | InFlash (cnt : nat).

(** swapping_buffer.rs l.60-64: [SwappingBuffer]; the arrays have the
    capacities [RAM] and [FLASH]. *)
Record sbuf := mkSbuf { sb_ram : bytes; sb_flash : bytes; sb_state : bstate }.

(** [dst[i .. i + src.len()].copy_from_slice(src)]. *)
Definition blit (i : nat) (src dst : bytes) : bytes :=
  firstn i dst ++ src ++ skipn (i + length src) dst.

(** [NVM::write] (rust/bolos-impl/src/nvm.rs l.60-90) of a whole range inside
    the flash array, under a fault. A torn write leaves arbitrary contents. *)
Definition nvm_blit (i : nat) (src dst : bytes) (f : fault) : bytes * wres :=
  let new := blit i src dst in
  let page := match f with
              | WOk => new
              | WFail t | WCut t =>
                match t with
                | TOld => dst
                | TNew => new
                | TTorn p => firstn (length dst) (p ++ dst)
                end
              end in
  (page, fault_res f).

Section SwappingBuffer.
  Variables RAM FLASH : nat.

  Inductive sbres := SbOk | SbErr | SbCut.

  Definition of_wres (r : wres) : sbres :=
    match r with WDone => SbOk | WErr => SbErr | WLost => SbCut end.

  (** swapping_buffer.rs l.124-134: appending to the flash buffer. *)
  Definition sb_write_flash (b : sbuf) (cnt : nat) (l : bytes) (s : list fault)
    : sbuf * sbres * list fault :=
    if (FLASH <? cnt + length l)%nat then (b, SbErr, s)
    else
      let (f, s') := next_fault s in
      let (fl, r) := nvm_blit cnt l (sb_flash b) f in
      (mkSbuf (sb_ram b) fl
         (match r with WDone => InFlash (cnt + length l) | _ => InFlash cnt end),
       of_wres r, s').

  (** swapping_buffer.rs l.102-136: [write]. *)
  Definition sb_write (b : sbuf) (l : bytes) (s : list fault) : sbuf * sbres * list fault :=
    match sb_state b with
    | InRam cnt =>
      if (RAM <? cnt + length l)%nat then
        (* [self.flash.write(0, &*self.ram)?]: the whole RAM array *)
        if (FLASH <? length (sb_ram b))%nat then (b, SbErr, s)
        else
          let (f, s') := next_fault s in
          let (fl, r) := nvm_blit 0 (sb_ram b) (sb_flash b) f in
          match r with
          | WDone => sb_write_flash (mkSbuf (sb_ram b) fl (InFlash cnt)) cnt l s'
          | _ => (mkSbuf (sb_ram b) fl (InRam cnt), of_wres r, s')
          end
      else
        (mkSbuf (blit cnt l (sb_ram b)) (sb_flash b) (InRam (cnt + length l)), SbOk, s)
    | InFlash cnt => sb_write_flash b cnt l s
    end.

  (** swapping_buffer.rs l.85-90: [read_exact]. *)
  Definition sb_read_exact (b : sbuf) : bytes :=
    match sb_state b with
    | InRam cnt => firstn cnt (sb_ram b)
    | InFlash cnt => firstn cnt (sb_flash b)
    end.

  (** swapping_buffer.rs l.142-144: [reset]; the contents stay. *)
  Definition sb_reset (b : sbuf) : sbuf := mkSbuf (sb_ram b) (sb_flash b) (InRam 0).
End SwappingBuffer.

(** ** Lock: rust/app/src/handlers/lock.rs *)

Section Lock.
  Context {A : Type} (eqb : A -> A -> bool).

  Inductive lock_error := LBusy | LNotLocked | LBadId.

  (** lock.rs l.38-48: [lock] (both arms leave the acquirer as holder). *)
  Definition lock_lock (l : option A) (a : A) : option A :=
    match l with
    | Some h => if eqb h a then l else Some a
    | None => Some a
    end.

  (** lock.rs l.51-58: [acquire]; [None] is success. *)
  Definition lock_acquire (l : option A) (a : A) : option lock_error :=
    match l with
    | Some h => if eqb h a then None else Some LBusy
    | None => Some LNotLocked
    end.

  (** lock.rs l.61-71: [release]. *)
  Definition lock_release (l : option A) (a : A) : option A * option lock_error :=
    match l with
    | Some h => if eqb h a then (None, None) else (l, Some LBadId)
    | None => (None, Some LNotLocked)
    end.
End Lock.

(** lock.rs l.74-81: [From<LockError> for ApduError]. *)
Definition lock_apdu_error (e : lock_error) : apdu_error :=
  match e with LNotLocked => ExecutionError | LBusy | LBadId => Busy end.

(** ** Packet types: rust/app/src/handlers/utils.rs *)

(** utils.rs l.20-38 and l.46-70, combined by [PacketTypes::try_either]
    (l.133-135): what a P1 byte means, native numbering first. *)
Inductive packet_type := PInit | PAdd | PLast | PHashNext | PInitLast | PAddLast | PHashLast.
Definition z_packet (p1 : N) : option packet_type :=
  if p1 =? 0 then Some PInit else if p1 =? 1 then Some PAdd
  else if p1 =? 2 then Some PLast else None.
Definition legacy_packet (p1 : N) : option packet_type :=
  if p1 =? 0 then Some PInit else if p1 =? 1 then Some PAdd
  else if p1 =? 3 then Some PHashNext else if p1 =? 0x80 then Some PInitLast
  else if p1 =? 0x81 then Some PAddLast else if p1 =? 0x83 then Some PHashLast else None.
Definition packet_of_p1 (p1 : N) : option packet_type :=
  match z_packet p1 with Some p => Some p | None => legacy_packet p1 end.

(** utils.rs l.78-108: [is_init], [is_last], [is_next]. *)
Definition is_init (p : packet_type) : bool :=
  match p with PInit | PInitLast => true | _ => false end.
Definition is_last (p : packet_type) : bool :=
  match p with PLast | PInitLast | PAddLast | PHashLast => true | _ => false end.
Definition is_next (p : packet_type) : bool := negb (is_init p) && negb (is_last p).

(** ** Uploader: rust/app/src/utils/buffer_upload.rs *)

(** rust/app/src/handlers/mod.rs l.45-57: [BUFFERAccessors]; the last three exist in
    developer builds only. *)
Inductive accessor := AccSign | AccBaking | AccSha256 | AccBlind | AccDebug.
Definition acc_eqb (a b : accessor) : bool :=
  match a, b with
  | AccSign, AccSign | AccBaking, AccBaking | AccSha256, AccSha256 | AccBlind, AccBlind | AccDebug, AccDebug => true
  | _, _ => false
  end.

(** handlers/mod.rs l.40-42: capacities of [BUFFER]. *)
Definition RAM_CAP : nat := N.to_nat 0xFF.
Definition FLASH_CAP : nat := N.to_nat 0x1FFF.

(** [BUFFER] (buffer and lock) and [INIT_LEN] (buffer_upload.rs l.29-30). *)
Record ustate := mkU { u_buf : sbuf; u_lock : option accessor; u_init_len : N }.

(** buffer_upload.rs l.74-79: [UploaderOutput]. *)
Record upload_out := mkUO { uo_p2 : N; uo_first : bytes; uo_data : bytes }.

(** One [zbuffer.write(..)?] of the uploader, with the error mapped as in
    buffer_upload.rs l.62-72. *)
Definition u_write (u : ustate) (l : bytes) (s : list fault) : outcome unit * ustate * list fault :=
  let '(b, r, s') := sb_write RAM_CAP FLASH_CAP (u_buf u) l s in
  let u' := mkU b (u_lock u) (u_init_len u) in
  match r with
  | SbOk => (Ok tt, u', s')
  | SbErr => (Err DataInvalid, u', s')
  | SbCut => (Cut, u', s')
  end.

(** buffer_upload.rs l.115-121 (and l.127-129, l.135-137): append the payload, if any. *)
Definition u_write_payload (u : ustate) (pl : option bytes) (s : list fault)
  : outcome unit * ustate * list fault :=
  match pl with
  | None => (Ok tt, u, s)
  | Some l => u_write u l s
  end.

(** buffer_upload.rs l.139-147: split the collected bytes. Panics if [INIT_LEN]
    exceeds what was collected. *)
Definition u_split (u : ustate) : outcome upload_out :=
  match sb_read_exact (u_buf u) with
  | [] => Panic
  | p2 :: rest =>
    if len rest <? u_init_len u then Panic
    else Ok (mkUO p2 (firstn (N.to_nat (u_init_len u)) rest)
                     (skipn (N.to_nat (u_init_len u)) rest))
  end.

(** buffer_upload.rs l.104-151: [Uploader::upload]. *)
Definition upload (a : accessor) (buf : bytes) (u : ustate) (s : list fault)
  : outcome (option upload_out) * ustate * list fault :=
  match packet_of_p1 (apdu_p1 buf) with
  | None => (Err InvalidP1P2, u, s)
  | Some pt =>
    if is_init pt then
      let u1 := mkU (sb_reset (u_buf u)) (lock_lock acc_eqb (u_lock u) a) (u_init_len u) in
      let '(r, u2, s2) := u_write u1 [apdu_p2 buf] s in
      match r with
      | Ok _ =>
        match apdu_payload buf with
        | None => (Ok None, u2, s2)
        | Some pl =>
          let u3 := mkU (u_buf u2) (u_lock u2) (len pl) in
          let '(r3, u4, s4) := u_write u3 pl s2 in
          (match r3 with Ok _ => Ok None | Err e => Err e | Panic => Panic | Cut => Cut end, u4, s4)
        end
      | Err e => (Err e, u2, s2)
      | Panic => (Panic, u2, s2)
      | Cut => (Cut, u2, s2)
      end
    else
      match lock_acquire acc_eqb (u_lock u) a with
      | Some e => (Err (lock_apdu_error e), u, s)
      | None =>
        let '(r, u1, s1) := u_write_payload u (apdu_payload buf) s in
        match r with
        | Ok _ =>
          if is_next pt then (Ok None, u1, s1)
          else
            (match u_split u1 with
             | Ok o => Ok (Some o)
             | Err e => Err e
             | Panic => Panic
             | Cut => Cut
             end, u1, s1)
        | Err e => (Err e, u1, s1)
        | Panic => (Panic, u1, s1)
        | Cut => (Cut, u1, s1)
        end
      end
  end.

(** buffer_upload.rs l.81-94: dropping [UploaderOutput] resets and releases the buffer. *)
Definition upload_drop (a : accessor) (u : ustate) : ustate :=
  match lock_acquire acc_eqb (u_lock u) a with
  | Some _ => u
  | None => mkU (sb_reset (u_buf u)) (fst (lock_release acc_eqb (u_lock u) a)) (u_init_len u)
  end.

(** handlers/mod.rs l.40-42 at power-on: empty buffer, no holder. The flash part
    keeps its contents; the RAM part is zeroed. *)
Definition u_restart (u : ustate) : ustate :=
  mkU (mkSbuf (zeros RAM_CAP) (sb_flash (u_buf u)) (InRam 0)) None 0.
Definition u_fresh : ustate :=
  mkU (mkSbuf (zeros RAM_CAP) (zeros FLASH_CAP) (InRam 0)) None 0.
