(** Wear-levelled flash slots: rust/bolos/src/flash_slot.rs. *)
From Coq Require Import List NArith Lia Bool Arith.
From Verif Require Import Base.
Import ListNotations.
Open Scope N_scope.

(** A flash page: 64 bytes (flash_slot.rs l.19, [PAGE_SIZE]). *)
Definition page := bytes.

(** flash_slot.rs l.19-23: [PAGE_SIZE], [COUNTER_SIZE], [CRC_SIZE], [SLOT_SIZE]. *)
Definition PAGE_SIZE : nat := 64.
Definition COUNTER_SIZE : nat := 8.
Definition CRC_SIZE : nat := 4.
Definition SLOT_SIZE : nat := 52.

(** The reflected CRC-32 of the [crc] crate ([crc::crc32::IEEE], polynomial
    0xEDB88320), one bit at a time. *)
Definition crc_bit (c : N) : N :=
  if N.odd c then N.lxor (N.div2 c) 0xEDB88320 else N.div2 c.
Definition crc_byte (c b : N) : N :=
  crc_bit (crc_bit (crc_bit (crc_bit (crc_bit (crc_bit (crc_bit (crc_bit (N.lxor c b)))))))).
Definition crc32_bytes (l : bytes) : N :=
  N.lxor (fold_left crc_byte l 0xFFFFFFFF) 0xFFFFFFFF.

(** flash_slot.rs l.39-47: [Slot::crc32]. *)
Definition slot_crc (counter : N) (payload : bytes) : N :=
  crc32_bytes (be 8 counter ++ payload).

(** flash_slot.rs l.94-126 ([Slot::as_storage]) of a slot built by
    l.128-136 ([Slot::modify]). *)
Definition as_storage (counter : N) (payload : bytes) (crc : N) : page :=
  be 8 counter ++ payload ++ be 4 crc.
Definition slot_page (counter : N) (payload : bytes) : page :=
  as_storage counter payload (slot_crc counter payload).

(** flash_slot.rs l.49-58 and l.25: [Slot::zeroed], [ZEROED_STORAGE]. *)
Definition ZEROED_STORAGE : page := as_storage 0 (zeros SLOT_SIZE) 0x4128908.

(** flash_slot.rs l.60-92: [Slot::from_storage]; [None] is [SlotError::Crc]. *)
Definition from_storage (p : page) : option (N * bytes) :=
  let cnt := unbe (firstn COUNTER_SIZE p) in
  let payload := slice COUNTER_SIZE SLOT_SIZE p in
  let crc := unbe (skipn (COUNTER_SIZE + SLOT_SIZE) p) in
  if crc =? slot_crc cnt payload then Some (cnt, payload) else None.

(** What happens to the page and the app when a page is programmed
    ([NVM::write], rust/bolos-impl/src/nvm.rs l.60-90, calling [nvm_write]):
    it is written; or the system reports an error and the app goes on; or power
    is lost. In the last two cases the page is left as it was, fully written,
    or with arbitrary contents. The real hardware is abstracted by this choice. *)
Inductive tear := TOld | TNew | TTorn (p : page).
Inductive fault := WOk | WFail (t : tear) | WCut (t : tear).

Definition tear_page (old new : page) (t : tear) : page :=
  match t with TOld => old | TNew => new | TTorn p => p end.

Inductive wres := WDone | WErr | WLost.

Definition fault_page (old new : page) (f : fault) : page :=
  match f with WOk => new | WFail t => tear_page old new t | WCut t => tear_page old new t end.
Definition fault_res (f : fault) : wres :=
  match f with WOk => WDone | WFail _ => WErr | WCut _ => WLost end.

(** flash_slot.rs l.206-209: [Wear]. The pages live in flash. The position
    [idx] lives in RAM; [None] means that the lazily initialised static
    (rust/bolos-derive/src/lazy_static.rs l.156-183) has not been touched since
    power-on. *)
Record wear := mkWear { w_pages : list page; w_idx : option N }.

(** flash_slot.rs l.222-234: [Wear::align]; [None] is a CRC error. *)
Fixpoint align_from (max : N) (ps : list page) : option N :=
  match ps with
  | [] => Some max
  | p :: ps' =>
    match from_storage p with
    | None => None
    | Some (c, _) => align_from (if max <? c then c else max) ps'
    end
  end.
Definition align (ps : list page) : option N := align_from 0 ps.

(** First access to the static: flash_slot.rs l.212-217 ([Wear::new]) inside
    the lazy initialiser; [None] is the [apdu_expect] panic. *)
Definition wear_init (w : wear) : option N :=
  match w_idx w with
  | Some k => Some k
  | None => align (w_pages w)
  end.

(** flash_slot.rs l.236-238: [Wear::idx]. *)
Definition page_no (w : wear) (k : N) : nat := N.to_nat (k mod len (w_pages w)).

(** flash_slot.rs l.266-275: [Wear::read]. *)
Inductive rres := RData (payload : bytes) | RUninit | RCrc.
Definition wear_read_at (w : wear) (k : N) : rres :=
  match from_storage (nth (page_no w k) (w_pages w) []) with
  | None => RCrc
  | Some (c, payload) => if c =? 0 then RUninit else RData payload
  end.

(** flash_slot.rs l.255-263 and l.196-203: [Wear::write]. The position is
    advanced first (wrapping [u64]), then the page is programmed. *)
Definition wear_write_at (w : wear) (k : N) (payload : bytes) (f : fault) : wear * wres :=
  let k' := (k + 1) mod 2 ^ 64 in
  let i := page_no w k' in
  let old := nth i (w_pages w) [] in
  let new := slot_page k' payload in
  (mkWear (upd i (fault_page old new f) (w_pages w)) (Some k'), fault_res f).

(** Power-on: the position in RAM is lost. *)
Definition wear_restart (w : wear) : wear := mkWear (w_pages w) None.

(** flash_slot.rs l.299 ([new_flash_slot!]): a fresh area of [n] pages. *)
Definition wear_fresh (n : nat) : wear := mkWear (repeat ZEROED_STORAGE n) None.

(** flash_slot.rs l.185-187 and l.243-250: [format] with successful writes. *)
Definition wear_format (w : wear) : wear :=
  mkWear (repeat (slot_page 0 (zeros SLOT_SIZE)) (length (w_pages w))) (Some 0).

(** One use of a wear-levelled area by the app, and what a read answers.
    [None] is the start-up panic; a panic or a power cut restarts the app. *)
Inductive wop := OWrite (payload : bytes) (f : fault) | ORestart.

Definition wop_step (w : wear) (o : wop) : wear :=
  match o with
  | ORestart => wear_restart w
  | OWrite payload f =>
    match wear_init w with
    | None => wear_restart w
    | Some k =>
      let (w', r) := wear_write_at w k payload f in
      match r with WLost => wear_restart w' | _ => w' end
    end
  end.
Definition wop_run (w : wear) (ops : list wop) : wear := fold_left wop_step ops w.

Definition wear_read (w : wear) : option rres :=
  match wear_init w with
  | None => None
  | Some k => Some (wear_read_at w k)
  end.
