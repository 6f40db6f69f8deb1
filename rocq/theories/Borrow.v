(** Reviews that read the upload buffer. The structures behind a signature review
    ([SignUI], [BakingSignUI]) hold slices of [BUFFER], which is reset and released
    before the first screen is drawn. [Device.v] keeps the bytes themselves; here the
    places are kept, and read again when something is to be drawn. *)
From Coq Require Import List NArith Bool Arith.
From Verif Require Import Base Flash Codecs Upload Oracles Operations Address Baking Device.
Import ListNotations.
Open Scope N_scope.

(** A slice of one of the two arrays of the buffer (rust/bolos/src/swapping_buffer.rs
    l.60-64). *)
Record place := mkPlace { pl_flash : bool; pl_off : nat; pl_len : nat }.
Definition place_read (b : sbuf) (p : place) : bytes :=
  slice (pl_off p) (pl_len p) (if pl_flash p then sb_flash b else sb_ram b).
(** [&s[i..i + n]]. *)
Definition sub_place (p : place) (i n : nat) : place := mkPlace (pl_flash p) (pl_off p + i) n.

(** rust/app/src/utils/buffer_upload.rs l.139-147: the slice [UploaderOutput::data],
    behind P2 and the first packet. *)
Definition data_place (u : ustate) : place :=
  let i := S (N.to_nat (u_init_len u)) in
  match sb_state (u_buf u) with
  | InRam cnt => mkPlace false i (cnt - i)
  | InFlash cnt => mkPlace true i (cnt - i)
  end.

(** The command whose slice a review holds: handlers/signing.rs l.135-139 ([parsed]),
    handlers/baking.rs l.376-381 ([branch], [data]). The other reviews hold values. *)
Definition borrows (v : viewable) : option accessor :=
  match v with
  | VSign _ _ _ _ => Some AccSign
  | VBakingSign _ _ _ _ _ => Some AccBaking
  | _ => None
  end.

(** The review as its slices read now: rust/app/src/parser/operations.rs l.42-51 for the
    slices of [Operation], behind the byte of the preamble. The first operation of a
    baking review is a structure of slices of the same bytes, and is decoded again;
    [None] if these bytes are not an operation any more. *)
Definition reread (b : sbuf) (p : place) (v : viewable) : option viewable :=
  let branch := place_read b (sub_place p 1 32) in
  let ops := place_read b (sub_place p 33 (pl_len p - 33)) in
  match v with
  | VSign send_hash digest (Some (_, e)) data =>
    Some (VSign send_hash digest (Some (branch, mkOps ops (eo_read e))) data)
  | VBakingSign send_hash digest _ _ data =>
    match eo_next (eo_new ops) with
    | NSome o _ => Some (VBakingSign send_hash digest branch o data)
    | _ => None
    end
  | _ => Some v
  end.

(** The device and the slice that the pending review holds. *)
Record bdev := mkB { bd_dev : dev; bd_place : option place }.

Section Borrow.
  Variable C : config.
  Variable O : oracles.
  (** Whether commands are kept from the app while a review is pending, as
      [io_exchange] with [IO_ASYNCH_REPLY] does. *)
  Variable gate : bool.

  Definition gstep (d : dev) (e : event) : answer * dev :=
    match e with
    | EApdu buf rx =>
      if gate then step C O d e
      else finish (len buf) (if apdu_read_ok buf rx then dispatch C O buf d else (Err WrongLength, d))
    | _ => step C O d e
    end.

  (** The buffer when the last packet has been written (buffer_upload.rs l.132-137). *)
  Definition collected (a : accessor) (buf : bytes) (d : dev) : ustate :=
    snd (fst (upload a buf (d_up d) (d_ufaults d))).

  Definition bstep (x : bdev) (e : event) : answer * bdev :=
    let (a, d) := gstep (bd_dev x) e in
    (a, mkB d (match d_ui d with
               | None => None
               | Some v =>
                 match a, e with
                 | APending, EApdu buf _ =>
                   match borrows v with
                   | Some acc => Some (data_place (collected acc buf (bd_dev x)))
                   | None => None
                   end
                 | _, _ => bd_place x
                 end
               end)).
  Fixpoint brun (x : bdev) (es : list event) : list answer * bdev :=
    match es with
    | [] => ([], x)
    | e :: es' =>
      let (a, x1) := bstep x e in
      let (l, x2) := brun x1 es' in (a :: l, x2)
    end.
End Borrow.

(** What there is to be drawn. *)
Definition visible (x : bdev) : option viewable :=
  match d_ui (bd_dev x) with
  | None => None
  | Some v =>
    match bd_place x with
    | None => Some v
    | Some p => reread (u_buf (d_up (bd_dev x))) p v
    end
  end.
