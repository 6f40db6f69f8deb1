(** The test driver of reviews, and the check of the test vectors. *)
From Coq Require Import NArith Bool Arith List.
From Verif Require Import Base Codecs Operations Oracles Text Bakers Device Screens.
Import ListNotations.
Open Scope N_scope.

(** [std::str::from_utf8], used in zuit/src/lib.rs l.163 and l.169 and in
    app/src/parser/integration_tests.rs l.447 and l.466: the ranges of the bytes that must
    follow a leading byte (RFC 3629). *)
Definition utf8_follow (b : N) : option (list (N * N)) :=
  let c := (0x80, 0xBF) in
  if b <? 0x80 then Some []
  else if b <? 0xC2 then None
  else if b <? 0xE0 then Some [c]
  else if b =? 0xE0 then Some [(0xA0, 0xBF); c]
  else if b =? 0xED then Some [(0x80, 0x9F); c]
  else if b <? 0xF0 then Some [c; c]
  else if b =? 0xF0 then Some [(0x90, 0xBF); c; c]
  else if b <? 0xF4 then Some [c; c; c]
  else if b =? 0xF4 then Some [(0x80, 0x8F); c; c]
  else None.
Fixpoint utf8_from (due : list (N * N)) (l : bytes) : bool :=
  match l, due with
  | [], [] => true
  | [], _ => false
  | b :: l', (lo, hi) :: due' => (lo <=? b) && (b <=? hi) && utf8_from due' l'
  | b :: l', [] => match utf8_follow b with Some due' => utf8_from due' l' | None => false end
  end.
Definition utf8 (l : bytes) : bool := utf8_from [] l.

(** zuit/src/lib.rs l.25-28: a page, title and message. *)
Definition upage : Type := bytes * bytes.

Section Driver.
  Variable O : oracles.
  Variable table : list baker.
  (** The sizes of the two buffers, and whether the pages are printed. *)
  Variables ts ms : nat.
  Variable print : bool.

  (** zuit/src/lib.rs l.140-184: the pages of an item from [page] on; [None] is a panic.
      [page_n] is less than [max_pages], a byte, so [fuel] does not run out from 256. *)
  Fixpoint drive_item (fuel : nat) (v : viewable) (item page most : N) : option (list upage) :=
    if page <? most then
      match fuel with
      | 0%nat => None
      | S f =>
        match view_render O table ts v item (zeros ts) (zeros ms) page with
        | VOk (title, message, most') =>
          if print && negb (utf8 title && utf8 message) then None
          else option_map (cons (title, message)) (drive_item f v item (page + 1) most')
        | VErr _ | VPanic => None
        end
      end
    else Some [].

  Fixpoint collect {A} (l : list (option A)) : option (list A) :=
    match l with
    | [] => Some []
    | Some a :: l' => option_map (cons a) (collect l')
    | None :: _ => None
    end.

  (** zuit/src/lib.rs l.132-186: [drive]; [None] is a panic. *)
  Definition drive (v : viewable) : option (list (list upage)) :=
    match view_items v with
    | VOk n => collect (map (fun k => drive_item 256 v (N.of_nat k) 0 255) (seq 0 (N.to_nat n)))
    | VErr _ | VPanic => None
    end.
End Driver.

(** app/src/parser/integration_tests.rs l.60-68: [ExpectedPage]. *)
Record expected := mkExpected { ex_idx : nat; ex_title : bytes; ex_message : list bytes }.

(** [str::starts_with]. *)
Fixpoint starts_with (p l : bytes) : bool :=
  match p, l with
  | [], _ => true
  | a :: p', b :: l' => (a =? b) && starts_with p' l'
  | _ :: _, [] => false
  end.

(** integration_tests.rs l.443-479: one page against one expected message. *)
Definition page_matches (title : bytes) (x : upage * bytes) : bool :=
  let '((k, m), want) := x in
  utf8 (cstr k) && starts_with title (cstr k) && utf8 (cstr m) && bytes_eqb (cstr m) want.
(** integration_tests.rs l.428-480: one item; [zip] stops at the shorter list. *)
Definition entry_matches (out : list (list upage)) (e : expected) : bool :=
  match nth_error out (ex_idx e) with
  | None => false
  | Some pages => forallb (page_matches (ex_title e)) (combine pages (ex_message e))
  end.
(** integration_tests.rs l.416-483: [verify_ui], whether it returns without a panic; the
    buffers have 18 and 4096 bytes and the driver prints. *)
Definition verify_ui (O : oracles) (table : list baker) (v : viewable) (ui : list expected) : bool :=
  match drive O table 18 4096 true v with
  | None => false
  | Some out => forallb (entry_matches out) ui
  end.

(** handlers/signing.rs l.143-149: [to_sign_ui]; the view keeps no message. *)
Definition test_view (p : bytes * encoded_ops) : viewable := VSign false (zeros 32) (Some p) [].
