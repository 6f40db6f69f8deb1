(** Navigation through a review with the buttons: rust/zemu/src/ui_toolkit.rs and its
    backends, with the C views rust/app/refactor/view_{s,x}.c. *)
From Coq Require Import NArith Bool Arith String List.
From Verif Require Import Base Text Device Screens.
Import ListNotations.
Open Scope N_scope.

(** backends/nanos.rs l.31-32 and nanox.rs l.28: [INCLUDE_ACTIONS_COUNT]. *)
Definition actions (hw : hardware) : N := match hw with NanoS => 1 | NanoX => 0 end.

(** What the screen is for. The Nano S has the idle menu, a review screen and an error
    screen (view_s.c l.48-77); the Nano X has the steps of its flows (view_x.c l.46-91).
    The step [Page] holds a text as long as needed, which the system pages. *)
Inductive face := Idle | Review | Title | Page | Approval | Rejection | Failure.

(** What a review screen shows: its title and its lines. *)
Record shot := mkShot { s_title : bytes; s_lines : list bytes }.

(** ui_toolkit.rs l.31-41, and the backends' fields (nanos.rs l.41-48, nanox.rs l.37-45);
    [z_seen] records the review screens shown since the review began, the current one
    first. *)
Record zui := mkZui {
  z_face : face;
  z_item : N; z_items : N; z_page : N; z_pages : N;
  z_key : bytes; z_msg : bytes;
  z_inside : bool; z_expert : bool;
  z_seen : list shot
}.
Definition set_face f z := mkZui f (z_item z) (z_items z) (z_page z) (z_pages z) (z_key z) (z_msg z) (z_inside z) (z_expert z) (z_seen z).
Definition set_pos i p z := mkZui (z_face z) i (z_items z) p (z_pages z) (z_key z) (z_msg z) (z_inside z) (z_expert z) (z_seen z).
Definition set_items n z := mkZui (z_face z) (z_item z) n (z_page z) (z_pages z) (z_key z) (z_msg z) (z_inside z) (z_expert z) (z_seen z).
Definition set_pages n z := mkZui (z_face z) (z_item z) (z_items z) (z_page z) n (z_key z) (z_msg z) (z_inside z) (z_expert z) (z_seen z).
Definition set_text key msg z := mkZui (z_face z) (z_item z) (z_items z) (z_page z) (z_pages z) key msg (z_inside z) (z_expert z) (z_seen z).
Definition set_inside b z := mkZui (z_face z) (z_item z) (z_items z) (z_page z) (z_pages z) (z_key z) (z_msg z) b (z_expert z) (z_seen z).
Definition set_expert b z := mkZui (z_face z) (z_item z) (z_items z) (z_page z) (z_pages z) (z_key z) (z_msg z) (z_inside z) b (z_seen z).
Definition set_seen l z := mkZui (z_face z) (z_item z) (z_items z) (z_page z) (z_pages z) (z_key z) (z_msg z) (z_inside z) (z_expert z) l.

(** What a review offers: [num_items] and [render_item] (item, title buffer, message
    buffer, page). *)
Record review := mkReview {
  r_items : vres N;
  r_render : N -> bytes -> bytes -> N -> vres (bytes * bytes * N)
}.

(** Result of updating the screen; [Dead] is a panic or an endless loop. *)
Inductive update := Shown (z : zui) | Failed (e : view_error) (z : zui) | Dead.

Section Zui.
  Variable hw : hardware.

  (** nanos.rs l.50-60, nanox.rs l.47-57, ui_toolkit.rs l.44-53: after power-on. *)
  Definition zui_start : zui :=
    mkZui Idle 0 0 0 0 (zeros (key_size hw)) (zeros (N.to_nat (message_size hw))) false false [].

  (** ui_toolkit.rs l.214-231: characters outside of 32..=0x7F before the first NUL
      become points. That the buffers are UTF-8 afterwards is not modelled. *)
  Fixpoint asciify (l : bytes) : bytes :=
    match l with
    | [] => []
    | c :: t => if c =? 0 then l else (if (32 <=? c) && (c <=? 0x7F) then c else 46) :: asciify t
    end.

  (** nanos.rs l.79-102 ([split_value_field]): two lines of 17 characters; [None] is an
      index out of bounds. Nano X and S Plus show the message as it is. *)
  Definition lines_of (msg : bytes) : option (list bytes) :=
    let t := cstr msg in
    match hw with
    | NanoX => Some [t]
    | NanoS =>
      if (18 <=? length t)%nat then
        if (35 <=? length t)%nat then None else Some [firstn 17 t; skipn 17 t]
      else Some [t; []]
    end.

  (** ui_toolkit.rs l.106-110: [paging_init]. *)
  Definition paging_init (z : zui) : zui := set_pages 0 (set_pos 0 0 z).
  (** The condition of l.125-128: there is an item to go on to. *)
  Definition more_items (z : zui) : bool := (0 <? z_items z) && (z_item z <? z_items z - 1 + actions hw).
  (** ui_toolkit.rs l.122-133: [paging_increase]. *)
  Definition paging_increase (z : zui) : zui :=
    if z_page z + 1 <? z_pages z then set_pos (z_item z) (z_page z + 1) z
    else if more_items z then set_pos (z_item z + 1) 0 z
    else z.
  (** ui_toolkit.rs l.135-138: [paging_can_decrease]. *)
  Definition can_decrease (z : zui) : bool := negb (z_page z =? 0) || (0 <? z_item z).
  (** ui_toolkit.rs l.140-152: [paging_decrease]. *)
  Definition paging_decrease (z : zui) : zui :=
    if negb (z_page z =? 0) then set_pos (z_item z) (z_page z - 1) z
    else if 0 <? z_item z then set_pos (z_item z - 1) 255 z
    else z.

  (** ui_toolkit.rs l.164-166 and l.173-175; without items the subtraction wraps around. *)
  Definition is_accept (z : zui) : bool := negb (z_items z =? 0) && (z_item z =? z_items z - 1).
  Definition is_reject (z : zui) : bool := z_item z =? z_items z.

  (** nanos.rs l.75-77 and nanox.rs l.138-142: [message_buf], fresh on the Nano S. *)
  Definition message_buf (z : zui) : bytes :=
    match hw with NanoS => zeros (N.to_nat (message_size NanoS)) | NanoX => z_msg z end.

  (** ui_toolkit.rs l.193-247: [render_item] for one page. *)
  Definition render_page (r : review) (z : zui) (page : N) : update :=
    match r_render r (z_item z mod 256) (z_key z) (message_buf z) (page mod 256) with
    | VPanic => Dead
    | VErr e => Failed e z
    | VOk (key, msg, n) =>
      let key := asciify key in
      let msg := asciify msg in
      match lines_of msg with
      | None => Dead
      | Some _ => Shown (set_pages n (set_text key msg z))
      end
    end.

  (** ui_toolkit.rs l.320-359: [format_key_with_page]. *)
  Definition page_mark (z : zui) : bytes :=
    str " [" ++ itoa (z_page z + 1) ++ str "/" ++ itoa (z_pages z) ++ str "]" ++ [0].
  Definition mark_page (z : zui) : zui :=
    if 1 <? z_pages z then
      let t := cstr (z_key z) ++ page_mark z in
      if (length t <? key_size hw)%nat then set_text (overwrite t (z_key z)) (z_msg z) z else z
    else z.

  (** ui_toolkit.rs l.296-315: the loop that skips items without pages. *)
  Fixpoint show_item (fuel : nat) (r : review) (z : zui) : update :=
    match fuel with
    | 0%nat => Dead
    | S fuel' =>
      match render_page r z 0 with
      | Shown z1 =>
        let z2 := if negb (z_pages z1 =? 0) && (z_pages z1 <? z_page z1)
                  then set_pos (z_item z1) (z_pages z1 - 1) z1 else z1 in
        match render_page r z2 (z_page z2) with
        | Shown z3 =>
          let z4 := mark_page z3 in
          if z_pages z4 =? 0 then show_item fuel' r (paging_increase z4) else Shown z4
        | u => u
        end
      | u => u
      end
    end.
  (** Each iteration advances by an item or repeats the same state for ever. *)
  Definition skip_fuel : nat := 300.

  (** ui_toolkit.rs l.258-294: the label of an action. *)
  Definition show_label (s : string) (z : zui) : update :=
    Shown (set_text (overwrite [0] (z_key z)) (overwrite (lit s) (message_buf z)) (set_pos (z_item z) 0 z)).

  (** ui_toolkit.rs l.249-318: [review_update_data]. *)
  Definition update_data (o : option review) (z : zui) : update :=
    match o with
    | None => Failed NoData z
    | Some r =>
      match r_items r with
      | VPanic => Dead
      | VErr e => Failed e z
      | VOk n =>
        let z := set_pages 1 (set_items (n + 1) z) in
        if (actions hw =? 1) && is_accept z then show_label "APPROVE" z
        else if (actions hw =? 1) && is_reject z then show_label "REJECT" z
        else show_item skip_fuel r z
      end
    end.

  (** ** Screens *)

  (** The review screen is shown as it is now. *)
  Definition shot_of (z : zui) : shot :=
    mkShot (cstr (z_key z)) (match lines_of (z_msg z) with Some l => l | None => [] end).
  Definition snapshot (z : zui) : zui := set_seen (shot_of z :: z_seen z) z.
  (** ui_toolkit.rs l.362-378: [show_error]. *)
  Definition show_error (z : zui) : zui :=
    set_face Failure (set_text (overwrite (lit "ERROR") (z_key z)) (overwrite (lit "SHOWING DATA") (message_buf z)) z).
  (** nanos.rs l.104-115 and nanox.rs l.146-154: [show_idle]. *)
  Definition show_idle (z : zui) : zui :=
    set_face Idle (set_text (overwrite (lit "DO NOT USE") (z_key z)) (z_msg z) z).

  (** What becomes of the pending review. *)
  Inductive act :=
  | Stay
  | Accept | Refuse  (** [approve] and [reject], ui_toolkit.rs l.55-87 *)
  | Ack              (** [accept_error], ui_toolkit.rs l.89-104 *)
  | Crash.

  (** nanos.rs l.138-160: [show_review] and [update_review] of the Nano S. A rejection by
      [render_item] (ui_toolkit.rs l.236-239) rejects the review first. *)
  Definition put_review (u : update) : zui * act :=
    match u with
    | Shown z => (snapshot (set_face Review z), Stay)
    | Failed Rejected z => (show_error z, Refuse)
    | Failed _ z => (show_error z, Stay)
    | Dead => (zui_start, Crash)
    end.

  (** nanox.rs l.182-189 ([update_review]) on the way to the step [Page], whose
      initialisation is l.302-304. *)
  Definition put_page (u : update) : zui * act :=
    match u with
    | Shown z | Failed NoData z => (snapshot (set_inside true (set_face Page z)), Stay)
        | Failed Rejected z => (show_error z, Refuse)
    | Failed Unknown z => (show_error z, Stay)
    | Dead => (zui_start, Crash)
    end.

  (** ui_toolkit.rs l.386-393: [show], with nanos.rs l.138-148 and nanox.rs l.166-180. *)
  Definition zui_show (r : review) (z : zui) : zui * act :=
    let z := set_seen [] (paging_init z) in
    match hw with
    | NanoS => put_review (update_data (Some r) z)
    | NanoX => (set_inside false (set_face Title (paging_decrease z)), Stay)
    end.

  (** The buttons; [Toggle] is the entry "Expert mode" of the idle menu. *)
  Inductive button := Left | Right | Both | Toggle.

  (** view_s.c l.80-111 and ui_toolkit.rs l.154-190. *)
  Definition press_s (o : option review) (z : zui) (b : button) : zui * act :=
    match z_face z, b with
    | Idle, Toggle => (set_expert (negb (z_expert z)) z, Stay)
    | Review, Left => put_review (update_data o (paging_decrease z))
    | Review, Right => put_review (update_data o (paging_increase z))
    | Review, Both =>
      if is_accept z || is_reject z then
        let done := show_idle z in
        (* the review is gone when expert mode goes on to update the screen *)
        (if z_expert z then fst (put_review (update_data None (set_pos (z_items z - 1) 0 done))) else done,
         if is_accept z then Accept else Refuse)
      else if z_expert z then put_review (update_data o (set_pos (z_items z - 1) 0 z))
      else (z, Stay)
    | Failure, Right => (show_idle z, Ack)
    | _, _ => (z, Stay)
    end.

  (** nanox.rs l.60-112 with the flows of view_x.c l.46-91. What the error flow does on
      the way to its step "Ok" is not modelled. *)
  Definition press_x (o : option review) (z : zui) (b : button) : zui * act :=
    match z_face z, b with
    | Idle, Toggle =>
      let e := negb (z_expert z) in
      (set_expert e (set_text (z_key z) (overwrite (lit (if e then "enabled" else "disabled")) (z_msg z)) z), Stay)
    | Title, Right => put_page (update_data o (paging_init z))
    | Page, Left =>
      if can_decrease z then put_page (update_data o (paging_decrease z))
      else (set_inside false (set_face Title z), Stay)
    | Page, Right =>
      match update_data o (paging_increase z) with
      | Failed NoData z' => (set_inside false (set_face Approval z'), Stay)
      | u => put_page u
      end
    | Approval, Left => put_page (update_data o (paging_decrease z))
    | Approval, Right => (set_face Rejection z, Stay)
    | Approval, Both => (show_idle z, Accept)
    | Rejection, Left => (set_face Approval z, Stay)
    | Rejection, Both => (show_idle z, Refuse)
    | Failure, Both => (show_idle z, Ack)
    | _, _ => (z, Stay)
    end.

  Definition press (o : option review) (z : zui) (b : button) : zui * act :=
    match hw with NanoS => press_s o z b | NanoX => press_x o z b end.
End Zui.
