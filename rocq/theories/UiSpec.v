(** What the user has seen of a review. *)
From Coq Require Import NArith Bool Arith String List.
From Verif Require Import Base Oracles AddressSpec Text TextSpec Bakers Operations Device Screens ScreensSpec Zui.
Import ListNotations.
Open Scope N_scope.

(** Characters outside of ASCII are shown as points. *)
Definition visible (t : bytes) : bytes := map (fun c => if (32 <=? c) && (c <=? 127) then c else 46) t.

(** The Nano S has two lines of 17 characters. *)
Definition in_lines (hw : hardware) (t : bytes) (lines : list bytes) : Prop :=
  concat lines = t /\
  match hw with
  | NanoS => exists a b, lines = [a; b] /\ (length a <= 17)%nat /\ (length b <= 17)%nat
  | NanoX => lines = [t]
  end.

(** The title with the number of the page, if there are several and there is room. *)
Definition page_title (hw : hardware) (h : bytes) (p n : N) : bytes :=
  let t := h ++ str " [" ++ itoa (p + 1) ++ str "/" ++ itoa n ++ str "]" in
  if (1 <? n) && (S (length t) <? key_size hw)%nat then t else h.

(** Page [p] of [screens], entitled [h], has been seen. *)
Definition page_seen (hw : hardware) (seen : list shot) (h : bytes) (screens : list bytes) (p : nat) (s : bytes) : Prop :=
  exists lines, in_lines hw (visible s) lines /\
  In (mkShot (page_title hw (visible h) (N.of_nat p) (len screens)) lines) seen.

(** A row of the sheet has been seen: all the pages of a text for its field. *)
Definition row_seen (O : oracles) (table : list baker) (hw : hardware) (seen : list shot) (r : row) : Prop :=
  exists h t screens, entitles (fst r) h /\ shows O table (snd r) t /\ concat screens = t /\
  forall p s, nth_error screens p = Some s -> page_seen hw seen h screens p s.

(** The label of an action on the Nano S. *)
Definition label (s : string) : shot := mkShot [] [chars s; []].
(** The screen offers to approve: the review screen with this label, or the step of the
    flow (view_x.c l.80). *)
Definition offers_approval (hw : hardware) (z : zui) : Prop :=
  match hw with
  | NanoS => z_face z = Review /\ z_item z + 1 = z_items z
  | NanoX => z_face z = Approval
  end.
(** The screen offers to reject. *)
Definition offers_rejection (hw : hardware) (z : zui) : Prop :=
  match hw with
  | NanoS => z_face z = Review /\ z_item z = z_items z
  | NanoX => z_face z = Rejection
  end.

(** ** Moving through a review *)

(** The places of a review: the pages of its rows between the title of the flow (not on
    the Nano S) and the two actions. *)
Inductive place := PTitle | PPage (k p : nat) | PApprove | PReject.
Fixpoint pages_from (k : nat) (screens : list (bytes * list bytes)) : list place :=
  match screens with
  | [] => []
  | (_, ss) :: screens' => map (PPage k) (seq 0 (length ss)) ++ pages_from (S k) screens'
  end.
Definition places (hw : hardware) (screens : list (bytes * list bytes)) : list place :=
  match hw with NanoS => [] | NanoX => [PTitle] end ++ pages_from 0 screens ++ [PApprove; PReject].

(** The screen is at a place and has just shown it. *)
Definition appears (hw : hardware) (screens : list (bytes * list bytes)) (z : zui) (a : place) : Prop :=
  match a with
  | PTitle => z_face z = Title
  | PPage k p =>
    z_face z = match hw with NanoS => Review | NanoX => Page end
    /\ z_item z = N.of_nat k /\ z_page z = N.of_nat p
    /\ exists h ss s lines rest, nth_error screens k = Some (h, ss) /\ nth_error ss p = Some s
       /\ in_lines hw (visible s) lines
       /\ z_seen z = mkShot (page_title hw (visible h) (N.of_nat p) (len ss)) lines :: rest
  | PApprove => offers_approval hw z /\ (hw = NanoS -> exists rest, z_seen z = label "APPROVE" :: rest)
  | PReject => offers_rejection hw z /\ (hw = NanoS -> exists rest, z_seen z = label "REJECT" :: rest)
  end.

(** From a place to the next of a list, or staying at the last. *)
Definition moves (l : list place) (a b : place) : Prop :=
  (exists l1 l2, l = l1 ++ a :: b :: l2) \/ (b = a /\ exists l1, l = l1 ++ [a]).
