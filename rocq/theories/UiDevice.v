(** The device with its screen and buttons. *)
From Coq Require Import NArith Bool Arith String List.
From Verif Require Import Base Flash Oracles Text Bakers Device Screens Zui.
Import ListNotations.
Open Scope N_scope.

(** The review of a viewable: its [num_items] and [render_item]. *)
Definition review_of (O : oracles) (table : list baker) (hw : hardware) (v : viewable) : review :=
  mkReview (view_items v) (view_render O table (key_size hw) v).

(** What reaches the device: an APDU, a button, or a power cycle (or the menu entry
    "Quit"). *)
Inductive input := IApdu (buf : bytes) (rx : N) | IPress (b : button) | IPower.

Record uidev := mkUi { u_dev : dev; u_zui : zui }.

Section UiDevice.
  Variable C : config.
  Variable O : oracles.
  Variable table : list baker.
  Variable hw : hardware.

  Definition ui_fresh (f : list fault) (u : list fault) : uidev := mkUi (dev_fresh f u) (zui_start hw).

  Definition pending_review (d : dev) : option review :=
    match d_ui d with Some v => Some (review_of O table hw v) | None => None end.

  (** The event that an action on the screen makes of the pending review. *)
  Definition event_of (a : act) : list event :=
    match a with
    | Stay => []
    | Accept => [EApprove]
    | Refuse => [EReject]
    | Ack => [EUiError]
    | Crash => [EPower]
    end.
  Definition died (a : answer) : bool := match a with ADied => true | _ => false end.

  (** The device carries out an action; when the app dies, its screen starts anew. *)
  Definition perform (a : act) (z : zui) (d : dev) : list answer * uidev :=
    let (l, d') := run C O d (event_of a) in
    (l, mkUi d' (if existsb died l then zui_start hw else z)).

  Definition ui_step (s : uidev) (i : input) : list answer * uidev :=
    match i with
    | IApdu buf rx =>
      let (a, d) := step C O (u_dev s) (EApdu buf rx) in
      match a, d_ui d with
      | APending, Some v =>
        let (z, act) := zui_show hw (review_of O table hw v) (u_zui s) in
        let (l, s') := perform act z d in (a :: l, s')
      | _, _ => ([a], mkUi d (if died a then zui_start hw else u_zui s))
      end
    | IPress b =>
      let (z, act) := press hw (pending_review (u_dev s)) (u_zui s) b in
      perform act z (u_dev s)
    | IPower =>
      let (a, d) := step C O (u_dev s) EPower in ([a], mkUi d (zui_start hw))
    end.

  Fixpoint ui_run (s : uidev) (is : list input) : list answer * uidev :=
    match is with
    | [] => ([], s)
    | i :: is' =>
      let (l, s1) := ui_step s i in
      let (l', s2) := ui_run s1 is' in (l ++ l', s2)
    end.
End UiDevice.
