(** The host library with the device in a user's hands: a call is answered by a device
    whose reviews are decided with the buttons.

    Simplifications. A user is the list of buttons they press while a command waits for
    its answer; they stop once the answer is there. A command that nobody decides is
    never answered, and the transport gives up ([None]). *)
From Coq Require Import NArith List.
From Verif Require Import Base Oracles Bakers Device Screens Zui UiDevice Client.
Import ListNotations.
Open Scope N_scope.

(** The device with its screen, and for each command to come: what the APDU buffer holds
    before it arrives, and the buttons pressed if it has to wait for its answer. *)
Definition desk := (uidev * list (bytes * list button))%type.

Section Desk.
  Variable C : config.
  Variable O : oracles.
  Variable table : list baker.
  Variable hw : hardware.

  (** Buttons are pressed until the device answers. A review leaves the command without an
      answer (rust/zemu/src/ui.rs l.82-91, rust/app/c/main.c l.136), which is sent when it
      is approved, rejected or fails (rust/zemu/src/ui_toolkit/backends/nanos.rs
      l.194-201, nanox.rs and nanosplus.rs alike). *)
  Fixpoint pressed (s : uidev) (bs : list button) : option bytes * uidev :=
    match bs with
    | [] => (None, s)
    | b :: bs' =>
      match ui_step C O table hw s (IPress b) with
      | ([], s1) => pressed s1 bs'
      | (AReply r :: _, s1) => (Some r, s1)
      | (_, s1) => (None, s1)
      end
    end.

  (** A command reaches the device, which answers at once or starts a review. *)
  Definition handed (s : uidev) (p : bytes * N) (bs : list button) : option bytes * uidev :=
    match ui_step C O table hw s (IApdu (fst p) (snd p)) with
    | ([AReply r], s1) => (Some r, s1)
    | ([APending], s1) => pressed s1 bs
    | (_, s1) => (None, s1)
    end.

  (** The transport to a device in a user's hands; compare [plugged]. *)
  Definition held : transport desk := fun w command =>
    match w with
    | (s, []) => (None, w)
    | (s, (old, bs) :: later) =>
      let x := handed s (received command old, len command) bs in (fst x, (snd x, later))
    end.
End Desk.
