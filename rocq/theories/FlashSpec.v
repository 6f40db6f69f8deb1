(** What a user of a wear-levelled area expects, stated over histories of
    operations only. *)
From Coq Require Import List NArith Bool.
From Verif Require Import Base Flash.
Import ListNotations.
Open Scope N_scope.

(** Does this write end up in the flash page? *)
Definition stored (f : fault) : bool :=
  match f with
  | WOk => true
  | WFail TNew | WCut TNew => true
  | _ => false
  end.

(** The last payload that reached the flash, if any. *)
Fixpoint last_stored (acc : option bytes) (ops : list wop) : option bytes :=
  match ops with
  | [] => acc
  | ORestart :: ops' => last_stored acc ops'
  | OWrite p f :: ops' => last_stored (if stored f then Some p else acc) ops'
  end.

Definition expected_read (o : option bytes) : rres :=
  match o with None => RUninit | Some p => RData p end.

(** Payloads are 52 real bytes. *)
Definition op_payload_ok (o : wop) : Prop :=
  match o with ORestart => True | OWrite p _ => length p = 52%nat /\ bytes_ok p end.
(** Every write succeeds. *)
Definition op_succeeds (o : wop) : Prop :=
  match o with OWrite _ (WFail _) | OWrite _ (WCut _) => False | _ => True end.
(** No write leaves a page half-written. *)
Definition op_not_torn (o : wop) : Prop :=
  match o with
  | OWrite _ (WFail (TTorn _)) | OWrite _ (WCut (TTorn _)) => False
  | _ => True
  end.

Fixpoint count_writes (ops : list wop) : N :=
  match ops with
  | [] => 0
  | ORestart :: ops' => count_writes ops'
  | OWrite _ _ :: ops' => 1 + count_writes ops'
  end.

(** How often the contents of page [i] change along a history. *)
Fixpoint page_changes (w : wear) (ops : list wop) (i : nat) : N :=
  match ops with
  | [] => 0
  | o :: ops' =>
    let w' := wop_step w o in
    (if bytes_eqb (nth i (w_pages w) []) (nth i (w_pages w') []) then 0 else 1)
    + page_changes w' ops' i
  end.
