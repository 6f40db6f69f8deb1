(** Vocabulary of the statements about developer builds. *)
From Coq Require Import List NArith Bool.
From Verif Require Import Base Flash Codecs Upload UploadSpec Oracles Device DeviceSpec ServiceSpec Text DevBuild.
Import ListNotations.
Open Scope N_scope.

(** ** Packets *)

(** The packets that carry [init] and then [data]. *)
Definition carries (ins : N) (init data : bytes) (first : bytes * N) (mids : list (bytes * N)) (last : bytes * N) : Prop :=
  packet ins KInit first /\ Forall (packet ins KNext) mids /\ packet ins KLast last /\
  pay (fst first) = init /\ concat (map (fun p => pay (fst p)) (mids ++ [last])) = data /\
  (1 + length init + length data <= CAPACITY)%nat.

(** ** Instructions *)

(** Instructions of the app proper, in increasing order. *)
Definition app_instructions (baking : bool) : list N :=
  if baking then [0x00; 0x01; 0x02; 0x03; 0x04; 0x06; 0x07; 0x08; 0x09; 0x0A; 0x0B; 0x0C; 0x0D; 0x0E; 0x0F;
                  0x10; 0x11; 0x12; 0xA1; 0xA7; 0xAC; 0xAD; 0xAF]
  else [0x00; 0x02; 0x03; 0x04; 0x05; 0x09; 0x0F; 0x10; 0x11; 0x12].

(** Events that make no use of the developer's instructions. *)
Definition ordinary (baking : bool) (e : event) : Prop :=
  match e with
  | EApdu buf _ => nth 0 buf 0 = 0x80 -> In (nth 1 buf 0) (app_instructions baking)
  | _ => True
  end.

(** The command [buf] of [rx] bytes, and nothing is waiting for a decision. *)
Definition dcommand (x : ddev) (buf : bytes) (rx : N) (ins : N) : Prop :=
  dd_view x = None /\ apdu_ok buf /\ command (dd_dev x) buf rx ins.

(** The event is one of the developer's: an instruction that the app proper does not
    have, or a decision on what such an instruction shows. *)
Definition developers (baking : bool) (x : ddev) (e : event) : Prop :=
  match e with
  | EApdu buf rx => exists ins, dcommand x buf rx ins /\ ~ In ins (app_instructions baking)
  | EPower => False
  | _ => dd_view x <> None
  end.

(** What a developer's event must leave alone. *)
Definition untouched (d d' : dev) : Prop :=
  (forall s, w_pages (get_slot s d') = w_pages (get_slot s d)) /\ d_log d' = d_log d /\ d_faults d' = d_faults d.

(** A state that is reached, with nothing waiting and no more flash faults to come. *)
Definition ready (D : dconfig) (O : oracles) (x : ddev) : Prop :=
  (exists f u es, Forall event_ok es /\ x = snd (drun D O (dd_fresh f u) es)) /\
  dd_view x = None /\ d_ui (dd_dev x) = None /\ d_ufaults (dd_dev x) = [].
Definition is_apdu (e : event) : Prop := match e with EApdu _ _ => True | _ => False end.

(** ** Resets of the watermarks *)

Definition dresets (C : config) (x : ddev) (e : event) : Prop := dd_view x = None /\ resets C (dd_dev x) e.
Fixpoint dno_reset (D : dconfig) (O : oracles) (x : ddev) (es : list event) : Prop :=
  match es with
  | [] => True
  | e :: es' => ~ dresets (dc_conf D) x e /\ dno_reset D O (snd (dstep D O x e)) es'
  end.

(** ** Screens *)

(** The characters on the screen: those before the first zero. *)
Fixpoint before_zero (l : bytes) : bytes :=
  match l with
  | [] => []
  | c :: l' => if c =? 0 then [] else c :: before_zero l'
  end.

(** What [show] displays, page after page: it announces a number of pages, shows each of
    them, and together they read as [t]. *)
Definition reads (show : N -> vres (bytes * N)) (t : bytes) : Prop :=
  exists screens, t = concat (map before_zero screens) /\ screens <> [] /\
    forall i, (i < length screens)%nat ->
      show (N.of_nat i) = VOk (nth i screens [], N.of_nat (length screens)).
