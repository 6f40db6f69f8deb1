(** C83 to C85: what the build puts into the app. *)
From Coq Require Import NArith String List.
From Verif Require Import Base Flash Text BuildTime BuildSpec BuildFacts BuildExamples.
Import ListNotations.
Open Scope N_scope.

(** ** C83 *)

(** [version!] accepts exactly the files of comments, blank lines and definitions of
    different names as bytes, and defines just those. *)
Theorem C83_version_exact : forall text defs, version_defs text = Some defs <->
  exists es, text = file_of (map written es) /\ Forall entry_ok es /\
    Forall2 means (flat_map defined es) defs /\ NoDup (map fst defs).
Proof. exact version_exact. Qed.
Print Assumptions C83_version_exact.
Example C83_case :
  version_defs (file_of (map written version_file)) = Some [(str "APPVERSION_M", 3); (str "APPVERSION_N", 1); (str "APPVERSION_P", 2)] /\
  version_defs (str "A=256") = None /\ version_defs (str "A = 3") = None /\ version_defs (str "A=1" ++ [10] ++ str "A=1") = None /\
  version_defs ([9] ++ str "A=+007 " ++ [13; 10]) = Some [(str "A", 7)].
Proof. exact version_case. Qed.

(** ** C84 *)

Theorem C84_static_exact : forall t init mem, init <> [] -> (nvm_static t (Some init) = Some mem <-> laid init t mem).
Proof. exact static_exact. Qed.
Print Assumptions C84_static_exact.
Theorem C84_static_zero : forall t mem, nvm_static t None = Some mem <-> exists n, laid (zeros n) t mem.
Proof. exact static_zero. Qed.
Print Assumptions C84_static_zero.
(** The declaration in [new_flash_slot!] gives the pages that the device starts with. *)
Theorem C84_slots : forall n,
  nvm_static (TArray (TArray TU8 64) n) (Some ZEROED_STORAGE) = Some (concat (w_pages (wear_fresh n))).
Proof. exact slots_static. Qed.
Print Assumptions C84_slots.
Example C84_static_case : nvm_static (TArray (TArray (TArray TU8 2) 3) 2) (Some [7; 8]) = Some [7; 8; 7; 8; 7; 8; 7; 8; 7; 8; 7; 8] /\
  nvm_static (TArray (TArray TU8 2) 2) None = Some [0; 0; 0; 0] /\
  nvm_static (TArray (TArray TOther 2) 2) None = None /\ nvm_static (TArray TU8 3) (Some [1]) = None.
Proof. exact static_case. Qed.
(** A write changes the bytes it covers and no others; one that does not fit changes
    nothing and is refused; one whose end wraps around is refused or stops the app. *)
Theorem C84_write_exact : forall mem from s, len mem < 2 ^ 31 -> from < 2 ^ 32 -> len s < 2 ^ 31 ->
  let (m, r) := nvm_write mem from s in
  (from + len s <= len mem -> r = NvmOk /\ length m = length mem /\ slice (N.to_nat from) (length s) m = s /\
     forall i, (i < N.to_nat from \/ N.to_nat from + length s <= i)%nat -> nth_error m i = nth_error mem i) /\
  (len mem < from + len s -> r <> NvmOk /\ m = mem /\
     (from + len s < 2 ^ 32 -> r = NvmOverflow) /\ (2 ^ 32 <= from + len s <= 2 ^ 32 + len mem -> r = NvmPanic)).
Proof. exact nvm_write_exact. Qed.
Print Assumptions C84_write_exact.
Example C84_write_case : nvm_write [1; 2; 3; 4; 5] 1 [7; 8] = ([1; 7; 8; 4; 5], NvmOk) /\ nvm_write [1; 2; 3] 2 [7; 8] = ([1; 2; 3], NvmOverflow) /\
  nvm_write [1; 2; 3] (2 ^ 32 - 1) [7; 8] = ([1; 2; 3], NvmPanic).
Proof. exact write_case. Qed.

(** ** C85 *)

(** Used through [lazy_static], a static answers as if it had got its value at the start. *)
Theorem C85_lazy_is_eager : forall A W R (start : W -> option A) b w (es : list (lazy_event A W R)), b <> 1 -> Forall clean es ->
  fst (lazy_run start (mkCell b None, w) es) = fst (eager_run start (start w, w) es) /\
  snd (snd (lazy_run start (mkCell b None, w) es)) = snd (snd (eager_run start (start w, w) es)).
Proof. exact @lazy_is_eager. Qed.
Print Assumptions C85_lazy_is_eager.
Example C85_lazy_case : Forall clean counter_uses /\
  fst (lazy_run (fun w => if w <? 11 then Some w else None) (mkCell 0 None, 0) counter_uses) = [LDone 0; LDone 1; LDone 10; LPanic].
Proof. exact lazy_case. Qed.
(** If the memory of the sentinel happens to be 1, uninitialised memory is used. *)
Theorem C85_garbage_refuted : ~ (forall (A W R : Type) (start : W -> option A) b w (es : list (lazy_event A W R)),
  fst (lazy_run start (mkCell b None, w) es) = fst (eager_run start (start w, w) es)).
Proof. exact garbage_refuted. Qed.
Print Assumptions C85_garbage_refuted.
(** The position of a wear-levelled area, as Flash.v has it, is such a static. *)
Theorem C85_wear_static : forall n os, w_pages (wop_run (wear_fresh n) os)
  = snd (snd (lazy_run align (mkCell 0 None, w_pages (wear_fresh n)) (flat_map wear_events os))).
Proof. exact wear_static. Qed.
Print Assumptions C85_wear_static.
Example C85_wear_case : w_pages (wop_run (wear_fresh 2) [OWrite (repeat 5 52) WOk; ORestart; OWrite (repeat 6 52) WOk])
  = [slot_page 2 (repeat 6 52); slot_page 1 (repeat 5 52)].
Proof. exact wear_case. Qed.
