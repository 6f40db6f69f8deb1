(** Cases for the properties of the build. *)
From Coq Require Import NArith Bool Arith Lia String List.
From Verif Require Import Base Flash FlashFacts Text BuildTime BuildSpec BuildFacts.
Import ListNotations.
Open Scope N_scope.

(** rust/app/Makefile.version. *)
Definition version_file : list entry :=
  [LComment [] (str " Major"); LDef [] (str "APPVERSION_M") (str "3") [];
   LComment [] (str " Minor"); LDef [] (str "APPVERSION_N") (str "1") [];
   LComment [] (str " Patch"); LDef [] (str "APPVERSION_P") (str "2") []; LBlank []].
Lemma version_case :
  version_defs (file_of (map written version_file)) = Some [(str "APPVERSION_M", 3); (str "APPVERSION_N", 1); (str "APPVERSION_P", 2)] /\
  version_defs (str "A=256") = None /\ version_defs (str "A = 3") = None /\ version_defs (str "A=1" ++ [10] ++ str "A=1") = None /\
  version_defs ([9] ++ str "A=+007 " ++ [13; 10]) = Some [(str "A", 7)].
Proof. vm_compute. repeat split. Qed.

Lemma slots_static n : nvm_static (TArray (TArray TU8 64) n) (Some ZEROED_STORAGE) = Some (concat (w_pages (wear_fresh n))).
Proof.
  apply static_exact; [discriminate|]. cbn [wear_fresh w_pages]. apply laid_rows.
  change (TArray TU8 64) with (TArray TU8 (List.length ZEROED_STORAGE)). apply laid_row.
Qed.
Lemma static_case : nvm_static (TArray (TArray (TArray TU8 2) 3) 2) (Some [7; 8]) = Some [7; 8; 7; 8; 7; 8; 7; 8; 7; 8; 7; 8] /\
  nvm_static (TArray (TArray TU8 2) 2) None = Some [0; 0; 0; 0] /\
  nvm_static (TArray (TArray TOther 2) 2) None = None /\ nvm_static (TArray TU8 3) (Some [1]) = None.
Proof. vm_compute. repeat split. Qed.
Lemma write_case : nvm_write [1; 2; 3; 4; 5] 1 [7; 8] = ([1; 7; 8; 4; 5], NvmOk) /\ nvm_write [1; 2; 3] 2 [7; 8] = ([1; 2; 3], NvmOverflow) /\
  nvm_write [1; 2; 3] (2 ^ 32 - 1) [7; 8] = ([1; 2; 3], NvmPanic).
Proof. vm_compute. repeat split. Qed.

(** A counter in flash, and what is left of it in RAM. *)
Definition counter_uses : list (lazy_event N N N) :=
  [LUse (fun a w => (a + 1, w + 10, a)); LUse (fun a w => (a + 1, w, a)); LPower 7; LUse (fun a w => (a + 1, w + 1, a)); LPower 0; LUse (fun a w => (a, w, a))].
Lemma lazy_case : Forall clean counter_uses /\
  fst (lazy_run (fun w => if w <? 11 then Some w else None) (mkCell 0 None, 0) counter_uses) = [LDone 0; LDone 1; LDone 10; LPanic].
Proof. split; [repeat constructor; discriminate|reflexivity]. Qed.
Lemma garbage {A W R} (start : W -> option A) w (f : A -> W -> A * W * R) :
  lazy_run start (mkCell 1 None, w) [LUse f] = ([LGarbage], (mkCell 1 None, w)).
Proof. reflexivity. Qed.
Lemma garbage_refuted : ~ (forall (A W R : Type) (start : W -> option A) b w (es : list (lazy_event A W R)),
  fst (lazy_run start (mkCell b None, w) es) = fst (eager_run start (start w, w) es)).
Proof.
  intros H. specialize (H N N N (fun w => Some w) 1 5 [LUse (fun a w => (a, w, a))]). vm_compute in H. discriminate H.
Qed.
Lemma wear_static n os : w_pages (wop_run (wear_fresh n) os)
  = snd (snd (lazy_run align (mkCell 0 None, w_pages (wear_fresh n)) (flat_map wear_events os))).
Proof. change (mkCell 0 None) with (as_cell (wear_fresh n)). rewrite wear_run. reflexivity. Qed.
Lemma wear_case : w_pages (wop_run (wear_fresh 2) [OWrite (repeat 5 52) WOk; ORestart; OWrite (repeat 6 52) WOk])
  = [slot_page 2 (repeat 6 52); slot_page 1 (repeat 5 52)].
Proof. vm_compute. reflexivity. Qed.
