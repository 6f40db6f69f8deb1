(** Concrete uploads, and the statements of [PropsUpload] in final form. *)
From Coq Require Import List NArith ZArith Lia Bool Arith.
From Coq Require Import ZifyBool ZifyNat ZifyN.
From Verif Require Import Base BaseFacts Flash Codecs Upload UploadSpec UploadFacts.
Import ListNotations.
Open Scope N_scope.

Lemma buffer_is_accumulator (RAM FLASH : nat) (b : sbuf) (ops : list sbop) :
  (RAM <= FLASH)%nat -> sbuf_ok RAM FLASH b ->
  let (b', results) := sb_run RAM FLASH b ops in
  (sb_read_exact b', results) = acc_run FLASH (sb_read_exact b) ops.
Proof.
  intros H1 H2. pose proof (sb_run_spec RAM FLASH H1 ops b H2) as X.
  destruct (sb_run RAM FLASH b ops). tauto.
Qed.

Lemma refused_write_keeps_contents (RAM FLASH : nat) (b : sbuf) (l : bytes) (faults : list fault) :
  (RAM <= FLASH)%nat -> sbuf_ok RAM FLASH b -> Forall fault_untorn faults ->
  let '(b', r, _) := sb_write RAM FLASH b l faults in
  sb_read_exact b' = match r with SbOk => sb_read_exact b ++ l | _ => sb_read_exact b end.
Proof.
  intros H1 H2 H3. destruct (sb_write RAM FLASH b l faults) as [[b' r] s'] eqn:E.
  edestruct sb_write_spec as (_ & _ & C & _); eauto. destruct r; tauto.
Qed.

Lemma upload_refines_protocol trace : Forall (fun p : accessor * bytes => apdu_ok (snd p)) trace ->
  fst (up_run u_fresh trace) = fst (proto_run None trace).
Proof. intros H. apply up_run_refines; auto using u_fresh_rel. Qed.

Lemma lock_is_exclusive (A : Type) (eqb : A -> A -> bool) :
  (forall a b, eqb a b = true <-> a = b) ->
  forall (ops : list (lop A)) (a : A),
  (lock_acquire eqb (lock_run eqb ops) a = None <-> holds a ops) /\
  (snd (lock_release eqb (lock_run eqb ops) a) = None <-> holds a ops) /\
  (lock_acquire eqb (lock_run eqb ops) a = Some LBusy <-> exists b, b <> a /\ holds b ops) /\
  (forall b, holds a ops -> holds b ops -> a = b).
Proof.
  intros He ops a. split; [now apply acquire_holds|]. split; [now apply release_spec|].
  split; [now apply acquire_busy|]. intros b. now apply (holder_unique eqb).
Qed.

Definition demo_buf : sbuf := mkSbuf [0; 0; 0; 0] (zeros 9) (InRam 0).
Definition demo_sbops : list sbop :=
  [BWrite [1; 2; 3]; BWrite [4; 5; 6]; BWrite [7; 8]; BWrite [0; 0]; BWrite [9]].
Lemma demo_buf_ok : sbuf_ok 4 9 demo_buf /\
  acc_run 9 (sb_read_exact demo_buf) demo_sbops = ([1; 2; 3; 4; 5; 6; 7; 8; 9], [true; true; true; false; true]).
Proof. split; [repeat split; cbn; lia|reflexivity]. Qed.

(** A full-size APDU buffer. *)
Definition apdu (ins p1 p2 : N) (payload : bytes) : bytes :=
  pad_to 260 (0x80 :: ins :: p1 :: p2 :: len payload :: payload).

Definition bytes_okb (l : bytes) : bool := forallb (fun b => b <? 256) l.
Lemma bytes_okb_ok l : bytes_okb l = true -> bytes_ok l.
Proof.
  unfold bytes_okb, bytes_ok. rewrite forallb_forall, Forall_forall. intros H x Hx.
  apply N.ltb_lt. now apply H.
Qed.
Definition apdu_okb (b : bytes) : bool := (length b =? 260)%nat && bytes_okb b.
Lemma apdu_okb_ok b : apdu_okb b = true -> apdu_ok b.
Proof.
  unfold apdu_okb. rewrite andb_true_iff. intros [H1 H2]. split; [now apply Nat.eqb_eq|now apply bytes_okb_ok].
Qed.
Lemma apdus_okb_ok l : forallb apdu_okb l = true -> Forall apdu_ok l.
Proof. rewrite forallb_forall, Forall_forall. intros H x Hx. now apply apdu_okb_ok, H. Qed.

Definition demo_first := apdu 4 0 7 [1; 2].
Definition demo_mid := apdu 4 1 0 [3; 4; 5].
Definition demo_last := apdu 4 0x81 0 [6].
Lemma demo_upload_ok :
  Forall apdu_ok (demo_first :: [demo_mid; demo_mid] ++ [demo_last]) /\
  kind_of (nth 2 demo_first 0) = Some KInit /\
  Forall (fun b : bytes => kind_of (nth 2 b 0) = Some KNext) [demo_mid; demo_mid] /\
  kind_of (nth 2 demo_last 0) = Some KLast /\
  fst (up_run u_fresh (map (pair AccSign) (demo_first :: [demo_mid; demo_mid] ++ [demo_last])))
  = [Ok None; Ok None; Ok None; Ok (Some (mkUO 7 [1; 2] ([3; 4; 5; 3; 4; 5; 6])))].
Proof.
  split; [apply apdus_okb_ok; vm_compute; reflexivity|].
  split; [reflexivity|]. split; [repeat constructor|]. split; [reflexivity|]. vm_compute. reflexivity.
Qed.

Definition demo_trace : list (accessor * bytes) :=
  [(AccBaking, demo_last); (AccSign, demo_first); (AccBaking, demo_mid); (AccSign, apdu 4 9 0 []);
   (AccSign, demo_last); (AccSign, demo_mid)].
Lemma demo_trace_ok :
  Forall (fun p => apdu_ok (snd p)) demo_trace /\
  fst (up_run u_fresh demo_trace)
  = [Err ExecutionError; Ok None; Err Busy; Err InvalidP1P2;
     Ok (Some (mkUO 7 [1; 2] [6])); Err ExecutionError].
Proof.
  split; [|vm_compute; reflexivity].
  repeat constructor; apply apdu_okb_ok; vm_compute; reflexivity.
Qed.

Definition demo_long : list (accessor * bytes) :=
  (AccSign, apdu 4 0 0 (zeros 17)) :: repeat (AccSign, apdu 4 1 0 (zeros 255)) 33.
Lemma demo_long_ok :
  nth 33 (fst (up_run u_fresh demo_long)) (Ok None) = Err DataInvalid /\
  Forall (fun o => o = Ok None) (firstn 33 (fst (up_run u_fresh demo_long))).
Proof.
  assert (E : fst (up_run u_fresh demo_long) = repeat (Ok None) 33 ++ [Err DataInvalid])
    by (vm_compute; reflexivity).
  rewrite E. split; [reflexivity|]. apply Forall_forall. intros x Hx.
  rewrite firstn_app_exact in Hx by reflexivity. now apply repeat_spec in Hx.
Qed.

Lemma payload_refuted :
  ~ (forall (buf buf' : bytes) (rx : N), apdu_ok buf -> apdu_ok buf' ->
     apdu_read_ok buf rx = true -> firstn (N.to_nat rx) buf = firstn (N.to_nat rx) buf' ->
     apdu_payload buf = apdu_payload buf').
Proof.
  intros H. specialize (H (apdu 4 0 0 [1; 2]) (apdu 4 0 0 [1; 3]) 6).
  assert (X : apdu_payload (apdu 4 0 0 [1; 2]) = apdu_payload (apdu 4 0 0 [1; 3])).
  { apply H; try (apply apdu_okb_ok; vm_compute; reflexivity); vm_compute; reflexivity. }
  vm_compute in X. discriminate.
Qed.
