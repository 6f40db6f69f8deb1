(** C67: histories that leave the same in memory. *)
From Coq Require Import List NArith ZArith Lia Bool Arith ZifyBool ZifyNat ZifyN.
From Verif Require Import Base BaseFacts Flash FlashFacts Codecs CodecsSpec CodecsFacts Upload UploadSpec UploadFacts UploadExamples
  Baking BakingSpec Operations Oracles Address AddressExamples
  Device DeviceSpec DeviceFacts DeviceProofs DeviceHist DeviceSigs DeviceDemo DeviceCases ServiceSpec DeviceContents
  InterruptSpec InterruptFacts MemorySpec MemoryFacts.
Import ListNotations.
Open Scope N_scope.

(** C67. *)
Lemma restart_unobservable C O f u es1 es : Forall power_fault f -> Forall up_fault_ok u ->
  Forall event_ok (es1 ++ es) -> len es1 + 1 + len es < 2 ^ 64 ->
  let d := snd (run C O (dev_fresh f u) es1) in
  let d' := snd (step C O d EPower) in
  d_ui d = None -> u_lock (d_up d) = None ->
  fst (run C O d es) = fst (run C O d' es) /\
  exists l, d_log (snd (run C O d es)) = l ++ d_log d /\ d_log (snd (run C O d' es)) = l ++ d_log d.
Proof.
  intros F U E L d d' Ui Lk. pose proof E as E0. apply Forall_app in E0 as [E1 E2].
  assert (L1 : len es1 < 2 ^ 64) by lia.
  pose proof (restart_same C O f u es1 F U E1 L1 Ui Lk) as R. fold d in R.
  assert (Ed : d' = snd (run C O (dev_fresh f u) (es1 ++ [EPower]))).
  { unfold d', d. rewrite run_app. destruct (run C O (dev_fresh f u) es1) as [l x]. reflexivity. }
  assert (Er : restart d = d') by reflexivity.
  assert (El : d_log d' = d_log d) by (rewrite <- Er; now destruct d).
  rewrite Er in R. rewrite Ed in R.
  assert (H := same_answers C O f u f u es1 (es1 ++ [EPower]) es F U F U). rewrite <- Ed in H, R.
  destruct H as (A1 & _ & l & A2 & A3); [|lia| |exact R|].
  - apply Forall_app. split; [exact E1|]. apply Forall_app. split; [|exact E2].
    apply Forall_app. split; [exact E1|]. apply Forall_cons; [exact Logic.I|apply Forall_nil].
  - unfold len in *. rewrite app_length. cbn [length]. lia.
  - split; [exact A1|]. exists l. fold d in A2. rewrite El in A3. auto.
Qed.

(** The same values, read now and after a restart. *)
Definition all_slots : list slot := [SMain; STest; SChain; SKey].
Definition values (d : dev) : list (option rres) :=
  map (fun s => wear_read (get_slot s d)) all_slots ++ map (fun s => wear_read (get_slot s (restart d))) all_slots.
Lemma values_same d d' : values d = values d' -> forall s,
  (forall o, holds_slot d s o <-> holds_slot d' s o) /\ (lost d s <-> lost d' s).
Proof.
  intros H s.
  assert (wear_read (get_slot s d) = wear_read (get_slot s d') /\
          wear_read (get_slot s (restart d)) = wear_read (get_slot s (restart d'))) as [E1 E2].
  { unfold values, all_slots in H. cbn [map app] in H.
    pose proof (f_equal (fun l => nth 0 l None) H) as H0. pose proof (f_equal (fun l => nth 1 l None) H) as H1.
    pose proof (f_equal (fun l => nth 2 l None) H) as H2. pose proof (f_equal (fun l => nth 3 l None) H) as H3.
    pose proof (f_equal (fun l => nth 4 l None) H) as H4. pose proof (f_equal (fun l => nth 5 l None) H) as H5.
    pose proof (f_equal (fun l => nth 6 l None) H) as H6. pose proof (f_equal (fun l => nth 7 l None) H) as H7.
    cbn [nth] in *. destruct s; split; assumption. }
  unfold holds_slot, lost. rewrite E1, E2. split; [intros o|]; split; auto.
Qed.

(** One device has signed a block; the other one has signed it, its watermarks were set
    back, it was restarted and signed the block again. *)
Definition once : list event := demo_before ++ send_message 4 demo_block.
Definition twice : list event := once ++ [reset_to 1499999; EPower] ++ send_message 4 demo_block.
Lemma once_twice :
  Forall event_ok (once ++ twice ++ send_message 4 demo_tb_block) /\
  remembers_same (demo_run [] once) (demo_run [] twice) /\
  length (d_log (demo_run [] once)) = 1%nat /\ length (d_log (demo_run [] twice)) = 2%nat /\
  d_main (demo_run [] once) <> d_main (demo_run [] twice).
Proof.
  split; [apply events_okb_ok; vm_compute; reflexivity|]. split.
  { constructor.
    - apply values_same. vm_compute. reflexivity.
    - vm_compute. reflexivity.
    - assert (E : sign_review (d_ui (demo_run [] once)) = false) by (vm_compute; reflexivity). rewrite E. discriminate.
    - assert (E : u_lock (d_up (demo_run [] once)) = None) by (vm_compute; reflexivity).
      assert (E' : u_lock (d_up (demo_run [] twice)) = None) by (vm_compute; reflexivity).
      split; [rewrite E, E'; reflexivity|]. rewrite E. intros X. contradiction X; reflexivity.
    - vm_compute. reflexivity.
    - vm_compute. reflexivity. }
  split; [vm_compute; reflexivity|]. split; [vm_compute; reflexivity|].
  intros E. assert (X : forall w w' : wear, w = w' -> wear_read w = wear_read w' /\ w_idx w = w_idx w') by (intros ? ? ->; auto).
  apply X in E as [_ E]. revert E. vm_compute. discriminate.
Qed.

(** A restart in the middle of an upload. *)
Lemma restart_upload :
  ~ (forall C O f u es1 es, Forall power_fault f -> Forall up_fault_ok u ->
     Forall event_ok (es1 ++ es) -> len es1 + 1 + len es < 2 ^ 64 ->
     let d := snd (run C O (dev_fresh f u) es1) in
     let d' := snd (step C O d EPower) in
     d_ui d = None -> fst (run C O d es) = fst (run C O d' es)).
Proof.
  intros H.
  assert (E : Forall event_ok (mute_events ++ [again])) by (apply events_okb_ok; vm_compute; reflexivity).
  assert (L : len mute_events + 1 + len [again] < 2 ^ 64) by (vm_compute; reflexivity).
  assert (U : d_ui (snd (run demo_config demo_oracles (dev_fresh [] []) mute_events)) = None) by (vm_compute; reflexivity).
  specialize (H demo_config demo_oracles [] [] mute_events [again] (Forall_nil _) (Forall_nil _) E L U).
  assert (G : forall l l', l = l' -> nth 0 (map (fun a => match a with AReply o => length o | _ => 0%nat end) l) 0%nat =
    nth 0 (map (fun a => match a with AReply o => length o | _ => 0%nat end) l') 0%nat) by (intros ? ? ->; reflexivity).
  apply G in H. revert H. vm_compute. discriminate.
Qed.

(** A restart during a review. *)
Lemma restart_review :
  ~ (forall C O f u es1 es, Forall power_fault f -> Forall up_fault_ok u ->
     Forall event_ok (es1 ++ es) -> len es1 + 1 + len es < 2 ^ 64 ->
     let d := snd (run C O (dev_fresh f u) es1) in
     let d' := snd (step C O d EPower) in
     u_lock (d_up d) = None -> fst (run C O d es) = fst (run C O d' es)).
Proof.
  intros H. pose (es1 := removelast authorise).
  assert (E : Forall event_ok (es1 ++ [EApprove])) by (apply events_okb_ok; vm_compute; reflexivity).
  assert (L : len es1 + 1 + len [EApprove] < 2 ^ 64) by (vm_compute; reflexivity).
  assert (U : u_lock (d_up (snd (run demo_config demo_oracles (dev_fresh [] []) es1))) = None) by (vm_compute; reflexivity).
  specialize (H demo_config demo_oracles [] [] es1 [EApprove] (Forall_nil _) (Forall_nil _) E L U).
  assert (G : forall l l', l = l' -> nth 0 (map (fun a => match a with AReply o => length o | _ => 0%nat end) l) 0%nat =
    nth 0 (map (fun a => match a with AReply o => length o | _ => 0%nat end) l') 0%nat) by (intros ? ? ->; reflexivity).
  apply G in H. revert H. vm_compute. discriminate.
Qed.

(** After an approval no review and no upload is in the way: the restart of [once]. *)
Lemma once_idle : d_ui (demo_run [] once) = None /\ u_lock (d_up (demo_run [] once)) = None /\
  map (fun a => match a with AReply o => length o | _ => 0%nat end)
    (fst (run demo_config demo_oracles (snd (step demo_config demo_oracles (demo_run [] once) EPower)) (send_message 4 demo_tb_block)))
  <> [2; 2]%nat.
Proof. split; [vm_compute; reflexivity|]. split; [vm_compute; reflexivity|]. vm_compute. discriminate. Qed.
