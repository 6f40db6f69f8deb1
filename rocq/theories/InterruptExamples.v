(** C66: an interrupted set-up. *)
From Coq Require Import List NArith ZArith Lia Bool Arith ZifyBool ZifyNat ZifyN.
From Verif Require Import Base BaseFacts Flash FlashFacts Codecs CodecsSpec CodecsFacts Upload UploadSpec UploadFacts UploadExamples
  Baking BakingSpec Operations Oracles Address AddressExamples
  Device DeviceSpec DeviceFacts DeviceProofs DeviceHist DeviceSigs DeviceDemo DeviceCases ServiceSpec DeviceContents
  AdminExamples InterruptSpec InterruptFacts.
Import ListNotations.
Open Scope N_scope.

(** A device with an authorised key and watermarks at 1499999 is asked to be set up for
    another key. The power fails when the main watermark is written: before the page is
    programmed, or half-way. *)
Definition half_events : list event :=
  demo_before ++ [send 0x0A 0 1 (be 4 0x12345678 ++ be 4 7 ++ be 4 8 ++ path_serialize other_path)].
Definition half_faults (t : tear) : list fault := [WOk; WOk; WOk; WOk; WOk; WCut t].
Definition half_dev (t : tear) : dev := demo_run (half_faults t) half_events.
Definition half_plan : list (slot * bytes) :=
  [(SKey, key_serialize other_key); (SMain, wm_serialize (WEmmy 7 false)); (STest, wm_serialize (WEmmy 8 false));
   (SChain, be 4 0x12345678 ++ zeros 48)].
Definition reads_of (d : dev) : list (option rres) :=
  map (fun s => wear_read (get_slot s d)) [SKey; SMain; STest; SChain].
Lemma reads_main d a b c e : reads_of d = [a; b; c; e] -> wear_read (get_slot SMain d) = b.
Proof. intros H. exact (f_equal (fun l => nth 1 l None) H). Qed.
Lemma reads_key d a b c e : reads_of d = [a; b; c; e] -> wear_read (get_slot SKey d) = a.
Proof. intros H. exact (f_equal (fun l => nth 0 l None) H). Qed.
Definition old_mark : bytes := wm_serialize (WEmmy 1499999 false).
Definition old_chain : bytes := be 4 0x7A06A770 ++ zeros 48.

Lemma half_planned t : (t = TOld \/ t = TTorn [1]) -> plan demo_config (half_dev t) EApprove half_plan.
Proof.
  intros T.
  assert (U : match d_ui (half_dev t) with
              | Some (VSetup k m t c _) => (k, m, t, c) = (other_key, 7, 8, chain_of_u32 0x12345678)
              | _ => False end) by (destruct T as [-> | ->]; vm_compute; reflexivity).
  destruct (d_ui (half_dev t)) as [v|] eqn:Ev; [|contradiction]. destruct v as [| | | | | |k m te c a]; try contradiction.
  assert (Ek : k = other_key /\ m = 7 /\ te = 8 /\ c = chain_of_u32 0x12345678).
  { split; [exact (f_equal (fun x => fst (fst (fst x))) U)|]. split; [exact (f_equal (fun x => snd (fst (fst x))) U)|].
    split; [exact (f_equal (fun x => snd (fst x)) U)|exact (f_equal snd U)]. }
  destruct Ek as (-> & -> & -> & ->).
  apply (PlanSetup demo_config _ other_key 7 8 (chain_of_u32 0x12345678) a); [exact Ev| | |].
  - apply key_layout_serialize. unfold key_ok, path_ok, other_key, other_path, BIP32_MAX_LENGTH. cbn [fst snd length].
    split; [discriminate|]. split; [apply Nat.leb_le; reflexivity|]. repeat (apply Forall_cons; [reflexivity|]). apply Forall_nil.
  - apply wm_layout. reflexivity.
  - apply wm_layout. reflexivity.
Qed.

Definition cut_dev (t : tear) : dev := snd (step demo_config demo_oracles (half_dev t) EApprove).

Lemma half_case :
  Forall event_ok (half_events ++ [EApprove]) /\
  (forall t, t = TOld \/ t = TTorn [1] -> Forall power_fault (half_faults t) /\
     plan demo_config (half_dev t) EApprove half_plan /\
     fst (step demo_config demo_oracles (half_dev t) EApprove) = ADied /\
     reads_of (half_dev t) = [Some (RData (key_serialize demo_key)); Some (RData old_mark); Some (RData old_mark); Some (RData old_chain)]) /\
  reads_of (cut_dev TOld) =
    [Some (RData (key_serialize other_key)); Some (RData old_mark); Some (RData old_mark); Some (RData old_chain)] /\
  reads_of (cut_dev (TTorn [1])) =
    [Some (RData (key_serialize other_key)); None; Some (RData old_mark); Some (RData old_chain)].
Proof.
  split; [apply events_okb_ok; vm_compute; reflexivity|]. split; [|split; vm_compute; reflexivity].
  intros t T. split.
  { unfold half_faults. do 5 (apply Forall_cons; [exact Logic.I|]). apply Forall_cons; [|apply Forall_nil].
    destruct T as [-> | ->]; [exact Logic.I|vm_compute; reflexivity]. }
  split; [now apply half_planned|]. destruct T as [-> | ->]; split; vm_compute; reflexivity.
Qed.

(** C66. A set-up is not atomic. *)
Lemma setup_not_atomic :
  ~ (forall C O f u es ws, Forall power_fault f -> Forall up_fault_ok u -> Forall event_ok (es ++ [EApprove]) ->
     len es + 1 < 2 ^ 64 ->
     let d := snd (run C O (dev_fresh f u) es) in
     let d' := snd (step C O d EApprove) in
     plan C d EApprove ws ->
     (forall s p, In (s, p) ws -> holds_slot d' s (Some p)) \/ (forall s, kept d d' s)).
Proof.
  intros H. destruct half_case as (E & Hc & R' & _). destruct (Hc TOld (or_introl eq_refl)) as (F & P & _ & R).
  assert (L : len half_events + 1 < 2 ^ 64) by (vm_compute; reflexivity).
  assert (A : holds_slot (half_dev TOld) SKey (Some (key_serialize demo_key))) by (split; vm_compute; reflexivity).
  assert (G : forall d d', d = snd (run demo_config demo_oracles (dev_fresh (half_faults TOld) []) half_events) ->
    d' = snd (step demo_config demo_oracles d EApprove) -> plan demo_config d EApprove half_plan ->
    (forall s p, In (s, p) half_plan -> holds_slot d' s (Some p)) \/ (forall s, kept d d' s)).
  { intros d d' Ed Ed' Pd. rewrite Ed in Ed', Pd |- *. rewrite Ed'. exact (H _ _ _ _ _ _ F (Forall_nil _) E L Pd). }
  assert (E1 : half_dev TOld = snd (run demo_config demo_oracles (dev_fresh (half_faults TOld) []) half_events))
    by (unfold half_dev, demo_run; reflexivity).
  assert (E2 : cut_dev TOld = snd (step demo_config demo_oracles (half_dev TOld) EApprove)) by (unfold cut_dev; reflexivity).
  clear H. pose proof (G _ _ E1 E2 P) as H. clear - H A R'.
  assert (Ym : wear_read (get_slot SMain (cut_dev TOld)) = Some (RData old_mark)) by (revert R'; apply reads_main).
  assert (Yk : wear_read (get_slot SKey (cut_dev TOld)) = Some (RData (key_serialize other_key)))
    by (revert R'; apply reads_key).
  revert A H Ym Yk. clear. generalize (cut_dev TOld). generalize (half_dev TOld). intros d d' A H Ym Yk.
  destruct H as [H|H].
  - assert (I : In (SMain, wm_serialize (WEmmy 7 false)) half_plan) by (right; left; reflexivity).
    destruct (H _ _ I) as [X _]. rewrite Ym in X. revert X. vm_compute. discriminate.
  - destruct (H SKey) as [X _]. destruct (X _ A) as [Y _]. rewrite Yk in Y. revert Y. vm_compute. discriminate.
Qed.

(** C09: after the interrupted set-up the old key is refused. *)
Definition restarted_events : list event :=
  half_events ++ [EApprove; EPower; send 4 0 0 (path_serialize demo_path)].
Definition again_refusal : bytes := [0x69; 0x84].
Lemma restarted_case :
  Forall power_fault (half_faults TOld) /\ Forall event_ok (restarted_events ++ [again]) /\
  fst (step demo_config demo_oracles (demo_run (half_faults TOld) restarted_events) again) = AReply again_refusal /\
  ~ succeeds (AReply again_refusal).
Proof.
  split; [apply (half_case)|]. { now left. }
  split; [apply events_okb_ok; vm_compute; reflexivity|]. split; [vm_compute; reflexivity|].
  intros [data E]. apply (f_equal (fun a => match a with AReply o => rev o | _ => [] end)) in E.
  rewrite rev_app_distr in E. discriminate.
Qed.

(** C09: the set-up whose second write fails. *)
Definition fail_faults : list fault := [WOk; WOk; WOk; WOk; WOk; WFail TNew].
Lemma failed_setup :
  ~ (forall C O f u es e out,
     Forall slot_fault_ok f -> Forall up_fault_ok u -> Forall event_ok (es ++ [e]) -> len es + 1 < 2 ^ 64 ->
     let d := snd (run C O (dev_fresh f u) es) in
     let d' := snd (step C O d e) in
     fst (step C O d e) = AReply out -> ~ succeeds (AReply out) ->
     (forall s, same_slot d d' s) \/ exists q, offered C d e q).
Proof.
  intros H. destruct half_case as (E & _).
  assert (F : Forall slot_fault_ok fail_faults).
  { unfold fail_faults. do 5 (apply Forall_cons; [exact Logic.I|]). apply Forall_cons; [|apply Forall_nil].
    split; [discriminate|exact Logic.I]. }
  assert (L : len half_events + 1 < 2 ^ 64) by (vm_compute; reflexivity).
  assert (G : forall d d' a, d = snd (run demo_config demo_oracles (dev_fresh fail_faults []) half_events) ->
    d' = snd (step demo_config demo_oracles d EApprove) -> a = fst (step demo_config demo_oracles d EApprove) ->
    forall out, a = AReply out -> ~ succeeds (AReply out) ->
    (forall s, same_slot d d' s) \/ exists q, offered demo_config d EApprove q).
  { intros d d' a Ed Ed' Ea out Eo N. rewrite Ed in Ed', Ea |- *. rewrite Ed'. rewrite Ea in Eo.
    exact (H _ _ _ _ _ _ _ F (Forall_nil _) E L Eo N). }
  pose (d := demo_run fail_faults half_events).
  assert (A : fst (step demo_config demo_oracles d EApprove) = AReply [0x90; 1]) by (vm_compute; reflexivity).
  assert (R : wear_read (get_slot SKey d) = Some (RData (key_serialize demo_key))) by (vm_compute; reflexivity).
  assert (R' : wear_read (get_slot SKey (snd (step demo_config demo_oracles d EApprove))) = Some (RData (key_serialize other_key)))
    by (vm_compute; reflexivity).
  assert (Ed : d = snd (run demo_config demo_oracles (dev_fresh fail_faults []) half_events))
    by (unfold d, demo_run; reflexivity).
  clear H. specialize (G d). revert G A R R' Ed. clearbody d. clear. intros G A R R' Ed.
  remember (step demo_config demo_oracles d EApprove) as x eqn:Ex.
  destruct (G _ _ Ed eq_refl eq_refl _ A) as [Q|[q (_ & b & r & i & up & u0 & s & Ee & _)]].
  - intros [data Y]. apply (f_equal (fun a => match a with AReply o => rev o | _ => [] end)) in Y.
    rewrite rev_app_distr in Y. discriminate.
  - destruct (Q SKey) as [Y _]. rewrite R', R in Y. revert Y. vm_compute. discriminate.
  - discriminate.
Qed.
