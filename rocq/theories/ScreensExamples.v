(** The statements of [PropsScreens] in final form, and their cases. *)
From Coq Require Import NArith ZArith Bool Arith String List Lia.
From Coq Require Import ZifyBool ZifyNat ZifyN.
From Verif Require Import Base BaseFacts Flash Codecs CodecsSpec CodecsFacts Upload UploadSpec UploadExamples
  Oracles Address AddressSpec AddressFacts AddressExamples
  Text TextSpec TextFacts TextExamples Bakers BakersSpec BakersFacts KnownBakers
  Operations OperationsSpec OperationsFacts OperationsExamples Device DeviceSpec DeviceCases DeviceDemo
  Screens ScreensSpec ScreensFacts ScreensViews ScreensPages ScreensDevice.
Import ListNotations.
Open Scope string_scope.
Open Scope list_scope.
Open Scope N_scope.

(** ** The built-in table *)

Definition names_fitb (table : list baker) : bool :=
  forallb (fun b => forallb (fun c => negb (c =? 0)) (bk_name b) && (List.length (bk_name b) <? 34)%nat) table.
Lemma names_fitb_ok table : names_fitb table = true -> names_fit table.
Proof.
  unfold names_fitb, names_fit. rewrite forallb_forall, Forall_forall. intros H b Hb. specialize (H b Hb).
  apply andb_true_iff in H as [H1 H2]. split; [|now apply Nat.ltb_lt].
  rewrite forallb_forall in H1. rewrite Forall_forall. intros c Hc. specialize (H1 c Hc). lia.
Qed.
Lemma known_sorted : sorted known.
Proof. exact (build_sorted registry known known_built). Qed.
Lemma known_fit_true : names_fitb known = true.
Proof. vm_compute. reflexivity. Qed.
Lemma known_fit : names_fit known.
Proof. exact (names_fitb_ok known known_fit_true). Qed.

(** ** Reviews of the device *)

Lemma pending_review_rows C O f u es hw v rows : oracles_ok O -> Forall up_fault_ok u -> Forall event_ok es ->
  d_ui (snd (run C O (dev_fresh f u) es)) = Some v -> view_sheet v = Some rows -> view_fits v ->
  (List.length rows < 256)%nat ->
  view_items v = VOk (len rows) /\
  forall k, (k < 256)%nat ->
  match nth_error rows k with
  | Some r => displays O known hw v k r \/ (unshowable O (snd r) /\ fails O known hw v k Unknown)
  | None => fails O known hw v k NoData
  end.
Proof.
  intros K U E V S F L.
  destruct (review_rows O known hw v rows K known_sorted known_fit (pending_wf C O f u es v K U E V) F S) as [A B].
  rewrite N.mod_small in A by (unfold len; lia). split; [exact A|exact B].
Qed.

Lemma encoded_sheet sh dg branch os data : List.length branch = 32%nat -> Forall op_ok os ->
  view_sheet (VSign sh dg (operation_new (branch ++ flat_map enc_op os)) data) =
  Some (batch_sheet branch (map op_of os)).
Proof.
  intros L H. unfold operation_new. rewrite take_app by (unfold len; lia). 
  change (match eo_all (S (List.length (flat_map enc_op os))) (eo_new (flat_map enc_op os)) with
          | AllOk os => Some (batch_sheet branch os) | _ => None end = Some (batch_sheet branch (map op_of os))).
  now rewrite batch_decodes.
Qed.

(** ** Cases *)

(** The payload of a message in packets of 200 bytes. *)
Fixpoint packets (fuel : nat) (ins : N) (data : bytes) : list event :=
  match fuel with
  | 0%nat => []
  | S fuel' =>
    if (List.length data <=? 200)%nat then [send ins 0x81 0 data]
    else send ins 1 0 (firstn 200 data) :: packets fuel' ins (skipn 200 data)
  end.
Definition send_long (ins : N) (data : bytes) : list event :=
  send ins 0 0 (path_serialize demo_path) :: packets 100 ins data.
Definition sign_batch (os : list tz_op) : list event :=
  send_long 0x04 (0x03 :: demo_branch ++ flat_map enc_op os).

Definition wallet_run (es : list event) : dev := snd (run wallet_config demo_oracles (dev_fresh [] []) es).
Definition sheet_length (v : option viewable) : N :=
  match v with
  | Some v => match view_sheet v with Some rows => len rows | None => 0 end
  | None => 0
  end.
Definition announced_items (v : option viewable) : vres N :=
  match v with Some v => view_items v | None => VErr NoData end.
Definition view_or (v : option viewable) : viewable :=
  match v with Some v => v | None => VDeauthorize (mkAddr [] [] []) end.
Lemma view_or_some v n : sheet_length v = N.pos n -> v = Some (view_or v).
Proof. destruct v; [reflexivity|discriminate]. Qed.
Lemma sheet_length_some v n : sheet_length v = N.pos n ->
  exists rows, view_sheet (view_or v) = Some rows /\ len rows = N.pos n.
Proof.
  destruct v as [v|]; [|discriminate]. cbn [sheet_length view_or]. destruct (view_sheet v) as [rows|]; [|discriminate].
  eauto.
Qed.

Definition shown (es : list event) (hw : hardware) (k p : N) : vres (bytes * bytes * N) :=
  match view_render demo_oracles known (key_size hw) (view_or (d_ui (wallet_run es))) k
          (zeros (key_size hw)) (zeros (N.to_nat (message_size hw))) p with
  | VOk (key, out, n) => VOk (cstr key, cstr out, n)
  | VErr e => VErr e
  | VPanic => VPanic
  end.

Definition demo_transfer : tz_op := TTransfer demo_man 1500000 (TzImplicit demo_pkh2) None.
Definition demo_delegation : tz_op := TDelegation demo_man (Some (mkPkh Tz1 everstake_hash)).
Definition small_batch : list tz_op := [demo_transfer; demo_delegation].

Lemma small_batch_case :
  Forall event_ok (sign_batch small_batch) /\
  sheet_length (d_ui (wallet_run (sign_batch small_batch))) = 17 /\
  announced_items (d_ui (wallet_run (sign_batch small_batch))) = VOk 17 /\
  shown (sign_batch small_batch) NanoS 0 1 = VOk (str "Operation", str "BTkYZiLgs8zLVstvX", 2) /\
  shown (sign_batch small_batch) NanoS 4 0 = VOk (str "Amount", str "1.500000", 1) /\
  shown (sign_batch small_batch) NanoX 12 0 = VOk (str "Delegation", str "Everstake", 1).
Proof.
  split; [apply events_okb_ok; vm_compute; reflexivity|].
  do 4 (split; [vm_compute; reflexivity|]). vm_compute. reflexivity.
Qed.

(** A review whose rows fit is in order. *)
Definition view_fitsb (v : viewable) : bool :=
  match v with
  | VSign _ _ (Some (_, ops)) _ =>
    match eo_all (S (List.length (eo_source ops))) ops with
    | AllOk os => forallb (fun o => len (sheet o) <? 256) os
    | _ => true
    end
  | _ => true
  end.
Lemma view_fitsb_ok v : view_fitsb v = true -> view_fits v.
Proof.
  destruct v as [? ? [[? ops]|] ?| | | | | |]; cbn [view_fitsb view_fits]; auto.
  intros H os E. rewrite E in H. unfold rows_fit. rewrite forallb_forall in H. rewrite Forall_forall.
  intros o Ho. specialize (H o Ho). unfold len in H. lia.
Qed.
Lemma small_batch_fits : view_fits (view_or (d_ui (wallet_run (sign_batch small_batch)))).
Proof. apply view_fitsb_ok. vm_compute. reflexivity. Qed.

Definition all_no_data (v : viewable) : bool :=
  forallb (fun k => match view_item demo_oracles known 18 v (N.of_nat k) with VOk (NoItem NoData) => true | _ => false end)
    (seq 1 255).
(** Several facts about one state, computed together. *)
Definition two_facts (v : option viewable) : N * vres N := (sheet_length v, announced_items v).
Lemma two_cases v a b : two_facts v = (a, b) -> sheet_length v = a /\ announced_items v = b.
Proof. intros H. injection H as <- <-. auto. Qed.
Definition three_facts (v : option viewable) : N * vres N * bool :=
  (sheet_length v, announced_items v, all_no_data (view_or v)).
Lemma three_cases v a b c : three_facts v = (a, b, c) ->
  sheet_length v = a /\ announced_items v = b /\ all_no_data (view_or v) = c.
Proof. intros H. injection H as <- <- <-. auto. Qed.

(** Operations without rows leave no trace in a review. *)
Lemma pick_skip os1 o os2 : op_items o = 0 -> forall n, pick (os1 ++ o :: os2) n = pick (os1 ++ os2) n.
Proof.
  intros Z. induction os1 as [|x os1 IH]; intros n; cbn [app pick]; cbv zeta.
  - rewrite Z. change (0 mod 256) with 0. rewrite N.sub_0_r. now replace (n <? 0) with false by lia.
  - now rewrite IH.
Qed.
Lemma op_of_anonymous a : anonymous a -> op_of a = OAnonymous.
Proof. destruct a; cbn; tauto. Qed.
Lemma anonymous_hidden O table ks sh dg dg' branch os1 a os2 data data' :
  List.length branch = 32%nat -> Forall op_ok (os1 ++ a :: os2) -> anonymous a ->
  let v := VSign sh dg (operation_new (branch ++ flat_map enc_op (os1 ++ a :: os2))) data in
  let v' := VSign sh dg' (operation_new (branch ++ flat_map enc_op (os1 ++ os2))) data' in
  flat_map enc_op (os1 ++ a :: os2) <> flat_map enc_op (os1 ++ os2) /\
  view_sheet v = view_sheet v' /\ view_items v = view_items v' /\
  forall n, view_item O table ks v n = view_item O table ks v' n.
Proof.
  intros L Hok Ha v v'.
  assert (Hok' : Forall op_ok (os1 ++ os2)).
  { apply Forall_app in Hok as [H1 H2]. inversion H2; subst. apply Forall_app. auto. }
  assert (Hs : view_sheet v = view_sheet v').
  { unfold v, v'. rewrite !encoded_sheet by auto. f_equal. unfold batch_sheet. f_equal. rewrite !map_app, !flat_map_app. cbn [map flat_map].
    now rewrite (op_of_anonymous a Ha). }
  split.
  { rewrite !flat_map_app. cbn [flat_map]. intros E. apply app_inv_head in E.
    apply (f_equal (@List.length N)) in E. rewrite app_length in E.
    pose proof (enc_op_nonempty a) as Hne. destruct (enc_op a); [congruence|]. cbn [List.length] in E. lia. }
  split; [exact Hs|].
  assert (Es : view_sheet v = Some (batch_sheet branch (map op_of (os1 ++ a :: os2)))) by (apply encoded_sheet; auto).
  assert (Es' : view_sheet v' = Some (batch_sheet branch (map op_of (os1 ++ os2)))) by (apply encoded_sheet; auto).
  split.
  { rewrite (view_items_sheet v _ Es), (view_items_sheet v' _ Es'). rewrite Es, Es' in Hs. injection Hs as Hs.
    do 2 f_equal. unfold batch_sheet, len. cbn [List.length]. now rewrite Hs. }
  intros n. unfold v, v', operation_new. rewrite !take_app by (unfold len; lia). cbn [view_item]. destruct n as [|p]; [reflexivity|].
  unfold batch_fuel.
  rewrite (find_op_pick _ _ _ _ (batch_decodes _ Hok)), (find_op_pick _ _ _ _ (batch_decodes _ Hok')).
  rewrite !map_app. cbn [map]. rewrite pick_skip; [reflexivity|]. now rewrite (op_of_anonymous a Ha).
Qed.

Lemma anonymous_case : Forall op_ok ([demo_transfer] ++ nth 2 demo_anonymous demo_transfer :: [demo_delegation]) /\
  anonymous (nth 2 demo_anonymous demo_transfer) /\ List.length demo_branch = 32%nat.
Proof.
  split; [|split; [exact Logic.I|reflexivity]].
  cbn [app nth demo_anonymous]. repeat (first [apply Forall_nil | apply Forall_cons]); cbn [op_ok demo_transfer demo_delegation];
    repeat match goal with
           | |- _ /\ _ => split
           | |- True => exact Logic.I
           | |- Forall _ _ => constructor
           | |- _ = _ => vm_compute; reflexivity
           | |- (_ < _)%N => vm_compute; reflexivity
           | |- (_ <= _)%Z => vm_compute; discriminate
           | |- (_ < _)%Z => vm_compute; reflexivity
           | |- i32_ok _ => unfold i32_ok
           | |- size_ok _ => unfold size_ok
           | |- OperationsSpec.pkh_ok _ => unfold OperationsSpec.pkh_ok
           | |- tz_header_ok _ => unfold tz_header_ok
           | |- contract_ok _ => cbn [contract_ok]
           | |- opt_ok _ _ => cbn [opt_ok th_seed demo_tz_header]
           | |- Forall size_ok _ => cbn [th_fitness demo_tz_header]
           end.
Qed.

(** Numbers of at most 28 bits can be shown, larger ones cannot. *)
Lemma large_numbers n : 32 < payload_bits false (enc_nat n) <-> 2 ^ 28 <= n.
Proof.
  pose proof (enc_nat_value n) as V. pose proof (groups_value_lt (enc_nat n)) as Lt. rewrite V in Lt.
  replace (payload_bits false (enc_nat n)) with (7 * len (enc_nat n))
    by (unfold payload_bits; destruct (enc_nat n); cbn; lia).
  split; intros H.
  - destruct (N.le_gt_cases (2 ^ 28) n) as [|Hn]; [auto|].
    pose proof (enc_nat_len_le n 4 Hn ltac:(lia)) as L. unfold len in H. lia.
  - destruct (N.le_gt_cases (7 * len (enc_nat n)) 32) as [Hl|]; [|auto].
    assert (2 ^ (7 * len (enc_nat n)) <= 2 ^ 28) by (apply N.pow_le_mono_r; lia). lia.
Qed.
Lemma large_unshowable O n : (unshowable O (FTez (z_of n)) <-> 2 ^ 28 <= n) /\ (unshowable O (FNat (z_of n)) <-> 2 ^ 28 <= n).
Proof. split; apply large_numbers. Qed.

Lemma large_amount_case :
  shown (sign_batch [TTransfer demo_man 300000000 (TzImplicit demo_pkh2) None]) NanoS 4 0 = VErr Unknown.
Proof. vm_compute. reflexivity. Qed.

(** 26 transfers and 3 delegations have 255 rows. *)
Definition many_items : list tz_op := repeat demo_transfer 26 ++ repeat demo_delegation 3.
Lemma many_items_case :
  Forall event_ok (sign_batch many_items) /\
  sheet_length (d_ui (wallet_run (sign_batch many_items))) = 256 /\
  announced_items (d_ui (wallet_run (sign_batch many_items))) = VOk 0.
Proof.
  split; [apply events_okb_ok; vm_compute; reflexivity|]. apply two_cases. vm_compute. reflexivity.
Qed.

(** 253 proposals. *)
Definition many_proposals : list tz_op := [TProposals demo_pkh 10 (repeat (repeat 1 32) (N.to_nat 253))].
Lemma many_proposals_case :
  Forall event_ok (sign_batch many_proposals) /\
  sheet_length (d_ui (wallet_run (sign_batch many_proposals))) = 257 /\
  announced_items (d_ui (wallet_run (sign_batch many_proposals))) = VOk 1 /\
  all_no_data (view_or (d_ui (wallet_run (sign_batch many_proposals)))) = true.
Proof.
  split; [apply events_okb_ok; vm_compute; reflexivity|]. apply three_cases. vm_compute. reflexivity.
Qed.
