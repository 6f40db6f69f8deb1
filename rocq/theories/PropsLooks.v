(** Property theorems C62: requests that look the same on the screen are alike. *)
From Coq Require Import NArith ZArith Bool Arith String List.
From Verif Require Import Base Oracles Address AddressExamples Text TextExamples Bakers BakersSpec
  Upload UploadSpec Operations OperationsSpec OperationsExamples Device DeviceSpec DeviceDemo
  Screens ScreensSpec ScreensViews ScreensExamples LooksSpec LooksExamples.
Import ListNotations.
Open Scope N_scope.

(** C62. Two pending reviews of less than 256 rows, of any two devices with the same hash
    functions, that write the same to the screen for every item and page, and show every
    item, ask for alike things: the same kind of request with the same contents, but for
    entrypoints, the signatures inside endorsements with a slot, operations without rows
    and which of several bakers of one name is the delegate; contents shown by a hash have
    the same hash. *)
Theorem C62_same_screens_same_request : forall C C' O f f' u u' es es' hw v v' rows rows',
  oracles_ok O -> Forall up_fault_ok u -> Forall up_fault_ok u' -> Forall event_ok es -> Forall event_ok es' ->
  d_ui (snd (run C O (dev_fresh f u) es)) = Some v ->
  d_ui (snd (run C' O (dev_fresh f' u') es')) = Some v' ->
  view_sheet v = Some rows -> view_sheet v' = Some rows' ->
  (List.length rows < 256)%nat -> (List.length rows' < 256)%nat ->
  look_the_same O known hw v v' -> shows_all O known hw v ->
  exists r r', asks v = Some r /\ asks v' = Some r' /\ alike_requests O known r r'.
Proof. exact pending_looks. Qed.
Print Assumptions C62_same_screens_same_request.

(** The same in terms of the messages that will be signed. *)
Theorem C62_same_screens_alike_messages :
  forall C C' O f f' u u' es es' hw sh sh' dg dg' p p' branch branch' os os',
  let v := VSign sh dg p (3 :: branch ++ flat_map enc_op os) in
  let v' := VSign sh' dg' p' (3 :: branch' ++ flat_map enc_op os') in
  oracles_ok O -> Forall up_fault_ok u -> Forall up_fault_ok u' -> Forall event_ok es -> Forall event_ok es' ->
  d_ui (snd (run C O (dev_fresh f u) es)) = Some v ->
  d_ui (snd (run C' O (dev_fresh f' u') es')) = Some v' ->
  List.length branch = 32%nat -> List.length branch' = 32%nat -> Forall op_ok os -> Forall op_ok os' ->
  Forall (fun o => ~ anonymous o) os -> Forall (fun o => ~ anonymous o) os' ->
  (List.length (batch_sheet branch (map op_of os)) < 256)%nat ->
  (List.length (batch_sheet branch' (map op_of os')) < 256)%nat ->
  look_the_same O known hw v v' -> shows_all O known hw v ->
  branch = branch' /\ Forall2 (alike_encoded O known) os os'.
Proof. exact encoded_looks. Qed.
Print Assumptions C62_same_screens_alike_messages.

(** If all that is shown is shown as it is, the messages are the same. *)
Theorem C62_same_screens_same_message :
  forall C C' O f f' u u' es es' hw sh sh' dg dg' p p' branch branch' os os',
  let v := VSign sh dg p (3 :: branch ++ flat_map enc_op os) in
  let v' := VSign sh' dg' p' (3 :: branch' ++ flat_map enc_op os') in
  oracles_ok O -> Forall up_fault_ok u -> Forall up_fault_ok u' -> Forall event_ok es -> Forall event_ok es' ->
  d_ui (snd (run C O (dev_fresh f u) es)) = Some v ->
  d_ui (snd (run C' O (dev_fresh f' u') es')) = Some v' ->
  List.length branch = 32%nat -> List.length branch' = 32%nat -> Forall op_ok os -> Forall op_ok os' ->
  Forall (transparent known) os -> Forall (fun o => ~ anonymous o) os' ->
  (List.length (batch_sheet branch (map op_of os)) < 256)%nat ->
  (List.length (batch_sheet branch' (map op_of os')) < 256)%nat ->
  look_the_same O known hw v v' -> shows_all O known hw v ->
  branch = branch' /\ os = os'.
Proof. exact transparent_looks. Qed.
Print Assumptions C62_same_screens_same_message.

Example C62_case : pends small_batch /\ Forall op_ok small_batch /\ Forall (transparent known) small_batch /\
  sheet_length (d_ui (wallet_run (sign_batch small_batch))) = 17 /\
  forall hw, shows_all demo_oracles known hw (view_or (d_ui (wallet_run (sign_batch small_batch)))).
Proof.
  exact (conj small_batch_pends (conj (proj1 small_batch_ok) (conj (proj2 small_batch_ok)
          (conj small_batch_length small_batch_all)))).
Qed.

(** In the built-in table only the bakers called "Tezos Japan" share a name. *)
Theorem C62_known_namesakes : forall p q, namesakes known p q -> same_person p q \/
  exists a b, In a known /\ In b known /\ is_baker a p /\ is_baker b q /\
    bk_name a = str "Tezos Japan" /\ bk_name b = str "Tezos Japan".
Proof. exact known_namesakes. Qed.
Print Assumptions C62_known_namesakes.

(** Without these exceptions the claim is false: batches that differ in entrypoints, inner
    signatures or bakers of one name look the same. *)
Theorem C62_unseen_differences_refuted : forall O table hw sh sh' dg dg' branch os os' data data', sorted table ->
  List.length branch = 32%nat -> Forall op_ok os -> Forall op_ok os' -> Forall2 (unseen table) os os' ->
  look_the_same O table hw (VSign sh dg (operation_new (branch ++ flat_map enc_op os)) data)
                           (VSign sh' dg' (operation_new (branch ++ flat_map enc_op os')) data').
Proof. exact unseen_looks. Qed.
Print Assumptions C62_unseen_differences_refuted.
Theorem C62_entrypoints_refuted : same_screens [stake_call] [drain_call].
Proof. exact calls_same. Qed.
Print Assumptions C62_entrypoints_refuted.
Theorem C62_namesakes_refuted : same_screens [japan_choice japan_1] [japan_choice japan_2].
Proof. exact delegations_same. Qed.
Print Assumptions C62_namesakes_refuted.
Theorem C62_inner_signatures_refuted : same_screens [inner_of (repeat 5 64)] [inner_of (repeat 6 64)].
Proof. exact inners_same. Qed.
Print Assumptions C62_inner_signatures_refuted.

Example C62_refuted_case : sorted known /\
  Forall op_ok [stake_call; japan_choice japan_1; inner_of (repeat 5 64)] /\
  Forall op_ok [drain_call; japan_choice japan_2; inner_of (repeat 6 64)] /\
  Forall2 (unseen known) [stake_call; japan_choice japan_1; inner_of (repeat 5 64)]
                         [drain_call; japan_choice japan_2; inner_of (repeat 6 64)].
Proof. exact (conj known_sorted (conj (proj1 unseen_ok) (conj (proj2 unseen_ok) unseen_case))). Qed.
Example C62_namesakes_case :
  shown (sign_batch [japan_choice japan_1]) NanoS 3 0 = VOk (str "Delegation", str "Tezos Japan", 1) /\
  shown (sign_batch [japan_choice japan_2]) NanoS 3 0 = VOk (str "Delegation", str "Tezos Japan", 1).
Proof. exact japan_shown. Qed.
