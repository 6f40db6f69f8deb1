(** The statements of [PropsLooks] in final form, and their cases. *)
From Coq Require Import NArith ZArith Bool Arith String List Lia.
From Coq Require Import ZifyBool ZifyNat ZifyN.
From Verif Require Import Base BaseFacts Flash Codecs CodecsSpec CodecsFacts Upload UploadSpec UploadExamples
  Oracles Address AddressSpec AddressFacts AddressExamples
  Text TextSpec TextFacts TextExamples Bakers BakersSpec BakersFacts KnownBakers
  Operations OperationsSpec OperationsFacts OperationsExamples
  Device DeviceSpec DeviceSigs DeviceCases DeviceDemo
  Screens ScreensSpec ScreensFacts ScreensViews ScreensPages ScreensDevice ScreensExamples
  LooksSpec LooksFacts.
Import ListNotations.
Open Scope string_scope.
Open Scope list_scope.
Open Scope N_scope.

(** ** The built-in table *)

Definition bytes_eqb (a b : bytes) : bool := if list_eq_dec N.eq_dec a b then true else false.
Lemma bytes_eqb_true a b : bytes_eqb a b = true <-> a = b.
Proof. unfold bytes_eqb. destruct (list_eq_dec N.eq_dec a b); split; congruence. Qed.
(** Bakers that share a name are the same but for those called so. *)
Definition names_differb (but : bytes) (table : list baker) : bool :=
  forallb (fun a => forallb (fun b =>
    negb (bytes_eqb (bk_name a) (bk_name b)) || bytes_eqb (bk_name a) but
    || (bytes_eqb (bk_prefix a) (bk_prefix b) && bytes_eqb (bk_hash a) (bk_hash b))) table) table.
Lemma names_differb_ok but table a b : names_differb but table = true -> In a table -> In b table ->
  bk_name a = bk_name b -> bk_name a = but \/ (bk_prefix a = bk_prefix b /\ bk_hash a = bk_hash b).
Proof.
  unfold names_differb. rewrite forallb_forall. intros H Ha Hb E.
  specialize (H a Ha). rewrite forallb_forall in H. specialize (H b Hb).
  rewrite (proj2 (bytes_eqb_true _ _) E) in H. cbn [negb orb] in H. apply orb_prop in H as [H|H].
  - left. now apply bytes_eqb_true.
  - right. apply andb_prop in H as [H1 H2]. now rewrite bytes_eqb_true in H1, H2.
Qed.
Lemma known_differ : names_differb (str "Tezos Japan") known = true.
Proof. vm_compute. reflexivity. Qed.

Local Opaque known.

Lemma namesakes_but but table p q : names_differb but table = true -> namesakes table p q -> same_person p q \/
  exists a b, In a table /\ In b table /\ is_baker a p /\ is_baker b q /\ bk_name a = but /\ bk_name b = but.
Proof.
  intros D (a & b & Ia & Ib & [Pa Ha] & [Pb Hb] & E).
  destruct (names_differb_ok _ _ a b D Ia Ib E) as [N|[X Y]].
  - right. exists a, b. rewrite E in N.
    exact (conj Ia (conj Ib (conj (conj Pa Ha) (conj (conj Pb Hb) (conj (eq_trans E N) N))))).
  - left. split; [|congruence]. apply addr_prefix_inj. congruence.
Qed.
Lemma known_namesakes p q : namesakes known p q -> same_person p q \/
  exists a b, In a known /\ In b known /\ is_baker a p /\ is_baker b q /\
    bk_name a = str "Tezos Japan" /\ bk_name b = str "Tezos Japan".
Proof. exact (namesakes_but _ _ p q known_differ). Qed.

(** tz1b7YSEeNRqgmjuX4d4aiai2sQTF4A7WBZf and tz1ijdEfmUoQXJfSiKCLRioeCfSrKP3sVsff. *)
Definition japan_1 : tz_pkh :=
  mkPkh Tz1 [169; 189; 242; 62; 27; 165; 209; 228; 85; 60; 188; 183; 132; 147; 255; 132; 12; 65; 226; 11].
Definition japan_2 : tz_pkh :=
  mkPkh Tz1 [253; 89; 207; 6; 17; 126; 96; 158; 250; 248; 90; 191; 99; 216; 153; 156; 234; 132; 101; 66].

Definition is_bakerb (b : baker) (p : curve * bytes) : bool :=
  bytes_eqb (bk_prefix b) (kind_prefix (AddressSpec.addr_kind (fst p))) && bytes_eqb (bk_hash b) (snd p).
Lemma is_bakerb_true b p : is_bakerb b p = true <-> is_baker b p.
Proof. unfold is_bakerb, is_baker. rewrite andb_true_iff, !bytes_eqb_true. reflexivity. Qed.
Definition namedb (table : list baker) (p : curve * bytes) (name : bytes) : bool :=
  existsb (fun b => is_bakerb b p) table
  && forallb (fun b => negb (is_bakerb b p) || bytes_eqb (bk_name b) name) table.
Lemma namedb_ok table p name : namedb table p name = true -> named table p name.
Proof.
  unfold namedb, named. intros H. apply andb_prop in H as [A B]. split.
  - apply existsb_exists in A as (b & I1 & E). exists b. split; [exact I1|]. now apply is_bakerb_true.
  - intros b I1 E. rewrite forallb_forall in B. specialize (B b I1).
    rewrite (proj2 (is_bakerb_true b p) E) in B. now apply bytes_eqb_true.
Qed.
Lemma japan_named : named known (pkh_of japan_1) (str "Tezos Japan") /\ named known (pkh_of japan_2) (str "Tezos Japan").
Proof. split; apply namedb_ok; vm_compute; reflexivity. Qed.

(** ** Pending reviews *)

Lemma sheet_fits v rows : view_sheet v = Some rows -> (List.length rows < 256)%nat -> view_fits v.
Proof.
  destruct v as [? ? [[b ops]|] ?| | | | | |]; cbn [view_fits view_sheet]; auto.
  intros E L os Eo. rewrite Eo in E. injection E as <-. unfold batch_sheet in L. cbn [List.length] in L.
  unfold rows_fit. clear Eo. induction os as [|o os IH]; [constructor|]. cbn [flat_map] in L.
  rewrite app_length in L. constructor; [lia|]. apply IH. lia.
Qed.

Lemma pending_chain C O f u es v : Forall event_ok es ->
  d_ui (snd (run C O (dev_fresh f u) es)) = Some v -> chain_fine v.
Proof.
  intros E V. pose proof (reach_ui C O f u es E v V) as W. destruct v; cbn [chain_fine]; auto.
  destruct W as (_ & _ & _ & _ & H). destruct chain; cbn [chain_wf u32_of_chain] in *; auto.
Qed.

Lemma pending_looks C C' O f f' u u' es es' hw v v' rows rows' : oracles_ok O ->
  Forall up_fault_ok u -> Forall up_fault_ok u' -> Forall event_ok es -> Forall event_ok es' ->
  d_ui (snd (run C O (dev_fresh f u) es)) = Some v ->
  d_ui (snd (run C' O (dev_fresh f' u') es')) = Some v' ->
  view_sheet v = Some rows -> view_sheet v' = Some rows' ->
  (List.length rows < 256)%nat -> (List.length rows' < 256)%nat ->
  look_the_same O known hw v v' -> shows_all O known hw v ->
  exists r r', asks v = Some r /\ asks v' = Some r' /\ alike_requests O known r r'.
Proof.
  intros K U U' E E' V V' S S' L L'.
  apply (looks_alike O known hw v v' rows rows' K known_sorted known_fit); auto.
  - exact (pending_wf C O f u es v K U E V).
  - exact (pending_wf C' O f' u' es' v' K U' E' V').
  - exact (pending_chain C O f u es v E V).
  - exact (pending_chain C' O f' u' es' v' E' V').
  - exact (sheet_fits v rows S L).
  - exact (sheet_fits v' rows' S' L').
Qed.

(** ** Encoded operations *)

Lemma z_of_same a b : same_number (z_of a) (z_of b) -> a = b.
Proof.
  unfold same_number, z_value, z_of. cbn [z_bytes magnitude].
  now rewrite !enc_nat_value.
Qed.
Lemma pkh_of_same p q : same_person (pkh_of p) (pkh_of q) -> p = q.
Proof.
  destruct p as [[] h], q as [[] h']; intros [E F]; cbn in E, F; try discriminate; now subst.
Qed.
Lemma manager_of_same m m' : same_manager (manager_of m) (manager_of m') -> m = m'.
Proof.
  intros (A & B & C & D & E). destruct m, m'.
  cbn [manager_of m_source m_fee m_counter m_gas m_storage OperationsSpec.tm_source OperationsSpec.tm_fee OperationsSpec.tm_counter OperationsSpec.tm_gas OperationsSpec.tm_storage] in *.
  apply pkh_of_same in A. apply z_of_same in B, C, D, E. now subst.
Qed.
Lemma delegate_same p q : same_option same_person (option_map pkh_of p) (option_map pkh_of q) -> p = q.
Proof.
  destruct p, q; cbn [option_map same_option]; try tauto. intros H. apply pkh_of_same in H. now subst.
Qed.
Lemma contract_of_same c d : same_contract (contract_of c) (contract_of d) -> c = d.
Proof.
  destruct c as [p|h], d as [q|h']; cbn [contract_of same_contract]; try tauto.
  - intros H. f_equal. now apply pkh_of_same.
  - now intros ->.
Qed.
Lemma pk_kind_inj k k' : pk_kind (kind_curve k) = pk_kind (kind_curve k') -> k = k'.
Proof. destruct k, k'; cbn; congruence. Qed.

Lemma op_of_alike O o o' : ~ anonymous o -> alike O known (op_of o) (op_of o') -> alike_encoded O known o o'.
Proof.
  intros NA. destruct o, o'; cbn [op_of alike alike_encoded anonymous] in *; try tauto.
  - intros (A & B & C & D). apply manager_of_same in A. apply z_of_same in B. apply contract_of_same in C. now subst.
  - intros (A & B). apply manager_of_same in A. split; [exact A|].
    destruct delegate, delegate0; exact B.
  - now intros ->.
  - intros (A & B & C & D). apply pkh_of_same in A. now subst.
  - intros (A & B & C). cbn [fst snd] in *. apply manager_of_same in A. apply pk_kind_inj in B. now subst.
  - intros (A & B & C). apply pkh_of_same in A. now subst.
  - intros (A & B & C & D & E). apply manager_of_same in A. apply z_of_same in B. apply delegate_same in C. now subst.
  - now intros (-> & ->).
Qed.

Lemma visible_op_of os : Forall (fun o => ~ anonymous o) os -> filter visible (map op_of os) = map op_of os.
Proof.
  induction 1 as [|o os H Hs IH]; [reflexivity|]. cbn [map filter]. rewrite IH.
  destruct o; cbn [anonymous] in H; (reflexivity || (exfalso; apply H; exact Logic.I)).
Qed.

Lemma encoded_asks sh dg branch os data : List.length branch = 32%nat -> Forall op_ok os ->
  asks (VSign sh dg (operation_new (branch ++ flat_map enc_op os)) data) = Some (AskOperations branch (map op_of os)).
Proof.
  intros L H. unfold operation_new. rewrite take_app by (unfold len; lia). 
  change (match eo_all (S (List.length (flat_map enc_op os))) (eo_new (flat_map enc_op os)) with
          | AllOk os => Some (AskOperations branch os) | _ => None end = Some (AskOperations branch (map op_of os))).
  now rewrite batch_decodes.
Qed.

(** The parsed form of the operations in a pending review is that of the data. *)
Lemma pending_parsed C O f u es sh dg parsed rest : Forall event_ok es ->
  d_ui (snd (run C O (dev_fresh f u) es)) = Some (VSign sh dg parsed (3 :: rest)) -> parsed = operation_new rest.
Proof.
  intros E V. pose proof (reach_ui C O f u es E _ V) as (_ & rest' & [(A & _ & B)|(A & _)]); [|discriminate].
  injection A as <-. now symmetry.
Qed.

Lemma encoded_looks C C' O f f' u u' es es' hw sh sh' dg dg' p p' branch branch' os os' :
  let v := VSign sh dg p (3 :: branch ++ flat_map enc_op os) in
  let v' := VSign sh' dg' p' (3 :: branch' ++ flat_map enc_op os') in
  oracles_ok O -> Forall up_fault_ok u -> Forall up_fault_ok u' -> Forall event_ok es -> Forall event_ok es' ->
  d_ui (snd (run C O (dev_fresh f u) es)) = Some v ->
  d_ui (snd (run C' O (dev_fresh f' u') es')) = Some v' ->
  List.length branch = 32%nat -> List.length branch' = 32%nat -> Forall op_ok os -> Forall op_ok os' ->
  Forall (fun o => ~ anonymous o) os -> Forall (fun o => ~ anonymous o) os' ->
  (List.length (batch_sheet branch (map op_of os)) < 256)%nat ->
  (List.length (batch_sheet branch' (map op_of os')) < 256)%nat ->
  look_the_same O known hw v v' -> shows_all O known hw v ->
  branch = branch' /\ Forall2 (alike_encoded O known) os os'.
Proof.
  intros v v' K U U' E E' V V' B B' H H' NA NA' L L' Lk Sh.
  pose proof (pending_parsed C O f u es _ _ _ _ E V) as P. pose proof (pending_parsed C' O f' u' es' _ _ _ _ E' V') as P'.
  subst p p'.
  destruct (pending_looks C C' O f f' u u' es es' hw v v' _ _ K U U' E E' V V'
              (encoded_sheet _ _ _ _ _ B H) (encoded_sheet _ _ _ _ _ B' H') L L' Lk Sh) as (r & r' & A & A' & X).
  unfold v, v' in A, A'. rewrite encoded_asks in A, A' by auto. injection A as <-. injection A' as <-.
  cbn [alike_requests] in X. destruct X as [Eb X]. split; [exact Eb|].
  rewrite !visible_op_of in X by auto. clear - X NA. revert os' X.
  induction NA as [|o os Ho Hos IH]; intros [|o' os'] X; cbn [map] in X; inversion X; subst; constructor; auto.
  now apply op_of_alike.
Qed.

Lemma transparent_same O o o' : transparent known o -> alike_encoded O known o o' -> o = o'.
Proof.
  destruct o, o'; cbn [transparent alike_encoded]; try tauto.
  - destruct params; [tauto|]. intros _ (-> & -> & -> & H). destruct params0; [destruct H|reflexivity].
  - intros T [-> H]. destruct delegate as [p|], delegate0 as [q|]; cbn [same_option] in H; try contradiction; [|reflexivity].
    do 2 f_equal. apply pkh_of_same. destruct H as [H|H]; [exact H|exact (T _ H)].
Qed.

Lemma transparent_looks C C' O f f' u u' es es' hw sh sh' dg dg' p p' branch branch' os os' :
  let v := VSign sh dg p (3 :: branch ++ flat_map enc_op os) in
  let v' := VSign sh' dg' p' (3 :: branch' ++ flat_map enc_op os') in
  oracles_ok O -> Forall up_fault_ok u -> Forall up_fault_ok u' -> Forall event_ok es -> Forall event_ok es' ->
  d_ui (snd (run C O (dev_fresh f u) es)) = Some v ->
  d_ui (snd (run C' O (dev_fresh f' u') es')) = Some v' ->
  List.length branch = 32%nat -> List.length branch' = 32%nat -> Forall op_ok os -> Forall op_ok os' ->
  Forall (transparent known) os -> Forall (fun o => ~ anonymous o) os' ->
  (List.length (batch_sheet branch (map op_of os)) < 256)%nat ->
  (List.length (batch_sheet branch' (map op_of os')) < 256)%nat ->
  look_the_same O known hw v v' -> shows_all O known hw v ->
  branch = branch' /\ os = os'.
Proof.
  intros v v' K U U' E E' V V' B B' H H' T NA' L L' Lk Sh.
  assert (NA : Forall (fun o => ~ anonymous o) os).
  { revert T. apply Forall_impl. intros o. destruct o; cbn [transparent anonymous]; tauto. }
  destruct (encoded_looks C C' O f f' u u' es es' hw sh sh' dg dg' p p' branch branch' os os'
              K U U' E E' V V' B B' H H' NA NA' L L' Lk Sh) as [Eb X].
  split; [exact Eb|]. clear - X T. induction X as [|o o' os os' Ho Hos IH]; [reflexivity|].
  f_equal; [exact (transparent_same O o o' (Forall_inv T) Ho)|exact (IH (Forall_inv_tail T))].
Qed.

(** ** What is not seen *)

Lemma named_lookup table p n : sorted table -> named table p n ->
  baker_lookup table (hash_prefix (fst p)) (snd p) = Some n.
Proof.
  intros St [(b & I1 & P & H) N]. pose proof (lookup_spec table (hash_prefix (fst p)) (snd p) St) as L.
  rewrite hash_prefix_kind in *. destruct (baker_lookup table _ (snd p)) as [n'|].
  - destruct L as (b' & I1' & K & <-). f_equal. apply N; [exact I1'|]. unfold bk_key in K. injection K as K1 K2. now split.
  - destruct (L b I1). unfold bk_key. now rewrite P, H.
Qed.

Lemma unseen_item O table ks o o' : sorted table -> unseen table o o' ->
  op_items (op_of o) = op_items (op_of o') /\
  forall n, op_item O table ks (op_of o) n = op_item O table ks (op_of o') n.
Proof.
  intros St [<-|H]; [auto|].
  destruct o as [m a d [[e c]|]|m d|e|e s| | | | | | | | |]; try contradiction;
  destruct o' as [m' a' d' [[e' c']|]|m' d'|e'|e' s'| | | | | | | | |]; try contradiction;
  try (destruct d as [p|], d' as [p'|]; contradiction); try (destruct d; contradiction).
  - destruct H as (-> & -> & -> & ->). auto.
  - destruct d as [p|], d' as [p'|]; try contradiction. destruct H as (-> & n & N & N').
    apply (named_lookup _ _ _ St) in N, N'. split; [reflexivity|]. intros k.
    cbn [op_of option_map op_item pkh_of fst snd] in *. now rewrite N, N'.
  - destruct H as (A & B & ->). cbn [op_of op_items op_item]. now rewrite A, B.
Qed.

Lemma unseen_pick O table ks os os' : sorted table -> Forall2 (unseen table) os os' -> forall n,
  match pick (map op_of os) n, pick (map op_of os') n with
  | Some (o, i), Some (o', i') => op_item O table ks o i = op_item O table ks o' i'
  | None, None => True
  | _, _ => False
  end.
Proof.
  intros St. induction 1 as [|o o' os os' Ho Hos IH]; intros n; cbn [map pick]; [exact Logic.I|]. cbv zeta.
  destruct (unseen_item O table ks o o' St Ho) as [E F]. rewrite E.
  destruct (n <? op_items (op_of o') mod 256); [apply F|apply IH].
Qed.

Lemma new_fuel l : batch_fuel (eo_new l) = S (List.length l).
Proof. reflexivity. Qed.

Lemma unseen_looks O table hw sh sh' dg dg' branch os os' data data' : sorted table ->
  List.length branch = 32%nat -> Forall op_ok os -> Forall op_ok os' -> Forall2 (unseen table) os os' ->
  look_the_same O table hw (VSign sh dg (operation_new (branch ++ flat_map enc_op os)) data)
                           (VSign sh' dg' (operation_new (branch ++ flat_map enc_op os')) data').
Proof.
  intros St L H H' U. split.
  - unfold operation_new. rewrite !take_app by (unfold len; lia). cbn [view_items].
    rewrite !new_fuel, (batch_decodes os H), (batch_decodes os' H'). do 3 f_equal.
    clear - O St U. induction U as [|o o' os os' Ho Hos IH]; [reflexivity|]. cbn [map fold_right].
    now rewrite IH, (proj1 (unseen_item O table 0%nat o o' St Ho)).
  - intros k page key out Hk Lk Lo. unfold view_render, operation_new. rewrite !take_app by (unfold len; lia).
    cbn [view_item]. destruct (N.of_nat k) as [|q]; [reflexivity|]. unfold batch_fuel.
    rewrite (find_op_pick _ _ _ _ (batch_decodes _ H)), (find_op_pick _ _ _ _ (batch_decodes _ H')).
    cbn [vbind]. pose proof (unseen_pick O table (key_size hw) os os' St U (N.pos q - 1)) as X.
    destruct (pick (map op_of os) (N.pos q - 1)) as [[o i]|], (pick (map op_of os') (N.pos q - 1)) as [[o' i']|];
      try contradiction; [now rewrite X|reflexivity].
Qed.

(** ** Cases *)

Definition data_is (v : option viewable) (data : bytes) : bool :=
  match v with
  | Some (VSign _ _ _ d) => bytes_eqb d data
  | _ => false
  end.
Lemma data_is_ok v data : data_is v data = true -> exists sh dg p, v = Some (VSign sh dg p data).
Proof.
  destruct v as [[]|]; cbn [data_is]; try discriminate. intros H. apply bytes_eqb_true in H. subst. eauto.
Qed.

(** A pending batch of the wallet. *)
Definition pends (os : list tz_op) : Prop :=
  Forall event_ok (sign_batch os) /\ exists sh dg,
  d_ui (snd (run wallet_config demo_oracles (dev_fresh [] []) (sign_batch os)))
  = Some (VSign sh dg (operation_new (demo_branch ++ flat_map enc_op os)) (3 :: demo_branch ++ flat_map enc_op os)).
Lemma pends_ok os : forallb event_okb (sign_batch os) = true ->
  data_is (d_ui (wallet_run (sign_batch os))) (3 :: demo_branch ++ flat_map enc_op os) = true -> pends os.
Proof.
  intros E D. apply events_okb_ok in E. split; [exact E|].
  apply data_is_ok in D as (sh & dg & p & V). exists sh, dg. unfold wallet_run in V. rewrite V.
  do 2 f_equal. now rewrite (pending_parsed _ _ _ _ _ _ _ _ _ E V).
Qed.

(** Every item is shown. *)
Definition shows_allb (hw : hardware) (v : viewable) : bool :=
  match view_items v with
  | VOk n =>
    forallb (fun k => match view_render demo_oracles known (key_size hw) v (N.of_nat k)
                              (zeros (key_size hw)) (zeros (N.to_nat (message_size hw))) 0 with
                      | VOk _ => true
                      | _ => false
                      end) (seq 0 (N.to_nat n))
  | _ => false
  end.
Lemma shows_allb_ok hw es rows : Forall event_ok es ->
  let ui := d_ui (wallet_run es) in ui = Some (view_or ui) -> view_sheet (view_or ui) = Some rows ->
  (List.length rows < 256)%nat -> shows_allb hw (view_or ui) = true -> shows_all demo_oracles known hw (view_or ui).
Proof.
  intros E ui V R L H. unfold shows_allb in H. intros k n key out En Hk Lk Lo. rewrite En in H.
  rewrite forallb_forall in H. specialize (H k). rewrite in_seq in H. specialize (H ltac:(lia)).
  destruct (pending_review_rows wallet_config demo_oracles [] [] es hw (view_or ui) rows demo_oracles_ok
              (Forall_nil _) E V R (sheet_fits _ _ R L) L) as [Ni Ri].
  rewrite Ni in En. injection En as En. unfold len in En. specialize (Ri k ltac:(lia)).
  destruct (nth_error rows k) as [r|] eqn:Er.
  - destruct Ri as [(h & t & ss & _ & _ & N0 & _ & Sh)|[_ X]].
    + destruct ss as [|s ss]; [contradiction|].
      destruct (Sh key out Lk Lo 0%nat s eq_refl) as (k1 & o1 & X & _). eauto.
    + rewrite X in H; [discriminate|apply zeros_length|unfold len; rewrite zeros_length; lia].
  - apply nth_error_None in Er. lia.
Qed.
Lemma sheet_short v n : sheet_length v = N.pos n -> N.pos n < 256 ->
  exists rows, v = Some (view_or v) /\ view_sheet (view_or v) = Some rows /\ (List.length rows < 256)%nat.
Proof.
  intros E L. destruct (sheet_length_some v n E) as (rows & R & Ln). exists rows.
  split; [exact (view_or_some v n E)|]. split; [exact R|]. unfold len in Ln. lia.
Qed.

Lemma small_batch_pends : pends small_batch.
Proof. apply pends_ok; vm_compute; reflexivity. Qed.
Lemma small_batch_length : sheet_length (d_ui (wallet_run (sign_batch small_batch))) = 17.
Proof. vm_compute. reflexivity. Qed.
Lemma small_batch_all hw : shows_all demo_oracles known hw (view_or (d_ui (wallet_run (sign_batch small_batch)))).
Proof.
  destruct (sheet_short _ _ small_batch_length ltac:(reflexivity)) as (rows & V & R & L).
  apply (shows_allb_ok hw _ rows (proj1 small_batch_pends) V R L). destruct hw; vm_compute; reflexivity.
Qed.

Ltac ops_ok :=
  repeat (first [apply Forall_nil | apply Forall_cons]);
  repeat match goal with
         | |- _ /\ _ => split
         | |- True => exact Logic.I
         | |- _ = _ => vm_compute; reflexivity
         | |- (_ < _)%N => vm_compute; reflexivity
         | |- (_ <= _)%Z => vm_compute; discriminate
         | |- (_ < _)%Z => vm_compute; reflexivity
         | |- op_ok ?o => let o' := eval hnf in o in change (op_ok o'); cbn [op_ok]
         | |- i32_ok _ => unfold i32_ok
         | |- size_ok _ => unfold size_ok
         | |- inlined_ok _ => unfold inlined_ok
         | |- params_ok _ => unfold params_ok; cbn [fst snd]
         | |- OperationsSpec.pkh_ok _ => unfold OperationsSpec.pkh_ok
         | |- contract_ok _ => cbn [contract_ok]
         | |- opt_ok _ _ => cbn [opt_ok]
         end.
Lemma small_batch_ok : Forall op_ok small_batch /\ Forall (transparent known) small_batch.
Proof.
  split.
  - ops_ok.
  - apply Forall_cons; [exact Logic.I|]. apply Forall_cons; [|apply Forall_nil].
    cbn [transparent demo_delegation]. intros q N. destruct (known_namesakes _ _ N) as [E|X]; [exact E|].
    destruct X as (a & b & Ia & _ & Ba & _ & Na & _). exfalso.
    assert (W : named known (pkh_of (mkPkh Tz1 everstake_hash)) (str "Everstake"))
      by (apply namedb_ok; vm_compute; reflexivity).
    rewrite (proj2 W a Ia Ba) in Na. revert Na. vm_compute. discriminate.
Qed.

(** A call of a contract, with this entrypoint. *)
Definition call_of (e : entrypoint) : tz_op :=
  TTransfer demo_man 5 (TzOriginated (repeat 3 20)) (Some (e, [2; 3; 11])).
Definition stake_call : tz_op := call_of (EpCustom (str "deposit")).
Definition drain_call : tz_op := call_of (EpCustom (str "withdraw_all")).
Definition japan_choice (p : tz_pkh) : tz_op := TDelegation demo_man (Some p).
Definition inner_of (signature : bytes) : tz_op := TEndorsementWithSlot (mkInl (repeat 1 32) 1331 signature) 7.

Lemma calls_pend : pends [stake_call] /\ pends [drain_call].
Proof. split; apply pends_ok; vm_compute; reflexivity. Qed.
Lemma delegations_pend : pends [japan_choice japan_1] /\ pends [japan_choice japan_2].
Proof. split; apply pends_ok; vm_compute; reflexivity. Qed.
Lemma inners_pend : pends [inner_of (repeat 5 64)] /\ pends [inner_of (repeat 6 64)].
Proof. split; apply pends_ok; vm_compute; reflexivity. Qed.

Lemma unseen_ok : Forall op_ok [stake_call; japan_choice japan_1; inner_of (repeat 5 64)] /\
  Forall op_ok [drain_call; japan_choice japan_2; inner_of (repeat 6 64)].
Proof. split; ops_ok. Qed.
Lemma unseen_case : Forall2 (unseen known)
  [stake_call; japan_choice japan_1; inner_of (repeat 5 64)] [drain_call; japan_choice japan_2; inner_of (repeat 6 64)].
Proof.
  apply Forall2_cons; [right; cbn [unseen stake_call drain_call call_of]; auto|].
  apply Forall2_cons; [|apply Forall2_cons; [right; cbn; auto|apply Forall2_nil]].
  right. cbn [japan_choice]. split; [reflexivity|]. exists (str "Tezos Japan"). exact japan_named.
Qed.

(** Two pending batches of the wallet with different messages and the same screens. *)
Definition same_screens (os os' : list tz_op) : Prop :=
  pends os /\ pends os' /\ flat_map enc_op os <> flat_map enc_op os' /\
  forall v v', d_ui (wallet_run (sign_batch os)) = Some v -> d_ui (wallet_run (sign_batch os')) = Some v' ->
  forall hw, look_the_same demo_oracles known hw v v'.
Lemma some_eq {A} (a b : A) : Some a = Some b -> a = b.
Proof. congruence. Qed.
Lemma same_screens_ok os os' : pends os -> pends os' -> bytes_eqb (flat_map enc_op os) (flat_map enc_op os') = false ->
  Forall op_ok os -> Forall op_ok os' -> Forall2 (unseen known) os os' -> same_screens os os'.
Proof.
  intros P P' D H H' U. split; [exact P|]. split; [exact P'|]. split.
  { intros E. apply bytes_eqb_true in E. congruence. }
  destruct P as [_ (sh & dg & V)], P' as [_ (sh' & dg' & V')]. unfold wallet_run. rewrite V, V'.
  intros v v' E E' hw. apply some_eq in E, E'. rewrite <- E, <- E'.
  exact (unseen_looks demo_oracles known hw sh sh' dg dg' demo_branch os os' _ _ known_sorted eq_refl H H' U).
Qed.
Lemma calls_same : same_screens [stake_call] [drain_call].
Proof.
  destruct unseen_ok as [A B]. pose proof unseen_case as U. inversion U; subst.
  apply same_screens_ok; [apply calls_pend|apply calls_pend|vm_compute; reflexivity| | |auto].
  - exact (Forall_cons _ (Forall_inv A) (Forall_nil _)).
  - exact (Forall_cons _ (Forall_inv B) (Forall_nil _)).
Qed.
Lemma delegations_same : same_screens [japan_choice japan_1] [japan_choice japan_2].
Proof.
  destruct unseen_ok as [A B]. apply Forall_inv_tail in A, B. pose proof unseen_case as U. inversion U as [|? ? ? ? _ U']; subst.
  inversion U'; subst.
  apply same_screens_ok; [apply delegations_pend|apply delegations_pend|vm_compute; reflexivity| | |auto].
  - exact (Forall_cons _ (Forall_inv A) (Forall_nil _)).
  - exact (Forall_cons _ (Forall_inv B) (Forall_nil _)).
Qed.
Lemma inners_same : same_screens [inner_of (repeat 5 64)] [inner_of (repeat 6 64)].
Proof.
  destruct unseen_ok as [A B]. do 2 apply Forall_inv_tail in A, B. pose proof unseen_case as U.
  inversion U as [|? ? ? ? _ U']; subst. inversion U' as [|? ? ? ? _ U'']; subst.
  apply same_screens_ok; [apply inners_pend|apply inners_pend|vm_compute; reflexivity|exact A|exact B|assumption].
Qed.
Lemma japan_shown :
  shown (sign_batch [japan_choice japan_1]) NanoS 3 0 = VOk (str "Delegation", str "Tezos Japan", 1) /\
  shown (sign_batch [japan_choice japan_2]) NanoS 3 0 = VOk (str "Delegation", str "Tezos Japan", 1).
Proof. split; vm_compute; reflexivity. Qed.
