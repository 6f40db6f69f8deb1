(** The operations made by the parsers are well-formed, and the reviews of the device
    follow their sheets. *)
From Coq Require Import NArith ZArith Bool Arith String List Lia.
From Coq Require Import ZifyBool ZifyNat ZifyN.
From Verif Require Import Base BaseFacts Codecs CodecsFacts Oracles Address AddressSpec AddressFacts
  Text TextSpec TextFacts Bakers BakersSpec BakersFacts
  Operations OperationsSpec OperationsFacts Device Screens ScreensSpec ScreensFacts.
Import ListNotations.
Open Scope string_scope.
Open Scope list_scope.
Open Scope N_scope.

(** ** What the parsers make *)

Definition yields {A} (P : A -> Prop) (p : bytes -> presult A) : Prop :=
  forall l rem a, bytes_ok l -> p l = POk rem a -> bytes_ok rem /\ P a.

Lemma yields_bind {A B} (P : A -> Prop) (Q : B -> Prop) p (k : A -> bytes -> presult B) :
  yields P p -> (forall a, P a -> yields Q (k a)) -> yields Q (fun l => pbind (p l) (fun rem a => k a rem)).
Proof.
  intros Hp Hk l rem b L E. destruct (p l) as [r a| |] eqn:E1; cbn [pbind] in E; try discriminate.
  destruct (Hp _ _ _ L E1) as [Lr Pa]. exact (Hk a Pa _ _ _ Lr E).
Qed.
Lemma yields_ret {A} (P : A -> Prop) a : P a -> yields P (fun l => POk l a).
Proof. intros H l rem b L E. injection E as <- <-. auto. Qed.
Lemma yields_err {A} (P : A -> Prop) : yields P (fun _ => PErr).
Proof. intros l rem b L E. discriminate. Qed.
Lemma yields_weak {A} (P Q : A -> Prop) p : (forall a, P a -> Q a) -> yields P p -> yields Q p.
Proof. intros H Hp l rem a L E. destruct (Hp _ _ _ L E). auto. Qed.
Lemma yields_take n : yields (hash_ok (N.to_nat n)) (take n).
Proof.
  intros l rem a L E. apply take_inv in E as [-> E]. apply bytes_ok_app in L as [L1 L2].
  split; [auto|]. split; [auto|]. unfold len in E. lia.
Qed.
Lemma yields_take' n : yields (fun a => bytes_ok a /\ len a = n) (take n).
Proof.
  intros l rem a L E. apply take_inv in E as [-> E]. apply bytes_ok_app in L as [L1 L2]. auto.
Qed.
Lemma yields_uint n : yields (fun v => v < 256 ^ n) (be_uint n).
Proof.
  apply (yields_bind _ _ (take n) (fun b rem => POk rem (unbe b)) (yields_take' n)).
  intros a [H <-]. apply yields_ret. unfold len. now apply unbe_lt.
Qed.
Lemma yields_any {A} (P : A -> Prop) p : yields P p -> yields (fun _ => True) p.
Proof. apply yields_weak. auto. Qed.

Lemma to_i32_ok n : n < 256 ^ 4 -> i32_ok (to_i32 n).
Proof. intros H. change (256 ^ 4) with (2 ^ 32) in H. unfold to_i32, i32_ok. destruct (n <? 2 ^ 31) eqn:E; lia. Qed.
Lemma yields_i32 : yields i32_ok be_i32.
Proof.
  apply (yields_bind _ _ be_u32 (fun n rem => POk rem (to_i32 n)) (yields_uint 4)).
  intros n H. apply yields_ret. now apply to_i32_ok.
Qed.

Lemma yields_pkh : yields (fun p => hash_ok 20 (snd p)) pkh_parse.
Proof.
  apply (yields_bind _ _ le_u8 (fun t rem => _) (yields_uint 1)). intros t _.
  apply (yields_bind _ _ (take 20) (fun h rem => _) (yields_take 20)). intros h H.
  destruct (curve_of_tag t); [now apply yields_ret|apply yields_err].
Qed.
Lemma yields_pk : yields (fun pk => hash_ok (match fst pk with Ed25519 | Bip32Ed25519 => 32 | _ => 33 end) (snd pk)) pk_parse.
Proof.
  apply (yields_bind _ _ le_u8 (fun t rem => _) (yields_uint 1)). intros t _.
  unfold curve_of_tag. destruct (t =? 0); [|destruct (t =? 1); [|destruct (t =? 2); [|apply yields_err]]].
  - apply (yields_bind _ _ (take 32) (fun h rem => _) (yields_take 32)). intros h H. now apply yields_ret.
  - apply (yields_bind _ _ (take 33) (fun h rem => _) (yields_take 33)). intros h H. now apply yields_ret.
  - apply (yields_bind _ _ (take 33) (fun h rem => _) (yields_take 33)). intros h H. now apply yields_ret.
Qed.
Lemma yields_zarith : yields natural (zarith_parse false).
Proof.
  intros l rem a L E. unfold zarith_parse in E.
  destruct (take (len (take_msb l) + 1) l) as [r b| |] eqn:T; cbn [pbind] in E; try discriminate.
  injection E as <- <-. apply take_inv in T as [-> T]. apply bytes_ok_app in L as [L1 L2].
  split; [auto|]. split; [reflexivity|]. cbn [z_bytes]. split; [|auto]. intros ->. unfold len in T. cbn in T. lia.
Qed.
Lemma yields_dyn : yields bytes_ok dyn_parse.
Proof.
  apply (yields_bind _ _ be_u32 (fun n rem => take n rem) (yields_uint 4)). intros n _.
  apply (yields_weak _ _ _ (fun a H => proj1 H) (yields_take n)).
Qed.
Lemma yields_boolean : yields (fun _ => True) boolean.
Proof. apply (yields_bind _ _ le_u8 (fun b rem => _) (yields_uint 1)). intros b _. now apply yields_ret. Qed.
Lemma yields_cond {A} (P : A -> Prop) b p : yields P p -> yields (opt_wf P) (cond b p).
Proof.
  intros H. unfold cond. destruct b; [|now apply yields_ret].
  apply (yields_bind _ _ p (fun x rem => POk rem (Some x)) H). intros a Ha. now apply yields_ret.
Qed.
Lemma yields_contract : yields (fun d => hash_ok 20 (match d with Implicit _ h | Originated h => h end)) contract_parse.
Proof.
  apply (yields_bind _ _ le_u8 (fun t rem => _) (yields_uint 1)). intros t _.
  destruct (t =? 0); [|destruct (t =? 1); [|apply yields_err]].
  - apply (yields_bind _ _ pkh_parse (fun p rem => match p with (c, h) => POk rem (Implicit c h) end) yields_pkh). intros [c h] H. now apply yields_ret.
  - apply (yields_bind _ _ (take 20) (fun h rem => _) (yields_take 20)). intros h H.
    apply (yields_bind _ _ (take 1) (fun _ rem => _) (yields_take 1)). intros _ _. now apply yields_ret.
Qed.

Lemma yields_entrypoint : yields (fun _ => True) entrypoint_parse.
Proof.
  apply (yields_bind _ _ le_u8 (fun t rem => _) (yields_uint 1)). intros t _.
  repeat match goal with |- yields _ (fun _ => if ?b then _ else _) => destruct b end;
    try (now apply yields_ret); [|apply yields_err].
  apply (yields_bind _ _ le_u8 (fun t rem => _) (yields_uint 1)). intros n _.
  apply (yields_bind _ _ (take n) (fun t rem => _) (yields_take n)). intros x _. now apply yields_ret.
Qed.
Lemma yields_params : yields (fun _ => True) params_parse.
Proof.
  apply (yields_bind _ _ entrypoint_parse (fun t rem => _) yields_entrypoint). intros e _.
  apply (yields_bind _ _ dyn_parse (fun t rem => _) yields_dyn). intros m _. now apply yields_ret.
Qed.
Lemma yields_manager : yields manager_wf manager_parse.
Proof.
  apply (yields_bind _ _ pkh_parse (fun t rem => _) yields_pkh). intros s Hs.
  do 4 (apply (yields_bind _ _ (zarith_parse false) (fun t rem => _) yields_zarith); intros ? ?).
  apply yields_ret. unfold manager_wf. auto.
Qed.
Lemma yields_inlined : yields (fun '(b, l, s) => hash_ok 32 b /\ i32_ok l) inlined_parse.
Proof.
  apply (yields_bind _ _ be_u32 (fun t rem => _) (yields_uint 4)). intros n _.
  apply (yields_bind _ _ (take 32) (fun t rem => _) (yields_take 32)). intros b Hb.
  apply (yields_bind _ _ le_u8 (fun t rem => _) (yields_uint 1)). intros t _.
  destruct (t =? 0); [|apply yields_err].
  intros l rem a L E. destruct (be_i32 l) as [r z| |] eqn:Z; cbn [pbind] in E; try discriminate.
  destruct (yields_i32 _ _ _ L Z) as [Lr Hz].
  destruct (n <? 33); [discriminate|]. destruct (n - 33 <? len l - len r); [discriminate|].
  destruct (take _ r) as [r2 s| |] eqn:T; cbn [pbind] in E; try discriminate. injection E as <- <-.
  destruct (yields_take _ _ _ _ Lr T) as [Lr2 _]. auto.
Qed.

Lemma chunks_ok n : forall l, bytes_ok l -> length l = (32 * n)%nat -> Forall (hash_ok 32) (chunks32 n l).
Proof.
  induction n as [|n IH]; intros l L H; cbn [chunks32]; constructor.
  - rewrite <- (firstn_skipn 32 l) in L. apply bytes_ok_app in L as [L _]. split; [auto|].
    rewrite firstn_length. lia.
  - apply IH; [|rewrite skipn_length; lia].
    rewrite <- (firstn_skipn 32 l) in L. now apply bytes_ok_app in L as [_ L].
Qed.

Lemma good_bytes {A} (p : bytes -> presult A) l rem a : good p -> bytes_ok l -> p l = POk rem a -> bytes_ok rem.
Proof.
  intros G L E. destruct (G l) as [_ G2]. destruct (G2 _ _ E) as (pre & -> & _).
  now apply bytes_ok_app in L as [_ L].
Qed.

Lemma op_parse_wf : yields op_wf op_parse.
Proof.
  apply (yields_bind _ _ le_u8 (fun t rem => _) (yields_uint 1)). intros t _.
  destruct (t =? 0). { apply (yields_bind _ _ be_i32 (fun t rem => _) yields_i32). intros z Hz. now apply yields_ret. }
  destruct ((t =? 1) || (t =? 2) || (t =? 3)).
  { intros l rem a L E. split; [exact (good_bytes _ _ _ _ (good_anonymous t) L E)|].
    unfold anonymous_parse in E. destruct (if t =? 1 then _ else _); cbn [pbind] in E; try discriminate.
    injection E as _ <-. exact Logic.I. }
  destruct (t =? 4).
  { apply (yields_bind _ _ (take 20) (fun t rem => _) (yields_take 20)). intros h H.
    apply (yields_bind _ _ (take 20) (fun t rem => _) (yields_take 20)). intros s Hs. now apply yields_ret. }
  destruct (t =? 5).
  { apply (yields_bind _ _ pkh_parse (fun t rem => _) yields_pkh). intros s Hs.
    apply (yields_bind _ _ be_i32 (fun t rem => _) yields_i32). intros z Hz.
    apply (yields_bind _ _ dyn_parse (fun t rem => _) yields_dyn). intros hs Hh.
    destruct (len hs mod 32 =? 0) eqn:M; [|apply yields_err]. apply yields_ret. split; [auto|]. split; [auto|].
    apply chunks_ok; [auto|]. unfold len in M. lia. }
  destruct (t =? 6).
  { apply (yields_bind _ _ pkh_parse (fun t rem => _) yields_pkh). intros s Hs.
    apply (yields_bind _ _ be_i32 (fun t rem => _) yields_i32). intros z Hz.
    apply (yields_bind _ _ (take 32) (fun t rem => _) (yields_take 32)). intros h Hh.
    apply (yields_bind _ _ le_u8 (fun t rem => _) (yields_uint 1)). intros v _.
    destruct (vote_of_byte v); [now apply yields_ret|apply yields_err]. }
  destruct (t =? 10).
  { apply (yields_bind _ _ inlined_parse (fun p rem => match p with (b, l, s) => _ end) yields_inlined). intros [[b l] s] [Hb Hl].
    apply (yields_bind _ _ be_u16 (fun t rem => _) (yields_uint 2)). intros n Hn.
    change (256 ^ 2) with (2 ^ 16) in Hn. now apply yields_ret. }
  destruct (t =? 17). { apply (yields_bind _ _ dyn_parse (fun t rem => _) yields_dyn). intros x _. now apply yields_ret. }
  destruct (t =? 107).
  { apply (yields_bind _ _ manager_parse (fun t rem => _) yields_manager). intros m Hm.
    apply (yields_bind _ _ pk_parse (fun t rem => _) yields_pk). intros k Hk. now apply yields_ret. }
  destruct (t =? 108).
  { apply (yields_bind _ _ manager_parse (fun t rem => _) yields_manager). intros m Hm.
    apply (yields_bind _ _ (zarith_parse false) (fun t rem => _) yields_zarith). intros a Ha.
    apply (yields_bind _ _ contract_parse (fun t rem => _) yields_contract). intros d Hd.
    apply (yields_bind _ _ boolean (fun t rem => _) yields_boolean). intros b _.
    apply (yields_bind _ _ (cond b params_parse) (fun t rem => _) (yields_cond _ b _ yields_params)). intros p _.
    now apply yields_ret. }
  destruct (t =? 109).
  { apply (yields_bind _ _ manager_parse (fun t rem => _) yields_manager). intros m Hm.
    apply (yields_bind _ _ (zarith_parse false) (fun t rem => _) yields_zarith). intros a Ha.
    apply (yields_bind _ _ boolean (fun t rem => _) yields_boolean). intros b _.
    apply (yields_bind _ _ (cond b pkh_parse) (fun t rem => _) (yields_cond _ b _ yields_pkh)). intros d Hd.
    apply (yields_bind _ _ dyn_parse (fun t rem => _) yields_dyn). intros c _.
    apply (yields_bind _ _ dyn_parse (fun t rem => _) yields_dyn). intros s _. now apply yields_ret. }
  destruct (t =? 110).
  { apply (yields_bind _ _ manager_parse (fun t rem => _) yields_manager). intros m Hm.
    apply (yields_bind _ _ boolean (fun t rem => _) yields_boolean). intros b _.
    apply (yields_bind _ _ (cond b pkh_parse) (fun t rem => _) (yields_cond _ b _ yields_pkh)). intros d Hd.
    now apply yields_ret. }
  intros l rem a L E. injection E as <- <-. split; [constructor|exact Logic.I].
Qed.

(** ** Batches *)

Lemma eo_all_wf fuel src n os : bytes_ok src -> (n <= length src)%nat -> eo_all fuel (mkOps src n) = AllOk os ->
  Forall op_wf os.
Proof.
  intros B. revert n os; induction fuel as [|fuel IH]; intros n os Hn E; cbn [eo_all] in E; [discriminate|].
  pose proof (eo_next_spec src n Hn) as K. destruct (eo_next (mkOps src n)) as [| | |o e]; try discriminate.
  - injection E as <-. constructor.
  - destruct K as (rem & P & Es & Er & Hr). destruct e as [src' n']. cbn [eo_source eo_read] in *. subst src'.
    destruct (eo_all fuel (mkOps src n')) as [| | |os'] eqn:E'; try discriminate. injection E as <-.
    constructor; [|apply (IH n'); [lia|auto]].
    apply (op_parse_wf (skipn n src) rem); [|auto].
    rewrite <- (firstn_skipn n src) in B. now apply bytes_ok_app in B as [_ B].
Qed.

(** The search over a list of operations. *)
Fixpoint pick (os : list op) (idx : N) : option (op * N) :=
  match os with
  | [] => None
  | o :: os' => let n := op_items o mod 256 in if idx <? n then Some (o, idx) else pick os' (idx - n)
  end.

Lemma find_op_pick fuel : forall e os idx, eo_all fuel e = AllOk os -> find_op fuel e idx = VOk (pick os idx).
Proof.
  induction fuel as [|fuel IH]; intros e os idx E; cbn [eo_all find_op] in *; [discriminate|].
  destruct (eo_next e) as [| | |o e']; try discriminate.
  - injection E as <-. reflexivity.
  - destruct (eo_all fuel e') as [| | |os'] eqn:E'; try discriminate. injection E as <-.
    cbn [pick]. cbv zeta. destruct (idx <? op_items o mod 256); [reflexivity|]. now apply IH.
Qed.

Lemma shown_rows_length o : length (shown_rows o) = N.to_nat (op_items o mod 256).
Proof.
  unfold shown_rows. rewrite firstn_length, op_items_sheet. pose proof (N.mod_le (len (sheet o)) 256 ltac:(lia)).
  unfold len in *. lia.
Qed.
Lemma shown_rows_nth o k r : nth_error (shown_rows o) k = Some r ->
  nth_error (sheet o) k = Some r /\ N.of_nat k < op_items o mod 256.
Proof.
  intros H. assert (k < length (shown_rows o))%nat by (apply nth_error_Some; congruence).
  rewrite shown_rows_length in *. split; [|lia]. unfold shown_rows in H. rewrite <- H. rewrite <- op_items_sheet.
  rewrite <- (firstn_skipn (N.to_nat (op_items o mod 256)) (sheet o)) at 1.
  apply nth_error_app1. pose proof (shown_rows_length o) as E. unfold shown_rows in E. rewrite <- op_items_sheet in E. lia.
Qed.

Lemma pick_rows os : forall k,
  match nth_error (flat_map shown_rows os) k with
  | Some r => exists o j, pick os (N.of_nat k) = Some (o, N.of_nat j) /\ In o os /\ nth_error (shown_rows o) j = Some r
  | None => pick os (N.of_nat k) = None
  end.
Proof.
  induction os as [|o os IH]; intros k; cbn [flat_map pick].
  - destruct k; reflexivity.
  - cbv zeta. pose proof (shown_rows_length o) as L.
    destruct (N.ltb_spec (N.of_nat k) (op_items o mod 256)) as [H|H].
    + rewrite nth_error_app1 by lia.
      destruct (nth_error (shown_rows o) k) as [r|] eqn:E.
      * exists o, k. split; [reflexivity|]. split; [now left|auto].
      * apply nth_error_None in E. lia.
    + rewrite nth_error_app2 by lia. specialize (IH (k - length (shown_rows o))%nat).
      replace (N.of_nat k - op_items o mod 256) with (N.of_nat (k - length (shown_rows o))) by lia.
      destruct (nth_error (flat_map shown_rows os) (k - length (shown_rows o))) as [r|]; [|auto].
      destruct IH as (o' & j & E1 & E2 & E3). exists o', j. split; [auto|]. split; [now right|auto].
Qed.

Lemma items_sum os : fold_right (fun o n => op_items o + n) 0 os = len (flat_map sheet os).
Proof.
  induction os as [|o os IH]; [reflexivity|]. cbn [fold_right flat_map].
  rewrite op_items_sheet, IH. unfold len. rewrite app_length. lia.
Qed.

(** ** Reviews *)

(** The announced number of items. *)
Lemma view_items_sheet v rows : view_sheet v = Some rows -> view_items v = VOk (len rows mod 256).
Proof.
  destruct v as [sh digest [[branch ops]|] data|sh digest branch o data|k a|a|wc k a|wa pk a|k main test chain a];
    cbn [view_sheet view_items]; intros E;
    try (injection E as <-; reflexivity).
  - unfold batch_fuel. destruct (eo_all _ ops) as [| | |os]; try discriminate. injection E as <-.
    rewrite items_sum. unfold batch_sheet, len. cbn [List.length]. f_equal. f_equal. lia.
  - injection E as <-. rewrite op_items_sheet. unfold batch_sheet, len. cbn [flat_map List.length].
    rewrite app_length. cbn [List.length]. f_equal. f_equal. lia.
Qed.

Lemma shown_sum os : len (flat_map shown_rows os) mod 256 = len (flat_map sheet os) mod 256.
Proof.
  induction os as [|o os IH]; [reflexivity|]. cbn [flat_map]. unfold len in *. rewrite !app_length, !Nat2N.inj_add.
  rewrite (N.add_mod _ (N.of_nat (length (flat_map shown_rows os)))), IH, <- N.add_mod by lia.
  rewrite (N.add_mod (N.of_nat (length (shown_rows o)))), (N.add_mod (N.of_nat (length (sheet o)))) by lia.
  f_equal. f_equal. pose proof (shown_rows_length o) as L. rewrite op_items_sheet in L. unfold len in L.
  rewrite L, N2Nat.id. apply N.mod_mod. lia.
Qed.

(** The announced number of items agrees with the rows shown. *)
Lemma view_items_shown v rows : view_shown v = Some rows -> view_items v = VOk (len rows mod 256).
Proof.
  destruct v as [sh digest [[branch ops]|] data|sh digest branch o data|k a|a|wc k a|wa pk a|k main test chain a];
    try apply view_items_sheet.
  cbn [view_shown]. intros E. set (v := VSign sh digest (Some (branch, ops)) data).
  destruct (eo_all _ ops) as [| | |os] eqn:EA; try discriminate. injection E as <-.
  rewrite (view_items_sheet v (batch_sheet branch os)) by (cbn [view_sheet v]; now rewrite EA).
  f_equal. unfold batch_sheet, len. cbn [length]. rewrite !Nat2N.inj_succ, <- !N.add_1_r.
  pose proof (shown_sum os) as X. unfold len in X. lia.
Qed.

(** Every operation has less than 256 rows; in a batch that fits the device this only
    excludes lists of proposals. *)
Definition rows_fit (os : list op) : Prop := Forall (fun o => (length (sheet o) < 256)%nat) os.
Lemma rows_fit_shown os : rows_fit os -> flat_map shown_rows os = flat_map sheet os.
Proof.
  induction 1 as [|o os Ho Hos IH]; [reflexivity|]. cbn [flat_map]. rewrite IH. f_equal. unfold shown_rows, len.
  rewrite N.mod_small by lia. rewrite Nat2N.id. apply firstn_all.
Qed.

(** Lists of proposals too long for a [u8] are not reviewed faithfully. *)
Definition view_fits (v : viewable) : Prop :=
  match v with
  | VSign _ _ (Some (_, ops)) _ => forall os, eo_all (S (length (eo_source ops))) ops = AllOk os -> rows_fit os
  | _ => True
  end.

Lemma view_fits_shown v : view_fits v -> view_shown v = view_sheet v.
Proof.
  destruct v as [? ? [[branch ops]|] ?| | | | | |]; try reflexivity. cbn [view_fits view_shown view_sheet]. intros F.
  destruct (eo_all _ ops) as [| | |os]; try reflexivity. now rewrite (rows_fit_shown os (F os eq_refl)).
Qed.

Lemma view_item_row O table ks v rows k r : oracles_ok O -> sorted table -> names_fit table -> (18 <= ks)%nat ->
  view_wf v -> view_shown v = Some rows -> nth_error rows k = Some r -> (k < 256)%nat ->
  exists i, view_item O table ks v (N.of_nat k) = VOk i /\ item_for O table r i.
Proof.
  intros K St F Hk W E H Hlt.
  destruct v as [sh digest [[branch ops]|] data|sh digest branch o data|kk a|a|wc kk a|wa pk a|kk main test chain a];
    cbn [view_shown view_sheet view_wf] in E, W.
  - destruct W as (Wb & Wo & W0). destruct ops as [src n]. cbn [eo_source eo_read] in *. subst n.
    destruct (eo_all _ (mkOps src 0)) as [| | |os] eqn:EA; try discriminate. injection E as <-.
    destruct k as [|k]; cbn [nth_error batch_sheet] in H; cbn [view_item].
    + eexists. split; [reflexivity|]. rows H; auto.
    + assert (Wos : Forall op_wf os) by (apply (eo_all_wf (S (length src)) src 0 os); auto; lia).
      pose proof (pick_rows os k) as P. rewrite H in P.
      destruct P as (o & j & P1 & P2 & P3).
      change (N.of_nat (S k)) with (N.pos (Pos.of_succ_nat k)). unfold batch_fuel. cbn [eo_source]. rewrite (find_op_pick _ _ _ _ EA).
      replace (N.pos (Pos.of_succ_nat k) - 1) with (N.of_nat k) by lia. rewrite P1. cbn [vbind].
      eexists. split; [reflexivity|].
      destruct (shown_rows_nth _ _ _ P3) as [P4 P5]. apply op_item_ok; auto.
      rewrite Forall_forall in Wos. now apply Wos.
  - injection E as <-. destruct k as [|k]; [|destruct k; discriminate H].
    cbn [nth_error] in H. eexists. split; [reflexivity|]. rows H. + apply W. + destruct W as [_ W]. rewrite W. right. lia.
  - destruct W as (Wb & Wo & Wr). injection E as <-.
    destruct k as [|k]; cbn [nth_error batch_sheet] in H; cbn [view_item].
    + eexists. split; [reflexivity|]. rows H; auto.
    + cbn [flat_map] in H. rewrite app_nil_r in H.
      change (N.of_nat (S k)) with (N.pos (Pos.of_succ_nat k)). replace (N.pos (Pos.of_succ_nat k) - 1) with (N.of_nat k) by lia.
      eexists. split; [reflexivity|]. apply op_item_ok; auto. rewrite op_items_sheet.
      apply nth_error_Some' in H. unfold len. rewrite N.mod_small; [lia|].
      destruct o as [| m [[? ?]|] | | | |m pk| | | | | |]; try contradiction; cbn [sheet limits app List.length] in *; lia.
  - injection E as <-. do 2 (destruct k as [|k]; [cbn [nth_error] in H; eexists; split; [reflexivity|]; rows H; auto|]).
    destruct k; discriminate H.
  - injection E as <-. do 2 (destruct k as [|k]; [cbn [nth_error] in H; eexists; split; [reflexivity|]; rows H; auto|]).
    destruct k; discriminate H.
  - injection E as <-. do 2 (destruct k as [|k]; [cbn [nth_error] in H; eexists; split; [reflexivity|]; rows H; auto|]).
    destruct k; discriminate H.
  - injection E as <-. do 1 (destruct k as [|k]; [cbn [nth_error] in H; eexists; split; [reflexivity|]; rows H; auto|]).
    destruct k; discriminate H.
  - destruct W as (Wa & Wm & Wt).
    injection E as <-. do 5 (destruct k as [|k]; [cbn [nth_error] in H; eexists; split; [reflexivity|]; rows H; auto|]).
    destruct k; discriminate H.
Qed.
