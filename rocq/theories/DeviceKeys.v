(** How the authorised key changes. *)
From Coq Require Import List NArith ZArith Lia Bool Arith ZifyBool ZifyNat ZifyN.
From Verif Require Import Base BaseFacts Flash FlashFacts Codecs CodecsSpec CodecsFacts
  Upload UploadSpec UploadFacts Baking BakingSpec Operations Oracles Address
  Device DeviceSpec DeviceFacts DeviceProofs DeviceSigs DeviceAnswers DeviceReviews.
Import ListNotations.
Open Scope N_scope.

(** ** Areas of one page *)

Definition one_page (w : wear) : Prop := length (w_pages w) = 1%nat.
(** What the page holds. *)
Definition page_data (w : wear) : option bytes :=
  match from_storage (nth 0 (w_pages w) []) with
  | Some (c, pl) => if c =? 0 then None else Some pl
  | None => None
  end.
Lemma one_page_no w k : one_page w -> page_no w k = 0%nat.
Proof. intros H. unfold page_no, len. rewrite H. change (N.of_nat 1) with 1. rewrite N.mod_1_r. reflexivity. Qed.
Lemma one_page_init w : one_page w -> from_storage (nth 0 (w_pages w) []) <> None -> exists k, wear_init w = Some k.
Proof.
  intros H F. unfold wear_init. destruct (w_idx w); [eauto|]. unfold align.
  revert H F. unfold one_page. destruct (w_pages w) as [|p [|]]; try discriminate.
  cbn [nth align_from]. intros _ F.
  destruct (from_storage p) as [[c pl]|]; [eauto|congruence].
Qed.
Lemma one_page_reads w pl : one_page w -> wear_read w = Some (RData pl) <-> page_data w = Some pl.
Proof.
  intros H. unfold page_data, wear_read. split.
  - destruct (wear_init w) as [k|]; [|discriminate]. unfold wear_read_at. rewrite one_page_no by exact H.
    destruct (from_storage _) as [[c p]|]; [|discriminate]. destruct (c =? 0); [discriminate|]. congruence.
  - intros E. destruct (one_page_init w H) as [k ->].
    + destruct (from_storage _); congruence.
    + unfold wear_read_at. rewrite one_page_no by exact H.
      destruct (from_storage _) as [[c p]|]; [|discriminate]. destruct (c =? 0); [discriminate|]. congruence.
Qed.

Lemma stored_key_pages d k : one_page (d_key d) ->
  stored_key d k <-> exists pl, page_data (d_key d) = Some pl /\ key_parse pl = AOk (Some k).
Proof.
  intros H. unfold stored_key. split; intros (p & E & K); exists p; split; auto; now apply one_page_reads.
Qed.
Lemma stored_key_same d d' k : one_page (d_key d) -> w_pages (d_key d') = w_pages (d_key d) ->
  stored_key d' k <-> stored_key d k.
Proof.
  intros H E. assert (H' : one_page (d_key d')) by (unfold one_page; congruence).
  rewrite !stored_key_pages by assumption. unfold page_data. now rewrite E.
Qed.

(** ** Bounded counters *)

Definition small (B : N) (w : wear) : Prop :=
  (forall k, w_idx w = Some k -> k <= B) /\
  Forall (fun p => forall c pl, from_storage p = Some (c, pl) -> c <= B) (w_pages w).
Lemma small_init B w k : small B w -> wear_init w = Some k -> k <= B.
Proof.
  intros [H1 H2]. unfold wear_init. destruct (w_idx w) as [k'|]; [intros E; injection E as <-; auto|].
  intros E. apply align_from_spec in E as (_ & _ & [->|(i & p & pl & Hn & Hp)] & _); [lia|].
  rewrite Forall_forall in H2. eapply H2; [|exact Hp]. now apply nth_error_In in Hn.
Qed.
Lemma small_page B c pl : c <= B -> B < 2 ^ 64 -> payload_ok pl ->
  forall c' pl', from_storage (slot_page c pl) = Some (c', pl') -> c' <= B.
Proof. intros H HB Hp c' pl' E. rewrite from_storage_slot_page in E by (auto; lia). injection E as <- _. exact H. Qed.

Lemma small_write B w k pl f : small B w -> B + 1 < 2 ^ 64 -> payload_ok pl -> detected_fault f ->
  wear_init w = Some k ->
  let (w1, r) := wear_write_at w k pl f in small (B + 1) (match r with WLost => wear_restart w1 | _ => w1 end).
Proof.
  intros S HB Hp Hf I. pose proof (small_init B w k S I) as Hk. destruct S as [S1 S2].
  unfold wear_write_at. cbn zeta. rewrite N.mod_small by lia.
  assert (S2' : Forall (fun p => forall c pl, from_storage p = Some (c, pl) -> c <= B + 1) (w_pages w)).
  { eapply Forall_impl; [|exact S2]. cbn beta. intros p H c pl' E. specialize (H c pl' E). lia. }
  assert (P : Forall (fun p => forall c pl, from_storage p = Some (c, pl) -> c <= B + 1)
     (upd (page_no w (k + 1)) (fault_page (nth (page_no w (k + 1)) (w_pages w) []) (slot_page (k + 1) pl) f) (w_pages w))).
  { assert (Q : forall t, slot_tear_ok t -> Forall (fun p => forall c pl, from_storage p = Some (c, pl) -> c <= B + 1)
       (upd (page_no w (k + 1)) (tear_page (nth (page_no w (k + 1)) (w_pages w) []) (slot_page (k + 1) pl) t) (w_pages w))).
    { intros [| |p] Ht; cbn [tear_page slot_tear_ok] in *.
      - now rewrite upd_same_nth.
      - apply Forall_upd; [exact S2'|]. apply small_page; auto; lia.
      - apply Forall_upd; [exact S2'|]. intros c pl' E. congruence. }
    destruct f as [|t|t]; cbn [fault_page]; [|now apply Q..].
    apply Forall_upd; [exact S2'|]. apply small_page; auto; lia. }
  destruct (fault_res f); split; cbn [w_pages w_idx wear_restart]; auto; try discriminate;
    intros k' E; injection E as <-; lia.
Qed.
Lemma small_fresh n : small 0 (wear_fresh n).
Proof.
  split; [discriminate|]. apply Forall_forall. intros p Hp. apply repeat_spec in Hp as ->.
  intros c pl E. rewrite zeroed_storage_valid in E. injection E as <- _. lia.
Qed.
Lemma reach_small C O f u es : Forall detected_fault f -> Forall up_fault_ok u -> Forall event_ok es ->
  len es < 2 ^ 64 -> dok small detected_fault (fun _ => len es) (snd (run C O (dev_fresh f u) es)).
Proof.
  intros F U E L. apply (run_dok C O small detected_fault) with (B := 0); auto.
  - intros B B' w H [S1 S2]. split; [intros k Hk; specialize (S1 k Hk); lia|].
    eapply Forall_impl; [|exact S2]. cbn beta. intros p P c pl Ep. specialize (P c pl Ep). lia.
  - intros B w [S1 S2]. split; [discriminate|exact S2].
  - intros B w w' [P I] S. split.
    + intros k Hk. apply (small_init B w k S). rewrite <- I. unfold wear_init. now rewrite Hk.
    + rewrite P. apply S.
  - exact small_write.
  - exact Logic.I.
  - apply dok_fresh; auto using small_fresh.
Qed.

Section Keys.
  Variable C : config.
  Variable O : oracles.

  Lemma frame_pages E d d' : ~ e_slot E SKey -> frame E d d' -> w_pages (d_key d') = w_pages (d_key d).
  Proof. intros H F. exact (proj1 (fr_slot _ _ _ F SKey H)). Qed.
  Lemma finish_pages room x : w_pages (d_key (snd (finish room x))) = w_pages (d_key (snd x)).
  Proof.
    destruct x as [[[data|]|e| |] d]; cbn; auto;
      match goal with |- context [if ?b then _ else _] => destruct b end; cbn; auto.
  Qed.
  Lemma decide_pages f d :
    (forall v room, d_ui d = Some v -> w_pages (d_key (snd (f v room (set_ui None d)))) = w_pages (d_key d)) ->
    w_pages (d_key (snd (decide C f d))) = w_pages (d_key d).
  Proof.
    intros H. unfold decide. destruct (d_ui d) as [v|]; [|reflexivity].
    rewrite finish_pages. specialize (H v (match cf_room C v with Some r => r | None => 0 end) eq_refl).
    unfold bind. destruct (f v _ (set_ui None d)) as [[]]; exact H.
  Qed.

  Lemma dispatch_pages buf d : w_pages (d_key (snd (dispatch C O buf d))) = w_pages (d_key d).
  Proof.
    destruct (dispatch_kinds C O buf) as [(_ & _ & _ & ->)|[(_ & _ & _ & sh & ->)|[(_ & sh & ->)|[K _]]]].
    - apply (frame_pages eff_reset); [cbn; tauto|apply keeps_reset].
    - apply (frame_pages (eff_with_up eff_baker)); [cbn; discriminate|apply keeps_h_baker_sign].
    - apply (frame_pages (eff_with_up eff_sign)); [cbn; tauto|apply keeps_h_sign].
    - apply (frame_pages (eff_other C buf)); [cbn; tauto|apply K].
  Qed.

  (** Only the approval of a request about the key writes its page. *)
  Lemma step_pages d e : key_decision d e = None ->
    w_pages (d_key (snd (step C O d e))) = w_pages (d_key d).
  Proof.
    intros K. destruct e as [buf rx| | | |]; cbn [step].
    - destruct (d_ui d); [reflexivity|]. rewrite finish_pages.
      destruct (apdu_read_ok buf rx); [apply dispatch_pages|reflexivity].
    - apply decide_pages. intros v room U. cbn [key_decision] in K. rewrite U in K.
      transitivity (w_pages (d_key (set_ui None d))); [|destruct d; reflexivity].
      apply (frame_pages (eff_accept v)); [destruct v; cbn; tauto || discriminate|apply keeps_accept].
    - apply decide_pages. intros v room U. destruct v; destruct d; reflexivity.
    - apply decide_pages. intros v room U. destruct d; reflexivity.
    - reflexivity.
  Qed.

  (** What such an approval does. *)
  Definition payload_of (o : option key) : bytes :=
    match o with Some k => key_serialize k | None => key_empty end.
  Lemma payload_of_ok o : payload_ok (payload_of o).
  Proof. destruct o; [apply key_payload|exact key_empty_ok]. Qed.

  Definition key_written {A} (d : dev) (pl : bytes) (x : outcome A * dev) : Prop :=
    (w_pages (d_key (snd x)) = w_pages (d_key d) /\ forall a, fst x <> Ok a) \/
    exists k, wear_init (d_key d) = Some k /\
      let f := fst (next_fault (d_faults d)) in
      let k' := (k + 1) mod 2 ^ 64 in
      let i := page_no (d_key d) k' in
      w_pages (d_key (snd x)) = upd i (fault_page (nth i (w_pages (d_key d)) []) (slot_page k' pl) f) (w_pages (d_key d)) /\
      ((exists a, fst x = Ok a) -> f = WOk).

  Lemma write_key pl e d : key_written d pl (write_or SKey pl e d).
  Proof.
    unfold write_or, write_slot, bind. cbn [get_slot].
    destruct (wear_init (d_key d)) as [k|] eqn:I; [|left; split; [reflexivity|discriminate]].
    right. exists k. split; [exact I|]. cbv zeta.
    destruct (next_fault (d_faults d)) as [f fs]. cbn [fst]. unfold wear_write_at.
    destruct d. destruct f as [|t|t]; cbn [fault_res fault_page]; cbn; (split; [reflexivity|]);
      intros [a Ha]; try discriminate; reflexivity.
  Qed.

  Lemma key_written_bind {A B} d pl (m : M A) (f : A -> M B) : key_written d pl (m d) ->
    (forall a d1, w_pages (d_key (snd (f a d1))) = w_pages (d_key d1)) -> key_written d pl (bind m f d).
  Proof.
    intros [[H1 H2]|(k & H1 & H2 & H3)] Hf; unfold bind in *.
    - left. destruct (m d) as [[a|e| |] d1]; cbn [fst snd] in *; try (split; [exact H1|discriminate]).
      now destruct (H2 a).
    - right. exists k. split; [exact H1|]. cbv zeta in *.
      destruct (m d) as [[a|e| |] d1]; cbn [fst snd] in *; try (split; [exact H2|intros [b Hb]; discriminate]).
      rewrite Hf. split; [exact H2|]. intros _. apply H3. eauto.
  Qed.

  Lemma accept_key v room d : match key_decision (set_ui (Some v) d) EApprove with
    | Some o => key_written d (payload_of o) (accept O v room d) /\
                (forall e, fst (accept O v room d) = Err e -> e = ExecutionError \/ e = Busy)
    | None => True
    end.
  Proof.
    assert (E : forall s pl e d x, fst (write_or s pl e d) = Err x -> x = e).
    { clear. intros s pl e d x. unfold write_or, bind, write_slot.
      destruct (wear_init (get_slot s d)) as [k|]; [|discriminate].
      destruct (next_fault (d_faults d)) as [f fs]. destruct (wear_write_at _ k pl f) as [w []]; cbn; congruence. }
    assert (Pg : forall s pl e d, s <> SKey -> w_pages (d_key (snd (write_or s pl e d))) = w_pages (d_key d)).
    { intros s pl e d1 N.
      apply (frame_pages (mkEff (fun x => x = s) (fun _ => False) False False (fun _ => False))).
      - cbn. congruence.
      - apply keeps_write_or. reflexivity. }
    assert (Kd : key_decision (set_ui (Some v) d) EApprove =
       match v with VAuthorize k _ | VSetup k _ _ _ _ => Some (Some k) | VDeauthorize _ => Some None | _ => None end).
    { destruct d, v; reflexivity. }
    rewrite Kd. clear Kd. destruct v; try exact Logic.I; cbn [accept payload_of].
    - unfold pubkey. destruct (o_pubkey O (fst k) (snd k)) as [pk|]; cbn [of_option];
        [|split; [left; split; [reflexivity|discriminate]|intros e X; left; cbn in X; congruence]].
      unfold bind at 1 3. unfold ret at 1 3. unfold store_baking_key. split.
      + apply key_written_bind; [apply write_key|reflexivity].
      + intros e. unfold bind. specialize (E SKey (key_serialize k) ExecutionError d).
        destruct (write_or SKey _ ExecutionError d) as [[[]|x| |] d1]; cbn [fst] in *; try discriminate.
        intros X. injection X as ->. left. now apply E.
    - unfold remove_baking_key. split.
      + apply key_written_bind; [apply write_key|reflexivity].
      + intros e. unfold bind. specialize (E SKey key_empty ExecutionError d).
        destruct (write_or SKey _ ExecutionError d) as [[[]|x| |] d1]; cbn [fst] in *; try discriminate.
        intros X. injection X as ->. left. now apply E.
    - unfold pubkey. destruct (o_pubkey O (fst k) (snd k)) as [pk|]; cbn [of_option];
        [|split; [left; split; [reflexivity|discriminate]|intros e X; left; cbn in X; congruence]].
      unfold bind at 1 6. unfold ret at 1 3. unfold store_baking_key. split.
      + apply key_written_bind; [apply write_key|]. intros _ d1. unfold bind.
        pose proof (Pg SMain (wm_serialize (wm_reset main false)) Busy d1 ltac:(discriminate)) as P1.
        destruct (write_or SMain _ Busy d1) as [[[]|x| |] d2]; cbn [snd] in *; try exact P1.
        rewrite <- P1. clear P1.
        pose proof (Pg STest (wm_serialize (wm_reset test false)) Busy d2 ltac:(discriminate)) as P1.
        destruct (write_or STest _ Busy d2) as [[[]|x| |] d3]; cbn [snd] in *; try exact P1.
        rewrite <- P1. clear P1.
        pose proof (Pg SChain (pad_to 52 (be 4 (u32_of_chain chain))) Busy d3 ltac:(discriminate)) as P1.
        destruct (write_or SChain _ Busy d3) as [[[]|x| |] d4]; cbn [snd] in *; exact P1.
      + intros e. unfold bind.
        pose proof (E SKey (key_serialize k) ExecutionError d) as E1.
        destruct (write_or SKey _ ExecutionError d) as [[[]|x| |] d1]; cbn [fst] in *; try discriminate.
        2:{ intros X. injection X as ->. left. now apply E1. }
        pose proof (E SMain (wm_serialize (wm_reset main false)) Busy d1) as E2.
        destruct (write_or SMain _ Busy d1) as [[[]|x| |] d2]; cbn [fst] in *; try discriminate.
        2:{ intros X. injection X as ->. right. now apply E2. }
        pose proof (E STest (wm_serialize (wm_reset test false)) Busy d2) as E3.
        destruct (write_or STest _ Busy d2) as [[[]|x| |] d3]; cbn [fst] in *; try discriminate.
        2:{ intros X. injection X as ->. right. now apply E3. }
        pose proof (E SChain (pad_to 52 (be 4 (u32_of_chain chain))) Busy d3) as E4.
        destruct (write_or SChain _ Busy d3) as [[[]|x| |] d4]; cbn [fst] in *; try discriminate.
        intros X. injection X as ->. right. now apply E4.
  Qed.

  Lemma last_two (l m : bytes) a b c d : l ++ [a; b] = m ++ [c; d] -> b = d /\ a = c.
  Proof.
    change (l ++ [a] ++ [b] = m ++ [c] ++ [d] -> b = d /\ a = c). rewrite !app_assoc. intros H.
    apply app_inj_tail in H as [H ->]. apply app_inj_tail in H as [_ ->]. auto.
  Qed.

  Lemma step_key d e o : key_decision d e = Some o ->
    w_pages (d_key (snd (step C O d e))) = w_pages (d_key d) /\ ~ succeeds (fst (step C O d e)) \/
    exists k, wear_init (d_key d) = Some k /\
      let f := fst (next_fault (d_faults d)) in
      let k' := (k + 1) mod 2 ^ 64 in
      let i := page_no (d_key d) k' in
      w_pages (d_key (snd (step C O d e))) =
        upd i (fault_page (nth i (w_pages (d_key d)) []) (slot_page k' (payload_of o)) f) (w_pages (d_key d)) /\
      (succeeds (fst (step C O d e)) -> f = WOk).
  Proof.
    intros K. assert (e = EApprove) as -> by (destruct e; try discriminate; reflexivity).
    cbn [step]. unfold decide. cbn [key_decision] in K. destruct (d_ui d) as [v|] eqn:U; [|discriminate].
    set (room := match cf_room C v with Some r => r | None => 0 end).
    pose proof (accept_key v room (set_ui None d)) as A.
    assert (Kd : key_decision (set_ui (Some v) (set_ui None d)) EApprove = Some o).
    { destruct d. cbn. exact K. }
    rewrite Kd in A. destruct A as [A1 A2].
    rewrite finish_pages.
    set (d0 := set_ui None d) in *.
    assert (E1 : d_key d0 = d_key d) by (destruct d; reflexivity).
    assert (E2 : d_faults d0 = d_faults d) by (destruct d; reflexivity).
    unfold key_written in A1. rewrite E1, E2 in A1.
    assert (B : snd (bind (accept O v room) (fun out => ret (Now out)) d0) = snd (accept O v room d0)).
    { unfold bind. destruct (accept O v room d0) as [[]]; reflexivity. }
    rewrite B.
    assert (S : succeeds (fst (finish room (bind (accept O v room) (fun out => ret (Now out)) d0))) ->
                exists a, fst (accept O v room d0) = Ok a).
    { intros [data S]. unfold bind in S. destruct (accept O v room d0) as [[a|x| |] d1]; cbn [fst finish] in *.
      - eauto.
      - exfalso. destruct (room <? len [] + 2); cbn [fst] in S; [discriminate|].
        injection S as S. destruct (A2 x eq_refl) as [-> | ->]; cbn in S;
          apply (last_two [] data) in S as [S1 S2]; discriminate.
      - discriminate.
      - discriminate. }
    destruct A1 as [[H1 H2]|(k & H1 & H2 & H3)].
    - left. split; [exact H1|]. intros X. destruct (S X) as [a Ha]. now apply (H2 a).
    - right. exists k. split; [exact H1|]. cbv zeta in *. split; [exact H2|]. intros X. apply H3, S, X.
  Qed.

  Lemma step_one_page d e : one_page (d_key d) -> one_page (d_key (snd (step C O d e))).
  Proof.
    intros H. destruct (key_decision d e) as [o|] eqn:K.
    - destruct (step_key d e o K) as [[E _]|(k & _ & E & _)];
        unfold one_page; rewrite E; [exact H|]. cbv zeta. now rewrite upd_length.
    - unfold one_page. now rewrite step_pages.
  Qed.
  Lemma run_one_page es : forall d, one_page (d_key d) -> one_page (d_key (snd (run C O d es))).
  Proof.
    induction es as [|e es IH]; intros d H; cbn [run]; auto.
    pose proof (step_one_page d e H) as H1. destruct (step C O d e) as [a d1]. cbn [snd] in H1.
    specialize (IH d1 H1). destruct (run C O d1 es). exact IH.
  Qed.
  Lemma reach_one_page f u es : one_page (d_key (snd (run C O (dev_fresh f u) es))).
  Proof. apply run_one_page. reflexivity. Qed.

  (** C10: without an approval about it, the key stays; whatever the flash does. *)
  Lemma key_stays f u es e k : let d := snd (run C O (dev_fresh f u) es) in
    key_decision d e = None -> stored_key (snd (step C O d e)) k <-> stored_key d k.
  Proof. intros d K. apply stored_key_same; [apply reach_one_page|now apply step_pages]. Qed.

  (** The page after an approval. *)
  Lemma key_page B d e o : one_page (d_key d) -> dok small detected_fault (fun _ => B) d -> B + 1 < 2 ^ 64 ->
    key_decision d e = Some o ->
    let d' := snd (step C O d e) in
    (page_data (d_key d') = Some (payload_of o)) \/
    (w_pages (d_key d') = w_pages (d_key d) /\ ~ succeeds (fst (step C O d e))) \/
    (page_data (d_key d') = None /\ ~ succeeds (fst (step C O d e))).
  Proof.
    intros H D HB K. cbv zeta. destruct (step_key d e o K) as [[E N]|(k & I & E & S)]; [auto|].
    cbv zeta in E, S. rewrite one_page_no in E by exact H.
    pose proof (small_init _ _ _ (dok_wf _ _ _ _ D SKey) I) as Hk. rewrite N.mod_small in E by lia.
    assert (Hf : detected_fault (fst (next_fault (d_faults d)))).
    { pose proof (dok_faults _ _ _ _ D) as F. destruct (d_faults d); [exact Logic.I|]. now inversion F. }
    set (f := fst (next_fault (d_faults d))) in *. clearbody f.
    assert (P : page_data (d_key (snd (step C O d e))) =
       match from_storage (fault_page (nth 0 (w_pages (d_key d)) []) (slot_page (k + 1) (payload_of o)) f) with
       | Some (c, pl) => if c =? 0 then None else Some pl | None => None end).
    { unfold page_data. rewrite E. revert H. unfold one_page.
      destruct (w_pages (d_key d)) as [|p [|]]; try discriminate. reflexivity. }
    assert (New : page_data (d_key (snd (step C O d e))) =
       match from_storage (slot_page (k + 1) (payload_of o)) with
       | Some (c, pl) => if c =? 0 then None else Some pl | None => None end ->
       page_data (d_key (snd (step C O d e))) = Some (payload_of o)).
    { intros ->. rewrite from_storage_slot_page by (auto using payload_of_ok; lia).
      now replace (k + 1 =? 0) with false by lia. }
    assert (T : forall t, fault_page (nth 0 (w_pages (d_key d)) []) (slot_page (k + 1) (payload_of o)) f =
                  tear_page (nth 0 (w_pages (d_key d)) []) (slot_page (k + 1) (payload_of o)) t ->
                slot_tear_ok t -> f <> WOk ->
       page_data (d_key (snd (step C O d e))) = Some (payload_of o) \/
       (w_pages (d_key (snd (step C O d e))) = w_pages (d_key d) /\ ~ succeeds (fst (step C O d e))) \/
       (page_data (d_key (snd (step C O d e))) = None /\ ~ succeeds (fst (step C O d e)))).
    { intros t Et Ht Nf. rewrite Et in E, P. destruct t as [| |p]; cbn [tear_page slot_tear_ok] in *.
      - right; left. rewrite upd_same_nth in E. split; [exact E|]. intros X. apply Nf, S, X.
      - left. now apply New.
      - right; right. rewrite Ht in P. split; [exact P|]. intros X. apply Nf, S, X. }
    destruct f as [|t|t]; cbn [fault_page detected_fault] in *.
    - left. now apply New.
    - apply (T t); auto. discriminate.
    - apply (T t); auto. discriminate.
  Qed.

  Lemma run_len (es : list event) e : len (es ++ [e]) = len es + 1.
  Proof. unfold len. rewrite app_length. cbn. lia. Qed.

  (** A key approved with success is the stored one; a removed key is gone. *)
  Lemma key_approved f u es k : Forall detected_fault f -> Forall up_fault_ok u -> Forall event_ok es ->
    len es + 1 < 2 ^ 64 ->
    let d := snd (run C O (dev_fresh f u) es) in
    key_decision d EApprove = Some (Some k) -> succeeds (fst (step C O d EApprove)) ->
    stored_key (snd (step C O d EApprove)) k.
  Proof.
    intros F U E L d K S. pose proof (reach_one_page f u es) as H.
    pose proof (reach_small C O f u es F U E ltac:(lia)) as D. fold d in H, D.
    apply stored_key_pages; [now apply step_one_page|].
    destruct (key_page _ d EApprove _ H D L K) as [P|[[_ N]|[_ N]]]; [|contradiction..].
    exists (key_serialize k). split; [exact P|]. apply key_round.
    pose proof (reach_ui C O f u es E) as V. fold d in V. unfold ui_ok in V.
    cbn [key_decision] in K. destruct (d_ui d) as [v|]; [|discriminate]. specialize (V v eq_refl).
    destruct v; try discriminate; injection K as ->; apply V.
  Qed.

  Lemma key_removed f u es : Forall detected_fault f -> Forall up_fault_ok u -> Forall event_ok es ->
    len es + 1 < 2 ^ 64 ->
    let d := snd (run C O (dev_fresh f u) es) in
    key_decision d EApprove = Some None -> succeeds (fst (step C O d EApprove)) ->
    page_data (d_key (snd (step C O d EApprove))) = Some key_empty.
  Proof.
    intros F U E L d K S. pose proof (reach_one_page f u es) as H.
    pose proof (reach_small C O f u es F U E ltac:(lia)) as D. fold d in H, D.
    destruct (key_page _ d EApprove _ H D L K) as [P|[[_ N]|[_ N]]]; [exact P|contradiction..].
  Qed.

  (** The stored key was asked for, shown and approved, and no later approval about the
      key succeeded. *)
  Lemma key_origin f u es k : Forall detected_fault f -> Forall up_fault_ok u -> Forall event_ok es ->
    len es < 2 ^ 64 -> stored_key (snd (run C O (dev_fresh f u) es)) k ->
    exists es1 e es2 es3 v, es = es1 ++ (e :: es2) ++ EApprove :: es3 /\
      authorises k v /\ Forall is_apdu es2 /\
      let d := snd (run C O (dev_fresh f u) es1) in
      let d' := snd (step C O d e) in
      fst (step C O d e) = APending /\ d_ui d' = Some v /\ requested C O d e d' v /\
      (forall es4 e' es5 o, es3 = es4 ++ e' :: es5 ->
         let d3 := snd (run C O (dev_fresh f u) (es1 ++ (e :: es2) ++ EApprove :: es4)) in
         key_decision d3 e' = Some o -> ~ succeeds (fst (step C O d3 e'))).
  Proof.
    intros F U. induction es as [|e es IH] using rev_ind; intros E L K.
    - exfalso. apply stored_key_pages in K as (pl & P & _); [|reflexivity].
      unfold page_data in P. cbn [run snd d_key dev_fresh w_pages wear_fresh repeat nth] in P.
      rewrite zeroed_storage_valid in P. discriminate.
    - apply Forall_app in E as [E E1]. inversion E1 as [|? ? He _]; subst.
      rewrite run_len in L. rewrite run_app, run_one in K.
      pose proof (reach_one_page f u es) as H.
      pose proof (reach_small C O f u es F U E ltac:(lia)) as D.
      set (d := snd (run C O (dev_fresh f u) es)) in *.
      assert (Ext : stored_key d k -> (forall o, key_decision d e = Some o -> ~ succeeds (fst (step C O d e))) ->
        exists es1 e0 es2 es3 v, es ++ [e] = es1 ++ (e0 :: es2) ++ EApprove :: es3 /\
          authorises k v /\ Forall is_apdu es2 /\
          let d := snd (run C O (dev_fresh f u) es1) in
          let d' := snd (step C O d e0) in
          fst (step C O d e0) = APending /\ d_ui d' = Some v /\ requested C O d e0 d' v /\
          (forall es4 e' es5 o, es3 = es4 ++ e' :: es5 ->
             let d3 := snd (run C O (dev_fresh f u) (es1 ++ (e0 :: es2) ++ EApprove :: es4)) in
             key_decision d3 e' = Some o -> ~ succeeds (fst (step C O d3 e')))).
      { intros K' N. destruct (IH E ltac:(lia) K') as (es1 & e0 & es2 & es3 & v & Ees & A & I & P1 & P2 & P3 & P4).
        exists es1, e0, es2, (es3 ++ [e]), v.
        split; [rewrite Ees, <- !app_assoc; reflexivity|]. split; [exact A|]. split; [exact I|].
        cbv zeta. split; [exact P1|]. split; [exact P2|]. split; [exact P3|].
        intros es4 e' es5 o X. destruct es5 as [|y es5] using rev_ind.
        - apply app_inj_tail in X as [<- <-]. rewrite <- Ees. apply N.
        - clear IHes5. rewrite app_comm_cons, app_assoc in X. apply app_inj_tail in X as [X _].
          exact (P4 es4 e' es5 o X). }
      destruct (key_decision d e) as [o|] eqn:Kd.
      + destruct (key_page _ d e o H D ltac:(lia) Kd) as [P|[[P N]|[P N]]].
        * apply stored_key_pages in K as (pl & Pk & K); [|now apply step_one_page].
          rewrite P in Pk. injection Pk as <-.
          assert (e = EApprove) as -> by (destruct e; try discriminate; reflexivity).
          cbn [key_decision] in Kd. destruct (d_ui d) as [v|] eqn:Ud; [|discriminate].
          pose proof (reach_ui C O f u es E v Ud) as V.
          destruct (pending_origin C O es (dev_fresh f u) v E eq_refl Ud) as (es1 & e0 & es2 & Ees & I & Q1 & Q2).
          fold d in Q1, Q2. cbv zeta in Q1, Q2.
          assert (Ko : key_parse (payload_of (Some k)) = AOk (Some k) /\ authorises k v).
          { destruct v; try discriminate; injection Kd as <-; cbn [payload_of] in K.
            - rewrite key_round in K by apply V. injection K as ->. cbn [authorises].
              split; [apply key_round, V|reflexivity].
            - rewrite key_parse_empty in K. discriminate.
            - rewrite key_round in K by apply V. injection K as ->. cbn [authorises].
              split; [apply key_round, V|reflexivity]. }
          exists es1, e0, es2, [], v.
          split; [rewrite Ees, <- app_assoc; reflexivity|]. split; [apply Ko|]. split; [exact I|].
          cbv zeta. rewrite Q1. cbn [fst snd]. split; [reflexivity|]. split; [exact Ud|]. split; [exact Q2|].
          intros [|? ?] ? ? ? X; discriminate.
        * apply Ext; [now apply (stored_key_same d _ k H P)|]. auto.
        * apply stored_key_pages in K as (pl & Pk & _); [|now apply step_one_page]. congruence.
      + apply Ext; [|discriminate]. apply (stored_key_same d _ k H (step_pages d e Kd)), K.
  Qed.

  (** ** Without a key *)

  Definition keyless (d : dev) : Prop := page_data (d_key d) = Some key_empty.
  Lemma keyless_no_stored d k : one_page (d_key d) -> keyless d -> ~ stored_key d k.
  Proof.
    intros H Kl K. apply stored_key_pages in K as (pl & P & K); [|exact H].
    unfold keyless in Kl. rewrite P in Kl. injection Kl as ->. rewrite key_parse_empty in K. discriminate.
  Qed.
  Lemma keyless_no_key d : one_page (d_key d) -> keyless d -> no_key d.
  Proof. intros H Kl. apply one_page_reads in Kl; [|exact H]. unfold no_key. now rewrite Kl. Qed.

  Definition idle (d : dev) : Prop :=
    one_page (d_key d) /\ keyless d /\ forall a, d_ui d <> Some (VDeauthorize a).

  Lemma idle_step d e : event_ok e -> idle d -> (forall k, key_decision d e <> Some (Some k)) ->
    idle (snd (step C O d e)).
  Proof.
    intros He (H & Kl & V) N.
    assert (Kd : key_decision d e = None).
    { destruct (key_decision d e) as [[k|]|] eqn:Kd; auto; [now destruct (N k)|].
      exfalso. unfold key_decision in Kd. destruct e; try discriminate.
      destruct (d_ui d) as [[]|] eqn:Ud; try discriminate. now apply (V a). }
    pose proof (step_pages d e Kd) as P.
    split; [now apply step_one_page|]. split; [unfold keyless, page_data; now rewrite P|].
    intros a Ua. destruct (d_ui d) as [w|] eqn:Ud.
    - destruct (pending_step C O d e ltac:(congruence)) as [[_ X]|[_ X]]; [|congruence].
      rewrite X in Ua. cbn [snd] in Ua. now apply (V a); congruence.
    - destruct (step_requested C O d e He Ud) as [(_ & w & Uw & R)|[_ X]]; [|congruence].
      assert (w = VDeauthorize a) as -> by congruence.
      destruct R as (buf & rx & ins & _ & _ & _ & _ & _ & k & K & _).
      now apply (keyless_no_stored d k H Kl).
  Qed.

  Lemma idle_run es : forall d, Forall event_ok es -> no_authorisation C O d es -> idle d ->
    idle (snd (run C O d es)).
  Proof.
    induction es as [|e es IH]; intros d He N V; cbn [run]; auto.
    inversion He; subst. destruct N as [N1 N2].
    pose proof (idle_step d e H1 V N1) as V1. destruct (step C O d e) as [a d1]. cbn [snd] in *.
    specialize (IH d1 H2 N2 V1). destruct (run C O d1 es). exact IH.
  Qed.


  Lemma no_authorisation_app d es1 : forall es2, no_authorisation C O d (es1 ++ es2) ->
    no_authorisation C O d es1.
  Proof.
    revert d. induction es1 as [|e es1 IH]; intros d es2; cbn [app no_authorisation]; [auto|].
    intros [H1 H2]. split; [exact H1|]. eapply IH; eauto.
  Qed.

  Lemma idle_signs d es l : Forall event_ok es -> ui_ok O d -> no_authorisation C O d es -> idle d ->
    signed_between d (snd (run C O d es)) l -> Forall (fun g => ~ by_stored_key g) l.
  Proof.
    intros He V N Id S. apply Forall_forall. intros g Hg B.
    destruct (history_signs C O es d l He V S g Hg) as (es1 & e & es2 & Ees & Hc & _).
    subst es. apply Forall_app in He as [He1 He2].
    assert (I1 : idle (snd (run C O d es1))).
    { apply idle_run; auto. eapply no_authorisation_app; eauto. }
    destruct I1 as (H & Kl & _). unfold sig_cause in Hc.
    destruct B as [B|B]; rewrite B in Hc.
    - destruct Hc as (_ & K & _). now apply (keyless_no_stored _ _ H Kl) in K.
    - destruct Hc as (_ & K & _). now apply (keyless_no_stored _ _ H Kl) in K.
  Qed.

  (** Commands that need the key are refused. *)
  Lemma no_key_answers d buf rx ins : cf_baking C = true -> apdu_ok buf -> command d buf rx ins ->
    In ins [0x07; 0xA7; 0x0D; 0xAD] -> no_key d ->
    fst (step C O d (EApdu buf rx)) = AReply [0x69; 0x85] /\ untouched d (snd (step C O d (EApdu buf rx))).
  Proof.
    intros Cb Hb Cm Hi Nk. rewrite (step_command C O d buf rx ins Hb Cm).
    destruct Cm as (_ & _ & E0 & E1).
    assert (Q : exists wc, dispatch C O buf = h_query C O wc buf).
    { rewrite (dispatch_at C O buf ins E0 E1), Cb. cbn [In] in Hi.
      destruct Hi as [<-|[<-|[<-|[<-|[]]]]]; [exists false|exists false|exists true|exists true]; reflexivity. }
    destruct Q as [wc ->].
    assert (R : exists d', h_query C O wc buf d = (Err ConditionsNotSatisfied, d') /\ frame eff_none d d').
    { unfold h_query, read_baking_key. unfold bind at 1. unfold bind at 1.
      pose proof (keeps_read_or eff_none SKey ConditionsNotSatisfied d) as F.
      unfold no_key, wear_read in Nk.
      unfold read_or, read_slot, bind in *. cbn [get_slot] in *.
      destruct (wear_init (d_key d)) as [k|]; [|contradiction].
      destruct (wear_read_at (d_key d) k) as [p| |]; cbn [snd ret fail] in *.
      - unfold key_parse. rewrite Nk. cbn [N.eqb of_ares]. unfold ret at 1. cbn [of_option].
        eexists; split; [reflexivity|exact F].
      - eexists; split; [reflexivity|exact F].
      - eexists; split; [reflexivity|exact F]. }
    destruct R as (d' & -> & F). rewrite finish_err. split; [reflexivity|]. now apply untouched_frame.
  Qed.

  Lemma deauthorised f u es es' l : Forall detected_fault f -> Forall up_fault_ok u ->
    Forall event_ok (es ++ EApprove :: es') -> len es + 1 < 2 ^ 64 ->
    let d := snd (run C O (dev_fresh f u) es) in
    let d1 := snd (step C O d EApprove) in
    let d2 := snd (run C O d1 es') in
    (exists a, d_ui d = Some (VDeauthorize a)) -> succeeds (fst (step C O d EApprove)) ->
    no_authorisation C O d1 es' ->
    (forall k, ~ stored_key d2 k) /\
    (signed_between d1 d2 l -> Forall (fun g => ~ by_stored_key g) l) /\
    (forall buf rx ins, cf_baking C = true -> apdu_ok buf -> command d2 buf rx ins ->
       In ins [0x07; 0xA7; 0x0D; 0xAD] ->
       fst (step C O d2 (EApdu buf rx)) = AReply [0x69; 0x85] /\
       untouched d2 (snd (step C O d2 (EApdu buf rx)))).
  Proof.
    intros F U E L d d1 d2 [a Ua] S N. apply Forall_app in E as [E1 E2]. inversion E2 as [|? ? _ E3]; subst.
    assert (Kd : key_decision d EApprove = Some None) by (cbn [key_decision]; rewrite Ua; reflexivity).
    pose proof (key_removed f u es F U E1 L Kd S) as P. fold d d1 in P.
    assert (I1 : idle d1).
    { split; [apply step_one_page, reach_one_page|]. split; [exact P|]. intros a'.
      destruct (pending_step C O d EApprove ltac:(congruence)) as [[[] _]|[_ X]]. fold d1 in X. congruence. }
    assert (I2 : idle d2) by now apply idle_run.
    destruct I2 as (H2 & K2 & _).
    split; [intros k; now apply keyless_no_stored|]. split.
    - apply idle_signs; auto. apply step_ui; [exact Logic.I|apply reach_ui; auto].
    - intros buf rx ins Cb Hb Cm Hi. apply (no_key_answers d2 buf rx ins); auto. now apply keyless_no_key.
  Qed.
End Keys.
