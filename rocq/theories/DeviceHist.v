(** The device without torn pages: slots behave like variables. *)
From Coq Require Import List NArith ZArith Lia Bool Arith ZifyBool ZifyNat ZifyN.
From Verif Require Import Base BaseFacts Flash FlashFacts FlashSpec FlashProofs Codecs CodecsSpec
  CodecsFacts Upload UploadSpec UploadFacts Baking BakingSpec BakingFacts Operations Oracles Address
  Device DeviceSpec DeviceFacts DeviceProofs.
Import ListNotations.
Open Scope N_scope.

Record slot_state (B : N) (last : option bytes) (w : wear) : Prop := {
  ss_wf : wf_wear B w;
  ss_hist : hist_inv B last w;
  ss_read : wear_read w = Some (expected_read last)
}.
Definition slot_sound (B : N) (w : wear) : Prop := exists last, slot_state B last w.

Lemma ss_mono B B' l w : B <= B' -> slot_state B l w -> slot_state B' l w.
Proof. intros H [A1 A2 A3]. constructor; auto; [eapply wf_mono|eapply hist_mono]; eauto. Qed.
Lemma ss_restart B l w : slot_state B l w -> slot_state B l (wear_restart w).
Proof.
  intros [A1 A2 A3]. constructor; auto using wf_restart, hist_restart. apply (hi_read _ _ _ A2).
Qed.
Lemma ss_weq B l w w' : weq w w' -> slot_state B l w -> slot_state B l w'.
Proof.
  intros E [A1 A2 A3]. pose proof E as [P I]. constructor.
  - eapply weq_wf; eauto.
  - destruct (hist_init _ _ _ A2) as (k & Ik & Lk & Mk).
    destruct A2 as [H1 H2 H3 H4 H5]. constructor; rewrite ?P; auto.
    + intros k' Hk'. assert (k' = k) as ->; [|auto].
      unfold wear_init in I at 1. rewrite Hk' in I. congruence.
    + now rewrite (weq_restart _ _ E).
  - now rewrite (weq_read _ _ E).
Qed.
Lemma ss_init B l w : slot_state B l w -> exists k, wear_init w = Some k.
Proof. intros [_ A2 _]. destruct (hist_init _ _ _ A2) as (k & Ik & _). eauto. Qed.

Lemma ss_write B l w k pl f : slot_state B l w -> B + 1 < 2 ^ 64 -> payload_ok pl -> intact_fault f ->
  wear_init w = Some k ->
  let (w1, r) := wear_write_at w k pl f in
  slot_state (B + 1) (if stored f then Some pl else l) (match r with WLost => wear_restart w1 | _ => w1 end).
Proof.
  intros [A1 A2 A3] HB Hp Hf I.
  assert (S : fault_safe f) by (destruct f as [|[]|[]]; cbn in *; tauto).
  pose proof (write_step B w k pl f A1 HB Hp S I) as X.
  pose proof (hist_step B l w (OWrite pl f) A2 HB Hp) as Y.
  assert (T : op_not_torn (OWrite pl f)) by (destruct f as [|[]|[]]; cbn in *; tauto).
  specialize (Y T). unfold wop_step in Y. rewrite I in Y.
  destruct (wear_write_at w k pl f) as [w1 r] eqn:E. cbn zeta in X. destruct X as (X1 & X2 & _).
  cbn [last_stored] in Y. constructor; auto.
  assert (R : r = fault_res f) by (unfold wear_write_at in E; inversion E; reflexivity).
  destruct f as [|[]|[]]; cbn in Hf; try contradiction; subst r; cbn [fault_res stored expected_read] in *.
  - now apply X2.
  - apply (hi_read _ _ _ Y).
  - apply (hi_read _ _ _ Y).
Qed.
Lemma ss_fresh n : (0 < n)%nat -> slot_state 0 None (wear_fresh n).
Proof. intros. constructor; auto using wf_fresh, hist_fresh, read_fresh. Qed.

(** ** Devices *)

Definition sound := dok slot_sound intact_fault.

(** [d] stores [a], has no fault ahead; counters of [s] are at most [b s]. *)
Record stores (b : slot -> N) (a : slot -> option bytes) (d : dev) : Prop := {
  st_slot : forall s, slot_state (b s) (a s) (get_slot s d);
  st_faults : d_faults d = []
}.

Lemma sound_stores b d : sound b d -> d_faults d = [] -> exists a, stores b a d.
Proof.
  intros [A1 A2 A3 A4] F.
  destruct (A1 SMain) as [m Hm], (A1 STest) as [t Ht], (A1 SChain) as [c Hc], (A1 SKey) as [k Hk].
  exists (fun s => match s with SMain => m | STest => t | SChain => c | SKey => k end).
  constructor; auto. intros []; auto.
Qed.

Lemma stores_holds b a d s : stores b a d -> holds_slot d s (a s).
Proof.
  intros [A _]. specialize (A s). split; [apply A|]. rewrite get_slot_restart. apply (hi_read _ _ _ (ss_hist _ _ _ A)).
Qed.
Lemma stores_unique b a d s o : stores b a d -> holds_slot d s o -> a s = o.
Proof.
  intros S [H _]. pose proof (ss_read _ _ _ (st_slot _ _ _ S s)) as R. rewrite H in R.
  destruct (a s), o; cbn in R; congruence.
Qed.
Lemma holds_unique d s o o' : holds_slot d s o -> holds_slot d s o' -> o = o'.
Proof. intros [H _] [H' _]. rewrite H in H'. destruct o, o'; congruence. Qed.

Lemma stores_mono b b' a d : (forall s, b s <= b' s) -> stores b a d -> stores b' a d.
Proof. intros L [A F]. constructor; auto. intros s. eapply ss_mono; eauto. Qed.
Lemma stores_restart b a d : stores b a d -> stores b a (restart d).
Proof. intros [A F]. constructor; auto. intros s. rewrite get_slot_restart. now apply ss_restart. Qed.

(** Computations that write no slot keep what is stored. *)
Lemma stores_frame E b a d d' : (forall s, ~ e_slot E s) -> frame E d d' -> stores b a d -> stores b a d'.
Proof.
  intros S F [A AF]. constructor.
  - intros s. eapply ss_weq; [apply (fr_slot _ _ _ F), S|apply A].
  - destruct (fr_faults _ _ _ F) as [l Hl]. rewrite AF in Hl. symmetry in Hl. now apply app_eq_nil in Hl.
Qed.

Definition aset (s : slot) (p : bytes) (a : slot -> option bytes) : slot -> option bytes :=
  fun s' => if slot_eq_dec s s' then Some p else a s'.

Lemma read_slot_stores b a d s : stores b a d ->
  exists d', read_slot s d = (Ok (expected_read (a s)), d') /\ stores b a d' /\ frame eff_none d d'.
Proof.
  intros S. pose proof (keeps_read_slot eff_none s d) as K.
  destruct (ss_init _ _ _ (st_slot _ _ _ S s)) as [k Ik].
  pose proof (ss_read _ _ _ (st_slot _ _ _ S s)) as R. unfold wear_read in R. rewrite Ik in R.
  injection R as R. unfold read_slot in *. rewrite Ik in *. cbn [snd] in K. rewrite R.
  eexists; split; [reflexivity|]. split; auto. eapply stores_frame; eauto. cbn; tauto.
Qed.
Lemma read_or_stores b a d s e : stores b a d ->
  exists d', read_or s e d = (match a s with Some p => Ok p | None => Err e end, d') /\
    stores b a d' /\ frame eff_none d d'.
Proof.
  intros S. destruct (read_slot_stores b a d s S) as (d' & E & S' & F).
  unfold read_or, bind. rewrite E. exists d'. destruct (a s); auto.
Qed.

(** All but the slots and pending faults is the same. *)
Definition same_rest (d d' : dev) : Prop :=
  d_log d' = d_log d /\ d_up d' = d_up d /\ d_ufaults d' = d_ufaults d /\ d_path d' = d_path d /\
  d_ui d' = d_ui d.
Lemma same_rest_trans a b c : same_rest a b -> same_rest b c -> same_rest a c.
Proof. unfold same_rest. intuition congruence. Qed.
Lemma frame_none_rest d d' : frame eff_none d d' -> same_rest d d'.
Proof.
  intros F. destruct (fr_log _ _ _ F) as (l & El & Fl). destruct (fr_up _ _ _ F ltac:(cbn; tauto)).
  pose proof (fr_path _ _ _ F ltac:(cbn; tauto)).
  repeat split; auto.
  - destruct l; [exact El|]. inversion Fl. contradiction.
  - destruct (fr_ui _ _ _ F) as [|(v & _ & [])]; auto.
Qed.

Lemma write_slot_stores b a d s p : b s + 1 < 2 ^ 64 -> payload_ok p -> stores b a d ->
  exists d', write_slot s p d = (Ok true, d') /\ stores (bump s b) (aset s p a) d' /\ same_rest d d'.
Proof.
  intros HB Hp [A F]. destruct (ss_init _ _ _ (A s)) as [k Ik].
  pose proof (ss_write _ _ _ k p WOk (A s) HB Hp Logic.I Ik) as W.
  unfold write_slot. rewrite Ik, F. cbn [next_fault].
  destruct (wear_write_at (get_slot s d) k p WOk) as [w' r] eqn:E.
  assert (r = WDone) as -> by (unfold wear_write_at in E; inversion E; reflexivity).
  cbn [stored] in W. eexists. split; [reflexivity|]. split.
  - constructor; [|rewrite set_slot_faults; destruct d; reflexivity].
    intros s'. unfold bump, aset. destruct (slot_eq_dec s s') as [<-|N].
    + now rewrite get_set_same.
    + rewrite get_set_other by auto. rewrite get_slot_set_faults. apply A.
  - unfold same_rest. rewrite set_slot_log, set_slot_up, set_slot_ufaults, set_slot_path, set_slot_ui.
    destruct d; auto.
Qed.
Lemma write_or_stores b a d s p e : b s + 1 < 2 ^ 64 -> payload_ok p -> stores b a d ->
  exists d', write_or s p e d = (Ok tt, d') /\ stores (bump s b) (aset s p a) d' /\ same_rest d d'.
Proof.
  intros HB Hp S. destruct (write_slot_stores b a d s p HB Hp S) as (d' & E & X).
  exists d'. unfold write_or, bind. now rewrite E.
Qed.

(** ** Reachable devices *)

Lemma sound_write B w k pl f : slot_sound B w -> B + 1 < 2 ^ 64 -> payload_ok pl -> intact_fault f ->
  wear_init w = Some k ->
  let (w1, r) := wear_write_at w k pl f in
  slot_sound (B + 1) (match r with WLost => wear_restart w1 | _ => w1 end).
Proof.
  intros [l S] HB Hp Hf I. pose proof (ss_write _ _ _ k pl f S HB Hp Hf I) as X.
  destruct (wear_write_at w k pl f). eexists; eauto.
Qed.

Lemma reach_sound C O f u es : Forall intact_fault f -> Forall up_fault_ok u -> Forall event_ok es ->
  len es < 2 ^ 64 -> sound (fun _ => len es) (snd (run C O (dev_fresh f u) es)).
Proof.
  intros F U E L. unfold sound.
  apply (run_dok C O slot_sound intact_fault) with (B := 0); auto.
  - intros B B' w H [l S]. exists l. eapply ss_mono; eauto.
  - intros B w [l S]. exists l. now apply ss_restart.
  - intros B w w' H [l S]. exists l. eapply ss_weq; eauto.
  - exact sound_write.
  - exact I.
  - apply dok_fresh; auto. intros n Hn. exists None. now apply ss_fresh.
Qed.
