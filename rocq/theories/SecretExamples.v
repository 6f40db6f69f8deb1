(** C63: results in their final form, and concrete histories. *)
From Coq Require Import NArith Bool Arith String List Lia.
From Coq Require Import ZifyBool ZifyNat ZifyN.
From Verif Require Import Base BaseFacts Flash Codecs Upload UploadSpec Baking Operations Oracles Address AddressExamples
  Text Bakers BakersSpec Device DeviceSpec DeviceCommands DeviceDemo Screens ScreensSpec ScreensExamples
  Zui UiSpec UiDevice UiExamples SecretSpec SecretFacts.
Import ListNotations.
Open Scope list_scope.
Open Scope N_scope.

Lemma answers_secret C O sg f u es : oracles_ok O -> oracles_ok (with_sign O sg) -> resigned O sg ->
  (forall g, In g (d_log (snd (run C O (dev_fresh f u) es))) -> agree_on O sg g) ->
  run C (with_sign O sg) (dev_fresh f u) es = run C O (dev_fresh f u) es.
Proof. intros K K' Re Ag. exact (proj2 (ni_run C O sg K K' Re es (dev_fresh f u)) Ag). Qed.

Lemma screens_secret C O sg table hw f u is : oracles_ok O -> oracles_ok (with_sign O sg) -> resigned O sg ->
  (forall g, In g (d_log (u_dev (snd (ui_run C O table hw (ui_fresh hw f u) is)))) -> agree_on O sg g) ->
  ui_run C (with_sign O sg) table hw (ui_fresh hw f u) is = ui_run C O table hw (ui_fresh hw f u) is.
Proof. intros K K' Re Ag. exact (proj2 (ni_ui_run C O sg K K' Re table hw is (ui_fresh hw f u)) Ag). Qed.

Lemma wallet_secret C O sg f u es : oracles_ok O -> oracles_ok (with_sign O sg) -> resigned O sg ->
  cf_baking C = false -> Forall event_ok es -> ~ In EApprove es ->
  run C (with_sign O sg) (dev_fresh f u) es = run C O (dev_fresh f u) es.
Proof.
  intros K K' Re Hw He Na. apply answers_secret; auto. intros g Hg. destruct Na.
  destruct (wallet_signs C O f u es g Hw He Hg) as (es1 & es2 & _ & _ & -> & _). apply in_or_app. right. now left.
Qed.

(** Other signatures for every key but [demo_key]. *)
Definition other_path (p : path) : bool := negb (bytes_eqb p demo_path).
Definition other_sign (c : curve) (p : path) (dg : bytes) : option bytes :=
  option_map (fun s => if other_path p then rev s else s) (o_sign demo_oracles c p dg).
Lemma other_sign_ok : oracles_ok (with_sign demo_oracles other_sign) /\ resigned demo_oracles other_sign.
Proof.
  split.
  - destruct demo_oracles_ok as [A1 A2 A3 A4 A5 A6]. constructor; try assumption. intros c p l s E. cbn [o_sign with_sign] in E.
    unfold other_sign in E. destruct (o_sign demo_oracles c p l) as [s'|] eqn:E'; [|discriminate E]. destruct (A6 c p l s' E') as [L B].
    cbn [option_map] in E. injection E as <-. destruct (other_path p); [|auto]. rewrite rev_length. split; [exact L|].
    unfold bytes_ok in *. apply Forall_forall. intros x Hx. apply in_rev in Hx. rewrite Forall_forall in B. auto.
  - intros c p dg. unfold other_sign. generalize (o_sign demo_oracles c p dg). intros [s|]; cbn [option_map]; split; intros E; (reflexivity || discriminate E).
Qed.

(** Consensus messages and an HMAC with [demo_key], and a request for another key. *)
Definition secret_events : list event :=
  demo_before ++ demo_after ++ [send 0x0E 0 0 (path_serialize demo_path ++ [1; 2; 3]); send 0x02 0 0 (path_serialize [0x8000002C])].
Lemma agrees_on_demo l : forallb (fun g => negb (other_path (snd (sg_key g)))) l = true ->
  forall g, In g l -> agree_on demo_oracles other_sign g.
Proof.
  intros H g Hg. rewrite forallb_forall in H. specialize (H g Hg). apply negb_true_iff in H.
  assert (E : other_sign (fst (sg_key g)) (snd (sg_key g)) (sg_digest g) = o_sign demo_oracles (fst (sg_key g)) (snd (sg_key g)) (sg_digest g)).
  { unfold other_sign. rewrite H. destruct (o_sign demo_oracles (fst (sg_key g)) (snd (sg_key g)) (sg_digest g)); reflexivity. }
  unfold agree_on. rewrite E. now destruct (sg_src g).
Qed.
Lemma secret_case :
  oracles_ok (with_sign demo_oracles other_sign) /\ resigned demo_oracles other_sign /\
  (forall g, In g (d_log (snd (run demo_config demo_oracles (dev_fresh [] []) secret_events))) -> agree_on demo_oracles other_sign g) /\
  map sg_src (d_log (snd (run demo_config demo_oracles (dev_fresh [] []) secret_events))) = [SrcHmac; SrcConsensus; SrcConsensus; SrcConsensus] /\
  other_sign Ed25519 [0x8000002C] [1] <> o_sign demo_oracles Ed25519 [0x8000002C] [1].
Proof.
  split; [exact (proj1 other_sign_ok)|]. split; [exact (proj2 other_sign_ok)|].
  split; [apply agrees_on_demo; vm_compute; reflexivity|]. split; [vm_compute; reflexivity|].
  intros E. apply (f_equal (option_map (hd 0))) in E. vm_compute in E. discriminate E.
Qed.
(** Screens and buttons: a transfer approved with [demo_key]. *)
Lemma secret_screens_case :
  (forall g, In g (d_log (u_dev (after_inputs wallet_config NanoS (small_inputs ++ presses Right 21 ++ [IPress Both])))) -> agree_on demo_oracles other_sign g) /\
  map sg_src (d_log (u_dev (after_inputs wallet_config NanoS (small_inputs ++ presses Right 21 ++ [IPress Both])))) = [SrcReview].
Proof. split; [apply agrees_on_demo; vm_compute; reflexivity|vm_compute; reflexivity]. Qed.
(** A rejected request to sign. *)
Definition rejected_events : list event := sign_batch small_batch ++ [EReject].
Lemma secret_wallet_case :
  Forall event_ok rejected_events /\ ~ In EApprove rejected_events /\
  fst (run wallet_config demo_oracles (dev_fresh [] []) rejected_events) = [AReply [0x90; 0]; APending; AReply [0x69; 0x86]].
Proof.
  split; [apply events_okb_ok; vm_compute; reflexivity|]. split; [|vm_compute; reflexivity].
  unfold rejected_events. intros H. apply in_app_or in H as [H|[H|[]]]; [|discriminate H].
  assert (X : forallb (fun e => match e with EApprove => false | _ => true end) (sign_batch small_batch) = true) by (vm_compute; reflexivity).
  rewrite forallb_forall in X. specialize (X _ H). discriminate X.
Qed.
