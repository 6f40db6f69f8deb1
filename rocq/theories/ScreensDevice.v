(** The reviews pending on the device are well-formed. *)
From Coq Require Import NArith ZArith Bool Arith String List Lia.
From Coq Require Import ZifyBool ZifyNat ZifyN.
From Verif Require Import Base BaseFacts Flash Codecs CodecsSpec CodecsFacts Upload UploadSpec UploadFacts Oracles Address AddressSpec AddressFacts AddressExamples
  Operations OperationsSpec OperationsFacts Device DeviceSpec DeviceFacts DeviceProofs DeviceSigs DeviceCases
  Screens ScreensSpec ScreensFacts ScreensViews.
Import ListNotations.
Open Scope list_scope.
Open Scope N_scope.

Section Reach.
  Variables (C : config) (O : oracles).

  (** The upload buffer holds bytes. *)
  Definition up_fine (d : dev) : Prop := up_bytes (d_up d) /\ Forall up_fault_ok (d_ufaults d).

  Lemma step_up_fine d e : event_ok e -> up_fine d -> up_fine (snd (step C O d e)).
  Proof.
    intros He [U F].
    assert (D : dok (fun _ _ => True) (fun _ => True) (fun _ => 0) d).
    { constructor; auto. apply Forall_forall. auto. }
    apply (step_dok C O (fun _ _ => True) (fun _ => True)) with (e := e) in D; auto.
    all: try (destruct D as [_ _ A B]; split; auto; fail).
    all: try (intros B w k pl f _ _ _ _ _; destruct (wear_write_at w k pl f); exact Logic.I).
    all: try (intros s; cbv; reflexivity).
  Qed.

  Lemma run_up_fine es : forall d, Forall event_ok es -> up_fine d -> up_fine (snd (run C O d es)).
  Proof.
    induction es as [|e es IH]; intros d He V; cbn [run]; [exact V|].
    inversion He as [|? ? H1 H2]; subst. pose proof (step_up_fine d e H1 V) as V1.
    destruct (step C O d e) as [a d1]. cbn [snd] in V1. specialize (IH d1 H2 V1).
    destruct (run C O d1 es). exact IH.
  Qed.

  Lemma reach_up_fine f u es : Forall up_fault_ok u -> Forall event_ok es ->
    up_fine (snd (run C O (dev_fresh f u) es)).
  Proof.
    intros U E. apply run_up_fine; auto. split; [|exact U]. cbn. split; apply zeros_ok.
  Qed.

  Lemma address_wf c pk a : oracles_ok O -> addr_new O c pk = SOk a -> addr_wf a.
  Proof.
    intros K E. unfold addr_new in E. destruct (pk_hash O c pk) as [h| |] eqn:H; try discriminate.
    assert (Hh : hash_ok 20 h).
    { unfold pk_hash in H.
      assert (D : forall l, match o_blake2b O 20 l with Some h => SOk h | None => SErr end = SOk h -> hash_ok 20 h).
      { intros l X. destruct (o_blake2b O 20 l) eqn:B; [|discriminate]. injection X as <-.
        destruct (ok_blake2b _ K _ _ _ B). split; auto. }
      destruct c.
      - destruct pk; [discriminate|]. eapply D, H.
      - destruct (nth_error pk 64); [|discriminate]. eapply D, H.
      - destruct (nth_error pk 64); [|discriminate]. eapply D, H.
      - destruct pk; [discriminate|]. eapply D, H. }
    unfold addr_from_hash, sha256x2 in E.
    destruct (o_sha256 O (hash_prefix c ++ h)) as [d|]; [|discriminate].
    destruct (o_sha256 O d) as [d'|] eqn:D; [|discriminate].
    assert (a = mkAddr (hash_prefix c) h (firstn 4 d')) as -> by congruence.
    destruct (ok_sha256 _ K _ _ D) as [L B]. split; [|split; [exact Hh|]].
    - cbn [a_prefix]. destruct c; cbn; auto.
    - split; cbn [a_checksum]; [now apply bytes_ok_firstn|]. rewrite firstn_length. lia.
  Qed.

  Lemma operation_new_wf rest branch ops : bytes_ok rest -> operation_new rest = Some (branch, ops) ->
    hash_ok 32 branch /\ bytes_ok (eo_source ops) /\ eo_read ops = 0%nat.
  Proof.
    intros B E. unfold operation_new in E. destruct (take 32 rest) as [rem b| |] eqn:T; try discriminate.
    injection E as <- <-. destruct (yields_take 32 _ _ _ B T) as [R H]. auto.
  Qed.

  (** Uploaded data are bytes. *)
  Lemma up_data_ok a buf d up u s : apdu_ok buf -> up_fine d ->
    upload a buf (d_up d) (d_ufaults d) = (Ok (Some up), u, s) -> bytes_ok (uo_data up).
  Proof.
    intros Ha [U F] E. pose proof (upload_bytes a buf (d_up d) (d_ufaults d) Ha U F) as X. rewrite E in X.
    apply X.
  Qed.

  Lemma pending_wf f u es v : oracles_ok O -> Forall up_fault_ok u -> Forall event_ok es ->
    d_ui (snd (run C O (dev_fresh f u) es)) = Some v -> view_wf v.
  Proof.
    intros K U E V. pose proof (reach_ui C O f u es E v V) as W.
    destruct (review_requested C O f u es v E V) as (es1 & e & es2 & Ee & _ & _ & R).
    assert (Uf : up_fine (snd (run C O (dev_fresh f u) es1))).
    { apply reach_up_fine; auto. rewrite Ee in E. apply Forall_app in E as [E1 _]. exact E1. }
    destruct R as (buf & rx & ins & _ & _ & R).
    destruct v as [sh digest parsed data|sh digest branch o data|kk a|a|wc kk a|wa pk a|kk main test chain a];
      cbn [view_ok view_wf] in *.
    - destruct R as (up & (Ha & ins' & u' & s' & _ & _ & Up) & -> & _).
      pose proof (up_data_ok _ _ _ _ _ _ Ha Uf Up) as B.
      destruct W as (Dg & rest & [(Ed & Ne & Op)|(Ed & ->)]).
      + destruct parsed as [[branch ops]|]; [|congruence]. apply (operation_new_wf rest); auto.
        rewrite Ed in B. now inversion B.
      + destruct (ok_blake2b _ K _ _ _ Dg). split; auto.
    - destruct R as (up & (_ & Ha & ins' & u' & s' & _ & _ & Up) & -> & _).
      pose proof (up_data_ok _ _ _ _ _ _ Ha Uf Up) as B.
      destruct W as (Dg & rest & ops & more & Ed & Op & Nx & Ty).
      rewrite Ed in B. assert (B' : bytes_ok rest) by now inversion B.
      destruct (operation_new_wf rest branch ops B' Op) as (Hb & Hs & H0). split; [exact Hb|].
      split; [|destruct o; auto].
      destruct ops as [src n]. cbn [eo_source eo_read] in *. subst n.
      pose proof (eo_next_spec src 0 ltac:(lia)) as X. rewrite Nx in X. destruct X as (rem & P & _).
      apply (op_parse_wf (skipn 0 src) rem); auto.
    - destruct W as (_ & pk & _ & A). exact (address_wf _ _ _ K A).
    - destruct W as (k & pk & _ & A). exact (address_wf _ _ _ K A).
    - destruct W as (pk & _ & A). exact (address_wf _ _ _ K A).
    - destruct W as (k & _ & A). exact (address_wf _ _ _ K A).
    - destruct W as (_ & (pk' & _ & A) & Hm & Ht & _). split; [exact (address_wf _ _ _ K A)|auto].
  Qed.
End Reach.
