(** Every answer has its documented form. *)
From Coq Require Import NArith ZArith Bool Arith List Lia.
From Coq Require Import ZifyBool ZifyNat ZifyN.
From Verif Require Import Base BaseFacts Flash Codecs CodecsSpec CodecsFacts Upload UploadSpec UploadFacts
  Baking BakingSpec Operations Oracles Address AddressSpec AddressFacts AddressExamples
  Device DeviceSpec DeviceFacts ServiceSpec StopSpec StopFacts DocSpec.
Import ListNotations.
Open Scope list_scope.
Open Scope N_scope.

Definition used (e : apdu_error) : Prop := e <> Success /\ In (sw e) used_codes.
Lemma used_list e : In e [ExecutionError; WrongLength; DataInvalid; ConditionsNotSatisfied; CommandNotAllowed; InvalidP1P2; ClaNotSupported; Busy] -> used e.
Proof. cbn [In]. intros H. repeat destruct H as [<-|H]; try (split; [discriminate|cbn; tauto]). contradiction. Qed.
Ltac use := apply used_list; cbn [In]; tauto.

Section Facts.
  Variable C : config.
  Variable O : oracles.
  Hypothesis K : oracles_ok O.

  Definition good {A} (P : A -> Prop) (m : M A) : Prop := forall d, d_ui d = None ->
    match m d with
    | (Ok a, d') => P a /\ d_ui d' = None
    | (Err e, d') => used e /\ d_ui d' = None
    | _ => True
    end.
  Definition goodr (Q : bytes -> Prop) (m : M reply) : Prop := forall d, d_ui d = None ->
    match m d with
    | (Ok (Now x), d') => Q x /\ d_ui d' = None
    | (Ok Later, d') => exists v, d_ui d' = Some v /\ forall room, cf_room C v = Some room -> good Q (accept O v room)
    | (Err e, d') => used e /\ d_ui d' = None
    | _ => True
    end.

  Lemma good_ret {A} (P : A -> Prop) a : P a -> good P (ret a).
  Proof. intros H d U. split; auto. Qed.
  Lemma good_fail {A} (P : A -> Prop) e : used e -> good P (@fail A e).
  Proof. intros H d U. split; auto. Qed.
  Lemma good_panic {A} (P : A -> Prop) : good P (@panic A).
  Proof. intros d U. exact Logic.I. Qed.
  Lemma good_bind {A B} (P : A -> Prop) (Q : B -> Prop) (m : M A) f : good P m -> (forall a, P a -> good Q (f a)) -> good Q (bind m f).
  Proof.
    intros H F d U. unfold bind. specialize (H d U). destruct (m d) as [[a|e| |] d']; auto.
    destruct H as [H U']. exact (F a H d' U').
  Qed.
  Lemma good_bindr {A} (P : A -> Prop) Q (m : M A) f : good P m -> (forall a, P a -> goodr Q (f a)) -> goodr Q (bind m f).
  Proof.
    intros H F d U. unfold bind. specialize (H d U). destruct (m d) as [[a|e| |] d']; auto.
    destruct H as [H U']. exact (F a H d' U').
  Qed.
  Lemma goodr_now (Q : bytes -> Prop) x : Q x -> goodr Q (ret (Now x)).
  Proof. intros H d U. split; auto. Qed.
  Lemma goodr_fail Q e : used e -> goodr Q (fail e).
  Proof. intros H d U. split; auto. Qed.
  Lemma goodr_panic Q : goodr Q panic.
  Proof. intros d U. exact Logic.I. Qed.
  Lemma goodr_show (Q : bytes -> Prop) v : (forall room, cf_room C v = Some room -> good Q (accept O v room)) -> goodr Q (show C v).
  Proof.
    intros H d U. unfold show. destruct (cf_room C v) eqn:E.
    - exists v. split; [destruct d; reflexivity|rewrite E; exact H].
    - split; [use|exact U].
  Qed.
  Lemma good_option {A} (P : A -> Prop) e o : used e -> (forall a, o = Some a -> P a) -> good P (of_option e o).
  Proof. intros E H. destruct o; [apply good_ret; auto|now apply good_fail]. Qed.
  Lemma good_ares {A} (P : A -> Prop) r : (forall e, r = AErr e -> used e) -> (forall a, r = AOk a -> P a) -> good P (of_ares r).
  Proof. intros E H. destruct r; [apply good_ret; auto|apply good_fail; auto]. Qed.
  Lemma good_sres {A} (P : A -> Prop) e r : used e -> (forall a, r = SOk a -> P a) -> good P (of_sres e r).
  Proof. intros E H. destruct r; [apply good_ret; auto|now apply good_fail|apply good_panic]. Qed.
  Lemma good_check b e : used e -> good (fun _ => True) (check b e).
  Proof. intros E. destruct b; [now apply good_ret|now apply good_fail]. Qed.
  Lemma good_read s : good (fun _ => True) (read_slot s).
  Proof.
    intros d U. unfold read_slot. destruct (wear_init (get_slot s d)); auto. split; auto. destruct d, s; exact U.
  Qed.
  Lemma good_write s p : good (fun _ => True) (write_slot s p).
  Proof.
    intros d U. unfold write_slot. destruct (wear_init (get_slot s d)); auto.
    destruct (next_fault (d_faults d)) as [f fs]. destruct (wear_write_at _ _ _ _) as [w r].
    destruct r; auto; split; auto; destruct d, s; exact U.
  Qed.
  Lemma good_write_or s p e : used e -> good (fun _ => True) (write_or s p e).
  Proof. intros E. eapply good_bind; [apply good_write|]. intros; now apply good_check. Qed.
  Lemma good_read_or s e : used e -> good (fun _ => True) (read_or s e).
  Proof. intros E. eapply good_bind; [apply good_read|]. intros [] _; [now apply good_ret|now apply good_fail..]. Qed.
  Lemma key_parse_used p e : key_parse p = AErr e -> used e.
  Proof.
    unfold key_parse. intros H.
    repeat match type of H with
    | context [match path_read ?a ?b with _ => _ end] => destruct (path_read a b)
    | context [match ?x with _ => _ end] => destruct x
    end; try discriminate; injection H as <-; use.
  Qed.
  Lemma good_key p : good (fun o => forall k, o = Some k -> (length (snd k) <= 10)%nat) (of_ares (key_parse p)).
  Proof. apply good_ares; [apply key_parse_used|]. intros a H k ->. now apply parsed_key_short with p. Qed.
  Lemma good_stored e : used e ->
    good (fun k => (length (snd k) <= 10)%nat)
      (bind (read_or SKey e) (fun p => bind (of_ares (key_parse p)) (fun o => of_option ConditionsNotSatisfied o))).
  Proof.
    intros E. eapply good_bind; [now apply good_read_or|]. intros p _. eapply good_bind; [apply good_key|].
    intros o H. apply good_option; [use|exact H].
  Qed.
  Lemma good_sign src k dg data : good (fun s => (length s <= 100)%nat) (sign_with O src k dg data).
  Proof.
    intros d U. unfold sign_with. destruct (o_sign O (fst k) (snd k) dg) as [s|]; [|split; [use|exact U]].
    destruct (Nat.ltb_spec 100 (length s)); auto. split; auto. destruct d; exact U.
  Qed.
  Lemma good_baking_sign src dg data : good (fun s => (length s <= 100)%nat) (baking_sign O src dg data).
  Proof.
    unfold baking_sign. eapply good_bind; [apply good_read_or; use|]. intros p _.
    eapply good_bind; [apply good_key|]. intros o _.
    eapply good_bind; [apply (good_option (fun _ => True)); [use|auto]|]. intros k _. apply good_sign.
  Qed.
  Lemma good_digest data : good (fun dg => length dg = 32%nat) (digest32 O data).
  Proof. apply good_option; [use|]. intros a H. apply (ok_blake2b _ K _ _ _ H). Qed.
  Lemma good_pubkey k : good (fun pk => length pk = pubkey_length (fst k)) (pubkey O k).
  Proof. apply good_option; [use|]. intros a H. apply (ok_pubkey _ K _ _ _ H). Qed.
  Lemma good_address k : good (fun _ => True) (address O k).
  Proof. eapply good_bind; [apply good_pubkey|]. intros pk L. apply good_sres; [use|auto]. Qed.
  Lemma good_payload buf : good (fun _ => True) (the_payload buf).
  Proof. apply good_option; [use|auto]. Qed.
  Lemma good_curve buf : good (fun _ => True) (the_curve buf).
  Proof. apply good_option; [use|auto]. Qed.

  (** *** Forms *)
  Lemma key_form c pk : length pk = pubkey_length c -> doc_key (len pk mod 256 :: pk).
  Proof.
    intros L. exists c, pk. split; [exact L|]. rewrite N.mod_small; [reflexivity|]. unfold len. rewrite L. destruct c; reflexivity.
  Qed.
  Definition doc_signed (sh : bool) (data : bytes) : Prop :=
    exists hash sig, length hash = (if sh then 32 else 0)%nat /\ (length sig <= 100)%nat /\ data = hash ++ sig.
  Lemma signed_form sh dg s : length dg = 32%nat -> (length s <= 100)%nat -> doc_signed sh (signed sh dg s).
  Proof.
    intros H1 H2. exists (if sh then dg else []), s. split; [destruct sh; [exact H1|reflexivity]|]. split; [exact H2|reflexivity].
  Qed.
  Lemma path_form wc k room out : (length (snd k) <= 10)%nat -> 42 <= room -> query_answer wc k room = Some out -> doc_path wc out.
  Proof.
    intros L R. unfold query_answer. cbv zeta. match goal with |- context [room <? len ?h] => set (head := h) end.
    destruct (room <? len head); [discriminate|]. intros [= <-]. exists (fst k), (snd k). split; [exact L|].
    assert (Lh : len head <= 2) by (unfold head, len; destruct wc; cbn; lia).
    rewrite firstn_all2.
    - unfold head. destruct k as [kc kp]; cbn [fst snd] in *. match goal with |- context [?x mod 256] => replace (x mod 256) with x end.
      + rewrite <- app_assoc. reflexivity.
      + symmetry. apply N.mod_small. unfold len. lia.
    - assert (10 <= (room - len head) / 4) by (apply N.div_le_lower_bound; lia).
      destruct k as [kc kp]; cbn [fst snd] in *. lia.
  Qed.
  Lemma address_form c pk a t : length pk = pubkey_length c -> addr_new O c pk = SOk a -> addr_base58 a = SOk t ->
    doc_address O (len pk :: pk ++ t).
  Proof.
    intros L A B. unfold addr_new in A. destruct (pk_hash O c pk) as [h| |] eqn:P; try discriminate.
    assert (H : length h = 20%nat /\ bytes_ok h).
    { unfold pk_hash in P.
      repeat match type of P with
      | context [o_blake2b O 20 ?l] => destruct (o_blake2b O 20 l) eqn:E
      | context [match ?x with _ => _ end] => destruct x
      end; try discriminate; injection P as <-; exact (ok_blake2b _ K _ _ _ E). }
    destruct H as [H1 H2]. pose proof (pkh_text_ok O c h K H2 H1) as X. unfold pkh_text, writes in X. rewrite A, B in X.
    exists c, pk, h, t. tauto.
  Qed.
  Lemma answer_form c pk a : length pk = pubkey_length c -> addr_new O c pk = SOk a ->
    good (doc_address O) (of_sres ExecutionError (addr_answer true pk a)).
  Proof.
    intros L A. apply good_sres; [use|]. intros out. unfold addr_answer. destruct (addr_base58 a) as [t| |] eqn:B; try discriminate.
    intros [= <-]. cbn [app]. rewrite N.mod_small by (unfold len; rewrite L; destruct c; reflexivity). now apply address_form with c a.
  Qed.

  (** *** Handlers *)
  Definition last_p1 (buf : bytes) : bool := existsb (N.eqb (apdu_p1 buf)) [2; 0x81; 0x83].
  Lemma last_packets p1 : match packet_of_p1 p1 with
    | Some pt => existsb (N.eqb p1) [2; 0x81; 0x83] = negb (is_init pt) && negb (is_next pt)
    | None => True
    end.
  Proof.
    destruct (packet_of_p1 p1) as [pt|] eqn:E; [|exact Logic.I]. unfold packet_of_p1, z_packet, legacy_packet in E.
    repeat match type of E with context [?x =? ?y] => destruct (N.eqb_spec x y) as [->|?] end; try discriminate;
      injection E as <-; reflexivity.
  Qed.
  Lemma upload_used a buf u s : match fst (fst (upload a buf u s)) with
    | Err e => used e
    | Ok (Some _) => last_p1 buf = true
    | Ok None => last_p1 buf = false
    | _ => True
    end.
  Proof.
    assert (W : forall u l s, match fst (fst (u_write u l s)) with Err e => used e | _ => True end).
    { intros u0 l0 s0. unfold u_write. destruct (sb_write _ _ _ _ _) as [[b r] s']. destruct r; cbn [fst]; auto. use. }
    unfold upload, last_p1. pose proof (last_packets (apdu_p1 buf)) as Lp. destruct (packet_of_p1 (apdu_p1 buf)) as [pt|]; [|cbn [fst]; use].
    destruct (is_init pt).
    - match goal with |- context [u_write ?x ?y ?z] => pose proof (W x y z) as X; destruct (u_write x y z) as [[r u2] s2] end.
      cbn [fst] in X. destruct r; cbn [fst]; auto.
      destruct (apdu_payload buf); cbn [fst]; auto.
      match goal with |- context [u_write ?x ?y ?z] => pose proof (W x y z) as Y; destruct (u_write x y z) as [[r3 u4] s4] end.
      cbn [fst] in Y. destruct r3; cbn [fst]; auto.
    - destruct (lock_acquire acc_eqb (u_lock u) a) as [e|]; [cbn [fst]; destruct e; cbn; use|].
      assert (X : match fst (fst (u_write_payload u (apdu_payload buf) s)) with Err e => used e | _ => True end).
      { unfold u_write_payload. destruct (apdu_payload buf); [apply W|exact Logic.I]. }
      destruct (u_write_payload u (apdu_payload buf) s) as [[r u1] s1]. cbn [fst] in X. destruct r; cbn [fst]; auto.
      destruct (is_next pt); cbn [fst]; auto. unfold u_split. destruct (sb_read_exact (u_buf u1)); cbn [fst]; auto.
      destruct (_ <? _); cbn [fst]; auto.
  Qed.
  Lemma good_upload a buf : good (fun o => match o with Some _ => last_p1 buf = true | None => last_p1 buf = false end) (the_upload a buf).
  Proof.
    intros d U. unfold the_upload. pose proof (upload_used a buf (d_up d) (d_ufaults d)) as X.
    destruct (upload a buf (d_up d) (d_ufaults d)) as [[r u] s]. cbn [fst] in X. destruct r; auto; split; auto; destruct d; exact U.
  Qed.
  Lemma drop_ui a d : d_ui (set_up (upload_drop a (d_up d)) d) = d_ui d.
  Proof. destruct d; reflexivity. Qed.
  Lemma good_with_upload (Q : bytes -> Prop) a buf f : (last_p1 buf = false -> Q []) -> (last_p1 buf = true -> forall up, goodr Q (f up)) ->
    goodr Q (with_upload a buf f).
  Proof.
    intros Q0 F0. unfold with_upload. eapply good_bindr; [apply good_upload|]. intros [up|] Lp; [|apply goodr_now; auto].
    pose proof (F0 Lp) as F. intros d U. specialize (F up d U). destruct (f up d) as [[[x|]|e| |] d']; auto; unfold bind, drop_upload, ret, fail; rewrite drop_ui; exact F.
  Qed.

  Lemma good_accept_sign sh dg p data room : length dg = 32%nat -> good (doc_signed sh) (accept O (VSign sh dg p data) room).
  Proof.
    intros L. cbn [accept]. eapply (good_bind (fun _ => True)).
    { intros d U. destruct (d_path d); (split; [|exact U]); auto. use. }
    intros k _. eapply good_bind; [apply good_sign|]. intros s Ls. eapply (good_bind (fun _ => True)).
    { intros d U. split; auto. destruct d; exact U. }
    intros _ _. apply good_ret. now apply signed_form.
  Qed.
  Lemma good_start_sign sh up : goodr (doc_signed sh) (start_sign C O sh up).
  Proof.
    unfold start_sign. eapply good_bindr; [apply (good_option (fun _ => True)); [use|auto]|]. intros c _.
    eapply good_bindr; [apply (good_option (fun _ => True)); [use|auto]|]. intros pa _.
    eapply (good_bindr (fun _ => True)). { intros d U. split; auto. destruct d; exact U. }
    intros _ _. eapply good_bindr; [apply good_digest|]. intros dg L.
    destruct (preemble_parse (uo_data up)) as [rem p| |]; [|apply goodr_fail; use|apply goodr_panic].
    destruct p; try (apply goodr_fail; use).
    - eapply good_bindr; [apply (good_option (fun _ => True)); [use|auto]|]. intros parsed _.
      apply goodr_show. intros room _. now apply good_accept_sign.
    - apply goodr_show. intros room _. now apply good_accept_sign.
  Qed.
  Lemma good_consensus p rem sh dg data : length dg = 32%nat -> goodr (doc_signed sh) (handle_consensus O p rem sh dg data).
  Proof.
    intros L. unfold handle_consensus. eapply good_bindr; [apply good_read_or; use|]. intros hw _.
    assert (X : match consensus_check p rem (wm_parse hw) with Some (AErr e) => used e | _ => True end).
    { unfold consensus_check. destruct p; try use; match goal with |- context [endo_parse rem] => destruct (endo_parse rem) | _ => destruct (block_parse rem) end; try use; try exact Logic.I;
        match goal with |- context [if ?b then _ else _] => destruct b end; try use; exact Logic.I. }
    destruct (consensus_check p rem (wm_parse hw)) as [r|]; [|apply goodr_panic].
    eapply good_bindr; [apply (good_ares (fun _ => True)); [intros e ->; exact X|auto]|]. intros wm _.
    eapply good_bindr; [apply good_write_or; use|]. intros _ _.
    eapply good_bindr; [apply good_baking_sign|]. intros s Ls. apply goodr_now. now apply signed_form.
  Qed.
  Lemma good_delegation rem sh dg data : length dg = 32%nat -> goodr (doc_signed sh) (handle_delegation C rem sh dg data).
  Proof.
    intros L. unfold handle_delegation. destruct (operation_new rem) as [[branch ops]|]; [|apply goodr_fail; use].
    destruct (eo_next ops) as [| | |o ?]; try (apply goodr_fail; use); [apply goodr_panic|].
    assert (S : goodr (doc_signed sh) (show C (VBakingSign sh dg branch o data))).
    { apply goodr_show. intros room _. cbn [accept]. eapply good_bind; [apply good_baking_sign|]. intros s Ls.
      apply good_ret. now apply signed_form. }
    destruct o; try exact S; apply goodr_fail; use.
  Qed.
  Lemma good_baker_sign sh up : goodr (doc_signed sh) (baker_sign C O sh up).
  Proof.
    unfold baker_sign. eapply good_bindr; [apply (good_option (fun _ => True)); [use|auto]|]. intros c _.
    eapply good_bindr; [apply (good_option (fun _ => True)); [use|auto]|]. intros pa _.
    eapply (good_bindr (fun _ => True)).
    { unfold check_with_stored. eapply good_bind; [apply good_read_or; use|]. intros p _. eapply good_bind; [apply good_key|].
      intros o _. eapply good_bind; [apply (good_option (fun _ => True)); [use|auto]|]. intros; now apply good_ret. }
    intros ok _. eapply good_bindr; [apply good_check; use|]. intros _ _.
    eapply good_bindr; [apply good_digest|]. intros dg L.
    destruct (preemble_parse (uo_data up)) as [rem p| |]; [|apply goodr_fail; use|apply goodr_panic].
    destruct p; try (apply goodr_fail; use); try (now apply good_consensus). now apply good_delegation.
  Qed.
  Lemma goodr_weaken (Q R : bytes -> Prop) m : (forall x, Q x -> R x) -> goodr Q m -> goodr R m.
  Proof.
    intros H G d U. specialize (G d U). destruct (m d) as [[[x|]|e| |] d']; auto; [destruct G; auto|].
    destruct G as (v & G1 & G2). exists v. split; [exact G1|]. intros room Hr d2 U2. specialize (G2 room Hr d2 U2).
    destruct (accept O v room d2) as [[x|e| |] d3]; auto. destruct G2; auto.
  Qed.
  Lemma good_sign_request sh a buf f : (forall up, goodr (doc_signed sh) (f up)) ->
    goodr (doc_signature (nth 2 buf 0) sh) (with_upload a buf f).
  Proof.
    intros F. apply good_with_upload; unfold last_p1, apdu_p1, doc_signature; intros ->; [reflexivity|exact F].
  Qed.
  Lemma good_h_sign sh buf : goodr (doc_signature (nth 2 buf 0) sh) (h_sign C O sh buf).
  Proof. apply good_sign_request. intros; apply good_start_sign. Qed.
  Lemma good_h_baker_sign sh buf : goodr (doc_signature (nth 2 buf 0) sh) (h_baker_sign C O sh buf).
  Proof. apply good_sign_request. intros; apply good_baker_sign. Qed.

  Lemma good_authorize buf : goodr doc_key (h_authorize C O buf).
  Proof.
    unfold h_authorize. eapply good_bindr; [apply good_check; use|]. intros _ _.
    eapply good_bindr; [apply good_curve|]. intros c _. eapply good_bindr; [apply good_payload|]. intros cdata _.
    eapply good_bindr; [apply (good_option (fun _ => True)); [use|auto]|]. intros pa _.
    eapply good_bindr; [apply good_address|]. intros a _. apply goodr_show. intros room _. cbn [accept].
    eapply good_bind; [apply good_pubkey|]. intros pk L. eapply good_bind; [apply good_write_or; use|]. intros _ _.
    apply good_ret. now apply key_form with c.
  Qed.
  Lemma good_setup buf : goodr doc_key (h_setup C O buf).
  Proof.
    unfold h_setup. eapply good_bindr; [apply good_curve|]. intros c _. eapply good_bindr; [apply good_payload|]. intros cdata _.
    eapply good_bindr; [apply good_check; use|]. intros _ _. cbv zeta. eapply good_bindr; [apply good_check; use|]. intros _ _.
    eapply good_bindr; [apply (good_option (fun _ => True)); [use|auto]|]. intros pa _.
    eapply good_bindr; [apply good_address|]. intros a _. apply goodr_show. intros room _. cbn [accept].
    eapply good_bind; [apply good_pubkey|]. intros pk L. eapply good_bind; [apply good_write_or; use|]. intros _ _.
    eapply good_bind; [apply good_write_or; use|]. intros _ _. eapply good_bind; [apply good_write_or; use|]. intros _ _.
    eapply good_bind; [apply good_write_or; use|]. intros _ _. apply good_ret. now apply key_form with c.
  Qed.
  Lemma good_baking_key : good (fun o => forall k, o = Some k -> (length (snd k) <= 10)%nat) read_baking_key.
  Proof. unfold read_baking_key. eapply good_bind; [apply good_read_or; use|]. intros p _. apply good_key. Qed.
  Lemma good_deauthorize buf : goodr (doc_bytes 0) (h_deauthorize C O buf).
  Proof.
    unfold h_deauthorize. eapply good_bindr; [apply good_check; use|]. intros _ _.
    eapply good_bindr; [apply good_baking_key|]. intros o _.
    eapply good_bindr; [apply (good_option (fun _ => True)); [use|auto]|]. intros k _.
    eapply good_bindr; [apply good_address|]. intros a _. apply goodr_show. intros room _. cbn [accept].
    eapply good_bind; [apply good_write_or; use|]. intros _ _. now apply good_ret.
  Qed.
  Lemma good_query wc buf : len buf = 260 -> roomy C 42 -> goodr (doc_path wc) (h_query C O wc buf).
  Proof.
    intros L R. unfold h_query. eapply good_bindr; [apply good_baking_key|]. intros o Ho.
    eapply good_bindr; [apply good_option; [use|exact Ho]|]. intros k Lk.
    eapply good_bindr; [apply good_address|]. intros a _. destruct (needs_review buf).
    - apply goodr_show. intros room Hr. cbn [accept]. destruct (query_answer wc k room) as [out|] eqn:E; [|apply good_panic].
      apply good_ret. destruct (R (VQuery wc k a)) as (r & R1 & R2). rewrite R1 in Hr. injection Hr as <-.
      now apply path_form with k r.
    - destruct (query_answer wc k (len buf)) as [out|] eqn:E; [|apply goodr_panic]. apply goodr_now.
      apply path_form with k (len buf); auto. lia.
  Qed.
  Lemma good_hmac buf : goodr (doc_bytes 32) (h_hmac O buf).
  Proof.
    unfold h_hmac. eapply good_bindr; [apply good_curve|]. intros c _. eapply good_bindr; [apply good_payload|]. intros cdata _.
    destruct cdata as [|n cdata]; [apply goodr_fail; use|]. cbv zeta. eapply good_bindr; [apply good_check; use|]. intros _ _.
    eapply good_bindr; [apply (good_option (fun _ => True)); [use|auto]|]. intros pa _.
    eapply good_bindr; [apply good_sign|]. intros s _. eapply good_bindr; [apply (good_option (fun _ => True)); [use|auto]|]. intros hk _.
    eapply good_bindr; [apply (good_option (fun h => length h = 32%nat)); [use|]|].
    - intros a H. apply (ok_hmac256 _ K _ _ _ H).
    - intros out L. now apply goodr_now.
  Qed.
  Lemma good_reset buf : goodr (doc_bytes 0) (h_reset buf).
  Proof.
    unfold h_reset. eapply good_bindr; [apply good_payload|]. intros pl _. eapply good_bindr; [apply good_check; use|]. intros _ _. cbv zeta.
    eapply good_bindr; [apply good_write_or; use|]. intros _ _. eapply good_bindr; [apply good_write_or; use|]. intros _ _.
    eapply good_bindr; [apply good_read|]. intros r _. destruct r; try (now apply goodr_now).
    eapply good_bindr; [apply good_write_or; use|]. intros _ _. now apply goodr_now.
  Qed.
  Lemma good_main_hwm : goodr (doc_bytes 4) h_main_hwm.
  Proof.
    unfold h_main_hwm. eapply good_bindr; [apply good_read|]. intros [p| |] _;
      [apply goodr_now; unfold doc_bytes; now rewrite be_length|apply goodr_now; unfold doc_bytes; now rewrite be_length|apply goodr_fail; use].
  Qed.
  Lemma good_all_hwm : goodr (doc_bytes 12) h_all_hwm.
  Proof.
    assert (D : goodr (doc_bytes 12) (ret (Now all_default))).
    { apply goodr_now. unfold doc_bytes, all_default. now rewrite !app_length, !be_length. }
    unfold h_all_hwm. eapply good_bindr; [apply good_read|]. intros [p| |] _; [|exact D|apply goodr_fail; use].
    eapply good_bindr; [apply good_read|]. intros [q| |] _; [|exact D|apply goodr_fail; use].
    eapply good_bindr; [apply good_read|]. intros [r| |] _; [|exact D|apply goodr_fail; use].
    apply goodr_now. unfold doc_bytes. now rewrite !app_length, !be_length.
  Qed.
  Lemma good_requested buf : good (fun x => length (snd x) = pubkey_length (fst x)) (requested_key O buf).
  Proof.
    unfold requested_key. eapply good_bind; [apply good_curve|]. intros c _. eapply good_bind; [apply good_payload|]. intros cdata _.
    eapply good_bind; [apply (good_option (fun _ => True)); [use|auto]|]. intros pa _.
    eapply good_bind; [apply good_pubkey|]. intros pk L. apply good_ret. exact L.
  Qed.
  Lemma good_get_public buf : goodr doc_key (h_get_public O buf).
  Proof.
    unfold h_get_public. eapply good_bindr; [apply good_requested|]. intros [c pk] L. apply goodr_now. now apply key_form with c.
  Qed.
  Lemma good_prompt buf : goodr (doc_address O) (h_prompt C O buf).
  Proof.
    unfold h_prompt. eapply good_bindr; [apply good_requested|]. intros [c pk] L.
    eapply good_bindr; [apply (good_sres (fun a => addr_new O c pk = SOk a)); [use|auto]|]. intros a A.
    apply goodr_show. intros room _. now apply answer_form with c.
  Qed.
  Lemma good_get_address buf : goodr (doc_address O) (h_get_address C O buf).
  Proof.
    unfold h_get_address. eapply good_bindr; [apply good_requested|]. intros [c pk] L.
    eapply good_bindr; [apply (good_sres (fun a => addr_new O c pk = SOk a)); [use|auto]|]. intros a A.
    destruct (needs_review buf).
    - apply goodr_show. intros room _. now apply answer_form with c.
    - eapply good_bindr; [now apply answer_form with c|]. intros out H. now apply goodr_now.
  Qed.
  Lemma good_version : goodr (doc_version C) (h_version C).
  Proof.
    apply goodr_now. exists 0, 0. split; [now left|]. split; [now left|]. unfold version_bytes. destruct (cf_version C) as [[a b] c]. reflexivity.
  Qed.
  Lemma good_legacy_version : goodr (doc_legacy_version C) (h_legacy_version C).
  Proof.
    apply goodr_now. unfold doc_legacy_version, version_bytes. destruct (cf_version C) as [[a b] c]. reflexivity.
  Qed.
  Lemma good_git : goodr (doc_bytes 9) (h_git C).
  Proof.
    unfold h_git. destruct (Nat.ltb_spec (length (cf_commit C)) 8); [apply goodr_panic|]. apply goodr_now.
    unfold doc_bytes. rewrite app_length, firstn_length. cbn [length]. lia.
  Qed.

  Lemma at_common ins p1 P m : In (ins, P) (doc_common C O p1) -> goodr P m -> goodr (doc_response C O ins p1) m.
  Proof. intros H. apply goodr_weaken. intros x X. exists P. split; [apply in_or_app; now left|exact X]. Qed.
  Lemma at_baking ins p1 P m : cf_baking C = true -> In (ins, P) (doc_baking p1) -> goodr P m -> goodr (doc_response C O ins p1) m.
  Proof. intros B H. apply goodr_weaken. intros x X. exists P. split; [apply in_or_app; right; now rewrite B|exact X]. Qed.
  Lemma at_wallet ins p1 P m : cf_baking C = false -> In (ins, P) (doc_wallet p1) -> goodr P m -> goodr (doc_response C O ins p1) m.
  Proof. intros B H. apply goodr_weaken. intros x X. exists P. split; [apply in_or_app; right; now rewrite B|exact X]. Qed.

  Ltac common P := apply (at_common _ _ P); [unfold doc_common; cbn [In]; tauto|].
  Ltac baking B P := apply (at_baking _ _ P); [exact B|unfold doc_baking; cbn [In]; tauto|].
  Lemma good_common ins buf : goodr (doc_response C O ins (nth 2 buf 0)) (dispatch_common C O ins buf).
  Proof.
    unfold dispatch_common.
    destruct (N.eqb_spec ins 0x00) as [->|_]; [common (doc_legacy_version C); apply good_legacy_version|].
    destruct (N.eqb_spec ins 0x02) as [->|_]; [common doc_key; apply good_get_public|].
    destruct (N.eqb_spec ins 0x03) as [->|_]; [common (doc_address O); apply good_prompt|].
    destruct (N.eqb_spec ins 0x11) as [->|_]; [common (doc_address O); apply good_get_address|].
    destruct (N.eqb_spec ins 0x09) as [->|_]; [common (doc_bytes 9); apply good_git|].
    destruct (N.eqb_spec ins 0x04) as [->|_]; [common (doc_signature (nth 2 buf 0) false); destruct (cf_baking C); [apply good_h_baker_sign|apply good_h_sign]|].
    destruct (N.eqb_spec ins 0x0F) as [->|_]; [common (doc_signature (nth 2 buf 0) true); destruct (cf_baking C); [apply good_h_baker_sign|apply good_h_sign]|].
    destruct (N.eqb_spec ins 0x12) as [->|_]; [common (doc_signature (nth 2 buf 0) true); apply good_h_sign|].
    destruct (N.eqb_spec ins 0x10) as [->|_]; [common (doc_version C); apply good_version|].
    apply goodr_fail; use.
  Qed.
  Lemma good_dispatch buf : len buf = 260 -> roomy C 42 -> goodr (doc_response C O (nth 1 buf 0) (nth 2 buf 0)) (dispatch C O buf).
  Proof.
    intros L R. unfold dispatch. destruct (negb (apdu_cla buf =? CLA)); [apply goodr_fail; use|].
    cbv zeta. fold (apdu_ins buf). set (ins := apdu_ins buf). clearbody ins. destruct (cf_baking C) eqn:B.
    - destruct (N.eqb_spec ins 0x06) as [->|_]; [baking B (doc_bytes 0); apply good_reset|].
      destruct (N.eqb_spec ins 0x08) as [->|_]; [baking B (doc_bytes 4); apply good_main_hwm|].
      destruct (N.eqb_spec ins 0x0B) as [->|_]; [baking B (doc_bytes 12); apply good_all_hwm|].
      destruct (N.eqb_spec ins 0xA1) as [->|_]; [baking B doc_key; apply good_authorize|].
      destruct (N.eqb_spec ins 0xAC) as [->|_]; [baking B (doc_bytes 0); apply good_deauthorize|].
      destruct (N.eqb_spec ins 0xA7) as [->|_]; [baking B (doc_path false); now apply good_query|].
      destruct (N.eqb_spec ins 0xAD) as [->|_]; [baking B (doc_path true); now apply good_query|].
      destruct (N.eqb_spec ins 0xAF) as [->|_]; [baking B (doc_signature (nth 2 buf 0) true); apply good_h_baker_sign|].
      destruct (N.eqb_spec ins 0x01) as [->|_]; [baking B doc_key; apply good_authorize|].
      destruct (N.eqb_spec ins 0x0C) as [->|_]; [baking B (doc_bytes 0); apply good_deauthorize|].
      destruct (N.eqb_spec ins 0x07) as [->|_]; [baking B (doc_path false); now apply good_query|].
      destruct (N.eqb_spec ins 0x0D) as [->|_]; [baking B (doc_path true); now apply good_query|].
      destruct (N.eqb_spec ins 0x0A) as [->|_]; [baking B doc_key; apply good_setup|].
      destruct (N.eqb_spec ins 0x0E) as [->|_]; [baking B (doc_bytes 32); apply good_hmac|].
      apply good_common.
    - destruct (N.eqb_spec ins 0x05) as [->|_];
        [apply (at_wallet _ _ (doc_signature (nth 2 buf 0) false)); [exact B|unfold doc_wallet; cbn [In]; tauto|apply good_h_sign]|].
      apply good_common.
  Qed.

  (** *** Answers *)
  Definition pending (asked : bytes) (d : dev) : Prop :=
    match d_ui d with
    | None => True
    | Some v => forall room, cf_room C v = Some room -> good (doc_response C O (nth 1 asked 0) (nth 2 asked 0)) (accept O v room)
    end.
  Lemma conforms_ok ins p1 data : doc_response C O ins p1 data -> conforms C O ins p1 (data ++ be 2 (sw Success)).
  Proof. intros H. exists data, 0x9000. split; [reflexivity|]. split; [unfold used_codes; cbn [In]; tauto|exact H]. Qed.
  Lemma conforms_err ins p1 e : used e -> conforms C O ins p1 ([] ++ be 2 (sw e)).
  Proof.
    intros [N H]. exists [], (sw e). split; [reflexivity|]. split; [exact H|]. destruct (N.eqb_spec (sw e) 0x9000) as [E|_]; [|reflexivity].
    destruct e; try discriminate E. now destruct N.
  Qed.
  Definition answer_ok (ins : bytes) (x : answer * dev) : Prop :=
    match fst x with AReply out => conforms C O (nth 1 ins 0) (nth 2 ins 0) out | _ => True end /\ pending ins (snd x).
  Lemma finish_answer ins room (x : outcome reply * dev) :
    match x with
    | (Ok (Now data), d') => doc_response C O (nth 1 ins 0) (nth 2 ins 0) data /\ d_ui d' = None
    | (Ok Later, d') => exists v, d_ui d' = Some v /\ forall room, cf_room C v = Some room -> good (doc_response C O (nth 1 ins 0) (nth 2 ins 0)) (accept O v room)
    | (Err e, d') => used e /\ d_ui d' = None
    | _ => True
    end -> answer_ok ins (finish room x).
  Proof.
    intros H. unfold finish, answer_ok.
    assert (P0 : forall d, d_ui d = None -> pending ins d) by (intros d E; unfold pending; now rewrite E).
    assert (Pr : forall d, pending ins (restart d)) by (intros d; apply P0; destruct d; reflexivity).
    destruct x as [[[data|]|e| |] d].
    - destruct H as [H U]. destruct (room <? _); cbn [fst snd]; split; auto. now apply conforms_ok.
    - destruct H as (v & U & G). cbn [fst snd]. split; [exact Logic.I|]. unfold pending. now rewrite U.
    - destruct H as [H U]. destruct (room <? _); cbn [fst snd]; split; auto. now apply conforms_err.
    - cbn [fst snd]. auto.
    - cbn [fst snd]. auto.
  Qed.

  Lemma good_decide ins f d : d_ui d <> None ->
    (forall v room, d_ui d = Some v -> cf_room C v = Some room -> good (doc_response C O (nth 1 ins 0) (nth 2 ins 0)) (f v room)) ->
    roomy C 42 -> answer_ok ins (decide C f d).
  Proof.
    intros U G R. unfold decide. destruct (d_ui d) as [v|]; [|now destruct U].
    destruct (R v) as (r & R1 & _). rewrite R1. apply finish_answer.
    assert (U0 : d_ui (set_ui None d) = None) by (destruct d; reflexivity).
    specialize (G v r eq_refl R1 _ U0). unfold bind. destruct (f v r (set_ui None d)) as [[x|e| |] d']; auto.
  Qed.
  Lemma good_reject ins v : good (doc_response C O (nth 1 ins 0) (nth 2 ins 0)) (reject v).
  Proof.
    destruct v; cbn [reject]; try (apply good_fail; use).
    intros d U. unfold bind. split; [use|]. destruct d; exact U.
  Qed.
  Lemma idle_step d e : (match e with EPower => False | EApdu _ _ => d_ui d <> None | _ => d_ui d = None end) -> step C O d e = (ANone, d).
  Proof. destruct e; cbn [step]; unfold decide; destruct (d_ui d); intros H; try reflexivity; try discriminate; try contradiction; now destruct H. Qed.
  Lemma busy_step asked d e : roomy C 42 -> event_ok e -> pending asked d ->
    (match e with EPower => True | EApdu _ _ => d_ui d = None | _ => d_ui d <> None end) ->
    answer_ok (match e with EApdu buf _ => buf | _ => asked end) (step C O d e).
  Proof.
    intros R E P H. destruct e as [buf rx| | | |]; cbn [step].
    - rewrite H. apply finish_answer. destruct E as [E _]. destruct (apdu_read_ok buf rx).
      + apply good_dispatch; auto. unfold len. now rewrite E.
      + split; [use|exact H].
    - apply good_decide; auto. intros v room U. unfold pending in P. rewrite U in P. apply P.
    - apply good_decide; auto. intros v room U _. apply good_reject.
    - apply good_decide; auto. intros v room U _. apply good_fail; use.
    - split; [exact Logic.I|]. unfold pending. destruct d; exact Logic.I.
  Qed.

  Lemma finish_answers room x : fst (finish room x) <> ANone.
  Proof. destruct x as [[[data|]|e| |] d]; unfold finish; try destruct (room <? _); discriminate. Qed.
  Lemma busy_answers d e : (match e with EPower => True | EApdu _ _ => d_ui d = None | _ => d_ui d <> None end) ->
    fst (step C O d e) <> ANone.
  Proof.
    intros H. destruct e; cbn [step]; unfold decide; [rewrite H; apply finish_answers|..|discriminate];
      (destruct (d_ui d); [apply finish_answers|now destruct H]).
  Qed.
  Lemma answers_conform d asked es : roomy C 42 -> Forall event_ok es -> pending asked d ->
    Forall (fun x => conforms C O (nth 1 (fst x) 0) (nth 2 (fst x) 0) (snd x)) (answered C O d asked es).
  Proof.
    intros R Es. revert d asked. induction Es as [|e es E _ IH]; intros d asked P; [constructor|].
    assert (D : (match e with EPower => False | EApdu _ _ => d_ui d <> None | _ => d_ui d = None end) \/
                (match e with EPower => True | EApdu _ _ => d_ui d = None | _ => d_ui d <> None end)).
    { destruct e; try (now right); destruct (d_ui d); (now left) || (now right) || (left; discriminate) || (right; discriminate). }
    cbn [answered]. cbv zeta. destruct D as [D|D].
    - rewrite (idle_step d e D). cbn [app]. now apply IH.
    - pose proof (busy_step asked d e R E P D) as [A Q]. destruct (step C O d e) as [a d'] eqn:S. cbn [fst snd] in A, Q.
      destruct a; cbn [app]; [constructor; [exact A|]| | |]; try (apply IH; exact Q).
      now destruct (busy_answers d e D); rewrite S.
  Qed.
End Facts.
