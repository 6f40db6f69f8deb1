(** Cases of the documented protocol. *)
From Coq Require Import NArith Bool List Lia.
From Verif Require Import Base BaseFacts Codecs Upload Oracles Address AddressSpec AddressExamples Device DeviceSpec DeviceFacts DeviceDemo DeviceCases UploadExamples
  ServiceSpec ClientExamples DocSpec DocFacts.
Import ListNotations.
Open Scope list_scope.
Open Scope N_scope.

Lemma doc_answers C O f uf es : oracles_ok O -> roomy C 42 -> Forall event_ok es ->
  Forall (fun x => conforms C O (nth 1 (fst x) 0) (nth 2 (fst x) 0) (snd x)) (answered C O (dev_fresh f uf) [] es).
Proof. intros K R E. apply answers_conform; auto. exact Logic.I. Qed.

Lemma be2_last a b l m : l ++ be 2 a = m ++ be 2 b -> a mod 2 ^ 16 = b mod 2 ^ 16.
Proof.
  intros H.
  assert (E : be 2 a = be 2 b).
  { apply (f_equal (fun x => skipn (length x - 2) x)) in H. rewrite !skipn_app, !app_length, !be_length in H.
    replace (length l + 2 - 2 - length l)%nat with 0%nat in H by lia. replace (length m + 2 - 2 - length m)%nat with 0%nat in H by lia.
    replace (length l + 2 - 2)%nat with (length l) in H by lia. replace (length m + 2 - 2)%nat with (length m) in H by lia.
    rewrite !skipn_all in H. exact H. }
  apply (f_equal unbe) in E. rewrite !unbe_be in E. exact E.
Qed.
Lemma never_sent C O f uf es code : oracles_ok O -> roomy C 42 -> Forall event_ok es ->
  In code [0x6982; 0x6983; 0x6D00; 0x6F00] ->
  Forall (fun x => ~ exists data, snd x = data ++ be 2 code) (answered C O (dev_fresh f uf) [] es).
Proof.
  intros K R E I0. eapply Forall_impl; [|apply doc_answers; eassumption]. cbn beta.
  intros [q out] (data & code' & X0 & H & _) [data' X]. cbn [snd] in X0, X. rewrite X0 in X. apply be2_last in X. unfold used_codes in H. cbn [In] in H, I0.
  repeat destruct I0 as [<-|I0]; try contradiction; repeat destruct H as [<-|H]; try contradiction; discriminate X.
Qed.

(** A baking app: version, key, authorisation, query, a block in two packets. *)
Definition doc_events : list event :=
  [send 0x10 0 0 []; send 0x02 0 0 (path_serialize demo_path); send 0xA1 1 0 (path_serialize demo_path); EApprove;
   send 0xAD 0 0 []; send 0xFF 0 0 []; reset_to 1] ++ send_message 4 demo_tb_block ++ [send 0x0B 0 0 []].
Lemma doc_case : Forall event_ok doc_events /\ roomy demo_config 42 /\
  map (fun x => (nth 1 (fst x) 0, len (snd x))) (answered demo_config demo_oracles (dev_fresh [] []) [] doc_events) =
  [(0x10, 11); (0x02, 36); (0xA1, 36); (0xAD, 16); (0xFF, 2); (6, 2); (4, 2); (4, 66); (0x0B, 14)].
Proof.
  split; [|split].
  - apply events_okb_ok. vm_compute. reflexivity.
  - intros v. exists 200. split; [reflexivity|lia].
  - vm_compute. reflexivity.
Qed.

Definition undocumented_events : list event :=
  [EApdu (apdu 4 0 0 []) 4; send 0x11 0 0 [9]; send 0xA7 0 0 []; send 0x11 0 9 (path_serialize demo_path);
   send 4 0 0 (path_serialize demo_path); send 0x12 1 0 [1]].
Lemma undocumented code : In code [0x6700; 0x6984; 0x6985; 0x6B00; 0x9001] -> ~ In code doc_codes /\
  exists C O es x, oracles_ok O /\ roomy C 42 /\ Forall event_ok es /\
    In x (answered C O (dev_fresh [] []) [] es) /\ snd x = be 2 code.
Proof.
  intros H. split; [cbn [In] in H; unfold doc_codes; repeat destruct H as [<-|H]; try contradiction; cbn; intuition discriminate|].
  exists demo_config, demo_oracles, undocumented_events.
  assert (A : map snd (answered demo_config demo_oracles (dev_fresh [] []) [] undocumented_events)
    = [be 2 0x6700; be 2 0x6984; be 2 0x6985; be 2 0x6B00; be 2 0x9000; be 2 0x9001]) by (vm_compute; reflexivity).
  assert (B : In (be 2 code) (map snd (answered demo_config demo_oracles (dev_fresh [] []) [] undocumented_events))).
  { rewrite A. cbn [In] in H |- *. repeat destruct H as [<-|H]; try contradiction; tauto. }
  apply in_map_iff in B. destruct B as (x & B1 & B2). exists x.
  refine (conj demo_oracles_ok (conj _ (conj _ (conj B2 B1)))).
  - intros v. exists 200. split; [reflexivity|lia].
  - apply events_okb_ok. vm_compute. reflexivity.
Qed.

(** Instruction 5 is documented to take data that are already hashed. *)
Lemma unsafe_is_sign C O d p1 p2 t rx : cf_baking C = false ->
  step C O d (EApdu (0x80 :: 0x05 :: p1 :: p2 :: t) rx) = step C O d (EApdu (0x80 :: 0x04 :: p1 :: p2 :: t) rx).
Proof.
  intros B. cbn [step]. destruct (d_ui d); [reflexivity|]. unfold dispatch, dispatch_common. rewrite B. reflexivity.
Qed.
Lemma unsafe_case : cf_baking wallet_config = false /\
  snd (step wallet_config demo_oracles (dev_fresh [] []) (send 5 0 0 (path_serialize demo_path))) <> dev_fresh [] [].
Proof. split; [reflexivity|]. intros H. apply (f_equal (fun d => u_init_len (d_up d))) in H. vm_compute in H. discriminate H. Qed.
