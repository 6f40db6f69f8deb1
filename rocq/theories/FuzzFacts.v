(** What the fuzz targets can find. *)
From Coq Require Import NArith ZArith Bool Arith List Lia.
From Coq Require Import ZifyBool ZifyNat ZifyN.
From Verif Require Import Base BaseFacts Flash FlashFacts Codecs CodecsSpec CodecsFacts Upload UploadSpec UploadFacts UploadExamples
  Baking BakingExamples Operations OperationsFacts Oracles Address AddressSpec AddressFacts AddressExamples
  Device DeviceSpec DeviceFacts DeviceHist DeviceProofs DeviceSigs DeviceReviews DeviceDemo DeviceExamples
  ServiceSpec StopSpec StopFacts StopExamples Mock MockSpec MockFacts Fuzz.
Import ListNotations.
Open Scope list_scope.
Open Scope N_scope.

(** ** Operations *)

Lemma fuzz_ops_all fuel : forall e, fuzz_ops fuel e =
  match eo_all fuel e with AllFuel => Hangs | AllPanic => Crashed | AllErr | AllOk _ => Done end.
Proof.
  induction fuel as [|fuel IH]; intros e; [reflexivity|]. cbn [fuzz_ops eo_all].
  destruct (eo_next e) as [| | |o e']; try reflexivity. rewrite IH. destruct (eo_all fuel e'); reflexivity.
Qed.
Lemma operations_target data : fuzz_operations (S (length data)) data = Done.
Proof.
  unfold fuzz_operations, operation_new. destruct (take 32 data) as [rem br| |] eqn:T; try reflexivity.
  apply take_inv in T as [-> L]. rewrite fuzz_ops_all.
  pose proof (eo_all_spec (S (length (br ++ rem))) rem 0 ltac:(lia)) as S. unfold eo_new. rewrite app_length in S |- *.
  specialize (S ltac:(lia)). destruct (eo_all _ _); try reflexivity; contradiction.
Qed.

(** ** Commands *)

Definition fuzz_input (x : bytes) : bytes * N := (fuzz_buffer x, 260).

Lemma fuzz_buffer_ok x : bytes_ok x -> apdu_ok (fuzz_buffer x).
Proof.
  intros H. unfold fuzz_buffer, pad_to. split.
  - rewrite app_length. unfold zeros. rewrite repeat_length, firstn_length. lia.
  - apply bytes_ok_app. split; [apply bytes_ok_firstn; exact H|apply zeros_ok].
Qed.

Lemma panic_pair a1 a2 : same_pair Panicked a1 a2 -> a1 = ADied \/ a2 = ADied.
Proof. inversion 1; auto. Qed.

Section Target.
  Variable C : config.
  Variable O : oracles.
  Hypothesis K : oracles_ok O.
  Hypothesis Lc : (8 <= length (cf_commit C))%nat.
  Hypothesis Rm : roomy C 134.

  Lemma no_faults es : Forall event_ok es -> len es < 2 ^ 64 ->
    Forall (fun f => f = WOk) (d_faults (snd (run C O (dev_fresh [] []) es))).
  Proof.
    intros E L.
    assert (D : dok (fun _ _ => True) (fun f => f = WOk) (fun _ => 0 + len es) (snd (run C O (dev_fresh [] []) es))).
    { apply (run_dok C O (fun _ _ => True) (fun f => f = WOk)); auto.
      all: try (intros B w k pl f; intros; destruct (wear_write_at w k pl f) as [w1 r]; exact Logic.I).
      apply dok_fresh; auto. }
    apply D.
  Qed.

  Lemma died_fatal es e : Forall event_ok es -> event_ok e -> e <> EPower -> len es + 1 < 2 ^ 64 ->
    (fst (step C O (snd (run C O (dev_fresh [] []) es)) e) = ADied <->
     fatal C O (snd (run C O (dev_fresh [] []) es)) (uploading C O (dev_fresh [] []) None es) e).
  Proof.
    intros Es Ee Np L.
    pose proof (stops_exactly C O [] es e K Lc Rm (Forall_nil _) Es Ee ltac:(lia)) as [S1 S2]. cbv zeta in S1, S2. split.
    - intros H. destruct (S1 H) as [X|[X|X]]; [contradiction| |exact X].
      destruct X as (l & t & X). pose proof (no_faults es Es ltac:(lia)) as F. rewrite X in F.
      apply Forall_app in F as [_ F]. inversion F as [|? ? Y _]. discriminate Y.
    - intros H. apply S2. right. right. exact H.
  Qed.

  Lemma target_from xs : forall es0, Forall event_ok es0 -> Forall bytes_ok xs -> len es0 + 2 * len xs + 1 < 2 ^ 64 ->
    d_ui (snd (run C O (dev_fresh [] []) es0)) = None ->
    (In Panicked (fst (mock_run C O (snd (run C O (dev_fresh [] []) es0)) (map fuzz_input xs))) <->
     exists pre x post, xs = pre ++ x :: post /\
       let es := es0 ++ approving (map fuzz_input pre) in
       fatal C O (snd (run C O (dev_fresh [] []) es)) (uploading C O (dev_fresh [] []) None es) (EApdu (fuzz_buffer x) 260)).
  Proof.
    induction xs as [|x xs IH]; intros es0 E0 Ex L D.
    { cbn [map mock_run fst]. split; [intros []|]. intros (pre & x & post & X & _). destruct pre; discriminate X. }
    inversion Ex as [|? ? Bx Ex']; subst. set (d := snd (run C O (dev_fresh [] []) es0)) in *.
    pose proof (fuzz_buffer_ok x Bx) as Ab. set (buf := fuzz_buffer x) in *.
    assert (Ll : len (x :: xs) = 1 + len xs) by (unfold len; cbn [length]; lia).
    assert (E1 : Forall event_ok (es0 ++ [EApdu buf 260])) by (apply Forall_app; split; [exact E0|]; constructor; [exact Ab|constructor]).
    assert (E2 : Forall event_ok ((es0 ++ [EApdu buf 260]) ++ [EApprove])) by (apply Forall_app; split; [exact E1|]; constructor; [exact Logic.I|constructor]).
    assert (R1 : snd (step C O d (EApdu buf 260)) = snd (run C O (dev_fresh [] []) (es0 ++ [EApdu buf 260]))).
    { symmetry. rewrite (run_app C O (dev_fresh [] []) es0 [EApdu buf 260]), run_one. reflexivity. }
    assert (R2 : snd (step C O (snd (step C O d (EApdu buf 260))) EApprove)
      = snd (run C O (dev_fresh [] []) ((es0 ++ [EApdu buf 260]) ++ [EApprove]))).
    { symmetry. rewrite (run_app C O (dev_fresh [] []) (es0 ++ [EApdu buf 260]) [EApprove]), run_one. f_equal. f_equal. symmetry. exact R1. }
    destruct (mock_pair C O K Rm d buf 260 D Ab) as [P Q].
    { rewrite R1. intros v V. exact (reach_view_calm C O [] _ v E1 V). }
    cbv zeta in P, Q.
    assert (L1 : len (es0 ++ [EApdu buf 260]) = len es0 + 1) by (unfold len; rewrite app_length; cbn [length]; lia).
    pose proof (died_fatal es0 (EApdu buf 260) E0 Ab ltac:(discriminate) ltac:(lia)) as F1. fold d in F1.
    assert (F2 : fst (step C O (snd (step C O d (EApdu buf 260))) EApprove) <> ADied).
    { rewrite R1. intros X. apply (died_fatal (es0 ++ [EApdu buf 260]) EApprove E1 Logic.I ltac:(discriminate) ltac:(lia)) in X.
      destruct X as (b & rx & ins & up & k & p & Y & _). discriminate Y. }
    cbn [map mock_run]. change (fuzz_input x) with (buf, 260). cbv iota.
    destruct (mock_step C O d buf 260) as [[a o|] d1]; cbn [fst snd] in P, Q.
    - destruct (Q ltac:(discriminate)) as [Q1 Q2]. rewrite R2 in Q1, Q2. subst d1.
      assert (L2 : len ((es0 ++ [EApdu buf 260]) ++ [EApprove]) = len es0 + 2) by (unfold len in *; rewrite app_length; cbn [length]; lia).
      specialize (IH _ E2 Ex' ltac:(lia) Q2).
      set (d2 := snd (run C O (dev_fresh [] []) ((es0 ++ [EApdu buf 260]) ++ [EApprove]))) in *.
      assert (Nd : fst (step C O d (EApdu buf 260)) <> ADied).
      { intros X. rewrite X in P. inversion P. }
      assert (A : forall pre, (es0 ++ [EApdu buf 260]) ++ [EApprove] ++ approving (map fuzz_input pre) = es0 ++ approving (map fuzz_input (x :: pre))).
      { intros pre. rewrite <- app_assoc. reflexivity. }
      split.
      + intros Hin. assert (Hin' : In Panicked (fst (mock_run C O d2 (map fuzz_input xs)))).
        { destruct (mock_run C O d2 (map fuzz_input xs)) as [l d3]. cbn [fst] in *. destruct Hin as [Hin|Hin]; [discriminate Hin|exact Hin]. }
        apply IH in Hin' as (pre & y & post & -> & Fy). exists (x :: pre), y, post. split; [reflexivity|].
        cbv zeta in *. rewrite <- app_assoc, A in Fy. exact Fy.
      + intros (pre & y & post & X & Fy). destruct pre as [|x' pre].
        * injection X as <- <-. contradiction Nd. apply F1. cbv zeta in Fy. change (approving (map fuzz_input [])) with (@nil event) in Fy.
          rewrite app_nil_r in Fy. exact Fy.
        * injection X as <- ->.
          assert (Hin' : In Panicked (fst (mock_run C O d2 (map fuzz_input (pre ++ y :: post))))).
          { apply IH. exists pre, y, post. split; [reflexivity|]. cbv zeta in *. rewrite <- app_assoc, A. exact Fy. }
          destruct (mock_run C O d2 (map fuzz_input (pre ++ y :: post))) as [l d3]. cbn [fst] in *. right. exact Hin'.
    - split; [|intros _; cbn [fst]; now left]. intros _. exists [], x, xs. split; [reflexivity|].
      cbv zeta. change (approving (map fuzz_input [])) with (@nil event). rewrite app_nil_r. apply F1.
      destruct (panic_pair _ _ P) as [X|X]; [exact X|contradiction].
  Qed.
End Target.

Lemma apdu_target C O xs : oracles_ok O -> (8 <= length (cf_commit C))%nat -> roomy C 134 ->
  Forall bytes_ok xs -> 2 * len xs + 1 < 2 ^ 64 ->
  (In Panicked (fuzz_apdu C O xs) <->
   exists pre x post, xs = pre ++ x :: post /\
     let es := approving (map (fun x => (fuzz_buffer x, 260)) pre) in
     fatal C O (snd (run C O (dev_fresh [] []) es)) (uploading C O (dev_fresh [] []) None es) (EApdu (fuzz_buffer x) 260)).
Proof.
  intros K Lc Rm B L. exact (target_from C O K Lc Rm xs [] (Forall_nil _) B L eq_refl).
Qed.

Lemma wallet_never_crashes C O xs : oracles_ok O -> (8 <= length (cf_commit C))%nat -> roomy C 134 -> cf_baking C = false ->
  Forall bytes_ok xs -> 2 * len xs + 1 < 2 ^ 64 -> ~ In Panicked (fuzz_apdu C O xs).
Proof.
  intros K Lc Rm W B L X. apply (apdu_target C O xs K Lc Rm B L) in X as (pre & x & post & _ & F). cbv zeta in F.
  destruct F as (buf & rx & ins & up & k & p & _ & _ & U & _). unfold upload_command in U. rewrite W in U.
  destruct (existsb _ [4; 5; 15; 18]); discriminate U.
Qed.

Lemma fresh_no_key q : wear_read (d_key (dev_fresh [] [])) <> Some (RData q).
Proof.
  assert (R : wear_read (wear_fresh 1) = Some RUninit) by (apply read_fresh; lia).
  unfold dev_fresh. cbv beta iota delta [d_key]. rewrite R. discriminate.
Qed.

(** A single input does not crash a fresh process. *)
Lemma one_input C O x : oracles_ok O -> (8 <= length (cf_commit C))%nat -> roomy C 134 -> bytes_ok x ->
  ~ In Panicked (fuzz_apdu C O [x]).
Proof.
  intros K Lc Rm B X.
  apply (apdu_target C O [x] K Lc Rm) in X; [|constructor; [exact B|constructor]|vm_compute; reflexivity].
  destruct X as (pre & y & post & E & F). destruct pre as [|z pre].
  2:{ injection E as _ E. destruct pre; discriminate E. }
  cbv zeta in F. change (approving (map (fun x => (fuzz_buffer x, 260)) [])) with (@nil event) in F.
  change (snd (run C O (dev_fresh [] []) [])) with (dev_fresh [] []) in F.
  destruct F as (buf & rx & ins & up & k & p & _ & _ & _ & _ & (q & Q & _) & _).
  exact (fresh_no_key q Q).
Qed.

(** Four inputs that do: the last one is a block with a short fitness. *)
Definition crash : list bytes :=
  let c ins p1 payload := 0x80 :: ins :: p1 :: 0 :: len payload :: payload in
  [c 0xA1 1 (path_serialize demo_path); c 0x06 0 (be 4 1499999);
   c 0x04 0 (path_serialize demo_path); c 0x04 0x81 (0x11 :: BakingExamples.demo_short_block)].
Lemma crash_case : (8 <= length (cf_commit demo_config))%nat /\ roomy demo_config 134 /\ Forall bytes_ok crash /\
  In Panicked (fuzz_apdu demo_config demo_oracles crash) /\
  ~ In Panicked (fuzz_apdu demo_config demo_oracles (firstn 3 crash)).
Proof.
  split; [vm_compute; repeat constructor|]. split; [exact room_134|].
  split; [repeat (apply Forall_cons; [apply bytes_okb_ok; vm_compute; reflexivity|]); apply Forall_nil|].
  split.
  - assert (E : nth_error (fuzz_apdu demo_config demo_oracles crash) 3 = Some Panicked) by (vm_compute; reflexivity).
    exact (nth_error_In _ _ E).
  - intros X. assert (E : forallb (fun s => match s with Panicked => false | _ => true end) (fuzz_apdu demo_config demo_oracles (firstn 3 crash)) = true)
      by (vm_compute; reflexivity).
    exact (Bool.diff_false_true (proj1 (forallb_forall _ _) E Panicked X)).
Qed.
