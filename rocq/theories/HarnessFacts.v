(** Proofs about the harness of the unit tests. *)
From Coq Require Import NArith ZArith Bool Arith List Lia ZifyBool ZifyNat ZifyN.
From Verif Require Import Base BaseFacts Flash FlashFacts Codecs CodecsSpec CodecsFacts Upload UploadSpec UploadFacts
  Baking BakingSpec Operations Oracles Address Device DeviceSpec DeviceFacts DeviceProofs DeviceSigs DeviceLive DeviceAdmin
  ServiceSpec StopSpec StopFacts StopExamples IdealSpec IdealReads IdealFacts Mock MockSpec MockFacts Harness HarnessSpec.
Import ListNotations.
Open Scope N_scope.

(** ** Packets *)

Definition t_buf (c : tcmd) : bytes := pad_to 260 (t_serialize c).
Definition t_rx (c : tcmd) : N := len (t_serialize c).
Definition cmd_ok (c : tcmd) : Prop :=
  t_ins c < 256 /\ t_p1 c < 256 /\ t_p2 c < 256 /\ bytes_ok (t_data c) /\ (length (t_data c) <= 255)%nat.

Lemma t_length c : length (t_serialize c) = (5 + length (t_data c))%nat.
Proof. unfold t_serialize. rewrite app_length. reflexivity. Qed.
Lemma t_buf_ok c : cmd_ok c -> apdu_ok (t_buf c).
Proof.
  intros (Hi & H1 & H2 & Hd & Hl). unfold t_buf, pad_to. split.
  - rewrite app_length. unfold zeros. rewrite repeat_length, t_length. lia.
  - apply Forall_app. split; [|apply zeros_ok]. unfold t_serialize. apply Forall_app. split; [|exact Hd].
    assert (X : len (t_data c) mod 256 < 256) by (apply N.mod_lt; lia).
    constructor; [reflexivity|]. do 4 (constructor; [assumption|]). constructor.
Qed.
Lemma t_fields c : nth 0 (t_buf c) 0 = 0x80 /\ nth 1 (t_buf c) 0 = t_ins c /\ nth 2 (t_buf c) 0 = t_p1 c /\
  nth 3 (t_buf c) 0 = t_p2 c /\ nth 4 (t_buf c) 0 = len (t_data c) mod 256.
Proof. split; [reflexivity|]. split; [reflexivity|]. split; [reflexivity|]. split; reflexivity. Qed.
Lemma t_pay c : cmd_ok c -> pay (t_buf c) = t_data c.
Proof.
  intros (_ & _ & _ & _ & Hl). unfold pay. destruct (t_fields c) as (_ & _ & _ & _ & ->).
  rewrite N.mod_small by (unfold len; lia). unfold len. rewrite Nat2N.id.
  unfold t_buf, pad_to, t_serialize. cbn [app skipn]. rewrite firstn_app, firstn_all, Nat.sub_diag. cbn [firstn].
  now rewrite app_nil_r.
Qed.

Lemma retcode_app a b c : retcode (a ++ [b; c]) = b * 256 + c.
Proof.
  unfold retcode. rewrite app_length. cbn [length]. replace (length a + 2 - 2)%nat with (length a) by lia.
  rewrite skipn_app, skipn_all, Nat.sub_diag. cbn [skipn app]. unfold unbe. cbn [fold_left]. lia.
Qed.

(** ** Pieces *)

Lemma pieces_spec fuel : forall l, (length l <= fuel)%nat ->
  concat (pieces fuel l) = l /\ Forall (fun p => (1 <= length p <= 250)%nat) (pieces fuel l) /\
  (length (pieces fuel l) <= (length l + 249) / 250)%nat /\ (l <> [] -> pieces fuel l <> []).
Proof.
  induction fuel as [|fuel IH]; intros l H.
  - destruct l; [|cbn [length] in H; lia]. cbn [pieces concat length]. split; [reflexivity|]. split; [constructor|].
    split; [apply Nat.le_0_l|]. intros X; now contradiction X.
  - destruct l as [|x l]; [cbn [pieces concat length]; split; [reflexivity|]; split; [constructor|];
      split; [apply Nat.le_0_l|]; intros X; now contradiction X|].
    cbn [pieces]. set (y := x :: l) in *. assert (Ly : (1 <= length y)%nat) by (subst y; cbn [length]; lia).
    destruct (IH (skipn T_CHUNK y)) as (A & B & D & _); [rewrite skipn_length; unfold T_CHUNK; lia|].
    cbn [concat length]. split; [rewrite A; apply firstn_skipn|]. split; [|split].
    + constructor; [|exact B]. rewrite firstn_length. unfold T_CHUNK. lia.
    + rewrite skipn_length in D. unfold T_CHUNK in *.
      destruct (Nat.le_gt_cases (length y) 250) as [G|G].
      * replace (length y - 250)%nat with 0%nat in D by lia. change ((0 + 249) / 250)%nat with 0%nat in D.
        assert (1 <= (length y + 249) / 250)%nat by (apply Nat.div_le_lower_bound; lia). lia.
      * replace (length y + 249)%nat with (length y - 250 + 249 + 1 * 250)%nat by lia. rewrite Nat.div_add by lia. lia.
    + intros _. discriminate.
Qed.

(** ** The device, the ideal app and the test build *)

Section Flow.
  Variable C : config.
  Variable O : oracles.
  Hypothesis K : oracles_ok O.
  Hypothesis Rm : roomy C 134.

  Record related (es : list event) (s : ideal) (d : dev) : Prop := mkRelated {
    r_events : Forall event_ok es;
    r_dev : d = snd (run C O (dev_fresh [] []) es);
    r_linked : linked (fun _ => len es) s d;
    r_idle : i_review s = None
  }.
  Lemma related_ui es s d : related es s d -> d_ui d = None.
  Proof. intros R. rewrite (c_ui _ _ _ (k_core _ _ _ (r_linked _ _ _ R))), (r_idle _ _ _ R). reflexivity. Qed.
  Lemma related_log es s d : related es s d -> d_log d = i_sigs s.
  Proof. intros R. exact (c_log _ _ _ (k_core _ _ _ (r_linked _ _ _ R))). Qed.

  Lemma next_run es d e : d = snd (run C O (dev_fresh [] []) es) ->
    snd (step C O d e) = snd (run C O (dev_fresh [] []) (es ++ [e])).
  Proof. intros ->. now rewrite (DeviceSigs.run_app C O), (run_one C O). Qed.

  Lemma len_snoc {A} (l : list A) x : len (l ++ [x]) = len l + 1.
  Proof. unfold len. rewrite app_length. cbn [length]. lia. Qed.

  Lemma process_related es s d c : related es s d -> cmd_ok c -> len es + 2 < 2 ^ 64 ->
    let p := ideal_step C O s (EApdu (t_buf c) (t_rx c)) in
    let q := ideal_step C O (snd p) EApprove in
    match fst p, fst q with
    | AReply x, _ => i_review (snd p) = None -> (2 <= length x)%nat -> exists es' d', process C O d c = (Some x, d') /\
        related es' (snd p) d' /\ len es' = len es + 2
    | APending, AReply x => i_review (snd q) = None -> (2 <= length x)%nat -> exists es' d', process C O d c = (Some x, d') /\
        related es' (snd q) d' /\ len es' = len es + 2
    | ADied, _ => fst (process C O d c) = None
    | _, _ => True
    end.
  Proof.
    intros R Hc L p q. assert (B2 : len es + 1 + 1 < 2 ^ 64) by (clear - L; lia). pose proof (t_buf_ok c Hc) as Ab.
    assert (E1 : Forall event_ok (es ++ [EApdu (t_buf c) (t_rx c)])).
    { apply Forall_app. split; [apply R|]. constructor; [exact Ab|constructor]. }
    assert (E2 : Forall event_ok ((es ++ [EApdu (t_buf c) (t_rx c)]) ++ [EApprove])).
    { apply Forall_app. split; [exact E1|]. constructor; [exact Logic.I|constructor]. }
    pose proof (next_run es d (EApdu (t_buf c) (t_rx c)) (r_dev _ _ _ R)) as N1.
    pose proof (next_run _ _ EApprove N1) as N2.
    destruct (step_linked C O (fun _ => len es) ltac:(intros; lia) s d (EApdu (t_buf c) (t_rx c)) (r_linked _ _ _ R) Ab) as [S1 L1].
    assert (L1' : linked (fun _ => len es + 1) (snd p) (snd (step C O d (EApdu (t_buf c) (t_rx c))))) by exact L1.
    destruct (step_linked C O (fun _ => len es + 1) (fun _ => B2) _ _ EApprove L1' Logic.I) as [S2 L2].
    assert (L2' : linked (fun _ => len es + 2) (snd q) (snd (step C O (snd (step C O d (EApdu (t_buf c) (t_rx c)))) EApprove))).
    { replace (len es + 2) with (len es + 1 + 1) by lia. exact L2. }
    destruct (mock_pair C O K Rm d (t_buf c) (t_rx c) (related_ui _ _ _ R) Ab) as [P Q].
    { rewrite N1. intros v V. exact (reach_view_calm C O [] _ v E1 V). }
    cbv zeta in P, Q. rewrite S1, S2 in P. fold p in P, S1. fold q in P.
    assert (Pr : process C O d c = match mock_step C O d (t_buf c) (t_rx c) with
         | (Saw a o, d') => let out := match o with Some b => b | None => a end in
           if (length out <? 2)%nat then (None, d') else (Some out, d')
         | (Panicked, d') => (None, d') end).
    { unfold process. fold (t_buf c). fold (t_rx c). destruct Hc as (_ & _ & _ & _ & Hl).
      replace (260 <? length (t_serialize c))%nat with false by (rewrite t_length; lia). reflexivity. }
    rewrite Pr.
    assert (Nq : i_review (snd p) = None -> q = (ANone, snd p)).
    { intros X. unfold q. cbn [ideal_step]. unfold decided. now rewrite X. }
    assert (Fin : forall s', linked (fun _ => len es + 2) s' (snd (step C O (snd (step C O d (EApdu (t_buf c) (t_rx c)))) EApprove)) ->
       i_review s' = None -> related ((es ++ [EApdu (t_buf c) (t_rx c)]) ++ [EApprove]) s'
         (snd (step C O (snd (step C O d (EApdu (t_buf c) (t_rx c)))) EApprove)) /\
       len ((es ++ [EApdu (t_buf c) (t_rx c)]) ++ [EApprove]) = len es + 2).
    { intros s' Ls Is. split; [|rewrite !len_snoc; lia]. constructor; [exact E2|exact N2| |exact Is].
      rewrite !len_snoc. replace (len es + 1 + 1) with (len es + 2) by lia. exact Ls. }
    destruct (mock_step C O d (t_buf c) (t_rx c)) as [sn dm]. cbn [fst snd] in P, Q.
    destruct p as [a1 s1] eqn:Ep. destruct q as [a2 s2] eqn:Eq. cbn [fst snd] in *.
    inversion P; subst; cbn [fst snd].
    - intros I1 Lx. destruct (Q ltac:(discriminate)) as [-> _].
      specialize (Nq I1). injection Nq as ->.
      destruct (Fin s1 L2' I1) as [F1 F2]. eexists _, _. split; [|split; [exact F1|exact F2]].
      cbv zeta. replace (length a <? 2)%nat with false by lia. reflexivity.
    - intros I1 Lx. destruct (Q ltac:(discriminate)) as [-> _].
      destruct (Fin s2 L2' I1) as [F1 F2]. eexists _, _. split; [|split; [exact F1|exact F2]].
      cbv zeta. replace (length out <? 2)%nat with false by lia. reflexivity.
    - reflexivity.
    - exact Logic.I.
  Qed.

  (** ** Requests of the ideal app *)

  Hypothesis Cb : cf_baking C = true.

  Ltac asked := unfold request; cbv zeta;
    match goal with H : cmd_ok ?c |- context [t_buf ?c] =>
      replace ((t_rx c <? 5) || (260 <? t_rx c)) with false
        by (unfold t_rx, len; rewrite t_length; destruct H as (_ & _ & _ & _ & H); lia);
      destruct (t_fields c) as (-> & -> & _ & _ & _)
    end;
    unfold commands; rewrite Cb; cbn [t_ins]; reflexivity.
  Lemma request_reset l s : let c := mkCmd 0x06 0 0 l in cmd_ok c -> request C O (t_buf c) (t_rx c) s = reset (t_buf c) s.
  Proof. intros c H. asked. Qed.
  Lemma request_authorise p2 l s : let c := mkCmd 0xA1 1 p2 l in cmd_ok c ->
    request C O (t_buf c) (t_rx c) s = authorize C O (t_buf c) s.
  Proof. intros c H. asked. Qed.
  Lemma request_bake p1 p2 l s : let c := mkCmd 0xAF p1 p2 l in cmd_ok c ->
    request C O (t_buf c) (t_rx c) s = IdealSpec.packet AccBaking (t_buf c) s (bake C O true).
  Proof. intros c H. asked. Qed.

  Lemma ideal_asks s buf rx : i_review s = None -> ideal_step C O s (EApdu buf rx) = conclude 260 (request C O buf rx s).
  Proof. intros H. cbn [ideal_step]. now rewrite H. Qed.
  Lemma give_short out s : len out + 2 <= 260 -> conclude 260 (Give out s) = (AReply (out ++ [0x90; 0x00]), s).
  Proof. intros H. cbn [conclude]. replace (260 <? len out + 2) with false by lia. reflexivity. Qed.
  Lemma refuse_short e s : conclude 260 (Refuse e s) = (AReply (be 2 (sw e)), s).
  Proof. reflexivity. Qed.

  Lemma reset_passes es s d level : related es s d -> level < 2 ^ 32 -> len es + 2 < 2 ^ 64 ->
    exists es' s' d', reset_state C O level d = (true, d') /\ related es' s' d' /\ len es' = len es + 2 /\
      i_main s' = Some (PEmmy level false) /\ i_sigs s' = i_sigs s.
  Proof.
    intros R Hl L. set (c := mkCmd 0x06 0 0 (be 4 level)).
    assert (Hc : cmd_ok c).
    { unfold cmd_ok, c. cbn [t_ins t_p1 t_p2 t_data]. split; [reflexivity|]. split; [reflexivity|]. split; [reflexivity|].
      split; [apply be_ok|]. rewrite be_length. lia. }
    pose proof (process_related es s d c R Hc L) as P. cbv zeta in P.
    rewrite (ideal_asks s _ _ (r_idle _ _ _ R)), ((request_reset (be 4 level) s Hc) : request C O (t_buf c) (t_rx c) s = _) in P. fold c in P.
    unfold reset in P. rewrite (t_pay c Hc) in P. change (t_data c) with (be 4 level) in P.
    rewrite be_length in P. change (4 <? 4)%nat with false in P. cbn iota in P. cbv zeta in P.
    rewrite give_short in P by (unfold len; cbn [length]; lia). cbn [fst snd app] in P.
    destruct (P ltac:(apply R) ltac:(cbn [length]; lia)) as (es' & d' & Pr & R' & L').
    eexists es', _, d'. split; [|split; [exact R'|split; [exact L'|split; [|reflexivity]]]].
    - unfold reset_state. fold c. rewrite Pr. reflexivity.
    - cbn [put_marks i_main]. unfold field. rewrite skipn_O, firstn_all2 by (rewrite be_length; lia).
      rewrite unbe_be. change (256 ^ N.of_nat 4) with (2 ^ 32). rewrite N.mod_small by exact Hl. reflexivity.
  Qed.

  Lemma curve_back (c : curve) : curve_in (byte_of_curve c) = Some c.
  Proof. destruct c; reflexivity. Qed.

  Lemma hardened p : Forall (fun n => n < 2 ^ 31) p -> p <> [] -> (length p <= 10)%nat ->
    let q := map (fun n => 0x80000000 + n) p in
    path_ok BIP32_MAX_LENGTH q /\ prepare_path p = Some (path_serialize q).
  Proof.
    intros Hp Hn Hl q. assert (Q : path_ok BIP32_MAX_LENGTH q).
    { unfold path_ok, q. rewrite map_length. split; [destruct p; [congruence|discriminate]|]. split; [exact Hl|].
      rewrite Forall_map. eapply Forall_impl; [|exact Hp]. intros a Ha. cbn beta in *. lia. }
    split; [exact Q|]. unfold prepare_path. replace (256 <=? length p)%nat with false by lia.
    assert (X : existsb (fun n => 2 ^ 31 <=? n) p = false).
    { apply not_true_is_false. intros X. apply existsb_exists in X as (n & In_n & Hb).
      rewrite Forall_forall in Hp. specialize (Hp n In_n). cbn beta in Hp. lia. }
    rewrite X. cbn [orb]. fold q. destruct Q as (Q1 & Q2 & _).
    unfold path_new. rewrite path_new_loop_fits by (reflexivity || exact Q2). cbn [app]. destruct q; [congruence|reflexivity].
  Qed.

  Lemma path_bytes q : path_ok BIP32_MAX_LENGTH q -> bytes_ok (path_serialize q) /\
    length (path_serialize q) = (1 + 4 * length q)%nat /\ (length q <= 10)%nat.
  Proof.
    intros (Q1 & Q2 & Q3). change (length q <= 10)%nat in Q2. unfold path_serialize. split; [|split; [|exact Q2]].
    - constructor; [unfold len; lia|]. clear Q1 Q2. induction Q3 as [|x q Hx Q3 IH]; [constructor|].
      cbn [map concat]. apply Forall_app. split; [apply be_ok|exact IH].
    - cbn [length]. rewrite concat_be4_length. lia.
  Qed.

  Lemma authorise_passes es s d p c pk : related es s d -> Forall (fun n => n < 2 ^ 31) p -> p <> [] -> (length p <= 10)%nat ->
    let k := (c, map (fun n => 0x80000000 + n) p) in
    addressable O k pk -> len es + 2 < 2 ^ 64 ->
    exists es' s' d', t_authorize C O p c d = (true, d') /\ related es' s' d' /\ len es' = len es + 2 /\
      i_main s' = i_main s /\ i_sigs s' = i_sigs s /\ i_key s' = Some k.
  Proof.
    intros R Hp Hn Hl k A L. destruct (hardened p Hp Hn Hl) as [Q Pp]. set (q := map _ p) in *.
    destruct (path_bytes q Q) as (Qb & Ql & Q10).
    set (t := mkCmd 0xA1 1 (byte_of_curve c) (path_serialize q)).
    assert (Hc : cmd_ok t).
    { unfold cmd_ok, t. cbn [t_ins t_p1 t_p2 t_data]. split; [reflexivity|]. split; [reflexivity|].
      split; [destruct c; reflexivity|]. split; [exact Qb|]. rewrite Ql. lia. }
    destruct (address_ok O K k pk d A) as (a & Ha). destruct A as (Pk & _). assert (Pk' : o_pubkey O c q = Some pk) by exact Pk.
    assert (Hn' : addr_new O c pk = SOk a).
    { unfold address, pubkey in Ha. rewrite Pk in Ha. unfold bind in Ha. cbn [of_option] in Ha. unfold ret in Ha at 1.
      change (fst k) with c in Ha. destruct (addr_new O c pk); cbn [of_sres] in Ha; [|discriminate Ha..].
      unfold ret in Ha. now injection Ha as ->. }
    pose proof (process_related es s d t R Hc L) as P. cbv zeta in P.
    rewrite (ideal_asks s _ _ (r_idle _ _ _ R)), ((request_authorise _ _ s Hc) : request C O (t_buf t) (t_rx t) s = _) in P. fold t in P.
    unfold authorize in P. destruct (t_fields t) as (_ & _ & T2 & T3 & _). rewrite T2, T3, (t_pay t Hc) in P.
    change (t_p1 t) with 1 in P. change (t_p2 t) with (byte_of_curve c) in P. change (t_data t) with (path_serialize q) in P.
    change (1 =? 0) with false in P. cbn iota in P.
    rewrite curve_back, path10, (path_read_serialize _ _ Q) in P. unfold with_key_address, with_address in P.
    cbn [fst snd] in P. rewrite Pk' in P. rewrite Hn' in P. unfold ask in P.
    match type of P with context [cf_room C ?v] => destruct (Rm v) as (room & Er & Hr) end. rewrite Er in P. cbn [conclude fst snd ideal_step] in P.
    unfold decided in P. cbn [put_review i_review] in P. rewrite Er in P. cbn [approve] in P.
    cbn [fst snd] in P. rewrite Pk' in P.
    pose proof (pubkey_short O K k pk Pk) as Sh. cbn [conclude] in P.
    replace (room <? len (len pk mod 256 :: pk) + 2) with false in P by (unfold len in *; cbn [length]; lia).
    cbn [fst snd] in P.
    destruct (P eq_refl ltac:(rewrite app_length; cbn [length]; lia)) as (es' & d' & Pr & R' & L').
    eexists es', _, d'. split; [|split; [exact R'|split; [exact L'|split; [reflexivity|split; reflexivity]]]].
    unfold t_authorize. rewrite Pp. fold t. rewrite Pr. cbn [asserted]. rewrite retcode_app. reflexivity.
  Qed.

  (** One message in pieces. *)
  Lemma packet_next c s q2 l data : cmd_ok c -> t_p1 c = 1 -> i_upload s = Some (AccBaking, q2, l, data) ->
    (1 + length l + length data + length (t_data c) <= CAPACITY)%nat ->
    IdealSpec.packet AccBaking (t_buf c) s (bake C O true) = Give [] (put_upload (Some (AccBaking, q2, l, data ++ t_data c)) s).
  Proof.
    intros Hc P1 U L. unfold IdealSpec.packet, proto_step. destruct (t_fields c) as (_ & _ & -> & _ & _).
    rewrite P1, (t_pay c Hc), U. change (kind_of 1) with (Some KNext). cbn iota. change (acc_eqb AccBaking AccBaking) with true.
    cbn [negb]. replace (CAPACITY <? 1 + length l + length data + length (t_data c))%nat with false by lia. reflexivity.
  Qed.
  Lemma packet_last c s q2 l data : cmd_ok c -> t_p1 c = 2 -> i_upload s = Some (AccBaking, q2, l, data) ->
    (1 + length l + length data + length (t_data c) <= CAPACITY)%nat ->
    IdealSpec.packet AccBaking (t_buf c) s (bake C O true) = bake C O true (mkUO q2 l (data ++ t_data c)) (put_upload None s).
  Proof.
    intros Hc P1 U L. unfold IdealSpec.packet, proto_step. destruct (t_fields c) as (_ & _ & -> & _ & _).
    rewrite P1, (t_pay c Hc), U. change (kind_of 2) with (Some KLast). cbn iota. change (acc_eqb AccBaking AccBaking) with true.
    cbn [negb]. replace (CAPACITY <? 1 + length l + length data + length (t_data c))%nat with false by lia. reflexivity.
  Qed.
  Lemma packet_first c s : cmd_ok c -> t_p1 c = 0 ->
    IdealSpec.packet AccBaking (t_buf c) s (bake C O true) = Give [] (put_upload (Some (AccBaking, t_p2 c, t_data c, [])) s).
  Proof.
    intros Hc P1. unfold IdealSpec.packet, proto_step. destruct (t_fields c) as (_ & _ & -> & -> & _).
    rewrite P1, (t_pay c Hc). reflexivity.
  Qed.

  Definition ends_with (x : effect) (n : N) (es : list event) (r : option bytes * dev) : Prop :=
    match x with
    | Give out s' => i_review s' = None -> len out + 2 <= 260 ->
        exists es' d', r = (Some (out ++ [0x90; 0x00]), d') /\ related es' s' d' /\ len es' = len es + 2 * n
    | Refuse e s' => i_review s' = None -> exists d', r = (Some (be 2 (sw e)), d')
    | Stop _ => fst r = None
    | Wait _ => True
    end.

  Lemma conclude_process es s d c x : related es s d -> cmd_ok c -> len es + 2 < 2 ^ 64 ->
    ideal_step C O s (EApdu (t_buf c) (t_rx c)) = conclude 260 x -> ends_with x 1 es (process C O d c).
  Proof.
    intros R Hc L E. pose proof (process_related es s d c R Hc L) as P. cbv zeta in P. rewrite E in P.
    destruct x as [out s'|s'|e s'|s']; cbn [ends_with].
    - intros I1 Lo. rewrite give_short in P by exact Lo. cbn [fst snd] in P.
      destruct (P I1 ltac:(rewrite app_length; cbn [length]; lia)) as (es' & d' & Pr & R' & L').
      exists es', d'. split; [exact Pr|]. split; [exact R'|]. rewrite L'. lia.
    - exact Logic.I.
    - intros I1. rewrite refuse_short in P. cbn [fst snd] in P.
      destruct (P I1 ltac:(rewrite be_length; lia)) as (es' & d' & Pr & _). now exists d'.
    - cbn [conclude fst snd] in P. exact P.
  Qed.

  Lemma more_events x n m es es' r : len es' = len es + 2 * m -> ends_with x n es' r -> ends_with x (n + m) es r.
  Proof.
    intros L. destruct x as [out s'|s'|e s'|s']; cbn [ends_with]; auto.
    intros H I1 Lo. destruct (H I1 Lo) as (es2 & d' & A & B & D). exists es2, d'. split; [exact A|]. split; [exact B|]. lia.
  Qed.

  Lemma pieces_sent q2 l ps : forall es s d data a, related es s d -> ps <> [] ->
    Forall (fun p => bytes_ok p /\ (length p <= 250)%nat) ps -> retcode a = T_SUCCESS ->
    i_upload s = Some (AccBaking, q2, l, data) -> (1 + length l + length data + length (concat ps) <= CAPACITY)%nat ->
    len es + 2 * len ps < 2 ^ 64 ->
    ends_with (bake C O true (mkUO q2 l (data ++ concat ps)) (put_upload None s)) (len ps) es (send_pieces C O 0xAF ps a d).
  Proof.
    induction ps as [|p ps IH]; intros es s d data a R Hn Hp Ha U Cap L; [congruence|]. clear Hn.
    inversion Hp as [|? ? [Pb Pl] Hp']; subst. cbn [send_pieces]. rewrite Ha. change (negb (T_SUCCESS =? T_SUCCESS)) with false. cbn iota.
    cbn [concat] in *. rewrite app_length in Cap.
    replace (len (p :: ps)) with (len ps + 1) in * by (unfold len; cbn [length]; lia).
    assert (Hc : forall p1, p1 < 256 -> cmd_ok (mkCmd 0xAF p1 0 p)).
    { intros p1 X. unfold cmd_ok. cbn [t_ins t_p1 t_p2 t_data]. split; [reflexivity|]. split; [exact X|]. split; [reflexivity|].
      split; [exact Pb|lia]. }
    destruct ps as [|p' ps].
    - cbv zeta. specialize (Hc 2 eq_refl). set (c := mkCmd 0xAF 2 0 p) in *. cbn [concat] in *. rewrite (app_nil_r p).
      assert (E : ideal_step C O s (EApdu (t_buf c) (t_rx c)) = conclude 260 (bake C O true (mkUO q2 l (data ++ p)) (put_upload None s))).
      { rewrite (ideal_asks s _ _ (r_idle _ _ _ R)), ((request_bake _ _ _ s Hc) : request C O (t_buf c) (t_rx c) s = _).
        f_equal. apply (packet_last c s q2 l data Hc eq_refl U). change (t_data c) with p. lia. }
      pose proof (conclude_process es s d c _ R Hc ltac:(lia) E) as P.
      assert (Z : process C O d c = match process C O d c with
        | (Some a0, d') => send_pieces C O 0xAF [] a0 d' | (None, d') => (None, d') end).
      { destruct (process C O d c) as [[x|] d']; reflexivity. }
      rewrite <- Z. exact P.
    - cbv zeta. specialize (Hc 1 eq_refl). set (c := mkCmd 0xAF 1 0 p) in *. set (rest := p' :: ps) in *.
      assert (E : ideal_step C O s (EApdu (t_buf c) (t_rx c)) = conclude 260 (Give [] (put_upload (Some (AccBaking, q2, l, data ++ p)) s))).
      { rewrite (ideal_asks s _ _ (r_idle _ _ _ R)), ((request_bake _ _ _ s Hc) : request C O (t_buf c) (t_rx c) s = _).
        f_equal. apply (packet_next c s q2 l data Hc eq_refl U). change (t_data c) with p. lia. }
      pose proof (conclude_process es s d c _ R Hc ltac:(lia) E) as P. cbn [ends_with] in P.
      destruct (P ltac:(cbn [put_upload i_review]; apply R) ltac:(unfold len; cbn [length]; lia)) as (es' & d' & Pr & R' & L').
      rewrite Pr. cbn [app]. apply (more_events _ (len rest) 1 es es' _ ltac:(lia)).
      rewrite (app_assoc data p (concat rest)).
      apply (IH es' (put_upload (Some (AccBaking, q2, l, data ++ p)) s) d' (data ++ p) [0x90; 0x00] R').
      + discriminate.
      + exact Hp'.
      + reflexivity.
      + reflexivity.
      + rewrite app_length. lia.
      + lia.
  Qed.

  Lemma bytes_concat ps : bytes_ok (concat ps) -> Forall bytes_ok ps.
  Proof.
    induction ps as [|p ps IH]; intros H; [constructor|]. cbn [concat] in H. apply Forall_app in H as [A B].
    constructor; [exact A|exact (IH B)].
  Qed.

  Lemma chunks_sent es s d (k : key) m : related es s d -> path_ok BIP32_MAX_LENGTH (snd k) -> bytes_ok m -> m <> [] ->
    (2 + 4 * length (snd k) + length m <= CAPACITY)%nat -> len es + 70 < 2 ^ 64 ->
    exists n, n <= 34 /\
    ends_with (bake C O true (mkUO (byte_of_curve (fst k)) (path_serialize (snd k)) m) (put_upload None s)) n es
      (process_chunks C O d (mkCmd 0xAF 0 (byte_of_curve (fst k)) (path_serialize (snd k))) m).
  Proof.
    intros R Q Mb Mn Cap L. destruct (path_bytes _ Q) as (Qb & Ql & Q10).
    destruct (pieces_spec (length m) m (le_n _)) as (A & B & D & E). specialize (E Mn). unfold process_chunks.
    set (ps := pieces (length m) m) in *.
    assert (Np : (length ps <= 33)%nat).
    { eapply Nat.le_trans; [exact D|]. apply Nat.lt_succ_r, Nat.div_lt_upper_bound; [lia|]. unfold CAPACITY in Cap. lia. }
    assert (Nz : (1 <= length ps)%nat) by (destruct ps; [congruence|cbn [length]; lia]).
    cbv zeta. replace ((length ps =? 0)%nat || (255 <? length ps)%nat) with false by lia. cbn [t_ins t_p2 t_data].
    set (c := mkCmd 0xAF 0 (byte_of_curve (fst k)) (path_serialize (snd k))).
    assert (Hc : cmd_ok c).
    { unfold cmd_ok, c. cbn [t_ins t_p1 t_p2 t_data]. split; [reflexivity|]. split; [reflexivity|].
      split; [destruct (fst k); reflexivity|]. split; [exact Qb|]. rewrite Ql. lia. }
    assert (St : ideal_step C O s (EApdu (t_buf c) (t_rx c)) =
      conclude 260 (Give [] (put_upload (Some (AccBaking, byte_of_curve (fst k), path_serialize (snd k), [])) s))).
    { rewrite (ideal_asks s _ _ (r_idle _ _ _ R)), ((request_bake _ _ _ s Hc) : request C O (t_buf c) (t_rx c) s = _).
      f_equal. exact (packet_first c s Hc eq_refl). }
    pose proof (conclude_process es s d c _ R Hc ltac:(lia) St) as P. cbn [ends_with] in P.
    destruct (P ltac:(cbn [put_upload i_review]; apply R) ltac:(unfold len; cbn [length]; lia)) as (es' & d' & Pr & R' & L').
    rewrite Pr. cbn [app]. exists (len ps + 1). split; [unfold len; lia|].
    apply (more_events _ (len ps) 1 es es' _ L').
    pose proof (pieces_sent (byte_of_curve (fst k)) (path_serialize (snd k)) ps es' _ d' [] [0x90; 0x00] R' E) as X.
    cbn [app] in X. rewrite A in X. apply X.
    - apply Forall_forall. intros p Hp. split; [|rewrite Forall_forall in B; apply B in Hp; lia].
      pose proof (bytes_concat ps) as Y. rewrite A in Y. specialize (Y Mb). rewrite Forall_forall in Y. exact (Y p Hp).
    - reflexivity.
    - reflexivity.
    - cbn [length]. rewrite Ql. lia.
    - rewrite L'. unfold len in *. lia.
  Qed.

  (** What the ideal app makes of a sample. *)
  Lemma bake_sample s k m w dg g : path_ok BIP32_MAX_LENGTH (snd k) -> In (nth 0 m 0) [0x01; 0x02; 0x11; 0x12; 0x13] ->
    i_key s = Some k -> i_main s = Some w -> o_blake2b O 32 m = Some dg -> o_sign O (fst k) (snd k) dg = Some g ->
    bake C O true (mkUO (byte_of_curve (fst k)) (path_serialize (snd k)) m) s =
    match consensus_in m with
    | Crash => Stop s
    | Malformed => Refuse DataInvalid s
    | Position p => if (cpos_level p <? 2 ^ 31) && later p w
                    then Give (dg ++ g) (put_sig (mkSig SrcConsensus k dg m) (put_main p s))
                    else Refuse DataInvalid s
    end.
  Proof.
    intros Q Hm Hk Hw Hd Hg. unfold bake. cbn [uo_data uo_p2 uo_first]. cbv zeta.
    rewrite curve_back, path10, (path_read_serialize _ _ Q), Hk.
    replace (key_eqb k (fst k, snd k)) with true by (symmetry; destruct k; apply key_eqb_eq; reflexivity).
    cbn [negb]. rewrite Hd.
    assert (X : known_kind m = true /\ existsb (N.eqb (nth 0 m 0)) [4; 5] = false /\ (nth 0 m 0 =? 3) = false).
    { destruct m as [|b m]; [cbn [nth In] in Hm; destruct Hm as [?|[?|[?|[?|[?|[]]]]]]; discriminate|].
      cbn [nth In] in Hm. destruct Hm as [<-|[<-|[<-|[<-|[<-|[]]]]]]; split; [reflexivity|split; reflexivity|reflexivity|split; reflexivity|reflexivity|split; reflexivity|reflexivity|split; reflexivity|reflexivity|split; reflexivity]. }
    destruct X as (-> & -> & ->). cbn [negb]. rewrite Hw. destruct (consensus_in m) as [p| |]; try reflexivity.
    destruct ((cpos_level p <? 2 ^ 31) && later p w); [|reflexivity].
    unfold sign. rewrite Hg. destruct (ok_sign _ K _ _ _ _ Hg) as [Lg _].
    replace (100 <? length g)%nat with false by lia. reflexivity.
  Qed.

  Lemma samples_pass k samples : path_ok BIP32_MAX_LENGTH (snd k) -> forall es s d w, related es s d ->
    i_key s = Some k -> i_main s = Some w -> Forall (sample O k) samples -> len es + 70 * (1 + len samples) < 2 ^ 64 ->
    let r := t_samples C O (path_serialize (snd k)) (fst k) samples d in
    (fst r = true <-> rising w samples) /\
    (fst r = true -> exists gs, Forall2 (signs O k) samples gs /\ d_log (snd r) = rev gs ++ d_log d).
  Proof.
    intros Q. induction samples as [|m ms IH]; intros es s d w R Hk Hw Hs L r; unfold r; clear r.
    - cbn [t_samples fst snd]. split; [split; [constructor|reflexivity]|]. intros _. exists []. split; [constructor|reflexivity].
    - inversion Hs as [|? ? Sm Hs']; subst. destruct (s_signs _ _ _ Sm) as (dg & g & Hd & Hg).
      replace (len (m :: ms)) with (1 + len ms) in L by (unfold len; cbn [length]; lia).
      assert (Mn : m <> []).
      { intros ->. pose proof (s_kind _ _ _ Sm) as X. cbn [nth In] in X. destruct X as [?|[?|[?|[?|[?|[]]]]]]; discriminate. }
      destruct (chunks_sent es s d k m R Q (s_bytes _ _ _ Sm) Mn (s_size _ _ _ Sm) ltac:(lia)) as (n & Hn & X).
      rewrite (bake_sample (put_upload None s) k m w dg g Q (s_kind _ _ _ Sm) Hk Hw Hd Hg) in X.
      cbn [t_samples]. match type of X with context [process_chunks C O d ?q m] => set (r := process_chunks C O d q m) in * end. clearbody r.
      destruct (consensus_in m) as [p| |] eqn:Ec.
      + destruct ((cpos_level p <? 2 ^ 31) && later p w) eqn:El; cbn [ends_with] in X.
        * apply andb_true_iff in El as [El1 El2]. apply later_iff in El2.
          destruct (ok_blake2b _ K _ _ _ Hd) as [Ld _]. destruct (ok_sign _ K _ _ _ _ Hg) as [Lg _].
          destruct (X ltac:(apply R) ltac:(unfold len; rewrite app_length; lia)) as (es' & d' & Er & R' & L').
          rewrite Er. cbn [asserted]. rewrite retcode_app. change (144 * 256 + 0 =? T_SUCCESS) with true.
          unfold then_. cbn [fst snd].
          destruct (IH es' _ d' p R' Hk eq_refl Hs' ltac:(lia)) as [I1 I2]. split.
          -- rewrite I1. split.
             ++ intros Y. apply (rising_cons _ _ p); [exact Ec|lia|exact El2|exact Y].
             ++ intros Y. inversion Y as [|? ? q ? E1 E2 E3 E4]; subst. rewrite Ec in E1. injection E1 as <-. exact E4.
          -- intros Y. destruct (I2 Y) as (gs & G1 & G2). exists (mkSig SrcConsensus k dg m :: gs). split.
             ++ constructor; [exists dg; split; [exact Hd|reflexivity]|exact G1].
             ++ rewrite G2, (related_log _ _ _ R'). cbn [put_sig i_sigs put_main put_upload rev].
                rewrite <- (related_log _ _ _ R), <- app_assoc. reflexivity.
        * destruct (X ltac:(apply R)) as (d' & Er). rewrite Er. cbn [asserted].
          change (retcode (be 2 (sw DataInvalid)) =? T_SUCCESS) with false. unfold then_. cbn [fst snd].
          split; [|discriminate]. split; [discriminate|]. intros Y. inversion Y as [|? ? q ? E1 E2 E3 E4]; subst.
          rewrite Ec in E1. injection E1 as <-. apply later_iff in E3. rewrite E3 in El.
          replace (cpos_level p <? 2 ^ 31) with true in El by lia. discriminate El.
      + cbn [ends_with] in X. destruct (X ltac:(apply R)) as (d' & Er). rewrite Er. cbn [asserted].
        change (retcode (be 2 (sw DataInvalid)) =? T_SUCCESS) with false. unfold then_. cbn [fst snd].
        split; [|discriminate]. split; [discriminate|]. intros Y. inversion Y as [|? ? q ? E1 E2 E3 E4]; subst. rewrite Ec in E1. discriminate E1.
      + cbn [ends_with] in X. destruct r as [[a|] d']; cbn [fst] in X; [discriminate X|]. cbn [asserted].
        unfold then_. cbn [fst snd].
        split; [|discriminate]. split; [discriminate|]. intros Y. inversion Y as [|? ? q ? E1 E2 E3 E4]; subst. rewrite Ec in E1. discriminate E1.
  Qed.

  Lemma flow_passes es level p c pk samples :
    Forall event_ok es -> len es + 70 * (2 + len samples) < 2 ^ 64 ->
    let d := snd (run C O (dev_fresh [] []) es) in d_ui d = None ->
    let k := (c, map (fun n => 0x80000000 + n) p) in
    level < 2 ^ 32 -> Forall (fun n => n < 2 ^ 31) p -> p <> [] -> (length p <= 10)%nat ->
    addressable O k pk -> Forall (sample O k) samples ->
    let r := baking_flow C O level p c samples d in
    (fst r = true <-> rising (PEmmy level false) samples) /\
    (fst r = true -> exists gs, Forall2 (signs O k) samples gs /\ d_log (snd r) = rev gs ++ d_log d).
  Proof.
    intros E L d Ud k Hl Hp Hn H10 A Hs r. unfold r, baking_flow. clear r.
    destruct (run_linked C O es 0 ideal_fresh (dev_fresh [] []) fresh_linked E ltac:(lia)) as [_ Lk]. fold d in Lk.
    set (s := snd (ideal_run C O ideal_fresh es)) in *.
    assert (R : related es s d).
    { constructor; [exact E|reflexivity|exact Lk|]. pose proof (c_ui _ _ _ (k_core _ _ _ Lk)) as X. rewrite Ud in X.
      destruct (i_review s); [discriminate X|reflexivity]. }
    destruct (reset_passes es s d level R Hl ltac:(lia)) as (es1 & s1 & d1 & E1 & R1 & L1 & M1 & G1).
    destruct (authorise_passes es1 s1 d1 p c pk R1 Hp Hn H10 A ltac:(lia)) as (es2 & s2 & d2 & E2 & R2 & L2 & M2 & G2 & K2).
    destruct (hardened p Hp Hn H10) as [Q Pp].
    match goal with |- (fst ?x = true <-> _) /\ _ =>
      assert (F : x = t_samples C O (path_serialize (snd k)) (fst k) samples d2) end.
    { rewrite E1. unfold then_ at 1. cbn [fst snd]. rewrite E2. unfold then_. cbn [fst snd]. rewrite Pp. reflexivity. }
    rewrite F.
    destruct (samples_pass k samples Q es2 s2 d2 (PEmmy level false) R2 K2 ltac:(now rewrite M2) Hs ltac:(lia)) as [F1 F2].
    split; [exact F1|]. intros Y. destruct (F2 Y) as (gs & X1 & X2). exists gs. split; [exact X1|].
    cbn [fst] in X2. rewrite (related_log _ _ _ R2), G2, G1, <- (related_log _ _ _ R) in X2. exact X2.
  Qed.
End Flow.
