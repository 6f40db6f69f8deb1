(** Proofs about the emulator tests: the ideal app plays a test. *)
From Coq Require Import NArith ZArith Bool Arith List Lia ZifyBool ZifyNat ZifyN.
From Verif Require Import Base BaseFacts Flash FlashFacts Codecs CodecsSpec CodecsFacts Upload UploadSpec UploadFacts
  Baking BakingSpec Operations Oracles Address Device DeviceSpec DeviceFacts DeviceProofs DeviceSigs DeviceLive DeviceAdmin
  ServiceSpec IdealSpec IdealReads IdealFacts Client ClientSpec ClientText ClientFacts ClientSign ClientCalls ClientAdmin
  Blobs BlobsSpec BlobsFacts.
Import ListNotations.
Open Scope N_scope.

Lemma position_signed m p : consensus_in m = Position p -> signed_pos m = Some p.
Proof.
  unfold consensus_in. cbv zeta. destruct m as [|b m]; [discriminate|]. unfold signed_pos.
  set (x := b :: m). change (nth 0 x 0) with b. clearbody x.
  assert (D : b = 1 \/ b = 17 \/ b = 2 \/ b = 18 \/ b = 19 \/ ~ In b [1; 17; 2; 18; 19]) by (cbn [In]; lia).
  destruct D as [->|[->|[->|[->|[->|D]]]]];
    try (cbn [N.eqb Pos.eqb orb andb];
         repeat (match goal with |- (if ?c then _ else _) = _ -> _ => destruct c end; try discriminate);
         intros Q; injection Q as <-; reflexivity).
  cbn [In] in D. replace (b =? 1) with false by lia. replace (b =? 17) with false by lia. replace (b =? 2) with false by lia.
  replace (b =? 18) with false by lia. replace (b =? 19) with false by lia. discriminate.
Qed.

Section Session.
  Variable C : config.
  Variable O : oracles.
  Variable H : host.
  Hypothesis HK : host_ok H O.
  Hypothesis OK : oracles_ok O.
  Hypothesis Rm : roomy C 110.
  Hypothesis Cb : cf_baking C = true.

  Record held (n : N) (s : ideal) (d : dev) : Prop := mkHeld {
    h_linked : linked (fun _ => n) s d;
    h_idle : i_review s = None
  }.
  Lemma held_ui n s d : held n s d -> d_ui d = None.
  Proof. intros R. rewrite (c_ui _ _ _ (k_core _ _ _ (h_linked _ _ _ R))), (h_idle _ _ _ R). reflexivity. Qed.
  Lemma held_log n s d : held n s d -> d_log d = i_sigs s.
  Proof. intros R. exact (c_log _ _ _ (k_core _ _ _ (h_linked _ _ _ R))). Qed.

  Lemma linked_step n s d e a s' : linked (fun _ => n) s d -> event_ok e -> n + 1 < 2 ^ 64 -> ideal_step C O s e = (a, s') ->
    exists d', step C O d e = (a, d') /\ linked (fun _ => n + 1) s' d'.
  Proof.
    intros L E B I0. destruct (step_linked C O (fun _ => n) (fun _ => B) s d e L E) as [S1 L1].
    rewrite I0 in S1, L1. cbn [fst snd] in S1, L1. destruct (step C O d e) as [a' d']. cbn [fst snd] in S1, L1. subst a'.
    exists d'. split; [reflexivity|exact L1].
  Qed.

  Lemma ideal_asked s buf rx ins f : i_review s = None -> 5 <= rx <= 260 -> nth 0 buf 0 = 0x80 -> nth 1 buf 0 = ins ->
    find (fun p => fst p =? ins) (commands C O) = Some (ins, f) -> ideal_step C O s (EApdu buf rx) = conclude 260 (f buf s).
  Proof.
    intros I0 R0 N0 N1 F0. cbn [ideal_step]. rewrite I0. unfold request.
    replace ((rx <? 5) || (260 <? rx)) with false by lia. rewrite N0, N1, F0. reflexivity.
  Qed.
  Lemma give_small out s : len out + 2 <= 260 -> conclude 260 (Give out s) = (AReply (out ++ [0x90; 0x00]), s).
  Proof. intros X. cbn [conclude]. replace (260 <? len out + 2) with false by lia. reflexivity. Qed.
  Lemma curve_same (c : curve) : curve_in (byte_of_curve c) = Some c.
  Proof. destruct c; reflexivity. Qed.

  Lemma reset_held n s d old user later : held n s d -> n + 1 < 2 ^ 64 -> apdu_ok old ->
    exists s' d', legacy_reset (plugged C O) 0 (d, (old, user) :: later) = (JData 0x9000 tt, (d', later)) /\
      held (n + 1) s' d' /\ i_main s' = Some (PEmmy 0 false) /\ i_sigs s' = i_sigs s.
  Proof.
    intros [Lk Id] B Ao. set (data := be 4 0).
    destruct (arrives_ok 0x06 0 0 data old d ltac:(unfold data; rewrite be_length; lia) (be_ok 4 0) eq_refl eq_refl eq_refl Ao
      (held_ui n s d (mkHeld _ _ _ Lk Id))) as (A1 & (_ & A2 & A3 & A4) & _ & _ & A5 & A6).
    set (buf := arrives 0x06 0 0 data old) in *.
    assert (St : ideal_step C O s (EApdu buf (5 + len data)) = conclude 260 (reset buf s)).
    { apply (ideal_asked s buf _ 0x06 reset Id A2 A3 A4). unfold commands. rewrite Cb. reflexivity. }
    unfold reset in St. rewrite A6 in St. unfold data in St at 2. rewrite be_length in St.
    change (4 <? 4)%nat with false in St. cbv iota zeta in St.
    rewrite give_small in St by (unfold len; cbn [length]; lia).
    destruct (linked_step n s d (EApdu buf _) _ _ Lk A1 B St) as (d' & Sd & Ld).
    eexists _, d'. split; [|split; [constructor; [exact Ld|exact Id]|split; [reflexivity|reflexivity]]].
    unfold legacy_reset. change (write_i32 0) with (Some data). cbv iota beta.
    rewrite (ask_reply C O _ _ _ _ _ _ _ _ _ _ _ Sd ltac:(unfold data; rewrite be_length; lia)).
    rewrite read_good. reflexivity.
  Qed.

  Lemma authorise_held n s d text (k : key) pk old later : held n s d -> n + 2 < 2 ^ 64 -> apdu_ok old ->
    path_text text (snd k) -> length (snd k) = 2%nat \/ length (snd k) = 4%nat -> addressable O k pk ->
    exists s' d', authorize_baking H (plugged C O) text (fst k) (d, (old, EApprove) :: later) = (JData 0x9000 pk, (d', later)) /\
      held (n + 2) s' d' /\ i_key s' = Some k /\ i_main s' = i_main s /\ i_sigs s' = i_sigs s.
  Proof.
    intros R B Ao T Lp A. destruct R as [Lk Id] eqn:ER. clear ER.
    destruct (key_request_ok O H HK d text k T Lp) as (Es & Bp & L17 & _ & Bc & G).
    destruct (arrives_ok 0xA1 1 (byte_of_curve (fst k)) (plain_path (snd k)) old d ltac:(lia) Bp eq_refl eq_refl Bc Ao (held_ui n s d R))
      as (A1 & (_ & A2 & A3 & A4) & A5 & A6 & _ & A7).
    destruct (G 0xA1 1 old BIP32_MAX_LENGTH ltac:(unfold BIP32_MAX_LENGTH; lia) eq_refl eq_refl Ao (held_ui n s d R)) as (_ & _ & _ & [_ Pe]).
    cbv zeta in Pe.
    set (buf := arrives 0xA1 1 (byte_of_curve (fst k)) (plain_path (snd k)) old) in *.
    destruct (address_ok O OK k pk d A) as (a & Ha). destruct A as (Pk & _).
    assert (Hn' : addr_new O (fst k) pk = SOk a).
    { unfold address, pubkey in Ha. rewrite Pk in Ha. unfold bind in Ha. cbn [of_option] in Ha. unfold ret in Ha at 1.
      destruct (addr_new O (fst k) pk); cbn [of_sres] in Ha; [|discriminate Ha..].
      unfold ret in Ha. now injection Ha as ->. }
    assert (St : ideal_step C O s (EApdu buf (5 + len (plain_path (snd k)))) = conclude 260 (authorize C O buf s)).
    { apply (ideal_asked s buf _ 0xA1 (authorize C O) Id A2 A3 A4). unfold commands. rewrite Cb. reflexivity. }
    unfold authorize in St. rewrite A5, A6 in St. change (1 =? 0) with false in St. cbv iota in St.
    rewrite curve_same, path10, (path_read_complete _ _ _ Pe) in St. unfold with_key_address, with_address in St.
    cbn [fst snd] in St. rewrite Pk, Hn' in St. unfold IdealSpec.ask in St.
    match type of St with context [cf_room C ?v] => destruct (Rm v) as (room & Er & Hr) end. rewrite Er in St. cbn [conclude] in St.
    assert (B1 : n + 1 < 2 ^ 64) by lia. assert (B2 : n + 1 + 1 < 2 ^ 64) by lia.
    destruct (linked_step n s d (EApdu buf _) _ _ Lk A1 B1 St) as (d1 & Sd & Ld).
    match type of Ld with linked _ ?x _ => assert (S2 : ideal_step C O x EApprove =
      (AReply ((len pk mod 256 :: pk) ++ [0x90; 0x00]), put_key (Some k) (put_review None x))) end.
    { cbn [ideal_step]. unfold decided. cbn [put_review i_review]. rewrite Er. cbn [approve].
      cbn [fst snd]. rewrite Pk. pose proof (pubkey_short O OK k pk Pk) as Sh. cbn [conclude].
      replace (room <? len (len pk mod 256 :: pk) + 2) with false by (unfold len in *; cbn [length]; lia).
      destruct k; reflexivity. }
    destruct (linked_step (n + 1) _ d1 EApprove _ _ Ld Logic.I B2 S2) as (d2 & Sd2 & Ld2).
    eexists _, d2. split; [|split; [constructor; [replace (n + 2) with (n + 1 + 1) by lia; exact Ld2|reflexivity]|split; [reflexivity|split; reflexivity]]].
    unfold authorize_baking, with_path. rewrite Es.
    rewrite (ask_review C O _ _ _ _ _ _ _ _ _ _ _ _ Sd Sd2 ltac:(lia)).
    pose proof (pubkey_short O OK k pk Pk) as Sh. replace (len pk mod 256) with (len pk) by (symmetry; apply N.mod_small; unfold len in *; lia).
    rewrite read_good, read_pubkey_ok by exact Sh. reflexivity.
  Qed.

  (** ** A message in pieces *)

  Lemma packet_step ins kind p s f : ServiceSpec.packet ins kind p -> i_review s = None ->
    find (fun q => fst q =? ins) (commands C O) = Some (ins, f) ->
    event_ok (sent p) /\ ideal_step C O s (sent p) = conclude 260 (f (fst p) s).
  Proof.
    intros (A & R0 & N0 & N1 & _) I0 F0. split; [exact A|]. now apply (ideal_asked s (fst p) (snd p) ins f).
  Qed.
  Lemma bake_find : find (fun q => fst q =? 0xAF) (commands C O) = Some (0xAF, bake_command C O true).
  Proof. unfold commands. rewrite Cb. reflexivity. Qed.

  Lemma pieces_run q2 (l : bytes) mids lst : Forall (ServiceSpec.packet 0xAF KNext) mids -> ServiceSpec.packet 0xAF KLast lst ->
    forall s data, i_review s = None -> i_upload s = Some (AccBaking, q2, l, data) ->
    (1 + length l + length data + length (concat (map (fun p => pay (fst p)) (mids ++ [lst]))) <= CAPACITY)%nat ->
    Forall event_ok (map sent (mids ++ [lst])) /\
    ideal_run C O s (map sent (mids ++ [lst])) =
    (let x := conclude 260 (bake C O true (mkUO q2 l (data ++ concat (map (fun p => pay (fst p)) (mids ++ [lst])))) (put_upload None s)) in
     (map (fun _ => go_on) mids ++ [fst x], snd x)).
  Proof.
    intros Fm Fl. induction mids as [|m mids IH]; intros s data I0 U Cap.
    - cbn [app map concat] in *. rewrite (app_nil_r (pay (fst lst))) in *.
      destruct (packet_step 0xAF KLast lst s _ Fl I0 bake_find) as [Ev St]. split; [constructor; [exact Ev|constructor]|].
      cbn [ideal_run]. rewrite St. unfold bake_command, IdealSpec.packet, proto_step.
      destruct Fl as (_ & _ & _ & _ & ->). rewrite U. change (acc_eqb AccBaking AccBaking) with true. cbn [negb].
      replace (CAPACITY <? 1 + length l + length data + length (pay (fst lst)))%nat with false by lia.
      cbv zeta. match goal with |- (let (a, s1) := ?x in _) = ([fst ?y], _) => change y with x; destruct x as [a s'] end.
      reflexivity.
    - inversion Fm as [|? ? Fm1 Fm2]; subst. cbn [app map concat] in *. rewrite app_length in Cap.
      destruct (packet_step 0xAF KNext m s _ Fm1 I0 bake_find) as [Ev St].
      assert (E : ideal_step C O s (sent m) = (go_on, put_upload (Some (AccBaking, q2, l, data ++ pay (fst m))) s)).
      { rewrite St. unfold bake_command, IdealSpec.packet, proto_step.
        destruct Fm1 as (_ & _ & _ & _ & ->). rewrite U. change (acc_eqb AccBaking AccBaking) with true. cbn [negb].
        replace (CAPACITY <? 1 + length l + length data + length (pay (fst m)))%nat with false by lia.
        apply give_small. unfold len. cbn [length]. lia. }
      destruct (IH Fm2 (put_upload (Some (AccBaking, q2, l, data ++ pay (fst m))) s) (data ++ pay (fst m)) I0 eq_refl
        ltac:(rewrite app_length; lia)) as [Ev2 R2].
      split; [constructor; assumption|]. cbn [ideal_run]. rewrite E, R2. cbv zeta. rewrite <- app_assoc. reflexivity.
  Qed.
  Lemma request_run (k : key) data first mids lst s : ServiceSpec.request 0xAF k data first mids lst -> i_review s = None ->
    Forall event_ok (map sent (first :: mids ++ [lst])) /\
    ideal_run C O s (map sent (first :: mids ++ [lst])) =
    (let x := conclude 260 (bake C O true (mkUO (byte_of_curve (fst k)) (pay (fst first)) data) (put_upload None s)) in
     (map (fun _ => go_on) (first :: mids) ++ [fst x], snd x)).
  Proof.
    intros (Pf & Pm & Pl & [Nc _] & Cd & Cap) I0.
    destruct (packet_step 0xAF KInit first s _ Pf I0 bake_find) as [Ev St].
    assert (E : ideal_step C O s (sent first) = (go_on, put_upload (Some (AccBaking, byte_of_curve (fst k), pay (fst first), [])) s)).
    { rewrite St. unfold bake_command, IdealSpec.packet, proto_step.
      destruct Pf as (_ & _ & _ & _ & ->). rewrite Nc. apply give_small. unfold len. cbn [length]. lia. }
    destruct (pieces_run (byte_of_curve (fst k)) (pay (fst first)) mids lst Pm Pl
      (put_upload (Some (AccBaking, byte_of_curve (fst k), pay (fst first), [])) s) [] I0 eq_refl
      ltac:(rewrite Cd; cbn [length]; lia)) as [Ev2 R2].
    cbn [map]. split; [constructor; assumption|]. cbn [ideal_run]. rewrite E, R2. cbv zeta. cbn [app]. rewrite Cd. reflexivity.
  Qed.

  Lemma bake_named s (k : key) l m p w dg g : path_encodes BIP32_MAX_LENGTH l (snd k) ->
    consensus_in m = Position p -> bytes_ok m ->
    i_key s = Some k -> i_main s = Some w -> o_blake2b O 32 m = Some dg -> o_sign O (fst k) (snd k) dg = Some g ->
    bake C O true (mkUO (byte_of_curve (fst k)) l m) s =
    if accepts w p then Give (dg ++ g) (put_sig (mkSig SrcConsensus k dg m) (put_main p s)) else Refuse DataInvalid s.
  Proof.
    intros Q Ec Bm Hk Hw Hd Hg. unfold bake. cbn [uo_data uo_p2 uo_first]. cbv zeta.
    rewrite curve_same, path10, (path_read_complete _ _ _ Q), Hk.
    replace (key_eqb k (fst k, snd k)) with true by (symmetry; destruct k; apply key_eqb_eq; reflexivity).
    cbn [negb]. rewrite Hd.
    assert (Hm : In (nth 0 m 0) [0x01; 0x02; 0x11; 0x12; 0x13]).
    { unfold consensus_in in Ec. cbv zeta in Ec. cbn [In].
      destruct (nth 0 m 0 =? 1) eqn:E1; [left; lia|]. destruct (nth 0 m 0 =? 17) eqn:E2; [do 2 right; left; lia|].
      cbn [orb andb] in Ec. destruct (nth 0 m 0 =? 2) eqn:E3; [right; left; lia|].
      destruct (nth 0 m 0 =? 18) eqn:E4; [do 3 right; left; lia|].
      destruct (nth 0 m 0 =? 19) eqn:E5; [do 4 right; left; lia|]. cbn [andb] in Ec. discriminate Ec. }
    assert (X : known_kind m = true /\ existsb (N.eqb (nth 0 m 0)) [4; 5] = false /\ (nth 0 m 0 =? 3) = false).
    { destruct m as [|b m]; [cbn [nth In] in Hm; destruct Hm as [?|[?|[?|[?|[?|[]]]]]]; discriminate|].
      cbn [nth In] in Hm. destruct Hm as [<-|[<-|[<-|[<-|[<-|[]]]]]]; split; [reflexivity|split; reflexivity|reflexivity|split; reflexivity|reflexivity|split; reflexivity|reflexivity|split; reflexivity|reflexivity|split; reflexivity]. }
    destruct X as (-> & -> & ->). cbn [negb]. rewrite Hw, Ec. fold (accepts w p).
    destruct (accepts w p); [|reflexivity].
    unfold sign. rewrite Hg. destruct (ok_sign _ OK _ _ _ _ Hg) as [Lg _].
    replace (100 <? length g)%nat with false by lia. reflexivity.
  Qed.

  (** ** One step of a test *)

  Lemma sign_held n s d text (k : key) c w sched later : held n s d -> n + 2 < 2 ^ 64 ->
    path_text text (snd k) -> length (snd k) = 2%nat \/ length (snd k) = 4%nat -> signs_all O k -> fits c ->
    i_key s = Some k -> i_main s = Some w -> length sched = 2%nat -> deciding EApprove sched ->
    let yes := accepts w (built c) in
    exists m r s' d', blob c = Some m /\
      sign_baker H (plugged C O) text (fst k) m (blob_kind c) (d, sched ++ later) = (JData (sr_code r) r, (d', later)) /\
      (sr_code r =? NO_ERRORS) = yes /\ held (n + 2) s' d' /\ i_key s' = Some k /\
      i_main s' = Some (if yes then built c else w) /\
      exists g, sg_src g = SrcConsensus /\ sg_key g = k /\ signed_pos (sg_data g) = Some (built c) /\
        i_sigs s' = (if yes then [g] else []) ++ i_sigs s.
  Proof.
    intros R B T Lp Sa F Hk Hw Ls Du yes.
    destruct (blob_message c F) as (m & magic & Em & Eb & Bm & Lm & Ec). exists m.
    destruct (Sa (magic :: m) Bm) as (dg & g & Hd & Hg).
    destruct (ok_blake2b _ OK _ _ _ Hd) as [Ld _]. destruct (ok_sign _ OK _ _ _ _ Hg) as [Lg _].
    assert (P2 : length sched = packets_for (magic :: m)).
    { unfold packets_for. replace ((len (magic :: m) + 249) / 250) with 1; [exact Ls|].
      apply (N.div_unique _ _ 1 (len (magic :: m) - 1)); unfold len; cbn [length]; lia. }
    destruct (sign_message_packets C O H HK text k (magic :: m) false 0xAF true d sched later EApprove T Lp Bm ltac:(discriminate) eq_refl
      ltac:(unfold CAPACITY; cbn [length]; lia) P2 Du) as (first & mids & lst & Rq & Np & Run).
    destruct R as [Lk Id].
    destruct (request_run k (magic :: m) first mids lst s Rq Id) as [Ev Ir].
    assert (Lm' : len (map sent (first :: mids ++ [lst])) = 2).
    { rewrite <- P2, Ls in Np. unfold len. rewrite map_length. cbn [length]. rewrite app_length. cbn [length]. lia. }
    destruct (run_linked C O _ n s d Lk Ev ltac:(rewrite Lm'; lia)) as [R1 R2]. rewrite Lm' in R2.
    destruct Rq as (_ & _ & _ & [_ Pe] & _).
    rewrite Ir in R1, R2. cbv zeta in R1, R2.
    rewrite (bake_named (put_upload None s) k (pay (fst first)) (magic :: m) (built c) w dg g Pe Ec Bm Hk Hw Hd Hg) in R1, R2.
    unfold sign_baker. rewrite Eb. fold yes in R1, R2. clearbody yes.
    destruct (run C O d (map sent (first :: mids ++ [lst]))) as [as_ d'] eqn:Er. cbn [fst snd] in R1, R2. subst as_.
    specialize (Run _ _ eq_refl). rewrite Run. cbv zeta.
    destruct yes.
    - rewrite give_small in * by (unfold len; rewrite app_length; lia). cbn [fst snd settle]. rewrite <- app_assoc, read_hashed by exact Ld.
      eexists _, _, d'. split; [exact Em|]. split; [reflexivity|]. split; [reflexivity|].
      split; [constructor; [exact R2|exact Id]|]. split; [exact Hk|]. split; [reflexivity|].
      exists (mkSig SrcConsensus k dg (magic :: m)). split; [reflexivity|]. split; [reflexivity|].
      split; [exact (position_signed _ _ Ec)|]. reflexivity.
    - cbn [conclude] in *. change (260 <? 2) with false in *. cbv iota in *. cbn [fst snd settle].
      eexists _, _, d'. split; [exact Em|]. split; [reflexivity|]. split; [reflexivity|].
      split; [constructor; [exact R2|exact Id]|]. split; [exact Hk|]. split; [exact Hw|].
      exists (mkSig SrcConsensus k dg (magic :: m)). split; [reflexivity|]. split; [reflexivity|].
      split; [exact (position_signed _ _ Ec)|]. reflexivity.
  Qed.

  (** ** A test *)

  Lemma steps_held text (k : key) : path_text text (snd k) -> length (snd k) = 2%nat \/ length (snd k) = 4%nat -> signs_all O k ->
    forall steps n s d w sched, held n s d -> n + 2 * len steps < 2 ^ 64 -> Forall fits (map fst steps) ->
    i_key s = Some k -> i_main s = Some w -> length sched = (2 * length steps)%nat -> deciding EApprove sched ->
    let r := test_steps H (plugged C O) text (fst k) steps (d, sched) in
    let ps := map built (map fst steps) in
    (fst r = true <-> map snd steps = verdicts w ps) /\
    (fst r = true -> exists gs, Forall2 (signed_at k) (accepted w ps) gs /\ d_log (fst (snd r)) = rev gs ++ d_log d).
  Proof.
    intros T Lp Sa. induction steps as [|[c b] steps IH]; intros n s d w sched R B F Hk Hw Ls Du.
    - cbn [test_steps map verdicts accepted fst snd]. split; [split; reflexivity|]. intros _. exists []. split; [constructor|reflexivity].
    - cbn [map fst] in F. inversion F as [|? ? Fc Fs]; subst. cbn [length] in Ls.
      replace (len ((c, b) :: steps)) with (1 + len steps) in B by (unfold len; cbn [length]; lia).
      destruct sched as [|u0 [|u1 sched]]; [discriminate Ls|cbn [length] in Ls; lia|].
      unfold deciding in Du. inversion Du as [|? ? D0 Du1]; subst. inversion Du1 as [|? ? D1 Du2]; subst.
      assert (D2 : deciding EApprove [u0; u1]) by (constructor; [exact D0|constructor; [exact D1|constructor]]).
      destruct (sign_held n s d text k c w [u0; u1] sched R ltac:(lia) T Lp Sa Fc Hk Hw eq_refl D2)
        as (m & r & s' & d' & Em & Eq & Ey & R' & Hk' & Hw' & g & G1 & G2 & G3 & G4).
      cbn [map verdicts accepted fst snd]. cbn [test_steps]. rewrite Em. cbn [app] in Eq. rewrite Eq, Ey.
      set (yes := accepts w (built c)) in *. clearbody yes.
      destruct (Bool.eqb yes b) eqn:Eb.
      + apply Bool.eqb_prop in Eb. subst b.
        destruct (IH (n + 2) s' d' (if yes then built c else w) sched R' ltac:(lia) Fs Hk' Hw' ltac:(cbn [length] in Ls; lia) Du2) as [I1 I2].
        split.
        * rewrite I1. split; [intros ->; reflexivity|]. intros X. now injection X.
        * intros X. destruct (I2 X) as (gs & Gs & Gl). rewrite (held_log _ _ _ R'), G4, <- (held_log _ _ _ R) in Gl.
          destruct yes.
          -- exists (g :: gs). split; [constructor; [now split|exact Gs]|]. rewrite Gl. cbn [rev app]. rewrite <- app_assoc. reflexivity.
          -- exists gs. split; [exact Gs|exact Gl].
      + cbn [fst]. split; [|discriminate]. split; [discriminate|]. intros X. injection X as X _. subst b.
        destruct yes; discriminate Eb.
  Qed.

  Lemma test_held es text (k : key) pk steps sched :
    Forall event_ok es -> len es + 3 + 2 * len steps < 2 ^ 64 ->
    let d := snd (run C O (dev_fresh [] []) es) in d_ui d = None ->
    path_text text (snd k) -> length (snd k) = 2%nat \/ length (snd k) = 4%nat -> addressable O k pk -> signs_all O k ->
    Forall fits (map fst steps) -> length sched = (2 + 2 * length steps)%nat -> deciding EApprove sched ->
    let r := baking_test H (plugged C O) text (fst k) steps (d, sched) in
    let ps := map built (map fst steps) in
    (fst r = true <-> map snd steps = verdicts (PEmmy 0 false) ps) /\
    (fst r = true -> exists gs, Forall2 (signed_at k) (accepted (PEmmy 0 false) ps) gs /\ d_log (fst (snd r)) = rev gs ++ d_log d).
  Proof.
    intros E L d Ud T Lp A Sa F Ls Du r ps. unfold r, baking_test. clear r.
    destruct (run_linked C O es 0 ideal_fresh (dev_fresh [] []) fresh_linked E ltac:(lia)) as [_ Lk]. fold d in Lk.
    set (s := snd (ideal_run C O ideal_fresh es)) in *. rewrite N.add_0_l in Lk.
    assert (R : held (len es) s d).
    { constructor; [exact Lk|]. pose proof (c_ui _ _ _ (k_core _ _ _ Lk)) as X. rewrite Ud in X.
      destruct (i_review s); [discriminate X|reflexivity]. }
    clearbody s d. clear Lk.
    destruct sched as [|[o0 u0] [|[o1 u1] sched]]; [discriminate Ls|cbn [length] in Ls; lia|].
    unfold deciding in Du. inversion Du as [|? ? D0 Du1]; subst. inversion Du1 as [|? ? D1 Du2]; subst. cbn [fst snd] in D0, D1.
    destruct D0 as [A0 ->]. destruct D1 as [A1 ->].
    destruct (reset_held (len es) s d o0 EApprove ((o1, EApprove) :: sched) R ltac:(lia) A0) as (s1 & d1 & E1 & R1 & M1 & G1).
    rewrite E1.
    destruct (authorise_held _ s1 d1 text k pk o1 sched R1 ltac:(lia) A1 T Lp A) as (s2 & d2 & E2 & R2 & K2 & M2 & G2).
    rewrite E2. change (0x9000 =? NO_ERRORS) with true. cbv iota.
    destruct (steps_held text k T Lp Sa steps _ s2 d2 (PEmmy 0 false) sched R2 ltac:(lia) F K2 ltac:(now rewrite M2)
      ltac:(cbn [length] in Ls; lia) Du2) as [I1 I2].
    split; [exact I1|]. intros X. destruct (I2 X) as (gs & Gs & Gl). exists gs. split; [exact Gs|].
    rewrite Gl, (held_log _ _ _ R2), G2, G1, (held_log _ _ _ R). reflexivity.
  Qed.
End Session.
