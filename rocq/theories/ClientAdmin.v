(** The legacy calls for public keys, and the calls that concern the stored key, the
    watermarks, the HMAC and the versions. *)
From Coq Require Import List NArith ZArith Lia Bool Arith ZifyBool ZifyNat ZifyN.
From Verif Require Import Base BaseFacts Flash Codecs CodecsSpec CodecsFacts Upload UploadSpec UploadFacts
  Oracles Address AddressSpec AddressFacts AddressExamples
  Device DeviceSpec DeviceFacts DeviceSlots DeviceCommands DeviceCases ServiceSpec DeviceAdmin
  Client ClientSpec ClientText ClientFacts ClientSign ClientCalls.
Import ListNotations.
Open Scope N_scope.

Section Admin.
  Variable C : config.
  Variable O : oracles.
  Variable H : host.
  Hypothesis HK : host_ok H O.
  Hypothesis OK : oracles_ok O.

  (** ** Legacy calls for public keys *)

  Lemma text_hash c l l' : text_of H c l = text_of H c l' -> h_blake2b H 20 l = h_blake2b H 20 l'.
  Proof.
    intros E. destruct (text_reads O H HK c l) as (d & Ld & Bd & R & B).
    destruct (text_reads O H HK c l') as (d' & Ld' & Bd' & R' & B'). rewrite <- E in R'.
    pose proof (reads58_inj _ _ _ B B' R R') as X. apply app_inv_head in X.
    destruct (hk_blake2b_bytes H O HK 20 l ltac:(lia)) as [L1 _]. destruct (hk_blake2b_bytes H O HK 20 l' ltac:(lia)) as [L2 _].
    apply (f_equal (firstn 20)) in X. rewrite !firstn_app_exact in X by auto. exact X.
  Qed.

  Lemma shifted c z n : forall x : bytes, length x = n -> firstn n (c :: x ++ z) = x -> x = repeat c n.
  Proof.
    induction n as [|n IH]; intros x L E; destruct x as [|a x]; try discriminate; [reflexivity|].
    cbn [length] in L. cbn [firstn app] in E. injection E as -> E. cbn [repeat]. f_equal. apply IH; [lia|exact E].
  Qed.

  (** The bytes that the legacy calls hash instead of the key. *)
  Lemma legacy_text c pk l more : hashed_form c pk l -> length pk = pubkey_length c ->
    exists key' l', read_legacy_key H c ((len pk :: pk ++ more) ++ [0x90; 0]) = Some (key', text_of H c l') /\
      length key' = S (length pk + length more) /\ (l' <> l \/ exists b, l = b :: repeat 4 32).
  Proof.
    intros F L. unfold read_legacy_key. rewrite js_slice_data.
    destruct c; cbn [hashed_form] in F.
    1, 4: destruct F as [b ->]; unfold public_key_to_address; exists (len (b :: l) :: (b :: l) ++ more), ((b :: l) ++ more);
      change 1%Z with (Z.of_nat 1); rewrite js_slice_from_nat; split; [reflexivity|];
      split; [cbn [length app]; rewrite app_length; reflexivity|];
      left; intros E; apply (f_equal (@length _)) in E; cbn [app length] in E; rewrite app_length in E; unfold byte in E; lia.
    1, 2: destruct F as (x & y & -> & Lx & Ly & ->); unfold public_key_to_address;
      set (key := len (4 :: x ++ y) :: (4 :: x ++ y) ++ more) in *;
      assert (Lk : length key = (66 + length more)%nat) by (unfold key; cbn [app length]; rewrite !app_length; lia);
      destruct (nth_error key 64) as [b|] eqn:En; [|apply nth_error_None in En; lia];
      exists ((2 + N.land b 1) :: tl key), (firstn 33 ((2 + N.land b 1) :: tl key));
      change 33%Z with (Z.of_nat 33); rewrite js_prefix; split; [reflexivity|];
      split; [unfold key; cbn [tl app length]; rewrite !app_length; reflexivity|];
      set (g := if N.even (unbe y) then 2 else 3); unfold key; cbn [tl app];
      destruct (list_eq_dec N.eq_dec x (repeat 4 32)) as [->|Nx]; [right; eexists; reflexivity|left];
      intros E; apply Nx; clear - E Lx;
      assert (E1 : firstn 32 (4 :: (x ++ y) ++ more) = x)
        by (change (firstn 33 ((2 + N.land b 1) :: 4 :: (x ++ y) ++ more)) with ((2 + N.land b 1) :: firstn 32 (4 :: (x ++ y) ++ more)) in E;
            congruence);
      clear E; rewrite <- app_assoc in E1; exact (shifted 4 _ 32 x Lx E1).
  Qed.

  Lemma legacy_wrong (k : key) pk l h t l' : hashed_form (fst k) pk l -> o_blake2b O 20 l = Some h ->
    key_text O (fst k) pk t -> text_of H (fst k) l' = t -> h_blake2b H 20 l' = h.
  Proof.
    intros F Hh (l2 & h2 & F2 & Hh2 & Tz & _) E.
    pose proof (hashed_unique _ _ _ _ F F2). subst l2. assert (h2 = h) by congruence. subst h2.
    rewrite <- (text_right O H HK OK _ _ _ _ _ F Hh Tz) in E. rewrite (text_hash _ _ _ E).
    apply (hk_blake2b H O HK), Hh.
  Qed.

  Lemma legacy_key_call d text (k : key) pk l h old user later : d_ui d = None -> path_text text (snd k) ->
    length (snd k) = 2%nat \/ length (snd k) = 4%nat -> apdu_ok old -> o_pubkey O (fst k) (snd k) = Some pk ->
    hashed_form (fst k) pk l -> o_blake2b O 20 l = Some h -> twice O (kind_prefix (addr_kind (fst k)) ++ h) <> None ->
    exists key' t', legacy_get_pubkey H (plugged C O) text (fst k) (d, (old, user) :: later)
                    = (JData 0x9000 (key', t'), (d, later)) /\
      key' <> pk /\
      forall t, key_text O (fst k) pk t -> t' = t ->
        exists l', h_blake2b H 20 l' = h /\ (l' <> l \/ exists b, l = b :: repeat 4 32).
  Proof.
    intros U T L Ao Hk F Hh Tw. destruct (key_request_ok O H HK d text k T L) as (Es & B & Lp & _ & _ & G).
    pose proof (pubkey_short O OK _ _ Hk) as Lk. destruct (ok_pubkey _ OK _ _ _ Hk) as [Lpk _].
    destruct (G 0x02 0 old 6%nat ltac:(lia) eq_refl eq_refl Ao U) as (A1 & A2 & A3 & A4).
    pose proof (get_public C O d _ _ k pk A1 A2 A4 Hk ltac:(lia)) as St.
    destruct (legacy_text (fst k) pk l [] F Lpk) as (key' & l' & Er & Lk' & Hl').
    exists key', (text_of H (fst k) l').
    unfold legacy_get_pubkey, with_path. rewrite Es, (ask_reply C O _ _ _ _ _ _ _ _ _ _ _ St ltac:(lia)).
    change (len pk :: pk ++ [0x90; 0]) with ((len pk :: pk) ++ [0x90; 0]). rewrite read_good.
    rewrite app_nil_r in Er. change ((len pk :: pk) ++ [0x90; 0]) with (len pk :: pk ++ [0x90; 0]).
    change ((len pk :: pk) ++ [0x90; 0]) with (len pk :: pk ++ [0x90; 0]) in Er. rewrite Er. split; [reflexivity|].
    split; [intros ->; cbn [length] in Lk'; lia|]. intros t Kt E. exists l'. split; [|exact Hl'].
    eapply legacy_wrong; eassumption.
  Qed.
  Lemma legacy_prompt_call d text (k : key) pk l h old later : d_ui d = None -> path_text text (snd k) ->
    length (snd k) = 2%nat \/ length (snd k) = 4%nat -> apdu_ok old -> o_pubkey O (fst k) (snd k) = Some pk ->
    hashed_form (fst k) pk l -> o_blake2b O 20 l = Some h -> twice O (kind_prefix (addr_kind (fst k)) ++ h) <> None ->
    roomy C 110 ->
    exists key' t', legacy_prompt_pubkey H (plugged C O) text (fst k) (d, (old, EApprove) :: later)
                    = (JData 0x9000 (key', t'), (d, later)) /\
      key' <> pk /\
      forall t, key_text O (fst k) pk t -> t' = t ->
        exists l', h_blake2b H 20 l' = h /\ (l' <> l \/ exists b, l = b :: repeat 4 32).
  Proof.
    intros U T L Ao Hk F Hh Tw R. destruct (key_request_ok O H HK d text k T L) as (Es & B & Lp & _ & _ & G).
    destruct (ok_pubkey _ OK _ _ _ Hk) as [Lpk _].
    destruct (G 0x03 0 old 6%nat ltac:(lia) eq_refl eq_refl Ao U) as (A1 & A2 & A3 & A4).
    destruct (prompted C O d _ _ 0x03 k pk l h OK A1 A2 (or_introl eq_refl) A4 Hk F Hh Tw R) as (t & Kt & St).
    match type of St with context [step C O d ?e] => destruct (step C O d e) as [a1 d1] eqn:Es1 end.
    destruct St as (-> & Sa & _).
    destruct (legacy_text (fst k) pk l t F Lpk) as (key' & l' & Er & Lk' & Hl').
    exists key', (text_of H (fst k) l').
    unfold legacy_prompt_pubkey, with_path. rewrite Es, (ask_review C O _ _ _ _ _ _ _ _ _ _ _ _ Es1 Sa ltac:(lia)).
    change (len pk :: pk ++ t ++ [0x90; 0]) with ((len pk :: pk) ++ t ++ [0x90; 0]). rewrite app_assoc, read_good.
    change ((len pk :: pk) ++ t) with (len pk :: pk ++ t). rewrite Er. split; [reflexivity|].
    split; [intros ->; lia|]. intros t2 Kt2 E. exists l'. split; [|exact Hl'].
    eapply legacy_wrong; eassumption.
  Qed.

  (** ** Watermarks *)

  Lemma read_u32_be n rest : n < 2 ^ 32 -> read_u32 (be 4 n ++ rest) = Some n.
  Proof.
    intros L. unfold read_u32. replace (length (be 4 n ++ rest) <? 4)%nat with false by (rewrite app_length, be_length; lia).
    rewrite firstn_app_exact by apply be_length. now rewrite unbe_be_small.
  Qed.
  Lemma read_u32_exact n : n < 2 ^ 32 -> read_u32 (be 4 n) = Some n.
  Proof. intros L. rewrite <- (app_nil_r (be 4 n)). now apply read_u32_be. Qed.
  Lemma read_all_be m t c : m < 2 ^ 32 -> t < 2 ^ 32 ->
    read_all ((be 4 m ++ be 4 t ++ be 4 c) ++ [0x90; 0]) = Some (m, t, c mod 2 ^ 32).
  Proof.
    intros Hm Ht. assert (Hc : be 4 c = be 4 (c mod 2 ^ 32)) by (symmetry; exact (be_mod 4 c)). rewrite Hc.
    assert (Hc' : c mod 2 ^ 32 < 2 ^ 32) by lia. revert Hc'. generalize (c mod 2 ^ 32). clear c Hc. intros c Hc. pose proof (be_length 4 m) as L1. pose proof (be_length 4 t) as L2. pose proof (be_length 4 c) as L3.
    unfold read_all.
    assert (E1 : js_slice 0 4 ((be 4 m ++ be 4 t ++ be 4 c) ++ [0x90; 0]) = be 4 m).
    { change 4%Z with (Z.of_nat 4). rewrite js_prefix, <- app_assoc. now apply firstn_app_exact. }
    assert (E2 : js_slice 4 8 ((be 4 m ++ be 4 t ++ be 4 c) ++ [0x90; 0]) = be 4 t).
    { change 4%Z with (Z.of_nat 4). change 8%Z with (Z.of_nat 8). rewrite js_slice_nat by lia.
      rewrite <- !app_assoc, skipn_app_exact by exact L1. now apply firstn_app_exact. }
    assert (E3 : js_slice 8 (-2) ((be 4 m ++ be 4 t ++ be 4 c) ++ [0x90; 0]) = be 4 c).
    { replace 8%Z with (Z.of_nat (length (be 4 m ++ be 4 t))) by (rewrite app_length; lia).
      rewrite js_slice_drop2 by (rewrite !app_length; lia). rewrite app_assoc. now apply skipn_app_exact. }
    rewrite E1, E2, E3, !read_u32_exact by assumption. reflexivity.
  Qed.

  (** Reading the watermarks of a device that reports them. *)
  Lemma hwm_calls x main test chain old user later : main < 2 ^ 32 -> test < 2 ^ 32 ->
    reports_all C O x main test chain -> apdu_ok old ->
    fst (legacy_get_hwm (plugged C O) (x, (old, user) :: later)) = JData 0x9000 main /\
    fst (legacy_get_all (plugged C O) (x, (old, user) :: later)) = JData 0x9000 (main, test, chain mod 2 ^ 32).
  Proof.
    intros Hm Ht [[U R1] [_ R2]] Ao. split.
    - destruct (arrives_ok 0x08 0 0 [] old x ltac:(cbn [length]; lia) ltac:(apply Forall_nil) eq_refl eq_refl eq_refl Ao U) as (A1 & A2 & _).
      specialize (R1 _ _ A1 A2). unfold legacy_get_hwm.
      match type of R1 with context [step C O x ?e] => destruct (step C O x e) as [a1 d1] eqn:Es1 end. cbn [fst] in R1. subst a1.
      rewrite (ask_reply C O _ _ _ _ _ _ _ _ _ _ _ Es1 ltac:(cbn [length]; lia)). cbn [fst]. rewrite read_good, js_slice_data.
      rewrite read_u32_exact by assumption. reflexivity.
    - destruct (arrives_ok 0x0B 0 0 [] old x ltac:(cbn [length]; lia) ltac:(apply Forall_nil) eq_refl eq_refl eq_refl Ao U) as (A1 & A2 & _).
      specialize (R2 _ _ A1 A2). unfold legacy_get_all.
      match type of R2 with context [step C O x ?e] => destruct (step C O x e) as [a1 d1] eqn:Es1 end. cbn [fst] in R2. subst a1.
      rewrite (ask_reply C O _ _ _ _ _ _ _ _ _ _ _ Es1 ltac:(cbn [length]; lia)). cbn [fst].
      rewrite (app_assoc (be 4 test)), (app_assoc (be 4 main)), read_good, read_all_be by assumption. reflexivity.
  Qed.

  Lemma reset_call f u es level old user later : Forall intact_fault f -> Forall up_fault_ok u ->
    Forall event_ok es -> len es + 1 < 2 ^ 64 ->
    let d := snd (run C O (dev_fresh f u) es) in
    d_faults d = [] -> d_ui d = None -> cf_baking C = true -> apdu_ok old -> (- 2 ^ 31 <= level < 2 ^ 31)%Z ->
    exists d' chain, legacy_reset (plugged C O) level (d, (old, user) :: later) = (JData 0x9000 tt, (d', later)) /\
      forall x, x = d' \/ x = restart d' ->
        reports_all C O x (Z.to_N (level mod 2 ^ 32)) (Z.to_N (level mod 2 ^ 32)) chain /\
        forall k, stored_key x k <-> stored_key d k.
  Proof.
    intros Ff Fu E L d Fd U Cb Ao Hl.
    assert (Hv : Z.to_N (level mod 2 ^ 32) < 2 ^ 32) by lia.
    set (v := Z.to_N (level mod 2 ^ 32)) in *.
    assert (W : write_i32 level = Some (be 4 v)).
    { unfold write_i32. replace ((- 2 ^ 31 <=? level) && (level <? 2 ^ 31))%Z with true by lia. reflexivity. }
    assert (Lb : length (be 4 v) = 4%nat) by apply be_length.
    destruct (arrives_ok 0x06 0 0 (be 4 v) old d ltac:(lia) (be_ok 4 v) eq_refl eq_refl eq_refl Ao U)
      as (A1 & A2 & A3 & A4 & A5 & A6).
    destruct (reset_sets C O f u es _ _ Ff Fu E L Fd Cb A1 A2) as [R1 (o & Ho & R2)].
    { rewrite A5. unfold len. rewrite Lb. reflexivity. }
    fold d in R1, R2. rewrite A6, firstn_all2, unbe_be_small in R2 by (try assumption; lia).
    match type of R1 with context [step C O d ?e] => destruct (step C O d e) as [a1 d1] eqn:Es1 end.
    cbn [fst snd] in R1, R2. subst a1.
    exists d1. eexists. split; [|intros x Hx; apply (R2 x Hx)].
    unfold legacy_reset. rewrite W, (ask_reply C O _ _ _ _ _ _ _ _ _ _ _ Es1 ltac:(lia)).
    change [0x90; 0] with ([] ++ [0x90; 0]). rewrite read_good. reflexivity.
  Qed.
  Lemma reset_range level w : ~ (- 2 ^ 31 <= level < 2 ^ 31)%Z -> legacy_reset (plugged C O) level w = (JThrow, w).
  Proof.
    intros Hl. unfold legacy_reset, write_i32.
    replace ((- 2 ^ 31 <=? level) && (level <? 2 ^ 31))%Z with false by lia. reflexivity.
  Qed.

  Lemma setup_call f u es text (k : key) pk main test chain old later : Forall intact_fault f -> Forall up_fault_ok u ->
    Forall event_ok es -> len es + 2 < 2 ^ 64 ->
    let d := snd (run C O (dev_fresh f u) es) in
    d_faults d = [] -> d_ui d = None -> cf_baking C = true -> apdu_ok old ->
    main < 2 ^ 32 -> test < 2 ^ 32 -> chain < 2 ^ 32 ->
    path_text text (snd k) -> length (snd k) = 2%nat \/ length (snd k) = 4%nat -> addressable O k pk -> roomy C 110 ->
    let call user := legacy_setup H (plugged C O) text (fst k) (Z.of_N main) (Z.of_N test) (Z.of_N chain) (d, (old, user) :: later) in
    call EReject = (JCode 0x6986, (d, later)) /\
    exists r d', call EApprove = (JData 0x9000 r, (d', later)) /\ fst r <> pk /\
      forall x, x = d' \/ x = restart d' ->
        reports_all C O x main test chain /\ forall k', stored_key x k' <-> k' = k.
  Proof.
    intros Ff Fu E L d Fd U Cb Ao Hm Ht Hc T Lk Ha R call.
    destruct (key_request_ok O H HK d text k T Lk) as (Es & B & Lp & Pe & Bc & _).
    set (data := (be 4 chain ++ be 4 main ++ be 4 test) ++ plain_path (snd k)).
    assert (Ld : (length data <= 255)%nat) by (unfold data; rewrite !app_length, !be_length; lia).
    assert (Bd : bytes_ok data).
    { unfold data. apply bytes_ok_app. split; [|exact B]. apply bytes_ok_app. split; [apply be_ok|].
      apply bytes_ok_app. split; apply be_ok. }
    destruct (arrives_ok 0x0A 0 (byte_of_curve (fst k)) data old d Ld Bd eq_refl eq_refl Bc Ao U)
      as (A1 & A2 & A3 & A4 & A5 & A6).
    assert (Pp : pay (arrives 0x0A 0 (byte_of_curve (fst k)) data old)
      = be 4 chain ++ be 4 main ++ be 4 test ++ plain_path (snd k) ++ []).
    { rewrite A6. unfold data. rewrite app_nil_r, <- !app_assoc. reflexivity. }
    destruct (setup_served C O OK f u es _ _ k main test chain (plain_path (snd k)) [] pk Ff Fu E L Fd Cb A1 A2 A4 Pp
      (Pe BIP32_MAX_LENGTH ltac:(unfold BIP32_MAX_LENGTH; lia)) Hm Ht Hc Ha R) as (d1 & d2 & S1 & S2 & S3 & S4).
    assert (G : forall user r d', step C O d1 user = (AReply r, d') ->
      call user = (read_ask (read_legacy_key H (fst k)) (Some r), (d', later))).
    { intros user r d' X. unfold call, legacy_setup, with_path. rewrite Es. unfold write_u32.
      replace ((0 <=? Z.of_N chain) && (Z.of_N chain <? 2 ^ 32))%Z with true by lia.
      replace ((0 <=? Z.of_N main) && (Z.of_N main <? 2 ^ 32))%Z with true by lia.
      replace ((0 <=? Z.of_N test) && (Z.of_N test <? 2 ^ 32))%Z with true by lia.
      rewrite !N2Z.id. exact (ask_review C O _ _ _ _ _ _ _ _ _ _ _ _ S1 X Ld). }
    split.
    - rewrite (G _ _ _ S2), read_bad by discriminate. reflexivity.
    - destruct Ha as (Hk & l & h & F & Hh & Tw). destruct (ok_pubkey _ OK _ _ _ Hk) as [Lpk _].
      destruct (legacy_text (fst k) pk l [] F Lpk) as (key' & l' & Er & Lk' & Hl').
      exists (key', text_of H (fst k) l'), d2. split; [|split; [|exact S4]].
      + rewrite (G _ _ _ S3). rewrite app_nil_r in Er.
        change (len pk :: pk ++ [0x90; 0]) with ((len pk :: pk) ++ [0x90; 0]). rewrite read_good, Er. reflexivity.
      + cbn [fst]. intros ->. cbn [length] in Lk'. lia.
  Qed.

  (** ** The stored key *)

  Lemma read_pubkey_ok pk : len pk <= 65 -> read_pubkey ((len pk :: pk) ++ [0x90; 0]) = Some pk.
  Proof.
    intros L. cbn [app read_pubkey].
    replace (1 + Z.of_N (len pk))%Z with (Z.of_nat (1 + length pk)) by (unfold len; lia).
    change 1%Z with (Z.of_nat 1). rewrite js_slice_nat by lia. cbn [skipn].
    replace (1 + length pk - 1)%nat with (length pk) by lia. rewrite firstn_app_exact by reflexivity. reflexivity.
  Qed.

  Lemma authorise_call f u es text (k : key) pk old later : Forall intact_fault f -> Forall up_fault_ok u ->
    Forall event_ok es -> len es + 1 < 2 ^ 64 ->
    let d := snd (run C O (dev_fresh f u) es) in
    d_faults d = [] -> d_ui d = None -> cf_baking C = true -> apdu_ok old ->
    path_text text (snd k) -> length (snd k) = 2%nat \/ length (snd k) = 4%nat -> addressable O k pk -> roomy C 110 ->
    let call user := authorize_baking H (plugged C O) text (fst k) (d, (old, user) :: later) in
    call EReject = (JCode 0x6986, (d, later)) /\
    exists d', call EApprove = (JData 0x9000 pk, (d', later)) /\ d_log d' = d_log d /\
      forall x, x = d' \/ x = restart d' ->
        d_ui x = None /\ (forall k', stored_key x k' <-> k' = k) /\
        forall s, s <> SKey -> wear_read (get_slot s x) = wear_read (get_slot s d).
  Proof.
    intros Ff Fu E L d Fd U Cb Ao T Lk Ha R call.
    destruct (key_request_ok O H HK d text k T Lk) as (Es & B & Lp & _ & Bc & G).
    destruct (G 0xA1 1 old BIP32_MAX_LENGTH ltac:(unfold BIP32_MAX_LENGTH; lia) eq_refl eq_refl Ao U) as (A1 & A2 & A3 & A4).
    destruct (authorise_served C O OK f u es _ _ 0xA1 k pk Ff Fu E L Fd Cb A1 A2 ltac:(cbn [In]; auto)
      ltac:(rewrite A3; lia) A4 Ha R) as (d1 & d2 & S1 & S2 & S3 & S4 & S5). fold d in S1, S2, S4, S5.
    assert (G2 : forall user r d', step C O d1 user = (AReply r, d') ->
      call user = (read_ask read_pubkey (Some r), (d', later))).
    { intros user r d' X. unfold call, authorize_baking, with_path. rewrite Es.
      exact (ask_review C O _ _ _ _ _ _ _ _ _ _ _ _ S1 X ltac:(lia)). }
    split.
    - rewrite (G2 _ _ _ S2), read_bad by discriminate. reflexivity.
    - exists d2. split; [|split; [exact S4|exact S5]].
      rewrite (G2 _ _ _ S3). change (len pk :: pk ++ [0x90; 0]) with ((len pk :: pk) ++ [0x90; 0]).
      rewrite read_good, read_pubkey_ok by exact (pubkey_short O OK _ _ (proj1 Ha)). reflexivity.
  Qed.

  Lemma deauthorise_call f u es (k : key) pk old later : Forall intact_fault f -> Forall up_fault_ok u ->
    Forall event_ok es -> len es + 1 < 2 ^ 64 ->
    let d := snd (run C O (dev_fresh f u) es) in
    d_faults d = [] -> d_ui d = None -> cf_baking C = true -> apdu_ok old ->
    stored_key d k -> addressable O k pk -> roomy C 110 ->
    let call user := deauthorize_baking (plugged C O) (d, (old, user) :: later) in
    (exists d', call EReject = (JCode 0x6986, (d', later)) /\ d_ui d' = None /\ untouched d d') /\
    exists d', call EApprove = (JData 0x9000 tt, (d', later)) /\ d_log d' = d_log d /\
      forall x, x = d' \/ x = restart d' ->
        d_ui x = None /\ (forall k', ~ stored_key x k') /\
        forall s, s <> SKey -> wear_read (get_slot s x) = wear_read (get_slot s d).
  Proof.
    intros Ff Fu E L d Fd U Cb Ao Sk Ha R call.
    destruct (arrives_ok 0xAC 1 0 [] old d ltac:(cbn [length]; lia) ltac:(apply Forall_nil) eq_refl eq_refl eq_refl Ao U)
      as (A1 & A2 & A3 & _).
    destruct (deauthorise_served C O OK f u es _ _ 0xAC k pk Ff Fu E L Fd Cb A1 A2 ltac:(cbn [In]; auto)
      ltac:(rewrite A3; lia) Sk Ha R) as (d1 & d2 & d3 & S1 & S2 & S3 & S4 & S5 & S6 & S7). fold d in S1, S4, S6, S7.
    assert (G2 : forall user r d', step C O d1 user = (AReply r, d') ->
      call user = (read_ask (fun _ => Some tt) (Some r), (d', later))).
    { intros user r d' X. exact (ask_review C O _ _ _ _ _ _ _ _ _ _ _ _ S1 X ltac:(cbn [length]; lia)). }
    split.
    - exists d3. rewrite (G2 _ _ _ S2), read_bad by discriminate. auto.
    - exists d2. split; [|split; [exact S6|exact S7]].
      rewrite (G2 _ _ _ S5). change [0x90; 0] with ([] ++ [0x90; 0]). rewrite read_good. reflexivity.
  Qed.

  Lemma components_length p : length (concat (map (be 4) p)) = (4 * length p)%nat.
  Proof. induction p as [|c p IH]; [reflexivity|]. cbn [map concat length]. rewrite app_length, be_length, IH. lia. Qed.
  Lemma read_key_ok (k : key) : (length (snd k) <= 10)%nat ->
    read_auth_key (key_bytes true k ++ [0x90; 0]) = Some (byte_of_curve (fst k), concat (map (be 4) (snd k))).
  Proof.
    intros L. unfold key_bytes. cbn [app read_auth_key].
    replace (2 + 4 * Z.of_N (len (snd k)))%Z with (Z.of_nat (2 + 4 * length (snd k))) by (unfold len; lia).
    change 2%Z with (Z.of_nat 2). rewrite js_slice_nat by lia. cbn [skipn].
    replace (2 + 4 * length (snd k) - 2)%nat with (4 * length (snd k))%nat by lia.
    rewrite firstn_app_exact by apply components_length. reflexivity.
  Qed.

  Lemma query_call d (k : key) pk old user later : d_ui d = None -> cf_baking C = true -> apdu_ok old ->
    stored_key d k -> key_ok k -> addressable O k pk ->
    exists d', query_auth_key (plugged C O) false (d, (old, user) :: later)
               = (JData 0x9000 (byte_of_curve (fst k), concat (map (be 4) (snd k))), (d', later)) /\ untouched d d'.
  Proof.
    intros U Cb Ao Sk Kk (Hk & l & h & F & Hh & Tw).
    destruct (key_text_new O _ _ _ _ OK F Hh Tw) as (a & t & Ha & _ & _).
    destruct (arrives_ok 0xAD 0 0 [] old d ltac:(cbn [length]; lia) ltac:(apply Forall_nil) eq_refl eq_refl eq_refl Ao U)
      as (A1 & A2 & A3 & _).
    destruct (query_answers C O d _ _ 0xAD k pk a Cb A1 A2 ltac:(cbn [In]; auto) A3 Sk Kk Hk Ha) as [Q1 Q2].
    match type of Q1 with context [step C O d ?e] => destruct (step C O d e) as [a1 d1] eqn:Es1 end.
    cbn [fst snd] in Q1, Q2. subst a1. exists d1. split; [|exact Q2].
    unfold query_auth_key. rewrite (ask_reply C O _ _ _ _ _ _ _ _ _ _ _ Es1 ltac:(cbn [length]; lia)).
    rewrite read_good. change (existsb (N.eqb 0xAD) [0x0D; 0xAD]) with true.
    rewrite read_key_ok by (destruct Kk as (_ & X & _); unfold BIP32_MAX_LENGTH in X; lia). reflexivity.
  Qed.

  (** ** HMAC and versions *)

  Lemma hmac_call d text (k : key) message s hk out old user later : d_ui d = None -> cf_baking C = true -> apdu_ok old ->
    path_text text (snd k) -> length (snd k) = 2%nat \/ length (snd k) = 4%nat ->
    bytes_ok message -> (1 + 4 * length (snd k) + length message <= 255)%nat ->
    o_sign O (fst k) (snd k) HMAC_KEY = Some s -> o_sha512 O s = Some hk -> o_hmac256 O hk message = Some out ->
    exists d', legacy_hmac H (plugged C O) text (fst k) message (d, (old, user) :: later)
               = (JData 0x9000 out, (d', later)) /\ d_ui d' = None /\
      d_log d' = mkSig SrcHmac k HMAC_KEY HMAC_KEY :: d_log d /\ forall sl, get_slot sl d' = get_slot sl d.
  Proof.
    intros U Cb Ao T Lk Bm Lm Hs Hh Ho.
    destruct (key_request_ok O H HK d text k T Lk) as (Es & B & Lp & Pe & Bc & _).
    assert (Ld : (length (plain_path (snd k) ++ message) <= 255)%nat) by (rewrite app_length, plain_path_length; lia).
    assert (Bd : bytes_ok (plain_path (snd k) ++ message)) by (apply bytes_ok_app; split; assumption).
    destruct (arrives_ok 0x0E 0 (byte_of_curve (fst k)) _ old d Ld Bd eq_refl eq_refl Bc Ao U)
      as (A1 & A2 & A3 & A4 & A5 & A6).
    destruct (hmac_served C O OK d _ _ k _ message s hk out Cb A1 A2 A4 A6
      (Pe BIP32_MAX_LENGTH ltac:(unfold BIP32_MAX_LENGTH; lia)) Hs Hh Ho) as (d' & S1 & S2).
    exists d'. split; [|exact S2]. unfold legacy_hmac, with_path. rewrite Es.
    rewrite (ask_reply C O _ _ _ _ _ _ _ _ _ _ _ S1 Ld). rewrite read_good, js_slice_data. reflexivity.
  Qed.

  Lemma answered_call {A} ins (f : bytes -> option A) out a d old user later : answers C O d ins (out ++ [0x90; 0]) ->
    ins < 256 -> apdu_ok old -> f (out ++ [0x90; 0]) = Some a ->
    fst (ask (plugged C O) ins 0 0 [] f (d, (old, user) :: later)) = JData 0x9000 a.
  Proof.
    intros [U R] Hi Ao E.
    destruct (arrives_ok ins 0 0 [] old d ltac:(cbn [length]; lia) ltac:(apply Forall_nil) Hi eq_refl eq_refl Ao U) as (A1 & A2 & _).
    specialize (R _ _ A1 A2).
    match type of R with context [step C O d ?e] => destruct (step C O d e) as [a1 d1] eqn:Es1 end. cbn [fst] in R. subst a1.
    rewrite (ask_reply C O _ _ _ _ _ _ _ _ _ _ _ Es1 ltac:(cbn [length]; lia)). cbn [fst]. rewrite read_good, E. reflexivity.
  Qed.
  Lemma version_calls d old user later : d_ui d = None -> apdu_ok old -> cf_target C < 2 ^ 32 ->
    let '(major, minor, patch) := cf_version C in
    (exists target, fst (get_version (plugged C O) (d, (old, user) :: later)) = JData 0x9000 (false, (major, minor, patch), false, target) /\
       (- 2 ^ 31 <= target < 2 ^ 31)%Z /\ (target mod 2 ^ 32)%Z = Z.of_N (cf_target C)) /\
    fst (legacy_get_version (plugged C O) (d, (old, user) :: later))
      = JData 0x9000 (cf_baking C, (major, minor, patch)) /\
    ((8 <= length (cf_commit C))%nat ->
     fst (legacy_get_git (plugged C O) (d, (old, user) :: later)) = JData 0x9000 (firstn 8 (cf_commit C) ++ [0])).
  Proof.
    intros U Ao Ht. pose proof (versions C O d U) as V. destruct (cf_version C) as [[major minor] patch].
    destruct V as (V1 & V2 & V3). split; [|split].
    - exists (let t := Z.of_N (cf_target C) in if (2 ^ 31 <=? t)%Z then (t - 2 ^ 32)%Z else t). cbv zeta. split.
      2:{ destruct (Z.leb_spec (2 ^ 31) (Z.of_N (cf_target C))); (split; [lia|]).
          - replace (Z.of_N (cf_target C) - 2 ^ 32)%Z with (Z.of_N (cf_target C) + -1 * 2 ^ 32)%Z by lia. rewrite Z.mod_add by lia. apply Z.mod_small. lia.
          - apply Z.mod_small. lia. }
      rewrite app_assoc in V2. apply (answered_call 0x10 read_version _ _ _ _ _ _ V2 eq_refl Ao).
      unfold read_version, read_target. cbn [app]. f_equal. f_equal.
      set (r := 0 :: major :: _). assert (El : len r = 11).
      { unfold r, len. cbn [length]. rewrite app_length, be_length. reflexivity. }
      rewrite El. change (9 <=? 11) with true. cbv iota zeta. unfold r. cbn [skipn].
      rewrite firstn_app_exact by apply be_length. rewrite unbe_be_small by lia. reflexivity.
    - apply (answered_call 0x00 _ [if cf_baking C then 1 else 0; major; minor; patch] _ _ _ _ _ V1 eq_refl Ao).
      cbn [app]. destruct (cf_baking C); reflexivity.
    - intros L. specialize (V3 L).
      replace (firstn 8 (cf_commit C) ++ [0; 0x90; 0]) with ((firstn 8 (cf_commit C) ++ [0]) ++ [0x90; 0]) in V3
        by (now rewrite <- app_assoc).
      apply (answered_call 0x09 _ _ _ _ _ _ _ V3 eq_refl Ao). now rewrite js_slice_data.
  Qed.

  (** ** Hashes and return codes *)

  Lemma hash_agrees kind message dg : o_blake2b O 32 (legacy_magic kind :: message) = Some dg ->
    sig_hash H message kind = dg.
  Proof. apply (hk_blake2b H O HK). Qed.

  Lemma reply_described d e r d' : step C O d e = (AReply r, d') -> In (status_of r) described_codes.
  Proof.
    assert (P : forall err, In (sw err) described_codes) by (intros []; cbn; tauto).
    assert (S : forall l err, In (status_of (l ++ be 2 (sw err))) described_codes).
    { intros l err. replace (status_of (l ++ be 2 (sw err))) with (sw err); [apply P|].
      destruct err; symmetry; exact (status_of_app l _ _). }
    assert (F : forall room x, finish room x = (AReply r, d') -> In (status_of r) described_codes).
    { intros room [[[data|]|err| |] d1]; cbn [finish]; intros E; try discriminate.
      - destruct (room <? len data + 2); [discriminate|].
        apply (f_equal fst) in E. cbn [fst] in E. assert (r = data ++ be 2 (sw Success)) by congruence. subst r. apply S.
      - destruct (room <? len [] + 2); [discriminate|].
        apply (f_equal fst) in E. cbn [fst] in E. assert (r = [] ++ be 2 (sw err)) by congruence. subst r. apply S. }
    assert (D : forall f, decide C f d = (AReply r, d') -> In (status_of r) described_codes).
    { intros f. unfold decide. destruct (d_ui d); [apply F|discriminate]. }
    destruct e as [buf rx| | | |]; cbn [step]; intros E; try (eapply D; exact E).
    - destruct (d_ui d); [discriminate|]. eapply F, E.
    - discriminate.
  Qed.
End Admin.
