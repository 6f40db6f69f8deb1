(** Calls of the host library that send one command. *)
From Coq Require Import List NArith ZArith Lia Bool Arith ZifyBool ZifyNat ZifyN.
From Verif Require Import Base BaseFacts Flash Codecs CodecsSpec CodecsFacts Upload UploadSpec UploadFacts
  Oracles Address AddressSpec AddressFacts AddressExamples
  Device DeviceSpec DeviceFacts DeviceSlots DeviceCommands ServiceSpec DeviceAdmin
  Client ClientSpec ClientText ClientFacts ClientSign.
Import ListNotations.
Open Scope N_scope.

(** What a call makes of what comes back. *)
Definition read_ask {A} (f : bytes -> option A) (o : option bytes) : jres A :=
  match o with
  | None => JCode OTHER_ERROR
  | Some r =>
    if len r <? 2 then JCode OTHER_ERROR
    else if status_of r =? NO_ERRORS then match f r with Some a => JData (status_of r) a | None => JThrow end
    else JCode (status_of r)
  end.
Lemma read_good {A} (f : bytes -> option A) l : read_ask f (Some (l ++ [0x90; 0])) =
  match f (l ++ [0x90; 0]) with Some a => JData 0x9000 a | None => JThrow end.
Proof.
  unfold read_ask. rewrite status_of_app.
  replace (len (l ++ [0x90; 0]) <? 2) with false by (rewrite len_app; unfold len; cbn [length]; lia). reflexivity.
Qed.
Lemma read_bad {A} (f : bytes -> option A) x y : x * 256 + y <> 0x9000 -> read_ask f (Some [x; y]) = JCode (x * 256 + y).
Proof.
  intros N. unfold read_ask. change [x; y] with ([] ++ [x; y]) at 2 3 4 5. rewrite status_of_app.
  change (len [x; y] <? 2) with false. cbv iota. replace (x * 256 + y =? NO_ERRORS) with false by (unfold NO_ERRORS; lia).
  reflexivity.
Qed.

Section Calls.
  Variable C : config.
  Variable O : oracles.

  (** The buffer in which a command arrives. *)
  Definition arrives (ins p1 p2 : N) (data old : bytes) : bytes := received ([0x80; ins; p1; p2; len data] ++ data) old.

  Lemma arrives_ok ins p1 p2 data old d : (length data <= 255)%nat -> bytes_ok data -> ins < 256 -> p1 < 256 -> p2 < 256 ->
    apdu_ok old -> d_ui d = None ->
    let buf := arrives ins p1 p2 data old in
    apdu_ok buf /\ command d buf (5 + len data) ins /\ nth 2 buf 0 = p1 /\ nth 3 buf 0 = p2 /\
    nth 4 buf 0 = len data /\ pay buf = data.
  Proof.
    intros L B Hi H1 H2 [A1 A2] U buf. unfold buf, arrives, received. split.
    - split.
      + rewrite app_length, skipn_length, A1, app_length. cbn [length]. unfold bytes, byte in *. lia.
      + apply bytes_ok_app. split; [|now apply bytes_ok_skipn]. apply bytes_ok_app. split; [|exact B].
        do 5 (apply Forall_cons; [first [assumption|reflexivity|unfold len; lia]|]). apply Forall_nil.
    - split; [split; [exact U|split; [unfold len; lia|split; reflexivity]]|]. repeat (split; [reflexivity|]).
      unfold pay. cbn [app nth skipn]. apply firstn_app_exact. unfold len. lia.
  Qed.

  Lemma ask_eq {A} ins p1 p2 data (f : bytes -> option A) d old user later : (length data <= 255)%nat ->
    ask (plugged C O) ins p1 p2 data f (d, (old, user) :: later) =
    (let x := settle C O (step C O d (EApdu (arrives ins p1 p2 data old) (5 + len data))) user in
     (read_ask f (fst x), (snd x, later))).
  Proof.
    intros L. unfold ask, send_to, send_codes. replace (256 <=? len data) with false by (unfold len; lia).
    rewrite plugged_eq. unfold HOST_CLA, arrives.
    replace (len ([0x80; ins; p1; p2; len data] ++ data)) with (5 + len data) by (rewrite len_app; reflexivity).
    destruct (settle C O (step C O d _) user) as [[r|] d']; cbn [fst snd read_ask]; [|reflexivity].
    destruct (len r <? 2); [reflexivity|]. cbn [existsb]. rewrite orb_false_r.
    destruct (status_of r =? NO_ERRORS); reflexivity.
  Qed.
  Lemma ask_reply {A} ins p1 p2 data (f : bytes -> option A) d old user later r d' :
    step C O d (EApdu (arrives ins p1 p2 data old) (5 + len data)) = (AReply r, d') -> (length data <= 255)%nat ->
    ask (plugged C O) ins p1 p2 data f (d, (old, user) :: later) = (read_ask f (Some r), (d', later)).
  Proof. intros E L. rewrite ask_eq by exact L. rewrite E. reflexivity. Qed.
  Lemma ask_review {A} ins p1 p2 data (f : bytes -> option A) d old user later d1 r d' :
    step C O d (EApdu (arrives ins p1 p2 data old) (5 + len data)) = (APending, d1) ->
    step C O d1 user = (AReply r, d') -> (length data <= 255)%nat ->
    ask (plugged C O) ins p1 p2 data f (d, (old, user) :: later) = (read_ask f (Some r), (d', later)).
  Proof. intros E1 E2 L. rewrite ask_eq by exact L. rewrite E1. cbn [settle]. rewrite E2. reflexivity. Qed.

  Variable H : host.
  Hypothesis HK : host_ok H O.
  Hypothesis OK : oracles_ok O.

  (** ** Addresses *)

  Lemma even_last (y : bytes) b : N.even (unbe (y ++ [b])) = N.even b.
  Proof.
    rewrite unbe_app. change (len [b]) with 1. replace (unbe [b]) with b by (cbn; lia).
    rewrite N.even_add, N.even_mul. change (N.even (256 ^ 1)) with true. rewrite orb_true_r.
    destruct (N.even b); reflexivity.
  Qed.
  Lemma parity_byte b : 2 + N.land b 1 = if N.even b then 2 else 3.
  Proof.
    change 1 with (N.ones 1). rewrite N.land_ones. change (2 ^ 1) with 2.
    destruct (N.even b) eqn:E; [apply N.even_spec in E as [q ->]|]; [lia|].
    assert (X : N.odd b = true) by (unfold N.odd; now rewrite E). apply N.odd_spec in X as [q ->]. lia.
  Qed.
  Lemma prefix_same c : address_prefix c = kind_prefix (addr_kind c).
  Proof. destruct c; reflexivity. Qed.

  (** What [publicKeyToAddress] makes of the hashed bytes [l]. *)
  Definition text_of (c : curve) (l : bytes) : bytes :=
    h_base58 H (address_prefix c ++ h_blake2b H 20 l ++
                js_slice 0 4 (sha256x2 H (address_prefix c ++ h_blake2b H 20 l))).
  Lemma text_reads c l : exists d, length d = 4%nat /\ bytes_ok d /\
    reads58 (text_of c l) (address_prefix c ++ h_blake2b H 20 l ++ d) /\
    bytes_ok (address_prefix c ++ h_blake2b H 20 l ++ d).
  Proof.
    set (x := sha256x2 H (address_prefix c ++ h_blake2b H 20 l)).
    destruct (hk_sha256_bytes H O HK (h_sha256 H (address_prefix c ++ h_blake2b H 20 l))) as [Lx Bx].
    change (length x = 32%nat) in Lx. change (bytes_ok x) in Bx.
    assert (E : js_slice 0 4 x = firstn 4 x).
    { change 0%Z with (Z.of_nat 0). change 4%Z with (Z.of_nat 4). rewrite js_slice_nat by lia. reflexivity. }
    exists (firstn 4 x). split; [rewrite firstn_length; lia|]. split; [now apply bytes_ok_firstn|].
    assert (B : bytes_ok (address_prefix c ++ h_blake2b H 20 l ++ firstn 4 x)).
    { apply bytes_ok_app. split; [destruct c; repeat (apply Forall_cons; [reflexivity|]); apply Forall_nil|].
      apply bytes_ok_app. split; [apply (hk_blake2b_bytes H O HK); lia|]. now apply bytes_ok_firstn. }
    split; [|exact B]. unfold text_of. fold x. rewrite E. now apply (hk_base58 H O HK).
  Qed.
  Lemma text_right c pk l h t : hashed_form c pk l -> o_blake2b O 20 l = Some h ->
    tz_text (twice O) (addr_kind c) h t -> text_of c l = t.
  Proof.
    intros F Hh (d & Hd & Rd). destruct (text_reads c l) as (x & _ & _ & Rx & _). unfold text_of.
    rewrite (hk_blake2b H O HK _ _ _ Hh), prefix_same.
    unfold twice in Hd. destruct (o_sha256 O (kind_prefix (addr_kind c) ++ h)) as [d1|] eqn:E1; [|discriminate].
    unfold sha256x2. rewrite (hk_sha256 H O HK _ _ E1), (hk_sha256 H O HK _ _ Hd).
    assert (E : js_slice 0 4 d = firstn 4 d).
    { change 0%Z with (Z.of_nat 0). change 4%Z with (Z.of_nat 4). rewrite js_slice_nat by lia. reflexivity. }
    rewrite E. eapply reads58_text; [|exact Rd]. apply (hk_base58 H O HK).
    apply bytes_ok_app. split; [destruct c; repeat (apply Forall_cons; [reflexivity|]); apply Forall_nil|].
    apply bytes_ok_app. split; [apply (ok_blake2b _ OK _ _ _ Hh)|]. apply bytes_ok_firstn, (ok_sha256 _ OK _ _ Hd).
  Qed.

  Lemma js_prefix n (l : bytes) : js_slice 0 (Z.of_nat n) l = firstn n l.
  Proof. change 0%Z with (Z.of_nat 0). rewrite js_slice_nat by lia. now rewrite Nat.sub_0_r. Qed.

  Lemma to_address c pk l : hashed_form c pk l ->
    exists key', public_key_to_address H pk c = Some (text_of c l, key').
  Proof.
    intros F. unfold public_key_to_address, text_of.
    destruct c; cbn [hashed_form] in F.
    1, 4: destruct F as [b ->]; exists (b :: l); change 1%Z with (Z.of_nat 1); rewrite js_slice_from_nat; reflexivity.
    1, 2: destruct F as (x & y & -> & Lx & Ly & ->);
      destruct (exists_last (l := y)) as (y' & b & ->); [intros ->; discriminate|];
      assert (E : nth_error (4 :: x ++ y' ++ [b]) 64 = Some b)
        by (rewrite app_length in Ly; cbn [length] in Ly; rewrite app_comm_cons, app_assoc;
            rewrite nth_error_app2 by (rewrite app_length; cbn [length]; lia);
            replace (64 - length ((4%N :: x) ++ y'))%nat with 0%nat by (rewrite app_length; cbn [length]; lia); reflexivity);
      rewrite E, even_last, <- parity_byte; cbn [tl]; change 33%Z with (Z.of_nat 33); rewrite js_prefix;
      assert (E2 : firstn 33 ((2 + N.land b 1) :: x ++ y' ++ [b]) = (2 + N.land b 1) :: x)
        by (rewrite app_comm_cons; apply firstn_app_exact; cbn [length]; lia);
      rewrite E2; eexists; reflexivity.
  Qed.

  Lemma hashed_unique c pk l l' : hashed_form c pk l -> hashed_form c pk l' -> l = l'.
  Proof.
    intros F F'. destruct c; cbn [hashed_form] in F, F'.
    1, 4: destruct F as [b E1], F' as [b' E2]; congruence.
    all: destruct F as (x & y & E1 & Lx & Ly & ->), F' as (x' & y' & E2 & Lx' & Ly' & ->);
      assert (E3 : x ++ y = x' ++ y') by congruence;
      apply (f_equal (firstn 32)) in E3 as E4; rewrite !firstn_app_exact in E4 by auto;
      apply (f_equal (skipn 32)) in E3; rewrite !skipn_app_exact in E3 by auto; subst x' y'; reflexivity.
  Qed.

  Lemma key_request_ok d text k : path_text text (snd k) -> length (snd k) = 2%nat \/ length (snd k) = 4%nat ->
    serialize_path H text = Some (plain_path (snd k)) /\ bytes_ok (plain_path (snd k)) /\
    (length (plain_path (snd k)) <= 17)%nat /\ (forall LEN, (4 <= LEN)%nat -> path_encodes LEN (plain_path (snd k)) (snd k)) /\
    byte_of_curve (fst k) < 256 /\
    forall ins p1 old LEN, (4 <= LEN)%nat -> ins < 256 -> p1 < 256 -> apdu_ok old -> d_ui d = None ->
      let buf := arrives ins p1 (byte_of_curve (fst k)) (plain_path (snd k)) old in
      apdu_ok buf /\ command d buf (5 + len (plain_path (snd k))) ins /\ nth 2 buf 0 = p1 /\ names LEN buf k.
  Proof.
    intros T L. destruct (path_text_serialized H O text (snd k) HK T L) as [E F].
    assert (B : bytes_ok (plain_path (snd k))) by (apply plain_path_ok; destruct L as [E'|E']; rewrite E'; lia).
    assert (Lp : (length (plain_path (snd k)) <= 17)%nat) by (rewrite plain_path_length; destruct L as [E'|E']; rewrite E'; lia).
    assert (P : forall LEN, (4 <= LEN)%nat -> path_encodes LEN (plain_path (snd k)) (snd k)).
    { intros LEN HL. apply encodes_components; [destruct (snd k); cbn [length] in L; [lia|discriminate]| |exact F].
      destruct L as [E'|E']; rewrite E'; lia. }
    assert (Bc : byte_of_curve (fst k) < 256) by (destruct (fst k); reflexivity).
    split; [exact E|]. split; [exact B|]. split; [exact Lp|]. split; [exact P|]. split; [exact Bc|].
    intros ins p1 old LEN HL Hi H1 Ao U buf.
    destruct (arrives_ok ins p1 (byte_of_curve (fst k)) (plain_path (snd k)) old d ltac:(lia) B Hi H1 Bc Ao U) as (A1 & A2 & A3 & A4 & A5 & A6).
    split; [exact A1|]. split; [exact A2|]. split; [exact A3|]. split; [exact A4|]. unfold buf. rewrite A6. now apply P.
  Qed.

  Lemma read_addr_ok pk t : len pk <= 65 -> read_addr ((len pk :: pk ++ t) ++ [0x90; 0]) = Some (pk, t).
  Proof.
    intros L. cbn [app read_addr].
    assert (E1 : (1 + Z.of_N (len pk))%Z = Z.of_nat (1 + length pk)) by (unfold len; lia). rewrite E1.
    change 1%Z with (Z.of_nat 1) at 1. rewrite js_slice_nat by lia. cbn [skipn].
    rewrite js_slice_from_nat.
    replace (1 + length pk - 1)%nat with (length pk) by lia. rewrite <- app_assoc. rewrite firstn_app_exact by reflexivity.
    cbn [Nat.add skipn]. rewrite skipn_app_exact by reflexivity. rewrite js_slice_data. reflexivity.
  Qed.

  Lemma address_call d text k pk old user later : d_ui d = None -> path_text text (snd k) ->
    length (snd k) = 2%nat \/ length (snd k) = 4%nat -> apdu_ok old -> addressable O k pk ->
    exists t key', key_text O (fst k) pk t /\ public_key_to_address H pk (fst k) = Some (t, key') /\
      get_address_and_pubkey H (plugged C O) text (fst k) (d, (old, user) :: later)
      = (JData 0x9000 (pk, t), (d, later)) /\
      (roomy C 110 -> user = EApprove ->
       show_address_and_pubkey H (plugged C O) text (fst k) (d, (old, user) :: later)
       = (JData 0x9000 (pk, t), (d, later))) /\
      (roomy C 110 -> user = EReject ->
       show_address_and_pubkey H (plugged C O) text (fst k) (d, (old, user) :: later)
       = (JCode 0x6986, (d, later))).
  Proof.
    intros U T L Ao (Hk & l & h & F & Hh & Tw).
    destruct (key_request_ok d text k T L) as (Es & B & Lp & _ & _ & G).
    pose proof (pubkey_short O OK _ _ Hk) as Lk.
    destruct (G 0x11 0 old 6%nat ltac:(lia) eq_refl eq_refl Ao U) as (A1 & A2 & A3 & A4).
    destruct (get_address C O d _ _ k pk l h OK A1 A2 A3 A4 Hk F Hh Tw) as (t & Kt & St).
    destruct (to_address (fst k) pk l F) as [key' Ea].
    assert (Et : text_of (fst k) l = t).
    { destruct Kt as (l' & h' & F' & Hh' & Tz & _). eapply text_right; [exact F|exact Hh|].
      pose proof (hashed_unique _ _ _ _ F F'). subst l'. congruence. }
    exists t, key'. split; [exact Kt|]. split; [rewrite <- Et; exact Ea|].
    unfold get_address_and_pubkey, show_address_and_pubkey, with_path. rewrite Es. split; [|split].
    - rewrite (ask_reply _ _ _ _ _ _ _ _ _ _ _ St ltac:(lia)).
      change (len pk :: pk ++ t ++ [0x90; 0]) with ((len pk :: pk) ++ t ++ [0x90; 0]). rewrite app_assoc, read_good.
      change ((len pk :: pk) ++ t) with (len pk :: pk ++ t). rewrite read_addr_ok by exact Lk. reflexivity.
    - intros R ->. destruct (G 0x11 1 old 6%nat ltac:(lia) eq_refl eq_refl Ao U) as (B1 & B2 & B3 & B4).
      assert (W : wants_review (arrives 0x11 1 (byte_of_curve (fst k)) (plain_path (snd k)) old) 0x11)
        by (right; split; [reflexivity|rewrite B3; lia]).
      destruct (prompted C O d _ _ 0x11 k pk l h OK B1 B2 W B4 Hk F Hh Tw R)
        as (t2 & Kt2 & St2).
      assert (t2 = t).
      { destruct Kt2 as (l2 & h2 & F2 & Hh2 & Tz2 & _), Kt as (l1 & h1 & F1 & Hh1 & Tz1 & _).
        rewrite <- (text_right _ _ _ _ _ F2 Hh2 Tz2), <- (text_right _ _ _ _ _ F1 Hh1 Tz1). f_equal.
        eapply hashed_unique; eassumption. }
      subst t2. match type of St2 with context [step C O d ?e] => destruct (step C O d e) as [a1 d1] eqn:Es1 end.
      destruct St2 as (-> & Sa & Sr).
      rewrite (ask_review _ _ _ _ _ _ _ _ _ _ _ _ Es1 Sa ltac:(lia)).
      change (len pk :: pk ++ t ++ [0x90; 0]) with ((len pk :: pk) ++ t ++ [0x90; 0]). rewrite app_assoc, read_good.
      change ((len pk :: pk) ++ t) with (len pk :: pk ++ t). rewrite read_addr_ok by exact Lk. reflexivity.
    - intros R ->. destruct (G 0x11 1 old 6%nat ltac:(lia) eq_refl eq_refl Ao U) as (B1 & B2 & B3 & B4).
      assert (W : wants_review (arrives 0x11 1 (byte_of_curve (fst k)) (plain_path (snd k)) old) 0x11)
        by (right; split; [reflexivity|rewrite B3; lia]).
      destruct (prompted C O d _ _ 0x11 k pk l h OK B1 B2 W B4 Hk F Hh Tw R)
        as (t2 & Kt2 & St2).
      match type of St2 with context [step C O d ?e] => destruct (step C O d e) as [a1 d1] eqn:Es1 end.
      destruct St2 as (-> & Sa & Sr).
      rewrite (ask_review _ _ _ _ _ _ _ _ _ _ _ _ Es1 Sr ltac:(lia)). rewrite read_bad by discriminate. reflexivity.
  Qed.
End Calls.
