(** C100: blind signatures through the library of the emulator tests. The first lemmas are
    those of [ClientFacts] and [ClientSign], for a developer build. *)
From Coq Require Import List NArith ZArith Lia Bool Arith ZifyBool ZifyNat ZifyN.
From Verif Require Import Base BaseFacts Codecs CodecsSpec CodecsFacts Oracles Upload UploadSpec UploadFacts Text Address AddressSpec AddressExamples HashDemo
  Device DeviceSpec ServiceSpec Client ClientSpec ClientText ClientFacts ClientSign DevBuild DevSpec DevFacts DevExamples DevClient DevClientFacts ClientExamples.
Import ListNotations.
Open Scope N_scope.

Section Sign.
  Variable D : dconfig.
  Variable O : oracles.

  Lemma dplugged_raw d old user later cmd :
    dplugged D O (d, (old, user) :: later) cmd =
    (let x := dsettle D O (dstep D O d (EApdu (received cmd old) (len cmd))) user in (fst x, (snd x, later))).
  Proof.
    unfold dplugged, dsettle. destruct (dstep D O d _) as [[r| | |] d1]; try reflexivity.
    destruct (dstep D O d1 user) as [[r| | |] d2]; reflexivity.
  Qed.
  Lemma dsend_chunk_eq idx num chunk legacy c ins wh d old user later : (length chunk <= 255)%nat ->
    sign_send_chunk (dplugged D O) idx num chunk legacy c ins wh (d, (old, user) :: later) =
    (let x := dsettle D O (dstep D O d (EApdu
       (received ([0x80; ins; chunk_p1 idx num legacy; chunk_p2 idx c; len chunk] ++ chunk) old)
       (5 + len chunk))) user in
     (read_sign wh (fst x), (snd x, later))).
  Proof.
    intros L. unfold sign_send_chunk, send_codes. replace (256 <=? len chunk) with false by (unfold len; lia).
    rewrite dplugged_raw.
    replace (len ([HOST_CLA; ins; chunk_p1 idx num legacy; chunk_p2 idx c; len chunk] ++ chunk)) with (5 + len chunk)
      by (rewrite len_app; reflexivity).
    unfold HOST_CLA.
    destruct (dsettle D O (dstep D O d _) user) as [[r|] d']; cbn [fst snd read_sign]; [|reflexivity].
    destruct (len r <? 2); [reflexivity|]. destruct (existsb (N.eqb (status_of r)) SIGN_CODES); [|reflexivity].
    reflexivity.
  Qed.
  Lemma drest_run legacy c ins wh x user later num : (length x <= 255)%nat -> forall chunks i olds old d res,
    Forall (fun ch => (length ch <= 255)%nat) chunks -> (1 <= i)%nat -> num = S (i + length chunks) ->
    length olds = length chunks ->
    let mids := map (mid_of ins) (combine chunks (map fst olds)) in
    fst (drun D O d (map sent mids)) = map (fun _ => go_on) mids ->
    sign_rest (dplugged D O) i num (chunks ++ [x]) legacy c ins wh res (d, olds ++ (old, user) :: later) =
    (let y := dsettle D O (dstep D O (snd (drun D O d (map sent mids))) (sent (pkt_of ins (last_p1 legacy) 0 x old))) user in
     (read_sign wh (fst y), (snd y, later))).
  Proof.
    intros Lx. induction chunks as [|ch chunks IH]; intros i olds old d res F Hi Hn Ho mids G.
    - destruct olds; [|discriminate]. cbn [length] in Hn. subst num mids. cbn [app combine map fst drun snd sign_rest].
      rewrite dsend_chunk_eq by exact Lx.
      replace (chunk_p1 (1 + i) (S (i + 0)) legacy) with (last_p1 legacy).
      2:{ unfold chunk_p1, last_p1. replace (1 + i =? 1)%nat with false by (symmetry; apply Nat.eqb_neq; lia).
          replace (1 + i =? S (i + 0))%nat with true by (symmetry; apply Nat.eqb_eq; lia). destruct legacy; reflexivity. }
      replace (chunk_p2 (1 + i) c) with 0
        by (unfold chunk_p2; replace (1 + i =? 1)%nat with false by (symmetry; apply Nat.eqb_neq; lia); reflexivity).
      cbv zeta. unfold sent, pkt_of. cbn [fst snd].
      destruct (dsettle D O _ user) as [o d']. cbn [fst snd]. destruct (sr_code (read_sign wh o) =? NO_ERRORS); reflexivity.
    - destruct olds as [|[old1 user1] olds]; [discriminate|]. pose proof (Forall_inv F) as F1. pose proof (Forall_inv_tail F) as F2. cbv beta in F1.
      subst mids. cbn [combine map fst] in G |- *. cbn [drun] in G |- *.
      cbn [app sign_rest]. rewrite dsend_chunk_eq by exact F1.
      replace (chunk_p1 (1 + i) num legacy) with 1.
      2:{ unfold chunk_p1. replace (1 + i =? 1)%nat with false by (symmetry; apply Nat.eqb_neq; lia).
          replace (1 + i =? num)%nat with false by (symmetry; apply Nat.eqb_neq; cbn [length] in Hn; lia). reflexivity. }
      replace (chunk_p2 (1 + i) c) with 0
        by (unfold chunk_p2; replace (1 + i =? 1)%nat with false by (symmetry; apply Nat.eqb_neq; lia); reflexivity).
      change (EApdu (received ([128; ins; 1; 0; len ch] ++ ch) old1) (5 + len ch)) with (sent (mid_of ins (ch, old1))).
      destruct (dstep D O d (sent (mid_of ins (ch, old1)))) as [a d1].
      specialize (IH (S i) olds old d1 (mkSignRes NO_ERRORS None None) F2 ltac:(lia) ltac:(cbn [length] in Hn; lia)
        ltac:(cbn [length] in Ho; lia)). cbv zeta in IH.
      destruct (drun D O d1 (map sent (map (mid_of ins) (combine chunks (map fst olds))))) as [l d2].
      cbn [fst snd] in G, IH |- *. injection G as -> G. specialize (IH G).
      cbv zeta. unfold go_on. cbn [dsettle fst snd].
      change (read_sign wh (Some [144; 0])) with (mkSignRes NO_ERRORS None None). cbn [sr_code].
      change (NO_ERRORS =? NO_ERRORS) with true. cbv iota. exact IH.
  Qed.

  Variable H : host.
  Hypothesis K : host_ok H O.

  Lemma dsign_packets text k data legacy ins wh d sched later user :
    path_text text (snd k) -> length (snd k) = 2%nat \/ length (snd k) = 4%nat ->
    bytes_ok data -> data <> [] -> ins < 256 ->
    (2 + 4 * length (snd k) + length data <= CAPACITY)%nat ->
    length sched = packets_for data -> deciding user sched ->
    exists first mids last, request ins k data first mids last /\
      S (S (length mids)) = packets_for data /\
      forall a d', drun D O d (map sent (first :: mids ++ [last])) = (map (fun _ => go_on) (first :: mids) ++ [a], d') ->
      sign_message H (dplugged D O) text (fst k) data legacy ins wh (d, sched ++ later) =
      (let y := dsettle D O (a, d') user in (read_sign wh (fst y), (snd y, later))).
  Proof.
    intros T L B Ne Hi Cap Ls Du.
    destruct (path_text_serialized H O text (snd k) K T L) as [Es F32].
    destruct (chunks_spec data (plain_path (snd k))) as (cs & Ec & Cc & Fc & Lc).
    assert (Nc : cs <> []) by (intros ->; apply Ne; now rewrite <- Cc).
    destruct (last_split cs Nc) as (chunks & x & ->). clear Nc.
    apply Forall_app in Fc as [Fc Fx]. pose proof (Forall_inv Fx) as Lx. cbv beta in Lx. clear Fx.
    rewrite app_length in Lc. cbn [length] in Lc.
    destruct sched as [|[old0 u0] sched]; [cbn [length] in Ls; lia|].
    assert (Ns : sched <> []) by (intros ->; cbn [length] in Ls; lia).
    destruct (last_split sched Ns) as (olds & [old u1] & ->). clear Ns.
    cbn [length] in Ls. rewrite app_length in Ls. cbn [length] in Ls.
    assert (Lo : length olds = length chunks) by lia.
    unfold deciding in Du. pose proof (Forall_inv Du) as D0. pose proof (Forall_inv_tail Du) as D1. clear Du.
    cbn [fst snd] in D0. apply Forall_app in D1 as [D1 D2]. pose proof (Forall_inv D2) as D3. cbn [fst snd] in D3. clear D2.
    destruct D0 as [A0 ->]. destruct D3 as [A3 ->].
    pose proof (concat_bytes_ok _ ltac:(rewrite Cc; exact B)) as Bc. apply Forall_app in Bc as [Bc Bx].
    pose proof (Forall_inv Bx) as Bx1. clear Bx.
    assert (Fc' : Forall (fun ch => (length ch <= 255)%nat) chunks).
    { eapply Forall_impl; [|exact Fc]. cbv beta. intros; lia. }
    assert (Lp : (length (plain_path (snd k)) <= 255)%nat)
      by (rewrite plain_path_length; destruct L as [L|L]; rewrite L; lia).
    assert (Bp : bytes_ok (plain_path (snd k))) by (apply plain_path_ok; lia).
    assert (Hc : byte_of_curve (fst k) < 256) by (destruct (fst k); reflexivity).
    destruct (pkt_packet ins 0 (byte_of_curve (fst k)) (plain_path (snd k)) old0 KInit Lp Bp Hi eq_refl Hc A0 eq_refl)
      as (P1 & P2 & P3).
    assert (Kl : kind_of (last_p1 legacy) = Some KLast) by (destruct legacy; reflexivity).
    assert (Hl : last_p1 legacy < 256) by (destruct legacy; reflexivity).
    destruct (pkt_packet ins (last_p1 legacy) 0 x old KLast ltac:(lia) Bx1 Hi Hl eq_refl A3 Kl) as (Q1 & Q2 & Q3).
    set (first := pkt_of ins 0 (byte_of_curve (fst k)) (plain_path (snd k)) old0) in *.
    set (mids := map (mid_of ins) (combine chunks (map fst olds))) in *.
    set (last := pkt_of ins (last_p1 legacy) 0 x old) in *.
    exists first, mids, last. split; [|split].
    - split; [exact P1|]. split.
      { subst mids. clear - Bc Fc' D1 Lo Hi. revert olds D1 Lo. induction chunks as [|ch chunks IH]; intros olds D1 Lo.
        - constructor.
        - destruct olds as [|[o1 v1] olds]; [discriminate|]. cbn [map combine fst].
          pose proof (Forall_inv D1) as D0. cbn [fst snd] in D0. constructor.
          + apply (pkt_packet ins 1 0 ch o1 KNext); auto; try reflexivity; try apply D0.
            * exact (Forall_inv Fc').
            * exact (Forall_inv Bc).
          + apply IH; [exact (Forall_inv_tail Bc)|exact (Forall_inv_tail Fc')|exact (Forall_inv_tail D1)|].
            cbn [length] in Lo; lia. }
      split; [exact Q1|]. split.
      { split; [exact P3|]. rewrite P2. apply encodes_components; [|unfold BIP32_MAX_LENGTH|exact F32].
        - intros E. rewrite E in L. cbn [length] in L. lia.
        - destruct L as [L|L]; rewrite L; cbn; lia. }
      split.
      { rewrite map_app, concat_app. subst mids. rewrite combine_pays; [|now rewrite map_length|exact Fc'].
        cbn [map concat]. rewrite Q2, app_nil_r, <- Cc, concat_app. cbn [concat]. now rewrite app_nil_r. }
      rewrite P2, plain_path_length. unfold bytes, byte in *. lia.
    - rewrite <- Ls. subst mids. rewrite map_length, combine_length, map_length. lia.
    - intros a d' R. unfold sign_message. rewrite Es, Ec. cbv zeta.
      cbn [app]. rewrite dsend_chunk_eq by exact Lp.
      replace (chunk_p1 1 (S (length (chunks ++ [x]))) legacy) with 0
        by (rewrite app_length, Nat.add_1_r; reflexivity).
      replace (chunk_p2 1 (fst k)) with (byte_of_curve (fst k)) by reflexivity.
      change (EApdu (received ([128; ins; 0; byte_of_curve (fst k); len (plain_path (snd k))] ++ plain_path (snd k)) old0)
                (5 + len (plain_path (snd k)))) with (sent first).
      cbn [map app] in R. cbn [drun] in R. destruct (dstep D O d (sent first)) as [a0 d0].
      rewrite map_app, drun_app in R. cbn [map] in R.
      assert (X : fst (drun D O d0 (map sent mids)) = map (fun _ => go_on) mids ->
        sign_rest (dplugged D O) 1 (S (length (chunks ++ [x]))) (chunks ++ [x]) legacy (fst k) ins wh
          (mkSignRes NO_ERRORS None None) (d0, olds ++ (old, user) :: later) =
        (let y := dsettle D O (dstep D O (snd (drun D O d0 (map sent mids))) (sent last)) user in
         (read_sign wh (fst y), (snd y, later)))).
      { apply (drest_run legacy (fst k) ins wh x user later (S (length (chunks ++ [x]))) ltac:(lia) chunks 1 olds old d0);
          [exact Fc'|lia|rewrite app_length; cbn [length]; rewrite Nat.add_1_r; reflexivity|exact Lo]. }
      destruct (drun D O d0 (map sent mids)) as [l1 d1] eqn:R1. cbn [fst snd] in R, X.
      destruct (dstep D O d1 (sent last)) as [a1 d2] eqn:S1. cbn [drun] in R. rewrite S1 in R. cbn [fst snd] in R.
      injection R as E0 E1 E2. apply app_inj_tail in E1 as [E1 E3]. subst a0 a1 d2.
      cbv zeta. unfold go_on. cbn [dsettle fst snd].
      change (read_sign wh (Some [144; 0])) with (mkSignRes NO_ERRORS None None). cbn [sr_code].
      rewrite <- app_assoc. cbn [app]. rewrite (X E1). reflexivity.
  Qed.

  (** [blind_sign] of the library. *)
  Lemma blind_called text k message x sched later user dg s room :
    path_text text (snd k) -> length (snd k) = 2%nat \/ length (snd k) = 4%nat -> bytes_ok message ->
    (3 + 4 * length (snd k) + length message <= CAPACITY)%nat ->
    length sched = packets_for (5 :: message) -> deciding user sched -> ready D O x ->
    o_blake2b O 32 (5 :: message) = Some dg -> o_sign O (fst k) (snd k) dg = Some s -> oracles_ok O ->
    dc_room D (DBlind true dg (5 :: message)) = Some room -> 134 <= room ->
    exists u,
      (user = EApprove -> blind_call H (dplugged D O) text (fst k) message (x, sched ++ later) =
        (mkSignRes 0x9000 (Some dg) (Some s),
         (mkDD (set_up u (dd_dev x)) None None (mkBlind k dg (5 :: message) :: dd_log x), later))) /\
      (user = EReject -> blind_call H (dplugged D O) text (fst k) message (x, sched ++ later) =
        (mkSignRes 0x6986 None None, (mkDD (set_up u (dd_dev x)) None None (dd_log x), later))).
  Proof.
    intros T L B Cap Ls Du R Hd Hs OK Hr Hn.
    destruct (dsign_packets text k (5 :: message) false 0xF3 true x sched later user T L
      ltac:(constructor; [reflexivity|exact B]) ltac:(discriminate) eq_refl ltac:(cbn [length]; unfold bytes, byte in *; lia) Ls Du)
      as (first & mids & last & Q & _ & E).
    destruct (blind_pending D O x k (5 :: message) first mids last dg R Q Hd ltac:(congruence)) as (u & Er & _).
    specialize (E _ _ Er). exists u. unfold blind_call. rewrite E. cbv zeta. cbn [dsettle].
    destruct (ok_sign O OK _ _ _ _ Hs) as [Lg _]. destruct (ok_blake2b O OK _ _ _ Hd) as [Ld _].
    split; intros ->.
    - rewrite (blind_approve D O _ k dg _ _ s room Hs Lg Hr) by (unfold len; lia). cbn [fst snd].
      rewrite read_hashed by exact Ld. reflexivity.
    - destruct (blind_refuse D O (set_up u (dd_dev x)) k dg (5 :: message) (dd_log x) room Hr ltac:(lia)) as [B1 _].
      cbv zeta in B1. rewrite B1. reflexivity.
  Qed.
End Sign.

Lemma blind_call_case : host_ok demo_host demo_oracles /\ path_text client_text (snd (client_key Ed25519)) /\
  length (snd (client_key Ed25519)) = 4%nat /\ bytes_ok [1; 2; 3] /\
  (3 + 4 * length (snd (client_key Ed25519)) + length [1; 2; 3] <= CAPACITY)%nat /\
  length (turns 2 EApprove) = packets_for [5; 1; 2; 3] /\ deciding EApprove (turns 2 EApprove) /\
  ready dev_demo demo_oracles (dev_at left_over) /\ oracles_ok demo_oracles /\
  exists dg s, o_blake2b demo_oracles 32 [5; 1; 2; 3] = Some dg /\
    o_sign demo_oracles Ed25519 (snd (client_key Ed25519)) dg = Some s /\
    dc_room dev_demo (DBlind true dg [5; 1; 2; 3]) = Some 200.
Proof.
  split; [exact demo_host_ok|]. split; [exact client_text_ok|]. split; [reflexivity|].
  split; [repeat constructor|]. split; [unfold CAPACITY; cbn [length snd client_key]; vm_compute; lia|].
  split; [reflexivity|]. split; [apply turns_deciding|]. split; [exact (proj1 blind_case)|]. split; [exact demo_oracles_ok|].
  exists (blake2b 32 [5; 1; 2; 3]). eexists. split; [reflexivity|]. split; [|reflexivity].
  cbn [o_sign demo_oracles]. reflexivity.
Qed.
