(** What the signing calls of the host library get from the device. *)
From Coq Require Import List NArith ZArith Lia Bool Arith ZifyBool ZifyNat ZifyN.
From Verif Require Import Base BaseFacts Flash Codecs CodecsSpec CodecsFacts Upload UploadSpec Baking BakingSpec BakingFacts
  Operations OperationsSpec Oracles Address AddressSpec AddressFacts Device DeviceSpec ServiceSpec DeviceLive
  Client ClientSpec ClientFacts.
Import ListNotations.
Open Scope N_scope.

Lemma last_split {A} (l : list A) : l <> [] -> exists a x, l = a ++ [x].
Proof. intros H. destruct (exists_last H) as (a & x & ->). eauto. Qed.
Lemma combine_pays ins chunks olds : length olds = length chunks ->
  Forall (fun ch => (length ch <= 255)%nat) chunks ->
  concat (map (fun p : bytes * N => pay (fst p)) (map (mid_of ins) (combine chunks olds))) = concat chunks.
Proof.
  revert olds. induction chunks as [|ch chunks IH]; intros [|old olds] L F; try discriminate; [reflexivity|].
  cbn [combine map concat]. pose proof (Forall_inv F) as F1. pose proof (Forall_inv_tail F) as F2. cbv beta in F1.
  rewrite IH; [|cbn [length] in L; lia|exact F2]. f_equal. unfold mid_of, pay, pkt_of, received.
  cbn [fst app nth skipn]. apply firstn_app_exact. unfold len. lia.
Qed.
Lemma concat_bytes_ok l : bytes_ok (concat l) -> Forall bytes_ok l.
Proof.
  induction l as [|x l IH]; intros H; constructor; cbn [concat] in H; apply bytes_ok_app in H as [A B]; auto.
Qed.
Lemma plain_path_length p : length (plain_path p) = (1 + 4 * length p)%nat.
Proof.
  unfold plain_path. cbn [length]. change (1 + 4 * length p)%nat with (S (4 * length p)). apply eq_S.
  induction p as [|x p IH]; [reflexivity|]. cbn [map concat]. rewrite app_length, be_length, IH. cbn [length]. lia.
Qed.
Lemma plain_path_ok p : (length p <= 255)%nat -> bytes_ok (plain_path p).
Proof.
  intros L. constructor; [unfold len; lia|]. induction p as [|x p IH]; cbn [map concat]; [constructor|].
  apply bytes_ok_app. split; [apply be_ok|]. apply IH. cbn [length] in L. lia.
Qed.

Section Sign.
  Variable C : config.
  Variable O : oracles.
  Variable H : host.
  Hypothesis K : host_ok H O.

  Lemma sign_message_packets text k data legacy ins wh d sched later user :
    path_text text (snd k) -> length (snd k) = 2%nat \/ length (snd k) = 4%nat ->
    bytes_ok data -> data <> [] -> ins < 256 ->
    (2 + 4 * length (snd k) + length data <= CAPACITY)%nat ->
    length sched = packets_for data -> deciding user sched ->
    exists first mids last, request ins k data first mids last /\
      S (S (length mids)) = packets_for data /\
      forall a d', run C O d (map sent (first :: mids ++ [last])) = (map (fun _ => go_on) (first :: mids) ++ [a], d') ->
      sign_message H (plugged C O) text (fst k) data legacy ins wh (d, sched ++ later) =
      (let y := settle C O (a, d') user in (read_sign wh (fst y), (snd y, later))).
  Proof.
    intros T L B Ne Hi Cap Ls Du.
    destruct (path_text_serialized H O text (snd k) K T L) as [Es F32].
    destruct (chunks_spec data (plain_path (snd k))) as (cs & Ec & Cc & Fc & Lc).
    assert (Nc : cs <> []) by (intros ->; apply Ne; now rewrite <- Cc).
    destruct (last_split cs Nc) as (chunks & x & ->). clear Nc.
    apply Forall_app in Fc as [Fc Fx]. pose proof (Forall_inv Fx) as Lx. cbv beta in Lx. clear Fx.
    rewrite app_length in Lc. cbn [length] in Lc.
    destruct sched as [|[old0 u0] sched]; [cbn [length] in Ls; lia|].
    assert (Ns : sched <> []) by (intros ->; cbn [length] in Ls; lia).
    destruct (last_split sched Ns) as (olds & [old u1] & ->). clear Ns.
    cbn [length] in Ls. rewrite app_length in Ls. cbn [length] in Ls.
    assert (Lo : length olds = length chunks) by lia.
    unfold deciding in Du. pose proof (Forall_inv Du) as D0. pose proof (Forall_inv_tail Du) as D1. clear Du.
    cbn [fst snd] in D0. apply Forall_app in D1 as [D1 D2]. pose proof (Forall_inv D2) as D3. cbn [fst snd] in D3. clear D2.
    destruct D0 as [A0 ->]. destruct D3 as [A3 ->].
    pose proof (concat_bytes_ok _ ltac:(rewrite Cc; exact B)) as Bc. apply Forall_app in Bc as [Bc Bx].
    pose proof (Forall_inv Bx) as Bx1. clear Bx.
    assert (Fc' : Forall (fun ch => (length ch <= 255)%nat) chunks).
    { eapply Forall_impl; [|exact Fc]. cbv beta. intros; lia. }
    assert (Lp : (length (plain_path (snd k)) <= 255)%nat)
      by (rewrite plain_path_length; destruct L as [L|L]; rewrite L; lia).
    assert (Bp : bytes_ok (plain_path (snd k))) by (apply plain_path_ok; lia).
    assert (Hc : byte_of_curve (fst k) < 256) by (destruct (fst k); reflexivity).
    destruct (pkt_packet ins 0 (byte_of_curve (fst k)) (plain_path (snd k)) old0 KInit Lp Bp Hi eq_refl Hc A0 eq_refl)
      as (P1 & P2 & P3).
    assert (Kl : kind_of (last_p1 legacy) = Some KLast) by (destruct legacy; reflexivity).
    assert (Hl : last_p1 legacy < 256) by (destruct legacy; reflexivity).
    destruct (pkt_packet ins (last_p1 legacy) 0 x old KLast ltac:(lia) Bx1 Hi Hl eq_refl A3 Kl) as (Q1 & Q2 & Q3).
    set (first := pkt_of ins 0 (byte_of_curve (fst k)) (plain_path (snd k)) old0) in *.
    set (mids := map (mid_of ins) (combine chunks (map fst olds))) in *.
    set (last := pkt_of ins (last_p1 legacy) 0 x old) in *.
    exists first, mids, last. split; [|split].
    - split; [exact P1|]. split.
      { subst mids. clear - Bc Fc' D1 Lo Hi. revert olds D1 Lo. induction chunks as [|ch chunks IH]; intros olds D1 Lo.
        - constructor.
        - destruct olds as [|[o1 v1] olds]; [discriminate|]. cbn [map combine fst].
          pose proof (Forall_inv D1) as D0. cbn [fst snd] in D0. constructor.
          + apply (pkt_packet ins 1 0 ch o1 KNext); auto; try reflexivity; try apply D0.
            * exact (Forall_inv Fc').
            * exact (Forall_inv Bc).
          + apply IH; [exact (Forall_inv_tail Bc)|exact (Forall_inv_tail Fc')|exact (Forall_inv_tail D1)|].
            cbn [length] in Lo; lia. }
      split; [exact Q1|]. split.
      { split; [exact P3|]. rewrite P2. apply encodes_components; [|unfold BIP32_MAX_LENGTH|exact F32].
        - intros E. rewrite E in L. cbn [length] in L. lia.
        - destruct L as [L|L]; rewrite L; cbn; lia. }
      split.
      { rewrite map_app, concat_app. subst mids. rewrite combine_pays; [|now rewrite map_length|exact Fc'].
        cbn [map concat]. rewrite Q2, app_nil_r, <- Cc, concat_app. cbn [concat]. now rewrite app_nil_r. }
      rewrite P2, plain_path_length. unfold bytes, byte in *. lia.
    - rewrite <- Ls. subst mids. rewrite map_length, combine_length, map_length. lia.
    - intros a d' R. unfold sign_message. rewrite Es, Ec. cbv zeta.
      cbn [app]. rewrite send_chunk_eq by exact Lp.
      replace (chunk_p1 1 (S (length (chunks ++ [x]))) legacy) with 0
        by (rewrite app_length, Nat.add_1_r; reflexivity).
      replace (chunk_p2 1 (fst k)) with (byte_of_curve (fst k)) by reflexivity.
      change (EApdu (received ([128; ins; 0; byte_of_curve (fst k); len (plain_path (snd k))] ++ plain_path (snd k)) old0)
                (5 + len (plain_path (snd k)))) with (sent first).
      cbn [map app] in R. cbn [run] in R. destruct (step C O d (sent first)) as [a0 d0].
      rewrite map_app, run_app in R. cbn [map] in R.
      assert (X : fst (run C O d0 (map sent mids)) = map (fun _ => go_on) mids ->
        sign_rest (plugged C O) 1 (S (length (chunks ++ [x]))) (chunks ++ [x]) legacy (fst k) ins wh
          (mkSignRes NO_ERRORS None None) (d0, olds ++ (old, user) :: later) =
        (let y := settle C O (step C O (snd (run C O d0 (map sent mids))) (sent last)) user in
         (read_sign wh (fst y), (snd y, later)))).
      { apply (rest_run C O legacy (fst k) ins wh x user later (S (length (chunks ++ [x]))) ltac:(lia) chunks 1 olds old d0);
          [exact Fc'|lia|rewrite app_length; cbn [length]; rewrite Nat.add_1_r; reflexivity|exact Lo]. }
      destruct (run C O d0 (map sent mids)) as [l1 d1] eqn:R1. cbn [fst snd] in R, X.
      destruct (step C O d1 (sent last)) as [a1 d2] eqn:S1. cbn [run] in R. rewrite S1 in R. cbn [fst snd] in R.
      injection R as E0 E1 E2. apply app_inj_tail in E1 as [E1 E3]. subst a0 a1 d2.
      cbv zeta. unfold go_on. cbn [settle fst snd].
      change (read_sign wh (Some [144; 0])) with (mkSignRes NO_ERRORS None None). cbn [sr_code].
      rewrite <- app_assoc. cbn [app]. rewrite (X E1). reflexivity.
  Qed.

  Lemma sign_message_run text k data legacy ins wh d sched later user :
    path_text text (snd k) -> length (snd k) = 2%nat \/ length (snd k) = 4%nat ->
    bytes_ok data -> data <> [] -> ins < 256 ->
    (2 + 4 * length (snd k) + length data <= CAPACITY)%nat ->
    length sched = packets_for data -> deciding user sched ->
    exists first mids last, request ins k data first mids last /\
      forall a d', run C O d (map sent (first :: mids ++ [last])) = (map (fun _ => go_on) (first :: mids) ++ [a], d') ->
      sign_message H (plugged C O) text (fst k) data legacy ins wh (d, sched ++ later) =
      (let y := settle C O (a, d') user in (read_sign wh (fst y), (snd y, later))).
  Proof.
    intros T L B Ne Hi Cap Ls Du.
    destruct (sign_message_packets text k data legacy ins wh d sched later user T L B Ne Hi Cap Ls Du)
      as (first & mids & last & Rq & _ & Run). exists first, mids, last. split; [exact Rq|exact Run].
  Qed.

  (** ** Results *)

  Lemma read_hashed dg s : length dg = 32%nat ->
    read_sign true (Some (dg ++ s ++ [0x90; 0])) = mkSignRes 0x9000 (Some dg) (Some s).
  Proof.
    intros L. rewrite app_assoc. unfold read_sign.
    assert (E : len ((dg ++ s) ++ [0x90; 0]) = 34 + len s) by (unfold len; rewrite !app_length, L; cbn [length]; lia).
    rewrite E. replace (34 + len s <? 2) with false by lia. rewrite status_of_app.
    change (existsb (N.eqb (0x90 * 256 + 0)) SIGN_CODES) with true. change (0x90 * 256 + 0 =? NO_ERRORS) with true.
    replace (2 <? 34 + len s) with true by lia. cbn [andb]. cbv iota.
    f_equal; f_equal.
    - change 32%Z with (Z.of_nat 32). change 0%Z with (Z.of_nat 0). rewrite js_slice_nat by lia.
      cbn [skipn]. rewrite <- app_assoc. now apply firstn_app_exact.
    - change 32%Z with (Z.of_nat 32). rewrite <- L at 1. rewrite js_slice_drop2 by (rewrite app_length; lia).
      now apply skipn_app_exact.
  Qed.
  Lemma read_unhashed s : (32 <= length s)%nat ->
    read_sign false (Some (s ++ [0x90; 0])) = mkSignRes 0x9000 (Some (repeat 0 32)) (Some (firstn 32 s)).
  Proof.
    intros L. unfold read_sign.
    assert (E : len (s ++ [0x90; 0]) = 2 + len s) by (unfold len; rewrite !app_length; cbn [length]; lia).
    rewrite E. replace (2 + len s <? 2) with false by lia. rewrite status_of_app.
    change (existsb (N.eqb (0x90 * 256 + 0)) SIGN_CODES) with true. change (0x90 * 256 + 0 =? NO_ERRORS) with true.
    replace (2 <? 2 + len s) with true by (unfold len; lia). cbn [andb]. cbv iota.
    f_equal; f_equal. change 32%Z with (Z.of_nat 32). change 0%Z with (Z.of_nat 0). rewrite js_slice_nat by lia.
    cbn [skipn]. rewrite firstn_app. replace (32 - 0 - length s)%nat with 0%nat by lia. cbn [firstn].
    rewrite app_nil_r. reflexivity.
  Qed.

  (** ** Wallets *)

  Lemma wallet_message ins legacy wh text k data dg s f u es sched later user :
    upload_command C ins = Some AccSign -> ins < 256 ->
    let d := snd (run C O (dev_fresh f u) es) in
    signable C O d text k data dg s sched -> reviewed_message data -> deciding user sched ->
    (forall sh p, exists room, cf_room C (VSign sh dg p data) = Some room /\ len dg + len s + 2 <= room) ->
    exists d' x, untouched d d' /\ x = step C O d' user /\
      sign_message H (plugged C O) text (fst k) data legacy ins wh (d, sched ++ later) =
      (read_sign wh (match fst x with AReply r => Some r | _ => None end), (snd x, later)) /\
      (let (a, d'') := step C O d' EApprove in
       a = AReply ((if (ins =? 0x04) || (ins =? 0x05) then [] else dg) ++ s ++ [0x90; 0]) /\
       d_log d'' = mkSig SrcReview k dg data :: d_log d /\ d_ui d'' = None /\
       forall sl, wear_read (get_slot sl d'') = wear_read (get_slot sl d)) /\
      (let (a, d'') := step C O d' EReject in
       a = AReply [0x69; 0x86] /\ d_ui d'' = None /\ untouched d d'').
  Proof.
    intros Hc Hi d [U F T L B Z P Hh Hd Hs Ls] Rm Du Room.
    assert (Ne : data <> []) by (destruct Rm; discriminate).
    destruct (sign_message_run text k data legacy ins wh d sched later user T L B Ne Hi Z P Du)
      as (first & mids & last & Rq & Run).
    destruct (review_served C O f u es ins k data first mids last dg s U F Hc Rq Rm Hh Hs Ls Room)
      as (d' & R & Un & Ap & Rj).
    exists d', (step C O d' user). split; [exact Un|]. split; [reflexivity|]. split; [|split; [exact Ap|exact Rj]].
    rewrite (Run _ _ R). cbn [settle]. destruct (step C O d' user) as [[r| | |] d2]; reflexivity.
  Qed.

  Lemma wallet_signed call m text k message dg s f u es sched later :
    wallet_call C call m ->
    let d := snd (run C O (dev_fresh f u) es) in
    let data := m :: message in
    signable C O d text k data dg s sched -> reviewed_message data ->
    (forall sh p, exists room, cf_room C (VSign sh dg p data) = Some room /\ len dg + len s + 2 <= room) ->
    (deciding EApprove sched ->
     exists d', call H (plugged C O) text (fst k) message (d, sched ++ later)
                = (mkSignRes 0x9000 (Some dg) (Some s), (d', later)) /\
       d_log d' = mkSig SrcReview k dg data :: d_log d /\ d_ui d' = None /\
       forall sl, wear_read (get_slot sl d') = wear_read (get_slot sl d)) /\
    (deciding EReject sched ->
     exists d', call H (plugged C O) text (fst k) message (d, sched ++ later)
                = (mkSignRes 0x6986 None None, (d', later)) /\ d_ui d' = None /\ untouched d d').
  Proof.
    intros Hcall d data Sb Rm Room.
    assert (E : exists legacy ins, upload_command C ins = Some AccSign /\ ins < 256 /\
      (ins =? 0x04) || (ins =? 0x05) = false /\
      forall w, call H (plugged C O) text (fst k) message w
                = sign_message H (plugged C O) text (fst k) data legacy ins true w).
    { subst data. unfold upload_command. destruct Hcall as [ | |Hb|Hb].
      1, 2: exists false, 0x12; destruct (cf_baking C); repeat split.
      all: exists true, 0x0F; rewrite Hb; repeat split. }
    destruct E as (legacy & ins & Hc & Hi & Hn & E). split; intros Du; rewrite E.
    - destruct (wallet_message ins legacy true text k data dg s f u es sched later EApprove Hc Hi Sb Rm Du Room)
        as (d' & x & Un & Ex & Em & Ap & _). fold d in Em. rewrite Em, Ex. rewrite Hn in Ap.
      destruct (step C O d' EApprove) as [a d'']. destruct Ap as (-> & Lg & Ui & Sl). cbn [fst snd].
      rewrite read_hashed by apply Sb. exists d''. auto.
    - destruct (wallet_message ins legacy true text k data dg s f u es sched later EReject Hc Hi Sb Rm Du Room)
        as (d' & x & Un & Ex & Em & _ & Rj). fold d in Em. rewrite Em, Ex.
      destruct (step C O d' EReject) as [a d'']. destruct Rj as (-> & Ui & Un'). cbn [fst snd].
      exists d''. auto.
  Qed.

  (** [legacySign] returns only the start of the signature. *)
  Lemma legacy_truncates kind text k message dg s f u es sched later :
    cf_baking C = false -> kind = LkOperation \/ kind = LkMichelson ->
    let d := snd (run C O (dev_fresh f u) es) in
    let data := legacy_magic kind :: message in
    signable C O d text k data dg s sched -> reviewed_message data -> (32 <= length s)%nat ->
    (forall sh p, exists room, cf_room C (VSign sh dg p data) = Some room /\ len dg + len s + 2 <= room) ->
    deciding EApprove sched ->
    exists d', legacy_sign H (plugged C O) text (fst k) message kind (d, sched ++ later)
               = (mkSignRes 0x9000 (Some (repeat 0 32)) (Some (firstn 32 s)), (d', later)) /\
      d_log d' = mkSig SrcReview k dg data :: d_log d.
  Proof.
    intros Hb Hk d data Sb Rm Ls Room Du.
    assert (Hc : upload_command C 0x04 = Some AccSign) by (unfold upload_command; rewrite Hb; reflexivity).
    destruct (wallet_message 0x04 true false text k data dg s f u es sched later EApprove Hc eq_refl Sb Rm Du Room)
      as (d' & x & Un & Ex & Em & Ap & _). unfold legacy_sign. fold data. fold d in Em. rewrite Em, Ex.
    destruct (step C O d' EApprove) as [a d'']. destruct Ap as (-> & Lg & Ui & Sl). cbn [fst snd].
    change ((4 =? 0x04) || (4 =? 0x05)) with true. cbv iota. cbn [app]. rewrite read_unhashed by exact Ls.
    exists d''. auto.
  Qed.

  (** ** Bakers *)

  Lemma nth_error_split (a : bytes) v rest n : length a = n -> nth_error (a ++ v :: rest) n = Some v.
  Proof. intros E. rewrite nth_error_app2 by lia. rewrite E, Nat.sub_diag. reflexivity. Qed.
  Lemma fitness_version h v more : header_ok h -> h_fitness h = [v] :: more ->
    nth_error (enc_header h) 90 = Some v.
  Proof.
    intros (_ & _ & _ & Lp & _ & _ & Lo & _) Hf. unfold enc_header. rewrite Hf.
    unfold enc_fitness at 2. cbn [map concat].
    rewrite <- (app_assoc (be 4 (len [v]) ++ [v])), <- (app_assoc (be 4 (len [v]))).
    set (more' := concat _ ++ h_rest h). set (n := be 4 (len (enc_fitness _))). set (n1 := be 4 (len [v])).
    assert (Ln : length n = 4%nat) by apply be_length. assert (Ln1 : length n1 = 4%nat) by apply be_length.
    rewrite !app_assoc. rewrite <- (app_assoc _ [v] more'). cbn [app]. apply nth_error_split.
    rewrite !app_length, !be_length, Lp, Lo, Ln, Ln1. reflexivity.
  Qed.
  Lemma magic_right m message q : consensus_message (m :: message) q ->
    baker_magic (kind_of_magic m) message = Some m.
  Proof.
    intros M. remember (m :: message) as data eqn:E.
    destruct M as [h v more Hk Hv Hf|h more round Hk Hr Hf|chain branch level rest Hc Hb Hl
      |chain branch is_pre slot level round payload rest Hc Hb Hs Hl Hr Hp]; injection E as <- <-.
    - change (kind_of_magic 1) with BkBlock. unfold baker_magic.
      change (4 + 4 + 1 + 32 + 8 + 1 + 32 + 4 + 4)%nat with 90%nat.
      rewrite (fitness_version h v more Hk Hf). replace ((v =? 0) || (v =? 1)) with true by lia. reflexivity.
    - change (kind_of_magic 0x11) with BkBlock. unfold baker_magic.
      change (4 + 4 + 1 + 32 + 8 + 1 + 32 + 4 + 4)%nat with 90%nat.
      rewrite (fitness_version h 2 _ Hk Hf). reflexivity.
    - change (kind_of_magic 2) with BkEndorsement. unfold baker_magic, enc_emmy_endo.
      change (4 + 32)%nat with 36%nat. rewrite app_assoc. cbn [app].
      rewrite nth_error_split by (rewrite app_length, be_length; lia). reflexivity.
    - replace (kind_of_magic (if is_pre then 0x12 else 0x13)) with BkEndorsement by (destruct is_pre; reflexivity).
      unfold baker_magic, enc_tb_endo. change (4 + 32)%nat with 36%nat. rewrite app_assoc. cbn [app].
      rewrite nth_error_split by (rewrite app_length, be_length; lia). destruct is_pre; reflexivity.
  Qed.

  Lemma pos_dec a b : (cpos_level b < 2 ^ 31 /\ cpos_lt a b) \/ ~ (cpos_level b < 2 ^ 31 /\ cpos_lt a b).
  Proof.
    destruct a as [la ea|la ra ka], b as [lb eb|lb rb kb]; cbn [cpos_lt cpos_level]; try destruct ea; try destruct eb;
      cbn [kind_rank]; lia.
  Qed.
  Lemma baker_consensus text k kp m message q dg s mp w f u es sched later user :
    Forall slot_fault_ok f -> Forall up_fault_ok u -> Forall event_ok es -> len es + 1 < 2 ^ 64 ->
    let d := snd (run C O (dev_fresh f u) es) in
    let data := m :: message in
    signable C O d text k data dg s sched -> d_faults d = [] -> deciding user sched ->
    cf_baking C = true -> consensus_message data q ->
    wear_read (d_key d) = Some (RData kp) -> key_layout kp k ->
    wear_read (d_main d) = Some (RData mp) -> mark_bytes mp w ->
    exists r d', sign_baker H (plugged C O) text (fst k) message (kind_of_magic m) (d, sched ++ later)
                 = (JData (sr_code r) r, (d', later)) /\ d_ui d' = None /\
      (cpos_level q < 2 ^ 31 /\ cpos_lt (wm_pos w) q ->
       r = mkSignRes 0x9000 (Some dg) (Some s) /\
       d_log d' = mkSig SrcConsensus k dg data :: d_log d /\
       (exists mp' w', wear_read (d_main d') = Some (RData mp') /\ mark_bytes mp' w' /\ wm_pos w' = q) /\
       forall sl, sl <> SMain -> wear_read (get_slot sl d') = wear_read (get_slot sl d)) /\
      (~ (cpos_level q < 2 ^ 31 /\ cpos_lt (wm_pos w) q) ->
       r = mkSignRes 0x6984 None None /\ untouched d d').
  Proof.
    intros Ff Fu Fe Le d data [U F T L B Z P Hh Hd Hs Ls] Fd Du Hb M Kr Kl Mr Mb.
    destruct (sign_message_run text k data false 0xAF true d sched later user T L B ltac:(discriminate) eq_refl Z P Du)
      as (first & mids & last & Rq & Run).
    destruct (consensus_request_served C O f u es 0xAF k kp data q first mids last dg s mp w Ff Fu Fe Le U Fd F Hb
      ltac:(cbn [In]; auto) Rq M Kr Kl Mr Mb Hh ltac:(lia) Hs Ls) as (a & d' & R & Ui & Yes & No).
    fold d in R, Run. specialize (Run a d' R).
    unfold sign_baker. rewrite (magic_right m message q M). fold data. rewrite Run.
    assert (Dec : (cpos_level q < 2 ^ 31 /\ cpos_lt (wm_pos w) q) \/ ~ (cpos_level q < 2 ^ 31 /\ cpos_lt (wm_pos w) q)).
    { apply pos_dec. }
    destruct Dec as [D|D].
    - destruct (Yes D) as (-> & Lg & Mk & Sl). change (0xAF =? 0x04) with false. cbv iota. cbn [settle fst snd].
      rewrite read_hashed by exact Hd. eexists _, d'. split; [reflexivity|]. split; [exact Ui|].
      split; [auto|]. intros X. contradiction.
    - destruct (No D) as (-> & Un). cbn [settle fst snd].
      eexists _, d'. split; [reflexivity|]. split; [exact Ui|]. split; [intros X; contradiction|].
      intros _. split; [reflexivity|exact Un].
  Qed.

  Lemma baker_operation text k kp branch o dg s f u es sched later :
    let d := snd (run C O (dev_fresh f u) es) in
    let data := 3 :: branch ++ enc_op o in
    signable C O d text k data dg s sched ->
    cf_baking C = true -> length branch = 32%nat -> op_ok o ->
    wear_read (d_key d) = Some (RData kp) -> key_layout kp k ->
    (forall sh p, exists room, cf_room C (VBakingSign sh dg branch p data) = Some room /\ len dg + len s + 2 <= room) ->
    (deciding EApprove sched -> baker_op o = true ->
     exists d', sign_baker H (plugged C O) text (fst k) (branch ++ enc_op o) BkDelegation (d, sched ++ later)
                = (JData 0x9000 (mkSignRes 0x9000 (Some dg) (Some s)), (d', later)) /\
       d_log d' = mkSig SrcBakingReview k dg data :: d_log d /\ d_ui d' = None /\
       forall sl, wear_read (get_slot sl d') = wear_read (get_slot sl d)) /\
    (forall user, deciding user sched -> user = EReject \/ baker_op o = false ->
     exists d', sign_baker H (plugged C O) text (fst k) (branch ++ enc_op o) BkDelegation (d, sched ++ later)
                = (JData 0x6986 (mkSignRes 0x6986 None None), (d', later)) /\ d_ui d' = None /\ untouched d d').
  Proof.
    intros d data [U F T L B Z P Hh Hd Hs Ls] Hb Lb Ho Kr Kl Room.
    assert (G : forall user, deciding user sched ->
      exists a d', (forall y, y = settle C O (a, d') user ->
        sign_baker H (plugged C O) text (fst k) (branch ++ enc_op o) BkDelegation (d, sched ++ later)
        = (JData (sr_code (read_sign true (fst y))) (read_sign true (fst y)), (snd y, later))) /\
      untouched d d' /\
      if baker_op o then
        a = APending /\
        (let (a', d'') := step C O d' EApprove in
         a' = AReply (dg ++ s ++ [0x90; 0]) /\
         d_log d'' = mkSig SrcBakingReview k dg data :: d_log d /\ d_ui d'' = None /\
         forall sl, wear_read (get_slot sl d'') = wear_read (get_slot sl d)) /\
        (let (a', d'') := step C O d' EReject in
         a' = AReply [0x69; 0x86] /\ d_ui d'' = None /\ untouched d d'')
      else a = AReply [0x69; 0x86] /\ d_ui d' = None).
    { intros user Du.
      destruct (sign_message_run text k data false 0xAF true d sched later user T L B ltac:(discriminate) eq_refl Z P Du)
        as (first & mids & last & Rq & Run).
      destruct (operation_request_served C O f u es 0xAF k kp branch o first mids last dg s U F Hb
        ltac:(cbn [In]; auto) Lb Ho Rq Kr Kl Hh Hs Ls Room) as (a & d' & R & Un & Rest).
      exists a, d'. split; [|split; [exact Un|exact Rest]].
      intros y ->. unfold sign_baker. cbn [baker_magic]. fold data. rewrite (Run a d' R). reflexivity. }
    split.
    - intros Du Hop. destruct (G EApprove Du) as (a & d' & E & Un & R). rewrite Hop in R.
      destruct R as (-> & R & _). specialize (E _ eq_refl). cbn [settle] in E.
      destruct (step C O d' EApprove) as [a' d'']. destruct R as (-> & Lg & Ui & Sl). cbn [settle fst snd] in E.
      rewrite read_hashed in E by exact Hd. exists d''. auto.
    - intros user Du Hu. destruct (G user Du) as (a & d' & E & Un & R). specialize (E _ eq_refl).
      destruct (baker_op o).
      + destruct Hu as [->|Hu]; [|discriminate Hu]. destruct R as (-> & _ & R). cbn [settle] in E.
        destruct (step C O d' EReject) as [a' d'']. destruct R as (-> & Ui & Un'). cbn [settle fst snd] in E.
        exists d''. auto.
      + destruct R as (-> & Ui). cbn [settle fst snd] in E. exists d'. auto.
  Qed.
End Sign.
