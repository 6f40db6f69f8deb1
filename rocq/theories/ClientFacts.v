(** The host library and the device. *)
From Coq Require Import List NArith ZArith Lia Bool Arith ZifyBool ZifyNat ZifyN.
From Verif Require Import Base BaseFacts Codecs CodecsSpec CodecsFacts Upload UploadSpec Oracles
  Address AddressSpec AddressFacts Device DeviceSpec ServiceSpec DeviceLive Client ClientSpec.
Import ListNotations.
Open Scope N_scope.

(** ** Buffers *)

Lemma js_slice_nat i j l : (i <= j)%nat -> js_slice (Z.of_nat i) (Z.of_nat j) l = firstn (j - i) (skipn i l).
Proof.
  intros H. unfold js_slice, js_index, len.
  replace (Z.of_nat i <? 0)%Z with false by lia. replace (Z.of_nat j <? 0)%Z with false by lia.
  destruct (Nat.le_gt_cases i (length l)) as [L|L].
  - replace (Z.to_nat (Z.min (Z.of_nat i) (Z.of_N (N.of_nat (length l))))) with i by lia.
    destruct (Nat.le_gt_cases j (length l)) as [L'|L'].
    + f_equal. lia.
    + rewrite !firstn_all2; auto; rewrite skipn_length; lia.
  - rewrite !skipn_all2 by lia. now rewrite !firstn_nil.
Qed.
Lemma js_slice_drop2 (a l : bytes) x y : (length a <= length l)%nat ->
  js_slice (Z.of_nat (length a)) (-2) (l ++ [x; y]) = skipn (length a) l.
Proof.
  intros H. unfold js_slice, js_index, len. rewrite app_length. cbn [length].
  replace (Z.of_nat (length a) <? 0)%Z with false by lia. change (-2 <? 0)%Z with true. cbv iota.
  replace (Z.to_nat (Z.min (Z.of_nat (length a)) _)) with (length a) by lia.
  rewrite skipn_app. replace (length a - length l)%nat with O by lia. cbn [skipn].
  apply firstn_app_exact. rewrite skipn_length. lia.
Qed.
Lemma js_slice_data l x y : js_slice 0 (-2) (l ++ [x; y]) = l.
Proof. exact (js_slice_drop2 [] l x y (Nat.le_0_l _)). Qed.
Lemma js_slice_from_nat i (l : bytes) : js_slice_from (Z.of_nat i) l = skipn i l.
Proof.
  unfold js_slice_from. destruct (Nat.le_gt_cases i (length l)) as [L|L].
  - replace (Z.of_N (len l)) with (Z.of_nat (length l)) by (unfold len; lia). rewrite js_slice_nat by lia.
    apply firstn_all2. rewrite skipn_length. lia.
  - unfold js_slice, js_index. unfold len.
    replace (Z.of_nat i <? 0)%Z with false by lia. replace (Z.of_N (N.of_nat (length l)) <? 0)%Z with false by lia.
    rewrite (skipn_all2 l (n := i)) by lia.
    replace (Z.to_nat (_ - _)) with O by lia. reflexivity.
Qed.
Lemma status_of_app l x y : status_of (l ++ [x; y]) = x * 256 + y.
Proof.
  unfold status_of, js_slice_from, js_slice, js_index, len. rewrite app_length. cbn [length].
  change (-2 <? 0)%Z with true. cbv iota.
  replace (Z.of_N (N.of_nat (length l + 2)) <? 0)%Z with false by lia.
  replace (Z.to_nat (Z.max 0 (Z.of_N (N.of_nat (length l + 2)) + -2))) with (length l) by lia.
  rewrite skipn_app_exact by reflexivity. rewrite firstn_all2; [reflexivity|cbn [length]; lia].
Qed.

(** ** Paths *)

Lemma numeral_chars ds n : numeral ds n -> Forall (fun c => 48 <= c <= 57) ds /\ ds <> [].
Proof.
  induction 1 as [d H|ds n d _ [IH1 IH2] H].
  - split; [constructor; [lia|constructor]|discriminate].
  - split; [apply Forall_app; split; [exact IH1|constructor; [lia|constructor]]|].
    intros E. now apply app_eq_nil in E as [_ E].
Qed.
Lemma ends_with_app c s x : ends_with c (s ++ [x]) = (x =? c).
Proof. unfold ends_with. now rewrite rev_app_distr. Qed.
Lemma numeral_end ds n : numeral ds n -> ends_with 39 ds = false.
Proof.
  intros H. destruct H as [d H|ds n d _ H].
  - unfold ends_with. cbn [rev app]. lia.
  - rewrite ends_with_app. lia.
Qed.
Lemma write_u32_ok n : n < 2 ^ 32 -> write_u32 (Z.of_N n) = Some (be 4 n).
Proof.
  intros H. unfold write_u32. replace ((0 <=? Z.of_N n) && (Z.of_N n <? 2 ^ 32))%Z with true by lia.
  now rewrite N2Z.id.
Qed.
Lemma component_bytes H O c n : host_ok H O -> component c n -> child_bytes H c = Some (be 4 n) /\ n < 2 ^ 32.
Proof.
  intros K [ds m Hm L|ds m Hm L]; unfold child_bytes.
  - rewrite (numeral_end _ _ Hm), (hk_number _ _ K _ _ Hm) by lia.
    replace (HARDENED <=? Z.of_N m)%Z with false by (unfold HARDENED; lia).
    split; [apply write_u32_ok; lia|lia].
  - rewrite ends_with_app. change (39 =? 39) with true. cbv iota.
    rewrite removelast_last, (hk_number _ _ K _ _ Hm) by lia.
    replace (HARDENED <=? Z.of_N m)%Z with false by (unfold HARDENED; lia).
    split; [|lia]. rewrite <- write_u32_ok by lia. f_equal. unfold HARDENED. lia.
Qed.
Lemma component_slash c n : component c n -> ~ In 47 c.
Proof.
  assert (X : forall ds m, numeral ds m -> ~ In 47 ds).
  { intros ds m Hm Hi. apply numeral_chars in Hm as [Hm _]. rewrite Forall_forall in Hm. specialize (Hm _ Hi). lia. }
  intros [ds m Hm L|ds m Hm L]; [exact (X _ _ Hm)|]. intros Hi. apply in_app_iff in Hi as [Hi|[Hi|[]]].
  - exact (X _ _ Hm Hi).
  - discriminate.
Qed.
Lemma split_word w : ~ In 47 w -> forall rest, split_at 47 (w ++ 47 :: rest) = w :: split_at 47 rest.
Proof.
  induction w as [|c w IH]; intros H rest; cbn [app split_at].
  - reflexivity.
  - replace (c =? 47) with false by (symmetry; apply N.eqb_neq; intros ->; apply H; now left).
    rewrite IH; [reflexivity|]. intros Hi. apply H. now right.
Qed.
Lemma split_last w : ~ In 47 w -> split_at 47 w = [w].
Proof.
  induction w as [|c w IH]; intros H; cbn [split_at]; [reflexivity|].
  replace (c =? 47) with false by (symmetry; apply N.eqb_neq; intros ->; apply H; now left).
  rewrite IH; [reflexivity|]. intros Hi. apply H. now right.
Qed.
Lemma split_parts parts : forall w, ~ In 47 w -> Forall (fun c => ~ In 47 c) parts ->
  split_at 47 (w ++ concat (map (fun c => 47 :: c) parts)) = w :: parts.
Proof.
  induction parts as [|c parts IH]; intros w Hw Hp; cbn [map concat].
  - rewrite app_nil_r. now apply split_last.
  - inversion Hp; subst. cbn [app]. rewrite split_word by assumption. now rewrite IH.
Qed.
Lemma children_ok H O parts p : host_ok H O -> Forall2 component parts p ->
  children_bytes H parts = Some (concat (map (be 4) p)) /\ Forall (fun n => n < 2 ^ 32) p.
Proof.
  intros K. induction 1 as [|c n parts p Hc _ [IH1 IH2]]; cbn [children_bytes map concat].
  - split; [reflexivity|constructor].
  - destruct (component_bytes H O c n K Hc) as [-> L]. rewrite IH1. split; [reflexivity|now constructor].
Qed.
Lemma encodes_components LEN p : p <> [] -> (length p <= LEN)%nat -> Forall (fun n => n < 2 ^ 32) p ->
  path_encodes LEN (len p :: concat (map (be 4) p)) p.
Proof.
  intros Hp L F.
  assert (E : p = map unbe (map (be 4) p)).
  { rewrite map_map. symmetry. rewrite <- (map_id p) at 2. apply map_ext_in. intros n Hn.
    apply unbe_be_small. rewrite Forall_forall in F. exact (F n Hn). }
  rewrite E at 3. apply PathEncodes.
  - unfold len. destruct p; [contradiction|cbn [length]; lia].
  - unfold len. lia.
  - rewrite map_length. unfold len. lia.
  - apply Forall_forall. intros g Hg. apply in_map_iff in Hg as (n & <- & _). apply be_length.
Qed.

Lemma text_split parts p : Forall2 component parts p ->
  split_at 47 (109 :: concat (map (fun c => 47 :: c) parts)) = [109] :: parts.
Proof.
  intros F. apply (split_parts parts [109]); [intros [X|[]]; discriminate|].
  induction F; constructor; eauto using component_slash.
Qed.
Lemma Forall2_len {A B} (R : A -> B -> Prop) l m : Forall2 R l m -> length l = length m.
Proof. induction 1; cbn [length]; lia. Qed.

Definition plain_path (p : path) : bytes := len p :: concat (map (be 4) p).

Lemma path_text_serialized H O text p : host_ok H O -> path_text text p -> length p = 2%nat \/ length p = 4%nat ->
  serialize_path H text = Some (plain_path p) /\ Forall (fun n => n < 2 ^ 32) p.
Proof.
  intros K (parts & F & ->) L. destruct (children_ok H O parts p K F) as [E1 E2]. split; [|exact E2].
  pose proof (Forall2_len _ _ _ F) as E3. unfold serialize_path. change (109 =? 109) with true. cbn [negb].
  rewrite (text_split parts p F). cbn [tl]. rewrite E1.
  match goal with |- context [negb ?b] => replace b with true
    by (cbn [length]; destruct L as [L|L]; rewrite E3, L; reflexivity) end.
  cbn [negb option_map]. unfold plain_path. f_equal. f_equal. unfold len. cbn [length]. lia.
Qed.
Lemma path_text_refused H O text p : host_ok H O -> path_text text p -> length p <> 2%nat -> length p <> 4%nat ->
  serialize_path H text = None.
Proof.
  intros K (parts & F & ->) L2 L4. pose proof (Forall2_len _ _ _ F) as E3. unfold serialize_path.
  change (109 =? 109) with true. cbn [negb]. rewrite (text_split parts p F).
  match goal with |- context [negb ?b] => replace b with false
    by (cbn [length Nat.eqb]; rewrite E3; symmetry; apply orb_false_intro; apply Nat.eqb_neq; lia) end.
  reflexivity.
Qed.
Lemma write_u32_inv z b : write_u32 z = Some b -> length b = 4%nat.
Proof. unfold write_u32. destruct (_ && _); intros [= <-]. reflexivity. Qed.
Lemma children_groups H l : forall r, children_bytes H l = Some r ->
  exists groups, r = concat groups /\ length groups = length l /\ Forall (fun g => length g = 4%nat) groups.
Proof.
  induction l as [|c l IH]; intros r E; cbn [children_bytes] in E.
  - injection E as <-. exists []. repeat split; constructor.
  - destruct (child_bytes H c) as [b|] eqn:Eb; [|discriminate].
    destruct (children_bytes H l) as [r'|]; [|discriminate]. injection E as <-.
    destruct (IH r' eq_refl) as (groups & -> & L & F). exists (b :: groups). split; [reflexivity|].
    split; [cbn [length]; lia|]. constructor; [|exact F].
    unfold child_bytes in Eb. destruct (h_number H _) as [z|]; [|discriminate].
    destruct (HARDENED <=? z)%Z; [discriminate|]. exact (write_u32_inv _ _ Eb).
Qed.
(** Whatever the text: what is sent for a path is a path of two or four components. *)
Lemma serialized_encodes H text sp : serialize_path H text = Some sp ->
  exists p, path_encodes 6 sp p /\ (length p = 2%nat \/ length p = 4%nat).
Proof.
  unfold serialize_path. destruct text as [|c text]; [discriminate|].
  destruct (negb (c =? 109)); [discriminate|].
  set (parts := split_at 47 (c :: text)).
  destruct (negb ((length parts =? 5) || (length parts =? 3))%nat) eqn:L; [discriminate|].
  destruct (children_bytes H (tl parts)) as [r|] eqn:E; [|discriminate]. intros [= <-].
  destruct (children_groups H _ r E) as (groups & -> & Lg & F).
  assert (Lp : length parts = 5%nat \/ length parts = 3%nat)
    by (apply negb_false_iff, orb_true_iff in L; destruct L as [L|L]; apply Nat.eqb_eq in L; auto).
  clearbody parts. clear L.
  exists (map unbe groups).
  assert (Lt : length (tl parts) = (length parts - 1)%nat) by (destruct parts; cbn [tl length]; lia).
  rewrite Lt in Lg. split; [apply PathEncodes; try assumption; unfold len|rewrite map_length];
    destruct Lp as [Lp|Lp]; rewrite Lp in *; cbn in *; first [lia|exact Lg|left; exact Lg|right; exact Lg].
Qed.

(** ** Packets *)

Lemma chunk_loop_spec fuel : forall i m, (length m < N.to_nat i + fuel)%nat ->
  concat (chunk_loop fuel i m) = skipn (N.to_nat i) m /\
  Forall (fun c => (1 <= length c <= 250)%nat) (chunk_loop fuel i m) /\
  length (chunk_loop fuel i m) = N.to_nat ((len m - i + 249) / 250).
Proof.
  induction fuel as [|fuel IH]; intros i m L; cbn [chunk_loop].
  - rewrite skipn_all2 by lia. split; [reflexivity|]. split; [constructor|]. unfold len. cbn [length].
    replace (N.of_nat (length m) - i) with 0 by lia. reflexivity.
  - destruct (N.ltb_spec i (len m)) as [Hi|Hi].
    + destruct (IH (i + CHUNK_SIZE) m) as (I1 & I2 & I3); [unfold CHUNK_SIZE; lia|].
      cbn [concat length].
      replace (js_slice (Z.of_N i) (Z.of_N (i + CHUNK_SIZE)) m) with (firstn 250 (skipn (N.to_nat i) m)).
      2:{ replace (Z.of_N i) with (Z.of_nat (N.to_nat i)) by lia.
          replace (Z.of_N (i + CHUNK_SIZE)) with (Z.of_nat (N.to_nat i + 250)) by (unfold CHUNK_SIZE; lia).
          rewrite js_slice_nat by lia. f_equal. lia. }
      split; [|split].
      * rewrite I1. replace (N.to_nat (i + CHUNK_SIZE)) with (250 + N.to_nat i)%nat by (unfold CHUNK_SIZE; lia).
        rewrite <- (firstn_skipn 250 (skipn (N.to_nat i) m)) at 2. f_equal.
        clear. revert m. induction (N.to_nat i) as [|j IH]; intros m; [now rewrite Nat.add_0_r|].
        replace (250 + S j)%nat with (S (250 + j)) by lia. destruct m as [|x m]; [now rewrite !skipn_nil|].
        cbn [skipn]. apply IH.
      * constructor; [|exact I2]. rewrite firstn_length, skipn_length. unfold len in Hi. lia.
      * rewrite I3. unfold CHUNK_SIZE. unfold len in *.
        destruct (N.le_gt_cases (N.of_nat (length m) - i) 250) as [G|G].
        -- replace (N.of_nat (length m) - (i + 250)) with 0 by lia.
           replace ((N.of_nat (length m) - i + 249) / 250) with 1
             by (apply (N.div_unique _ 250 1 (N.of_nat (length m) - i - 1)); lia).
           reflexivity.
        -- replace (N.of_nat (length m) - i + 249) with ((N.of_nat (length m) - (i + 250) + 249) + 1 * 250) by lia.
           rewrite N.div_add by lia. lia.
    + rewrite skipn_all2 by (unfold len in Hi; lia). split; [reflexivity|]. split; [constructor|].
      cbn [length]. replace (len m - i) with 0 by lia. reflexivity.
Qed.
Lemma chunks_spec message sp : exists cs, prepare_chunks message sp = sp :: cs /\ concat cs = message /\
  Forall (fun c => (1 <= length c <= 250)%nat) cs /\ S (length cs) = packets_for message.
Proof.
  unfold prepare_chunks. destruct (chunk_loop_spec (S (length message)) 0 message) as (A & B & D); [lia|].
  eexists. split; [reflexivity|]. split; [exact A|]. split; [exact B|].
  rewrite D. unfold packets_for. rewrite N.sub_0_r. reflexivity.
Qed.

(** ** Answers of a connection *)

(** What the transport makes of the answer to a command. *)
Definition settle (C : config) (O : oracles) (x : answer * dev) (user : event) : option bytes * dev :=
  match x with
  | (AReply r, d1) => (Some r, d1)
  | (APending, d1) => match step C O d1 user with (AReply r, d2) => (Some r, d2) | (_, d2) => (None, d2) end
  | (_, d1) => (None, d1)
  end.
(** What [signSendChunk] makes of what comes back. *)
Definition read_sign (with_hash : bool) (o : option bytes) : sign_res :=
  match o with
  | None => mkSignRes OTHER_ERROR None None
  | Some r =>
    if len r <? 2 then mkSignRes OTHER_ERROR None None
    else if existsb (N.eqb (status_of r)) SIGN_CODES then
      if (status_of r =? NO_ERRORS) && (2 <? len r) then
        if with_hash
        then mkSignRes (status_of r) (Some (js_slice 0 32 r)) (Some (js_slice 32 (-2) r))
        else mkSignRes (status_of r) (Some (repeat 0 32)) (Some (js_slice 0 32 r))
      else mkSignRes (status_of r) None None
    else mkSignRes (status_of r) None None
  end.

Section Client.
  Variable C : config.
  Variable O : oracles.

  Lemma plugged_eq d old user later cmd :
    plugged C O (d, (old, user) :: later) cmd =
    (let x := settle C O (step C O d (EApdu (received cmd old) (len cmd))) user in (fst x, (snd x, later))).
  Proof.
    unfold plugged, settle. destruct (step C O d _) as [[r| | |] d1]; try reflexivity.
    destruct (step C O d1 user) as [[r| | |] d2]; reflexivity.
  Qed.
  Lemma send_chunk_eq idx num chunk legacy c ins wh d old user later : (length chunk <= 255)%nat ->
    sign_send_chunk (plugged C O) idx num chunk legacy c ins wh (d, (old, user) :: later) =
    (let x := settle C O (step C O d (EApdu
       (received ([0x80; ins; chunk_p1 idx num legacy; chunk_p2 idx c; len chunk] ++ chunk) old)
       (5 + len chunk))) user in
     (read_sign wh (fst x), (snd x, later))).
  Proof.
    intros L. unfold sign_send_chunk, send_codes. replace (256 <=? len chunk) with false by (unfold len; lia).
    rewrite plugged_eq.
    replace (len ([HOST_CLA; ins; chunk_p1 idx num legacy; chunk_p2 idx c; len chunk] ++ chunk)) with (5 + len chunk)
      by (rewrite len_app; reflexivity).
    unfold HOST_CLA.
    destruct (settle C O (step C O d _) user) as [[r|] d']; cbn [fst snd read_sign]; [|reflexivity].
    destruct (len r <? 2); [reflexivity|]. destruct (existsb (N.eqb (status_of r)) SIGN_CODES); [|reflexivity].
    reflexivity.
  Qed.

  Definition pkt_of (ins p1 p2 : N) (chunk old : bytes) : bytes * N :=
    (received ([0x80; ins; p1; p2; len chunk] ++ chunk) old, 5 + len chunk).

  Lemma pkt_packet ins p1 p2 chunk old kind : (length chunk <= 255)%nat -> bytes_ok chunk ->
    ins < 256 -> p1 < 256 -> p2 < 256 -> apdu_ok old -> kind_of p1 = Some kind ->
    packet ins kind (pkt_of ins p1 p2 chunk old) /\ pay (fst (pkt_of ins p1 p2 chunk old)) = chunk /\
    nth 3 (fst (pkt_of ins p1 p2 chunk old)) 0 = p2.
  Proof.
    intros L B Hi H1 H2 [A1 A2] K. split; [|split; [|reflexivity]].
    - split; [|split; [unfold pkt_of; cbn [snd]; unfold len; lia|split; [reflexivity|split; [reflexivity|exact K]]]].
      unfold pkt_of, received. cbn [fst]. split.
      + rewrite app_length, skipn_length, A1, app_length. cbn [length]. unfold bytes, byte in *. lia.
      + apply bytes_ok_app. split; [|now apply bytes_ok_skipn]. apply bytes_ok_app. split; [|exact B].
        do 5 (apply Forall_cons; [first [assumption|reflexivity|unfold len; lia]|]). apply Forall_nil.
    - unfold pay, pkt_of, received. cbn [fst app nth skipn]. apply firstn_app_exact. unfold len. lia.
  Qed.

  (** The packets of the first pieces, and of the last one. *)
  Definition mid_of (ins : N) (p : bytes * bytes) : bytes * N := pkt_of ins 1 0 (fst p) (snd p).
  Definition last_p1 (legacy : bool) : N := if legacy then 0x81 else 2.

  Lemma rest_run legacy c ins wh x user later num : (length x <= 255)%nat -> forall chunks i olds old d res,
    Forall (fun ch => (length ch <= 255)%nat) chunks -> (1 <= i)%nat -> num = S (i + length chunks) ->
    length olds = length chunks ->
    let mids := map (mid_of ins) (combine chunks (map fst olds)) in
    fst (run C O d (map sent mids)) = map (fun _ => go_on) mids ->
    sign_rest (plugged C O) i num (chunks ++ [x]) legacy c ins wh res (d, olds ++ (old, user) :: later) =
    (let y := settle C O (step C O (snd (run C O d (map sent mids))) (sent (pkt_of ins (last_p1 legacy) 0 x old))) user in
     (read_sign wh (fst y), (snd y, later))).
  Proof.
    intros Lx. induction chunks as [|ch chunks IH]; intros i olds old d res F Hi Hn Ho mids G.
    - destruct olds; [|discriminate]. cbn [length] in Hn. subst num mids. cbn [app combine map fst run snd sign_rest].
      rewrite send_chunk_eq by exact Lx.
      replace (chunk_p1 (1 + i) (S (i + 0)) legacy) with (last_p1 legacy).
      2:{ unfold chunk_p1, last_p1. replace (1 + i =? 1)%nat with false by (symmetry; apply Nat.eqb_neq; lia).
          replace (1 + i =? S (i + 0))%nat with true by (symmetry; apply Nat.eqb_eq; lia). destruct legacy; reflexivity. }
      replace (chunk_p2 (1 + i) c) with 0
        by (unfold chunk_p2; replace (1 + i =? 1)%nat with false by (symmetry; apply Nat.eqb_neq; lia); reflexivity).
      cbv zeta. unfold sent, pkt_of. cbn [fst snd].
      destruct (settle C O _ user) as [o d']. cbn [fst snd]. destruct (sr_code (read_sign wh o) =? NO_ERRORS); reflexivity.
    - destruct olds as [|[old1 user1] olds]; [discriminate|]. pose proof (Forall_inv F) as F1. pose proof (Forall_inv_tail F) as F2. cbv beta in F1.
      subst mids. cbn [combine map fst] in G |- *. cbn [run] in G |- *.
      cbn [app sign_rest]. rewrite send_chunk_eq by exact F1.
      replace (chunk_p1 (1 + i) num legacy) with 1.
      2:{ unfold chunk_p1. replace (1 + i =? 1)%nat with false by (symmetry; apply Nat.eqb_neq; lia).
          replace (1 + i =? num)%nat with false by (symmetry; apply Nat.eqb_neq; cbn [length] in Hn; lia). reflexivity. }
      replace (chunk_p2 (1 + i) c) with 0
        by (unfold chunk_p2; replace (1 + i =? 1)%nat with false by (symmetry; apply Nat.eqb_neq; lia); reflexivity).
      change (EApdu (received ([128; ins; 1; 0; len ch] ++ ch) old1) (5 + len ch)) with (sent (mid_of ins (ch, old1))).
      destruct (step C O d (sent (mid_of ins (ch, old1)))) as [a d1].
      specialize (IH (S i) olds old d1 (mkSignRes NO_ERRORS None None) F2 ltac:(lia) ltac:(cbn [length] in Hn; lia)
        ltac:(cbn [length] in Ho; lia)). cbv zeta in IH.
      destruct (run C O d1 (map sent (map (mid_of ins) (combine chunks (map fst olds))))) as [l d2].
      cbn [fst snd] in G, IH |- *. injection G as -> G. specialize (IH G).
      cbv zeta. unfold go_on. cbn [settle fst snd].
      change (read_sign wh (Some [144; 0])) with (mkSignRes NO_ERRORS None None). cbn [sr_code].
      change (NO_ERRORS =? NO_ERRORS) with true. cbv iota. exact IH.
  Qed.
End Client.
