(** Each screen shows the field it should. *)
From Coq Require Import NArith ZArith Lia Bool Arith Ascii String List.
From Coq Require Import ZifyBool ZifyNat ZifyN.
From Verif Require Import Base BaseFacts Codecs Oracles Address AddressSpec AddressFacts AddressExamples
  Text TextSpec TextFacts TextExamples Bakers BakersSpec BakersFacts
  Operations OperationsSpec OperationsFacts Device Screens ScreensSpec.
Import ListNotations.
Open Scope N_scope.

(** ** Lengths of base58 texts *)

Lemma text_value_lt t : forall acc v, text_value acc t = Some v -> v < (acc + 1) * 58 ^ len t.
Proof.
  induction t as [|c t IH]; intros acc v; cbn [text_value].
  - intros [= <-]. change (len []) with 0. cbn. lia.
  - destruct (index_of c base58_digits) as [d|] eqn:E; [|discriminate]. intros H. apply IH in H.
    assert (d < 58).
    { clear -E. assert (G : forall l i, index_of c l = Some i -> i < len l).
      { induction l as [|x l IHl]; intros i; cbn [index_of]; [discriminate|].
        unfold len in *. cbn [List.length]. destruct (x =? c); [intros [= <-]; lia|].
        destruct (index_of c l); [|discriminate]. cbn. intros [= <-]. specialize (IHl _ eq_refl). lia. }
      apply G in E. exact E. }
    unfold len in *. cbn [List.length]. rewrite Nat2N.inj_succ, N.pow_succ_r'. nia.
Qed.

Lemma text_value_ones z t : text_value 0 (repeat 49 z ++ t) = text_value 0 t.
Proof. induction z; auto. Qed.

Lemma leading_split_any x l : l = repeat x (leading x l) ++ skipn (leading x l) l.
Proof.
  induction l as [|y l IH]; [reflexivity|]. cbn [leading].
  destruct (N.eqb_spec y x) as [->|]; [|reflexivity]. cbn [repeat skipn app]. now rewrite <- IH.
Qed.

(** A text is at least as long as what it stands for. *)
Lemma reads58_long t data : bytes_ok data -> reads58 t data -> (List.length data <= List.length t)%nat.
Proof.
  intros B [V L]. rewrite (leading_split_any 49 t), (leading_split_any 0 data).
  rewrite (leading_split_any 49 t), text_value_ones in V.
  rewrite (leading_split_any 0 data), unbe_zeros in V.
  rewrite !app_length, !repeat_length. rewrite L in *.
  set (t' := skipn _ t) in *. pose proof (skipn_leading_head data) as Hd.
  set (d' := skipn _ data) in *.
  destruct d' as [|x e] eqn:E; [cbn [List.length]; lia|].
  pose proof (unbe_head_pos _ Hd) as P. specialize (P ltac:(discriminate)).
  apply text_value_lt in V. rewrite N.mul_1_l in V.
  assert (Q : 58 ^ (len (x :: e) - 1) < 58 ^ len t').
  { eapply N.le_lt_trans; [|apply V]. etransitivity; [|apply P]. apply N.pow_le_mono_l. lia. }
  apply N.pow_lt_mono_r_iff in Q; [|lia]. unfold len in Q. cbn [List.length] in *. lia.
Qed.

(** A text standing for a large number is long. *)
Lemma reads58_longer t data k : reads58 t data -> 58 ^ k <= unbe data -> k < len t.
Proof.
  intros [V _] H. apply text_value_lt in V. rewrite N.mul_1_l in V.
  apply (N.pow_lt_mono_r_iff 58); lia.
Qed.

(** ** Messages *)

(** The characters a screen shows as they are. *)
Definition printable (t : bytes) : Prop := Forall (fun c => 32 <= c <= 127) t.
(** Neither of 34 characters nor of 68 or more. *)
Definition handy (n : nat) : Prop := (n < 34 \/ 34 < n < 68)%nat.

(** The message of an item for a field: it shows the field, or the field cannot be
    shown. *)
Definition message_for O table (f : field) (m : vres bytes) : Prop :=
  match m with
  | VOk x => exists t, text_of t x /\ shows O table f t /\ handy (List.length x)
                    /\ (printable t \/ exists b, In b table /\ bk_name b = t)
  | VErr e => e = Unknown /\ unshowable O f
  | VPanic => False
  end.

Lemma printable_nonzero t : printable t -> Forall (fun c => c <> 0) t.
Proof. intros H. eapply Forall_impl; [|apply H]. cbv beta. lia. Qed.

Definition printableb (t : bytes) : bool := forallb (fun c => (32 <=? c) && (c <=? 127)) t.
Lemma printableb_ok t : printableb t = true -> printable t.
Proof.
  intros H. apply Forall_forall. intros x X. unfold printableb in H. rewrite forallb_forall in H.
  specialize (H _ X). lia.
Qed.

Lemma plain_text t : printable t -> text_of t t.
Proof. intros H. split; [now apply printable_nonzero|now left]. Qed.

Lemma text_value_printable t : forall acc v, text_value acc t = Some v -> printable t.
Proof.
  induction t as [|c t IH]; intros acc v; cbn [text_value]; [constructor|].
  destruct (index_of c base58_digits) eqn:E; [|discriminate]. intros H. constructor; [|exact (IH _ _ H)].
  assert (G : forall l i, index_of c l = Some i -> In c l).
  { induction l as [|x l IHl]; intros i; cbn [index_of]; [discriminate|].
    destruct (N.eqb_spec x c); [now left|]. destruct (index_of c l); [right; eauto|discriminate]. }
  apply G in E. clear -E.
  assert (P : forallb (fun c => (32 <=? c) && (c <=? 127)) base58_digits = true) by (vm_compute; reflexivity).
  rewrite forallb_forall in P. specialize (P _ E). lia.
Qed.
Lemma reads58_printable t d : reads58 t d -> printable t.
Proof. intros [V _]. eapply text_value_printable; eauto. Qed.

Lemma word_ok O table s : printableb (chars s) && (List.length (chars s) <? 33)%nat = true ->
  message_for O table (FWord s) (word s).
Proof.
  intros H. apply andb_true_iff in H as [P L]. apply printableb_ok in P. apply Nat.ltb_lt in L. exists (chars s). split; [|split; [reflexivity|split]].
  - split; [now apply printable_nonzero|now right].
  - unfold lit, handy. rewrite app_length. cbn [List.length]. left. change (str s) with (chars s). lia.
  - now left.
Qed.

(** The kinds whose texts have more than 34 characters. *)
Lemma ident_long k data d t : k <> KindChain -> bytes_ok data -> List.length data = kind_data_length k ->
  bytes_ok d -> (4 <= List.length d)%nat ->
  reads58 t (kind_prefix k ++ data ++ firstn 4 d) -> (34 < List.length t)%nat.
Proof.
  intros Hk B L Bd Ld R.
  assert (Q : 58 ^ 34 <= unbe (kind_prefix k ++ data ++ firstn 4 d)).
  { rewrite unbe_app. rewrite !len_app. unfold len. rewrite L, firstn_length, Nat.min_l by lia.
    etransitivity; [|apply N.le_add_r]. destruct k; try congruence; vm_compute; discriminate. }
  pose proof (reads58_longer _ _ _ R Q). unfold len in *. lia.
Qed.

Lemma kind_chain_dec (k : tz_kind) : {k = KindChain} + {k <> KindChain}.
Proof. destruct k; (now left) || (right; discriminate). Qed.

Lemma ident_ok O table r k data cap : oracles_ok O -> bytes_ok data ->
  List.length data = kind_data_length k -> (cap < 68)%nat -> (k = KindChain -> cap < 34)%nat ->
  writes O r k data cap -> message_for O table (FIdent k data) (text r).
Proof.
  intros K B L C C2 W. destruct r as [t| |]; cbn [writes text message_for unshowable] in *; auto.
  destruct W as [T Lt]. exists t. destruct T as (d & T1 & T2).
  destruct (twice_len _ _ _ K T1) as [Ld Bd].
  split; [apply plain_text; eapply reads58_printable; eauto|].
  split; [exists d; auto|]. split; [|left; eapply reads58_printable; eauto].
  unfold handy. destruct (kind_chain_dec k) as [->|Hk]; [specialize (C2 eq_refl); lia|].
  right. split; [|lia]. apply (ident_long k data d); auto. lia.
Qed.

Lemma pkh_ok O table p : oracles_ok O -> hash_ok 20 (snd p) ->
  message_for O table (FIdent (AddressSpec.addr_kind (fst p)) (snd p)) (pkh O p).
Proof.
  intros K [B L]. unfold pkh. eapply (ident_ok O table _ _ _ 37); eauto; try lia.
  - rewrite L. now destruct (fst p).
  - destruct (fst p); discriminate.
  - now apply pkh_text_ok.
Qed.
Lemma kt1_ok O table h : oracles_ok O -> hash_ok 20 h ->
  message_for O table (FIdent KindKT1 h) (text (kt1_text O h)).
Proof. intros K [B L]. eapply (ident_ok O table _ _ _ 37); eauto; try lia; try discriminate. now apply kt1_text_ok. Qed.
Lemma branch_ok O table h : oracles_ok O -> hash_ok 32 h ->
  message_for O table (FIdent KindBranch h) (text (branch_text O h)).
Proof. intros K [B L]. eapply (ident_ok O table _ _ _ 52); eauto; try lia; try discriminate. now apply branch_text_ok. Qed.
Lemma proposal_ok O table h : oracles_ok O -> hash_ok 32 h ->
  message_for O table (FIdent KindProposal h) (text (proposal_text O h)).
Proof. intros K [B L]. eapply (ident_ok O table _ _ _ 52); eauto; try lia; try discriminate. now apply proposal_text_ok. Qed.
Lemma pk_ok O table pk : oracles_ok O ->
  hash_ok (match fst pk with Ed25519 | Bip32Ed25519 => 32 | _ => 33 end) (snd pk) ->
  message_for O table (FIdent (pk_kind (fst pk)) (snd pk)) (text (pk_text O (fst pk) (snd pk))).
Proof.
  intros K [B L]. assert (Lk : List.length (snd pk) = kind_data_length (pk_kind (fst pk))).
  { rewrite L. now destruct (fst pk). }
  eapply (ident_ok O table _ _ _ 56); eauto; try lia.
  - destruct (fst pk); discriminate.
  - now apply pk_text_ok.
Qed.

Lemma hash_ok_msg O table l : oracles_ok O -> message_for O table (FHash l) (text (unknown_text O l)).
Proof.
  intros K. pose proof (unknown_text_ok O l K) as U.
  destruct (unknown_text O l) as [t| |]; cbn [text message_for unshowable shows]; auto.
  - destruct U as (d & h & E1 & E2 & R & L). exists t.
    destruct (ok_blake2b _ K _ _ _ E1) as [Ld Bd]. destruct (twice_len _ _ _ K E2) as [Lh Bh].
    assert (P : printable t) by (eapply reads58_printable; eauto).
    split; [now apply plain_text|]. split; [eauto|]. split; [|now left].
    right. split; [|lia]. apply reads58_long in R.
    + rewrite app_length, firstn_length, Nat.min_l in R by lia. lia.
    + apply bytes_ok_app. split; auto. now apply bytes_ok_firstn.
  - split; auto. intros d Hd. destruct U as [U|(d' & U1 & U2)]; congruence.
Qed.

Lemma digits_printable t : all_digits t -> printable t.
Proof. intros H. eapply Forall_impl; [|apply H]. unfold is_digit. cbv beta. lia. Qed.

Lemma read_usize_spec z : natural z ->
  read_usize z = if payload_bits false (z_bytes z) <=? 32 then VOk (z_value z) else VErr Unknown.
Proof.
  intros (S & NE & B). unfold read_usize, USIZE_BITS. destruct z as [l s]. cbn [z_neg z_bytes] in *. subst s.
  rewrite (zarith_read_spec 32 false l NE). destruct (_ <=? _); reflexivity.
Qed.

Lemma z_value_lt z : payload_bits false (z_bytes z) <= 32 -> z_value z < 2 ^ 32.
Proof.
  intros H. eapply N.lt_le_trans; [apply magnitude_lt|]. apply N.pow_le_mono_r; lia.
Qed.

Lemma number_length n k : n < 10 ^ k -> 0 < k -> len (itoa n) <= k.
Proof. intros. eapply shows_number_length; eauto. apply itoa_spec. Qed.

Lemma nat_ok O table z : natural z -> message_for O table (FNat z) (number z).
Proof.
  intros Z. unfold number. rewrite read_usize_spec by auto.
  destruct (N.leb_spec (payload_bits false (z_bytes z)) 32) as [H|H]; cbn [vbind message_for unshowable shows];
    [|split; [auto|lia]].
  pose proof (z_value_lt _ H) as V. pose proof (itoa_spec (z_value z)) as S.
  assert (P : printable (itoa (z_value z))) by (apply digits_printable, S).
  exists (itoa (z_value z)). split; [now apply plain_text|]. split; auto. split; [|now left].
  assert (len (itoa (z_value z)) <= 10) by (apply number_length; lia).
  left. unfold len in *. lia.
Qed.

Lemma shows_decimal_printable d v t : shows_decimal d v t -> printable t.
Proof.
  intros (ip & fp & -> & D1 & D2 & _). apply Forall_app. split; [now apply digits_printable|].
  destruct d; constructor; [lia|]. now apply digits_printable.
Qed.
Lemma shows_decimal_length d v t k : shows_decimal d v t -> v < 10 ^ k -> 0 < k ->
  (List.length t <= N.to_nat k + d + 2)%nat.
Proof.
  intros (ip & fp & -> & D1 & D2 & L & P & V) H Hk.
  assert (len ip <= k).
  { eapply (shows_number_length (dec ip)); [split; eauto| |auto].
    assert (0 < 10 ^ N.of_nat d) by (apply N.neq_0_lt_0, N.pow_nonzero; lia). nia. }
  rewrite app_length. unfold len in *. destruct d; cbn [List.length]; lia.
Qed.

Lemma tez_ok O table z : natural z -> message_for O table (FTez z) (tez z).
Proof.
  intros Z. unfold tez. rewrite read_usize_spec by auto.
  destruct (N.leb_spec (payload_bits false (z_bytes z)) 32) as [H|H]; cbn [vbind message_for unshowable shows];
    [|split; [auto|lia]].
  pose proof (z_value_lt _ H) as V.
  assert (L : len (itoa (z_value z)) <= 10) by (apply number_length; lia).
  destruct (amount_shown (z_value z) 6 12) as (t & E & S).
  { unfold len in L. lia. }
  { right. unfold len in L. lia. }
  rewrite E. cbn [message_for]. exists t. pose proof (shows_decimal_printable _ _ _ S) as P.
  split; [now apply plain_text|]. split; auto. split; [|now left].
  left. pose proof (shows_decimal_length 6 _ t 10 S). lia.
Qed.

Lemma shows_integer_printable z t : shows_integer z t -> printable t.
Proof.
  unfold shows_integer. destruct (z <? 0)%Z.
  - intros (t' & -> & S). constructor; [lia|]. apply digits_printable, S.
  - intros S. apply digits_printable, S.
Qed.
Lemma int_ok O table z : (- 2 ^ 32 < z < 2 ^ 32)%Z -> message_for O table (FInt z) (VOk (itoa_z z)).
Proof.
  intros Z. exists (itoa_z z). pose proof (itoa_z_spec z) as S.
  pose proof (shows_integer_printable _ _ S) as P.
  split; [now apply plain_text|]. split; [auto|]. split; [|now left]. left.
  unfold itoa_z. assert (Q : forall n, n < 2 ^ 32 -> (List.length (itoa n) <= 10)%nat).
  { intros n Hn. assert (len (itoa n) <= 10) by (apply number_length; lia). unfold len in *. lia. }
  destruct (z <? 0)%Z eqn:E; cbn [List.length].
  - specialize (Q (Z.to_N (- z)) ltac:(lia)). lia.
  - specialize (Q (Z.to_N z) ltac:(lia)). lia.
Qed.
Lemma nint_ok O table n : n < 2 ^ 32 -> message_for O table (FInt (Z.of_N n)) (VOk (itoa n)).
Proof.
  intros H. replace (itoa n) with (itoa_z (Z.of_N n)); [apply int_ok; lia|].
  unfold itoa_z. destruct (Z.ltb_spec (Z.of_N n) 0); [lia|]. now rewrite N2Z.id.
Qed.

Lemma hex_printable l : bytes_ok l -> printable (hex l).
Proof.
  intros B. unfold hex. induction B as [|b l Hb B IH]; [constructor|]. change (b < 256) in Hb.
  cbn [map concat app]. constructor; [|constructor; [|exact IH]]; unfold hex_digit.
  - destruct (N.ltb_spec (b / 16) 10); lia.
  - destruct (N.ltb_spec (b mod 16) 10); lia.
Qed.
Lemma hex_ok O table l : bytes_ok l -> handy (2 * List.length l) -> message_for O table (FHex l) (VOk (hex l)).
Proof.
  intros B H. exists (hex l). pose proof (hex_printable _ B) as P.
  split; [now apply plain_text|]. split; [now apply hex_reads|]. split; [|now left]. now rewrite hex_length.
Qed.
Lemma digest_ok O table l : oracles_ok O -> message_for O table (FDigest l) (digest_hex O l).
Proof.
  intros K. unfold digest_hex. destruct (o_sha256 O l) as [d|] eqn:E; cbn [message_for shows unshowable]; [|auto].
  destruct (ok_sha256 _ K _ _ E) as [L B]. exists (hex d). pose proof (hex_printable _ B) as P.
  split; [now apply plain_text|]. split; [exists d; split; auto; now apply hex_reads|]. split; [|now left].
  rewrite hex_length, L. right. lia.
Qed.

Lemma hash_prefix_kind c : hash_prefix c = kind_prefix (AddressSpec.addr_kind c).
Proof. now destruct c. Qed.

Lemma baker_ok O table c h : oracles_ok O -> sorted table -> names_fit table -> hash_ok 20 h ->
  message_for O table (FBaker c h)
    (match baker_lookup table (hash_prefix c) h with Some n => VOk n | None => pkh O (c, h) end).
Proof.
  intros K S N H. pose proof (lookup_spec table (hash_prefix c) h S) as L. rewrite hash_prefix_kind in *.
  destruct (baker_lookup table _ h) as [n|].
  - destruct L as (b & I1 & E & <-). unfold bk_key in E. injection E as E1 E2.
    unfold names_fit in N. rewrite Forall_forall in N. destruct (N _ I1) as [Z F].
    exists (bk_name b). split; [split; [auto|now left]|]. split; [left; exists b; auto|].
    split; [now left|right; eauto].
  - pose proof (pkh_ok O table (c, h) K H) as P. cbn [fst snd] in P.
    destruct (pkh O (c, h)); cbn [message_for shows unshowable] in *; auto.
    destruct P as (t & T1 & T2 & T3). exists t. split; auto. split; [|auto]. right. split; auto.
    intros b Ib E1 E2. apply (L b Ib). unfold bk_key. congruence.
Qed.

Lemma chain_ok O table c : oracles_ok O -> message_for O table (FChain c) (text (chain_alias O c)).
Proof.
  intros K. pose proof (chain_alias_ok O c K) as A.
  destruct (chain_alias O c) as [t| |]; cbn [text message_for shows]; auto.
  - destruct A as [A L]. exists t.
    assert (P : printable t).
    { destruct c; cbn [alias_of] in A.
      - subst. apply printableb_ok. reflexivity.
      - subst. apply printableb_ok. reflexivity.
      - destruct A as (d & _ & R). eapply reads58_printable; eauto. }
    split; [now apply plain_text|]. split; auto. split; [left; lia|now left].
  - destruct A as (id & -> & A). cbn [unshowable]. auto.
Qed.

Lemma addr_ok O table a : addr_wf a -> message_for O table (FAddr a) (text (addr_base58 a)).
Proof.
  intros (Pf & [Bh Lh] & [Bc Lc]). unfold addr_base58.
  assert (Bp : bytes_ok (a_prefix a) /\ List.length (a_prefix a) = 3%nat /\ 2 * 256 ^ 2 <= unbe (a_prefix a)).
  { cbn [map In] in Pf. destruct Pf as [<-|[<-|[<-|[]]]]; (split; [|split; [reflexivity|vm_compute; discriminate]]);
      repeat constructor; cbn; lia. }
  destruct Bp as (Bp & Lp & Vp).
  assert (B : bytes_ok (a_prefix a ++ a_hash a ++ a_checksum a)).
  { apply bytes_ok_app. split; auto. apply bytes_ok_app. auto. }
  destruct (b58_encode_fits 37 _ B) as [t E].
  { rewrite !len_app. unfold len. rewrite Lp, Lh, Lc. vm_compute. discriminate. }
  rewrite E. destruct (b58_encode_spec _ _ _ B E) as [R L]. cbn [text message_for shows].
  exists t. pose proof (reads58_printable _ _ R) as P.
  split; [now apply plain_text|]. split; auto. split; [|now left]. right. split; [|lia].
  enough (34 < len t) by (unfold len in *; lia).
  apply (reads58_longer _ _ _ R). rewrite unbe_app, len_app. unfold len. rewrite Lh, Lc.
  etransitivity; [|apply N.le_add_r].
  etransitivity; [|apply N.mul_le_mono_r, Vp]. vm_compute. discriminate.
Qed.
(** ** Operations *)

(** The item for a row: title and message. *)
Definition item_for O table (r : row) (i : item) : Prop :=
  match i with
  | Item title msg =>
    (exists h, entitles (fst r) h /\ title = h ++ [0] /\ printable h /\ (List.length h <= 17)%nat)
    /\ message_for O table (snd r) msg
  | NoItem _ => False
  end.

Lemma titled_ok O table s f msg : printableb (chars s) && (List.length (chars s) <=? 17)%nat = true ->
  message_for O table f msg -> item_for O table (row_of (Titled s) f) (Item (lit s) msg).
Proof.
  intros H M. apply andb_true_iff in H as [P L]. apply printableb_ok in P. apply Nat.leb_le in L.
  split; [|exact M]. exists (chars s). repeat (split; [reflexivity || auto|]). auto.
Qed.

Lemma nth_error_Some' {A} (l : list A) k x : nth_error l k = Some x -> (k < List.length l)%nat.
Proof. intros H. apply nth_error_Some. congruence. Qed.

Lemma proposal_rows_nth ps : forall n j r, nth_error (proposal_rows n ps) j = Some r ->
  exists p, nth_error ps j = Some p /\ r = row_of (Numbered "Proposal #" (n + N.of_nat j)) (FIdent KindProposal p).
Proof.
  induction ps as [|p ps IH]; intros n j r; cbn [proposal_rows].
  - destruct j; discriminate.
  - destruct j as [|j]; cbn [nth_error].
    + intros [= <-]. exists p. split; auto. do 2 f_equal. lia.
    + intros H. apply IH in H as (q & E & ->). exists q. split; auto. do 2 f_equal. lia.
Qed.
Lemma proposal_rows_length n ps : List.length (proposal_rows n ps) = List.length ps.
Proof. revert n. induction ps; intros; cbn [proposal_rows List.length]; auto. Qed.

Lemma op_items_sheet o : op_items o = len (sheet o).
Proof.
  destruct o; try reflexivity. unfold len. cbn [sheet op_items]. rewrite app_length, proposal_rows_length.
  cbn [List.length]. unfold len. lia.
Qed.

Lemma from_three {A} (a b c d : A) n : 3 <= n ->
  match n with 0 => a | 1 => b | 2 => c | _ => d end = d.
Proof. intros H. destruct n as [|[[p|p|]|[p|p|]|]]; try reflexivity; lia. Qed.

Lemma number_title ks n : (18 <= ks)%nat -> n < 255 ->
  exists d, shows_number (1 + n) d /\ proposal_title ks n = (str "Proposal #" ++ d) ++ [0]
         /\ (List.length d <= 3)%nat.
Proof.
  intros K H. exists (itoa (n + 1)). rewrite N.add_comm. split; [apply itoa_spec|].
  assert (L : len (itoa (n + 1)) <= 3) by (apply number_length; lia). unfold len in L.
  split; [|lia]. unfold proposal_title. rewrite N.mod_small by lia.
  replace (10 + List.length (itoa (n + 1)) + 1 <? ks)%nat with true by (symmetry; apply Nat.ltb_lt; lia).
  now rewrite <- app_assoc.
Qed.

Ltac rows H := first
  [ discriminate H
  | injection H as <-; first
    [ apply titled_ok; [reflexivity|]; first
      [ apply word_ok; reflexivity | apply pkh_ok | apply kt1_ok | apply tez_ok | apply nat_ok | apply digest_ok
      | apply branch_ok | apply proposal_ok | apply pk_ok | apply baker_ok | apply hash_ok_msg | apply int_ok
      | apply nint_ok | apply hex_ok | apply addr_ok | apply chain_ok ]
    | idtac ] ].

Ltac row_step H k := destruct k as [|k];
  [cbn [nth_error] in H; cbn [N.of_nat Pos.of_succ_nat Pos.succ op_item]; rows H; auto; try lia|].

Lemma op_item_ok O table ks o k r : oracles_ok O -> sorted table -> names_fit table -> (18 <= ks)%nat ->
  op_wf o -> N.of_nat k < op_items o mod 256 -> nth_error (sheet o) k = Some r ->
  item_for O table r (op_item O table ks o (N.of_nat k)).
Proof.
  intros K St F Hk W L H.
  destruct o as [m amount dest params|m delegate|level|branch level sg slot|source period proposal v|m pk
                |source period proposals|m balance delegate code storage|h secret|arb|rest|];
    cbn [sheet op_wf] in H, W; unfold manager_wf in W.
  - destruct W as ((W1 & W2 & W3 & W4 & W5) & W6 & W7).
    destruct params as [[ep code]|], dest as [c h|h]; unfold person, limits in H; cbn [app] in H;
    (do 9 row_step H k); destruct k; discriminate H.
  - destruct W as ((W1 & W2 & W3 & W4 & W5) & W6).
    destruct delegate as [[c h]|]; unfold person, limits in H; cbn [app] in H;
    (do 7 row_step H k); destruct k; discriminate H.
  - unfold i32_ok in W. do 2 row_step H k. destruct k; discriminate H.
  - destruct W as (W1 & W2 & W3). unfold i32_ok in W2.
    do 5 row_step H k. destruct k; discriminate H.
  - destruct W as (W1 & W2 & W3). unfold i32_ok in W2. unfold person in H.
    destruct v; do 5 row_step H k; destruct k; discriminate H.
  - destruct W as ((W1 & W2 & W3 & W4 & W5) & W6). unfold person, limits in H; cbn [app] in H.
    (do 7 row_step H k); destruct k; discriminate H.
  - destruct W as (W1 & W2 & W3). unfold i32_ok in W2. unfold person in H; cbn [app] in H.
    cbn [op_items] in L. do 3 row_step H k. cbn [nth_error] in H. apply proposal_rows_nth in H as (p & E & ->).
    assert (Hn : N.of_nat k < len proposals).
    { unfold len. apply nth_error_Some' in E. lia. }
    cbn [op_item]. rewrite from_three by lia.
    replace (N.of_nat (S (S (S k))) - 3) with (N.of_nat k) by lia.
    replace (N.of_nat k <? len proposals mod 256) with true by lia.
    rewrite Nat2N.id, E. destruct (number_title ks (N.of_nat k)) as (d & D1 & D2 & D3); [auto|lia|].
    rewrite D2. split.
    + exists (str "Proposal #" ++ d). split; [exists d; auto|]. split; [auto|]. split.
      * apply Forall_app. split; [apply printableb_ok; reflexivity|apply digits_printable, D1].
      * rewrite app_length. change (List.length (str "Proposal #")) with 10%nat. lia.
    + apply proposal_ok; auto. rewrite Forall_forall in W3. apply W3. eapply nth_error_In; eauto.
  - destruct W as ((W1 & W2 & W3 & W4 & W5) & W6 & W7).
    destruct delegate as [d|]; unfold person, limits in H; cbn [app] in H;
    (do 10 row_step H k); destruct k; discriminate H.
  - destruct W as (W1 & W2). do 3 row_step H k.
    + apply W2.
    + destruct W2 as [_ W2]. rewrite W2. right. lia.
    + destruct k; discriminate H.
  - do 2 row_step H k. destruct k; discriminate H.
  - do 2 row_step H k. destruct k; discriminate H.
  - destruct k; discriminate H.
Qed.

Lemma op_item_none O table ks o n : n < 256 -> op_items o < 256 -> op_items o <= n ->
  op_item O table ks o n = NoItem (match o with OAnonymous => Rejected | _ => NoData end).
Proof.
  intros Hn L H. destruct o; cbn [op_items op_item] in *; try reflexivity;
  try (destruct n as [|p]; [lia|]; do 4 (try (destruct p as [p|p|])); (reflexivity || lia)).
  rewrite from_three by lia. rewrite N.mod_small by lia.
  now replace (n - 3 <? len proposals) with false by lia.
Qed.
