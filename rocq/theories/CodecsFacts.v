(** Facts about [Codecs]. *)
From Coq Require Import List NArith ZArith Lia Bool Arith.
From Coq Require Import ZifyBool ZifyNat ZifyN.
From Verif Require Import Base BaseFacts Codecs CodecsSpec.
Import ListNotations.
Open Scope N_scope.

(** ** Status words *)

Lemma sw_decode_sw e : sw_decode (sw e) = Some e.
Proof. destruct e; reflexivity. Qed.

Lemma sw_of_decode v e : sw_decode v = Some e -> v = sw e.
Proof.
  unfold sw_decode. repeat (match goal with |- context [N.eqb v ?k] => destruct (N.eqb_spec v k) end; [intros X; inversion X; subst; reflexivity|]).
  discriminate.
Qed.

Lemma sw_inj a b : sw a = sw b -> a = b.
Proof. intros H. pose proof (sw_decode_sw a). rewrite H, sw_decode_sw in H0. congruence. Qed.

Lemma sw_lt e : sw e < 2 ^ 16.
Proof. destruct e; reflexivity. Qed.

Lemma sw_decode_bytes_be e : sw_decode_bytes (be 2 (sw e)) = SOk e.
Proof. destruct e; reflexivity. Qed.

(** ** Curves *)

Lemma curve_round c : curve_of_byte (byte_of_curve c) = Some c.
Proof. destruct c; reflexivity. Qed.

Lemma curve_of_byte_inv b c : curve_of_byte b = Some c -> b = byte_of_curve c.
Proof.
  unfold curve_of_byte. repeat (match goal with |- context [N.eqb b ?k] => destruct (N.eqb_spec b k) end; [intros X; inversion X; subst; reflexivity|]).
  discriminate.
Qed.

Lemma byte_of_curve_lt c : byte_of_curve c < 256.
Proof. destruct c; reflexivity. Qed.

Lemma curve_eqb_eq a b : curve_eqb a b = true <-> a = b.
Proof. destruct a, b; cbn; split; intros; congruence || reflexivity. Qed.

(** ** Paths *)

Lemma path_eqb_eq a b : path_eqb a b = true <-> a = b.
Proof.
  revert b; induction a; destruct b; cbn; split; intros; try congruence; auto.
  - apply andb_prop in H as [H1 H2]. apply N.eqb_eq in H1. apply IHa in H2. congruence.
  - inversion H; subst. rewrite N.eqb_refl. now apply IHa.
Qed.

Lemma key_eqb_eq a b : key_eqb a b = true <-> a = b.
Proof.
  destruct a, b. unfold key_eqb. cbn. rewrite andb_true_iff, curve_eqb_eq, path_eqb_eq.
  split; intros; [destruct H; congruence|inversion H; auto].
Qed.

Lemma concat_length4 gs : Forall (fun g : bytes => length g = 4%nat) gs ->
  length (concat gs) = (4 * length gs)%nat.
Proof. induction 1; cbn; auto. rewrite app_length. lia. Qed.

Lemma chunks_concat gs : Forall (fun g : bytes => length g = 4%nat) gs ->
  be32_chunks (length gs) (concat gs) = map unbe gs.
Proof.
  induction 1; cbn [length concat be32_chunks map]; auto. rewrite firstn_app_exact, skipn_app_exact by auto. now rewrite IHForall.
Qed.

(** Cutting a list of [4 * n] bytes into groups. *)
Lemma split4 n : forall l : bytes, length l = (4 * n)%nat ->
  exists gs, l = concat gs /\ length gs = n /\ Forall (fun g : bytes => length g = 4%nat) gs.
Proof.
  induction n; intros l H.
  - destruct l; [|discriminate]. exists []. auto.
  - destruct (IHn (skipn 4 l)) as (gs & E & L & F); [rewrite skipn_length; lia|].
    exists (firstn 4 l :: gs). cbn [concat]. rewrite <- E, firstn_skipn. split; auto. split; [cbn [length]; lia|].
    constructor; auto. rewrite firstn_length. lia.
Qed.

Lemma path_read_complete LEN l p : path_encodes LEN l p -> path_read LEN l = Some p.
Proof.
  intros [n gs H1 H2 H3 H4]. unfold path_read, len.
  rewrite (concat_length4 _ H4), H3.
  replace (N.of_nat (4 * N.to_nat n)) with (n * 4) by lia.
  rewrite N.mod_mul, N.div_mul by lia.
  replace (n * 4 =? 0) with false by lia. replace (n =? 0) with false by lia.
  replace (N.of_nat LEN <? n) with false by lia. rewrite N.ltb_irrefl. cbn.
  rewrite <- H3. now rewrite chunks_concat.
Qed.

Lemma path_read_sound LEN l p : path_read LEN l = Some p -> path_encodes LEN l p.
Proof.
  unfold path_read. destruct l as [|n rest]; [discriminate|].
  destruct (N.eqb_spec (len rest) 0); [discriminate|].
  destruct (N.eqb_spec (len rest mod 4) 0) as [Hm|]; cbn [negb]; [|discriminate].
  destruct (N.eqb_spec n 0); [discriminate|].
  destruct (N.ltb_spec (N.of_nat LEN) n); cbn [orb]; [discriminate|].
  destruct (N.ltb_spec n (len rest / 4)); [discriminate|].
  destruct (N.ltb_spec (len rest / 4) n); [discriminate|].
  intros X; inversion X; subst p; clear X.
  assert (Hd : len rest = 4 * n) by lia. unfold len in Hd.
  destruct (split4 (N.to_nat n) rest) as (gs & -> & L & F); [lia|].
  rewrite <- L, chunks_concat by auto. constructor; auto; lia.
Qed.

Lemma path_read_serialize LEN p : path_ok LEN p -> path_read LEN (path_serialize p) = Some p.
Proof.
  intros (H1 & H2 & H3). apply path_read_complete. unfold path_serialize.
  assert (E : p = map unbe (map (be 4) p)).
  { rewrite map_map. rewrite <- (map_id p) at 1. apply map_ext_in. intros c Hc.
    symmetry. apply unbe_be_small. rewrite Forall_forall in H3. apply H3, Hc. }
  rewrite E at 3. constructor.
  - destruct p; [congruence|]. unfold len. cbn [length]. lia.
  - unfold len. lia.
  - rewrite map_length. unfold len. lia.
  - apply Forall_forall. intros g Hg. apply in_map_iff in Hg as (c & <- & _). apply be_length.
Qed.

Lemma path_read_ok LEN l p : bytes_ok l -> path_read LEN l = Some p -> path_ok LEN p.
Proof.
  intros Hb H. apply path_read_sound in H. inversion H; subst. inversion Hb; subst.
  repeat split.
  - destruct groups; [cbn in *; lia|discriminate].
  - rewrite map_length. lia.
  - apply Forall_forall. intros c Hc. apply in_map_iff in Hc as (g & <- & Hg).
    rewrite Forall_forall in H3. pose proof (H3 _ Hg) as L4.
    change (2 ^ 32) with (256 ^ 4). replace 4 with (len g) by (unfold len; lia).
    apply unbe_lt. unfold bytes_ok in *. rewrite Forall_forall in *. intros b Hb'.
    apply H7. apply in_concat. eauto.
Qed.

Lemma path_new_loop_fits LEN : forall comps i acc, length acc = i -> (i + length comps <= LEN)%nat ->
  path_new_loop LEN i acc comps = if (length (acc ++ comps) =? 0)%nat then SErr else SOk (acc ++ comps).
Proof.
  induction comps; intros i acc H1 H2; cbn [path_new_loop].
  - now rewrite app_nil_r.
  - cbn [length] in H2. replace (LEN <? i)%nat with false by lia. replace (i <? LEN)%nat with true by lia.
    rewrite IHcomps; [|rewrite app_length; cbn; lia|lia]. now rewrite <- app_assoc.
Qed.

Lemma path_new_loop_panics LEN : forall comps i acc, (i <= LEN)%nat -> (LEN < i + length comps)%nat ->
  path_new_loop LEN i acc comps = SPanic.
Proof.
  induction comps; intros i acc H1 H2; cbn [path_new_loop length] in *; [lia|].
  replace (LEN <? i)%nat with false by lia.
  destruct (Nat.ltb_spec i LEN); auto. apply IHcomps; lia.
Qed.

(** ** Watermarks *)

Lemma bool_byte b : (1 <=? byte_of_bool b) = b.
Proof. destruct b; reflexivity. Qed.

Lemma wm_round w : wm_ok w -> wm_parse (wm_serialize w) = w.
Proof.
  destruct w as [l he|l he r hp]; intros H; cbn in H.
  - unfold wm_serialize, pad_to, wm_parse, slice.
    cbn [nth app skipn]. rewrite firstn_app_exact by apply be_length.
    rewrite unbe_be_small by exact H. cbn -[N.leb]. now rewrite bool_byte.
  - destruct H as [H1 H2]. unfold wm_serialize, pad_to, wm_parse, slice.
    cbn [nth app skipn]. rewrite <- !app_assoc. cbn [app].
    rewrite firstn_app_exact by apply be_length. rewrite unbe_be_small by exact H1.
    change (be 4 l) with ([l / 256 / 256 / 256 mod 256] ++ [l / 256 / 256 mod 256] ++ [l / 256 mod 256] ++ [l mod 256]).
    cbn [app nth skipn]. 
    rewrite firstn_app_exact by apply be_length. rewrite unbe_be_small by exact H2.
    cbn -[N.leb]. now rewrite !bool_byte.
Qed.

Lemma wm_serialize_length w : length (wm_serialize w) = 52%nat.
Proof. destruct w; reflexivity. Qed.

Lemma byte_of_bool_lt b : byte_of_bool b < 256.
Proof. destruct b; reflexivity. Qed.

Lemma wm_serialize_ok w : bytes_ok (wm_serialize w).
Proof.
  apply pad_to_ok. destruct w.
  - repeat constructor; auto using byte_of_bool_lt; try reflexivity.
    all: apply N.mod_lt; discriminate.
  - constructor; [reflexivity|]. constructor; [apply byte_of_bool_lt|].
    apply bytes_ok_app. split; [apply be_ok|]. constructor; [apply byte_of_bool_lt|apply be_ok].
Qed.

Lemma wm_parse_unknown p : nth 0 p 0 <> 0 -> nth 0 p 0 <> 1 -> wm_parse p = WEmmy (2 ^ 32 - 1) false.
Proof.
  intros H1 H2. unfold wm_parse. apply N.eqb_neq in H1, H2. rewrite H1, H2. reflexivity.
Qed.

Lemma wm_parse_ok p : bytes_ok p -> length p = 52%nat -> wm_ok (wm_parse p).
Proof.
  intros Hb Hl. assert (S4 : forall i, (i + 4 <= 52)%nat -> unbe (slice i 4 p) < 2 ^ 32).
  { intros i Hi. apply (unbe_lt_len _ 4); [apply slice_length; lia|].
    apply bytes_ok_slice, Hb. }
  unfold wm_parse. destruct (negb _); [reflexivity|].
  destruct (nth 0 p 0 =? 1); cbn [wm_ok]; [split|]; apply S4; lia.
Qed.

(** ** Chain ids *)

Lemma chain_of_u32_round n : u32_of_chain (chain_of_u32 n) = n.
Proof.
  unfold chain_of_u32. destruct (N.eqb_spec n 0); [auto|].
  destruct (N.eqb_spec n MAINNET_CHAIN_ID); auto.
Qed.

Lemma chain_round c : u32_of_chain c < 2 ^ 32 -> chain_parse_u32 (chain_serialize c) = u32_of_chain c.
Proof.
  intros H. unfold chain_parse_u32, chain_serialize, pad_to.
  rewrite firstn_app_exact by apply be_length. now apply unbe_be_small.
Qed.

Lemma chain_serialize_length c : length (chain_serialize c) = 52%nat.
Proof. reflexivity. Qed.

Lemma chain_serialize_ok c : bytes_ok (chain_serialize c).
Proof. apply pad_to_ok, be_ok. Qed.

(** ** Keys *)

Lemma concat_be4_length (p : path) : length (concat (map (be 4) p)) = (4 * length p)%nat.
Proof.
  rewrite concat_length4; [now rewrite map_length|].
  apply Forall_forall. intros g Hg. apply in_map_iff in Hg as (c & <- & _). apply be_length.
Qed.

Lemma concat_be4_ok (p : path) : bytes_ok (concat (map (be 4) p)).
Proof. induction p; cbn [map concat]; [constructor|]. apply bytes_ok_app. auto using be_ok. Qed.

Lemma key_serialize_length k : length (key_serialize k) = 52%nat.
Proof.
  apply pad_to_length. cbn [length]. rewrite concat_be4_length, firstn_length. lia.
Qed.

Lemma key_serialize_ok k : bytes_ok (key_serialize k).
Proof.
  apply pad_to_ok. constructor; [reflexivity|]. constructor; [apply byte_of_curve_lt|].
  constructor; [apply N.mod_lt; discriminate|]. apply concat_be4_ok.
Qed.

Lemma key_empty_ok : length key_empty = 52%nat /\ bytes_ok key_empty.
Proof. split; [reflexivity|apply zeros_ok]. Qed.

Lemma key_round k : key_ok k -> key_parse (key_serialize k) = AOk (Some k).
Proof.
  destruct k as [c p]. intros Hk. pose proof Hk as (H1 & H2 & H3). cbn [snd fst] in *.
  unfold BIP32_MAX_LENGTH in H2.
  unfold key_parse, key_serialize, pad_to. cbn [fst snd].
  rewrite firstn_all2 by lia.
  assert (Hlen : len p mod 256 = len p) by (apply N.mod_small; unfold len; lia).
  rewrite Hlen. cbn [app nth N.eqb]. rewrite curve_round.
  replace (N.of_nat BIP32_MAX_LENGTH <? len p) with false
    by (unfold BIP32_MAX_LENGTH, len; lia).
  unfold slice. cbn [skipn].
  replace (len p :: concat (map (be 4) p) ++ _) with (path_serialize p ++ zeros (52 - length (42 :: byte_of_curve c :: len p :: concat (map (be 4) p)))) by reflexivity.
  rewrite firstn_app_exact.
  - rewrite path_read_serialize; auto.
  - unfold path_serialize. cbn [length]. rewrite concat_be4_length. unfold len. lia.
Qed.

Lemma key_parse_empty : key_parse key_empty = AOk None.
Proof. reflexivity. Qed.

Lemma key_parse_bad_curve p : nth 0 p 0 <> 0 -> 3 < nth 1 p 0 -> key_parse p = AErr DataInvalid.
Proof.
  intros H1 H2. unfold key_parse, curve_of_byte. apply N.eqb_neq in H1. rewrite H1.
  destruct (N.eqb_spec (nth 1 p 0) 0); [lia|]. destruct (N.eqb_spec (nth 1 p 0) 1); [lia|].
  destruct (N.eqb_spec (nth 1 p 0) 2); [lia|]. destruct (N.eqb_spec (nth 1 p 0) 3); [lia|]. auto.
Qed.

Lemma key_parse_too_long p : nth 0 p 0 <> 0 -> nth 1 p 0 <= 3 -> 10 < nth 2 p 0 ->
  key_parse p = AErr WrongLength.
Proof.
  intros H1 H2 H3. unfold key_parse. apply N.eqb_neq in H1. rewrite H1.
  assert (exists c, curve_of_byte (nth 1 p 0) = Some c) as [c ->].
  { unfold curve_of_byte. set (x := nth 1 p 0) in *.
    destruct (N.eqb_spec x 0); [eauto|]. destruct (N.eqb_spec x 1); [eauto|].
    destruct (N.eqb_spec x 2); [eauto|]. destruct (N.eqb_spec x 3); [eauto|]. lia. }
  replace (N.of_nat BIP32_MAX_LENGTH <? nth 2 p 0) with true by (unfold BIP32_MAX_LENGTH; lia). auto.
Qed.
