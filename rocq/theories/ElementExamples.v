(** C69 to C71: a small secure element, and cases. *)
From Coq Require Import List NArith ZArith Lia Bool Arith ZifyBool ZifyNat ZifyN.
From Verif Require Import Base BaseFacts Flash Codecs Oracles Address Baking Device DeviceSpec DeviceExamples DeviceDemo DeviceCases
  Element ElementSpec ElementFacts.
Import ListNotations.
Open Scope N_scope.

(** ** An element *)

Definition toy (n : nat) (l : bytes) : bytes :=
  map (fun i => fold_left (fun a b => (a * 31 + b + N.of_nat i) mod 65536) l 7 mod 256) (seq 0 n).
Lemma toy_ok n l : length (toy n l) = n /\ bytes_ok (toy n l).
Proof.
  unfold toy. split; [now rewrite map_length, seq_length|].
  apply Forall_map, Forall_forall. intros i _. apply N.mod_lt. discriminate.
Qed.

(** [pairs]: whether public keys can be computed; [derives]: whether keys can be derived. *)
Definition toy_element (pairs derives : bool) : element := {|
  e_derive := fun m c p =>
    (derives && (length p <=? 7)%nat && forallb (fun x => x <? 2 ^ 32) p,
     pad_to 64 (m :: c :: len p :: flat_map (be 4) p));
  e_init := fun c x => (true, mkPriv c x);
  e_pair := fun c k => if pairs then Some (mkPub c 65 (4 :: toy 64 (pv_d k))) else None;
  e_compress := fun c w => Some (2 :: skipn 1 w);
  e_ecdsa := fun k m h d room =>
    if 71 <=? room then Some (0x30 :: toy 70 (pv_d k ++ d), nth 0 d 0 mod 4) else None;
  e_eddsa := fun k h d room => Some (toy 64 (pv_d k ++ d));
  e_domain := fun c => Some 32;
  e_hstate := (N * N * bytes)%type;
  e_hash_init := fun alg bits => Some (alg, bits, []);
  e_hash := fun st last x n =>
    let l := snd st ++ x in Some ((fst st, l), toy (N.to_nat n) (fst (fst st) :: snd (fst st) :: l));
  e_mstate := bytes;
  e_hmac_init := fun k => Some k;
  e_hmac := fun st m x n => Some (st ++ x, toy (N.to_nat n) (st ++ x))
|}.

Lemma toy_element_ok a b : element_ok (toy_element a b).
Proof.
  constructor; cbn [toy_element e_pair e_compress e_ecdsa e_eddsa e_domain e_hash e_hmac].
  - intros c k pk. destruct a; [|discriminate]. intros [= <-]. cbn [pb_curve pb_len pb_w length].
    destruct (toy_ok 64 (pv_d k)) as [L B]. rewrite L. repeat split; auto. constructor; [reflexivity|exact B].
  - intros c w w' [= <-] L B. destruct w as [|x w]; [discriminate L|]. cbn [skipn length] in *. split; [exact L|].
    inversion B; subst. constructor; [reflexivity|assumption].
  - intros k m h d room g info. destruct (71 <=? room) eqn:R; [|discriminate]. intros [= <- _].
    destruct (toy_ok 70 (pv_d k ++ d)) as [L B]. unfold len. cbn [length]. rewrite L. split; [lia|]. constructor; [reflexivity|exact B].
  - intros k h d room g [= <-]. apply toy_ok.
  - reflexivity.
  - intros st x n st' d [= _ <-]. destruct (toy_ok (N.to_nat n) (fst (fst st) :: snd (fst st) :: snd st ++ x)) as [L B].
    unfold len. rewrite L. split; [lia|exact B].
  - intros st m x n st' d [= _ <-]. destruct (toy_ok (N.to_nat n) (st ++ x)) as [L B]. unfold len. rewrite L. split; [lia|exact B].
Qed.
Definition toy_hash (alg bits : N) (l : bytes) : bytes := toy (N.to_nat (bits / 8)) (alg :: bits :: l).
Lemma toy_hashes a b : hashes (toy_element a b) toy_hash (fun st alg bits l => st = (alg, bits, l)).
Proof.
  constructor; cbn [toy_element e_hash_init e_hash].
  - intros alg bits st [= <-]. reflexivity.
  - intros alg bits st l x n st' o -> [= <- _]. reflexivity.
  - intros alg bits st l x st' o -> [= _ <-]. reflexivity.
Qed.

(** Its keys differ. *)
Lemma app_inj_lengths {A} (a b c d : list A) : length a = length c -> a ++ b = c ++ d -> a = c /\ b = d.
Proof.
  revert c. induction a as [|x a IH]; intros [|y c]; try discriminate; cbn [length app]; auto.
  intros [= L] [= -> H]. destruct (IH _ L H) as [-> ->]. auto.
Qed.
Lemma paths_apart (p q : path) (r s : bytes) : Forall (fun x => x < 2 ^ 32) p -> Forall (fun x => x < 2 ^ 32) q ->
  length p = length q -> flat_map (be 4) p ++ r = flat_map (be 4) q ++ s -> p = q.
Proof.
  intros P. revert q. induction P as [|x p X P IH]; intros q Q; destruct Q as [|y q Y Q]; try discriminate; auto.
  cbn [length flat_map]. intros [= L]. rewrite <- !app_assoc. intros H.
  assert (HL : length (be 4 x) = length (be 4 y)) by now rewrite !be_length.
  destruct (app_inj_lengths _ _ _ _ HL H) as [H1 H2].
  f_equal; [|now apply IH]. apply (f_equal unbe) in H1. now rewrite !unbe_be_small in H1 by assumption.
Qed.
Lemma toy_node_apart a b m i q m' i' q' n n' :
  e_derive (toy_element a b) m i q = (true, n) -> e_derive (toy_element a b) m' i' q' = (true, n') ->
  firstn 32 n = firstn 32 n' -> (m, i, q) = (m', i', q').
Proof.
  cbn [toy_element e_derive]. intros X X'. apply pair_equal_spec in X as [X <-], X' as [X' <-].
  apply andb_prop in X as [X F], X' as [X' F']. apply andb_prop in X as [_ L], X' as [_ L'].
  apply Nat.leb_le in L, L'. rewrite forallb_forall in F, F'.
  assert (G : forall q : path, (length q <= 7)%nat -> forall m i : N, exists r,
    firstn 32 (pad_to 64 (m :: i :: len q :: flat_map (be 4) q)) = m :: i :: len q :: flat_map (be 4) q ++ r).
  { clear. intros q L m i. assert (K : (length (flat_map (be 4) q) <= 28)%nat).
    { replace (length (flat_map (be 4) q)) with (4 * length q)%nat by
        (clear L; induction q; cbn [flat_map length]; [reflexivity|rewrite app_length, be_length, <- IHq; lia]). lia. }
    unfold pad_to. generalize (zeros (64 - length (m :: i :: len q :: flat_map (be 4) q))). intros z.
    exists (firstn (29 - length (flat_map (be 4) q)) z). change (m :: i :: len q :: firstn 29 (flat_map (be 4) q ++ z) =
      m :: i :: len q :: flat_map (be 4) q ++ firstn (29 - length (flat_map (be 4) q)) z).
    do 3 f_equal. revert K. generalize (flat_map (be 4) q). intros l K.
    rewrite firstn_app, (firstn_all2 l) by lia. reflexivity. }
  destruct (G q L m i) as [r ->]. destruct (G q' L' m' i') as [r' ->]. intros [= -> -> E0 E1].
  assert (E2 : length q = length q') by (unfold len in E0; lia).
  rewrite (paths_apart q q' r r'); auto; apply Forall_forall; intros x Hx; apply N.ltb_lt; auto.
Qed.
Lemma toy_init_apart a b i x i' x' k :
  e_init (toy_element a b) i x = (true, k) -> e_init (toy_element a b) i' x' = (true, k) -> x = x'.
Proof. cbn [toy_element e_init]. congruence. Qed.

(** ** C69 *)

Lemma shown_key_signs E c p k data g : element_ok E ->
  o_pubkey (oracles_of E) c p = Some k -> o_sign (oracles_of E) c p data = Some g ->
  exists sk, key_at E c p sk /\ public_of E c sk k /\ signature_of E c sk data g.
Proof.
  intros K A B. destruct (pubkey_of E K _ _ _ A) as (sk & S1 & P). destruct (sign_of E K _ _ _ _ B) as (sk' & S1' & G).
  exists sk. split; [exact S1|]. split; [exact P|]. now rewrite (key_unique E _ _ _ _ S1 S1').
Qed.
Lemma keys_and_signatures E : element_ok E ->
  (forall c p k, o_pubkey (oracles_of E) c p = Some k <-> exists sk, key_at E c p sk /\ public_of E c sk k) /\
  (forall c p data g, o_sign (oracles_of E) c p data = Some g <-> exists sk, key_at E c p sk /\ signature_of E c sk data g).
Proof. intros K. split; intros; [apply pubkey_of_iff|apply sign_of_iff]; exact K. Qed.

Definition toy_path : path := [0x8000002C; 0x800006C1; 0x80000000; 5].
Definition toys := toy_element true true.
(** All four curves give keys and sign; their keys differ. *)
Lemma toys_meet : element_ok toys /\
  (forall c, In c [Ed25519; Secp256K1; Secp256R1; Bip32Ed25519] ->
    option_map len (o_pubkey (oracles_of toys) c toy_path) = Some (if edwards c then 33 else 65) /\
    option_map len (o_sign (oracles_of toys) c toy_path [1; 2; 3]) = Some (if edwards c then 64 else 71)) /\
  NoDup (map (fun c => o_pubkey (oracles_of toys) c toy_path) [Ed25519; Secp256K1; Secp256R1; Bip32Ed25519]).
Proof.
  split; [apply toy_element_ok|]. split.
  - intros c H. cbn [In] in H. destruct H as [<-|[<-|[<-|[<-|[]]]]]; vm_compute; auto.
  - vm_compute. repeat constructor; cbn [In]; intuition discriminate.
Qed.
(** A signature with an odd ordinate is marked, one with an even ordinate is not. *)
Lemma toys_marks :
  option_map (firstn 1) (o_sign (oracles_of toys) Secp256K1 toy_path [1; 2; 3]) = Some [0x31] /\
  option_map (firstn 1) (o_sign (oracles_of toys) Secp256K1 toy_path [2; 2; 3]) = Some [0x30].
Proof. vm_compute. auto. Qed.
(** A wallet that runs on it signs with the key of the path. *)
Lemma toys_wallet : Forall event_ok wallet_events /\
  map (fun g => (sg_src g, sg_key g)) (d_log (snd (run wallet_config (oracles_of toys) (dev_fresh [] []) wallet_events))) <> [].
Proof. split; [apply events_okb_ok; vm_compute; reflexivity|]. vm_compute. discriminate. Qed.

(** The system also reports, in the same number, that the abscissa exceeds the order. *)
Lemma odd_not_marked : ~ (forall E, element_ok E -> forall c p sk data g0 info g,
  key_at E c p sk -> edwards c = false -> e_ecdsa E sk 0x600 3 data 72 = Some (g0, info) -> g0 <> [] -> N.testbit info 0 = true ->
  o_sign (oracles_of E) c p data = Some g -> N.testbit (nth 0 g 0) 0 = true).
Proof.
  intros H.
  specialize (H toys (toy_element_ok _ _) Secp256K1 toy_path (mkPriv 0x21 (firstn 32 (pad_to 64 (0 :: 0x21 :: len toy_path :: flat_map (be 4) toy_path))))
    [3; 2; 1] (0x30 :: toy 70 (firstn 32 (pad_to 64 (0 :: 0x21 :: len toy_path :: flat_map (be 4) toy_path)) ++ [3; 2; 1])) 3
    (0x30 :: toy 70 (firstn 32 (pad_to 64 (0 :: 0x21 :: len toy_path :: flat_map (be 4) toy_path)) ++ [3; 2; 1]))).
  assert (X : N.testbit 0x30 0 = true).
  { apply H; [|reflexivity|vm_compute; reflexivity|discriminate|reflexivity|vm_compute; reflexivity].
    eexists. split; [vm_compute; reflexivity|]. vm_compute. reflexivity. }
  discriminate X.
Qed.

(** ** C70 *)

Lemma erased_after_use E c p sk : key_at E c p sk ->
  (forall room data, erased (snd (sign_into E room c p data mem_start))) /\
  (e_pair E (snd (derivation c)) sk <> None -> erased (snd (new_key E c p mem_start))).
Proof. intros K. split; [intros; eapply sign_erases; eauto|intros; eapply public_erases; eauto]. Qed.
Lemma pair_failure_leaves : ~ (forall E c p sk, element_ok E -> key_at E c p sk -> erased (snd (new_key E c p mem_start))).
Proof.
  intros H. specialize (H (toy_element false true) Secp256K1 toy_path
    (mkPriv 0x21 (firstn 32 (pad_to 64 (0 :: 0x21 :: len toy_path :: flat_map (be 4) toy_path)))) (toy_element_ok _ _)).
  assert (K : key_at (toy_element false true) Secp256K1 toy_path
    (mkPriv 0x21 (firstn 32 (pad_to 64 (0 :: 0x21 :: len toy_path :: flat_map (be 4) toy_path))))).
  { eexists. split; vm_compute; reflexivity. }
  destruct (H K) as [_ X]. vm_compute in X. inversion X as [|x l _ Y]. inversion Y. discriminate.
Qed.
Lemma derive_failure_leaves : ~ (forall E c p data, element_ok E -> erased (snd (sign_into E 100 c p data mem_start))).
Proof.
  intros H. destruct (H (toy_element true false) Secp256K1 toy_path [] (toy_element_ok _ _)) as [X _].
  vm_compute in X. inversion X as [|x l _ Y]. inversion Y. discriminate.
Qed.
(** A key that is not zero passes through the memory and is gone afterwards. *)
Lemma toys_erased :
  snd (generate_into toys (key_mode Ed25519) (to_sys Ed25519) toy_path mem_start) <> mem_start /\
  fst (sign_into toys 100 Ed25519 toy_path [1] mem_start) <> None /\ erased (snd (sign_into toys 100 Ed25519 toy_path [1] mem_start)) /\
  (exists sk, key_at toys Ed25519 toy_path sk /\ e_pair toys (snd (derivation Ed25519)) sk <> None).
Proof.
  split; [vm_compute; discriminate|]. split; [vm_compute; discriminate|].
  assert (K : exists sk, key_at toys Ed25519 toy_path sk /\ e_pair toys (snd (derivation Ed25519)) sk <> None).
  { eexists. split; [eexists; split; vm_compute; reflexivity|vm_compute; discriminate]. }
  split; [|exact K]. destruct K as (sk & K & _). eapply sign_erases; eauto.
Qed.

(** ** C71 *)

Lemma toys_hashing : hashing_works toys.
Proof. split; intros; cbn [toys toy_element e_hash_init e_hash]; discriminate. Qed.
Lemma cut_anywhere E H absorbed ps qs r s : hashes E H absorbed -> concat ps = concat qs ->
  sha256x2_pieces E ps = Some r -> sha256x2_pieces E qs = Some s -> r = s.
Proof. intros HS Q A B. apply (sha256x2_is E H absorbed HS) in A, B. now rewrite A, B, Q. Qed.
Lemma hash_of_whole E H absorbed : hashes E H absorbed -> hashing_works E ->
  (forall alg bits l, digest E alg bits l = Some (H alg bits l)) /\
  (forall ps, sha256x2_pieces E ps = Some (firstn 4 (H 3 256 (H 3 256 (concat ps))))).
Proof. intros HS W. split; intros; [now apply (digest_some E H absorbed HS W)|now apply (sha256x2_some E H absorbed HS W)]. Qed.
Lemma toys_address : option_map (fun a => (a_prefix a, len (a_hash a), len (a_checksum a)))
    (match o_pubkey (oracles_of toys) Secp256R1 toy_path with Some k => addr_pieces toys Secp256R1 k | None => None end) =
  Some ([6; 161; 164], 20, 4).
Proof. vm_compute. reflexivity. Qed.
Lemma toys_cuts :
  concat [[1; 2]; [3]] = concat [[1]; []; [2; 3]] /\ sha256x2_pieces toys [[1; 2]; [3]] <> None /\
  sha256x2_pieces toys [[1; 2]; [3]] = sha256x2_pieces toys [[1]; []; [2; 3]] /\
  sha256x2_pieces toys [[1; 2]; [3]] <> sha256x2_pieces toys [[1; 2]; [4; 0]].
Proof. split; [reflexivity|]. vm_compute. split; [discriminate|]. split; [reflexivity|discriminate]. Qed.
Lemma toys_mac : macs toys (fun key l => toy 32 (key ++ l)) (fun st key l => st = key ++ l) /\
  option_map len (o_hmac256 (oracles_of toys) [1; 2] [3; 4; 5]) = Some 32.
Proof.
  split; [|vm_compute; reflexivity]. constructor; cbn [toys toy_element e_hmac_init e_hmac].
  - intros key st [= <-]. now rewrite app_nil_r.
  - intros key st l m x n st' o -> _ _ [= <- _]. now rewrite app_assoc.
  - intros key st l m x st' o -> _ _ [= _ <-]. now rewrite app_assoc.
Qed.
