(** Property lemmas about identifier texts in final form, and concrete values. *)
From Coq Require Import List NArith ZArith Lia Bool Arith String.
From Coq Require Import ZifyBool ZifyNat ZifyN.
From Verif Require Import Base BaseFacts Codecs Oracles Address AddressSpec AddressFacts HashDemo.
Import ListNotations.
Open Scope N_scope.

Lemma twice_spec O l : sha256x2 O l = option_map (firstn 4) (twice O l).
Proof.
  unfold sha256x2, twice. destruct (o_sha256 O l) as [b|]; reflexivity.
Qed.
Lemma twice_len O l d : oracles_ok O -> twice O l = Some d -> List.length d = 32%nat /\ bytes_ok d.
Proof.
  unfold twice. intros K. destruct (o_sha256 O l); [|discriminate]. apply ok_sha256; auto.
Qed.
Lemma kind_prefix_ok k : bytes_ok (kind_prefix k).
Proof. destruct k; repeat constructor; reflexivity. Qed.

Lemma tz_bytes_ok O k data d : oracles_ok O -> bytes_ok data ->
  twice O (kind_prefix k ++ data) = Some d ->
  bytes_ok (kind_prefix k ++ data ++ firstn 4 d)
  /\ List.length (firstn 4 d) = 4%nat.
Proof.
  intros K B H. destruct (twice_len _ _ _ K H) as [L D].
  split.
  - apply bytes_ok_app. split; [apply kind_prefix_ok|]. apply bytes_ok_app. split; auto. now apply bytes_ok_firstn.
  - rewrite firstn_length. lia.
Qed.

Definition writes58 (O : oracles) (cap : nat) (prefix data : bytes) : sres bytes :=
  match sha256x2 O (prefix ++ data) with
  | None => SErr
  | Some ck => match b58_encode cap (prefix ++ data ++ ck) with None => SPanic | Some t => SOk t end
  end.

Lemma writes58_ok O cap k data : oracles_ok O -> bytes_ok data ->
  256 ^ (len (kind_prefix k) + (len data + 4)) <= 58 ^ N.of_nat cap ->
  writes O (writes58 O cap (kind_prefix k) data) k data cap.
Proof.
  intros K B H. unfold writes58. rewrite twice_spec.
  destruct (twice O (kind_prefix k ++ data)) as [d|] eqn:E; cbn [option_map]; [|exact E].
  destruct (tz_bytes_ok _ _ _ _ K B E) as [T L].
  destruct (b58_encode_fits cap (kind_prefix k ++ data ++ firstn 4 d) T) as [t Ht].
  { rewrite !len_app. replace (len (firstn 4 d)) with 4 by (unfold len; lia). exact H. }
  rewrite Ht. cbn [writes]. destruct (b58_encode_spec _ _ _ T Ht). split; auto.
  exists d. auto.
Qed.

Ltac fits := match goal with |- 256 ^ ?n <= _ =>
  let v := eval vm_compute in n in change n with v; vm_compute; discriminate end.

Lemma pkh_text_ok O c h : oracles_ok O -> bytes_ok h -> List.length h = 20%nat ->
  writes O (pkh_text O c h) (addr_kind c) h 37.
Proof.
  intros K B L.
  replace (pkh_text O c h) with (writes58 O 37 (kind_prefix (addr_kind c)) h).
  - apply writes58_ok; auto. unfold len at 2. rewrite L. destruct c; fits.
  - unfold pkh_text, addr_from_hash, writes58, addr_base58.
    replace (hash_prefix c) with (kind_prefix (addr_kind c)) by now destruct c.
    destruct (sha256x2 O _); auto.
Qed.

Lemma kt1_text_ok O h : oracles_ok O -> bytes_ok h -> List.length h = 20%nat ->
  writes O (kt1_text O h) KindKT1 h 37.
Proof. intros K B L. apply (writes58_ok O 37 KindKT1 h K B). unfold len at 2. rewrite L. fits. Qed.
Lemma branch_text_ok O h : oracles_ok O -> bytes_ok h -> List.length h = 32%nat ->
  writes O (branch_text O h) KindBranch h 52.
Proof. intros K B L. apply (writes58_ok O 52 KindBranch h K B). unfold len at 2. rewrite L. fits. Qed.
Lemma proposal_text_ok O h : oracles_ok O -> bytes_ok h -> List.length h = 32%nat ->
  writes O (proposal_text O h) KindProposal h 52.
Proof. intros K B L. apply (writes58_ok O 52 KindProposal h K B). unfold len at 2. rewrite L. fits. Qed.
Lemma chain_text_ok O id : oracles_ok O -> writes O (chain_text O id) KindChain (be 4 id) 16.
Proof.
  intros K. apply (writes58_ok O 16 KindChain (be 4 id) K (be_ok 4 id)).
  unfold len at 2. rewrite be_length. fits.
Qed.
Lemma pk_text_ok O c k : oracles_ok O -> bytes_ok k ->
  List.length k = kind_data_length (pk_kind c) ->
  writes O (pk_text O c k) (pk_kind c) k 56.
Proof.
  intros K B L.
  replace (pk_text O c k) with (writes58 O 56 (kind_prefix (pk_kind c)) k).
  - apply writes58_ok; auto. unfold len at 2. rewrite L. destruct c; fits.
  - unfold pk_text, writes58.
    replace (pk_prefix c) with (kind_prefix (pk_kind c)) by now destruct c.
    replace (33 <? List.length k)%nat with false; auto.
    symmetry. apply Nat.ltb_ge. rewrite L. destruct c; cbn; lia.
Qed.

(** Unknown operations: hash and checksum without a prefix. *)
Lemma unknown_text_ok O l : oracles_ok O ->
  match unknown_text O l with
  | SOk t => exists d h, o_blake2b O 32 l = Some d /\ twice O d = Some h
               /\ reads58 t (d ++ firstn 4 h) /\ (List.length t <= 50)%nat
  | SErr => o_blake2b O 32 l = None \/ exists d, o_blake2b O 32 l = Some d /\ twice O d = None
  | SPanic => False
  end.
Proof.
  intros K. unfold unknown_text. destruct (o_blake2b O 32 l) as [d|] eqn:E; [|auto].
  destruct (ok_blake2b _ K _ _ _ E) as [L B]. unfold checked58. cbn [app].
  rewrite twice_spec. destruct (twice O d) as [h|] eqn:T; cbn [option_map]; [|eauto].
  destruct (twice_len _ _ _ K T) as [Lh Bh].
  assert (Bt : bytes_ok (d ++ firstn 4 h)) by (apply bytes_ok_app; split; auto; now apply bytes_ok_firstn).
  destruct (b58_encode_fits 50 _ Bt) as [t Ht].
  { rewrite len_app. unfold len. rewrite firstn_length, L, Lh. fits. }
  rewrite Ht. destruct (b58_encode_spec _ _ _ Bt Ht) as [R S]. exists d, h. auto.
Qed.

(** ** Texts identify *)

Lemma prefix_data_inj k1 k2 d1 d2 c1 c2 :
  List.length d1 = kind_data_length k1 -> List.length d2 = kind_data_length k2 ->
  List.length c1 = 4%nat -> List.length c2 = 4%nat ->
  kind_prefix k1 ++ d1 ++ c1 = kind_prefix k2 ++ d2 ++ c2 -> k1 = k2 /\ d1 = d2.
Proof.
  intros L1 L2 C1 C2 E. pose proof (f_equal (@List.length N) E) as EL. rewrite !app_length in EL.
  assert (k1 = k2) as <-.
  { destruct k1, k2; try reflexivity; cbn in E, EL, L1, L2;
      (discriminate || (exfalso; lia)). }
  split; auto. apply app_inv_head in E.
  assert (firstn (kind_data_length k1) (d1 ++ c1) = firstn (kind_data_length k1) (d2 ++ c2)) by congruence.
  rewrite !firstn_app, L1, L2, Nat.sub_diag in H. cbn [firstn] in H. rewrite !app_nil_r in H.
  rewrite <- L1 in H at 1. rewrite <- L2 in H. now rewrite !firstn_all in H.
Qed.

Lemma tz_text_inj O k1 k2 d1 d2 t : oracles_ok O ->
  bytes_ok d1 -> bytes_ok d2 ->
  List.length d1 = kind_data_length k1 -> List.length d2 = kind_data_length k2 ->
  tz_text (twice O) k1 d1 t -> tz_text (twice O) k2 d2 t -> k1 = k2 /\ d1 = d2.
Proof.
  intros K B1 B2 L1 L2 (h1 & H1 & R1) (h2 & H2 & R2).
  destruct (tz_bytes_ok _ _ _ _ K B1 H1) as [T1 C1].
  destruct (tz_bytes_ok _ _ _ _ K B2 H2) as [T2 C2].
  pose proof (reads58_inj _ _ _ T1 T2 R1 R2) as E.
  exact (prefix_data_inj _ _ _ _ _ _ L1 L2 C1 C2 E).
Qed.

Lemma chain_alias_ok O c : oracles_ok O ->
  match chain_alias O c with
  | SOk t => alias_of O c t /\ (List.length t <= 16)%nat
  | SErr => exists id, c = ChainCustom id /\ twice O (kind_prefix KindChain ++ be 4 id) = None
  | SPanic => False
  end.
Proof.
  intros K. destruct c as [| |id]; cbn [chain_alias alias_of].
  - split; [reflexivity|cbn; lia].
  - split; [reflexivity|cbn; lia].
  - pose proof (chain_text_ok O id K) as W. destruct (chain_text O id); cbn [writes] in W; auto.
    eauto.
Qed.

Lemma chain_text_large O d t : oracles_ok O -> bytes_ok d -> tz_text (twice O) KindChain d t ->
  exists v, text_value 0 t = Some v /\ 256 ^ 6 <= v.
Proof.
  intros K B (h & H & V & _). eexists. split; [exact V|].
  destruct (tz_bytes_ok _ _ _ _ K B H) as [_ C].
  etransitivity; [|apply unbe_head_pos]; [|cbn; lia|discriminate].
  apply N.pow_le_mono_r; [lia|]. rewrite !len_app. change (len (kind_prefix KindChain)) with 3.
  unfold len. lia.
Qed.

Lemma alias_inj O c1 c2 t : oracles_ok O -> chain_wf c1 -> chain_wf c2 ->
  alias_of O c1 t -> alias_of O c2 t -> c1 = c2.
Proof.
  intros K W1 W2 A1 A2.
  assert (S : forall id, tz_text (twice O) KindChain (be 4 id) t ->
                t = chars "any" \/ t = chars "mainnet" -> False).
  { intros id T [-> | ->]; destruct (chain_text_large O _ _ K (be_ok 4 id) T) as (v & V & L);
      vm_compute in V; inversion V; subst; vm_compute in L; now apply L. }
  destruct c1 as [| |i1], c2 as [| |i2]; cbn [alias_of] in *; auto; try congruence;
    try (exfalso; eauto; fail).
  - subst t. discriminate.
  - subst t. discriminate.
  - destruct (tz_text_inj O KindChain KindChain _ _ t K (be_ok 4 i1) (be_ok 4 i2)
               (be_length 4 i1) (be_length 4 i2) A1 A2) as [_ E].
    f_equal. apply (f_equal unbe) in E. rewrite !unbe_be in E.
    cbn [chain_wf] in *. change (256 ^ N.of_nat 4) with (2 ^ 32) in E.
    rewrite !N.mod_small in E by assumption. exact E.
Qed.

(** ** The hash of a key *)

Lemma even_last y : N.even (unbe y) = N.even (last y 0).
Proof.
  destruct y as [|a y'] using rev_ind; [reflexivity|].
  rewrite unbe_app, last_last. change (len [a]) with 1. rewrite N.pow_1_r.
  replace (unbe [a]) with a by (cbn; lia).
  rewrite N.even_add, N.even_mul. cbn. rewrite orb_true_r. now destruct (N.even a).
Qed.
Lemma land1_even b : 2 + N.land b 1 = if N.even b then 2 else 3.
Proof.
  change 1 with (N.ones 1). rewrite N.land_ones. change (2 ^ 1) with 2.
  rewrite <- N.bit0_mod, N.bit0_odd, <- N.negb_even. now destruct (N.even b).
Qed.

Lemma pk_hash_ok O c pk l : hashed_form c pk l ->
  pk_hash O c pk = match o_blake2b O 20 l with Some h => SOk h | None => SErr end.
Proof.
  assert (S : (exists x y, pk = 4 :: x ++ y /\ List.length x = 32%nat /\ List.length y = 32%nat
             /\ l = (if N.even (unbe y) then 2 else 3) :: x) ->
     (match nth_error pk 64 with
      | None => SPanic
      | Some b => match o_blake2b O 20 (2 + N.land b 1 :: slice 1 32 pk) with
                  | Some h => SOk h | None => SErr end
      end) = match o_blake2b O 20 l with Some h => SOk h | None => SErr end).
  { intros (x & y & -> & Lx & Ly & ->).
    change (nth_error (4 :: x ++ y) 64) with (nth_error (x ++ y) 63).
    rewrite nth_error_app2 by lia. rewrite Lx. cbn [Nat.sub].
    rewrite even_last.
    destruct y as [|a y'] using rev_ind; [discriminate|]. clear IHy'.
    rewrite app_length in Ly. cbn in Ly.
    rewrite nth_error_app2 by lia. replace (31 - List.length y')%nat with 0%nat by lia.
    cbn [nth_error]. rewrite last_last, land1_even.
    unfold slice. cbn [skipn].
    replace (firstn 32 (x ++ y' ++ [a])) with x; [reflexivity|].
    symmetry. rewrite <- Lx at 1. rewrite firstn_app, firstn_all, Nat.sub_diag. apply app_nil_r. }
  destruct c; cbn [hashed_form pk_hash]; auto.
  - intros [b ->]. reflexivity.
  - intros [b ->]. reflexivity.
Qed.

(** The address of a public key, as shown and returned by the app. *)
Definition key_address (O : oracles) (c : curve) (pk : bytes) : sres bytes :=
  match addr_new O c pk with SOk a => addr_base58 a | SErr => SErr | SPanic => SPanic end.

Lemma key_address_ok O c pk l h : oracles_ok O -> hashed_form c pk l ->
  o_blake2b O 20 l = Some h -> writes O (key_address O c pk) (addr_kind c) h 37.
Proof.
  intros K F H. unfold key_address, addr_new. rewrite (pk_hash_ok O c pk l F), H.
  destruct (ok_blake2b _ K _ _ _ H) as [L B].
  exact (pkh_text_ok O c h K B L).
Qed.

Lemma key_address_total O c pk : oracles_ok O -> List.length pk = pubkey_length c ->
  key_address O c pk <> SPanic.
Proof.
  intros K L. unfold key_address, addr_new.
  assert (P : match pk_hash O c pk with
              | SOk h => bytes_ok h /\ List.length h = 20%nat | SErr => True | SPanic => False end).
  { unfold pk_hash. destruct c; cbn in L.
    - destruct pk; [discriminate|]. destruct (o_blake2b O 20 pk) eqn:E; auto.
      now destruct (ok_blake2b _ K _ _ _ E).
    - destruct (nth_error pk 64) eqn:E; [|apply nth_error_None in E; lia].
      destruct (o_blake2b O 20 _) eqn:F; auto. now destruct (ok_blake2b _ K _ _ _ F).
    - destruct (nth_error pk 64) eqn:E; [|apply nth_error_None in E; lia].
      destruct (o_blake2b O 20 _) eqn:F; auto. now destruct (ok_blake2b _ K _ _ _ F).
    - destruct pk; [discriminate|]. destruct (o_blake2b O 20 pk) eqn:E; auto.
      now destruct (ok_blake2b _ K _ _ _ E). }
  destruct (pk_hash O c pk) as [h| |]; try discriminate; [|contradiction].
  destruct P as [B Lh]. pose proof (pkh_text_ok O c h K B Lh) as W. unfold pkh_text in W.
  destruct (addr_from_hash O h c); try discriminate; [|exact (False_ind _ W)].
  destruct (addr_base58 a); try discriminate. exact (False_ind _ W).
Qed.

(** ** Concrete values *)

(** Oracles with real hashes; keys and signatures are made up from their inputs. *)
Definition demo_pubkey (c : curve) (p : path) : bytes :=
  match c with
  | Ed25519 | Bip32Ed25519 => 2 :: sha256 (byte_of_curve c :: flat_map (be 4) p)
  | Secp256K1 | Secp256R1 =>
    4 :: sha256 (byte_of_curve c :: flat_map (be 4) p) ++ sha256 (flat_map (be 4) p)
  end.
Definition demo_oracles : oracles := mkOracles
  (fun n l => if (n <=? 64)%nat then Some (blake2b n l) else None)
  (fun l => Some (sha256 l))
  (fun l => Some (sha256 l ++ sha256 (rev l)))
  (fun k l => Some (sha256 (k ++ l)))
  (fun c p => Some (demo_pubkey c p))
  (fun c p l => Some (sha256 (demo_pubkey c p ++ l) ++ sha256 l)).

Lemma demo_pubkey_ok c p : List.length (demo_pubkey c p) = pubkey_length c /\ bytes_ok (demo_pubkey c p).
Proof.
  destruct c; cbn [demo_pubkey pubkey_length List.length];
    rewrite ?app_length, !sha256_length; (split; [reflexivity|]);
    (constructor; [reflexivity|]); try apply sha256_ok;
    apply bytes_ok_app; split; apply sha256_ok.
Qed.

Lemma demo_oracles_ok : oracles_ok demo_oracles.
Proof.
  constructor; cbn [demo_oracles o_blake2b o_sha256 o_sha512 o_hmac256 o_pubkey o_sign].
  - intros n l d. destruct (Nat.leb_spec n 64); [|discriminate]. intros E; inversion E; subst.
    split; [now apply blake2b_length|apply blake2b_ok].
  - intros l d E; inversion E; subst. split; [apply sha256_length|apply sha256_ok].
  - intros l d E; inversion E; subst. split; [rewrite app_length, !sha256_length; reflexivity|].
    apply bytes_ok_app; split; apply sha256_ok.
  - intros k l d E; inversion E; subst. split; [apply sha256_length|apply sha256_ok].
  - intros c p k E; inversion E; subst. apply demo_pubkey_ok.
  - intros c p l s E; inversion E; subst. rewrite app_length, !sha256_length. split; [lia|].
    apply bytes_ok_app; split; apply sha256_ok.
Qed.

(** The values of the repository's own tests: public_key.rs l.346-361,
    parser/operations.rs l.377-430 and parser.rs l.305-325. *)
Definition demo_pkh : bytes := be 20 0x35e993d8c7aaa42b5e3ccd86a33390ececc73abd.
Definition demo_contract : bytes := be 20 0x6a7d4a43f51be0934a441fba4f13f9beaa475751.
Definition demo_branch : bytes :=
  be 32 0xa99b946c97ada0f42c1bdeae0383db7893351232a832d00d0cd716eb6f66e561.
Definition demo_edpk : bytes :=
  be 32 0xebcf82872f4942052704e95dc4bfa0538503dbece27414a39b6650bcecbff896.

Lemma demo_pkh_text : pkh_text demo_oracles Bip32Ed25519 demo_pkh =
  SOk (chars "tz1QZ6KY7d3BuZDT1d19dUxoQrtFPN2QJ3hn").
Proof. vm_compute. reflexivity. Qed.
Lemma demo_addr_text : addr_base58 (mkAddr [6; 161; 159]
    (be 20 0xc860be673ae47ec549f9b5a01a8ccb657be75b6a) (be 4 0x888a1984)) =
  SOk (chars "tz1duXjMpT43K7F1nQajzH5oJLTytLUNxoTZ").
Proof. vm_compute. reflexivity. Qed.
Lemma demo_contract_text : kt1_text demo_oracles demo_contract =
  SOk (chars "KT1JHqHQdHSgWBKo6H4UfG8dw3JnZSyjGkHA").
Proof. vm_compute. reflexivity. Qed.
Lemma demo_branch_text : branch_text demo_oracles demo_branch =
  SOk (chars "BLzyjjHKEKMULtvkpSHxuZxx6ei6fpntH2BTkYZiLgs8zLVstvX").
Proof. vm_compute. reflexivity. Qed.
Lemma demo_pk_text : pk_text demo_oracles Bip32Ed25519 demo_edpk =
  SOk (chars "edpkvS5QFv7KRGfa3b87gg9DBpxSm3NpSwnjhUjNBQrRUUR66F7C9g").
Proof. vm_compute. reflexivity. Qed.
Lemma demo_chain_text : chain_text demo_oracles 0x7a06a770 = SOk (chars "NetXdQprcVkpaWU").
Proof. vm_compute. reflexivity. Qed.

Lemma demo_hashed_form : exists l h, hashed_form Secp256K1 (demo_pubkey Secp256K1 [1; 2]) l
  /\ o_blake2b demo_oracles 20 l = Some h.
Proof.
  eexists. eexists. split; [|reflexivity]. cbn [hashed_form demo_pubkey].
  do 2 eexists. split; [reflexivity|]. rewrite !sha256_length. auto.
Qed.
