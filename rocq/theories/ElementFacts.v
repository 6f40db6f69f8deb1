(** Facts about the use of the secure element. *)
From Coq Require Import List NArith ZArith Lia Bool Arith ZifyBool ZifyNat ZifyN.
From Verif Require Import Base BaseFacts Codecs Oracles Address Device DeviceSpec DeviceExamples Element ElementSpec.
Import ListNotations.
Open Scope N_scope.

Lemma low_bit b : N.lor b 1 = 2 * (b / 2) + 1.
Proof.
  destruct b as [|[p|p|]]; try reflexivity.
  - cbn [N.lor Pos.lor]. rewrite <- N.div2_div. cbn [N.div2]. lia.
  - cbn [N.lor Pos.lor]. rewrite <- N.div2_div. cbn [N.div2]. lia.
Qed.
Lemma lor_ok b : b < 256 -> N.lor b 1 < 256.
Proof. intros H. rewrite low_bit. lia. Qed.

Lemma whole n (g : bytes) : length g = n -> g = firstn n (pad_to n g).
Proof. intros L. unfold pad_to. rewrite firstn_app, firstn_all2, L, Nat.sub_diag by lia. cbn [zeros firstn]. now rewrite app_nil_r. Qed.
Lemma all_zero n : Forall (eq 0) (zeros n).
Proof. unfold zeros. induction n; constructor; auto. Qed.

Section Keys.
  Variable E : element.
  Hypothesis K : element_ok E.

  Lemma derivation_eq c : derivation c = (smode_id (key_mode c), scurve_id (to_sys c)).
  Proof. now destruct c. Qed.
  Lemma edwards_eq c : edwards c = negb (is_weierstrass (to_sys c)).
  Proof. now destruct c. Qed.

  (** ** The private key *)

  Lemma generate_key c p m ok m' : generate_into E (key_mode c) (to_sys c) p m = (ok, m') ->
    if ok then key_at E c p (m_key m') /\ m_node m' = zeros 64
    else forall sk, ~ key_at E c p sk.
  Proof.
    unfold generate_into, key_at. rewrite derivation_eq. cbn [fst snd].
    destruct (e_derive E _ _ p) as [[] node]; cbn [negb].
    - destruct (e_init E _ _) as [[] k] eqn:EI; intros [= <- <-].
      + cbn [m_key m_node]. eauto.
      + intros sk (node' & [= <-] & X). congruence.
    - intros [= <- <-] sk (node' & X & _). congruence.
  Qed.
  Lemma key_unique c p sk sk' : key_at E c p sk -> key_at E c p sk' -> sk = sk'.
  Proof. intros (n & A & B) (n' & A' & B'). congruence. Qed.

  (** ** Public keys and signatures *)

  Lemma pubkey_of c p k : o_pubkey (oracles_of E) c p = Some k ->
    exists sk, key_at E c p sk /\ public_of E c sk k.
  Proof.
    cbn [oracles_of o_pubkey]. unfold new_key, public_into.
    destruct (generate_into E _ _ p _) as [ok m'] eqn:G. apply generate_key in G.
    destruct ok; cbn [negb]; [|discriminate]. destruct G as [G _].
    destruct (e_pair E _ _) as [pk|] eqn:P; [|discriminate]. cbn [fst].
    intros X. exists (m_key m'). split; [exact G|]. exists pk. rewrite derivation_eq. cbn [snd]. split; [exact P|].
    destruct (ek_pair E K _ _ _ P) as (P1 & P2 & P3 & P4).
    unfold compress in X. rewrite P1 in X. rewrite edwards_eq.
    destruct (to_sys c); cbn [scurve_id is_weierstrass negb] in *.
    - change (113 =? 113) with true in X. change 0x71 with 113. destruct (e_compress E 113 (pb_w pk)) as [w|]; [|discriminate].
      injection X as <-. exists w. split; [reflexivity|]. reflexivity.
    - change (33 =? 113) with false in X. injection X as <-. unfold key_bytes. rewrite P2. apply firstn_all2. lia.
    - change (34 =? 113) with false in X. injection X as <-. unfold key_bytes. rewrite P2. apply firstn_all2. lia.
  Qed.

  Lemma sign_of c p data g : o_sign (oracles_of E) c p data = Some g ->
    exists sk, key_at E c p sk /\ signature_of E c sk data g.
  Proof.
    cbn [oracles_of o_sign]. unfold sign_into, key_sign.
    destruct (100 <? _) eqn:R; [discriminate|clear R].
    destruct (generate_into E _ _ p _) as [ok m'] eqn:G. apply generate_key in G.
    destruct ok; cbn [negb]; [|discriminate]. destruct G as [G _]. cbn [fst].
    intros X. exists (m_key m'). split; [exact G|]. unfold signature_of. rewrite edwards_eq.
    assert (RM : sig_room (to_sys c) = 72) by reflexivity.
    destruct (is_weierstrass (to_sys c)) eqn:W; cbn [negb].
    - unfold ecdsa_sign in X. rewrite RM in X. change CX_RND_RFC6979 with 0x600 in X. change CX_SHA256 with 3 in X.
      destruct (e_ecdsa E (m_key m') 0x600 3 data 72) as [[g0 info]|]; [|discriminate]. injection X as <-.
      exists g0, info. split; [reflexivity|]. unfold CX_ECCINFO_PARITY_ODD.
      destruct (info =? 1); cbn [andb]; [|auto].
      destruct g0 as [|b t]; cbn [length tl nth]; [auto|]. rewrite low_bit.
      replace (0 <? len (b :: t)) with true by (unfold len; cbn [length]; lia). auto.
    - unfold eddsa_sign in X. rewrite RM in X. change CX_SHA512 with 5 in X.
      destruct (e_eddsa E (m_key m') 5 data 72) as [g0|] eqn:S0; [|discriminate].
      replace (scurve_id (to_sys c)) with 0x71 in X by (destruct (to_sys c); [reflexivity|discriminate W|discriminate W]).
      rewrite (ek_domain E K) in X.
      destruct (ek_eddsa E K _ _ _ _ _ S0) as [L _].
      cbv zeta in X. change (N.to_nat ((2 * 32) mod 2 ^ 32)) with 64%nat in X. rewrite <- X. f_equal.
      apply whole. exact L.
  Qed.

  Lemma generate_some c p m sk : key_at E c p sk -> generate_into E (key_mode c) (to_sys c) p m = (true, mkMem (zeros 64) sk).
  Proof.
    intros (node & D & J). rewrite derivation_eq in D, J. cbn [fst snd] in D, J.
    unfold generate_into. rewrite D. cbn [negb]. now rewrite J.
  Qed.
  Lemma pubkey_of_iff c p k : o_pubkey (oracles_of E) c p = Some k <-> exists sk, key_at E c p sk /\ public_of E c sk k.
  Proof.
    split; [apply pubkey_of|]. intros (sk & A & pk & P & X). cbn [oracles_of o_pubkey]. unfold new_key, public_into.
    rewrite (generate_some _ _ _ _ A). cbn [negb m_key]. rewrite derivation_eq in P. cbn [snd] in P. rewrite P. cbn [fst].
    destruct (ek_pair E K _ _ _ P) as (P1 & P2 & P3 & P4). unfold compress. rewrite P1. rewrite edwards_eq in X.
    destruct (to_sys c); cbn [scurve_id is_weierstrass negb] in *.
    - change (113 =? 113) with true. cbv iota. change 0x71 with 113 in X. destruct X as (w & -> & ->). reflexivity.
    - change (33 =? 113) with false. cbv iota. subst k. cbn [option_map]. unfold key_bytes. rewrite P2. f_equal. apply firstn_all2. lia.
    - change (34 =? 113) with false. cbv iota. subst k. cbn [option_map]. unfold key_bytes. rewrite P2. f_equal. apply firstn_all2. lia.
  Qed.
  Lemma signature_unique c sk data g g' : signature_of E c sk data g -> signature_of E c sk data g' -> g = g'.
  Proof.
    unfold signature_of. destruct (edwards c); [congruence|]. intros (g0 & i & A & L & T & N0) (g0' & i' & A' & L' & T' & N0').
    rewrite A in A'. injection A' as <- <-. rewrite <- N0 in N0'. rewrite <- L in L'. rewrite <- T in T'.
    destruct g, g'; try discriminate; [reflexivity|]. cbn [tl nth] in *. congruence.
  Qed.
  Lemma sign_of_iff c p data g : o_sign (oracles_of E) c p data = Some g <-> exists sk, key_at E c p sk /\ signature_of E c sk data g.
  Proof.
    split; [apply sign_of|]. intros (sk & A & X).
    destruct (o_sign (oracles_of E) c p data) as [g'|] eqn:S0.
    - destruct (sign_of _ _ _ _ S0) as (sk' & A' & X'). rewrite (key_unique _ _ _ _ A' A) in X'.
      f_equal. exact (signature_unique _ _ _ _ _ X' X).
    - exfalso. revert S0. cbn [oracles_of o_sign]. unfold sign_into, key_sign. rewrite (generate_some _ _ _ _ A). cbn [negb m_key].
      replace (100 <? _) with false by (destruct c; reflexivity). cbn [fst]. unfold signature_of in X. rewrite edwards_eq in X.
      assert (RM : sig_room (to_sys c) = 72) by reflexivity.
      destruct (is_weierstrass (to_sys c)) eqn:W; cbn [negb] in X.
      + destruct X as (g0 & i & X & _). unfold ecdsa_sign. rewrite RM. change CX_RND_RFC6979 with 0x600. change CX_SHA256 with 3.
        rewrite X. discriminate.
      + unfold eddsa_sign. rewrite RM. change CX_SHA512 with 5. rewrite X.
        replace (scurve_id (to_sys c)) with 0x71 by (destruct (to_sys c); [reflexivity|discriminate W|discriminate W]).
        rewrite (ek_domain E K). discriminate.
  Qed.

  (** ** Sizes *)

  Lemma digest_size alg bits l d : digest E alg bits l = Some d -> len d = bits / 8 /\ bytes_ok d.
  Proof.
    unfold digest. destruct (hasher_new E alg bits) as [h|]; [|discriminate].
    destruct (e_hash E (snd h) true l (bits / 8)) as [[st o]|] eqn:X; [|discriminate]. cbn [option_map snd].
    intros [= <-]. now apply (ek_hash E K) in X.
  Qed.
  Lemma element_oracles_ok : oracles_ok (oracles_of E).
  Proof.
    constructor.
    - intros n l d X. apply digest_size in X as [X B]. split; [|exact B]. unfold len in X. lia.
    - intros l d X. apply digest_size in X as [X B]. split; [|exact B]. unfold len in X. lia.
    - intros l d X. apply digest_size in X as [X B]. split; [|exact B]. unfold len in X. lia.
    - intros k l d X. cbn [oracles_of o_hmac256] in X. unfold hmac in X.
      destruct (e_hmac_init E k) as [st|]; [|discriminate].
      destruct (e_hmac E st _ l 0) as [[st1 o1]|]; [|discriminate].
      destruct (e_hmac E st1 _ [] 32) as [[st2 o2]|] eqn:X2; [|discriminate]. injection X as <-.
      apply (ek_hmac E K) in X2 as [X2 B]. split; [|exact B]. unfold len in X2. lia.
    - intros c p k X. apply pubkey_of in X as (sk & _ & pk & P & X).
      destruct (ek_pair E K _ _ _ P) as (P1 & P2 & P3 & P4).
      destruct c; cbn [edwards] in X; cbn [pubkey_length];
        try (destruct X as (w & X & ->); destruct (ek_compress E K _ _ _ X P3 P4) as [L B];
             split; [rewrite firstn_length; lia|now apply bytes_ok_firstn]);
        subst k; auto.
    - intros c p l s X. apply sign_of in X as (sk & _ & X). unfold signature_of in X. destruct (edwards c).
      + apply (ek_eddsa E K) in X as [L B]. split; [lia|exact B].
      + destruct X as (g0 & info & X & L & T & H0). apply (ek_ecdsa E K) in X as [L0 B]. unfold len in L0.
        split; [lia|]. destruct s as [|b s]; [constructor|]. destruct g0 as [|b0 g0]; [discriminate L|].
        cbn [tl nth] in *. subst s. inversion B; subst. constructor; [|assumption].
        destruct ((info =? 1) && _); lia.
  Qed.

  (** ** Signatures of the device *)

  Lemma device_keys C f u es g : Forall event_ok es ->
    In g (d_log (snd (run C (oracles_of E) (dev_fresh f u) es))) ->
    exists sk s, key_at E (fst (sg_key g)) (snd (sg_key g)) sk /\
      signature_of E (fst (sg_key g)) sk (sg_digest g) s /\
      (forall k, o_pubkey (oracles_of E) (fst (sg_key g)) (snd (sg_key g)) = Some k -> public_of E (fst (sg_key g)) sk k) /\
      exists es1 e es2, es = es1 ++ e :: es2 /\
        let d := snd (run C (oracles_of E) (dev_fresh f u) es1) in
        let r := step C (oracles_of E) d e in
        d_log (snd r) = g :: d_log d /\
        match sg_src g with
        | SrcHmac => True
        | _ => fst r = ADied \/ fst r = AReply (s ++ [0x90; 0]) \/ fst r = AReply (sg_digest g ++ s ++ [0x90; 0])
        end.
  Proof.
    intros He Hg. destruct (history_sound C (oracles_of E) f u es g He Hg) as (_ & es1 & e & es2 & -> & _ & (s & Hs & A) & L).
    destruct (sign_of _ _ _ _ Hs) as (sk & K1 & K2). exists sk, s. split; [exact K1|]. split; [exact K2|]. split.
    - intros k Hk. destruct (pubkey_of _ _ _ Hk) as (sk' & K1' & P). now rewrite (key_unique _ _ _ _ K1 K1').
    - exists es1, e, es2. split; [reflexivity|]. cbv zeta. split; [exact L|]. exact A.
  Qed.
End Keys.

(** ** Different keys *)

Lemma keys_apart E c p c' p' sk : 
  (forall m i q m' i' q' n n', e_derive E m i q = (true, n) -> e_derive E m' i' q' = (true, n') ->
     firstn 32 n = firstn 32 n' -> (m, i, q) = (m', i', q')) ->
  (forall i x i' x' k, e_init E i x = (true, k) -> e_init E i' x' = (true, k) -> x = x') ->
  key_at E c p sk -> key_at E c' p' sk -> (c, p) = (c', p').
Proof.
  intros D I0 (n & A & B) (n' & A' & B'). pose proof (I0 _ _ _ _ _ B B') as X. pose proof (D _ _ _ _ _ _ _ _ A A' X) as Y.
  injection Y as Y1 Y2 ->. destruct c, c'; try reflexivity; discriminate.
Qed.

(** ** Erasure *)

Lemma sign_erases E room c p data sk : key_at E c p sk -> erased (snd (sign_into E room c p data mem_start)).
Proof.
  intros X. unfold sign_into. destruct (room <? _); [split; apply all_zero|]. unfold key_sign.
  destruct (generate_into E _ _ p _) as [ok m'] eqn:G. apply generate_key in G. destruct ok; [|now apply G in X].
  cbn [negb snd]. destruct G as [_ G]. split; cbn [zeroize_key m_node m_key pv_d]; [rewrite G|]; apply all_zero.
Qed.
Lemma public_erases E c p sk : key_at E c p sk -> e_pair E (snd (derivation c)) sk <> None ->
  erased (snd (new_key E c p mem_start)).
Proof.
  intros X P. unfold new_key, public_into.
  destruct (generate_into E _ _ p _) as [ok m'] eqn:G. apply generate_key in G. destruct ok; [|now apply G in X].
  cbn [negb]. destruct G as [G1 G]. rewrite (key_unique E _ _ _ _ X G1) in P. rewrite derivation_eq in P. cbn [snd] in P.
  destruct (e_pair E _ _) as [pk|]; [|congruence]. cbn [snd].
  split; cbn [zeroize_key m_node m_key pv_d]; [rewrite G|]; apply all_zero.
Qed.

(** ** Hashes *)

Section Hashes.
  Variable E : element.
  Variable H : N -> N -> bytes -> bytes.
  Variable absorbed : e_hstate E -> N -> N -> bytes -> Prop.
  Hypothesis HS : hashes E H absorbed.

  Definition holds (h : hasher E) (alg bits : N) (l : bytes) : Prop := fst h = (alg, bits) /\ absorbed (snd h) alg bits l.
  Lemma new_holds alg bits h : hasher_new E alg bits = Some h -> holds h alg bits [].
  Proof.
    unfold hasher_new. destruct (e_hash_init E alg bits) eqn:X; [|discriminate]. intros [= <-].
    split; [reflexivity|]. now apply (hs_init E H absorbed HS).
  Qed.
  Lemma update_holds alg bits h h' l x : holds h alg bits l -> hasher_update E h x = Some h' -> holds h' alg bits (l ++ x).
  Proof.
    intros [F A]. unfold hasher_update. destruct (e_hash E (snd h) false x 0) as [[st o]|] eqn:X; [|discriminate].
    intros [= <-]. split; [exact F|]. cbn [snd]. eapply (hs_more E H absorbed HS); eauto.
  Qed.
  Lemma updates_none ps : fold_left (fun o piece => match o with Some h => hasher_update E h piece | None => None end) ps None = None.
  Proof. induction ps; auto. Qed.
  Lemma updates_holds alg bits ps : forall h h' l, holds h alg bits l -> hasher_updates E ps h = Some h' ->
    holds h' alg bits (l ++ concat ps).
  Proof.
    induction ps as [|x ps IH]; intros h h' l A; unfold hasher_updates; cbn [fold_left concat].
    - intros [= <-]. now rewrite app_nil_r.
    - destruct (hasher_update E h x) as [h1|] eqn:X; [|now rewrite updates_none].
      intros Y. rewrite app_assoc. eapply IH; [|exact Y]. eapply update_holds; eauto.
  Qed.
  Lemma finalize_holds alg bits h r l : holds h alg bits l -> hasher_finalize E h = Some r ->
    snd r = H alg bits l /\ fst (fst r) = (alg, bits).
  Proof.
    intros [F A]. unfold hasher_finalize. rewrite F. cbn [snd].
    destruct (e_hash E (snd h) true [] (bits / 8)) as [[st o]|] eqn:X; [|discriminate].
    intros [= <-]. cbn [snd fst]. split; [|reflexivity].
    rewrite (hs_last E H absorbed HS _ _ _ _ _ _ _ A X). now rewrite app_nil_r.
  Qed.

  Lemma digest_is alg bits l d : digest E alg bits l = Some d -> d = H alg bits l.
  Proof.
    unfold digest. destruct (hasher_new E alg bits) as [h|] eqn:N0; [|discriminate]. apply new_holds in N0 as [F A].
    destruct (e_hash E (snd h) true l (bits / 8)) as [[st o]|] eqn:X; [|discriminate]. intros [= <-].
    exact (hs_last E H absorbed HS _ _ _ _ _ _ _ A X).
  Qed.
  Lemma sha256x2_is ps r : sha256x2_pieces E ps = Some r -> r = firstn 4 (H 3 256 (H 3 256 (concat ps))).
  Proof.
    unfold sha256x2_pieces. change CX_SHA256 with 3.
    destruct (hasher_new E 3 256) as [h|] eqn:N0; [|discriminate]. apply new_holds in N0.
    destruct (hasher_updates E ps h) as [h1|] eqn:N1; [|discriminate]. apply (updates_holds _ _ _ _ _ _ N0) in N1.
    destruct (hasher_finalize E h1) as [[h2 d]|] eqn:N2; [|discriminate]. apply (finalize_holds _ _ _ _ _ N1) in N2 as [D F].
    cbn [fst snd app] in D, F. unfold hasher_reset. rewrite F. cbn [fst snd].
    destruct (hasher_new E 3 256) as [h3|] eqn:N3; [|discriminate]. apply new_holds in N3.
    destruct (hasher_update E h3 d) as [h4|] eqn:N4; [|discriminate]. apply (update_holds _ _ _ _ _ _ N3) in N4.
    destruct (hasher_finalize E h4) as [[h5 d']|] eqn:N5; [|discriminate]. apply (finalize_holds _ _ _ _ _ N4) in N5 as [D' _].
    cbn [fst snd app] in D'. intros [= <-]. now rewrite D', D.
  Qed.
  Lemma pk_hash_is c pk r : pk_hash_pieces E c pk = Some r ->
    r = H 9 160 (if edwards c then skipn 1 pk else 2 + N.land (nth 64 pk 0) 1 :: firstn 32 (skipn 1 pk)).
  Proof.
    unfold pk_hash_pieces. change CX_BLAKE2B with 9.
    destruct (hasher_new E 9 160) as [h|] eqn:N0; [|discriminate]. apply new_holds in N0.
    destruct (hasher_updates E _ h) as [h1|] eqn:N1; [|discriminate]. apply (updates_holds _ _ _ _ _ _ N0) in N1.
    destruct (hasher_finalize E h1) as [x|] eqn:N2; [|discriminate]. apply (finalize_holds _ _ _ _ _ N1) in N2 as [D _].
    intros [= <-]. rewrite D. cbn [app]. destruct c; cbn [to_sys from_sys edwards concat app]; rewrite ?app_nil_r; reflexivity.
  Qed.

  (** The addresses of the model are those of the code. *)
  Lemma sha256x2_same ps r r' : sha256x2_pieces E ps = Some r -> Address.sha256x2 (oracles_of E) (concat ps) = Some r' -> r = r'.
  Proof.
    intros X. apply sha256x2_is in X. unfold Address.sha256x2. cbn [oracles_of o_sha256]. change CX_SHA256 with 3.
    destruct (digest E 3 256 (concat ps)) as [d|] eqn:D; [|discriminate].
    destruct (digest E 3 256 d) as [d'|] eqn:D'; [|discriminate]. apply digest_is in D, D'. intros [= <-]. now subst.
  Qed.
  Lemma pk_hash_same c pk r r' : pk_hash_pieces E c pk = Some r -> pk_hash (oracles_of E) c pk = SOk r' -> r = r'.
  Proof.
    intros X. apply pk_hash_is in X. unfold pk_hash. cbn [oracles_of o_blake2b]. change CX_BLAKE2B with 9.
    change (8 * N.of_nat 20) with 160.
    destruct c; cbn [edwards] in X;
      try (destruct pk as [|b t]; [discriminate|]; destruct (digest E 9 160 t) as [d|] eqn:D; [|discriminate];
           apply digest_is in D; intros [= <-]; now subst);
      (destruct (nth_error pk 64) as [b|] eqn:Nb; [|discriminate];
       rewrite (nth_error_nth pk 64 0 Nb) in X;
       destruct (digest E 9 160 _) as [d|] eqn:D; [|discriminate]; apply digest_is in D; intros [= <-]; now subst).
  Qed.
  Lemma address_same c pk a a' : addr_pieces E c pk = Some a -> addr_new (oracles_of E) c pk = SOk a' -> a = a'.
  Proof.
    unfold addr_pieces, addr_new.
    destruct (pk_hash_pieces E c pk) as [h|] eqn:X; [|discriminate].
    destruct (pk_hash (oracles_of E) c pk) as [h'| |] eqn:Y; try discriminate.
    pose proof (pk_hash_same _ _ _ _ X Y) as <-. unfold addr_from_hash.
    replace (hash_prefix (from_sys (to_sys c))) with (hash_prefix c) by now destruct c.
    destruct (sha256x2_pieces E [hash_prefix c; h]) as [k|] eqn:Z; [|discriminate].
    replace (hash_prefix c ++ h) with (concat [hash_prefix c; h]) by (cbn [concat]; now rewrite app_nil_r).
    destruct (Address.sha256x2 (oracles_of E) (concat [hash_prefix c; h])) as [k'|] eqn:W; [|discriminate].
    rewrite (sha256x2_same _ _ _ Z W). cbn [option_map]. intros [= <-] [= <-]. reflexivity.
  Qed.

  Hypothesis W : hashing_works E.
  Lemma new_some alg bits : exists h, hasher_new E alg bits = Some h.
  Proof. unfold hasher_new. pose proof (proj1 W alg bits). destruct (e_hash_init E alg bits); [eexists; reflexivity|congruence]. Qed.
  Lemma update_some h x : exists h', hasher_update E h x = Some h'.
  Proof. unfold hasher_update. pose proof (proj2 W (snd h) false x 0). destruct (e_hash E (snd h) false x 0) as [[st o]|]; [eexists; reflexivity|congruence]. Qed.
  Lemma updates_some ps : forall h, exists h', hasher_updates E ps h = Some h'.
  Proof.
    induction ps as [|x ps IH]; intros h; unfold hasher_updates; cbn [fold_left]; [eexists; reflexivity|].
    destruct (update_some h x) as [h1 ->]. apply IH.
  Qed.
  Lemma finalize_some h : exists r, hasher_finalize E h = Some r.
  Proof.
    unfold hasher_finalize. pose proof (proj2 W (snd h) true [] (snd (fst h) / 8)).
    destruct (e_hash E (snd h) true [] (snd (fst h) / 8)) as [[st o]|]; [eexists; reflexivity|congruence].
  Qed.
  Lemma digest_some alg bits l : digest E alg bits l = Some (H alg bits l).
  Proof.
    destruct (digest E alg bits l) as [d|] eqn:D; [f_equal; now apply digest_is|]. exfalso. revert D. unfold digest.
    destruct (new_some alg bits) as [h ->]. pose proof (proj2 W (snd h) true l (bits / 8)).
    destruct (e_hash E (snd h) true l (bits / 8)) as [[st o]|]; [discriminate|congruence].
  Qed.
  Lemma sha256x2_some ps : sha256x2_pieces E ps = Some (firstn 4 (H 3 256 (H 3 256 (concat ps)))).
  Proof.
    destruct (sha256x2_pieces E ps) as [d|] eqn:D; [f_equal; now apply sha256x2_is|]. exfalso. revert D. unfold sha256x2_pieces.
    change CX_SHA256 with 3. destruct (new_some 3 256) as [h X]. rewrite X. destruct (updates_some ps h) as [h1 ->].
    destruct (finalize_some h1) as [[h2 d] ->]. unfold hasher_reset.
    destruct (new_some (fst (fst h2)) (snd (fst h2))) as [h3 ->].
    destruct (update_some h3 d) as [h4 ->]. destruct (finalize_some h4) as [[h5 d'] ->]. discriminate.
  Qed.
  Lemma pk_hash_some c pk : pk_hash_pieces E c pk =
    Some (H 9 160 (if edwards c then skipn 1 pk else 2 + N.land (nth 64 pk 0) 1 :: firstn 32 (skipn 1 pk))).
  Proof.
    destruct (pk_hash_pieces E c pk) as [d|] eqn:D; [f_equal; now apply pk_hash_is|]. exfalso. revert D. unfold pk_hash_pieces.
    destruct (new_some CX_BLAKE2B 160) as [h ->]. destruct (updates_some (match from_sys (to_sys c) with
      | Ed25519 | Bip32Ed25519 => [skipn 1 pk]
      | Secp256K1 | Secp256R1 => [[2 + N.land (nth 64 pk 0) 1]; slice 1 32 pk] end) h) as [h1 ->].
    destruct (finalize_some h1) as [[h2 d] ->]. discriminate.
  Qed.
  (** C71. *)
  Lemma addresses c pk : length pk = pubkey_length c -> exists a,
    addr_pieces E c pk = Some a /\ addr_new (oracles_of E) c pk = SOk a /\
    a_hash a = H 9 160 (if edwards c then skipn 1 pk else 2 + N.land (nth 64 pk 0) 1 :: firstn 32 (skipn 1 pk)) /\
    a_checksum a = firstn 4 (H 3 256 (H 3 256 (a_prefix a ++ a_hash a))).
  Proof.
    intros L.
    destruct (addr_pieces E c pk) as [a|] eqn:A.
    2:{ exfalso. revert A. unfold addr_pieces. rewrite pk_hash_some, sha256x2_some. discriminate. }
    exists a. split; [reflexivity|].
    assert (X : exists a', addr_new (oracles_of E) c pk = SOk a').
    { unfold addr_new, addr_from_hash, Address.sha256x2, pk_hash. cbn [oracles_of o_blake2b o_sha256].
      destruct c; cbn [pubkey_length] in L;
        try (destruct pk as [|x pk]; [discriminate L|]);
        try (destruct (nth_error (x :: pk) 64) eqn:Nb; [|apply nth_error_None in Nb; lia]);
        rewrite !digest_some; eauto. }
    destruct X as [a' X]. rewrite X. rewrite (address_same _ _ _ _ A X). split; [reflexivity|].
    rewrite (address_same _ _ _ _ A X) in A. revert A. unfold addr_pieces. rewrite pk_hash_some, sha256x2_some. cbn [option_map].
    intros [= <-]. cbn [a_hash a_checksum a_prefix concat]. rewrite app_nil_r. split; reflexivity.
  Qed.
End Hashes.

Lemma hmac_is E M absorbed key l d : macs E M absorbed -> o_hmac256 (oracles_of E) key l = Some d -> d = M key l.
Proof.
  intros MC. cbn [oracles_of o_hmac256]. unfold hmac.
  destruct (e_hmac_init E key) as [st|] eqn:A; [|discriminate]. apply (mc_init E M absorbed MC) in A.
  destruct (e_hmac E st CX_NO_REINIT l 0) as [[st1 o1]|] eqn:B; [|discriminate].
  apply (mc_more E M absorbed MC _ _ _ _ _ _ _ _ A) in B; [|reflexivity|reflexivity].
  destruct (e_hmac E st1 _ [] 32) as [[st2 o2]|] eqn:D; [|discriminate].
  apply (mc_last E M absorbed MC _ _ _ _ _ _ _ B) in D; [|reflexivity|reflexivity].
  cbn [option_map snd]. intros [= <-]. rewrite D. cbn [app]. now rewrite app_nil_r.
Qed.
