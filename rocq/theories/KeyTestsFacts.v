(** The tests of keys. *)
From Coq Require Import NArith ZArith Bool Arith String List Lia.
From Coq Require Import ZifyBool ZifyNat ZifyN.
From Verif Require Import Base BaseFacts Codecs CodecsSpec Oracles Address AddressSpec AddressFacts AddressExamples
  Device DeviceSpec DeviceDemo ServiceSpec Client ClientSpec ClientFacts ClientCalls ClientAdmin ClientExamples
  UploadSpec LettersSpec LettersFacts KeyTests.
Import ListNotations.
Open Scope list_scope.
Open Scope N_scope.

Lemma begins_app p t : begins p (p ++ t) = true.
Proof. induction p as [|x p IH]; [now destruct t|]. cbn [app begins]. now rewrite N.eqb_refl. Qed.
Lemma eqb_same (a : bytes) : bytes_eqb a a = true.
Proof. induction a as [|x a IH]; [reflexivity|]. cbn [bytes_eqb]. now rewrite N.eqb_refl. Qed.
Lemma eqb_true : forall a b : bytes, bytes_eqb a b = true -> a = b.
Proof.
  induction a as [|x a IH]; intros [|y b]; cbn [bytes_eqb]; try discriminate; [reflexivity|].
  rewrite andb_true_iff, N.eqb_eq. intros [-> E]. f_equal. now apply IH.
Qed.
Lemma address_tz c t : looks_like (addr_kind c) t -> contains (chars "tz") t = true.
Proof.
  intros [_ [rest ->]].
  assert (E : exists r, letters (addr_kind c) = chars "tz" ++ r) by (destruct c; eexists; reflexivity).
  destruct E as [r ->]. rewrite <- app_assoc. generalize (r ++ rest). intros l.
  pose proof (begins_app (chars "tz") l) as B. destruct (chars "tz" ++ l) as [|x y]; cbn [contains]; [exact B|]. now rewrite B.
Qed.

Section T.
  Variables (O : oracles) (H : host).
  Hypothesis HK : host_ok H O.

  (** What the library makes of any key looks like an address. *)
  Lemma made_looks c key t key' : public_key_to_address H key c = Some (t, key') -> looks_like (addr_kind c) t.
  Proof.
    assert (G : forall l, looks_like (addr_kind c) (text_of H c l)).
    { intros l. destruct (text_reads O H HK c l) as (d & Ld & Bd & R & _).
      destruct (hk_blake2b_bytes H O HK 20 l ltac:(lia)) as [Lh Bh].
      apply (reads_letters (addr_kind c) _ (h_blake2b H 20 l ++ d)); [now apply bytes_ok_app| |].
      - rewrite app_length, Lh, Ld. now destruct c.
      - replace (kind_prefix (addr_kind c)) with (address_prefix c) by now destruct c. exact R. }
    unfold public_key_to_address. destruct c;
      [|destruct (nth_error key 64); [|discriminate]|destruct (nth_error key 64); [|discriminate]|];
      intros [= <- <-]; apply G.
  Qed.
  (** Applied again to the key that it has overwritten, it makes the same. *)
  Lemma made_again c key t key' : public_key_to_address H key c = Some (t, key') -> public_key_to_address H key' c = Some (t, key').
  Proof.
    unfold public_key_to_address. destruct c.
    1, 4: intros [= <- <-]; reflexivity.
    1, 2: cbv zeta; destruct (nth_error key 64) as [b|] eqn:E; [|intros X; discriminate X]; intros X; injection X as <- <-;
      destruct key as [|x key]; [discriminate E|]; cbn [tl]; change (nth_error key 63 = Some b) in E;
      match goal with |- context [nth_error (?y :: key) 64] => change (nth_error (y :: key) 64) with (nth_error key 63) end;
      rewrite E; reflexivity.
  Qed.

  Lemma legacy_test_says {W} (X : transport W) text c w :
    fst (key_test legacy_get_pubkey H X text c w) = true <-> exists r, fst (legacy_get_pubkey H X text c w) = JData 0x9000 r.
  Proof.
    unfold key_test.
    assert (G : forall code key t w', legacy_get_pubkey H X text c w = (JData code (key, t), w') ->
      exists key', public_key_to_address H key c = Some (t, key') /\ looks_like (addr_kind c) t).
    { intros code key t w'. unfold legacy_get_pubkey, with_path. destruct (serialize_path H text) as [sp|]; [|discriminate].
      unfold ask. destruct (send_to X 2 0 (byte_of_curve c) sp w) as [[r|e] w1]; [|discriminate].
      unfold read_legacy_key. destruct (public_key_to_address H (js_slice 0 (-2) r) c) as [[t1 k1]|] eqn:E; [|discriminate].
      intros [= _ <- <- _]. exists k1. split; [exact (made_again _ _ _ _ E)|exact (made_looks _ _ _ _ E)]. }
    destruct (legacy_get_pubkey H X text c w) as [[|code|code [key t]] w'] eqn:E; cbn [fst].
    - split; [discriminate|]. intros [r [=]].
    - split; [discriminate|]. intros [r [=]].
    - destruct (G _ _ _ _ eq_refl) as (key' & -> & L). rewrite eqb_same, (address_tz c t L), andb_true_r, N.eqb_eq.
      split; [intros ->; now eexists|]. intros [r [= -> _]]. reflexivity.
  Qed.

  (** What the test of [getAddressAndPubKey] says about any device. *)
  Lemma key_test_says {W} (X : transport W) text c w : oracles_ok O -> fst (key_test get_address_and_pubkey H X text c w) = true ->
    exists pk t, fst (get_address_and_pubkey H X text c w) = JData 0x9000 (pk, t) /\ looks_like (addr_kind c) t /\
      forall l h, hashed_form c pk l -> o_blake2b O 20 l = Some h -> twice O (kind_prefix (addr_kind c) ++ h) <> None ->
        tz_text (twice O) (addr_kind c) h t.
  Proof.
    intros OK. unfold key_test. destruct (get_address_and_pubkey H X text c w) as [[|code|code [pk t]] w'] eqn:E; cbn [fst]; try discriminate.
    rewrite andb_true_iff, N.eqb_eq. intros [-> T]. exists pk, t. split; [reflexivity|].
    destruct (public_key_to_address H pk c) as [[t1 key']|] eqn:M; [|discriminate].
    apply andb_true_iff in T as [T _]. apply eqb_true in T. subst t1. split; [exact (made_looks _ _ _ _ M)|].
    intros l h F Hh Tw. destruct (to_address H c pk l F) as [k1 M1]. rewrite M in M1. injection M1 as -> _.
    destruct (twice O (kind_prefix (addr_kind c) ++ h)) as [d|] eqn:Ed; [|congruence].
    exists d. split; [exact Ed|].
    destruct (text_reads O H HK c l) as (d' & Ld & Bd & R & _). unfold text_of in *.
    rewrite (hk_blake2b H O HK _ _ _ Hh) in *.
    replace (address_prefix c) with (kind_prefix (addr_kind c)) in * by now destruct c.
    pose proof Ed as Ed'. unfold twice in Ed'. destruct (o_sha256 O (kind_prefix (addr_kind c) ++ h)) as [d1|] eqn:E1; [|discriminate].
    assert (S2 : sha256x2 H (kind_prefix (addr_kind c) ++ h) = d)
      by (unfold sha256x2; now rewrite (hk_sha256 H O HK _ _ E1), (hk_sha256 H O HK _ _ Ed')).
    rewrite S2 in *. destruct (ok_sha256 O OK _ _ Ed') as [L32 B32].
    replace (js_slice 0 4 d) with (firstn 4 d) by (symmetry; apply (js_prefix 4)).
    apply (hk_base58 H O HK). apply bytes_ok_app. split; [destruct c; repeat (apply Forall_cons; [reflexivity|]); apply Forall_nil|].
    apply bytes_ok_app. split; [apply (ok_blake2b O OK _ _ _ Hh)|now apply bytes_ok_firstn].
  Qed.

  (** On the device. *)
  Lemma device_key_test C d text k pk old user later : oracles_ok O -> d_ui d = None -> path_text text (snd k) ->
    List.length (snd k) = 2%nat \/ List.length (snd k) = 4%nat -> apdu_ok old -> addressable O k pk ->
    key_test get_address_and_pubkey H (plugged C O) text (fst k) (d, (old, user) :: later) = (true, (d, later)) /\
    key_test legacy_get_pubkey H (plugged C O) text (fst k) (d, (old, user) :: later) = (true, (d, later)).
  Proof.
    intros OK U T L Ao A. split.
    - destruct (address_call C O H HK OK d text k pk old user later U T L Ao A) as (t & key' & _ & M & G & _).
      unfold key_test. rewrite G, M, eqb_same, (address_tz _ _ (made_looks _ _ _ _ M)). reflexivity.
    - destruct A as (Hk & l & h & F & Hh & Tw).
      destruct (legacy_key_call C O H HK OK d text k pk l h old user later U T L Ao Hk F Hh Tw) as (key' & t' & G & _).
      assert (S : fst (key_test legacy_get_pubkey H (plugged C O) text (fst k) (d, (old, user) :: later)) = true)
        by (apply legacy_test_says; rewrite G; now eexists).
      unfold key_test in *. rewrite G in *. cbn [fst] in S. now rewrite S.
  Qed.
End T.
