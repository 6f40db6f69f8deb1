(** What the tests of keys do not see, and cases. *)
From Coq Require Import NArith ZArith Bool Arith String List Lia.
From Coq Require Import ZifyBool ZifyNat ZifyN.
From Verif Require Import Base BaseFacts Codecs CodecsSpec Oracles Address AddressSpec AddressFacts AddressExamples HashDemo
  UploadSpec Device DeviceSpec DeviceDemo ServiceSpec Client ClientSpec ClientText ClientFacts ClientSign ClientCalls ClientAdmin ClientExamples
  LettersSpec LettersFacts KeyTests KeyTestsFacts.
Import ListNotations.
Open Scope list_scope.
Open Scope N_scope.

(** A device that answers the same to everything. *)
Definition parrot (r : bytes) : transport unit := fun w _ => (Some (r ++ [0x90; 0]), w).

Lemma parrot_asked {A} r ins p1 p2 data (f : bytes -> option A) : len data < 256 ->
  ask (parrot r) ins p1 p2 data f tt = (match f (r ++ [0x90; 0]) with Some a => JData 0x9000 a | None => JThrow end, tt).
Proof.
  intros L. unfold ask, send_to, send_codes, parrot. rewrite status_of_app.
  destruct (N.leb_spec 256 (len data)); [lia|].
  replace (len (r ++ [0x90; 0]) <? 2) with false by (rewrite len_app; unfold len; cbn [length]; lia).
  change (existsb (N.eqb (0x90 * 256 + 0)) [NO_ERRORS]) with true. cbv iota beta. now rewrite status_of_app.
Qed.
Lemma path_short H O text p : host_ok H O -> path_text text p -> List.length p = 2%nat \/ List.length p = 4%nat ->
  exists sp, serialize_path H text = Some sp /\ len sp < 256.
Proof.
  intros HK T L. destruct (path_text_serialized H O text p HK T L) as [E _]. eexists. split; [exact E|].
  unfold len. rewrite plain_path_length. lia.
Qed.

(** Any bytes pass for a key in the legacy test. *)
Lemma any_legacy_key H O text p c key : host_ok H O -> path_text text p -> List.length p = 2%nat \/ List.length p = 4%nat ->
  (64 < List.length key)%nat -> fst (key_test legacy_get_pubkey H (parrot key) text c tt) = true.
Proof.
  intros HK T L Lk. apply (legacy_test_says O H HK). destruct (path_short H O text p HK T L) as (sp & E & Ls).
  unfold legacy_get_pubkey, with_path. rewrite E, parrot_asked by exact Ls. unfold read_legacy_key. rewrite js_slice_data.
  assert (G : exists x, public_key_to_address H key c = Some x).
  { unfold public_key_to_address. destruct c; cbv zeta; try (eexists; reflexivity);
      (destruct (nth_error key 64) eqn:N; [eexists; reflexivity|apply nth_error_None in N; lia]). }
  destruct G as [[t key'] ->]. cbn [fst]. now eexists.
Qed.
(** Any key passes for that of any path. *)
Lemma any_key H O text p c pk t key' : host_ok H O -> path_text text p -> List.length p = 2%nat \/ List.length p = 4%nat ->
  len pk <= 65 -> public_key_to_address H pk c = Some (t, key') ->
  fst (get_address_and_pubkey H (parrot (len pk :: pk ++ t)) text c tt) = JData 0x9000 (pk, t) /\
  fst (key_test get_address_and_pubkey H (parrot (len pk :: pk ++ t)) text c tt) = true.
Proof.
  intros HK T L Lk M. destruct (path_short H O text p HK T L) as (sp & E & Ls).
  assert (G : get_address_and_pubkey H (parrot (len pk :: pk ++ t)) text c tt = (JData 0x9000 (pk, t), tt)).
  { unfold get_address_and_pubkey, with_path. rewrite E, parrot_asked by exact Ls. now rewrite read_addr_ok. }
  split; [now rewrite G|]. unfold key_test. rewrite G, M, eqb_same, (address_tz _ _ (made_looks O H HK _ _ _ _ M)). reflexivity.
Qed.

(** The versions. *)
Lemma versions_told C O d old user later : d_ui d = None -> apdu_ok old -> cf_target C < 2 ^ 32 ->
  version_test (plugged C O) (d, (old, user) :: later) = true /\
  forall b, legacy_version_test b (plugged C O) (d, (old, user) :: later) = true <-> cf_baking C = b.
Proof.
  intros U Ao Tg. pose proof (version_calls C O d old user later U Ao Tg) as V. destruct (cf_version C) as [[major minor] patch].
  destruct V as ((target & V & _) & Vl & _). unfold version_test, legacy_version_test. rewrite V, Vl. split; [reflexivity|].
  intros b. destruct (cf_baking C), b; split; intros X; (reflexivity || discriminate X).
Qed.

(** A test of versions that passes has had an answer with the status word 0x9000. *)
Lemma asked_well {W A} (X : transport W) ins (f : bytes -> option A) w code a :
  fst (ask X ins 0 0 [] f w) = JData code a ->
  exists l x y, fst (X w [0x80; ins; 0; 0; 0]) = Some (l ++ [x; y]) /\ x * 256 + y = 0x9000 /\ f (l ++ [x; y]) = Some a.
Proof.
  unfold ask, send_to, send_codes. change (256 <=? len []) with false. cbv iota. rewrite app_nil_r.
  change (len []) with 0. change HOST_CLA with 0x80.
  destruct (X w _) as [[r|] w']; cbn [fst]; [|discriminate].
  destruct (len r <? 2) eqn:L; [discriminate|]. cbn [existsb]. rewrite orb_false_r.
  destruct (N.eqb_spec (status_of r) NO_ERRORS) as [E|]; [|discriminate]. cbn [fst].
  destruct (f r) as [a'|] eqn:F; [|discriminate]. intros [= _ ->].
  apply N.ltb_ge in L. unfold len in L.
  destruct (exists_last (l := r)) as (l1 & y & ->); [intros ->; cbn in L; lia|].
  rewrite app_length in L. cbn [List.length] in L.
  destruct (exists_last (l := l1)) as (l & x & ->); [intros ->; cbn in L; lia|].
  rewrite <- app_assoc in *. cbn [app] in *. rewrite status_of_app in E. now exists l, x, y.
Qed.
Lemma versions_say {W} (X : transport W) w :
  (version_test X w = true -> exists l x y, fst (X w [0x80; 0x10; 0; 0; 0]) = Some (l ++ [x; y]) /\ x * 256 + y = 0x9000) /\
  forall b, legacy_version_test b X w = true -> exists l x y,
    fst (X w [0x80; 0; 0; 0; 0]) = Some (l ++ [x; y]) /\ x * 256 + y = 0x9000 /\
    (nth 0 (l ++ [x; y]) 0 = 1 <-> b = true).
Proof.
  unfold version_test, legacy_version_test, get_version, legacy_get_version. split.
  - destruct (fst (ask _ _ _ _ _ _ w)) as [| |code a] eqn:E; try discriminate. intros _.
    destruct (asked_well _ _ _ _ _ _ E) as (l & x & y & H1 & H2 & _). now exists l, x, y.
  - intros b. destruct (fst (ask _ _ _ _ _ _ w)) as [| |code [k v]] eqn:E; try discriminate. intros T.
    destruct (asked_well _ _ _ _ _ _ E) as (l & x & y & H1 & H2 & H3). exists l, x, y. split; [exact H1|]. split; [exact H2|].
    apply andb_prop in T as [_ T]. apply eqb_prop in T. subst b.
    destruct (l ++ [x; y]) as [|q [|q1 [|q2 [|q3 qs]]]]; try discriminate H3. injection H3 as <- _. cbn [nth].
    destruct (N.eqb_spec q 1); split; congruence.
Qed.

(** ** Letters *)
Lemma letters_told t k1 k2 : looks_like k1 t -> looks_like k2 t -> k1 = k2.
Proof.
  intros [L1 [r1 E1]] [L2 [r2 E2]]. rewrite E1 in E2. clear E1.
  destruct k1, k2; try reflexivity; exfalso; first [discriminate E2|rewrite L1 in L2; discriminate L2].
Qed.
Lemma shown_letters O : oracles_ok O ->
  (forall c h t, bytes_ok h -> List.length h = 20%nat -> pkh_text O c h = SOk t -> looks_like (addr_kind c) t) /\
  (forall h t, bytes_ok h -> List.length h = 20%nat -> kt1_text O h = SOk t -> looks_like KindKT1 t) /\
  (forall h t, bytes_ok h -> List.length h = 32%nat -> branch_text O h = SOk t -> looks_like KindBranch t) /\
  (forall h t, bytes_ok h -> List.length h = 32%nat -> proposal_text O h = SOk t -> looks_like KindProposal t) /\
  (forall c k t, bytes_ok k -> List.length k = kind_data_length (pk_kind c) -> pk_text O c k = SOk t -> looks_like (pk_kind c) t) /\
  (forall id t, chain_text O id = SOk t -> looks_like KindChain t).
Proof.
  intros K.
  assert (G : forall r k data cap t, writes O r k data cap -> bytes_ok data -> List.length data = kind_data_length k ->
    r = SOk t -> looks_like k t).
  { intros r k data cap t Wr B L ->. apply (text_letters O k data t K B L). apply Wr. }
  split; [|split; [|split; [|split; [|split]]]].
  - intros c h t B L. apply (G _ _ h 37%nat); [now apply pkh_text_ok|exact B|rewrite L; now destruct c].
  - intros h t B L. apply (G _ _ h 37%nat); [now apply kt1_text_ok|exact B|exact L].
  - intros h t B L. apply (G _ _ h 52%nat); [now apply branch_text_ok|exact B|exact L].
  - intros h t B L. apply (G _ _ h 52%nat); [now apply proposal_text_ok|exact B|exact L].
  - intros c k t B L. apply (G _ _ k 56%nat); [now apply pk_text_ok|exact B|exact L].
  - intros id t. apply (G _ _ (be 4 id) 16%nat); [now apply chain_text_ok|apply be_ok|apply be_length].
Qed.

(** ** Cases *)
Lemma letters_case : exists t, pkh_text demo_oracles Ed25519 (repeat 7 20) = SOk t /\ looks_like KindTz1 t /\
  bytes_ok (repeat 7 20) /\ ~ looks_like KindTz2 t.
Proof.
  assert (B : bytes_ok (repeat 7 20)) by (apply Forall_forall; intros x X; apply repeat_spec in X; now subst x).
  destruct (pkh_text demo_oracles Ed25519 (repeat 7 20)) as [t| |] eqn:E; [|exfalso; vm_compute in E; discriminate E ..].
  pose proof (proj1 (shown_letters demo_oracles demo_oracles_ok) Ed25519 _ t B (repeat_length _ _) E) as G.
  exists t. split; [reflexivity|]. split; [exact G|]. split; [exact B|]. intros G2. discriminate (letters_told t _ _ G G2).
Qed.
Lemma legacy_wrong_passes : let w := (client_baker, turns 1 EApprove) in let X := plugged demo_config demo_oracles in
  forall c, fst (key_test legacy_get_pubkey demo_host X client_text c w) = true /\
    differs (fst (get_address_and_pubkey demo_host X client_text c w)) (fst (legacy_get_pubkey demo_host X client_text c w)).
Proof.
  intros w X c. split; [|exact (proj1 (legacy_run c))].
  pose proof (proj2 (device_key_test demo_oracles demo_host demo_host_ok demo_config client_baker client_text (client_key c)
    (demo_pubkey c client_path) stale EApprove [] demo_oracles_ok (proj1 baker_idle) client_text_ok (or_intror eq_refl) stale_ok
    (client_addressable c))) as G.
  exact (f_equal fst G).
Qed.
