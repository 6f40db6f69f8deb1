(** C99: messages that are too large, and a concrete history. *)
From Coq Require Import List NArith ZArith Lia Bool Arith ZifyBool ZifyNat ZifyN.
From Verif Require Import Base BaseFacts Flash Codecs CodecsSpec CodecsFacts Upload UploadSpec Oracles Address AddressExamples
  Device DeviceSpec DeviceHist DeviceDemo DeviceCases AcceptedSpec AcceptedFacts AcceptedExamples ServiceSpec DeviceLive ServiceExamples
  HashDemo Client ClientSpec ClientFacts ClientSign ClientExamples SizeFacts.
Import ListNotations.
Open Scope N_scope.

Lemma fits_case : Forall event_ok rough_events /\
  map (fun g => (sg_src g, 2 + 4 * length (snd (sg_key g)) + length (sg_data g))%nat)
    (d_log (snd (run wallet_config demo_oracles rough_dev rough_events))) = [(SrcReview, 415)%nat].
Proof.
  destruct rough_case as (E & _ & _ & _ & L). split; [exact E|].
  destruct (d_log (snd (run wallet_config demo_oracles rough_dev rough_events))) as [|g l]; [discriminate L|].
  destruct l; [|discriminate L]. cbn [map] in L |- *.
  assert (X : (sg_src g, sg_key g, sg_data g) = (SrcReview, demo_key, long_text)) by congruence.
  injection X as -> -> ->. vm_compute. reflexivity.
Qed.

(** The path of a key that signs is not empty. *)
Lemma large_never C O f u es g : Forall event_ok es ->
  In g (d_log (snd (run C O (dev_fresh f u) es))) -> (N.to_nat 8186 <= length (sg_data g))%nat ->
  sg_src g = SrcHmac.
Proof.
  intros E G L. destruct (sg_src g) eqn:Sg; [| | |reflexivity].
  all: exfalso; assert (Ns : sg_src g <> SrcHmac) by congruence;
    pose proof (signed_fits C O f u es g E G Ns) as B; unfold CAPACITY in B; lia.
Qed.

(** Everything that fits can be uploaded. *)
Lemma requested ins k data : ins < 256 -> path_ok BIP32_MAX_LENGTH (snd k) -> bytes_ok data -> data <> [] ->
  (2 + 4 * length (snd k) + length data <= CAPACITY)%nat ->
  exists first mids last, request ins k data first mids last.
Proof.
  intros Hi (P1 & P2 & P3) B Ne Cap. unfold BIP32_MAX_LENGTH in P2.
  destruct (chunks_spec data []) as (cs & _ & Cc & Fc & _).
  assert (Nc : cs <> []) by (intros ->; apply Ne; now rewrite <- Cc).
  destruct (last_split cs Nc) as (chunks & x & ->). clear Nc.
  pose proof (concat_bytes_ok _ ltac:(rewrite Cc; exact B)) as Bc.
  apply Forall_app in Fc as [Fc Fx]. apply Forall_app in Bc as [Bc Bx]. apply Forall_inv in Fx, Bx. cbv beta in Fx.
  assert (Lp : (length (plain_path (snd k)) <= 255)%nat) by (rewrite plain_path_length; lia).
  assert (Bp : bytes_ok (plain_path (snd k))) by (apply plain_path_ok; lia).
  assert (Hc : byte_of_curve (fst k) < 256) by (destruct (fst k); reflexivity).
  destruct (pkt_packet ins 0 (byte_of_curve (fst k)) (plain_path (snd k)) stale KInit Lp Bp Hi eq_refl Hc stale_ok eq_refl)
    as (I1 & I2 & I3).
  destruct (pkt_packet ins 0x81 0 x stale KLast ltac:(lia) Bx Hi eq_refl eq_refl stale_ok eq_refl) as (L1 & L2 & _).
  assert (M : forall c, In c chunks -> packet ins KNext (pkt_of ins 1 0 c stale) /\ pay (fst (pkt_of ins 1 0 c stale)) = c).
  { intros c Hin. rewrite Forall_forall in Fc, Bc. specialize (Fc c Hin). specialize (Bc c Hin). cbv beta in Fc.
    destruct (pkt_packet ins 1 0 c stale KNext ltac:(lia) Bc Hi eq_refl eq_refl stale_ok eq_refl) as (X1 & X2 & _). auto. }
  exists (pkt_of ins 0 (byte_of_curve (fst k)) (plain_path (snd k)) stale),
    (map (fun c => pkt_of ins 1 0 c stale) chunks), (pkt_of ins 0x81 0 x stale).
  split; [exact I1|]. split.
  { apply Forall_forall. intros y Hy. apply in_map_iff in Hy as (c & <- & Hin). now apply M. }
  split; [exact L1|]. split.
  { split; [exact I3|]. rewrite I2. apply encodes_components; [exact P1|exact P2|exact P3]. }
  split.
  { rewrite map_app, concat_app, map_map. cbn [map concat]. rewrite L2, app_nil_r, <- Cc, concat_app. cbn [concat].
    rewrite app_nil_r. f_equal. f_equal. rewrite <- (map_id chunks) at 2. apply map_ext_in. intros c Hin. now apply M. }
  rewrite I2, plain_path_length. unfold bytes, byte in *. lia.
Qed.
Lemma request_events ins k data first mids last : request ins k data first mids last ->
  Forall event_ok (map sent (first :: mids ++ [last])).
Proof.
  intros (F & M & L & _). cbn [map]. constructor; [exact (proj1 F)|]. rewrite map_app. apply Forall_app. split.
  - apply Forall_forall. intros e He. apply in_map_iff in He as (p & <- & Hp). rewrite Forall_forall in M.
    exact (proj1 (M p Hp)).
  - constructor; [exact (proj1 L)|constructor].
Qed.
Lemma fitting_signed C O k data dg s : cf_baking C = false -> roomy C 134 ->
  path_ok BIP32_MAX_LENGTH (snd k) -> bytes_ok data -> reviewed_message data ->
  (2 + 4 * length (snd k) + length data <= N.to_nat 8191)%nat ->
  o_blake2b O 32 data = Some dg -> length dg = 32%nat -> o_sign O (fst k) (snd k) dg = Some s -> (length s <= 100)%nat ->
  exists es, Forall event_ok es /\
    d_log (snd (run C O (dev_fresh [] []) es)) = [mkSig SrcReview k dg data].
Proof.
  intros Cb Ro Pk B Rm Cap Hd Ld Hs Ls.
  assert (Ne : data <> []) by (destruct Rm; discriminate).
  destruct (requested 0x04 k data eq_refl Pk B Ne Cap) as (first & mids & last & Rq).
  pose proof (request_events _ _ _ _ _ _ Rq) as Ev.
  destruct (review_served C O [] [] [] 0x04 k data first mids last dg s) as (d' & R & _ & A & _); auto.
  - unfold upload_command. rewrite Cb. reflexivity.
  - intros sh p. destruct (Ro (VSign sh dg p data)) as (room & E & L). exists room. split; [exact E|].
    unfold len. unfold bytes, byte in *. lia.
  - exists (map sent (first :: mids ++ [last]) ++ [EApprove]). split.
    + apply Forall_app. split; [exact Ev|]. constructor; [exact Logic.I|constructor].
    + rewrite run_app. change (snd (run C O (dev_fresh [] []) [])) with (dev_fresh [] []) in R, A.
      rewrite R. cbn [run fst snd]. destruct (step C O d' EApprove) as [a d'']. cbn [snd]. exact (proj1 (proj2 A)).
Qed.

(** The largest message for a path of three components. *)
Definition largest : bytes := 5 :: repeat 0 (N.to_nat 8176).
Lemma largest_case : cf_baking wallet_config = false /\ roomy wallet_config 134 /\
  path_ok BIP32_MAX_LENGTH (snd demo_key) /\ bytes_ok largest /\ reviewed_message largest /\
  (2 + 4 * length (snd demo_key) + length largest = N.to_nat 8191)%nat /\
  exists dg s, o_blake2b demo_oracles 32 largest = Some dg /\ length dg = 32%nat /\
    o_sign demo_oracles (fst demo_key) (snd demo_key) dg = Some s /\ (length s <= 100)%nat.
Proof.
  split; [reflexivity|]. split; [intros v; exists 200; split; [reflexivity|lia]|]. split; [exact demo_path_ok|].
  split; [constructor; [lia|]; apply Forall_forall; intros x Hx; apply repeat_spec in Hx; subst; lia|].
  split; [constructor|]. split; [cbn [length demo_key demo_path snd]; unfold largest; cbn [length]; rewrite repeat_length; lia|].
  exists (blake2b 32 largest), (sha256 (demo_pubkey Ed25519 demo_path ++ blake2b 32 largest) ++ sha256 (blake2b 32 largest)).
  assert (E : o_blake2b demo_oracles 32 largest = Some (blake2b 32 largest)) by (cbn [o_blake2b demo_oracles]; reflexivity).
  split; [exact E|]. split; [exact (proj1 (ok_blake2b _ demo_oracles_ok _ _ _ E))|].
  split; [reflexivity|]. rewrite app_length, !sha256_length. lia.
Qed.
