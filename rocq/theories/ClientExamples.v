(** The statements about the host library in their final form, and cases that meet
    their hypotheses: real hashes, a real base58 encoder and a real number reader. *)
From Coq Require Import String.
From Coq Require Import List NArith ZArith Lia Bool Arith ZifyBool ZifyNat ZifyN.
From Verif Require Import Base BaseFacts Flash Codecs CodecsSpec CodecsFacts Upload UploadSpec UploadExamples
  Baking BakingSpec BakingExamples Operations OperationsSpec OperationsExamples
  Oracles Address AddressSpec AddressFacts AddressExamples HashDemo
  Device DeviceSpec DeviceFacts DeviceSlots DeviceCommands DeviceCases DeviceDemo DeviceExamples
  ServiceSpec DeviceLive ServiceExamples DeviceAdmin
  Client ClientSpec ClientText ClientFacts ClientSign ClientCalls ClientAdmin.
Import ListNotations.
Open Scope N_scope.

(** ** Final forms *)

Section Final.
  Variable C : config.
  Variable O : oracles.
  Variable H : host.
  Hypothesis HK : host_ok H O.
  Hypothesis OK : oracles_ok O.

  Lemma path_serialized text p : path_text text p -> List.length p = 2%nat \/ List.length p = 4%nat ->
    exists enc, serialize_path H text = Some enc /\ path_encodes 6 enc p.
  Proof.
    intros T L. destruct (path_text_serialized H O text p HK T L) as [E F]. exists (plain_path p). split; [exact E|].
    apply encodes_components; [destruct p; cbn [List.length] in L; [lia|discriminate]| |exact F].
    destruct L as [E'|E']; rewrite E'; lia.
  Qed.

  Lemma reset_reads f u es level old user later : Forall intact_fault f -> Forall up_fault_ok u ->
    Forall event_ok es -> len es + 1 < 2 ^ 64 ->
    let d := snd (run C O (dev_fresh f u) es) in
    d_faults d = [] -> d_ui d = None -> cf_baking C = true -> apdu_ok old ->
    ((- 2 ^ 31 <= level < 2 ^ 31)%Z ->
     let v := Z.to_N (level mod 2 ^ 32) in
     exists d' chain, legacy_reset (plugged C O) level (d, (old, user) :: later) = (JData 0x9000 tt, (d', later)) /\
       forall x, x = d' \/ x = restart d' -> forall old' user' later', apdu_ok old' ->
         fst (legacy_get_hwm (plugged C O) (x, (old', user') :: later')) = JData 0x9000 v /\
         fst (legacy_get_all (plugged C O) (x, (old', user') :: later')) = JData 0x9000 (v, v, chain)) /\
    (~ (- 2 ^ 31 <= level < 2 ^ 31)%Z ->
     legacy_reset (plugged C O) level (d, (old, user) :: later) = (JThrow, (d, (old, user) :: later))).
  Proof.
    intros Ff Fu E L d Fd U Cb Ao. split; [|apply reset_range]. intros Hl v.
    destruct (reset_call C O f u es level old user later Ff Fu E L Fd U Cb Ao Hl) as (d' & chain & R1 & R2).
    exists d', (chain mod 2 ^ 32). split; [exact R1|]. intros x Hx old' user' later' Ao'.
    apply hwm_calls; [subst v; lia|subst v; lia|apply (R2 x Hx)|exact Ao'].
  Qed.

  Lemma setup_reads f u es text k pk main test chain old later : Forall intact_fault f -> Forall up_fault_ok u ->
    Forall event_ok es -> len es + 2 < 2 ^ 64 ->
    let d := snd (run C O (dev_fresh f u) es) in
    d_faults d = [] -> d_ui d = None -> cf_baking C = true -> apdu_ok old ->
    main < 2 ^ 32 -> test < 2 ^ 32 -> chain < 2 ^ 32 ->
    path_text text (snd k) -> List.length (snd k) = 2%nat \/ List.length (snd k) = 4%nat -> addressable O k pk ->
    roomy C 110 ->
    let call user := legacy_setup H (plugged C O) text (fst k) (Z.of_N main) (Z.of_N test) (Z.of_N chain) (d, (old, user) :: later) in
    call EReject = (JCode 0x6986, (d, later)) /\
    exists r d', call EApprove = (JData 0x9000 r, (d', later)) /\
      forall x, x = d' \/ x = restart d' -> forall old' user' later', apdu_ok old' ->
        (forall k', stored_key x k' <-> k' = k) /\
        fst (legacy_get_all (plugged C O) (x, (old', user') :: later')) = JData 0x9000 (main, test, chain).
  Proof.
    intros Ff Fu E L d Fd U Cb Ao Hm Ht Hc T Lk Ha R call.
    destruct (setup_call C O H HK OK f u es text k pk main test chain old later Ff Fu E L Fd U Cb Ao Hm Ht Hc T Lk Ha R)
      as [S1 (r & d' & S2 & _ & S3)].
    split; [exact S1|]. exists r, d'. split; [exact S2|]. intros x Hx old' user' later' Ao'.
    destruct (S3 x Hx) as [X1 X2]. split; [exact X2|].
    destruct (hwm_calls C O x main test chain old' user' later' Hm Ht X1 Ao') as [_ X]. rewrite N.mod_small in X by exact Hc.
    exact X.
  Qed.

  Lemma authorise_reads f u es text k pk old later : Forall intact_fault f -> Forall up_fault_ok u ->
    Forall event_ok es -> len es + 1 < 2 ^ 64 ->
    let d := snd (run C O (dev_fresh f u) es) in
    d_faults d = [] -> d_ui d = None -> cf_baking C = true -> apdu_ok old ->
    path_text text (snd k) -> List.length (snd k) = 2%nat \/ List.length (snd k) = 4%nat -> addressable O k pk ->
    roomy C 110 ->
    let call user := authorize_baking H (plugged C O) text (fst k) (d, (old, user) :: later) in
    call EReject = (JCode 0x6986, (d, later)) /\
    exists d', call EApprove = (JData 0x9000 pk, (d', later)) /\ d_log d' = d_log d /\
      forall x, x = d' \/ x = restart d' ->
        (forall k', stored_key x k' <-> k' = k) /\
        (forall s, s <> SKey -> wear_read (get_slot s x) = wear_read (get_slot s d)) /\
        forall old' user' later', apdu_ok old' ->
          fst (query_auth_key (plugged C O) false (x, (old', user') :: later'))
          = JData 0x9000 (byte_of_curve (fst k), concat (map (be 4) (snd k))).
  Proof.
    intros Ff Fu E L d Fd U Cb Ao T Lk Ha R call.
    destruct (authorise_call C O H HK OK f u es text k pk old later Ff Fu E L Fd U Cb Ao T Lk Ha R)
      as [S1 (d' & S2 & S3 & S4)].
    split; [exact S1|]. exists d'. split; [exact S2|]. split; [exact S3|]. intros x Hx.
    destruct (S4 x Hx) as (U' & K' & Sl). split; [exact K'|]. split; [exact Sl|]. intros old' user' later' Ao'.
    assert (Kk : key_ok k).
    { destruct (path_text_serialized H O text (snd k) HK T Lk) as [_ F].
      split; [destruct (snd k); cbn [List.length] in Lk; [lia|discriminate]|].
      split; [destruct Lk as [E'|E']; rewrite E'; unfold BIP32_MAX_LENGTH; lia|exact F]. }
    destruct (query_call C O OK x k pk old' user' later' U' Cb Ao' (proj2 (K' k) eq_refl) Kk Ha) as (d2 & Q & _).
    rewrite Q. reflexivity.
  Qed.

  Lemma setup_key_wrong f u es text k pk main test chain old later : Forall intact_fault f -> Forall up_fault_ok u ->
    Forall event_ok es -> len es + 2 < 2 ^ 64 ->
    let d := snd (run C O (dev_fresh f u) es) in
    d_faults d = [] -> d_ui d = None -> cf_baking C = true -> apdu_ok old ->
    main < 2 ^ 32 -> test < 2 ^ 32 -> chain < 2 ^ 32 ->
    path_text text (snd k) -> List.length (snd k) = 2%nat \/ List.length (snd k) = 4%nat -> addressable O k pk ->
    roomy C 110 ->
    exists r w, legacy_setup H (plugged C O) text (fst k) (Z.of_N main) (Z.of_N test) (Z.of_N chain) (d, (old, EApprove) :: later)
                = (JData 0x9000 r, w) /\ fst r <> pk.
  Proof.
    intros Ff Fu E L d Fd U Cb Ao Hm Ht Hc T Lk Ha R.
    destruct (setup_call C O H HK OK f u es text k pk main test chain old later Ff Fu E L Fd U Cb Ao Hm Ht Hc T Lk Ha R)
      as [_ (r & d' & S2 & N & _)].
    exists r, (d', later). auto.
  Qed.

  (** What a verifier computes with [sig_hash] is what was signed. *)
  Lemma wallet_hash call kind text k message dg s f u es sched later :
    wallet_call C call (legacy_magic kind) ->
    let d := snd (run C O (dev_fresh f u) es) in
    signable C O d text k (legacy_magic kind :: message) dg s sched -> reviewed_message (legacy_magic kind :: message) ->
    (forall sh p, exists room, cf_room C (VSign sh dg p (legacy_magic kind :: message)) = Some room /\ len dg + len s + 2 <= room) ->
    deciding EApprove sched ->
    exists r w, call H (plugged C O) text (fst k) message (d, sched ++ later) = (r, w) /\
      sr_hash r = Some (sig_hash H message kind) /\
      sr_sig r = o_sign O (fst k) (snd k) (sig_hash H message kind).
  Proof.
    intros Hc d Sb Rm Room Du.
    destruct (wallet_signed C O H HK call _ text k message dg s f u es sched later Hc Sb Rm Room) as [X _].
    destruct (X Du) as (d' & E & _). exists (mkSignRes 0x9000 (Some dg) (Some s)), (d', later). split; [exact E|].
    rewrite (hash_agrees O H HK kind message dg (sb_hash _ _ _ _ _ _ _ _ _ Sb)). cbn [sr_hash sr_sig].
    split; [reflexivity|]. symmetry. apply (sb_sign _ _ _ _ _ _ _ _ _ Sb).
  Qed.
End Final.

(** ** A host *)

Definition demo_digit (acc : option N) (c : N) : option N :=
  match acc with
  | Some v => if (48 <=? c) && (c <=? 57) then Some (10 * v + (c - 48)) else None
  | None => None
  end.
Definition demo_number (ds : bytes) : option Z := option_map Z.of_N (fold_left demo_digit ds (Some 0)).
Definition demo_host : host :=
  mkHost demo_number blake2b sha256
         (fun l => match b58_encode (2 * List.length l) l with Some t => t | None => [] end).

Lemma demo_number_ok ds n : numeral ds n -> fold_left demo_digit ds (Some 0) = Some n.
Proof.
  induction 1 as [d Hd|ds n d _ IH Hd].
  - cbn [fold_left demo_digit]. replace ((48 <=? 48 + d) && (48 + d <=? 57)) with true by lia. f_equal. lia.
  - rewrite fold_left_app, IH. cbn [fold_left demo_digit].
    replace ((48 <=? 48 + d) && (48 + d <=? 57)) with true by lia. f_equal. lia.
Qed.
Lemma demo_host_ok : host_ok demo_host demo_oracles.
Proof.
  constructor; cbn [demo_host h_number h_blake2b h_sha256 h_base58 demo_oracles o_blake2b o_sha256].
  - intros ds n Hn _. unfold demo_number. now rewrite (demo_number_ok ds n Hn).
  - intros n l d. destruct (n <=? 64)%nat; intros E; congruence.
  - intros l d E. congruence.
  - intros n l Hn. split; [now apply blake2b_length|apply blake2b_ok].
  - intros l. split; [apply sha256_length|apply sha256_ok].
  - intros l B. destruct (b58_encode_fits (2 * List.length l) l B) as [t Et].
    + unfold len. rewrite Nat2N.inj_mul, N.pow_mul_r. apply N.pow_le_mono_l. lia.
    + rewrite Et. exact (proj1 (b58_encode_spec _ _ _ B Et)).
Qed.

(** m/44'/1729'/0'/1' *)
Definition client_path : path := [0x8000002C; 0x800006C1; 0x80000000; 0x80000001].
Definition client_key (c : curve) : key := (c, client_path).
Definition client_text : bytes := chars "m/44'/1729'/0'/1'".
Lemma client_text_ok : path_text client_text client_path.
Proof.
  exists [chars "44'"; chars "1729'"; chars "0'"; chars "1'"]. split; [|reflexivity].
  repeat (apply Forall2_cons); [| | | |apply Forall2_nil].
  - apply (HardComponent (chars "44") 44); [|reflexivity]. apply (NumeralMore [52] 4 4); [|reflexivity]. now apply (NumeralOne 4).
  - apply (HardComponent (chars "1729") 1729); [|reflexivity].
    apply (NumeralMore [49; 55; 50] 172 9); [|reflexivity]. apply (NumeralMore [49; 55] 17 2); [|reflexivity].
    apply (NumeralMore [49] 1 7); [|reflexivity]. now apply (NumeralOne 1).
  - apply (HardComponent (chars "0") 0); [|reflexivity]. now apply (NumeralOne 0).
  - apply (HardComponent (chars "1") 1); [|reflexivity]. now apply (NumeralOne 1).
Qed.
Definition stale : bytes := repeat 7 260.
Lemma stale_ok : apdu_ok stale.
Proof. apply apdu_okb_ok. vm_compute. reflexivity. Qed.
Definition turns (n : nat) (e : event) : list (bytes * event) := repeat (stale, e) n.
Lemma turns_deciding n e : deciding e (turns n e).
Proof. apply Forall_forall. intros x Hx. apply repeat_spec in Hx. subst x. split; [apply stale_ok|reflexivity]. Qed.

Lemma client_addressable c : addressable demo_oracles (client_key c) (demo_pubkey c client_path).
Proof.
  split; [reflexivity|]. destruct (demo_pubkey_ok c client_path) as [L _].
  destruct c; cbn [client_key fst].
  1, 4: eexists; eexists; split; [eexists; reflexivity|split; [reflexivity|discriminate]].
  1, 2: eexists; eexists; (split;
    [eexists; eexists; split; [reflexivity|split; [apply sha256_length|split; [apply sha256_length|reflexivity]]]
    |split; [reflexivity|discriminate]]).
Qed.
Lemma demo_roomy b : roomy (if b : bool then demo_config else wallet_config) 110.
Proof. intros v. exists 200. destruct b; split; reflexivity || (cbv; discriminate). Qed.

(** ** Signing with a wallet *)

Definition op_message : bytes := tl ServiceExamples.wallet_message.
Definition client_hist : list event := wallet_before.
Definition client_wallet : dev := snd (run wallet_config demo_oracles (dev_fresh [] []) client_hist).
Lemma client_signable e : signable wallet_config demo_oracles client_wallet client_text (client_key Ed25519)
  (3 :: op_message) (blake2b 32 (3 :: op_message))
  (sha256 (demo_pubkey Ed25519 client_path ++ blake2b 32 (3 :: op_message)) ++ sha256 (blake2b 32 (3 :: op_message)))
  (turns 2 e).
Proof.
  constructor.
  - vm_compute. reflexivity.
  - vm_compute. reflexivity.
  - exact client_text_ok.
  - now right.
  - apply bytes_okb_ok. vm_compute. reflexivity.
  - apply Nat.leb_le. vm_compute. reflexivity.
  - vm_compute. reflexivity.
  - reflexivity.
  - apply blake2b_length. lia.
  - reflexivity.
  - rewrite app_length, !sha256_length. lia.
Qed.
Lemma client_reviewed : reviewed_message (3 :: op_message).
Proof. apply RmOperation. reflexivity. Qed.
Lemma client_room (s : bytes) : (List.length s <= 100)%nat ->
  forall sh p, exists room, cf_room wallet_config (VSign sh (blake2b 32 (3 :: op_message)) p (3 :: op_message)) = Some room /\
    len (blake2b 32 (3 :: op_message)) + len s + 2 <= room.
Proof.
  intros L sh p. exists 200. split; [reflexivity|]. unfold len. rewrite (blake2b_length 32) by lia. lia.
Qed.
(** The calls, run on the modelled device: the signature comes back whole from
    [signOperation], and cut to 32 bytes from [legacySign]. *)
Lemma wallet_call_run :
  let r := fst (sign_operation demo_host (plugged wallet_config demo_oracles) client_text Ed25519 op_message (client_wallet, turns 2 EApprove)) in
  let r' := fst (legacy_sign demo_host (plugged wallet_config demo_oracles) client_text Ed25519 op_message LkOperation (client_wallet, turns 2 EApprove)) in
  sr_code r = 0x9000 /\ option_map len (sr_sig r) = Some 64 /\
  sr_code r' = 0x9000 /\ option_map len (sr_sig r') = Some 32 /\ sr_hash r' <> sr_hash r /\
  sr_code (fst (sign_operation demo_host (plugged wallet_config demo_oracles) client_text Ed25519 op_message (client_wallet, turns 2 EReject))) = 0x6986.
Proof.
  cbv zeta. split; [vm_compute; reflexivity|]. split; [vm_compute; reflexivity|]. split; [vm_compute; reflexivity|].
  split; [vm_compute; reflexivity|]. split; [|vm_compute; reflexivity]. vm_compute. discriminate.
Qed.

(** ** Signing with a baking device *)

Definition baker_hist : list event := [send 0xA1 1 0 (path_serialize client_path); EApprove; reset_to 1499999].
Definition client_baker : dev := demo_run [] baker_hist.
Lemma baker_hist_ok : Forall event_ok baker_hist /\ len baker_hist + 2 < 2 ^ 64.
Proof. split; [apply events_okb_ok; vm_compute; reflexivity|reflexivity]. Qed.
Lemma baker_idle : d_ui client_baker = None /\ d_faults client_baker = [] /\ d_ufaults client_baker = [].
Proof. repeat split; vm_compute; reflexivity. Qed.
Definition baker_sig (data : bytes) : bytes :=
  sha256 (demo_pubkey Ed25519 client_path ++ blake2b 32 data) ++ sha256 (blake2b 32 data).
Lemma baker_signable data n e : bytes_ok data -> (2 + 4 * 4 + List.length data <= CAPACITY)%nat -> n = packets_for data ->
  signable demo_config demo_oracles client_baker client_text (client_key Ed25519) data (blake2b 32 data) (baker_sig data) (turns n e).
Proof.
  intros B L ->. destruct baker_idle as (A1 & A2 & A3). constructor; try assumption.
  - exact client_text_ok.
  - now right.
  - unfold turns. now rewrite repeat_length.
  - reflexivity.
  - apply blake2b_length. lia.
  - unfold baker_sig, client_key. cbn [fst snd demo_oracles o_sign]. reflexivity.
  - unfold baker_sig. rewrite app_length, !sha256_length. lia.
Qed.
Lemma baker_stored : exists kp mp,
  wear_read (d_key client_baker) = Some (RData kp) /\ key_layout kp (client_key Ed25519) /\
  wear_read (d_main client_baker) = Some (RData mp) /\ mark_bytes mp (WEmmy 1499999 false).
Proof.
  exists (key_serialize (client_key Ed25519)), (wm_serialize (WEmmy 1499999 false)).
  split; [vm_compute; reflexivity|].
  split; [split; [split; [discriminate|split; [vm_compute; lia|repeat constructor]]|vm_compute; reflexivity]|].
  split; [vm_compute; reflexivity|]. exact (MarkEmmy 1499999 false eq_refl).
Qed.
Lemma baker_case : Forall event_ok baker_hist /\ len baker_hist + 1 < 2 ^ 64 /\
  signable demo_config demo_oracles client_baker client_text (client_key Ed25519) demo_tb_block (blake2b 32 demo_tb_block)
    (baker_sig demo_tb_block) (turns 2 EApprove) /\ d_faults client_baker = [] /\
  consensus_message demo_tb_block (PTB 2500000 3 KBlock) /\
  cpos_lt (wm_pos (WEmmy 1499999 false)) (PTB 2500000 3 KBlock).
Proof.
  split; [apply baker_hist_ok|]. split; [reflexivity|]. split; [|split; [apply baker_idle|split; [|exact Logic.I]]].
  - apply baker_signable; [apply bytes_okb_ok; vm_compute; reflexivity|apply Nat.leb_le; vm_compute; reflexivity|vm_compute; reflexivity].
  - apply (CmTenderbakeBlock demo_tb_header [be 4 2500000; be 4 1; be 4 (2 ^ 32 - 1 - 0)] 3);
      [apply demo_headers_ok|reflexivity|reflexivity].
Qed.
Lemma delegation_case :
  let branch := AddressExamples.demo_branch in
  signable demo_config demo_oracles client_baker client_text (client_key Ed25519) (3 :: branch ++ enc_op small_delegation)
    (blake2b 32 delegation_message) (baker_sig delegation_message) (turns 2 EApprove) /\
  List.length branch = 32%nat /\ op_ok small_delegation /\ baker_op small_delegation = true /\
  forall sh p, exists room,
    cf_room demo_config (VBakingSign sh (blake2b 32 delegation_message) branch p (3 :: branch ++ enc_op small_delegation)) = Some room /\
    len (blake2b 32 delegation_message) + len (baker_sig delegation_message) + 2 <= room.
Proof.
  cbv zeta. split; [|split; [reflexivity|split; [repeat split|split; [reflexivity|]]]].
  - apply baker_signable; [apply bytes_okb_ok; vm_compute; reflexivity|apply Nat.leb_le; vm_compute; reflexivity|vm_compute; reflexivity].
  - intros sh p. exists 200. split; [reflexivity|]. unfold len, baker_sig. rewrite app_length, !sha256_length, (blake2b_length 32) by lia.
    vm_compute. discriminate.
Qed.
(** The hash of a Tenderbake block that the device signs and [signBaker] returns is none
    of those that [sig_hash] computes. *)
Lemma tenderbake_hash : let message := tl demo_tb_block in
  let r := fst (sign_baker demo_host (plugged demo_config demo_oracles) client_text Ed25519 message BkBlock (client_baker, turns 2 EApprove)) in
  exists s hash, r = JData 0x9000 (mkSignRes 0x9000 (Some hash) (Some s)) /\
    o_sign demo_oracles Ed25519 client_path hash = Some s /\
    forall kind, sig_hash demo_host message kind <> hash.
Proof.
  exists (baker_sig demo_tb_block), (blake2b 32 demo_tb_block). split; [vm_compute; reflexivity|].
  split; [vm_compute; reflexivity|]. intros []; vm_compute; discriminate.
Qed.

(** ** Keys and addresses *)

(** The right answer against the one of a legacy call. *)
Definition differs (good bad : jres (bytes * bytes)) : Prop :=
  match good, bad with
  | JData 0x9000 (key, t), JData 0x9000 (key', t') => key' <> key /\ t' <> t
  | _, _ => False
  end.
Lemma legacy_run : let w := (client_baker, turns 1 EApprove) in
  let X := plugged demo_config demo_oracles in
  let good c := fst (get_address_and_pubkey demo_host X client_text c w) in
  forall c, differs (good c) (fst (legacy_get_pubkey demo_host X client_text c w)) /\
    differs (good c) (fst (legacy_prompt_pubkey demo_host X client_text c w)) /\
    differs (good c) (fst (legacy_setup demo_host X client_text c 1 1 1 w)).
Proof. intros w X good []; (split; [|split]); vm_compute; (split; discriminate). Qed.

Lemma version_run : let w := (client_baker, turns 1 EApprove) in
  let X := plugged demo_config demo_oracles in
  fst (get_version X w) = JData 0x9000 (false, (2, 2, 9), false, 0x31100004%Z) /\
  fst (legacy_get_version X w) = JData 0x9000 (true, (2, 2, 9)) /\
  fst (legacy_get_git X w) = JData 0x9000 (chars "abcdef01" ++ [0]) /\
  d_ui client_baker = None /\ cf_target demo_config < 2 ^ 32.
Proof. repeat split; vm_compute; reflexivity. Qed.

(** ** Further cases *)

(** m/44'/1729'/0' *)
Definition short_text : bytes := chars "m/44'/1729'/0'".
Lemma short_text_ok : path_text short_text demo_path.
Proof.
  exists [chars "44'"; chars "1729'"; chars "0'"]. split; [|reflexivity].
  repeat (apply Forall2_cons); [| | |apply Forall2_nil].
  - apply (HardComponent (chars "44") 44); [|reflexivity]. apply (NumeralMore [52] 4 4); [|reflexivity]. now apply (NumeralOne 4).
  - apply (HardComponent (chars "1729") 1729); [|reflexivity].
    apply (NumeralMore [49; 55; 50] 172 9); [|reflexivity]. apply (NumeralMore [49; 55] 17 2); [|reflexivity].
    apply (NumeralMore [49] 1 7); [|reflexivity]. now apply (NumeralOne 1).
  - apply (HardComponent (chars "0") 0); [|reflexivity]. now apply (NumeralOne 0).
Qed.
Lemma path_run : serialize_path demo_host client_text = Some (4 :: be 4 0x8000002C ++ be 4 0x800006C1 ++ be 4 0x80000000 ++ be 4 0x80000001) /\
  serialize_path demo_host short_text = None.
Proof. split; vm_compute; reflexivity. Qed.
Lemma chunks_run : map (@List.length N) (prepare_chunks (repeat 9 600) [1; 2]) = [2; 250; 250; 100]%nat /\
  packets_for (repeat 9 600) = 4%nat.
Proof. split; vm_compute; reflexivity. Qed.

Lemma baker_key_stored : stored_key client_baker (client_key Ed25519) /\ key_ok (client_key Ed25519).
Proof.
  split; [exists (key_serialize (client_key Ed25519)); split; vm_compute; reflexivity|].
  split; [discriminate|]. split; [vm_compute; lia|repeat constructor].
Qed.
(** Negative levels are sent as their two's complement. *)
Lemma reset_run : let X := plugged demo_config demo_oracles in
  let w z := snd (legacy_reset X z (client_baker, turns 3 EApprove)) in
  fst (legacy_get_hwm X (w 77%Z)) = JData 0x9000 77 /\
  fst (legacy_get_all X (w (-1)%Z)) = JData 0x9000 (2 ^ 32 - 1, 2 ^ 32 - 1, 0x7A06A770) /\
  fst (legacy_reset X (2 ^ 31)%Z (client_baker, turns 3 EApprove)) = JThrow.
Proof. cbv zeta. split; [vm_compute; reflexivity|]. split; vm_compute; reflexivity. Qed.
Lemma hmac_sizes : bytes_ok [1; 2; 3] /\ (1 + 4 * List.length (snd (client_key Ed25519)) + List.length [1; 2; 3] <= 255)%nat /\
  exists s hk out, o_sign demo_oracles Ed25519 client_path HMAC_KEY = Some s /\
    o_sha512 demo_oracles s = Some hk /\ o_hmac256 demo_oracles hk [1; 2; 3] = Some out.
Proof.
  split; [repeat constructor|]. split; [vm_compute; lia|].
  eexists. eexists. eexists. split; [reflexivity|]. split; reflexivity.
Qed.

Lemma tenderbake_hash_refuted : exists C O H d w text k message hash s,
  host_ok H O /\ oracles_ok O /\ w = (d, turns 2 EApprove) /\
  consensus_message (0x11 :: message) (PTB 2500000 3 KBlock) /\
  fst (sign_baker H (plugged C O) text (fst k) message BkBlock w) = JData 0x9000 (mkSignRes 0x9000 (Some hash) (Some s)) /\
  o_sign O (fst k) (snd k) hash = Some s /\
  forall kind, sig_hash H message kind <> hash.
Proof.
  destruct tenderbake_hash as (s & hash & E1 & E2 & E3).
  exists demo_config, demo_oracles, demo_host, client_baker, (client_baker, turns 2 EApprove), client_text,
    (client_key Ed25519), (tl demo_tb_block), hash, s.
  split; [exact demo_host_ok|]. split; [exact demo_oracles_ok|]. split; [reflexivity|].
  split; [apply baker_case|]. split; [exact E1|]. split; [exact E2|exact E3].
Qed.
Lemma refused_again : fst (step demo_config demo_oracles (demo_run [] busy_events) again) = AReply [0x69; 0x84].
Proof. vm_compute. reflexivity. Qed.
