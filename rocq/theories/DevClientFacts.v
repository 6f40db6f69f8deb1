(** C100: the library of the emulator tests and a developer build. *)
From Coq Require Import String Ascii List NArith ZArith Lia Bool Arith ZifyBool ZifyNat ZifyN.
From Verif Require Import Base BaseFacts Flash Codecs CodecsSpec CodecsFacts Upload UploadSpec UploadFacts UploadExamples Oracles
  Device DeviceSpec DeviceFacts ServiceSpec Text Catch Loop DevBuild DevSpec DevFacts DevExamples Client ClientSpec ClientFacts ClientSign
  KeyTestsExamples DevClient AddressSpec ClientExamples.
Import ListNotations.
Open Scope list_scope.
Open Scope N_scope.

Definition idle (x : ddev) : Prop := dd_view x = None /\ d_ui (dd_dev x) = None.

Section Plugged.
  Variable D : dconfig.
  Variable O : oracles.

  Definition dsettle (x : answer * ddev) (user : event) : option bytes * ddev :=
    match x with
    | (AReply r, d1) => (Some r, d1)
    | (APending, d1) => match dstep D O d1 user with (AReply r, d2) => (Some r, d2) | (_, d2) => (None, d2) end
    | (_, d1) => (None, d1)
    end.
  Lemma dplugged_eq x ins p1 p2 data old user later :
    dplugged D O (x, (old, user) :: later) ([HOST_CLA; ins; p1; p2; len data] ++ data) =
    (let y := dsettle (dstep D O x (sent (pkt_of ins p1 p2 data old))) user in (fst y, (snd y, later))).
  Proof.
    unfold dplugged, sent, pkt_of. cbn [fst snd].
    replace (len ([HOST_CLA; ins; p1; p2; len data] ++ data)) with (5 + len data)
      by (unfold len; rewrite app_length; cbn [length]; lia).
    change HOST_CLA with 0x80.
    destruct (dstep D O x _) as [[r| | |] x1]; cbn [dsettle]; try reflexivity.
    destruct (dstep D O x1 user) as [[]]; reflexivity.
  Qed.
  Lemma dcommand_packet x ins kind p : idle x -> packet ins kind p -> dcommand x (fst p) (snd p) ins.
  Proof. intros [V U] (A & B & E1 & E2 & _). split; [exact V|]. split; [exact A|]. repeat split; auto; lia. Qed.

  (** A call that sends one command. *)
  Lemma dask {A} x ins p1 p2 data old user later (f : bytes -> option A) : (List.length data <= 255)%nat ->
    ask (dplugged D O) ins p1 p2 data f (x, (old, user) :: later) =
    (let y := dsettle (dstep D O x (sent (pkt_of ins p1 p2 data old))) user in
     (match fst y with
      | None => JCode OTHER_ERROR
      | Some r =>
        if len r <? 2 then JCode OTHER_ERROR
        else if existsb (N.eqb (status_of r)) [NO_ERRORS]
             then match f r with Some a => JData (status_of r) a | None => JThrow end
             else JCode (status_of r)
      end, (snd y, later))).
  Proof.
    intros L. unfold ask, send_to, send_codes.
    replace (256 <=? len data) with false by (symmetry; apply N.leb_gt; unfold len; lia).
    rewrite dplugged_eq. cbv zeta. destruct (dsettle _ user) as [[r|] y]; cbn [fst snd]; [|reflexivity].
    destruct (len r <? 2); [reflexivity|]. destruct (existsb _ _); reflexivity.
  Qed.

  (** ** Exceptions *)
  Lemma except_both x old user later ex : idle x -> apdu_ok old -> 1 <= ex < 256 ->
    except (dplugged D O) true ex (x, (old, user) :: later) = (JData 0x9000 (Z.of_N ex), (x, later)) /\
    except (dplugged D O) false ex (x, (old, user) :: later) = (JCode 0x6400, (x, later)).
  Proof.
    intros Hi Ho He. unfold except. rewrite (N.mod_small ex) by lia.
    destruct (pkt_packet 0xF1 1 ex [] old KNext ltac:(cbn; lia) ltac:(constructor) eq_refl eq_refl ltac:(lia) Ho eq_refl) as (P1 & _ & P3).
    destruct (pkt_packet 0xF1 0 ex [] old KInit ltac:(cbn; lia) ltac:(constructor) eq_refl eq_refl ltac:(lia) Ho eq_refl) as (Q1 & _ & Q3).
    rewrite !dask by (cbn; lia). unfold sent. split.
    - destruct (except_caught D O x _ _ (dcommand_packet _ _ _ _ Hi P1)) as [E _]; [change (1 <= 1); lia|rewrite P3; lia|].
      rewrite E, P3. cbv zeta. cbn [dsettle fst snd].
      change (be 8 ex ++ [144; 0]) with (be 8 ex ++ [0x90; 0]).
      replace (len (be 8 ex ++ [0x90; 0]) <? 2) with false by (unfold len; rewrite app_length, be_length; reflexivity).
      replace (status_of (be 8 ex ++ [0x90; 0])) with 0x9000.
      2:{ unfold status_of. unfold js_slice_from, js_slice, js_index, len. rewrite app_length, be_length. reflexivity. }
      cbn [existsb orb]. change (0x9000 =? NO_ERRORS) with true. cbn [orb].
      rewrite js_slice_data. unfold read_i64. rewrite be_length. cbn [Nat.ltb Nat.leb].
      rewrite firstn_all2 by (rewrite be_length; lia). rewrite unbe_be.
      replace (Z.of_N (ex mod 256 ^ N.of_nat 8)) with (Z.of_N ex) by (rewrite N.mod_small; [reflexivity|cbn; lia]).
      replace (Z.of_N ex <? 2 ^ 63)%Z with true by lia. reflexivity.
    - rewrite (except_uncaught D O x _ _ (dcommand_packet _ _ _ _ Hi Q1) eq_refl) by (rewrite Q3; lia).
      rewrite Q3. cbv zeta. cbn [dsettle fst snd]. reflexivity.
  Qed.
  Lemma exception_tests x old user later : idle x -> apdu_ok old ->
    (forall b, exception_test (dplugged D O) b (x, (old, user) :: later) = true) /\
    (forall b, unknown_test (dplugged D O) b (x, (old, user) :: later) = true).
  Proof.
    intros Hi Ho. destruct (except_both x old user later 1 Hi Ho ltac:(lia)) as [A B].
    destruct (except_both x old user later 42 Hi Ho ltac:(lia)) as [A2 B2].
    split; intros []; unfold exception_test, unknown_test; rewrite ?A, ?B, ?A2, ?B2; reflexivity.
  Qed.

  (** ** Hashes *)

  (** A packet that continues an upload nobody started is refused. *)
  Lemma hash_refused x p : idle x -> u_lock (d_up (dd_dev x)) <> Some AccSha256 ->
    (exists kind, kind <> KInit /\ packet 0xF0 kind p) ->
    exists a b y, dstep D O x (sent p) = (AReply [a; b], y) /\ a * 256 + b <> NO_ERRORS.
  Proof.
    intros [V U] L (kind & Nk & (Ab & Rx & E0 & E1 & Ek)). unfold sent, dstep. rewrite V, U.
    assert (Rd : apdu_read_ok (fst p) (snd p) = true).
    { unfold apdu_read_ok. destruct Ab as [Ab _]. replace (len (fst p)) with 260 by (unfold len; lia). lia. }
    rewrite Rd. unfold apdu_cla, apdu_ins. rewrite E0, E1. cbn [andb].
    change (128 =? CLA) with true. change (0xF0 =? 0xF0) with true. cbv iota.
    unfold h_dev_hash, with_upload, the_upload, bind, upload.
    rewrite <- packet_kind in Ek. fold (apdu_p1 (fst p)) in Ek.
    destruct (packet_of_p1 (apdu_p1 (fst p))) as [pt|]; [|discriminate]. cbn [option_map] in Ek.
    assert (Ep : is_init pt = false).
    { injection Ek as Ek. unfold upk in Ek. destruct (is_init pt); [congruence|reflexivity]. }
    rewrite Ep. unfold lock_acquire.
    assert (Le : len (fst p) = 260) by (destruct Ab; unfold len; lia). rewrite Le.
    destruct (u_lock (d_up (dd_dev x))) as [h|].
    - replace (acc_eqb h AccSha256) with false by (destruct h; try reflexivity; congruence).
      do 3 eexists. split; [reflexivity|discriminate].
    - do 3 eexists. split; [reflexivity|discriminate].
  Qed.
  Lemma hash_throws x old user later m : idle x -> u_lock (d_up (dd_dev x)) <> Some AccSha256 -> apdu_ok old ->
    bytes_ok m -> m <> [] -> fst (get_hash (dplugged D O) m (x, (old, user) :: later)) = JThrow.
  Proof.
    intros Hi L Ho B Ne. unfold get_hash. cbv zeta.
    destruct (chunk_loop_spec (S (List.length m)) 0 m ltac:(lia)) as (Cc & Fc & _). cbn [N.to_nat skipn] in Cc.
    destruct (chunk_loop (S (List.length m)) 0 m) as [|c cs]; [exfalso; apply Ne; now rewrite <- Cc|].
    pose proof (Forall_inv Fc) as Lc. cbv beta in Lc.
    pose proof (Forall_inv (concat_bytes_ok _ ltac:(rewrite Cc; exact B))) as Bc.
    cbn [hash_loop]. unfold send_hash_chunk, send_to, send_codes.
    replace (256 <=? len c) with false by (symmetry; apply N.leb_gt; unfold len; lia).
    rewrite dplugged_eq. cbv zeta.
    assert (X : exists kind, kind <> KInit /\ kind_of (hash_p1 0 (List.length (c :: cs) - 1)) = Some kind /\
                hash_p1 0 (List.length (c :: cs) - 1) < 256).
    { unfold hash_p1. destruct (0 =? List.length (c :: cs) - 1)%nat; cbn [Nat.eqb].
      - exists KLast. repeat split; discriminate.
      - exists KNext. repeat split; discriminate. }
    destruct X as (kind & Nk & Kk & Kb).
    destruct (pkt_packet 0xF0 _ 0 c old kind ltac:(lia) Bc eq_refl Kb eq_refl Ho Kk) as (P & _ & _).
    destruct (hash_refused x _ Hi L (ex_intro _ kind (conj Nk P))) as (a & b & y & E & Nab). rewrite E.
    cbn [dsettle fst snd]. change (len [a; b] <? 2) with false. cbv iota.
    change (status_of [a; b]) with (a * 256 + b). cbn [existsb].
    replace (a * 256 + b =? NO_ERRORS) with false by (symmetry; now apply N.eqb_neq). reflexivity.
  Qed.
  Lemma hash_fails x old user later m : idle x -> u_lock (d_up (dd_dev x)) <> Some AccSha256 -> apdu_ok old ->
    bytes_ok m -> hash_test (dplugged D O) m (x, (old, user) :: later) = false.
  Proof.
    intros Hi L Ho B. unfold hash_test. destruct m as [|b m]; [reflexivity|].
    rewrite hash_throws; auto. discriminate.
  Qed.

  (** ** Texts *)
  Lemma display_packet x m old : idle x -> apdu_ok old -> bytes_ok m -> (List.length m <= 35)%nat ->
    dcommand x (fst (pkt_of 0xF2 0 0 m old)) (snd (pkt_of 0xF2 0 0 m old)) 0xF2 /\ pay (fst (pkt_of 0xF2 0 0 m old)) = m.
  Proof.
    intros Hi Ho B L.
    destruct (pkt_packet 0xF2 0 0 m old KInit ltac:(lia) B eq_refl eq_refl eq_refl Ho eq_refl) as (P & Q & _).
    split; [exact (dcommand_packet _ _ _ _ Hi P)|exact Q].
  Qed.
  Lemma display_shown x m old user later room : idle x -> apdu_ok old -> bytes_ok m -> (17 <= List.length m <= 34)%nat ->
    (forall v, dc_room D v = Some room) -> 2 <= room ->
    (user = EApprove -> display (dplugged D O) m (x, (old, user) :: later) = (JData 0x9000 tt, (x, later))) /\
    (user = EReject -> display (dplugged D O) m (x, (old, user) :: later) = (JCode 0x6986, (x, later))).
  Proof.
    intros Hi Ho B L Hr Hn. unfold display. replace (35 <? len m) with false by (unfold len; lia).
    destruct (display_packet x m old Hi Ho B ltac:(lia)) as [P Q].
    destruct (echo_shown D O x _ _ (repeat 0 35) room P ltac:(rewrite Q; exact L) Hr Hn ltac:(rewrite repeat_length; lia))
      as (l1 & l2 & y & E & _ & _ & Ea & Er).
    rewrite dask by lia. unfold sent. rewrite E. cbn [dsettle].
    split; intros ->; rewrite ?Ea, ?Er; reflexivity.
  Qed.
  Lemma display_long x m old user later : idle x -> apdu_ok old -> bytes_ok m -> List.length m = 35%nat ->
    display (dplugged D O) m (x, (old, user) :: later) = (JCode 0x6700, (x, later)).
  Proof.
    intros Hi Ho B L. unfold display. replace (35 <? len m) with false by (unfold len; lia).
    destruct (display_packet x m old Hi Ho B ltac:(lia)) as [P Q].
    rewrite dask by lia. unfold sent. rewrite (echo_long D O x _ _ P) by (rewrite Q; lia). reflexivity.
  Qed.
  Lemma display_short x m old user later : idle x -> apdu_ok old -> bytes_ok m -> (List.length m < 17)%nat ->
    display (dplugged D O) m (x, (old, user) :: later) = (JCode OTHER_ERROR, (drestart x, later)).
  Proof.
    intros Hi Ho B L. unfold display. replace (35 <? len m) with false by (unfold len; lia).
    destruct (display_packet x m old Hi Ho B ltac:(lia)) as [P Q].
    rewrite dask by lia. unfold sent. rewrite (echo_short D O x _ _ P) by (rewrite Q; lia). reflexivity.
  Qed.
  Lemma display_too_long {W} (X : transport W) m w : (35 < List.length m)%nat -> display X m w = (JThrow, w).
  Proof. intros L. unfold display. replace (35 <? len m) with true by (unfold len; lia). reflexivity. Qed.
  Lemma echo_passes x m old later room : idle x -> apdu_ok old -> bytes_ok m ->
    (forall v, dc_room D v = Some room) -> 2 <= room ->
    (echo_test (dplugged D O) m (x, (old, EApprove) :: later) = true <-> (17 <= List.length m <= 34)%nat).
  Proof.
    intros Hi Ho B Hr Hn. unfold echo_test.
    destruct (le_lt_dec 17 (List.length m)) as [L1|L1].
    2:{ rewrite display_short by auto. split; [discriminate|lia]. }
    destruct (le_lt_dec (List.length m) 34) as [L2|L2].
    { rewrite (proj1 (display_shown x m old EApprove later room Hi Ho B (conj L1 L2) Hr Hn) eq_refl). split; auto. }
    destruct (Nat.eq_dec (List.length m) 35) as [E|E].
    - rewrite display_long by auto. split; [discriminate|lia].
    - rewrite display_too_long by lia. split; [discriminate|lia].
  Qed.
End Plugged.

(** An app that answers every command with success and nothing else passes the test. *)
Lemma parrot_loop max : forall chunks i code, Forall (fun c => (1 <= List.length c <= 250)%nat) chunks ->
  hash_loop (parrot []) i max chunks (JData code None) tt =
  (JData (match chunks with [] => code | _ => 0x9000 end) None, tt).
Proof.
  induction chunks as [|c cs IH]; intros i code F; [reflexivity|].
  pose proof (Forall_inv F) as Lc. cbv beta in Lc. cbn [hash_loop]. unfold send_hash_chunk, send_to, send_codes.
  replace (256 <=? len c) with false by (symmetry; apply N.leb_gt; unfold len; lia).
  unfold parrot at 1. cbn [app]. change (len [0x90; 0] <? 2) with false. cbv iota.
  change (status_of [0x90; 0]) with NO_ERRORS. cbn [existsb]. rewrite N.eqb_refl. cbn [orb andb].
  change (2 <? len [0x90; 0]) with false. cbv iota. rewrite IH by exact (Forall_inv_tail F).
  now destruct cs.
Qed.
Lemma hash_says m : m <> [] -> get_hash (parrot []) m tt = (JData 0x9000 None, tt) /\ hash_test (parrot []) m tt = true.
Proof.
  intros Ne.
  assert (E : get_hash (parrot []) m tt = (JData 0x9000 None, tt)).
  { unfold get_hash. cbv zeta. destruct (chunk_loop_spec (S (List.length m)) 0 m ltac:(lia)) as (Cc & Fc & _).
    cbn [N.to_nat skipn] in Cc. rewrite parrot_loop by exact Fc.
    destruct (chunk_loop (S (List.length m)) 0 m); [exfalso; apply Ne; now rewrite <- Cc|reflexivity]. }
  split; [exact E|]. unfold hash_test. rewrite E. reflexivity.
Qed.

(** What [getHash] sends, if nothing is refused. *)
Definition recorder : transport (list bytes) := fun w command => (Some [0x90; 0], w ++ [command]).
(** The P1 of the packets of an upload of [n]: 0 is the first one, 1 continues, 2 ends. *)
Definition hash_marks (n : nat) : list N :=
  match n with O => [] | 1%nat => [2] | 2%nat => [1; 2] | S (S (S k)) => 1 :: 0 :: repeat 1 k ++ [2] end.
Lemma marks_between max : forall k i, (2 <= i)%nat -> (i + k <= max)%nat -> map (fun j => hash_p1 j max) (seq i k) = repeat 1 k.
Proof.
  induction k as [|k IH]; intros i Hi Hm; [reflexivity|]. cbn [seq map repeat]. rewrite IH by lia. f_equal.
  unfold hash_p1. replace (i =? 1)%nat with false by (symmetry; apply Nat.eqb_neq; lia).
  replace (i =? max)%nat with false by (symmetry; apply Nat.eqb_neq; lia). reflexivity.
Qed.
Lemma marks_all n : map (fun j => hash_p1 j (n - 1)) (seq 0 n) = hash_marks n.
Proof.
  destruct n as [|[|[|k]]]; try reflexivity. replace (S (S (S k)) - 1)%nat with (S (S k)) by lia.
  replace (S (S (S k))) with (2 + (k + 1))%nat by lia. rewrite !seq_app, !map_app, (marks_between _ k (0 + 2)) by lia.
  replace (2 + (k + 1))%nat with (S (S (S k))) by lia. cbn [seq map hash_marks app Nat.add].
  replace (hash_p1 (S (S k)) (S (S k))) with 2; [reflexivity|]. unfold hash_p1. now rewrite Nat.eqb_refl.
Qed.
Lemma loop_sends max : forall chunks i code w, Forall (fun c => (1 <= List.length c <= 250)%nat) chunks ->
  hash_loop recorder i max chunks (JData code None) w =
  (JData (match chunks with [] => code | _ => 0x9000 end) None,
   w ++ map (fun p => [0x80; 0xF0; fst p; 0; len (snd p)] ++ snd p)
     (combine (map (fun j => hash_p1 j max) (seq i (List.length chunks))) chunks)).
Proof.
  induction chunks as [|c cs IH]; intros i code w F; [cbn; now rewrite app_nil_r|].
  pose proof (Forall_inv F) as Lc. cbv beta in Lc. cbn [hash_loop]. unfold send_hash_chunk, send_to, send_codes.
  replace (256 <=? len c) with false by (symmetry; apply N.leb_gt; unfold len; lia).
  unfold recorder at 1. change (len [0x90; 0] <? 2) with false. cbv iota.
  change (status_of [0x90; 0]) with NO_ERRORS. cbn [existsb]. rewrite N.eqb_refl. cbn [orb andb].
  change (2 <? len [0x90; 0]) with false. cbv iota. rewrite IH by exact (Forall_inv_tail F).
  cbn [List.length seq map combine fst snd]. rewrite <- app_assoc. cbn [app]. change HOST_CLA with 0x80. now destruct cs.
Qed.
Lemma hash_sends m : m <> [] -> exists cs, concat cs = m /\ Forall (fun c => (1 <= List.length c <= 250)%nat) cs /\
  List.length cs = N.to_nat ((len m + 249) / 250) /\
  get_hash recorder m [] = (JData 0x9000 None,
    map (fun p => [0x80; 0xF0; fst p; 0; len (snd p)] ++ snd p) (combine (hash_marks (List.length cs)) cs)).
Proof.
  intros Ne. unfold get_hash. cbv zeta. destruct (chunk_loop_spec (S (List.length m)) 0 m ltac:(lia)) as (Cc & Fc & Lc).
  cbn [N.to_nat skipn] in Cc. rewrite N.sub_0_r in Lc.
  set (cs := chunk_loop (S (List.length m)) 0 m) in *. exists cs. split; [exact Cc|]. split; [exact Fc|]. split; [exact Lc|].
  rewrite loop_sends by exact Fc. rewrite marks_all. cbn [app]. f_equal. f_equal.
  destruct cs; [exfalso; apply Ne; now rewrite <- Cc|reflexivity].
Qed.

(** ** Cases *)
Lemma idle_case : idle (dev_at []) /\ apdu_ok stale /\ u_lock (d_up (dd_dev (dev_at []))) = None.
Proof. split; [split; vm_compute; reflexivity|]. split; [exact stale_ok|vm_compute; reflexivity]. Qed.
Lemma chars_ok t : bytes_ok (chars t).
Proof.
  induction t as [|a t IH]; [constructor|]. constructor; [|exact IH]. apply Ascii.N_ascii_bounded.
Qed.
Lemma hash_case : u_lock (d_up (dd_dev (dev_at []))) <> Some AccSha256 /\
  Forall (fun m => bytes_ok m /\ m <> []) [chars "support.tezos@zondax.ch"; repeat 0 300].
Proof.
  rewrite (proj2 (proj2 idle_case)). split; [discriminate|].
  repeat constructor; try apply chars_ok; try discriminate.
Qed.
Lemma echo_text_case : let m := chars "support.tezos@zondax.ch" in bytes_ok m /\ List.length m = 23%nat /\
  exists room, 2 <= room /\ forall v, dc_room dev_demo v = Some room.
Proof. split; [apply chars_ok|]. split; [reflexivity|]. exists 200. split; [lia|reflexivity]. Qed.
