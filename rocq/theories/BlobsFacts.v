(** Proofs about the messages of the emulator tests. *)
From Coq Require Import NArith ZArith Bool Arith List Lia ZifyBool ZifyNat ZifyN.
From Verif Require Import Base BaseFacts Flash Codecs CodecsSpec CodecsFacts Upload UploadSpec UploadFacts
  Baking BakingSpec Operations Oracles Address Device DeviceSpec DeviceFacts ServiceSpec DeviceLive DeviceAdmin IdealSpec IdealReads IdealFacts
  Client ClientSpec ClientFacts ClientSign ClientCalls ClientAdmin HarnessFacts Blobs BlobsSpec.
Import ListNotations.
Open Scope N_scope.

(** ** The bytes *)

Lemma put_ok n v w : (0 <= v < 256 ^ Z.of_nat n)%Z -> (length w + n <= BLOB_SIZE)%nat -> put n v w = Some (w ++ be n (Z.to_N v)).
Proof.
  intros V L. unfold put. replace (0 <=? v)%Z with true by lia. replace (v <? 256 ^ Z.of_nat n)%Z with true by lia.
  replace (length w + n <=? BLOB_SIZE)%nat with true by lia. reflexivity.
Qed.
Lemma put_inv n v w r : put n v w = Some r -> (0 <= v < 256 ^ Z.of_nat n)%Z.
Proof. unfold put. destruct ((0 <=? v)%Z && (v <? 256 ^ Z.of_nat n)%Z) eqn:E; [lia|discriminate]. Qed.
Lemma copy_ok b w : (length w + length b <= BLOB_SIZE)%nat -> copy b w = w ++ b.
Proof. intros L. unfold copy. now rewrite firstn_all2 by lia. Qed.

Definition block_head (chain level : N) : bytes :=
  be 4 chain ++ be 4 level ++ be 1 42 ++ repeat 0 32 ++ be 8 0 ++ be 1 0 ++ repeat 0 32.
Definition block_blob (chain level : N) (fit : bytes) : bytes := block_head chain level ++ be 4 (len fit) ++ fit.

Ltac sizes := unfold BLOB_SIZE, byte in *; rewrite ?app_length, ?be_length, ?repeat_length; cbn [length]; try lia.
Ltac fit := first [assumption | unfold word in *; change (256 ^ Z.of_nat 4)%Z with (2 ^ 32)%Z; lia | vm_compute; split; [discriminate|reflexivity]].
Lemma emmy_endo_blob chain branch level round : word chain -> length branch = 32%nat -> word level ->
  get_endorsement_info chain branch level TEmmy round = Some (enc_emmy_endo (Z.to_N chain) branch (Z.to_N level) []).
Proof.
  intros Hc Hb Hl. unfold get_endorsement_info, enc_emmy_endo.
  rewrite (put_ok 4 chain) by (fit || sizes). rewrite copy_ok by sizes.
  rewrite (put_ok 1 0) by (fit || sizes). rewrite (put_ok 4 level) by (fit || sizes).
  cbn [app]. rewrite <- !app_assoc. reflexivity.
Qed.
Lemma tb_endo_blob chain branch level type r : word chain -> length branch = 32%nat -> word level -> word r -> type <> TEmmy ->
  get_endorsement_info chain branch level type (Some r) =
  Some (enc_tb_endo (Z.to_N chain) branch (match type with TPreendorsement => true | _ => false end) 0 (Z.to_N level) (Z.to_N r) (repeat 0 32) []).
Proof.
  intros Hc Hb Hl Hr Ht. unfold get_endorsement_info, enc_tb_endo.
  rewrite (put_ok 4 chain) by (fit || sizes). rewrite copy_ok by sizes.
  destruct type; [congruence| |];
  (rewrite (put_ok 1) by (fit || sizes); rewrite (put_ok 2) by (fit || sizes);
   rewrite (put_ok 4 level) by (fit || sizes); rewrite (put_ok 4 r) by (fit || sizes); rewrite copy_ok by sizes;
   cbn [app]; rewrite <- !app_assoc; reflexivity).
Qed.
Lemma block_made chain level round f : word chain -> word level -> blob_fitness round = Some f -> (length f <= 9)%nat ->
  get_blocklevel_info chain level round = Some (block_blob (Z.to_N chain) (Z.to_N level) f).
Proof.
  intros Hc Hl Hf Lf. unfold get_blocklevel_info, block_blob, block_head.
  rewrite (put_ok 4 chain) by (fit || sizes). rewrite (put_ok 4 level) by (fit || sizes). rewrite (put_ok 1 42) by (fit || sizes).
  rewrite copy_ok by sizes. rewrite (put_ok 8 0) by (fit || sizes). rewrite (put_ok 1 0) by (fit || sizes).
  rewrite copy_ok by sizes. rewrite Hf. rewrite (put_ok 4 (Z.of_nat (length f))) by (first [change (256 ^ Z.of_nat 4)%Z with (2 ^ 32)%Z; lia | sizes]).
  rewrite copy_ok by sizes. replace (Z.to_N (Z.of_nat (length f))) with (len f) by (unfold len; lia).
  cbn [app]. rewrite <- !app_assoc. reflexivity.
Qed.
Lemma fitness_of r : word r -> blob_fitness (Some r) = Some (if (r =? 0)%Z then repeat 1 5 else repeat 2 5 ++ be 4 (Z.to_N r)).
Proof.
  intros Hr. unfold blob_fitness. destruct r as [|p|p]; [reflexivity| |unfold word in Hr; lia].
  change (Z.pos p =? 0)%Z with false. cbv iota.
  rewrite <- (Z2N.id (Z.pos p)) at 1 by (unfold word in Hr; lia). rewrite write_u32_ok by (unfold word in Hr; lia). reflexivity.
Qed.

(** ** Their positions *)

Lemma field_at i n (a b c : bytes) : length a = i -> length b = n -> field i n (a ++ b ++ c) = unbe b.
Proof. intros La Lb. unfold field. rewrite skipn_app_exact by exact La. now rewrite firstn_app_exact by exact Lb. Qed.
Lemma nth_at i (a : bytes) v c : length a = i -> nth i (a ++ v :: c) 0 = v.
Proof. intros La. rewrite app_nth2 by lia. rewrite La, Nat.sub_diag. reflexivity. Qed.

Lemma emmy_endo_read chain (branch : bytes) level : length branch = 32%nat -> level < 2 ^ 32 ->
  consensus_in (2 :: enc_emmy_endo chain branch level []) = Position (PEmmy level true).
Proof.
  intros Hb Hl. unfold consensus_in, enc_emmy_endo. cbv zeta. change (nth 0 (2 :: _) 0) with 2. cbn [N.eqb Pos.eqb orb].
  set (h := 2 :: be 4 chain ++ branch).
  assert (E : 2 :: be 4 chain ++ branch ++ [0] ++ be 4 level ++ [] = h ++ 0 :: be 4 level ++ [])
    by (unfold h; cbn [app]; rewrite <- app_assoc; reflexivity).
  assert (Lh : length h = 37%nat) by (unfold h; cbn [length]; rewrite app_length, be_length; lia).
  rewrite E. rewrite nth_at by exact Lh. change (0 =? 0) with true. cbn [andb].
  replace (42 <=? len (h ++ 0 :: be 4 level ++ [])) with true
    by (unfold len; rewrite app_length; cbn [length]; rewrite app_length, be_length; cbn [length]; lia).
  replace (h ++ 0 :: be 4 level ++ []) with ((h ++ [0]) ++ be 4 level ++ []) by (rewrite <- app_assoc; reflexivity).
  rewrite field_at by (rewrite ?app_length, ?be_length; cbn [length]; lia). now rewrite unbe_be_small.
Qed.
Lemma tb_endo_read chain (branch : bytes) (pre : bool) level round : length branch = 32%nat -> level < 2 ^ 32 -> round < 2 ^ 32 ->
  consensus_in ((if pre then 0x12 else 0x13) :: enc_tb_endo chain branch pre 0 level round (repeat 0 32) [])
  = Position (PTB level round (if pre then KPre else KEnd)).
Proof.
  intros Hb Hl Hr. unfold consensus_in, enc_tb_endo. cbv zeta.
  set (m := if pre then 0x12 else 0x13). change (nth 0 (m :: _) 0) with m.
  replace ((m =? 1) || (m =? 17)) with false by (unfold m; destruct pre; reflexivity).
  set (t := if pre then 20 else 21). set (h := m :: be 4 chain ++ branch).
  set (tail := be 2 0 ++ be 4 level ++ be 4 round ++ repeat 0 32 ++ []).
  assert (E : m :: be 4 chain ++ branch ++ [t] ++ tail = h ++ t :: tail)
    by (unfold h; cbn [app]; rewrite <- app_assoc; reflexivity).
  assert (Lh : length h = 37%nat) by (unfold h; cbn [length]; rewrite app_length, be_length; lia).
  rewrite E. rewrite nth_at by exact Lh.
  replace (80 <=? len (h ++ t :: tail)) with true
    by (unfold len, tail; rewrite app_length; cbn [length]; rewrite !app_length, !be_length, repeat_length; cbn [length]; lia).
  replace (h ++ t :: tail) with ((h ++ [t] ++ be 2 0) ++ be 4 level ++ (be 4 round ++ repeat 0 32 ++ []))
    by (unfold tail; rewrite <- !app_assoc; reflexivity).
  assert (F1 : field 40 4 ((h ++ [t] ++ be 2 0) ++ be 4 level ++ (be 4 round ++ repeat 0 32 ++ [])) = level).
  { rewrite field_at by (rewrite ?app_length, ?be_length; cbn [length]; lia). now apply unbe_be_small. }
  assert (F2 : field 44 4 ((h ++ [t] ++ be 2 0) ++ be 4 level ++ (be 4 round ++ repeat 0 32 ++ [])) = round).
  { rewrite (app_assoc _ (be 4 level)). rewrite field_at by (rewrite ?app_length, ?be_length; cbn [length]; lia). now apply unbe_be_small. }
  rewrite F1, F2. unfold m, t. destruct pre; reflexivity.
Qed.
Lemma block_version chain level fit : (5 <= length fit)%nat -> nth 90 (block_blob chain level fit) 0 = nth 4 fit 0 /\
  nth_error (block_blob chain level fit) 90 = nth_error fit 4.
Proof.
  intros L. unfold block_blob. rewrite app_assoc.
  assert (Lh : length (block_head chain level ++ be 4 (len fit)) = 86%nat)
    by (unfold block_head; rewrite !app_length, !be_length, !repeat_length; reflexivity).
  split; [rewrite app_nth2 by lia; now rewrite Lh|rewrite nth_error_app2 by lia; now rewrite Lh].
Qed.
Lemma block_fields m chain level fit : level < 2 ^ 32 -> (length fit <= 9)%nat -> let d := m :: block_blob chain level fit in
  field 83 4 d = len fit /\ field 5 4 d = level /\ len d = 87 + len fit /\
  forall a b, fit = a ++ b -> length b = 4%nat -> field (87 + length fit - 4) 4 d = unbe b.
Proof.
  intros Hl Lf d. set (tail := be 1 42 ++ repeat 0 32 ++ be 8 0 ++ be 1 0 ++ repeat 0 32).
  assert (E : d = (m :: be 4 chain) ++ be 4 level ++ tail ++ be 4 (len fit) ++ fit)
    by (unfold d, block_blob, block_head, tail; cbn [app]; rewrite <- !app_assoc; reflexivity).
  assert (Lt : length tail = 74%nat) by (unfold tail; rewrite !app_length, !be_length, !repeat_length; reflexivity).
  assert (E2 : d = ((m :: be 4 chain) ++ be 4 level ++ tail) ++ be 4 (len fit) ++ fit) by (rewrite E, <- !app_assoc; reflexivity).
  assert (E3 : d = ((m :: be 4 chain) ++ be 4 level ++ tail ++ be 4 (len fit)) ++ fit) by (rewrite E, <- !app_assoc; reflexivity).
  assert (Ld : len d = 87 + len fit).
  { unfold len. rewrite E, !app_length, !be_length, Lt. cbn [length]. rewrite be_length. lia. }
  split; [|split; [|split; [exact Ld|]]].
  - rewrite E2. rewrite field_at by (rewrite ?app_length, ?be_length, ?Lt; cbn [length]; rewrite ?be_length; lia).
    apply unbe_be_small. change (256 ^ N.of_nat 4) with (2 ^ 32). unfold len. lia.
  - rewrite E. rewrite field_at by (cbn [length]; rewrite ?be_length; lia). now apply unbe_be_small.
  - intros a b Ef Lb. rewrite E3. set (h := (m :: be 4 chain) ++ be 4 level ++ tail ++ be 4 (len fit)) in *.
    assert (Lh : length h = 87%nat) by (unfold h; rewrite !app_length, !be_length, Lt; cbn [length]; rewrite be_length; reflexivity).
    clearbody h. rewrite Ef. replace (h ++ a ++ b) with ((h ++ a) ++ b ++ []) by (rewrite app_nil_r, <- app_assoc; reflexivity).
    apply field_at; [|exact Lb]. rewrite !app_length. lia.
Qed.
Lemma block_read m chain level fit : level < 2 ^ 32 -> fit = repeat 1 5 \/ (exists r, r < 2 ^ 32 /\ fit = repeat 2 5 ++ be 4 r) ->
  m = (if nth 4 fit 0 =? 2 then 0x11 else 0x01) ->
  consensus_in (m :: block_blob chain level fit) =
  Position (if nth 4 fit 0 =? 2 then PTB level (unbe (skipn 5 fit)) KBlock else PEmmy level false).
Proof.
  intros Hl Hf Hm.
  assert (Lf : (5 <= length fit <= 9)%nat) by (destruct Hf as [->|(r & _ & ->)]; [cbn [repeat length]; lia|rewrite app_length, be_length, repeat_length; lia]).
  destruct (block_fields m chain level fit Hl ltac:(lia)) as (F1 & F2 & F3 & F4).
  destruct (block_version chain level fit ltac:(lia)) as [V _].
  unfold consensus_in. cbv zeta. rewrite F1, F2, F3. change (nth 91 (m :: ?x) 0) with (nth 90 x 0). rewrite V.
  change (nth 0 (m :: _) 0) with m.
  replace ((m =? 1) || (m =? 17)) with true by (rewrite Hm; destruct (nth 4 fit 0 =? 2); reflexivity).
  replace ((87 + len fit <? 87 + len fit) || (len fit <? 5)) with false by (unfold len; lia).
  replace (N.to_nat (len fit)) with (length fit) by (unfold len; lia).
  destruct Hf as [->|(r & Hr & ->)].
  - subst m. reflexivity.
  - rewrite (F4 (repeat 2 5) (be 4 r) eq_refl (be_length 4 r)). subst m.
    replace (nth 4 (repeat 2 5 ++ be 4 r) 0) with 2 by reflexivity.
    change (skipn 5 (repeat 2 5 ++ be 4 r)) with (be 4 r).
    replace (len (repeat 2 5 ++ be 4 r)) with 9 by (unfold len; rewrite app_length, be_length; reflexivity). reflexivity.
Qed.

Lemma blob_bytes m chain (fit : bytes) level : m < 256 -> bytes_ok fit -> bytes_ok (m :: block_blob chain level fit).
Proof.
  intros Hm Hf. constructor; [exact Hm|]. unfold block_blob, block_head.
  assert (Z : bytes_ok (repeat 0 32)) by (apply Forall_forall; intros x Hx; apply repeat_spec in Hx; subst x; reflexivity).
  repeat (apply bytes_ok_app; split; try apply be_ok; try exact Z); exact Hf.
Qed.
Lemma endo_bytes m (branch : bytes) x y : m < 256 -> bytes_ok branch -> bytes_ok x -> bytes_ok (m :: be 4 y ++ branch ++ x).
Proof.
  intros Hm Hb Hx. constructor; [exact Hm|]. apply bytes_ok_app. split; [apply be_ok|]. apply bytes_ok_app. now split.
Qed.

(** What a call makes, the byte the library puts in front of it, and what the app reads. *)
Lemma blob_message c : fits c -> exists m magic, blob c = Some m /\ baker_magic (blob_kind c) m = Some magic /\
  bytes_ok (magic :: m) /\ (length m <= 100)%nat /\ consensus_in (magic :: m) = Position (built c).
Proof.
  assert (W : forall z, word z -> Z.to_N z < 2 ^ 32) by (unfold word; intros; lia).
  assert (Z32 : bytes_ok (repeat 0 32)) by (apply Forall_forall; intros x Hx; apply repeat_spec in Hx; subst x; reflexivity).
  destruct c as [chain branch level type round|chain level round]; cbn [fits].
  - intros (Hc & Lb & Hb & Hl & Hr). cbn [blob blob_kind]. destruct type.
    + exists (enc_emmy_endo (Z.to_N chain) branch (Z.to_N level) []), 2.
      split; [now apply emmy_endo_blob|]. split.
      { unfold baker_magic, enc_emmy_endo. change (4 + 32)%nat with 36%nat. rewrite app_assoc. cbn [app].
        rewrite nth_error_split by (rewrite app_length, be_length; lia). reflexivity. }
      split. { apply endo_bytes; [reflexivity|exact Hb|]. cbn [app]. constructor; [reflexivity|]. apply bytes_ok_app. split; [apply be_ok|constructor]. }
      split; [unfold enc_emmy_endo; rewrite !app_length, !be_length; cbn [length]; lia|].
      apply emmy_endo_read; [exact Lb|now apply W].
    + destruct round as [r|]; [|contradiction].
      exists (enc_tb_endo (Z.to_N chain) branch false 0 (Z.to_N level) (Z.to_N r) (repeat 0 32) []), 0x13.
      split; [now apply (tb_endo_blob chain branch level TEndorsement r)|]. split.
      { unfold baker_magic, enc_tb_endo. change (4 + 32)%nat with 36%nat. rewrite app_assoc. cbn [app].
        rewrite nth_error_split by (rewrite app_length, be_length; lia). reflexivity. }
      split. { apply endo_bytes; [reflexivity|exact Hb|]. cbn [app]. constructor; [reflexivity|].
        apply bytes_ok_app; split; [apply be_ok|]. apply bytes_ok_app; split; [apply be_ok|]. apply bytes_ok_app; split; [apply be_ok|]. apply bytes_ok_app; split; [exact Z32|constructor]. }
      split; [unfold enc_tb_endo; rewrite !app_length, !be_length, repeat_length; cbn [length]; lia|].
      cbn [built stated]. apply (tb_endo_read _ branch false); [exact Lb|now apply W|now apply W].
    + destruct round as [r|]; [|contradiction].
      exists (enc_tb_endo (Z.to_N chain) branch true 0 (Z.to_N level) (Z.to_N r) (repeat 0 32) []), 0x12.
      split; [now apply (tb_endo_blob chain branch level TPreendorsement r)|]. split.
      { unfold baker_magic, enc_tb_endo. change (4 + 32)%nat with 36%nat. rewrite app_assoc. cbn [app].
        rewrite nth_error_split by (rewrite app_length, be_length; lia). reflexivity. }
      split. { apply endo_bytes; [reflexivity|exact Hb|]. cbn [app]. constructor; [reflexivity|].
        apply bytes_ok_app; split; [apply be_ok|]. apply bytes_ok_app; split; [apply be_ok|]. apply bytes_ok_app; split; [apply be_ok|]. apply bytes_ok_app; split; [exact Z32|constructor]. }
      split; [unfold enc_tb_endo; rewrite !app_length, !be_length, repeat_length; cbn [length]; lia|].
      cbn [built stated]. apply (tb_endo_read _ branch true); [exact Lb|now apply W|now apply W].
  - intros (Hc & Hl & Hr). cbn [blob blob_kind].
    assert (F : exists f, blob_fitness round = Some f /\ bytes_ok f /\
      ((f = repeat 1 5 /\ built (CallBlock chain level round) = PEmmy (Z.to_N level) false) \/
       exists r, r < 2 ^ 32 /\ f = repeat 2 5 ++ be 4 r /\ built (CallBlock chain level round) = PTB (Z.to_N level) r KBlock)).
    { assert (B1 : bytes_ok (repeat 1 5)) by (repeat constructor; reflexivity).
      destruct round as [r|]; [|exists (repeat 1 5); split; [reflexivity|split; [exact B1|left; split; reflexivity]]].
      rewrite (fitness_of r Hr). eexists. split; [reflexivity|]. destruct r as [|p|p]; [| |unfold word in Hr; lia].
      - change (0 =? 0)%Z with true. cbv iota. split; [exact B1|]. left. split; reflexivity.
      - change (Z.pos p =? 0)%Z with false. cbv iota. split.
        + apply bytes_ok_app. split; [|apply be_ok]. repeat constructor; reflexivity.
        + right. exists (Z.to_N (Z.pos p)). split; [now apply W|]. split; reflexivity. }
    destruct F as (f & Ef & Bf & Hf).
    assert (Lf : (5 <= length f <= 9)%nat)
      by (destruct Hf as [[-> _]|(r & _ & -> & _)]; [cbn [repeat length]; lia|rewrite app_length, be_length, repeat_length; lia]).
    exists (block_blob (Z.to_N chain) (Z.to_N level) f), (if nth 4 f 0 =? 2 then 0x11 else 0x01).
    split; [apply block_made; auto; lia|]. split.
    { unfold baker_magic. change (4 + 4 + 1 + 32 + 8 + 1 + 32 + 4 + 4)%nat with 90%nat.
      rewrite (proj2 (block_version _ _ f ltac:(lia))). destruct Hf as [[-> _]|(r & _ & -> & _)]; reflexivity. }
    split; [apply blob_bytes; [destruct (nth 4 f 0 =? 2); reflexivity|exact Bf]|].
    split; [unfold block_blob, block_head; rewrite !app_length, !be_length, !repeat_length; lia|].
    rewrite block_read; [|now apply W| |reflexivity].
    + f_equal. destruct Hf as [[-> E]|(r & Hr' & -> & E)]; rewrite E; [reflexivity|].
      change (nth 4 (repeat 2 5 ++ be 4 r) 0 =? 2) with true. cbv iota.
      change (skipn 5 (repeat 2 5 ++ be 4 r)) with (be 4 r). now rewrite unbe_be_small.
    + destruct Hf as [[-> _]|(r & Hr' & -> & _)]; [now left|right; now exists r].
Qed.
Lemma built_stated c : fits c -> (built c = stated c <-> ~ round_zero c).
Proof.
  destruct c as [chain branch level type round|chain level [[|p|p]|]]; cbn [built stated round_zero]; intros _;
    (split; [intros E H; (discriminate E || contradiction)|intros H; (reflexivity || (exfalso; apply H; exact Logic.I))]).
Qed.
(** Outside of their ranges the calls fail. *)
Lemma blob_in_range c m : match c with CallEndo _ branch _ _ _ => length branch = 32%nat /\ bytes_ok branch | _ => True end ->
  blob c = Some m -> fits c.
Proof.
  intros Hb E.
  assert (P4 : forall v w r, put 4 v w = Some r -> word v) by (intros v w r X; apply put_inv in X; exact X).
  destruct c as [chain branch level type round|chain level round]; cbn [blob fits] in *.
  - destruct Hb as [Lb Hb]. unfold get_endorsement_info in E.
    destruct (put 4 chain []) as [w0|] eqn:E0; [|discriminate E]. apply P4 in E0. split; [exact E0|]. split; [exact Lb|]. split; [exact Hb|].
    destruct type.
    + destruct (put 1 _ _) as [w1|]; [|discriminate E]. apply P4 in E. auto.
    + destruct (put 1 _ _) as [w1|]; [|discriminate E]. destruct (put 2 _ _) as [w2|]; [|discriminate E].
      destruct (put 4 level _) as [w3|] eqn:E3; [|discriminate E]. apply P4 in E3. destruct round as [r|]; [|discriminate E].
      destruct (put 4 r _) as [w4|] eqn:E4; [|discriminate E]. apply P4 in E4. auto.
    + destruct (put 1 _ _) as [w1|]; [|discriminate E]. destruct (put 2 _ _) as [w2|]; [|discriminate E].
      destruct (put 4 level _) as [w3|] eqn:E3; [|discriminate E]. apply P4 in E3. destruct round as [r|]; [|discriminate E].
      destruct (put 4 r _) as [w4|] eqn:E4; [|discriminate E]. apply P4 in E4. auto.
  - unfold get_blocklevel_info in E.
    destruct (put 4 chain []) as [w0|] eqn:E0; [|discriminate E]. apply P4 in E0. split; [exact E0|].
    destruct (put 4 level _) as [w1|] eqn:E1; [|discriminate E]. apply P4 in E1. split; [exact E1|].
    destruct (put 1 42 _) as [w2|]; [|discriminate E]. destruct (put 8 _ _) as [w3|]; [|discriminate E]. destruct (put 1 0 _) as [w4|]; [|discriminate E].
    destruct (blob_fitness round) as [f|] eqn:Ef; [|discriminate E]. destruct round as [[|p|p]|]; auto; [unfold word; lia| |].
    + unfold blob_fitness in Ef. destruct (write_u32 (Z.pos p)) as [b|] eqn:Ew; [|discriminate Ef].
      unfold write_u32 in Ew. destruct ((0 <=? Z.pos p) && (Z.pos p <? 2 ^ 32))%Z eqn:X; [unfold word; lia|discriminate Ew].
    + unfold blob_fitness in Ef. unfold write_u32 in Ef. cbn [Z.leb Z.compare andb] in Ef. discriminate Ef.
Qed.
Lemma blob_throws c : match c with CallEndo _ branch _ _ _ => length branch = 32%nat /\ bytes_ok branch | _ => True end ->
  (blob c = None <-> ~ fits c).
Proof.
  intros Hb. split; [intros E F; destruct (blob_message c F) as (m & _ & X & _); congruence|].
  intros NF. destruct (blob c) as [m|] eqn:E; [|reflexivity]. exfalso. exact (NF (blob_in_range c m Hb E)).
Qed.
