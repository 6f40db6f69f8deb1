(** Concrete messages, and the statements of [PropsBaking] in final form. *)
From Coq Require Import List NArith ZArith Lia Bool Arith ZifyBool ZifyNat ZifyN.
From Verif Require Import Base BaseFacts Codecs CodecsSpec CodecsFacts Baking BakingSpec BakingFacts.
Import ListNotations.
Open Scope N_scope.

(** ** Decoding *)

Lemma block_emmy_decodes h v more :
  header_ok h -> v = 0 \/ v = 1 -> h_fitness h = emmy_fit v more ->
  exists rem f, block_parse (enc_header h) =
    POk rem (mkBlock (h_chain h) (h_level h) (h_proto h) (h_pred h) (h_time h) (h_vpass h)
                     (h_ophash h) (FEmmy v f)).
Proof.
  intros O V F. do 2 eexists. apply block_parse_enc; [exact O|].
  rewrite F. apply fitness_emmy_enc; exact V.
Qed.

Lemma block_tb_decodes h more round :
  header_ok h -> round < 2 ^ 32 -> h_fitness h = [2] :: more ++ [be 4 round] ->
  exists rem f, block_parse (enc_header h) =
    POk rem (mkBlock (h_chain h) (h_level h) (h_proto h) (h_pred h) (h_time h) (h_vpass h)
                     (h_ophash h) (FTenderbake f round)).
Proof.
  intros O R F. destruct (fitness_tb_enc more round R) as [f E].
  exists f, f. apply block_parse_enc; [exact O|]. rewrite F. exact E.
Qed.

(** ** The check on encoded messages *)

Lemma check_block_emmy h v more hw :
  header_ok h -> v = 0 \/ v = 1 -> h_fitness h = emmy_fit v more ->
  (h_level h < 2 ^ 31 /\ cpos_lt (wm_pos hw) (PEmmy (h_level h) false) ->
   consensus_check PreBlock (enc_header h) hw = Some (AOk (WEmmy (h_level h) false))) /\
  (~ (h_level h < 2 ^ 31 /\ cpos_lt (wm_pos hw) (PEmmy (h_level h) false)) ->
   consensus_check PreBlock (enc_header h) hw = Some (AErr DataInvalid)).
Proof.
  intros O V F. destruct (block_emmy_decodes h v more O V F) as (rem & f & E).
  unfold consensus_check. rewrite E. cbn [block_matches bd_fitness andb].
  match goal with |- context [block_validate ?b hw] => pose proof (block_validate_iff b hw) as I end.
  cbn [bd_level block_watermark bd_fitness wm_pos] in *.
  destruct (block_validate _ _); split; intros H; try reflexivity.
  - exfalso. apply H, I. reflexivity.
  - exfalso. enough (false = true) by discriminate. apply I. exact H.
Qed.

Lemma check_block_tb h more round hw :
  header_ok h -> round < 2 ^ 32 -> h_fitness h = [2] :: more ++ [be 4 round] ->
  (h_level h < 2 ^ 31 /\ cpos_lt (wm_pos hw) (PTB (h_level h) round KBlock) ->
   consensus_check PreTBBlock (enc_header h) hw
   = Some (AOk (WTenderbake (h_level h) false round false))) /\
  (~ (h_level h < 2 ^ 31 /\ cpos_lt (wm_pos hw) (PTB (h_level h) round KBlock)) ->
   consensus_check PreTBBlock (enc_header h) hw = Some (AErr DataInvalid)).
Proof.
  intros O V F. destruct (block_tb_decodes h more round O V F) as (rem & f & E).
  unfold consensus_check. rewrite E. cbn [block_matches bd_fitness andb].
  match goal with |- context [block_validate ?b hw] => pose proof (block_validate_iff b hw) as I end.
  cbn [bd_level block_watermark bd_fitness wm_pos] in *.
  destruct (block_validate _ _); split; intros H; try reflexivity.
  - exfalso. apply H, I. reflexivity.
  - exfalso. enough (false = true) by discriminate. apply I. exact H.
Qed.

Lemma check_endo_emmy chain branch level rest hw :
  chain < 2 ^ 32 -> length branch = 32%nat -> level < 2 ^ 32 ->
  (level < 2 ^ 31 /\ cpos_lt (wm_pos hw) (PEmmy level true) ->
   consensus_check PreEndorsement (enc_emmy_endo chain branch level rest) hw
   = Some (AOk (WEmmy level true))) /\
  (~ (level < 2 ^ 31 /\ cpos_lt (wm_pos hw) (PEmmy level true)) ->
   consensus_check PreEndorsement (enc_emmy_endo chain branch level rest) hw
   = Some (AErr DataInvalid)).
Proof.
  intros H1 H2 H3. unfold consensus_check. rewrite emmy_endo_parse_enc by assumption.
  cbn [endo_matches andb].
  match goal with |- context [endo_validate ?b hw] => pose proof (endo_validate_iff b hw) as I end.
  cbn [endo_level endo_watermark wm_pos] in *.
  destruct (endo_validate _ _); split; intros H; try reflexivity.
  - exfalso. apply H, I. reflexivity.
  - exfalso. enough (false = true) by discriminate. apply I. exact H.
Qed.

Lemma check_endo_tb chain branch is_pre slot level round payload rest hw :
  chain < 2 ^ 32 -> length branch = 32%nat -> slot < 2 ^ 16 -> level < 2 ^ 32 -> round < 2 ^ 32 ->
  length payload = 32%nat ->
  let d := enc_tb_endo chain branch is_pre slot level round payload rest in
  let pos := PTB level round (if is_pre then KPre else KEnd) in
  let pre := if is_pre then PreTBPreendorsement else PreTBEndorsement in
  (level < 2 ^ 31 /\ cpos_lt (wm_pos hw) pos ->
   consensus_check pre d hw = Some (AOk (WTenderbake level (negb is_pre) round true))) /\
  (~ (level < 2 ^ 31 /\ cpos_lt (wm_pos hw) pos) ->
   consensus_check pre d hw = Some (AErr DataInvalid)).
Proof.
  intros H1 H2 H3 H4 H5 H6 d pos pre. subst d pos pre.
  unfold consensus_check.
  pose proof (tb_endo_parse_enc chain branch is_pre slot level round payload rest H1 H2 H3 H4 H5 H6) as E.
  destruct is_pre; rewrite E; cbn [endo_matches andb negb];
    match goal with |- context [endo_validate ?b hw] => pose proof (endo_validate_iff b hw) as I end;
    cbn [endo_level endo_watermark wm_pos] in *;
    destruct (endo_validate _ _); split; intros H; try reflexivity;
    exfalso; first [apply H, I; reflexivity | enough (false = true) by discriminate; apply I; exact H].
Qed.

(** ** Panics *)

Lemma check_panic_iff p l hw : bytes_ok l ->
  (consensus_check p l hw = None <->
   (p = PreBlock \/ p = PreTBBlock) /\
   exists before fit after,
     l = before ++ be 4 (len fit) ++ fit ++ after /\ length before = 82%nat /\
     (5 <= length fit < 9)%nat /\ nth 4 fit 0 = 2).
Proof.
  intros B.
  assert (X : block_parse l = PPanic <->
              exists before fit after,
                l = before ++ be 4 (len fit) ++ fit ++ after /\ length before = 82%nat /\
                (5 <= length fit < 9)%nat /\ nth 4 fit 0 = 2).
  { rewrite block_panic_iff. unfold short_tb_fitness. split.
    - intros (L & S & V).
      assert (LF : length (fitness_bytes l) = N.to_nat (field 82 4 l))
        by (unfold fitness_bytes; apply slice_length; lia).
      assert (4 < length (fitness_bytes l))%nat by (apply nth_error_Some; congruence).
      exists (firstn 82 l), (fitness_bytes l), (skipn (86 + N.to_nat (field 82 4 l)) l).
      split; [|split; [rewrite firstn_length; lia|split; [lia|]]].
      + assert (E : be 4 (len (fitness_bytes l)) = slice 82 4 l).
        { unfold len. rewrite LF, N2Nat.id. unfold field.
          rewrite <- (be_unbe (slice 82 4 l)) by (apply bytes_ok_slice; exact B).
          rewrite slice_length by lia. reflexivity. }
        rewrite E. unfold slice, fitness_bytes, slice.
        rewrite <- (firstn_skipn 82 l) at 1. f_equal.
        rewrite <- (firstn_skipn 4 (skipn 82 l)) at 1. f_equal.
        rewrite skipn_skipn'. change (82 + 4)%nat with 86%nat.
        rewrite <- (firstn_skipn (N.to_nat (field 82 4 l)) (skipn 86 l)) at 1. f_equal.
        now rewrite skipn_skipn'.
      + now apply nth_error_nth with (d := 0) in V.
    - intros (bf & fit & af & -> & Lb & Lf & V).
      assert (F : field 82 4 (bf ++ be 4 (len fit) ++ fit ++ af) = len fit).
      { rewrite field_skip by lia. rewrite Lb. cbn [Nat.sub].
        rewrite field_here by apply be_length. apply unbe_be_small.
        unfold len. change (256 ^ N.of_nat 4) with 4294967296. lia. }
      assert (FB : fitness_bytes (bf ++ be 4 (len fit) ++ fit ++ af) = fit).
      { unfold fitness_bytes. rewrite F. unfold slice. rewrite app_assoc.
        rewrite skipn_app_exact by (rewrite app_length, be_length, Lb; reflexivity).
        apply firstn_app_exact. unfold len. lia. }
      rewrite F, FB, !app_length, be_length. unfold len. split; [lia|]. split; [lia|].
      rewrite <- V. apply nth_error_nth'. lia. }
  unfold consensus_check.
  pose proof (endo_not_panic l) as NP.
  destruct p;
    first [ split; [discriminate|intros [[H|H] _]; discriminate]
          | destruct (endo_parse l) as [rem e| |]; try congruence;
            (split; [try (destruct (_ && _)); discriminate|intros [[H|H] _]; discriminate])
          | rewrite <- X; destruct (block_parse l) as [rem b| |];
            (split; [try (destruct (_ && _)); intros; try discriminate; auto
                    |intros [_ H]; try discriminate; reflexivity]) ].
Qed.

(** ** Unreadable watermark *)

Lemma unknown_tag_refuses_emmy p q l wm :
  nth 0 q 0 <> 0 -> nth 0 q 0 <> 1 -> p = PreBlock \/ p = PreEndorsement ->
  consensus_check p l (wm_parse q) <> Some (AOk wm).
Proof.
  intros H0 H1 P. rewrite wm_parse_unknown by assumption. intros H.
  assert (exists m, preemble_of_byte m = Some p /\ (m = 1 \/ m = 2)) as (m & Pm & Hm).
  { destruct P as [-> | ->]; [exists 1|exists 2]; split; auto. }
  pose proof (consensus_check_ok m p l _ wm Pm H) as (S & L & V).
  destruct Hm as [-> | ->]; cbn [signed_pos N.eqb Pos.eqb] in S; injection S as S;
    rewrite <- S in L; cbn [wm_pos cpos_lt] in L;
    destruct wm; cbn [wm_pos wm_level] in *; try discriminate S; injection S as S S';
    rewrite ?S, ?S' in *; change (2 ^ 32) with 4294967296 in *; change (2 ^ 31) with 2147483648 in *; lia.
Qed.

(** ** Demo messages *)

Definition demo_hash (k : N) : bytes := repeat k 32.

Definition demo_emmy_header : header :=
  mkHeader 0x7A06A770 1500000 8 (demo_hash 1) 1622505600 4 (demo_hash 2)
           (emmy_fit 1 [[0; 0; 0; 0; 0; 0x16; 0xE3; 0x60]]) (repeat 9 40).
Definition demo_tb_header : header :=
  mkHeader 0x7A06A770 2500000 12 (demo_hash 1) 1657000000 4 (demo_hash 2)
           (tb_fit 2500000 (Some 1) 0 3) (repeat 9 50).

Lemma demo_headers_ok : header_ok demo_emmy_header /\ header_ok demo_tb_header.
Proof. split; repeat split. Qed.

Lemma tb_fit_shape level locked pr round :
  tb_fit level locked pr round =
  [2] :: [be 4 level; match locked with None => [] | Some r => be 4 r end; be 4 (2 ^ 32 - 1 - pr)]
      ++ [be 4 round].
Proof. reflexivity. Qed.

Lemma demo_check_emmy :
  consensus_check PreBlock (enc_header demo_emmy_header) (WEmmy 1499999 true)
  = Some (AOk (WEmmy 1500000 false)).
Proof. vm_compute. reflexivity. Qed.

Lemma demo_check_tb :
  consensus_check PreTBBlock (enc_header demo_tb_header) (WTenderbake 2500000 true 2 true)
  = Some (AOk (WTenderbake 2500000 false 3 false)) /\
  consensus_check PreTBBlock (enc_header demo_tb_header) (WTenderbake 2500000 false 3 false)
  = Some (AErr DataInvalid).
Proof. split; vm_compute; reflexivity. Qed.

Definition demo_pre : bytes := enc_tb_endo 0x7A06A770 (demo_hash 3) true 17 2500000 3 (demo_hash 4) [].
Lemma demo_check_pre :
  consensus_check PreTBPreendorsement demo_pre (WTenderbake 2500000 false 3 false)
  = Some (AOk (WTenderbake 2500000 false 3 true)).
Proof. vm_compute. reflexivity. Qed.

(** A Tenderbake block whose fitness stops right after the version byte. *)
Definition demo_short_block : bytes :=
  zeros 82 ++ be 4 5 ++ [0; 0; 0; 1; 2].
Lemma demo_short_panics hw : consensus_check PreTBBlock demo_short_block hw = None.
Proof. reflexivity. Qed.

Lemma demo_unknown_tag_signs_tb :
  let q := 7 :: zeros 51 in
  nth 0 q 0 <> 0 /\ nth 0 q 0 <> 1 /\
  consensus_check PreTBPreendorsement demo_pre (wm_parse q)
  = Some (AOk (WTenderbake 2500000 false 3 true)).
Proof. cbv zeta. split; [discriminate|]. split; [discriminate|]. vm_compute. reflexivity. Qed.
