(** Further calls of the host library: legacy signatures of bakers, the confirmed query, and
    the conversation of the signing calls. *)
From Coq Require Import List NArith ZArith Lia Bool Arith ZifyBool ZifyNat ZifyN.
From Verif Require Import Base BaseFacts Flash Codecs CodecsSpec CodecsFacts Upload UploadSpec Baking BakingSpec BakingFacts
  Operations OperationsSpec Oracles Address AddressSpec AddressFacts Device DeviceSpec DeviceFacts DeviceAnswers DeviceCommands ServiceSpec DeviceLive
  Client ClientSpec ClientFacts ClientSign ClientCalls ClientAdmin TalkSpec.
Import ListNotations.
Open Scope N_scope.

Section More.
  Variable C : config.
  Variable O : oracles.
  Variable H : host.
  Hypothesis HK : host_ok H O.

  Lemma legacy_consensus text k kp kind message q dg s mp w f u es sched later user :
    Forall slot_fault_ok f -> Forall up_fault_ok u -> Forall event_ok es -> len es + 1 < 2 ^ 64 ->
    let d := snd (run C O (dev_fresh f u) es) in
    let data := (match kind with LkBlock => 1 | _ => 2 end) :: message in
    kind = LkBlock \/ kind = LkEndorsement ->
    signable C O d text k data dg s sched -> d_faults d = [] -> deciding user sched ->
    cf_baking C = true -> consensus_message data q ->
    wear_read (d_key d) = Some (RData kp) -> key_layout kp k ->
    wear_read (d_main d) = Some (RData mp) -> mark_bytes mp w ->
    exists r d', legacy_sign_with_hash H (plugged C O) text (fst k) message kind (d, sched ++ later)
                 = (r, (d', later)) /\ d_ui d' = None /\ sig_hash H message kind = dg /\
      (cpos_level q < 2 ^ 31 /\ cpos_lt (wm_pos w) q ->
       r = mkSignRes 0x9000 (Some dg) (Some s) /\
       d_log d' = mkSig SrcConsensus k dg data :: d_log d /\
       (exists mp' w', wear_read (d_main d') = Some (RData mp') /\ mark_bytes mp' w' /\ wm_pos w' = q) /\
       forall sl, sl <> SMain -> wear_read (get_slot sl d') = wear_read (get_slot sl d)) /\
      (~ (cpos_level q < 2 ^ 31 /\ cpos_lt (wm_pos w) q) ->
       r = mkSignRes 0x6984 None None /\ untouched d d').
  Proof.
    intros Ff Fu Fe Le d data Hk [U F T L B Z P Hh Hd Hs Ls] Fd Du Hb M Kr Kl Mr Mb.
    destruct (sign_message_run C O H HK text k data true 0x0F true d sched later user T L B ltac:(discriminate) eq_refl Z P Du)
      as (first & mids & last & Rq & Run).
    destruct (consensus_request_served C O f u es 0x0F k kp data q first mids last dg s mp w Ff Fu Fe Le U Fd F Hb
      ltac:(cbn [In]; auto) Rq M Kr Kl Mr Mb Hh ltac:(lia) Hs Ls) as (a & d' & R & Ui & Yes & No).
    fold d in R, Run. specialize (Run a d' R).
    assert (Em : legacy_magic kind = match kind with LkBlock => 1 | _ => 2 end) by (destruct Hk as [->| ->]; reflexivity).
    unfold legacy_sign_with_hash, sig_hash. rewrite Em. fold data. rewrite Run, (hk_blake2b _ _ HK _ _ _ Hh).
    destruct (pos_dec (wm_pos w) q) as [D|D].
    - destruct (Yes D) as (-> & Lg & Mk & Sl). change (0x0F =? 0x04) with false. cbv iota. cbn [settle fst snd].
      rewrite read_hashed by exact Hd. eexists _, d'. split; [reflexivity|]. split; [exact Ui|]. split; [reflexivity|].
      split; [auto|]. intros X. contradiction.
    - destruct (No D) as (-> & Un). cbn [settle fst snd].
      eexists _, d'. split; [reflexivity|]. split; [exact Ui|]. split; [reflexivity|]. split; [intros X; contradiction|].
      intros _. split; [reflexivity|exact Un].
  Qed.

  Hypothesis OK : oracles_ok O.

  Lemma confirmed_query d (k : key) pk old later : d_ui d = None -> cf_baking C = true -> apdu_ok old ->
    stored_key d k -> key_ok k -> addressable O k pk -> roomy C 44 ->
    let call user := query_auth_key (plugged C O) true (d, (old, user) :: later) in
    (exists d', call EApprove = (JData 0x9000 (byte_of_curve (fst k), concat (map (be 4) (snd k))), (d', later)) /\ untouched d d') /\
    (exists d', call EReject = (JCode 0x6986, (d', later)) /\ untouched d d').
  Proof.
    intros U Cb Ao Sk Kk (Hk & l & h & F & Hh & Tw) R call.
    destruct (key_text_new O _ _ _ _ OK F Hh Tw) as (a & t & Ha & _ & _).
    destruct (arrives_ok 0xAD 1 0 [] old d ltac:(cbn [length]; lia) ltac:(apply Forall_nil) eq_refl eq_refl eq_refl Ao U)
      as (A1 & A2 & A3 & _).
    destruct (R (VQuery true k a)) as (room & Rm & Lm).
    set (buf := arrives 0xAD 1 0 [] old) in *. set (rx := 5 + len (@nil N)) in *.
    assert (Q : exists d1, step C O d (EApdu buf rx) = (APending, set_ui (Some (VQuery true k a)) d1) /\ frame eff_none d d1).
    { rewrite (step_command C O d buf rx 0xAD A1 A2). destruct A2 as (_ & _ & E0 & E1).
      assert (Q : dispatch C O buf = h_query C O true buf) by (rewrite (dispatch_at C O buf 0xAD E0 E1), Cb; reflexivity).
      rewrite Q. destruct Sk as (p & Rd & Kp). unfold h_query, read_baking_key. unfold bind at 1. unfold bind at 1.
      pose proof (keeps_read_or eff_none SKey ConditionsNotSatisfied d) as Fr.
      unfold wear_read in Rd.
      unfold read_or, read_slot, bind in *. cbn [get_slot] in *.
      destruct (wear_init (d_key d)) as [i|]; [|discriminate]. injection Rd as Rd. rewrite Rd in *.
      cbn [snd ret] in Fr. unfold ret at 1. rewrite Kp. cbn [of_ares]. unfold ret at 1. cbn [of_option]. unfold ret at 1.
      unfold address, pubkey, bind. rewrite Hk. cbn [of_option]. unfold ret at 1. rewrite Ha. cbn [of_sres]. unfold ret at 1.
      unfold needs_review, apdu_p1. rewrite A3. change (1 <=? 1) with true. cbn iota. unfold show. rewrite Rm.
      eexists; split; [reflexivity|exact Fr]. }
    destruct Q as (d1 & Q & Fr). set (d2 := set_ui (Some (VQuery true k a)) d1) in *.
    assert (U2 : d_ui d2 = Some (VQuery true k a)) by (subst d2; destruct d1; reflexivity).
    assert (V : untouched d (set_ui None d2)).
    { destruct (untouched_frame d d1 Fr) as [V1 V2]. split; [subst d2; destruct d1; exact V1|].
      intros sl. rewrite <- (V2 sl). subst d2. destruct d1, sl; reflexivity. }
    unfold call, query_auth_key. split.
    - exists (set_ui None d2). split; [|exact V].
      rewrite (ask_review C O _ _ _ _ _ _ _ _ _ _ _ _ Q (query_approved C O d2 true k a room U2 Rm Lm Kk) ltac:(cbn [length]; lia)).
      rewrite read_good, read_key_ok by (destruct Kk as (_ & X & _); unfold BIP32_MAX_LENGTH in X; lia). reflexivity.
    - exists (set_ui None d2). split; [|exact V].
      assert (Rj : step C O d2 EReject = (AReply [0x69; 0x86], set_ui None d2)).
      { cbn [step]. unfold decide. rewrite U2, Rm. cbn [reject]. unfold bind, fail. cbn [finish].
        replace (room <? len [] + 2) with false by (cbn; lia). reflexivity. }
      rewrite (ask_review C O _ _ _ _ _ _ _ _ _ _ _ _ Q Rj ltac:(cbn [length]; lia)).
      rewrite read_bad by discriminate. reflexivity.
  Qed.
End More.

(** ** The conversation *)

Inductive cut : list bytes -> Prop :=
| CutLast x : 1 <= len x <= 250 -> cut [x]
| CutMore x xs : len x = 250 -> cut xs -> cut (x :: xs).
Lemma chunk_loop_cut fuel : forall i m, (length m < N.to_nat i + fuel)%nat -> i < len m -> cut (chunk_loop fuel i m).
Proof.
  induction fuel as [|fuel IH]; intros i m L Hi; [unfold len in Hi; lia|]. cbn [chunk_loop].
  replace (i <? len m) with true by lia.
  replace (js_slice (Z.of_N i) (Z.of_N (i + CHUNK_SIZE)) m) with (firstn 250 (skipn (N.to_nat i) m)).
  2:{ replace (Z.of_N i) with (Z.of_nat (N.to_nat i)) by lia.
      replace (Z.of_N (i + CHUNK_SIZE)) with (Z.of_nat (N.to_nat i + 250)) by (unfold CHUNK_SIZE; lia).
      rewrite js_slice_nat by lia. f_equal. lia. }
  assert (Lp : length (firstn 250 (skipn (N.to_nat i) m)) = Nat.min 250 (length m - N.to_nat i))
    by now rewrite firstn_length, skipn_length.
  destruct (N.ltb_spec (i + CHUNK_SIZE) (len m)) as [G|G]; unfold CHUNK_SIZE, len in *.
  - apply CutMore; [unfold len; lia|]. apply IH; unfold len; lia.
  - replace (chunk_loop fuel (i + 250) m) with (@nil bytes).
    + apply CutLast. unfold len. lia.
    + destruct fuel; [reflexivity|]. cbn [chunk_loop]. replace (i + 250 <? len m) with false by (unfold len; lia). reflexivity.
Qed.

Lemma send_logged {W} (X : transport W) idx num chunk legacy c ins wh w l : len chunk <= 255 ->
  let cmd := [0x80; ins; chunk_p1 idx num legacy; chunk_p2 idx c; len chunk] ++ chunk in
  sign_send_chunk (logged X) idx num chunk legacy c ins wh (w, l) =
  (read_sign wh (fst (X w cmd)), (snd (X w cmd), l ++ [(cmd, fst (X w cmd))])).
Proof.
  intros L cmd. unfold sign_send_chunk, send_codes. replace (256 <=? len chunk) with false by lia.
  fold HOST_CLA in cmd. unfold logged. cbn [fst snd]. fold cmd. destruct (X w cmd) as [[r|] w']; cbn [fst snd read_sign]; [|reflexivity].
  destruct (len r <? 2); [reflexivity|]. destruct (existsb (N.eqb (status_of r)) SIGN_CODES); reflexivity.
Qed.

Lemma read_code wh r : code_in r (sr_code (read_sign wh r)).
Proof.
  destruct r as [r|]; [|reflexivity]. cbn [read_sign code_in]. destruct (N.ltb_spec (len r) 2) as [Hr|Hr]; [right; auto|]. left.
  assert (E : sr_code (if existsb (N.eqb (status_of r)) SIGN_CODES then
      if (status_of r =? NO_ERRORS) && (2 <? len r) then
        if wh
        then mkSignRes (status_of r) (Some (js_slice 0 32 r)) (Some (js_slice 32 (-2) r))
        else mkSignRes (status_of r) (Some (repeat 0 32)) (Some (js_slice 0 32 r))
      else mkSignRes (status_of r) None None
    else mkSignRes (status_of r) None None) = status_of r)
    by (destruct (existsb _ _); [destruct (_ && _); [destruct wh|]|]; reflexivity).
  rewrite E. clear E.
  destruct (last_split r) as (r1 & b & ->); [intros ->; unfold len in Hr; cbn in Hr; lia|].
  destruct (last_split r1) as (r2 & a & ->); [intros ->; unfold len in Hr; cbn in Hr; lia|].
  exists r2, a, b. rewrite <- app_assoc. cbn [app]. split; [reflexivity|]. rewrite status_of_app. lia.
Qed.
Lemma read_returned r : returned r (sr_code (read_sign true r)) (sr_hash (read_sign true r)) (sr_sig (read_sign true r)).
Proof.
  split.
  - intros [D|D].
    + destruct r as [r|]; [|split; reflexivity]. cbn [read_sign] in *. destruct (len r <? 2); [split; reflexivity|].
      destruct (existsb _ _); [|split; reflexivity]. destruct (N.eqb_spec (status_of r) NO_ERRORS) as [E|E]; [|split; reflexivity].
      cbn [andb] in *. destruct (2 <? len r); [|split; reflexivity]. cbn [sr_code] in D. contradiction.
    + subst r. split; reflexivity.
  - intros h s -> Lh. cbn [read_sign]. rewrite app_assoc. rewrite status_of_app.
    assert (L2 : len ((h ++ s) ++ [0x90; 0x00]) = len h + len s + 2) by (unfold len; rewrite !app_length; cbn [length]; lia).
    rewrite L2. assert (Lh' : len h = 32) by (unfold len; lia). rewrite Lh'.
    replace (32 + len s + 2 <? 2) with false by lia. change (existsb (N.eqb (0x90 * 256 + 0)) SIGN_CODES) with true.
    replace (2 <? 32 + len s + 2) with true by lia. cbn [andb N.eqb Pos.eqb]. change (0x90 * 256 + 0 =? NO_ERRORS) with true. cbv iota. cbn [andb sr_hash sr_sig].
    split; f_equal.
    + rewrite <- app_assoc. change 32%Z with (Z.of_nat 32). change 0%Z with (Z.of_nat 0). rewrite js_slice_nat by lia. cbn [skipn].
      rewrite Nat.sub_0_r. now apply firstn_app_exact.
    + change 32%Z with (Z.of_nat 32). rewrite <- Lh. rewrite js_slice_drop2 by (rewrite app_length; lia).
      rewrite skipn_app, skipn_all, Nat.sub_diag. reflexivity.
Qed.

Lemma talk_rest {W} (X : transport W) num (legacy : bool) c ins chunks : cut chunks -> forall i res w l, (1 <= i)%nat -> num = (i + length chunks)%nat ->
  exists cs l' r w', carries ins (if legacy then 0x81 else 2) (concat chunks) cs /\
    sign_rest (logged X) i num chunks legacy c ins true res (w, l) = (read_sign true r, (w', l ++ l')) /\
    talks cs l' r (sr_code (read_sign true r)).
Proof.
  intros Cu. induction Cu as [x Hx|x xs Hx Cu IH]; intros i res w l Hi Hn.
  - cbn [sign_rest length concat] in *. rewrite app_nil_r. rewrite send_logged by lia.
    replace (chunk_p1 (1 + i) num legacy) with (if legacy then 0x81 else 2).
    2:{ unfold chunk_p1. replace (1 + i =? 1)%nat with false by (symmetry; apply Nat.eqb_neq; lia).
        replace (1 + i =? num)%nat with true by (symmetry; apply Nat.eqb_eq; lia). destruct legacy; reflexivity. }
    replace (chunk_p2 (1 + i) c) with 0
      by (unfold chunk_p2; replace (1 + i =? 1)%nat with false by (symmetry; apply Nat.eqb_neq; lia); reflexivity).
    cbv zeta. set (cmd := [0x80; ins; if legacy then 0x81 else 2; 0; len x] ++ x). destruct (X w cmd) as [r w']. cbn [fst snd].
    exists [cmd], [(cmd, r)], r, w'. split; [now apply CarryLast|]. split.
    + destruct (sr_code (read_sign true r) =? NO_ERRORS); reflexivity.
    + apply TalkEnd. apply read_code.
  - cbn [sign_rest length concat] in *. rewrite send_logged by lia.
    replace (chunk_p1 (1 + i) num legacy) with 1.
    2:{ unfold chunk_p1. replace (1 + i =? 1)%nat with false by (symmetry; apply Nat.eqb_neq; lia).
        destruct Cu; cbn [length] in Hn; replace (1 + i =? num)%nat with false by (symmetry; apply Nat.eqb_neq; lia); reflexivity. }
    replace (chunk_p2 (1 + i) c) with 0
      by (unfold chunk_p2; replace (1 + i =? 1)%nat with false by (symmetry; apply Nat.eqb_neq; lia); reflexivity).
    cbv zeta. rewrite Hx. set (cmd := [0x80; ins; 1; 0; 250] ++ x). destruct (X w cmd) as [r w']. cbn [fst snd].
    destruct (IH (S i) (read_sign true r) w' (l ++ [(cmd, r)]) ltac:(lia) ltac:(lia)) as (cs & l' & r' & w'' & I1 & I2 & I3).
    pose proof (read_code true r) as Rc.
    destruct (N.eqb_spec (sr_code (read_sign true r)) NO_ERRORS) as [E|E].
    + exists (cmd :: cs), ((cmd, r) :: l'), r', w''. split; [now apply CarryMore|]. split.
      * rewrite I2, <- app_assoc. reflexivity.
      * apply TalkMore; [now rewrite E in Rc|exact I3].
    + exists (cmd :: cs), [(cmd, r)], r, w'. split; [now apply CarryMore|]. split; [reflexivity|].
      apply TalkStop; [exact Rc|exact E].
Qed.

(** Nothing is sent for a text that is not a path; otherwise the path goes out, and the
    message until a command is refused. *)
Lemma sign_talk {W} (H : host) (X : transport W) text c message (legacy : bool) ins w :
  message <> [] ->
  match serialize_path H text with
  | None => sign_message H (logged X) text c message legacy ins true (w, []) = (mkSignRes 0xFFFF None None, (w, []))
  | Some sp => len sp <= 255 ->
    exists cs r0 l r w' code hash sig, carries ins (if legacy then 0x81 else 2) message cs /\
      sign_message H (logged X) text c message legacy ins true (w, []) =
        (mkSignRes code hash sig, (w', ([0x80; ins; 0; byte_of_curve c; len sp] ++ sp, r0) :: l)) /\
      talks cs l r code /\ returned r code hash sig
  end.
Proof.
  intros Ne. unfold sign_message. destruct (serialize_path H text) as [sp|]; [|reflexivity]. intros Ls.
  unfold prepare_chunks. assert (Cu : cut (chunk_loop (S (length message)) 0 message)).
  { apply chunk_loop_cut; [lia|]. destruct message; [contradiction|]. unfold len. cbn [length]. lia. }
  assert (Cc : concat (chunk_loop (S (length message)) 0 message) = message)
    by (destruct (chunk_loop_spec (S (length message)) 0 message) as (A & _); [lia|exact A]).
  rewrite send_logged by exact Ls. cbv zeta.
  replace (chunk_p1 1 (S (length (chunk_loop (S (length message)) 0 message))) legacy) with 0.
  2:{ unfold chunk_p1. destruct Cu; reflexivity. }
  change (chunk_p2 1 c) with (byte_of_curve c).
  set (cmd := [0x80; ins; 0; byte_of_curve c; len sp] ++ sp). destruct (X w cmd) as [r0 w0]. cbn [fst snd app].
  destruct (talk_rest X (S (length (chunk_loop (S (length message)) 0 message))) legacy c ins _ Cu 1
    (mkSignRes (sr_code (read_sign true r0)) None None) w0 [(cmd, r0)] ltac:(lia) ltac:(lia)) as (cs & l & r & w' & T1 & T2 & T3).
  rewrite T2. rewrite Cc in T1. pose proof (read_returned r) as Rr. destruct (read_sign true r) as [code hash sig]. cbn [sr_code sr_hash sr_sig] in *.
  exists cs, r0, l, r, w', code, hash, sig. auto.
Qed.
