(** What the buttons of the emulator tests decide, and what a test that signs says. *)
From Coq Require Import NArith ZArith Bool Arith String List Lia.
From Coq Require Import ZifyBool ZifyNat ZifyN.
From Verif Require Import Base BaseFacts Flash Codecs CodecsSpec CodecsFacts Oracles Address AddressSpec AddressFacts AddressExamples Upload UploadSpec UploadFacts
  Baking BakingSpec Operations OperationsSpec OperationsFacts OperationsExamples
  Text TextSpec TextExamples Bakers BakersSpec Device DeviceSpec ServiceSpec DeviceFacts DeviceLive DeviceAdmin DeviceProofs DeviceSigs DeviceReviews DeviceCases DeviceAnswers DeviceCommands Screens ScreensSpec
  ScreensFacts ScreensViews ScreensPages ScreensDevice ScreensExamples Zui UiSpec ZuiFacts ZuiNav ZuiReach ZuiMoves UiDevice UiFacts UiRun UiCases HandSpec HandFacts
  Client ClientSpec ClientText ClientFacts ClientSign ClientCalls ClientAdmin Desk DeskFacts ArrowsSpec ArrowsFacts Signs.
Import ListNotations.
Open Scope list_scope.
Open Scope N_scope.

Lemma arrow_rights n : Forall arrow (repeat Right n).
Proof. apply Forall_forall. intros b Hb. apply repeat_spec in Hb. now right. Qed.
Lemma arrow_end : Forall arrow (repeat Right 30 ++ [Left]).
Proof. apply Forall_app. split; [apply arrow_rights|constructor; [now left|constructor]]. Qed.
Lemma end_split : to_the_end = (repeat Right 30 ++ [Left]) ++ [Both].
Proof. reflexivity. Qed.
Lemma walk_end n : walk (S n) 0 (repeat Right 30 ++ [Left]) = pred (Nat.min 30 (S n)).
Proof. rewrite walk_app, walk_rights by lia. reflexivity. Qed.
Lemma bytes_eqb_same a : bytes_eqb a a = true.
Proof. now apply bytes_eqb_eq. Qed.

Lemma sum_bounds (P Q : row -> bytes * list bytes -> Prop) rows screens :
  Forall2 (fun row hs => P row hs /\ Q row hs /\ (1 <= List.length (snd hs) <= 2)%nat) rows screens ->
  (List.length rows <= list_sum (map (fun hs => List.length (snd hs)) screens) <= 2 * List.length rows)%nat.
Proof.
  induction 1 as [|row hs rows screens (_ & _ & B) F IH]; [cbn; lia|].
  cbn [map list_sum fold_right List.length] in *. fold (list_sum (map (fun hs => List.length (snd hs)) screens)). lia.
Qed.

Section Held.
  Variables (C : config) (O : oracles) (hw : hardware) (f u : list fault).
  Hypotheses (K : oracles_ok O) (Uok : Forall up_fault_ok u).
  Notation fresh := (ui_fresh hw f u).
  Notation uirun := (ui_run C O known hw).
  Notation at_ is := (snd (ui_run C O known hw fresh is)).
  Notation said is := (fst (ui_run C O known hw fresh is)).
  Notation pending is := (d_ui (u_dev (at_ is))).
  Notation screen is := (u_zui (at_ is)).
  Notation press_all bs := (map IPress bs).

  (** A message of the wallet, up to its review. *)
  Lemma wallet_waits is ins k data first mids last dg s rows : Forall input_ok is ->
    let d := u_dev (at_ is) in
    d_ui d = None -> d_ufaults d = [] -> upload_command C ins = Some AccSign ->
    request ins k data first mids last -> wallet_sheet data dg rows ->
    o_blake2b O 32 data = Some dg -> o_sign O (fst k) (snd k) dg = Some s -> (List.length s <= 100)%nat ->
    (forall sh p, exists room, cf_room C (VSign sh dg p data) = Some room /\ len dg + len s + 2 <= room) ->
    exists v, let before := is ++ map asked (first :: mids) in
      let d' := u_dev (at_ (before ++ [asked last])) in
      Forall input_ok before /\ said before = said is ++ map (fun _ => go_on) (first :: mids) /\
      fst (run C O d (map sent (first :: mids))) = map (fun _ => go_on) (first :: mids) /\
      fst (ui_step C O known hw (at_ before) (asked last)) = [APending] /\ d_ui d' = Some v /\ view_sheet v = Some rows /\ untouched d d' /\
      (fst (step C O d' EApprove) = AReply ((if (ins =? 0x04) || (ins =? 0x05) then [] else dg) ++ s ++ [0x90; 0]) /\
       d_log (snd (step C O d' EApprove)) = mkSig SrcReview k dg data :: d_log d /\ d_ui (snd (step C O d' EApprove)) = None /\
       forall sl, wear_read (get_slot sl (snd (step C O d' EApprove))) = wear_read (get_slot sl d)) /\
      (fst (step C O d' EReject) = AReply [0x69; 0x86] /\ d_ui (snd (step C O d' EReject)) = None /\ untouched d (snd (step C O d' EReject))).
  Proof.
    intros H d U F Hc Q Ws Dg Sg Ls Rm. destruct (reach C O hw f u K Uok is H) as (_ & _ & R).
    assert (M : reviewed_message data) by (destruct Ws; [now apply RmOperation|apply RmMichelson]).
    assert (Ed : d = snd (run C O (dev_fresh f u) (events_of C O known hw fresh is))) by (rewrite R; reflexivity).
    pose proof (review_served C O f u (events_of C O known hw fresh is) ins k data first mids last dg s) as V.
    cbv zeta in V. rewrite <- Ed in V. destruct (V U F Hc Q M Dg Sg Ls Rm) as (d' & Er & Un & Ap & Rj). clear V.
    pose proof (request_apdus ins k data first mids last Q) as Hp.
    assert (Hv : exists sh p, d_ui d' = Some (VSign sh dg p data)).
    { destruct (packets_dev C O hw f u K Uok ((first :: mids) ++ [last]) is H Hp) as (H1 & _ & D1). fold d in D1. cbn [app] in H1, D1. rewrite Er in D1. cbn [snd] in D1.
      destruct (reach C O hw f u K Uok _ H1) as (_ & P & _). rewrite D1 in P.
      assert (Uk : ui_ok O d') by (intros v Uv; apply (P v Uv)).
      destruct (step_signs C O d' EApprove Logic.I Uk) as [L|(g & L & Ca & _)]; destruct (step C O d' EApprove) as [a d'']; destruct Ap as (_ & Lg & _); cbn [snd] in L.
      - destruct Un as [Lu _]. rewrite Lg, Lu in L. exfalso. revert L. clear. intros L. apply (f_equal (@List.length _)) in L. cbn [List.length] in L. lia.
      - rewrite Lg in L. assert (Eg : mkSig SrcReview k dg data = g) by congruence. subst g. apply Ca. }
    destruct Hv as (sh & p & Uv).
    assert (Vk : view_ok O (VSign sh dg p data)).
    { apply (pending_ok C O hw f u K Uok is ((first :: mids) ++ [last]) d' _ H Hp); [|exact Uv]. fold d. cbn [app]. rewrite Er. reflexivity. }
    assert (Vs : view_sheet (VSign sh dg p data) = Some rows).
    { destruct Vk as (_ & rest & Vk). destruct Ws as [branch os dg Lb Ok|rest' dg].
      - destruct Vk as [(E1 & _ & E2)|(E1 & _)]; [|discriminate E1]. assert (E3 : rest = branch ++ flat_map enc_op os) by congruence. subst rest.
        unfold operation_new in E2. rewrite take_app in E2 by (unfold len; lia). subst p.
        change (match eo_all (S (List.length (flat_map enc_op os))) (eo_new (flat_map enc_op os)) with
                | AllOk os => Some (batch_sheet branch os) | _ => None end = Some (batch_sheet branch (map op_of os))).
        now rewrite batch_decodes.
      - destruct Vk as [(E1 & _)|(_ & ->)]; [discriminate E1|]. reflexivity. }
    exists (VSign sh dg p data). cbv zeta.
    pose proof Hp as Hp'. apply Forall_app in Hp' as [Hps Hl]. pose proof (Forall_inv Hl) as Hl1. cbv beta in Hl1.
    destruct (packets_dev C O hw f u K Uok (first :: mids) is H Hps) as (P1 & P2 & P3). fold d in P2, P3.
    destruct (packets_dev C O hw f u K Uok ((first :: mids) ++ [last]) is H Hp) as (Q1 & Q2 & Q3). fold d in Q2, Q3.
    change (first :: mids ++ [last]) with ((first :: mids) ++ [last]) in Er.
    set (ps := first :: mids) in *. rewrite Er in Q2, Q3. cbn [fst snd] in Q2, Q3.
    destruct (apdu_dev C O hw f u K Uok (is ++ map asked ps) (fst last) (snd last) P1 Hl1) as [A1 A2].
    change (IApdu (fst last) (snd last)) with (asked last) in A1, A2.
    assert (Em : is ++ map asked (ps ++ [last]) = (is ++ map asked ps) ++ [asked last]) by (rewrite map_app, app_assoc; reflexivity).
    rewrite Em in Q2, Q3. rewrite Q3.
    rewrite ui_run_app, ui_run_one in Q2. cbn [fst] in Q2. rewrite P2, A1, <- app_assoc in Q2. apply app_inv_head in Q2.
    apply app_inj_len in Q2 as [Q2 Q4]; [|rewrite answers_len, !map_length; reflexivity].
    split; [exact P1|]. split; [now rewrite P2, Q2|]. split; [exact Q2|]. split; [now rewrite A1, Q4|].
    split; [exact Uv|]. split; [exact Vs|]. split; [exact Un|].
    destruct (step C O d' EApprove) as [a1 d1], (step C O d' EReject) as [a2 d2]. cbn [fst snd].
    destruct Ap as (-> & L1 & U1 & W1). destruct Rj as (-> & U2 & W2).
    split; [split; [reflexivity|split; [exact L1|split; [exact U1|exact W1]]]|].
    split; [reflexivity|split; [exact U2|exact W2]].
  Qed.

  Lemma pressed_none bs : forall s, fst (uirun s (press_all bs)) = [] ->
    pressed C O known hw s bs = (None, snd (uirun s (press_all bs))).
  Proof.
    induction bs as [|b bs IH]; intros s N; [reflexivity|].
    cbn [map ui_run pressed] in *. destruct (ui_step C O known hw s (IPress b)) as [l s1]. specialize (IH s1).
    destruct (uirun s1 (press_all bs)) as [l' s2]. cbn [fst snd] in *. apply app_eq_nil in N as [-> N]. exact (IH N).
  Qed.

  Lemma handed_none is p bs : fst (ui_step C O known hw (at_ is) (asked p)) = [APending] ->
    said (is ++ asked p :: press_all bs) = said is ++ [APending] ->
    handed C O known hw (at_ is) p bs = (None, at_ (is ++ asked p :: press_all bs)).
  Proof.
    intros A S1. rewrite ui_run_app in S1 |- *. cbn [fst snd ui_run] in S1 |- *. apply app_inv_head in S1.
    unfold handed. change (IApdu (fst p) (snd p)) with (asked p).
    destruct (ui_step C O known hw (at_ is) (asked p)) as [l s1]. cbn [fst] in A. subst l.
    pose proof (pressed_none bs s1) as P. destruct (uirun s1 (press_all bs)) as [l s2]. cbn [fst snd] in *.
    apply P. injection S1 as S1. exact S1.
  Qed.

  Variable H : host.
  Hypothesis HK : host_ok H O.
  Notation desk_held := (held C O known hw).
  Notation turns olds bs := (map (fun old : bytes => (old, bs)) olds).

  (** A call, its review walked with arrows, and both buttons. *)
  Lemma called is call mg text k message dg s olds rows : Forall input_ok is -> wallet_call C call mg ->
    let d := u_dev (at_ is) in
    let data := mg :: message in
    signable C O d text k data dg s olds -> Forall apdu_ok olds ->
    wallet_sheet data dg rows -> (List.length rows < 256)%nat -> (forall row, In row rows -> ~ unshowable O (snd row)) ->
    (forall sh p, exists room, cf_room C (VSign sh dg p data) = Some room /\ len dg + len s + 2 <= room) ->
    exists screens,
      Forall2 (fun row hs => entitles (fst row) (fst hs) /\ shows O known (snd row) (concat (snd hs)) /\ (1 <= List.length (snd hs) <= 2)%nat) rows screens /\
      forall bs, Forall arrow bs -> let n := presses_needed hw screens in let i := walk (S n) 0 bs in
      exists here, Forall input_ok here /\ forall later,
      let called := call H desk_held text (fst k) message (at_ is, turns olds (bs ++ [Both]) ++ later) in
      let d' := u_dev (at_ here) in
      (i = n -> called = (mkSignRes 0x9000 (Some dg) (Some s), (at_ here, later)) /\
        d_log d' = mkSig SrcReview k dg data :: d_log d /\ d_ui d' = None /\ forall sl, wear_read (get_slot sl d') = wear_read (get_slot sl d)) /\
      (i = S n -> called = (mkSignRes 0x6986 None None, (at_ here, later)) /\ d_ui d' = None /\ untouched d d') /\
      ((i < n)%nat -> called = (mkSignRes OTHER_ERROR None None, (at_ here, later)) /\ d_ui d' <> None /\ untouched d d').
  Proof.
    intros Hi Hcall d data [U F T L B Z P Hh Hd Hs Ls] Fo Ws Sm Sh Room.
    assert (E : exists legacy ins, upload_command C ins = Some AccSign /\ ins < 256 /\
      (ins =? 0x04) || (ins =? 0x05) = false /\
      forall w, call H desk_held text (fst k) message w
                = sign_message H desk_held text (fst k) data legacy ins true w).
    { subst data. unfold upload_command. destruct Hcall as [ | |Hb|Hb].
      1, 2: exists false, 0x12; destruct (cf_baking C); repeat split.
      all: exists true, 0x0F; rewrite Hb; repeat split. }
    destruct E as (legacy & ins & Hc & Hins & Hn & E).
    destruct (wired_message _ _ (handed C O known hw) O H HK text k data legacy ins true olds T L B ltac:(discriminate) Hins Z P Fo)
      as (first & mids & last & Rq & G).
    destruct (wallet_waits is ins k data first mids last dg s rows Hi U F Hc Rq Ws Hh Hs Ls Room)
      as (v & P1 & P2 & Q0 & P3 & P4 & P5 & Un & Ap & Rj). cbv zeta in *. fold d in Q0, Un, Ap, Rj.
    pose proof (request_apdus ins k data first mids last Rq) as Hp. apply Forall_app in Hp as [Hps Hl]. pose proof (Forall_inv Hl) as Hl1. cbv beta in Hl1.
    set (before := is ++ map asked (first :: mids)) in *. set (d' := u_dev (at_ (before ++ [asked last]))) in *.
    destruct (arrows C O hw f u K Uok before (fst last) (snd last) v rows P1 Hl1 P3 P4 P5 Sm Sh) as (screens & F2 & Go).
    exists screens. split; [exact F2|]. intros bs Hbs. cbv zeta in Go |- *. change (IApdu (fst last) (snd last)) with (asked last) in Go. fold d' in Go.
    destruct (Go bs Hbs) as (S1 & D1 & _ & Lt & Eq & Gt). clear Go.
    set (n := presses_needed hw screens) in *. set (i := walk (S n) 0 bs) in *.
    set (read := before ++ asked last :: press_all bs) in *.
    assert (Hr : Forall input_ok (read ++ [IPress Both])).
    { unfold read. apply Forall_app. split; [|repeat constructor]. apply Forall_app. split; [exact P1|]. constructor; [exact Hl1|].
      apply Forall_forall. intros x Hx. apply in_map_iff in Hx as (b & <- & _). exact Logic.I. }
    exists (read ++ [IPress Both]). split; [exact Hr|]. intros later.
    pose proof (goes_on C O hw f u K Uok (bs ++ [Both]) (first :: mids) is Hi Hps Q0) as G1. fold before in G1.
    pose proof (G (bs ++ [Both]) (at_ is) (at_ before) later G1) as Q. cbv zeta in Q. rewrite E.
    split; [|split]; intros Hc'.
    - destruct (Eq Hc') as [S2 D2]. rewrite D2. destruct Ap as (A1 & A2). split; [|exact A2].
      rewrite A1 in S2. rewrite (handed_pressed C O hw f u K Uok before last bs Both _ P1 Hl1 S1 S2) in Q. fold read in Q. cbn [fst snd] in Q.
      rewrite Hn, read_hashed in Q by exact Hd. exact Q.
    - destruct (Gt Hc') as [S2 D2]. rewrite D2. destruct Rj as (A1 & A2). split; [|exact A2].
      rewrite A1 in S2. rewrite (handed_pressed C O hw f u K Uok before last bs Both _ P1 Hl1 S1 S2) in Q. fold read in Q. cbn [fst snd] in Q. exact Q.
    - destruct (Lt Hc') as [S2 D2]. rewrite D2. split; [|split; [rewrite P4; discriminate|exact Un]].
      assert (Er : read ++ [IPress Both] = before ++ asked last :: press_all (bs ++ [Both]))
        by (unfold read; rewrite <- app_assoc, map_app; reflexivity).
      rewrite Er in S2 |- *. rewrite (handed_none before last (bs ++ [Both]) P3 S2) in Q. exact Q.
  Qed.

  (** The public key, asked of a device that reviews nothing. *)
  Lemma address_held is text k pk old bs later : Forall input_ok is -> d_ui (u_dev (at_ is)) = None -> path_text text (snd k) ->
    List.length (snd k) = 2%nat \/ List.length (snd k) = 4%nat -> apdu_ok old -> addressable O k pk ->
    exists t s', key_text O (fst k) pk t /\
      get_address_and_pubkey H desk_held text (fst k) (at_ is, (old, bs) :: later) = (JData 0x9000 (pk, t), (s', later)) /\ u_dev s' = u_dev (at_ is).
  Proof.
    intros Hi U T L Ao (Hk & l & h & F & Hh & Tw).
    destruct (key_request_ok O H HK (u_dev (at_ is)) text k T L) as (Es & B & Lp & _ & _ & G).
    pose proof (pubkey_short O K _ _ Hk) as Lk.
    destruct (G 0x11 0 old 6%nat ltac:(lia) eq_refl eq_refl Ao U) as (A1 & A2 & A3 & A4).
    destruct (get_address C O (u_dev (at_ is)) _ _ k pk l h K A1 A2 A3 A4 Hk F Hh Tw) as (t & Kt & St).
    set (p := (arrives 0x11 0 (byte_of_curve (fst k)) (plain_path (snd k)) old, 5 + len (plain_path (snd k)))).
    destruct (apdu_dev C O hw f u K Uok is (fst p) (snd p) Hi A1) as [B1 B2].
    change (fst p) with (arrives 0x11 0 (byte_of_curve (fst k)) (plain_path (snd k)) old) in B1, B2. change (snd p) with (5 + len (plain_path (snd k))) in B1, B2.
    rewrite St in B1, B2. cbn [fst snd] in B1, B2.
    exists t, (at_ (is ++ [asked p])). split; [exact Kt|]. split; [|exact B2].
    unfold get_address_and_pubkey, with_path. rewrite Es.
    etransitivity; [exact (wired_ask _ _ (handed C O known hw) 0x11 0 (byte_of_curve (fst k)) (plain_path (snd k)) read_addr (at_ is) old bs later ltac:(lia))|].
    fold p. cbv zeta. unfold handed. change (IApdu (fst p) (snd p)) with (asked p).
    change (IApdu (arrives 17 0 (byte_of_curve (fst k)) (plain_path (snd k)) old) (5 + len (plain_path (snd k)))) with (asked p) in B1, B2.
    rewrite ui_run_app, ui_run_one. cbn [fst snd].
    destruct (ui_step C O known hw (at_ is) (asked p)) as [l1 s1]. cbn [fst snd] in *. subst l1. cbn [fst snd].
    change (len pk :: pk ++ t ++ [0x90; 0]) with ((len pk :: pk) ++ t ++ [0x90; 0]). rewrite app_assoc, read_good.
    change ((len pk :: pk) ++ t) with (len pk :: pk ++ t). rewrite read_addr_ok by exact Lk. reflexivity.
  Qed.

  (** A test that signs, whatever arrows it presses. *)
  Lemma tested is call mg kind text k message dg s olds rows pk old more V : Forall input_ok is -> wallet_call C call mg -> legacy_magic kind = mg ->
    let d := u_dev (at_ is) in
    let data := mg :: message in
    signable C O d text k data dg s olds -> Forall apdu_ok olds -> addressable O k pk -> apdu_ok old ->
    wallet_sheet data dg rows -> (List.length rows < 256)%nat -> (forall row, In row rows -> ~ unshowable O (snd row)) ->
    (forall sh p, exists room, cf_room C (VSign sh dg p data) = Some room /\ len dg + len s + 2 <= room) ->
    exists screens,
      Forall2 (fun row hs => entitles (fst row) (fst hs) /\ shows O known (snd row) (concat (snd hs)) /\ (1 <= List.length (snd hs) <= 2)%nat) rows screens /\
      forall bs, Forall arrow bs -> let n := presses_needed hw screens in let i := walk (S n) 0 bs in
      let t := sign_test V H desk_held call kind text (fst k) message (at_ is, turns olds (bs ++ [Both]) ++ [(old, more)]) in
      let d' := u_dev (fst (snd t)) in
      (fst t = true <-> i = n /\ signature_ok V (fst k) s dg (Some pk) = true) /\
      (i = n -> d_log d' = mkSig SrcReview k dg data :: d_log d) /\ (i <> n -> untouched d d').
  Proof.
    intros Hi Hcall Hm d data Sb Fo Ad Ao Ws Sm Sh Room.
    destruct (called is call mg text k message dg s olds rows Hi Hcall Sb Fo Ws Sm Sh Room) as (screens & F2 & Go).
    exists screens. split; [exact F2|]. intros bs Hbs. cbv zeta in Go |- *. destruct (Go bs Hbs) as (here & Hh & Q). clear Go.
    specialize (Q [(old, more)]). destruct Q as (Eq & Gt & Lt). fold d data in Eq, Gt, Lt.
    set (n := presses_needed hw screens) in *. set (i := walk (S n) 0 bs) in *.
    assert (Bi : (i <= S n)%nat) by (apply walk_bound; lia).
    unfold sign_test.
    destruct (lt_eq_lt_dec i n) as [[Hn|Hn]|Hn].
    - destruct (Lt Hn) as (-> & _ & Un). cbn [sr_hash sr_sig fst snd].
      split; [split; [discriminate|intros [X _]; lia]|]. split; [intros X; lia|intros _; exact Un].
    - destruct (Eq Hn) as (-> & Lg & Ui & _). cbn [sr_hash sr_sig sr_code].
      assert (Eh : sig_hash H message kind = dg) by (unfold sig_hash; rewrite Hm; apply (hk_blake2b H O HK); exact (sb_hash _ _ _ _ _ _ _ _ _ Sb)).
      rewrite Eh, bytes_eqb_same. change ((0x9000 =? 0x9000) && true) with true. cbv iota.
      destruct (address_held here text k pk old more [] Hh Ui (sb_text _ _ _ _ _ _ _ _ _ Sb) (sb_path _ _ _ _ _ _ _ _ _ Sb) Ao Ad) as (t & s' & _ & Ea & Es).
      rewrite Ea. cbn [fst snd]. rewrite Es. split; [|split; [intros _; exact Lg|intros X; now destruct (X Hn)]].
      split; [intros X; split; [exact Hn|exact X]|intros [_ X]; exact X].
    - destruct (Gt ltac:(lia)) as (-> & _ & Un). cbn [sr_hash sr_sig fst snd].
      split; [split; [discriminate|intros [X _]; lia]|]. split; [intros X; lia|intros _; exact Un].
  Qed.
End Held.
