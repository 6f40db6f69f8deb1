(** Calls of the host library, answered by a device in a user's hands. *)
From Coq Require Import NArith ZArith Bool Arith String List Lia.
From Coq Require Import ZifyBool ZifyNat ZifyN.
From Verif Require Import Base BaseFacts Flash Codecs CodecsSpec CodecsFacts Oracles Address AddressSpec AddressFacts AddressExamples Upload UploadSpec UploadFacts
  Baking BakingSpec Operations OperationsSpec OperationsFacts OperationsExamples
  Text TextSpec TextExamples Bakers BakersSpec Device DeviceSpec ServiceSpec DeviceFacts DeviceLive DeviceAdmin DeviceCommands Screens ScreensSpec
  ScreensFacts ScreensViews ScreensPages ScreensDevice ScreensExamples Zui UiSpec UiDevice UiFacts UiRun HandSpec HandFacts Client ClientSpec ClientText ClientFacts ClientSign ClientCalls ClientAdmin Desk.
Import ListNotations.
Open Scope list_scope.
Open Scope N_scope.

(** ** A transport made of any way to answer a command *)

Section Wired.
  Variables (St U : Type) (act : St -> bytes * N -> U -> option bytes * St).

  Definition wired : transport (St * list (bytes * U)) := fun w command =>
    match w with
    | (s, []) => (None, w)
    | (s, (old, u) :: later) =>
      let x := act s (received command old, len command) u in (fst x, (snd x, later))
    end.

  (** Commands that are told to go on. *)
  Fixpoint goes (u : U) (s : St) (ps : list (bytes * N)) (s' : St) : Prop :=
    match ps with
    | [] => s = s'
    | p :: ps' => exists s1, act s p u = (Some [0x90; 0], s1) /\ goes u s1 ps' s'
    end.

  Lemma wired_ask {A} ins p1 p2 data (g : bytes -> option A) s old u later : (List.length data <= 255)%nat ->
    ask wired ins p1 p2 data g (s, (old, u) :: later) =
    (let x := act s (arrives ins p1 p2 data old, 5 + len data) u in (read_ask g (fst x), (snd x, later))).
  Proof.
    intros L. unfold ask, send_to, send_codes. replace (256 <=? len data) with false by (unfold len; lia).
    unfold wired, HOST_CLA, arrives.
    replace (len ([0x80; ins; p1; p2; len data] ++ data)) with (5 + len data) by (rewrite len_app; reflexivity).
    cbv zeta. destruct (act s _ u) as [[r|] s']; cbn [fst snd read_ask]; [|reflexivity].
    destruct (len r <? 2); [reflexivity|]. cbn [existsb]. rewrite orb_false_r.
    destruct (status_of r =? NO_ERRORS); reflexivity.
  Qed.

  Lemma wired_chunk idx num chunk legacy c ins wh s old u later : (List.length chunk <= 255)%nat ->
    sign_send_chunk wired idx num chunk legacy c ins wh (s, (old, u) :: later) =
    (let x := act s (pkt_of ins (chunk_p1 idx num legacy) (chunk_p2 idx c) chunk old) u in
     (read_sign wh (fst x), (snd x, later))).
  Proof.
    intros L. unfold sign_send_chunk, send_codes. replace (256 <=? len chunk) with false by (unfold len; lia).
    unfold wired, HOST_CLA, pkt_of.
    replace (len ([0x80; ins; chunk_p1 idx num legacy; chunk_p2 idx c; len chunk] ++ chunk)) with (5 + len chunk)
      by (rewrite len_app; reflexivity).
    cbv zeta. destruct (act s _ u) as [[r|] s']; cbn [fst snd read_sign]; [|reflexivity].
    destruct (len r <? 2); [reflexivity|]. destruct (existsb (N.eqb (status_of r)) SIGN_CODES); reflexivity.
  Qed.

  Lemma wired_rest legacy c ins wh x u later num : (List.length x <= 255)%nat -> forall chunks i olds old s s1 res,
    Forall (fun ch => (List.length ch <= 255)%nat) chunks -> (1 <= i)%nat -> num = S (i + List.length chunks) ->
    List.length olds = List.length chunks ->
    goes u s (map (mid_of ins) (combine chunks olds)) s1 ->
    sign_rest wired i num (chunks ++ [x]) legacy c ins wh res (s, map (fun o => (o, u)) olds ++ (old, u) :: later) =
    (let y := act s1 (pkt_of ins (last_p1 legacy) 0 x old) u in (read_sign wh (fst y), (snd y, later))).
  Proof.
    intros Lx. induction chunks as [|ch chunks IH]; intros i olds old s s1 res F Hi Hn Ho G.
    - destruct olds; [|discriminate]. cbn [List.length] in Hn. subst num. cbn [app combine map goes] in G. subst s1.
      cbn [map app sign_rest]. rewrite wired_chunk by exact Lx.
      replace (chunk_p1 (1 + i) (S (i + 0)) legacy) with (last_p1 legacy).
      2:{ unfold chunk_p1, last_p1. replace (1 + i =? 1)%nat with false by (symmetry; apply Nat.eqb_neq; lia).
          replace (1 + i =? S (i + 0))%nat with true by (symmetry; apply Nat.eqb_eq; lia). destruct legacy; reflexivity. }
      replace (chunk_p2 (1 + i) c) with 0
        by (unfold chunk_p2; replace (1 + i =? 1)%nat with false by (symmetry; apply Nat.eqb_neq; lia); reflexivity).
      cbv zeta. destruct (act s _ u) as [o d']. cbn [fst snd]. destruct (sr_code (read_sign wh o) =? NO_ERRORS); reflexivity.
    - destruct olds as [|old1 olds]; [discriminate|]. pose proof (Forall_inv F) as F1. pose proof (Forall_inv_tail F) as F2. cbv beta in F1.
      cbn [combine map goes] in G. cbn [map app sign_rest]. rewrite wired_chunk by exact F1.
      replace (chunk_p1 (1 + i) num legacy) with 1.
      2:{ unfold chunk_p1. replace (1 + i =? 1)%nat with false by (symmetry; apply Nat.eqb_neq; lia).
          replace (1 + i =? num)%nat with false by (symmetry; apply Nat.eqb_neq; cbn [List.length] in Hn; lia). reflexivity. }
      replace (chunk_p2 (1 + i) c) with 0
        by (unfold chunk_p2; replace (1 + i =? 1)%nat with false by (symmetry; apply Nat.eqb_neq; lia); reflexivity).
      change (pkt_of ins 1 0 ch old1) with (mid_of ins (ch, old1)).
      destruct G as (s2 & E2 & G). rewrite E2. cbv zeta. cbn [fst snd].
      change (read_sign wh (Some [144; 0])) with (mkSignRes NO_ERRORS None None). cbn [sr_code].
      change (NO_ERRORS =? NO_ERRORS) with true. cbv iota.
      apply (IH (S i) olds old s2 s1 (mkSignRes NO_ERRORS None None) F2); [lia|cbn [List.length] in Hn; lia|cbn [List.length] in Ho; lia|exact G].
  Qed.

  Variables (O : oracles) (H : host).
  Hypothesis K : host_ok H O.

  Lemma wired_message text k data legacy ins wh olds :
    path_text text (snd k) -> List.length (snd k) = 2%nat \/ List.length (snd k) = 4%nat ->
    bytes_ok data -> data <> [] -> ins < 256 ->
    (2 + 4 * List.length (snd k) + List.length data <= CAPACITY)%nat ->
    List.length olds = packets_for data -> Forall apdu_ok olds ->
    exists first mids last, request ins k data first mids last /\
      forall u s s1 later, goes u s (first :: mids) s1 ->
      sign_message H wired text (fst k) data legacy ins wh (s, map (fun old => (old, u)) olds ++ later) =
      (let y := act s1 last u in (read_sign wh (fst y), (snd y, later))).
  Proof.
    intros T L B Ne Hi Cap Ls Du.
    destruct (path_text_serialized H O text (snd k) K T L) as [Es F32].
    destruct (chunks_spec data (plain_path (snd k))) as (cs & Ec & Cc & Fc & Lc).
    assert (Nc : cs <> []) by (intros ->; apply Ne; now rewrite <- Cc).
    destruct (last_split cs Nc) as (chunks & x & ->). clear Nc.
    apply Forall_app in Fc as [Fc Fx]. pose proof (Forall_inv Fx) as Lx. cbv beta in Lx. clear Fx.
    rewrite app_length in Lc. cbn [List.length] in Lc.
    destruct olds as [|old0 olds0]; [cbn [List.length] in Ls; lia|].
    assert (Ns : olds0 <> []) by (intros ->; cbn [List.length] in Ls; lia).
    destruct (last_split olds0 Ns) as (olds & old & ->). clear Ns.
    cbn [List.length] in Ls. rewrite app_length in Ls. cbn [List.length] in Ls.
    assert (Lo : List.length olds = List.length chunks) by lia.
    pose proof (Forall_inv Du) as A0. pose proof (Forall_inv_tail Du) as D1. clear Du.
    apply Forall_app in D1 as [D1 D2]. pose proof (Forall_inv D2) as A3. clear D2.
    pose proof (concat_bytes_ok _ ltac:(rewrite Cc; exact B)) as Bc. apply Forall_app in Bc as [Bc Bx].
    pose proof (Forall_inv Bx) as Bx1. clear Bx.
    assert (Fc' : Forall (fun ch => (List.length ch <= 255)%nat) chunks).
    { eapply Forall_impl; [|exact Fc]. cbv beta. intros; lia. }
    assert (Lp : (List.length (plain_path (snd k)) <= 255)%nat)
      by (rewrite plain_path_length; destruct L as [L|L]; rewrite L; lia).
    assert (Bp : bytes_ok (plain_path (snd k))) by (apply plain_path_ok; lia).
    assert (Hc : byte_of_curve (fst k) < 256) by (destruct (fst k); reflexivity).
    destruct (pkt_packet ins 0 (byte_of_curve (fst k)) (plain_path (snd k)) old0 KInit Lp Bp Hi eq_refl Hc A0 eq_refl)
      as (P1 & P2 & P3).
    assert (Kl : kind_of (last_p1 legacy) = Some KLast) by (destruct legacy; reflexivity).
    assert (Hl : last_p1 legacy < 256) by (destruct legacy; reflexivity).
    destruct (pkt_packet ins (last_p1 legacy) 0 x old KLast ltac:(lia) Bx1 Hi Hl eq_refl A3 Kl) as (Q1 & Q2 & Q3).
    set (first := pkt_of ins 0 (byte_of_curve (fst k)) (plain_path (snd k)) old0) in *.
    set (mids := map (mid_of ins) (combine chunks olds)) in *.
    set (last := pkt_of ins (last_p1 legacy) 0 x old) in *.
    exists first, mids, last. split.
    - split; [exact P1|]. split.
      { subst mids. clear - Bc Fc' D1 Lo Hi. revert olds D1 Lo. induction chunks as [|ch chunks IH]; intros olds D1 Lo.
        - constructor.
        - destruct olds as [|o1 olds]; [discriminate|]. cbn [map combine].
          pose proof (Forall_inv D1) as D0. constructor.
          + apply (pkt_packet ins 1 0 ch o1 KNext); auto; try reflexivity.
            * exact (Forall_inv Fc').
            * exact (Forall_inv Bc).
          + apply IH; [exact (Forall_inv_tail Bc)|exact (Forall_inv_tail Fc')|exact (Forall_inv_tail D1)|].
            cbn [List.length] in Lo; lia. }
      split; [exact Q1|]. split.
      { split; [exact P3|]. rewrite P2. apply encodes_components; [|unfold BIP32_MAX_LENGTH|exact F32].
        - intros E. rewrite E in L. cbn [List.length] in L. lia.
        - destruct L as [L|L]; rewrite L; cbn; lia. }
      split.
      { rewrite map_app, concat_app. subst mids. rewrite combine_pays; [|exact Lo|exact Fc'].
        cbn [map concat]. rewrite Q2, app_nil_r, <- Cc, concat_app. cbn [concat]. now rewrite app_nil_r. }
      rewrite P2, plain_path_length. unfold bytes, byte in *. lia.
    - intros u s s1 later (s0 & E0 & G). unfold sign_message. rewrite Es, Ec. cbv zeta.
      cbn [map app]. rewrite wired_chunk by exact Lp.
      replace (chunk_p1 1 (S (List.length (chunks ++ [x]))) legacy) with 0
        by (rewrite app_length, Nat.add_1_r; reflexivity).
      replace (chunk_p2 1 (fst k)) with (byte_of_curve (fst k)) by reflexivity.
      fold first. rewrite E0. cbv zeta. cbn [fst snd].
      rewrite map_app, <- app_assoc. cbn [map app].
      apply (wired_rest legacy (fst k) ins wh x u later (S (List.length (chunks ++ [x]))) ltac:(lia) chunks 1 olds old s0 s1);
        [exact Fc'|lia|rewrite app_length; cbn [List.length]; rewrite Nat.add_1_r; reflexivity|exact Lo|exact G].
  Qed.
End Wired.

Section Held.
  Variables (C : config) (O : oracles) (hw : hardware) (f u : list fault).
  Hypotheses (K : oracles_ok O) (Uok : Forall up_fault_ok u).
  Notation fresh := (ui_fresh hw f u).
  Notation uirun := (ui_run C O known hw).
  Notation at_ is := (snd (ui_run C O known hw fresh is)).
  Notation said is := (fst (ui_run C O known hw fresh is)).
  Notation pending is := (d_ui (u_dev (at_ is))).
  Notation screen is := (u_zui (at_ is)).
  Notation press_all bs := (map IPress bs).

  Lemma pressed_silent bs : forall s b r s2, fst (uirun s (press_all bs)) = [] ->
    ui_step C O known hw (snd (uirun s (press_all bs))) (IPress b) = ([AReply r], s2) ->
    pressed C O known hw s (bs ++ [b]) = (Some r, s2).
  Proof.
    induction bs as [|b1 bs IH]; intros s b r s2 N E.
    - cbn [map ui_run fst snd app pressed] in *. rewrite E. reflexivity.
    - cbn [map ui_run app pressed] in *. destruct (ui_step C O known hw s (IPress b1)) as [l s1].
      specialize (IH s1 b r s2). destruct (uirun s1 (press_all bs)) as [l' s3]. cbn [fst snd] in *.
      apply app_eq_nil in N as [-> N]. exact (IH N E).
  Qed.

  (** A command that waits, buttons that are not answered, and the one that is. *)
  Lemma handed_pressed is p bs b r : Forall input_ok is -> apdu_ok (fst p) ->
    let read := is ++ asked p :: press_all bs in
    said read = said is ++ [APending] -> said (read ++ [IPress b]) = said is ++ [APending; AReply r] ->
    handed C O known hw (at_ is) p (bs ++ [b]) = (Some r, at_ (read ++ [IPress b])).
  Proof.
    intros H Hp read S1 S2. destruct (apdu_dev C O hw f u K Uok is (fst p) (snd p) H Hp) as [A1 _].
    set (a := fst (step C O (u_dev (at_ is)) (EApdu (fst p) (snd p)))) in A1. clearbody a.
    unfold handed. change (IApdu (fst p) (snd p)) with (asked p) in *.
    assert (E1 : said read = said is ++ fst (ui_step C O known hw (at_ is) (asked p))
      ++ fst (uirun (snd (ui_step C O known hw (at_ is) (asked p))) (press_all bs)) /\
      at_ read = snd (uirun (snd (ui_step C O known hw (at_ is) (asked p))) (press_all bs))).
    { unfold read. rewrite ui_run_app. cbn [fst snd ui_run].
      destruct (ui_step C O known hw (at_ is) (asked p)) as [l s1]. cbn [fst snd]. destruct (uirun s1 (press_all bs)) as [l0 s2].
      cbn [fst snd]. split; reflexivity. }
    destruct E1 as [E1 E2]. rewrite E1 in S1. apply app_inv_head in S1.
    assert (E3 : said (read ++ [IPress b]) = said read ++ fst (ui_step C O known hw (at_ read) (IPress b)) /\
      at_ (read ++ [IPress b]) = snd (ui_step C O known hw (at_ read) (IPress b)))
      by (rewrite ui_run_app, ui_run_one; split; reflexivity).
    destruct E3 as [E3 E4]. rewrite E4. rewrite E3, E1, S1 in S2.
    change [APending; AReply r] with ([APending] ++ [AReply r]) in S2. rewrite app_assoc in S2. apply app_inv_head in S2.
    rewrite E2 in S2 |- *. clear E1 E2 E3 E4. rewrite A1 in S1.
    destruct (ui_step C O known hw (at_ is) (asked p)) as [l s1]. cbn [fst snd] in *. subst l.
    injection S1 as S0 S1. subst a.
    apply pressed_silent; [exact S1|].
    destruct (ui_step C O known hw (snd (uirun s1 (press_all bs))) (IPress b)) as [l2 s2]. cbn [fst snd] in *. subst l2. reflexivity.
  Qed.

  (** Packets that are told to go on. *)
  Lemma goes_on bs ps : forall is, Forall input_ok is -> Forall (fun p => apdu_ok (fst p)) ps ->
    fst (run C O (u_dev (at_ is)) (map sent ps)) = map (fun _ => go_on) ps ->
    goes _ _ (handed C O known hw) bs (at_ is) ps (at_ (is ++ map asked ps)).
  Proof.
    induction ps as [|p ps IH]; intros is H Hp R.
    - cbn [map goes]. rewrite app_nil_r. reflexivity.
    - inversion Hp as [|? ? Hp1 Hp2]; subst. destruct (apdu_dev C O hw f u K Uok is (fst p) (snd p) H Hp1) as [A1 A2].
      assert (H' : Forall input_ok (is ++ [asked p])) by (apply Forall_app; split; [exact H|constructor; [exact Hp1|constructor]]).
      specialize (IH (is ++ [asked p]) H' Hp2). change (IApdu (fst p) (snd p)) with (asked p) in *.
      cbn [map run] in R. change (sent p) with (EApdu (fst p) (snd p)) in R. rewrite A2 in IH.
      destruct (step C O (u_dev (at_ is)) (EApdu (fst p) (snd p))) as [a d1]. cbn [fst snd] in *.
      destruct (run C O d1 (map sent ps)) as [l d2]. cbn [fst snd] in *. injection R as Ra Rl.
      cbn [goes]. exists (at_ (is ++ [asked p])). split.
      + unfold handed. change (IApdu (fst p) (snd p)) with (asked p).
        assert (E : at_ (is ++ [asked p]) = snd (ui_step C O known hw (at_ is) (asked p))) by (rewrite ui_run_app, ui_run_one; reflexivity).
        rewrite E. destruct (ui_step C O known hw (at_ is) (asked p)) as [l' s']. cbn [fst snd] in *. subst l' a. reflexivity.
      + replace (is ++ map asked (p :: ps)) with ((is ++ [asked p]) ++ map asked ps) by (rewrite <- app_assoc; reflexivity).
        exact (IH Rl).
  Qed.

  Lemma answers_len es : forall d, List.length (fst (run C O d es)) = List.length es.
  Proof.
    induction es as [|e es IH]; intros d; [reflexivity|]. cbn [run]. destruct (step C O d e) as [a d1]. specialize (IH d1).
    destruct (run C O d1 es). cbn [fst List.length] in *. now rewrite IH.
  Qed.

  (** A message sent in packets and decided by hand. *)
  Lemma upload_held is ps last bs b r : Forall input_ok is -> Forall (fun p => apdu_ok (fst p)) (ps ++ [last]) ->
    let read := is ++ map asked (ps ++ [last]) ++ press_all bs in
    said read = said is ++ map (fun _ => go_on) ps ++ [APending] ->
    said (read ++ [IPress b]) = said is ++ map (fun _ => go_on) ps ++ [APending; AReply r] ->
    exists s1, goes _ _ (handed C O known hw) (bs ++ [b]) (at_ is) ps s1 /\
      handed C O known hw s1 last (bs ++ [b]) = (Some r, at_ (read ++ [IPress b])).
  Proof.
    intros H Hp read S1 S2. pose proof Hp as Hp'. apply Forall_app in Hp' as [Hps Hl]. pose proof (Forall_inv Hl) as Hl1. cbv beta in Hl1.
    destruct (packets_dev C O hw f u K Uok ps is H Hps) as (P1 & P2 & P3).
    assert (Er : read = (is ++ map asked ps) ++ asked last :: press_all bs).
    { unfold read. rewrite map_app, <- !app_assoc. reflexivity. }
    assert (G : fst (run C O (u_dev (at_ is)) (map sent ps)) = map (fun _ => go_on) ps).
    { rewrite Er in S1. rewrite ui_run_app in S1. cbn [fst] in S1. rewrite P2, <- app_assoc in S1. apply app_inv_head in S1.
      apply app_inj_len in S1 as [S1 _]; [exact S1|]. rewrite answers_len, !map_length. reflexivity. }
    exists (at_ (is ++ map asked ps)). split; [apply goes_on; assumption|].
    rewrite G in P2. rewrite Er in S1, S2 |- *.
    apply handed_pressed; [exact P1|exact Hl1| |].
    - rewrite S1, P2, <- app_assoc. reflexivity.
    - rewrite S2, P2, <- app_assoc. reflexivity.
  Qed.

  Variable H : host.
  Hypothesis HK : host_ok H O.
  Notation desk_held := (held C O known hw).
  (** The same buttons for every packet of a message. *)
  Notation turns olds bs := (map (fun old : bytes => (old, bs)) olds).

  (** ** Messages *)

  Lemma message_held is text k data legacy ins wh olds : Forall input_ok is ->
    path_text text (snd k) -> List.length (snd k) = 2%nat \/ List.length (snd k) = 4%nat ->
    bytes_ok data -> data <> [] -> ins < 256 ->
    (2 + 4 * List.length (snd k) + List.length data <= CAPACITY)%nat ->
    List.length olds = packets_for data -> Forall apdu_ok olds ->
    exists first mids last, request ins k data first mids last /\
      forall m, let read := is ++ map asked (first :: mids ++ [last]) ++ repeat (IPress Right) m in
      let sofar l := said is ++ map (fun _ => go_on) (first :: mids) ++ l in
      said read = sofar [APending] -> said (read ++ [IPress Right]) = sofar [APending] ->
      forall r1 r2, said (read ++ [IPress Both]) = sofar [APending; AReply r1] ->
      said (read ++ [IPress Right; IPress Both]) = sofar [APending; AReply r2] ->
      forall later,
      sign_message H desk_held text (fst k) data legacy ins wh (at_ is, turns olds (repeat Right m ++ [Both]) ++ later)
      = (read_sign wh (Some r1), (at_ (read ++ [IPress Both]), later)) /\
      sign_message H desk_held text (fst k) data legacy ins wh (at_ is, turns olds (repeat Right m ++ [Right; Both]) ++ later)
      = (read_sign wh (Some r2), (at_ (read ++ [IPress Right; IPress Both]), later)).
  Proof.
    intros Hi T L B Ne Hins Cap Ls Fo.
    destruct (wired_message _ _ (handed C O known hw) O H HK text k data legacy ins wh olds T L B Ne Hins Cap Ls Fo)
      as (first & mids & last & Rq & G).
    exists first, mids, last. split; [exact Rq|]. intros m read sofar S1 S2 r1 r2 S3 S4 later.
    pose proof (request_apdus ins k data first mids last Rq) as Hp.
    assert (E : forall n, repeat (IPress Right) n = map IPress (repeat Right n)).
    { induction n as [|n IH]; [reflexivity|]. cbn [repeat map]. now rewrite IH. }
    assert (P : forall bs b r, let rd := is ++ map asked ((first :: mids) ++ [last]) ++ map IPress bs in
      said rd = sofar [APending] -> said (rd ++ [IPress b]) = sofar [APending; AReply r] ->
      sign_message H desk_held text (fst k) data legacy ins wh (at_ is, turns olds (bs ++ [b]) ++ later)
      = (read_sign wh (Some r), (at_ (rd ++ [IPress b]), later))).
    { intros bs b r rd R1 R2. unfold sofar in R1, R2.
      destruct (upload_held is (first :: mids) last bs b r Hi Hp R1 R2) as (s1 & G1 & G2).
      pose proof (G (bs ++ [b]) (at_ is) s1 later G1) as Q. cbv zeta in Q. rewrite G2 in Q. exact Q. }
    split.
    - specialize (P (repeat Right m) Both r1). rewrite <- E in P. exact (P S1 S3).
    - specialize (P (repeat Right m ++ [Right]) Both r2). rewrite (map_app IPress), <- E in P. cbn [map] in P.
      unfold read in S2, S4 |- *. rewrite <- !app_assoc in *. cbn [app] in *. exact (P S2 S4).
  Qed.

  (** One command, decided by hand. *)
  Lemma ask_held {A} is ins p1 p2 data (g : bytes -> option A) old : Forall input_ok is ->
    (List.length data <= 255)%nat -> apdu_ok (arrives ins p1 p2 data old) ->
    forall m, let read := is ++ IApdu (arrives ins p1 p2 data old) (5 + len data) :: repeat (IPress Right) m in
    said read = said is ++ [APending] -> said (read ++ [IPress Right]) = said is ++ [APending] ->
    forall r1 r2, said (read ++ [IPress Both]) = said is ++ [APending; AReply r1] ->
    said (read ++ [IPress Right; IPress Both]) = said is ++ [APending; AReply r2] ->
    forall later,
    ask desk_held ins p1 p2 data g (at_ is, (old, repeat Right m ++ [Both]) :: later)
    = (read_ask g (Some r1), (at_ (read ++ [IPress Both]), later)) /\
    ask desk_held ins p1 p2 data g (at_ is, (old, repeat Right m ++ [Right; Both]) :: later)
    = (read_ask g (Some r2), (at_ (read ++ [IPress Right; IPress Both]), later)).
  Proof.
    intros Hi Ld Ao m read S1 S2 r1 r2 S3 S4 later.
    assert (E : forall n, repeat (IPress Right) n = map IPress (repeat Right n)).
    { induction n as [|n IH]; [reflexivity|]. cbn [repeat map]. now rewrite IH. }
    set (p := (arrives ins p1 p2 data old, 5 + len data)).
    assert (P : forall bs b r, let rd := is ++ asked p :: map IPress bs in
      said rd = said is ++ [APending] -> said (rd ++ [IPress b]) = said is ++ [APending; AReply r] ->
      ask desk_held ins p1 p2 data g (at_ is, (old, bs ++ [b]) :: later)
      = (read_ask g (Some r), (at_ (rd ++ [IPress b]), later))).
    { intros bs b r rd R1 R2. etransitivity; [exact (wired_ask _ _ (handed C O known hw) ins p1 p2 data g (at_ is) old (bs ++ [b]) later Ld)|].
      fold p. cbv zeta. rewrite (handed_pressed is p bs b r Hi Ao R1 R2). reflexivity. }
    split.
    - specialize (P (repeat Right m) Both r1). rewrite <- E in P. exact (P S1 S3).
    - specialize (P (repeat Right m ++ [Right]) Both r2). rewrite (map_app IPress), <- E in P. cbn [map] in P.
      unfold read in S2, S4 |- *. rewrite <- !app_assoc in *. cbn [app] in *. rewrite <- !app_assoc in P. cbn [app] in P. exact (P S2 S4).
  Qed.

  (** ** Calls *)

  Lemma wallet_held is call mg text k message dg s olds rows : Forall input_ok is -> wallet_call C call mg ->
    let d := u_dev (at_ is) in
    let data := mg :: message in
    signable C O d text k data dg s olds -> Forall apdu_ok olds ->
    wallet_sheet data dg rows -> (List.length rows < 256)%nat -> (forall row, In row rows -> ~ unshowable O (snd row)) ->
    (forall sh p, exists room, cf_room C (VSign sh dg p data) = Some room /\ len dg + len s + 2 <= room) ->
    exists ins first mids last m, let read := is ++ map asked (first :: mids ++ [last]) ++ repeat (IPress Right) m in
      request ins k data first mids last /\
      (hw = NanoX \/ z_expert (screen is) = false -> Forall (row_seen O known hw (z_seen (screen read))) rows) /\
      (forall later, let s' := at_ (read ++ [IPress Both]) in
       call H desk_held text (fst k) message (at_ is, turns olds (repeat Right m ++ [Both]) ++ later)
       = (mkSignRes 0x9000 (Some dg) (Some s), (s', later)) /\
       d_log (u_dev s') = mkSig SrcReview k dg data :: d_log d /\ d_ui (u_dev s') = None /\
       forall sl, wear_read (get_slot sl (u_dev s')) = wear_read (get_slot sl d)) /\
      (forall later, let s' := at_ (read ++ [IPress Right; IPress Both]) in
       call H desk_held text (fst k) message (at_ is, turns olds (repeat Right m ++ [Right; Both]) ++ later)
       = (mkSignRes 0x6986 None None, (s', later)) /\ d_ui (u_dev s') = None /\ untouched d (u_dev s')).
  Proof.
    intros Hi Hcall d data [U F T L B Z P Hh Hd Hs Ls] Fo Ws Sm Sh Room.
    assert (E : exists legacy ins, upload_command C ins = Some AccSign /\ ins < 256 /\
      (ins =? 0x04) || (ins =? 0x05) = false /\
      forall w, call H desk_held text (fst k) message w
                = sign_message H desk_held text (fst k) data legacy ins true w).
    { subst data. unfold upload_command. destruct Hcall as [ | |Hb|Hb].
      1, 2: exists false, 0x12; destruct (cf_baking C); repeat split.
      all: exists true, 0x0F; rewrite Hb; repeat split. }
    destruct E as (legacy & ins & Hc & Hins & Hn & E).
    destruct (message_held is text k data legacy ins true olds Hi T L B ltac:(discriminate) Hins Z P Fo)
      as (first & mids & last & Rq & G).
    destruct (wallet_by_hand C O hw f u K Uok is ins k data first mids last dg s rows Hi U F Hc Rq Ws Sm Sh Hh Hs Ls Room)
      as (m & M0 & M1 & M2 & (M3 & M4) & M5 & M6). rewrite Hn in M3.
    exists ins, first, mids, last, m. cbv zeta in *. split; [exact Rq|]. split; [exact M2|].
    specialize (G m M0 M1 _ _ M3 M5).
    split; intros later; rewrite E.
    - split; [|exact M4]. rewrite (proj1 (G later)), read_hashed by exact Hd. reflexivity.
    - split; [|exact M6]. rewrite (proj2 (G later)). reflexivity.
  Qed.

  Lemma delegation_held is text k kp branch o dg s olds : Forall input_ok is ->
    let d := u_dev (at_ is) in
    let data := 3 :: branch ++ enc_op o in
    let rows := batch_sheet branch [op_of o] in
    signable C O d text k data dg s olds -> Forall apdu_ok olds ->
    cf_baking C = true -> List.length branch = 32%nat -> op_ok o -> baker_op o = true ->
    wear_read (d_key d) = Some (RData kp) -> key_layout kp k ->
    (forall row, In row rows -> ~ unshowable O (snd row)) ->
    (forall sh p, exists room, cf_room C (VBakingSign sh dg branch p data) = Some room /\ len dg + len s + 2 <= room) ->
    exists ins first mids last m, let read := is ++ map asked (first :: mids ++ [last]) ++ repeat (IPress Right) m in
      request ins k data first mids last /\
      (hw = NanoX \/ z_expert (screen is) = false -> Forall (row_seen O known hw (z_seen (screen read))) rows) /\
      (forall later, let s' := at_ (read ++ [IPress Both]) in
       sign_baker H desk_held text (fst k) (branch ++ enc_op o) BkDelegation (at_ is, turns olds (repeat Right m ++ [Both]) ++ later)
       = (JData 0x9000 (mkSignRes 0x9000 (Some dg) (Some s)), (s', later)) /\
       d_log (u_dev s') = mkSig SrcBakingReview k dg data :: d_log d /\ d_ui (u_dev s') = None /\
       forall sl, wear_read (get_slot sl (u_dev s')) = wear_read (get_slot sl d)) /\
      (forall later, let s' := at_ (read ++ [IPress Right; IPress Both]) in
       sign_baker H desk_held text (fst k) (branch ++ enc_op o) BkDelegation (at_ is, turns olds (repeat Right m ++ [Right; Both]) ++ later)
       = (JData 0x6986 (mkSignRes 0x6986 None None), (s', later)) /\ d_ui (u_dev s') = None /\ untouched d (u_dev s')).
  Proof.
    intros Hi d data rows [U F T L B Z P Hh Hd Hs Ls] Fo Cb Lb Ho Hb Kr Kl Sh Room.
    destruct (message_held is text k data false 0xAF true olds Hi T L B ltac:(discriminate) eq_refl Z P Fo)
      as (first & mids & last & Rq & G).
    destruct (operation_by_hand C O hw f u K Uok is 0xAF k kp branch o first mids last dg s Hi U F Cb ltac:(cbn [In]; auto) Lb Ho Hb Rq Kr Kl Sh Hh Hs Ls Room)
      as (m & M0 & M1 & M2 & (M3 & M4) & M5 & M6). change (0xAF =? 0x04) with false in M3.
    exists 0xAF, first, mids, last, m. cbv zeta in *. split; [exact Rq|]. split; [exact M2|].
    specialize (G m M0 M1 _ _ M3 M5).
    split; intros later; unfold sign_baker; cbn [baker_magic]; fold data.
    - split; [|exact M4]. rewrite (proj1 (G later)), read_hashed by exact Hd. reflexivity.
    - split; [|exact M6]. rewrite (proj2 (G later)). reflexivity.
  Qed.

  Lemma authorise_held is text (k : key) pk old : Forall intact_fault f -> Forall input_ok is -> len is + 1 < 2 ^ 64 ->
    let d := u_dev (at_ is) in
    d_faults d = [] -> d_ui d = None -> cf_baking C = true -> apdu_ok old ->
    path_text text (snd k) -> List.length (snd k) = 2%nat \/ List.length (snd k) = 4%nat -> addressable O k pk -> roomy C 110 ->
    exists p m, let read := is ++ asked p :: repeat (IPress Right) m in
      (hw = NanoX \/ z_expert (screen is) = false ->
       text_seen hw (z_seen (screen read)) "Type" (chars "Authorize Baking") /\
       exists t, address_text O (fst k) pk t /\ text_seen hw (z_seen (screen read)) "Address" t) /\
      (forall later, let s' := at_ (read ++ [IPress Both]) in
       authorize_baking H desk_held text (fst k) (at_ is, (old, repeat Right m ++ [Both]) :: later)
       = (JData 0x9000 pk, (s', later)) /\
       d_log (u_dev s') = d_log d /\ (forall k', stored_key (u_dev s') k' <-> k' = k) /\
       forall sl, sl <> SKey -> wear_read (get_slot sl (u_dev s')) = wear_read (get_slot sl d)) /\
      (forall later, let s' := at_ (read ++ [IPress Right; IPress Both]) in
       authorize_baking H desk_held text (fst k) (at_ is, (old, repeat Right m ++ [Right; Both]) :: later)
       = (JCode 0x6986, (s', later)) /\ u_dev s' = d).
  Proof.
    intros Ff Hi Li d Fd U Cb Ao T Lk Ha R.
    destruct (key_request_ok O H HK d text k T Lk) as (Es & B & Lp & _ & Bc & G).
    destruct (G 0xA1 1 old BIP32_MAX_LENGTH ltac:(unfold BIP32_MAX_LENGTH; lia) eq_refl eq_refl Ao U) as (A1 & A2 & A3 & A4).
    destruct (authorise_by_hand C O hw f u K Uok is _ _ 0xA1 k pk Ff Hi Li Fd Cb A1 A2 ltac:(cbn [In]; auto) ltac:(rewrite A3; lia) A4 Ha R)
      as (m & M0 & M1 & M2 & (M3 & M4) & M5 & M6).
    exists (arrives 0xA1 1 (byte_of_curve (fst k)) (plain_path (snd k)) old, 5 + len (plain_path (snd k))), m.
    unfold asked. cbn [fst snd]. cbv zeta in *. split; [exact M2|].
    pose proof (fun later => ask_held is 0xA1 1 (byte_of_curve (fst k)) (plain_path (snd k)) read_pubkey old Hi ltac:(lia) A1 m M0 M1 _ _ M3 M5 later) as Q.
    unfold authorize_baking, with_path. rewrite Es. split; intros later; destruct (Q later) as [Q1 Q2].
    - split; [|exact M4]. rewrite Q1. change (len pk :: pk ++ [0x90; 0]) with ((len pk :: pk) ++ [0x90; 0]).
      rewrite read_good, read_pubkey_ok by exact (pubkey_short O K _ _ (proj1 Ha)). reflexivity.
    - split; [|exact M6]. rewrite Q2, read_bad by discriminate. reflexivity.
  Qed.

  Lemma address_held is text (k : key) pk old : Forall input_ok is ->
    let d := u_dev (at_ is) in
    d_ui d = None -> apdu_ok old ->
    path_text text (snd k) -> List.length (snd k) = 2%nat \/ List.length (snd k) = 4%nat -> addressable O k pk -> roomy C 110 ->
    exists p m t, let read := is ++ asked p :: repeat (IPress Right) m in
      address_text O (fst k) pk t /\
      (hw = NanoX \/ z_expert (screen is) = false -> text_seen hw (z_seen (screen read)) "Address" t) /\
      (forall later, let s' := at_ (read ++ [IPress Both]) in
       show_address_and_pubkey H desk_held text (fst k) (at_ is, (old, repeat Right m ++ [Both]) :: later)
       = (JData 0x9000 (pk, t), (s', later)) /\ u_dev s' = d) /\
      (forall later, let s' := at_ (read ++ [IPress Right; IPress Both]) in
       show_address_and_pubkey H desk_held text (fst k) (at_ is, (old, repeat Right m ++ [Right; Both]) :: later)
       = (JCode 0x6986, (s', later)) /\ u_dev s' = d).
  Proof.
    intros Hi d U Ao T Lk Ha R.
    destruct (key_request_ok O H HK d text k T Lk) as (Es & B & Lp & _ & Bc & G).
    destruct (G 0x11 1 old 6%nat ltac:(lia) eq_refl eq_refl Ao U) as (A1 & A2 & A3 & A4).
    assert (W : wants_review (arrives 0x11 1 (byte_of_curve (fst k)) (plain_path (snd k)) old) 0x11)
      by (right; split; [reflexivity|rewrite A3; lia]).
    destruct (address_by_hand C O hw f u K Uok is _ _ 0x11 k pk Hi A1 A2 W A4 Ha R)
      as (m & t & M0 & M1 & Mt & M2 & (M3 & M4) & M5 & M6).
    exists (arrives 0x11 1 (byte_of_curve (fst k)) (plain_path (snd k)) old, 5 + len (plain_path (snd k))), m, t.
    unfold asked. cbn [fst snd]. cbv zeta in *. split; [exact Mt|]. split; [exact M2|].
    pose proof (fun later => ask_held is 0x11 1 (byte_of_curve (fst k)) (plain_path (snd k)) read_addr old Hi ltac:(lia) A1 m M0 M1 _ _ M3 M5 later) as Q.
    unfold show_address_and_pubkey, with_path. rewrite Es. split; intros later; destruct (Q later) as [Q1 Q2].
    - split; [|exact M4]. rewrite Q1. change (len pk :: pk ++ t ++ [0x90; 0]) with ((len pk :: pk) ++ t ++ [0x90; 0]).
      rewrite app_assoc, read_good. change ((len pk :: pk) ++ t) with (len pk :: pk ++ t).
      rewrite read_addr_ok by exact (pubkey_short O K _ _ (proj1 Ha)). reflexivity.
    - split; [|exact M6]. rewrite Q2, read_bad by discriminate. reflexivity.
  Qed.

  Lemma setup_held is text (k : key) pk main test chain old : Forall intact_fault f -> Forall input_ok is -> len is + 2 < 2 ^ 64 ->
    let d := u_dev (at_ is) in
    d_faults d = [] -> d_ui d = None -> cf_baking C = true -> apdu_ok old ->
    main < 2 ^ 32 -> test < 2 ^ 32 -> chain < 2 ^ 32 ->
    path_text text (snd k) -> List.length (snd k) = 2%nat \/ List.length (snd k) = 4%nat -> addressable O k pk -> roomy C 110 ->
    twice O (kind_prefix KindChain ++ be 4 chain) <> None ->
    let call bs later := legacy_setup H desk_held text (fst k) (Z.of_N main) (Z.of_N test) (Z.of_N chain) (at_ is, (old, bs) :: later) in
    exists p m, let read := is ++ asked p :: repeat (IPress Right) m in
      (hw = NanoX \/ z_expert (screen is) = false ->
       let saw title := text_seen hw (z_seen (screen read)) title in
       saw "Type" (chars "Setup Baking") /\
       (exists t, address_text O (fst k) pk t /\ saw "Address" t) /\
       (exists t, chain_text O chain t /\ saw "Chain" t) /\
       (exists t, shows_number main t /\ saw "Main Chain HWM" t) /\
       (exists t, shows_number test t /\ saw "Test Chain HWM" t)) /\
      (forall later, let s' := at_ (read ++ [IPress Both]) in
       (exists r, call (repeat Right m ++ [Both]) later = (JData 0x9000 r, (s', later))) /\
       reports_all C O (u_dev s') main test chain /\ (forall k', stored_key (u_dev s') k' <-> k' = k)) /\
      (forall later, let s' := at_ (read ++ [IPress Right; IPress Both]) in
       call (repeat Right m ++ [Right; Both]) later = (JCode 0x6986, (s', later)) /\ u_dev s' = d).
  Proof.
    intros Ff Hi Li d Fd U Cb Ao Hm Ht Hc T Lk Ha R Tw call.
    destruct (key_request_ok O H HK d text k T Lk) as (Es & B & Lp & Pe & Bc & _).
    set (data := (be 4 chain ++ be 4 main ++ be 4 test) ++ plain_path (snd k)).
    assert (Ld : (List.length data <= 255)%nat) by (unfold data; rewrite !app_length, !be_length; lia).
    assert (Bd : bytes_ok data).
    { unfold data. apply bytes_ok_app. split; [|exact B]. apply bytes_ok_app. split; [apply be_ok|].
      apply bytes_ok_app. split; apply be_ok. }
    destruct (arrives_ok 0x0A 0 (byte_of_curve (fst k)) data old d Ld Bd eq_refl eq_refl Bc Ao U)
      as (A1 & A2 & A3 & A4 & A5 & A6).
    assert (Pp : pay (arrives 0x0A 0 (byte_of_curve (fst k)) data old)
      = be 4 chain ++ be 4 main ++ be 4 test ++ plain_path (snd k) ++ []).
    { rewrite A6. unfold data. rewrite app_nil_r, <- !app_assoc. reflexivity. }
    destruct (setup_by_hand C O hw f u K Uok is _ _ k main test chain (plain_path (snd k)) [] pk Ff Hi Li Fd Cb A1 A2 A4 Pp
      (Pe BIP32_MAX_LENGTH ltac:(unfold BIP32_MAX_LENGTH; lia)) Hm Ht Hc Ha R Tw)
      as (m & M0 & M1 & M2 & (M3 & M4) & M5 & M6).
    exists (arrives 0x0A 0 (byte_of_curve (fst k)) data old, 5 + len data), m.
    unfold asked. cbn [fst snd]. cbv zeta in *. split; [exact M2|].
    pose proof (fun later => ask_held is 0x0A 0 (byte_of_curve (fst k)) data (read_legacy_key H (fst k)) old Hi Ld A1 m M0 M1 _ _ M3 M5 later) as Q.
    assert (E : forall bs later, call bs later = ask desk_held 0x0A 0 (byte_of_curve (fst k)) data (read_legacy_key H (fst k)) (at_ is, (old, bs) :: later)).
    { intros bs later. unfold call, legacy_setup, with_path. rewrite Es. unfold write_u32.
      replace ((0 <=? Z.of_N chain) && (Z.of_N chain <? 2 ^ 32))%Z with true by lia.
      replace ((0 <=? Z.of_N main) && (Z.of_N main <? 2 ^ 32))%Z with true by lia.
      replace ((0 <=? Z.of_N test) && (Z.of_N test <? 2 ^ 32))%Z with true by lia.
      rewrite !N2Z.id. reflexivity. }
    split; intros later; destruct (Q later) as [Q1 Q2]; rewrite E.
    - split; [|exact M4]. rewrite Q1.
      destruct Ha as (Hk & l & h & F & Hh & Tw'). destruct (ok_pubkey _ K _ _ _ Hk) as [Lpk _].
      destruct (legacy_text H (fst k) pk l [] F Lpk) as (key' & l' & Er & _).
      rewrite app_nil_r in Er. change (len pk :: pk ++ [0x90; 0]) with ((len pk :: pk) ++ [0x90; 0]). rewrite read_good, Er.
      eexists. reflexivity.
    - split; [|exact M6]. rewrite Q2, read_bad by discriminate. reflexivity.
  Qed.
End Held.
