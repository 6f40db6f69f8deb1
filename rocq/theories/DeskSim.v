(** Every call of the host library on a device in a user's hands is a call on a device
    whose user decides. *)
From Coq Require Import NArith ZArith Bool Arith String List Lia.
From Coq Require Import ZifyBool ZifyNat ZifyN.
From Verif Require Import Base BaseFacts Flash Codecs CodecsSpec CodecsFacts Oracles Upload UploadSpec
  Text TextSpec TextExamples Bakers Device DeviceSpec DeviceFacts DeviceReviews DeviceSigs DeviceKeys Screens ScreensSpec
  Zui UiSpec UiDevice UiFacts UiRun UiCases HandSpec HandFacts Client ClientSpec ClientText ClientFacts ClientSign Desk DeskSpec DeskFacts.
Import ListNotations.
Open Scope list_scope.
Open Scope N_scope.

Lemma both_approves hw o z b : snd (press hw o z b) = Accept -> b = Both.
Proof.
  assert (P : forall x, snd (put_review hw x) <> Accept).
  { intros [x|[| |] x|] X; cbn [put_review snd] in X; discriminate X. }
  assert (Q : forall x, snd (put_page hw x) <> Accept).
  { intros [x|[| |] x|] X; cbn [put_page snd] in X; discriminate X. }
  intros E. destruct b; try reflexivity; exfalso; unfold press in E; destruct hw eqn:Eh; unfold press_s, press_x in E;
    destruct (z_face z); cbn [snd] in E; try discriminate E; try (exact (P _ E)); try (exact (Q _ E)).
  - destruct (can_decrease z); [exact (Q _ E)|discriminate E].
  - destruct (update_data NanoX o (paging_increase NanoX z)) as [x|[| |] x|]; cbn [put_page snd] in E; discriminate E.
Qed.

Section Sim.
  Variables (C : config) (O : oracles) (hw : hardware) (f u : list fault).
  Hypotheses (K : oracles_ok O) (Uok : Forall up_fault_ok u).
  Notation fresh := (ui_fresh hw f u).
  Notation uirun := (ui_run C O known hw).
  Notation at_ is := (snd (ui_run C O known hw fresh is)).
  Notation desk_held := (held C O known hw).

  Definition said_of (a : answer) : option bytes := match a with AReply r => Some r | _ => None end.

  Lemma at_app is is' : at_ (is ++ is') = snd (uirun (at_ is) is').
  Proof. rewrite ui_run_app. reflexivity. Qed.

  (** Buttons pressed while a command waits stand for one decision, or for none. *)
  Lemma pressed_decides old bs : apdu_ok old -> forall s, d_ui (u_dev s) <> None ->
    exists n e, stands_for (old, bs) (old, e) /\
      pressed C O known hw s bs = (said_of (fst (step C O (u_dev s) e)), snd (uirun s (map IPress (firstn n bs)))) /\
      u_dev (snd (uirun s (map IPress (firstn n bs)))) = snd (step C O (u_dev s) e).
  Proof.
    intros Ao. induction bs as [|b bs IH]; intros s U.
    - exists 0%nat, (EApdu old 0). split; [split; [reflexivity|split; [exact Ao|discriminate]]|].
      cbn [pressed firstn map ui_run snd step]. destruct (d_ui (u_dev s)); [|destruct (U eq_refl)]. split; reflexivity.
    - cbn [pressed ui_step].
      pose proof (both_approves hw (pending_review O known hw (u_dev s)) (u_zui s) b) as Bo.
      destruct (press hw (pending_review O known hw (u_dev s)) (u_zui s) b) as [z a] eqn:P. cbn [snd] in Bo.
      assert (D : a = Stay \/ exists e, event_of a = [e] /\ (e = EApprove -> a = Accept) /\ event_ok e).
      { destruct a; [now left|right..]; eexists; (split; [reflexivity|]); (split; [intros X; try discriminate X; reflexivity|exact Logic.I]). }
      destruct D as [->|(e & Ee & Ea & Eo)].
      + unfold perform. cbn [event_of run existsb].
        destruct (IH (mkUi (u_dev s) z) U) as (n & e & (S1 & S2 & S3) & P1 & P2). cbn [u_dev] in *.
        exists (S n), e. split; [split; [reflexivity|split; [exact S2|intros X; right; exact (S3 X)]]|].
        cbn [firstn map ui_run ui_step]. rewrite P. unfold perform. cbn [event_of run existsb].
        destruct (uirun (mkUi (u_dev s) z) (map IPress (firstn n bs))) as [l s2]. cbn [fst snd] in *. split; [exact P1|exact P2].
      + exists 1%nat, e. split; [split; [reflexivity|split; [exact Eo|intros X; left; exact (Bo (Ea X))]]|].
        cbn [firstn map ui_run ui_step]. rewrite P. unfold perform. rewrite Ee. cbn [run].
        destruct (step C O (u_dev s) e) as [x d']. cbn [fst snd existsb]. destruct x; cbn [said_of died orb snd u_dev]; split; reflexivity.
  Qed.

  (** What is simulated. *)
  Definition simulated {A} (call : call_of A) : Prop :=
    forall is hs, Forall input_ok is -> Forall (fun h => apdu_ok (fst h)) hs ->
    exists r ls hs1 hs2 es1, let is' := concat ls in
      hs = hs1 ++ hs2 /\ Forall2 stands_for hs1 es1 /\ Forall2 handled hs1 ls /\ Forall input_ok (is ++ is') /\
      call desk desk_held (at_ is, hs) = (r, (at_ (is ++ is'), hs2)) /\
      forall es2, (hs2 = [] -> es2 = []) ->
        call connection (plugged C O) (u_dev (at_ is), es1 ++ es2) = (r, (u_dev (at_ (is ++ is')), es2)).

  Lemma sim_ext {A} (c1 c2 : call_of A) : (forall W X w, c2 W X w = c1 W X w) -> simulated c1 -> simulated c2.
  Proof.
    intros E S is hs Hi Hh. destruct (S is hs Hi Hh) as (r & ls & hs1 & hs2 & es1 & S1 & S2 & S2' & S3 & S4 & S5).
    exists r, ls, hs1, hs2, es1. cbv zeta. rewrite E. do 5 (split; [assumption|]). intros es2 H2. rewrite E. exact (S5 es2 H2).
  Qed.
  Lemma sim_pure {A} (a : A) : simulated (fun W X w => (a, w)).
  Proof.
    intros is hs Hi Hh. exists a, [], [], hs, []. cbn [concat]. cbv zeta. rewrite app_nil_r. split; [reflexivity|]. split; [constructor|]. split; [constructor|].
    split; [exact Hi|]. split; [reflexivity|]. reflexivity.
  Qed.
  Lemma sim_bind {A B} (c : call_of A) (g : A -> call_of B) : simulated c -> (forall a, simulated (g a)) ->
    simulated (fun W X w => let (a, w') := c W X w in g a W X w').
  Proof.
    intros S G is hs Hi Hh. destruct (S is hs Hi Hh) as (a & ls1 & hs1 & hs2 & es1 & -> & S2 & S2' & S3 & S4 & S5). cbv zeta in *. set (is1 := concat ls1) in *.
    apply Forall_app in Hh as [_ Hh2].
    destruct (G a (is ++ is1) hs2 S3 Hh2) as (r & ls2 & hs3 & hs4 & es3 & -> & G2 & G2' & G3 & G4 & G5). cbv zeta in *. set (is2 := concat ls2) in *.
    exists r, (ls1 ++ ls2), (hs1 ++ hs3), hs4, (es1 ++ es3). cbv zeta. rewrite concat_app. fold is1 is2. rewrite (app_assoc is is1 is2), (app_assoc hs1 hs3 hs4).
    split; [reflexivity|]. split; [apply Forall2_app; assumption|]. split; [apply Forall2_app; assumption|]. split; [exact G3|]. split.
    - rewrite <- (app_assoc hs1 hs3 hs4), S4. exact G4.
    - intros es2 H2. rewrite <- app_assoc, S5.
      + apply G5. exact H2.
      + intros E. apply app_eq_nil in E as [-> ->]. inversion G2. rewrite (H2 eq_refl). reflexivity.
  Qed.

  (** One command. *)
  Lemma sim_exchange cmd : (List.length cmd <= 260)%nat -> bytes_ok cmd -> simulated (fun W (X : transport W) w => X w cmd).
  Proof.
    intros Lc Bc is hs Hi Hh. destruct hs as [|[old bs] hs].
    - exists None, [], [], [], []. cbn [concat]. cbv zeta. rewrite (app_nil_r is). split; [reflexivity|]. split; [constructor|]. split; [constructor|]. split; [exact Hi|].
      split; [reflexivity|]. intros es2 E. rewrite (E eq_refl). reflexivity.
    - pose proof (Forall_inv Hh) as Ao. cbn [fst] in Ao. set (p := (received cmd old, len cmd)).
      assert (Ap : apdu_ok (fst p)).
      { destruct Ao as [A1 A2]. unfold p, received. cbn [fst]. split.
        - rewrite app_length, skipn_length, A1. unfold bytes, byte in *. lia.
        - apply bytes_ok_app. split; [exact Bc|now apply bytes_ok_skipn]. }
      destruct (apdu_dev C O hw f u K Uok is (fst p) (snd p) Hi Ap) as [A1 A2].
      assert (H' : Forall input_ok (is ++ [asked p])) by (apply Forall_app; split; [exact Hi|constructor; [exact Ap|constructor]]).
      change (IApdu (fst p) (snd p)) with (asked p) in *.
      assert (E : at_ (is ++ [asked p]) = snd (ui_step C O known hw (at_ is) (asked p))) by (rewrite at_app, ui_run_one; reflexivity).
      assert (Pl : forall e es2, plugged C O (u_dev (at_ is), (old, e) :: es2) cmd =
        (let x := settle C O (step C O (u_dev (at_ is)) (EApdu (fst p) (snd p))) e in (fst x, (snd x, es2)))) by (intros; apply plugged_eq).
      assert (Rq : fst (step C O (u_dev (at_ is)) (EApdu (fst p) (snd p))) = APending ->
        d_ui (snd (step C O (u_dev (at_ is)) (EApdu (fst p) (snd p)))) <> None).
      { intros Ep. destruct (d_ui (u_dev (at_ is))) as [v|] eqn:U.
        - cbn [step] in Ep. rewrite U in Ep. discriminate Ep.
        - destruct (step_requested C O (u_dev (at_ is)) (EApdu (fst p) (snd p)) Ap U) as [(_ & v & Uv & _)|[X _]]; [|destruct (X Ep)].
          rewrite Uv. discriminate. }
      destruct (step C O (u_dev (at_ is)) (EApdu (fst p) (snd p))) as [a d1]. cbn [fst snd] in A1, A2, Rq, Pl.
      assert (Now : forall o, handed C O known hw (at_ is) p bs = (o, at_ (is ++ [asked p])) -> o = said_of a -> a <> APending ->
        exists r ls hs1 hs2 es1, let is' := concat ls in
          (old, bs) :: hs = hs1 ++ hs2 /\ Forall2 stands_for hs1 es1 /\ Forall2 handled hs1 ls /\ Forall input_ok (is ++ is') /\
          desk_held (at_ is, (old, bs) :: hs) cmd = (r, (at_ (is ++ is'), hs2)) /\
          forall es2, (hs2 = [] -> es2 = []) ->
            plugged C O (u_dev (at_ is), es1 ++ es2) cmd = (r, (u_dev (at_ (is ++ is')), es2))).
      { intros o Eo -> Na. exists (said_of a), [[asked p]], [(old, bs)], hs, [(old, EApdu old 0)]. cbn [concat app]. cbv zeta.
        split; [reflexivity|]. split; [constructor; [split; [reflexivity|split; [exact Ao|discriminate]]|constructor]|].
        split; [constructor; [exists cmd, 0%nat; reflexivity|constructor]|].
        split; [exact H'|]. split.
        - unfold held. fold p. rewrite Eo. reflexivity.
        - intros es2 _. cbn [app]. rewrite Pl, A2. destruct a; cbn [settle said_of]; try reflexivity. destruct (Na eq_refl). }
      destruct a as [r| | |].
      2:{ specialize (Rq eq_refl). rewrite <- A2 in Rq.
          destruct (pressed_decides old bs Ao (at_ (is ++ [asked p])) Rq) as (n & e & St & P1 & P2).
          exists (said_of (fst (step C O (u_dev (at_ (is ++ [asked p]))) e))), [asked p :: map IPress (firstn n bs)], [(old, bs)], hs, [(old, e)]. cbn [concat]. cbv zeta. rewrite (app_nil_r (asked p :: map IPress (firstn n bs))).
          assert (Ei : is ++ asked p :: map IPress (firstn n bs) = (is ++ [asked p]) ++ map IPress (firstn n bs)) by (rewrite <- app_assoc; reflexivity).
          split; [reflexivity|]. split; [constructor; [exact St|constructor]|].
          split; [constructor; [exists cmd, n; reflexivity|constructor]|].
          split; [rewrite Ei; apply Forall_app; split; [exact H'|]; apply Forall_map, Forall_forall; intros; exact Logic.I|].
          rewrite Ei, (at_app (is ++ [asked p]) (map IPress (firstn n bs))). split.
          - assert (Hd : handed C O known hw (at_ is) p bs = pressed C O known hw (at_ (is ++ [asked p])) bs).
            { unfold handed. change (IApdu (fst p) (snd p)) with (asked p). rewrite E.
              destruct (ui_step C O known hw (at_ is) (asked p)) as [l s1]. cbn [fst snd] in *. subst l. reflexivity. }
            unfold held. fold p. rewrite Hd, P1. reflexivity.
          - intros es2 _. cbn [app]. rewrite Pl, P2, A2. cbn [settle].
            destruct (step C O d1 e) as [[r| | |] d2]; reflexivity. }
      all: eapply Now; [unfold handed; change (IApdu (fst p) (snd p)) with (asked p); rewrite E;
        destruct (ui_step C O known hw (at_ is) (asked p)) as [l s1]; cbn [fst snd] in *; subst l; reflexivity|reflexivity|discriminate].
  Qed.

  (** ** The calls *)

  Lemma sim_send codes ins p1 p2 data : ins < 256 -> p1 < 256 -> p2 < 256 -> bytes_ok data ->
    simulated (fun W (X : transport W) w => send_codes X codes ins p1 p2 data w).
  Proof.
    intros H1 H2 H3 Bd. destruct (256 <=? len data) eqn:L.
    - apply (sim_ext (fun W X w => (SentErr OTHER_ERROR, w))); [|apply sim_pure].
      intros W X w. unfold send_codes. rewrite L. reflexivity.
    - apply (sim_ext (fun W X w => let (o, w') := X w ([HOST_CLA; ins; p1; p2; len data] ++ data) in
        (match o with
         | None => SentErr OTHER_ERROR
         | Some r => if len r <? 2 then SentErr OTHER_ERROR
                     else if existsb (N.eqb (status_of r)) codes then SentOk r else SentErr (status_of r)
         end, w'))).
      + intros W X w. unfold send_codes. rewrite L. destruct (X w _) as [[r|] w']; [|reflexivity].
        destruct (len r <? 2); [reflexivity|]. destruct (existsb _ codes); reflexivity.
      + apply (sim_bind (fun W X w => X w ([HOST_CLA; ins; p1; p2; len data] ++ data))
          (fun o W X w' => (match o with
             | None => SentErr OTHER_ERROR
             | Some r => if len r <? 2 then SentErr OTHER_ERROR
                         else if existsb (N.eqb (status_of r)) codes then SentOk r else SentErr (status_of r)
             end, w'))); [|intros o; apply sim_pure].
        apply sim_exchange.
        * rewrite app_length. cbn [List.length]. unfold len in L. unfold bytes, byte in *. lia.
        * apply bytes_ok_app. split; [|exact Bd].
          do 5 (apply Forall_cons; [first [assumption|reflexivity|unfold len in *; lia]|]). apply Forall_nil.
  Qed.

  Lemma sim_ask {A} ins p1 p2 data (g : bytes -> option A) : ins < 256 -> p1 < 256 -> p2 < 256 -> bytes_ok data ->
    simulated (fun W (X : transport W) w => ask X ins p1 p2 data g w).
  Proof.
    intros H1 H2 H3 Bd.
    apply (sim_ext (fun W X w => let (o, w') := send_codes X [NO_ERRORS] ins p1 p2 data w in
      (match o with
       | SentErr c => JCode c
       | SentOk r => match g r with Some a => JData (status_of r) a | None => JThrow end
       end, w'))).
    - intros W X w. unfold ask, send_to. destruct (send_codes X [NO_ERRORS] ins p1 p2 data w) as [[r|c] w']; reflexivity.
    - apply (sim_bind (fun W X w => send_codes X [NO_ERRORS] ins p1 p2 data w) (fun o W X w' => (match o with
       | SentErr c => JCode c
       | SentOk r => match g r with Some a => JData (status_of r) a | None => JThrow end
       end, w'))); [now apply sim_send|intros o; apply sim_pure].
  Qed.

  Lemma sim_chunk idx num chunk legacy c ins wh : ins < 256 -> bytes_ok chunk ->
    simulated (fun W (X : transport W) w => sign_send_chunk X idx num chunk legacy c ins wh w).
  Proof.
    intros H1 Bd.
    set (k := fun o => match o with
      | SentErr code => mkSignRes code None None
      | SentOk r =>
        if (status_of r =? NO_ERRORS) && (2 <? len r) then
          if wh then mkSignRes (status_of r) (Some (js_slice 0 32 r)) (Some (js_slice 32 (-2) r))
          else mkSignRes (status_of r) (Some (repeat 0 32)) (Some (js_slice 0 32 r))
        else mkSignRes (status_of r) None None
      end).
    apply (sim_ext (fun W X w => let (o, w') := send_codes X SIGN_CODES ins (chunk_p1 idx num legacy) (chunk_p2 idx c) chunk w in (k o, w'))).
    - intros W X w. unfold sign_send_chunk.
      destruct (send_codes X SIGN_CODES ins (chunk_p1 idx num legacy) (chunk_p2 idx c) chunk w) as [[r|code] w']; reflexivity.
    - apply (sim_bind (fun W X w => send_codes X SIGN_CODES ins (chunk_p1 idx num legacy) (chunk_p2 idx c) chunk w) (fun o W X w' => (k o, w')));
        [|intros o; apply sim_pure].
      apply sim_send; [exact H1| | |exact Bd].
      + unfold chunk_p1. destruct (idx =? 1)%nat, (idx =? num)%nat, legacy; reflexivity.
      + unfold chunk_p2. destruct (idx =? 1)%nat, c; reflexivity.
  Qed.

  Lemma sim_rest num legacy c ins wh chunks : ins < 256 -> Forall bytes_ok chunks -> forall i res,
    simulated (fun W (X : transport W) w => sign_rest X i num chunks legacy c ins wh res w).
  Proof.
    intros H1. induction chunks as [|ch chunks IH]; intros F i res.
    - apply (sim_ext (fun W X w => (res, w))); [reflexivity|apply sim_pure].
    - apply (sim_ext (fun W X w => let (r, w') := sign_send_chunk X (1 + i) num ch legacy c ins wh w in
        (fun r W X w' => if sr_code r =? NO_ERRORS then sign_rest X (S i) num chunks legacy c ins wh r w' else (r, w')) r W X w')); [reflexivity|].
      apply (sim_bind (fun W X w => sign_send_chunk X (1 + i) num ch legacy c ins wh w)
        (fun r W X w' => if sr_code r =? NO_ERRORS then sign_rest X (S i) num chunks legacy c ins wh r w' else (r, w'))).
      + apply sim_chunk; [exact H1|exact (Forall_inv F)].
      + intros r. destruct (sr_code r =? NO_ERRORS); [apply (IH (Forall_inv_tail F))|apply sim_pure].
  Qed.

  Variable H : host.

  Lemma write_ok v b : write_u32 v = Some b -> bytes_ok b.
  Proof.
    unfold write_u32. destruct (_ && _)%Z; intros E; [|discriminate E]. assert (Eb : b = be 4 (Z.to_N v)) by congruence.
    rewrite Eb. apply be_ok.
  Qed.
  Lemma children_ok l : forall r, children_bytes H l = Some r -> bytes_ok r.
  Proof.
    induction l as [|x l IH]; intros r E; cbn [children_bytes] in E; [injection E as <-; constructor|].
    destruct (child_bytes H x) as [b|] eqn:Eb; [|discriminate E]. destruct (children_bytes H l) as [r'|]; [|discriminate E].
    injection E as <-. apply bytes_ok_app. split; [|now apply IH].
    unfold child_bytes in Eb. destruct (h_number H _) as [z|]; [|discriminate Eb]. destruct (_ <=? z)%Z; [discriminate Eb|].
    exact (write_ok _ _ Eb).
  Qed.
  Lemma serialized_ok text sp : serialize_path H text = Some sp -> bytes_ok sp.
  Proof.
    unfold serialize_path. intros E. destruct text as [|c0 text]; [discriminate E|]. destruct (negb (c0 =? 109)); [discriminate E|].
    set (parts := split_at 47 (c0 :: text)) in E. clearbody parts. cbv zeta in E.
    destruct (negb _) eqn:N; [discriminate E|]. destruct (children_bytes H (tl parts)) as [r|] eqn:R; [|discriminate E].
    cbn [option_map] in E. injection E as <-. constructor; [|exact (children_ok _ _ R)].
    apply negb_false_iff, orb_prop in N. unfold len. destruct N as [N|N]; apply Nat.eqb_eq in N; unfold bytes, byte in *; lia.
  Qed.
  Lemma chunks_ok message : forall fuel i, bytes_ok message -> Forall bytes_ok (chunk_loop fuel i message).
  Proof.
    intros fuel. induction fuel as [|fuel IH]; intros i B; cbn [chunk_loop]; [constructor|].
    destruct (i <? len message); [|constructor]. constructor; [|now apply IH].
    unfold js_slice. now apply bytes_ok_firstn, bytes_ok_skipn.
  Qed.

  Lemma sim_message text c message legacy ins wh : ins < 256 -> bytes_ok message ->
    simulated (fun W (X : transport W) w => sign_message H X text c message legacy ins wh w).
  Proof.
    intros H1 Bm. destruct (serialize_path H text) as [sp|] eqn:Es.
    - set (rest := chunk_loop (S (List.length message)) 0 message).
      apply (sim_ext (fun W X w => let (r, w') := sign_send_chunk X 1 (S (List.length rest)) sp legacy c ins wh w in
        (fun r W X w' => sign_rest X 1 (S (List.length rest)) rest legacy c ins wh (mkSignRes (sr_code r) None None) w') r W X w')).
      + intros W X w. unfold sign_message. rewrite Es. reflexivity.
      + apply (sim_bind (fun W X w => sign_send_chunk X 1 (S (List.length rest)) sp legacy c ins wh w)
          (fun r W X w' => sign_rest X 1 (S (List.length rest)) rest legacy c ins wh (mkSignRes (sr_code r) None None) w')).
        * apply sim_chunk; [exact H1|exact (serialized_ok text sp Es)].
        * intros r. apply sim_rest; [exact H1|]. apply chunks_ok. exact Bm.
    - apply (sim_ext (fun W X w => (mkSignRes OTHER_ERROR None None, w))); [|apply sim_pure].
      intros W X w. unfold sign_message. rewrite Es. reflexivity.
  Qed.

  Lemma sim_path {A} text (g : bytes -> call_of (jres A)) : (forall sp, bytes_ok sp -> simulated (g sp)) ->
    simulated (fun W X w => with_path H text (fun sp => g sp W X) w).
  Proof.
    intros G. destruct (serialize_path H text) as [sp|] eqn:Es.
    - apply (sim_ext (g sp)); [|exact (G sp (serialized_ok text sp Es))]. intros W X w. unfold with_path. rewrite Es. reflexivity.
    - apply (sim_ext (fun W X w => (JThrow, w))); [|apply sim_pure]. intros W X w. unfold with_path. rewrite Es. reflexivity.
  Qed.
  Lemma curve_byte c : byte_of_curve c < 256.
  Proof. destruct c; reflexivity. Qed.

  Lemma calls_simulated A (call : call_of A) : library_call H A call -> simulated call.
  Proof.
    intros Lc. destruct Lc.
    - apply sim_message; [reflexivity|constructor; [reflexivity|assumption]].
    - apply sim_message; [reflexivity|constructor; [reflexivity|assumption]].
    - destruct (baker_magic kind m) as [mg|] eqn:E.
      + apply (sim_ext (fun W X w => let (r, w') := sign_message H X path c (mg :: m) false 0xAF true w in
          (fun r W X w' => (JData (sr_code r) r, w')) r W X w')).
        * intros W X w. unfold sign_baker. rewrite E. reflexivity.
        * apply (sim_bind (fun W X w => sign_message H X path c (mg :: m) false 0xAF true w) (fun r W X w' => (JData (sr_code r) r, w')));
            [|intros r; apply sim_pure].
          apply sim_message; [reflexivity|constructor; [|assumption]].
          unfold baker_magic in E. destruct kind.
          -- destruct (nth_error m (4 + 32)) as [v|]; [|injection E as <-; reflexivity].
             destruct (v =? 20); [injection E as <-; reflexivity|]. destruct (v =? 21); injection E as <-; reflexivity.
          -- destruct (nth_error m _) as [v|]; [|discriminate E]. destruct ((v =? 0) || (v =? 1)); [injection E as <-; reflexivity|].
             destruct (v =? 2); [injection E as <-; reflexivity|discriminate E].
          -- injection E as <-. reflexivity.
      + apply (sim_ext (fun W X w => (JThrow, w))); [|apply sim_pure]. intros W X w. unfold sign_baker. rewrite E. reflexivity.
    - apply sim_message; [reflexivity|constructor; [destruct kind; reflexivity|assumption]].
    - apply sim_message; [reflexivity|constructor; [destruct kind; reflexivity|assumption]].
    - apply (sim_path path (fun sp W X => ask X 0x11 0 (byte_of_curve c) sp read_addr)). intros sp Bs. apply sim_ask; [reflexivity|reflexivity|apply curve_byte|exact Bs].
    - apply (sim_path path (fun sp W X => ask X 0x11 1 (byte_of_curve c) sp read_addr)). intros sp Bs. apply sim_ask; [reflexivity|reflexivity|apply curve_byte|exact Bs].
    - apply (sim_path path (fun sp W X => ask X 0x02 0 (byte_of_curve c) sp (read_legacy_key H c))). intros sp Bs. apply sim_ask; [reflexivity|reflexivity|apply curve_byte|exact Bs].
    - apply (sim_path path (fun sp W X => ask X 0x03 0 (byte_of_curve c) sp (read_legacy_key H c))). intros sp Bs. apply sim_ask; [reflexivity|reflexivity|apply curve_byte|exact Bs].
    - apply (sim_path path (fun sp W X => ask X 0xA1 1 (byte_of_curve c) sp read_pubkey)). intros sp Bs. apply sim_ask; [reflexivity|reflexivity|apply curve_byte|exact Bs].
    - apply sim_ask; [reflexivity..|constructor].
    - apply sim_ask; [reflexivity|destruct confirm; reflexivity|reflexivity|constructor].
    - destruct (write_i32 level) as [data|] eqn:E.
      + apply (sim_ext (fun W X w => ask X 0x06 0 0 data (fun _ => Some tt) w)); [intros W X w; unfold legacy_reset; rewrite E; reflexivity|].
        apply sim_ask; [reflexivity..|]. unfold write_i32 in E. destruct (_ && _)%Z; [|discriminate E].
        assert (Eb : data = be 4 (Z.to_N (level mod 2 ^ 32))) by congruence. rewrite Eb. apply be_ok.
      + apply (sim_ext (fun W X w => (JThrow, w))); [|apply sim_pure]. intros W X w. unfold legacy_reset. rewrite E. reflexivity.
    - apply sim_ask; [reflexivity..|constructor].
    - apply sim_ask; [reflexivity..|constructor].
    - apply (sim_path path (fun sp W X w => match write_u32 chain, write_u32 main, write_u32 test with
        | Some a, Some b, Some d => ask X 0x0A 0 (byte_of_curve c) ((a ++ b ++ d) ++ sp) (read_legacy_key H c) w
        | _, _, _ => (JThrow, w)
        end)). intros sp Bs.
      destruct (write_u32 chain) as [a|] eqn:E1; [|apply sim_pure]. destruct (write_u32 main) as [b|] eqn:E2; [|apply sim_pure].
      destruct (write_u32 test) as [d|] eqn:E3; [|apply sim_pure].
      apply sim_ask; [reflexivity|reflexivity|apply curve_byte|]. apply bytes_ok_app. split; [|exact Bs].
      apply bytes_ok_app. split; [exact (write_ok _ _ E1)|]. apply bytes_ok_app. split; [exact (write_ok _ _ E2)|exact (write_ok _ _ E3)].
    - apply (sim_path path (fun sp W X => ask X 0x0E 0 (byte_of_curve c) (sp ++ m) (fun r => Some (js_slice 0 (-2) r)))). intros sp Bs.
      apply sim_ask; [reflexivity|reflexivity|apply curve_byte|]. apply bytes_ok_app. split; assumption.
    - apply sim_ask; [reflexivity..|constructor].
    - apply sim_ask; [reflexivity..|constructor].
    - apply sim_ask; [reflexivity..|constructor].
  Qed.

  (** In final form. *)
  Lemma hands_decide is hs A (call : call_of A) : library_call H A call -> Forall input_ok is ->
    Forall (fun h => apdu_ok (fst h)) hs ->
    exists r ls hs1 hs2 es, let is' := is ++ concat ls in
      hs = hs1 ++ hs2 /\ Forall2 stands_for hs1 es /\ Forall2 handled hs1 ls /\ Forall input_ok is' /\
      call desk desk_held (at_ is, hs) = (r, (at_ is', hs2)) /\
      call connection (plugged C O) (u_dev (at_ is), es) = (r, (u_dev (at_ is'), [])).
  Proof.
    intros Lc Hi Hh. destruct (calls_simulated A call Lc is hs Hi Hh) as (r & ls & hs1 & hs2 & es & S1 & S2 & S2' & S3 & S4 & S5).
    exists r, ls, hs1, hs2, es. cbv zeta in *. do 5 (split; [assumption|]). specialize (S5 [] (fun _ => eq_refl)). rewrite app_nil_r in S5. exact S5.
  Qed.

  (** What an input other than both buttons can do. *)
  Definition quiet (d d' : dev) : Prop :=
    (forall k, stored_key d' k <-> stored_key d k) /\
    exists l, d_log d' = l ++ d_log d /\ forall g, In g l -> cf_baking C = true /\ (sg_src g = SrcConsensus \/ sg_src g = SrcHmac).
  Lemma quiet_refl d : quiet d d.
  Proof. split; [reflexivity|]. exists []. split; [reflexivity|]. intros g []. Qed.
  Lemma quiet_trans d1 d2 d3 : quiet d1 d2 -> quiet d2 d3 -> quiet d1 d3.
  Proof.
    intros [K1 (l1 & E1 & G1)] [K2 (l2 & E2 & G2)]. split.
    - intros k. rewrite K2. apply K1.
    - exists (l2 ++ l1). rewrite E2, E1, app_assoc. split; [reflexivity|]. intros g Hg. apply in_app_or in Hg as [Hg|Hg]; [now apply G2|now apply G1].
  Qed.
  Lemma quiet_step es e : Forall event_ok es -> event_ok e -> e <> EApprove ->
    quiet (snd (run C O (dev_fresh f u) es)) (snd (step C O (snd (run C O (dev_fresh f u) es)) e)).
  Proof.
    intros He Hx Na. set (d := snd (run C O (dev_fresh f u) es)). split.
    - intros k. apply (key_stays C O f u es e k). destruct e; try reflexivity. destruct (Na eq_refl).
    - destruct (step_signs C O d e Hx (reach_ui C O f u es He)) as [E|(g & E & Ca & _)].
      + exists []. split; [exact E|]. intros g [].
      + exists [g]. split; [exact E|]. intros g' [<-|[]]. unfold sig_cause in Ca. destruct (sg_src g).
        * split; [exact (proj1 Ca)|now left].
        * destruct (Na (proj1 Ca)).
        * destruct (Na (proj1 Ca)).
        * split; [exact (proj1 Ca)|now right].
  Qed.
  Lemma quiet_input is i : Forall input_ok (is ++ [i]) -> i <> IPress Both -> quiet (u_dev (at_ is)) (u_dev (at_ (is ++ [i]))).
  Proof.
    intros Hi Nb. assert (H0 : Forall input_ok is) by (apply Forall_app in Hi; apply Hi).
    destruct (reach C O hw f u K Uok _ H0) as (_ & _ & R). destruct (reach C O hw f u K Uok _ Hi) as (_ & _ & R').
    pose proof (events_ok C O known hw fresh _ Hi) as Ev. rewrite events_of_app in Ev, R'. apply Forall_app in Ev as [E1 E2].
    rewrite run_pair, R in R'. pose proof (f_equal snd R) as R0. cbn [fst snd] in R', R0.
    pose proof (f_equal snd R') as R2. cbn [snd] in R2. rewrite <- R2. clear R' R2.
    cbn [events_of] in E2 |- *. rewrite app_nil_r in E2 |- *. rewrite <- R0.
    set (ev := events_of_input O known hw (at_ is) i) in *.
    assert (X : ev = [] \/ exists e, ev = [e] /\ e <> EApprove).
    { unfold ev. destruct i as [buf rx|b|]; cbn [events_of_input].
      - right. eexists. split; [reflexivity|discriminate].
      - pose proof (both_approves hw (pending_review O known hw (u_dev (at_ is))) (u_zui (at_ is)) b) as Bo.
        destruct (snd (press hw (pending_review O known hw (u_dev (at_ is))) (u_zui (at_ is)) b)); cbn [event_of];
          [now left|destruct (Nb (f_equal IPress (Bo eq_refl)))|right..]; (eexists; split; [reflexivity|discriminate]).
      - right. eexists. split; [reflexivity|discriminate]. }
    destruct X as [->|(e & -> & Ne)].
    - cbn [run snd]. apply quiet_refl.
    - cbn [run]. pose proof (quiet_step _ e E1 (Forall_inv E2) Ne) as Q.
      destruct (step C O (snd (run C O (dev_fresh f u) (events_of C O known hw fresh is))) e) as [a d1]. exact Q.
  Qed.
  Lemma quiet_inputs is' : forall is, Forall input_ok (is ++ is') -> ~ In (IPress Both) is' -> quiet (u_dev (at_ is)) (u_dev (at_ (is ++ is'))).
  Proof.
    induction is' as [|i is' IH]; intros is Hi Nb; [rewrite app_nil_r; apply quiet_refl|].
    assert (E : is ++ i :: is' = (is ++ [i]) ++ is') by (rewrite <- app_assoc; reflexivity). rewrite E in *.
    apply (quiet_trans _ (u_dev (at_ (is ++ [i])))).
    - apply quiet_input; [apply Forall_app in Hi; apply Hi|]. intros X. apply Nb. now left.
    - apply IH; [exact Hi|]. intros X. apply Nb. now right.
  Qed.

  (** In final form. *)
  Lemma needs_both is hs A (call : call_of A) : library_call H A call -> Forall input_ok is ->
    Forall (fun h => apdu_ok (fst h)) hs -> (forall h, In h hs -> ~ In Both (snd h)) ->
    let d := u_dev (at_ is) in
    let d' := u_dev (fst (snd (call desk desk_held (at_ is, hs)))) in
    (forall k, stored_key d' k <-> stored_key d k) /\
    exists l, d_log d' = l ++ d_log d /\ forall g, In g l -> cf_baking C = true /\ (sg_src g = SrcConsensus \/ sg_src g = SrcHmac).
  Proof.
    intros Lc Hi Hh Nb. destruct (hands_decide is hs A call Lc Hi Hh) as (r & ls & hs1 & hs2 & es & -> & _ & Hd & Ho & E & _).
    cbv zeta in *. rewrite E. cbn [fst snd]. apply quiet_inputs; [exact Ho|].
    intros X. apply in_concat in X as (l & Hl & X).
    assert (Y : exists h, In h hs1 /\ handled h l).
    { clear - Hd Hl. induction Hd as [|h l' hs ls Q _ IH]; [destruct Hl|]. destruct Hl as [<-|Hl].
      - exists h. split; [now left|exact Q].
      - destruct (IH Hl) as (h' & Hh & Q'). exists h'. split; [now right|exact Q']. }
    destruct Y as (h & Hh1 & command & n & ->). destruct X as [X|X]; [discriminate X|].
    apply in_map_iff in X as (b & Eb & Hb). injection Eb as ->.
    apply (Nb h); [apply in_or_app; now left|]. clear - Hb. rewrite <- (firstn_skipn n (snd h)). apply in_or_app. now left.
  Qed.
End Sim.
