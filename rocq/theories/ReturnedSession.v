(** What a host that talks to a device for a while gets signed. *)
From Coq Require Import List NArith ZArith Lia Bool Arith ZifyBool ZifyNat ZifyN.
From Verif Require Import Base BaseFacts Flash FlashFacts Codecs CodecsSpec CodecsFacts
  Upload UploadSpec UploadFacts Baking BakingSpec BakingFacts Operations Oracles Address AddressSpec
  Device DeviceSpec DeviceFacts DeviceProofs DeviceHist DeviceSigs DeviceAnswers DeviceReviews DeviceKeys
  DeviceSlots DeviceCommands DeviceUploads DeviceExamples AcceptedSpec AcceptedFacts ServiceSpec InterruptFacts
  Client ClientSpec ClientFacts ClientSign ReturnedSpec ReturnedFacts.
Import ListNotations.
Open Scope N_scope.

Section Session.
  Variable C : config.
  Variable O : oracles.

  (** The events of a call. *)
  Definition traced (d d' : dev) (n : N) : Prop :=
    exists es, Forall event_ok es /\ len es <= n /\ no_reset C O d es /\ d' = snd (run C O d es).
  Lemma traced_refl d n : traced d d n.
  Proof. exists []. split; [constructor|]. split; [unfold len; cbn [length]; lia|]. split; [exact Logic.I|reflexivity]. Qed.
  Lemma no_reset_app es1 : forall d es2, no_reset C O d es1 -> no_reset C O (snd (run C O d es1)) es2 -> no_reset C O d (es1 ++ es2).
  Proof.
    induction es1 as [|e es1 IH]; intros d es2 N1 N2; [exact N2|]. cbn [app no_reset] in *. destruct N1 as [N0 N1]. split; [exact N0|].
    apply IH; [exact N1|]. cbn [run] in N2. destruct (step C O d e) as [a d1]. cbn [snd] in *. destruct (run C O d1 es1). exact N2.
  Qed.
  Lemma traced_trans d1 d2 d3 n m : traced d1 d2 n -> traced d2 d3 m -> traced d1 d3 (n + m).
  Proof.
    intros (es1 & A1 & A2 & A3 & ->) (es2 & B1 & B2 & B3 & ->). exists (es1 ++ es2).
    split; [apply Forall_app; auto|]. split; [rewrite len_app; lia|]. split; [now apply no_reset_app|]. symmetry. apply run_app.
  Qed.
  Lemma traced_le d d' n m : traced d d' n -> n <= m -> traced d d' m.
  Proof. intros (es & A1 & A2 & A3) L. exists es. split; [exact A1|]. split; [lia|exact A3]. Qed.
  Lemma traced_one d e : event_ok e -> ~ resets C d e -> traced d (snd (step C O d e)) 1.
  Proof.
    intros He Nr. exists [e]. split; [constructor; [exact He|constructor]|]. split; [unfold len; cbn [length]; lia|].
    split; [split; [exact Nr|exact Logic.I]|]. symmetry. apply run_one.
  Qed.

  (** A signing command starts no review of a set-up. *)
  Definition no_setup (d : dev) : Prop := match d_ui d with None | Some (VSetup _ _ _ _ _) => False | _ => True end.
  Lemma signing_view buf rx d d' : In (nth 1 buf 0) [0x12; 0x0F; 0xAF] -> d_ui d = None ->
    step C O d (EApdu buf rx) = (APending, d') -> no_setup d'.
  Proof.
    intros Hin U E. cbn [step] in E. rewrite U in E.
    assert (W : forall a f, (forall up d1, exact C O up d1 (f up d1)) -> 
       match with_upload a buf f d with (Ok Later, d1) => no_setup d1 | _ => True end).
    { intros a f Ex. unfold with_upload, the_upload. unfold bind at 1.
      destruct (upload a buf (d_up d) (d_ufaults d)) as [[o u'] s].
      set (d1 := set_up u' (set_ufaults s d)). destruct o as [[up|]|e| |]; try exact Logic.I.
      specialize (Ex up d1). destruct (f up d1) as [[[out|]|e| |] d2]; cbn [exact] in Ex; unfold bind, drop_upload, ret, fail; try exact Logic.I.
      destruct Ex as (_ & k & dg & _ & v & V & _ & Wt). unfold no_setup. destruct d2. cbn in V |- *. rewrite V.
      destruct Wt as [(p & -> & _)|(br & o & -> & _)]; exact Logic.I. }
    assert (D : match dispatch C O buf d with (Ok Later, d1) => no_setup d1 | _ => True end).
    { destruct (N.eqb_spec (nth 0 buf 0) 0x80) as [E0|E0].
      - destruct (served C O (nth 1 buf 0) Hin) as [(a & f & Sd & _ & Ex)|Rf].
        + rewrite (Sd buf E0 eq_refl). now apply W.
        + rewrite (Rf buf E0 eq_refl). exact Logic.I.
      - unfold dispatch, apdu_cla, CLA. apply N.eqb_neq in E0. rewrite E0. exact Logic.I. }
    destruct (apdu_read_ok buf rx).
    - destruct (dispatch C O buf d) as [[[out|]|e| |] d1]; cbn [finish] in E; try discriminate E.
      + destruct (_ <? _) in E; discriminate E.
      + injection E as <-. exact D.
      + destruct (_ <? _) in E; discriminate E.
    - cbn [finish] in E. destruct (_ <? _) in E; discriminate E.
  Qed.

  Definition sched_fine (l : list (bytes * event)) : Prop := Forall (fun x => apdu_ok (fst x) /\ event_ok (snd x)) l.

  Lemma settle_traced ins p1 p2 chunk old user kind d : In ins [0x12; 0x0F; 0xAF] ->
    (length chunk <= 255)%nat -> bytes_ok chunk -> p1 < 256 -> p2 < 256 -> apdu_ok old -> kind_of p1 = Some kind -> event_ok user ->
    let p := pkt_of ins p1 p2 chunk old in
    traced d (snd (settle C O (step C O d (EApdu (fst p) (snd p))) user)) 2.
  Proof.
    intros Hin Lc Bc H1 H2 Ho Kd Eu p.
    assert (Hi : ins < 256) by (destruct Hin as [<-|[<-|[<-|[]]]]; reflexivity).
    destruct (pkt_packet ins p1 p2 chunk old kind Lc Bc Hi H1 H2 Ho Kd) as ((P1 & P2 & P3 & P4 & P5) & _). fold p in P1, P2, P3, P4, P5.
    clearbody p. destruct p as [buf rx]. cbn [fst snd] in *.
    assert (T1 : traced d (snd (step C O d (EApdu buf rx))) 1).
    { apply traced_one; [exact P1|]. intros (_ & (_ & _ & _ & E) & _). rewrite P4 in E. clear - Hin E.
      destruct Hin as [X|[X|[X|[]]]]; rewrite <- X in E; discriminate E. }
    assert (Dec : d_ui d <> None \/ d_ui d = None) by (destruct (d_ui d); [left; discriminate|right; reflexivity]).
    destruct Dec as [U|U].
    { rewrite (step_deaf C O d buf rx U). cbn [settle snd]. apply traced_refl. }
    rewrite <- P4 in Hin. pose proof (signing_view buf rx d) as Sv.
    destruct (step C O d (EApdu buf rx)) as [[r| | |] d1]; cbn [snd settle] in *; try (apply (traced_le _ _ 1 2 T1); lia).
    specialize (Sv d1 Hin U eq_refl). apply (traced_trans _ _ _ 1 1 T1).
    assert (T2 : traced d1 (snd (step C O d1 user)) 1).
    { apply traced_one; [exact Eu|]. destruct user as [b r| | | |]; cbn [resets]; try tauto.
      - intros (_ & (Un & _) & _). unfold no_setup in Sv. now rewrite Un in Sv.
      - unfold no_setup in Sv. destruct (d_ui d1) as [[]|]; tauto. }
    destruct (step C O d1 user) as [[r| | |] d2]; exact T2.
  Qed.

  Lemma len_cons {A} (x : A) l : len (x :: l) = 1 + len l.
  Proof. unfold len. cbn [length]. lia. Qed.

  Lemma rest_traced ins c legacy : In ins [0x12; 0x0F; 0xAF] ->
    forall chunks i num res d sched, (1 <= i)%nat ->
    Forall (fun ch => (length ch <= 255)%nat) chunks -> Forall bytes_ok chunks -> sched_fine sched ->
    traced d (fst (snd (sign_rest (plugged C O) i num chunks legacy c ins true res (d, sched)))) (2 * len sched).
  Proof.
    intros Hin chunks. induction chunks as [|ch chunks IH]; intros i num res d sched I1 Fl Fb So; [apply traced_refl|].
    pose proof (Forall_inv Fl) as L1. pose proof (Forall_inv_tail Fl) as Fl'. pose proof (Forall_inv Fb) as B1. pose proof (Forall_inv_tail Fb) as Fb'.
    cbv beta in L1. cbn [sign_rest].
    destruct sched as [|[old user] sched].
    { rewrite (send_empty C O _ _ ch) by exact L1. change (sr_code (read_sign true None) =? NO_ERRORS) with false. apply traced_refl. }
    rewrite (send_chunk_eq C O _ _ ch) by exact L1. rewrite later_p1 by exact I1. rewrite later_p2 by exact I1.
    pose proof (Forall_inv So) as Ho. cbn [fst snd] in Ho. destruct Ho as [Ho Hu]. pose proof (Forall_inv_tail So) as So'.
    set (p1 := if (1 + i =? num)%nat then last_p1 legacy else 1).
    assert (Hp : p1 < 256 /\ exists kind, kind_of p1 = Some kind)
      by (unfold p1; destruct (1 + i =? num)%nat, legacy; split; try reflexivity; eexists; reflexivity).
    destruct Hp as (Hp & kind & Kp).
    pose proof (settle_traced ins p1 0 ch old user kind d Hin L1 B1 Hp ltac:(reflexivity) Ho Kp Hu) as X.
    unfold pkt_of in X. cbn [fst snd] in X. cbv zeta in X |- *.
    match goal with |- context [settle C O ?x user] => destruct (settle C O x user) as [o d1] end. cbn [fst snd] in X |- *.
    destruct (sr_code (read_sign true o) =? NO_ERRORS).
    - rewrite len_cons. apply (traced_le _ _ (2 + 2 * len sched)); [|lia]. apply (traced_trans _ _ _ _ _ X).
      apply IH; auto.
    - cbn [fst snd]. apply (traced_le _ _ 2); [exact X|rewrite len_cons; lia].
  Qed.

  Variable H : host.
  Hypothesis K : host_ok H O.

  Lemma message_traced text c pa data legacy ins d sched : In ins [0x12; 0x0F; 0xAF] -> path_text text pa ->
    bytes_ok data -> sched_fine sched ->
    traced d (fst (snd (sign_message H (plugged C O) text c data legacy ins true (d, sched)))) (2 * len sched).
  Proof.
    intros Hin T B So. unfold sign_message.
    assert (Dec : (length pa = 2%nat \/ length pa = 4%nat) \/ (length pa <> 2%nat /\ length pa <> 4%nat)) by lia.
    destruct Dec as [L|[L2 L4]].
    2:{ rewrite (path_text_refused H O text pa K T L2 L4). cbn [fst snd]. apply traced_refl. }
    destruct (path_text_serialized H O text pa K T L) as [Es F32]. rewrite Es.
    destruct (chunks_spec data (plain_path pa)) as (cs & Ec & Cc & Fc & Lc). rewrite Ec.
    assert (Fl : Forall (fun ch => (length ch <= 255)%nat) cs).
    { revert Fc. apply Forall_impl. intros; lia. }
    assert (Fb : Forall bytes_ok cs) by (apply concat_bytes_ok; now rewrite Cc).
    assert (Lr : (length (plain_path pa) <= 255)%nat) by (rewrite plain_path_length; lia).
    assert (Bp : bytes_ok (plain_path pa)) by (apply plain_path_ok; lia).
    destruct sched as [|[old user] sched].
    { rewrite (send_empty C O _ _ (plain_path pa)) by exact Lr.
      apply (rest_traced ins c legacy Hin cs 1 _ _ d []); auto. }
    rewrite (send_chunk_eq C O _ _ (plain_path pa)) by exact Lr.
    pose proof (Forall_inv So) as Ho. cbn [fst snd] in Ho. destruct Ho as [Ho Hu]. pose proof (Forall_inv_tail So) as So'.
    set (p1 := chunk_p1 1 (S (length cs)) legacy).
    assert (Hp : p1 < 256 /\ exists kind, kind_of p1 = Some kind).
    { unfold p1, chunk_p1. cbn [Nat.eqb]. destruct (length cs), legacy; cbn [Nat.eqb]; split; try reflexivity; eexists; reflexivity. }
    destruct Hp as (Hp & kind & Kp).
    pose proof (settle_traced ins p1 (byte_of_curve c) (plain_path pa) old user kind d Hin Lr Bp Hp (byte_of_curve_lt c) Ho Kp Hu) as X.
    unfold pkt_of in X. cbn [fst snd] in X. cbv zeta in X |- *. change (chunk_p2 1 c) with (byte_of_curve c).
    match goal with |- context [settle C O ?x user] => destruct (settle C O x user) as [o d1] end. cbn [fst snd] in X |- *.
    rewrite len_cons. apply (traced_le _ _ (2 + 2 * len sched)); [|lia]. apply (traced_trans _ _ _ _ _ X).
    apply rest_traced; auto.
  Qed.

  Lemma call_traced text c pa call data d sched : asks_for H (plugged C O) text c call data -> path_text text pa ->
    bytes_ok (tl data) -> sched_fine sched -> traced d (fst (snd (call (d, sched)))) (2 * len sched).
  Proof.
    intros A T B So.
    assert (G : forall m ms legacy ins, data = m :: ms -> m < 256 -> In ins [0x12; 0x0F; 0xAF] ->
      traced d (fst (snd (sign_message H (plugged C O) text c data legacy ins true (d, sched)))) (2 * len sched)).
    { intros m ms legacy ins E Hm Hin. eapply message_traced; [exact Hin|exact T| |exact So].
      rewrite E in B |- *. apply Forall_cons; [exact Hm|exact B]. }
    destruct A as [m|m|m kind magic Em|m kind].
    - apply (G 3 m false 0x12); cbn [In]; auto. reflexivity.
    - apply (G 5 m false 0x12); cbn [In]; auto. reflexivity.
    - unfold sign_baker. rewrite Em. specialize (G magic m false 0xAF eq_refl (magic_byte _ _ _ Em) ltac:(cbn [In]; auto)).
      destruct (sign_message H (plugged C O) text c (magic :: m) false 175 true (d, sched)) as [r w]. exact G.
    - apply (G (legacy_magic kind) m true 0x0F); cbn [In]; auto. destruct kind; reflexivity.
  Qed.

  (** ** Sessions *)

  (** The messages [rs] are among those signed, in this order. *)
  Definition ordered (rs : list bytes) (l : list sigrec) : Prop :=
    (forall i a, nth_error rs i = Some a -> exists i' g, nth_error l i' = Some g /\ sg_data g = a) /\
    (forall i j a b, (i < j)%nat -> nth_error rs i = Some a -> nth_error rs j = Some b ->
       exists i' j' g h, (i' < j')%nat /\ nth_error l i' = Some g /\ nth_error l j' = Some h /\ sg_data g = a /\ sg_data h = b).
  Lemma nth_more {A} (l m : list A) i x : nth_error l i = Some x -> nth_error (l ++ m) i = Some x.
  Proof. intros E. rewrite nth_error_app1; [exact E|]. apply nth_error_Some. congruence. Qed.
  Lemma ordered_more rs l m : ordered rs l -> ordered rs (l ++ m).
  Proof.
    intros [O1 O2]. split.
    - intros i a E. destruct (O1 i a E) as (i' & g & G1 & G2). exists i', g. split; [now apply nth_more|exact G2].
    - intros i j a b L Ei Ej. destruct (O2 i j a b L Ei Ej) as (i' & j' & g & h & G1 & G2 & G3 & G4). exists i', j', g, h.
      split; [exact G1|]. split; [now apply nth_more|]. split; [now apply nth_more|exact G4].
  Qed.
  Lemma nth_new {A} (l : list A) x i y : nth_error (l ++ [x]) i = Some y ->
    (nth_error l i = Some y) \/ (i = length l /\ y = x).
  Proof.
    intros E. destruct (Nat.lt_ge_cases i (length l)) as [L|L].
    - left. now rewrite nth_error_app1 in E.
    - right. rewrite nth_error_app2 in E by exact L. destruct (i - length l)%nat as [|n] eqn:D; cbn [nth_error] in E.
      + split; [lia|congruence].
      + now destruct n.
  Qed.
  Lemma ordered_both rs l g : ordered rs l -> ordered (rs ++ [sg_data g]) (l ++ [g]).
  Proof.
    intros [O1 O2].
    assert (Eg : nth_error (l ++ [g]) (length l) = Some g) by (rewrite nth_error_app2, Nat.sub_diag; auto).
    split.
    - intros i a E. apply nth_new in E as [E|[-> ->]].
      + destruct (O1 i a E) as (i' & h & G1 & G2). exists i', h. split; [now apply nth_more|exact G2].
      + exists (length l), g. auto.
    - intros i j a b L Ei Ej. apply nth_new in Ej as [Ej|[-> ->]].
      + apply nth_new in Ei as [Ei|[-> _]]; [|assert (j < length rs)%nat by (apply nth_error_Some; congruence); lia].
        destruct (O2 i j a b L Ei Ej) as (i' & j' & x & y & G1 & G2 & G3 & G4). exists i', j', x, y.
        split; [exact G1|]. split; [now apply nth_more|]. split; [now apply nth_more|exact G4].
      + apply nth_new in Ei as [Ei|[-> _]]; [|lia].
        destruct (O1 i a Ei) as (i' & h & G1 & G2). exists i', (length l), h, g.
        split; [apply nth_error_Some; congruence|]. split; [now apply nth_more|]. auto.
  Qed.

  Hypothesis room : leaves_room C 134.
  Hypothesis Ok_ : oracles_ok O.

  Lemma session_history f u es0 d rs n : Forall event_ok es0 -> Forall whole_fault u ->
    session C O H (snd (run C O (dev_fresh f u) es0)) d rs n ->
    exists es l, let d0 := snd (run C O (dev_fresh f u) es0) in
      Forall event_ok es /\ len es <= n /\ no_reset C O d0 es /\ d = snd (run C O d0 es) /\
      signed_between d0 d l /\ ordered rs l.
  Proof.
    intros E0 Hu Sn. set (d0 := snd (run C O (dev_fresh f u) es0)) in *. cbv zeta.
    induction Sn as [|d rs n e Sn IH He Nr|d rs n text c pa call data sched Sn IH A T B So].
    - exists [], []. split; [constructor|]. split; [unfold len; cbn [length]; lia|]. split; [exact Logic.I|]. split; [reflexivity|].
      split; [reflexivity|]. split; [intros i a X; destruct i; discriminate X|]. intros i j a b _ X; destruct i; discriminate X.
    - destruct IH as (es & l & I1 & I2 & I3 & I4 & I5 & I6). destruct (step_log_grows C O d e) as [l' L].
      exists (es ++ [e]), (l ++ rev l').
      split; [apply Forall_app; split; [exact I1|constructor; [exact He|constructor]]|].
      split; [rewrite len_app; unfold len at 2; cbn [length]; lia|].
      split; [apply no_reset_app; [exact I3|]; rewrite <- I4; split; [exact Nr|exact Logic.I]|].
      split; [rewrite run_app, <- I4; symmetry; apply run_one|].
      split; [|now apply ordered_more]. unfold signed_between in *. rewrite L, I5, rev_app_distr, rev_involutive. apply app_assoc.
    - destruct IH as (es & l & I1 & I2 & I3 & I4 & I5 & I6).
      destruct (call_traced text c pa call data d sched A T B So) as (es' & C1 & C2 & C3 & C4).
      assert (So' : Forall (fun p : bytes * event => apdu_ok (fst p)) sched).
      { revert So. apply Forall_impl. intros p X. apply X. }
      assert (Er : d = snd (run C O (dev_fresh f u) (es0 ++ es))) by (rewrite run_app; exact I4).
      pose proof (returned_faithful C O room Ok_ H K f u (es0 ++ es) text c pa call data sched ltac:(apply Forall_app; auto) Hu A T B So') as F.
      cbv zeta in F. rewrite <- Er in F.
      destruct (call (d, sched)) as [r w]. cbn [fst snd] in *.
      assert (P : exists l', signed_between d0 (fst w) l' /\ ordered (rs ++ match sr_sig r with Some _ => [data] | None => [] end) l').
      { destruct F as [(g & s & F1 & F2 & F3 & _ & _ & _ & ->)|(F1 & _ & _ & F4)].
        - exists (l ++ [g]). split; [unfold signed_between in *; rewrite F1, I5, rev_app_distr; reflexivity|].
          cbn [sr_sig]. rewrite <- F3. now apply ordered_both.
        - exists l. split; [unfold signed_between in *; congruence|]. rewrite F4, app_nil_r. exact I6. }
      destruct P as (l' & P1 & P2). exists (es ++ es'), l'.
      split; [apply Forall_app; auto|]. split; [rewrite len_app; lia|].
      split; [apply no_reset_app; [exact I3|]; rewrite <- I4; exact C3|].
      split; [rewrite run_app, <- I4; exact C4|]. split; [exact P1|exact P2].
  Qed.

  (** C88. *)
  Lemma session_in_order f u es0 d rs n : Forall event_ok es0 -> Forall slot_fault_ok f -> Forall up_fault_ok u -> Forall whole_fault u ->
    len es0 + n < 2 ^ 64 -> session C O H (snd (run C O (dev_fresh f u) es0)) d rs n ->
    forall (i j : nat) a b p q, (i < j)%nat -> nth_error rs i = Some a -> nth_error rs j = Some b ->
    signed_pos a = Some p -> signed_pos b = Some q -> cpos_lt p q.
  Proof.
    intros E0 Ff Fu Hu Hn Sn i j a b p q L Ei Ej Pa Pb.
    destruct (session_history f u es0 d rs n E0 Hu Sn) as (es & l & I1 & I2 & I3 & I4 & I5 & [_ I6]).
    destruct (I6 i j a b L Ei Ej) as (i' & j' & g & h & L' & G1 & G2 & <- & <-).
    assert (Sg : segment C O f u es0 es (snd (run C O (dev_fresh f u) es0)) d l).
    { constructor; auto; [apply Forall_app; auto|rewrite len_app; lia]. }
    exact (signed_in_order C O f u es0 es _ d l Sg i' j' g h p q L' G1 G2 Pa Pb).
  Qed.
End Session.
