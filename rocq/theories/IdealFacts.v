(** The device refines the ideal app as long as the flash works. *)
From Coq Require Import List NArith ZArith Lia Bool Arith ZifyBool ZifyNat ZifyN.
From Verif Require Import Base BaseFacts Flash FlashSpec FlashFacts Codecs CodecsSpec CodecsFacts Upload UploadSpec UploadFacts
  Baking BakingSpec BakingFacts Operations Oracles Address Device DeviceSpec DeviceFacts DeviceProofs DeviceHist
  DeviceUploads MemoryFacts IdealSpec IdealReads.
Import ListNotations.
Open Scope N_scope.

(** ** The relation *)

(** What the slots contain. *)
Record held (a : slot -> option bytes) (s : ideal) : Prop := mkHeld {
  h_key : match a SKey with None => i_key s = None | Some p => key_parse p = AOk (i_key s) end;
  h_main : option_map (fun p => wm_pos (wm_parse p)) (a SMain) = i_main s;
  h_test : option_map (fun p => wm_level (wm_parse p)) (a STest) = i_test s;
  h_chain : option_map chain_parse_u32 (a SChain) = i_chain s
}.

(** A review in progress can be carried out. *)
Definition review_rel (s : ideal) (p : option key) : Prop :=
  match i_review s with
  | Some (VSign _ _ _ _, k) => k = p
  | Some (VBakingSign _ _ _ _ _, k) => k = i_key s /\ k <> None
  | Some (VAuthorize k _, _) => key_ok k
  | Some (VSetup k main test chain _, _) =>
    key_ok k /\ main < 2 ^ 32 /\ test < 2 ^ 32 /\ u32_of_chain chain < 2 ^ 32
  | _ => True
  end.

Record core (b : slot -> N) (s : ideal) (d : dev) : Prop := mkCore {
  c_slots : exists a, stores b a d /\ held a s;
  c_ui : d_ui d = option_map fst (i_review s);
  c_review : review_rel s (d_path d);
  c_uf : d_ufaults d = [];
  c_log : d_log d = i_sigs s
}.

Definition upload_ok (u : pstate) : Prop :=
  match u with Some (_, _, first, data) => bytes_ok first /\ bytes_ok data | None => True end.

Record linked (b : slot -> N) (s : ideal) (d : dev) : Prop := mkLinked {
  k_core : core b s d;
  k_up : u_rel (d_up d) (i_upload s);
  k_bytes : upload_ok (i_upload s)
}.

(** How a computation ends, apart from the upload. *)
Definition ends (b : slot -> N) (u : ustate) (q : pstate) (r : outcome reply * dev) (x : effect) : Prop :=
  match x with
  | Give out s => exists d, r = (Ok (Now out), d) /\ core b s d /\ d_up d = u /\ i_upload s = q
  | Wait s => exists d, r = (Ok Later, d) /\ core b s d /\ d_up d = u /\ i_upload s = q
  | Refuse e s => exists d, r = (Err e, d) /\ core b s d /\ d_up d = u /\ i_upload s = q
  | Stop s => exists d, r = (Panic, d) /\ core b s d /\ d_up d = u /\ i_upload s = q
  end.

Lemma held_same a s s' : i_key s' = i_key s -> i_main s' = i_main s -> i_test s' = i_test s -> i_chain s' = i_chain s ->
  held a s -> held a s'.
Proof. intros E1 E2 E3 E4 [H1 H2 H3 H4]. constructor; rewrite ?E1, ?E2, ?E3, ?E4; assumption. Qed.

Lemma core_mono b b' s d : (forall x, b x <= b' x) -> core b s d -> core b' s d.
Proof.
  intros L [(a & S & H) C2 C3 C4 C5]. constructor; auto. exists a. split; [eapply stores_mono; eauto|auto].
Qed.
Lemma ends_mono b b' u q r x : (forall y, b y <= b' y) -> ends b u q r x -> ends b' u q r x.
Proof.
  intros L. destruct x; cbn [ends]; intros (d & E & K & U & Q); exists d; split; auto; split; auto;
    eapply core_mono; eauto.
Qed.

Lemma core_restart b s d : core b s d -> core b (unplug s) (restart d).
Proof.
  intros [(a & S & H) C2 C3 C4 C5]. constructor; auto.
  - exists a. split; [now apply stores_restart|]. eapply held_same; [..|exact H]; reflexivity.
  - exact Logic.I.
Qed.

(** Reading a slot changes nothing. *)
Lemma core_read b a s d d' : core b s d -> held a s -> stores b a d' -> same_rest d d' -> core b s d'.
Proof.
  intros [_ C2 C3 C4 C5] H S (L & U & F & P & V). constructor.
  - eauto.
  - now rewrite V.
  - now rewrite P.
  - now rewrite F.
  - now rewrite L.
Qed.

Lemma stores_same_slots b a d d' : (forall s, get_slot s d' = get_slot s d) -> d_faults d' = d_faults d ->
  stores b a d -> stores b a d'.
Proof. intros G F [S1 S2]. constructor; [|now rewrite F]. intros s. rewrite G. apply S1. Qed.

Lemma add_sig_rest g d : (forall s, get_slot s (add_sig g d) = get_slot s d) /\ d_faults (add_sig g d) = d_faults d /\
  d_ufaults (add_sig g d) = d_ufaults d /\ d_ui (add_sig g d) = d_ui d /\ d_path (add_sig g d) = d_path d /\
  d_up (add_sig g d) = d_up d /\ d_log (add_sig g d) = g :: d_log d.
Proof. destruct d. repeat split. Qed.
Lemma set_path_rest p d : (forall s, get_slot s (set_path p d) = get_slot s d) /\ d_faults (set_path p d) = d_faults d /\
  d_ufaults (set_path p d) = d_ufaults d /\ d_ui (set_path p d) = d_ui d /\ d_path (set_path p d) = p /\
  d_up (set_path p d) = d_up d /\ d_log (set_path p d) = d_log d.
Proof. destruct d. repeat split. Qed.
Lemma set_up_rest u f d : (forall s, get_slot s (set_up u (set_ufaults f d)) = get_slot s d) /\
  d_faults (set_up u (set_ufaults f d)) = d_faults d /\
  d_ufaults (set_up u (set_ufaults f d)) = f /\ d_ui (set_up u (set_ufaults f d)) = d_ui d /\
  d_path (set_up u (set_ufaults f d)) = d_path d /\
  d_up (set_up u (set_ufaults f d)) = u /\ d_log (set_up u (set_ufaults f d)) = d_log d.
Proof. destruct d. repeat split. Qed.
Lemma set_up_rest' u d : (forall s, get_slot s (set_up u d) = get_slot s d) /\
  d_faults (set_up u d) = d_faults d /\
  d_ufaults (set_up u d) = d_ufaults d /\ d_ui (set_up u d) = d_ui d /\
  d_path (set_up u d) = d_path d /\
  d_up (set_up u d) = u /\ d_log (set_up u d) = d_log d.
Proof. destruct d. repeat split. Qed.

Lemma core_sig b s d g : core b s d -> core b (put_sig g s) (add_sig g d).
Proof.
  intros [(a & S & H) C2 C3 C4 C5]. destruct (add_sig_rest g d) as (R1 & R2 & R3 & R4 & R5 & R6 & R7).
  constructor.
  - exists a. split; [eapply stores_same_slots; eauto|]. eapply held_same; [..|exact H]; reflexivity.
  - now rewrite R4.
  - now rewrite R5.
  - now rewrite R3.
  - now rewrite R7, C5.
Qed.

Lemma core_view b s d v k : core b s d -> review_rel (put_review (Some (v, k)) s) (d_path d) ->
  core b (put_review (Some (v, k)) s) (set_ui (Some v) d).
Proof.
  intros [(a & S & H) C2 C3 C4 C5] R. destruct (set_ui_rest (Some v) d) as (R1 & R2 & R3 & R4 & R5 & R6 & R7).
  constructor.
  - exists a. split; [eapply stores_same_slots; eauto|]. eapply held_same; [..|exact H]; reflexivity.
  - now rewrite R4.
  - now rewrite R5.
  - now rewrite R3.
  - now rewrite R7, C5.
Qed.

Lemma core_unview b s d : core b s d -> core b (put_review None s) (set_ui None d).
Proof.
  intros [(a & S & H) C2 C3 C4 C5]. destruct (set_ui_rest None d) as (R1 & R2 & R3 & R4 & R5 & R6 & R7).
  constructor.
  - exists a. split; [eapply stores_same_slots; eauto|]. eapply held_same; [..|exact H]; reflexivity.
  - now rewrite R4.
  - exact Logic.I.
  - now rewrite R3.
  - now rewrite R7, C5.
Qed.

(** The path is free when nothing is reviewed. *)
Lemma core_path b s d p : core b s d -> i_review s = None -> core b s (set_path p d).
Proof.
  intros [(a & S & H) C2 C3 C4 C5] V. destruct (set_path_rest p d) as (R1 & R2 & R3 & R4 & R5 & R6 & R7).
  constructor.
  - exists a. split; [eapply stores_same_slots; eauto|assumption].
  - now rewrite R4.
  - unfold review_rel. now rewrite V.
  - now rewrite R3.
  - now rewrite R7, C5.
Qed.

(** ** Computations *)

Lemma bind_some {A B} e (x : A) (f : A -> M B) d : bind (of_option e (Some x)) f d = f x d.
Proof. reflexivity. Qed.
Lemma bind_none {A B} e (f : A -> M B) d : bind (of_option e None) f d = (Err e, d).
Proof. reflexivity. Qed.
Lemma bind_check {B} c e (f : unit -> M B) d : bind (check c e) f d = if c then f tt d else (Err e, d).
Proof. destruct c; reflexivity. Qed.
Lemma bind_assoc {A B D} (m : M A) (f : A -> M B) (g : B -> M D) d :
  bind (bind m f) g d = bind m (fun x => bind (f x) g) d.
Proof. unfold bind. destruct (m d) as [[] ?]; reflexivity. Qed.

Section Facts.
  Variable C : config.
  Variable O : oracles.
  Variable b : slot -> N.
  Variable u : ustate.
  Variable q : pstate.

  Lemma ends_refuse e s d : core b s d -> d_up d = u -> i_upload s = q -> ends b u q (Err e, d) (Refuse e s).
  Proof. intros. exists d. auto. Qed.
  Lemma ends_give out s d : core b s d -> d_up d = u -> i_upload s = q -> ends b u q (Ok (Now out), d) (Give out s).
  Proof. intros. exists d. auto. Qed.
  Lemma ends_stop s d : core b s d -> d_up d = u -> i_upload s = q -> ends b u q (Panic, d) (Stop s).
  Proof. intros. exists d. auto. Qed.

  Lemma ends_option {A} e (o : option A) (F : A -> M reply) (f : A -> effect) s d :
    core b s d -> d_up d = u -> i_upload s = q ->
    (forall x, o = Some x -> ends b u q (F x d) (f x)) ->
    ends b u q (bind (of_option e o) F d) (match o with Some x => f x | None => Refuse e s end).
  Proof.
    intros K U Q H. destruct o as [x|].
    - rewrite bind_some. now apply H.
    - rewrite bind_none. now apply ends_refuse.
  Qed.
  Lemma ends_check c e (F : M reply) (f : effect) s d :
    core b s d -> d_up d = u -> i_upload s = q ->
    (c = true -> ends b u q (F d) f) ->
    ends b u q (bind (check c e) (fun _ => F) d) (if negb c then Refuse e s else f).
  Proof.
    intros K U Q H. rewrite bind_check. destruct c; cbn [negb]; [now apply H|now apply ends_refuse].
  Qed.

  Lemma ends_ask v k s d : core b s d -> d_up d = u -> i_upload s = q ->
    review_rel (put_review (Some (v, k)) s) (d_path d) ->
    ends b u q (show C v d) (ask C v k s).
  Proof.
    intros K U Q R. unfold show, ask. destruct (cf_room C v); [|now apply ends_refuse].
    exists (set_ui (Some v) d). split; [reflexivity|]. split; [now apply core_view|].
    split; [|exact Q]. now destruct d.
  Qed.

  Lemma ends_sign src k digest data s d F f :
    core b s d -> d_up d = u -> i_upload s = q ->
    (forall g s' d', core b s' d' -> d_up d' = u -> i_upload s' = q ->
       i_review s' = i_review s -> d_path d' = d_path d -> ends b u q (F g d') (f g s')) ->
    ends b u q (bind (sign_with O src k digest data) F d) (sign O src k digest data s f).
  Proof.
    intros K U Q H. unfold sign_with, sign, bind at 1. destruct (o_sign O (fst k) (snd k) digest) as [g|]; [|now apply ends_refuse].
    destruct (100 <? length g)%nat; [now apply ends_stop|].
    destruct (add_sig_rest (mkSig src k digest data) d) as (_ & _ & _ & _ & R5 & R6 & _).
    apply H; [now apply core_sig|now rewrite R6|exact Q|reflexivity|exact R5].
  Qed.

  Lemma ends_address e c pk s d F f : core b s d -> d_up d = u -> i_upload s = q ->
    (forall a, ends b u q (F a d) (f a)) ->
    ends b u q (bind (of_sres e (addr_new O c pk)) F d) (with_address O e c pk s f).
  Proof.
    intros K U Q H. unfold with_address. destruct (addr_new O c pk) as [a| |]; cbn [of_sres].
    - apply H.
    - now apply ends_refuse.
    - now apply ends_stop.
  Qed.
  Lemma ends_key_address k s d F f : core b s d -> d_up d = u -> i_upload s = q ->
    (forall a, ends b u q (F a d) (f a)) ->
    ends b u q (bind (address O k) F d) (with_key_address O k s f).
  Proof.
    intros K U Q H. unfold address, pubkey, with_key_address. rewrite bind_assoc.
    apply (ends_option ExecutionError (o_pubkey O (fst k) (snd k))
             (fun pk => bind (of_sres ExecutionError (addr_new O (fst k) pk)) F)
             (fun pk => with_address O ExecutionError (fst k) pk s f)); auto.
    intros pk _. now apply ends_address.
  Qed.

  (** Reading the authorised key. *)
  Lemma read_key s d : core b s d ->
    exists d', core b s d' /\ same_rest d d' /\
      read_baking_key d = (match i_key s with
                           | Some k => Ok (Some k)
                           | None => fst (read_baking_key d)
                           end, d') /\
      (i_key s = None -> fst (read_baking_key d) = Err ConditionsNotSatisfied \/ fst (read_baking_key d) = Ok None).
  Proof.
    intros K. pose proof (c_slots _ _ _ K) as (a & S & H).
    destruct (read_or_stores b a d SKey ConditionsNotSatisfied S) as (d' & E & S' & F).
    pose proof (frame_none_rest _ _ F) as R. exists d'.
    split; [eapply core_read; eauto|]. split; [exact R|].
    unfold read_baking_key, bind. rewrite E. pose proof (h_key _ _ H) as HK.
    destruct (a SKey) as [p|].
    - rewrite HK. cbn [of_ares ret]. destruct (i_key s); split; auto. intros; discriminate.
    - rewrite HK. split; auto.
  Qed.

  Lemma ends_key s d (F : key -> M reply) (f : key -> effect) :
    core b s d -> d_up d = u -> i_upload s = q ->
    (forall k d', i_key s = Some k -> core b s d' -> d_up d' = u -> d_path d' = d_path d -> ends b u q (F k d') (f k)) ->
    ends b u q (bind read_baking_key (fun o => bind (of_option ConditionsNotSatisfied o) F) d)
      (match i_key s with Some k => f k | None => Refuse ConditionsNotSatisfied s end).
  Proof.
    intros K U Q H. destruct (read_key s d K) as (d' & K' & R & E & N0).
    destruct R as (_ & RU & _ & RP & _).
    unfold bind at 1. rewrite E. destruct (i_key s) as [k|].
    - rewrite bind_some. apply H; auto. now rewrite RU.
    - destruct (N0 eq_refl) as [-> | ->]; [|rewrite bind_none]; apply ends_refuse; auto; now rewrite RU.
  Qed.
End Facts.

(** ** Commands that store nothing *)

Lemma path10 l : path_in 10 l = path_read BIP32_MAX_LENGTH l.
Proof. exact (path_in_eq BIP32_MAX_LENGTH l). Qed.
Lemma path6 l : path_in 6 l = path_read 6 l.
Proof. exact (path_in_eq 6 l). Qed.

Lemma payload_eq buf : apdu_ok buf -> apdu_payload buf = Some (pay buf) /\ bytes_ok (pay buf).
Proof. intros B. destruct (apdu_payload_260 buf B) as (pl & E & -> & _ & H). auto. Qed.

Lemma needs_review_eq buf : needs_review buf = negb (nth 2 buf 0 =? 0).
Proof. unfold needs_review, apdu_p1. lia. Qed.

Section Commands.
  Variable C : config.
  Variable O : oracles.
  Variable b : slot -> N.
  Variable u : ustate.
  Variable q : pstate.
  Variable s : ideal.
  Variable d : dev.
  Variable buf : bytes.
  Hypothesis K : core b s d.
  Hypothesis U : d_up d = u.
  Hypothesis Q : i_upload s = q.
  Hypothesis V : i_review s = None.
  Hypothesis B : apdu_ok buf.

  Ltac opt x := apply ends_option; [assumption..|intros x ?].
  Ltac curve x := unfold the_curve, apdu_p2; rewrite curve_in_eq; opt x.
  Ltac payload := unfold the_payload; destruct (payload_eq buf B) as [-> PB]; rewrite bind_some.

  Lemma authorize_ends : ends b u q (h_authorize C O buf d) (authorize C O buf s).
  Proof.
    unfold h_authorize, authorize. rewrite bind_check, needs_review_eq.
    destruct (nth 2 buf 0 =? 0); cbn [negb]; [now apply ends_refuse|].
    curve c. payload. rewrite path10. opt pa. apply ends_key_address; [assumption..|]. intros a.
    apply ends_ask; auto. eapply path_read_ok; eauto.
  Qed.

  Lemma deauthorize_ends : ends b u q (h_deauthorize C O buf d) (deauthorize C O buf s).
  Proof.
    unfold h_deauthorize, deauthorize. rewrite bind_check, needs_review_eq.
    destruct (nth 2 buf 0 =? 0); cbn [negb]; [now apply ends_refuse|].
    apply ends_key; [assumption..|]. intros k d' Hk K' U' _.
    apply ends_key_address; [assumption..|]. intros a.
    apply ends_ask; auto. exact Logic.I.
  Qed.

  Lemma tell_key_ends wc k room (d' : dev) : core b s d' -> d_up d' = u ->
    ends b u q (match query_answer wc k room with None => panic | Some out => ret (Now out) end d') (tell_key wc k room s).
  Proof.
    intros K' U'. unfold query_answer, tell_key.
    match goal with |- context [room <? ?x] => destruct (room <? x) end; [now apply ends_stop|].
    rewrite flat_map_concat_map. now apply ends_give.
  Qed.

  Lemma ask_key_ends wc : ends b u q (h_query C O wc buf d) (ask_key C O wc buf s).
  Proof.
    unfold h_query, ask_key. apply ends_key; [assumption..|]. intros k d' Hk K' U' _.
    apply ends_key_address; [assumption..|]. intros a. rewrite needs_review_eq.
    destruct (nth 2 buf 0 =? 0); cbn [negb].
    - replace (len buf) with 260 by (unfold len; destruct B as [-> _]; reflexivity). now apply tell_key_ends.
    - apply ends_ask; auto. exact Logic.I.
  Qed.

  Lemma hmac_ends : ends b u q (h_hmac O buf d) (hmac O buf s).
  Proof.
    unfold h_hmac, hmac. cbv zeta. curve c. payload.
    destruct (pay buf) as [|n rest] eqn:EP.
    - cbn [nth length]. replace (0 <? 1 + 4 * N.to_nat 0)%nat with true by reflexivity. now apply ends_refuse.
    - cbn [nth]. rewrite bind_check.
      destruct (Nat.leb_spec (1 + 4 * N.to_nat n) (length (n :: rest))) as [L|L].
      + replace (length (n :: rest) <? 1 + 4 * N.to_nat n)%nat with false by lia.
        rewrite path10. opt pa. apply ends_sign; [assumption..|].
        intros g s' d' K' U' Q' _ _.
        apply (ends_option b u q ExecutionError (o_sha512 O g)); [assumption..|intros hk _].
        apply (ends_option b u q ExecutionError (o_hmac256 O hk (skipn (1 + 4 * N.to_nat n) (n :: rest))));
          [assumption..|intros out _]. now apply ends_give.
      + replace (length (n :: rest) <? 1 + 4 * N.to_nat n)%nat with true by lia. now apply ends_refuse.
  Qed.

  Lemma setup_ends : ends b u q (h_setup C O buf d) (setup C O buf s).
  Proof.
    unfold h_setup, setup. cbv zeta. curve c. payload. rewrite bind_check.
    destruct (Nat.leb_spec 13 (length (pay buf))) as [L|L].
    2:{ replace (length (pay buf) <? 13)%nat with true by lia. now apply ends_refuse. }
    replace (length (pay buf) <? 13)%nat with false by lia. cbn [orb]. rewrite bind_check.
    destruct (Nat.leb_spec (12 + (1 + 4 * N.to_nat (nth 12 (pay buf) 0%N))) (length (pay buf))) as [L'|L'].
    2:{ replace (length (pay buf) <? 12 + (1 + 4 * N.to_nat (nth 12 (pay buf) 0%N)))%nat with true by lia.
        now apply ends_refuse. }
    replace (length (pay buf) <? 12 + (1 + 4 * N.to_nat (nth 12 (pay buf) 0%N)))%nat with false by lia.
    rewrite path10. opt pa. apply ends_key_address; [assumption..|]. intros a.
    apply ends_ask; auto. cbn [review_rel put_review i_review].
    split; [|split; [|split]].
    - eapply path_read_ok; [|eassumption]. now apply bytes_ok_firstn, bytes_ok_skipn.
    - now apply field_lt.
    - now apply field_lt.
    - rewrite DeviceReviews.chain_round. now apply field_lt.
  Qed.

  Lemma public_key_ends' (F : curve * bytes -> M reply) f :
    (forall c pk, ends b u q (F (c, pk) d) (f c pk)) ->
    ends b u q (bind (requested_key O buf) F d) (with_public_key O buf s f).
  Proof.
    intros H. unfold requested_key, with_public_key. rewrite bind_assoc. curve c. rewrite bind_assoc. payload.
    rewrite bind_assoc, path6. opt pa. unfold pubkey. rewrite bind_assoc. cbn [fst snd]. opt pk. apply H.
  Qed.
  Lemma public_key_ends : ends b u q (h_get_public O buf d) (public_key O buf s).
  Proof. apply public_key_ends'. intros c pk. now apply ends_give. Qed.

  Lemma tell_address_ends wa pk a (s' : ideal) (d' : dev) : core b s' d' -> d_up d' = u -> i_upload s' = q ->
    ends b u q (bind (of_sres ExecutionError (addr_answer wa pk a)) (fun out => ret (Now out)) d') (tell_address wa pk a s').
  Proof.
    intros K' U' Q'. unfold addr_answer, tell_address. destruct wa; [|now apply ends_give].
    destruct (addr_base58 a) as [t| |]; [now apply ends_give|now apply ends_refuse|now apply ends_stop].
  Qed.

  Lemma prompt_ends : ends b u q (h_prompt C O buf d) (show_address C O true buf s).
  Proof.
    apply public_key_ends'. intros c pk. apply ends_address; [assumption..|]. intros a. cbn [orb].
    apply ends_ask; auto. exact Logic.I.
  Qed.
  Lemma address_ends : ends b u q (h_get_address C O buf d) (show_address C O false buf s).
  Proof.
    apply public_key_ends'. intros c pk. apply ends_address; [assumption..|]. intros a. cbn [orb].
    rewrite needs_review_eq. destruct (nth 2 buf 0 =? 0); cbn [negb].
    - now apply tell_address_ends.
    - apply ends_ask; auto. exact Logic.I.
  Qed.

  (** Reading the other slots. *)
  Lemma read_ends sl : exists d' r, read_slot sl d = (Ok r, d') /\ core b s d' /\ same_rest d d' /\
    match sl with
    | SMain => match i_main s, r with Some m, RData p => wm_pos (wm_parse p) = m | None, RUninit => True | _, _ => False end
    | STest => match i_test s, r with Some m, RData p => wm_level (wm_parse p) = m | None, RUninit => True | _, _ => False end
    | SChain => match i_chain s, r with Some m, RData p => chain_parse_u32 p = m | None, RUninit => True | _, _ => False end
    | SKey => True
    end.
  Proof.
    pose proof (c_slots _ _ _ K) as (a & S & H).
    destruct (read_slot_stores b a d sl S) as (d' & E & S' & F).
    pose proof (frame_none_rest _ _ F) as R. exists d', (expected_read (a sl)).
    split; [exact E|]. split; [eapply core_read; eauto|]. split; [exact R|].
    destruct H as [_ H2 H3 H4].
    destruct sl; [rewrite <- H2; destruct (a SMain)|rewrite <- H3; destruct (a STest)
                 |rewrite <- H4; destruct (a SChain)|]; cbn [option_map expected_read]; auto.
  Qed.

  Lemma main_ends : ends b u q (h_main_hwm d) (main_mark s).
  Proof.
    unfold h_main_hwm, main_mark, bind. destruct (read_ends SMain) as (d' & r & -> & K' & (_ & RU & _) & H).
    rewrite U in RU. destruct (i_main s) as [m|], r as [p| |]; try contradiction.
    - rewrite wm_level_pos, H. now apply ends_give.
    - now apply ends_give.
  Qed.
End Commands.

Lemma all_ends b u q s d : core b s d -> d_up d = u -> i_upload s = q ->
  ends b u q (h_all_hwm d) (all_marks s).
Proof.
  intros K U Q. unfold h_all_hwm, all_marks, bind.
  destruct (read_ends b s d K SMain) as (d1 & r1 & -> & K1 & (_ & R1 & _) & H1).
  destruct (i_main s) as [m|], r1 as [p1| |]; try contradiction; [|apply ends_give; auto; congruence].
  destruct (read_ends b s d1 K1 STest) as (d2 & r2 & -> & K2 & (_ & R2 & _) & H2).
  destruct (i_test s) as [t|], r2 as [p2| |]; try contradiction; [|apply ends_give; auto; congruence].
  destruct (read_ends b s d2 K2 SChain) as (d3 & r3 & -> & K3 & (_ & R3 & _) & H3).
  destruct (i_chain s) as [c|], r3 as [p3| |]; try contradiction; [|apply ends_give; auto; congruence].
  rewrite wm_level_pos, H1, H2, H3. apply ends_give; auto; congruence.
Qed.

(** ** Commands that store *)

Lemma core_write b s s' d sl p e : core b s d -> b sl + 1 < 2 ^ 64 -> payload_ok p ->
  (forall a, held a s -> held (aset sl p a) s') -> i_review s = None -> i_review s' = None -> i_sigs s' = i_sigs s ->
  exists d', write_or sl p e d = (Ok tt, d') /\ core (bump sl b) s' d' /\ same_rest d d'.
Proof.
  intros K L P H V V' G. pose proof K as [(a & S & Ha) C2 C3 C4 C5].
  destruct (write_or_stores b a d sl p e L P S) as (d' & E & S' & R). exists d'.
  split; [exact E|]. split; [|exact R]. destruct R as (R1 & R2 & R3 & R4 & R5). constructor.
  - exists (aset sl p a). auto.
  - now rewrite R5, C2, V, V'.
  - unfold review_rel. now rewrite V'.
  - now rewrite R3.
  - now rewrite R1, C5, G.
Qed.

Definition put_test (l : N) (s : ideal) : ideal :=
  mkIdeal (i_key s) (i_main s) (Some l) (i_chain s) (i_upload s) (i_review s) (i_sigs s).
Definition put_chain (c : N) (s : ideal) : ideal :=
  mkIdeal (i_key s) (i_main s) (i_test s) (Some c) (i_upload s) (i_review s) (i_sigs s).

Lemma held_main a s w : wm_ok w -> held a s -> held (aset SMain (wm_serialize w) a) (put_main (wm_pos w) s).
Proof.
  intros W [H1 H2 H3 H4]. constructor; unfold aset; cbn [slot_eq_dec]; auto.
  cbn. now rewrite wm_round.
Qed.
Lemma held_test a s l : l < 2 ^ 32 ->
  held a s -> held (aset STest (wm_serialize (wm_reset l false)) a) (put_test l s).
Proof.
  intros W [H1 H2 H3 H4]. constructor; unfold aset; cbn [slot_eq_dec]; auto.
  cbn [slot_eq_dec option_map put_test i_test]. destruct (slot_eq_dec STest STest) as [_|n]; [|now destruct n].
  cbn [option_map]. rewrite wm_round by exact W. reflexivity.
Qed.
Lemma held_chain a s c : u32_of_chain c < 2 ^ 32 ->
  held a s -> held (aset SChain (chain_serialize c) a) (put_chain (u32_of_chain c) s).
Proof.
  intros W [H1 H2 H3 H4]. constructor; unfold aset; cbn [slot_eq_dec]; auto.
  destruct (slot_eq_dec SChain SChain) as [_|n]; [|now destruct n].
  cbn [option_map put_chain i_chain]. now rewrite chain_round.
Qed.
Lemma held_key a s k : key_ok k -> held a s -> held (aset SKey (key_serialize k) a) (put_key (Some k) s).
Proof.
  intros W [H1 H2 H3 H4]. constructor; unfold aset; cbn [slot_eq_dec]; auto.
  destruct (slot_eq_dec SKey SKey) as [_|n]; [|now destruct n]. now rewrite key_round.
Qed.
Lemma held_no_key a s : held a s -> held (aset SKey key_empty a) (put_key None s).
Proof.
  intros [H1 H2 H3 H4]. constructor; unfold aset; cbn [slot_eq_dec]; auto.
  destruct (slot_eq_dec SKey SKey) as [_|n]; [exact key_parse_empty|now destruct n].
Qed.

Definition plus (b : slot -> N) : slot -> N := fun x => b x + 1.
Ltac bumps := unfold plus, bump; intros;
  repeat match goal with |- context [slot_eq_dec ?a ?b] => destruct (slot_eq_dec a b); subst end; try congruence; try lia.

Lemma lift b s d : core b s d -> core (plus b) s d.
Proof. apply core_mono. unfold plus. intros; lia. Qed.

Section Storing.
  Variable C : config.
  Variable O : oracles.
  Variable b : slot -> N.
  Variable u : ustate.
  Variable q : pstate.
  Variable s : ideal.
  Variable d : dev.
  Hypothesis K : core b s d.
  Hypothesis U : d_up d = u.
  Hypothesis Q : i_upload s = q.
  Hypothesis V : i_review s = None.
  Hypothesis L : forall x, b x + 1 < 2 ^ 64.

  Lemma reset_ends buf : apdu_ok buf -> ends (plus b) u q (h_reset buf d) (reset buf s).
  Proof.
    intros B. unfold h_reset, reset. unfold the_payload. destruct (payload_eq buf B) as [-> PB].
    rewrite bind_some, bind_check.
    destruct (Nat.leb_spec 4 (length (pay buf))) as [L4|L4].
    2:{ replace (length (pay buf) <? 4)%nat with true by lia. apply ends_refuse; auto; now apply lift. }
    replace (length (pay buf) <? 4)%nat with false by lia. cbv zeta.
    change (unbe (firstn 4 (pay buf))) with (field 0 4 (pay buf)).
    pose proof (field_lt 0 _ PB) as W. revert W. generalize (field 0 4 (pay buf)). intros l W.
    destruct (core_write b s (put_main (wm_pos (wm_reset l false)) s) d SMain (wm_serialize (wm_reset l false))
      ExecutionError K ltac:(auto) (wm_payload _) ltac:(intros; now apply held_main) V V eq_refl)
      as (d1 & E1 & K1 & (_ & U1 & _)).
    unfold bind at 1. rewrite E1. clear E1.
    destruct (core_write _ _ (put_test l (put_main (wm_pos (wm_reset l false)) s)) d1 STest (wm_serialize (wm_reset l false))
      ExecutionError K1 ltac:(bumps; apply L) (wm_payload _) ltac:(intros; now apply held_test) V V eq_refl)
      as (d2 & E2 & K2 & (_ & U2 & _)).
    unfold bind at 1. rewrite E2. clear E2.
    destruct (read_ends _ _ d2 K2 SChain) as (d3 & r & E3 & K3 & (_ & U3 & _) & H3).
    unfold bind at 1. rewrite E3. clear E3. cbn [put_test put_main i_chain] in H3.
    destruct (i_chain s) as [c|] eqn:EC, r as [p| |]; try contradiction.
    - apply ends_give; [|congruence|exact Q].
      eapply core_mono; [|destruct K3 as [(a & S & H) C2 C3 C4 C5]; constructor; [exists a; split; [exact S|]|..]; eauto].
      + bumps.
      + eapply held_same; [..|exact H]; auto.
    - destruct (core_write _ _ (put_chain (u32_of_chain (chain_of_u32 MAINNET_CHAIN_ID)) (put_test l (put_main (wm_pos (wm_reset l false)) s)))
        d3 SChain (chain_serialize (chain_of_u32 MAINNET_CHAIN_ID))
        ExecutionError K3 ltac:(bumps; apply L) (chain_payload _) ltac:(intros; apply held_chain; [reflexivity|assumption]) V V eq_refl)
        as (d4 & E4 & K4 & (_ & U4 & _)).
      unfold bind at 1. rewrite E4. apply ends_give; [|congruence|exact Q].
      eapply core_mono; [|exact K4]. bumps.
  Qed.

  (** The key is read again before signing. *)
  Lemma baking_sign_key b' s' d' src digest data k : core b' s' d' -> i_key s' = Some k ->
    exists d1, core b' s' d1 /\ same_rest d' d1 /\
      baking_sign O src digest data d' = sign_with O src k digest data d1.
  Proof.
    intros K' HK. pose proof (c_slots _ _ _ K') as (a & S & H).
    destruct (read_or_stores b' a d' SKey ExecutionError S) as (d1 & E & S' & F).
    pose proof (frame_none_rest _ _ F) as R. exists d1.
    split; [eapply core_read; eauto|]. split; [exact R|].
    unfold baking_sign, bind at 1. rewrite E. pose proof (h_key _ _ H) as X. rewrite HK in X.
    destruct (a SKey) as [p|]; [|discriminate]. rewrite X. reflexivity.
  Qed.

  Lemma answer_ends b' s' d' h digest g : core b' s' d' -> d_up d' = u -> i_upload s' = q ->
    ends b' u q (Ok (Now (signed h digest g)), d') (sign_answer h digest g s').
  Proof. intros. unfold signed, sign_answer. destruct h; cbn [app]; now apply ends_give. Qed.

  Lemma consensus_ends m p rem h digest k : bytes_ok (m :: rem) -> In m consensus_kinds -> preemble_of_byte m = Some p ->
    i_key s = Some k ->
    ends (plus b) u q (handle_consensus O p rem h digest (m :: rem) d)
      (match i_main s with
       | Some last =>
         match consensus_in (m :: rem) with
         | Crash => Stop s
         | Malformed => Refuse DataInvalid s
         | Position p =>
           if (cpos_level p <? 2 ^ 31) && later p last
           then sign O SrcConsensus k digest (m :: rem) (put_main p s) (sign_answer h digest)
           else Refuse DataInvalid s
         end
       | None => Refuse ExecutionError s
       end).
  Proof.
    intros B Hm Hp HK. unfold handle_consensus, read_or. rewrite bind_assoc. unfold bind at 1.
    destruct (read_ends b s d K SMain) as (d1 & r & -> & K1 & (_ & U1 & _) & H1).
    assert (U1' : d_up d1 = u) by congruence.
    assert (KP : core (plus b) s d1) by (eapply core_mono; [|exact K1]; bumps).
    destruct (i_main s) as [last|] eqn:EM, r as [hw| |]; try contradiction; [|now apply ends_refuse].
    pose proof (position_check m p rem (wm_parse hw) Hm Hp) as PC. rewrite H1 in PC.
    unfold bind at 1. cbn [ret].
    destruct (consensus_in (m :: rem)) as [pos| |].
    2:{ rewrite PC. now apply ends_refuse. }
    2:{ rewrite PC. now apply ends_stop. }
    destruct ((cpos_level pos <? 2 ^ 31) && later pos last).
    2:{ rewrite PC. now apply ends_refuse. }
    destruct PC as (wm & PC & <-). rewrite PC. cbn [of_ares].
    assert (W : wm_ok wm).
    { destruct (consensus_check_ok _ _ _ _ _ Hp PC) as [SP _]. eapply signed_pos_wm_ok; eauto. }
    destruct (core_write b s (put_main (wm_pos wm) s) d1 SMain (wm_serialize wm)
      ExecutionError K1 (L SMain) (wm_payload _) ltac:(intros; now apply held_main) V V eq_refl)
      as (d2 & E2 & K2 & (_ & U2 & _)).
    unfold bind at 1. cbn [ret]. unfold bind at 1. rewrite E2.
    destruct (baking_sign_key _ _ d2 SrcConsensus digest (m :: rem) k K2 HK) as (d3 & K3 & (_ & U3 & _) & E3).
    unfold bind at 1. rewrite E3.
    apply (ends_mono (bump SMain b)); [bumps|].
    apply (ends_sign O (bump SMain b) u q SrcConsensus k digest (m :: rem) (put_main (wm_pos wm) s) d3
      (fun g => ret (Now (signed h digest g)))); auto; try congruence.
    intros g s' d' K' U' Q' _ _. now apply answer_ends.
  Qed.
End Storing.

(** ** Uploaded messages *)

Lemma preemble_head m (l : bytes) :
  preemble_parse (m :: l) = match preemble_of_byte m with Some p => POk l p | None => PErr end.
Proof.
  unfold preemble_parse, le_u8. rewrite be_uint_eq by (cbn [length]; lia). cbn [pbind].
  change (skipn (N.to_nat 1) (m :: l)) with l. replace (field 0 (N.to_nat 1) (m :: l)) with m by reflexivity. reflexivity.
Qed.

Section Messages.
  Variable C : config.
  Variable O : oracles.
  Variable b : slot -> N.
  Variable u : ustate.
  Variable q : pstate.
  Variable s : ideal.
  Variable d : dev.
  Hypothesis K : core b s d.
  Hypothesis U : d_up d = u.
  Hypothesis Q : i_upload s = q.
  Hypothesis V : i_review s = None.
  Hypothesis L : forall x, b x + 1 < 2 ^ 64.

  Lemma operation_ends (d' : dev) h rem digest data k : core b s d' -> d_up d' = u -> i_key s = Some k ->
    ends b u q (handle_delegation C rem h digest data d')
      (match operation_new rem with
       | Some (branch, ops) =>
         match eo_next ops with
         | NPanic => Stop s
         | NErr | NNone => Refuse DataInvalid s
         | NSome (ODelegation _ _ as o) _ | NSome (OReveal _ _ as o) _ =>
           ask C (VBakingSign h digest branch o data) (Some k) s
         | NSome _ _ => Refuse CommandNotAllowed s
         end
       | None => Refuse DataInvalid s
       end).
  Proof.
    intros K' U' HK. unfold handle_delegation. destruct (operation_new rem) as [[branch ops]|]; [|now apply ends_refuse].
    destruct (eo_next ops) as [| | |o e]; try (now apply ends_refuse); try (now apply ends_stop).
    destruct o; try (now apply ends_refuse); apply ends_ask; auto; cbn [review_rel put_review i_review i_key];
      (split; [now rewrite HK|discriminate]).
  Qed.

  Lemma bake_ends h up : bytes_ok (uo_data up) ->
    ends (plus b) u q (baker_sign C O h up d) (bake C O h up s).
  Proof.
    intros B. pose proof (lift b s d K) as KP. unfold baker_sign, bake. cbv zeta.
    rewrite curve_in_eq. apply ends_option; [assumption..|intros c _].
    rewrite path10. apply ends_option; [assumption..|intros pa _].
    assert (X : forall F : bool -> M reply, bind (check_with_stored (c, pa)) F d
      = bind read_baking_key (fun o => bind (of_option ConditionsNotSatisfied o) (fun k => F (key_eqb k (c, pa)))) d).
    { intros F. unfold check_with_stored, read_baking_key. rewrite !bind_assoc. unfold bind.
      destruct (read_or SKey ConditionsNotSatisfied d) as [[p|e| |] d1]; auto.
      destruct (of_ares (key_parse p) d1) as [[[k|]|e| |] d2]; reflexivity. }
    rewrite X. clear X.
    (* the key, with both bounds *)
    destruct (read_key b s d K) as (d' & K' & R & E & N0). destruct R as (_ & RU & _).
    assert (U' : d_up d' = u) by congruence. clear KP. pose proof (lift b s d' K') as KP.
    unfold bind at 1. rewrite E. destruct (i_key s) as [k|] eqn:HK.
    2:{ destruct (N0 eq_refl) as [-> | ->]; [|rewrite bind_none]; now apply ends_refuse. }
    rewrite bind_some. rewrite bind_check.
    destruct (key_eqb k (c, pa)); cbn [negb]; [|now apply ends_refuse].
    unfold digest32. apply ends_option; [assumption..|intros digest _].
    destruct (uo_data up) as [|m rem] eqn:ED; [now apply ends_refuse|].
    rewrite preemble_head. cbn [known_kind nth]. change (skipn 1 (m :: rem)) with rem.
    unfold preemble_of_byte. cbn [existsb].
    destruct (N.eqb_spec m 1) as [->|]; [cbn [N.eqb Pos.eqb orb negb]; apply consensus_ends; auto; cbn; tauto|].
    destruct (N.eqb_spec m 2) as [->|]; [cbn [N.eqb Pos.eqb orb negb]; apply consensus_ends; auto; cbn; tauto|].
    destruct (N.eqb_spec m 3) as [->|].
    { cbn [N.eqb Pos.eqb orb negb]. eapply ends_mono; [|apply operation_ends; eassumption]. bumps. }
    destruct (N.eqb_spec m 4) as [->|]; [now apply ends_refuse|].
    destruct (N.eqb_spec m 5) as [->|]; [now apply ends_refuse|].
    destruct (N.eqb_spec m 0x11) as [->|]; [cbn [N.eqb Pos.eqb orb negb]; apply consensus_ends; auto; cbn; tauto|].
    destruct (N.eqb_spec m 0x12) as [->|]; [cbn [N.eqb Pos.eqb orb negb]; apply consensus_ends; auto; cbn; tauto|].
    destruct (N.eqb_spec m 0x13) as [->|]; [cbn [N.eqb Pos.eqb orb negb]; apply consensus_ends; auto; cbn; tauto|].
    now apply ends_refuse.
  Qed.

  Lemma review_sign_ends h up :
    ends b u q (start_sign C O h up d) (review_sign C O h up s).
  Proof.
    unfold start_sign, review_sign. cbv zeta.
    rewrite curve_in_eq. apply ends_option; [assumption..|intros c _].
    rewrite path10. apply ends_option; [assumption..|intros pa _].
    unfold bind at 1. pose proof (core_path b s d (Some (c, pa)) K V) as KP.
    assert (UP : d_up (set_path (Some (c, pa)) d) = u /\ d_path (set_path (Some (c, pa)) d) = Some (c, pa))
      by (destruct d; auto).
    revert KP UP. generalize (set_path (Some (c, pa)) d). intros d1 KP [U1 P1].
    unfold digest32. apply ends_option; [assumption..|intros digest _].
    destruct (uo_data up) as [|m rem] eqn:ED; [now apply ends_refuse|].
    rewrite preemble_head. cbn [known_kind nth]. change (skipn 1 (m :: rem)) with rem.
    unfold preemble_of_byte. cbn [existsb].
    destruct (N.eqb_spec m 1) as [->|]; [now apply ends_refuse|].
    destruct (N.eqb_spec m 2) as [->|]; [now apply ends_refuse|].
    destruct (N.eqb_spec m 3) as [->|].
    { cbn [N.eqb Pos.eqb orb negb]. apply ends_option; [assumption..|intros parsed _].
      apply ends_ask; auto. cbn [review_rel put_review i_review]. congruence. }
    destruct (N.eqb_spec m 4) as [->|]; [now apply ends_refuse|].
    destruct (N.eqb_spec m 5) as [->|].
    { cbn [N.eqb Pos.eqb orb negb]. apply ends_ask; auto. cbn [review_rel put_review i_review]. congruence. }
    destruct (N.eqb_spec m 0x11) as [->|]; [now apply ends_refuse|].
    destruct (N.eqb_spec m 0x12) as [->|]; [now apply ends_refuse|].
    destruct (N.eqb_spec m 0x13) as [->|]; [now apply ends_refuse|].
    now apply ends_refuse.
  Qed.
End Messages.

(** ** Whole requests *)

Definition lends (b : slot -> N) (r : outcome reply * dev) (x : effect) : Prop :=
  match x with
  | Give out s => exists d, r = (Ok (Now out), d) /\ linked b s d
  | Wait s => exists d, r = (Ok Later, d) /\ linked b s d
  | Refuse e s => exists d, r = (Err e, d) /\ linked b s d
  | Stop s => exists d, r = (Panic, d) /\ core b s d /\ flash_size (d_up d)
  end.

Lemma ends_lends b u q r x : u_rel u q -> upload_ok q -> ends b u q r x -> lends b r x.
Proof.
  intros R B. destruct x; cbn [ends lends]; intros (d & E & K & U & Q); exists d; split; auto;
    try (constructor; rewrite ?U, ?Q; assumption).
  split; [exact K|]. rewrite U. now apply rel_size in R.
Qed.

Lemma core_upload b s d u q : core b s d -> core b (put_upload q s) (set_up u (set_ufaults [] d)).
Proof.
  intros [(a & S & H) C2 C3 C4 C5]. destruct (set_up_rest u [] d) as (R1 & R2 & R3 & R4 & R5 & R6 & R7).
  constructor.
  - exists a. split; [eapply stores_same_slots; eauto|]. eapply held_same; [..|exact H]; reflexivity.
  - now rewrite R4.
  - now rewrite R5.
  - exact R3.
  - now rewrite R7, C5.
Qed.
Lemma core_drop b s d u : core b s d -> core b s (set_up u d).
Proof.
  intros [(a & S & H) C2 C3 C4 C5]. destruct (set_up_rest' u d) as (R1 & R2 & R3 & R4 & R5 & R6 & R7).
  constructor.
  - exists a. split; [eapply stores_same_slots; eauto|exact H].
  - now rewrite R4.
  - now rewrite R5.
  - now rewrite R3.
  - now rewrite R7, C5.
Qed.

Lemma proto_bytes a buf st : apdu_ok buf -> upload_ok st ->
  upload_ok (snd (proto_step a buf st)) /\
  match fst (proto_step a buf st) with
  | Ok (Some up) => bytes_ok (uo_data up) /\ snd (proto_step a buf st) = None
  | Panic | Cut => False
  | _ => True
  end.
Proof.
  intros B H. destruct (payload_eq buf B) as [_ P]. unfold proto_step.
  destruct (kind_of (nth 2 buf 0)) as [[]|]; cbn [fst snd upload_ok]; auto.
  - split; [|exact Logic.I]. split; [exact P|constructor].
  - destruct st as [[[[h q2] init] data]|]; cbn [fst snd]; auto.
    destruct (negb (acc_eqb h a)); cbn [fst snd]; auto.
    match goal with |- context [if ?x then _ else _] => destruct x end; cbn [fst snd]; auto.
    destruct H as [H1 H2]. split; [|exact Logic.I]. split; [exact H1|]. now apply Forall_app.
  - destruct st as [[[[h q2] init] data]|]; cbn [fst snd]; auto.
    destruct (negb (acc_eqb h a)); cbn [fst snd]; auto.
    match goal with |- context [if ?x then _ else _] => destruct x end; cbn [fst snd]; auto.
    destruct H as [H1 H2]. split; [exact Logic.I|]. split; [now apply Forall_app|reflexivity].
Qed.

Lemma packet_lends b b' a buf s d F f : linked b s d -> apdu_ok buf -> (forall x, b x <= b' x) ->
  (forall up s1 d1, core b s1 d1 -> i_upload s1 = None -> i_review s1 = i_review s -> bytes_ok (uo_data up) ->
     ends b' (d_up d1) None (F up d1) (f up s1)) ->
  lends b' (with_upload a buf F d) (packet a buf s f).
Proof.
  intros [K R P] B L H. unfold with_upload, the_upload, packet. unfold bind at 1.
  rewrite (c_uf _ _ _ K).
  pose proof (upload_step a buf (d_up d) (i_upload s) B R) as Y.
  destruct (proto_bytes a buf (i_upload s) B P) as [PB1 PB2].
  destruct (upload a buf (d_up d) []) as [[o u'] z]. destruct Y as (-> & -> & FS & R').
  destruct (proto_step a buf (i_upload s)) as [o st']. cbn [fst snd] in *.
  pose proof (core_upload b s d u' st' K) as K1.
  assert (U1 : d_up (set_up u' (set_ufaults [] d)) = u') by (destruct d; reflexivity).
  revert K1 U1. generalize (set_up u' (set_ufaults [] d)). intros d1 K1 U1.
  destruct o as [[up|]|e| |]; try contradiction.
  - destruct PB2 as [PB2 ->].
    specialize (H up (put_upload None s) d1 K1 eq_refl eq_refl PB2). rewrite U1 in H.
    destruct (f up (put_upload None s)) as [out s2|s2|e s2|s2]; cbn [ends lends] in *;
      destruct H as (d2 & -> & K2 & U2 & Q2).
    1-3: exists (set_up (upload_drop a (d_up d2)) d2); (split; [reflexivity|]);
      (constructor; [now apply core_drop|rewrite Q2; destruct (set_up_rest' (upload_drop a (d_up d2)) d2) as (_ & _ & _ & _ & _ & -> & _); rewrite U2; exact R'|now rewrite Q2]).
    exists d2. split; [reflexivity|]. split; [exact K2|]. now rewrite U2.
  - exists d1. split; [reflexivity|]. constructor; [eapply core_mono; eauto|now rewrite U1|exact PB1].
  - exists d1. split; [reflexivity|]. constructor; [eapply core_mono; eauto|now rewrite U1|exact PB1].
Qed.

Section Requests.
  Variable C : config.
  Variable O : oracles.
  Variable b : slot -> N.
  Hypothesis L : forall x, b x + 1 < 2 ^ 64.
  Lemma le_plus x : b x <= plus b x.
  Proof. unfold plus. lia. Qed.

  Lemma dispatch_lends s d buf : linked b s d -> i_review s = None -> apdu_ok buf ->
    lends (plus b) (dispatch C O buf d)
      (if negb (nth 0 buf 0 =? 0x80) then Refuse ClaNotSupported s
       else match find (fun p => fst p =? nth 1 buf 0) (commands C O) with
            | Some (_, f) => f buf s
            | None => Refuse CommandNotAllowed s
            end).
  Proof.
    intros [K R P] V B. unfold dispatch, apdu_cla, CLA.
    assert (W : forall r x, ends b (d_up d) (i_upload s) r x -> lends (plus b) r x).
    { intros r x H. eapply ends_lends; [exact R|exact P|]. eapply ends_mono; [exact le_plus|exact H]. }
    assert (E : forall e, lends (plus b) (Err e, d) (Refuse e s)).
    { intros e. apply W, ends_refuse; auto. }
    assert (G : forall out, lends (plus b) (Ok (Now out), d) (Give out s)).
    { intros out. apply W, ends_give; auto. }
    destruct (nth 0 buf 0 =? 0x80); cbn [negb]; [|apply E]. cbv zeta.
    assert (SG : forall h, lends (plus b) (h_sign C O h buf d) (sign_command C O h buf s)).
    { intros h. apply (packet_lends b); [constructor; assumption|assumption|exact le_plus|].
      intros up s1 d1 K1 Q1 V1 PB. eapply ends_mono; [exact le_plus|]. apply review_sign_ends; auto. congruence. }
    assert (BK : forall h, lends (plus b) (h_baker_sign C O h buf d) (bake_command C O h buf s)).
    { intros h. apply (packet_lends b); [constructor; assumption|assumption|exact le_plus|].
      intros up s1 d1 K1 Q1 V1 PB. apply bake_ends; auto. congruence. }
    assert (CM : lends (plus b) (h_git C d) (commit C s)).
    { unfold h_git, commit. destruct (length (cf_commit C) <? 8)%nat; [|apply G]. apply W, ends_stop; auto. }
    unfold commands, common_commands, baking_commands, wallet_commands, dispatch_common.
    unfold apdu_ins. generalize (nth 1 buf 0). intros ins.
    destruct (cf_baking C) eqn:CB.
    - cbn [find app fst].
      repeat match goal with
      | |- context [ins =? ?c] =>
        rewrite (N.eqb_sym c ins); destruct (N.eqb_spec ins c) as [->|];
        [cbn [find app fst N.eqb Pos.eqb];
         solve [ apply G | apply SG | apply BK | apply CM | apply E
               | apply W; first [ now apply authorize_ends | now apply deauthorize_ends | now apply ask_key_ends
                   | now apply hmac_ends | now apply setup_ends | now apply public_key_ends | now apply prompt_ends
                   | now apply address_ends | now apply main_ends | now apply all_ends ]
               | eapply ends_lends; [exact R|exact P|]; apply reset_ends; auto
               | unfold h_legacy_version; rewrite CB; apply G ]
        |cbv iota]
      end. apply E.
    - cbn [find app fst].
      repeat match goal with
      | |- context [ins =? ?c] =>
        rewrite (N.eqb_sym c ins); destruct (N.eqb_spec ins c) as [->|];
        [cbn [find app fst N.eqb Pos.eqb];
         solve [ apply G | apply SG | apply CM | apply E
               | apply W; first [ now apply public_key_ends | now apply prompt_ends | now apply address_ends ]
               | unfold h_legacy_version; rewrite CB; apply G ]
        |cbv iota]
      end. apply E.
  Qed.
End Requests.

(** ** Decisions *)

Section Decisions.
  Variable C : config.
  Variable O : oracles.
  Variable b : slot -> N.
  Hypothesis L : forall x, b x + 1 < 2 ^ 64.

  Lemma setup_stores s d k main test chain : core b s d -> i_review s = None -> key_ok k ->
    main < 2 ^ 32 -> test < 2 ^ 32 -> u32_of_chain chain < 2 ^ 32 ->
    exists d', core (plus b) (put_marks main test (u32_of_chain chain) (put_key (Some k) s)) d' /\ d_up d' = d_up d /\
      forall (F : M reply),
      bind (store_baking_key k) (fun _ => bind (write_or SMain (wm_serialize (wm_reset main false)) Busy) (fun _ =>
        bind (write_or STest (wm_serialize (wm_reset test false)) Busy) (fun _ =>
        bind (write_or SChain (pad_to 52 (be 4 (u32_of_chain chain))) Busy) (fun _ => F)))) d = F d'.
  Proof.
    intros K V HK HM HT HC.
    destruct (core_write b s (put_key (Some k) s) d SKey (key_serialize k) ExecutionError K (L _) (key_payload _)
      ltac:(intros; now apply held_key) V V eq_refl) as (d1 & E1 & K1 & (_ & U1 & _)).
    destruct (core_write _ _ (put_main (wm_pos (wm_reset main false)) (put_key (Some k) s)) d1 SMain
      (wm_serialize (wm_reset main false)) Busy K1 ltac:(bumps; apply L) (wm_payload _)
      ltac:(intros; now apply held_main) V V eq_refl) as (d2 & E2 & K2 & (_ & U2 & _)).
    destruct (core_write _ _ (put_test test (put_main (wm_pos (wm_reset main false)) (put_key (Some k) s))) d2 STest
      (wm_serialize (wm_reset test false)) Busy K2 ltac:(bumps; apply L) (wm_payload _)
      ltac:(intros; now apply held_test) V V eq_refl) as (d3 & E3 & K3 & (_ & U3 & _)).
    destruct (core_write _ _ (put_chain (u32_of_chain chain)
        (put_test test (put_main (wm_pos (wm_reset main false)) (put_key (Some k) s)))) d3 SChain
      (chain_serialize chain) Busy K3 ltac:(bumps; apply L) (chain_payload _)
      ltac:(intros; now apply held_chain) V V eq_refl) as (d4 & E4 & K4 & (_ & U4 & _)).
    exists d4. split; [eapply core_mono; [|exact K4]; bumps|]. split; [congruence|].
    intros F. unfold store_baking_key. unfold bind at 1. rewrite E1. unfold bind at 1. rewrite E2.
    unfold bind at 1. rewrite E3. unfold bind at 1. unfold chain_serialize in E4. rewrite E4. reflexivity.
  Qed.

  Lemma approve_ends s d v k room : core b s d -> i_review s = Some (v, k) ->
    ends (plus b) (d_up d) (i_upload s) (bind (accept O v room) (fun out => ret (Now out)) (set_ui None d))
      (approve O v k room (put_review None s)).
  Proof.
    intros K V. pose proof (core_unview b s d K) as K1. pose proof (c_review _ _ _ K) as RR. unfold review_rel in RR.
    rewrite V in RR. destruct (set_ui_rest None d) as (_ & _ & _ & _ & RP & RU & _).
    pose proof (lift _ _ _ K1) as KP.
    revert K1 KP RP RU. generalize (set_ui None d). intros d1 K1 KP RP RU.
    assert (Q : i_upload (put_review None s) = i_upload s) by reflexivity.
    assert (V1 : i_review (put_review None s) = None) by reflexivity.
    assert (IK : i_key (put_review None s) = i_key s) by reflexivity.
    revert K1 KP Q V1 IK. generalize (put_review None s). intros s1 K1 KP Q V1 IK.
    destruct v as [h digest parsed data|h digest branch o data|ky a|a|wc ky a|wa pk a|ky main test chain a];
      cbn [accept approve].
    - subst k. rewrite bind_assoc. unfold bind at 1. rewrite RP.
      destruct (d_path d) as [k|] eqn:EP; [|now apply ends_refuse].
      rewrite bind_assoc. apply ends_sign; [assumption..|].
      intros g s' d' K' U' Q' V' P'. rewrite bind_assoc. unfold bind at 1.
      assert (K2 : core (plus b) s' (set_path None d')) by (apply core_path; [assumption|congruence]).
      assert (U2 : d_up (set_path None d') = d_up d) by (destruct d'; exact U').
      revert K2 U2. generalize (set_path None d'). intros d2 K2 U2.
      exact (answer_ends _ _ _ s' d2 h digest g K2 U2 Q').
    - destruct RR as [RR NN]. destruct k as [k|]; [|congruence].
      destruct (baking_sign_key O (plus b) s1 d1 SrcBakingReview digest data k KP ltac:(congruence)) as (d2 & K2 & (_ & U2 & _) & E2).
      rewrite bind_assoc. unfold bind at 1. rewrite E2.
      apply (ends_sign O (plus b) (d_up d) (i_upload s) SrcBakingReview k digest data s1 d2
        (fun g => bind (ret (signed h digest g)) (fun out => ret (Now out)))); auto; try congruence.
      intros g s' d' K' U' Q' _ _. now apply answer_ends.
    - rewrite bind_assoc. unfold pubkey. apply ends_option; [assumption..|intros pk _].
      destruct (core_write b s1 (put_key (Some ky) s1) d1 SKey (key_serialize ky) ExecutionError K1 (L _) (key_payload _)
        ltac:(intros; now apply held_key) V1 V1 eq_refl) as (d2 & E2 & K2 & (_ & U2 & _)).
      rewrite bind_assoc. unfold store_baking_key. unfold bind at 1. rewrite E2.
      apply ends_give; [|congruence|exact Q]. eapply core_mono; [|exact K2]. bumps.
    - destruct (core_write b s1 (put_key None s1) d1 SKey key_empty ExecutionError K1 (L _) key_empty_payload
        ltac:(intros; now apply held_no_key) V1 V1 eq_refl) as (d2 & E2 & K2 & (_ & U2 & _)).
      rewrite bind_assoc. unfold remove_baking_key. unfold bind at 1. rewrite E2.
      apply ends_give; [|congruence|exact Q]. eapply core_mono; [|exact K2]. bumps.
    - pose proof (tell_key_ends (plus b) (d_up d) (i_upload s) s1 Q wc ky room d1 KP RU) as T.
      unfold bind. destruct (query_answer wc ky room); exact T.
    - now apply tell_address_ends.
    - rewrite bind_assoc. unfold pubkey. apply ends_option; [assumption..|intros pk _].
      destruct RR as (R1 & R2 & R3 & R4).
      destruct (setup_stores s1 d1 ky main test chain K1 V1 R1 R2 R3 R4) as (d2 & K2 & U2 & E2).
      rewrite !bind_assoc.
      specialize (E2 (fun d => (Ok (Now (len pk mod 256 :: pk)), d))). cbv beta in E2.
      match goal with |- ends _ _ _ ?x _ => replace x with (Ok (Now (len pk mod 256 :: pk)), d2) end.
      + apply ends_give; [exact K2|congruence|exact Q].
      + rewrite <- E2. unfold bind.
        destruct (store_baking_key ky d1) as [[[]|?| |] ?]; auto.
        destruct (write_or SMain _ _ _) as [[[]|?| |] ?]; auto.
        destruct (write_or STest _ _ _) as [[[]|?| |] ?]; auto.
        destruct (write_or SChain _ _ _) as [[[]|?| |] ?]; auto.
  Qed.

  (** ** Answers *)

  Lemma linked_restart b' s d : core b' s d -> flash_size (d_up d) -> linked b' (unplug s) (restart d).
  Proof.
    intros K F. constructor; [now apply core_restart| |exact Logic.I].
    cbn [unplug i_upload]. change (d_up (restart d)) with (u_restart (d_up d)). now apply restart_rel.
  Qed.
  Lemma finish_conclude b' room r x : lends b' r x ->
    fst (finish room r) = fst (conclude room x) /\ linked b' (snd (conclude room x)) (snd (finish room r)).
  Proof.
    destruct x as [out s|s|e s|s]; cbn [lends]; intros (d & -> & K); unfold finish, conclude.
    - change (be 2 (sw Success)) with [0x90; 0x00]. destruct (room <? len out + 2); cbn [fst snd]; auto.
      split; auto. apply linked_restart; [apply K|]. destruct K as [_ K _]. now apply rel_size in K.
    - cbn [fst snd]. auto.
    - replace (len [] + 2) with 2 by reflexivity. destruct (room <? 2); cbn [fst snd app]; auto.
      split; auto. apply linked_restart; [apply K|]. destruct K as [_ K _]. now apply rel_size in K.
    - destruct K as [K F]. cbn [fst snd]. split; auto. now apply linked_restart.
  Qed.

  Lemma linked_plus s d : linked b s d -> linked (plus b) s d.
  Proof. intros [K R P]. constructor; auto. now apply lift. Qed.

  Lemma decided_linked s d f g : linked b s d ->
    (forall v k room, i_review s = Some (v, k) ->
       ends (plus b) (d_up d) (i_upload s) (bind (f v room) (fun out => ret (Now out)) (set_ui None d))
         (g v k room (put_review None s))) ->
    fst (decide C f d) = fst (decided C s g) /\ linked (plus b) (snd (decided C s g)) (snd (decide C f d)).
  Proof.
    intros K H. unfold decide, decided. rewrite (c_ui _ _ _ (k_core _ _ _ K)).
    destruct (i_review s) as [[v k]|] eqn:V; cbn [option_map fst].
    - apply finish_conclude. eapply ends_lends; [apply K|apply K|]. now apply H.
    - cbn [fst snd]. split; [reflexivity|]. now apply linked_plus.
  Qed.

  Lemma step_linked s d e : linked b s d -> event_ok e ->
    fst (step C O d e) = fst (ideal_step C O s e) /\ linked (plus b) (snd (ideal_step C O s e)) (snd (step C O d e)).
  Proof.
    intros K E. destruct e as [buf rx| | | |].
    - cbn [step ideal_step]. rewrite (c_ui _ _ _ (k_core _ _ _ K)).
      destruct (i_review s) as [[v k]|] eqn:V; cbn [option_map].
      + cbn [fst snd]. split; [reflexivity|]. now apply linked_plus.
      + cbn [event_ok] in E. assert (LB : len buf = 260) by (unfold len; destruct E as [-> _]; reflexivity).
        rewrite LB. apply finish_conclude. unfold request.
        replace (apdu_read_ok buf rx) with (negb ((rx <? 5) || (260 <? rx)))
          by (unfold apdu_read_ok; rewrite LB; lia).
        destruct ((rx <? 5) || (260 <? rx)); cbn [negb].
        * exists d. split; [reflexivity|]. now apply linked_plus.
        * now apply dispatch_lends.
    - apply decided_linked; [exact K|]. intros v k room V. apply approve_ends; [apply K|exact V].
    - apply decided_linked; [exact K|]. intros v k room V.
      pose proof (lift _ _ _ (core_unview b s d (k_core _ _ _ K))) as K1.
      destruct (set_ui_rest None d) as (_ & _ & _ & _ & _ & RU & _).
      revert K1 RU. generalize (set_ui None d). intros d1 K1 RU.
      destruct v; try (apply ends_refuse; [exact K1|exact RU|reflexivity]).
      exists (set_path None d1). split; [reflexivity|]. split; [now apply core_path|].
      split; [|reflexivity]. destruct (set_path_rest None d1) as (_ & _ & _ & _ & _ & -> & _). exact RU.
    - apply decided_linked; [exact K|]. intros v k room V.
      pose proof (lift _ _ _ (core_unview b s d (k_core _ _ _ K))) as K1.
      destruct (set_ui_rest None d) as (_ & _ & _ & _ & _ & RU & _).
      exact (ends_refuse (plus b) (d_up d) (i_upload s) DataInvalid (put_review None s) (set_ui None d) K1 RU eq_refl).
    - cbn [step ideal_step fst snd]. split; [reflexivity|]. apply linked_restart; [apply lift, K|].
      destruct K as [_ K _]. now apply rel_size in K.
  Qed.
End Decisions.

Lemma run_linked C O es : forall B s d, linked (fun _ => B) s d -> Forall event_ok es -> B + len es < 2 ^ 64 ->
  fst (run C O d es) = fst (ideal_run C O s es) /\
  linked (fun _ => B + len es) (snd (ideal_run C O s es)) (snd (run C O d es)).
Proof.
  induction es as [|e es IH]; intros B s d K H LB.
  - cbn [run ideal_run fst snd]. split; [reflexivity|]. replace (B + len []) with B by (unfold len; cbn [length]; lia). exact K.
  - inversion H; subst. replace (len (e :: es)) with (1 + len es) in * by (unfold len; cbn [length]; lia).
    destruct (step_linked C O (fun _ => B) ltac:(intros; lia) s d e K ltac:(assumption)) as [E1 K1].
    cbn [run ideal_run]. destruct (step C O d e) as [a d1], (ideal_step C O s e) as [a' s1]. cbn [fst snd] in E1, K1. subst a'.
    destruct (IH (B + 1) s1 d1 K1 ltac:(assumption) ltac:(lia)) as [E2 K2].
    destruct (run C O d1 es) as [l d2], (ideal_run C O s1 es) as [l' s2]. cbn [fst snd] in *. subst l'.
    split; [reflexivity|]. replace (B + (1 + len es)) with (B + 1 + len es) by lia. exact K2.
Qed.

Lemma fresh_linked : linked (fun _ => 0) ideal_fresh (dev_fresh [] []).
Proof.
  constructor; [|exact u_fresh_rel|exact Logic.I]. constructor; auto; [|exact Logic.I].
  exists (fun _ => None). split; [|constructor; reflexivity]. constructor; [|reflexivity].
  intros []; apply ss_fresh; lia.
Qed.
