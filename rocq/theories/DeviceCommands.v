(** Which commands are understood, the form of answers, requests for public keys, and
    the separation of the two builds. *)
From Coq Require Import List NArith ZArith Lia Bool Arith ZifyBool ZifyNat ZifyN.
From Verif Require Import Base BaseFacts Flash FlashFacts Codecs CodecsSpec CodecsFacts
  Upload UploadSpec UploadFacts Baking BakingSpec BakingFacts Operations Oracles Address AddressSpec
  AddressFacts AddressExamples
  Device DeviceSpec DeviceFacts DeviceProofs DeviceHist DeviceSigs DeviceAnswers DeviceReviews DeviceKeys
  DeviceSlots.
Import ListNotations.
Open Scope N_scope.

Section Commands.
  Variable C : config.
  Variable O : oracles.

  (** ** C25 *)

  Lemma too_short d buf rx : apdu_ok buf -> d_ui d = None -> ~ 5 <= rx <= 260 ->
    step C O d (EApdu buf rx) = (AReply [0x67; 0], d).
  Proof.
    intros [Hl _] U R. cbn [step]. rewrite U. assert (E : len buf = 260) by (unfold len; lia). rewrite E.
    replace (apdu_read_ok buf rx) with false by (unfold apdu_read_ok; rewrite E; lia). reflexivity.
  Qed.
  Lemma other_class d buf rx : apdu_ok buf -> d_ui d = None -> 5 <= rx <= 260 -> nth 0 buf 0 <> 0x80 ->
    step C O d (EApdu buf rx) = (AReply [0x6E; 0], d).
  Proof.
    intros [Hl _] U R N. cbn [step]. rewrite U. assert (E : len buf = 260) by (unfold len; lia). rewrite E.
    replace (apdu_read_ok buf rx) with true by (unfold apdu_read_ok; rewrite E; lia).
    unfold dispatch, apdu_cla, CLA. apply N.eqb_neq in N. rewrite N. reflexivity.
  Qed.
  Lemma unassigned d buf rx ins : apdu_ok buf -> command d buf rx ins -> ~ In ins (assigned C) ->
    step C O d (EApdu buf rx) = (AReply [0x69; 0x86], d).
  Proof.
    intros Hb Hc Hn. rewrite (step_command C O d buf rx ins Hb Hc). destruct Hc as (_ & _ & E0 & E1).
    rewrite (dispatch_at C O buf ins E0 E1). unfold assigned in Hn. unfold dispatch_common.
    destruct (cf_baking C); cbn [In] in Hn;
      repeat match goal with |- context [ins =? ?k] =>
        replace (ins =? k) with false by (clear E1; lia) end;
      reflexivity.
  Qed.

  Lemma finish_form room x out : fst (finish room x) = AReply out ->
    len out <= room /\ exists data st, out = data ++ be 2 (sw st) /\ (st <> Success -> data = []).
  Proof.
    destruct x as [[[data|]|e| |] d]; cbn [finish]; try discriminate.
    - destruct (room <? len data + 2) eqn:R; [discriminate|]. cbn [fst]. intros X.
      assert (out = data ++ be 2 (sw Success)) as -> by congruence. split.
      + unfold len in *. rewrite app_length, be_length. lia.
      + exists data, Success. split; [reflexivity|]. intros N. now elim N.
    - destruct (room <? len [] + 2) eqn:R; [discriminate|]. cbn [fst]. intros X.
      assert (out = [] ++ be 2 (sw e)) as -> by congruence. split.
      + unfold len in *. rewrite app_length, be_length. cbn [length] in *. lia.
      + exists [], e. split; reflexivity.
  Qed.
  Lemma answer_form d e room out : answer_room C d e room -> fst (step C O d e) = AReply out ->
    len out <= room /\ exists data st, out = data ++ be 2 (sw st) /\ (st <> Success -> data = []).
  Proof.
    intros R X.
    assert (D : forall f, answer_room C d EApprove room -> fst (decide C f d) = AReply out ->
      len out <= room /\ exists data st, out = data ++ be 2 (sw st) /\ (st <> Success -> data = [])).
    { clear. intros f (v & U & R). unfold decide. rewrite U, R. apply finish_form. }
    destruct e; cbn [step] in X; try (now apply (D _ R X)).
    - cbn [answer_room] in R. subst room. destruct (d_ui d); [discriminate|]. now apply finish_form in X.
    - discriminate.
  Qed.
  Lemma command_answered d buf rx : d_ui d = None -> fst (step C O d (EApdu buf rx)) <> ANone.
  Proof.
    intros U. cbn [step]. rewrite U. destruct (if apdu_read_ok buf rx then _ else _) as [[[]| | |] d'];
      cbn [finish]; try discriminate; destruct (_ <? _); discriminate.
  Qed.

  (** ** C40 *)

  Lemma key_text_new c pk l h : oracles_ok O -> hashed_form c pk l -> o_blake2b O 20 l = Some h ->
    twice O (kind_prefix (addr_kind c) ++ h) <> None ->
    exists a t, addr_new O c pk = SOk a /\ addr_base58 a = SOk t /\ key_text O c pk t.
  Proof.
    intros K F H T. pose proof (key_address_ok O c pk l h K F H) as W. unfold key_address in W.
    destruct (addr_new O c pk) as [a| |]; cbn [writes] in W; [|contradiction..].
    destruct (addr_base58 a) as [t| |] eqn:E; cbn [writes] in W; [|contradiction..].
    exists a, t. split; [reflexivity|]. split; [exact E|]. exists l, h. tauto.
  Qed.
  Lemma key_text_unique c pk a t t' : addr_new O c pk = SOk a -> addr_base58 a = SOk t -> SOk t = SOk t' -> t = t'.
  Proof. congruence. Qed.

  Lemma names_reads LEN buf k : apdu_ok buf -> names LEN buf k ->
    the_curve buf = ret (fst k) /\ the_payload buf = ret (pay buf) /\ path_read LEN (pay buf) = Some (snd k).
  Proof.
    intros Hb [E P]. unfold the_curve, the_payload, apdu_p2. rewrite E, curve_round.
    destruct (apdu_payload_260 buf Hb) as (pl & -> & Ep & _). change (pl = pay buf) in Ep. subst pl.
    split; [reflexivity|]. split; [reflexivity|]. now apply path_read_complete.
  Qed.
  Lemma requested_key_ok buf k pk d : apdu_ok buf -> names 6 buf k -> o_pubkey O (fst k) (snd k) = Some pk ->
    requested_key O buf d = (Ok (fst k, pk), d).
  Proof.
    intros Hb Hn Hk. destruct (names_reads 6 buf k Hb Hn) as (E1 & E2 & E3).
    unfold requested_key. rewrite E1, E2. unfold bind at 1. unfold ret at 1. unfold bind at 1. unfold ret at 1.
    rewrite E3. unfold bind at 1. cbn [of_option]. unfold ret at 1. unfold pubkey. cbn [fst snd]. rewrite Hk. reflexivity.
  Qed.

  Lemma get_public d buf rx k pk : apdu_ok buf -> command d buf rx 0x02 -> names 6 buf k ->
    o_pubkey O (fst k) (snd k) = Some pk -> len pk <= 255 ->
    step C O d (EApdu buf rx) = (AReply (len pk :: pk ++ [0x90; 0]), d).
  Proof.
    intros Hb Hc Hn Hk Hl. rewrite (step_command C O d buf rx 0x02 Hb Hc). destruct Hc as (_ & _ & E0 & E1).
    rewrite (dispatch_at C O buf _ E0 E1).
    replace (if cf_baking C then _ else _) with (h_get_public O buf) by (destruct (cf_baking C); reflexivity).
    unfold h_get_public. unfold bind at 1. rewrite (requested_key_ok buf k pk d Hb Hn Hk). unfold ret.
    rewrite N.mod_small by lia. rewrite finish_ok; [reflexivity|]. unfold len in *. cbn [length]. lia.
  Qed.


  Lemma addr_command buf ins : nth 0 buf 0 = 0x80 -> nth 1 buf 0 = ins -> In ins [0x03; 0x11] ->
    dispatch C O buf = if ins =? 0x03 then h_prompt C O buf else h_get_address C O buf.
  Proof.
    intros E0 E1 Hi. rewrite (dispatch_at C O buf _ E0 E1). destruct Hi as [<-|[<-|[]]]; destruct (cf_baking C); reflexivity.
  Qed.

  Lemma get_address d buf rx k pk l h : oracles_ok O -> apdu_ok buf -> command d buf rx 0x11 -> nth 2 buf 0 = 0 ->
    names 6 buf k -> o_pubkey O (fst k) (snd k) = Some pk -> hashed_form (fst k) pk l ->
    o_blake2b O 20 l = Some h -> twice O (kind_prefix (addr_kind (fst k)) ++ h) <> None ->
    exists t, key_text O (fst k) pk t /\
      step C O d (EApdu buf rx) = (AReply (len pk :: pk ++ t ++ [0x90; 0]), d).
  Proof.
    intros K Hb Hc Hp Hn Hk F H T. destruct (key_text_new _ _ _ _ K F H T) as (a & t & Ha & Ht & X).
    exists t. split; [exact X|].
    assert (Hl : len pk <= 65).
    { destruct (ok_pubkey _ K _ _ _ Hk) as [L _]. unfold len, pubkey_length in *. destruct (fst k); lia. }
    assert (Lt : (length t <= 37)%nat) by (destruct X as (? & ? & _ & _ & _ & X); exact X).
    rewrite (step_command C O d buf rx _ Hb Hc). destruct Hc as (_ & _ & E0 & E1).
    rewrite (addr_command buf _ E0 E1) by (cbn; auto). change (0x11 =? 0x03) with false. cbn iota.
    unfold h_get_address. unfold bind at 1. rewrite (requested_key_ok buf k pk d Hb Hn Hk). rewrite Ha.
    unfold bind at 1. cbn [of_sres]. unfold ret at 1. unfold needs_review, apdu_p1. rewrite Hp.
    change (1 <=? 0) with false. cbn iota. unfold addr_answer. rewrite Ht. unfold bind. cbn [of_sres]. unfold ret.
    rewrite N.mod_small by lia. rewrite finish_ok.
    - now rewrite <- app_assoc.
    - unfold len in *. rewrite app_length. cbn [length]. lia.
  Qed.

  (** The same after a review. *)
  Lemma prompted d buf rx ins k pk l h : oracles_ok O -> apdu_ok buf -> command d buf rx ins -> wants_review buf ins ->
    names 6 buf k -> o_pubkey O (fst k) (snd k) = Some pk -> hashed_form (fst k) pk l ->
    o_blake2b O 20 l = Some h -> twice O (kind_prefix (addr_kind (fst k)) ++ h) <> None ->
    (forall v, exists room, cf_room C v = Some room /\ 110 <= room) ->
    exists t, key_text O (fst k) pk t /\
      let (a1, d1) := step C O d (EApdu buf rx) in
      a1 = APending /\ step C O d1 EApprove = (AReply (len pk :: pk ++ t ++ [0x90; 0]), d) /\
      step C O d1 EReject = (AReply [0x69; 0x86], d).
  Proof.
    intros K Hb Hc Hp Hn Hk F H T Hr. destruct (key_text_new _ _ _ _ K F H T) as (a & t & Ha & Ht & X).
    exists t. split; [exact X|].
    assert (Hl : len pk <= 65).
    { destruct (ok_pubkey _ K _ _ _ Hk) as [L _]. unfold len, pubkey_length in *. destruct (fst k); lia. }
    assert (Lt : (length t <= 37)%nat) by (destruct X as (? & ? & _ & _ & _ & X); exact X).
    destruct (Hr (VAddr true pk a)) as (room & Er & Lr).
    assert (Es : step C O d (EApdu buf rx) = (APending, set_ui (Some (VAddr true pk a)) d)).
    { rewrite (step_command C O d buf rx _ Hb Hc). destruct Hc as (_ & _ & E0 & E1).
      rewrite (addr_command buf _ E0 E1) by (destruct Hp as [->|[-> _]]; cbn; auto).
      destruct Hp as [->|[-> Hp]].
      - change (0x03 =? 0x03) with true. cbn iota. unfold h_prompt. unfold bind at 1.
        rewrite (requested_key_ok buf k pk d Hb Hn Hk), Ha. unfold bind. cbn [of_sres]. unfold ret, show. rewrite Er. reflexivity.
      - change (0x11 =? 0x03) with false. cbn iota. unfold h_get_address. unfold bind at 1.
        rewrite (requested_key_ok buf k pk d Hb Hn Hk), Ha. unfold bind at 1. cbn [of_sres]. unfold ret at 1.
        unfold needs_review, apdu_p1. replace (1 <=? nth 2 buf 0) with true by lia. unfold show. rewrite Er. reflexivity. }
    rewrite Es. split; [reflexivity|].
    assert (U : d_ui d = None) by apply Hc.
    assert (Ed : set_ui None (set_ui (Some (VAddr true pk a)) d) = d) by (destruct d; cbn in U |- *; congruence).
    split.
    - cbn [step]. unfold decide.
      replace (d_ui (set_ui (Some (VAddr true pk a)) d)) with (Some (VAddr true pk a)) by (destruct d; reflexivity).
      rewrite Er, Ed. cbn [accept]. unfold addr_answer. rewrite Ht. unfold bind. cbn [of_sres]. unfold ret.
      rewrite N.mod_small by lia. cbn [finish].
      replace (room <? len ((len pk :: pk) ++ t) + 2) with false
        by (unfold len in *; rewrite app_length; cbn [length]; lia).
      now rewrite <- app_assoc.
    - cbn [step]. unfold decide.
      replace (d_ui (set_ui (Some (VAddr true pk a)) d)) with (Some (VAddr true pk a)) by (destruct d; reflexivity).
      rewrite Er, Ed. unfold bind. cbn [reject]. unfold fail. cbn [finish].
      replace (room <? len [] + 2) with false by (unfold len; cbn [length]; lia). reflexivity.
  Qed.

  Lemma key_requests buf ins d : nth 0 buf 0 = 0x80 -> nth 1 buf 0 = ins -> In ins [0x02; 0x03; 0x11] ->
    forall e, fst (requested_key O buf d) = Err e -> snd (requested_key O buf d) = d ->
    dispatch C O buf d = (Err e, d).
  Proof.
    intros E0 E1 Hi e X Y. rewrite (dispatch_at C O buf _ E0 E1).
    destruct (requested_key O buf d) as [r d'] eqn:R. cbn [fst snd] in X, Y. subst r d'.
    cbn [In] in Hi. destruct Hi as [<-|[<-|[<-|[]]]].
    - replace (if cf_baking C then _ else _) with (h_get_public O buf) by (destruct (cf_baking C); reflexivity).
      unfold h_get_public, bind. now rewrite R.
    - replace (if cf_baking C then _ else _) with (h_prompt C O buf) by (destruct (cf_baking C); reflexivity).
      unfold h_prompt. unfold bind at 1. now rewrite R.
    - replace (if cf_baking C then _ else _) with (h_get_address C O buf) by (destruct (cf_baking C); reflexivity).
      unfold h_get_address. unfold bind at 1. now rewrite R.
  Qed.
  Lemma bad_curve d buf rx ins : apdu_ok buf -> command d buf rx ins -> In ins [0x02; 0x03; 0x11] ->
    3 < nth 3 buf 0 -> step C O d (EApdu buf rx) = (AReply [0x6B; 0], d).
  Proof.
    intros Hb Hc Hi H. rewrite (step_command C O d buf rx _ Hb Hc). destruct Hc as (_ & _ & E0 & E1).
    assert (R : requested_key O buf d = (Err InvalidP1P2, d)).
    { unfold requested_key, the_curve, apdu_p2, curve_of_byte.
      repeat match goal with |- context [nth 3 buf 0 =? ?k] => replace (nth 3 buf 0 =? k) with false by lia end.
      reflexivity. }
    rewrite (key_requests buf ins d E0 E1 Hi InvalidP1P2); rewrite ?R; reflexivity.
  Qed.
  Lemma bad_path d buf rx ins : apdu_ok buf -> command d buf rx ins -> In ins [0x02; 0x03; 0x11] ->
    nth 3 buf 0 <= 3 -> (forall pa, ~ path_encodes 6 (pay buf) pa) ->
    step C O d (EApdu buf rx) = (AReply [0x69; 0x84], d).
  Proof.
    intros Hb Hc Hi H Hp. rewrite (step_command C O d buf rx _ Hb Hc). destruct Hc as (_ & _ & E0 & E1).
    assert (R : requested_key O buf d = (Err DataInvalid, d)).
    { assert (exists c, the_curve buf = ret c) as [c Ec].
      { unfold the_curve, apdu_p2, curve_of_byte.
        destruct (N.eqb_spec (nth 3 buf 0) 0); [eexists; reflexivity|].
        destruct (N.eqb_spec (nth 3 buf 0) 1); [eexists; reflexivity|].
        destruct (N.eqb_spec (nth 3 buf 0) 2); [eexists; reflexivity|].
        destruct (N.eqb_spec (nth 3 buf 0) 3); [eexists; reflexivity|]. lia. }
      unfold requested_key. rewrite Ec. unfold bind at 1. unfold ret at 1. unfold the_payload.
      destruct (apdu_payload_260 buf Hb) as (pl & -> & Ep & _). change (pl = pay buf) in Ep. subst pl.
      unfold bind at 1. cbn [of_option]. unfold ret at 1.
      destruct (path_read 6 (pay buf)) as [pa|] eqn:P; [|reflexivity].
      elim (Hp pa). now apply path_read_sound. }
    rewrite (key_requests buf ins d E0 E1 Hi DataInvalid); rewrite ?R; reflexivity.
  Qed.

  (** An approved authorisation answers the public key. *)
  Lemma authorised_answer d k a room pk out : d_ui d = Some (VAuthorize k a) -> cf_room C (VAuthorize k a) = Some room ->
    o_pubkey O (fst k) (snd k) = Some pk -> len pk <= 255 ->
    fst (step C O d EApprove) = AReply out -> succeeds (AReply out) -> out = len pk :: pk ++ [0x90; 0].
  Proof.
    intros U R Hk Hl A S. cbn [step] in A. unfold decide in A. rewrite U, R in A. unfold bind in A.
    pose proof (accept_key O (VAuthorize k a) room (set_ui None d)) as Ke.
    replace (key_decision _ _) with (Some (Some k)) in Ke by (destruct d; reflexivity). destruct Ke as [_ Ke].
    cbn [accept] in A, Ke. unfold pubkey in A, Ke. rewrite Hk in A, Ke. unfold bind in A, Ke. cbn [of_option] in A, Ke.
    unfold ret in A at 1. unfold ret in Ke at 1.
    destruct (store_baking_key k (set_ui None d)) as [[x|x| |] d1]; cbn [finish] in A; try discriminate.
    - unfold ret in A. cbn [finish] in A. destruct (_ <? _); [discriminate|].
      rewrite N.mod_small in A by lia. cbn [fst] in A.
      assert (out = (len pk :: pk) ++ be 2 (sw Success)) as -> by congruence. reflexivity.
    - destruct (_ <? _); [discriminate|]. cbn [fst] in A.
      assert (Eo : out = be 2 (sw x)) by (assert (Y : AReply (be 2 (sw x)) = AReply out) by exact A; congruence).
      exfalso. destruct (status_err x) as [->|N].
      + destruct (Ke Success eq_refl); discriminate.
      + apply N. rewrite <- Eo. exact S.
  Qed.

  (** ** The stored key, as answered *)

  Lemma query_answer_ok wc k room : key_ok k -> 44 <= room -> query_answer wc k room = Some (key_bytes wc k).
  Proof.
    intros (_ & L & _) R. unfold query_answer, key_bytes, BIP32_MAX_LENGTH in *.
    set (head := (if wc then [byte_of_curve (fst k)] else []) ++ [len (snd k) mod 256]).
    assert (H : 1 <= len head <= 2) by (unfold head, len; destruct wc; cbn; lia).
    replace (room <? len head) with false by lia.
    rewrite firstn_all2 by (unfold len in *; lia). unfold head.
    rewrite N.mod_small by (unfold len; lia). now rewrite <- app_assoc.
  Qed.
  Lemma key_bytes_length wc k : len (key_bytes wc k) <= 2 + 4 * len (snd k).
  Proof.
    unfold key_bytes, len. rewrite app_length. cbn [length].
    assert (X : length (concat (map (be 4) (snd k))) = (4 * length (snd k))%nat).
    { clear. induction (snd k) as [|c l IH]; [reflexivity|]. cbn [map concat length]. rewrite app_length, be_length, IH. lia. }
    rewrite X. destruct wc; cbn [length]; lia.
  Qed.

  (** QUERY answers the stored key. *)
  Lemma query_answers d buf rx ins k pk a : cf_baking C = true -> apdu_ok buf -> command d buf rx ins ->
    In ins [0x07; 0xA7; 0x0D; 0xAD] -> nth 2 buf 0 = 0 -> stored_key d k -> key_ok k ->
    o_pubkey O (fst k) (snd k) = Some pk -> addr_new O (fst k) pk = SOk a ->
    fst (step C O d (EApdu buf rx)) =
      AReply (key_bytes (existsb (N.eqb ins) [0x0D; 0xAD]) k ++ [0x90; 0]) /\
    untouched d (snd (step C O d (EApdu buf rx))).
  Proof.
    intros Cb Hb Cm Hi Hp (p & Rd & Kp) Hk Hpk Ha. rewrite (step_command C O d buf rx ins Hb Cm).
    destruct Cm as (_ & _ & E0 & E1).
    assert (Q : dispatch C O buf = h_query C O (existsb (N.eqb ins) [0x0D; 0xAD]) buf).
    { rewrite (dispatch_at C O buf ins E0 E1), Cb. cbn [In] in Hi.
      destruct Hi as [<-|[<-|[<-|[<-|[]]]]]; reflexivity. }
    rewrite Q. set (wc := existsb _ _). clearbody wc. clear Q.
    assert (R : exists d', h_query C O wc buf d = (Ok (Now (key_bytes wc k)), d') /\ frame eff_none d d').
    { unfold h_query, read_baking_key. unfold bind at 1. unfold bind at 1.
      pose proof (keeps_read_or eff_none SKey ConditionsNotSatisfied d) as F.
      unfold wear_read in Rd.
      unfold read_or, read_slot, bind in *. cbn [get_slot] in *.
      destruct (wear_init (d_key d)) as [i|]; [|discriminate]. injection Rd as Rd. rewrite Rd in *.
      cbn [snd ret] in F. unfold ret at 1. rewrite Kp. cbn [of_ares]. unfold ret at 1. cbn [of_option]. unfold ret at 1.
      unfold address, pubkey, bind. rewrite Hpk. cbn [of_option]. unfold ret at 1. rewrite Ha. cbn [of_sres]. unfold ret at 1.
      unfold needs_review, apdu_p1. rewrite Hp. change (1 <=? 0) with false. cbn iota.
      assert (El : len buf = 260) by (destruct Hb as [Hb _]; unfold len; lia). rewrite El, query_answer_ok by (auto; lia).
      eexists; split; [reflexivity|exact F]. }
    destruct R as (d' & -> & F). rewrite finish_ok.
    - split; [reflexivity|]. now apply untouched_frame.
    - pose proof (key_bytes_length wc k). destruct Hk as (_ & L & _). unfold BIP32_MAX_LENGTH, len in *. lia.
  Qed.
  Lemma query_approved d wc k a room : d_ui d = Some (VQuery wc k a) -> cf_room C (VQuery wc k a) = Some room ->
    44 <= room -> key_ok k ->
    step C O d EApprove = (AReply (key_bytes wc k ++ [0x90; 0]), set_ui None d).
  Proof.
    intros U R L Hk. cbn [step]. unfold decide. rewrite U, R. cbn [accept]. rewrite query_answer_ok by auto.
    unfold bind, ret. cbn [finish].
    replace (room <? len (key_bytes wc k) + 2) with false; [reflexivity|].
    pose proof (key_bytes_length wc k). destruct Hk as (_ & Lk & _). unfold BIP32_MAX_LENGTH, len in *. lia.
  Qed.

  (** ** C26 *)

  Lemma wallet_refuses d buf rx ins : cf_baking C = false -> apdu_ok buf -> command d buf rx ins ->
    In ins baking_only -> step C O d (EApdu buf rx) = (AReply [0x69; 0x86], d).
  Proof.
    intros Cb Hb Hc Hi. apply (unassigned d buf rx ins Hb Hc). unfold assigned. rewrite Cb.
    unfold baking_only in Hi. cbn [In] in *. clear Hc. lia.
  Qed.
  Lemma baking_refuses d buf rx : cf_baking C = true -> apdu_ok buf -> command d buf rx 0x05 ->
    step C O d (EApdu buf rx) = (AReply [0x69; 0x86], d).
  Proof.
    intros Cb Hb Hc. apply (unassigned d buf rx _ Hb Hc). unfold assigned. rewrite Cb. cbn [In]. lia.
  Qed.

  Definition wallet_view (v : viewable) : Prop :=
    match v with VSign _ _ _ _ | VAddr _ _ _ => True | _ => False end.
  Lemma wallet_pending f u es v : cf_baking C = false -> Forall event_ok es ->
    d_ui (snd (run C O (dev_fresh f u) es)) = Some v -> wallet_view v.
  Proof.
    intros Cb E U. destruct (pending_origin C O es (dev_fresh f u) v E eq_refl U) as (es1 & e & es2 & _ & _ & _ & R).
    destruct R as (buf & rx & ins & _ & _ & R).
    destruct v; try exact Logic.I; try (destruct R as [R _]; congruence).
    destruct R as (up & [R _] & _). congruence.
  Qed.

  Lemma pages_weq d d' s : weq (get_slot s d) (get_slot s d') -> w_pages (get_slot s d') = w_pages (get_slot s d).
  Proof. intros [P _]. auto. Qed.
  Lemma finish_slot_pages room x s : w_pages (get_slot s (snd (finish room x))) = w_pages (get_slot s (snd x)).
  Proof.
    assert (R : forall d, w_pages (get_slot s (restart d)) = w_pages (get_slot s d))
      by (intros d; rewrite get_slot_restart; reflexivity).
    destruct x as [[[data|]|e| |] d]; cbn [finish]; try destruct (_ <? _); cbn [snd]; auto.
  Qed.
  Lemma wallet_dispatch buf d s : cf_baking C = false ->
    w_pages (get_slot s (snd (dispatch C O buf d))) = w_pages (get_slot s d).
  Proof.
    intros Cb. apply pages_weq.
    destruct (dispatch_kinds C O buf) as [(X & _)|[(X & _)|[(_ & sh & R)|[K _]]]]; try congruence.
    - rewrite R. exact (frame_weq (eff_with_up eff_sign) _ _ (fun s x => x) (keeps_h_sign C O sh buf d) s).
    - exact (frame_weq (eff_other C buf) _ _ (fun s x => x) (K d) s).
  Qed.
  Lemma wallet_step d e s : cf_baking C = false -> (forall v, d_ui d = Some v -> wallet_view v) ->
    w_pages (get_slot s (snd (step C O d e))) = w_pages (get_slot s d).
  Proof.
    intros Cb V.
    assert (Su : get_slot s (set_ui None d) = get_slot s d) by (destruct s, d; reflexivity).
    assert (D : forall (g : viewable -> N -> M bytes), (forall v room, wallet_view v ->
               w_pages (get_slot s (snd (g v room (set_ui None d)))) = w_pages (get_slot s (set_ui None d))) ->
               w_pages (get_slot s (snd (decide C g d))) = w_pages (get_slot s d)).
    { intros g Hg. unfold decide. destruct (d_ui d) as [v|] eqn:U; [|reflexivity].
      rewrite finish_slot_pages. set (room := match cf_room C v with Some r => r | None => 0 end).
      specialize (Hg v room (V v eq_refl)). rewrite <- Su, <- Hg. unfold bind.
      destruct (g v room (set_ui None d)) as [[]]; reflexivity. }
    destruct e as [buf rx| | | |]; cbn [step].
    - destruct (d_ui d); [reflexivity|]. rewrite finish_slot_pages.
      destruct (apdu_read_ok buf rx); [now apply wallet_dispatch|reflexivity].
    - apply D. intros v room W. apply pages_weq. apply (fr_slot _ _ _ (keeps_accept O v room (set_ui None d))).
      destruct v; try contradiction; intros X; exact X.
    - apply D. intros v room W. apply pages_weq. apply (fr_slot _ _ _ (keeps_reject v (set_ui None d))).
      destruct v; try contradiction; intros X; exact X.
    - apply D. reflexivity.
    - cbn [snd]. now rewrite get_slot_restart.
  Qed.
  Lemma wallet_pages f u es s : cf_baking C = false -> Forall event_ok es ->
    w_pages (get_slot s (snd (run C O (dev_fresh f u) es))) = w_pages (get_slot s (dev_fresh f u)).
  Proof.
    intros Cb. induction es as [|e es IH] using rev_ind; intros E; [reflexivity|].
    apply Forall_app in E as [E _]. rewrite run_app, run_one, wallet_step; auto.
    intros v. now apply wallet_pending.
  Qed.
  Lemma wallet_signs f u es g : cf_baking C = false -> Forall event_ok es ->
    In g (d_log (snd (run C O (dev_fresh f u) es))) ->
    exists es1 es2 sh parsed, es = es1 ++ EApprove :: es2 /\ sg_src g = SrcReview /\
      let d := snd (run C O (dev_fresh f u) es1) in
      d_ui d = Some (VSign sh (sg_digest g) parsed (sg_data g)) /\ d_path d = Some (sg_key g) /\
      d_log (snd (step C O d EApprove)) = g :: d_log d.
  Proof.
    intros Cb E Hg.
    destruct (history_signs C O es (dev_fresh f u) (rev (d_log (snd (run C O (dev_fresh f u) es)))) E
      (reach_ui C O f u [] (Forall_nil _))) with (g := g) as (es1 & e & es2 & Ee & Ca & _ & _ & Lg).
    - unfold signed_between. rewrite rev_involutive. cbn. now rewrite app_nil_r.
    - now rewrite <- in_rev.
    - cbn zeta in *. subst es. apply Forall_app in E as [E1 _]. unfold sig_cause in Ca. destruct (sg_src g) eqn:Es.
      + destruct Ca as [Ca _]. congruence.
      + destruct Ca as (_ & _ & sh & br & o & U). elim (wallet_pending f u es1 _ Cb E1 U).
      + destruct Ca as (-> & P & sh & p & U). exists es1, es2, sh, p. auto 6.
      + destruct Ca as [Ca _]. congruence.
  Qed.
End Commands.
