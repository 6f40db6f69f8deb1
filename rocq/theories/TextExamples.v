(** Final forms of the properties of texts on the screen, and examples. *)
From Coq Require Import NArith ZArith Lia Bool Arith Ascii String List.
From Coq Require Import ZifyBool ZifyNat ZifyN.
From Verif Require Import Base BaseFacts Text TextSpec TextFacts Address AddressSpec
  Bakers BakersSpec BakersFacts KnownBakers.
Import ListNotations.
Open Scope N_scope.

(** ** Paging *)

Lemma firstn_In {A} n (l : list A) x : In x (firstn n l) -> In x l.
Proof. intros H. rewrite <- (firstn_skipn n l). apply in_app_iff. auto. Qed.
Lemma skipn_In {A} n (l : list A) x : In x (skipn n l) -> In x l.
Proof. intros H. rewrite <- (firstn_skipn n l). apply in_app_iff. auto. Qed.
Lemma bytes_okb_ok l : forallb (fun b => b <? 256) l = true -> bytes_ok l.
Proof.
  intros H. rewrite forallb_forall in H. apply Forall_forall. intros x X. now apply N.ltb_lt, H.
Qed.
Lemma baker_In b t : existsb (baker_eqb b) t = true -> In b t.
Proof.
  intros H. apply existsb_exists in H as (c & I1 & E). apply baker_eqb_eq in E. now subst.
Qed.

(** A literal's final NUL or nothing follows the characters of a text. *)
Definition text_of (t item : bytes) : Prop :=
  Forall (fun c => c <> 0) t /\ (item = t \/ item = t ++ [0]).

Lemma page_app m p a b : len a <= p * m -> page m p (a ++ b) = firstn (N.to_nat m) (skipn (N.to_nat (p * m) - length a) b).
Proof.
  intros H. unfold page. rewrite skipn_app. unfold len in H.
  rewrite skipn_all2 by lia. reflexivity.
Qed.

Lemma cstr_page t item m p : text_of t item -> cstr (page m p item ++ [0]) = page m p t.
Proof.
  intros [H [->| ->]].
  - unfold page. rewrite cstr_app; [cbn; now rewrite app_nil_r|].
    apply Forall_forall. intros x X. apply firstn_In, skipn_In in X. rewrite Forall_forall in H. auto.
  - unfold page. rewrite skipn_app, firstn_app.
    set (k := (N.to_nat (p * m) - length t)%nat).
    assert (HF : Forall (fun c => c <> 0) (firstn (N.to_nat m) (skipn (N.to_nat (p * m)) t))).
    { apply Forall_forall. intros x X. apply firstn_In, skipn_In in X. rewrite Forall_forall in H. auto. }
    rewrite <- app_assoc, cstr_app by auto.
    assert (Z : forall j l, (l = [] \/ l = [0]) -> cstr (firstn j l ++ [0]) = []).
    { intros j l [->| ->]; destruct j as [|[|j]]; reflexivity. }
    rewrite Z; [now rewrite app_nil_r|]. destruct k as [|[|k]]; cbn; auto.
Qed.

Lemma cstr_overwrite_any c out : In 0 c -> cstr (overwrite c out) = cstr c.
Proof.
  intros H. unfold overwrite. revert H. generalize (skipn (length c) out). intros l.
  induction c as [|x c IH]; [contradiction|]. intros [->|H]; [reflexivity|].
  cbn [app cstr]. destruct (x =? 0); auto. now rewrite IH.
Qed.

Lemma pages_text t item m : m <> 0 -> text_of t item -> pages m t <= pages m item.
Proof.
  intros Hm [_ [->| ->]]; [lia|]. unfold pages. rewrite len_app. change (len [0]) with 1.
  assert ((len t + m - 1) / m <= (len t + 1 + m - 1) / m) by (apply N.div_le_mono; lia). lia.
Qed.

Lemma ui_message_shows t item out p : text_of t item -> (2 <= length out)%nat ->
  let m := len out - 1 in p < pages m item ->
  exists b k, ui_message item out p = VOk (b, k) /\ length b = length out /\ In 0 b
           /\ cstr b = page m p t.
Proof.
  intros T L m Hp. assert (Hm : m <> 0) by (unfold m, len; lia).
  rewrite (ui_message_page item out p L). fold m.
  destruct (N.ltb_spec (len item) m) as [Hs|Hs].
  - assert (p = 0).
    { unfold pages in Hp. destruct (N.eq_dec (len item) 0) as [E|E].
      - rewrite E in Hp. rewrite N.div_small in Hp by lia. lia.
      - replace ((len item + m - 1) / m) with 1 in Hp; [lia|].
        apply N.div_unique with (len item - 1); lia. }
    subst p. eexists _, 1. split; [reflexivity|].
    pose proof (page_length m 0 item Hm) as PL. split; [|split].
    + apply overwrite_length. rewrite app_length. cbn [length]. unfold len in *. lia.
    + unfold overwrite. rewrite !in_app_iff. left. right. now left.
    + rewrite cstr_overwrite_any by (apply in_app_iff; right; now left). now apply cstr_page.
  - destruct (pages_needed m item p Hm Hp) as [->|Hn].
    + replace (0 * m <? len item) with true by lia.
      eexists _, _. split; [reflexivity|]. pose proof (page_length m 0 item Hm) as PL. split; [|split].
      * apply overwrite_length. rewrite app_length. cbn [length]. unfold len in *. lia.
      * unfold overwrite. rewrite !in_app_iff. left. right. now left.
      * rewrite cstr_overwrite_any by (apply in_app_iff; right; now left). now apply cstr_page.
    + replace (p * m <? len item) with true by lia.
      eexists _, _. split; [reflexivity|]. pose proof (page_length m p item Hm) as PL. split; [|split].
      * apply overwrite_length. rewrite app_length. cbn [length]. unfold len in *. lia.
      * unfold overwrite. rewrite !in_app_iff. left. right. now left.
      * rewrite cstr_overwrite_any by (apply in_app_iff; right; now left). now apply cstr_page.
Qed.

Lemma pages_concat_more m item k : m <> 0 -> pages m item <= k ->
  concat (map (fun p => page m (N.of_nat p) item) (seq 0 (N.to_nat k))) = item.
Proof.
  intros Hm Hk. rewrite pages_concat_nat by auto. apply firstn_all2.
  pose proof (pages_enough m item Hm). unfold len in *. nia.
Qed.

(** The buffers of the pages, in order, show the text. *)
Lemma pages_show t item out : text_of t item -> (2 <= length out)%nat ->
  let m := len out - 1 in
  exists buffers,
    Forall2 (fun p b => exists k, ui_message item out (N.of_nat p) = VOk (b, k)
                               /\ length b = length out /\ In 0 b)
      (seq 0 (N.to_nat (pages m item))) buffers
    /\ concat (map cstr buffers) = t.
Proof.
  intros T L m. assert (Hm : m <> 0) by (unfold m, len; lia).
  assert (H : forall n, N.of_nat n <= pages m item -> exists buffers,
    Forall2 (fun p b => exists k, ui_message item out (N.of_nat p) = VOk (b, k)
                               /\ length b = length out /\ In 0 b) (seq 0 n) buffers
    /\ map cstr buffers = map (fun p => page m (N.of_nat p) t) (seq 0 n)).
  { induction n as [|n IH]; intros Hn.
    - exists []. split; [constructor|reflexivity].
    - destruct IH as (bs & F & E); [lia|].
      destruct (ui_message_shows t item out (N.of_nat n) T L) as (b & k & H1 & H2 & H3 & H4).
      { fold m. lia. }
      exists (bs ++ [b]). rewrite seq_S, !map_app, E. split.
      + apply Forall2_app; auto. constructor; [|constructor]. eauto.
      + cbn [map plus]. now rewrite H4. }
  destruct (H (N.to_nat (pages m item))) as (bs & F & E); [lia|].
  exists bs. split; auto. rewrite E. apply pages_concat_more; auto. now apply pages_text.
Qed.

Lemma page_past item out p : (2 <= length out)%nat -> let m := len out - 1 in
  pages m item <= p ->
  ui_message item out p = if len item <? m then ui_message item out 0 else VErr Unknown.
Proof.
  intros L m Hp. assert (Hm : m <> 0) by (unfold m, len; lia).
  rewrite !ui_message_page by auto. fold m. destruct (N.ltb_spec (len item) m); auto.
  pose proof (pages_enough m item Hm). replace (p * m <? len item) with false; auto.
  symmetry. apply N.ltb_ge. nia.
Qed.

Lemma announced item out p b k : (2 <= length out)%nat -> let m := len out - 1 in
  ui_message item out p = VOk (b, k) ->
  len item < 255 * m -> (len item = 0 \/ len item mod m <> 0) -> k = pages m item.
Proof.
  intros L m H Hs Hd. assert (Hm : m <> 0) by (unfold m, len; lia).
  rewrite ui_message_page in H by auto. fold m in H. unfold pages.
  destruct (N.ltb_spec (len item) m) as [Hl|Hl].
  - injection H as _ <-. destruct (N.eq_dec (len item) 0) as [E|E].
    + rewrite E, N.div_small by lia. reflexivity.
    + replace ((len item + m - 1) / m) with 1; [lia|]. apply N.div_unique with (len item - 1); lia.
  - destruct (p * m <? len item); [|discriminate].
    assert (K : k = (1 + len item / m) mod 256) by congruence. rewrite K. clear H K.
    assert (Hq : len item / m < 255) by (apply N.div_lt_upper_bound; lia).
    rewrite N.mod_small by lia.
    assert (Hr : len item mod m <> 0). { destruct Hd; auto. lia. }
    pose proof (N.div_mod' (len item) m) as E. pose proof (N.mod_lt (len item) m Hm).
    replace ((len item + m - 1) / m) with (1 + len item / m); [lia|].
    apply N.div_unique with (len item mod m - 1); lia.
Qed.

Lemma multiple_overcounted item out j : (2 <= length out)%nat -> let m := len out - 1 in
  len item = j * m -> 0 < j < 255 ->
  (exists b, ui_message item out 0 = VOk (b, pages m item + 1))
  /\ ui_message item out (pages m item) = VErr Unknown.
Proof.
  intros L m E Hj. assert (Hm : m <> 0) by (unfold m, len; lia).
  assert (P : pages m item = j).
  { unfold pages. rewrite E. replace ((j * m + m - 1) / m) with j; [lia|].
    apply N.div_unique with (m - 1); lia. }
  rewrite P, !ui_message_page by auto. fold m. rewrite E.
  replace (j * m <? m) with false by nia. replace (0 * m <? j * m) with true by nia.
  replace (j * m <? j * m) with false by lia. rewrite N.div_mul by auto. split; auto.
  rewrite N.mod_small by lia. eexists. do 2 f_equal. lia.
Qed.

(** A Nano S message buffer. *)
Definition nanos_buffer : bytes := zeros 35.
Definition an_address : bytes := str "tz1eY5Aqa1kXDFoiebL28emyXFoneAoVg1zh".

Lemma address_pages : text_of an_address an_address /\ pages 34 an_address = 2 /\
  ui_message an_address nanos_buffer 0 = VOk (str "tz1eY5Aqa1kXDFoiebL28emyXFoneAoVg1" ++ [0], 2) /\
  ui_message an_address nanos_buffer 1 = VOk (str "zh" ++ zeros 33, 2) /\
  ui_message an_address nanos_buffer 2 = VErr Unknown.
Proof.
  split; [split; [|now left]; vm_compute; repeat constructor; discriminate|].
  repeat split; vm_compute; reflexivity.
Qed.

Lemma thirty_four : let item := repeat 48 34 in
  pages 34 item = 1 /\ ui_message item nanos_buffer 0 = VOk (item ++ [0], 2) /\
  ui_message item nanos_buffer 1 = VErr Unknown.
Proof. repeat split; vm_compute; reflexivity. Qed.

Lemma announced_zero : let item := repeat 48 (N.to_nat 8671) in
  pages 34 item = 256 /\ exists b, ui_message item nanos_buffer 0 = VOk (b, 0).
Proof. split; [vm_compute; reflexivity|]. eexists. vm_compute. reflexivity. Qed.

(** ** Amounts *)

(** A number written at the start of a buffer of zeros, as the screens do. *)
Lemma amount_shown v d size : (length (itoa v) < size)%nat ->
  (d = 0 \/ Nat.max (length (itoa v)) (d + 1) + 1 <= size)%nat ->
  exists t, fpstr (itoa v ++ zeros (size - length (itoa v))) d = FOk t /\ shows_decimal d v t.
Proof.
  intros L K. destruct (itoa_spec v) as (D & P & V).
  replace (zeros (size - length (itoa v))) with (0 :: zeros (size - length (itoa v) - 1)).
  2:{ replace (size - length (itoa v))%nat with (S (size - length (itoa v) - 1)) at 2 by lia. reflexivity. }
  pose proof (fpstr_ok (itoa v) (zeros (size - Datatypes.length (itoa v) - 1)) d D) as F.
  cbv zeta in F. rewrite V in F. apply F.
  - eapply shows_number_proper. apply itoa_spec.
  - destruct K as [->|K]; [now left|right].
    rewrite app_length. cbn [length]. rewrite zeros_length.
    destruct (strip_spec (itoa v)) as (_ & SL & _). lia.
Qed.

Lemma amount_faithful v v' d d' t : shows_decimal d v t -> d = d' -> (shows_decimal d' v' t <-> v = v').
Proof.
  intros H <-. split; [now apply shows_decimal_value|]. now intros <-.
Qed.

Lemma amount_text v v' d t t' : shows_decimal d v t -> shows_decimal d v' t' -> (t = t' <-> v = v').
Proof.
  intros H H'. split.
  - intros <-. eapply shows_decimal_value; eauto.
  - intros <-. eapply shows_decimal_inj; eauto.
Qed.

Lemma amount_examples :
  fpstr (str "1500000" ++ zeros 3) 6 = FOk (str "1.500000") /\
  fpstr (str "7" ++ zeros 8) 6 = FOk (str "0.000007") /\
  fpstr (str "0" ++ zeros 8) 6 = FOk (str "0.000000") /\
  fpstr (str "0042" ++ zeros 8) 1 = FOk (str "4.2").
Proof. repeat split; vm_compute; reflexivity. Qed.

Lemma refusal_examples :
  fpstr (str "1500000" ++ zeros 1) 6 = FOk (str "1.500000") /\
  fpstr (str "150" ++ zeros 4) 6 = FPanic /\
  fpstr (str "1500000") 6 = FErr /\
  fpstr (str "00x5" ++ zeros 20) 6 = FErr.
Proof. repeat split; vm_compute; reflexivity. Qed.

Lemma zeros_wrong :
  fpstr (str "00" ++ zeros 20) 6 = FOk (str ".000000") /\
  fpstr (str "000" ++ zeros 20) 6 = FPanic /\
  fpstr (str "0000000" ++ zeros 20) 6 = FOk (str "0.").
Proof. repeat split; vm_compute; reflexivity. Qed.

Lemma no_point_not_shown v : ~ shows_decimal 6 v (str ".000000") /\ ~ shows_decimal 6 v (str "0.").
Proof.
  split; intros (ip & fp & E & D & F & L & P & _).
  - destruct ip as [|c ip].
    + destruct P as [P|[P _]]; [discriminate|contradiction].
    + vm_compute in E. injection E as <- _. inversion D as [|? ? H]. unfold is_digit in H. lia.
  - apply (f_equal (@length N)) in E. rewrite app_length in E. cbn [length] in E.
    rewrite L in E. change (length (str "0.")) with 2%nat in E. lia.
Qed.

(** ** Bakers *)

Definition or_nil {A} (o : option (list A)) : list A := match o with Some t => t | None => [] end.
Definition is_some {A} (o : option A) : bool := match o with Some _ => true | None => false end.
Lemma or_nil_some {A} (o : option (list A)) : is_some o = true -> o = Some (or_nil o).
Proof. now destruct o. Qed.

(** The table as built, and the hash part of an address. *)
Definition known : list baker := Eval vm_compute in or_nil (build_table registry).
Definition hash_of (text : bytes) : bytes := slice 3 20 (or_nil (b58_decode text)).

Lemma known_built : build_table registry = Some known.
Proof. vm_compute. reflexivity. Qed.

Lemma registry_addresses : addresses registry.
Proof. apply addresses_checked. vm_compute. reflexivity. Qed.

(** The one address registered twice. *)
Definition twice_hash : bytes := hash_of (str "tz1NEKxGEHsFufk87CVZcrqWu8o22qh46GK6").

Definition names_ok (h : bytes) (t : list baker) : bool :=
  forallb (fun b =>
   match baker_lookup t (bk_prefix b) (bk_hash b) with
   | Some n => bytes_eqb n (bk_name b) || bytes_eqb (bk_hash b) h
   | None => false
   end) t.
Lemma names_ok_lookup reg t h0 p h n : names_ok h0 t = true -> addresses reg -> build_table reg = Some t ->
  bytes_ok (p ++ h) -> List.length p = 3%nat -> List.length h = 20%nat -> h <> h0 ->
  baker_lookup t p h = Some n <-> registered reg p h n.
Proof.
  intros A AD BT B Lp Lh NT. rewrite (build_registered reg t p h n AD BT B Lp Lh). split.
  - intros E. pose proof (lookup_spec t p h (build_sorted _ _ BT)) as H. rewrite E in H.
    destruct H as ([p' h' n'] & I1 & K & En). cbn in K, En. injection K as -> ->. now subst.
  - intros H. unfold names_ok in A. rewrite forallb_forall in A. specialize (A _ H).
    cbn [bk_prefix bk_hash bk_name] in A. destruct (baker_lookup t p h) as [n'|]; [|discriminate].
    apply orb_true_iff in A as [A|A]; apply bytes_eqb_eq in A; [congruence|contradiction].
Qed.

Lemma known_names : names_ok twice_hash known = true.
Proof. vm_compute. reflexivity. Qed.

Lemma known_lookup p h n : bytes_ok (p ++ h) -> List.length p = 3%nat -> List.length h = 20%nat ->
  h <> twice_hash -> baker_lookup known p h = Some n <-> registered registry p h n.
Proof. exact (names_ok_lookup registry known twice_hash p h n known_names registry_addresses known_built). Qed.

Lemma table_lookup reg t p h : addresses reg -> build_table reg = Some t ->
  bytes_ok (p ++ h) -> List.length p = 3%nat -> List.length h = 20%nat ->
  match baker_lookup t p h with
  | Some n => registered reg p h n
  | None => forall n, ~ registered reg p h n
  end.
Proof.
  intros A E B Lp Lh. destruct (lookup_registered reg p h A B Lp Lh) as (t' & E' & H).
  rewrite E in E'. injection E' as <-. exact H.
Qed.

Lemma known_lookup_any p h : bytes_ok (p ++ h) -> List.length p = 3%nat -> List.length h = 20%nat ->
  match baker_lookup known p h with
  | Some n => registered registry p h n
  | None => forall n, ~ registered registry p h n
  end.
Proof. exact (table_lookup registry known p h registry_addresses known_built). Qed.

Definition everstake_hash : bytes := hash_of (str "tz1aRoaRhSpRYvFdyvgWLL6TGyRoGF51wDjM").

Lemma everstake_found : baker_lookup known [6; 161; 159] everstake_hash = Some (str "Everstake") /\
  baker_lookup known [6; 161; 161] everstake_hash = None /\ length known = 125%nat /\
  length everstake_hash = 20%nat /\ bytes_ok ([6; 161; 159] ++ everstake_hash) /\ everstake_hash <> twice_hash.
Proof.
  split; [vm_compute; reflexivity|]. split; [vm_compute; reflexivity|].
  split; [vm_compute; reflexivity|]. split; [vm_compute; reflexivity|].
  split; [apply bytes_okb_ok; vm_compute; reflexivity|]. vm_compute. discriminate.
Qed.

Lemma twice_length : List.length twice_hash = 20%nat.
Proof. vm_compute. reflexivity. Qed.

Lemma twice_registered :
  registered registry [6; 161; 159] twice_hash (str "Money every 3 days") /\
  registered registry [6; 161; 159] twice_hash (str "Money Every 3 Days").
Proof.
  assert (B : bytes_ok ([6; 161; 159] ++ twice_hash)) by (apply bytes_okb_ok; vm_compute; reflexivity).
  split; apply (build_registered registry known _ _ _ registry_addresses known_built B eq_refl twice_length).
  - apply baker_In. vm_compute. reflexivity.
  - apply baker_In. vm_compute. reflexivity.
Qed.

Lemma two_names : ~ consistent registry /\
  registered registry [6; 161; 159] twice_hash (str "Money every 3 days") /\
  registered registry [6; 161; 159] twice_hash (str "Money Every 3 Days").
Proof.
  split; [|exact twice_registered]. intros C. destruct twice_registered as [A B].
  assert (X : bytes_ok ([6; 161; 159] ++ twice_hash)) by (apply bytes_okb_ok; vm_compute; reflexivity).
  specialize (C _ _ _ _ X eq_refl twice_length A B). vm_compute in C. discriminate C.
Qed.

(** The two first entries form a consistent registry. *)
Definition two_bakers : list (bytes * bytes) :=
  [(str "tz1eY5Aqa1kXDFoiebL28emyXFoneAoVg1zh", str "Obsidian");
   (str "tz1TDSmoZXwVevLTEvKCTHWpomG76oC9S2fJ", str "Tezos Capital Legacy")].
Lemma two_ok : is_some (build_table two_bakers) = true.
Proof. vm_compute. reflexivity. Qed.
Lemma two_addresses : addresses two_bakers.
Proof. apply addresses_checked. vm_compute. reflexivity. Qed.
Lemma two_bakers_ok : names_ok [] (or_nil (build_table two_bakers)) = true.
Proof. vm_compute. reflexivity. Qed.
Lemma names_ok_consistent reg t : names_ok [] t = true -> addresses reg -> build_table reg = Some t ->
  consistent reg.
Proof.
  intros A AD BT p h n n' B Lp Lh H H'.
  assert (NE : h <> []) by (intros ->; discriminate).
  apply (names_ok_lookup reg t [] p h n A AD BT B Lp Lh NE) in H.
  apply (names_ok_lookup reg t [] p h n' A AD BT B Lp Lh NE) in H'. congruence.
Qed.
Lemma two_bakers_consistent : addresses two_bakers /\ consistent two_bakers.
Proof.
  exact (conj two_addresses (names_ok_consistent two_bakers _ two_bakers_ok two_addresses
    (or_nil_some (build_table two_bakers) two_ok))).
Qed.
