(** Proofs about what the build puts into the app. *)
From Coq Require Import List NArith Bool Arith Lia ZifyBool ZifyNat ZifyN.
From Verif Require Import Base Flash FlashFacts BuildTime BuildSpec.
Import ListNotations.
Open Scope N_scope.

(** ** Lines and blanks *)

Lemma is_space_spec c : is_space c = true <-> blank c \/ c = 10.
Proof. unfold is_space, blank. lia. Qed.
Lemma drop_space_parts l : exists sp, l = sp ++ drop_space l /\ Forall (fun c => is_space c = true) sp /\
  match drop_space l with [] => True | c :: _ => is_space c = false end.
Proof.
  induction l as [|c l (sp & E & H & D)]; [exists []; repeat split; constructor|].
  cbn [drop_space]. destruct (is_space c) eqn:B.
  - exists (c :: sp). repeat split; [cbn [app]; f_equal; exact E|constructor; assumption|exact D].
  - exists []. repeat split; [constructor|exact B].
Qed.
Lemma drop_space_app sp l : Forall (fun c => is_space c = true) sp ->
  drop_space (sp ++ l) = drop_space l.
Proof. induction 1 as [|c sp B H IH]; [reflexivity|]. cbn [app drop_space]. rewrite B. exact IH. Qed.
Lemma drop_space_head c l : is_space c = false -> drop_space (c :: l) = c :: l.
Proof. intros B. cbn [drop_space]. rewrite B. reflexivity. Qed.
Lemma drop_space_all sp : Forall (fun c => is_space c = true) sp -> drop_space sp = [].
Proof. intros H. rewrite <- (app_nil_r sp), drop_space_app by exact H. reflexivity. Qed.

Definition solid (l : bytes) : Prop :=
  exists c, is_space c = false /\ ((exists r, l = c :: r /\ exists d r', l = r' ++ [d] /\ is_space d = false)).
Lemma trim_parts l : exists sp sp', l = sp ++ trim l ++ sp' /\
  Forall (fun c => is_space c = true) sp /\ Forall (fun c => is_space c = true) sp' /\ (trim l = [] \/ solid (trim l)).
Proof.
  destruct (drop_space_parts l) as (sp & E & H & D).
  destruct (drop_space_parts (rev (drop_space l))) as (sp2 & E2 & H2 & D2).
  fold (drop_space (rev (drop_space l))) in *.
  exists sp, (rev sp2). unfold trim.
  assert (E3 : drop_space l = rev (drop_space (rev (drop_space l))) ++ rev sp2).
  { rewrite <- rev_app_distr, <- E2, rev_involutive. reflexivity. }
  split; [rewrite <- E3; exact E|]. split; [exact H|]. split; [apply Forall_rev; exact H2|].
  destruct (drop_space (rev (drop_space l))) as [|d r] eqn:F; [left; reflexivity|right].
  cbn [rev] in *. destruct (drop_space l) as [|c q] eqn:G; [destruct (rev r); discriminate|].
  exists c. split; [exact D|]. 
  destruct (rev r ++ [d]) as [|c' r'] eqn:K; [destruct (rev r); discriminate|].
  cbn [app] in E3. injection E3 as <- _. exists r'. split; [reflexivity|].
  exists d, (rev r). split; [symmetry; exact K|exact D2].
Qed.
Lemma trim_solid sp l sp' : Forall (fun c => is_space c = true) sp -> Forall (fun c => is_space c = true) sp' ->
  solid l -> trim (sp ++ l ++ sp') = l.
Proof.
  intros H H' (c & B & r & -> & d & r' & E & B'). unfold trim. rewrite drop_space_app by exact H.
  cbn [app]. rewrite drop_space_head by exact B. change (c :: r ++ sp') with ((c :: r) ++ sp').
  rewrite rev_app_distr, drop_space_app by (apply Forall_rev; exact H'). rewrite E, rev_app_distr.
  cbn [rev app]. rewrite drop_space_head by exact B'. cbn [rev]. rewrite rev_involutive. reflexivity.
Qed.
Lemma trim_blank sp : Forall (fun c => is_space c = true) sp -> trim sp = [].
Proof. intros H. unfold trim. rewrite (drop_space_all sp H). reflexivity. Qed.

Lemma pieces_app c l ls : ~ In c l -> pieces c (l ++ [c] ++ ls) = l :: pieces c ls.
Proof.
  induction l as [|x l IH]; cbn [app pieces In]; intros N.
  - rewrite N.eqb_refl. reflexivity.
  - destruct (N.eqb_spec x c) as [->|]; [exfalso; apply N; left; reflexivity|].
    cbn [app] in IH. rewrite IH by tauto. reflexivity.
Qed.
Lemma pieces_one c l : ~ In c l -> pieces c l = [l].
Proof.
  induction l as [|x l IH]; cbn [pieces In]; intros N; [reflexivity|].
  destruct (N.eqb_spec x c) as [->|]; [exfalso; apply N; left; reflexivity|]. rewrite IH by tauto. reflexivity.
Qed.
Lemma pieces_file ls : ls <> [] -> Forall (fun l => ~ In 10 l) ls -> pieces 10 (file_of ls) = ls.
Proof.
  intros N H. induction H as [|l ls Hl H IH]; [congruence|].
  destruct ls as [|l2 ls]; [exact (pieces_one _ _ Hl)|].
  change (file_of (l :: l2 :: ls)) with (l ++ [10] ++ file_of (l2 :: ls)).
  rewrite pieces_app by exact Hl. f_equal. apply IH. discriminate.
Qed.
Lemma file_pieces t : file_of (pieces 10 t) = t /\ pieces 10 t <> [] /\ Forall (fun l => ~ In 10 l) (pieces 10 t).
Proof.
  induction t as [|c t (E & N & H)]; [repeat split; [discriminate|]; repeat constructor; intros []|].
  cbn [pieces]. destruct (N.eqb_spec c 10) as [->|D].
  - repeat split; [|discriminate|constructor; [intros []|exact H]].
    destruct (pieces 10 t) as [|p ps]; [congruence|].
    change (file_of ([] :: p :: ps)) with (10 :: file_of (p :: ps)). rewrite E. reflexivity.
  - destruct (pieces 10 t) as [|p ps]; [congruence|]. inversion_clear H as [|? ? H1 H2].
    repeat split; [|discriminate|constructor; [|exact H2]].
    + destruct ps as [|q ps]; [cbn [file_of] in *; congruence|].
      change (file_of ((c :: p) :: q :: ps)) with (c :: (p ++ [10] ++ file_of (q :: ps))).
      change (file_of (p :: q :: ps)) with (p ++ [10] ++ file_of (q :: ps)) in E. rewrite E. reflexivity.
    + intros [->|K]; [congruence|exact (H1 K)].
Qed.

(** ** Values *)

Lemma u8_digits_spec ds : forall acc, acc < 256 -> Forall (fun d => d < 10) ds ->
  let n := fold_left (fun a d => 10 * a + d) ds acc in
  u8_digits acc (map (fun d => 48 + d) ds) = if n <? 256 then Some n else None.
Proof.
  cbv zeta. induction ds as [|d ds IH]; intros acc B H; cbn [map u8_digits fold_left].
  - destruct (N.ltb_spec acc 256); [reflexivity|lia].
  - inversion_clear H as [|? ? H1 H2].
    replace ((48 <=? 48 + d) && (48 + d <=? 57))%bool with true by lia.
    replace (48 + d - 48) with d by lia. cbv zeta. replace (acc * 10 + d) with (10 * acc + d) by lia.
    destruct (N.ltb_spec 255 (10 * acc + d)) as [L|L].
    + assert (G : forall l a, 256 <= a -> 256 <= fold_left (fun a d => 10 * a + d) l a).
      { induction l as [|x l IHl]; intros a La; cbn [fold_left]; [exact La|]. apply IHl. lia. }
      specialize (G ds (10 * acc + d) ltac:(lia)).
      destruct (N.ltb_spec (fold_left (fun a d0 => 10 * a + d0) ds (10 * acc + d)) 256); [lia|reflexivity].
    + apply IH; [lia|exact H2].
Qed.
Lemma u8_digits_inv l : forall acc n, acc < 256 -> u8_digits acc l = Some n ->
  n < 256 /\ exists ds, l = map (fun d => 48 + d) ds /\ Forall (fun d => d < 10) ds /\
    n = fold_left (fun a d => 10 * a + d) ds acc.
Proof.
  induction l as [|c l IH]; intros acc n B; cbn [u8_digits].
  - intros [= <-]. split; [exact B|]. exists []. repeat split. constructor.
  - destruct ((48 <=? c) && (c <=? 57))%bool eqn:R; [|discriminate]. cbv zeta.
    destruct (N.ltb_spec 255 (acc * 10 + (c - 48))) as [|L]; [discriminate|].
    intros H. apply IH in H; [|lia]. destruct H as (Hn & ds & -> & Hd & E). split; [exact Hn|].
    exists ((c - 48) :: ds). cbn [map fold_left]. repeat split.
    + f_equal. lia.
    + constructor; [lia|exact Hd].
    + rewrite E. f_equal. lia.
Qed.
Lemma parse_u8_spec v n : parse_u8 v = Some n <-> n < 256 /\ exists t, (v = t \/ v = 43 :: t) /\ numeral t n.
Proof.
  split.
  - unfold parse_u8. destruct v as [|c v]; [discriminate|]. destruct (N.eqb_spec c 43) as [->|D].
    + destruct v as [|c v]; [discriminate|]. intros H. apply u8_digits_inv in H; [|lia].
      destruct H as (B & ds & E & Hd & F). split; [exact B|]. exists (c :: v). split; [right; reflexivity|].
      exists ds. repeat split; [exact E|intros ->; discriminate E|exact Hd|exact F].
    + intros H. apply u8_digits_inv in H; [|lia]. destruct H as (B & ds & E & Hd & F). split; [exact B|].
      exists (c :: v). split; [left; reflexivity|]. exists ds. repeat split; [exact E|intros ->; discriminate E|exact Hd|exact F].
  - intros (B & t & Ht & ds & -> & N & Hd & F). destruct ds as [|d ds]; [congruence|].
    assert (G := u8_digits_spec (d :: ds) 0 ltac:(lia) Hd). cbv zeta in G. rewrite <- F in G.
    replace (n <? 256) with true in G by lia. unfold parse_u8. destruct Ht as [->| ->].
    + cbn [map] in *. inversion_clear Hd. destruct (N.eqb_spec (48 + d) 43); [lia|exact G].
    + rewrite N.eqb_refl. cbn [map] in *. exact G.
Qed.

(** ** Names *)

Lemma is_letter_spec c : is_letter c = true <-> letter c.
Proof. unfold is_letter, letter. lia. Qed.
Lemma is_ident_spec t : is_ident t = true <-> name_ok t.
Proof.
  unfold is_ident, name_ok. destruct t as [|c t].
  - split; [discriminate|]. intros (c & t' & E & _). discriminate.
  - rewrite andb_true_iff, is_letter_spec, forallb_forall. split.
    + intros [H1 H2]. exists c, t. repeat split; [exact H1|]. apply Forall_forall. intros x Hx. specialize (H2 x Hx).
      apply orb_true_iff in H2. rewrite is_letter_spec in H2. destruct H2 as [H2|H2]; [left; exact H2|right].
      unfold is_digit in H2. lia.
    + intros (c' & t' & [= <- <-] & H1 & H2). split; [exact H1|]. intros x Hx. rewrite Forall_forall in H2.
      destruct (H2 x Hx) as [L|L]; apply orb_true_iff; [left; apply is_letter_spec; exact L|right; unfold is_digit; lia].
Qed.
Lemma split_eq_spec l a b : split_eq l = Some (a, b) <-> l = a ++ [61] ++ b /\ ~ In 61 a.
Proof.
  revert a. induction l as [|c l IH]; intros a; cbn [split_eq].
  - split; [discriminate|]. intros [E _]. destruct a; discriminate.
  - destruct (N.eqb_spec c 61) as [->|D].
    + split.
      * intros [= <- <-]. split; [reflexivity|intros []].
      * intros [E N]. destruct a as [|x a]; [cbn [app] in E; injection E as ->; reflexivity|]. cbn [app] in E. injection E as <- _. exfalso. apply N. left. reflexivity.
    + destruct (split_eq l) as [[a' b']|] eqn:S1.
      * split.
        -- intros [= <- <-]. destruct (proj1 (IH a') eq_refl) as [-> N]. split; [reflexivity|].
           intros [->|K]; [congruence|exact (N K)].
        -- intros [E N]. destruct a as [|x a]; [cbn [app] in E; congruence|]. cbn [app] in E. injection E as <- E.
           assert (G := proj2 (IH a) (conj E (fun K => N (or_intror K)))). injection G as -> ->. reflexivity.
      * split; [discriminate|]. intros [E N]. destruct a as [|x a]; [cbn [app] in E; congruence|].
        cbn [app] in E. injection E as <- E. assert (G := proj2 (IH a) (conj E (fun K => N (or_intror K)))). discriminate.
Qed.
Lemma name_solid t : name_ok t -> ~ In 61 t /\ ~ In 10 t /\ exists c r, t = c :: r /\ is_space c = false /\ c <> 35.
Proof.
  intros (c & r & -> & L & H). rewrite Forall_forall in H.
  assert (G : forall x, letter x \/ 48 <= x <= 57 -> x <> 61 /\ x <> 10) by (unfold letter; lia).
  repeat split.
  - intros [E|K]; [unfold letter in L; lia|apply H in K; apply G in K; lia].
  - intros [E|K]; [unfold letter in L; lia|apply H in K; apply G in K; lia].
  - exists c, r. split; [reflexivity|]. unfold letter in L. unfold is_space. lia.
Qed.
Lemma value_solid v n : parse_u8 v = Some n -> ~ In 10 v /\ exists d r, v = r ++ [d] /\ is_space d = false.
Proof.
  intros H. apply parse_u8_spec in H. destruct H as (_ & t & Ht & ds & -> & N & Hd & _).
  assert (D : Forall (fun c => c <> 10 /\ is_space c = false) (map (fun d => 48 + d) ds)).
  { apply Forall_map. revert Hd. apply Forall_impl. intros d B. unfold is_space. lia. }
  destruct (exists_last (l := map (fun d => 48 + d) ds)) as (r & d & E); [destruct ds; [congruence|discriminate]|].
  rewrite E in *. assert (Hlast : is_space d = false). { apply Forall_app in D. destruct D as [_ D]. inversion_clear D. tauto. }
  assert (N10 : ~ In 10 (r ++ [d])). { intros K. rewrite Forall_forall in D. apply D in K. tauto. }
  destruct Ht as [->| ->].
  - split; [exact N10|]. exists d, r. split; [reflexivity|exact Hlast].
  - split; [intros [K|K]; [discriminate K|exact (N10 K)]|]. exists d, (43 :: r). split; [reflexivity|exact Hlast].
Qed.

(** ** Lines *)

Definition keep (l : bytes) : bool := match l with [] => false | c :: _ => negb (c =? 35) end.
Lemma blank_space l : Forall blank l -> Forall (fun c => is_space c = true) l.
Proof. apply Forall_impl. intros c H. apply is_space_spec. left. exact H. Qed.
Lemma space_blank l : ~ In 10 l -> Forall (fun c => is_space c = true) l -> Forall blank l.
Proof.
  intros N H. rewrite Forall_forall in *. intros c K. specialize (H c K). apply is_space_spec in H.
  destruct H as [H| ->]; [exact H|contradiction].
Qed.
Lemma version_line_spec t name n : version_line t = Some (name, n) <->
  exists value, t = name ++ [61] ++ value /\ name_ok name /\ parse_u8 value = Some n.
Proof.
  unfold version_line. split.
  - destruct (split_eq t) as [[a b]|] eqn:S1; [|discriminate]. destruct (parse_u8 b) as [m|] eqn:P; [|discriminate].
    destruct (is_ident a) eqn:K; [|discriminate]. intros [= <- <-]. exists b. apply split_eq_spec in S1. apply is_ident_spec in K. tauto.
  - intros (value & E & K & P). assert (S1 : split_eq t = Some (name, value)).
    { apply split_eq_spec. split; [exact E|]. exact (proj1 (name_solid _ K)). }
    rewrite S1, P. apply is_ident_spec in K. rewrite K. reflexivity.
Qed.
Lemma def_solid name value n : name_ok name -> parse_u8 value = Some n -> solid (name ++ [61] ++ value) /\ keep (name ++ [61] ++ value) = true.
Proof.
  intros K P. destruct (name_solid _ K) as (_ & _ & c & r & -> & B & Nc). destruct (value_solid _ _ P) as (_ & d & r' & -> & B').
  split.
  - exists c. split; [exact B|]. eexists. split; [reflexivity|]. exists d, ((c :: r) ++ [61] ++ r'). split; [|exact B'].
    rewrite <- !app_assoc. reflexivity.
  - cbn [app keep]. destruct (N.eqb_spec c 35); [contradiction|reflexivity].
Qed.

(** What a line contributes. *)
Definition gives (l : bytes) (o : list (bytes * N)) : Prop :=
  if keep (trim l) then exists d, version_line (trim l) = Some d /\ o = [d] else o = [].
Lemma gives_entry l o : ~ In 10 l -> gives l o ->
  exists e, l = written e /\ entry_ok e /\ Forall2 means (defined e) o.
Proof.
  intros N G. unfold gives in G. destruct (trim_parts l) as (sp & sp' & E & H & H' & T).
  assert (Nsp : ~ In 10 sp) by (intros K; apply N; rewrite E; apply in_or_app; left; exact K).
  assert (Nsp' : ~ In 10 sp') by (intros K; apply N; rewrite E; apply in_or_app; right; apply in_or_app; right; exact K).
  assert (Nt : ~ In 10 (trim l)) by (intros K; apply N; rewrite E; apply in_or_app; right; apply in_or_app; left; exact K).
  destruct (trim l) as [|c t] eqn:F.
  - cbn [keep] in G. subst o. exists (LBlank l). split; [reflexivity|split; [|constructor]]. cbn [entry_ok].
    rewrite E. cbn [app]. apply Forall_app. split; apply space_blank; assumption.
  - destruct (keep (c :: t)) eqn:K.
    + destruct G as ([name n] & V & ->). apply version_line_spec in V. destruct V as (value & Ev & Kn & P).
      exists (LDef sp name value sp'). split; [|split].
      * rewrite E, Ev. cbn [written]. rewrite <- !app_assoc. reflexivity.
      * cbn [entry_ok]. exact (conj (space_blank _ Nsp H) (conj (space_blank _ Nsp' H') Kn)).
      * cbn [defined]. constructor; [|constructor]. apply parse_u8_spec in P. unfold means. cbn [fst snd]. tauto.
    + subst o. cbn [keep] in K. apply negb_false_iff, N.eqb_eq in K. subst c.
      exists (LComment sp (t ++ sp')). split; [exact E|split; [|constructor]]. cbn [entry_ok].
      split; [apply space_blank; assumption|]. intros Q. apply in_app_or in Q. destruct Q as [Q|Q]; [apply Nt; right; exact Q|exact (Nsp' Q)].
Qed.
Lemma entry_gives e o : entry_ok e -> Forall2 means (defined e) o -> ~ In 10 (written e) /\ gives (written e) o.
Proof.
  destruct e as [sp|sp text|sp name value sp']; cbn [entry_ok defined written].
  - intros H F. inversion F; subst. split.
    + intros K. rewrite Forall_forall in H. apply H in K. unfold blank in K. lia.
    + unfold gives. rewrite trim_blank by (apply blank_space; exact H). reflexivity.
  - intros [H Nt] F. inversion F; subst. split.
    + intros K. apply in_app_or in K. destruct K as [K|[K|K]]; [rewrite Forall_forall in H; apply H in K; unfold blank in K; lia|discriminate|exact (Nt K)].
    + unfold gives. destruct (trim_parts (sp ++ [35] ++ text)) as (s1 & s2 & E & H1 & H2 & T).
      destruct T as [T|(c & B & r & T & _)].
      * rewrite T. reflexivity.
      * rewrite T in *. cbn [keep]. enough (c = 35) as -> by reflexivity.
        assert (G : drop_space (sp ++ [35] ++ text) = drop_space (s1 ++ (c :: r) ++ s2)) by (rewrite <- E; reflexivity).
        rewrite (drop_space_app sp _ (blank_space _ H)), (drop_space_app s1 _ H1) in G.
        cbn [app] in G. rewrite (drop_space_head c _ B), (drop_space_head 35 _ eq_refl) in G. congruence.
  - intros (H & H' & K) F. inversion F as [|a [nm n] l1 l2 M Q]; subst. inversion Q; subst. destruct M as (M1 & M2). cbn [fst snd] in *. subst nm.
    assert (P : parse_u8 value = Some n) by (apply parse_u8_spec; exact M2).
    destruct (def_solid _ _ _ K P) as [S1 S2]. split.
    + destruct (name_solid _ K) as (_ & N1 & _). destruct (value_solid _ _ P) as (N2 & _).
      assert (N3 : ~ In 10 sp) by (intros Z; rewrite Forall_forall in H; apply H in Z; unfold blank in Z; lia).
      assert (N4 : ~ In 10 sp') by (intros Z; rewrite Forall_forall in H'; apply H' in Z; unfold blank in Z; lia).
      intros Z. rewrite !in_app_iff in Z. cbn [In] in Z.
      destruct Z as [Z|[Z|[[Z|[]]|[Z|Z]]]]; [exact (N3 Z)|exact (N1 Z)|discriminate Z|exact (N2 Z)|exact (N4 Z)].
    + unfold gives. replace (sp ++ name ++ [61] ++ value ++ sp') with (sp ++ (name ++ [61] ++ value) ++ sp') by (rewrite <- !app_assoc; reflexivity).
      rewrite trim_solid by (first [apply blank_space; assumption|exact S1]). rewrite S2.
      exists (name, n). split; [|reflexivity]. apply version_line_spec. exists value. tauto.
Qed.

Lemma lines_gives ls defs : all_some (map version_line (filter keep (map trim ls))) = Some defs <->
  exists os, Forall2 gives ls os /\ defs = concat os.
Proof.
  revert defs. induction ls as [|l ls IH]; intros defs; cbn [map filter all_some].
  - split; [intros [= <-]; exists []; split; [constructor|reflexivity]|]. intros (os & F & ->). inversion F. reflexivity.
  - destruct (keep (trim l)) eqn:K.
    + cbn [map all_some]. split.
      * destruct (version_line (trim l)) as [d|] eqn:V; [|discriminate].
        destruct (all_some (map version_line (filter keep (map trim ls)))) as [r|] eqn:A; [|discriminate].
        intros [= <-]. destruct (proj1 (IH r) eq_refl) as (os & F & ->). exists ([d] :: os). split; [|reflexivity].
        constructor; [|exact F]. unfold gives. rewrite K. exists d. tauto.
      * intros (os & F & ->). inversion F as [|? o ? os' G F']; subst. unfold gives in G. rewrite K in G.
        destruct G as (d & V & ->). rewrite V. rewrite (proj2 (IH (concat os')) (ex_intro _ os' (conj F' eq_refl))). reflexivity.
    + split.
      * intros A. apply IH in A. destruct A as (os & F & ->). exists ([] :: os). split; [|reflexivity].
        constructor; [|exact F]. unfold gives. rewrite K. reflexivity.
      * intros (os & F & ->). inversion F as [|? o ? os' G F']; subst. unfold gives in G. rewrite K in G. subst o.
        apply IH. exists os'. tauto.
Qed.
Lemma distinct_spec l : distinct l = true <-> NoDup l.
Proof.
  induction l as [|a l IH]; cbn [distinct]; [split; [constructor|reflexivity]|].
  rewrite andb_true_iff, IH, negb_true_iff. split.
  - intros [N D]. constructor; [|exact D]. intros K. assert (X : existsb (fun b => if list_eq_dec N.eq_dec a b then true else false) l = true).
    { apply existsb_exists. exists a. split; [exact K|]. destruct (list_eq_dec N.eq_dec a a); congruence. }
    congruence.
  - intros D. inversion_clear D as [|? ? N D']. split; [|exact D'].
    destruct (existsb (fun b => if list_eq_dec N.eq_dec a b then true else false) l) eqn:X; [|reflexivity]. apply existsb_exists in X. destruct X as (b & K & E).
    destruct (list_eq_dec N.eq_dec a b); [subst b; contradiction|discriminate].
Qed.
Lemma forall2_concat es : forall defs, Forall2 means (flat_map defined es) defs ->
  exists os, Forall2 (fun e o => Forall2 means (defined e) o) es os /\ defs = concat os.
Proof.
  induction es as [|e es IH]; intros defs F; cbn [flat_map] in F; [inversion F; exists []; split; [constructor|reflexivity]|].
  apply Forall2_app_inv_l in F. destruct F as (o & r & F1 & F2 & ->). destruct (IH _ F2) as (os & G & ->).
  exists (o :: os). split; [constructor; assumption|reflexivity].
Qed.

Theorem version_exact text defs : version_defs text = Some defs <->
  exists es, text = file_of (map written es) /\ Forall entry_ok es /\
    Forall2 means (flat_map defined es) defs /\ NoDup (map fst defs).
Proof.
  unfold version_defs. cbv zeta. change (fun l : bytes => match l with [] => false | c :: _ => negb (c =? 35) end) with keep. split.
  - destruct (all_some _) as [ds|] eqn:A; [|discriminate]. destruct (distinct (map fst ds)) eqn:D; [|discriminate].
    intros [= <-]. apply distinct_spec in D. apply lines_gives in A. destruct A as (os & F & ->).
    destruct (file_pieces text) as (E & N & H). rewrite <- E. clear E N.
    assert (G : exists es, pieces 10 text = map written es /\ Forall entry_ok es /\ Forall2 means (flat_map defined es) (concat os)).
    { clear D. induction F as [|l o ls os' G F IH]; [exists []; repeat split; constructor|].
      inversion_clear H as [|? ? H1 H2]. destruct (gives_entry l o H1 G) as (e & -> & Ke & Fe).
      destruct (IH H2) as (es & -> & Kes & Fes). exists (e :: es). repeat split; [constructor; assumption|].
      cbn [flat_map concat]. apply Forall2_app; assumption. }
    destruct G as (es & -> & K & M). exists es. tauto.
  - intros (es & -> & K & M & D). apply distinct_spec in D.
    destruct (forall2_concat _ _ M) as (os & F & ->).
    enough (A : all_some (map version_line (filter keep (map trim (pieces 10 (file_of (map written es)))))) = Some (concat os)).
    { transitivity (match Some (concat os) with Some defs => if distinct (map fst defs) then Some defs else None | None => None end).
      - apply (f_equal (fun o => match o with Some defs => if distinct (map fst defs) then Some defs else None | None => None end) A).
      - cbv beta iota. rewrite D. reflexivity. }
    destruct es as [|e es]; [inversion F; reflexivity|].
    assert (P : Forall (fun l => ~ In 10 l) (map written (e :: es)) /\ Forall2 gives (map written (e :: es)) os).
    { clear - K F. induction F as [|x o xs os G F IH]; [split; constructor|]. inversion_clear K as [|? ? K1 K2].
      destruct (entry_gives x o K1 G) as [N1 G1]. destruct (IH K2) as [A B]. cbn [map]. split; constructor; assumption. }
    rewrite pieces_file; [|discriminate|tauto]. apply lines_gives. exists os. tauto.
Qed.

(** ** Flash memory *)

Lemma concat_repeat_mul {A} (l : list A) k n : concat (repeat (concat (repeat l k)) n) = concat (repeat l (k * n)).
Proof.
  induction n as [|n IH]; [rewrite Nat.mul_0_r; reflexivity|].
  cbn [repeat concat]. rewrite IH, Nat.mul_succ_r, Nat.add_comm, repeat_app, concat_app. reflexivity.
Qed.
Lemma reduce_snoc l n : reduce_lens (l ++ [n]) = (reduce_lens l * n)%nat.
Proof. unfold reduce_lens. rewrite fold_left_app. reflexivity. Qed.
Lemma reduce_cons a l : reduce_lens (a :: l) = (a * reduce_lens l)%nat.
Proof.
  induction l as [|n l IH] using rev_ind; [unfold reduce_lens; cbn [fold_left]; lia|].
  rewrite app_comm_cons, !reduce_snoc, IH. lia.
Qed.
Lemma laid_walk init t m : laid init t m ->
  exists ls, walk t = Some (length init :: ls) /\ m = concat (repeat init (reduce_lens ls)).
Proof.
  induction 1 as [|a n m H (ls & E & ->)].
  - exists []. split; [reflexivity|]. cbn. rewrite app_nil_r. reflexivity.
  - exists (ls ++ [n]). split.
    + destruct a as [| |e k]; [discriminate E|discriminate E|].
      change (walk (TArray (TArray e k) n)) with (match walk (TArray e k) with Some l => Some (l ++ [n]) | None => None end).
      rewrite E. reflexivity.
    + rewrite reduce_snoc. apply concat_repeat_mul.
Qed.
Lemma walk_laid init t : forall ls, walk t = Some (length init :: ls) -> laid init t (concat (repeat init (reduce_lens ls))).
Proof.
  induction t as [| |e IH n]; intros ls E; [discriminate E|discriminate E|].
  destruct e as [| |e k].
  - cbn [walk] in E. injection E as -> <-. cbn. rewrite app_nil_r. constructor.
  - discriminate E.
  - change (walk (TArray (TArray e k) n)) with (match walk (TArray e k) with Some l => Some (l ++ [n]) | None => None end) in E.
    destruct (walk (TArray e k)) as [l|] eqn:F; [|discriminate]. injection E as E.
    destruct l as [|h l]; [exfalso|].
    + assert (G : forall t, walk t <> Some []).
      { clear. induction t as [| |e IH n]; [discriminate|discriminate|]. destruct e as [| |e' k]; [discriminate|discriminate|].
        change (walk (TArray (TArray e' k) n)) with (match walk (TArray e' k) with Some l => Some (l ++ [n]) | None => None end).
        destruct (walk (TArray e' k)) as [[|a l]|]; discriminate. }
      exact (G _ F).
    + cbn [app] in E. injection E as -> <-. rewrite reduce_snoc, <- concat_repeat_mul. constructor. apply IH. reflexivity.
Qed.

Lemma upd_at {A} (a : list A) x y b k : k = length a -> upd k y (a ++ x :: b) = a ++ y :: b.
Proof. intros ->. induction a as [|z a IH]; [reflexivity|]. cbn [length app upd]. rewrite IH. reflexivity. Qed.
Lemma row_loop init pre rest : forall m, (m <= length init)%nat -> (length init <= length rest)%nat ->
  fold_left (fun out j => upd (length pre + j) (nth j init 0) out) (seq 0 m) (pre ++ rest)
  = pre ++ firstn m init ++ skipn m rest.
Proof.
  induction m as [|m IH]; intros L L2; [reflexivity|].
  rewrite seq_S, fold_left_app, IH by lia. cbn [fold_left]. rewrite Nat.add_0_l.
  destruct (skipn m rest) as [|x r] eqn:F; [apply (f_equal (@length N)) in F; rewrite skipn_length in F; cbn [length] in F; lia|].
  rewrite app_assoc, upd_at by (rewrite app_length, firstn_length; lia).
  rewrite <- app_assoc. f_equal.
  assert (G : skipn (S m) rest = r).
  { clear - F. revert rest F. induction m as [|m IH]; intros rest F; [cbn [skipn] in F; subst rest; reflexivity|].
    destruct rest as [|y rest]; [discriminate F|]. exact (IH rest F). }
  rewrite G. replace (firstn (S m) init) with (firstn m init ++ [nth m init 0]).
  - rewrite <- app_assoc. reflexivity.
  - clear - L. revert m L. induction init as [|c i IHi]; intros m L; [cbn [length] in L; lia|].
    destruct m as [|m]; [reflexivity|]. cbn [length] in L. cbn [firstn nth app]. rewrite IHi by lia. reflexivity.
Qed.
Lemma zeros_app a b : zeros (a + b) = zeros a ++ zeros b.
Proof. unfold zeros. apply repeat_app. Qed.
Lemma zeros_length n : length (zeros n) = n.
Proof. unfold zeros. apply repeat_length. Qed.
Lemma concat_repeat_length {A} (l : list A) n : length (concat (repeat l n)) = (n * length l)%nat.
Proof. induction n as [|n IH]; [reflexivity|]. cbn [repeat concat]. rewrite app_length, IH. lia. Qed.
Lemma repeat_snoc {A} (x : A) n : repeat x (S n) = repeat x n ++ [x].
Proof. induction n as [|n IH]; [reflexivity|]. cbn [repeat app] in *. rewrite <- IH. reflexivity. Qed.
Lemma expand_exact init k : (0 < length init)%nat ->
  expand_array (length init) (length init * k) init = concat (repeat init k).
Proof.
  intros P. unfold expand_array. rewrite (Nat.mul_comm (length init) k), Nat.div_mul by lia.
  assert (G : forall i, (i <= k)%nat ->
    fold_left (fun out i => fold_left (fun out j => upd (i * length init + j) (nth j init 0) out) (seq 0 (length init)) out)
      (seq 0 i) (zeros (k * length init))
    = concat (repeat init i) ++ zeros ((k - i) * length init)).
  { induction i as [|i IH]; intros L; [rewrite Nat.sub_0_r; reflexivity|].
    rewrite seq_S, fold_left_app, IH by lia. cbn [fold_left]. rewrite Nat.add_0_l.
    replace (i * length init)%nat with (length (concat (repeat init i))) by apply concat_repeat_length.
    rewrite row_loop by (rewrite ?zeros_length; nia).
    rewrite firstn_all. replace ((k - i) * length init)%nat with (length init + (k - S i) * length init)%nat by nia.
    rewrite zeros_app, skipn_app, zeros_length, Nat.sub_diag, (skipn_all2 (zeros (length init))) by (rewrite zeros_length; lia).
    cbn [skipn app]. rewrite repeat_snoc, concat_app. cbn [concat]. rewrite app_nil_r, <- app_assoc. reflexivity. }
  rewrite G by lia. rewrite Nat.sub_diag. cbn [Nat.mul]. change (zeros 0) with (@nil N). apply app_nil_r.
Qed.

Lemma static_exact t init mem : init <> [] -> (nvm_static t (Some init) = Some mem <-> laid init t mem).
Proof.
  intros N. assert (P : (0 < length init)%nat) by (destruct init; [congruence|cbn [length]; lia]). unfold nvm_static. split.
  - destruct (walk t) as [[|[|n] ls]|] eqn:E; [discriminate..| |discriminate].
    destruct (Nat.eqb_spec (length init) (S n)) as [L|]; [|discriminate]. intros [= <-].
    rewrite reduce_cons, <- L, expand_exact by exact P. apply walk_laid. rewrite E, L. reflexivity.
  - intros H. apply laid_walk in H. destruct H as (ls & -> & ->). destruct (length init) as [|n] eqn:L; [lia|].
    rewrite <- L, Nat.eqb_refl, reduce_cons, expand_exact by lia. reflexivity.
Qed.
Lemma concat_zeros n k : concat (repeat (zeros n) k) = zeros (n * k).
Proof. induction k as [|k IH]; [rewrite Nat.mul_0_r; reflexivity|]. cbn [repeat concat]. rewrite IH, <- zeros_app. f_equal. lia. Qed.
Lemma static_zero t mem : nvm_static t None = Some mem <-> exists n, laid (zeros n) t mem.
Proof.
  unfold nvm_static. split.
  - destruct (walk t) as [ls|] eqn:E; [|discriminate]. intros [= <-]. destruct ls as [|n ls].
    + exfalso. revert E. clear. induction t as [| |e IH n]; [discriminate|discriminate|]. destruct e as [| |e' k]; [discriminate|discriminate|].
      change (walk (TArray (TArray e' k) n)) with (match walk (TArray e' k) with Some l => Some (l ++ [n]) | None => None end).
      destruct (walk (TArray e' k)) as [[|a l]|]; discriminate.
    + exists n. rewrite reduce_cons, <- concat_zeros. apply walk_laid. rewrite E, zeros_length. reflexivity.
  - intros (n & H). apply laid_walk in H. destruct H as (ls & -> & ->). rewrite zeros_length, reduce_cons, <- concat_zeros. reflexivity.
Qed.

Lemma nvm_write_exact mem from s : len mem < 2 ^ 31 -> from < 2 ^ 32 -> len s < 2 ^ 31 ->
  let (m, r) := nvm_write mem from s in
  (from + len s <= len mem -> r = NvmOk /\ length m = length mem /\ slice (N.to_nat from) (length s) m = s /\
     forall i, (i < N.to_nat from \/ N.to_nat from + length s <= i)%nat -> nth_error m i = nth_error mem i) /\
  (len mem < from + len s -> r <> NvmOk /\ m = mem /\
     (from + len s < 2 ^ 32 -> r = NvmOverflow) /\ (2 ^ 32 <= from + len s <= 2 ^ 32 + len mem -> r = NvmPanic)).
Proof.
  intros Hm Hf Hs. unfold nvm_write. unfold len in *.
  assert (M : (from + N.of_nat (length s)) mod 2 ^ 32 = if from + N.of_nat (length s) <? 2 ^ 32 then from + N.of_nat (length s) else from + N.of_nat (length s) - 2 ^ 32).
  { destruct (N.ltb_spec (from + N.of_nat (length s)) (2 ^ 32)) as [L|L]; [apply N.mod_small; exact L|].
    replace (from + N.of_nat (length s)) with ((from + N.of_nat (length s) - 2 ^ 32) + 1 * 2 ^ 32) at 1 by lia.
    rewrite N.mod_add by lia. apply N.mod_small. lia. }
  rewrite M. clear M. change (2 ^ 31) with 2147483648 in *. change (2 ^ 32) with 4294967296 in *.
  destruct (N.ltb_spec (from + N.of_nat (length s)) 4294967296) as [L|L].
  - destruct (N.ltb_spec (N.of_nat (length mem)) (from + N.of_nat (length s))) as [A|A].
    + split; [lia|]. intros _. split; [discriminate|]. split; [reflexivity|]. split; intros; [try lia; reflexivity|try lia; reflexivity].
    + destruct (N.ltb_spec (N.of_nat (length mem)) from) as [B|B]; [lia|]. split; [|lia]. intros _. split; [reflexivity|].
      assert (Lf : length (firstn (N.to_nat from) mem) = N.to_nat from) by (rewrite firstn_length; lia).
      split; [|split].
      * rewrite !app_length, skipn_length, Lf. lia.
      * unfold slice. rewrite skipn_app, Lf, Nat.sub_diag. rewrite skipn_all2 by (rewrite Lf; lia). cbn [app skipn].
        rewrite firstn_app, Nat.sub_diag, firstn_all. cbn [firstn]. apply app_nil_r.
      * intros i [K|K].
        -- rewrite nth_error_app1 by (rewrite Lf; exact K). rewrite <- (firstn_skipn (N.to_nat from) mem) at 2.
           rewrite nth_error_app1 by (rewrite Lf; exact K). reflexivity.
        -- rewrite nth_error_app2 by (rewrite Lf; lia). rewrite Lf, nth_error_app2 by lia.
           rewrite <- (firstn_skipn (N.to_nat from + length s) mem) at 2.
           rewrite nth_error_app2 by (rewrite firstn_length; lia). f_equal. rewrite firstn_length. lia.
  - destruct (N.ltb_spec (N.of_nat (length mem)) (from + N.of_nat (length s) - 4294967296)) as [A|A].
    + split; [lia|]. intros _. split; [discriminate|]. split; [reflexivity|]. split; intros; [try lia; reflexivity|try lia; reflexivity].
    + destruct (N.ltb_spec (N.of_nat (length mem)) from) as [B|B]; [|lia]. split; [lia|]. intros _. split; [discriminate|]. split; [reflexivity|]. split; intros; [try lia; reflexivity|try lia; reflexivity].
Qed.

(** ** Statics *)

Section Lazy.
  Variables (A W R : Type) (start : W -> option A).
  Definition agrees (s : cell A * W) (t : option A * W) : Prop :=
    snd s = snd t /\
    ((c_sentinel (fst s) = 1 /\ c_value (fst s) = fst t /\ fst t <> None) \/ (c_sentinel (fst s) <> 1 /\ fst t = start (snd t))).
  Lemma step_agrees s t (e : lazy_event A W R) : clean e -> agrees s t ->
    fst (lazy_step start s e) = fst (eager_step start t e) /\ agrees (snd (lazy_step start s e)) (snd (eager_step start t e)).
  Proof.
    destruct s as [[b c] w], t as [v w']. intros K (E & G). cbn [fst snd c_sentinel c_value] in *. subst w'.
    destruct e as [f|b']; cbn [lazy_step eager_step clean] in *.
    - unfold lazy_init. cbn [c_sentinel]. destruct G as [(-> & -> & N)|(N & ->)].
      + rewrite N.eqb_refl. cbn [negb c_value c_sentinel]. destruct v as [a|]; [|congruence].
        destruct (f a w) as [[a' w'] r]. split; [reflexivity|]. split; [reflexivity|]. left. cbn. repeat split. discriminate.
      + destruct (N.eqb_spec b 1); [contradiction|]. cbn [negb]. destruct (start w) as [a|] eqn:S1.
        * cbn [c_value c_sentinel]. destruct (f a w) as [[a' w'] r]. split; [reflexivity|]. split; [reflexivity|]. left. cbn. repeat split. discriminate.
        * split; [reflexivity|]. split; [reflexivity|]. right. cbn. split; [lia|congruence].
    - split; [reflexivity|]. split; [reflexivity|]. right. cbn. split; [exact K|reflexivity].
  Qed.
  Lemma run_agrees (es : list (lazy_event A W R)) : forall s t, Forall clean es -> agrees s t ->
    fst (lazy_run start s es) = fst (eager_run start t es) /\ snd (snd (lazy_run start s es)) = snd (snd (eager_run start t es)).
  Proof.
    induction es as [|e es IH]; intros s t K G; [split; [reflexivity|exact (proj1 G)]|].
    inversion_clear K as [|? ? K1 K2]. destruct (step_agrees s t e K1 G) as [E1 E2]. cbn [lazy_run eager_run].
    destruct (lazy_step start s e) as [o s1]. destruct (eager_step start t e) as [o' t1]. cbn [fst snd] in *. subst o'.
    destruct (IH s1 t1 K2 E2) as [F1 F2].
    destruct (lazy_run start s1 es) as [os s2]. destruct (eager_run start t1 es) as [os' t2]. cbn [fst snd] in *. subst os'. split; [reflexivity|exact F2].
  Qed.
End Lazy.

Lemma lazy_is_eager {A W R} (start : W -> option A) b w (es : list (lazy_event A W R)) : b <> 1 -> Forall clean es ->
  fst (lazy_run start (mkCell b None, w) es) = fst (eager_run start (start w, w) es) /\
  snd (snd (lazy_run start (mkCell b None, w) es)) = snd (snd (eager_run start (start w, w) es)).
Proof. intros B K. apply run_agrees; [exact K|]. split; [reflexivity|]. right. split; [exact B|reflexivity]. Qed.

Lemma lazy_run_app {A W R} (start : W -> option A) (a b : list (lazy_event A W R)) : forall s,
  snd (lazy_run start s (a ++ b)) = snd (lazy_run start (snd (lazy_run start s a)) b).
Proof.
  induction a as [|e a IH]; intros s; [reflexivity|]. cbn [app lazy_run]. destruct (lazy_step start s e) as [o s1].
  specialize (IH s1). destruct (lazy_run start s1 (a ++ b)) as [o1 s2]. destruct (lazy_run start s1 a) as [o3 s3]. exact IH.
Qed.
(** The state of the static for a wear-levelled area. *)
Definition as_cell (w : wear) : cell N := match w_idx w with Some k => mkCell 1 (Some k) | None => mkCell 0 None end.
Lemma wear_step w o : snd (lazy_run align (as_cell w, w_pages w) (wear_events o)) = (as_cell (wop_step w o), w_pages (wop_step w o)).
Proof.
  destruct o as [payload f|]; cbn [wear_events wop_step]; [|reflexivity].
  destruct w as [ps [k|]].
  - unfold wear_init, as_cell. cbn [w_idx w_pages].
    destruct f as [|t|t]; reflexivity.
  - unfold wear_init, as_cell. cbn [w_idx w_pages]. 
    destruct f as [|t|t]; cbn [lazy_run lazy_step]; unfold lazy_init; cbn [c_sentinel]; change (0 =? 1) with false; cbn [negb];
      generalize (align ps); intros [k|]; cbn [c_value]; reflexivity.
Qed.
Lemma wear_run os : forall w, snd (lazy_run align (as_cell w, w_pages w) (flat_map wear_events os)) = (as_cell (wop_run w os), w_pages (wop_run w os)).
Proof.
  induction os as [|o os IH]; intros w; [reflexivity|]. cbn [flat_map]. rewrite lazy_run_app, wear_step. apply IH.
Qed.
