(** A base58 text is determined by what it reads as. *)
From Coq Require Import List NArith ZArith Lia Bool ZifyBool ZifyNat ZifyN.
From Verif Require Import Base BaseFacts Codecs Oracles Address AddressSpec AddressFacts.
Import ListNotations.
Open Scope N_scope.

Lemma index_bound c l d : index_of c l = Some d -> d < len l.
Proof.
  revert d. induction l as [|x l IH]; intros d; cbn [index_of]; [discriminate|].
  unfold len. cbn [length]. destruct (x =? c); [intros H; injection H as <-; lia|].
  destruct (index_of c l) as [e|]; cbn [option_map]; [|discriminate]. intros H; injection H as <-.
  specialize (IH e eq_refl). unfold len in IH. lia.
Qed.
Lemma index_same a b l d : index_of a l = Some d -> index_of b l = Some d -> a = b.
Proof.
  revert d. induction l as [|x l IH]; intros d; cbn [index_of]; [discriminate|].
  destruct (N.eqb_spec x a) as [->|Ha], (N.eqb_spec a b) as [->|Hb]; auto.
  - intros H1. destruct (a =? b) eqn:E; [lia|]. destruct (index_of b l); cbn [option_map]; [|discriminate].
    intros H2. rewrite <- H1 in H2. injection H2. lia.
  - destruct (N.eqb_spec x b) as [->|Hx].
    + destruct (index_of a l); cbn [option_map]; [|discriminate]. intros H1 H2. rewrite <- H2 in H1. injection H1. lia.
    + destruct (index_of a l) as [e|] eqn:E1, (index_of b l) as [f|] eqn:E2; cbn [option_map]; try discriminate.
      intros H1 H2. apply (IH e eq_refl). rewrite <- H2 in H1. injection H1. intros. f_equal. lia.
Qed.

Lemma text_value_snoc t c acc : text_value acc (t ++ [c]) =
  match text_value acc t, index_of c base58_digits with Some v, Some d => Some (v * 58 + d) | _, _ => None end.
Proof.
  revert acc. induction t as [|x t IH]; intros acc.
  - cbn [app text_value]. destruct (index_of c base58_digits); reflexivity.
  - cbn [app]. change (text_value acc (x :: t ++ [c])) with
      (match index_of x base58_digits with None => None | Some d => text_value (acc * 58 + d) (t ++ [c]) end).
    cbn [text_value]. destruct (index_of x base58_digits) as [d|]; [apply IH|reflexivity].
Qed.
Lemma index_one : index_of 49 base58_digits = Some 0.
Proof. reflexivity. Qed.

(** The text is made of ones if the number is zero, and only then. *)
Lemma leading_of_zero t : text_value 0 t = Some 0 -> leading 49 t = length t.
Proof.
  induction t as [|x t IH]; [reflexivity|]. cbn [text_value leading length].
  destruct (index_of x base58_digits) as [d|] eqn:E; [|discriminate]. change (0 * 58 + d) with d.
  intros H.
  assert (G : forall t acc v, text_value acc t = Some v -> acc <= v).
  { clear. induction t as [|x t IH]; intros acc v; cbn [text_value]; [intros H; injection H; lia|].
    destruct (index_of x base58_digits) as [d|]; [|discriminate]. intros H. specialize (IH _ _ H). lia. }
  pose proof (G _ _ _ H) as L. assert (d = 0) by lia. subst d.
  assert (x = 49) by (eapply index_same; [exact E|exact index_one]). subst x.
  change (49 =? 49) with true. cbv iota. f_equal. apply IH, H.
Qed.
Lemma leading_snoc t c : leading 49 t <> length t -> leading 49 (t ++ [c]) = leading 49 t.
Proof.
  induction t as [|x t IH]; cbn [leading length app]; [congruence|]. destruct (x =? 49); [|reflexivity].
  intros H. rewrite IH; congruence.
Qed.
Lemma leading_ones t c : leading 49 t = length t -> leading 49 (t ++ [c]) = (length t + if N.eqb c 49 then 1 else 0)%nat.
Proof.
  induction t as [|x t IH]; cbn [leading length app]; [destruct (c =? 49); reflexivity|].
  destruct (x =? 49); [|discriminate]. intros H. rewrite IH by congruence. reflexivity.
Qed.
Lemma ones_zero t v : text_value 0 t = Some v -> leading 49 t = length t -> v = 0.
Proof.
  revert v. induction t as [|x t IH]; intros v; [intros H; injection H as <-; reflexivity|].
  cbn [text_value leading length]. destruct (N.eqb_spec x 49) as [->|]; [|discriminate].
  rewrite index_one. change (0 * 58 + 0) with 0. intros H L. apply IH; congruence.
Qed.

Lemma value_determines s : forall t v, text_value 0 s = Some v -> text_value 0 t = Some v ->
  leading 49 s = leading 49 t -> s = t.
Proof.
  induction s as [|c s IH] using rev_ind; intros t v Hs Ht L.
  - cbn [text_value] in Hs. injection Hs as <-. apply leading_of_zero in Ht. destruct t; [reflexivity|].
    rewrite Ht in L. discriminate.
  - destruct t as [|e t _] using rev_ind.
    + cbn [text_value] in Ht. injection Ht as <-. apply leading_of_zero in Hs. rewrite Hs, app_length in L.
      cbn [leading length] in L. lia.
    + rewrite text_value_snoc in Hs, Ht.
      destruct (text_value 0 s) as [a|] eqn:Es; [|discriminate]. destruct (text_value 0 t) as [b|] eqn:Et; [|discriminate].
      destruct (index_of c base58_digits) as [x|] eqn:Ex; [|discriminate].
      destruct (index_of e base58_digits) as [y|] eqn:Ey; [|discriminate].
      pose proof (index_bound _ _ _ Ex) as Bx. pose proof (index_bound _ _ _ Ey) as By.
      change (len base58_digits) with 58 in Bx, By.
      injection Hs as Hs. injection Ht as Ht. assert (a = b) by lia. assert (x = y) by lia. subst b y.
      assert (c = e) by (eapply index_same; eassumption). subst e. f_equal.
      apply (IH t a eq_refl Et).
      destruct (Nat.eq_dec (leading 49 s) (length s)) as [E1|E1].
      * pose proof (ones_zero _ _ Es E1). subst a. pose proof (leading_of_zero _ Et) as E2.
        rewrite (leading_ones _ _ E1), (leading_ones _ _ E2) in L. lia.
      * destruct (Nat.eq_dec (leading 49 t) (length t)) as [E2|E2].
        { pose proof (ones_zero _ _ Et E2). subst a. apply leading_of_zero in Es. contradiction. }
        rewrite (leading_snoc _ _ E1), (leading_snoc _ _ E2) in L. exact L.
Qed.
Lemma reads58_text s t l : reads58 s l -> reads58 t l -> s = t.
Proof. intros [A B] [C D]. eapply value_determines; [exact A|exact C|congruence]. Qed.
