(** Property theorems C35, C36 and C38: paging of texts, amounts, names of bakers. *)
From Coq Require Import String List NArith Arith Bool.
From Verif Require Import Base Text TextSpec TextExamples Address AddressSpec
  Bakers BakersSpec BakersFacts KnownBakers.
Import ListNotations.
Open Scope N_scope.

(** C35. The pages of a text [t] (with or without the NUL that ends literals) are all
    shown, each in a terminated buffer of the screen's size, and put together are
    [t]. *)
Theorem C35_pages_show_the_text : forall t item out,
  text_of t item -> (2 <= List.length out)%nat ->
  let m := len out - 1 in
  exists buffers,
    Forall2 (fun p b => exists k, ui_message item out (N.of_nat p) = VOk (b, k)
                               /\ List.length b = List.length out /\ In 0 b)
      (seq 0 (N.to_nat (pages m item))) buffers
    /\ concat (map cstr buffers) = t.
Proof. exact pages_show. Qed.
Print Assumptions C35_pages_show_the_text.

(** Page [p] shows the characters from [p * m] on. *)
Theorem C35_each_page : forall t item out p,
  text_of t item -> (2 <= List.length out)%nat ->
  let m := len out - 1 in p < pages m item ->
  exists b k, ui_message item out p = VOk (b, k) /\ List.length b = List.length out /\ In 0 b
           /\ cstr b = page m p t.
Proof. exact ui_message_shows. Qed.
Print Assumptions C35_each_page.

(** Page numbers past the end are refused, or show a text that fits one screen. *)
Theorem C35_pages_past_the_end : forall item out p, (2 <= List.length out)%nat ->
  let m := len out - 1 in pages m item <= p ->
  ui_message item out p = if len item <? m then ui_message item out 0 else VErr Unknown.
Proof. exact page_past. Qed.
Print Assumptions C35_pages_past_the_end.

(** The announced number of pages is right unless the length is a multiple of the
    screen or 255 screens are not enough. *)
Theorem C35_announced_pages : forall item out p b k, (2 <= List.length out)%nat ->
  let m := len out - 1 in
  ui_message item out p = VOk (b, k) ->
  len item < 255 * m -> (len item = 0 \/ len item mod m <> 0) -> k = pages m item.
Proof. exact announced. Qed.
Print Assumptions C35_announced_pages.

Example C35_case : text_of an_address an_address /\ pages 34 an_address = 2 /\
  ui_message an_address nanos_buffer 0 = VOk (str "tz1eY5Aqa1kXDFoiebL28emyXFoneAoVg1" ++ [0], 2) /\
  ui_message an_address nanos_buffer 1 = VOk (str "zh" ++ zeros 33, 2) /\
  ui_message an_address nanos_buffer 2 = VErr Unknown.
Proof. exact address_pages. Qed.

(** For a text of exactly [j] screens one page too many is announced, and that page is
    refused. *)
Theorem C35_multiple_refuted : forall item out j, (2 <= List.length out)%nat ->
  let m := len out - 1 in
  len item = j * m -> 0 < j < 255 ->
  (exists b, ui_message item out 0 = VOk (b, pages m item + 1))
  /\ ui_message item out (pages m item) = VErr Unknown.
Proof. exact multiple_overcounted. Qed.
Print Assumptions C35_multiple_refuted.

Example C35_multiple_case : let item := repeat 48 34 in
  pages 34 item = 1 /\ ui_message item nanos_buffer 0 = VOk (item ++ [0], 2) /\
  ui_message item nanos_buffer 1 = VErr Unknown.
Proof. exact thirty_four. Qed.
(** A text of 256 screens announces none. *)
Example C35_zero_case : let item := repeat 48 (N.to_nat 8671) in
  pages 34 item = 256 /\ exists b, ui_message item nanos_buffer 0 = VOk (b, 0).
Proof. exact announced_zero. Qed.

(** C36. A digit string is formatted as its number divided by [10^d]: one or more
    integer digits without superfluous zeros, and [d] fractional digits. *)
Theorem C36_fixed_point : forall ds junk d, all_digits ds -> proper ds ->
  let buf := ds ++ 0 :: junk in
  (d = 0 \/ Nat.max (List.length (strip ds)) (d + 1) + 1 <= List.length buf)%nat ->
  exists t, fpstr buf d = FOk t /\ shows_decimal d (dec ds) t.
Proof. exact TextFacts.fpstr_ok. Qed.
Print Assumptions C36_fixed_point.

(** As used by the screens: the digits of [v] in a buffer of zeros. *)
Theorem C36_amounts : forall v d size, (List.length (itoa v) < size)%nat ->
  (d = 0 \/ Nat.max (List.length (itoa v)) (d + 1) + 1 <= size)%nat ->
  exists t, fpstr (itoa v ++ zeros (size - List.length (itoa v))) d = FOk t /\ shows_decimal d v t.
Proof. exact amount_shown. Qed.
Print Assumptions C36_amounts.

(** A smaller buffer never gives a wrong text: the program stops. *)
Theorem C36_small_buffers : forall ds junk d, all_digits ds -> proper ds ->
  let buf := ds ++ 0 :: junk in
  (d <> 0 -> List.length buf < Nat.max (List.length (strip ds)) (d + 1) + 1 ->
   fpstr buf d = FPanic)%nat.
Proof. exact TextFacts.fpstr_small. Qed.
Print Assumptions C36_small_buffers.

(** A buffer without a zero at the end, or with something else than a digit before the
    first digit other than zero, is refused. *)
Theorem C36_full_buffers : forall s d, Forall (fun c => c <> 0) s -> fpstr s d = FErr.
Proof. exact TextFacts.fpstr_full. Qed.
Print Assumptions C36_full_buffers.
Theorem C36_letters : forall n c t junk d, ~ is_digit c -> Forall (fun c => c <> 0) (c :: t) ->
  fpstr (repeat 48 n ++ c :: t ++ 0 :: junk) d = FErr.
Proof. exact TextFacts.fpstr_letters. Qed.
Print Assumptions C36_letters.
Example C36_refusal_cases :
  fpstr (str "1500000" ++ zeros 1) 6 = FOk (str "1.500000") /\
  fpstr (str "150" ++ zeros 4) 6 = FPanic /\
  fpstr (str "1500000") 6 = FErr /\
  fpstr (str "00x5" ++ zeros 20) 6 = FErr.
Proof. exact refusal_examples. Qed.

(** Two amounts have the same text only if they are equal. *)
Theorem C36_amounts_differ : forall v v' d t t',
  shows_decimal d v t -> shows_decimal d v' t' -> (t = t' <-> v = v').
Proof. exact amount_text. Qed.
Print Assumptions C36_amounts_differ.

Example C36_case :
  fpstr (str "1500000" ++ zeros 3) 6 = FOk (str "1.500000") /\
  fpstr (str "7" ++ zeros 8) 6 = FOk (str "0.000007") /\
  fpstr (str "0" ++ zeros 8) 6 = FOk (str "0.000000") /\
  fpstr (str "0042" ++ zeros 8) 1 = FOk (str "4.2").
Proof. exact amount_examples. Qed.

(** Several zeros and nothing else are formatted wrongly or stop the program. *)
Theorem C36_zeros_refuted :
  fpstr (str "00" ++ zeros 20) 6 = FOk (str ".000000") /\
  fpstr (str "000" ++ zeros 20) 6 = FPanic /\
  fpstr (str "0000000" ++ zeros 20) 6 = FOk (str "0.").
Proof. exact zeros_wrong. Qed.
Print Assumptions C36_zeros_refuted.
Theorem C36_zeros_not_numbers_refuted : forall v,
  ~ shows_decimal 6 v (str ".000000") /\ ~ shows_decimal 6 v (str "0.").
Proof. exact no_point_not_shown. Qed.
Print Assumptions C36_zeros_not_numbers_refuted.

(** C38. In a sorted table the search finds a key exactly if it is there. *)
Theorem C38_search_sorted_table : forall t p h, sorted t ->
  match baker_lookup t p h with
  | Some n => exists b, In b t /\ bk_key b = (p, h) /\ bk_name b = n
  | None => forall b, In b t -> bk_key b <> (p, h)
  end.
Proof. exact lookup_spec. Qed.
Print Assumptions C38_search_sorted_table.

(** The table made from a registry of addresses is found to contain the registered
    names and nothing else. *)
Theorem C38_lookup_is_registered : forall registry p h, addresses registry ->
  bytes_ok (p ++ h) -> List.length p = 3%nat -> List.length h = 20%nat ->
  exists t, build_table registry = Some t /\
  match baker_lookup t p h with
  | Some n => registered registry p h n
  | None => forall n, ~ registered registry p h n
  end.
Proof. exact lookup_registered. Qed.
Print Assumptions C38_lookup_is_registered.

(** If no address has two names, the lookup gives the name. *)
Theorem C38_lookup_exact : forall registry p h, addresses registry -> consistent registry ->
  bytes_ok (p ++ h) -> List.length p = 3%nat -> List.length h = 20%nat ->
  exists t, build_table registry = Some t /\
  forall n, baker_lookup t p h = Some n <-> registered registry p h n.
Proof. exact lookup_consistent. Qed.
Print Assumptions C38_lookup_exact.

(** The built-in table. One address has two names. *)
Theorem C38_known_bakers : forall p h,
  bytes_ok (p ++ h) -> List.length p = 3%nat -> List.length h = 20%nat ->
  match baker_lookup known p h with
  | Some n => registered registry p h n
  | None => forall n, ~ registered registry p h n
  end.
Proof. exact known_lookup_any. Qed.
Print Assumptions C38_known_bakers.
Theorem C38_known_bakers_exact : forall p h n,
  bytes_ok (p ++ h) -> List.length p = 3%nat -> List.length h = 20%nat -> h <> twice_hash ->
  (baker_lookup known p h = Some n <-> registered registry p h n).
Proof. exact known_lookup. Qed.
Print Assumptions C38_known_bakers_exact.

Example C38_case : baker_lookup known [6; 161; 159] everstake_hash = Some (str "Everstake") /\
  baker_lookup known [6; 161; 161] everstake_hash = None /\ List.length known = 125%nat /\
  List.length everstake_hash = 20%nat /\ bytes_ok ([6; 161; 159] ++ everstake_hash) /\
  everstake_hash <> twice_hash.
Proof. exact everstake_found. Qed.
Example C38_exact_case : addresses two_bakers /\ consistent two_bakers.
Proof. exact two_bakers_consistent. Qed.
Example C38_built_case : build_table registry = Some known /\ addresses registry /\ sorted known.
Proof. exact (conj known_built (conj registry_addresses (build_sorted registry known known_built))). Qed.

(** The built-in registry names one address twice, so it cannot be exact there. *)
Theorem C38_two_names_refuted : ~ consistent registry /\
  registered registry [6; 161; 159] twice_hash (str "Money every 3 days") /\
  registered registry [6; 161; 159] twice_hash (str "Money Every 3 Days").
Proof. exact two_names. Qed.
Print Assumptions C38_two_names_refuted.
