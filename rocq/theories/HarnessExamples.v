(** The recorded samples of the unit tests. *)
From Coq Require Import NArith ZArith Bool Arith List.
From Verif Require Import Base Flash Oracles Address AddressExamples HashDemo Codecs CodecsSpec Upload UploadSpec UploadExamples
  Baking BakingSpec Operations Device DeviceSpec DeviceDemo ServiceSpec AdminExamples StopExamples IdealSpec IdealReads Mock
  Harness HarnessSpec HarnessFacts.
Import ListNotations.
Open Scope N_scope.

Lemma test_flow C O es level p c pk samples : oracles_ok O -> roomy C 134 -> cf_baking C = true ->
  Forall event_ok es -> len es + 70 * (2 + len samples) < 2 ^ 64 ->
  let d := snd (run C O (dev_fresh [] []) es) in d_ui d = None ->
  let k := (c, map (fun n => 0x80000000 + n) p) in
  level < 2 ^ 32 -> Forall (fun n => n < 2 ^ 31) p -> p <> [] -> (length p <= 10)%nat ->
  addressable O k pk -> Forall (sample O k) samples ->
  let r := baking_flow C O level p c samples d in
  (fst r = true <-> rising (PEmmy level false) samples) /\
  (fst r = true -> exists gs, Forall2 (signs O k) samples gs /\ d_log (snd r) = rev gs ++ d_log d).
Proof. intros K R B. exact (flow_passes C O K R B es level p c pk samples). Qed.

(** rust/app/tests/signatory_samples.bin. *)
Definition recorded : list bytes :=
  [[19; 175; 24; 100; 217; 226; 40; 203; 12; 241; 172; 96; 95; 191; 214; 129; 152; 6; 230; 194; 29; 11; 87; 250; 252; 207; 160; 39; 227; 181; 108; 210; 110; 233; 137; 165; 45; 21; 0; 5; 0; 10; 27; 92; 0; 0; 0; 0; 103; 96; 148; 175; 153; 237; 145; 84; 247; 250; 35; 13; 102; 194; 22; 249; 112; 0; 33; 104; 213; 23; 240; 174; 71; 174; 190; 160; 67; 143; 13; 183];
   [17; 175; 24; 100; 217; 0; 10; 27; 93; 2; 116; 230; 208; 143; 146; 250; 160; 211; 173; 242; 45; 197; 83; 93; 60; 156; 135; 253; 211; 233; 105; 149; 248; 127; 61; 157; 8; 78; 44; 121; 88; 163; 0; 0; 0; 0; 98; 161; 36; 30; 4; 13; 238; 90; 27; 108; 67; 135; 41; 42; 185; 152; 200; 78; 139; 185; 126; 213; 54; 28; 50; 152; 15; 87; 166; 255; 20; 255; 35; 84; 90; 60; 139; 0; 0; 0; 33; 0; 0; 0; 1; 2; 0; 0; 0; 4; 0; 10; 27; 93; 0; 0; 0; 0; 0; 0; 0; 4; 255; 255; 255; 255; 0; 0; 0; 4; 0; 0; 0; 0; 202; 169; 160; 148; 62; 75; 65; 94; 124; 102; 235; 34; 193; 155; 0; 69; 166; 230; 60; 150; 188; 218; 152; 82; 252; 141; 36; 117; 2; 193; 246; 124; 46; 173; 221; 152; 222; 101; 0; 63; 174; 172; 225; 68; 76; 140; 70; 146; 105; 228; 72; 156; 113; 144; 76; 173; 8; 73; 253; 14; 219; 43; 97; 69; 0; 0; 0; 0; 109; 156; 250; 53; 154; 1; 12; 0; 0; 0];
   [18; 175; 24; 100; 217; 116; 230; 208; 143; 146; 250; 160; 211; 173; 242; 45; 197; 83; 93; 60; 156; 135; 253; 211; 233; 105; 149; 248; 127; 61; 157; 8; 78; 44; 121; 88; 163; 20; 0; 0; 0; 10; 27; 93; 0; 0; 0; 0; 46; 173; 221; 152; 222; 101; 0; 63; 174; 172; 225; 68; 76; 140; 70; 146; 105; 228; 72; 156; 113; 144; 76; 173; 8; 73; 253; 14; 219; 43; 97; 69];
   [19; 175; 24; 100; 217; 116; 230; 208; 143; 146; 250; 160; 211; 173; 242; 45; 197; 83; 93; 60; 156; 135; 253; 211; 233; 105; 149; 248; 127; 61; 157; 8; 78; 44; 121; 88; 163; 21; 0; 0; 0; 10; 27; 93; 0; 0; 0; 0; 46; 173; 221; 152; 222; 101; 0; 63; 174; 172; 225; 68; 76; 140; 70; 146; 105; 228; 72; 156; 113; 144; 76; 173; 8; 73; 253; 14; 219; 43; 97; 69];
   [17; 175; 24; 100; 217; 0; 10; 27; 94; 2; 189; 102; 155; 184; 19; 230; 173; 28; 99; 201; 34; 85; 156; 221; 165; 73; 47; 42; 113; 174; 11; 152; 236; 71; 117; 190; 132; 239; 179; 247; 232; 183; 0; 0; 0; 0; 98; 161; 36; 45; 4; 64; 141; 121; 93; 140; 9; 104; 97; 216; 196; 144; 82; 1; 66; 120; 136; 91; 58; 168; 181; 106; 30; 161; 231; 168; 106; 40; 104; 90; 193; 51; 186; 0; 0; 0; 33; 0; 0; 0; 1; 2; 0; 0; 0; 4; 0; 10; 27; 94; 0; 0; 0; 0; 0; 0; 0; 4; 255; 255; 255; 255; 0; 0; 0; 4; 0; 0; 0; 0; 155; 75; 141; 99; 71; 255; 101; 6; 239; 135; 68; 148; 36; 96; 135; 90; 13; 110; 194; 126; 60; 1; 153; 167; 20; 146; 170; 153; 8; 183; 140; 145; 66; 169; 250; 224; 0; 152; 111; 228; 198; 86; 254; 179; 60; 154; 201; 196; 45; 108; 230; 185; 34; 82; 63; 68; 119; 214; 85; 2; 82; 134; 121; 138; 0; 0; 0; 0; 109; 156; 250; 53; 18; 76; 3; 0; 0; 0];
   [18; 175; 24; 100; 217; 189; 102; 155; 184; 19; 230; 173; 28; 99; 201; 34; 85; 156; 221; 165; 73; 47; 42; 113; 174; 11; 152; 236; 71; 117; 190; 132; 239; 179; 247; 232; 183; 20; 0; 0; 0; 10; 27; 94; 0; 0; 0; 0; 66; 169; 250; 224; 0; 152; 111; 228; 198; 86; 254; 179; 60; 154; 201; 196; 45; 108; 230; 185; 34; 82; 63; 68; 119; 214; 85; 2; 82; 134; 121; 138]].
(** rust/app/tests/baking.rs l.66-70 and l.95-103. *)
Definition blob : bytes :=
  [17; 0; 0; 0; 0; 0; 0; 0; 123; 42; 0; 0; 0; 0; 0; 0; 0; 0; 0; 0; 0; 0; 0; 0; 0; 0; 0; 0; 0; 0; 0; 0; 0; 0; 0; 0; 0; 0; 0; 0; 0; 0; 0; 0; 0; 0; 0; 0; 0; 0; 0; 0; 0; 0; 0; 0; 0; 0; 0; 0; 0; 0; 0; 0; 0; 0; 0; 0; 0; 0; 0; 0; 0; 0; 0; 0; 0; 0; 0; 0; 0; 0; 0; 0; 0; 0; 9; 2; 2; 2; 2; 2; 0; 0; 1; 200].
Definition emmy_blob : bytes :=
  [2; 0; 0; 0; 0; 0; 0; 0; 0; 0; 0; 0; 0; 0; 0; 0; 0; 0; 0; 0; 0; 0; 0; 0; 0; 0; 0; 0; 0; 0; 0; 0; 0; 0; 0; 0; 0; 0; 0; 0; 0; 123].
Definition tb_preendorsement : bytes :=
  [18; 0; 0; 0; 0; 0; 0; 0; 0; 0; 0; 0; 0; 0; 0; 0; 0; 0; 0; 0; 0; 0; 0; 0; 0; 0; 0; 0; 0; 0; 0; 0; 0; 0; 0; 0; 0; 20; 0; 0; 0; 0; 16; 146; 0; 0; 1; 200; 0; 0; 0; 0; 0; 0; 0; 0; 0; 0; 0; 0; 0; 0; 0; 0; 0; 0; 0; 0; 0; 0; 0; 0; 0; 0; 0; 0; 0; 0; 0; 0].
Definition tb_endorsement : bytes :=
  [19; 0; 0; 0; 0; 0; 0; 0; 0; 0; 0; 0; 0; 0; 0; 0; 0; 0; 0; 0; 0; 0; 0; 0; 0; 0; 0; 0; 0; 0; 0; 0; 0; 0; 0; 0; 0; 21; 0; 0; 0; 0; 16; 146; 0; 0; 1; 200; 0; 0; 0; 0; 0; 0; 0; 0; 0; 0; 0; 0; 0; 0; 0; 0; 0; 0; 0; 0; 0; 0; 0; 0; 0; 0; 0; 0; 0; 0; 0; 0].
(** rust/app/tests/baking.rs l.26-27. *)
Definition test_path : list N := [44; 1729; 0; 0].
Definition test_curve : curve := Bip32Ed25519.
Definition test_key : key := (test_curve, map (fun n => 0x80000000 + n) test_path).

(** A sample, decided. *)
Definition sampleb (k : key) (m : bytes) : bool :=
  bytes_okb m && existsb (N.eqb (nth 0 m 0)) [0x01; 0x02; 0x11; 0x12; 0x13] &&
  (2 + 4 * length (snd k) + length m <=? CAPACITY)%nat.
Lemma sampleb_ok k m : sampleb k m = true -> sample demo_oracles k m.
Proof.
  unfold sampleb. rewrite !andb_true_iff. intros [[H1 H2] H3]. constructor.
  - now apply bytes_okb_ok.
  - apply existsb_exists in H2 as (b & Hb & E). apply N.eqb_eq in E. rewrite E. exact Hb.
  - now apply Nat.leb_le.
  - eexists. eexists. split; reflexivity.
Qed.
Fixpoint risingb (w : cpos) (ms : list bytes) : bool :=
  match ms with
  | [] => true
  | m :: ms' => match consensus_in m with
                | Position q => (cpos_level q <? 2 ^ 31) && later q w && risingb q ms'
                | _ => false
                end
  end.
Lemma risingb_ok ms : forall w, risingb w ms = true -> rising w ms.
Proof.
  induction ms as [|m ms IH]; intros w H; [constructor|]. cbn [risingb] in H. destruct (consensus_in m) as [q| |] eqn:E; try discriminate.
  apply andb_true_iff in H as [H1 H]. apply andb_true_iff in H1 as [H1 H2].
  apply (rising_cons w m q ms E); [now apply N.ltb_lt|now apply later_iff|now apply IH].
Qed.

(** The recorded flow and the two other tests of rust/app/tests/baking.rs. *)
Definition tests : list (list bytes) := [recorded; [blob]; [emmy_blob; tb_preendorsement; tb_endorsement]].
Definition passes (ms : list bytes) : bool :=
  fst (baking_flow demo_config demo_oracles 0 test_path test_curve ms (dev_fresh [] [])).

Lemma recorded_case :
  oracles_ok demo_oracles /\ roomy demo_config 134 /\ cf_baking demo_config = true /\
  0 + 70 * (2 + len recorded) < 2 ^ 64 /\ d_ui (dev_fresh [] []) = None /\
  Forall (fun n => n < 2 ^ 31) test_path /\ addressable demo_oracles test_key (demo_pubkey test_curve (snd test_key)) /\
  Forall (Forall (sample demo_oracles test_key)) tests /\ Forall (rising (PEmmy 0 false)) tests /\
  map passes tests = [true; true; true] /\
  map passes [rev recorded; recorded ++ recorded; skipn 1 recorded ++ [emmy_blob]; [repeat 0x11 40]] = [false; false; false; false].
Proof.
  split; [exact demo_oracles_ok|]. split; [exact room_134|]. split; [reflexivity|]. split; [reflexivity|]. split; [reflexivity|].
  split; [repeat (constructor; [reflexivity|]); constructor|]. split; [apply demo_addressable|].
  split.
  - assert (X : forallb (forallb (sampleb test_key)) tests = true) by (vm_compute; reflexivity).
    rewrite forallb_forall in X. apply Forall_forall. intros l Hl. specialize (X l Hl). rewrite forallb_forall in X.
    apply Forall_forall. intros m Hm. exact (sampleb_ok _ _ (X m Hm)).
  - split.
    + assert (X : forallb (risingb (PEmmy 0 false)) tests = true) by (vm_compute; reflexivity).
      rewrite forallb_forall in X. apply Forall_forall. intros l Hl. exact (risingb_ok _ _ (X l Hl)).
    + split; vm_compute; reflexivity.
Qed.
