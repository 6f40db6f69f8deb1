(** Some of the project's own test vectors (zemu/test-vectors), computed with the model:
    operation, number and kinds of the parsed operations, branch and all rows. *)
From Coq Require Import NArith ZArith Bool Arith Ascii String List.
From Verif Require Import Base Codecs Baking Oracles Address AddressExamples Operations Text Bakers Device Screens KnownBakers TextExamples DeviceDemo.
Import ListNotations.
Open Scope N_scope.
Open Scope string_scope.

Definition nibble (c : ascii) : N := let n := N_of_ascii c in if (n <? 58)%N then (n - 48)%N else (n - 87)%N.
Fixpoint unhex (s : string) : bytes :=
  match s with String a (String b t) => (16 * nibble a + nibble b)%N :: unhex t | _ => [] end.

Definition kind_of (o : op) : string :=
  match o with
  | OTransfer _ _ _ _ => "transaction" | ODelegation _ _ => "delegation" | OReveal _ _ => "reveal"
  | OOrigination _ _ _ _ _ => "origination" | OEndorsement _ => "endorsement"
  | OEndorsementWithSlot _ _ _ _ => "endorsement_with_slot" | OBallot _ _ _ _ => "ballot"
  | OProposals _ _ _ => "proposals" | OActivate _ _ => "activate_account" | OFailingNoop _ => "failing_noop"
  | OAnonymous => "seed_nonce_revelation" | OUnknown _ => "unknown"
  end.
Definition row_agrees (x : vres item) (e : string * string) : bool :=
  match x with
  | VOk (Item t (VOk m)) => bytes_eqb (cstr t) (str (fst e)) && bytes_eqb (cstr m) (str (snd e))
  | _ => false
  end.
Definition agrees (v : string * string * list string * option (list (string * string))) : bool :=
  let '(blob, branch, kinds, rows) := v in
  match operation_new (unhex blob) with
  | None => false
  | Some (br, e) =>
    match branch_text demo_oracles br, eo_all (batch_fuel e) e with
    | SOk t, AllOk os =>
      bytes_eqb (cstr t) (str branch) && (if list_eq_dec string_dec (map kind_of os) kinds then true else false) &&
      match rows with
      | None => true
      | Some rs =>
        let w := VSign false [] (Some (br, e)) [] in
        match view_items w with VOk k => (k =? N.of_nat (List.length rs))%N | _ => false end &&
        forallb (fun p => row_agrees (view_item demo_oracles known 64 w (N.of_nat (fst p))) (snd p))
          (combine (seq 0 (List.length rs)) rs)
      end
    | _, _ => false
    end
  end.

Definition vectors : list (string * string * list string * option (list (string * string))) := [
  (* activation.json: Simple Account Activation #0 *)
  ("a5afb5e96c1af581bcc19ace9da7d2fe7a034aa080b4e55ef094ddb1ff2c48b2049a6090844356d979899622d85ba1602740fcaa84d64537bdf3f6ed8c314075d22f2e03ab867448e1",
   "BLyFa6vTazhbnJfbUPzniBxCVAd9zVjnPxtNX4wWiAc4Hh5RzwL", ["activate_account"],
   Some [
     ("Operation", "BLyFa6vTazhbnJfbUPzniBxCVAd9zVjnPxtNX4wWiAc4Hh5RzwL");
     ("Type", "Acct. Activation");
     ("Public Key Hash", "tz1ZiJS5gAXD5nrBtUd2YW3BaELJAPou1fmH");
     ("Secret", "d64537bdf3f6ed8c314075d22f2e03ab867448e1")]);
  (* ballot.json: Simple Ballot #0 *)
  ("efda90da510cfd93d21cbff8ff233cb533035c6aa7802838d8f3cd12d214689906009a6090844356d979899622d85ba1602740fcaa8400000000cbb944f74244ea2681981f25995f8ebba8ff6cee8c036892fe901cb760c4e39e00",
   "BMXv5Vi3SjLsodZyUSstYbJ9Fzeu5wWbuJnCu5rTPbkUwDp5E21", ["ballot"],
   Some [
     ("Operation", "BMXv5Vi3SjLsodZyUSstYbJ9Fzeu5wWbuJnCu5rTPbkUwDp5E21");
     ("Type", "Ballot");
     ("Source", "tz1ZiJS5gAXD5nrBtUd2YW3BaELJAPou1fmH");
     ("Period", "0");
     ("Proposal", "PtGRANADsDU8R9daYKAgWnQYAJ64omN1o3KMGVCykShA97vQbvV");
     ("Vote", "yay")]);
  (* delegation.json: Simple Delegation #0 *)
  ("1bb9a0d1ded53abdfc8add21f55a852b4fd5e661984155fa460a039a4234b9376e009a6090844356d979899622d85ba1602740fcaa848c03b7f50ecc0800ff00cf49f66b9ea137e11818f2a78b4b6fc9895b4e50",
   "BKvVY4VJi769Yo8AB5MSgcrqwnqiUerAxZ6yV7aLPH5YRivrTRx", ["delegation"],
   Some [
     ("Operation", "BKvVY4VJi769Yo8AB5MSgcrqwnqiUerAxZ6yV7aLPH5YRivrTRx");
     ("Type", "Delegation");
     ("Source", "tz1ZiJS5gAXD5nrBtUd2YW3BaELJAPou1fmH");
     ("Delegation", "Obsidian");
     ("Fee", "0.000396");
     ("Gas Limit", "1100");
     ("Storage Limit", "0");
     ("Counter", "244407")]);
  (* endorsement.json: Simple Endorsement #0 *)
  ("ccdf4f4df413ba76836270e8b679cce20234f229f03d740e56b9cfcdb0a4ece90000000000",
   "BMGWXKnWKSopuerabeAtwFwJoJFVnPYhynkGavYwq6cdaqK9L2M", ["endorsement"],
   Some [
     ("Operation", "BMGWXKnWKSopuerabeAtwFwJoJFVnPYhynkGavYwq6cdaqK9L2M");
     ("Type", "Endorsement");
     ("Level", "0")]);
  (* legacy.json: Simple TX #3 *)
  ("b1ada21e68250eeaed13b65e2f4888061a81949d0568362b4a230b88ca98560c6c009a6090844356d979899622d85ba1602740fcaa84b903b7f50ef00b8102904e00018907e2009bc7da38c9cf0cf97bb331ef86d5392b00",
   "BM4XtU2nfqntjCpiHDLk5pL9icXqGSswmKvMUhLfrLE16zj1BsK", ["transaction"],
   Some [
     ("Operation", "BM4XtU2nfqntjCpiHDLk5pL9icXqGSswmKvMUhLfrLE16zj1BsK");
     ("Type", "Transaction");
     ("Source", "tz1ZiJS5gAXD5nrBtUd2YW3BaELJAPou1fmH");
     ("Destination", "tz2LongKpD5pxHHK5FmvDKvFAFJ2wzsujrZP");
     ("Amount", "0.010000");
     ("Fee", "0.000441");
     ("Parameters", "no parameters...");
     ("Gas Limit", "1520");
     ("Storage Limit", "257");
     ("Counter", "244407")]);
  (* origination.json: Simple Origination #3 *)
  ("8369222ddb080b87ba8540374fa22d81d6d0d97cfc6ba10474e1bd6760f142a26d009a6090844356d979899622d85ba1602740fcaa84904ebaf50e0a0a03ff02792d0b9d857f711e03998bd0a2f219c053704bae00000011020000000c0500036c0501036c0502030200000002030b",
   "BLiA3ZdkzYdn59Zgz4RkLrC5hubUFkXv29jaggQDzb3AeQiHCpe", ["origination"],
   Some [
     ("Operation", "BLiA3ZdkzYdn59Zgz4RkLrC5hubUFkXv29jaggQDzb3AeQiHCpe");
     ("Type", "Origination");
     ("Source", "tz1ZiJS5gAXD5nrBtUd2YW3BaELJAPou1fmH");
     ("Balance", "0.000003");
     ("Delegate", "tz3XNmLgSyBTNH2mKWM71fCmLU5umMiBod3u");
     ("Fee", "0.010000");
     ("Code", "14aa2dc4debdb8dea6698a89d77f47ea3bced7af498ace553477012860db0c46");
     ("Storage", "ab2491c3b754d3ba49e93fb08892f7c6ac126efab9c7a77638009b7fe275af36");
     ("Gas Limit", "10");
     ("Storage Limit", "10");
     ("Counter", "244410")]);
  (* proposals.json: Simple Proposals #0 *)
  ("b2edbcafd1e6a3ccf0ada55d8e291be8dd01dd475233334bf22c1eb1c484e9ee05009a6090844356d979899622d85ba1602740fcaa8400000000000000403e5e3a606afab74a59ca09e333633e2770b6492c5e594455b71e9a2f0ea92afb4596285c6871691e25196c6a8d26d90a3ac91375731e3926103c517a13a0ba56",
   "BM55pywwm3TMe2rVaNU6eq1oBZL2SMqCDoqnp9XUH4hAs7raTdY", ["proposals"],
   Some [
     ("Operation", "BM55pywwm3TMe2rVaNU6eq1oBZL2SMqCDoqnp9XUH4hAs7raTdY");
     ("Type", "Proposals");
     ("Source", "tz1ZiJS5gAXD5nrBtUd2YW3BaELJAPou1fmH");
     ("Period", "0");
     ("Proposal #1", "PsCARTHAGazKbHtnKfLzQg3kms52kSRpgnDY982a9oYsSXRLQEb");
     ("Proposal #2", "PsFLorenaUUuikDWvMDr6fGBRG8kt3e3D3fHoXK1j1BFRxeSH4i")]);
  (* reveal.json: Simple Reveal #0 *)
  ("11e444147d2b24118a683c5dcf23fcfe7a4547bbb78e5bf85edb4007499881a86b01011b2295c8d30e31f5d231f26e551a63a81fd2b7f602c28a1dcc080001024be779908a4b3f78f457f75106748a75357717413010d2adcf1c377c6fa39da0",
   "BKrAMVc38UGFh29BgYg3BfYgEfHMYvDGSY7DYgS44QkBxDDWSu9", ["reveal"],
   Some [
     ("Operation", "BKrAMVc38UGFh29BgYg3BfYgEfHMYvDGSY7DYgS44QkBxDDWSu9");
     ("Type", "Revelation");
     ("Source", "tz28R5qucJUYPE3oo1gk2Qtd16EVXz9YKu8J");
     ("Public Key", "sppk7Zt4j5hS3FQcyLzbKnyY2XmiMZ8zV8DPPEyrLvdWhpSn1drhNfi");
     ("Fee", "0.000374");
     ("Gas Limit", "1100");
     ("Storage Limit", "0");
     ("Counter", "476482")]);
  (* seed.json: Simple Seed Nonce Revelation #0 *)
  ("22d56a3e3f94509f80132d6901ac4ebc8a3f00525b405765d01e03387d585fcd0100000000e004ce0c3edf0bef8101fb9aa43fd91ce4908120b1794fa649aad5fc967447bc",
   "BKyd7bTJskcNx6jAaX6ivjWDbT1Bm92QFbuAZz994UCYT3J85Kc", ["seed_nonce_revelation"],
   None)
].

Example vectors_agree : forallb agrees vectors = true.
Proof. vm_compute. reflexivity. Qed.

(** The requests of rust/app/tests/baking.rs:31-140 (baking_flow with the samples of
    signatory_samples.bin, zemu_tb_block_blob, zemu_endorsement_blob), each flow run on the
    model from a fresh device: all answers end in 0x9000. *)
Definition flow_path : path := [0x8000002C; 0x800006C1; 0x80000000; 0x80000000].
Definition flow (messages : list string) : list event :=
  [reset_to 0; send 0xA1 1 3 (path_serialize flow_path); EApprove]
  ++ List.concat (map (fun m => [send 0xAF 0 3 (path_serialize flow_path); send 0xAF 2 0 (unhex m)]) messages).
Definition succeeded (a : answer) : bool :=
  match a with
  | AReply r => bytes_eqb (skipn (List.length r - 2) r) [0x90; 0x00]%N
  | APending => true
  | _ => false
  end.
Definition flow_succeeds (messages : list string) : bool :=
  forallb succeeded (fst (run demo_config demo_oracles (dev_fresh [] []) (flow messages))).
Definition signatory_samples : list string := [
  (* endorsement 662364 *)
  "13af1864d9e228cb0cf1ac605fbfd6819806e6c21d0b57fafccfa027e3b56cd26ee989a52d150005000a1b5c00000000676094af99ed9154f7fa230d66c216f970002168d517f0ae47aebea0438f0db7";
  (* block 662365 *)
  "11af1864d9000a1b5d0274e6d08f92faa0d3adf22dc5535d3c9c87fdd3e96995f87f3d9d084e2c7958a30000000062a1241e040dee5a1b6c4387292ab998c84e8bb97ed5361c32980f57a6ff14ff23545a3c8b00000021000000010200000004000a1b5d0000000000000004ffffffff0000000400000000caa9a0943e4b415e7c66eb22c19b0045a6e63c96bcda9852fc8d247502c1f67c2eaddd98de65003faeace1444c8c469269e4489c71904cad0849fd0edb2b6145000000006d9cfa359a010c000000";
  (* preendorsement 662365 *)
  "12af1864d974e6d08f92faa0d3adf22dc5535d3c9c87fdd3e96995f87f3d9d084e2c7958a3140000000a1b5d000000002eaddd98de65003faeace1444c8c469269e4489c71904cad0849fd0edb2b6145";
  (* endorsement 662365 *)
  "13af1864d974e6d08f92faa0d3adf22dc5535d3c9c87fdd3e96995f87f3d9d084e2c7958a3150000000a1b5d000000002eaddd98de65003faeace1444c8c469269e4489c71904cad0849fd0edb2b6145";
  (* block 662366 *)
  "11af1864d9000a1b5e02bd669bb813e6ad1c63c922559cdda5492f2a71ae0b98ec4775be84efb3f7e8b70000000062a1242d04408d795d8c096861d8c49052014278885b3aa8b56a1ea1e7a86a28685ac133ba00000021000000010200000004000a1b5e0000000000000004ffffffff00000004000000009b4b8d6347ff6506ef8744942460875a0d6ec27e3c0199a71492aa9908b78c9142a9fae000986fe4c656feb33c9ac9c42d6ce6b922523f4477d655025286798a000000006d9cfa35124c03000000";
  (* preendorsement 662366 *)
  "12af1864d9bd669bb813e6ad1c63c922559cdda5492f2a71ae0b98ec4775be84efb3f7e8b7140000000a1b5e0000000042a9fae000986fe4c656feb33c9ac9c42d6ce6b922523f4477d655025286798a"].
Definition block_blob : list string := ["11000000000000007b2a00000000000000000000000000000000000000000000000000000000000000000000000000000000000000000000000000000000000000000000000000000000000000000000000000000000090202020202000001c8"].
Definition endorsement_blobs : list string := ["02000000000000000000000000000000000000000000000000000000000000000000000000000000007b";
  "1200000000000000000000000000000000000000000000000000000000000000000000000014000000001092000001c80000000000000000000000000000000000000000000000000000000000000000";
  "1300000000000000000000000000000000000000000000000000000000000000000000000015000000001092000001c80000000000000000000000000000000000000000000000000000000000000000"].
Example flows_succeed : forallb flow_succeeds [signatory_samples; block_blob; endorsement_blobs] = true.
Proof. vm_compute. reflexivity. Qed.

(** rust/app/src/handlers/utils.rs:341-371 (SUITE of intstr_to_fpstr_inplace). *)
Definition fp_suite : list (string * nat * string) := [
  ("1", 0%nat, "1");
  ("123", 0%nat, "123");
  ("123", 5%nat, "0.00123");
  ("1234", 5%nat, "0.01234");
  ("12345", 5%nat, "0.12345");
  ("123456", 5%nat, "1.23456");
  ("1234567", 5%nat, "12.34567");
  ("12345", 2%nat, "123.45");
  ("12", 0%nat, "12");
  ("12", 1%nat, "1.2");
  ("012", 1%nat, "1.2");
  ("0012345", 3%nat, "12.345");
  ("9", 6%nat, "0.000009");
  ("0", 0%nat, "0");
  ("00", 0%nat, "0");
  ("0000", 0%nat, "0");
  ("00001", 0%nat, "1");
  ("000011", 0%nat, "11");
  ("10000", 0%nat, "10000");
  ("", 0%nat, "0");
  ("", 1%nat, "0.0");
  ("", 2%nat, "0.00");
  ("", 5%nat, "0.00000");
  ("", 10%nat, "0.0000000000")].
Definition fp_agrees (x : string * nat * string) : bool :=
  let '(s, d, t) := x in
  match fpstr (app (str s) (zeros (d + 2))) d with FOk r => bytes_eqb r (str t) | _ => false end.
Example fp_suite_agrees : forallb fp_agrees fp_suite = true.
Proof. vm_compute. reflexivity. Qed.

(** rust/app/src/parser.rs:338-396 (parse_boolean, zarith). *)
Example boolean_test : map boolean [[255]; [0]; [123]]%N = [POk [] true; POk [] false; POk [] false].
Proof. vm_compute. reflexivity. Qed.
Definition zarith_test (sign : bool) (input : bytes) : option (nat * option bool * option (bool * N)) :=
  match zarith_parse sign input with
  | POk _ z => Some (List.length (z_bytes z), z_neg z, zarith_read_as 64 z)
  | _ => None
  end.
Example zarith_tests :
  zarith_test false [0x81; 0x11; 0x33]%N = Some (2%nat, None, Some (false, 0x881%N)) /\
  zarith_test false [0x0a]%N = Some (1%nat, None, Some (false, 0x0a%N)) /\
  zarith_test false [0x8a; 0x90; 0xf2; 0xe4; 0x88; 0x00]%N = Some (6%nat, None, Some (false, 0x8C9C880A%N)) /\
  zarith_test true [0xC3; 0x23]%N = Some (2%nat, Some true, Some (true, 0x8C3%N)) /\
  zarith_test true [0x83; 0x23]%N = Some (2%nat, Some false, Some (false, 0x8C3%N)).
Proof. vm_compute. repeat split; reflexivity. Qed.

(** rust/app/src/parser/operations/transfer.rs:483-571 (entrypoints and parameters). *)
Example entrypoint_tests :
  map entrypoint_parse [[0]; [1]; [2]; [3]; [4]; [0xFF; 3; 0x61; 0x62; 0x63; 0xaa]; [0xFF; 10; 0x61; 0x62]]%N =
  [POk [] EpDefault; POk [] EpRoot; POk [] EpDo; POk [] EpSetDelegate; POk [] EpRemoveDelegate;
   POk [0xaa%N] (EpCustom (str "abc")); PErr] /\
  map params_parse [[0; 0; 0; 0; 2; 0xab; 0xcd; 0xaa]; unhex "02000000070a000000020202"; [0; 0; 0; 0; 10; 0xab; 0xcd]]%N =
  [POk [0xaa]%N (EpDefault, [0xab; 0xcd]%N); POk [] (EpDo, unhex "0a000000020202"); PErr].
Proof. vm_compute. split; reflexivity. Qed.

(** rust/app/src/parser/operations/endorsement.rs:340-381. *)
Example endorsement_tests :
  endorsement_parse (unhex "fffffed4") = POk [] (OEndorsement (-300)) /\
  endorsement_slot_parse (unhex "00000027a99b946c97ada0f42c1bdeae0383db7893351232a832d00d0cd716eb6f66e56100fffffed40001007b") =
  POk [] (OEndorsementWithSlot (unhex "a99b946c97ada0f42c1bdeae0383db7893351232a832d00d0cd716eb6f66e561") (-300) (unhex "0001") 123).
Proof. vm_compute. split; reflexivity. Qed.

(** rust/app/src/parser/baking.rs:364-380: Tenderbake blocks (here the first three of the
    blocks of misc_tb_blocks.bin). *)
Definition tb_block_parses (s : string) : bool :=
  match preemble_parse (unhex s) with
  | POk rem PreTBBlock =>
    match block_parse rem with POk _ b => match bd_fitness b with FTenderbake _ _ => true | _ => false end | _ => false end
  | _ => false
  end.
Example tb_blocks_parse : forallb tb_block_parses [
  "11af1864d90009fedc021ca619c0213f69395e63dea746b6f1ab2c3b68ab5747d50a495c43ae42b1001900000000629f5e5904f4db813cb4c24e7533e853f32dc63554fb059ffc72e896ce8e4376fdb5892354000000210000000102000000040009fedc0000000000000004ffffffff000000040000000061a7fa64128a960b035958da4aebbb71eb0f7d4c79b62817d67388e120fd4f2000e98e05f5956b781ddfb5ae743cfa0d38688af551d39254d3438d1aa8f4f465000000006d9cfa359b2705000000";
  "117a06a770002397ee0c68e4ef4a35e2f768012c2f3b560bb80eb8849327696b6843e20842ca5e01345f000000006270c6650469204194e88ec93cdc7ee5d0aa42908ad49e4e0fb7242d406e73d3a48528d4af00000021000000010200000004002397ee0000000000000004ffffffff000000040000000076222f1388f0a7d6b53b96fde78a2b79b50a19282c48eb003cbdffb6b3669e3897440e9db3d73900616e3f720e162588071444071312d967a7d38f7ea23a480c0000000061fed54022b203000000";
  "11af1864d90009fd6a028bdabe6a6d71140f215e9a5466741aec328fbf8c83a8c346e511d48afd6b837700000000629f46bc0434a0bf047f56a4c10d6a5ab543a117563333e4ba66aecea5d99f977468387a41000000210000000102000000040009fd6a0000000000000004ffffffff00000004000000000c5fd760b3babf2110c085fc07aa5b3fd921f90439f0f1106a2f85ca194ede5934a366913695909603faf23e8856f22703e871df145c3f6e416cf434d5b2f90a000000006d9cfa35504205000000"] = true.
Proof. vm_compute. reflexivity. Qed.
