(** C76: the documented protocol. *)
From Coq Require Import List NArith.
From Verif Require Import Base Codecs Oracles Device DeviceSpec DeviceFacts DeviceDemo ServiceSpec AddressExamples DocSpec DocExamples.
Import ListNotations.
Open Scope N_scope.

(** ** C76 *)

Theorem C76_answers_partial : forall C O f uf es, oracles_ok O -> roomy C 42 -> Forall event_ok es ->
  Forall (fun x => conforms C O (nth 1 (fst x) 0) (nth 2 (fst x) 0) (snd x)) (answered C O (dev_fresh f uf) [] es).
Proof. exact DocExamples.doc_answers. Qed.
Print Assumptions C76_answers_partial.
Example C76_case : Forall event_ok doc_events /\ roomy demo_config 42 /\
  map (fun x => (nth 1 (fst x) 0, len (snd x))) (answered demo_config demo_oracles (dev_fresh [] []) [] doc_events) =
  [(0x10, 11); (0x02, 36); (0xA1, 36); (0xAD, 16); (0xFF, 2); (6, 2); (4, 2); (4, 66); (0x0B, 14)].
Proof. exact DocExamples.doc_case. Qed.
Example C76_case_oracles : oracles_ok demo_oracles.
Proof. exact AddressExamples.demo_oracles_ok. Qed.

(** The documented list of return codes is not the app's: five that it sends are missing, *)
Theorem C76_codes_refuted : forall code, In code [0x6700; 0x6984; 0x6985; 0x6B00; 0x9001] -> ~ In code doc_codes /\
  exists C O es x, oracles_ok O /\ roomy C 42 /\ Forall event_ok es /\
    In x (answered C O (dev_fresh [] []) [] es) /\ snd x = be 2 code.
Proof. exact DocExamples.undocumented. Qed.
Print Assumptions C76_codes_refuted.
(** and four that are listed, with "INS not supported" among them, are never sent. *)
Theorem C76_unused_codes : forall C O f uf es code, oracles_ok O -> roomy C 42 -> Forall event_ok es ->
  In code [0x6982; 0x6983; 0x6D00; 0x6F00] ->
  Forall (fun x => ~ exists data, snd x = data ++ be 2 code) (answered C O (dev_fresh f uf) [] es).
Proof. exact DocExamples.never_sent. Qed.
Print Assumptions C76_unused_codes.

(** Instruction 5, documented for "data that is already hashed", is instruction 4, which
    hashes its data (C49). *)
Theorem C76_unsafe_refuted : forall C O d p1 p2 t rx, cf_baking C = false ->
  step C O d (EApdu (0x80 :: 0x05 :: p1 :: p2 :: t) rx) = step C O d (EApdu (0x80 :: 0x04 :: p1 :: p2 :: t) rx).
Proof. exact DocExamples.unsafe_is_sign. Qed.
Print Assumptions C76_unsafe_refuted.
Example C76_unsafe_case : cf_baking wallet_config = false /\
  snd (step wallet_config demo_oracles (dev_fresh [] []) (send 5 0 0 (path_serialize demo_path))) <> dev_fresh [] [].
Proof. exact DocExamples.unsafe_case. Qed.
