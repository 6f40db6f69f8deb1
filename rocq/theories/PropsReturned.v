(** Property theorems C88: the signatures the library returns. *)
From Coq Require Import NArith ZArith Bool Arith String List.
From Verif Require Import Base Flash Codecs CodecsSpec Oracles Address AddressSpec AddressExamples HashDemo Upload UploadSpec UploadExamples
  Baking BakingSpec Operations OperationsSpec OperationsExamples Text TextSpec TextExamples Bakers BakersSpec Device DeviceSpec DeviceDemo AcceptedSpec
  Screens Zui UiSpec UiDevice UiRun UiExamples HandSpec HandExamples
  Client ClientSpec ClientExamples Desk DeskSpec DeskExamples ReturnedSpec ReturnedFacts ReturnedSession ReturnedHand ReturnedExamples.
Import ListNotations.
Open Scope list_scope.
Open Scope N_scope.

(** C88. A host asks for a signature of a message with a key, whatever the state of the
    device, whatever the user decides and whenever the transport gives up: either the
    device made exactly one signature during the call, of that message with that key, and
    the call returns it together with its hash and the code of success; or the device
    signed nothing, and the call returns neither hash nor signature, and another code. *)
Theorem C88_returned_signature : forall C O, leaves_room C 134 -> oracles_ok O -> forall H, host_ok H O ->
  forall f u es text c pa call data sched, Forall event_ok es -> Forall whole_fault u ->
  asks_for H (plugged C O) text c call data -> path_text text pa -> bytes_ok (tl data) ->
  Forall (fun p => apdu_ok (fst p)) sched ->
  let d := snd (run C O (dev_fresh f u) es) in
  let x := call (d, sched) in
  faithful O (c, pa) data (d_log d) (d_log (fst (snd x))) (fst x).
Proof. exact returned_faithful. Qed.
Print Assumptions C88_returned_signature.
Example C88_returned_case : let X := plugged demo_config demo_oracles in
  leaves_room demo_config 134 /\ oracles_ok demo_oracles /\ host_ok demo_host demo_oracles /\ Forall event_ok baker_hist /\
  path_text client_text client_path /\ bytes_ok block_message /\
  Forall (fun p : bytes * event => apdu_ok (fst p)) (turns 2 EApprove) /\
  exists call, asks_for demo_host X client_text Ed25519 call (0x11 :: block_message) /\
  fst (call (client_baker, turns 2 EApprove)) = mkSignRes 0x9000 (Some (blake2b 32 demo_tb_block)) (Some (baker_sig demo_tb_block)).
Proof. exact returned_case. Qed.
Example C88_returned_run : let X := plugged wallet_config demo_oracles in
  let call d e := fst (sign_operation demo_host X client_text Ed25519 op_message (d, turns 2 e)) in
  asks_for demo_host X client_text Ed25519 (sign_operation demo_host X client_text Ed25519 op_message) (3 :: op_message) /\
  sr_code (call client_wallet EApprove) = 0x9000 /\ sr_sig (call client_wallet EApprove) = Some op_sig /\
  call client_wallet EReject = mkSignRes 0x6986 None None /\
  call busy_wallet EApprove = mkSignRes OTHER_ERROR None None.
Proof. exact returned_run. Qed.

(** C88. A host that asks for signatures again and again, while anything else but a reset
    of the watermark may happen to the device: the consensus messages for which it got a
    signature follow each other, so that no two of them are the same or conflict. *)
Theorem C88_session_in_order : forall C O H, host_ok H O -> leaves_room C 134 -> oracles_ok O ->
  forall f u es0 d rs n, Forall event_ok es0 -> Forall slot_fault_ok f -> Forall up_fault_ok u -> Forall whole_fault u ->
  len es0 + n < 2 ^ 64 -> session C O H (snd (run C O (dev_fresh f u) es0)) d rs n ->
  forall (i j : nat) a b p q, (i < j)%nat -> nth_error rs i = Some a -> nth_error rs j = Some b ->
  signed_pos a = Some p -> signed_pos b = Some q -> cpos_lt p q.
Proof. exact session_in_order. Qed.
Print Assumptions C88_session_in_order.
Example C88_session_case : Forall event_ok baker_hist /\ (forall n, n <= 100 -> len baker_hist + n < 2 ^ 64) /\
  session demo_config demo_oracles demo_host client_baker (one_turn BkEndorsement endo_message (restart after_block))
    [endo_at 1500000; demo_tb_block] 13 /\
  signed_pos (endo_at 1500000) = Some (PEmmy 1500000 true) /\ signed_pos demo_tb_block = Some (PTB 2500000 3 KBlock).
Proof. exact session_case. Qed.

(** C88. The first statement with the device in a user's hands. *)
Theorem C88_returned_in_hand : forall C O hw f u, leaves_room C 134 -> oracles_ok O -> Forall up_fault_ok u -> Forall whole_fault u ->
  forall H, host_ok H O -> forall is text c pa call data hs,
  let at_ is := snd (ui_run C O known hw (ui_fresh hw f u) is) in
  Forall input_ok is -> asks_for H (held C O known hw) text c call data -> path_text text pa -> bytes_ok (tl data) ->
  Forall (fun h => apdu_ok (fst h)) hs ->
  let x := call (at_ is, hs) in
  faithful O (c, pa) data (d_log (u_dev (at_ is))) (d_log (u_dev (fst (snd x)))) (fst x).
Proof. exact returned_in_hand. Qed.
Print Assumptions C88_returned_in_hand.
Example C88_hand_case : let hs := hands 2 (repeat Right 21 ++ [Both]) in let X := held wallet_config demo_oracles known NanoS in
  leaves_room wallet_config 134 /\ Forall input_ok wallet_hand /\ bytes_ok op_message /\
  Forall (fun h : bytes * list button => apdu_ok (fst h)) hs /\
  asks_for demo_host X client_text Ed25519 (sign_operation demo_host X client_text Ed25519 op_message) (3 :: op_message) /\
  fst (sign_operation demo_host X client_text Ed25519 op_message (desk_wallet, hs)) = mkSignRes 0x9000 (Some (blake2b 32 (3 :: op_message))) (Some op_sig).
Proof. exact returned_hand_case. Qed.

(** C88. The second statement with the device in a user's hands. *)
Theorem C88_hand_in_order : forall C O hw f u, leaves_room C 134 -> oracles_ok O -> Forall up_fault_ok u -> Forall whole_fault u ->
  forall H, host_ok H O -> forall is s rs n,
  let at_ is := snd (ui_run C O known hw (ui_fresh hw f u) is) in
  Forall input_ok is -> Forall slot_fault_ok f -> len is + n < 2 ^ 64 -> hand_session C O H known hw (at_ is) s rs n ->
  forall (i j : nat) a b p q, (i < j)%nat -> nth_error rs i = Some a -> nth_error rs j = Some b ->
  signed_pos a = Some p -> signed_pos b = Some q -> cpos_lt p q.
Proof. exact hand_in_order. Qed.
Print Assumptions C88_hand_in_order.
Example C88_hand_session_case : Forall input_ok session_hand /\ (forall n, n <= 100 -> len session_hand + n < 2 ^ 64) /\
  hand_session demo_config demo_oracles demo_host known NanoS session_baker (hand_turn BkEndorsement endo_message hand_restarted)
    [endo_at 1500000; demo_tb_block] 14.
Proof. exact hand_session_case. Qed.
