(** Property theorem C63: only the signatures of the log leave the device. *)
From Coq Require Import NArith Bool Arith List.
From Verif Require Import Base Flash Codecs Oracles AddressExamples Bakers Device DeviceSpec DeviceDemo Screens ScreensExamples
  Zui UiDevice UiExamples SecretSpec SecretExamples.
Import ListNotations.
Open Scope list_scope.
Open Scope N_scope.

(** C63. If the secure element had other keys with the same public keys, and so made
    other signatures, then nothing would change in any answer or in the state of the
    device, as long as the signatures of the log are the same; of those made for an HMAC
    only the hash has to be the same. *)
Theorem C63_answers : forall C O sg f u es, oracles_ok O -> oracles_ok (with_sign O sg) -> resigned O sg ->
  (forall g, In g (d_log (snd (run C O (dev_fresh f u) es))) -> agree_on O sg g) ->
  run C (with_sign O sg) (dev_fresh f u) es = run C O (dev_fresh f u) es.
Proof. exact answers_secret. Qed.
Print Assumptions C63_answers.
Example C63_case :
  oracles_ok (with_sign demo_oracles other_sign) /\ resigned demo_oracles other_sign /\
  (forall g, In g (d_log (snd (run demo_config demo_oracles (dev_fresh [] []) secret_events))) -> agree_on demo_oracles other_sign g) /\
  map sg_src (d_log (snd (run demo_config demo_oracles (dev_fresh [] []) secret_events))) = [SrcHmac; SrcConsensus; SrcConsensus; SrcConsensus] /\
  other_sign Ed25519 [0x8000002C] [1] <> o_sign demo_oracles Ed25519 [0x8000002C] [1].
Proof. exact secret_case. Qed.

(** C63. The same with screens and buttons: everything shown is the same too. *)
Theorem C63_screens : forall C O sg table hw f u is, oracles_ok O -> oracles_ok (with_sign O sg) -> resigned O sg ->
  (forall g, In g (d_log (u_dev (snd (ui_run C O table hw (ui_fresh hw f u) is)))) -> agree_on O sg g) ->
  ui_run C (with_sign O sg) table hw (ui_fresh hw f u) is = ui_run C O table hw (ui_fresh hw f u) is.
Proof. exact screens_secret. Qed.
Print Assumptions C63_screens.
Example C63_screens_case :
  (forall g, In g (d_log (u_dev (after_inputs wallet_config NanoS (small_inputs ++ presses Right 21 ++ [IPress Both])))) -> agree_on demo_oracles other_sign g) /\
  map sg_src (d_log (u_dev (after_inputs wallet_config NanoS (small_inputs ++ presses Right 21 ++ [IPress Both])))) = [SrcReview].
Proof. exact secret_screens_case. Qed.

(** C63. Without an approval the wallet app gives nothing away. *)
Theorem C63_wallet_without_approval : forall C O sg f u es, oracles_ok O -> oracles_ok (with_sign O sg) -> resigned O sg ->
  cf_baking C = false -> Forall event_ok es -> ~ In EApprove es ->
  run C (with_sign O sg) (dev_fresh f u) es = run C O (dev_fresh f u) es.
Proof. exact wallet_secret. Qed.
Print Assumptions C63_wallet_without_approval.
Example C63_wallet_case :
  Forall event_ok rejected_events /\ ~ In EApprove rejected_events /\
  fst (run wallet_config demo_oracles (dev_fresh [] []) rejected_events) = [AReply [0x90; 0]; APending; AReply [0x69; 0x86]].
Proof. exact secret_wallet_case. Qed.
