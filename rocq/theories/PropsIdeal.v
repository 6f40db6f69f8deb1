(** Property theorem C68: the app is an ideal app. *)
From Coq Require Import List NArith Bool Arith.
From Verif Require Import Base Flash Codecs Upload UploadSpec UploadExamples Baking BakingSpec Operations Oracles Address AddressExamples
  Device DeviceSpec DeviceHist DeviceDemo DeviceCases IdealSpec IdealExamples.
Import ListNotations.
Open Scope N_scope.

(** C68. While the flash works, the app cannot be told from an ideal app that remembers a
    key, a position, a level, a chain, one upload and one review, and that has no flash
    pages, no buffers and no stored paths: from the first start on, the same events get
    the same answers, make the same signatures and leave the same review on the screen. *)
Theorem C68_app_is_ideal : forall C O es, Forall event_ok es -> len es < 2 ^ 64 ->
  let r := run C O (dev_fresh [] []) es in
  let i := ideal_run C O ideal_fresh es in
  fst r = fst i /\ d_log (snd r) = i_sigs (snd i) /\ d_ui (snd r) = option_map fst (i_review (snd i)).
Proof. exact app_is_ideal. Qed.
Print Assumptions C68_app_is_ideal.

(** A baking day: two keys written, two blocks signed, three messages refused, power lost
    once. The lengths of the answers, the signatures and what the ideal app remembers. *)
Example C68_baking_case : Forall event_ok baking_day /\ len baking_day < 2 ^ 64 /\
  seen demo_config baking_day =
  ([None; Some 36; None; Some 36; Some 2; Some 2; Some 66; Some 2; Some 66; Some 2; Some 2; Some 1000; Some 2; Some 2;
    None; Some 2000; Some 2; Some 15],
   [SrcConsensus; SrcConsensus], Some (PTB 2500000 3 KBlock), Some 1499999, Some demo_key).
Proof. exact baking_day_meets. Qed.

(** A wallet signs a text after its review. *)
Example C68_wallet_case : Forall event_ok wallet_events /\
  seen wallet_config wallet_events =
  ([Some 2; Some 2; Some 2; Some 2; None; Some 2000; Some 66], [SrcReview], None, None, None).
Proof. exact wallet_visit_meets. Qed.
