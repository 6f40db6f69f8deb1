(** C68: the app is the ideal app; a baking day and a wallet visit. *)
From Coq Require Import List NArith Bool Arith.
From Verif Require Import Base Flash Codecs Upload UploadSpec UploadExamples Baking BakingSpec Operations Oracles Address AddressExamples
  Device DeviceSpec DeviceFacts DeviceHist DeviceDemo DeviceCases IdealSpec IdealReads IdealFacts.
Import ListNotations.
Open Scope N_scope.

(** C68. *)
Lemma app_is_ideal C O es : Forall event_ok es -> len es < 2 ^ 64 ->
  let r := run C O (dev_fresh [] []) es in
  let i := ideal_run C O ideal_fresh es in
  fst r = fst i /\ d_log (snd r) = i_sigs (snd i) /\ d_ui (snd r) = option_map fst (i_review (snd i)).
Proof.
  intros E L. destruct (run_linked C O es 0 ideal_fresh (dev_fresh [] []) fresh_linked E L) as [A K].
  cbv zeta. split; [exact A|]. split; [exact (c_log _ _ _ (k_core _ _ _ K))|exact (c_ui _ _ _ (k_core _ _ _ K))].
Qed.

(** A baker authorises a key, sets it up, signs two blocks, asks for the first one again,
    loses power, asks once more, is shown a request to give up the key and declines. *)
Definition baking_day : list event :=
  authorise ++ [setup_request; EApprove] ++ [reset_to 1499999] ++ send_message 4 demo_block ++ send_message 4 demo_tb_block ++
  send_message 4 demo_block ++ [EPower] ++ send_message 4 demo_tb_block ++ [send 0xAC 1 0 []; again; EReject; send 0xA7 0 0 []].
Definition shape (a : answer) : option N :=
  match a with AReply o => Some (len o) | APending => None | ADied => Some 1000 | ANone => Some 2000 end.
Definition seen (C : config) (es : list event) :=
  let (l, s) := ideal_run C demo_oracles ideal_fresh es in (map shape l, map sg_src (i_sigs s), i_main s, i_test s, i_key s).
Lemma baking_day_meets : Forall event_ok baking_day /\ len baking_day < 2 ^ 64 /\
  seen demo_config baking_day =
  ([None; Some 36; None; Some 36; Some 2; Some 2; Some 66; Some 2; Some 66; Some 2; Some 2; Some 1000; Some 2; Some 2;
    None; Some 2000; Some 2; Some 15],
   [SrcConsensus; SrcConsensus], Some (PTB 2500000 3 KBlock), Some 1499999, Some demo_key).
Proof.
  split; [apply events_okb_ok; vm_compute; reflexivity|]. split; [vm_compute; reflexivity|]. vm_compute. reflexivity.
Qed.

(** A wallet signs a text after its review. *)
Lemma wallet_visit_meets : Forall event_ok wallet_events /\
  seen wallet_config wallet_events =
  ([Some 2; Some 2; Some 2; Some 2; None; Some 2000; Some 66], [SrcReview], None, None, None).
Proof. split; [apply events_okb_ok; vm_compute; reflexivity|]. vm_compute. reflexivity. Qed.
