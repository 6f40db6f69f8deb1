(** Cases that meet the hypotheses of the statements about the signatures the library
    returns. *)
From Coq Require Import NArith ZArith Bool Arith String List Lia.
From Coq Require Import ZifyBool ZifyNat ZifyN.
From Verif Require Import Base BaseFacts Flash Codecs CodecsSpec Upload UploadSpec UploadExamples Oracles Address AddressSpec AddressExamples HashDemo
  Baking BakingSpec Operations OperationsSpec OperationsExamples Text TextSpec TextExamples Bakers BakersSpec
  Device DeviceSpec DeviceDemo DeviceExamples DeviceCases AcceptedSpec ServiceSpec ServiceExamples AdminExamples
  Screens ScreensSpec ScreensViews ScreensExamples Zui UiSpec UiDevice UiRun UiExamples HandSpec HandExamples
  Client ClientSpec ClientExamples Desk DeskSpec DeskExamples ReturnedSpec.
Import ListNotations.
Open Scope list_scope.
Open Scope N_scope.

Lemma demo_leaves_room b : leaves_room (if b : bool then demo_config else wallet_config) 134.
Proof. intros v room E. destruct b; destruct v; injection E as <-; discriminate. Qed.

Definition endo_message : bytes := tl (endo_at 1500000).
Definition block_message : bytes := tl demo_tb_block.

(** ** One call *)
Lemma returned_case : let X := plugged demo_config demo_oracles in
  leaves_room demo_config 134 /\ oracles_ok demo_oracles /\ host_ok demo_host demo_oracles /\ Forall event_ok baker_hist /\
  path_text client_text client_path /\ bytes_ok block_message /\
  Forall (fun p : bytes * event => apdu_ok (fst p)) (turns 2 EApprove) /\
  exists call, asks_for demo_host X client_text Ed25519 call (0x11 :: block_message) /\
  fst (call (client_baker, turns 2 EApprove)) = mkSignRes 0x9000 (Some (blake2b 32 demo_tb_block)) (Some (baker_sig demo_tb_block)).
Proof.
  cbv zeta. split; [exact (demo_leaves_room true)|]. split; [exact demo_oracles_ok|]. split; [exact demo_host_ok|].
  split; [apply baker_hist_ok|]. split; [exact client_text_ok|]. split; [apply bytes_okb_ok; vm_compute; reflexivity|].
  split. { apply Forall_forall. intros x Hx. apply repeat_spec in Hx. subst x. apply stale_ok. }
  eexists. split; [apply (AskBaker _ _ _ _ block_message BkBlock 0x11); vm_compute; reflexivity|]. vm_compute. reflexivity.
Qed.
(** With a wallet: approved, rejected, and a device that is busy with another review. *)
Definition busy_wallet : dev := snd (run wallet_config demo_oracles client_wallet [send 0x11 1 0 (path_serialize client_path)]).
Lemma returned_run : let X := plugged wallet_config demo_oracles in
  let call d e := fst (sign_operation demo_host X client_text Ed25519 op_message (d, turns 2 e)) in
  asks_for demo_host X client_text Ed25519 (sign_operation demo_host X client_text Ed25519 op_message) (3 :: op_message) /\
  sr_code (call client_wallet EApprove) = 0x9000 /\ sr_sig (call client_wallet EApprove) = Some op_sig /\
  call client_wallet EReject = mkSignRes 0x6986 None None /\
  call busy_wallet EApprove = mkSignRes OTHER_ERROR None None.
Proof. cbv zeta. split; [constructor|]. split; [vm_compute; reflexivity|]. split; [vm_compute; reflexivity|]. split; vm_compute; reflexivity. Qed.

(** ** A session *)

Notation baker_call X kind m :=
  (fun w => match sign_baker demo_host X client_text Ed25519 m kind w with
            | (JData _ r, w') => (r, w')
            | (_, w') => (mkSignRes OTHER_ERROR None None, w')
            end) (only parsing).

Definition one_turn (kind : baker_kind) (m : bytes) (d : dev) : dev :=
  fst (snd (baker_call (plugged demo_config demo_oracles) kind m (d, turns 2 EApprove))).
Definition one_res (kind : baker_kind) (m : bytes) (d : dev) : sign_res :=
  fst (baker_call (plugged demo_config demo_oracles) kind m (d, turns 2 EApprove)).

Lemma turns_two : Forall (fun x : bytes * event => apdu_ok (fst x) /\ event_ok (snd x)) (turns 2 EApprove).
Proof. apply Forall_forall. intros x Hx. apply repeat_spec in Hx. subst x. split; [apply stale_ok|exact I]. Qed.
Lemma one_session d0 d l n kind m magic l' : session demo_config demo_oracles demo_host d0 d l n ->
  baker_magic kind m = Some magic -> bytes_ok m ->
  (match sr_sig (one_res kind m d) with Some _ => [magic :: m] | None => [] end) = l' ->
  session demo_config demo_oracles demo_host d0 (one_turn kind m d) (l ++ l') (n + 2 * 2).
Proof.
  intros S0 Hm Hb <-. exact (SessionCall demo_config demo_oracles demo_host d0 d l n client_text Ed25519 client_path _ _ (turns 2 EApprove) S0
    (AskBaker demo_host (plugged demo_config demo_oracles) client_text Ed25519 m kind magic Hm) client_text_ok Hb
    turns_two).
Qed.

(** An endorsement, a block, the power cut off, and the endorsement again, which is refused. *)
Definition after_block : dev := one_turn BkBlock block_message (one_turn BkEndorsement endo_message client_baker).
Lemma session_case : Forall event_ok baker_hist /\ (forall n, n <= 100 -> len baker_hist + n < 2 ^ 64) /\
  session demo_config demo_oracles demo_host client_baker (one_turn BkEndorsement endo_message (restart after_block))
    [endo_at 1500000; demo_tb_block] 13 /\
  signed_pos (endo_at 1500000) = Some (PEmmy 1500000 true) /\ signed_pos demo_tb_block = Some (PTB 2500000 3 KBlock).
Proof.
  split; [apply baker_hist_ok|]. split; [change (len baker_hist) with 3; lia|]. split; [|split; vm_compute; reflexivity].
  assert (B1 : bytes_ok endo_message) by (apply bytes_okb_ok; vm_compute; reflexivity).
  assert (B2 : bytes_ok block_message) by (apply bytes_okb_ok; vm_compute; reflexivity).
  assert (M1 : baker_magic BkEndorsement endo_message = Some 2) by (vm_compute; reflexivity).
  assert (M2 : baker_magic BkBlock block_message = Some 0x11) by (vm_compute; reflexivity).
  pose proof (one_session client_baker _ _ _ BkEndorsement endo_message 2 [endo_at 1500000] (SessionStart _ _ _ _) M1 B1
    ltac:(vm_compute; reflexivity)) as S1.
  pose proof (one_session client_baker _ _ _ BkBlock block_message 0x11 [demo_tb_block] S1 M2 B2 ltac:(vm_compute; reflexivity)) as S2.
  pose proof (SessionEvent _ _ _ _ _ _ _ EPower S2 Logic.I (fun x => x)) as S3.
  exact (one_session client_baker _ _ _ BkEndorsement endo_message 2 [] S3 M1 B1 ltac:(vm_compute; reflexivity)).
Qed.

(** ** In hand *)
Lemma returned_hand_case : let hs := hands 2 (repeat Right 21 ++ [Both]) in let X := held wallet_config demo_oracles known NanoS in
  leaves_room wallet_config 134 /\ Forall input_ok wallet_hand /\ bytes_ok op_message /\
  Forall (fun h : bytes * list button => apdu_ok (fst h)) hs /\
  asks_for demo_host X client_text Ed25519 (sign_operation demo_host X client_text Ed25519 op_message) (3 :: op_message) /\
  fst (sign_operation demo_host X client_text Ed25519 op_message (desk_wallet, hs)) = mkSignRes 0x9000 (Some (blake2b 32 (3 :: op_message))) (Some op_sig).
Proof.
  cbv zeta. split; [exact (demo_leaves_room false)|]. split; [apply wallet_held_case|]. split; [apply bytes_okb_ok; vm_compute; reflexivity|].
  split; [apply hands_ok|]. split; [constructor|]. vm_compute. reflexivity.
Qed.

Definition hand_turn (kind : baker_kind) (m : bytes) (s : uidev) : uidev :=
  fst (snd (baker_call (held demo_config demo_oracles known NanoS) kind m (s, hands 2 [Both]))).
Definition hand_res (kind : baker_kind) (m : bytes) (s : uidev) : sign_res :=
  fst (baker_call (held demo_config demo_oracles known NanoS) kind m (s, hands 2 [Both])).
Lemma one_hand s0 s l n kind m magic l' : hand_session demo_config demo_oracles demo_host known NanoS s0 s l n ->
  baker_magic kind m = Some magic -> bytes_ok m ->
  (match sr_sig (hand_res kind m s) with Some _ => [magic :: m] | None => [] end) = l' ->
  hand_session demo_config demo_oracles demo_host known NanoS s0 (hand_turn kind m s) (l ++ l') (n + 2 * 2).
Proof.
  intros S0 Hm Hb <-. exact (HandCall demo_config demo_oracles demo_host known NanoS s0 s l n client_text Ed25519 client_path _ _ (hands 2 [Both]) S0
    (AskBaker demo_host (held demo_config demo_oracles known NanoS) client_text Ed25519 m kind magic Hm) client_text_ok Hb
    (hands_ok 2 [Both])).
Qed.

Lemma hand_quiet s0 s l n i : hand_session demo_config demo_oracles demo_host known NanoS s0 s l n -> input_ok i ->
  events_of_input demo_oracles known NanoS s i = [] ->
  hand_session demo_config demo_oracles demo_host known NanoS s0 (snd (ui_step demo_config demo_oracles known NanoS s i)) l (n + 1).
Proof. intros S0 Hi E. apply HandInput; [exact S0|exact Hi|]. rewrite E. intros e []. Qed.
Lemma hand_power s0 s l n : hand_session demo_config demo_oracles demo_host known NanoS s0 s l n ->
  hand_session demo_config demo_oracles demo_host known NanoS s0 (snd (ui_step demo_config demo_oracles known NanoS s IPower)) l (n + 1).
Proof. intros S0. apply HandInput; [exact S0|exact Logic.I|]. cbn [events_of_input]. intros e [<-|[]] []. Qed.

(** The same session with a device whose key was authorised by hand; while the host waits
    the user looks through the menu and unplugs the device. *)
Definition session_hand : list input := desk_hand ++ [HandExamples.ask 0x06 0 0 (be 4 1499999)].
Definition session_baker : uidev := after_inputs demo_config NanoS session_hand.
Definition hand_after_block : uidev := hand_turn BkBlock block_message (hand_turn BkEndorsement endo_message session_baker).
Definition hand_restarted : uidev :=
  snd (ui_step demo_config demo_oracles known NanoS
    (snd (ui_step demo_config demo_oracles known NanoS hand_after_block (IPress Right))) IPower).
Lemma hand_session_case : Forall input_ok session_hand /\ (forall n, n <= 100 -> len session_hand + n < 2 ^ 64) /\
  hand_session demo_config demo_oracles demo_host known NanoS session_baker (hand_turn BkEndorsement endo_message hand_restarted)
    [endo_at 1500000; demo_tb_block] 14.
Proof.
  split; [apply inputs_okb_ok; vm_compute; reflexivity|]. split; [change (len session_hand) with 6; lia|].
  assert (B1 : bytes_ok endo_message) by (apply bytes_okb_ok; vm_compute; reflexivity).
  assert (B2 : bytes_ok block_message) by (apply bytes_okb_ok; vm_compute; reflexivity).
  assert (M1 : baker_magic BkEndorsement endo_message = Some 2) by (vm_compute; reflexivity).
  assert (M2 : baker_magic BkBlock block_message = Some 0x11) by (vm_compute; reflexivity).
  pose proof (one_hand session_baker _ _ _ BkEndorsement endo_message 2 [endo_at 1500000] (HandStart _ _ _ _ _ _) M1 B1
    ltac:(vm_compute; reflexivity)) as S1.
  pose proof (one_hand session_baker _ _ _ BkBlock block_message 0x11 [demo_tb_block] S1 M2 B2 ltac:(vm_compute; reflexivity)) as S2.
  pose proof (hand_quiet session_baker _ _ _ (IPress Right) S2 Logic.I ltac:(vm_compute; reflexivity)) as S3.
  pose proof (hand_power session_baker _ _ _ S3) as S4.
  exact (one_hand session_baker _ _ _ BkEndorsement endo_message 2 [] S4 M1 B1 ltac:(vm_compute; reflexivity)).
Qed.
