(** C65: the excluded fault, and concrete histories. *)
From Coq Require Import List NArith ZArith Lia Bool Arith ZifyBool ZifyNat ZifyN.
From Verif Require Import Base BaseFacts Flash FlashFacts Codecs CodecsSpec CodecsFacts Upload UploadSpec UploadFacts UploadExamples
  Baking BakingSpec Operations Oracles Address AddressExamples
  Device DeviceSpec DeviceFacts DeviceProofs DeviceHist DeviceSigs DeviceDemo DeviceCases AcceptedSpec.
Import ListNotations.
Open Scope N_scope.

(** A message of 401 bytes, uploaded in two packets. The power is cut half-way when the
    buffer moves to flash; then the second packet is refused because the flash fails, and
    is sent again. *)
Definition long_text : bytes := 5 :: repeat 0x20 400.
Definition wallet_path : event := send 4 0 0 (path_serialize demo_path).
Definition rough_faults : list fault := [WCut (TTorn [1; 2; 3]); WOk; WFail TNew].
Definition rough_events : list event :=
  [wallet_path; send 4 1 0 (firstn 200 long_text); send 4 0x81 0 (skipn 200 long_text);
   wallet_path; send 4 1 0 (firstn 200 long_text); send 4 0x81 0 (skipn 200 long_text);
   send 4 0x81 0 (skipn 200 long_text); EApprove].
Definition rough_dev : dev := dev_fresh [] rough_faults.
Lemma rough_case : Forall event_ok rough_events /\ Forall whole_fault rough_faults /\
  fst (run wallet_config demo_oracles rough_dev (firstn 7 rough_events)) =
  [AReply [0x90; 0]; AReply [0x90; 0]; ADied; AReply [0x90; 0]; AReply [0x90; 0]; AReply [0x69; 0x84]; APending] /\
  accepted wallet_config demo_oracles rough_dev None (firstn 6 rough_events)
    = Some (AccSign, 0, path_serialize demo_path, firstn 200 long_text) /\
  map (fun g => (sg_src g, sg_key g, sg_data g)) (d_log (snd (run wallet_config demo_oracles rough_dev rough_events)))
    = [(SrcReview, demo_key, long_text)].
Proof.
  split; [apply events_okb_ok; vm_compute; reflexivity|].
  split; [repeat (apply Forall_cons; [exact Logic.I|]); apply Forall_nil|].
  split; [vm_compute; reflexivity|]. split; vm_compute; reflexivity.
Qed.

(** The same, but the failing write damages the flash: a byte of the first packet. *)
Definition damage_faults : list fault :=
  [WOk; WOk; WFail (TTorn (0 :: path_serialize demo_path ++ 5 :: 0x63 :: repeat 0x20 298))].
Definition damage_events : list event :=
  [wallet_path; send 4 1 0 (firstn 200 long_text); send 4 1 0 (firstn 100 (skipn 200 long_text));
   send 4 1 0 (skipn 300 long_text)].
Definition damage_last : bytes := apdu 4 0x81 0 (skipn 300 long_text).
Definition damage_dev : dev := dev_fresh [] damage_faults.
Lemma damage_case : 
  fst (run wallet_config demo_oracles damage_dev (damage_events ++ [EApdu damage_last 106])) =
  [AReply [0x90; 0]; AReply [0x90; 0]; AReply [0x90; 0]; AReply [0x69; 0x84]; APending] /\
  accepted wallet_config demo_oracles damage_dev None damage_events
    = Some (AccSign, 0, path_serialize demo_path, firstn 300 long_text) /\
  firstn 300 long_text ++ pay damage_last = long_text /\
  map (fun g => (sg_src g, sg_key g, sg_data g))
    (d_log (snd (run wallet_config demo_oracles damage_dev (damage_events ++ [EApdu damage_last 106; EApprove]))))
    = [(SrcReview, demo_key, 5 :: 0x63 :: repeat 0x20 399)].
Proof. split; [vm_compute; reflexivity|]. split; [vm_compute; reflexivity|]. split; vm_compute; reflexivity. Qed.

Lemma damaged_buffer :
  ~ (forall C O f u es buf rx g, Forall event_ok (es ++ [EApdu buf rx; EApprove]) -> Forall up_fault_ok u ->
     d_log (snd (run C O (dev_fresh f u) (es ++ [EApdu buf rx; EApprove]))) = [g] -> sg_src g = SrcReview ->
     exists a p2 init data, accepted C O (dev_fresh f u) None es = Some (a, p2, init, data) /\
       sg_data g = data ++ pay buf).
Proof.
  intros H. destruct damage_case as (_ & A & D & L).
  destruct (d_log (snd (run wallet_config demo_oracles damage_dev (damage_events ++ [EApdu damage_last 106; EApprove])))) as [|g l] eqn:E;
    [discriminate L|].
  destruct l as [|g' l]; [|discriminate L]. cbn [map] in L.
  destruct (H wallet_config demo_oracles [] damage_faults damage_events damage_last 106 g) as (a & p2 & init & data & A' & D').
  - apply events_okb_ok. vm_compute. reflexivity.
  - repeat (apply Forall_cons; [exact Logic.I|]). apply Forall_cons; [|apply Forall_nil].
    apply bytes_okb_ok. vm_compute. reflexivity.
  - exact E.
  - exact (f_equal (fun l => match l with (s, _, _) :: _ => s | [] => sg_src g end) L).
  - unfold damage_dev in A. rewrite A in A'.
    assert (X : firstn 300 long_text = data) by exact (f_equal (fun o => match o with Some (_, _, _, x) => x | None => data end) A').
    rewrite <- X, D in D'.
    assert (Y : sg_data g = 5 :: 0x63 :: repeat 0x20 399) by exact (f_equal (fun l => match l with (_, _, x) :: _ => x | [] => sg_data g end) L).
    rewrite Y in D'. apply (f_equal (fun l : bytes => nth 1 l 0)) in D'. revert D'. vm_compute. discriminate.
Qed.
