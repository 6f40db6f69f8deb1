(** Histories with screen and buttons. *)
From Coq Require Import NArith ZArith Bool Arith String List Lia.
From Verif Require Import Base BaseFacts Flash Oracles Address AddressSpec AddressExamples Codecs CodecsSpec Upload UploadSpec UploadExamples
  Operations OperationsSpec OperationsFacts OperationsExamples Text TextSpec TextExamples Bakers BakersSpec
  Device DeviceSpec DeviceDemo Screens ScreensSpec ScreensViews ScreensExamples
  Zui UiSpec UiDevice UiFacts UiRun UiCases.
Import ListNotations.
Open Scope string_scope.
Open Scope list_scope.
Open Scope N_scope.

(** Events from the host as inputs. *)
Definition inputs (es : list event) : list input :=
  flat_map (fun e => match e with EApdu buf rx => [IApdu buf rx] | EPower => [IPower] | _ => [] end) es.
Definition presses (b : button) (m : nat) : list input := repeat (IPress b) m.

Definition input_okb (i : input) : bool := match i with IApdu buf _ => apdu_okb buf | _ => true end.
Lemma inputs_okb_ok is : forallb input_okb is = true -> Forall input_ok is.
Proof.
  rewrite forallb_forall, Forall_forall. intros H i Hi. specialize (H i Hi).
  destruct i; cbn in *; auto. now apply apdu_okb_ok.
Qed.

(** The device after some inputs, and what there is to know about it: the screens of the
    latest review, the current one first, what the screen is for, and the messages
    signed. *)
Definition after_inputs (C : config) (hw : hardware) (is : list input) : uidev :=
  snd (ui_run C demo_oracles known hw (ui_fresh hw [] []) is).
Definition outcome (C : config) (hw : hardware) (is : list input) : list shot * face * list (N * bytes) :=
  let s := after_inputs C hw is in
  (z_seen (u_zui s), z_face (u_zui s),
   map (fun g => (match sg_src g with SrcReview => 1 | SrcBakingReview => 2 | _ => 0 end, sg_data g)) (d_log (u_dev s))).

(** A screen of the Nano S and one of the Nano X. *)
Definition s_shot (title line1 line2 : string) : shot := mkShot (chars title) [chars line1; chars line2].
Definition x_shot (title line : string) : shot := mkShot (chars title) [chars line].

Definition message_of (os : list tz_op) : bytes := 3 :: demo_branch ++ flat_map enc_op os.
Definition small_inputs : list input := inputs (sign_batch small_batch).

(** The transfer and delegation of [small_batch] on the Nano S. *)
Definition small_pages_s : list shot :=
  [s_shot "Operation [1/2]" "BLzyjjHKEKMULtvkp" "SHxuZxx6ei6fpntH2"; s_shot "Operation [2/2]" "BTkYZiLgs8zLVstvX" "";
   s_shot "Type" "Transaction" ""; s_shot "Source [1/2]" "tz1LHBqjkR1QoJ1k2" "uukvSVaXGrpkBLZhG"; s_shot "Source [2/2]" "48" "";
   s_shot "Destination" "tz3M9pXAvLfYqxsry" "HS4qHcut6zisTd1De"; s_shot "Destination" "cR" "";
   s_shot "Amount" "1.500000" ""; s_shot "Fee" "0.050000" ""; s_shot "Parameters" "no parameters..." "";
   s_shot "Gas Limit" "10600" ""; s_shot "Storage Limit" "300" ""; s_shot "Counter" "8" "";
   s_shot "Type" "Delegation" ""; s_shot "Source [1/2]" "tz1LHBqjkR1QoJ1k2" "uukvSVaXGrpkBLZhG"; s_shot "Source [2/2]" "48" "";
   s_shot "Delegation" "Everstake" ""; s_shot "Fee" "0.050000" ""; s_shot "Gas Limit" "10600" "";
   s_shot "Storage Limit" "300" ""; s_shot "Counter" "8" ""].
Lemma small_case_s :
  Forall input_ok (small_inputs ++ presses Right 21 ++ [IPress Both]) /\
  outcome wallet_config NanoS (small_inputs ++ presses Right 21 ++ [IPress Both]) =
    (label "APPROVE" :: rev small_pages_s, Idle, [(1, message_of small_batch)]).
Proof. split; [apply inputs_okb_ok; vm_compute; reflexivity|]. vm_compute. reflexivity. Qed.
(** And on the Nano X. *)
Definition small_pages_x : list shot :=
  [x_shot "Operation" "BLzyjjHKEKMULtvkpSHxuZxx6ei6fpntH2BTkYZiLgs8zLVstvX";
   x_shot "Type" "Transaction"; x_shot "Source" "tz1LHBqjkR1QoJ1k2uukvSVaXGrpkBLZhG48";
   x_shot "Destination" "tz3M9pXAvLfYqxsryHS4qHcut6zisTd1DecR";
   x_shot "Amount" "1.500000"; x_shot "Fee" "0.050000"; x_shot "Parameters" "no parameters...";
   x_shot "Gas Limit" "10600"; x_shot "Storage Limit" "300"; x_shot "Counter" "8";
   x_shot "Type" "Delegation"; x_shot "Source" "tz1LHBqjkR1QoJ1k2uukvSVaXGrpkBLZhG48";
   x_shot "Delegation" "Everstake"; x_shot "Fee" "0.050000"; x_shot "Gas Limit" "10600";
   x_shot "Storage Limit" "300"; x_shot "Counter" "8"].
Lemma small_case_x :
  outcome wallet_config NanoX (small_inputs ++ presses Right 18 ++ [IPress Both]) =
    (rev small_pages_x, Idle, [(1, message_of small_batch)]).
Proof. vm_compute. reflexivity. Qed.
Lemma small_batch_ok : Forall op_ok small_batch /\ List.length demo_branch = 32%nat /\
  (List.length (batch_sheet demo_branch (map op_of small_batch)) < 256)%nat.
Proof.
  destruct anonymous_case as (H & _ & L). split; [|split; [exact L|apply Nat.ltb_lt; vm_compute; reflexivity]].
  apply Forall_app in H as [H1 H2]. apply Forall_inv in H1. apply Forall_inv_tail, Forall_inv in H2.
  constructor; [exact H1|]. constructor; [exact H2|constructor].
Qed.

(** The request has put up the review, all of whose rows can be shown. *)
Definition showableb (f : field) : bool :=
  match f with
  | FTez z | FNat z => payload_bits false (z_bytes z) <=? 32
  | FIdent k data => match twice demo_oracles (kind_prefix k ++ data) with None => false | Some _ => true end
  | FDigest data => match o_sha256 demo_oracles data with None => false | Some _ => true end
  | FBaker c h => match twice demo_oracles (kind_prefix (AddressSpec.addr_kind c) ++ h) with None => false | Some _ => true end
  | FHash data =>
    match o_blake2b demo_oracles 32 data with
    | Some d => match twice demo_oracles d with None => false | Some _ => true end
    | None => false
    end
  | FChain (ChainCustom id) => match twice demo_oracles (kind_prefix KindChain ++ be 4 id) with None => false | Some _ => true end
  | _ => true
  end.
Lemma showableb_ok f : showableb f = true -> ~ unshowable demo_oracles f.
Proof.
  destruct f as [| | | | | | | | |[]|]; cbn [showableb unshowable]; try tauto; intros H B;
    try (rewrite B in H; discriminate H); try (apply N.leb_le in H; lia);
    match type of H with context [o_blake2b demo_oracles 32 ?data] =>
      destruct (o_blake2b demo_oracles 32 data) as [d|]; [specialize (B d eq_refl); rewrite B in H|]; discriminate H end.
Qed.
Definition rows_showable (v : option viewable) : bool :=
  match v with
  | Some v => match view_sheet v with Some rows => (len rows =? 17) && forallb (fun r => showableb (snd r)) rows | None => false end
  | None => false
  end.
Definition answers_of (C : config) (hw : hardware) (is : list input) : list answer :=
  fst (ui_run C demo_oracles known hw (ui_fresh hw [] []) is).
Lemma rows_showable_ok v : rows_showable v = true -> exists v' rows, v = Some v' /\ view_sheet v' = Some rows /\
  (List.length rows < 256)%nat /\ forall r, In r rows -> ~ unshowable demo_oracles (snd r).
Proof.
  destruct v as [v|]; [|discriminate]. cbn [rows_showable]. destruct (view_sheet v) as [rows|] eqn:E; [|discriminate].
  intros H. apply andb_true_iff in H as [H1 H2]. exists v, rows. split; [reflexivity|]. split; [exact E|].
  apply N.eqb_eq in H1. unfold len in H1. split; [lia|]. intros r Hr. rewrite forallb_forall in H2. now apply showableb_ok, H2.
Qed.
Lemma reachable_case : exists v rows,
  answers_of wallet_config NanoS small_inputs = [AReply [0x90; 0]; APending] /\
  d_ui (u_dev (after_inputs wallet_config NanoS small_inputs)) = Some v /\ view_sheet v = Some rows /\
  (List.length rows < 256)%nat /\ forall r, In r rows -> ~ unshowable demo_oracles (snd r).
Proof.
  destruct (rows_showable_ok (d_ui (u_dev (after_inputs wallet_config NanoS small_inputs)))) as (v & rows & R).
  { vm_compute. reflexivity. }
  exists v, rows. split; [vm_compute; reflexivity|exact R].
Qed.

Lemma navigation_case : exists v rows,
  d_ui (u_dev (after_inputs wallet_config NanoS small_inputs)) = Some v /\ view_sheet v = Some rows /\
  (List.length rows < 256)%nat /\ (forall r, In r rows -> ~ unshowable demo_oracles (snd r)) /\
  z_face (u_zui (after_inputs wallet_config NanoS small_inputs)) = Review /\
  firstn 1 (z_seen (u_zui (after_inputs wallet_config NanoS (small_inputs ++ presses Left 3)))) = firstn 1 small_pages_s.
Proof.
  destruct reachable_case as (v & rows & _ & R1 & R2 & R3 & R4). exists v, rows.
  split; [exact R1|]. split; [exact R2|]. split; [exact R3|]. split; [exact R4|]. split; [vm_compute; reflexivity|].
  vm_compute; reflexivity.
Qed.

(** 256 rows: the Nano S offers approval at once, and signs. *)
Lemma many_items_signed :
  Forall input_ok (inputs (sign_batch many_items) ++ [IPress Both]) /\
  outcome wallet_config NanoS (inputs (sign_batch many_items) ++ [IPress Both]) =
    ([label "APPROVE"], Idle, [(1, message_of many_items)]).
Proof. split; [apply inputs_okb_ok; vm_compute; reflexivity|]. vm_compute. reflexivity. Qed.
(** 253 proposals: only the branch is shown. *)
Lemma many_proposals_signed :
  Forall input_ok (inputs (sign_batch many_proposals) ++ presses Right 2 ++ [IPress Both]) /\
  outcome wallet_config NanoS (inputs (sign_batch many_proposals) ++ presses Right 2 ++ [IPress Both]) =
    ([label "APPROVE"; s_shot "Operation [2/2]" "BTkYZiLgs8zLVstvX" ""; s_shot "Operation [1/2]" "BLzyjjHKEKMULtvkp" "SHxuZxx6ei6fpntH2"],
     Idle, [(1, message_of many_proposals)]).
Proof. split; [apply inputs_okb_ok; vm_compute; reflexivity|]. vm_compute. reflexivity. Qed.
(** Expert mode: both buttons twice. *)
Lemma expert_signed :
  Forall input_ok (IPress Toggle :: small_inputs ++ [IPress Both; IPress Both]) /\
  outcome wallet_config NanoS (IPress Toggle :: small_inputs ++ [IPress Both; IPress Both]) =
    ([label "APPROVE"; s_shot "Operation [1/2]" "BLzyjjHKEKMULtvkp" "SHxuZxx6ei6fpntH2"],
     Failure, [(1, message_of small_batch)]).
Proof. split; [apply inputs_okb_ok; vm_compute; reflexivity|]. vm_compute. reflexivity. Qed.
(** The baking app: a delegation is shown, a transfer signed with it. *)
Definition two_operations : list tz_op := [demo_delegation; demo_transfer].
Definition baking_inputs : list input :=
  inputs [send 0xA1 1 0 (path_serialize demo_path)] ++ presses Right 3 ++ [IPress Both]
  ++ inputs (sign_batch two_operations) ++ presses Right 10 ++ [IPress Both].
Definition delegation_pages : list shot :=
  [s_shot "Operation [1/2]" "BLzyjjHKEKMULtvkp" "SHxuZxx6ei6fpntH2"; s_shot "Operation [2/2]" "BTkYZiLgs8zLVstvX" "";
   s_shot "Type" "Delegation" ""; s_shot "Source [1/2]" "tz1LHBqjkR1QoJ1k2" "uukvSVaXGrpkBLZhG"; s_shot "Source [2/2]" "48" "";
   s_shot "Delegation" "Everstake" ""; s_shot "Fee" "0.050000" ""; s_shot "Gas Limit" "10600" "";
   s_shot "Storage Limit" "300" ""; s_shot "Counter" "8" ""].
Lemma baking_batch_signed :
  Forall input_ok baking_inputs /\
  outcome demo_config NanoS baking_inputs =
    (label "APPROVE" :: rev delegation_pages, Idle, [(2, message_of two_operations)]).
Proof. split; [apply inputs_okb_ok; vm_compute; reflexivity|]. vm_compute. reflexivity. Qed.
(** A large amount: the review ends in the error screen, which the right button leaves. *)
Definition large_inputs : list input := inputs (sign_batch [TTransfer demo_man 300000000 (TzImplicit demo_pkh2) None]).
Lemma large_amount_fails :
  snd (fst (outcome wallet_config NanoS (large_inputs ++ presses Right 7))) = Failure /\
  answers_of wallet_config NanoS (large_inputs ++ presses Right 8) = [AReply [0x90; 0]; APending; AReply [0x69; 0x84]].
Proof. split; vm_compute; reflexivity. Qed.
(** 256 rows on the Nano X. *)
Lemma many_rows v : (sheet_length v, view_fitsb (view_or v)) = (256, true) ->
  exists v' rows, v = Some v' /\ view_sheet v' = Some rows /\ view_fits v' /\ 256 <= len rows.
Proof.
  intros H. injection H as H1 H2. destruct (sheet_length_some v _ H1) as (rows & E & L). exists (view_or v), rows.
  split; [exact (view_or_some v _ H1)|]. split; [exact E|]. split; [exact (view_fitsb_ok _ H2)|]. rewrite L. lia.
Qed.
Lemma stuck_case : exists v rows,
  d_ui (u_dev (after_inputs wallet_config NanoX (inputs (sign_batch many_items)))) = Some v /\
  view_sheet v = Some rows /\ view_fits v /\ 256 <= len rows.
Proof. apply many_rows. vm_compute. reflexivity. Qed.
