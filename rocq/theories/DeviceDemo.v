(** Concrete devices and histories. *)
From Coq Require Import List NArith ZArith Bool Arith.
From Verif Require Import Base Flash Codecs CodecsSpec Upload UploadSpec UploadExamples
  Baking BakingSpec BakingExamples Operations Oracles Address AddressExamples Device DeviceSpec.
Import ListNotations.
Open Scope N_scope.

Definition demo_config : config :=
  mkConfig true (2, 2, 9) 0x31100004 (map N.of_nat [97; 98; 99; 100; 101; 102; 48; 49]%nat)
           (fun _ => Some 200).
Definition wallet_config : config :=
  mkConfig false (2, 2, 9) 0x31100004 (map N.of_nat [97; 98; 99; 100; 101; 102; 48; 49]%nat)
           (fun _ => Some 200).

(** m/44'/1729'/0' *)
Definition demo_path : path := [0x8000002C; 0x800006C1; 0x80000000].
Definition demo_key : key := (Ed25519, demo_path).

Definition send (ins p1 p2 : N) (payload : bytes) : event :=
  EApdu (apdu ins p1 p2 payload) (5 + len payload).
Definition send_message (ins : N) (data : bytes) : list event :=
  [send ins 0 0 (path_serialize demo_path); send ins 0x81 0 data].
Definition authorise : list event := [send 0xA1 1 0 (path_serialize demo_path); EApprove].
Definition reset_to (level : N) : event := send 0x06 0 0 (be 4 level).

Definition demo_block : bytes := 0x01 :: enc_header demo_emmy_header.
Definition demo_tb_block : bytes := 0x11 :: enc_header demo_tb_header.
Definition demo_tb_pre : bytes := 0x12 :: demo_pre.

(** Authorise, reset, then bake across a power cycle; the last request repeats an
    earlier block. *)
Definition demo_before : list event := authorise ++ [reset_to 1499999].
Definition demo_after : list event :=
  send_message 4 demo_block ++ [EPower] ++ send_message 0x0F demo_tb_block
  ++ send_message 0xAF demo_tb_pre ++ send_message 4 demo_tb_block.

(** An Emmy endorsement of a level. *)
Definition endo_at (level : N) : bytes := 0x02 :: enc_emmy_endo 0x7A06A770 (demo_hash 5) level [7].
(** Nine writes of the main watermark succeed, the tenth reports an error and leaves
    the page as it was; then an old level is requested again. *)
Definition rollback_faults : list fault := repeat WOk 12 ++ [WFail TOld].
Definition rollback_before : list event := authorise ++ [reset_to 100].
Definition rollback_after : list event :=
  concat (map (fun l => send_message 4 (endo_at l)) [101; 102; 103; 104; 105; 106; 107; 108; 109; 102]).

(** Decidable forms of the side conditions. *)
Definition event_okb (e : event) : bool :=
  match e with EApdu buf _ => apdu_okb buf | _ => true end.
Lemma events_okb_ok es : forallb event_okb es = true -> Forall event_ok es.
Proof.
  rewrite forallb_forall, Forall_forall. intros H e He. specialize (H e He).
  destruct e; cbn in *; auto. now apply apdu_okb_ok.
Qed.

Definition resetsb (C : config) (d : dev) (e : event) : bool :=
  match e with
  | EApdu buf rx =>
    cf_baking C && match d_ui d with None => true | _ => false end && (5 <=? rx) && (rx <=? 260)
    && (nth 0 buf 0 =? 0x80) && (nth 1 buf 0 =? 0x06) && (4 <=? nth 4 buf 0)
  | EApprove => match d_ui d with Some (VSetup _ _ _ _ _) => true | _ => false end
  | _ => false
  end.
Fixpoint no_resetb (C : config) (O : oracles) (d : dev) (es : list event) : bool :=
  match es with
  | [] => true
  | e :: es' => negb (resetsb C d e) && no_resetb C O (snd (step C O d e)) es'
  end.
Lemma no_resetb_ok C O es : forall d, no_resetb C O d es = true -> no_reset C O d es.
Proof.
  induction es as [|e es IH]; intros d H; cbn [no_reset no_resetb] in *; [exact I|].
  apply andb_prop in H as [H1 H2]. split; [|now apply IH].
  intros R. unfold resetsb in H1. destruct e as [buf rx| | | |]; cbn [resets] in R; try contradiction.
  - destruct R as (R1 & (R2 & [R3 R4] & R5 & R6) & R7).
    rewrite R1, R2, R5, R6 in H1. apply N.leb_le in R3, R4, R7. rewrite R3, R4, R7 in H1. discriminate.
  - destruct (d_ui d) as [[]|]; try contradiction. discriminate.
Qed.
