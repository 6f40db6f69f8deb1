(** Properties of the host library's question for the running app. *)
From Coq Require Import List NArith Bool.
From Verif Require Import Base Client AppInfo AppInfoSpec AppInfoFacts.
Import ListNotations.
Open Scope N_scope.

(** C75: name, version and flags are read from every answer in format 1 with ASCII texts and
    at least one byte of flags, whatever its lengths. *)
Theorem C75_app_info_partial : forall W (X : transport W) w w' name version f more,
  ascii name -> ascii version ->
  answers_with X w w' (info_bytes name version (f :: more)) ->
  get_app_info X w =
    (JData 0x9000 (mkInfo name version (Some (len (f :: more))) (Some f)
       (N.testbit f 0) (N.testbit f 1) (N.testbit f 2) (N.testbit f 7)), w').
Proof. exact @app_info_read. Qed.
Print Assumptions C75_app_info_partial.
Example C75_app_info_case : ascii [84; 101; 122; 111; 115] /\ ascii [50; 46; 50; 46; 57] /\
  answers_with (fun w _ => (Some (tezos_answer ++ [0x90; 0x00]), w)) tt tt tezos_answer /\
  fst (get_app_info (fun w _ => (Some (tezos_answer ++ [0x90; 0x00]), w)) tt) =
    JData 0x9000 (mkInfo [84; 101; 122; 111; 115] [50; 46; 50; 46; 57] (Some 1) (Some 0x84) false false true true).
Proof. exact tezos_case. Qed.

(** Another status word is reported without data, and so is the lack of an answer. *)
Theorem C75_app_info_failure : forall W (X : transport W) w w',
  (forall data a b, X w [0xB0; 0x01; 0; 0; 0] = (Some (data ++ [a; b]), w') -> 256 * a + b <> 0x9000 ->
     get_app_info X w = (JCode (256 * a + b), w')) /\
  (forall r, X w [0xB0; 0x01; 0; 0; 0] = (r, w') -> (forall l, r = Some l -> len l < 2) -> get_app_info X w = (JCode 0xFFFF, w')).
Proof. exact @app_info_failure. Qed.
Print Assumptions C75_app_info_failure.
Example C75_app_info_failure_case : let X := fun w _ => (Some (tezos_answer ++ [0x6E; 0x00]), w) in
  X tt [0xB0; 0x01; 0; 0; 0] = (Some (tezos_answer ++ [0x6E; 0x00]), tt) /\ fst (get_app_info X tt) = JCode 0x6E00.
Proof. exact (conj eq_refl eq_refl). Qed.

(** C75, not true of the code: with an empty field of flags the status word is read as flags,
    and the PIN is reported as validated. *)
Theorem C75_no_flags_refuted : forall W (X : transport W) w w' name version,
  ascii name -> ascii version ->
  answers_with X w w' (info_bytes name version []) ->
  get_app_info X w = (JData 0x9000 (mkInfo name version (Some 0) (Some 0x90) false false false true), w').
Proof. exact @app_info_no_flags. Qed.
Print Assumptions C75_no_flags_refuted.
Example C75_no_flags_case :
  answers_with (fun w _ => (Some (info_bytes [84] [50] [] ++ [0x90; 0x00]), w)) tt tt (info_bytes [84] [50] []).
Proof. exact eq_refl. Qed.

(** C75, not true of the code: an answer in another format is not reported as an error; the
    call succeeds with 'err' as name and version. *)
Theorem C75_format_refuted : forall W (X : transport W) w w' f r,
  f <> 1 -> answers_with X w w' (f :: r) ->
  get_app_info X w = (JData 0x9000 (mkInfo ERR ERR (Some 0) (Some 0) false false false false), w').
Proof. exact @app_info_format. Qed.
Print Assumptions C75_format_refuted.
Example C75_format_case :
  2 <> 1 /\ answers_with (fun w _ => (Some ([2; 7] ++ [0x90; 0x00]), w)) tt tt [2; 7].
Proof. exact (conj (fun H => eq_ind 2 (fun n => match n with 1 => False | _ => True end) Logic.I 1 H) eq_refl). Qed.
