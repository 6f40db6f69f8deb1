(** The harness of the unit tests and the flow they put the baking app through. *)
From Coq Require Import NArith Bool Arith List.
From Verif Require Import Base Flash Codecs Upload Baking Operations Oracles Address Device Mock.
Import ListNotations.
Open Scope N_scope.

(** ledger_apdu's [APDUCommand], as rust/app/tests/prelude.rs uses it. *)
Record tcmd := mkCmd { t_ins : N; t_p1 : N; t_p2 : N; t_data : bytes }.

(** [APDUCommand::serialize]: header, length, data. Every command of the baking tests has
    the class [CLA] (rust/app/src/dispatcher.rs l.28). *)
Definition t_serialize (c : tcmd) : bytes :=
  [CLA; t_ins c; t_p1 c; t_p2 c; len (t_data c) mod 256] ++ t_data c.

(** [APDUAnswer::retcode]: the last two bytes. *)
Definition retcode (a : bytes) : N := unbe (skipn (length a - 2) a).

(** rust/app/src/constants.rs [ApduError::Success]. *)
Definition T_SUCCESS : N := 0x9000.

(** rust/app/tests/prelude.rs l.48-54: [prepare_path]; [None] is a panic. The sum is
    checked in a test build. *)
Definition prepare_path (p : list N) : option bytes :=
  if (256 <=? length p)%nat || existsb (fun n => 2 ^ 31 <=? n) p then None
  else match path_new BIP32_MAX_LENGTH (map (fun n => 0x80000000 + n) p) with
       | SOk q => Some (path_serialize q)
       | _ => None
       end.

(** prelude.rs l.81: [USER_MESSAGE_CHUNK_SIZE]. *)
Definition T_CHUNK : nat := 250.

(** [slice::chunks]; [fuel] bounds the number of pieces. *)
Fixpoint pieces (fuel : nat) (l : bytes) : list bytes :=
  match fuel, l with
  | O, _ | _, [] => []
  | S fuel', _ => firstn T_CHUNK l :: pieces fuel' (skipn T_CHUNK l)
  end.

Section Harness.
  Variable C : config.
  Variable O : oracles.

  (** prelude.rs l.56-79: [process_apdu]. [None] is a panic, which ends the test. *)
  Definition process (d : dev) (c : tcmd) : option bytes * dev :=
    let s := t_serialize c in
    if (260 <? length s)%nat then (None, d)
    else match mock_step C O d (pad_to 260 s) (len s) with
         | (Saw a o, d') =>
           let out := match o with Some b => b | None => a end in
           if (length out <? 2)%nat then (None, d') else (Some out, d')
         | (Panicked, d') => (None, d')
         end.

  (** prelude.rs l.104-126: the loop of [process_apdu_chunks]. *)
  Fixpoint send_pieces (ins : N) (ps : list bytes) (answer : bytes) (d : dev) : option bytes * dev :=
    match ps with
    | [] => (Some answer, d)
    | p :: ps' =>
      if negb (retcode answer =? T_SUCCESS) then (Some answer, d)
      else
        let p1 := match ps' with [] => 2 | _ => 1 end in
        match process d (mkCmd ins p1 0 p) with
        | (Some a, d') => send_pieces ins ps' a d'
        | (None, d') => (None, d')
        end
    end.

  (** prelude.rs l.83-131: [process_apdu_chunks]. *)
  Definition process_chunks (d : dev) (c : tcmd) (message : bytes) : option bytes * dev :=
    let ps := pieces (length message) message in
    if (length ps =? 0)%nat || (255 <? length ps)%nat then (None, d)
    else match process d (mkCmd (t_ins c) 0 (t_p2 c) (t_data c)) with
         | (Some a, d') => send_pieces (t_ins c) ps a d'
         | (None, d') => (None, d')
         end.

  (** [assert_eq!(answer.retcode(), ApduError::Success as u16)]: whether the test goes on. *)
  Definition asserted (r : option bytes * dev) : bool * dev :=
    match r with
    | (Some a, d) => (retcode a =? T_SUCCESS, d)
    | (None, d) => (false, d)
    end.
  Definition then_ (r : bool * dev) (f : dev -> bool * dev) : bool * dev :=
    if fst r then f (snd r) else r.

  (** rust/app/tests/baking_prelude.rs l.24-35: [reset_state]. *)
  Definition reset_state (level : N) (d : dev) : bool * dev :=
    asserted (process d (mkCmd 0x06 0 0 (be 4 level))).

  (** baking_prelude.rs l.37-48: [authorize_baking]. *)
  Definition t_authorize (p : list N) (c : curve) (d : dev) : bool * dev :=
    match prepare_path p with
    | None => (false, d)
    | Some l => asserted (process d (mkCmd 0xA1 1 (byte_of_curve c) l))
    end.

  (** rust/app/tests/baking.rs l.46-58: the samples, one after the other. *)
  Fixpoint t_samples (l : bytes) (c : curve) (samples : list bytes) (d : dev) : bool * dev :=
    match samples with
    | [] => (true, d)
    | m :: ms => then_ (asserted (process_chunks d (mkCmd 0xAF 0 (byte_of_curve c) l) m)) (t_samples l c ms)
    end.

  (** baking.rs l.29-59: [baking_flow]; l.61-86 and l.88-134 are the same with other
      messages. The result is whether the test passes. *)
  Definition baking_flow (level : N) (p : list N) (c : curve) (samples : list bytes) (d : dev) : bool * dev :=
    then_ (reset_state level d) (fun d1 =>
    then_ (t_authorize p c d1) (fun d2 =>
      match prepare_path p with
      | None => (false, d2)
      | Some l => t_samples l c samples d2
      end)).
End Harness.
