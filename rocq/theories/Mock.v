(** The build of the unit tests: a display that approves every review at once. *)
From Coq Require Import NArith Bool Arith List.
From Verif Require Import Base Flash Codecs Upload Baking Operations Oracles Address Device.
Import ListNotations.
Open Scope N_scope.

(** rust/zemu/src/ui_mock.rs l.23: [UI_OUT_SIZE]. *)
Definition UI_OUT_SIZE : N := 260.

(** What a command leaves in this build: bytes to answer now, or nothing to answer and
    the bytes of the review's answer, status word last, in [OUT]. *)
Inductive mreply := MNow (data : bytes) | MShown (out : bytes).

Section Mock.
  Variable C : config.
  Variable O : oracles.

  (** ui_mock.rs l.64-78: [show] accepts into [OUT], inside the command, and writes the
      status word after the answer. There is no check whether the viewable fits. *)
  Definition mshow (v : viewable) : M mreply := fun d =>
    let put out e d' :=
      if UI_OUT_SIZE <? len out + 2 then (Panic, d') else (Ok (MShown (out ++ be 2 (sw e))), d') in
    match accept O v UI_OUT_SIZE d with
    | (Ok out, d') => put out Success d'
    | (Err e, d') => put [] e d'
    | (Panic, d') => (Panic, d')
    | (Cut, d') => (Cut, d')
    end.

  (** A command without a review is the same in both builds. *)
  Definition plain (m : M reply) : M mreply := fun d =>
    match m d with
    | (Ok (Now data), d') => (Ok (MNow data), d')
    | (Ok Later, d') => (Panic, d')  (* not reached: these commands show nothing *)
    | (Err e, d') => (Err e, d')
    | (Panic, d') => (Panic, d')
    | (Cut, d') => (Cut, d')
    end.

  (** handlers/baking.rs l.290-329: [handle_delegation]. *)
  Definition mock_delegation (rem : bytes) (send_hash : bool) (digest data : bytes) : M mreply :=
    match operation_new rem with
    | None => fail DataInvalid
    | Some (branch, ops) =>
      match eo_next ops with
      | NPanic => panic
      | NErr | NNone => fail DataInvalid
      | NSome o _ =>
        match o with
        | ODelegation _ _ | OReveal _ _ => mshow (VBakingSign send_hash digest branch o data)
        | _ => fail CommandNotAllowed
        end
      end
    end.

  (** handlers/baking.rs l.332-368: [baker_sign]. *)
  Definition mock_baker_sign (send_hash : bool) (up : upload_out) : M mreply :=
    do c <- of_option InvalidP1P2 (curve_of_byte (uo_p2 up));
    do pa <- of_option DataInvalid (path_read BIP32_MAX_LENGTH (uo_first up));
    do ok <- check_with_stored (c, pa);
    do _ <- check ok DataInvalid;
    do digest <- digest32 O (uo_data up);
    match preemble_parse (uo_data up) with
    | PPanic => panic
    | PErr => fail DataInvalid
    | POk rem p =>
      match p with
      | PreTBPreendorsement | PreTBEndorsement | PreEndorsement | PreTBBlock | PreBlock =>
        plain (handle_consensus O p rem send_hash digest (uo_data up))
      | PreOperation => mock_delegation rem send_hash digest (uo_data up)
      | _ => fail CommandNotAllowed
      end
    end.

  (** handlers/signing.rs l.78-113: [start_sign]. *)
  Definition mock_start_sign (send_hash : bool) (up : upload_out) : M mreply :=
    do c <- of_option InvalidP1P2 (curve_of_byte (uo_p2 up));
    do pa <- of_option DataInvalid (path_read BIP32_MAX_LENGTH (uo_first up));
    do _ <- (fun d => (Ok tt, set_path (Some (c, pa)) d));
    do digest <- digest32 O (uo_data up);
    match preemble_parse (uo_data up) with
    | PPanic => panic
    | PErr => fail DataInvalid
    | POk rem p =>
      match p with
      | PreOperation =>
        do parsed <- of_option DataInvalid (operation_new rem);
        mshow (VSign send_hash digest (Some parsed) (uo_data up))
      | PreMichelson => mshow (VSign send_hash digest None (uo_data up))
      | _ => fail CommandNotAllowed
      end
    end.

  (** handlers/baking.rs l.462-484, signing.rs l.116-133, legacy/signing.rs l.29-135: the
      review's answer is computed before the upload is dropped. *)
  Definition mock_upload (a : accessor) (buf : bytes) (f : upload_out -> M mreply) : M mreply :=
    do o <- the_upload a buf;
    match o with
    | None => ret (MNow [])
    | Some up => fun d =>
      match f up d with
      | (Ok r, d') => bind (drop_upload a) (fun _ => ret r) d'
      | (Err e, d') => bind (drop_upload a) (fun _ => fail e) d'
      | (Panic, d') => (Panic, d')
      | (Cut, d') => (Cut, d')
      end
    end.
  Definition mock_sign (send_hash : bool) (buf : bytes) : M mreply :=
    mock_upload AccSign buf (mock_start_sign send_hash).
  Definition mock_baking (send_hash : bool) (buf : bytes) : M mreply :=
    mock_upload AccBaking buf (mock_baker_sign send_hash).

  (** handlers/baking/authorization.rs l.78-103 with l.60-76. *)
  Definition mock_authorize (buf : bytes) : M mreply :=
    do _ <- check (needs_review buf) ConditionsNotSatisfied;
    do c <- the_curve buf;
    do cdata <- the_payload buf;
    do pa <- of_option DataInvalid (path_read BIP32_MAX_LENGTH cdata);
    do a <- address O (c, pa);
    mshow (VAuthorize (c, pa) a).

  (** handlers/baking/authorization.rs l.197-217 with l.175-190. *)
  Definition mock_deauthorize (buf : bytes) : M mreply :=
    do _ <- check (needs_review buf) ConditionsNotSatisfied;
    do o <- read_baking_key;
    do k <- of_option ConditionsNotSatisfied o;
    do a <- address O k;
    mshow (VDeauthorize a).

  (** handlers/baking/queryauth.rs l.35-63. *)
  Definition mock_query (with_curve : bool) (buf : bytes) : M mreply :=
    do o <- read_baking_key;
    do k <- of_option ConditionsNotSatisfied o;
    do a <- address O k;
    if needs_review buf then mshow (VQuery with_curve k a)
    else match query_answer with_curve k (len buf) with
         | None => panic
         | Some out => ret (MNow out)
         end.

  (** handlers/legacy/baking/setup.rs l.61-91 with l.40-58. *)
  Definition mock_setup (buf : bytes) : M mreply :=
    do c <- the_curve buf;
    do cdata <- the_payload buf;
    do _ <- check (13 <=? length cdata)%nat WrongLength;
    let chain := unbe (slice 0 4 cdata) in
    let main := unbe (slice 4 4 cdata) in
    let test := unbe (slice 8 4 cdata) in
    let plen := (1 + 4 * N.to_nat (nth 12 cdata 0%N))%nat in
    do _ <- check (12 + plen <=? length cdata)%nat WrongLength;
    do pa <- of_option DataInvalid (path_read BIP32_MAX_LENGTH (slice 12 plen cdata));
    do a <- address O (c, pa);
    mshow (VSetup (c, pa) main test (chain_of_u32 chain) a).

  (** handlers/public_key.rs l.73-142. *)
  Definition mock_get_address (buf : bytes) : M mreply :=
    do (c, pk) <- requested_key O buf;
    do a <- of_sres DataInvalid (addr_new O c pk);
    if needs_review buf then mshow (VAddr true pk a)
    else do out <- of_sres ExecutionError (addr_answer true pk a); ret (MNow out).

  (** handlers/legacy/public_key.rs l.72-125. *)
  Definition mock_prompt (buf : bytes) : M mreply :=
    do (c, pk) <- requested_key O buf;
    do a <- of_sres DataInvalid (addr_new O c pk);
    mshow (VAddr true pk a).

  (** dispatcher.rs l.111-196. *)
  Definition mock_common (ins : N) (buf : bytes) : M mreply :=
    if ins =? 0x00 then plain (h_legacy_version C)
    else if ins =? 0x02 then plain (h_get_public O buf)
    else if ins =? 0x03 then mock_prompt buf
    else if ins =? 0x11 then mock_get_address buf
    else if ins =? 0x09 then plain (h_git C)
    else if ins =? 0x04 then (if cf_baking C then mock_baking false buf else mock_sign false buf)
    else if ins =? 0x0F then (if cf_baking C then mock_baking true buf else mock_sign true buf)
    else if ins =? 0x12 then mock_sign true buf
    else if ins =? 0x10 then plain (h_version C)
    else fail CommandNotAllowed.
  Definition mock_dispatch (buf : bytes) : M mreply :=
    if negb (apdu_cla buf =? CLA) then fail ClaNotSupported
    else
      let ins := apdu_ins buf in
      if cf_baking C then
        if ins =? 0x06 then plain (h_reset buf)
        else if ins =? 0x08 then plain h_main_hwm
        else if ins =? 0x0B then plain h_all_hwm
        else if ins =? 0xA1 then mock_authorize buf
        else if ins =? 0xAC then mock_deauthorize buf
        else if ins =? 0xA7 then mock_query false buf
        else if ins =? 0xAD then mock_query true buf
        else if ins =? 0xAF then mock_baking true buf
        else if ins =? 0x01 then mock_authorize buf
        else if ins =? 0x0C then mock_deauthorize buf
        else if ins =? 0x07 then mock_query false buf
        else if ins =? 0x0D then mock_query true buf
        else if ins =? 0x0A then mock_setup buf
        else if ins =? 0x0E then plain (h_hmac O buf)
        else mock_common ins buf
      else
        if ins =? 0x05 then mock_sign false buf
        else mock_common ins buf.

  (** What a test sees of one call of [handle_apdu] (dispatcher.rs l.198-220) followed by
      [get_out] (ui_mock.rs l.58-60): the answer in the buffer and, if a review was
      approved, its answer; or the test panics. *)
  Inductive seen := Saw (answer : bytes) (out : option bytes) | Panicked.

  Definition mock_step (d : dev) (buf : bytes) (rx : N) : seen * dev :=
    let put data e o d' :=
      if len buf <? len data + 2 then (Panicked, restart d') else (Saw (data ++ be 2 (sw e)) o, d') in
    match (if apdu_read_ok buf rx then mock_dispatch buf d else (Err WrongLength, d)) with
    | (Ok (MNow data), d') => put data Success None d'
    | (Ok (MShown out), d') => put [] Success (Some out) d'
    | (Err e, d') => put [] e None d'
    | (Panic, d') | (Cut, d') => (Panicked, restart d')
    end.

  (** A test sends commands one after the other until it panics. *)
  Fixpoint mock_run (d : dev) (cs : list (bytes * N)) : list seen * dev :=
    match cs with
    | [] => ([], d)
    | (buf, rx) :: cs' =>
      match mock_step d buf rx with
      | (Panicked, d1) => ([Panicked], d1)
      | (s, d1) => let (l, d2) := mock_run d1 cs' in (s :: l, d2)
      end
    end.
End Mock.
