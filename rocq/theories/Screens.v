(** The screens of each review: [num_items] and [render_item] of the operations and
    of the viewables. *)
From Coq Require Import NArith ZArith Bool Arith String List.
From Verif Require Import Base Codecs Oracles Address Operations Text Bakers Device.
Import ListNotations.
Open Scope N_scope.

(** What [render_item] does for an item: it copies a title, then computes a message
    and pages it; or it answers with an error at once. *)
Inductive item := Item (title : bytes) (msg : vres bytes) | NoItem (e : view_error).

(** [title[..t.len()].copy_from_slice(t)] and then [handle_ui_message(msg, ..)]: the new
    contents of the two buffers and the announced number of pages. *)
Definition render (i : item) (key out : bytes) (page : N) : vres (bytes * bytes * N) :=
  match i with
  | NoItem e => VErr e
  | Item title msg =>
    if (length key <? length title)%nat then VPanic
    else
      vbind msg (fun m =>
      vbind (ui_message m out page) (fun '(out', n) =>
      VOk (overwrite title key, out', n)))
  end.

(** Texts that can fail: errors become [ViewError::Unknown]. *)
Definition text (r : sres bytes) : vres bytes :=
  match r with SOk t => VOk t | SErr => VErr Unknown | SPanic => VPanic end.

(** [z.read_as::<usize>().ok_or(ViewError::Unknown)?], without the sign. *)
Definition read_usize (z : zarith) : vres N :=
  match zarith_read_as USIZE_BITS z with Some (_, v) => VOk v | None => VErr Unknown end.
(** The number itself (e.g. transfer.rs l.350-357). *)
Definition number (z : zarith) : vres bytes := vbind (read_usize z) (fun v => VOk (itoa v)).
(** The number with six decimals, formatted in a buffer of
    [usize::FORMATTED_SIZE_DECIMAL + 2] zeros (e.g. transfer.rs l.264 and l.302-310). *)
Definition tez (z : zarith) : vres bytes :=
  vbind (read_usize z) (fun v =>
  match fpstr (itoa v ++ zeros (12 - length (itoa v))) 6 with
  | FOk t => VOk t
  | FErr => VErr Unknown
  | FPanic => VPanic
  end).

Section Screens.
  Variable O : oracles.
  (** The table of bakers (rust/app/src/parser/operations/delegation/unroll.rs). *)
  Variable table : list baker.
  (** Length of the title buffer. *)
  Variable ks : nat.

  (** [Sha256::digest] in hexadecimal (e.g. transfer.rs l.329-340). *)
  Definition digest_hex (l : bytes) : vres bytes :=
    match o_sha256 O l with Some d => VOk (hex d) | None => VErr Unknown end.
  Definition pkh (p : curve * bytes) : vres bytes := text (pkh_text O (fst p) (snd p)).
  Definition word (s : string) : vres bytes := VOk (lit s).

  (** parser/operations/proposals.rs l.174-192: the title of proposal number [n]; there
      is room for the number or two points follow instead. *)
  Definition proposal_title (n : N) : bytes :=
    let d := itoa ((n + 1) mod 256) in
    if (10 + length d + 1 <? ks)%nat then str "Proposal #" ++ d ++ [0] else str "Proposal #" ++ lit "..".

  (** [render_item] of the operations; [n] is a [u8]. *)
  Definition op_item (o : op) (n : N) : item :=
    match o with
    | OTransfer m amount dest params =>
      (* transfer.rs l.249-393 *)
      match n with
      | 0 => Item (lit "Type") (word (match params with Some _ => "Contract Execution" | None => "Transaction" end))
      | 1 => Item (lit "Source") (pkh (m_source m))
      | 2 => match dest with
             | Implicit c h => Item (lit "Destination") (pkh (c, h))
             | Originated h => Item (lit "Contract Addr") (text (kt1_text O h))
             end
      | 3 => Item (lit "Amount") (tez amount)
      | 4 => Item (lit "Fee") (tez (m_fee m))
      | 5 => Item (lit "Parameters")
               (match params with Some (_, michelson) => digest_hex michelson | None => word "no parameters..." end)
      | 6 => Item (lit "Gas Limit") (number (m_gas m))
      | 7 => Item (lit "Storage Limit") (number (m_storage m))
      | 8 => Item (lit "Counter") (number (m_counter m))
      | _ => NoItem NoData
      end
    | ODelegation m delegate =>
      (* delegation.rs l.102-219 *)
      match n with
      | 0 => Item (lit "Type") (word (match delegate with Some _ => "Delegation" | None => "Delegation Withdrawal" end))
      | 1 => Item (lit "Source") (pkh (m_source m))
      | 2 => Item (lit "Delegation")
               (match delegate with
                | Some (c, h) =>
                  match baker_lookup table (hash_prefix c) h with
                  | Some name => VOk name
                  | None => pkh (c, h)
                  end
                | None => word "<REVOKED>"
                end)
      | 3 => Item (lit "Fee") (tez (m_fee m))
      | 4 => Item (lit "Gas Limit") (number (m_gas m))
      | 5 => Item (lit "Storage Limit") (number (m_storage m))
      | 6 => Item (lit "Counter") (number (m_counter m))
      | _ => NoItem NoData
      end
    | OEndorsement level =>
      (* endorsement.rs l.61-97 *)
      match n with
      | 0 => Item (lit "Type") (word "Endorsement")
      | 1 => Item (lit "Level") (VOk (itoa_z level))
      | _ => NoItem NoData
      end
    | OEndorsementWithSlot branch level _ slot =>
      (* endorsement.rs l.186-238; items 3 and 4 are those of the endorsement *)
      match n with
      | 0 => Item (lit "Type") (word "Endorsement")
      | 1 => Item (lit "Branch") (text (branch_text O branch))
      | 2 => Item (lit "Slot") (VOk (itoa slot))
      | 3 => Item (lit "Type") (word "Endorsement")
      | 4 => Item (lit "Level") (VOk (itoa_z level))
      | _ => NoItem NoData
      end
    | OBallot source period proposal v =>
      (* ballot.rs l.155-225 *)
      match n with
      | 0 => Item (lit "Type") (word "Ballot")
      | 1 => Item (lit "Source") (pkh source)
      | 2 => Item (lit "Period") (VOk (itoa_z period))
      | 3 => Item (lit "Proposal") (text (proposal_text O proposal))
      | 4 => Item (lit "Vote") (word (match v with Yay => "yay" | Nay => "nay" | Pass => "pass" end))
      | _ => NoItem NoData
      end
    | OReveal m pk =>
      (* reveal.rs l.104-202 *)
      match n with
      | 0 => Item (lit "Type") (word "Revelation")
      | 1 => Item (lit "Source") (pkh (m_source m))
      | 2 => Item (lit "Public Key") (text (pk_text O (fst pk) (snd pk)))
      | 3 => Item (lit "Fee") (tez (m_fee m))
      | 4 => Item (lit "Gas Limit") (number (m_gas m))
      | 5 => Item (lit "Storage Limit") (number (m_storage m))
      | 6 => Item (lit "Counter") (number (m_counter m))
      | _ => NoItem NoData
      end
    | OProposals source period proposals =>
      (* proposals.rs l.128-206 *)
      match n with
      | 0 => Item (lit "Type") (word "Proposals")
      | 1 => Item (lit "Source") (pkh source)
      | 2 => Item (lit "Period") (VOk (itoa_z period))
      | _ =>
        if n - 3 <? len proposals mod 256 then
          match nth_error proposals (N.to_nat (n - 3)) with
          | Some p => Item (proposal_title (n - 3)) (text (proposal_text O p))
          | None => Item [] VPanic
          end
        else NoItem NoData
      end
    | OOrigination m balance delegate code storage =>
      (* origination.rs l.144-284 *)
      match n with
      | 0 => Item (lit "Type") (word "Origination")
      | 1 => Item (lit "Source") (pkh (m_source m))
      | 2 => Item (lit "Balance") (tez balance)
      | 3 => Item (lit "Delegate") (match delegate with Some d => pkh d | None => word "no delegate" end)
      | 4 => Item (lit "Fee") (tez (m_fee m))
      | 5 => Item (lit "Code") (digest_hex code)
      | 6 => Item (lit "Storage") (digest_hex storage)
      | 7 => Item (lit "Gas Limit") (number (m_gas m))
      | 8 => Item (lit "Storage Limit") (number (m_storage m))
      | 9 => Item (lit "Counter") (number (m_counter m))
      | _ => NoItem NoData
      end
    | OActivate h secret =>
      (* activate_account.rs l.91-136; the curve is set by the parser, l.66 *)
      match n with
      | 0 => Item (lit "Type") (word "Acct. Activation")
      | 1 => Item (lit "Public Key Hash") (pkh (Bip32Ed25519, h))
      | 2 => Item (lit "Secret") (VOk (hex secret))
      | _ => NoItem NoData
      end
    | OFailingNoop arbitrary =>
      (* failing_noop.rs l.57-100 *)
      match n with
      | 0 => Item (lit "Type") (word "Failing Noop")
      | 1 => Item (lit "Data Hash") (digest_hex arbitrary)
      | _ => NoItem NoData
      end
    | OUnknown rest =>
      (* operation_type.rs l.299-326 *)
      match n with
      | 0 => Item (lit "Type") (word "Unknown Operation")
      | 1 => Item (lit "Hash") (text (unknown_text O rest))
      | _ => NoItem NoData
      end
    | OAnonymous => NoItem Rejected  (* signing.rs l.309 *)
    end.

  (** operation_type.rs l.251-271: [ui_items], with the [num_items] cited above. *)
  Definition op_items (o : op) : N :=
    match o with
    | OTransfer _ _ _ _ => 9
    | ODelegation _ _ => 7
    | OEndorsement _ => 2
    | OEndorsementWithSlot _ _ _ _ => 5
    | OBallot _ _ _ _ => 5
    | OReveal _ _ => 7
    | OProposals _ _ proposals => 3 + len proposals
    | OOrigination _ _ _ _ _ => 10
    | OActivate _ _ => 3
    | OFailingNoop _ => 2
    | OUnknown _ => 2
    | OAnonymous => 0
    end.

  (** signing.rs l.154-200: [find_op_with_item], after the branch has been
      subtracted. [Some] is the operation and the index of the item in it. The
      cursor is a copy, so that each call starts at the beginning of the batch. *)
  Fixpoint find_op (fuel : nat) (e : encoded_ops) (idx : N) : vres (option (op * N)) :=
    match fuel with
    | 0%nat => VPanic
    | S fuel' =>
      match eo_next e with
      | NPanic => VPanic
      | NErr => VErr Unknown
      | NNone => VOk None
      | NSome o e' =>
        let n := op_items o mod 256 in
        if idx <? n then VOk (Some (o, idx)) else find_op fuel' e' (idx - n)
      end
    end.
  (** Enough iterations: each consumes a byte at least. *)
  Definition batch_fuel (e : encoded_ops) : nat := S (length (eo_source e)).

  (** [num_items]. *)
  Definition view_items (v : viewable) : vres N :=
    match v with
    | VSign _ _ None _ => VOk 1
    | VSign _ _ (Some (_, ops)) _ =>
      (* signing.rs l.204-243 *)
      match eo_all (batch_fuel ops) ops with
      | AllOk os => VOk ((1 + fold_right (fun o n => op_items o + n) 0 os) mod 256)
      | AllErr => VErr Unknown
      | AllPanic | AllFuel => VPanic
      end
    | VBakingSign _ _ _ o _ => VOk ((op_items o + 1) mod 256)  (* handlers/baking.rs l.384-391 *)
    | VAuthorize _ _ | VDeauthorize _ | VQuery _ _ _ => VOk 2
    | VAddr _ _ _ => VOk 1
    | VSetup _ _ _ _ _ => VOk 5
    end.

  (** [render_item]; errors of [find_op] come before the title is written. *)
  Definition view_item (v : viewable) (n : N) : vres item :=
    match v with
    | VSign _ digest None _ =>
      (* signing.rs l.255-267 *)
      VOk (match n with
           | 0 => Item (lit "Sign Michelson") (VOk (hex digest))
           | _ => NoItem NoData
           end)
    | VSign _ _ (Some (branch, ops)) _ =>
      (* signing.rs l.268-314 *)
      match n with
      | 0 => VOk (Item (lit "Operation") (text (branch_text O branch)))
      | _ =>
        vbind (find_op (batch_fuel ops) ops (n - 1)) (fun r =>
        VOk (match r with Some (o, i) => op_item o i | None => NoItem NoData end))
      end
    | VBakingSign _ _ branch o _ =>
      (* handlers/baking.rs l.394-424 *)
      VOk (match n with
           | 0 => Item (lit "Operation") (text (branch_text O branch))
           | _ => op_item o (n - 1)
           end)
    | VAuthorize _ a =>
      (* baking/authorization.rs l.109-136 *)
      VOk (match n with
           | 0 => Item (lit "Type") (word "Authorize Baking")
           | 1 => Item (lit "Address") (text (addr_base58 a))
           | _ => NoItem NoData
           end)
    | VDeauthorize a =>
      (* baking/authorization.rs l.223-247 *)
      VOk (match n with
           | 0 => Item (lit "Type") (word "DeAuthorize Baking")
           | 1 => Item (lit "Address") (text (addr_base58 a))
           | _ => NoItem NoData
           end)
    | VQuery _ _ a =>
      (* baking/queryauth.rs l.140-164 *)
      VOk (match n with
           | 0 => Item (lit "Type") (word "Query Authorized")
           | 1 => Item (lit "Address") (text (addr_base58 a))
           | _ => NoItem NoData
           end)
    | VAddr _ _ a =>
      (* public_key.rs l.268-287 *)
      VOk (match n with
           | 0 => Item (lit "Address") (text (addr_base58 a))
           | _ => NoItem NoData
           end)
    | VSetup _ main test chain a =>
      (* legacy/baking/setup.rs l.144-198 *)
      VOk (match n with
           | 0 => Item (lit "Type") (word "Setup Baking")
           | 1 => Item (lit "Address") (text (addr_base58 a))
           | 2 => Item (lit "Chain") (text (chain_alias O chain))
           | 3 => Item (lit "Main Chain HWM") (VOk (itoa main))
           | 4 => Item (lit "Test Chain HWM") (VOk (itoa test))
           | _ => NoItem NoData
           end)
    end.

  Definition view_render (v : viewable) (n : N) (key out : bytes) (page : N) : vres (bytes * bytes * N) :=
    vbind (view_item v n) (fun i => render i key out page).
End Screens.

(** The two kinds of devices; the Nano S Plus is like the Nano X. *)
Inductive hardware := NanoS | NanoX.
(** zemu/src/ui_toolkit/backends/nanos.rs l.26-29, nanox.rs l.24-26 and
    nanosplus.rs: sizes of the title and message buffers. *)
Definition key_size (hw : hardware) : nat := match hw with NanoS => 18 | NanoX => 64 end.
Definition message_size (hw : hardware) : N := match hw with NanoS => 35 | NanoX => 4096 end.
