(** docs/APDUSPEC.md: what each command answers. *)
From Coq Require Import List NArith Bool.
From Verif Require Import Base Codecs Oracles Address AddressSpec Device.
Import ListNotations.
Open Scope N_scope.

Section Doc.
  Variable C : config.
  Variable O : oracles.

  (** PK_LEN, PKEY. *)
  Definition doc_key (data : bytes) : Prop :=
    exists c pk, length pk = pubkey_length c /\ data = len pk :: pk.
  (** PK_LEN, PKEY, ADDR_HUMAN. *)
  Definition doc_address (data : bytes) : Prop :=
    exists c pk h t, length pk = pubkey_length c /\ length h = 20%nat /\
      tz_text (twice O) (addr_kind c) h t /\ data = len pk :: pk ++ t.
  (** PathN, Path[0], ..., after the curve if asked for. *)
  Definition doc_path (with_curve : bool) (data : bytes) : Prop :=
    exists c components, (length components <= 10)%nat /\
      data = (if with_curve then [byte_of_curve c] else []) ++ len components :: concat (map (be 4) components).
  (** SIG_HASH if the command sends it, SIG, for the last packet of a request; nothing for
      the others. The document has the last packet 2; 0x81 and 0x83 are the legacy ones. *)
  Definition doc_signature (p1 : N) (with_hash : bool) (data : bytes) : Prop :=
    if existsb (N.eqb p1) [2; 0x81; 0x83]
    then exists hash sig, length hash = (if with_hash then 32 else 0)%nat /\ (length sig <= 100)%nat /\ data = hash ++ sig
    else data = [].
  (** TEST, MAJOR, MINOR, PATCH, LOCKED, TARGET ID. *)
  Definition doc_version (data : bytes) : Prop :=
    exists test locked, (test = 0 \/ test = 0xFF) /\ (locked = 0 \/ locked = 1) /\
      let '(major, minor, patch) := cf_version C in
      data = [test; major; minor; patch; locked] ++ be 4 (cf_target C).
  (** The legacy commands, which the document only lists by name. *)
  Definition doc_legacy_version (data : bytes) : Prop :=
    let '(major, minor, patch) := cf_version C in data = [if cf_baking C then 1 else 0; major; minor; patch].
  Definition doc_bytes (n : nat) (data : bytes) : Prop := length data = n.

  Definition doc_common (p1 : N) : list (N * (bytes -> Prop)) :=
    [(0x10, doc_version); (0x11, doc_address); (0x12, doc_signature p1 true);
     (0x00, doc_legacy_version); (0x02, doc_key); (0x03, doc_address); (0x04, doc_signature p1 false);
     (0x09, doc_bytes 9); (0x0F, doc_signature p1 true)].
  Definition doc_wallet (p1 : N) : list (N * (bytes -> Prop)) := [(0x05, doc_signature p1 false)].
  Definition doc_baking (p1 : N) : list (N * (bytes -> Prop)) :=
    [(0xA1, doc_key); (0xAC, doc_bytes 0); (0xA7, doc_path false); (0xAD, doc_path true); (0xAF, doc_signature p1 true);
     (0x01, doc_key); (0x06, doc_bytes 0); (0x07, doc_path false); (0x08, doc_bytes 4); (0x0A, doc_key);
     (0x0B, doc_bytes 12); (0x0C, doc_bytes 0); (0x0D, doc_path true); (0x0E, doc_bytes 32)].
  (** The app has this command, and this is a successful answer to it. *)
  Definition doc_response (ins p1 : N) (data : bytes) : Prop :=
    exists P, In (ins, P) (doc_common p1 ++ if cf_baking C then doc_baking p1 else doc_wallet p1) /\ P data.

  (** The codes that the app uses, and those that the document lists. *)
  Definition used_codes : list N := [0x6400; 0x6700; 0x6984; 0x6985; 0x6986; 0x6B00; 0x6E00; 0x9000; 0x9001].
  Definition doc_codes : list N := [0x6400; 0x6982; 0x6983; 0x6986; 0x6D00; 0x6E00; 0x6F00; 0x9000].

  (** An answer: ANSWER, which is empty unless the command succeeded, and the return code. *)
  Definition conforms (ins p1 : N) (out : bytes) : Prop :=
    exists data code, out = data ++ be 2 code /\ In code used_codes /\
      if code =? 0x9000 then doc_response ins p1 data else data = [].

  (** The answers of a history, each with the command that it answers; [asked] is the
      command whose review is pending. *)
  Fixpoint answered (d : dev) (asked : bytes) (es : list event) : list (bytes * bytes) :=
    match es with
    | [] => []
    | e :: es' =>
      let asked' := match e with EApdu buf _ => buf | _ => asked end in
      let (a, d') := step C O d e in
      match a with
      | AReply out => [(asked', out)]
      | _ => []
      end ++ answered d' (match a with ANone => asked | _ => asked' end) es'
    end.
End Doc.
