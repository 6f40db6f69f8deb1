(** The library of the emulator tests for developer builds, zemu/tests/dev.ts, and these
    tests, zemu/tests/dev.test.ts. What is printed, and [errorMessage], which is a function
    of the return code, are left out. *)
From Coq Require Import List NArith ZArith Bool Arith.
From Verif Require Import Base Flash Codecs Upload Oracles Device DevBuild Client.
Import ListNotations.
Open Scope N_scope.

(** The developer build behind a transport, as [plugged]. *)
Definition dconnection := (ddev * list (bytes * event))%type.
Definition dplugged (D : dconfig) (O : oracles) : transport dconnection := fun w command =>
  match w with
  | (x, []) => (None, w)
  | (x, (old, user) :: later) =>
    match dstep D O x (EApdu (received command old) (len command)) with
    | (AReply r, x1) => (Some r, (x1, later))
    | (APending, x1) =>
      match dstep D O x1 user with
      | (AReply r, x2) => (Some r, (x2, later))
      | (_, x2) => (None, (x2, later))
      end
    | (_, x1) => (None, (x1, later))
    end
  end.

(** [readBigInt64BE] at the start of a buffer, which throws on fewer than eight bytes. *)
Definition read_i64 (l : bytes) : option Z :=
  if (length l <? 8)%nat then None
  else let v := Z.of_N (unbe (firstn 8 l)) in Some (if (v <? 2 ^ 63)%Z then v else (v - 2 ^ 64)%Z).
(** dev.ts l.20-31: [except]. *)
Definition except {W} (X : transport W) (should_catch : bool) (ex : N) (w : W) : jres Z * W :=
  ask X 0xF1 (if should_catch then 1 else 0) (ex mod 256) [] (fun r => read_i64 (js_slice 0 (-2) r)) w.

(** dev.ts l.34-40: P1. *)
Definition hash_p1 (idx max : nat) : N :=
  let t := if (idx =? 1)%nat then 0 else 1 in if (idx =? max)%nat then 2 else t.
(** dev.ts l.33-57: [sendHashChunk]. Errors of the transport are not handled. *)
Definition send_hash_chunk {W} (X : transport W) (idx max : nat) (chunk : bytes) (w : W) : jres (option bytes) * W :=
  match send_to X 0xF0 (hash_p1 idx max) 0 chunk w with
  | (SentErr _, w') => (JThrow, w')
  | (SentOk r, w') =>
    (JData (status_of r) (if (status_of r =? NO_ERRORS) && (2 <? len r) then Some (js_slice 0 32 r) else None), w')
  end.
(** common.ts l.89. *)
Definition UNKNOWN_ERROR : N := 0x6F00.
(** dev.ts l.68-73: the loop, which counts from 0. *)
Fixpoint hash_loop {W} (X : transport W) (i max : nat) (chunks : list bytes) (result : jres (option bytes)) (w : W)
    : jres (option bytes) * W :=
  match chunks with
  | [] => (result, w)
  | c :: chunks' =>
    match send_hash_chunk X i max c w with
    | (JData code None, w') => hash_loop X (S i) max chunks' (JData code None) w'
    | x => x
    end
  end.
(** dev.ts l.59-76: [getHash]; [prepareChunks] without a path. *)
Definition get_hash {W} (X : transport W) (message : bytes) (w : W) : jres (option bytes) * W :=
  let chunks := chunk_loop (S (length message)) 0 message in
  hash_loop X 0 (length chunks - 1) chunks (JData UNKNOWN_ERROR None) w.

(** dev.ts l.78-92: [display]. *)
Definition display {W} (X : transport W) (message : bytes) (w : W) : jres unit * W :=
  if 35 <? len message then (JThrow, w) else ask X 0xF2 0 0 message (fun _ => Some tt) w.

(** dev.ts l.94-116: [blind_sign], which sends as the signing calls of the library do. *)
Definition blind_call {W} (H : host) (X : transport W) path c message (w : W) : sign_res * W :=
  sign_message H X path c (5 :: message) false 0xF3 true w.

(** dev.test.ts l.41-66: [exception]; l.68-86: [unknown exception]. *)
Definition exception_test {W} (X : transport W) (do_catch : bool) (w : W) : bool :=
  match fst (except X do_catch 1 w) with
  | JThrow => false
  | JCode code => if do_catch then false else code =? 0x6400
  | JData code ex => (code =? (if do_catch then 0x9000 else 0x6400)) && (negb do_catch || (ex =? 1)%Z)
  end.
Definition unknown_test {W} (X : transport W) (do_catch : bool) (w : W) : bool :=
  match fst (except X do_catch 42 w) with JThrow => false | _ => true end.
(** dev.test.ts l.88-106: [get hash]. *)
Definition hash_test {W} (X : transport W) (input : bytes) (w : W) : bool :=
  match fst (get_hash X input w) with JData code _ => code =? 0x9000 | _ => false end.
(** dev.test.ts l.108-134: [display]; the clicks are an approval. *)
Definition echo_test {W} (X : transport W) (msg : bytes) (w : W) : bool :=
  match fst (display X msg w) with JThrow => false | JCode code | JData code _ => code =? 0x9000 end.
