(** The emulator tests that ask for versions and public keys. What is printed, and
    [errorMessage], which is a function of the return code, are left out. *)
From Coq Require Import NArith ZArith Bool String List.
From Verif Require Import Base Address AddressSpec Codecs Client.
Import ListNotations.
Open Scope N_scope.

(** [toContain] of a string. *)
Fixpoint begins (p t : bytes) : bool :=
  match p, t with
  | [], _ => true
  | x :: p', y :: t' => (x =? y) && begins p' t'
  | _, [] => false
  end.
Fixpoint contains (p t : bytes) : bool :=
  begins p t || match t with [] => false | _ :: t' => contains p t' end.

(** zemu/tests/standard.test.ts l.107-128 with [getAddressAndPubKey], l.132-153 with
    [legacyGetPubKey]. *)
Definition key_test {W} (call : host -> transport W -> bytes -> curve -> W -> jres (bytes * bytes) * W)
    (H : host) (X : transport W) (text : bytes) (c : curve) (w : W) : bool * W :=
  match call H X text c w with
  | (JData code (pk, address), w') =>
    ((code =? 0x9000) &&
     match public_key_to_address H pk c with
     | Some (t, _) => bytes_eqb address t && contains (chars "tz") address
     | None => false
     end, w')
  | (_, w') => (false, w')
  end.

(** standard.test.ts l.48-65: [getVersion]; l.69-88, and zemu/tests/baking.test.ts alike:
    [legacyGetVersion] and the kind of app it is to be. *)
Definition version_test {W} (X : transport W) (w : W) : bool :=
  match fst (get_version X w) with JData code _ => code =? 0x9000 | _ => false end.
Definition legacy_version_test {W} (baking : bool) (X : transport W) (w : W) : bool :=
  match fst (legacy_get_version X w) with JData code (b, _) => (code =? 0x9000) && Bool.eqb b baking | _ => false end.
