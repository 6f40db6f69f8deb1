(** The emulator tests that sign: what they press and what they check.

    Simplifications. [clickRight], [clickLeft] and [clickBoth] of Zemu press the button
    they name, and [navigateAndCompareSnapshots] with the list [[n, 0]] presses the right
    button [n] times and then both; the comparison of pictures is left out. A promise that
    is never resolved is a failing test. *)
From Coq Require Import NArith ZArith Bool List.
From Verif Require Import Base Address Codecs Zui Client ClientSpec.
Import ListNotations.
Open Scope N_scope.

(** zemu/tests/testvectors.test.ts l.44-50, and l.104-110 alike: "try to navigate to the
    end of the transaction", "and accept, since last screen is reject". *)
Definition to_the_end : list button := repeat Right 30 ++ [Left; Both].
(** zemu/tests/standard.test.ts l.159, l.164, l.170: [nav], of the form [[n, 0]]. *)
Definition navigation (n : nat) : list button := repeat Right n ++ [Both].

(** The libraries that verify signatures (standard.test.ts l.20, l.24): signature, hash
    and public key. *)
Record verifiers := mkVerifiers { v_ed : bytes -> bytes -> bytes -> bool; v_k1 : bytes -> bytes -> bytes -> bool }.

(** standard.test.ts l.201-220, testvectors.test.ts l.64-83: [signatureOK]. The public key
    is missing when the device did not give one, and then read anyway but for
    Secp256R1. *)
Definition signature_ok (V : verifiers) (c : curve) (s dg : bytes) (pk : option bytes) : bool :=
  match c, pk with
  | Secp256R1, _ => true
  | _, None => false
  | Secp256K1, Some pk => v_k1 V (match s with [] => [] | _ :: s' => 0x30 :: s' end) dg pk
  | _, Some pk => v_ed V s dg (js_slice 1 33 pk)
  end.

(** standard.test.ts l.181-220 and l.232-271, testvectors.test.ts l.39-83: a test that
    signs, from the call on; the buttons are pressed while the call waits. *)
Definition sign_test {W} (V : verifiers) (H : host) (X : transport W) (call : signing_call W) (kind : legacy_kind)
    (text : bytes) (c : curve) (message : bytes) (w : W) : bool * W :=
  let (r, w1) := call H X text c message w in
  match sr_hash r, sr_sig r with
  | Some dg, Some s =>
    if (sr_code r =? 0x9000) && bytes_eqb dg (sig_hash H message kind) then
      match get_address_and_pubkey H X text c w1 with
      | (JThrow, w2) => (false, w2)
      | (JCode _, w2) => (signature_ok V c s dg None, w2)
      | (JData _ (pk, _), w2) => (signature_ok V c s dg (Some pk), w2)
      end
    else (false, w1)
  | _, _ => (false, w1)
  end.
