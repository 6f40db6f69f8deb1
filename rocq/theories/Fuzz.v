(** The fuzz targets of the parser crate, rust/hfuzz-parser. *)
From Coq Require Import NArith Bool Arith List.
From Verif Require Import Base Flash Codecs Upload Operations Oracles Device Mock.
Import ListNotations.
Open Scope N_scope.

(** How a run over an input ends. *)
Inductive fuzzed := Done | Crashed | Hangs.

(** hfuzz-parser/operations.rs l.7-10: the loop over a batch; it ends at the first error.
    [fuel] bounds the rounds. *)
Fixpoint fuzz_ops (fuel : nat) (e : encoded_ops) : fuzzed :=
  match fuel with
  | O => Hangs
  | S fuel' =>
    match eo_next e with
    | NPanic => Crashed
    | NErr | NNone => Done
    | NSome _ e' => fuzz_ops fuel' e'
    end
  end.
(** hfuzz-parser/operations.rs l.5-11, with [rounds] rounds at most. *)
Definition fuzz_operations (rounds : nat) (data : bytes) : fuzzed :=
  match operation_new data with
  | None => Done
  | Some (_, ops) => fuzz_ops rounds ops
  end.

(** hfuzz-parser/apdu.rs l.9-10: [resize], which cuts or pads. *)
Definition fuzz_buffer (data : bytes) : bytes := pad_to 260 (firstn 260 data).
(** hfuzz-parser/apdu.rs l.6-16: inputs one after the other, in one process, until a crash.
    [zemu_sys::set_out], l.13, is not in zemu any more, so the target does not compile as
    it stands; it is taken with the display of the unit tests. The flash is memory of the
    process and has no faults. *)
Definition fuzz_apdu (C : config) (O : oracles) (datas : list bytes) : list seen :=
  fst (mock_run C O (dev_fresh [] []) (map (fun x => (fuzz_buffer x, 260)) datas)).
