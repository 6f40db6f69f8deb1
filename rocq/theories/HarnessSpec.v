(** When the baking flow of the unit tests is to pass: the vocabulary of C93. *)
From Coq Require Import NArith List.
From Verif Require Import Base Upload UploadSpec BakingSpec Oracles Codecs Device IdealSpec.
Import ListNotations.
Open Scope N_scope.

(** Messages whose positions rise from [w], all below the limit of the app. *)
Inductive rising : cpos -> list bytes -> Prop :=
| rising_nil w : rising w []
| rising_cons w m q ms : consensus_in m = Position q -> cpos_level q < 2 ^ 31 -> cpos_lt w q ->
    rising q ms -> rising w (m :: ms).

(** A block, pre-endorsement or endorsement by its first byte, well-formed or not, that fits
    the upload beside the path of the key and that the device can hash and sign. *)
Record sample (O : oracles) (k : key) (m : bytes) : Prop := mkSample {
  s_bytes : bytes_ok m;
  s_kind : In (nth 0 m 0) [0x01; 0x02; 0x11; 0x12; 0x13];
  s_size : (2 + 4 * length (snd k) + length m <= CAPACITY)%nat;
  s_signs : exists dg s, o_blake2b O 32 m = Some dg /\ o_sign O (fst k) (snd k) dg = Some s
}.

(** The signature of a message by [k]. *)
Definition signs (O : oracles) (k : key) (m : bytes) (g : sigrec) : Prop :=
  exists dg, o_blake2b O 32 m = Some dg /\ g = mkSig SrcConsensus k dg m.
