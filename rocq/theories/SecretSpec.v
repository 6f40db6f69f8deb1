(** What the holder of the keys gives away: the vocabulary of C63. *)
From Coq Require Import List NArith.
From Verif Require Import Base Codecs Oracles Device.
Import ListNotations.

(** The secure element with other signatures. *)
Definition with_sign (O : oracles) (sg : curve -> path -> bytes -> option bytes) : oracles :=
  mkOracles (o_blake2b O) (o_sha256 O) (o_sha512 O) (o_hmac256 O) (o_pubkey O) sg.

(** Other signatures, refused in the same cases. *)
Definition resigned (O : oracles) (sg : curve -> path -> bytes -> option bytes) : Prop :=
  forall c p dg, sg c p dg = None <-> o_sign O c p dg = None.

(** The two secure elements agree on what a signature of the log gives away: the
    signature itself, or the hash of the one made for an HMAC. *)
Definition agree_on (O : oracles) (sg : curve -> path -> bytes -> option bytes) (g : sigrec) : Prop :=
  let s := o_sign O (fst (sg_key g)) (snd (sg_key g)) (sg_digest g) in
  let s' := sg (fst (sg_key g)) (snd (sg_key g)) (sg_digest g) in
  match sg_src g with
  | SrcHmac => option_map (o_sha512 O) s' = option_map (o_sha512 O) s
  | _ => s' = s
  end.
