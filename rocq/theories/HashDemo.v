(** SHA-256 and BLAKE2b, used only to instantiate the hash oracles in examples and to
    compare the model with known texts. No theorem depends on these definitions. *)
From Coq Require Import List NArith Arith Bool.
From Verif Require Import Base BaseFacts.
Import ListNotations.
Open Scope N_scope.

(** ** Words *)
Definition w32 (x : N) : N := N.land x 4294967295.
Definition rotr32 (x n : N) : N := w32 (N.lor (N.shiftr x n) (N.shiftl x (32 - n))).
Definition w64 (x : N) : N := N.land x 18446744073709551615.
Definition rotr64 (x n : N) : N := w64 (N.lor (N.shiftr x n) (N.shiftl x (64 - n))).

Fixpoint chunks {A} (fuel n : nat) (l : list A) : list (list A) :=
  match fuel with
  | O => []
  | S fuel' => match l with [] => [] | _ => firstn n l :: chunks fuel' n (skipn n l) end
  end.

(** ** SHA-256 (FIPS 180-4) *)
Definition sha_k : list N := [
  0x428a2f98;0x71374491;0xb5c0fbcf;0xe9b5dba5;0x3956c25b;0x59f111f1;0x923f82a4;0xab1c5ed5;
  0xd807aa98;0x12835b01;0x243185be;0x550c7dc3;0x72be5d74;0x80deb1fe;0x9bdc06a7;0xc19bf174;
  0xe49b69c1;0xefbe4786;0x0fc19dc6;0x240ca1cc;0x2de92c6f;0x4a7484aa;0x5cb0a9dc;0x76f988da;
  0x983e5152;0xa831c66d;0xb00327c8;0xbf597fc7;0xc6e00bf3;0xd5a79147;0x06ca6351;0x14292967;
  0x27b70a85;0x2e1b2138;0x4d2c6dfc;0x53380d13;0x650a7354;0x766a0abb;0x81c2c92e;0x92722c85;
  0xa2bfe8a1;0xa81a664b;0xc24b8b70;0xc76c51a3;0xd192e819;0xd6990624;0xf40e3585;0x106aa070;
  0x19a4c116;0x1e376c08;0x2748774c;0x34b0bcb5;0x391c0cb3;0x4ed8aa4a;0x5b9cca4f;0x682e6ff3;
  0x748f82ee;0x78a5636f;0x84c87814;0x8cc70208;0x90befffa;0xa4506ceb;0xbef9a3f7;0xc67178f2].

Definition sha_pad (l : bytes) : bytes :=
  let n := length l in
  l ++ [128] ++ repeat 0 (Nat.modulo (119 - Nat.modulo n 64) 64) ++ be 8 (8 * N.of_nat n).

(** [w] holds the message schedule, newest word first. *)
Fixpoint sha_schedule (n : nat) (w : list N) : list N :=
  match n with
  | O => rev w
  | S n' =>
    let w2 := nth 1 w 0 in let w7 := nth 6 w 0 in let w15 := nth 14 w 0 in let w16 := nth 15 w 0 in
    let s0 := N.lxor (N.lxor (rotr32 w15 7) (rotr32 w15 18)) (N.shiftr w15 3) in
    let s1 := N.lxor (N.lxor (rotr32 w2 17) (rotr32 w2 19)) (N.shiftr w2 10) in
    sha_schedule n' (w32 (w16 + s0 + w7 + s1) :: w)
  end.

Definition sha_round (s : list N) (kw : N * N) : list N :=
  match s with
  | [a; b; c; d; e; f; g; h] =>
    let S1 := N.lxor (N.lxor (rotr32 e 6) (rotr32 e 11)) (rotr32 e 25) in
    let ch := N.lxor (N.land e f) (N.land (N.lxor e 4294967295) g) in
    let t1 := h + S1 + ch + fst kw + snd kw in
    let S0 := N.lxor (N.lxor (rotr32 a 2) (rotr32 a 13)) (rotr32 a 22) in
    let maj := N.lxor (N.lxor (N.land a b) (N.land a c)) (N.land b c) in
    [w32 (t1 + S0 + maj); a; b; c; w32 (d + t1); e; f; g]
  | _ => s
  end.

Definition sha_block (h : list N) (blk : bytes) : list N :=
  let w := sha_schedule 48 (rev (map unbe (chunks 16 4 blk))) in
  map (fun p => w32 (fst p + snd p)) (combine h (fold_left sha_round (combine sha_k w) h)).

Definition sha256 (l : bytes) : bytes :=
  let p := sha_pad l in
  flat_map (be 4) (fold_left sha_block (chunks (length p) 64 p)
    [0x6a09e667;0xbb67ae85;0x3c6ef372;0xa54ff53a;0x510e527f;0x9b05688c;0x1f83d9ab;0x5be0cd19]).

(** ** BLAKE2b (RFC 7693), without key *)
Definition blake_iv : list N := [
  0x6a09e667f3bcc908;0xbb67ae8584caa73b;0x3c6ef372fe94f82b;0xa54ff53a5f1d36f1;
  0x510e527fade682d1;0x9b05688c2b3e6c1f;0x1f83d9abfb41bd6b;0x5be0cd19137e2179].
Definition blake_sigma : list (list nat) := [
  [0;1;2;3;4;5;6;7;8;9;10;11;12;13;14;15];
  [14;10;4;8;9;15;13;6;1;12;0;2;11;7;5;3];
  [11;8;12;0;5;2;15;13;10;14;3;6;7;1;9;4];
  [7;9;3;1;13;12;11;14;2;6;5;10;4;0;15;8];
  [9;0;5;7;2;4;10;15;14;1;11;12;6;8;3;13];
  [2;12;6;10;0;11;8;3;4;13;7;5;15;14;1;9];
  [12;5;1;15;14;13;4;10;0;7;6;3;9;2;8;11];
  [13;11;7;14;12;1;3;9;5;0;15;4;8;6;2;10];
  [6;15;14;9;11;3;0;8;12;2;13;7;1;4;10;5];
  [10;2;8;4;7;6;1;5;15;11;9;14;3;12;13;0];
  [0;1;2;3;4;5;6;7;8;9;10;11;12;13;14;15];
  [14;10;4;8;9;15;13;6;1;12;0;2;11;7;5;3]]%nat.

Definition blake_g (v : list N) (a b c d : nat) (x y : N) : list N :=
  let va := w64 (nth a v 0 + nth b v 0 + x) in
  let vd := rotr64 (N.lxor (nth d v 0) va) 32 in
  let vc := w64 (nth c v 0 + vd) in
  let vb := rotr64 (N.lxor (nth b v 0) vc) 24 in
  let va := w64 (va + vb + y) in
  let vd := rotr64 (N.lxor vd va) 16 in
  let vc := w64 (vc + vd) in
  let vb := rotr64 (N.lxor vb vc) 63 in
  upd a va (upd b vb (upd c vc (upd d vd v))).

Definition blake_round (m : list N) (v : list N) (s : list nat) : list N :=
  let e i := nth (nth i s 0%nat) m 0 in
  let v := blake_g v 0 4 8 12 (e 0%nat) (e 1%nat) in
  let v := blake_g v 1 5 9 13 (e 2%nat) (e 3%nat) in
  let v := blake_g v 2 6 10 14 (e 4%nat) (e 5%nat) in
  let v := blake_g v 3 7 11 15 (e 6%nat) (e 7%nat) in
  let v := blake_g v 0 5 10 15 (e 8%nat) (e 9%nat) in
  let v := blake_g v 1 6 11 12 (e 10%nat) (e 11%nat) in
  let v := blake_g v 2 7 8 13 (e 12%nat) (e 13%nat) in
  blake_g v 3 4 9 14 (e 14%nat) (e 15%nat).

Definition blake_compress (h : list N) (blk : bytes) (t : N) (final : bool) : list N :=
  let m := map (fun c => unbe (rev c)) (chunks 16 8 (blk ++ repeat 0 (128 - length blk)%nat)) in
  let v := h ++ blake_iv in
  let v := upd 12 (N.lxor (nth 12 v 0) (w64 t)) v in
  let v := if final then upd 14 (N.lxor (nth 14 v 0) 18446744073709551615) v else v in
  let v := fold_left (blake_round m) blake_sigma v in
  map (fun p => N.lxor (fst p) (N.lxor (nth (snd p) v 0) (nth (snd p + 8)%nat v 0)))
      (combine h (seq 0 8)).

Fixpoint blake_blocks (h : list N) (done : N) (bs : list bytes) : list N :=
  match bs with
  | [] => h
  | [b] => blake_compress h b (done + len b) true
  | b :: bs' => blake_blocks (blake_compress h b (done + len b) false) (done + len b) bs'
  end.

Definition blake2b (n : nat) (l : bytes) : bytes :=
  let h0 := upd 0 (N.lxor (nth 0 blake_iv 0) (0x01010000 + N.of_nat n)) blake_iv in
  let bs := match l with [] => [[]] | _ => chunks (length l) 128 l end in
  firstn n (flat_map (fun w => rev (be 8 w)) (blake_blocks h0 0 bs)).

Example sha256_abc : sha256 [97; 98; 99] =
  be 32 0xba7816bf8f01cfea414140de5dae2223b00361a396177a9cb410ff61f20015ad.
Proof. vm_compute. reflexivity. Qed.
Example blake2b_abc : blake2b 64 [97; 98; 99] =
  be 32 0xba80a53f981c4d0d6a2797b69f12f6e94c212f14685ac4b74b12bb6fdbffa2d1
  ++ be 32 0x7d87c5392aab792dc252d5de4533cc9518d38aa8dbf1925ab92386edd4009923.
Proof. vm_compute. reflexivity. Qed.
Example sha256_100 : sha256 (repeat 97 100) =
  be 32 0x2816597888e4a0d3a36b82b83316ab32680eb8f00f8cd3b904d681246d285a0e.
Proof. vm_compute. reflexivity. Qed.
Example blake2b_300 : blake2b 20 (repeat 97 300) = be 20 0xc9c4a2f8df7d9546fad021510f72ee0ae1b15058.
Proof. vm_compute. reflexivity. Qed.

(** Digests have the right size. *)
Lemma sha_round_length h kw : length h = 8%nat -> length (sha_round h kw) = 8%nat.
Proof. do 9 (destruct h as [|? h]; try discriminate). reflexivity. Qed.
Lemma sha_block_length h b : length h = 8%nat -> length (sha_block h b) = 8%nat.
Proof.
  intros H. unfold sha_block. rewrite map_length, combine_length, H.
  assert (F : forall l h, length h = 8%nat -> length (fold_left sha_round l h) = 8%nat).
  { clear. induction l; intros; cbn [fold_left]; auto. apply IHl. now apply sha_round_length. }
  rewrite F by auto. reflexivity.
Qed.
Lemma flat_map_be_length k l : length (flat_map (be k) l) = (length l * k)%nat.
Proof. induction l; cbn [flat_map length Nat.mul]; auto. rewrite app_length, be_length. now f_equal. Qed.
Lemma flat_map_ok {A} (f : A -> bytes) l : (forall x, bytes_ok (f x)) -> bytes_ok (flat_map f l).
Proof.
  intros H. induction l; cbn [flat_map]; [constructor|]. apply bytes_ok_app. auto.
Qed.
Lemma sha256_length l : length (sha256 l) = 32%nat.
Proof.
  unfold sha256. rewrite flat_map_be_length.
  assert (F : forall bs h, length h = 8%nat -> length (fold_left sha_block bs h) = 8%nat).
  { induction bs; intros; cbn [fold_left]; auto. apply IHbs. now apply sha_block_length. }
  rewrite F; reflexivity.
Qed.
Lemma sha256_ok l : bytes_ok (sha256 l).
Proof. apply flat_map_ok. intros. apply be_ok. Qed.

Lemma blake_blocks_length bs : forall h d, length h = 8%nat -> length (blake_blocks h d bs) = 8%nat.
Proof.
  induction bs as [|b bs IH]; intros h d H; cbn [blake_blocks]; auto.
  assert (C : forall t f, length (blake_compress h b t f) = 8%nat).
  { intros. unfold blake_compress. rewrite map_length, combine_length, H. reflexivity. }
  destruct bs; auto.
Qed.
Lemma blake2b_length n l : (n <= 64)%nat -> length (blake2b n l) = n.
Proof.
  intros H. unfold blake2b. rewrite firstn_length.
  assert (F : forall ws, length (flat_map (fun w => rev (be 8 w)) ws) = (length ws * 8)%nat).
  { induction ws; cbn [flat_map length Nat.mul]; auto.
    rewrite app_length, rev_length, be_length. now f_equal. }
  rewrite F, blake_blocks_length by reflexivity. apply Nat.min_l. exact H.
Qed.
Lemma blake2b_ok n l : bytes_ok (blake2b n l).
Proof. apply bytes_ok_firstn, flat_map_ok. intros. apply Forall_rev, be_ok. Qed.
