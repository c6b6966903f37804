(** SipHash-2-4 as published (Aumasson and Bernstein, "SipHash: a fast short-input PRF",
    2012, section 2), with words as integers below 2^64. *)
From Verif Require Import Common.

Definition plus (a b : Z) : Z := (a + b) mod 2 ^ 64.
Definition left (n x : Z) : Z := (x * 2 ^ n) mod 2 ^ 64 + x / 2 ^ (64 - n).
Definition round (v : Z * Z * Z * Z) : Z * Z * Z * Z :=
  let '(v0, v1, v2, v3) := v in
  let a0 := plus v0 v1 in
  let a1 := Z.lxor (left 13 v1) a0 in
  let a2 := plus v2 v3 in
  let a3 := Z.lxor (left 16 v3) a2 in
  let b0 := plus (left 32 a0) a3 in
  let b3 := Z.lxor (left 21 a3) b0 in
  let b2 := plus a2 a1 in
  let b1 := Z.lxor (left 17 a1) b2 in
  (b0, b1, left 32 b2, b3).
Fixpoint rounds (n : nat) (v : Z * Z * Z * Z) : Z * Z * Z * Z :=
  match n with O => v | S n => rounds n (round v) end.
(** The message, zeros, and a last byte with the length modulo 256: floor(b/8) + 1 words *)
Definition padded (m : list Z) : list Z := m ++ repeat 0 (Z.to_nat (7 - zlen m mod 8)) ++ [zlen m mod 256].
Definition words (m : list Z) : list Z :=
  map (fun i => le_val (firstn 8 (skipn (8 * i) (padded m)))) (seq 0 (S (Z.to_nat (zlen m / 8)))).
(** Initialisation, compression of a word, finalisation *)
Definition start (k0 k1 : Z) : Z * Z * Z * Z :=
  (Z.lxor k0 0x736f6d6570736575, Z.lxor k1 0x646f72616e646f6d, Z.lxor k0 0x6c7967656e657261, Z.lxor k1 0x7465646279746573).
Definition compress (v : Z * Z * Z * Z) (w : Z) : Z * Z * Z * Z :=
  let '(v0, v1, v2, v3) := v in
  let '(v0, v1, v2, v3) := rounds 2 (v0, v1, v2, Z.lxor v3 w) in (Z.lxor v0 w, v1, v2, v3).
Definition finish (v : Z * Z * Z * Z) : Z :=
  let '(v0, v1, v2, v3) := v in
  let '(v0, v1, v2, v3) := rounds 4 (v0, v1, Z.lxor v2 255, v3) in Z.lxor (Z.lxor (Z.lxor v0 v1) v2) v3.
Definition siphash_2_4 (k0 k1 : Z) (m : list Z) : Z := finish (fold_left compress (words m) (start k0 k1)).
