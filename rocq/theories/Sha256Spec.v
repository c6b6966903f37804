(** SHA-256 as in FIPS 180-4, HMAC as in RFC 2104, HKDF as in RFC 5869. *)
From Verif Require Import Common StreamFacts.

(** ** Words (FIPS 180-4, 3.2 and 4.1.2) *)
(** A word of [w] bits moved around to the right by [n] *)
Definition rotr (w n x : Z) : Z := x / 2 ^ n + (x mod 2 ^ n) * 2 ^ (w - n).
Definition shr (n x : Z) : Z := x / 2 ^ n.
Definition sum32 (l : list Z) : Z := fold_right Z.add 0 l mod 2 ^ 32.
Definition xor3 (x y z : Z) : Z := Z.lxor (Z.lxor x y) z.
Definition Ch (x y z : Z) : Z := Z.lxor (Z.land x y) (Z.land (Z.lnot x) z).
Definition Maj (x y z : Z) : Z := xor3 (Z.land x y) (Z.land x z) (Z.land y z).
Definition Sigma0 (x : Z) : Z := xor3 (rotr 32 2 x) (rotr 32 13 x) (rotr 32 22 x).
Definition Sigma1 (x : Z) : Z := xor3 (rotr 32 6 x) (rotr 32 11 x) (rotr 32 25 x).
Definition sigma0 (x : Z) : Z := xor3 (rotr 32 7 x) (rotr 32 18 x) (shr 3 x).
Definition sigma1 (x : Z) : Z := xor3 (rotr 32 17 x) (rotr 32 19 x) (shr 10 x).

(** ** Constants (4.2.2 and 5.3.3): the first bits of the fractional parts of the cube roots
    and square roots of the first primes *)
Definition prime (n : nat) : bool := (2 <=? n)%nat && forallb (fun d => negb (n mod d =? 0)%nat) (seq 2 (n - 2)).
Definition primes : list Z := map Z.of_nat (filter prime (seq 0 320)).
(** The greatest number whose cube is at most [x], found bit by bit *)
Fixpoint cbrt (k : nat) (x r : Z) : Z :=
  match k with O => r | S k => let r' := r + 2 ^ Z.of_nat k in cbrt k x (if r' * r' * r' <=? x then r' else r) end.
Definition K : list Z := map (fun p => cbrt 40 (p * 2 ^ 96) 0 mod 2 ^ 32) (firstn 64 primes).
Definition H0 : list Z := map (fun p => Z.sqrt (p * 2 ^ 64) mod 2 ^ 32) (firstn 8 primes).

(** ** The hash (5.1.1, 6.2) *)
(** W_t from the words before it, the latest first *)
Fixpoint schedule (n : nat) (w : list Z) : list Z :=
  match n with O => w | S n => schedule n (sum32 [sigma1 (nth 1 w 0); nth 6 w 0; sigma0 (nth 14 w 0); nth 15 w 0] :: w) end.
Definition step (r : Z * Z * Z * Z * Z * Z * Z * Z) (kw : Z * Z) : Z * Z * Z * Z * Z * Z * Z * Z :=
  let '(a, b, c, d, e, f, g, h) := r in
  let t1 := sum32 [h; Sigma1 e; Ch e f g; fst kw; snd kw] in
  let t2 := sum32 [Sigma0 a; Maj a b c] in
  (sum32 [t1; t2], a, b, c, sum32 [d; t1], e, f, g).
Definition compress (hash blk : list Z) : list Z :=
  let W := rev (schedule 48 (rev (map be_val (blocks 4 blk)))) in
  let g := fun i => nth i hash 0 in
  let '(a, b, c, d, e, f, g, h) := fold_left step (combine K W) (g 0, g 1, g 2, g 3, g 4, g 5, g 6, g 7)%nat in
  map (fun '(x, y) => sum32 [x; y]) (combine hash [a; b; c; d; e; f; g; h]).
(** One bit, zeros up to eight bytes before the end of a block, and the number of bits *)
Definition padded (m : list Z) : list Z := m ++ 128 :: repeat 0 (Z.to_nat ((55 - zlen m) mod 64)) ++ be_bytes 8 (8 * zlen m mod 2 ^ 64).
Definition sha256 (m : list Z) : list Z := concat (map (be_bytes 4) (fold_left compress (blocks 64 (padded m)) H0)).

(** ** RFC 2104 and RFC 5869 (with two blocks of output) *)
Definition xor_pad (x : Z) (k : list Z) : list Z := map (fun i => Z.lxor (nth i k 0) x) (seq 0 64).
Definition hmac (key m : list Z) : list Z :=
  let k := if 64 <? zlen key then sha256 key else key in sha256 (xor_pad 0x5c k ++ sha256 (xor_pad 0x36 k ++ m)).
Definition hkdf_extract (salt ikm : list Z) : list Z := hmac salt ikm.
Definition hkdf_t1 (prk info : list Z) : list Z := hmac prk (info ++ [1]).
Definition hkdf_t2 (prk info : list Z) : list Z := hmac prk (hkdf_t1 prk info ++ info ++ [2]).
