(** BLAKE2b as in RFC 7693. *)
From Verif Require Import Common StreamFacts Sha256Spec.

Definition sum64 (l : list Z) : Z := fold_right Z.add 0 l mod 2 ^ 64.
(** 2.6: the fractional parts of the square roots of the first eight primes *)
Definition IV : list Z := map (fun p => Z.sqrt (p * 2 ^ 128) mod 2 ^ 64) (firstn 8 primes).
(** 2.7 *)
Definition SIGMA : list (list nat) := [
  [0; 1; 2; 3; 4; 5; 6; 7; 8; 9; 10; 11; 12; 13; 14; 15]; [14; 10; 4; 8; 9; 15; 13; 6; 1; 12; 0; 2; 11; 7; 5; 3];
  [11; 8; 12; 0; 5; 2; 15; 13; 10; 14; 3; 6; 7; 1; 9; 4]; [7; 9; 3; 1; 13; 12; 11; 14; 2; 6; 5; 10; 4; 0; 15; 8];
  [9; 0; 5; 7; 2; 4; 10; 15; 14; 1; 11; 12; 6; 8; 3; 13]; [2; 12; 6; 10; 0; 11; 8; 3; 4; 13; 7; 5; 15; 14; 1; 9];
  [12; 5; 1; 15; 14; 13; 4; 10; 0; 7; 6; 3; 9; 2; 8; 11]; [13; 11; 7; 14; 12; 1; 3; 9; 5; 0; 15; 4; 8; 6; 2; 10];
  [6; 15; 14; 9; 11; 3; 0; 8; 12; 2; 13; 7; 1; 4; 10; 5]; [10; 2; 8; 4; 7; 6; 1; 5; 15; 11; 9; 14; 3; 12; 13; 0]]%nat.
(** 3.1, the mixing function *)
Definition mix (x y : Z) (q : Z * Z * Z * Z) : Z * Z * Z * Z :=
  let '(a, b, c, d) := q in
  let half := fun (a b c d x r1 r2 : Z) =>
    let a := sum64 [a; b; x] in let d := rotr 64 r1 (Z.lxor d a) in let c := sum64 [c; d] in (a, rotr 64 r2 (Z.lxor b c), c, d) in
  let '(a, b, c, d) := half a b c d x 32 24 in half a b c d y 16 63.
(** The work vector as four rows: every column is mixed, then every diagonal. *)
Definition rot (n : nat) (r : list Z) : list Z := skipn n r ++ firstn n r.
Definition columns (f : nat -> Z * Z * Z * Z -> Z * Z * Z * Z) (v : list Z) : list Z :=
  let q := map (fun i => f i (nth i v 0, nth (4 + i) v 0, nth (8 + i) v 0, nth (12 + i) v 0)) (seq 0 4) in
  map (fun '(a, _, _, _) => a) q ++ map (fun '(_, b, _, _) => b) q ++ map (fun '(_, _, c, _) => c) q ++ map (fun '(_, _, _, d) => d) q.
Definition rotate_rows (n : nat -> nat) (v : list Z) : list Z := concat (map (fun '(i, r) => rot (n i) r) (combine [0; 1; 2; 3]%nat (blocks 4 v))).
Definition mix_round (m : list Z) (v : list Z) (r : nat) : list Z :=
  let s := fun j => nth (nth j (nth (Nat.modulo r 10) SIGMA []) 0%nat) m 0 in
  let v := columns (fun i => mix (s (2 * i)%nat) (s (2 * i + 1)%nat)) v in
  let v := rotate_rows (fun i => i) v in
  let v := columns (fun i => mix (s (8 + 2 * i)%nat) (s (9 + 2 * i)%nat)) v in
  rotate_rows (fun i => Nat.modulo (4 - i) 4) v.
(** 3.2, the compression function: [t] counts the bytes *)
Definition F (h blk : list Z) (t : Z) (last : bool) : list Z :=
  let m := map le_val (blocks 8 blk) in
  let x := [0; 0; 0; 0; t mod 2 ^ 64; t / 2 ^ 64 mod 2 ^ 64; if last then 2 ^ 64 - 1 else 0; 0] in
  let v := fold_left (mix_round m) (seq 0 12) (h ++ map (fun '(a, b) => Z.lxor a b) (combine IV x)) in
  map (fun i => xor3 (nth i h 0) (nth i v 0) (nth (8 + i) v 0)) (seq 0 8).
(** 3.3: [nn] is the length of the digest *)
Definition blake2b_spec (nn : Z) (key data : list Z) : list Z :=
  let kk := zlen key in
  let m := (if kk =? 0 then [] else key ++ repeat 0 (128 - length key)) ++ data in
  (* the number of blocks before the last one *)
  let n := Nat.div (length m - 1) 128 in
  let h := Z.lxor (nth 0 IV 0) (0x01010000 + kk * 2 ^ 8 + nn) :: skipn 1 IV in
  let h := fold_left (fun h i => F h (block 128 m i) (128 * (Z.of_nat i + 1)) false) (seq 0 n) h in
  let end_ := skipn (n * 128) m in
  let h := F h (end_ ++ repeat 0 (128 - length end_)) (zlen m) true in
  firstn (Z.to_nat nn) (concat (map (le_bytes 8) h)).
