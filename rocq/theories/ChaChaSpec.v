(** ChaCha20 as in RFC 8439, 2.1 to 2.4 (and its first form, with a nonce of 8 bytes and a
    counter of 64 bits). *)
From Verif Require Import Common StreamFacts.

Definition rol (n x : Z) : Z := (x * 2 ^ n) mod 2 ^ 32 + x / 2 ^ (32 - n).
Definition plus (a b : Z) : Z := (a + b) mod 2 ^ 32.
(** 2.1 *)
Definition qround (q : Z * Z * Z * Z) : Z * Z * Z * Z :=
  let '(a, b, c, d) := q in
  let a := plus a b in let d := rol 16 (Z.lxor d a) in
  let c := plus c d in let b := rol 12 (Z.lxor b c) in
  let a := plus a b in let d := rol 8 (Z.lxor d a) in
  let c := plus c d in let b := rol 7 (Z.lxor b c) in (a, b, c, d).
(** 2.2 and 2.3: the state is a matrix of four rows; eight quarter rounds are four on the
    columns and four on the diagonals, which are the columns when the rows are turned *)
Definition rows : Type := list Z * list Z * list Z * list Z.
Fixpoint columns (a b c d : list Z) : rows :=
  match a, b, c, d with
  | x :: a, y :: b, z :: c, w :: d =>
      let '(x, y, z, w) := qround (x, y, z, w) in let '(a, b, c, d) := columns a b c d in (x :: a, y :: b, z :: c, w :: d)
  | _, _, _, _ => ([], [], [], [])
  end.
Definition left (n : nat) (l : list Z) : list Z := skipn n l ++ firstn n l.
Definition double_round (m : rows) : rows :=
  let '(a, b, c, d) := m in
  let '(a, b, c, d) := columns a b c d in
  let '(a, b, c, d) := columns a (left 1 b) (left 2 c) (left 3 d) in
  (a, left 3 b, left 2 c, left 1 d).
(** 2.3: constants, key, and the last row with counter and nonce *)
Definition sigma : list Z := [0x61707865; 0x3320646e; 0x79622d32; 0x6b206574].
Definition words (b : list Z) : list Z := map le_val (blocks 4 b).
Definition core (key last : list Z) : list Z :=
  let k := words key in
  let s := (sigma, firstn 4 k, skipn 4 k, words last) in
  let '(a, b, c, d) := Nat.iter 10 double_round s in
  concat (map (fun '(x, y) => le_bytes 4 (plus x y)) (combine (a ++ b ++ c ++ d) (sigma ++ k ++ words last))).
Definition chacha_block (key : list Z) (counter : Z) (nonce : list Z) : list Z := core key (le_bytes (16 - length nonce) counter ++ nonce).
(** 2.4: the key stream, and the cipher *)
Definition key_stream (key : list Z) (counter : Z) (nonce : list Z) (i : nat) : Z :=
  nth (Nat.modulo i 64) (chacha_block key (counter + Z.of_nat (Nat.div i 64)) nonce) 0.
Definition chacha20 (key : list Z) (counter : Z) (nonce : list Z) (m : list Z) : list Z :=
  map (fun i => Z.lxor (nth i m 0) (key_stream key counter nonce i)) (seq 0 (length m)).
