(** What the arithmetic and the curve of src/ecc.c should be, said with plain integers. *)
From Verif Require Import Common.

(** The number that a list of 64-bit digits stands for, least significant first *)
Fixpoint val (l : list Z) : Z :=
  match l with
  | [] => 0
  | d :: r => d + 2 ^ 64 * val r
  end.
Definition word (d : Z) : Prop := 0 <= d < 2 ^ 64.
Definition words (l : list Z) : Prop := Forall word l.
(** [n] digits of a number *)
Fixpoint digits (n : nat) (v : Z) : list Z :=
  match n with
  | O => []
  | S n => v mod 2 ^ 64 :: digits n (v / 2 ^ 64)
  end.

(** FIPS 186-4, D.1.2.3, curve P-256: y^2 = x^3 - 3 x + b modulo p, base point G, order n *)
Definition p256 : Z := 2 ^ 256 - 2 ^ 224 + 2 ^ 192 + 2 ^ 96 - 1.
Definition b256 : Z := 0x5ac635d8aa3a93e7b3ebbd55769886bc651d06b0cc53b0f63bce3c3e27d2604b.
Definition n256 : Z := 0xffffffff00000000ffffffffffffffffbce6faada7179e84f3b9cac2fc632551.
Definition g256 : Z * Z :=
  (0x6b17d1f2e12c4247f8bce6e563a440f277037d812deb33a0f4a13945d898c296,
   0x4fe342e2fe1a7f9b8ee7eb4a7c0f9e162bce33576b315ececbb6406837bf51f5).

(** Equality modulo p, and having an inverse modulo p *)
Definition eqp (a b : Z) : Prop := (a - b) mod p256 = 0.
Definition unitp (a : Z) : Prop := exists i, eqp (i * a) 1.

Definition on_curve (a : Z * Z) : Prop :=
  eqp (snd a * snd a) (fst a * fst a * fst a - 3 * fst a + b256).
Definition reduced (a : Z * Z) : Prop := 0 <= fst a < p256 /\ 0 <= snd a < p256.

(** The third point of the line of slope [l] through [a] and [b], turned over *)
Definition third (l : Z) (a b c : Z * Z) : Prop :=
  eqp (fst c) (l * l - fst a - fst b) /\ eqp (snd c) (l * (fst a - fst c) - snd a).
(** Addition of two points of different first coordinates, and doubling *)
Definition chord (a b c : Z * Z) : Prop :=
  unitp (fst b - fst a) /\ exists l, eqp (l * (fst b - fst a)) (snd b - snd a) /\ third l a b c.
Definition tangent (a c : Z * Z) : Prop :=
  unitp (2 * snd a) /\ exists l, eqp (l * (2 * snd a)) (3 * fst a * fst a - 3) /\ third l a a c.

(** Multiples by the definition from addition: 1 a = a, 2m a = ma + ma, and
    (2m + 1) a = ma + (m+1)a *)
Inductive multiple (a : Z * Z) : Z -> Z * Z -> Prop :=
| multiple_one : multiple a 1 a
| multiple_even m b c : multiple a m b -> tangent b c -> multiple a (2 * m) c
| multiple_odd m b b' c : 1 <= m -> multiple a m b -> multiple a (m + 1) b' -> chord b b' c -> multiple a (2 * m + 1) c.

(** Numbers as bytes, most significant first *)
Definition number (b : list Z) : Z := fold_left (fun a x => a * 256 + x) b 0.
Fixpoint big (n : nat) (v : Z) : list Z :=
  match n with
  | O => []
  | S n => v / 256 ^ Z.of_nat n mod 256 :: big n v
  end.
Definition octets (b : list Z) : Prop := length b = 32%nat /\ Forall (fun x => 0 <= x < 256) b.

(** ECDSA (FIPS 186-4, 6.4; SEC 1, 4.1.3): (r, s) is the signature of the hash number [e] by
    the key [d] with the secret number [k] *)
Definition ecdsa (d e k r s : Z) : Prop :=
  (exists q, multiple g256 k q /\ on_curve q /\ reduced q /\ r = fst q mod n256) /\ 0 < r < n256 /\
  0 <= s < n256 /\ (s * k - (e + r * d)) mod n256 = 0.

(** What the ladder is able to do. It multiplies by [k] from 2 on, but takes 0 for 2 and 1 for
    3; and of [k] and its neighbour above it also needs the multiple by the odd one. *)
Definition used (k : Z) : Z := if k <? 2 then k + 2 else k.
Definition odd_up (k : Z) : Z := 2 * (k / 2) + 1.
(** What it makes of the base point *)
Definition base_multiple (k : Z) (q : Z * Z) : Prop :=
  multiple g256 (used k) q /\ on_curve q /\ reduced q /\ exists c, multiple g256 (odd_up (used k)) c.

(** A number of four digits, or a failure, as the source of random numbers gives it *)
Definition from_source (o : option (list Z)) : Prop :=
  match o with Some v => words v /\ length v = 4%nat | None => True end.
(** A random number that is used, as the number below n that it becomes *)
Definition good (v : list Z) : Prop :=
  val v <> 0 /\ exists q, base_multiple (val v mod n256) q /\ fst q mod n256 <> 0.
(** The signature of the hash number [e] by the key [d] that comes from the number [k] below n *)
Definition signed_by (d e k : Z) (out : list Z) : Prop :=
  exists q r s, base_multiple k q /\ r = fst q mod n256 /\ 0 < r /\ 0 <= s < n256 /\
    out = (big 32 r ++ big 32 s) /\ (k = 0 -> s = 0) /\ (k <> 0 -> (s * k - (e + r * d)) mod n256 = 0).
