(** SHA-3 as in FIPS 202, and KMAC as in NIST SP 800-185. *)
From Verif Require Import Common StreamFacts.

(** ** The permutation (3.2), with lanes of 64 bits *)
Definition lane (A : list Z) (x y : nat) : Z := nth (5 * Nat.modulo y 5 + Nat.modulo x 5) A 0.
Definition lanes (f : nat -> nat -> Z) : list Z := map (fun i => f (Nat.modulo i 5) (Nat.div i 5)) (seq 0 25).
Definition rotl (w n x : Z) : Z := (x * 2 ^ n) mod 2 ^ w + x / 2 ^ (w - n).
Definition xors (l : list Z) : Z := fold_right Z.lxor 0 l.
Definition Theta (A : list Z) : list Z :=
  let C := fun x => xors (map (lane A x) (seq 0 5)) in
  lanes (fun x y => xors [lane A x y; C (x + 4)%nat; rotl 64 1 (C (x + 1)%nat)]).
(** The offsets: along the walk (x, y) -> (y, 2 x + 3 y) from (1, 0), (t + 1) (t + 2) / 2 *)
Fixpoint walk (n : nat) (t : nat) (x y : nat) : list (nat * nat * Z) :=
  match n with O => [] | S n => (x, y, Z.of_nat ((t + 1) * (t + 2) / 2) mod 64) :: walk n (S t) y (Nat.modulo (2 * x + 3 * y) 5) end.
Definition offset (x y : nat) : Z :=
  match find (fun '(x', y', _) => Nat.eqb x x' && Nat.eqb y y') (walk 24 0 1 0) with Some (_, _, o) => o | None => 0 end.
Definition Rho (A : list Z) : list Z := lanes (fun x y => rotl 64 (offset x y) (lane A x y)).
Definition Pi (A : list Z) : list Z := lanes (fun x y => lane A (x + 3 * y) x).
Definition Chi (A : list Z) : list Z := lanes (fun x y => Z.lxor (lane A x y) (Z.land (Z.lnot (lane A (x + 1) y)) (lane A (x + 2) y))).
(** The shift register of 3.2.5: the bits of the register, the first first *)
Definition lfsr (r : list Z) : list Z :=
  match r with
  | [r0; r1; r2; r3; r4; r5; r6; r7] => let r8 := r7 in [r8; r0; r1; r2; Z.lxor r3 r8; Z.lxor r4 r8; Z.lxor r5 r8; r6]
  | _ => r
  end.
Definition rc (t : nat) : Z := nth 0 (Nat.iter (Nat.modulo t 255) lfsr [1; 0; 0; 0; 0; 0; 0; 0]) 0.
Definition RC (i : nat) : Z := fold_right Z.add 0 (map (fun j => rc (j + 7 * i) * 2 ^ (2 ^ Z.of_nat j - 1)) (seq 0 7)).
Definition Iota (i : nat) (A : list Z) : list Z := lanes (fun x y => if Nat.eqb x 0 && Nat.eqb y 0 then Z.lxor (lane A 0 0) (RC i) else lane A x y).
Definition keccak_f (A : list Z) : list Z := fold_left (fun A i => Iota i (Chi (Pi (Rho (Theta A))))) (seq 0 24) A.

(** ** The sponge (4 and 5), on strings of bits; a byte is given with its lowest bit first *)
Definition bits (l : list Z) : list Z := concat (map (fun b => map (fun i => b / 2 ^ Z.of_nat i mod 2) (seq 0 8)) l).
Fixpoint bval (l : list Z) : Z := match l with [] => 0 | b :: r => b + 2 * bval r end.
Definition pad101 (r : nat) (m : list Z) : list Z := m ++ [1] ++ repeat 0 (Z.to_nat ((- zlen m - 2) mod Z.of_nat r)) ++ [1].
Definition absorb (S b : list Z) : list Z := let p := map bval (blocks 64 b) in keccak_f (map (fun i => Z.lxor (nth i S 0) (nth i p 0)) (seq 0 25)).
(** The sponge with rate [r], when the [n] bits of output are not more than the rate *)
Definition sponge (r : nat) (m : list Z) (n : nat) : list Z :=
  firstn (n / 8) (concat (map (le_bytes 8) (fold_left absorb (blocks r (pad101 r m)) (repeat 0 25)))).
(** 6.1: SHA3-d, the capacity is twice the digest *)
Definition sha3 (d : nat) (m : list Z) : list Z := sponge (1600 - 2 * d) (bits m ++ [0; 1]) d.
(** The function of the first submission, without the two bits *)
Definition keccak (d : nat) (m : list Z) : list Z := sponge (1600 - 2 * d) (bits m) d.

(** ** SP 800-185 *)
(** The bytes of a number, the highest first, at least one *)
Fixpoint base256 (fuel : nat) (x : Z) : list Z := match fuel with O => [] | S k => if x <? 256 then [x] else base256 k (x / 256) ++ [x mod 256] end.
Definition left_encode (x : Z) : list Z := let b := base256 128 x in zlen b :: b.
Definition right_encode (x : Z) : list Z := let b := base256 128 x in b ++ [zlen b].
Definition encode_string (s : list Z) : list Z := left_encode (8 * zlen s) ++ s.
Definition bytepad (x : list Z) (w : Z) : list Z := let z := left_encode w ++ x in z ++ repeat 0 (Z.to_nat ((- zlen z) mod w)).
(** cSHAKE256 with a name, for up to 1088 bits *)
Definition cshake256 (x : list Z) (n : nat) (name custom : list Z) : list Z :=
  sponge 1088 (bits (bytepad (encode_string name ++ encode_string custom) 136 ++ x) ++ [0; 0]) n.
Definition kmac256 (key x : list Z) (n : nat) (custom : list Z) : list Z :=
  cshake256 (bytepad (encode_string key) 136 ++ x ++ right_encode (Z.of_nat n)) n [75; 77; 65; 67] custom.
