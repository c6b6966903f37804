(** Model of src/bn.c: 512-bit unsigned arithmetic on sixteen 32-bit limbs, least
    significant limb first. A [hsk_bn_t] is a list of limbs. In-place updates of
    the C code become functions returning the new limb list; the aliasing used by
    the callers (output equal to an input) is harmless because every C loop reads
    limb i of its inputs before it writes limb i of its output, or works on local
    copies (hsk_bn_mul, hsk_bn_div). *)
From Verif Require Import Common.

(** bn.h:14 HSK_BN_SIZE, bn.h:16 HSK_BN_MAX. *)
Definition bn_size : nat := 16.
Definition bn_base : Z := 4294967296.
Definition bn_max : Z := 4294967295.
Definition u64 : Z := 18446744073709551616.

(** bn.c:22-29 hsk_bn_init. *)
Definition bn_init : list Z := repeat 0 bn_size.

(** bn.c:31-39 hsk_bn_from_int, [i] an unsigned 64-bit integer. *)
Definition bn_from_int (i : Z) : list Z :=
  (i mod bn_base) :: ((i / bn_base) mod bn_base) :: repeat 0 (bn_size - 2).

(** bn.c:41-51 hsk_bn_to_int. *)
Definition bn_to_int (n : list Z) : Z :=
  Z.lor (nth 0 n 0) ((nth 1 n 0 * bn_base) mod u64).

(** bn.c:139-144: one limb from four big-endian bytes. *)
Definition limb_of_bytes (a b c d : Z) : Z :=
  Z.lor (Z.lor (Z.lor (a * 16777216) (b * 65536)) (c * 256)) d.

(** bn.c:129-145 hsk_bn_from_array: the first four bytes give limb size/4-1, the
    last four give limb 0. [acc] holds the limbs below the current one reversed,
    i.e. limbs are consed so that the last limb read (limb 0) ends up first. The
    C code writes out of bounds for more than 64 bytes: [None]. *)
Fixpoint bn_read_limbs (arr : list Z) (acc : list Z) : list Z :=
  match arr with
  | a :: b :: c :: d :: r => bn_read_limbs r (limb_of_bytes a b c d :: acc)
  | _ => acc
  end.
Definition bn_from_array (arr : list Z) : option (list Z) :=
  let l := bn_read_limbs arr [] in
  if Nat.ltb bn_size (length l) then None
  else Some (l ++ repeat 0 (bn_size - length l)).

(** bn.c:155-160: four big-endian bytes from one limb. *)
Definition bytes_of_limb (x : Z) : list Z :=
  [ (x / 16777216) mod 256; (x / 65536) mod 256; (x / 256) mod 256; x mod 256 ].

(** bn.c:147-161 hsk_bn_to_array for [words] = size/4 limbs (at most 16). *)
Definition bn_to_array (n : list Z) (words : nat) : list Z :=
  concat (map bytes_of_limb (rev (firstn words n))).

(** bn.c:178-194 hsk_bn_dec: stops at the first limb that did not wrap. *)
Fixpoint bn_dec (n : list Z) : list Z :=
  match n with
  | [] => []
  | tmp :: r =>
      let res := (tmp - 1) mod bn_base in
      if tmp <? res then res :: bn_dec r else res :: r
  end.

(** bn.c:196-212 hsk_bn_inc: stops at the first limb that did not wrap. *)
Fixpoint bn_inc (n : list Z) : list Z :=
  match n with
  | [] => []
  | tmp :: r =>
      let res := (tmp + 1) mod bn_base in
      if tmp <? res then res :: r else res :: bn_inc r
  end.

(** bn.c:224-228: the loop of hsk_bn_add. *)
Fixpoint bn_add_c (carry : Z) (a b : list Z) : list Z :=
  match a, b with
  | x :: a', y :: b' =>
      let tmp := x + y + carry in
      (tmp mod bn_base) :: bn_add_c (if bn_max <? tmp then 1 else 0) a' b'
  | _, _ => []
  end.
(** bn.c:214-229 hsk_bn_add. *)
Definition bn_add (a b : list Z) : list Z := bn_add_c 0 a b.

(** bn.c:243-253: the loop of hsk_bn_sub ([res] is a uint64_t). *)
Fixpoint bn_sub_c (borrow : Z) (a b : list Z) : list Z :=
  match a, b with
  | x :: a', y :: b' =>
      let tmp1 := x + (bn_max + 1) in
      let tmp2 := y + borrow in
      let res := (tmp1 - tmp2) mod u64 in
      (res mod bn_base) :: bn_sub_c (if res <=? bn_max then 1 else 0) a' b'
  | _, _ => []
  end.
(** bn.c:231-254 hsk_bn_sub. *)
Definition bn_sub (a b : list Z) : list Z := bn_sub_c 0 a b.

(** bn.c:562-576 _lshift_word: limbs move up by [nwords], the vacated ones are
    zero, limbs pushed past the top are lost. *)
Definition bn_lshift_word (a : list Z) (nwords : nat) : list Z :=
  firstn bn_size (repeat 0 nwords ++ a).

(** bn.c:272-283: inner loop of hsk_bn_mul, [js] the remaining values of j. *)
Fixpoint bn_mul_row (a b : list Z) (i : nat) (js : list nat) (row : list Z) : list Z :=
  match js with
  | [] => row
  | j :: r =>
      let row' :=
        if Nat.ltb (i + j) bn_size then
          let tmp := bn_from_int ((nth i a 0 * nth j b 0) mod u64) in
          bn_add (bn_lshift_word tmp (i + j)) row
        else row in
      bn_mul_row a b i r row'
  end.
(** bn.c:269-286: outer loop. *)
Fixpoint bn_mul_rows (a b : list Z) (is : list nat) (cc : list Z) : list Z :=
  match is with
  | [] => cc
  | i :: r => bn_mul_rows a b r (bn_add cc (bn_mul_row a b i (seq 0 bn_size) bn_init))
  end.
(** bn.c:256-289 hsk_bn_mul. *)
Definition bn_mul (a b : list Z) : list Z := bn_mul_rows a b (seq 0 bn_size) bn_init.

(** bn.c:465-484 hsk_bn_cmp on limbs listed most significant first. *)
Fixpoint bn_cmp_be (a b : list Z) : Z :=
  match a, b with
  | x :: a', y :: b' =>
      if y <? x then 1 else if x <? y then -1 else bn_cmp_be a' b'
  | _, _ => 0
  end.
Definition bn_cmp (a b : list Z) : Z := bn_cmp_be (rev a) (rev b).

(** bn.c:486-497 hsk_bn_is_zero. *)
Fixpoint bn_is_zero (n : list Z) : bool :=
  match n with
  | [] => true
  | x :: r => if x =? 0 then bn_is_zero r else false
  end.

(** bn.c:443-452 hsk_bn_or. *)
Fixpoint bn_or (a b : list Z) : list Z :=
  match a, b with
  | x :: a', y :: b' => Z.lor x y :: bn_or a' b'
  | _, _ => []
  end.

(** bn.c:370-378 and 578-589 _lshift_one_bit: shift left by [k] bits, 0 < k < 32;
    [prev] is the limb below (0 for limb 0). *)
Fixpoint bn_lshift_bits (k : Z) (prev : Z) (a : list Z) : list Z :=
  match a with
  | [] => []
  | x :: r => Z.lor ((x * 2 ^ k) mod bn_base) (prev / 2 ^ (32 - k)) :: bn_lshift_bits k x r
  end.
Definition bn_lshift_one (a : list Z) : list Z := bn_lshift_bits 1 0 a.

(** bn.c:398-406 and 591-602 _rshift_one_bit: shift right by [k] bits, 0 < k < 32. *)
Fixpoint bn_rshift_bits (k : Z) (a : list Z) : list Z :=
  match a with
  | [] => []
  | x :: r =>
      Z.lor (x / 2 ^ k) ((nth 0 r 0 * 2 ^ (32 - k)) mod bn_base) :: bn_rshift_bits k r
  end.
Definition bn_rshift_one (a : list Z) : list Z := bn_rshift_bits 1 a.

(** bn.c:355-381 hsk_bn_lshift (both arguments end up equal to the result). *)
Definition bn_lshift (a : list Z) (nbits : nat) : list Z :=
  let a' := bn_lshift_word a (Nat.div nbits 32) in
  let k := Nat.modulo nbits 32 in
  if Nat.eqb k 0 then a' else bn_lshift_bits (Z.of_nat k) 0 a'.

(** bn.c:548-560 _rshift_word: the loop bound is [nwords], not
    HSK_BN_SIZE - nwords, and each limb is replaced by its neighbour. With
    nwords >= 16 it reads and writes past the array: [None]. *)
Definition bn_rshift_word (a : list Z) (nwords : nat) : option (list Z) :=
  if Nat.leb bn_size nwords then None
  else Some (firstn nwords (tl a) ++ repeat 0 (bn_size - nwords)).

(** bn.c:383-409 hsk_bn_rshift. Not called anywhere in the program. *)
Definition bn_rshift (a : list Z) (nbits : nat) : option (list Z) :=
  let nwords := Nat.div nbits 32 in
  match (if Nat.eqb nwords 0 then Some a else bn_rshift_word a nwords) with
  | None => None
  | Some a' =>
      let k := Nat.modulo nbits 32 in
      Some (if Nat.eqb k 0 then a' else bn_rshift_bits (Z.of_nat k) a')
  end.

(** bn.c:312-323: first loop of hsk_bn_div. [fuel] bounds the iterations; running
    out of fuel ([None]) means the loop does not end within that many steps.
    Result: denom, current, overflow. *)
Fixpoint bn_div_up (fuel : nat) (a denom current : list Z) : option (list Z * list Z * bool) :=
  if bn_cmp denom a =? 1 then Some (denom, current, false)
  else if 2147483648 <=? nth (bn_size - 1) denom 0 then Some (denom, current, true)
  else match fuel with
       | O => None
       | S f => bn_div_up f a (bn_lshift_one denom) (bn_lshift_one current)
       end.

(** bn.c:336-350: second loop of hsk_bn_div. Result: the quotient. *)
Fixpoint bn_div_down (fuel : nat) (tmp denom current c : list Z) : option (list Z) :=
  if bn_is_zero current then Some c
  else match fuel with
       | O => None
       | S f =>
           let ge := negb (bn_cmp tmp denom =? -1) in
           let tmp' := if ge then bn_sub tmp denom else tmp in
           let c' := if ge then bn_or c current else c in
           bn_div_down f tmp' (bn_rshift_one denom) (bn_rshift_one current) c'
       end.

(** bn.c:291-353 hsk_bn_div with an iteration budget. *)
Definition bn_div_fuel (fuel : nat) (a b : list Z) : option (list Z) :=
  match bn_div_up fuel a b (bn_from_int 1) with
  | None => None
  | Some (denom, current, overflow) =>
      let denom' := if overflow then denom else bn_rshift_one denom in
      let current' := if overflow then current else bn_rshift_one current in
      bn_div_down fuel a denom' current' bn_init
  end.

(** hsk_bn_div. 520 iterations are enough for every non-zero divisor
    ([bn_div_correct]); [None] means that the C loop never ends
    ([bn_div_by_zero_never_returns]). *)
Definition bn_div (a b : list Z) : option (list Z) := bn_div_fuel 520 a b.
