(** C08: multi-precision arithmetic (bn.c) agrees with integer arithmetic. *)
From Verif Require Import Common CommonFacts BnModel BnSpec BnFacts.

(** Sum, difference, product, increment, decrement and left shift modulo 2^512;
    the result is again sixteen 32-bit limbs. *)
Theorem bn_arithmetic_correct : forall a b, bn_ok a -> bn_ok b ->
  (bn_ok (bn_add a b) /\ bn_val (bn_add a b) = (bn_val a + bn_val b) mod 2 ^ 512) /\
  (bn_ok (bn_sub a b) /\ bn_val (bn_sub a b) = (bn_val a - bn_val b) mod 2 ^ 512) /\
  (bn_ok (bn_mul a b) /\ bn_val (bn_mul a b) = (bn_val a * bn_val b) mod 2 ^ 512) /\
  (bn_ok (bn_inc a) /\ bn_val (bn_inc a) = (bn_val a + 1) mod 2 ^ 512) /\
  (bn_ok (bn_dec a) /\ bn_val (bn_dec a) = (bn_val a - 1) mod 2 ^ 512) /\
  (forall n, bn_ok (bn_lshift a n) /\
     bn_val (bn_lshift a n) = (bn_val a * 2 ^ Z.of_nat n) mod 2 ^ 512).
Proof.
  intros a b Ha Hb.
  exact (conj (add_spec a b Ha Hb) (conj (sub_spec a b Ha Hb) (conj (mul_spec a b Ha Hb)
    (conj (inc_spec a Ha) (conj (dec_spec a Ha) (fun n => lshift_spec a n Ha)))))).
Qed.

(** Comparison is three-way integer comparison; the zero test is exact. *)
Theorem bn_compare_correct : forall a b, bn_ok a -> bn_ok b ->
  bn_cmp a b = (if bn_val b <? bn_val a then 1 else if bn_val a <? bn_val b then -1 else 0) /\
  bn_is_zero a = (bn_val a =? 0).
Proof. intros a b Ha Hb. exact (conj (cmp_spec a b Ha Hb) (is_zero_spec a (proj2 Ha))). Qed.

(** Division ends and gives the floor quotient for every non-zero divisor. *)
Theorem bn_division_correct : forall a b, bn_ok a -> bn_ok b -> bn_val b <> 0 ->
  exists q, bn_div a b = Some q /\ bn_ok q /\ bn_val q = bn_val a / bn_val b.
Proof. exact div_spec. Qed.

(** For a zero divisor no number of iterations is enough: the C loop never ends. *)
Theorem bn_division_by_zero_never_returns : forall fuel a b, bn_ok a -> bn_ok b -> bn_val b = 0 ->
  bn_div_fuel fuel a b = None.
Proof. exact div_zero. Qed.

(** Conversions from and to 64-bit integers and big-endian byte arrays. *)
Theorem bn_conversions_correct :
  (forall i, 0 <= i < 2 ^ 64 -> bn_ok (bn_from_int i) /\ bn_val (bn_from_int i) = i) /\
  (forall n, bn_ok n -> bn_to_int n = bn_val n mod 2 ^ 64) /\
  (forall k arr, length arr = (4 * k)%nat -> (k <= 16)%nat -> bytes_ok arr ->
     exists n, bn_from_array arr = Some n /\ bn_ok n /\ bn_val n = be_val arr) /\
  (forall k n, bn_ok n -> (k <= 16)%nat ->
     bytes_ok (bn_to_array n k) /\ length (bn_to_array n k) = (4 * k)%nat /\
     be_val (bn_to_array n k) = bn_val n mod 2 ^ (32 * Z.of_nat k)).
Proof.
  exact (conj (fun i H => conj (from_int_ok i) (from_int_val i H))
        (conj to_int_spec (conj (fun k arr L K O => from_array_spec arr k L K O)
        (fun k n O K => to_array_spec n k O K)))).
Qed.

(** hsk_bn_rshift (never called by the program) is wrong for shifts of a whole
    word or more. *)
Theorem bn_right_shift_refuted : exists a n r,
  bn_ok a /\ bn_rshift a n = Some r /\ bn_val r <> bn_val a / 2 ^ Z.of_nat n.
Proof.
  exists (bn_lshift (bn_from_int 1) 96), 32%nat.
  eexists. split; [|split].
  - exact (proj1 (lshift_spec _ 96 (from_int_ok 1))).
  - vm_compute. reflexivity.
  - vm_compute. discriminate.
Qed.

(* A 512-bit operand with long carry chains meets the hypotheses. *)
Example bn_ex_ok : bn_ok (repeat 4294967295 16) /\ bn_ok (bn_from_int 77).
Proof.
  split; [|apply from_int_ok]. split; [reflexivity|].
  repeat (apply Forall_cons; [unfold limb_ok; lia|]). apply Forall_nil.
Qed.
Example bn_ex_div : option_map bn_val (bn_div (repeat 4294967295 16) (bn_from_int 77)) =
  Some ((2 ^ 512 - 1) / 77).
Proof. vm_compute. reflexivity. Qed.
Example bn_ex_mul : bn_val (bn_mul (repeat 4294967295 16) (bn_from_int 77)) = 2 ^ 512 - 77.
Proof. vm_compute. reflexivity. Qed.

Print Assumptions bn_arithmetic_correct.
Print Assumptions bn_compare_correct.
Print Assumptions bn_division_correct.
Print Assumptions bn_division_by_zero_never_returns.
Print Assumptions bn_conversions_correct.
Print Assumptions bn_right_shift_refuted.
