(** Model of src/ecc.c for HSK_ECC_CURVE = HSK_SECP256R1, which is what ecc.h:39-41
    selects: numbers of four 64-bit digits, least significant first (ecc.c:36). A number
    is the list of its digits; a loop which may run for ever has fuel, and [None] means
    that it ran out. *)
From Verif Require Import Common.

Definition u64 (x : Z) : Z := x mod 2 ^ 64.
Definition u128 (x : Z) : Z := x mod 2 ^ 128.
Definition shl (x n : Z) : Z := u64 (Z.shiftl x n).
Definition shr (x n : Z) : Z := Z.shiftr x n.
Definition bit (b : bool) : Z := if b then 1 else 0.

(** Sequencing of computations which may run out of fuel *)
Definition bindo {A B : Type} (x : option A) (f : A -> option B) : option B :=
  match x with Some a => f a | None => None end.
Notation "'do' x <- a ; b" := (bindo a (fun x => b)) (at level 200, x pattern, a at level 100, b at level 200).

(** ecc.c:73-77 *)
Definition curve_p : list Z := [0xFFFFFFFFFFFFFFFF; 0x00000000FFFFFFFF; 0x0000000000000000; 0xFFFFFFFF00000001].
(** ecc.c:96-100 *)
Definition curve_b : list Z := [0x3BCE3C3E27D2604B; 0x651D06B0CC53B0F6; 0xB3EBBD55769886BC; 0x5AC635D8AA3A93E7].
(** ecc.c:124-132 *)
Definition curve_g : list Z * list Z :=
  ([0xF4A13945D898C296; 0x77037D812DEB33A0; 0xF8BCE6E563A440F2; 0x6B17D1F2E12C4247],
   [0xCBB6406837BF51F5; 0x2BCE33576B315ECE; 0x8EE7EB4A7C0F9E16; 0x4FE342E2FE1A7F9B]).
(** ecc.c:157-161 *)
Definition curve_n : list Z := [0xF3B9CAC2FC632551; 0xBCE6FAADA7179E84; 0xFFFFFFFFFFFFFFFF; 0xFFFFFFFF00000000].

(** ecc.c:247-252 vli_clear *)
Definition vli_clear : list Z := repeat 0 4.
(** The number one as ecc.c:850-851, 997-998 and 1359-1362 make it *)
Definition vli_one : list Z := 1 :: repeat 0 3.
(** ecc.c:255-265 vli_is_zero *)
Definition vli_is_zero (v : list Z) : bool := forallb (fun d => d =? 0) v.
(** ecc.c:268-271 vli_test_bit *)
Definition vli_test_bit (v : list Z) (b : Z) : Z := Z.land (nth (Z.to_nat (b / 64)) v 0) (shl 1 (b mod 64)).
(** ecc.c:274-286 vli_num_digits; [n] is i + 1 *)
Fixpoint num_digits_loop (n : nat) (v : list Z) : nat :=
  match n with
  | O => O
  | S i => if nth i v 0 =? 0 then num_digits_loop i v else n
  end.
Definition vli_num_digits (v : list Z) : nat := num_digits_loop 4 v.
(** ecc.c:299-300; 64 rounds empty a digit *)
Fixpoint count_loop (fuel : nat) (digit : Z) : Z :=
  match fuel with
  | O => 0
  | S fuel => if digit =? 0 then 0 else 1 + count_loop fuel (shr digit 1)
  end.
(** ecc.c:289-303 vli_num_bits *)
Definition vli_num_bits (v : list Z) : Z :=
  match vli_num_digits v with
  | O => 0
  | S i => Z.of_nat i * 64 + count_loop 64 (nth i v 0)
  end.
(** ecc.c:314-326 vli_cmp; [n] is i + 1 *)
Fixpoint cmp_loop (n : nat) (l r : list Z) : Z :=
  match n with
  | O => 0
  | S i => if nth i r 0 <? nth i l 0 then 1 else if nth i l 0 <? nth i r 0 then -1 else cmp_loop i l r
  end.
Definition vli_cmp (l r : list Z) : Z := cmp_loop 4 l r.

(** ecc.c:330-343 vli_lshift *)
Fixpoint lshift_loop (carry : Z) (v : list Z) (shift : Z) : list Z * Z :=
  match v with
  | [] => ([], carry)
  | temp :: v =>
    let '(r, c) := lshift_loop (shr temp (64 - shift)) v shift in
    (Z.lor (shl temp shift) carry :: r, c)
  end.
Definition vli_lshift (v : list Z) (shift : Z) : list Z * Z := lshift_loop 0 v shift.
(** ecc.c:346-358 vli_rshift1: the digits from the last to the first *)
Fixpoint rshift_loop (carry : Z) (v : list Z) : list Z :=
  match v with
  | [] => []
  | temp :: v => Z.lor (shr temp 1) carry :: rshift_loop (shl temp 63) v
  end.
Definition vli_rshift1 (v : list Z) : list Z := rev (rshift_loop 0 (rev v)).
(** ecc.c:362-377 vli_add *)
Fixpoint add_loop (carry : Z) (l r : list Z) : list Z * Z :=
  match l, r with
  | a :: l, b :: r =>
    let sum := u64 (u64 (a + b) + carry) in
    let carry := if sum =? a then carry else bit (sum <? a) in
    let '(s, c) := add_loop carry l r in
    (sum :: s, c)
  | _, _ => ([], carry)
  end.
Definition vli_add (l r : list Z) : list Z * Z := add_loop 0 l r.
(** ecc.c:381-396 vli_sub *)
Fixpoint sub_loop (borrow : Z) (l r : list Z) : list Z * Z :=
  match l, r with
  | a :: l, b :: r =>
    let diff := u64 (u64 (a - b) - borrow) in
    let borrow := if diff =? a then borrow else bit (a <? diff) in
    let '(s, c) := sub_loop borrow l r in
    (diff :: s, c)
  | _, _ => ([], borrow)
  end.
Definition vli_sub (l r : list Z) : list Z * Z := sub_loop 0 l r.

(** ecc.c:411: the first index of column [k] *)
Definition column_min (k : nat) : nat := if (k <? 4)%nat then 0%nat else (k + 1 - 4)%nat.
(** ecc.c:413-417: one product of a column, where there are 128-bit integers *)
Definition mult_cell (l r : list Z) (k : nat) (acc : Z * Z) (i : nat) : Z * Z :=
  let '(r01, r2) := acc in
  let product := u128 (nth i l 0 * nth (k - i) r 0) in
  let r01 := u128 (r01 + product) in
  (r01, u64 (r2 + bit (r01 <? product))).
(** ecc.c:419-421: the digit of a column and what goes on to the next *)
Definition column_end (acc : Z * Z) : Z * (Z * Z) :=
  let '(r01, r2) := acc in (u64 r01, (Z.lor (Z.shiftr r01 64) (u128 (Z.shiftl r2 64)), 0)).
(** ecc.c:401-425 vli_mult *)
Definition mult_indices (k : nat) : list nat := seq (column_min k) (S (Nat.min k 3) - column_min k).
Fixpoint mult_loop (l r : list Z) (ks : list nat) (acc : Z * Z) : list Z :=
  match ks with
  | [] => [u64 (fst acc)]
  | k :: ks =>
    let '(d, acc) := column_end (fold_left (mult_cell l r k) (mult_indices k) acc) in
    d :: mult_loop l r ks acc
  end.
Definition vli_mult (l r : list Z) : list Z := mult_loop l r (seq 0 7) (0, 0).
(** ecc.c:437-446: one product of a column of a square *)
Definition sqr_cell (l : list Z) (k : nat) (acc : Z * Z) (i : nat) : Z * Z :=
  let '(r01, r2) := acc in
  let product := u128 (nth i l 0 * nth (k - i) l 0) in
  let '(product, r2) :=
    if (i <? k - i)%nat then (u128 (product * 2), u64 (r2 + Z.shiftr product 127)) else (product, r2) in
  let r01 := u128 (r01 + product) in
  (r01, u64 (r2 + bit (r01 <? product))).
(** ecc.c:428-455 vli_sqr *)
Definition sqr_indices (k : nat) : list nat := seq (column_min k) (S (k / 2) - column_min k).
Fixpoint sqr_loop (l : list Z) (ks : list nat) (acc : Z * Z) : list Z :=
  match ks with
  | [] => [u64 (fst acc)]
  | k :: ks =>
    let '(d, acc) := column_end (fold_left (sqr_cell l k) (sqr_indices k) acc) in
    d :: sqr_loop l ks acc
  end.
Definition vli_sqr (l : list Z) : list Z := sqr_loop l (seq 0 7) (0, 0).

(** ecc.c:459-483 mul_64_64, where there are no 128-bit integers: low and high digit *)
Definition mul_64_64 (l r : Z) : Z * Z :=
  let a0 := Z.land l 0xffffffff in
  let a1 := shr l 32 in
  let b0 := Z.land r 0xffffffff in
  let b1 := shr r 32 in
  let m0 := u64 (a0 * b0) in
  let m1 := u64 (a0 * b1) in
  let m2 := u64 (a1 * b0) in
  let m3 := u64 (a1 * b1) in
  let m2 := u64 (m2 + shr m0 32) in
  let m2 := u64 (m2 + m1) in
  let m3 := if m2 <? m1 then u64 (m3 + 0x100000000) else m3 in
  (Z.lor (Z.land m0 0xffffffff) (shl m2 32), u64 (m3 + shr m2 32)).
(** ecc.c:485-491 add_128_128 *)
Definition add_128_128 (a b : Z * Z) : Z * Z :=
  let low := u64 (fst a + fst b) in
  (low, u64 (u64 (snd a + snd b) + bit (low <? fst a))).
(** ecc.c:506-510 *)
Definition mult_cell_pair (l r : list Z) (k : nat) (acc : (Z * Z) * Z) (i : nat) : (Z * Z) * Z :=
  let '(r01, r2) := acc in
  let product := mul_64_64 (nth i l 0) (nth (k - i) r 0) in
  let r01 := add_128_128 r01 product in
  (r01, u64 (r2 + bit (snd r01 <? snd product))).
(** ecc.c:512-515 *)
Definition column_end_pair (acc : (Z * Z) * Z) : Z * ((Z * Z) * Z) :=
  let '(r01, r2) := acc in (fst r01, ((snd r01, r2), 0)).
(** ecc.c:493-519 vli_mult *)
Fixpoint mult_loop_pair (l r : list Z) (ks : list nat) (acc : (Z * Z) * Z) : list Z :=
  match ks with
  | [] => [fst (fst acc)]
  | k :: ks =>
    let '(d, acc) := column_end_pair (fold_left (mult_cell_pair l r k) (mult_indices k) acc) in
    d :: mult_loop_pair l r ks acc
  end.
Definition vli_mult_pair (l r : list Z) : list Z := mult_loop_pair l r (seq 0 7) ((0, 0), 0).
(** ecc.c:530-541 *)
Definition sqr_cell_pair (l : list Z) (k : nat) (acc : (Z * Z) * Z) (i : nat) : (Z * Z) * Z :=
  let '(r01, r2) := acc in
  let product := mul_64_64 (nth i l 0) (nth (k - i) l 0) in
  let '(product, r2) :=
    if (i <? k - i)%nat
    then ((shl (fst product) 1, Z.lor (shl (snd product) 1) (shr (fst product) 63)), u64 (r2 + shr (snd product) 63))
    else (product, r2) in
  let r01 := add_128_128 r01 product in
  (r01, u64 (r2 + bit (snd r01 <? snd product))).
(** ecc.c:521-550 vli_sqr *)
Fixpoint sqr_loop_pair (l : list Z) (ks : list nat) (acc : (Z * Z) * Z) : list Z :=
  match ks with
  | [] => [fst (fst acc)]
  | k :: ks =>
    let '(d, acc) := column_end_pair (fold_left (sqr_cell_pair l k) (sqr_indices k) acc) in
    d :: sqr_loop_pair l ks acc
  end.
Definition vli_sqr_pair (l : list Z) : list Z := sqr_loop_pair l (seq 0 7) ((0, 0), 0).

(** ecc.c:558-571 vli_mod_add *)
Definition vli_mod_add (l r m : list Z) : list Z :=
  let '(result, carry) := vli_add l r in
  if negb (carry =? 0) || (0 <=? vli_cmp result m) then fst (vli_sub result m) else result.
(** ecc.c:576-590 vli_mod_sub *)
Definition vli_mod_sub (l r m : list Z) : list Z :=
  let '(result, borrow) := vli_sub l r in
  if negb (borrow =? 0) then fst (vli_add result m) else result.

(** ecc.c:731-734: do add p while the carry is negative *)
Fixpoint mmod_up (fuel : nat) (carry : Z) (result : list Z) : option (list Z) :=
  match fuel with
  | O => None
  | S fuel =>
    let '(result, c) := vli_add result curve_p in
    let carry := carry + c in
    if carry <? 0 then mmod_up fuel carry result else Some result
  end.
(** ecc.c:735-738: subtract p while there is a carry or the number is not below p *)
Fixpoint mmod_down (fuel : nat) (carry : Z) (result : list Z) : option (list Z) :=
  match fuel with
  | O => None
  | S fuel =>
    if negb (carry =? 0) || negb (vli_cmp curve_p result =? 1)
    then let '(result, c) := vli_sub result curve_p in mmod_down fuel (carry - c) result
    else Some result
  end.
(** ecc.c:664-739 vli_mmod_fast *)
Definition vli_mmod_fast (product : list Z) : option (list Z) :=
  let p := fun i => nth i product 0 in
  let '(p4, p5, p6, p7) := (p 4%nat, p 5%nat, p 6%nat, p 7%nat) in
  let high := 0xffffffff00000000 in
  let low := 0xffffffff in
  let result := firstn 4 product in
  let '(tmp, carry) := vli_lshift [0; Z.land p5 high; p6; p7] 1 in
  let '(result, c) := vli_add result tmp in
  let carry := carry + c in
  let '(tmp, c) := vli_lshift [nth 0 tmp 0; shl p6 32; Z.lor (shr p6 32) (shl p7 32); shr p7 32] 1 in
  let carry := carry + c in
  let '(result, c) := vli_add result tmp in
  let carry := carry + c in
  let '(result, c) := vli_add result [p4; Z.land p5 low; 0; p7] in
  let carry := carry + c in
  let '(result, c) := vli_add result [Z.lor (shr p4 32) (shl p5 32); Z.lor (shr p5 32) (Z.land p6 high); p7; Z.lor (shr p6 32) (shl p4 32)] in
  let carry := carry + c in
  let '(result, c) := vli_sub result [Z.lor (shr p5 32) (shl p6 32); shr p6 32; 0; Z.lor (Z.land p4 low) (shl p5 32)] in
  let carry := carry - c in
  let '(result, c) := vli_sub result [p6; p7; 0; Z.lor (shr p4 32) (Z.land p5 high)] in
  let carry := carry - c in
  let '(result, c) := vli_sub result [Z.lor (shr p6 32) (shl p7 32); Z.lor (shr p7 32) (shl p4 32); Z.lor (shr p4 32) (shl p5 32); shl p6 32] in
  let carry := carry - c in
  let '(result, c) := vli_sub result [p7; Z.land p4 high; p5; Z.land p6 high] in
  let carry := carry - c in
  if carry <? 0 then mmod_up 16 carry result else mmod_down 16 carry result.

(** ecc.c:815-821 vli_mod_mult_fast and ecc.c:823-829 vli_mod_sqr_fast *)
Definition vli_mod_mult_fast (l r : list Z) : option (list Z) := vli_mmod_fast (vli_mult l r).
Definition vli_mod_sqr_fast (l : list Z) : option (list Z) := vli_mmod_fast (vli_sqr l).

(** ecc.c:831 EVEN *)
Definition even (v : list Z) : bool := Z.land (nth 0 v 0) 1 =? 0.
(** The carry put back on top: ecc.c:865-866 and the like *)
Definition set_top (v : list Z) (b : bool) : list Z :=
  if b then firstn 3 v ++ [Z.lor (nth 3 v 0) 0x8000000000000000] else v.
(** ecc.c:860-866: halve modulo m *)
Definition halve (u m : list Z) : list Z :=
  let '(u, carry) := if even u then (u, 0) else vli_add u m in
  set_top (vli_rshift1 u) (negb (carry =? 0)).
(** ecc.c:881-884: subtract modulo m *)
Definition less (u v m : list Z) : list Z :=
  let u := if vli_cmp u v <? 0 then fst (vli_add u m) else u in fst (vli_sub u v).
(** ecc.c:854-910: the loop of vli_mod_inv *)
Fixpoint inv_loop (fuel : nat) (m a b u v : list Z) : option (list Z) :=
  match fuel with
  | O => None
  | S fuel =>
    let c := vli_cmp a b in
    if c =? 0 then Some u
    else if even a then inv_loop fuel m (vli_rshift1 a) b (halve u m) v
    else if even b then inv_loop fuel m a (vli_rshift1 b) u (halve v m)
    else if 0 <? c then inv_loop fuel m (vli_rshift1 (fst (vli_sub a b))) b (halve (less u v m) m) v
    else inv_loop fuel m a (vli_rshift1 (fst (vli_sub b a))) u (halve (less v u m) m)
  end.
(** ecc.c:834-913 vli_mod_inv *)
Definition vli_mod_inv (input m : list Z) : option (list Z) :=
  if vli_is_zero input then Some vli_clear
  else inv_loop (Z.to_nat 1024) m input m vli_one vli_clear.

(** A point; ecc.c:57-60 *)
Definition point : Type := list Z * list Z.
(** ecc.c:916-919 ecc_point_is_zero *)
Definition point_is_zero (p : point) : bool := vli_is_zero (fst p) && vli_is_zero (snd p).

(** ecc.c:951-957: half of X1 modulo p *)
Definition halve_p (X1 : list Z) : list Z :=
  if negb (vli_test_bit X1 0 =? 0)
  then let '(X1, carry) := vli_add X1 curve_p in
       let X1 := vli_rshift1 X1 in firstn 3 X1 ++ [Z.lor (nth 3 X1 0) (shl carry 63)]
  else vli_rshift1 X1.

(** ecc.c:926-972 ecc_point_double_jacobian *)
Definition double_jacobian (X1 Y1 Z1 : list Z) : option (list Z * list Z * list Z) :=
  if vli_is_zero Z1 then Some (X1, Y1, Z1)
  else
    do t4 <- vli_mod_sqr_fast Y1;
    do t5 <- vli_mod_mult_fast X1 t4;
    do t4 <- vli_mod_sqr_fast t4;
    do Y1 <- vli_mod_mult_fast Y1 Z1;
    do Z1 <- vli_mod_sqr_fast Z1;
    let X1 := vli_mod_add X1 Z1 curve_p in
    let Z1 := vli_mod_add Z1 Z1 curve_p in
    let Z1 := vli_mod_sub X1 Z1 curve_p in
    do X1 <- vli_mod_mult_fast X1 Z1;
    let Z1 := vli_mod_add X1 X1 curve_p in
    let X1 := vli_mod_add X1 Z1 curve_p in
    let X1 := halve_p X1 in
    do Z1 <- vli_mod_sqr_fast X1;
    let Z1 := vli_mod_sub Z1 t5 curve_p in
    let Z1 := vli_mod_sub Z1 t5 curve_p in
    let t5 := vli_mod_sub t5 Z1 curve_p in
    do X1 <- vli_mod_mult_fast X1 t5;
    let t4 := vli_mod_sub X1 t4 curve_p in
    Some (Z1, t4, Y1).

(** ecc.c:975-983 apply_z *)
Definition apply_z (X1 Y1 z : list Z) : option point :=
  do t1 <- vli_mod_sqr_fast z;
  do X1 <- vli_mod_mult_fast X1 t1;
  do t1 <- vli_mod_mult_fast t1 z;
  do Y1 <- vli_mod_mult_fast Y1 t1;
  Some (X1, Y1).

(** ecc.c:986-1009 xycz_initial_double: 2P and P' *)
Definition initial_double (p : point) (initial_z : option (list Z)) : option (point * point) :=
  let z := match initial_z with Some z => z | None => vli_one end in
  do (X1, Y1) <- apply_z (fst p) (snd p) z;
  do (X1, Y1, z) <- double_jacobian X1 Y1 z;
  do q <- apply_z (fst p) (snd p) z;
  Some ((X1, Y1), q).

(** ecc.c:1014-1034 xycz_add: P' and P + Q *)
Definition xycz_add (p q : point) : option (point * point) :=
  let '((X1, Y1), (X2, Y2)) := (p, q) in
  let t5 := vli_mod_sub X2 X1 curve_p in
  do t5 <- vli_mod_sqr_fast t5;
  do X1 <- vli_mod_mult_fast X1 t5;
  do X2 <- vli_mod_mult_fast X2 t5;
  let Y2 := vli_mod_sub Y2 Y1 curve_p in
  do t5 <- vli_mod_sqr_fast Y2;
  let t5 := vli_mod_sub t5 X1 curve_p in
  let t5 := vli_mod_sub t5 X2 curve_p in
  let X2 := vli_mod_sub X2 X1 curve_p in
  do Y1 <- vli_mod_mult_fast Y1 X2;
  let X2 := vli_mod_sub X1 t5 curve_p in
  do Y2 <- vli_mod_mult_fast Y2 X2;
  let Y2 := vli_mod_sub Y2 Y1 curve_p in
  Some ((X1, Y1), (t5, Y2)).

(** ecc.c:1039-1071 xycz_addc: P - Q and P + Q *)
Definition xycz_addc (p q : point) : option (point * point) :=
  let '((X1, Y1), (X2, Y2)) := (p, q) in
  let t5 := vli_mod_sub X2 X1 curve_p in
  do t5 <- vli_mod_sqr_fast t5;
  do X1 <- vli_mod_mult_fast X1 t5;
  do X2 <- vli_mod_mult_fast X2 t5;
  let t5 := vli_mod_add Y2 Y1 curve_p in
  let Y2 := vli_mod_sub Y2 Y1 curve_p in
  let t6 := vli_mod_sub X2 X1 curve_p in
  do Y1 <- vli_mod_mult_fast Y1 t6;
  let t6 := vli_mod_add X1 X2 curve_p in
  do X2 <- vli_mod_sqr_fast Y2;
  let X2 := vli_mod_sub X2 t6 curve_p in
  let t7 := vli_mod_sub X1 X2 curve_p in
  do Y2 <- vli_mod_mult_fast Y2 t7;
  let Y2 := vli_mod_sub Y2 Y1 curve_p in
  do t7 <- vli_mod_sqr_fast t5;
  let t7 := vli_mod_sub t7 t6 curve_p in
  let t6 := vli_mod_sub t7 X1 curve_p in
  do t6 <- vli_mod_mult_fast t6 t5;
  let Y1 := vli_mod_sub t6 Y1 curve_p in
  Some ((t7, Y1), (X2, Y2)).

(** ecc.c:1081-1083: R0 and R1. [pick nb] and [place nb] access R\[nb\]. *)
Definition pick (nb : bool) (r : point * point) : point := if nb then snd r else fst r.
Definition place (nb : bool) (r : point * point) (v : point) : point * point :=
  if nb then (fst r, v) else (v, snd r).
(** ecc.c:1094 and 1099 *)
Definition ladder_addc (nb : bool) (r : point * point) : option (point * point) :=
  do (p, q) <- xycz_addc (pick (negb nb) r) (pick nb r);
  Some (place nb (place (negb nb) r p) q).
(** ecc.c:1095 and 1111 *)
Definition ladder_add (nb : bool) (r : point * point) : option (point * point) :=
  do (p, q) <- xycz_add (pick nb r) (pick (negb nb) r);
  Some (place (negb nb) (place nb r p) q).
(** ecc.c:1092-1096: [n] is i *)
Fixpoint ladder_loop (n : nat) (scalar : list Z) (r : point * point) : option (point * point) :=
  match n with
  | O => Some r
  | S m =>
    let nb := vli_test_bit scalar (Z.of_nat n) =? 0 in
    do r <- ladder_addc nb r;
    do r <- ladder_add nb r;
    ladder_loop m scalar r
  end.
(** ecc.c:1073-1117 ecc_point_mult *)
Definition point_mult (p : point) (scalar : list Z) (initial_z : option (list Z)) : option point :=
  do (r1, r0) <- initial_double p initial_z;
  do r <- ladder_loop (Z.to_nat (vli_num_bits scalar - 2)) scalar (r0, r1);
  let nb := vli_test_bit scalar 0 =? 0 in
  do r <- ladder_addc nb r;
  let z := vli_mod_sub (fst (snd r)) (fst (fst r)) curve_p in
  do z <- vli_mod_mult_fast z (snd (pick (negb nb) r));
  do z <- vli_mod_mult_fast z (fst p);
  do z <- vli_mod_inv z curve_p;
  do z <- vli_mod_mult_fast z (snd p);
  do z <- vli_mod_mult_fast z (fst (pick (negb nb) r));
  do r <- ladder_add nb r;
  apply_z (fst (fst r)) (snd (fst r)) z.

(** ecc.c:1119-1137 ecc_bytes2native *)
Definition digit_of (b : list Z) : Z :=
  let d := fun i => nth i b 0 in
  Z.lor (Z.lor (Z.lor (Z.lor (Z.lor (Z.lor (Z.lor (shl (d 0%nat) 56) (shl (d 1%nat) 48)) (shl (d 2%nat) 40)) (shl (d 3%nat) 32))
    (shl (d 4%nat) 24)) (shl (d 5%nat) 16)) (shl (d 6%nat) 8)) (d 7%nat).
Definition bytes2native (b : list Z) : list Z := map (fun i => digit_of (skipn (8 * (3 - i)) b)) (seq 0 4).
(** ecc.c:1139-1156 ecc_native2bytes *)
Definition bytes_of (d : Z) : list Z :=
  map (fun s => shr d s mod 256) [56; 48; 40; 32; 24; 16; 8; 0].
Definition native2bytes (v : list Z) : list Z := flat_map (fun i => bytes_of (nth (3 - i) v 0)) (seq 0 4).

(** ecc.c:1244-1245, 1418-1419 and 1425-1426: one subtraction of n where the number is not below n *)
Definition below_n (v : list Z) : list Z := if vli_cmp curve_n v =? 1 then v else fst (vli_sub v curve_n).

(** ecc.c:1231-1256 hsk_ecc_make_pubkey: [Some None] is a return of 0 *)
Definition make_pubkey (key : list Z) : option (option (list Z)) :=
  let private := bytes2native key in
  if vli_is_zero private then Some None
  else
    do public <- point_mult curve_g (below_n private) None;
    Some (if point_is_zero public then None else Some (native2bytes (fst public) ++ native2bytes (snd public))).

(** ecc.c:1329-1334 *)
Definition product_bits (product : list Z) : Z :=
  let b := vli_num_bits (skipn 4 product) in
  if b =? 0 then vli_num_bits (firstn 4 product) else b + 4 * 64.
(** ecc.c:1346-1356: mod shifted to the left by [shift] bits, in eight digits *)
Definition mod_multiple (m : list Z) (shift : Z) : list Z :=
  let d := Z.to_nat (shift / 64) in
  let s := shift mod 64 in
  if s =? 0 then firstn 8 (repeat 0 d ++ m ++ repeat 0 8)
  else let '(v, c) := vli_lshift m s in firstn 8 (repeat 0 d ++ v ++ [c] ++ repeat 0 8).
(** ecc.c:1366-1379: subtract the multiple where it is not above the product *)
Definition take_multiple (product multiple : list Z) : list Z :=
  let '(pl, ph) := (firstn 4 product, skipn 4 product) in
  let '(ml, mh) := (firstn 4 multiple, skipn 4 multiple) in
  let cmp := vli_cmp mh ph in
  if (cmp <? 0) || ((cmp =? 0) && (vli_cmp ml pl <=? 0))
  then
    let '(pl, borrow) := vli_sub pl ml in
    let ph := if borrow =? 0 then ph else fst (vli_sub ph vli_one) in
    pl ++ fst (vli_sub ph mh)
  else product.
(** ecc.c:1381-1386: halve the multiple *)
Definition halve_multiple (multiple : list Z) : list Z :=
  let '(ml, mh) := (firstn 4 multiple, skipn 4 multiple) in
  let carry := shl (Z.land (nth 0 mh 0) 1) 63 in
  let mh := vli_rshift1 mh in
  let ml := vli_rshift1 ml in
  firstn 3 ml ++ [Z.lor (nth 3 ml 0) carry] ++ mh.
(** ecc.c:1364-1389: the loop of vli_mod_mult *)
Fixpoint mod_mult_loop (fuel : nat) (m product multiple : list Z) (bits : Z) : option (list Z) :=
  match fuel with
  | O => None
  | S fuel =>
    if (4 * 64 <? bits) || (0 <=? vli_cmp (firstn 4 multiple) m)
    then mod_mult_loop fuel m (take_multiple product multiple) (halve_multiple multiple) (bits - 1)
    else Some (firstn 4 product)
  end.
(** ecc.c:1313-1392 vli_mod_mult *)
Definition vli_mod_mult (l r m : list Z) : option (list Z) :=
  let mod_bits := vli_num_bits m in
  let product := vli_mult l r in
  let bits := product_bits product in
  if bits <? mod_bits then Some (firstn 4 product)
  else mod_mult_loop (Z.to_nat 1024) m product (mod_multiple m (bits - mod_bits)) bits.

(** What hsk_ecc_sign does: return 0, return 1 with 64 bytes, or read a number which was
    never written *)
Inductive signed := Failed | Signed (s : list Z) | Undefined.
(** ecc.c:1411-1427: the search for k. [rnd] are the answers of get_rand_num in order, of
    which each is a number or a failure; after the list, it fails. [px] is p.x, if it was
    written. *)
Inductive search := NoNumber | Number (k px : list Z) | Unset.
Fixpoint sign_loop (tries : nat) (rnd : list (option (list Z))) (px : option (list Z)) : option search :=
  match tries, rnd with
  | S tries, Some k :: rnd =>
    if vli_is_zero k
    then match px with
         | None => Some Unset
         | Some x => if vli_is_zero x then sign_loop tries rnd px else Some (Number k x)
         end
    else
      let k := below_n k in
      do p <- point_mult curve_g k None;
      let x := below_n (fst p) in
      if vli_is_zero x then sign_loop tries rnd (Some x) else Some (Number k x)
  | _, _ => Some NoNumber
  end.
(** ecc.c:37 MAX_TRIES; ecc.c:1399-1440 hsk_ecc_sign *)
Definition ecc_sign (rnd : list (option (list Z))) (key hash : list Z) : option signed :=
  do found <- sign_loop 16 rnd None;
  match found with
  | NoNumber => Some Failed
  | Unset => Some Undefined
  | Number k px =>
    do s <- vli_mod_mult px (bytes2native key) curve_n;
    let s := vli_mod_add (bytes2native hash) s curve_n in
    do k <- vli_mod_inv k curve_n;
    do s <- vli_mod_mult s k curve_n;
    Some (Signed (native2bytes px ++ native2bytes s))
  end.
