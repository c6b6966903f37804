(** Model of hsk_chain_progress (src/chain.c) with the 32-bit floats of IEEE 754, as the standard
    library's [SpecFloat] gives them (round to nearest, ties to even). *)
From Coq Require Import Floats.SpecFloat.
From Verif Require Import Common.

(** The C type float: 24 bits of mantissa, exponents below 128. *)
Definition of_u64 (z : Z) : spec_float := binary_normalize 24 128 z 0 false.
Definition fdiv (x y : spec_float) : spec_float := SFdiv 24 128 x y.
Definition fone : spec_float := of_u64 1.
(** chain.c:266-277. [start] and [tip] are the times of the genesis block and of the tip, [now] the
    adjusted time. Simplified: floats are evaluated in their own precision (FLT_EVAL_METHOD 0). *)
Definition progress (start tip now : Z) : spec_float :=
  let current := (tip - start) mod 2 ^ 64 in
  let end_ := (now - start - 40 * 60) mod 2 ^ 64 in
  let p := fdiv (of_u64 current) (of_u64 end_) in
  if SFltb fone p then fone else p.
