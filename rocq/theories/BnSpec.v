(** Specification for C08: a big number is a list of sixteen 32-bit limbs and
    stands for the integer written with those limbs in base 2^32, least
    significant first. *)
From Verif Require Import Common.

Definition limb_ok (x : Z) : Prop := 0 <= x < 2 ^ 32.

(** A well-formed big number: what every C object of type hsk_bn_t is. *)
Definition bn_ok (l : list Z) : Prop := length l = 16%nat /\ Forall limb_ok l.

Fixpoint bn_val (l : list Z) : Z :=
  match l with
  | [] => 0
  | x :: r => x + 2 ^ 32 * bn_val r
  end.
