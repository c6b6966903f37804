(** Shared vocabulary: bytes, byte strings, outcomes, little/big endian values. *)
From Coq Require Export ZArith List Bool Lia.
From Coq Require Export ZifyBool.
Export ListNotations.
Global Open Scope Z_scope.
Global Open Scope list_scope.

#[global] Arguments Z.mul : simpl never.
#[global] Arguments Z.add : simpl never.
#[global] Arguments Z.sub : simpl never.
#[global] Arguments Z.div : simpl never.
#[global] Arguments Z.modulo : simpl never.
#[global] Arguments Z.pow : simpl never.
#[global] Arguments Z.of_nat : simpl never.
#[global] Arguments Z.to_nat : simpl never.
#[global] Arguments Z.eqb : simpl never.
#[global] Arguments Z.leb : simpl never.
#[global] Arguments Z.ltb : simpl never.

(** A byte is an integer in [0,256). A byte string is a list of integers all of
    which are bytes. *)
Definition is_byte (b : Z) : Prop := 0 <= b < 256.
Definition bytes_ok (l : list Z) : Prop := Forall is_byte l.
Definition zlen {A : Type} (l : list A) : Z := Z.of_nat (length l).

(** Result of running a piece of C code: a value, an error code the C function
    returns, a failed assertion (the process aborts), or undefined behaviour
    (out-of-bounds access, double free, ...). *)
Inductive outcome (A : Type) : Type :=
| Ok (a : A)
| Err (e : Z)
| Abort
| Ub.
Arguments Ok {A} a.
Arguments Err {A} e.
Arguments Abort {A}.
Arguments Ub {A}.

Definition obind {A B : Type} (x : outcome A) (f : A -> outcome B) : outcome B :=
  match x with
  | Ok a => f a
  | Err e => Err e
  | Abort => Abort
  | Ub => Ub
  end.

(** Positional notation, least significant byte first. *)
Fixpoint le_val (l : list Z) : Z :=
  match l with
  | [] => 0
  | b :: r => b + 256 * le_val r
  end.

Fixpoint le_bytes (n : nat) (v : Z) : list Z :=
  match n with
  | O => []
  | S k => v mod 256 :: le_bytes k (v / 256)
  end.

(** Most significant byte first. *)
Definition be_val (l : list Z) : Z := le_val (rev l).
Definition be_bytes (n : nat) (v : Z) : list Z := rev (le_bytes n v).

(** Equality test on byte strings. *)
Fixpoint beq (a b : list Z) : bool :=
  match a, b with
  | [], [] => true
  | x :: a', y :: b' => (x =? y) && beq a' b'
  | _, _ => false
  end.

(** Split off the first [n] elements. *)
Definition take (n : nat) (l : list Z) : option (list Z * list Z) :=
  if Nat.ltb (length l) n then None else Some (firstn n l, skipn n l).
