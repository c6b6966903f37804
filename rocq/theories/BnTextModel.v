(** The rest of src/bn.c: remainder, bitwise operations and the text of a number. A number is the list
    of its sixteen limbs, as in BnModel. *)
From Verif Require Import Common BnModel.

(** bn.c:411-430 hsk_bn_mod; [None]: the division never ends *)
Definition bn_mod (a b : list Z) : option (list Z) :=
  match bn_div a b with None => None | Some c => Some (bn_sub a (bn_mul c b)) end.
(** bn.c:432-441 hsk_bn_and, 454-463 hsk_bn_xor *)
Fixpoint bn_and (a b : list Z) : list Z :=
  match a, b with x :: a', y :: b' => Z.land x y :: bn_and a' b' | _, _ => [] end.
Fixpoint bn_xor (a b : list Z) : list Z :=
  match a, b with x :: a', y :: b' => Z.lxor x y :: bn_xor a' b' | _, _ => [] end.
(** bn.c:163-176 hsk_bn_neg: the complement, cut to 32 bits *)
Definition bn_neg (n : list Z) : list Z := map (fun x => Z.lnot x mod bn_base) n.

(** sprintf "%.08x" of a limb *)
Definition hex_char (d : Z) : Z := if d <? 10 then 48 + d else 87 + d.
Definition hex8 (x : Z) : list Z := map (fun k => hex_char (x / 16 ^ k mod 16)) [7; 6; 5; 4; 3; 2; 1; 0].
(** Writing [s] at [i] of the memory [buf]: outside is [Ub] *)
Definition poke (buf : list Z) (i : nat) (s : list Z) : outcome (list Z) :=
  if Nat.leb (i + length s) (length buf) then Ok (firstn i buf ++ s ++ skipn (i + length s) buf) else Ub.
(** bn.c:103-113: [ls] are the limbs that are left, the most significant first *)
Fixpoint text_loop (ls : list Z) (i : nat) (buf : list Z) (nbytes : nat) : outcome (list Z) :=
  match ls with
  | [] => Ok buf
  | x :: ls => if Nat.ltb (i + 1) nbytes then obind (poke buf i (hex8 x ++ [0])) (fun buf => text_loop ls (i + 8) buf nbytes) else Ok buf
  end.
(** bn.c:116-118: reading past the memory is [Ub] *)
Fixpoint zeros_at (l : list Z) : outcome nat :=
  match l with [] => Ub | c :: l => if c =? 48 then obind (zeros_at l) (fun j => Ok (S j)) else Ok O end.
(** bn.c:87-127 hsk_bn_to_string into the memory [buf]; an odd or zero size fails an assertion. The loop
    that moves the text reads [nbytes] bytes and copies upwards, as memmove would. *)
Definition bn_to_string (n buf : list Z) (nbytes : nat) : outcome (list Z) :=
  if Nat.eqb nbytes 0 || Nat.odd nbytes then Abort
  else obind (text_loop (rev n) 0 buf nbytes) (fun buf =>
       obind (zeros_at buf) (fun j =>
       if Nat.ltb (length buf) nbytes && Nat.ltb j nbytes then Ub
       else let m := (nbytes - j)%nat in poke (firstn m (skipn j buf) ++ skipn m buf) m [0])).

(** A hexadecimal digit for sscanf *)
Definition scan_digit (c : Z) : option Z :=
  if (48 <=? c) && (c <=? 57) then Some (c - 48) else if (97 <=? c) && (c <=? 102) then Some (c - 87) else if (65 <=? c) && (c <=? 70) then Some (c - 55) else None.
(** sscanf "%8x" into a variable that is 0. Simplified: blanks, signs and a prefix 0x are not skipped. *)
Fixpoint scan (n : nat) (v : Z) (s : list Z) : Z :=
  match n, s with
  | S n, c :: s => match scan_digit c with Some d => scan n (16 * v + d) s | None => v end
  | _, _ => v
  end.
(** bn.c:52-85 hsk_bn_from_string: limb j from the eight digits that end 8 j digits before the end; more
    than sixteen limbs are written behind the number *)
Definition bn_from_string (s : list Z) (nbytes : nat) : outcome (list Z) :=
  if Nat.eqb nbytes 0 || Nat.odd nbytes then Abort
  else if Nat.ltb bn_size (nbytes / 8) then Ub
  else Ok (map (fun j => scan 8 0 (skipn (nbytes - 8 * (j + 1)) s)) (seq 0 (nbytes / 8)) ++ repeat 0 (bn_size - nbytes / 8)).
