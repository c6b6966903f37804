(** Poly1305 as in RFC 8439, 2.5. *)
From Verif Require Import Common StreamFacts.

Definition p1305 : Z := 2 ^ 130 - 5.
Definition clamp (r : Z) : Z := Z.land r 0x0ffffffc0ffffffc0ffffffc0fffffff.
(** Pieces of 16 bytes, the last one may be shorter; each with a byte 1 behind it *)
Definition pieces (m : list Z) : list (list Z) := blocks 16 m ++ match rest 16 m with [] => [] | r => [r] end.
Definition accumulate (r a : Z) (b : list Z) : Z := ((a + le_val (b ++ [1])) * r) mod p1305.
Definition poly1305 (key m : list Z) : list Z :=
  let r := clamp (le_val (firstn 16 key)) in
  let s := le_val (firstn 16 (skipn 16 key)) in
  le_bytes 16 (fold_left (accumulate r) (pieces m) 0 + s).
