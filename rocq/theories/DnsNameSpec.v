(** What a DNS name on the wire is (RFC 1035 section 4.1.4), without the model. *)
From Verif Require Import Common.

(** The name at position [p] of buffer [d]: its labels, the position after it, and the
    number of compression pointers followed. A pointer leads to a position of the whole
    message [dmp]. *)
Inductive wire (dmp : option (list Z)) : list Z -> nat -> list (list Z) -> nat -> nat -> Prop :=
| w_end d p : nth_error d p = Some 0 -> wire dmp d p [] (S p) 0
| w_label d p c l ls q h : nth_error d p = Some c -> 1 <= c <= 63 ->
    l = firstn (Z.to_nat c) (skipn (S p) d) -> zlen l = c ->
    wire dmp d (S p + Z.to_nat c) ls q h -> wire dmp d p (l :: ls) q h
| w_ptr d p c c1 m ls q h : nth_error d p = Some c -> 192 <= c < 256 -> nth_error d (S p) = Some c1 ->
    dmp = Some m -> wire dmp m (Z.to_nat ((c - 192) * 256 + c1)) ls q h -> wire dmp d p ls (S (S p)) (S h).

(** Presentation form: each label followed by a dot; the root is a single dot. Zero
    bytes and dots inside a label appear as 255 and 254. *)
Definition shown (b : Z) : Z := if b =? 0 then 255 else if b =? 46 then 254 else b.
Definition text (ls : list (list Z)) : list Z :=
  match ls with [] => [46] | _ => concat (map (fun l => map shown l ++ [46]) ls) end.

(** A label in presentation form: 1 to 63 characters, none of them zero or a dot. *)
Definition pchar (c : Z) : Prop := 1 <= c <= 255 /\ c <> 46.
Definition plabel (l : list Z) : Prop := 1 <= zlen l <= 63 /\ Forall pchar l.
Definition dotted (ls : list (list Z)) : list Z :=
  match ls with [] => [46] | _ => concat (map (fun l => l ++ [46]) ls) end.
Definition pname (ls : list (list Z)) : Prop := Forall plabel ls /\ zlen (dotted ls) <= 255.

(** Uncompressed wire form of a name in presentation form. *)
Definition byte_of (c : Z) : Z := if c =? 255 then 0 else if c =? 254 then 46 else c.
Definition plain (ls : list (list Z)) : list Z := concat (map (fun l => zlen l :: map byte_of l) ls) ++ [0].
