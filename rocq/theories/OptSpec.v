(** What the command line means, written from the help text of hnsd: which letters take an
    argument, which arguments are accepted, and that the last one counts. *)
From Verif Require Import Common.

(** ** Letters *)
Definition takes_text : list Z := [99; 117; 115; 108; 97; 120].  (* c u s l a x *)
Definition takes_addr : list Z := [110; 114; 105].               (* n r i *)
(** The argument of the last option with letter [c] *)
Definition last_arg (c : Z) (es : list (Z * option (list Z))) : option (list Z) :=
  fold_left (fun r e => if fst e =? c then snd e else r) es None.
Definition given (c : Z) (es : list (Z * option (list Z))) : Prop := exists a, In (c, a) es.

(** ** Numbers *)
(** Blanks, a sign, and the longest run of digits *)
Fixpoint span (p : Z -> bool) (s : list Z) : list Z * list Z :=
  match s with c :: r => if p c then let '(a, b) := span p r in (c :: a, b) else ([], s) | [] => ([], []) end.
Definition blank (c : Z) : bool := existsb (Z.eqb c) [9; 10; 11; 12; 13; 32].
Definition digit (c : Z) : bool := existsb (Z.eqb c) [48; 49; 50; 51; 52; 53; 54; 55; 56; 57].
Definition decimal (ds : list Z) : Z := fold_left (fun v c => 10 * v + (c - 48)) ds 0.
Definition number (s : list Z) : Z :=
  let s := snd (span blank s) in
  match s with
  | 45 :: r => - decimal (fst (span digit r))
  | 43 :: r => decimal (fst (span digit r))
  | _ => decimal (fst (span digit s))
  end.
