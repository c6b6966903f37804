(** A checker for multiples of the base point: not a model of code, but a way to prove that
    a given point is a given multiple. A step is a slope and the quotients by p of the three
    equations of the specification. *)
From Verif Require Import Common EccSpec.

Inductive step : Type := St (slope q1 q2 q3 : Z).
(** q p, by the sparse form of p *)
Definition times_p (q : Z) : Z := Z.shiftl q 256 - Z.shiftl q 224 + Z.shiftl q 192 + Z.shiftl q 96 - q.
Definition point_by (s : step) (a b : Z * Z) : Z * Z :=
  let '(St l _ q2 q3) := s in
  let x := l * l - fst a - fst b - times_p q2 in
  (x, l * (fst a - x) - snd a - times_p q3).
Definition inside (c : Z * Z) : bool := (0 <=? fst c) && (fst c <? p256) && (0 <=? snd c) && (snd c <? p256).
Definition chord_step (s : step) (a b : Z * Z) : option (Z * Z) :=
  let '(St l q1 _ _) := s in
  let c := point_by s a b in
  if negb (fst a =? fst b) && (l * (fst b - fst a) - (snd b - snd a) =? times_p q1) && inside c then Some c else None.
Definition tangent_step (s : step) (a : Z * Z) : option (Z * Z) :=
  let '(St l q1 _ _) := s in
  let c := point_by s a a in
  if negb (snd a =? 0) && (l * (2 * snd a) - (3 * fst a * fst a - 3) =? times_p q1) && inside c then Some c else None.
(** From the multiples by m and m + 1 to those by 2m and 2m + 1, or 2m + 1 and 2m + 2 *)
Fixpoint climb (steps : list (bool * step * step)) (m : Z) (a b : Z * Z) : option (Z * (Z * Z)) :=
  match steps with
  | [] => Some (m, a)
  | (up, s, t) :: steps =>
    match chord_step s a b with
    | None => None
    | Some c =>
      match tangent_step t (if up : bool then b else a) with
      | None => None
      | Some d => if up then climb steps (2 * m + 1) c d else climb steps (2 * m) d c
      end
    end
  end.
Definition multiple_by (first : step) (steps : list (bool * step * step)) : option (Z * (Z * Z)) :=
  match tangent_step first g256 with None => None | Some b => climb steps 1 g256 b end.
