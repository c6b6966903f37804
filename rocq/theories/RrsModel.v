(** The lists of records (dns.c:458-586) and of texts (dns.c:1929-2059), which have the same code on
    tables of 255 pointers. A pointer is a number, NULL is [None]. *)
From Verif Require Import Common.

Record table := mk_table { t_size : Z; t_items : list (option Z) }.

(** access to the table of 255 pointers (dns.h:19-22, 49-52): outside, [Ub] *)
Definition slot (items : list (option Z)) (i : Z) : outcome (option Z) :=
  if (0 <=? i) && (i <? 255) then Ok (nth (Z.to_nat i) items None) else Ub.
Definition put (items : list (option Z)) (i : Z) (p : option Z) : outcome (list (option Z)) :=
  if (0 <=? i) && (i <? 255) then Ok (firstn (Z.to_nat i) items ++ p :: skipn (S (Z.to_nat i)) items) else Ub.
(** an assert that a slot is not NULL *)
Definition full (items : list (option Z)) (i : Z) : outcome Z :=
  obind (slot items i) (fun p => match p with Some r => Ok r | None => Abort end).

(** dns.c:458-462, 1929-1934 *)
Definition t_init : table := mk_table 0 (repeat None 255).
(** dns.c:468-473, 1940-1945: the loop from [i], [n] rounds. [freed]: what was freed before; freeing a
    pointer again is [Ub]. *)
Fixpoint free_loop (n : nat) (i : Z) (items : list (option Z)) (freed : list Z) : outcome (list Z * list (option Z)) :=
  match n with
  | O => Ok (freed, items)
  | S n' =>
      obind (full items i) (fun r =>
      if existsb (Z.eqb r) freed then Ub else
      obind (put items i None) (fun items => free_loop n' (i + 1) items (freed ++ [r])))
  end.
(** dns.c:464-476, 1936-1948 *)
Definition t_uninit (t : table) : outcome (list Z * table) :=
  obind (free_loop (Z.to_nat (t_size t)) 0 (t_items t) []) (fun '(freed, items) => Ok (freed, mk_table 0 items)).
(** dns.c:500-504, 1972-1976 *)
Fixpoint unshift_loop (n : nat) (i : Z) (items : list (option Z)) : outcome (Z * list (option Z)) :=
  match n with
  | O => Ok (i, items)
  | S n' =>
      obind (full items (i - 1)) (fun r =>
      obind (put items i (Some r)) (fun items => unshift_loop n' (i + 1) items))
  end.
(** dns.c:493-510, 1965-1982 *)
Definition t_unshift (t : table) (r : Z) : outcome (Z * table) :=
  if t_size t =? 255 then Ok (0, t)
  else if negb (t_size t <? 255) then Abort
  else obind (unshift_loop (Z.to_nat (t_size t)) 1 (t_items t)) (fun '(i, items) =>
       obind (put items i (Some r)) (fun items => Ok (t_size t + 1, mk_table (t_size t + 1) items))).
(** dns.c:519-523, 1991-1995 *)
Fixpoint shift_loop (n : nat) (i : Z) (items : list (option Z)) : outcome (list (option Z)) :=
  match n with
  | O => Ok items
  | S n' =>
      obind (full items i) (fun _ =>
      obind (slot items (i + 1)) (fun p =>
      obind (put items i p) (fun items => shift_loop n' (i + 1) items)))
  end.
(** dns.c:512-530, 1984-2002 *)
Definition t_shift (t : table) : outcome (option Z * table) :=
  if t_size t =? 0 then Ok (None, t)
  else obind (slot (t_items t) 0) (fun r =>
       obind (shift_loop (Z.to_nat (t_size t - 1)) 0 (t_items t)) (fun items =>
       obind (put items (t_size t - 1) None) (fun items => Ok (r, mk_table (t_size t - 1) items)))).
(** dns.c:532-544, 2004-2016 *)
Definition t_push (t : table) (r : Z) : outcome (Z * table) :=
  if t_size t =? 255 then Ok (0, t)
  else if negb (t_size t <? 255) then Abort
  else obind (slot (t_items t) (t_size t)) (fun p =>
       match p with
       | Some _ => Abort
       | None => obind (put (t_items t) (t_size t) (Some r)) (fun items => Ok (t_size t + 1, mk_table (t_size t + 1) items))
       end).
(** dns.c:546-559, 2018-2031 *)
Definition t_pop (t : table) : outcome (option Z * table) :=
  if t_size t =? 0 then Ok (None, t)
  else obind (full (t_items t) (t_size t - 1)) (fun r =>
       obind (put (t_items t) (t_size t - 1) None) (fun items => Ok (Some r, mk_table (t_size t - 1) items))).
(** dns.c:561-572, 2033-2044. The comparison is made in 64 unsigned bits, so an index that is negative
    after the addition is refused. *)
Definition t_index (t : table) (index : Z) : Z := if index <? 0 then index + t_size t else index.
Definition t_get (t : table) (index : Z) : outcome (option Z) :=
  if t_size t <=? t_index t index mod 2 ^ 64 then Ok None else slot (t_items t) (t_index t index).
(** dns.c:574-586, 2046-2059 *)
Definition t_set (t : table) (index : Z) (r : Z) : outcome (Z * table) :=
  if t_size t <=? t_index t index mod 2 ^ 64 then Ok (0, t)
  else obind (put (t_items t) (t_index t index) (Some r)) (fun items => Ok (t_size t, mk_table (t_size t) items)).

(** A call of one of the functions; unshift apart *)
Inductive call := Push (r : Z) | Pop | Shift | Get (index : Z) | Set_ (index r : Z).
(** What it returns: a size or a pointer *)
Inductive answer := Size (n : Z) | Ptr (p : option Z).
Definition t_call (t : table) (c : call) : outcome (answer * table) :=
  match c with
  | Push r => obind (t_push t r) (fun '(n, t) => Ok (Size n, t))
  | Pop => obind (t_pop t) (fun '(p, t) => Ok (Ptr p, t))
  | Shift => obind (t_shift t) (fun '(p, t) => Ok (Ptr p, t))
  | Get i => obind (t_get t i) (fun p => Ok (Ptr p, t))
  | Set_ i r => obind (t_set t i r) (fun '(n, t) => Ok (Size n, t))
  end.
Fixpoint t_run (t : table) (cs : list call) : outcome (list answer * table) :=
  match cs with
  | [] => Ok ([], t)
  | c :: cs => obind (t_call t c) (fun '(a, t) => obind (t_run t cs) (fun '(l, t) => Ok (a :: l, t)))
  end.
