(** Finite maps as association lists: the abstract view of hsk_map_t (src/map.c)
    used by the other models. [MapModel] models map.c itself and proves that it
    refines these operations. *)
From Verif Require Import Common.

Section Assoc.
  Context {K V : Type} (eqb : K -> K -> bool).

  (** map.c hsk_map_get: the value stored for a key, if any. *)
  Fixpoint aget (k : K) (m : list (K * V)) : option V :=
    match m with
    | [] => None
    | (k', v) :: r => if eqb k k' then Some v else aget k r
    end.

  (** map.c hsk_map_del. *)
  Fixpoint adel (k : K) (m : list (K * V)) : list (K * V) :=
    match m with
    | [] => []
    | (k', v) :: r => if eqb k k' then adel k r else (k', v) :: adel k r
    end.

  (** map.c hsk_map_set: replaces an existing value (memory exhaustion is not
      modelled). *)
  Definition aset (k : K) (v : V) (m : list (K * V)) : list (K * V) := (k, v) :: adel k m.

  (** map.c hsk_map_has. *)
  Definition ahas (k : K) (m : list (K * V)) : bool :=
    match aget k m with Some _ => true | None => false end.
End Assoc.
