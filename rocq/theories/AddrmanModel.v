(** Model of src/addrmgr.c: the addresses of peers, the bans and the choice of an address
    to dial; and of the callers in src/pool.c that feed it (seeds and addr messages).

    The hash table from addresses to slots holds pointers into the slots: it is modelled
    by the list of the slots in it, the key of a slot being the address it holds at the
    time. That the table is a map for the equality of addresses is C25. The random numbers
    are a function of the number of the draw; clock readings are parameters: [now] is
    hsk_timedata_now, [clock] hsk_now. Times are assumed far from the ends of int64_t. *)
From Verif Require Import Common MapModel AddrModel.

Definition u64 (x : Z) : Z := x mod 2 ^ 64.
(** addrmgr.c:19-25 *)
Definition addr_max : Z := 2000.
Definition ban_time : Z := 86400.

(** addrmgr.h:13-23 *)
Record entry := { e_addr : addr; e_time : Z; e_services : Z; e_attempts : Z; e_success : Z; e_attempt : Z;
  e_ref : Z; e_used : bool; e_removed : bool }.
(** addr.h:24-28 *)
Record netaddr := { na_time : Z; na_services : Z; na_addr : addr }.
(** addrmgr.h:31-37, addrs[0..size) only: a slot is written completely when it is taken. *)
Record addrman := { am_slots : list entry; am_map : list nat; am_bans : list (addr * Z) }.
Definition am_size (am : addrman) : Z := zlen (am_slots am).
Definition am_empty : addrman := {| am_slots := []; am_map := []; am_bans := [] |}.

(* ---------- the hash table ---------- *)
(** hsk_map_get (map.c:513-524) with the keys in the slots *)
Definition slot_has (slots : list entry) (a : addr) (i : nat) : bool :=
  match nth_error slots i with Some e => addr_equal (e_addr e) a | None => false end.
Definition map_find (slots : list entry) (m : list nat) (a : addr) : option nat := find (slot_has slots a) m.
(** hsk_map_del (map.c:539-552) *)
Fixpoint map_drop (slots : list entry) (m : list nat) (a : addr) : list nat :=
  match m with [] => [] | i :: r => if slot_has slots a i then r else i :: map_drop slots r a end.
(** hsk_map_set (map.c:500-511): the value of a key that is there is replaced *)
Fixpoint map_put (slots : list entry) (m : list nat) (a : addr) (v : nat) : list nat :=
  match m with [] => [v] | i :: r => if slot_has slots a i then v :: r else i :: map_put slots r a v end.
Fixpoint set_slot (slots : list entry) (i : nat) (e : entry) : list entry :=
  match slots, i with
  | [], _ => []
  | _ :: r, O => e :: r
  | x :: r, S i => x :: set_slot r i e
  end.
(** addrmgr.c:139-142 hsk_addrman_get *)
Definition am_get (am : addrman) (a : addr) : option nat := map_find (am_slots am) (am_map am) a.

(* ---------- age and chance ---------- *)
(** addrmgr.c:484-509: the comparisons with [e_time] are unsigned *)
Definition is_stale (now : Z) (e : entry) : bool :=
  if negb (e_attempt e =? 0) && (now - 60 <=? e_attempt e) then false
  else if u64 (now + 600) <? e_time e then true
  else if e_time e =? 0 then true
  else if 2592000 <? u64 (now - e_time e) then true
  else if (e_success e =? 0) && (3 <=? e_attempts e) then true
  else if 604800 <? now - e_success e then 10 <=? e_attempts e
  else false.
(** addrmgr.c:511-528 as a fraction: 0.01 and 0.66^n exactly, without rounding *)
Definition chance (e : entry) (now : Z) : Z * Z :=
  let n := Z.min (e_attempts e) 8 in
  ((if now - e_attempt e <? 600 then 1 else 100) * 33 ^ n, 100 * 50 ^ n).

(* ---------- adding ---------- *)
(** addrmgr.c:103-115: up to ten random slots, the first stale one. [k] draws are left. *)
Fixpoint stale_slot (k : nat) (rnd : nat -> Z) (d : nat) (now : Z) (slots : list entry) : option nat :=
  match k with
  | O => None
  | S k =>
      let i := Z.to_nat (rnd d mod zlen slots) in
      match nth_error slots i with
      | Some e => if is_stale now e then Some i else stale_slot k rnd (S d) now slots
      | None => None
      end
  end.
(** addrmgr.c:101-127 hsk_addrman_alloc_entry: the slot, and whether it is a new one *)
Definition alloc_entry (rnd : nat -> Z) (now : Z) (am : addrman) : option (nat * bool * addrman) :=
  if am_size am =? addr_max then
    match stale_slot (Z.to_nat (Z.min (am_size am) 10)) rnd 0 now (am_slots am) with
    | Some i =>
        match nth_error (am_slots am) i with
        | Some e => Some (i, false, {| am_slots := am_slots am; am_map := map_drop (am_slots am) (am_map am) (e_addr e); am_bans := am_bans am |})
        | None => None
        end
    | None => None
    end
  else Some (length (am_slots am), true, am).
(** addrmgr.c:205-213 *)
Definition fresh (na : netaddr) : entry :=
  {| e_addr := na_addr na; e_time := na_time na; e_services := na_services na; e_attempts := 0; e_success := 0; e_attempt := 0;
     e_ref := 1; e_used := false; e_removed := false |}.
(** addrmgr.c:151-197: an address that is there. The result: the entry and what is returned *)
Definition see_again (rnd : nat -> Z) (now : Z) (na : netaddr) (src : bool) (e : entry) : outcome (entry * bool) :=
  let penalty := if src then 7200 else 0 in
  let interval := if u64 (now - na_time na) <? 86400 then 3600 else 86400 in
  let time := if e_time e <? u64 (na_time na - interval - penalty) then na_time na else e_time e in
  let e1 := {| e_addr := e_addr e; e_time := time; e_services := Z.lor (e_services e) (na_services na); e_attempts := e_attempts e;
               e_success := e_success e; e_attempt := e_attempt e; e_ref := e_ref e; e_used := e_used e; e_removed := e_removed e |} in
  if negb (time =? 0) && (na_time na <=? time) then Ok (e1, false)
  else if e_used e then Ok (e1, false)
  else if negb (0 <? e_ref e) then Abort
  else if e_ref e =? 8 then Ok (e1, false)
  else if negb (e_ref e <? 8) then Abort
  else if negb (rnd 0%nat mod 2 ^ e_ref e =? 0) then Ok (e1, false)
  else Ok ({| e_addr := e_addr e; e_time := time; e_services := Z.lor (e_services e) (na_services na); e_attempts := e_attempts e;
              e_success := e_success e; e_attempt := e_attempt e; e_ref := e_ref e + 1; e_used := e_used e; e_removed := e_removed e |}, true).
Definition put_slot (am : addrman) (i : nat) (e : entry) : addrman :=
  {| am_slots := set_slot (am_slots am) i e; am_map := am_map am; am_bans := am_bans am |}.
(** addrmgr.c:144-224 hsk_addrman_add_entry. [fb] is HSK_BRONTIDE_PORT, for the log; [mem]
    tells whether hsk_map_set finds memory. *)
Definition add_entry (fb : Z) (mem : bool) (rnd : nat -> Z) (now : Z) (am : addrman) (na : netaddr) (src : bool) : outcome (addrman * bool) :=
  obind (to_string (na_addr na) 128 fb) (fun _ =>
  match am_get am (na_addr na) with
  | Some i =>
      match nth_error (am_slots am) i with
      | None => Ub
      | Some e => obind (see_again rnd now na src e) (fun '(e', r) => Ok (put_slot am i e', r))
      end
  | None =>
      match alloc_entry rnd now am with
      | None => Ok (am, false)
      | Some (i, alloc, am1) =>
          let slots := if alloc then am_slots am1 ++ [fresh na] else set_slot (am_slots am1) i (fresh na) in
          if negb mem then
            Ok (if alloc then am1 else {| am_slots := slots; am_map := am_map am1; am_bans := am_bans am1 |}, false)
          else Ok ({| am_slots := slots; am_map := map_put slots (am_map am1) (na_addr na) i; am_bans := am_bans am1 |}, true)
      end
  end).
(** addrmgr.c:226-235 *)
Definition add_addr (fb : Z) (mem : bool) (rnd : nat -> Z) (now : Z) (am : addrman) (a : addr) : outcome (addrman * bool) :=
  add_entry fb mem rnd now am {| na_time := u64 now; na_services := 1; na_addr := a |} false.
(** addrmgr.c:237-240 *)
Definition add_na (fb : Z) (mem : bool) (rnd : nat -> Z) (now : Z) (am : addrman) (na : netaddr) : outcome (addrman * bool) :=
  add_entry fb mem rnd now am na true.

(* ---------- marking ---------- *)
(** An operation on the entry of an address (addrmgr.c:273-336); the result is false if
    there is none *)
Definition on_entry (am : addrman) (a : addr) (f : entry -> outcome (entry * bool)) : outcome (addrman * bool) :=
  match am_get am a with
  | None => Ok (am, false)
  | Some i =>
      match nth_error (am_slots am) i with
      | None => Ub
      | Some e => obind (f e) (fun '(e', r) => Ok (put_slot am i e', r))
      end
  end.
(** addrmgr.c:273-283 *)
Definition remove_addr (am : addrman) (a : addr) : outcome (addrman * bool) :=
  on_entry am a (fun e => Ok ({| e_addr := e_addr e; e_time := e_time e; e_services := e_services e; e_attempts := e_attempts e;
    e_success := e_success e; e_attempt := e_attempt e; e_ref := e_ref e; e_used := e_used e; e_removed := true |}, true)).
(** addrmgr.c:285-296: the counter is an int32_t *)
Definition mark_attempt (now : Z) (am : addrman) (a : addr) : outcome (addrman * bool) :=
  on_entry am a (fun e => if e_attempts e =? 2147483647 then Ub else
    Ok ({| e_addr := e_addr e; e_time := e_time e; e_services := e_services e; e_attempts := e_attempts e + 1;
           e_success := e_success e; e_attempt := now; e_ref := e_ref e; e_used := e_used e; e_removed := e_removed e |}, true)).
(** addrmgr.c:298-313 *)
Definition mark_success (now : Z) (am : addrman) (a : addr) : outcome (addrman * bool) :=
  on_entry am a (fun e => if 1200 <? u64 (now - e_time e) then
    Ok ({| e_addr := e_addr e; e_time := u64 now; e_services := e_services e; e_attempts := e_attempts e;
           e_success := e_success e; e_attempt := e_attempt e; e_ref := e_ref e; e_used := e_used e; e_removed := e_removed e |}, true)
    else Ok (e, false)).
(** addrmgr.c:315-336 *)
Definition mark_ack (now : Z) (am : addrman) (a : addr) (services : Z) : outcome (addrman * bool) :=
  on_entry am a (fun e => Ok ({| e_addr := e_addr e; e_time := e_time e; e_services := Z.lor (e_services e) services; e_attempts := 0;
    e_success := now; e_attempt := now; e_ref := e_ref e; e_used := true; e_removed := e_removed e |}, true)).

(* ---------- bans ---------- *)
Fixpoint ban_find (l : list (addr * Z)) (a : addr) : option Z :=
  match l with [] => None | (b, t) :: r => if addr_equal b a then Some t else ban_find r a end.
Fixpoint ban_drop (l : list (addr * Z)) (a : addr) : list (addr * Z) :=
  match l with [] => [] | (b, t) :: r => if addr_equal b a then r else (b, t) :: ban_drop r a end.
Fixpoint ban_put (l : list (addr * Z)) (a : addr) (t : Z) : list (addr * Z) :=
  match l with [] => [(a, t)] | (b, u) :: r => if addr_equal b a then (b, t) :: r else (b, u) :: ban_put r a t end.
Definition with_bans (am : addrman) (l : list (addr * Z)) : addrman :=
  {| am_slots := am_slots am; am_map := am_map am; am_bans := l |}.
(** addrmgr.c:338-341 *)
Definition clear_banned (am : addrman) : addrman := with_bans am [].
(** addrmgr.c:343-368; [mem] tells whether there is memory for a new ban *)
Definition add_ban (mem : bool) (clock : Z) (am : addrman) (a : addr) : addrman * bool :=
  match ban_find (am_bans am) a with
  | Some _ => (with_bans am (ban_put (am_bans am) a clock), true)
  | None => if mem then (with_bans am (ban_put (am_bans am) a clock), true) else (am, false)
  end.
(** addrmgr.c:370-386 *)
Definition is_banned (clock : Z) (am : addrman) (a : addr) : addrman * bool :=
  match ban_find (am_bans am) a with
  | None => (am, false)
  | Some t => if t + ban_time <? clock then (with_bans am (ban_drop (am_bans am) a), false) else (am, true)
  end.

(* ---------- choosing ---------- *)
(** addrmgr.c:396-406: the slot of round [k], the factor is 1.2^k; [d] counts the draws.
    [Err 1]: the fuel is used up. *)
Fixpoint search_loop (fuel : nat) (rnd : nat -> Z) (d : nat) (k num now : Z) (slots : list entry) : outcome (nat * nat) :=
  match fuel with
  | O => Err 1
  | S fuel =>
      let i := Z.to_nat (rnd d mod zlen slots) in
      match nth_error slots i with
      | None => Ub
      | Some e =>
          let '(p, q) := chance e now in
          if num * (5 ^ k * q) <? 6 ^ k * p * 2 ^ 30 then Ok (i, S d) else search_loop fuel rnd (S d) (k + 1) num now slots
      end
  end.
(** addrmgr.c:388-409 *)
Definition search (rnd : nat -> Z) (d : nat) (now : Z) (am : addrman) : outcome (option nat * nat) :=
  match am_slots am with
  | [] => Ok (None, d)
  | _ => obind (search_loop 50 rnd (S d) 0 (rnd d mod 2 ^ 30) now (am_slots am)) (fun '(i, d) => Ok (Some i, d))
  end.
(** addrmgr.c:411-450: from try [i] on, [k] tries are left. [peers]: the addresses of the
    map that is given; [port]: HSK_BRONTIDE_PORT; [clock i]: hsk_now in try [i]. *)
Fixpoint pick_loop (k : nat) (i : Z) (port : Z) (rnd : nat -> Z) (clock : Z -> Z) (d : nat) (now : Z) (am : addrman) (peers : list addr)
  : outcome (addrman * option nat) :=
  match k with
  | O => Ok (am, None)
  | S k =>
      obind (search rnd d now am) (fun '(o, d) =>
      match o with
      | None => Ok (am, None)
      | Some j =>
          match nth_error (am_slots am) j with
          | None => Ub
          | Some e =>
              let next am := pick_loop k (i + 1) port rnd clock d now am peers in
              if e_removed e then next am
              else if existsb (addr_equal (e_addr e)) peers then next am
              else if negb (is_valid (e_addr e)) then next am
              else if Z.land (e_services e) 1 =? 0 then next am
              else if is_onion (e_addr e) then next am
              else if (i <? 30) && (now - e_attempt e <? 600) then next am
              else if (i <? 50) && negb (a_port (e_addr e) =? port) then next am
              else if i <? 95 then
                let (am, banned) := is_banned (clock i) am (e_addr e) in
                if banned then next am else Ok (am, Some j)
              else Ok (am, Some j)
          end
      end)
  end.
Definition pick (port : Z) (rnd : nat -> Z) (clock : Z -> Z) (now : Z) (am : addrman) (peers : list addr) : outcome (addrman * option nat) :=
  pick_loop 100 0 port rnd clock 0 now am peers.

(* ---------- start ---------- *)
(** addrmgr.c:56-61: the built-in seeds; [mem n]: memory for the n-th, [rnd n] the random
    numbers for it *)
Fixpoint add_seeds (P : ports) (mem : nat -> bool) (rnd : nat -> nat -> Z) (now : Z) (n : nat) (am : addrman) (seeds : list (list Z)) : outcome addrman :=
  match seeds with
  | [] => Ok am
  | s :: r =>
      obind (from_string P s 0) (fun o =>
      match o with
      | None => Abort
      | Some a => obind (add_addr (pt_brontide P) (mem n) (rnd n) now am a) (fun '(am, ok) =>
          if ok : bool then add_seeds P mem rnd now (S n) am r else Abort)
      end)
  end.
(** addrmgr.c:36-73 hsk_addrman_init, the table of 2000 entries allocated *)
Definition am_init (P : ports) (mem : nat -> bool) (rnd : nat -> nat -> Z) (now : Z) (seeds : list (list Z)) : outcome addrman :=
  add_seeds P mem rnd now 0 am_empty seeds.

(* ---------- the callers in pool.c ---------- *)
(** pool.c:251-296 hsk_pool_set_seeds, HSK_MAX_HOST = 128. [cur]: the characters from
    [start] on that have been read; [n] counts the additions. *)
Definition seed_item (P : ports) (mem : nat -> bool) (rnd : nat -> nat -> Z) (now : Z) (n : nat) (am : addrman) (cur : list Z) : outcome (addrman * bool) :=
  if zlen cur =? 0 then Ok (am, true)
  else if 128 <=? zlen cur then Ok (am, false)
  else obind (from_string P cur 0) (fun o =>
       match o with
       | None => Ok (am, false)
       | Some a => add_addr (pt_brontide P) (mem n) (rnd n) now am a
       end).
Fixpoint set_seeds_loop (P : ports) (mem : nat -> bool) (rnd : nat -> nat -> Z) (now : Z) (n : nat) (am : addrman) (cur rest : list Z) : outcome addrman :=
  match rest with
  | [] => obind (seed_item P mem rnd now n am cur) (fun '(am, _) => Ok am)
  | c :: r =>
      if c =? 44 then
        obind (seed_item P mem rnd now n am cur) (fun '(am, ok) =>
        set_seeds_loop P mem rnd now (S n) am (if ok : bool then [] else cur ++ [44]) r)
      else set_seeds_loop P mem rnd now n am (cur ++ [c]) r
  end.
Definition set_seeds (P : ports) (mem : nat -> bool) (rnd : nat -> nat -> Z) (now : Z) (am : addrman) (s : list Z) : outcome addrman :=
  set_seeds_loop P mem rnd now 0 am [] s.

(** pool.c:1401-1435 hsk_peer_handle_addr, from line 1410: the addresses of the message *)
Definition usable (now : Z) (na : netaddr) : option netaddr :=
  if negb (is_routable (na_addr na)) then None
  else if Z.land (na_services na) 1 =? 0 then None
  else
    let t := if (na_time na <=? 100000000) || (u64 (now + 600) <? na_time na) then u64 (now - 432000) else na_time na in
    if a_port (na_addr na) =? 0 then None
    else if has_key (na_addr na) then None
    else Some {| na_time := t; na_services := na_services na; na_addr := na_addr na |}.
Fixpoint add_all (fb : Z) (mem : nat -> bool) (rnd : nat -> nat -> Z) (now : Z) (n : nat) (am : addrman) (l : list netaddr) : outcome addrman :=
  match l with
  | [] => Ok am
  | na :: r =>
      match usable now na with
      | None => add_all fb mem rnd now (S n) am r
      | Some na => obind (add_na fb (mem n) (rnd n) now am na) (fun '(am, _) => add_all fb mem rnd now (S n) am r)
      end
  end.
(** pool.c:1401-1406 *)
Definition handle_addr (fb : Z) (mem : nat -> bool) (rnd : nat -> nat -> Z) (now : Z) (am : addrman) (l : list netaddr) : outcome (addrman * bool) :=
  if 1000 <? zlen l then Ok (am, false) else obind (add_all fb mem rnd now 0 am l) (fun am => Ok (am, true)).
