(** Model of src/map.c and src/map.h: the hash table behind all tables of the program.
    Keys are modelled by what they point to: the code keeps pointers, and the table is
    right only as long as the bytes behind a pointer it holds are not changed.
    A value is a pointer, [None] being NULL. Memory not yet written is a cell [None]. *)
From Verif Require Import Common.

(** Result of a run: ended, outside an array (or through NULL, or using memory never
    written), or still running when the number of rounds given is used up. *)
Inductive run (A : Type) : Type := Done (a : A) | Fault | Endless.
Arguments Done {A} a.
Arguments Fault {A}.
Arguments Endless {A}.
Definition rbind {A B : Type} (x : run A) (f : A -> run B) : run B := match x with Done a => f a | Fault => Fault | Endless => Endless end.
Notation "x <-- a ;; b" := (rbind a (fun x => b)) (at level 61, a at next level, right associativity).

(** Reading and writing an array *)
Definition zget {A : Type} (l : list A) (i : Z) : run A := if i <? 0 then Fault else match nth_error l (Z.to_nat i) with Some x => Done x | None => Fault end.
Fixpoint upd {A : Type} (l : list A) (i : nat) (x : A) : list A :=
  match l, i with [], _ => [] | _ :: r, O => x :: r | y :: r, S i => y :: upd r i x end.
Definition zset {A : Type} (l : list A) (i : Z) (x : A) : run (list A) := if (0 <=? i) && (i <? zlen l) then Done (upd l (Z.to_nat i) x) else Fault.

Definition u32 (x : Z) : Z := x mod 2 ^ 32.

(** map.h:58-64: two bits for each place of the table, sixteen places in a word: 2 empty,
    1 deleted. [flag f i mask] is the macro with that mask. *)
Definition shift_of (i : Z) : Z := Z.shiftl (Z.land i 15) 1.
Definition flag (f : list Z) (i mask : Z) : run Z := w <-- zget f (Z.shiftr i 4) ;; Done (Z.land (Z.shiftr w (shift_of i)) mask).
Definition isempty f i := x <-- flag f i 2 ;; Done (negb (x =? 0)).
Definition isdel f i := x <-- flag f i 1 ;; Done (negb (x =? 0)).
Definition iseither f i := x <-- flag f i 3 ;; Done (negb (x =? 0)).
Definition clear_flag (f : list Z) (i mask : Z) : run (list Z) := w <-- zget f (Z.shiftr i 4) ;; zset f (Z.shiftr i 4) (Z.land w (Z.lnot (Z.shiftl mask (shift_of i)))).
Definition set_isdel_true (f : list Z) (i : Z) : run (list Z) := w <-- zget f (Z.shiftr i 4) ;; zset f (Z.shiftr i 4) (Z.lor w (Z.shiftl 1 (shift_of i))).
(** map.h:65 *)
Definition fsize (m : Z) : Z := if m <? 16 then 1 else Z.shiftr m 4.
(** map.h:66-75 *)
Definition roundup32 (x : Z) : Z :=
  let x := u32 (x - 1) in let x := Z.lor x (Z.shiftr x 1) in let x := Z.lor x (Z.shiftr x 2) in let x := Z.lor x (Z.shiftr x 4) in let x := Z.lor x (Z.shiftr x 8) in let x := Z.lor x (Z.shiftr x 16) in u32 (x + 1).
(** map.h:77 and (uint32_t)(n * 0.77 + 0.5), in whole numbers: for the numbers of places
    that occur (powers of two from 4 to 2^31) the two are equal, the double nearest to
    0.77 being off by less than 2^-53. *)
Definition upper (n : Z) : Z := (77 * n + 50) / 100.
(** memset 0xaa: every place empty *)
Definition all_empty (n : Z) : list Z := repeat (170 + 256 * (170 + 256 * (170 + 256 * 170))) (Z.to_nat (fsize n)).

Section Map.
  Context {K V : Type} (hash : K -> Z) (equal : K -> K -> bool).

  (** map.h:42-54; the three functions are parameters here. NULL arrays are empty. *)
  Record table : Type := { n_buckets : Z; size : Z; n_occupied : Z; upper_bound : Z; flags : list Z; keys : list (option K); vals : list (option (option V)); is_map : bool }.

  (** map.c:40-53 *)
  Definition map_init (im : bool) : table := {| n_buckets := 0; size := 0; n_occupied := 0; upper_bound := 0; flags := []; keys := []; vals := []; is_map := im |}.

  (** A key or value of the table; one never written is indeterminate *)
  Definition key_at (l : list (option K)) (i : Z) : run K := c <-- zget l i ;; match c with Some k => Done k | None => Fault end.
  Definition val_at (l : list (option (option V))) (i : Z) : run (option V) := c <-- zget l i ;; match c with Some v => Done v | None => Fault end.

  (** map.c:245-247: the condition of the loop, at place [i] *)
  Definition passes (m : table) (i : Z) (key : K) : run bool :=
    e <-- isempty (flags m) i ;; if e then Done false else d <-- isdel (flags m) i ;; if d then Done true else k <-- key_at (keys m) i ;; Done (negb (equal k key)).
  (** map.c:245-254 *)
  Fixpoint lookup_loop (fuel : nat) (m : table) (key : K) (mask last i step : Z) : run Z :=
    match fuel with
    | O => Endless
    | S fuel => p <-- passes m i key ;;
        if p : bool then
          let step := u32 (step + 1) in let i := Z.land (u32 (i + step)) mask in
          if i =? last then Done (n_buckets m) else lookup_loop fuel m key mask last i step
        else e <-- iseither (flags m) i ;; Done (if e : bool then n_buckets m else i)
    end.
  (** Rounds enough for every loop of the table (proved) *)
  Definition rounds (m : table) : nat := S (Z.to_nat (2 * n_buckets m)).
  (** map.c:234-255 hsk_map_lookup *)
  Definition lookup (m : table) (key : K) : run Z :=
    if n_buckets m =? 0 then Done 0
    else let mask := u32 (n_buckets m - 1) in let i := Z.land (hash key) mask in lookup_loop (rounds m) m key mask i i 0.

  (** map.c:331-332 *)
  Fixpoint free_loop (fuel : nat) (f : list Z) (mask i step : Z) : run Z :=
    match fuel with
    | O => Endless
    | S fuel => e <-- isempty f i ;; if e : bool then Done i else let step := u32 (step + 1) in free_loop fuel f mask (Z.land (u32 (i + step)) mask) step
    end.
  (** The arrays while they are rearranged: old flags, new flags, keys, values *)
  Record work : Type := { w_old : list Z; w_new : list Z; w_keys : list (option K); w_vals : list (option (option V)) }.
  (** map.c:326-359: put an element in its new place; if an old one is there, go on with
      that one. The values are handled only if there are values. *)
  Fixpoint kick (fuel : nat) (im : bool) (n new_n : Z) (w : work) (key : K) (val : option (option V)) : run work :=
    match fuel with
    | O => Endless
    | S fuel =>
        let mask := u32 (new_n - 1) in
        i <-- free_loop (S (Z.to_nat new_n)) (w_new w) mask (Z.land (hash key) mask) 0 ;;
        f <-- clear_flag (w_new w) i 2 ;;
        old <-- (if i <? n then e <-- iseither (w_old w) i ;; Done (negb e) else Done false) ;;
        if old : bool then
          k <-- key_at (w_keys w) i ;; ks <-- zset (w_keys w) i (Some key) ;;
          v <-- (if im then zget (w_vals w) i else Done None) ;; vs <-- (if im then zset (w_vals w) i val else Done (w_vals w)) ;;
          o <-- set_isdel_true (w_old w) i ;;
          kick fuel im n new_n {| w_old := o; w_new := f; w_keys := ks; w_vals := vs |} k v
        else
          ks <-- zset (w_keys w) i (Some key) ;; vs <-- (if im then zset (w_vals w) i val else Done (w_vals w)) ;;
          Done {| w_old := w_old w; w_new := f; w_keys := ks; w_vals := vs |}
    end.
  (** map.c:314-361: the places of the old table from [j] on *)
  Fixpoint rehash (count : nat) (im : bool) (n new_n j : Z) (w : work) : run work :=
    match count with
    | O => Done w
    | S count =>
        e <-- iseither (w_old w) j ;;
        w <-- (if e : bool then Done w else
          k <-- key_at (w_keys w) j ;; v <-- (if im then zget (w_vals w) j else Done None) ;; o <-- set_isdel_true (w_old w) j ;;
          kick (S (Z.to_nat n)) im n new_n {| w_old := o; w_new := w_new w; w_keys := w_keys w; w_vals := w_vals w |} k v) ;;
        rehash count im n new_n (j + 1) w
    end.
  (** realloc: to [n] cells; the new ones are not written *)
  Definition realloc {A : Type} (l : list (option A)) (n : Z) : list (option A) := firstn (Z.to_nat n) l ++ repeat None (Z.to_nat n - length l).
  (** Which of the allocations of one call succeed: the flags, the keys, the values *)
  Record memory : Type := { mem_flags : bool; mem_keys : bool; mem_vals : bool }.
  Definition with_arrays (m : table) ks vs : table := {| n_buckets := n_buckets m; size := size m; n_occupied := n_occupied m; upper_bound := upper_bound m; flags := flags m; keys := ks; vals := vs; is_map := is_map m |}.
  (** map.c:257-383 hsk_map_resize. The boolean is "not -1". A realloc that shrinks and
      fails leaves NULL in the table, as in the code. *)
  Definition resize (mem : memory) (m : table) (want : Z) : run (bool * table) :=
    let new_n := roundup32 want in
    let new_n := if new_n <? 4 then 4 else new_n in
    if upper new_n <=? size m then Done (true, m)
    else if negb (mem_flags mem) then Done (false, m)
    else
      let grow := n_buckets m <? new_n in
      if grow && negb (mem_keys mem) then Done (false, m)
      else
        let ks := if grow then realloc (keys m) new_n else keys m in
        if grow && is_map m && negb (mem_vals mem) then Done (false, with_arrays m ks (vals m))
        else
          let vs := if grow && is_map m then realloc (vals m) new_n else vals m in
          w <-- rehash (Z.to_nat (n_buckets m)) (is_map m) (n_buckets m) new_n 0 {| w_old := flags m; w_new := all_empty new_n; w_keys := ks; w_vals := vs |} ;;
          let shrink := new_n <? n_buckets m in
          let ks := if shrink then (if mem_keys mem then realloc (w_keys w) new_n else []) else w_keys w in
          let vs := if shrink && is_map m then (if mem_vals mem then realloc (w_vals w) new_n else []) else w_vals w in
          Done (true, {| n_buckets := new_n; size := size m; n_occupied := size m; upper_bound := upper new_n; flags := w_new w; keys := ks; vals := vs; is_map := is_map m |}).

  (** map.c:425-437: the loop of put; [site] the last deleted place passed. The boolean is
      "came back to the first place". *)
  Fixpoint put_loop (fuel : nat) (m : table) (key : K) (mask last i step site : Z) : run (bool * Z * Z) :=
    match fuel with
    | O => Endless
    | S fuel => p <-- passes m i key ;;
        if p : bool then
          d <-- isdel (flags m) i ;; let site := if d : bool then i else site in
          let step := u32 (step + 1) in let i := Z.land (u32 (i + step)) mask in
          if i =? last then Done (true, i, site) else put_loop fuel m key mask last i step site
        else Done (false, i, site)
    end.
  (** map.c:409-446: the place for a key *)
  Definition place_for (m : table) (key : K) : run Z :=
    let mask := u32 (n_buckets m - 1) in let i := Z.land (hash key) mask in
    e <-- isempty (flags m) i ;;
    if e : bool then Done i
    else
      r <-- put_loop (rounds m) m key mask i i 0 (n_buckets m) ;;
      let '(back, i, site) := r in
      let x := if back : bool then site else n_buckets m in
      if x =? n_buckets m then e <-- isempty (flags m) i ;; Done (if (e : bool) && negb (site =? n_buckets m) then site else i) else Done x.
  Definition with_slot (m : table) fs ks sz oc : table := {| n_buckets := n_buckets m; size := sz; n_occupied := oc; upper_bound := upper_bound m; flags := fs; keys := ks; vals := vals m; is_map := is_map m |}.
  (** map.c:385-471 hsk_map_put: place and ret (-1: no memory, 1: into an empty place, 2:
      into a deleted one, 0: present) *)
  Definition put (mem : memory) (m : table) (key : K) : run (Z * Z * table) :=
    r <-- (if upper_bound m <=? n_occupied m then
             (if u32 (Z.shiftl (size m) 1) <? n_buckets m then resize mem m (u32 (n_buckets m - 1)) else resize mem m (u32 (n_buckets m + 1)))
           else Done (true, m)) ;;
    let '(ok, m) := r in
    if negb ok then Done (n_buckets m, -1, m)
    else
      x <-- place_for m key ;;
      e <-- isempty (flags m) x ;;
      if e : bool then
        ks <-- zset (keys m) x (Some key) ;; fs <-- clear_flag (flags m) x 3 ;; Done (x, 1, with_slot m fs ks (u32 (size m + 1)) (u32 (n_occupied m + 1)))
      else
        d <-- isdel (flags m) x ;;
        if d : bool then
          ks <-- zset (keys m) x (Some key) ;; fs <-- clear_flag (flags m) x 3 ;; Done (x, 2, with_slot m fs ks (u32 (size m + 1)) (n_occupied m))
        else ks <-- zset (keys m) x (Some key) ;; Done (x, 0, with_slot m (flags m) ks (size m) (n_occupied m)).

  (** map.c:473-479 hsk_map_delete *)
  Definition delete (m : table) (x : Z) : run table :=
    if x =? n_buckets m then Done m
    else e <-- iseither (flags m) x ;; if e : bool then Done m else fs <-- set_isdel_true (flags m) x ;; Done (with_slot m fs (keys m) (u32 (size m - 1)) (n_occupied m)).
  (** map.c:223-232 hsk_map_reset *)
  Definition reset (m : table) : table :=
    match flags m with [] => m | _ => with_slot m (all_empty (n_buckets m)) (keys m) 0 0 end.
  (** map.c:486-494: the values in use, from place [i] on; pool.c:634-646 reads the keys
      the same way *)
  Fixpoint walk (count : nat) (m : table) (i : Z) : run (list (K * option V)) :=
    match count with
    | O => Done []
    | S count =>
        e <-- iseither (flags m) i ;;
        if e : bool then walk count m (i + 1)
        else k <-- key_at (keys m) i ;; v <-- val_at (vals m) i ;; r <-- walk count m (i + 1) ;; Done ((k, v) :: r)
    end.
  Definition entries (m : table) : run (list (K * option V)) := walk (Z.to_nat (n_buckets m)) m 0.
  (** map.c:481-498 hsk_map_clear: the pointers handed to free_func, if there is one *)
  Definition clear (has_free : bool) (m : table) : run (list V * table) :=
    if is_map m && has_free then
      es <-- entries m ;; Done (flat_map (fun e => match snd e with Some v => [v] | None => [] end) es, reset m)
    else Done ([], reset m).
  (** map.c:114-134 hsk_map_uninit; the record itself keeps its numbers *)
  Definition uninit (has_free : bool) (m : table) : run (list V * table) :=
    r <-- clear has_free m ;; let '(fs, m) := r in
    Done (fs, {| n_buckets := n_buckets m; size := size m; n_occupied := n_occupied m; upper_bound := upper_bound m; flags := []; keys := []; vals := []; is_map := is_map m |}).
  (** map.c:500-511 hsk_map_set *)
  Definition map_set (mem : memory) (m : table) (key : K) (value : option V) : run (bool * table) :=
    r <-- put mem m key ;;
    let '(x, ret, m) := r in
    if ret =? -1 then Done (false, m) else vs <-- zset (vals m) x (Some value) ;; Done (true, with_arrays m (keys m) vs).
  (** map.c:513-524 hsk_map_get *)
  Definition map_get (m : table) (key : K) : run (option V) :=
    x <-- lookup m key ;;
    if x =? n_buckets m then Done None else e <-- iseither (flags m) x ;; if e : bool then Done None else val_at (vals m) x.
  (** map.c:526-537 hsk_map_has *)
  Definition map_has (m : table) (key : K) : run bool :=
    x <-- lookup m key ;;
    if x =? n_buckets m then Done false else e <-- iseither (flags m) x ;; Done (negb e).
  (** map.c:539-552 hsk_map_del *)
  Definition map_del (m : table) (key : K) : run (bool * table) :=
    x <-- lookup m key ;;
    if x =? n_buckets m then Done (false, m) else e <-- iseither (flags m) x ;; if e : bool then Done (false, m) else m <-- delete m x ;; Done (true, m).
End Map.

(** map.c:554-564 hsk_map_hash_str, of the bytes before the NUL; char is signed *)
Definition hash_str (s : list Z) : Z := fold_left (fun h c => u32 (u32 (Z.shiftl h 5) + h + (if 128 <=? c then c - 256 else c))) s 5381.
(** map.c:571-581 hsk_map_hash_int *)
Definition hash_int (x : Z) : Z :=
  let no a := 2 ^ 32 - 1 - a in
  let h := u32 (x + no (u32 (Z.shiftl x 15))) in let h := Z.lxor h (Z.shiftr h 10) in let h := u32 (h + u32 (Z.shiftl h 3)) in
  let h := Z.lxor h (Z.shiftr h 6) in let h := u32 (h + no (u32 (Z.shiftl h 11))) in Z.lxor h (Z.shiftr h 16).
(** map.c:610-661 hsk_map_murmur3. (data[i + 3] << 24 of a byte from 128 on is a shift
    into the sign of an int, taken here as the machine does it.) *)
Definition rotl32 (w b : Z) : Z := Z.lor (u32 (Z.shiftl w b)) (Z.shiftr w (32 - b)).
Definition mix (k : Z) : Z := u32 (rotl32 (u32 (k * 3432918353)) 15 * 461845907).
Fixpoint blocks (d : list Z) (h : Z) : Z :=
  match d with
  | a :: b :: c :: e :: r =>
      blocks r (u32 (rotl32 (Z.lxor h (mix (Z.lor (Z.lor (Z.lor (Z.shiftl e 24) (Z.shiftl c 16)) (Z.shiftl b 8)) a))) 13 * 5 + 3864292196))
  | [a; b; c] => Z.lxor h (mix (Z.lxor (Z.lxor (Z.shiftl c 16) (Z.shiftl b 8)) a))
  | [a; b] => Z.lxor h (mix (Z.lxor (Z.shiftl b 8) a))
  | [a] => Z.lxor h (mix a)
  | [] => h
  end.
Definition murmur3 (d : list Z) (seed : Z) : Z :=
  let h := Z.lxor (blocks d seed) (u32 (zlen d)) in
  let h := u32 (Z.lxor h (Z.shiftr h 16) * 2246822507) in let h := u32 (Z.lxor h (Z.shiftr h 13) * 3266489909) in Z.lxor h (Z.shiftr h 16).
(** map.c:663-672 hsk_map_tweak3 *)
Definition tweak3 (d : list Z) (n tweak : Z) : Z := murmur3 d (u32 (u32 (n * 4221880213) + tweak)).
(** map.c:588-592 hsk_map_hash_hash; 599-603 hsk_map_hash_hash160 is the same of 20 bytes *)
Definition hash_hash (d : list Z) : Z := murmur3 d 4221880213.
