(** Model of the name and label functions of src/dns.c.

    A C string is the list of its bytes without the terminator. [char] is signed, as on
    the platforms hnsd is built for by default. *)
From Verif Require Import Common BioModel.

(** The byte data[off] of a buffer *)
Definition at_ (d : list Z) (off : Z) : option Z := nth_error d (Z.to_nat off).
(** name[noff] = b where noff is the number of characters so far; the caller's buffer
    has 256 characters (dns.h:11 and the record structures). *)
Definition put (out : list Z) (b : Z) : outcome (list Z) := if zlen out <? 256 then Ok (out ++ [b]) else Ub.

(** dns.c:2134-2153: copy [n] bytes of a label from [off] *)
Fixpoint parse_copy (d : list Z) (off : Z) (n : nat) (out : list Z) : outcome (list Z) :=
  match n with
  | O => Ok out
  | S n =>
      match at_ d off with
      | None => Ub
      | Some b =>
          let b := if b =? 0 then 255 else b in
          let b := if b =? 46 then 254 else b in
          obind (put out b) (fun out => parse_copy d (off + 1) n out)
      end
  end.

(** dns.c:2111-2194: the loop. [dmp] is the whole message, if given. The result is the
    characters so far and the number of bytes consumed; [Ok None] is the result -1 and
    [None] running out of fuel. With name = NULL the C code does the same without
    storing. *)
Fixpoint parse_loop (fuel : nat) (dmp : option (list Z)) (d : list Z) (off : Z) (out : list Z) (ptr res : Z)
  : option (outcome (option (list Z * Z))) :=
  match fuel with
  | O => None
  | S fuel =>
      if zlen d <=? off then Some (Ok None) else
      match at_ d off with
      | None => Some Ub
      | Some c =>
          let off := off + 1 in
          if c =? 0 then Some (Ok (Some (out, if ptr =? 0 then off else res)))
          else if Z.land c 192 =? 0 then
            if 63 <? c then Some (Ok None)
            else if zlen d <? off + c then Some (Ok None)
            else if 255 <? zlen out + c + 1 then Some (Ok None)
            else match obind (parse_copy d off (Z.to_nat c) out) (fun out => put out 46) with
                 | Ok out => parse_loop fuel dmp d (off + c) out ptr res
                 | Err e => Some (Err e) | Abort => Some Abort | Ub => Some Ub
                 end
          else if Z.land c 192 =? 192 then
            match dmp with
            | None => Some (Ok None)
            | Some m =>
                if zlen d <=? off then Some (Ok None) else
                match at_ d off with
                | None => Some Ub
                | Some c1 =>
                    let off := off + 1 in
                    let res := if ptr =? 0 then off else res in
                    let ptr := ptr + 1 in
                    if 10 <? ptr then Some (Ok None)
                    else parse_loop fuel dmp m (Z.lor (Z.shiftl (Z.lxor c 192) 8) c1) out ptr res
                end
            end
          else Some (Ok None)
      end
  end.

(** dns.c:2096-2210 hsk_dns_name_parse. The terminator is written at [noff]. *)
Definition name_parse (dmp : option (list Z)) (d : list Z) : option (outcome (option (list Z * Z))) :=
  match parse_loop 300 dmp d 0 [] 0 0 with
  | Some (Ok (Some (out, res))) =>
      Some (obind (if zlen out =? 0 then put out 46 else Ok out) (fun out =>
            if zlen out <? 256 then Ok (Some (out, res)) else Ub))
  | r => r
  end.

(** The map of dns.h:198-202 hsk_dns_cmp_t from names to offsets in the message; a C
    lookup of a missing key gives 0. *)
Definition cmap := list (list Z * Z).
Fixpoint cmp_get (m : cmap) (k : list Z) : Z :=
  match m with [] => 0 | (k', v) :: m => if beq k k' then v else cmp_get m k end.

(** 0xff and 0xfe stand for NUL and dot (dns.c:2272-2281) *)
Definition wire_char (c : Z) : Z := if c =? 255 then 0 else if c =? 254 then 46 else c.

(** Result of the serializer: success, the bytes data[0..len), the map. *)
Definition ser_result := (bool * list Z * cmap)%type.

(** dns.c:2227-2292 (the loop) and 2294-2336 (the end). [s] is what is left of the name
    from position [i], [prev] the character before, [lab] = name[begin..i), [out] the
    bytes written so far. With [data] = false nothing is stored and the bytes are what
    would be. [base]: offset of [data] in the message; [cmp] = None: no compression. The
    check at 2313 cannot fail where it is reached and is left out: [off] is then at most
    253 (theorem [pointer_fits]). *)
Fixpoint ser_loop (data : bool) (base : Z) (s : list Z) (i : Z) (prev : option Z) (lab out : list Z) (cmp : option cmap) : ser_result :=
  let m := match cmp with None => [] | Some m => m end in
  match s with
  | [] =>
      if 255 <? i then (false, out, m)
      else match prev with
           | Some 46 =>
               if (i =? 1) then (true, out, m)
               else if data && (256 <=? zlen out) then (false, out, m)
               else (true, out ++ [0], m)
           | _ => (false, out, m)
           end
  | c :: s' =>
      if c =? 46 then
        if match prev with Some 46 => true | _ => false end then (false, out, m)
        else if 63 <? zlen lab then (false, out, m)
        else if data && (256 <? zlen out + 1 + zlen lab) then (false, out, m)
        else
          let next cmp := ser_loop data base s' (i + 1) (Some c) [] (out ++ [zlen lab] ++ map wire_char lab) cmp in
          match cmp with
          | None => next None
          | Some m =>
              let sub := lab ++ s in
              if beq sub [46] then next cmp
              else
                let p := cmp_get m sub in
                if p =? 0 then
                  let o := base + zlen out in
                  next (Some (if o <? 16384 then (sub, o) :: m else m))
                else
                  let i := i + zlen s in
                  if 255 <? i then (false, out, m)
                  else if negb (last s 0 =? 46) then (false, out, m)
                  else if i =? 1 then (true, out, m)
                  else (true, out ++ [Z.shiftr (Z.lxor p 49152) 8 mod 256; Z.lxor p 49152 mod 256], m)
          end
      else ser_loop data base s' (i + 1) (Some c) (lab ++ [c]) out cmp
  end.
(** dns.c:2212-2339 hsk_dns_name_serialize *)
Definition name_serialize (data : bool) (base : Z) (name : list Z) (cmp : option cmap) : ser_result :=
  ser_loop data base name 0 None [] [] cmp.
(** dns.c:2341-2347, with data = NULL when [data] is false *)
Definition name_pack (data : bool) (name : list Z) : Z :=
  let '(ok, out, _) := name_serialize data 0 name None in if ok then zlen out else 0.
(** dns.c:2349-2360: failure is ignored; what was written stays *)
Definition name_write (data : bool) (base : Z) (name : list Z) (cmp : option cmap) : list Z * cmap :=
  let '(_, out, m) := name_serialize data base name cmp in (out, m).

(** dns.c:2362-2370 on the remaining bytes [d] *)
Definition name_read (dmp : option (list Z)) (d : list Z) : outcome (option (list Z * list Z)) :=
  match name_parse dmp d with
  | None => Ub
  | Some (Ok None) => Ok None
  | Some (Ok (Some (n, k))) => Ok (Some (n, skipn (Z.to_nat k) d))
  | Some (Err e) => Err e | Some Abort => Abort | Some Ub => Ub
  end.

(** dns.c:2405-2430 *)
Definition dirty_char (c : Z) : bool :=
  (c =? 40) || (c =? 41) || (c =? 59) || (c =? 32) || (c =? 64) || (c =? 34) || (c =? 92) || (c <? 32) || (126 <? c).
Definition name_dirty (name : list Z) : bool := existsb dirty_char name.

(** dns.c:2506-2517 *)
Definition name_is_fqdn (name : list Z) : bool :=
  match name with [] => false | _ => last name 0 =? 46 end.
(** dns.c:2479-2504. The buffer has 256 characters; the copy needs len + 2 of them. *)
Definition name_verify (name : list Z) : bool :=
  let name' := if name_is_fqdn name then name else name ++ [46] in
  if negb (name_is_fqdn name) && (255 <? zlen name + 1) then false
  else if 255 <? zlen name' then false
  else negb (name_pack false name' =? 0).

(** utils.c:221-232 *)
Definition lower1 (c : Z) : Z := if (65 <=? c) && (c <=? 90) then c + 32 else c.
Definition to_lower (s : list Z) : list Z := map lower1 s.

(** dns.c:2519-2566 *)
Definition chop_dot (s : list Z) : list Z := if name_is_fqdn s then removelast s else s.
Fixpoint cmp_chars (a b : list Z) : Z :=
  match a, b with
  | [], [] => 0
  | [], _ => -1
  | _, [] => 1
  | x :: a, y :: b =>
      let fold c := if (65 <=? c) && (c <=? 90) then Z.lor c 32 else c in
      if fold x <? fold y then -1 else if fold y <? fold x then 1 else cmp_chars a b
  end.
Definition name_cmp (a b : list Z) : Z := cmp_chars (chop_dot a) (chop_dot b).

(** dns.c:2572-2598: positions of the labels, stored as uint8_t, at most [size] *)
Fixpoint label_split_from (s : list Z) (i : Z) (dot : bool) (count size : Z) : list Z :=
  match s with
  | [] => []
  | c :: s =>
      if negb (count <? size) then []
      else if c =? 46 then label_split_from s (i + 1) true count size
      else if dot then i mod 256 :: label_split_from s (i + 1) false (count + 1) size
      else label_split_from s (i + 1) false count size
  end.
Definition label_split (name : list Z) (size : Z) : list Z := label_split_from name 0 true 0 size.
(** dns.c:2600-2603 *)
Definition label_count (name : list Z) : Z := zlen (label_split name 128).

(** dns.c:2605-2651. The result is the characters; the destination has [cap]
    characters. A negative index beyond the first label reads outside the array. *)
Definition label_from (cap : Z) (name : list Z) (index : Z) : outcome (list Z) :=
  let count := label_count name in
  if count =? 0 then Ok [] else
  let labels := label_split name count in
  let index := if index <? 0 then index + count else index in
  if count <=? index then Ok []
  else if index <? 0 then Ub
  else
    let start := nth (Z.to_nat index) labels 0 in
    let len := zlen name - start in
    if (len =? 0) || (255 <? len) then Ok []       (* size_t: a negative length is huge *)
    else if len <? 0 then Ok []
    else if cap <=? len then Ub
    else Ok (skipn (Z.to_nat start) name).
(** dns.c:2653-2708 *)
Definition label_get (cap : Z) (name : list Z) (index : Z) : outcome (list Z) :=
  let count := label_count name in
  if count =? 0 then Ok [] else
  let labels := label_split name count in
  let index := if index <? 0 then index + count else index in
  if count <=? index then Ok []
  else if index <? 0 then Ub
  else
    let start := nth (Z.to_nat index) labels 0 in
    let fin := if count <=? index + 1 then
                 let e := zlen name - 1 in if nth (Z.to_nat e) name 0 =? 46 then e else e + 1
               else nth (Z.to_nat (index + 1)) labels 0 - 1 in
    let len := fin - start in
    if (len =? 0) || (63 <? len) || (len <? 0) then Ok []
    else if cap <=? len then Ub
    else Ok (firstn (Z.to_nat len) (skipn (Z.to_nat start) name)).
