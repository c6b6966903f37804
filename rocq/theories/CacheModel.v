(** Model of src/cache.c: the cache of answers, and of the tests of names in src/dns.c
    that choose its keys. The hash map is an association list under the equality of
    cache.c:233-256. The clock is given by its readings; a time plus six hours does not
    leave int64_t. Memory: [mem] tells whether the allocations of an insertion succeed. *)
From Verif Require Import Common Assoc Base32Model DnsNameModel DnsMsgModel ReqModel AnswerModel.

(** dns.c:2710-2756 *)
Definition is_srv (name : list Z) : outcome bool :=
  if label_count name <? 3 then Ok false else
  obind (label_get 64 name 1) (fun proto =>
  if (zlen proto <? 2) || negb (nth 0 proto 0 =? 95) then Ok false else
  obind (label_get 64 name 0) (fun service => Ok (negb ((zlen service <? 2) || negb (nth 0 service 0 =? 95))))).
(** dns.c:2793-2811 *)
Fixpoint is_port (word : Z) (s : list Z) : bool :=
  match s with
  | [] => true
  | c :: s =>
      let ch := c - 48 in
      if (ch <? 0) || (9 <? ch) then false else
      let word := word * 10 + ch in
      if 65535 <? word then false else is_port word s
  end.
(** dns.c:2758-2820 *)
Definition is_tlsa (name : list Z) : outcome bool :=
  if label_count name <? 3 then Ok false else
  obind (label_get 64 name 1) (fun proto =>
  if (zlen proto <? 2) || negb (nth 0 proto 0 =? 95) then Ok false else
  obind (label_get 64 name 0) (fun port =>
  if (zlen port <? 2) || (6 <? zlen port) || negb (nth 0 port 0 =? 95) then Ok false else Ok (is_port 0 (skipn 1 port)))).
(** dns.c:2822-2858. The bytes decoded are not stored. *)
Definition is_dane (tag name : list Z) : outcome bool :=
  if label_count name <? 3 then Ok false else
  obind (label_get 64 name 1) (fun l1 =>
  if (zlen l1 <? 2) || negb (beq (to_lower l1) (to_lower tag)) then Ok false else
  obind (label_get 64 name 0) (fun l0 => Ok ((zlen l0 =? 56) && fst (hex_decode l0)))).
(** dns.c:2860-2878: _smimecert and _openpgpkey *)
Definition is_smimea : list Z -> outcome bool := is_dane [95; 115; 109; 105; 109; 101; 99; 101; 114; 116].
Definition is_openpgpkey : list Z -> outcome bool := is_dane [95; 111; 112; 101; 110; 112; 103; 112; 107; 101; 121].

(** cache.h:18-30. The name of a key is its first [name_len] bytes. *)
Record ckey := { k_name : list Z; k_type : Z; k_ref : bool }.
Record citem := { i_msg : list Z; i_time : Z }.
Definition cache := list (ckey * citem).
(** cache.c:233-256 *)
Definition key_equal (x y : ckey) : bool :=
  Bool.eqb (k_ref x) (k_ref y) && (k_ref x || (k_type x =? k_type y)) && beq (k_name x) (k_name y).
(** cache.c:258-317. [None] is the result false. *)
Definition key_set (name : list Z) (type : Z) : outcome (option ckey) :=
  if negb (name_verify name) then Ok None
  else if name_dirty name then Ok None
  else
    let labels := label_count name in
    obind (if labels <? 2 then Ok false
           else if labels =? 2 then obind (is_ptr name) (fun b => Ok (negb b))
           else if labels =? 3 then
             (if type =? 33 then obind (is_srv name) (fun b => Ok (negb b))
              else if type =? 52 then obind (is_tlsa name) (fun b => Ok (negb b))
              else if type =? 53 then obind (is_smimea name) (fun b => Ok (negb b))
              else if type =? 61 then obind (is_openpgpkey name) (fun b => Ok (negb b))
              else Ok true)
           else Ok true) (fun ref =>
    let labels := if (ref : bool) then 1 else labels in
    obind (label_from 256 name (- labels)) (fun n => Ok (Some {| k_name := to_lower n; k_type := type; k_ref := ref |}))).

(** cache.h:13 *)
Definition cache_limit : Z := 2000.
Definition cache_ttl : Z := 6 * 60 * 60.
(** cache.c:91-116 *)
Definition store (c : cache) (mem : bool) (now : Z) (ck : ckey) (wire : list Z) : outcome (bool * cache) :=
  let c := if cache_limit <=? zlen c then [] else c in
  if mem then Ok (true, aset key_equal ck {| i_msg := wire; i_time := now |} c) else Ok (false, c).
(** cache.c:65-117. [now1] and [now2] are the readings of the clock in lines 82 and 103.
    Replacing a stored wire by the new one, or keeping the old one, frees the other. *)
Definition insert_data (c : cache) (mem : bool) (now1 now2 : Z) (name : list Z) (type : Z) (wire : list Z) : outcome (bool * cache) :=
  obind (key_set name type) (fun o =>
  match o with
  | None => Ok (false, c)
  | Some ck =>
      match aget key_equal ck c with
      | Some item => if now1 <? i_time item + cache_ttl then Ok (true, c) else store (adel key_equal ck c) mem now2 ck wire
      | None => store c mem now2 ck wire
      end
  end).
(** cache.c:119-140 *)
Definition cache_insert (c : cache) (mem : bool) (now1 now2 : Z) (q : req) (m : msg) : outcome (bool * cache) :=
  obind (msg_encode m) (fun wire => insert_data c mem now1 now2 (q_name q) (q_type q) wire).
(** cache.c:142-173 *)
Definition get_data (c : cache) (now : Z) (name : list Z) (type : Z) : outcome (option (list Z) * cache) :=
  obind (key_set name type) (fun o =>
  match o with
  | None => Ok (None, c)
  | Some ck =>
      match aget key_equal ck c with
      | None => Ok (None, c)
      | Some item => if i_time item + cache_ttl <=? now then Ok (None, adel key_equal ck c) else Ok (Some (i_msg item), c)
      end
  end).
(** cache.c:175-192 *)
Definition cache_get (c : cache) (now : Z) (q : req) : outcome (option msg * cache) :=
  obind (get_data c now (q_name q) (q_type q)) (fun '(o, c) =>
  match o with
  | None => Ok (None, c)
  | Some data => obind (msg_decode data) (fun m => Ok (m, c))
  end).
