(** Model of src/ns.c: the authoritative name server. *)
From Coq Require Import String.
From Verif Require Import Common Base32Model DnsNameModel DnsMsgModel ReqModel ResourceModel DnssecModel AnswerModel CacheModel HesiodModel.

(** The server: keys and functions of the zone, SIG(0) signing when there is a key, the
    address served for the root (ns.c:142-161), and the table of tld.h: names, and for
    each the bytes from its start, of which the first two are the length. *)
Record server := { v_sec : sec; v_sign : option (list Z -> option (list Z)); v_ip : option (list Z); v_names : list (list Z); v_items : list (list Z) }.
(** Readings of the clock while an event is handled: by the lookup in the cache, by the
    making of the answer and its signatures, and the two by the insertion in the cache *)
Record clock := { t_get : Z; t_make : Z; t_old : Z; t_new : Z }.
(** What the server does: hand a datagram to the socket (ns.c:626-688), ask the pool *)
Inductive effect := Send (wire : list Z) | Ask (tld : list Z) (q : req).

(** addr.c:848-861, on the 16 bytes of the address (addr.c:214-236) *)
Definition is_local (ip : list Z) : bool :=
  if is_ip4 ip then (nth 12 ip 0 =? 127) && (nth 13 ip 0 =? 0)
  else beq ip [0; 0; 0; 0; 0; 0; 0; 0; 0; 0; 0; 0; 0; 0; 0; 1].

(** ns.c:525-544 and 599-621: a failure of the reply itself sends nothing *)
Definition refuse (v : server) (q : req) : outcome (list effect) :=
  obind (msg_finalize (v_sign v) to_servfail q) (fun o => Ok (match o with None => [] | Some w => [Send w] end)).
(** ns.c:512-519 and its like *)
Definition answer (v : server) (q : req) (m : msg) : outcome (list effect) :=
  obind (msg_finalize (v_sign v) m q) (fun o => match o with None => refuse v q | Some w => Ok [Send w] end).

(** ns.c:30-38 *)
Definition type_map_a : list Z := [0; 6; 64; 0; 0; 0; 0; 3].
Definition type_map_aaaa : list Z := [0; 6; 0; 0; 0; 128; 0; 3].
(** ns.c:379-381, 428-430 *)
Definition with_soa (s : sec) (now : Z) (ns : list rr) : outcome msg :=
  obind (sign_zsk s now ns 47) (fun ns => obind (sign_zsk s now (root_to_soa now ns) 6) (fun ns => Ok (build 0 0 [] ns []))).
(** ns.c:365-463. [synth] has 64 characters and [ip] 16 bytes. *)
Definition synth_msg (s : sec) (now : Z) (q : req) : outcome msg :=
  if q_labels q =? 1 then with_soa s now (to_empty (q_tld q) [] [])
  else
    obind (label_from 64 (q_name q) (-2)) (fun synth =>
    obind (pointer_to_ip true synth) (fun o =>
    match o with
    | None => Ok (build 0 0 [] [] [])
    | Some (family, ip) =>
        let matches := if q_type q =? 255 then true else if q_type q =? 1 then family =? 1 else if q_type q =? 28 then family =? 28 else false in
        if negb matches then with_soa s now (to_empty (q_name q) (if family =? 1 then type_map_a else type_map_aaaa) [])
        else obind (sign_zsk s now [] family) (fun ar => Ok (build 0 (Z.shiftl 1 10) (rrs_push [] (named (new_rr family 21600 [VBytes ip]) (q_name q))) [] ar))
    end)).
(** ns.c:480-487 *)
Definition reserved : list (list Z) := [txt "bit"; txt "eth"; txt "exit"; txt "gnu"; txt "i2p"; txt "onion"; txt "tor"; txt "zkey"].
(** ns.c:507-519 *)
Definition keep (v : server) (c : cache) (mem : bool) (t : clock) (q : req) (m : msg) : outcome (cache * list effect) :=
  obind (cache_insert c mem (t_old t) (t_new t) q m) (fun '(_, c) => obind (answer v q m) (fun fx => Ok (c, fx))).
(** ns.c:293-548. [n]: the state of the node; [client]: the address of the client; [rc]:
    what hsk_pool_resolve returns. *)
Definition recv (v : server) (n : node) (c : cache) (mem : bool) (t : clock) (client : list Z) (rc : Z) (data : list Z) : outcome (cache * list effect) :=
  obind (req_create data) (fun o =>
  match o with
  | None => Ok (c, [])
  | Some q =>
      obind (cache_get c (t_get t) q) (fun '(o, c) =>
      match o with
      | Some m => obind (answer v q m) (fun fx => Ok (c, fx))
      | None =>
          if (q_class q =? 4) && (q_type q =? 16) then
            if negb (is_local client) then Ok (c, [])
            else obind (hesiod n (q_name q)) (fun m => obind (answer v q m) (fun fx => Ok (c, fx)))
          else if beq (q_tld q) (txt "_synth") && (q_labels q <=? 2) then
            obind (synth_msg (v_sec v) (t_make t) q) (fun m => obind (answer v q m) (fun fx => Ok (c, fx)))
          else if 0 <? q_labels q then
            if existsb (beq (q_tld q)) reserved then obind (to_nx (v_sec v) (t_make t)) (keep v c mem t q)
            else if rc =? 0 then Ok (c, [Ask (q_tld q) q])
            else obind (refuse v q) (fun fx => Ok (c, Ask (q_tld q) q :: fx))
          else obind (root (v_sec v) (t_make t) (q_type q) (v_ip v)) (keep v c mem t q)
      end)
  end).

(** strcasecmp *)
Fixpoint casecmp (a b : list Z) : Z :=
  match a, b with
  | [], [] => 0
  | [], _ :: _ => -1
  | _ :: _, [] => 1
  | x :: a, y :: b => if lower1 x <? lower1 y then -1 else if lower1 y <? lower1 x then 1 else casecmp a b
  end.
(** ns.c:808-827. Each round makes the range smaller; [fuel] is one more than its size. *)
Fixpoint tld_search (fuel : nat) (names : list (list Z)) (name : list Z) (start fin : Z) : option Z :=
  match fuel with
  | O => None
  | S fuel =>
      if start <=? fin then
        let pos := Z.shiftr (start + fin) 1 in
        let cmp := casecmp (nth (Z.to_nat pos) names []) name in
        if cmp =? 0 then Some pos
        else if cmp <? 0 then tld_search fuel names name (pos + 1) fin
        else tld_search fuel names name start (pos - 1)
      else None
  end.
(** ns.c:829-837 *)
Definition icann_lookup (v : server) (name : list Z) : option (list Z) :=
  match tld_search (S (length (v_names v))) (v_names v) name 0 (zlen (v_names v) - 1) with
  | None => None
  | Some pos => Some (nth (Z.to_nat pos) (v_items v) [])
  end.
(** ns.c:779-780: the resource in an item of the table *)
Definition item_data (item : list Z) : outcome (list Z) :=
  let len := Z.lor (Z.shiftl (nth 1 item 0) 8) (nth 0 item 0) in
  if zlen item <? 2 + len then Ub else Ok (firstn (Z.to_nat len) (skipn 2 item)).

(** ns.c:550-624 *)
Definition respond (v : server) (c : cache) (mem : bool) (t : clock) (q : req) (status : Z) (res : option (list record)) : outcome (cache * list effect) :=
  obind (if negb (status =? 0) then Ok None
         else match res with
              | None => obind (to_nx (v_sec v) (t_make t)) (fun m => Ok (Some m))
              | Some rs => to_dns (v_sec v) (t_make t) rs (q_name q) (q_type q)
              end) (fun o =>
  match o with
  | None => obind (refuse v q) (fun fx => Ok (c, fx))
  | Some m => keep v c mem t q m
  end).
(** ns.c:764-806, the callback of hsk_pool_resolve *)
Definition after_resolve (v : server) (c : cache) (mem : bool) (t : clock) (q : req) (name : list Z) (status : Z) (exists_ : bool) (data : list Z) : outcome (cache * list effect) :=
  let got raw := obind (decode raw) (fun o => Ok (match o with None => (3, None) | Some rs => (0, Some rs) end)) in
  obind (if negb (status =? 0) then Ok (status, None)
         else if negb exists_ || (zlen data =? 0) then
           match icann_lookup v name with
           | None => Ok (0, None)
           | Some item => obind (item_data item) got
           end
         else got data) (fun '(status, res) =>
  obind (respond v c mem t q status res) (fun r =>
  obind (match res with None => Ok tt | Some rs => resource_free rs end) (fun _ => Ok r))).
