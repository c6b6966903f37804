(** Model of the socket addresses of src/addr.c: conversion, wildcard to loopback and the text handed to
    the resolver. [sa] is the struct sockaddr of OptModel; its family is AF_INET or AF_INET6, the refusal
    of any other family is not modelled. Ports are in host order (htons and ntohs are inverse). *)
From Verif Require Import Common Base32Model MapModel AddrModel OptModel.

(** addr.c:213-236 hsk_addr_from_sa *)
Definition from_sa (s : sa) : addr :=
  let a := set_ip addr_init (sa_v4 s) (sa_ip s) in
  {| a_type := 0; a_ip := a_ip a; a_port := sa_port s; a_key := a_key a |}.
(** addr.c:264-280 hsk_addr_from_ip: the result and what is written. The family is one of the two. *)
Definition from_ip (v4 : bool) (ip : list Z) (port : Z) : bool * addr :=
  let a := set_ip addr_init v4 ip in
  (false, {| a_type := a_type a; a_ip := a_ip a; a_port := port; a_key := a_key a |}).
(** addr.c:283-303 hsk_addr_to_ip: family (IPv4?), bytes, port *)
Definition to_ip (a : addr) : bool * list Z * Z :=
  (is_mapped a, if is_mapped a then firstn 4 (skipn 12 (a_ip a)) else firstn 16 (a_ip a), a_port a).
(** addrmgr.c:256-271 hsk_addrman_add_ip. [add]: hsk_addrman_add_entry *)
Definition add_ip {A : Type} (add : A -> addr -> bool * A) (am : A) (v4 : bool) (ip : list Z) (port : Z) : bool * A :=
  let '(ok, a) := from_ip v4 ip port in if negb ok then (false, am) else add am a.
(** addrmgr.c:242-253 hsk_addrman_add_sa *)
Definition add_sa {A : Type} (add : A -> addr -> bool * A) (am : A) (s : sa) : bool * A := add am (from_sa s).

(** addr.c:499-524 hsk_addr_to_at into [len] bytes; [Ok None] is the result false. [Ub]: more than the 16
    resp. 46 bytes in inet.c, or more than the 128 of tmp. *)
Definition to_at (a : addr) (len fb : Z) : outcome (option (list Z)) :=
  let v4 := is_mapped a in
  let text := if v4 then ntop4_text (get_ip a) else ntop6_text (get_ip a) in
  if (if v4 then 16 else 46) <=? zlen text then Ub
  else if len <=? zlen text then Ok None
  else if fb =? 0 then Ok (Some text)
  else if len - zlen text <? 7 then Ok None
  else
    let port := if a_port a =? 0 then fb else a_port a in
    let tmp := text ++ [64] ++ show 10 port in
    if 128 <=? zlen tmp then Ub else Ok (Some tmp).
(** addr.c:558-575 hsk_sa_to_string, 578-595 hsk_sa_to_at *)
Definition sa_to_string (s : sa) (len fb : Z) : outcome (option (list Z)) := to_string (from_sa s) len fb.
Definition sa_to_at (s : sa) (len fb : Z) : outcome (option (list Z)) := to_at (from_sa s) len fb.

(** addr->ip[i] = v *)
Definition set_byte (i : nat) (v : Z) (l : list Z) : list Z := firstn i l ++ v :: skipn (S i) l.
(** addr.c:527-543 hsk_addr_localize; [None] is the result false *)
Definition localize (a : addr) : option addr :=
  if negb (a_type a =? 0) then None
  else if is_null a then
    Some {| a_type := a_type a; a_port := a_port a; a_key := a_key a;
            a_ip := if is_ip4 a then set_byte 15 1 (set_byte 12 127 (a_ip a)) else set_byte 15 1 (a_ip a) |}
  else Some a.
(** addr.c:618-631 hsk_sa_localize *)
Definition sa_localize (s : sa) : option sa :=
  match localize (from_sa s) with None => None | Some a => Some (to_sa a (sa_scope s)) end.
(** ns.c:141-164 hsk_ns_set_ip with an address: the address the server answers with *)
Definition ns_ip (s : sa) : option addr := localize (from_sa s).
(** rs.c:113-121 and 226-232: the stub of the recursive server, and the text that names it to the
    resolver. [ns_port]: HSK_NS_PORT *)
Definition stub_text (old s : sa) (ns_port : Z) : outcome (option (list Z)) :=
  match sa_localize (sa_copy old s) with None => Ok None | Some s => sa_to_at s 128 ns_port end.
