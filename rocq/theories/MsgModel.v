(** Model of src/msg.c: the payloads of peer-to-peer messages.

    A reader takes the remaining bytes and returns [Ok None] for false. The struct
    is zero-initialised by hsk_msg_alloc before reading; on failure the caller
    discards it, so partial results are not modelled. *)
From Verif Require Import Common BioModel HeaderModel ProofModel.

(** addr.h: hsk_netaddr_t with hsk_addr_t (type, ip[36], port, key[33]) *)
Record netaddr := mk_na { na_time : Z; na_services : Z; na_type : Z; na_ip : list Z; na_port : Z; na_key : list Z }.

(** msg.h:14-101: the message structures. Lists stand for the arrays and their
    counts (addr_count, hash_count) and for the linked list of headers. *)
Inductive msg : Type :=
| Version (version services time : Z) (remote : netaddr) (nonce : Z) (agent : list Z) (height : Z) (no_relay : bool)
| Verack
| Ping (nonce : Z)
| Pong (nonce : Z)
| Getaddr
| Addr (addrs : list netaddr)
| Getheaders (hashes : list (list Z)) (stop : list Z)
| Headers (hs : list hdr)
| Sendheaders
| Getproof (root key : list Z)
| Proofm (root key : list Z) (p : proof).

(** msg.h:14-25 *)
Definition msg_cmd (m : msg) : Z :=
  match m with
  | Version _ _ _ _ _ _ _ _ => 0 | Verack => 1 | Ping _ => 2 | Pong _ => 3 | Getaddr => 4 | Addr _ => 5
  | Getheaders _ _ => 10 | Headers _ => 11 | Sendheaders => 12 | Getproof _ _ => 26 | Proofm _ _ _ => 27
  end.

(** Sequencing of the [if (!read(...)) return false;] statements. *)
Definition rd {A B} (r : option (A * list Z)) (k : A -> list Z -> outcome (option B)) : outcome (option B) :=
  match r with None => Ok None | Some (a, d) => k a d end.
Definition rdo {A B} (r : outcome (option (A * list Z))) (k : A -> list Z -> outcome (option B)) : outcome (option B) :=
  obind r (fun o => rd o k).

(** addr.c:960-986 hsk_netaddr_read *)
Definition netaddr_read (d : list Z) : option (netaddr * list Z) :=
  match read_u64 d with None => None | Some (time, d) =>
  match read_u64 d with None => None | Some (services, d) =>
  match read_u8 d with None => None | Some (type, d) =>
  match read_bytes 36 d with None => None | Some (ip, d) =>
  let ip := if type =? 0 then firstn 16 ip ++ repeat 0 20 else ip in
  match read_u16 d with None => None | Some (port, d) =>
  match read_bytes 33 d with None => None | Some (key, d) =>
  Some (mk_na time services type ip port key, d) end end end end end end.

(** addr.c:988-998 hsk_netaddr_write *)
Definition netaddr_write (na : netaddr) : list Z :=
  write_u64 (na_time na) ++ write_u64 (na_services na) ++ write_u8 (na_type na) ++ na_ip na
  ++ write_u16 (na_port na) ++ na_key na.

(** The loops of hsk_addr_msg_read (msg.c:146-149), hsk_getheaders_msg_read
    (178-181) and hsk_headers_msg_read (216-232). *)
Fixpoint read_many {A} (r : list Z -> option (A * list Z)) (n : nat) (d : list Z) : option (list A * list Z) :=
  match n with
  | O => Some ([], d)
  | S n => match r d with
           | None => None
           | Some (a, d) => match read_many r n d with None => None | Some (l, d) => Some (a :: l, d) end
           end
  end.

(** msg.c:17-51 *)
Definition version_read (d : list Z) : outcome (option (msg * list Z)) :=
  rd (read_u32 d) (fun version d =>
  rd (read_u64 d) (fun services d =>
  rd (read_u64 d) (fun time d =>
  rd (netaddr_read d) (fun remote d =>
  rd (read_u64 d) (fun nonce d =>
  rd (read_u8 d) (fun size d =>
  rdo (slice_ascii (Z.to_nat size) d) (fun agent d =>
  rd (read_u32 d) (fun height d =>
  rd (read_u8 d) (fun no_relay d =>
  Ok (Some (Version version services time remote nonce agent height (no_relay =? 1), d))))))))))).

(** msg.c:136-152 *)
Definition addr_read (d : list Z) : outcome (option (msg * list Z)) :=
  rdo (read_varsize d) (fun count d =>
  if 1000 <? count then Ok None else
  rd (read_many netaddr_read (Z.to_nat count) d) (fun l d => Ok (Some (Addr l, d)))).

(** msg.c:168-187 *)
Definition getheaders_read (d : list Z) : outcome (option (msg * list Z)) :=
  rdo (read_varsize d) (fun count d =>
  if 64 <? count then Ok None else
  rd (read_many (read_bytes 32) (Z.to_nat count) d) (fun l d =>
  rd (read_bytes 32 d) (fun stop d => Ok (Some (Getheaders l stop, d))))).

(** msg.c:205-243. On failure the headers read so far are freed and msg->headers
    left dangling; the caller (pool.c:1738) frees only the message itself. *)
Definition headers_read (d : list Z) : outcome (option (msg * list Z)) :=
  rdo (read_varsize d) (fun count d =>
  if 2000 <? count then Ok None else
  rd (read_many hdr_read (Z.to_nat count) d) (fun l d => Ok (Some (Headers l, d)))).

(** msg.c:273-286 *)
Definition getproof_read (d : list Z) : outcome (option (msg * list Z)) :=
  rd (read_bytes 32 d) (fun root d =>
  rd (read_bytes 32 d) (fun key d => Ok (Some (Getproof root key, d)))).

(** msg.c:296-308 *)
Definition proofm_read (d : list Z) : outcome (option (msg * list Z)) :=
  rd (read_bytes 32 d) (fun root d =>
  rd (read_bytes 32 d) (fun key d =>
  rdo (proof_read d) (fun p d => Ok (Some (Proofm root key p, d))))).

(** msg.c:619-659 hsk_msg_read (msg.c:88-134, 259-266 for the trivial ones) *)
Definition msg_read (cmd : Z) (d : list Z) : outcome (option (msg * list Z)) :=
  if cmd =? 0 then version_read d
  else if cmd =? 1 then Ok (Some (Verack, d))
  else if cmd =? 2 then rd (read_u64 d) (fun n d => Ok (Some (Ping n, d)))
  else if cmd =? 3 then rd (read_u64 d) (fun n d => Ok (Some (Pong n, d)))
  else if cmd =? 4 then Ok (Some (Getaddr, d))
  else if cmd =? 5 then addr_read d
  else if cmd =? 10 then getheaders_read d
  else if cmd =? 11 then headers_read d
  else if cmd =? 12 then Ok (Some (Sendheaders, d))
  else if cmd =? 26 then getproof_read d
  else if cmd =? 27 then proofm_read d
  else Ok None.

(** msg.c:703-706 hsk_msg_decode: trailing bytes are ignored. *)
Definition msg_decode (cmd : Z) (d : list Z) : outcome (option msg) :=
  obind (msg_read cmd d) (fun o => Ok (option_map fst o)).

(** msg.c:53-67, 93-96, 105-110, 119-124, 131-134, 154-166, 189-203, 245-257,
    268-271, 288-294, 310-319 (no proof is written) and 661-701 *)
Definition msg_write (m : msg) : list Z :=
  match m with
  | Version version services time remote nonce agent height no_relay =>
      write_u32 version ++ write_u64 services ++ write_u64 time ++ netaddr_write remote ++ write_u64 nonce
      ++ write_u8 (zlen agent) ++ agent ++ write_u32 height ++ write_u8 (if no_relay then 1 else 0)
  | Verack => []
  | Ping n => write_u64 n
  | Pong n => write_u64 n
  | Getaddr => []
  | Addr l => write_varint (zlen l) ++ flat_map netaddr_write l
  | Getheaders l stop => write_varint (zlen l) ++ concat l ++ stop
  | Headers l => write_varint (zlen l) ++ flat_map hdr_write l
  | Sendheaders => []
  | Getproof root key => root ++ key
  | Proofm root key p => root ++ key
  end.

(** msg.c:713-716 hsk_msg_size: the sum of the return values when nothing is
    written; a variable-length integer counts as size_varint. *)
Definition msg_size (m : msg) : Z :=
  match m with
  | Version _ _ _ _ _ agent _ _ => 4 + 8 + 8 + (8 + 8 + 1 + 36 + 2 + 33) + 8 + 1 + zlen agent + 4 + 1
  | Verack => 0
  | Ping _ => 8
  | Pong _ => 8
  | Getaddr => 0
  | Addr l => size_varsize (zlen l) + zlen l * (8 + 8 + 1 + 36 + 2 + 33)
  | Getheaders l _ => size_varsize (zlen l) + zlen l * 32 + 32
  | Headers l => size_varsize (zlen l) + zlen l * 236
  | Sendheaders => 0
  | Getproof _ _ => 32 + 32
  | Proofm _ _ _ => 32 + 32
  end.

(** pool.c:1190-1216 hsk_peer_send: the buffer of 9 + size bytes; writing more than
    that is [Ub]; if less is written the rest is uninitialised (also [Ub] here). *)
Definition frame (magic : Z) (m : msg) : outcome (list Z) :=
  let size := msg_size m in
  let d := write_u32 magic ++ write_u8 (msg_cmd m) ++ write_u32 size ++ msg_write m in
  if zlen d =? 9 + size then Ok d else Ub.
