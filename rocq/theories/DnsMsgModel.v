(** Model of DNS messages: src/dns.c questions, records, record data, messages. *)
From Verif Require Import Common BioModel DnsNameModel.

(** Record data, dns.h:44-195. The structures are represented by the list of their
    fields: numbers, names and byte strings, lists of TXT strings. *)
Inductive val := VNum (n : Z) | VBytes (b : list Z) | VList (l : list (list Z)).
(** dns.h:9-15 hsk_dns_rr_t, also used for questions; [r_rd] = None is rd == NULL. *)
Record rr := { r_name : list Z; r_type : Z; r_class : Z; r_ttl : Z; r_rd : option (list val) }.
(** dns.h:34-42 *)
Record edns := { e_enabled : bool; e_version : Z; e_flags : Z; e_size : Z; e_code : Z; e_rd : list Z }.
(** dns.h:24-43 *)
Record msg := { m_id : Z; m_opcode : Z; m_code : Z; m_flags : Z; m_qd : list rr; m_an : list rr; m_ns : list rr; m_ar : list rr; m_edns : edns }.

(** dns.c:46-52 *)
Definition edns_init : edns := {| e_enabled := false; e_version := 0; e_flags := 0; e_size := 512; e_code := 0; e_rd := [] |}.
(** dns.c:33-53 *)
Definition msg_init : msg := {| m_id := 0; m_opcode := 0; m_code := 0; m_flags := 0; m_qd := []; m_an := []; m_ns := []; m_ar := []; m_edns := edns_init |}.

(** dns.c:532-544: a full section drops the record (result 0) *)
Definition rrs_push (l : list rr) (r : rr) : list rr := if zlen l =? 255 then l else l ++ [r].

(** How a field is read and written: a name, a number of 1, 2 or 4 bytes, a fixed number
    of bytes, a length byte and that many bytes, all the bytes left, TXT strings. *)
Inductive kind := KName | KNum (n : nat) | KFix (n : nat) | KStr | KRest | KTxts.

(** dns.c:1309-1513: the fields hsk_dns_rd_write writes for each type, in order *)
Definition write_kinds (type : Z) : list kind :=
  if type =? 6 then [KName; KName; KNum 4; KNum 4; KNum 4; KNum 4; KNum 4]          (* SOA 1312-1324 *)
  else if type =? 1 then [KFix 4]                                                    (* A 1326-1332 *)
  else if type =? 28 then [KFix 16]                                                  (* AAAA 1333-1339 *)
  else if type =? 29 then [KNum 1; KNum 1; KNum 1; KNum 1; KNum 4; KNum 4; KNum 4]   (* LOC 1340-1352 *)
  else if type =? 5 then [KName]                                                     (* CNAME 1353-1359 *)
  else if type =? 39 then [KName]                                                    (* DNAME 1360-1366 *)
  else if type =? 2 then [KName]                                                     (* NS 1367-1373 *)
  else if type =? 15 then [KNum 2; KName]                                            (* MX 1374-1381 *)
  else if type =? 12 then [KName]                                                    (* PTR 1382-1388 *)
  else if type =? 33 then [KNum 2; KNum 2; KNum 2; KName]                            (* SRV 1389-1398 *)
  else if type =? 16 then [KTxts]                                                    (* TXT 1399-1411 *)
  else if type =? 43 then [KNum 2; KNum 1; KNum 1; KRest]                            (* DS 1412-1421 *)
  else if (type =? 53) || (type =? 52) then [KNum 1; KNum 1; KNum 1; KRest]          (* SMIMEA, TLSA 1422-1432 *)
  else if type =? 44 then [KNum 1; KNum 1; KRest]                                    (* SSHFP 1433-1441 *)
  else if type =? 61 then [KRest]                                                    (* OPENPGPKEY 1442-1448 *)
  else if type =? 41 then [KRest]                                                    (* OPT 1449-1455 *)
  else if type =? 48 then [KNum 2; KNum 1; KNum 1; KRest]                            (* DNSKEY 1456-1465 *)
  else if type =? 46 then [KNum 2; KNum 1; KNum 1; KNum 4; KNum 4; KNum 4; KNum 2; KName; KRest] (* RRSIG 1466-1480 *)
  else if type =? 256 then [KNum 2; KNum 2; KStr]                                    (* URI 1481-1490 *)
  else if type =? 17 then [KName; KName]                                             (* RP 1491-1498 *)
  else if type =? 47 then [KName; KRest]                                             (* NSEC 1499-1506 *)
  else [KRest].                                                                      (* 1507-1513 *)

(** dns.c:1530-1867: the fields hsk_dns_rd_read reads for each type, in order *)
Definition read_kinds (type : Z) : list kind :=
  if type =? 6 then [KName; KName; KNum 4; KNum 4; KNum 4; KNum 4; KNum 4]          (* SOA 1531-1556 *)
  else if type =? 1 then [KFix 4]                                                    (* A 1557-1564 *)
  else if type =? 28 then [KFix 16]                                                  (* AAAA 1565-1572 *)
  else if type =? 29 then [KNum 1; KNum 1; KNum 1; KNum 1; KNum 4; KNum 4; KNum 4]   (* LOC 1573-1598 *)
  else if type =? 5 then [KName]                                                     (* CNAME 1599-1606 *)
  else if type =? 39 then [KName]                                                    (* DNAME 1607-1614 *)
  else if type =? 2 then [KName]                                                     (* NS 1615-1622 *)
  else if type =? 15 then [KNum 2; KName]                                            (* MX 1623-1633 *)
  else if type =? 12 then [KName]                                                    (* PTR 1634-1641 *)
  else if type =? 33 then [KNum 2; KNum 2; KNum 2; KName]                            (* SRV 1642-1658 *)
  else if type =? 16 then [KTxts]                                                    (* TXT 1659-1688 *)
  else if type =? 43 then [KNum 2; KNum 1; KNum 1; KRest]                            (* DS 1689-1707 *)
  else if (type =? 53) || (type =? 52) then [KNum 1; KNum 1; KNum 1; KRest]          (* SMIMEA, TLSA 1708-1727 *)
  else if type =? 44 then [KNum 1; KNum 1; KRest]                                    (* SSHFP 1728-1743 *)
  else if type =? 61 then [KRest]                                                    (* OPENPGPKEY 1744-1753 *)
  else if type =? 41 then [KRest]                                                    (* OPT 1754-1763 *)
  else if type =? 48 then [KNum 2; KNum 1; KNum 1; KRest]                            (* DNSKEY 1764-1782 *)
  else if type =? 46 then [KNum 2; KNum 1; KNum 1; KNum 4; KNum 4; KNum 4; KNum 2; KName; KRest] (* RRSIG 1783-1816 *)
  else if type =? 256 then [KNum 2; KNum 2; KStr]                                    (* URI 1817-1833 *)
  else if type =? 17 then [KName; KName]                                             (* RP 1834-1844 *)
  else if type =? 47 then [KName; KRest]                                             (* NSEC 1845-1857 *)
  else [KRest].                                                                      (* 1858-1867 *)

(** hsk_dns_name_write on an optional compression map *)
Definition wname (data : bool) (base : Z) (name : list Z) (cmp : option cmap) : list Z * option cmap :=
  let '(out, m) := name_write data base name cmp in (out, match cmp with None => None | Some _ => Some m end).

(** One field. [Ub]: the record data has not the structure of its type. *)
Definition put_field (data : bool) (base : Z) (k : kind) (v : val) (cmp : option cmap) : outcome (list Z * option cmap) :=
  match k, v with
  | KName, VBytes s => Ok (wname data base s cmp)
  | KNum n, VNum x => Ok (be_bytes n x, cmp)
  | KFix n, VBytes b => if zlen b =? Z.of_nat n then Ok (b, cmp) else Ub
  | KStr, VBytes b => if zlen b <? 256 then Ok (write_u8 (zlen b) ++ b, cmp) else Ub
  | KRest, VBytes b => Ok (b, cmp)
  | KTxts, VList l => Ok (concat (map (fun t => write_u8 (zlen t) ++ t) l), cmp)
  | _, _ => Ub
  end.
Fixpoint put_fields (data : bool) (base : Z) (ks : list kind) (vs : list val) (cmp : option cmap) : outcome (list Z * option cmap) :=
  match ks, vs with
  | [], [] => Ok ([], cmp)
  | k :: ks, v :: vs =>
      obind (put_field data base k v cmp) (fun '(o, cmp) =>
      obind (put_fields data (base + zlen o) ks vs cmp) (fun '(o', cmp) => Ok (o ++ o', cmp)))
  | _, _ => Ub
  end.
(** dns.c:1302-1516 *)
Definition rd_write (data : bool) (base : Z) (rd : list val) (type : Z) (cmp : option cmap) := put_fields data base (write_kinds type) rd cmp.

(** TXT strings, dns.c:1662-1681; at most 255 are kept (dns.c hsk_dns_txts_push). The
    loop ends because each round consumes at least a byte; [fuel] is the number of
    bytes. *)
Fixpoint get_txts (fuel : nat) (d : list Z) (acc : list (list Z)) : option (list (list Z)) :=
  match d, fuel with
  | [], _ => Some acc
  | _, O => None
  | n :: d, S fuel =>
      match read_bytes (Z.to_nat n) d with
      | None => None
      | Some (t, d) => get_txts fuel d (if zlen acc =? 255 then acc else acc ++ [t])
      end
  end.

Definition get_field (dmp : option (list Z)) (k : kind) (d : list Z) : outcome (option (val * list Z)) :=
  match k with
  | KName => obind (name_read dmp d) (fun o => Ok (match o with None => None | Some (s, d) => Some (VBytes s, d) end))
  | KNum n => Ok (match read_be n d with None => None | Some (x, d) => Some (VNum x, d) end)
  | KFix n => Ok (match read_bytes n d with None => None | Some (b, d) => Some (VBytes b, d) end)
  | KStr => Ok (match read_u8 d with
                | None => None
                | Some (n, d) => match read_bytes (Z.to_nat n) d with None => None | Some (b, d) => Some (VBytes b, d) end
                end)
  | KRest => Ok (Some (VBytes d, []))
  | KTxts => Ok (match get_txts (length d) d [] with None => None | Some l => Some (VList l, []) end)
  end.
Fixpoint get_fields (dmp : option (list Z)) (ks : list kind) (d : list Z) : outcome (option (list val)) :=
  match ks with
  | [] => Ok (Some [])
  | k :: ks =>
      obind (get_field dmp k d) (fun o =>
      match o with
      | None => Ok None
      | Some (v, d) => obind (get_fields dmp ks d) (fun o => Ok (match o with None => None | Some vs => Some (v :: vs) end))
      end)
  end.
(** dns.c:1523-1870 on the rdlen bytes [d]; bytes left over are ignored *)
Definition rd_read (dmp : option (list Z)) (type : Z) (d : list Z) := get_fields dmp (read_kinds type) d.

(** dns.c:631-638 *)
Definition qs_write (data : bool) (base : Z) (q : rr) (cmp : option cmap) : outcome (list Z * option cmap) :=
  let '(o, cmp) := wname data base (r_name q) cmp in
  Ok (o ++ write_u16be (r_type q) ++ write_u16be (r_class q), cmp).
(** dns.c:640-657; the rest of the structure is as hsk_dns_qs_init leaves it (592-601) *)
Definition qs_read (dmp : option (list Z)) (d : list Z) : outcome (option (rr * list Z)) :=
  obind (name_read dmp d) (fun o =>
  match o with
  | None => Ok None
  | Some (s, d) =>
      match read_u16be d with
      | None => Ok None
      | Some (t, d) =>
          match read_u16be d with
          | None => Ok None
          | Some (c, d) => Ok (Some ({| r_name := s; r_type := t; r_class := c; r_ttl := 0; r_rd := None |}, d))
          end
      end
  end).

(** dns.c:739-772: the length of the data is stored modulo 2^16 *)
Definition rr_write (data : bool) (base : Z) (r : rr) (cmp : option cmap) : outcome (list Z * option cmap) :=
  let '(o, cmp) := wname data base (r_name r) cmp in
  let o := o ++ write_u16be (r_type r) ++ write_u16be (r_class r) ++ write_u32be (r_ttl r) in
  match r_rd r with
  | None => Ok (o ++ write_u16be 0, cmp)
  | Some rd =>
      obind (rd_write data (base + zlen o + 2) rd (r_type r) cmp) (fun '(b, cmp) =>
      Ok (o ++ write_u16be (zlen b) ++ b, cmp))
  end.
(** dns.c:779-825 *)
Definition rr_read (dmp : option (list Z)) (d : list Z) : outcome (option (rr * list Z)) :=
  obind (name_read dmp d) (fun o =>
  match o with
  | None => Ok None
  | Some (s, d) =>
  match read_u16be d with None => Ok None | Some (t, d) =>
  match read_u16be d with None => Ok None | Some (c, d) =>
  match read_u32be d with None => Ok None | Some (ttl, d) =>
  match read_u16be d with None => Ok None | Some (len, d) =>
  if zlen d <? len then Ok None else
  obind (rd_read dmp t (firstn (Z.to_nat len) d)) (fun o =>
  Ok (match o with
      | None => None
      | Some rd => Some ({| r_name := s; r_type := t; r_class := c; r_ttl := ttl; r_rd := Some rd |}, skipn (Z.to_nat len) d)
      end))
  end end end end end).

(** dns.c:136-147: a section *)
Fixpoint sect_write (w : bool -> Z -> rr -> option cmap -> outcome (list Z * option cmap)) (data : bool) (base : Z) (l : list rr) (cmp : option cmap)
  : outcome (list Z * option cmap) :=
  match l with
  | [] => Ok ([], cmp)
  | r :: l => obind (w data base r cmp) (fun '(o, cmp) => obind (sect_write w data (base + zlen o) l cmp) (fun '(o', cmp) => Ok (o ++ o', cmp)))
  end.
(** dns.c:113-116 *)
Definition msg_flags (m : msg) : Z :=
  Z.lor (Z.lor (Z.land (Z.land (m_flags m) (65535 - Z.shiftl 15 11)) (65535 - 15)) (Z.shiftl (Z.land (m_opcode m) 15) 11)) (Z.land (m_code m) 15).
(** dns.c:149-174: the OPT record, if any *)
Definition opt_rr (m : msg) : list rr :=
  let '(enabled, ecode) := if 15 <? m_code m then (true, Z.shiftr (m_code m) 4) else (e_enabled (m_edns m), e_code (m_edns m)) in
  if enabled : bool then
    [{| r_name := [46]; r_type := 41; r_class := e_size (m_edns m);
        r_ttl := Z.lor (Z.lor (Z.shiftl ecode 24 mod 4294967296) (Z.shiftl (e_version (m_edns m)) 16)) (e_flags (m_edns m));
        r_rd := Some [VBytes (e_rd (m_edns m))] |}]
  else [].
(** dns.c:101-168 hsk_dns_msg_write. With [data] the bytes are stored and compressed;
    without, they are only counted. *)
Definition msg_write (data : bool) (m : msg) : outcome (list Z) :=
  let cmp := if data then Some [] else None in
  let h := write_u16be (m_id m) ++ write_u16be (msg_flags m) ++ write_u16be (zlen (m_qd m)) ++ write_u16be (zlen (m_an m)) ++
           write_u16be (zlen (m_ns m)) ++ write_u16be (zlen (m_ar m) + (if e_enabled (m_edns m) then 1 else 0)) in
  obind (sect_write qs_write data (zlen h) (m_qd m) cmp) (fun '(o1, cmp) => let h := h ++ o1 in
  obind (sect_write rr_write data (zlen h) (m_an m) cmp) (fun '(o2, cmp) => let h := h ++ o2 in
  obind (sect_write rr_write data (zlen h) (m_ns m) cmp) (fun '(o3, cmp) => let h := h ++ o3 in
  obind (sect_write rr_write data (zlen h) (m_ar m) cmp) (fun '(o4, cmp) => let h := h ++ o4 in
  obind (sect_write rr_write data (zlen h) (opt_rr m) cmp) (fun '(o5, cmp) => Ok (h ++ o5)))))).
(** dns.c:170-193 hsk_dns_msg_size and hsk_dns_msg_encode; writing past the allocated
    size is [Ub]; the allocation succeeds *)
Definition msg_size (m : msg) : outcome Z := obind (msg_write false m) (fun b => Ok (zlen b)).
Definition msg_encode (m : msg) : outcome (list Z) :=
  obind (msg_size m) (fun size => obind (msg_write true m) (fun b => if size <? zlen b then Ub else Ok b)).

(** dns.c:364-418: [n] questions or records; a message that ends early is accepted *)
Fixpoint sect_read (rd : option (list Z) -> list Z -> outcome (option (rr * list Z))) (dmp : option (list Z)) (n : nat) (d : list Z) (acc : list rr)
  : outcome (option (list rr * list Z)) :=
  match n with
  | O => Ok (Some (acc, d))
  | S n =>
      match d with
      | [] => Ok (Some (acc, []))
      | _ => obind (rd dmp d) (fun o =>
             match o with None => Ok None | Some (r, d) => sect_read rd dmp n d (rrs_push acc r) end)
      end
  end.
(** dns.c:424-437: the OPT record becomes the EDNS data *)
Definition set_opt (m : msg) (r : rr) : msg :=
  let code := Z.land (Z.shiftr (r_ttl r) 24) 255 in
  {| m_id := m_id m; m_opcode := m_opcode m; m_code := Z.lor (m_code m) (Z.shiftl code 4); m_flags := m_flags m;
     m_qd := m_qd m; m_an := m_an m; m_ns := m_ns m; m_ar := m_ar m;
     m_edns := {| e_enabled := true; e_version := Z.land (Z.shiftr (r_ttl r) 16) 255; e_flags := Z.land (r_ttl r) 65535; e_size := r_class r; e_code := code;
                  e_rd := match r_rd r with Some [VBytes b] => b | _ => [] end |} |}.
Definition add_ar (m : msg) (r : rr) : msg :=
  {| m_id := m_id m; m_opcode := m_opcode m; m_code := m_code m; m_flags := m_flags m;
     m_qd := m_qd m; m_an := m_an m; m_ns := m_ns m; m_ar := rrs_push (m_ar m) r; m_edns := m_edns m |}.
(** dns.c:410-442 *)
Fixpoint ar_read (dmp : option (list Z)) (n : nat) (d : list Z) (m : msg) : outcome (option msg) :=
  match n with
  | O => Ok (Some m)
  | S n =>
      match d with
      | [] => Ok (Some m)
      | _ => obind (rr_read dmp d) (fun o =>
             match o with None => Ok None | Some (r, d) => ar_read dmp n d (if r_type r =? 41 then set_opt m r else add_ar m r) end)
      end
  end.
(** dns.c:324-452 hsk_dns_msg_read and 84-99 hsk_dns_msg_decode *)
Definition msg_decode (data : list Z) : outcome (option msg) :=
  let dmp := Some data in
  match read_u16be data with None => Ok None | Some (id, d) =>
  match read_u16be d with None => Ok None | Some (flags, d) =>
  match read_u16be d with None => Ok None | Some (qd, d) =>
  match read_u16be d with None => Ok None | Some (an, d) =>
  match read_u16be d with None => Ok None | Some (ns, d) =>
  match read_u16be d with None => Ok None | Some (ar, d) =>
  obind (sect_read qs_read dmp (Z.to_nat qd) d []) (fun o => match o with None => Ok None | Some (lq, d) =>
  obind (sect_read rr_read dmp (Z.to_nat an) d []) (fun o => match o with None => Ok None | Some (la, d) =>
  obind (sect_read rr_read dmp (Z.to_nat ns) d []) (fun o => match o with None => Ok None | Some (ln, d) =>
  ar_read dmp (Z.to_nat ar) d
    {| m_id := id; m_opcode := Z.land (Z.shiftr flags 11) 15; m_code := Z.land flags 15; m_flags := flags;
       m_qd := lq; m_an := la; m_ns := ln; m_ar := []; m_edns := edns_init |}
  end) end) end)
  end end end end end end.

(** dns.c:195-322 hsk_dns_msg_truncate. [d] is the data left, so its offset is the
    difference of the lengths. *)
Fixpoint trunc_sect (msg : list Z) (max : Z) (question : bool) (todo : nat) (i j last : Z) (d : list Z) : outcome (option (Z * Z * list Z)) :=
  if max <? zlen msg - zlen d then Ok (Some (j, last, d)) else
  let last := zlen msg - zlen d in
  let j := i in
  match todo with
  | O => Ok (Some (j, last, d))
  | S todo =>
      obind (name_read (Some msg) d) (fun o =>
      match o with
      | None => Ok None
      | Some (_, d) =>
          if question then
            if zlen d <? 4 then Ok None else trunc_sect msg max question todo (i + 1) j last (skipn 4 d)
          else
            if zlen d <? 8 then Ok None else
            match read_u16be (skipn 8 d) with
            | None => Ok None
            | Some (rdlen, d) =>
                if zlen d <? rdlen then Ok None else trunc_sect msg max question todo (i + 1) j last (skipn (Z.to_nat rdlen) d)
            end
      end)
  end.
(** The result is the shortened message; [Ok None] is the result false. *)
Definition msg_truncate (msg : list Z) (max : Z) : outcome (option (list Z)) :=
  if zlen msg <? 12 then Ok None
  else if max <? 12 then Ok None
  else if zlen msg <=? max then Ok (Some msg)
  else
    let count k := be_val (firstn 2 (skipn k msg)) in
    let sect q k last d := trunc_sect msg max q (Z.to_nat (count k)) 0 0 last d in
    obind (sect true 4%nat 12 (skipn 12 msg)) (fun o => match o with None => Ok None | Some (c0, last, d) =>
    obind (sect false 6%nat last d) (fun o => match o with None => Ok None | Some (c1, last, d) =>
    obind (sect false 8%nat last d) (fun o => match o with None => Ok None | Some (c2, last, d) =>
    obind (sect false 10%nat last d) (fun o => match o with None => Ok None | Some (c3, last, d) =>
    let msg := firstn 4 msg ++ write_u16be c0 ++ write_u16be c1 ++ write_u16be c2 ++ write_u16be c3 ++ skipn 12 msg in
    if zlen msg <? last then Ub else Ok (Some (firstn (Z.to_nat last) msg))
    end) end) end) end).

(** dns.c:3302-3347: the types removed unless asked for: DS, DLV, DNSKEY, RRSIG, NXT,
    NSEC, NSEC3, NSEC3PARAM *)
Definition sec_type (t : Z) : bool :=
  (t =? 43) || (t =? 32769) || (t =? 48) || (t =? 46) || (t =? 30) || (t =? 47) || (t =? 50) || (t =? 51).
Fixpoint rrs_clean_loop (l : list rr) (type : Z) (tmp : list rr) : outcome (list rr) :=
  match l with
  | [] => Ok tmp
  | r :: l =>
      if sec_type (r_type r) && negb (type =? r_type r) then rrs_clean_loop l type tmp
      else if zlen tmp =? 255 then Abort else rrs_clean_loop l type (tmp ++ [r])
  end.
Definition rrs_clean (l : list rr) (type : Z) : outcome (list rr) := rrs_clean_loop l type [].
(** dns.c:3285-3300 *)
Definition msg_clean (m : msg) (type : Z) : outcome msg :=
  obind (rrs_clean (m_an m) type) (fun an => obind (rrs_clean (m_ns m) type) (fun ns => obind (rrs_clean (m_ar m) type) (fun ar =>
  Ok {| m_id := m_id m; m_opcode := m_opcode m; m_code := m_code m; m_flags := m_flags m; m_qd := m_qd m; m_an := an; m_ns := ns; m_ar := ar; m_edns := m_edns m |}))).

(** dns.c:721-737 *)
Definition rr_set_name (r : rr) (name : list Z) : option rr :=
  if negb (name_verify name) then None
  else if name_dirty name then None
  else Some {| r_name := if name_is_fqdn name then name else name ++ [46]; r_type := r_type r; r_class := r_class r; r_ttl := r_ttl r; r_rd := r_rd r |}.
(** dns.c:827-845 without compression, measured first *)
Definition rr_encode (r : rr) : outcome (list Z) := obind (rr_write true 0 r None) (fun '(o, _) => Ok o).
(** dns.c:847-868 *)
Definition rr_decode (d : list Z) : outcome (option rr) :=
  obind (rr_read None d) (fun o => Ok (match o with None => None | Some (r, _) => Some r end)).
(** dns.c:870-890 *)
Definition rr_clone (r : rr) : outcome (option rr) := obind (rr_encode r) rr_decode.
