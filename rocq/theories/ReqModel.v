(** Model of src/req.c: DNS requests and their replies. *)
From Verif Require Import Common BioModel DnsNameModel DnsMsgModel.

(** req.h:13-35 without the sender's address *)
Record req := { q_id : Z; q_labels : Z; q_name : list Z; q_type : Z; q_class : Z; q_rd : bool; q_cd : bool; q_ad : bool;
                q_edns : bool; q_max : Z; q_dnssec : bool; q_tld : list Z }.

(** req.c:57-141. Memory is available. [Ok None] is the result NULL. *)
Definition req_create (data : list Z) : outcome (option req) :=
  obind (msg_decode data) (fun o =>
  match o with
  | None => Ok None
  | Some m =>
      if negb (m_opcode m =? 0) || negb (m_code m =? 0) || negb (zlen (m_qd m) =? 1) || negb (zlen (m_an m) =? 0) || negb (zlen (m_ns m) =? 0) then Ok None
      else match m_qd m with
      | [] => Ub
      | qs :: _ =>
          obind (label_get 64 (r_name qs) (-1)) (fun tld =>
          if name_dirty tld then Ok None else
          if 256 <=? zlen (r_name qs) then Ub else
          let e := m_edns m in
          Ok (Some {| q_id := m_id m; q_labels := label_count (r_name qs); q_name := r_name qs; q_type := r_type qs; q_class := r_class qs;
                      q_rd := negb (Z.land (m_flags m) (Z.shiftl 1 8) =? 0);
                      q_cd := negb (Z.land (m_flags m) (Z.shiftl 1 4) =? 0);
                      q_ad := negb (Z.land (m_flags m) (Z.shiftl 1 5) =? 0);
                      q_edns := e_enabled e;
                      q_max := if e_enabled e && (512 <=? e_size e) then if 4096 <? e_size e then 4096 else e_size e else 512;
                      q_dnssec := negb (Z.land (e_flags e) (Z.shiftl 1 15) =? 0);
                      q_tld := to_lower tld |}))
      end
  end).

(** req.c:180-220: header, EDNS data and question of the reply. A name that
    hsk_dns_rr_set_name refuses leaves the name hsk_dns_qs_init gives (dns.c:592-601). *)
Definition reply_flags (flags : Z) (q : req) : Z :=
  let f := Z.lor flags (Z.shiftl 1 15) in
  let f := if q_rd q then Z.lor f (Z.shiftl 1 8) else f in
  if q_cd q then Z.lor f (Z.shiftl 1 4) else f.
Definition reply_question (q : req) : rr :=
  let qs := {| r_name := [46]; r_type := 0; r_class := 1; r_ttl := 0; r_rd := None |} in
  let qs := match rr_set_name qs (q_name q) with Some r => r | None => qs end in
  {| r_name := r_name qs; r_type := q_type q; r_class := q_class q; r_ttl := r_ttl qs; r_rd := r_rd qs |}.
Definition reply (m : msg) (q : req) : msg :=
  {| m_id := q_id q; m_opcode := m_opcode m; m_code := m_code m; m_flags := reply_flags (m_flags m) q;
     m_qd := rrs_push [] (reply_question q); m_an := m_an m; m_ns := m_ns m; m_ar := m_ar m;
     m_edns := {| e_enabled := q_edns q; e_version := 0; e_flags := if q_edns q && q_dnssec q then Z.shiftl 1 15 else 0;
                  e_size := if q_edns q then 4096 else 512; e_code := 0; e_rd := [] |} |}.
(** req.c:162-284. [sign] is hsk_sig0_sign when there is a key. The subtraction is of
    size_t. *)
Definition msg_finalize (sign : option (list Z -> option (list Z))) (m : msg) (q : req) : outcome (option (list Z)) :=
  let m := reply m q in
  obind (if negb (q_dnssec q) && ((Z.land (m_flags m) (Z.shiftl 1 7) =? 0) || negb (q_type q =? 255)) then msg_clean m (q_type q) else Ok m) (fun m =>
  obind (msg_encode m) (fun data =>
  let max := match sign with None => q_max q | Some _ => (q_max q - 94) mod 18446744073709551616 end in
  obind (msg_truncate data max) (fun o =>
  match o with
  | None => Ok None
  | Some data => match sign with None => Ok (Some data) | Some f => Ok (f data) end
  end))).
