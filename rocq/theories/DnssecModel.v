(** Model of the signing of records: src/dns.c:2884-3283, 3374-3421 and src/dnssec.c. *)
From Verif Require Import Common BioModel DnsNameModel DnsMsgModel.

(** What the code calls: SHA-256 (sha256.h), ECDSA over P-256 (ecc.c:1232-1257 and
    1400-1440; [None] is failure; the random number drawn for a signature is part of the
    function), qsort of the C library, and the two private keys
    (dnssec.h). *)
Record sec := { s_sha256 : list Z -> list Z; s_sign : list Z -> list Z -> option (list Z); s_pub : list Z -> option (list Z);
                s_sort : (list Z -> list Z -> Z) -> list (list Z) -> list (list Z); s_ksk : list Z; s_zsk : list Z }.

(** dns.c:1872-1896 hsk_dns_rd_encode *)
Definition rd_encode (rd : list val) (type : Z) : outcome (list Z) := obind (rd_write true 0 rd type None) (fun '(o, _) => Ok o).

(** dns.c:2894-2901; [odd] is i & 1 *)
Fixpoint tag_loop (d : list Z) (odd : bool) (tag : Z) : Z :=
  match d with
  | [] => tag
  | c :: d => tag_loop d (negb odd) ((tag + (if odd then c else Z.shiftl c 8)) mod 4294967296)
  end.
(** dns.c:2884-2910 *)
Definition keytag (rd : list val) : outcome Z :=
  obind (rd_encode rd 48) (fun data =>
  let tag := tag_loop data false 0 in
  Ok (Z.land ((tag + Z.land (Z.shiftr tag 16) 65535) mod 4294967296) 65535)).

(** dns.c:2933-2968 with zone "." (dnssec.c:19, 32) *)
Definition dnskey_create (s : sec) (priv : list Z) (ksk : bool) : option rr :=
  match s_pub s priv with
  | None => None
  | Some pub => Some {| r_name := [46]; r_type := 48; r_class := 1; r_ttl := 10800;
                        r_rd := Some [VNum (Z.lor (Z.shiftl 1 8) (if ksk then 1 else 0)); VNum 3; VNum 13; VBytes pub] |}
  end.
(** dnssec.c:12-23, 25-36. The key made first is kept, which is the same key. *)
Definition get_ksk (s : sec) : outcome rr := match dnskey_create s (s_ksk s) true with None => Abort | Some k => Ok k end.
Definition get_zsk (s : sec) : outcome rr := match dnskey_create s (s_zsk s) false with None => Abort | Some k => Ok k end.

(** dns.c:2970-3030. [Ub]: data of a key is four fields *)
Definition ds_create (s : sec) (key : rr) : outcome (option rr) :=
  if negb (r_type key =? 48) then Ok None else
  match r_rd key with
  | Some ([_; _; VNum alg; _] as rd) =>
      obind (keytag rd) (fun tag =>
      obind (rd_encode rd 48) (fun data =>
      let name := to_lower (r_name key) in
      let owner := let '(ok, out, _) := name_serialize true 0 name None in if ok then out else [] in
      Ok (Some {| r_name := name; r_type := 43; r_class := r_class key; r_ttl := r_ttl key;
                  r_rd := Some [VNum tag; VNum alg; VNum 2; VBytes (s_sha256 s (owner ++ data))] |})))
  | _ => Ub
  end.
(** dnssec.c:38-47 *)
Definition get_ds (s : sec) : outcome rr :=
  obind (get_ksk s) (fun k => obind (ds_create s k) (fun o => match o with None => Abort | Some d => Ok d end)).

(** hsk_to_lower on field [i] of the data *)
Definition lower_at (i : nat) (rd : list val) : outcome (list val) :=
  match nth_error rd i with
  | Some (VBytes s) => Ok (firstn i rd ++ VBytes (to_lower s) :: skipn (S i) rd)
  | _ => Ub
  end.
(** dns.c:3202-3231. Type SIG (24) has no structure of its own (dns.c:1523-1870): the cast
    is to the wrong one. *)
Definition lower_rd (type : Z) (rd : list val) : outcome (list val) :=
  if type =? 2 then lower_at 0 rd
  else if type =? 5 then lower_at 0 rd
  else if type =? 6 then obind (lower_at 0 rd) (lower_at 1)
  else if type =? 12 then lower_at 0 rd
  else if type =? 15 then lower_at 1 rd
  else if type =? 24 then Ub
  else if type =? 46 then lower_at 7 rd
  else if type =? 33 then lower_at 3 rd
  else if type =? 39 then lower_at 0 rd
  else Ok rd.
(** dns.c:3188-3245: one record; [Ok None] when the copy fails *)
Definition raw_rr (ttl : Z) (item : rr) : outcome (option (list Z)) :=
  obind (rr_clone item) (fun o =>
  match o with
  | None => Ok None
  | Some r =>
      match r_rd r with
      | None => Ub
      | Some rd =>
          obind (lower_rd (r_type r) rd) (fun rd =>
          obind (rr_encode {| r_name := to_lower (r_name r); r_type := r_type r; r_class := r_class r; r_ttl := ttl; r_rd := Some rd |}) (fun b => Ok (Some b)))
      end
  end).
Fixpoint raw_rrs (ttl : Z) (l : list rr) : outcome (option (list (list Z))) :=
  match l with
  | [] => Ok (Some [])
  | r :: l =>
      obind (raw_rr ttl r) (fun o =>
      match o with
      | None => Ok None
      | Some b => obind (raw_rrs ttl l) (fun o => Ok (match o with None => None | Some bs => Some (b :: bs) end))
      end)
  end.

(** dns.c:3381-3398: what follows the name and ten more bytes; the asserts fail otherwise *)
Definition raw_tail (b : list Z) : outcome (list Z) :=
  obind (name_read None b) (fun o =>
  match o with
  | None => Abort
  | Some (_, d) => if zlen d <? 10 then Abort else Ok (skipn 10 d)
  end).
(** dns.c:3400-3410 *)
Fixpoint mem_cmp (x y : list Z) : Z :=
  match x, y with
  | [], [] => 0
  | [], _ => -1
  | _, [] => 1
  | a :: x, b :: y => if a =? b then mem_cmp x y else if a <? b then -1 else 1
  end.
(** dns.c:3374-3411 once no assert fails *)
Definition raw_cmp (a b : list Z) : Z :=
  match raw_tail a, raw_tail b with Ok x, Ok y => mem_cmp x y | _, _ => 0 end.
(** dns.c:3247. With two records or more each is compared, so each assert is met. *)
Fixpoint all_tails (l : list (list Z)) : outcome unit :=
  match l with [] => Ok tt | b :: l => obind (raw_tail b) (fun _ => all_tails l) end.
Definition sort_rrs (s : sec) (l : list (list Z)) : outcome (list (list Z)) :=
  obind (if 2 <=? zlen l then all_tails l else Ok tt) (fun _ => Ok (s_sort s raw_cmp l)).
(** dns.c:3258-3269, raw_rr_equal 3413-3421 *)
Fixpoint hashed (last : option (list Z)) (l : list (list Z)) : list Z :=
  match l with
  | [] => []
  | b :: l => if match last with Some a => beq b a | None => false end then hashed last l else b ++ hashed (Some b) l
  end.

(** The data of a signature record but the signature (dns.c hsk_dns_rrsig_rd_t) *)
Record sigrd := { g_type : Z; g_alg : Z; g_labels : Z; g_ttl : Z; g_exp : Z; g_inc : Z; g_tag : Z; g_signer : list Z }.
Definition sig_vals (g : sigrd) (signature : list Z) : list val :=
  [VNum (g_type g); VNum (g_alg g); VNum (g_labels g); VNum (g_ttl g); VNum (g_exp g); VNum (g_inc g); VNum (g_tag g); VBytes (g_signer g); VBytes signature].
(** dns.c:2912-2931 *)
Definition rrsig_tbs (g : sigrd) : outcome (list Z) :=
  rd_encode (sig_vals {| g_type := g_type g; g_alg := g_alg g; g_labels := g_labels g; g_ttl := g_ttl g; g_exp := g_exp g; g_inc := g_inc g; g_tag := g_tag g; g_signer := to_lower (g_signer g) |} []) 46.
(** dns.c:3164-3283: the bytes given to SHA-256 *)
Definition sig_data (s : sec) (rrset : list rr) (g : sigrd) : outcome (option (list Z)) :=
  obind (raw_rrs (g_ttl g) rrset) (fun o =>
  match o with
  | None => Ok None
  | Some l =>
      obind (sort_rrs s l) (fun l =>
      obind (rrsig_tbs g) (fun tbs => Ok (Some (tbs ++ hashed None l))))
  end).

(** dns.c:3066-3116 and 3118-3162. The two calls of hsk_now give the same time. *)
Definition sign_rrset (s : sec) (now : Z) (rrset : list rr) (key : rr) (priv : list Z) : outcome (option rr) :=
  match rrset with
  | [] => Ok None
  | first :: _ =>
      if negb (r_type key =? 48) then Ok None else
      match r_rd key with
      | Some ([_; _; VNum alg; _] as rd) =>
          obind (keytag rd) (fun tag =>
          let g := {| g_type := r_type first; g_alg := alg; g_labels := label_count (r_name first) mod 256; g_ttl := r_ttl first;
                      g_exp := (now + 14 * 24 * 60 * 60) mod 4294967296; g_inc := (now - 14 * 24 * 60 * 60) mod 4294967296; g_tag := tag; g_signer := to_lower (r_name key) |} in
          obind (sig_data s rrset g) (fun o =>
          match o with
          | None => Ok None
          | Some data =>
              match s_sign s priv (s_sha256 s data) with
              | None => Ok None
              | Some sg => Ok (Some {| r_name := to_lower (r_name first); r_type := 46; r_class := r_class key; r_ttl := r_ttl key; r_rd := Some (sig_vals g sg) |})
              end
          end))
      | _ => Ub
      end
  end.
(** dns.c:3032-3064: the records after the call. A list shorter than 255 takes the
    signature. *)
Definition sign_type (s : sec) (now : Z) (rrs : list rr) (type : Z) (key : rr) (priv : list Z) : outcome (list rr) :=
  if 255 <=? zlen rrs then Ok rrs else
  obind (sign_rrset s now (filter (fun r => r_type r =? type) rrs) key priv) (fun o =>
  Ok (match o with None => rrs | Some g => rrs_push rrs g end)).
(** dnssec.c:49-55, 57-63 *)
Definition sign_ksk (s : sec) (now : Z) (rrs : list rr) (type : Z) : outcome (list rr) := obind (get_ksk s) (fun k => sign_type s now rrs type k (s_ksk s)).
Definition sign_zsk (s : sec) (now : Z) (rrs : list rr) (type : Z) : outcome (list rr) := obind (get_zsk s) (fun k => sign_type s now rrs type k (s_zsk s)).
