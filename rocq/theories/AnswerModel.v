(** Model of the answers made in src/resource.c. *)
From Verif Require Import Common BioModel Base32Model DateModel DnsNameModel DnsMsgModel ResourceModel DnssecModel.

(** The result of hsk_dns_rr_set_name is ignored by every caller here. *)
Definition named (r : rr) (name : list Z) : rr := match rr_set_name r name with Some r => r | None => r end.
(** dns.c:693-712 with the data filled in later *)
Definition new_rr (type ttl : Z) (rd : list val) : rr := {| r_name := [46]; r_type := type; r_class := 1; r_ttl := ttl; r_rd := Some rd |}.
(** "_%s._synth." (resource.c:507-515, 671-673, 712-714) *)
Definition synth_text (ip : list Z) : outcome (list Z) :=
  obind (encode2 charset_hex ip false) (fun b => Ok (95 :: b ++ [46; 95; 115; 121; 110; 116; 104; 46])).

(** resource.c:476-536; the time to live of a resource is 21600 (resource.c:396-400) *)
Fixpoint to_ns (rs : list record) (name : list Z) (an : list rr) : outcome (list rr) :=
  match rs with
  | [] => Ok an
  | r :: rs =>
      let push n := to_ns rs name (rrs_push an (named (new_rr 2 21600 [VBytes n]) name)) in
      match r with
      | RSynth4 ip | RSynth6 ip => obind (synth_text ip) push
      | RNs n | RGlue4 n _ | RGlue6 n _ => if name_is_fqdn n then push n else Abort
      | _ => to_ns rs name an
      end
  end.
(** resource.c:563-578 *)
Fixpoint copy_txts (l : list txt) : outcome (list (list Z)) :=
  match l with
  | [] => Ok []
  | Good b :: l => if 255 <? zlen b then Abort else obind (copy_txts l) (fun r => Ok (b :: r))
  | _ => Ub
  end.
(** resource.c:538-586 *)
Fixpoint to_txt (rs : list record) (name : list Z) (an : list rr) : outcome (list rr) :=
  match rs with
  | [] => Ok an
  | RTxt l :: rs => obind (copy_txts l) (fun t => to_txt rs name (rrs_push an (named (new_rr 16 21600 [VList t]) name)))
  | _ :: rs => to_txt rs name an
  end.
(** resource.c:588-632 *)
Fixpoint to_ds (rs : list record) (name : list Z) (an : list rr) : list rr :=
  match rs with
  | [] => an
  | RDs tag alg dt g :: rs => to_ds rs name (rrs_push an (named (new_rr 43 21600 [VNum tag; VNum alg; VNum dt; VBytes g]) name))
  | _ :: rs => to_ds rs name an
  end.
(** dns.c:3353-3372; [sub] has 255 characters *)
Definition is_subdomain (parent child : list Z) : outcome bool :=
  let pc := label_count parent in
  if pc =? 0 then Ok true
  else if label_count child <? pc then Ok false
  else obind (label_from 255 child (- pc)) (fun sub => Ok (beq sub parent)).
(** resource.c:634-727 *)
Fixpoint to_glue (rs : list record) (tld : list Z) (an : list rr) : outcome (list rr) :=
  match rs with
  | [] => Ok an
  | RGlue4 n ip :: rs =>
      obind (is_subdomain tld n) (fun b => to_glue rs tld (if b : bool then rrs_push an (named (new_rr 1 21600 [VBytes ip]) n) else an))
  | RGlue6 n ip :: rs =>
      obind (is_subdomain tld n) (fun b => to_glue rs tld (if b : bool then rrs_push an (named (new_rr 28 21600 [VBytes ip]) n) else an))
  | RSynth4 ip :: rs =>
      obind (synth_text ip) (fun n => to_glue rs tld (rrs_push an {| r_name := n; r_type := 1; r_class := 1; r_ttl := 21600; r_rd := Some [VBytes ip] |}))
  | RSynth6 ip :: rs =>
      obind (synth_text ip) (fun n => to_glue rs tld (rrs_push an {| r_name := n; r_type := 28; r_class := 1; r_ttl := 21600; r_rd := Some [VBytes ip] |}))
  | _ :: rs => to_glue rs tld an
  end.

(** resource.c:729-765 *)
Definition root_to_soa (now : Z) (an : list rr) : list rr :=
  rrs_push an (named (new_rr 6 86400 [VBytes [46]; VBytes [46]; VNum (soa_serial now); VNum 1800; VNum 900; VNum 604800; VNum 86400]) [46]).
(** resource.c:767-783 *)
Definition root_to_ns (an : list rr) : list rr := rrs_push an (named (new_rr 2 518400 [VBytes [46]]) [46]).
(** addr.c:109-132, 158-165 on the 16 bytes of the address *)
Definition is_mapped (ip : list Z) : bool := beq (firstn 12 ip) [0; 0; 0; 0; 0; 0; 0; 0; 0; 0; 255; 255].
Definition is_onion (ip : list Z) : bool := beq (firstn 6 ip) [253; 135; 216; 126; 235; 67].
Definition is_ip4 (ip : list Z) : bool := is_mapped ip.
Definition is_ip6 (ip : list Z) : bool := negb (is_mapped ip) && negb (is_onion ip).
(** resource.c:785-808, 810-833 *)
Definition root_to_a (ip : list Z) (an : list rr) : list rr :=
  if is_ip4 ip then rrs_push an (named (new_rr 1 518400 [VBytes (firstn 4 (skipn 12 ip))]) [46]) else an.
Definition root_to_aaaa (ip : list Z) (an : list rr) : list rr :=
  if is_ip6 ip then rrs_push an (named (new_rr 28 518400 [VBytes ip]) [46]) else an.
(** resource.c:835-854: what was pushed before a failed copy stays *)
Definition root_to_dnskey (s : sec) (an : list rr) : outcome (list rr) :=
  obind (get_ksk s) (fun k => obind (rr_clone k) (fun o =>
  match o with
  | None => Ok an
  | Some k => let an := rrs_push an k in
      obind (get_zsk s) (fun z => obind (rr_clone z) (fun o => Ok (match o with None => an | Some z => rrs_push an z end)))
  end)).
(** resource.c:856-867 *)
Definition root_to_ds (s : sec) (an : list rr) : outcome (list rr) :=
  obind (get_ds s) (fun d => obind (rr_clone d) (fun o => Ok (match o with None => an | Some d => rrs_push an d end))).
(** resource.c:869-908; without a map its length is 0 *)
Definition to_empty (name map : list Z) (an : list rr) : list rr := rrs_push an (named (new_rr 47 86400 [VBytes [46]; VBytes map]) name).
(** resource.c:21-24, 910-939 *)
Definition type_map : list Z := [0; 7; 34; 0; 0; 0; 0; 3; 128].
Definition root_to_nsec (an : list rr) : list rr := rrs_push an (named (new_rr 47 86400 [VBytes [46]; VBytes type_map]) [46]).

Definition build (code flags : Z) (an ns ar : list rr) : msg :=
  {| m_id := 0; m_opcode := 0; m_code := code; m_flags := flags; m_qd := []; m_an := an; m_ns := ns; m_ar := ar; m_edns := edns_init |}.

(** resource.c:968-985 and 1008-1025: sections authority and additional *)
Definition referral (s : sec) (now : Z) (rs : list record) (name : list Z) (ns ar : list rr) : outcome (list rr * list rr) :=
  if has_ns rs then
    obind (to_ns rs name ns) (fun ns =>
    let ns := to_ds rs name ns in
    obind (to_glue rs name ar) (fun ar =>
    obind (sign_zsk s now ns (if negb (has 0 rs) then 2 else 43)) (fun ns => Ok (ns, ar))))
  else
    obind (sign_zsk s now (to_empty name [] ns) 47) (fun ns =>
    obind (sign_zsk s now (root_to_soa now ns) 6) (fun ns => Ok (ns, ar))).
(** resource.c:941-1030. [tld] has 255 characters. *)
Definition to_dns (s : sec) (now : Z) (rs : list record) (name : list Z) (type : Z) : outcome (option msg) :=
  if negb (name_is_fqdn name) then Abort else
  let labels := label_count name in
  if labels =? 0 then Ok None else
  obind (label_from 255 name (-1)) (fun tld =>
  if 64 <? zlen tld then Ok None
  else if 1 <? labels then obind (referral s now rs tld [] []) (fun '(ns, ar) => Ok (Some (build 0 0 [] ns ar)))
  else
    obind (if type =? 43 then obind (sign_zsk s now (to_ds rs name []) 43) (fun an => Ok (an, [], []))
           else if type =? 2 then obind (to_ns rs name []) (fun ns => obind (to_glue rs name []) (fun ar => obind (sign_zsk s now ns 2) (fun ns => Ok ([], ns, ar))))
           else if type =? 16 then obind (to_txt rs name []) (fun an => obind (sign_zsk s now an 16) (fun an => Ok (an, [], [])))
           else Ok ([], [], [])) (fun '(an, ns, ar) =>
    let flags := if 0 <? zlen an then Z.shiftl 1 10 else 0 in
    if (zlen an =? 0) && (zlen ns =? 0) then
      obind (referral s now rs name ns ar) (fun '(ns, ar) => Ok (Some (build 0 flags an ns ar)))
    else Ok (Some (build 0 flags an ns ar)))).

(** resource.c:1047-1058, 1066-1077 *)
Definition root_ar (s : sec) (now : Z) (ip : list Z) : outcome (list rr) :=
  obind (if is_ip4 ip then sign_zsk s now (root_to_a ip []) 1 else Ok []) (fun ar =>
  if is_ip6 ip then sign_zsk s now (root_to_aaaa ip ar) 28 else Ok ar).
(** resource.c:1032-1099. [addr] is NULL when [None]: the assert of hsk_addr_is_ip4. *)
Definition root (s : sec) (now : Z) (type : Z) (addr : option (list Z)) : outcome msg :=
  let aa := Z.shiftl 1 10 in
  if (type =? 255) || (type =? 2) then
    obind (sign_zsk s now (root_to_ns []) 2) (fun an =>
    match addr with None => Abort | Some ip => obind (root_ar s now ip) (fun ar => Ok (build 0 aa an [] ar)) end)
  else if type =? 6 then
    obind (sign_zsk s now (root_to_soa now []) 6) (fun an =>
    obind (sign_zsk s now (root_to_ns []) 2) (fun ns =>
    match addr with None => Abort | Some ip => obind (root_ar s now ip) (fun ar => Ok (build 0 aa an ns ar)) end))
  else if type =? 48 then obind (root_to_dnskey s []) (fun an => obind (sign_ksk s now an 48) (fun an => Ok (build 0 aa an [] [])))
  else if type =? 43 then obind (root_to_ds s []) (fun an => obind (sign_zsk s now an 43) (fun an => Ok (build 0 aa an [] [])))
  else obind (sign_zsk s now (root_to_nsec []) 47) (fun ns => obind (sign_zsk s now (root_to_soa now ns) 6) (fun ns => Ok (build 0 aa [] ns []))).
(** resource.c:1101-1126 *)
Definition to_nx (s : sec) (now : Z) : outcome msg :=
  obind (sign_zsk s now (root_to_nsec (root_to_nsec [])) 47) (fun ns => obind (sign_zsk s now (root_to_soa now ns) 6) (fun ns => Ok (build 3 (Z.shiftl 1 10) [] ns []))).
(** resource.c:1128-1150 *)
Definition to_servfail : msg := build 2 0 [] [] [].
Definition to_notimp : msg := build 4 0 [] [] [].

(** resource.c:1164-1186. [out] tells whether there is an address buffer; it has 16
    bytes. The result: which type of record, and the bytes decoded. *)
Definition pointer_to_ip (out : bool) (name : list Z) : outcome (option (Z * list Z)) :=
  obind (label_get 64 name 0) (fun label =>
  let len := zlen label in
  if (len <? 2) || (29 <? len) || negb (nth 0 label 0 =? 95) then Ok None else
  let '(j, b) := decode2 table_hex (skipn 1 label) false in
  if out && (16 <? zlen b) then Ub
  else if j =? 0 then Abort
  else if j =? 4 then Ok (Some (1, b))
  else if j =? 16 then Ok (Some (28, b))
  else Ok None).
(** resource.c:1188-1191 *)
Definition is_ptr (name : list Z) : outcome bool := obind (pointer_to_ip false name) (fun o => Ok (match o with Some _ => true | None => false end)).
