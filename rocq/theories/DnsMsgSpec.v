(** What a DNS message the library can hold is, and what it looks like on the wire,
    without the functions of the model. *)
From Verif Require Import Common DnsNameSpec DnsMsgModel.

Definition valid_name (s : list Z) : Prop := exists ls, pname ls /\ s = dotted ls.
(** Uncompressed length of a name on the wire *)
Definition nsize (s : list Z) : Z := if beq s [46] then 1 else zlen s + 1.

(** Layout of the data by record type: RFC 1035 (A, NS, CNAME, SOA, PTR, MX, TXT), 1183
    (RP), 1876 (LOC), 2782 (SRV), 3596 (AAAA), 4034 (DS, RRSIG, NSEC, DNSKEY), 4255
    (SSHFP), 6672 (DNAME), 6698 (TLSA), 6891 (OPT), 7929 (OPENPGPKEY), 8162 (SMIMEA). URI
    is not as RFC 7553: the target has a length byte. *)
Definition layouts : list (Z * list kind) :=
  [ (1, [KFix 4]); (2, [KName]); (5, [KName]); (6, [KName; KName; KNum 4; KNum 4; KNum 4; KNum 4; KNum 4]); (12, [KName]);
    (15, [KNum 2; KName]); (16, [KTxts]); (17, [KName; KName]); (28, [KFix 16]);
    (29, [KNum 1; KNum 1; KNum 1; KNum 1; KNum 4; KNum 4; KNum 4]); (33, [KNum 2; KNum 2; KNum 2; KName]); (39, [KName]);
    (41, [KRest]); (43, [KNum 2; KNum 1; KNum 1; KRest]); (44, [KNum 1; KNum 1; KRest]);
    (46, [KNum 2; KNum 1; KNum 1; KNum 4; KNum 4; KNum 4; KNum 2; KName; KRest]); (47, [KName; KRest]); (48, [KNum 2; KNum 1; KNum 1; KRest]);
    (52, [KNum 1; KNum 1; KNum 1; KRest]); (53, [KNum 1; KNum 1; KNum 1; KRest]); (61, [KRest]); (256, [KNum 2; KNum 2; KStr]) ].
Definition layout (t : Z) : list kind :=
  match find (fun e => fst e =? t) layouts with Some e => snd e | None => [KRest] end.

Definition field_ok (k : kind) (v : val) : Prop :=
  match k, v with
  | KName, VBytes s => valid_name s
  | KNum n, VNum x => 0 <= x < 256 ^ Z.of_nat n
  | KFix n, VBytes b => bytes_ok b /\ length b = n
  | KStr, VBytes b => bytes_ok b /\ zlen b <= 255
  | KRest, VBytes b => bytes_ok b
  | KTxts, VList l => Forall (fun t => bytes_ok t /\ zlen t <= 255) l /\ zlen l <= 255
  | _, _ => False
  end.
(** Length without compression *)
Definition field_size (k : kind) (v : val) : Z :=
  match k, v with
  | KName, VBytes s => nsize s
  | KNum n, _ => Z.of_nat n
  | KStr, VBytes b => 1 + zlen b
  | KTxts, VList l => fold_right Z.add 0 (map (fun t => 1 + zlen t) l)
  | _, VBytes b => zlen b
  | _, _ => 0
  end.
Definition field_names (k : kind) (v : val) : list (list Z) :=
  match k, v with KName, VBytes s => [s] | _, _ => [] end.
Fixpoint fields_size (ks : list kind) (vs : list val) : Z :=
  match ks, vs with k :: ks, v :: vs => field_size k v + fields_size ks vs | _, _ => 0 end.
Fixpoint fields_names (ks : list kind) (vs : list val) : list (list Z) :=
  match ks, vs with k :: ks, v :: vs => field_names k v ++ fields_names ks vs | _, _ => [] end.

Definition head_ok (r : rr) : Prop :=
  valid_name (r_name r) /\ 0 <= r_type r < 65536 /\ 0 <= r_class r < 65536 /\ 0 <= r_ttl r < 4294967296.
Definition question_ok (q : rr) : Prop := head_ok q /\ r_ttl q = 0 /\ r_rd q = None.
Definition record_ok (r : rr) : Prop :=
  head_ok r /\ exists vs, r_rd r = Some vs /\ Forall2 field_ok (layout (r_type r)) vs /\ fields_size (layout (r_type r)) vs <= 65535.
(** The names of a record in the order written *)
Definition rr_names (r : rr) : list (list Z) :=
  r_name r :: match r_rd r with Some vs => fields_names (layout (r_type r)) vs | None => [] end.
Definition msg_names (m : msg) : list (list Z) := concat (map rr_names (m_qd m ++ m_an m ++ m_ns m ++ m_ar m)).
(** Number of labels, counting dots *)
Definition nlabels (s : list Z) : Z := if beq s [46] then 0 else zlen (filter (Z.eqb 46) s).
(** The decoder follows ten pointers. The encoder can need one more for each name already
    written, but never more than the name has labels. *)
Fixpoint within (k : nat) (names : list (list Z)) : Prop :=
  match names with [] => True | s :: names => ((k <= 10)%nat \/ nlabels s <= 10) /\ within (S k) names end.

Definition edns_ok (m : msg) : Prop :=
  let e := m_edns m in
  if e_enabled e then
    0 <= e_version e < 256 /\ 0 <= e_flags e < 65536 /\ 0 <= e_size e < 65536 /\ e_code e = m_code m / 16 /\ bytes_ok (e_rd e) /\ zlen (e_rd e) <= 65535
  else e = edns_init /\ m_code m < 16.
(** Header and EDNS data agree: the fields kept twice hold the same. *)
Definition header_ok (m : msg) : Prop :=
  0 <= m_id m < 65536 /\ 0 <= m_flags m < 65536 /\ m_opcode m = m_flags m / 2048 mod 16 /\ 0 <= m_code m < 4096 /\ m_code m mod 16 = m_flags m mod 16.
Definition msg_ok (m : msg) : Prop :=
  header_ok m /\ edns_ok m /\
  (zlen (m_qd m) <= 255 /\ zlen (m_an m) <= 255 /\ zlen (m_ns m) <= 255 /\ zlen (m_ar m) <= 255) /\
  Forall question_ok (m_qd m) /\ Forall record_ok (m_an m) /\ Forall record_ok (m_ns m) /\ Forall (fun r => record_ok r /\ r_type r <> 41) (m_ar m) /\
  within 0 (msg_names m).

(** The first [n] questions and records of a message, in the order of the sections; the
    EDNS record comes last. *)
Definition items (m : msg) : Z := zlen (m_qd m) + zlen (m_an m) + zlen (m_ns m) + zlen (m_ar m) + (if e_enabled (m_edns m) then 1 else 0).
Definition cut (n : Z) (m : msg) : msg :=
  let n1 := n - zlen (m_qd m) in let n2 := n1 - zlen (m_an m) in let n3 := n2 - zlen (m_ns m) in
  {| m_id := m_id m; m_opcode := m_opcode m; m_code := if n =? items m then m_code m else m_code m mod 16; m_flags := m_flags m;
     m_qd := firstn (Z.to_nat n) (m_qd m); m_an := firstn (Z.to_nat n1) (m_an m); m_ns := firstn (Z.to_nat n2) (m_ns m); m_ar := firstn (Z.to_nat n3) (m_ar m);
     m_edns := if n =? items m then m_edns m else edns_init |}.

(** The wire form without compression (RFC 1035 section 4) *)
Fixpoint split_dots (cur s : list Z) : list (list Z) :=
  match s with [] => [] | c :: s => if c =? 46 then cur :: split_dots [] s else split_dots (cur ++ [c]) s end.
Definition name_wire (s : list Z) : list Z :=
  concat (map (fun l => zlen l :: map byte_of l) (if beq s [46] then [] else split_dots [] s)) ++ [0].
Definition field_wire (k : kind) (v : val) : list Z :=
  match k, v with
  | KName, VBytes s => name_wire s
  | KNum n, VNum x => be_bytes n x
  | KStr, VBytes b => zlen b :: b
  | KTxts, VList l => concat (map (fun t => zlen t :: t) l)
  | _, VBytes b => b
  | _, _ => []
  end.
Fixpoint fields_wire (ks : list kind) (vs : list val) : list Z :=
  match ks, vs with k :: ks, v :: vs => field_wire k v ++ fields_wire ks vs | _, _ => [] end.
Definition question_wire (q : rr) : list Z := name_wire (r_name q) ++ be_bytes 2 (r_type q) ++ be_bytes 2 (r_class q).
Definition record_wire (r : rr) : list Z :=
  let d := match r_rd r with Some vs => fields_wire (layout (r_type r)) vs | None => [] end in
  name_wire (r_name r) ++ be_bytes 2 (r_type r) ++ be_bytes 2 (r_class r) ++ be_bytes 4 (r_ttl r) ++ be_bytes 2 (zlen d) ++ d.
(** RFC 6891: the EDNS data as a record *)
Definition edns_wire (m : msg) : list Z :=
  let e := m_edns m in
  if e_enabled e then [0; 0; 41] ++ be_bytes 2 (e_size e) ++ [e_code e; e_version e] ++ be_bytes 2 (e_flags e) ++ be_bytes 2 (zlen (e_rd e)) ++ e_rd e else [].
Definition message_wire (m : msg) : list Z :=
  be_bytes 2 (m_id m) ++ be_bytes 2 (m_flags m) ++ be_bytes 2 (zlen (m_qd m)) ++ be_bytes 2 (zlen (m_an m)) ++ be_bytes 2 (zlen (m_ns m)) ++
  be_bytes 2 (zlen (m_ar m) + (if e_enabled (m_edns m) then 1 else 0)) ++
  concat (map question_wire (m_qd m)) ++ concat (map record_wire (m_an m)) ++ concat (map record_wire (m_ns m)) ++ concat (map record_wire (m_ar m)) ++ edns_wire m.
