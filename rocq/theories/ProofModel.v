(** Model of src/proof-radix.c (src/proof.c includes it): decoding and
    verification of Urkel radix-tree name proofs.

    [H] is BLAKE2b-256 (hsk_blake2b_init/update/final with 32-byte output);
    the streaming updates are modelled as one call on the concatenation.
    Allocation is assumed to succeed (malloc/calloc failure paths are not
    modelled). *)
From Verif Require Import Common BioModel.

(* error.h *)
Definition HSK_EENCODING : Z := 5.
Definition HSK_EHASHMISMATCH : Z := 6.
Definition HSK_ESAMEKEY : Z := 7.
Definition HSK_ESAMEPATH : Z := 8.
Definition HSK_ENEGDEPTH : Z := 9.
Definition HSK_EPATHMISMATCH : Z := 10.
Definition HSK_ETOODEEP : Z := 11.

(* constants.h:21 *)
Definition HSK_MAX_DATA_SIZE : Z := 668.

(* proof-radix.h:7-11 *)
Definition HSK_PROOF_DEADEND : Z := 0.
Definition HSK_PROOF_SHORT : Z := 1.
Definition HSK_PROOF_COLLISION : Z := 2.
Definition HSK_PROOF_EXISTS : Z := 3.

(* proof-radix.h:13-17; [n_prefix] is the 32-byte array *)
Record pnode := mkPnode {
  n_prefix : list Z;
  n_prefix_size : Z;
  n_node : list Z
}.

(* proof-radix.h:19-32; a NULL pointer is [None], [node_count] is the length
   of [p_nodes] *)
Record proof := mkProof {
  p_type : Z;
  p_depth : Z;
  p_nodes : list pnode;
  p_prefix : option (list Z);
  p_prefix_size : Z;
  p_left : option (list Z);
  p_right : option (list Z);
  p_nx_key : option (list Z);
  p_nx_hash : option (list Z);
  p_value : option (list Z);
  p_value_size : Z
}.

(* proof-radix.c:51-66 plus the fields assigned at 136-137, 156-161 *)
Definition proof_base (type depth : Z) (nodes : list pnode) : proof :=
  mkProof type depth nodes None 0 None None None None None 0.

(* proof-radix.c:17 HSK_HAS_BIT, with the array bound made explicit *)
Definition has_bit (m : list Z) (i : Z) : outcome bool :=
  if (i <? 0) then Ub else
  match nth_error m (Z.to_nat (Z.shiftr i 3)) with
  | None => Ub
  | Some b => Ok (Z.land (Z.shiftr b (7 - Z.land i 7)) 1 =? 1)
  end.

(* proof-radix.c:23-49.  [size &= ~0x80; size <<= 8; size |= byte] on a uint16_t *)
Definition read_bitlen (d : list Z) : option ((Z * Z) * list Z) :=
  match read_u8 d with
  | None => None
  | Some (b, r) =>
      let fin (size : Z) (r : list Z) :=
        if (size =? 0) || (256 <? size) then None
        else Some ((size, (size + 7) / 8), r) in
      if Z.land b 128 =? 0 then fin b r
      else match read_u8 r with
           | None => None
           | Some (b2, r2) => fin (Z.lor (Z.shiftl (Z.land b (Z.lnot 128)) 8) b2) r2
           end
  end.

(* copying [bytes] into the zeroed 32-byte array item->prefix (calloc at 156) *)
Definition pad32 (b : list Z) : list Z := b ++ repeat 0 (32 - length b)%nat.

(* proof-radix.c:163-182: node loop, [n] nodes left, index [i] *)
Fixpoint read_nodes (n : nat) (i : Z) (map : list Z) (d : list Z)
  : outcome (option (list pnode * list Z)) :=
  match n with
  | O => Ok (Some ([], d))
  | S k =>
      obind (has_bit map i) (fun hb =>
      let hdr :=
        if hb then
          match read_bitlen d with
          | None => None
          | Some ((size, bytes), d1) =>
              match read_bytes (Z.to_nat bytes) d1 with
              | None => None
              | Some (p, d2) => Some (pad32 p, size, d2)
              end
          end
        else Some (repeat 0 32, 0, d) in
      match hdr with
      | None => Ok None
      | Some (p, size, d2) =>
          match read_bytes 32 d2 with
          | None => Ok None
          | Some (nd, d3) =>
              obind (read_nodes k (i + 1) map d3) (fun o =>
                match o with
                | None => Ok None
                | Some (ns, d4) => Ok (Some (mkPnode p size nd :: ns, d4))
                end)
          end
      end)
  end.

(* proof-radix.c:184-237: the trailing part of the proof *)
Definition read_tail (type depth : Z) (nodes : list pnode) (d : list Z)
  : outcome (option (proof * list Z)) :=
  let base := proof_base type depth nodes in
  if type =? HSK_PROOF_DEADEND then Ok (Some (base, d))
  else if type =? HSK_PROOF_SHORT then
    match read_bitlen d with
    | None => Ok None
    | Some ((size, bytes), d1) =>
        match read_bytes (Z.to_nat bytes) d1 with
        | None => Ok None
        | Some (p, d2) =>
            match read_bytes 32 d2 with
            | None => Ok None
            | Some (l, d3) =>
                match read_bytes 32 d3 with
                | None => Ok None
                | Some (r, d4) =>
                    Ok (Some (mkProof type depth nodes (Some p) size (Some l) (Some r)
                                      None None None 0, d4))
                end
            end
        end
    end
  else if type =? HSK_PROOF_COLLISION then
    match read_bytes 32 d with
    | None => Ok None
    | Some (k, d1) =>
        match read_bytes 32 d1 with
        | None => Ok None
        | Some (h, d2) =>
            Ok (Some (mkProof type depth nodes None 0 None None (Some k) (Some h) None 0, d2))
        end
    end
  else if type =? HSK_PROOF_EXISTS then
    match read_u16 d with
    | None => Ok None
    | Some (vs, d1) =>
        if HSK_MAX_DATA_SIZE <? vs then Ok None
        else match read_bytes (Z.to_nat vs) d1 with
             | None => Ok None
             | Some (v, d2) =>
                 Ok (Some (mkProof type depth nodes None 0 None None None None (Some v) vs, d2))
             end
    end
  else Abort.

(* proof-radix.c:126-244.  [Ok None] is the result false. *)
Definition proof_read (d : list Z) : outcome (option (proof * list Z)) :=
  match read_u16 d with
  | None => Ok None
  | Some (field, d1) =>
      let type := Z.shiftr field 14 in
      let depth := Z.land field (Z.lnot (Z.shiftl 3 14)) in
      if 256 <? depth then Ok None
      else match read_u16 d1 with
      | None => Ok None
      | Some (count, d2) =>
          if 256 <? count then Ok None
          else match read_bytes (Z.to_nat ((count + 7) / 8)) d2 with
          | None => Ok None
          | Some (map, d3) =>
              obind (read_nodes (Z.to_nat count) 0 map d3) (fun o =>
                match o with
                | None => Ok None
                | Some (nodes, d4) => read_tail type depth nodes d4
                end)
          end
      end
  end.

Section Verify.
Variable H : list Z -> list Z.

(* proof-radix.c:251-281 *)
Definition internal_pre (prefix : list Z) (prefix_size : Z) (left right : list Z) : list Z :=
  if prefix_size =? 0 then [1] ++ left ++ right
  else [2] ++ write_u16 prefix_size
        ++ firstn (Z.to_nat ((prefix_size + 7) / 8)) prefix ++ left ++ right.
Definition hash_internal (prefix : list Z) (prefix_size : Z) (left right : list Z) : list Z :=
  H (internal_pre prefix prefix_size left right).

(* proof-radix.c:283-291 *)
Definition leaf_pre (key hash : list Z) : list Z := [0] ++ key ++ hash.
Definition hash_leaf (key hash : list Z) : list Z := H (leaf_pre key hash).

(* proof-radix.c:293-305 *)
Definition hash_value (key value : list Z) : list Z := hash_leaf key (H value).

(* proof-radix.c:307-335: [cnt] iterations left; returns whether the first
   [len] bits all agree (c == len) *)
Fixpoint has_loop (cnt : nat) (prefix : list Z) (x : Z) (key : list Z) (y : Z) (c : Z)
  : outcome Z :=
  match cnt with
  | O => Ok c
  | S k =>
      obind (has_bit prefix x) (fun a =>
      obind (has_bit key y) (fun b =>
      if Bool.eqb a b then has_loop k prefix (x + 1) key (y + 1) (c + 1) else Ok c))
  end.

Definition proof_has (prefix : list Z) (prefix_size : Z) (key : list Z) (depth : Z)
  : outcome bool :=
  let ys := 256 - depth in
  let len := if prefix_size <? ys then prefix_size else ys in
  if (len <? 0) || (256 <? len) then Abort
  else obind (has_loop (Z.to_nat len) prefix 0 key depth 0) (fun c => Ok (c =? prefix_size)).

(* proof-radix.c:337-368 *)
Definition parse_namestate (d : list Z) : option (list Z) :=
  if HSK_MAX_DATA_SIZE <? zlen d then None
  else match read_u8 d with
  | None => None
  | Some (ns, d1) =>
      match read_bytes (Z.to_nat ns) d1 with
      | None => None
      | Some (_, d2) =>
          match read_u16 d2 with
          | None => None
          | Some (rs, d3) =>
              match read_bytes (Z.to_nat rs) d3 with
              | None => None
              | Some (res, _) => Some res
              end
          end
      end
  end.

(* proof-radix.c:389-435: the leaf *)
Definition make_leaf (key : list Z) (p : proof) : outcome (list Z) :=
  if p_type p =? HSK_PROOF_DEADEND then Ok (repeat 0 32)
  else if p_type p =? HSK_PROOF_SHORT then
    match p_prefix p, p_left p, p_right p with
    | Some prefix, Some lh, Some rh =>
        if p_prefix_size p =? 0 then Abort
        else obind (proof_has prefix (p_prefix_size p) key (p_depth p)) (fun h =>
             if h then Err HSK_ESAMEPATH
             else Ok (hash_internal prefix (p_prefix_size p) lh rh))
    | _, _, _ => Abort
    end
  else if p_type p =? HSK_PROOF_COLLISION then
    match p_nx_key p, p_nx_hash p with
    | Some k, Some h => if beq k key then Err HSK_ESAMEKEY else Ok (hash_leaf k h)
    | _, _ => Abort
    end
  else if p_type p =? HSK_PROOF_EXISTS then
    match p_value p with
    | Some v => Ok (hash_value key v)
    | None => if p_value_size p =? 0 then Ok (hash_value key []) else Abort
    end
  else Abort.

(* proof-radix.c:437-462: nodes are visited from the last to the first, so the
   argument is the reversed node list *)
Fixpoint climb (key : list Z) (rnodes : list pnode) (depth : Z) (next : list Z)
  : outcome (Z * list Z) :=
  match rnodes with
  | [] => Ok (depth, next)
  | n :: rest =>
      if depth <? n_prefix_size n + 1 then Err HSK_ENEGDEPTH
      else
        let depth := depth - 1 in
        obind (has_bit key depth) (fun b =>
        let next' :=
          if b then hash_internal (n_prefix n) (n_prefix_size n) (n_node n) next
          else hash_internal (n_prefix n) (n_prefix_size n) next (n_node n) in
        let depth := depth - n_prefix_size n in
        obind (proof_has (n_prefix n) (n_prefix_size n) key depth) (fun m =>
        if m then climb key rest depth next' else Err HSK_EPATHMISMATCH))
  end.

(* proof-radix.c:370-482.  [Ok (Some data)] is "exists", [Ok None] is "does not
   exist"; [Err c] is return code [c]. *)
Definition proof_verify (root key : list Z) (p : proof) : outcome (option (list Z)) :=
  if (256 <? p_depth p) || (256 <? zlen (p_nodes p)) || (HSK_MAX_DATA_SIZE <? p_value_size p)
  then Abort
  else obind (make_leaf key p) (fun leaf =>
  obind (climb key (rev (p_nodes p)) (p_depth p) leaf) (fun dn =>
  if negb (fst dn =? 0) then Err HSK_ETOODEEP
  else if negb (beq (snd dn) root) then Err HSK_EHASHMISMATCH
  else if p_type p =? HSK_PROOF_EXISTS then
    match parse_namestate (match p_value p with Some v => v | None => [] end) with
    | Some res => Ok (Some res)
    | None => Err HSK_EENCODING
    end
  else Ok None)).

(* The strings fed to the hash function while verifying (used only to state
   collision hypotheses). *)
Fixpoint climb_pre (key : list Z) (rnodes : list pnode) (depth : Z) (next : list Z)
  : list (list Z) :=
  match rnodes with
  | [] => []
  | n :: rest =>
      let depth := depth - 1 in
      match has_bit key depth with
      | Ok b =>
          let pre := if b then internal_pre (n_prefix n) (n_prefix_size n) (n_node n) next
                     else internal_pre (n_prefix n) (n_prefix_size n) next (n_node n) in
          pre :: climb_pre key rest (depth - n_prefix_size n) (H pre)
      | _ => []
      end
  end.

Definition leaf_pres (key : list Z) (p : proof) : list (list Z) :=
  if p_type p =? HSK_PROOF_SHORT then
    match p_prefix p, p_left p, p_right p with
    | Some prefix, Some lh, Some rh => [internal_pre prefix (p_prefix_size p) lh rh]
    | _, _, _ => []
    end
  else if p_type p =? HSK_PROOF_COLLISION then
    match p_nx_key p, p_nx_hash p with
    | Some k, Some h => [leaf_pre k h]
    | _, _ => []
    end
  else if p_type p =? HSK_PROOF_EXISTS then
    let v := match p_value p with Some v => v | None => [] end in
    [v; leaf_pre key (H v)]
  else [].

Definition verify_pres (key : list Z) (p : proof) : list (list Z) :=
  leaf_pres key p ++
  match make_leaf key p with
  | Ok leaf => climb_pre key (rev (p_nodes p)) (p_depth p) leaf
  | _ => []
  end.
End Verify.
