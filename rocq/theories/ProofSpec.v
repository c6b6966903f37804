(** Specification of Urkel radix trees, independent of the code model.

    A tree is empty, a leaf carrying a 32-byte key and a value, or an internal
    node with a bit prefix and two children.  [leaves] is the set of bindings a
    tree stores; [tree_hash] is its authenticated root. *)
From Verif Require Import Common ProofModel.
(** [ProofModel] is imported for the record types [pnode] and [proof] only. *)

Inductive tree :=
| Nil
| Leaf (key value : list Z)
| Node (prefix : list bool) (left right : tree).

(** All bindings stored in the tree. *)
Fixpoint leaves (t : tree) : list (list Z * list Z) :=
  match t with
  | Nil => []
  | Leaf k v => [(k, v)]
  | Node _ l r => leaves l ++ leaves r
  end.

(** Bits of a byte, most significant first; bits of a byte string. *)
Definition byte_bits (b : Z) : list bool :=
  [Z.odd (b / 128); Z.odd (b / 64); Z.odd (b / 32); Z.odd (b / 16);
   Z.odd (b / 8); Z.odd (b / 4); Z.odd (b / 2); Z.odd b].
Definition bits_of (l : list Z) : list bool := flat_map byte_bits l.

(** Packing bits into bytes, most significant first, padded with zero bits. *)
Definition bit_at (l : list bool) (i : nat) : Z := if nth i l false then 1 else 0.
Definition pack_byte (l : list bool) : Z :=
  128 * bit_at l 0 + 64 * bit_at l 1 + 32 * bit_at l 2 + 16 * bit_at l 3
  + 8 * bit_at l 4 + 4 * bit_at l 5 + 2 * bit_at l 6 + bit_at l 7.
Fixpoint pack_n (n : nat) (l : list bool) : list Z :=
  match n with
  | O => []
  | S k => pack_byte (firstn 8 l) :: pack_n k (skipn 8 l)
  end.
Definition pack (l : list bool) : list Z := pack_n (Nat.div (length l + 7) 8) l.

(** A tree is well formed at [path] when each leaf's key starts with the path
    that leads to it, and every branching consumes at most 256 bits. *)
Fixpoint wf_at (path : list bool) (t : tree) : Prop :=
  match t with
  | Nil => True
  | Leaf k v => length k = 32%nat /\ bytes_ok k /\ bytes_ok v
                /\ exists rest, bits_of k = path ++ rest
  | Node p l r =>
      (length path + length p + 1 <= 256)%nat
      /\ wf_at (path ++ p ++ [false]) l /\ wf_at (path ++ p ++ [true]) r
  end.
Definition wf_tree (t : tree) : Prop := wf_at [] t.

Section Hash.
Variable H : list Z -> list Z.

(** The string hashed for an internal node, and the hash of a tree. *)
Definition node_string (p : list bool) (hl hr : list Z) : list Z :=
  match p with
  | [] => [1] ++ hl ++ hr
  | _ => [2] ++ le_bytes 2 (zlen p) ++ pack p ++ hl ++ hr
  end.
Definition leaf_string (k hv : list Z) : list Z := [0] ++ k ++ hv.

Fixpoint tree_hash (t : tree) : list Z :=
  match t with
  | Nil => repeat 0 32
  | Leaf k v => H (leaf_string k (H v))
  | Node p l r => H (node_string p (tree_hash l) (tree_hash r))
  end.

(** Every string hashed while computing [tree_hash t]. *)
Fixpoint tree_strings (t : tree) : list (list Z) :=
  match t with
  | Nil => []
  | Leaf k v => [v; leaf_string k (H v)]
  | Node p l r => node_string p (tree_hash l) (tree_hash r) :: tree_strings l ++ tree_strings r
  end.

(** What an honest full node sends: the siblings met while walking down from the
    root, the number of key bits consumed and the reason why the walk stops. *)
Inductive ending :=
| EDead
| EShort (p : list bool) (hl hr : list Z)
| ECollision (k hv : list Z)
| EExists (v : list Z).

Fixpoint strip (p bits : list bool) : option (list bool) :=
  match p, bits with
  | [], _ => Some bits
  | x :: p', y :: b' => if Bool.eqb x y then strip p' b' else None
  | _ :: _, [] => None
  end.

Fixpoint walk (t : tree) (key : list Z) (bits : list bool)
  : list (list bool * list Z) * ending :=
  match t with
  | Nil => ([], EDead)
  | Leaf k v => ([], if beq k key then EExists v else ECollision k (H v))
  | Node p l r =>
      match strip p bits with
      | Some (b :: rest) =>
          let sub := walk (if b then r else l) key rest in
          ((p, tree_hash (if b then l else r)) :: fst sub, snd sub)
      | _ => ([], EShort p (tree_hash l) (tree_hash r))
      end
  end.

(** The hash behaves on a finite set of strings: digests are 32 bytes, there is
    no collision within the set and no string of the set hashes to zero. *)
Definition hash_good_on (S : list (list Z)) : Prop :=
  (forall x, length (H x) = 32%nat /\ bytes_ok (H x))
  /\ (forall x y, In x S -> In y S -> H x = H y -> x = y)
  /\ (forall x, In x S -> H x <> repeat 0 32).
End Hash.

(** Wire format of a proof. *)
Definition path_bits (ns : list (list bool * list Z)) : Z :=
  fold_right (fun n acc => zlen (fst n) + 1 + acc) 0 ns.
Definition enc_bits (p : list bool) : list Z :=
  (if zlen p <? 128 then [zlen p] else [128 + zlen p / 256; zlen p mod 256]) ++ pack p.
Definition has_prefix (n : list bool * list Z) : bool :=
  match fst n with [] => false | _ => true end.
Definition enc_node (n : list bool * list Z) : list Z :=
  (if has_prefix n then enc_bits (fst n) else []) ++ snd n.
Definition end_type (e : ending) : Z :=
  match e with EDead => 0 | EShort _ _ _ => 1 | ECollision _ _ => 2 | EExists _ => 3 end.
Definition enc_end (e : ending) : list Z :=
  match e with
  | EDead => []
  | EShort p l r => enc_bits p ++ l ++ r
  | ECollision k h => k ++ h
  | EExists v => le_bytes 2 (zlen v) ++ v
  end.
Definition encode_proof (depth : Z) (ns : list (list bool * list Z)) (e : ending) : list Z :=
  le_bytes 2 (end_type e * 16384 + depth) ++ le_bytes 2 (zlen ns)
  ++ pack (map has_prefix ns) ++ flat_map enc_node ns ++ enc_end e.

(** The bytes an honest node sends for [key] when its tree is [t]. *)
Definition honest_proof (H : list Z -> list Z) (t : tree) (key : list Z) : list Z :=
  let w := walk H t key (bits_of key) in
  encode_proof (path_bits (fst w)) (fst w) (snd w).

(** Proofs within the limits of the wire format. *)
Definition hash32 (h : list Z) : Prop := length h = 32%nat /\ bytes_ok h.
Definition ending_ok (e : ending) : Prop :=
  match e with
  | EDead => True
  | EShort p l r => 1 <= zlen p <= 256 /\ hash32 l /\ hash32 r
  | ECollision k h => hash32 k /\ hash32 h
  | EExists v => zlen v <= 668 /\ bytes_ok v
  end.
Definition path_ok (ns : list (list bool * list Z)) : Prop :=
  zlen ns <= 256 /\ Forall (fun n => zlen (fst n) <= 256 /\ hash32 (snd n)) ns.

(** Layout of a stored value: name length, name, data length, data, and
    arbitrary trailing bytes; at most 668 bytes in total. *)
Definition value_has_data (value data : list Z) : Prop :=
  zlen value <= 668 /\
  exists name trailing,
    value = [zlen name] ++ name ++ le_bytes 2 (zlen data) ++ data ++ trailing
    /\ zlen name <= 255 /\ zlen data <= 65535.

(** The decoded form of a proof: prefixes are packed bits in 32-byte arrays. *)
Definition node_of (n : list bool * list Z) : pnode :=
  mkPnode (pack (fst n) ++ repeat 0 (32 - length (pack (fst n)))%nat) (zlen (fst n)) (snd n).

Definition struct_of (depth : Z) (ns : list (list bool * list Z)) (e : ending) : proof :=
  let nodes := map node_of ns in
  match e with
  | EDead => mkProof 0 depth nodes None 0 None None None None None 0
  | EShort p l r => mkProof 1 depth nodes (Some (pack p)) (zlen p) (Some l) (Some r) None None None 0
  | ECollision k h => mkProof 2 depth nodes None 0 None None (Some k) (Some h) None 0
  | EExists v => mkProof 3 depth nodes None 0 None None None None (Some v) (zlen v)
  end.


(** Protocol limits a decoded proof respects. *)
Definition within_limits (p : proof) : Prop :=
  0 <= p_type p <= 3 /\ 0 <= p_depth p <= 256 /\ zlen (p_nodes p) <= 256 /\
  Forall (fun n => length (n_prefix n) = 32%nat /\ 0 <= n_prefix_size n <= 256 /\ hash32 (n_node n)) (p_nodes p) /\
  0 <= p_prefix_size p <= 256 /\
  match p_value p with Some v => zlen v = p_value_size p /\ zlen v <= 668 | None => p_value_size p = 0 end.
