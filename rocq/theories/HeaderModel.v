(** Model of src/header.c: header codec, compact difficulty, work, hashing. *)
From Verif Require Import Common BioModel BnModel.

(** header.h:11-23: the consensus fields of hsk_header_t. The fields cache, hash,
    height, work and next are not here: the cached hash is always recomputed by
    [hdr_hash] (hsk_header_cache stores it only after all fields are set), height
    and work belong to the chain entry (ChainModel), next is a list link. *)
Record hdr := mk_hdr {
  h_nonce : Z; h_time : Z; h_prev : list Z; h_root : list Z; h_extra : list Z;
  h_reserved : list Z; h_witness : list Z; h_merkle : list Z;
  h_version : Z; h_bits : Z; h_mask : list Z }.

(** header.c:98-101: bytes written from position i = n-1 downwards (least
    significant first) and the mantissa that is left; positions the loop does not
    reach keep the zero of the memset at line 75. *)
Fixpoint pow_fill (n : nat) (mantissa : Z) : list Z * Z :=
  match n with
  | O => ([], mantissa)
  | S k =>
      if mantissa =? 0 then (repeat 0 n, 0)
      else let (l, m) := pow_fill k (mantissa / 256) in (mantissa mod 256 :: l, m)
  end.

(** header.c:71-108 hsk_pow_to_target; [None] is the result false. *)
Definition pow_to_target (bits : Z) : option (list Z) :=
  if bits =? 0 then None
  else if Z.odd (bits / 8388608) then None
  else
    let exponent := bits / 16777216 in
    let mantissa := Z.land bits 8388607 in
    let mantissa' := if exponent <=? 3 then mantissa / 2 ^ (8 * (3 - exponent)) else mantissa in
    let shift := if exponent <=? 3 then 0 else Z.land (exponent - 3) 31 in
    let (bytes, left) := pow_fill (Z.to_nat (32 - shift)) mantissa' in
    if left =? 0 then Some (rev (repeat 0 (Z.to_nat shift) ++ bytes)) else None.

(** header.c:116-119: the bytes from the first non-zero one on. *)
Fixpoint skip_zeros (t : list Z) : list Z :=
  match t with
  | [] => []
  | b :: r => if b =? 0 then skip_zeros r else t
  end.

(** header.c:131-138 and 142-145: big-endian accumulation in a uint32_t. *)
Definition pow_acc (l : list Z) : Z :=
  fold_left (fun m b => Z.lor ((m * 256) mod 4294967296) b) l 0.

(** header.c:110-156 hsk_pow_to_bits (always returns true). *)
Definition pow_to_bits (target : list Z) : Z :=
  let sig := skip_zeros target in
  let exponent := zlen sig in
  if exponent =? 0 then 0
  else
    let mantissa :=
      if exponent <=? 3 then (pow_acc sig * 2 ^ (8 * (3 - exponent))) mod 4294967296
      else pow_acc (firstn 3 sig) in
    let big := Z.odd (mantissa / 8388608) in
    let mantissa' := if big then mantissa / 256 else mantissa in
    let exponent' := if big then exponent + 1 else exponent in
    Z.lor ((exponent' * 16777216) mod 4294967296) mantissa'.

(** header.c:158-179 hsk_header_get_proof; the result is 32 bytes. [None] is
    false; the inner [None]s (non-terminating division, array too large) cannot
    happen, see [get_proof_spec]. *)
Definition get_proof (bits : Z) : option (list Z) :=
  match pow_to_target bits with
  | None => None
  | Some target =>
      let max_bn := bn_lshift (bn_from_int 1) 256 in
      match bn_from_array target with
      | None => None
      | Some target_bn =>
          match bn_div max_bn (bn_inc target_bn) with
          | None => None
          | Some q => Some (bn_to_array q 8)
          end
      end
  end.

(** header.c:181-201 hsk_header_calc_work: work of a header with these bits on top
    of the previous work. *)
Definition calc_work (bits : Z) (prev_work : option (list Z)) : option (list Z) :=
  match prev_work with
  | None => get_proof bits
  | Some w =>
      match bn_from_array w, get_proof bits with
      | Some prev_bn, Some proof =>
          match bn_from_array proof with
          | Some proof_bn => Some (bn_to_array (bn_add prev_bn proof_bn) 8)
          | None => None
          end
      | _, _ => None
      end
  end.

(** header.c:203-239 hsk_header_read. *)
Definition hdr_read (d : list Z) : option (hdr * list Z) :=
  match read_u32 d with None => None | Some (nonce, d) =>
  match read_u64 d with None => None | Some (time, d) =>
  match read_bytes 32 d with None => None | Some (prev, d) =>
  match read_bytes 32 d with None => None | Some (root, d) =>
  match read_bytes 24 d with None => None | Some (extra, d) =>
  match read_bytes 32 d with None => None | Some (reserved, d) =>
  match read_bytes 32 d with None => None | Some (witness, d) =>
  match read_bytes 32 d with None => None | Some (merkle, d) =>
  match read_u32 d with None => None | Some (version, d) =>
  match read_u32 d with None => None | Some (bits, d) =>
  match read_bytes 32 d with None => None | Some (mask, d) =>
    Some (mk_hdr nonce time prev root extra reserved witness merkle version bits mask, d)
  end end end end end end end end end end end.

(** header.c:241-244 hsk_header_decode: trailing bytes are ignored. *)
Definition hdr_decode (d : list Z) : option hdr := option_map fst (hdr_read d).

(** header.c:246-271 hsk_header_write, _size, _encode. *)
Definition hdr_write (h : hdr) : list Z :=
  write_u32 (h_nonce h) ++ write_u64 (h_time h) ++ h_prev h ++ h_root h ++ h_extra h
  ++ h_reserved h ++ h_witness h ++ h_merkle h
  ++ write_u32 (h_version h) ++ write_u32 (h_bits h) ++ h_mask h.

(** header.c:355-363 hsk_header_padding. *)
Definition hdr_padding (h : hdr) (size : nat) : list Z :=
  map (fun i => Z.lxor (nth (Nat.modulo i 32) (h_prev h) 0) (nth (Nat.modulo i 32) (h_root h) 0))
    (seq 0 size).

(** header.c:301-321 hsk_header_sub_write. *)
Definition hdr_sub_write (h : hdr) : list Z :=
  h_extra h ++ h_reserved h ++ h_witness h ++ h_merkle h
  ++ write_u32 (h_version h) ++ write_u32 (h_bits h).

Section Hash.
  (** BLAKE2b-256, BLAKE2b-512 and SHA3-256 (hash.c, sha3.c) are parameters. *)
  Variable blake256 blake512 sha3 : list Z -> list Z.

  (** header.c:323-329 *)
  Definition hdr_sub_hash (h : hdr) : list Z := blake256 (hdr_sub_write h).
  (** header.c:331-338 *)
  Definition hdr_mask_hash (h : hdr) : list Z := blake256 (h_prev h ++ h_mask h).
  (** header.c:340-353 *)
  Definition hdr_commit_hash (h : hdr) : list Z := blake256 (hdr_sub_hash h ++ hdr_mask_hash h).

  (** header.c:273-299 hsk_header_pre_write *)
  Definition hdr_pre_write (h : hdr) : list Z :=
    write_u32 (h_nonce h) ++ write_u64 (h_time h) ++ hdr_padding h 20
    ++ h_prev h ++ h_root h ++ hdr_commit_hash h.

  (** header.c:375-403: the proof-of-work hash before masking (share hash) *)
  Definition hdr_share_hash (h : hdr) : list Z :=
    let pre := hdr_pre_write h in
    let l := blake512 pre in
    let r := sha3 (pre ++ hdr_padding h 8) in
    blake256 (l ++ hdr_padding h 32 ++ r).

  (** header.c:408-410 *)
  Fixpoint xor_bytes (a b : list Z) : list Z :=
    match a, b with
    | x :: a', y :: b' => Z.lxor x y :: xor_bytes a' b'
    | _, _ => []
    end.

  (** header.c:370-420 hsk_header_cache, hsk_header_hash *)
  Definition hdr_hash (h : hdr) : list Z := xor_bytes (hdr_share_hash h) (h_mask h).

  (** header.c:433 memcmp(hash, target, 32) > 0 *)
  Fixpoint memcmp_gt (a b : list Z) : bool :=
    match a, b with
    | x :: a', y :: b' => if y <? x then true else if x <? y then false else memcmp_gt a' b'
    | _, _ => false
    end.

  (** header.c:422-437 hsk_header_verify_pow: HSK_ENEGTARGET = 19, HSK_EHIGHHASH = 20,
      HSK_SUCCESS = 0 *)
  Definition verify_pow (h : hdr) : Z :=
    match pow_to_target (h_bits h) with
    | None => 19
    | Some target => if memcmp_gt (hdr_hash h) target then 20 else 0
    end.
End Hash.
