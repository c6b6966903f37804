(** Specification for headers (C05-C07, C09, C10), independent of the code:
    well-formed headers, the meaning of a compact difficulty value, the work of a
    target and the strings a header hash is computed from. *)
From Verif Require Import Common HeaderModel.
(** [HeaderModel] is imported for the record type [hdr] only. *)

Definition hash_ok (l : list Z) : Prop := length l = 32%nat /\ bytes_ok l.

(** What the C types guarantee about a header. *)
Definition hdr_ok (h : hdr) : Prop :=
  0 <= h_nonce h < 2 ^ 32 /\ 0 <= h_time h < 2 ^ 64 /\
  hash_ok (h_prev h) /\ hash_ok (h_root h) /\
  (length (h_extra h) = 24%nat /\ bytes_ok (h_extra h)) /\
  hash_ok (h_reserved h) /\ hash_ok (h_witness h) /\ hash_ok (h_merkle h) /\
  0 <= h_version h < 2 ^ 32 /\ 0 <= h_bits h < 2 ^ 32 /\ hash_ok (h_mask h).

(** A compact value is an 8-bit exponent, a sign bit and a 23-bit mantissa. *)
Definition compact (e m : Z) : Z := e * 2 ^ 24 + m.
(** The number it stands for (Bitcoin's "nBits" convention). *)
Definition compact_value (e m : Z) : Z :=
  if e <=? 3 then m / 256 ^ (3 - e) else m * 256 ^ (e - 3).

(** The unique normal form: three significant bytes with a clear sign bit, or a
    small number shifted up without remainder. *)
Definition canonical (e m : Z) : Prop :=
  1 <= e /\ 2 ^ 15 <= m < 2 ^ 23 /\ (e <= 3 -> m mod 256 ^ (3 - e) = 0).

(** Expected number of hashes for a target. *)
Definition work_of (t : Z) : Z := 2 ^ 256 / (t + 1).

(** The consensus serialisation: offset and width of every field. *)
Definition slice (off n : nat) (d : list Z) : list Z := firstn n (skipn off d).
Definition wire_layout (d : list Z) (h : hdr) : Prop :=
  length d = 236%nat /\
  le_val (slice 0 4 d) = h_nonce h /\ le_val (slice 4 8 d) = h_time h /\
  slice 12 32 d = h_prev h /\ slice 44 32 d = h_root h /\ slice 76 24 d = h_extra h /\
  slice 100 32 d = h_reserved h /\ slice 132 32 d = h_witness h /\ slice 164 32 d = h_merkle h /\
  le_val (slice 196 4 d) = h_version h /\ le_val (slice 200 4 d) = h_bits h /\
  slice 204 32 d = h_mask h.

(** The Handshake block hash: padding is prev_block xor name_root, cyclically. *)
Definition spec_pad (h : hdr) (n : nat) : list Z :=
  firstn n (map (fun p => Z.lxor (fst p) (snd p)) (combine (h_prev h) (h_root h))).
Definition spec_sub (h : hdr) : list Z :=
  h_extra h ++ h_reserved h ++ h_witness h ++ h_merkle h
  ++ le_bytes 4 (h_version h) ++ le_bytes 4 (h_bits h).
Section Hash.
  Variable blake256 blake512 sha3 : list Z -> list Z.
  Definition spec_commit_string (h : hdr) : list Z :=
    blake256 (spec_sub h) ++ blake256 (h_prev h ++ h_mask h).
  Definition spec_pre (h : hdr) : list Z :=
    le_bytes 4 (h_nonce h) ++ le_bytes 8 (h_time h) ++ spec_pad h 20 ++ h_prev h ++ h_root h
    ++ blake256 (spec_commit_string h).
  Definition spec_final (h : hdr) : list Z :=
    blake512 (spec_pre h) ++ spec_pad h 32 ++ sha3 (spec_pre h ++ spec_pad h 8).
  Definition spec_share (h : hdr) : list Z := blake256 (spec_final h).

  (** All strings given to BLAKE2b-256 resp. BLAKE2b-512 for one header. *)
  Definition strings256 (h : hdr) : list (list Z) :=
    [ spec_sub h; h_prev h ++ h_mask h; spec_commit_string h; spec_final h ].
  Definition strings512 (h : hdr) : list (list Z) := [ spec_pre h ].
End Hash.

(** No collision of [H] within a finite set of strings. *)
Definition collision_free (H : list Z -> list Z) (S : list (list Z)) : Prop :=
  forall x y, In x S -> In y S -> H x = H y -> x = y.

(** Work after appending headers with the given bits one after the other,
    [calc] being the code's work function. *)
Fixpoint work_along (calc : Z -> option (list Z) -> option (list Z)) (bits : list Z) (w : list Z)
  : option (list Z) :=
  match bits with
  | [] => Some w
  | b :: r => match calc b (Some w) with None => None | Some w' => work_along calc r w' end
  end.
