(** Model of src/siphash.c. [uint64_t] is a number below 2^64. The functions are exported but
    the daemon does not call them. *)
From Verif Require Import Common.

(** Addition of uint64_t wraps (siphash.c:11-18) *)
Definition v64 (x : Z) : Z := x mod 2 ^ 64.
(** siphash.c:9 ROTL *)
Definition ROTL (x b : Z) : Z := Z.lor (v64 (Z.shiftl x b)) (Z.shiftr x (64 - b)).
(** siphash.c:55-58: v0 to v3 *)
Definition sip : Type := Z * Z * Z * Z.
(** siphash.c:11-18 SIPROUND *)
Definition SIPROUND (v : sip) : sip :=
  let '(v0, v1, v2, v3) := v in
  let v0 := v64 (v0 + v1) in let v1 := ROTL v1 13 in let v1 := Z.lxor v1 v0 in
  let v0 := ROTL v0 32 in
  let v2 := v64 (v2 + v3) in let v3 := ROTL v3 16 in let v3 := Z.lxor v3 v2 in
  let v0 := v64 (v0 + v3) in let v3 := ROTL v3 21 in let v3 := Z.lxor v3 v0 in
  let v2 := v64 (v2 + v1) in let v1 := ROTL v1 17 in let v1 := Z.lxor v1 v2 in
  let v2 := ROTL v2 32 in
  (v0, v1, v2, v3).
(** siphash.c:20-37 read64, on a machine of either kind *)
Definition read64 (b : list Z) : Z := le_val (firstn 8 b).
(** siphash.c:46-58 and 107-119, the state set from the key *)
Definition keyed (key : list Z) : sip :=
  let k0 := read64 key in
  let k1 := read64 (skipn 8 key) in
  (Z.lxor k0 0x736f6d6570736575, Z.lxor k1 0x646f72616e646f6d, Z.lxor k0 0x6c7967656e657261, Z.lxor k1 0x7465646279746573).
(** siphash.c:63-66, 89-92, 121-124 and 151-154 *)
Definition sip_word (v : sip) (d : Z) : sip :=
  let '(v0, v1, v2, v3) := v in
  let '(v0, v1, v2, v3) := SIPROUND (SIPROUND (v0, v1, v2, Z.lxor v3 d)) in
  (Z.lxor v0 d, v1, v2, v3).
(** siphash.c:60-67: [n] blocks; the place in the data and the state after them *)
Fixpoint sip_loop (n : nat) (data : list Z) (v : sip) : list Z * sip :=
  match n with
  | O => (data, v)
  | S n => sip_loop n (skipn 8 data) (sip_word v (read64 data))
  end.
(** siphash.c:69-87: the switch falls through from case [t] to case 1 *)
Fixpoint sip_tail (t : nat) (data : list Z) (f0 : Z) : Z :=
  match t with
  | O => f0
  | S t => sip_tail t data (Z.lor f0 (Z.shiftl (nth t data 0) (8 * Z.of_nat t)))
  end.
(** siphash.c:89-102, 121-134 and 151-164 *)
Definition sip_end (f0 : Z) (v : sip) : Z :=
  let '(v0, v1, v2, v3) := sip_word v f0 in
  let '(v0, v1, v2, v3) := SIPROUND (SIPROUND (SIPROUND (SIPROUND (v0, v1, Z.lxor v2 255, v3)))) in
  Z.lxor (Z.lxor (Z.lxor v0 v1) v2) v3.
(** siphash.c:39-103 _siphash and 167-170 hsk_siphash; len is the length of the data. The
    number of blocks is a uint32_t. *)
Definition siphash (data key : list Z) : Z :=
  let len := zlen data in
  let blocks := Z.shiftr len 3 mod 2 ^ 32 in
  let f0 := v64 (Z.shiftl len 56) in
  let '(rest, v) := sip_loop (Z.to_nat blocks) data (keyed key) in
  sip_end (sip_tail (Z.to_nat (Z.land len 7)) rest f0) v.
(** siphash.c:105-135 _siphash64 and 177-180 hsk_siphash64 *)
Definition siphash64 (num : Z) (key : list Z) : Z := sip_end num (keyed key).
(** siphash.c:137-165 _siphash64k256 and 187-190 hsk_siphash64k256 *)
Definition siphash64k256 (num : Z) (key : list Z) : Z :=
  sip_end num (read64 key, read64 (skipn 8 key), read64 (skipn 16 key), read64 (skipn 24 key)).
(** siphash.c:172-175 hsk_siphash32 and 182-185 hsk_siphash32k256 *)
Definition siphash32 (num : Z) (key : list Z) : Z := siphash64 num key mod 2 ^ 32.
Definition siphash32k256 (num : Z) (key : list Z) : Z := siphash64k256 num key mod 2 ^ 32.
