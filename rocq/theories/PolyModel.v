(** Model of src/poly1305/poly1305.c with src/poly1305/poly1305-64.h, which is what
    poly1305.c:23-45 selects where 128-bit integers exist. [unsigned long long] is a
    number below 2^64, [uint128_t] one below 2^128. *)
From Verif Require Import Common.

Definition u64 (x : Z) : Z := x mod 2 ^ 64.
Definition u128 (x : Z) : Z := x mod 2 ^ 128.
Definition shl (x n : Z) : Z := u64 (Z.shiftl x n).
Definition shr (x n : Z) : Z := Z.shiftr x n.
(** poly1305-64.h:47-48 SHR and LO *)
Definition shr128 (x n : Z) : Z := u64 (Z.shiftr x n).
Definition lo128 (x : Z) : Z := u64 x.

(** poly1305-64.h:55-62 hsk_poly1305_state_internal_t; [p_buf] has 16 bytes *)
Record poly := { p_r : Z * Z * Z; p_h : Z * Z * Z; p_pad : Z * Z; p_left : Z; p_buf : list Z; p_final : bool }.

(** poly1305-64.h:64-74 U8TO64, at an offset *)
Definition u8to64 (p : list Z) (i : nat) : Z :=
  let b := fun j => Z.land (nth (i + j) p 0) 0xff in
  Z.lor (Z.lor (Z.lor (Z.lor (Z.lor (Z.lor (Z.lor (b 0%nat) (shl (b 1%nat) 8)) (shl (b 2%nat) 16)) (shl (b 3%nat) 24)) (shl (b 4%nat) 32))
    (shl (b 5%nat) 40)) (shl (b 6%nat) 48)) (shl (b 7%nat) 56).
(** poly1305-64.h:76-86 U64TO8 *)
Definition u64to8 (v : Z) : list Z :=
  [Z.land v 0xff; Z.land (shr v 8) 0xff; Z.land (shr v 16) 0xff; Z.land (shr v 24) 0xff;
   Z.land (shr v 32) 0xff; Z.land (shr v 40) 0xff; Z.land (shr v 48) 0xff; Z.land (shr v 56) 0xff].

(** poly1305-64.h:88-113 hsk_poly1305_init; the buffer stays as it was *)
Definition poly_init (c : poly) (key : list Z) : poly :=
  let t0 := u8to64 key 0 in
  let t1 := u8to64 key 8 in
  {| p_r := (Z.land t0 0xffc0fffffff, Z.land (Z.lor (shr t0 44) (shl t1 20)) 0xfffffc0ffff, Z.land (shr t1 24) 0x00ffffffc0f);
     p_h := (0, 0, 0); p_pad := (u8to64 key 16, u8to64 key 24); p_left := 0; p_buf := p_buf c; p_final := false |}.

(** poly1305-64.h:144-152: h += m[i] *)
Definition absorb (hibit : Z) (h : Z * Z * Z) (m : list Z) : Z * Z * Z :=
  let '(h0, h1, h2) := h in
  let t0 := u8to64 m 0 in
  let t1 := u8to64 m 8 in
  (u64 (h0 + Z.land t0 0xfffffffffff),
   u64 (h1 + Z.land (Z.lor (shr t0 44) (shl t1 20)) 0xfffffffffff),
   u64 (h2 + Z.lor (Z.land (shr t1 24) 0x3ffffffffff) hibit)).
(** poly1305-64.h:134-135 and 154-171: h *= r *)
Definition products (r h : Z * Z * Z) : Z * Z * Z :=
  let '(r0, r1, r2) := r in
  let '(h0, h1, h2) := h in
  let s1 := u64 (r1 * Z.shiftl 5 2) in
  let s2 := u64 (r2 * Z.shiftl 5 2) in
  let d0 := u128 (h0 * r0) in let d0 := u128 (d0 + u128 (h1 * s2)) in let d0 := u128 (d0 + u128 (h2 * s1)) in
  let d1 := u128 (h0 * r1) in let d1 := u128 (d1 + u128 (h1 * r0)) in let d1 := u128 (d1 + u128 (h2 * s2)) in
  let d2 := u128 (h0 * r2) in let d2 := u128 (d2 + u128 (h1 * r1)) in let d2 := u128 (d2 + u128 (h2 * r0)) in
  (d0, d1, d2).
(** poly1305-64.h:173-190: (partial) h %= p *)
Definition carry (d : Z * Z * Z) : Z * Z * Z :=
  let '(d0, d1, d2) := d in
  let c := shr128 d0 44 in let h0 := Z.land (lo128 d0) 0xfffffffffff in
  let d1 := u128 (d1 + c) in let c := shr128 d1 44 in let h1 := Z.land (lo128 d1) 0xfffffffffff in
  let d2 := u128 (d2 + c) in let c := shr128 d2 42 in let h2 := Z.land (lo128 d2) 0x3ffffffffff in
  let h0 := u64 (h0 + u64 (c * 5)) in let c := shr h0 44 in let h0 := Z.land h0 0xfffffffffff in
  (h0, u64 (h1 + c), h2).
(** poly1305-64.h:115-199 hsk_poly1305_blocks, of whole blocks; the fuel is the number of
    bytes *)
Fixpoint blocks_loop (fuel : nat) (hibit : Z) (r h : Z * Z * Z) (m : list Z) : Z * Z * Z :=
  match fuel with
  | O => h
  | S fuel => if 16 <=? zlen m then blocks_loop fuel hibit r (carry (products r (absorb hibit h m))) (skipn 16 m) else h
  end.
Definition set_h (c : poly) (h : Z * Z * Z) : poly :=
  {| p_r := p_r c; p_h := h; p_pad := p_pad c; p_left := p_left c; p_buf := p_buf c; p_final := p_final c |}.
Definition set_left (c : poly) (n : Z) (buf : list Z) : poly :=
  {| p_r := p_r c; p_h := p_h c; p_pad := p_pad c; p_left := n; p_buf := buf; p_final := p_final c |}.
Definition poly_blocks (c : poly) (m : list Z) : poly :=
  set_h c (blocks_loop (length m) (if p_final c then 0 else Z.shiftl 1 40) (p_r c) (p_h c) m).

(** The loops poly1305.c:61-62 and 83-84 *)
Definition store (buf : list Z) (i : Z) (m : list Z) : list Z :=
  firstn (Z.to_nat i) buf ++ m ++ skipn (Z.to_nat i + length m) buf.
(** poly1305.c:47-89 hsk_poly1305_update *)
Definition poly_rest (c : poly) (m : list Z) : poly :=
  let '(c, m) := if 16 <=? zlen m then let want := Z.land (zlen m) (Z.lnot 15) in (poly_blocks c (firstn (Z.to_nat want) m), skipn (Z.to_nat want) m) else (c, m) in
  if zlen m =? 0 then c else set_left c (p_left c + zlen m) (store (p_buf c) (p_left c) m).
Definition poly_update (c : poly) (m : list Z) : poly :=
  if p_left c =? 0 then poly_rest c m
  else
    let want := if zlen m <? 16 - p_left c then zlen m else 16 - p_left c in
    let c := set_left c (p_left c + want) (store (p_buf c) (p_left c) (firstn (Z.to_nat want) m)) in
    if p_left c <? 16 then c
    else poly_rest (set_left (poly_blocks c (p_buf c)) 0 (p_buf c)) (skipn (Z.to_nat want) m).

(** poly1305-64.h:219-247: fully carry h *)
Definition full_carry (h : Z * Z * Z) : Z * Z * Z :=
  let '(h0, h1, h2) := h in
  let c := shr h1 44 in let h1 := Z.land h1 0xfffffffffff in
  let h2 := u64 (h2 + c) in let c := shr h2 42 in let h2 := Z.land h2 0x3ffffffffff in
  let h0 := u64 (h0 + u64 (c * 5)) in let c := shr h0 44 in let h0 := Z.land h0 0xfffffffffff in
  let h1 := u64 (h1 + c) in let c := shr h1 44 in let h1 := Z.land h1 0xfffffffffff in
  let h2 := u64 (h2 + c) in let c := shr h2 42 in let h2 := Z.land h2 0x3ffffffffff in
  let h0 := u64 (h0 + u64 (c * 5)) in let c := shr h0 44 in let h0 := Z.land h0 0xfffffffffff in
  (h0, u64 (h1 + c), h2).
(** poly1305-64.h:249-266: compute h + -p, and select *)
Definition not64 (x : Z) : Z := 2 ^ 64 - 1 - x.
Definition select (h : Z * Z * Z) : Z * Z * Z :=
  let '(h0, h1, h2) := h in
  let g0 := u64 (h0 + 5) in let c := shr g0 44 in let g0 := Z.land g0 0xfffffffffff in
  let g1 := u64 (h1 + c) in let c := shr g1 44 in let g1 := Z.land g1 0xfffffffffff in
  let g2 := u64 (h2 + c - shl 1 42) in
  let c := u64 (shr g2 63 - 1) in
  let g0 := Z.land g0 c in let g1 := Z.land g1 c in let g2 := Z.land g2 c in
  let c := not64 c in
  (Z.lor (Z.land h0 c) g0, Z.lor (Z.land h1 c) g1, Z.lor (Z.land h2 c) g2).
(** poly1305-64.h:268-289: h = (h + pad), mac = h % 2^128 *)
Definition add_pad (h : Z * Z * Z) (pad : Z * Z) : list Z :=
  let '(h0, h1, h2) := h in
  let '(t0, t1) := pad in
  let h0 := u64 (h0 + Z.land t0 0xfffffffffff) in let c := shr h0 44 in let h0 := Z.land h0 0xfffffffffff in
  let h1 := u64 (h1 + u64 (Z.land (Z.lor (shr t0 44) (shl t1 20)) 0xfffffffffff + c)) in let c := shr h1 44 in let h1 := Z.land h1 0xfffffffffff in
  let h2 := u64 (h2 + u64 (Z.land (shr t1 24) 0x3ffffffffff + c)) in let h2 := Z.land h2 0x3ffffffffff in
  u64to8 (Z.lor h0 (shl h1 44)) ++ u64to8 (Z.lor (shr h1 20) (shl h2 24)).
(** poly1305-64.h:207-217: process the remaining block *)
Definition flush (c : poly) : poly :=
  if p_left c =? 0 then c
  else
    let buf := firstn (Z.to_nat (p_left c)) (p_buf c) ++ 1 :: repeat 0 (Z.to_nat (16 - (p_left c + 1))) in
    poly_blocks {| p_r := p_r c; p_h := p_h c; p_pad := p_pad c; p_left := p_left c; p_buf := buf; p_final := true |} buf.
(** poly1305-64.h:201-300 hsk_poly1305_finish *)
Definition poly_finish (c : poly) : poly * list Z :=
  let c := flush c in
  ({| p_r := (0, 0, 0); p_h := (0, 0, 0); p_pad := (0, 0); p_left := p_left c; p_buf := p_buf c; p_final := p_final c |},
   add_pad (select (full_carry (p_h c))) (p_pad c)).
(** poly1305.c:91-102 hsk_poly1305_auth *)
Definition poly_auth (junk : poly) (m key : list Z) : list Z := snd (poly_finish (poly_update (poly_init junk key) m)).

(** poly1305.c:104-118 hsk_poly1305_verify; [unsigned int] has 32 bits *)
Definition poly_verify (a b : list Z) : Z :=
  let dif := fold_left (fun dif i => Z.lor dif (Z.lxor (nth i a 0) (nth i b 0))) (seq 0 16) 0 in
  Z.land (Z.shiftr ((dif - 1) mod 2 ^ 32) 31) 1.
