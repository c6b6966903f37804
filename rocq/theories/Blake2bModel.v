(** Model of src/blake2b.c and of its callers in src/hash.c, on a little endian machine.
    [uint64_t] is a number below 2^64. *)
From Verif Require Import Common.

(** blake2b.c:28-33 hsk_blake2b_IV *)
Definition iv : list Z := [
  0x6a09e667f3bcc908; 0xbb67ae8584caa73b; 0x3c6ef372fe94f82b; 0xa54ff53a5f1d36f1;
  0x510e527fade682d1; 0x9b05688c2b3e6c1f; 0x1f83d9abfb41bd6b; 0x5be0cd19137e2179].
(** blake2b.c:35-48 hsk_blake2b_sigma *)
Definition sigma : list (list nat) := [
  [ 0;  1;  2;  3;  4;  5;  6;  7;  8;  9; 10; 11; 12; 13; 14; 15];
  [14; 10;  4;  8;  9; 15; 13;  6;  1; 12;  0;  2; 11;  7;  5;  3];
  [11;  8; 12;  0;  5;  2; 15; 13; 10; 14;  3;  6;  7;  1;  9;  4];
  [ 7;  9;  3;  1; 13; 12; 11; 14;  2;  6;  5; 10;  4;  0; 15;  8];
  [ 9;  0;  5;  7;  2;  4; 10; 15; 14;  1; 11; 12;  6;  8;  3; 13];
  [ 2; 12;  6; 10;  0; 11;  8;  3;  4; 13;  7;  5; 15; 14;  1;  9];
  [12;  5;  1; 15; 14; 13;  4; 10;  0;  7;  6;  3;  9;  2;  8; 11];
  [13; 11;  7; 14; 12;  1;  3;  9;  5;  0; 15;  4;  8;  6;  2; 10];
  [ 6; 15; 14;  9; 11;  3;  0;  8; 12;  2; 13;  7;  1;  4; 10;  5];
  [10;  2;  8;  4;  7;  6;  1;  5; 15; 11;  9; 14;  3; 12; 13;  0];
  [ 0;  1;  2;  3;  4;  5;  6;  7;  8;  9; 10; 11; 12; 13; 14; 15];
  [14; 10;  4;  8;  9; 15; 13;  6;  1; 12;  0;  2; 11;  7;  5;  3]]%nat.
Definition w64 (x : Z) : Z := x mod 2 ^ 64.
(** blake2b-impl.h:154-157 rotr64 *)
Definition rotr64 (w c : Z) : Z := Z.lor (Z.shiftr w c) (w64 (Z.shiftl w (64 - c))).
(** blake2b-impl.h:53-70 load64 *)
Definition load64 (b : list Z) : Z := le_val (firstn 8 b).

(** blake2b.h:39-47 hsk_blake2b_ctx. [last_node] is never set and is left out, with it f[1],
    which stays zero. *)
Record ctx := { x_h : list Z; x_t0 : Z; x_t1 : Z; x_f0 : Z; x_buf : list Z; x_buflen : Z; x_outlen : Z }.

(** blake2b.c:69-73 hsk_blake2b_increment_counter *)
Definition increment (t0 t1 inc : Z) : Z * Z :=
  let t0 := w64 (t0 + inc) in (t0, w64 (t1 + (if t0 <? inc then 1 else 0))).
(** blake2b.c:75-83 hsk_blake2b_init0, 85-98 hsk_blake2b_init_param; [p] are the 64 bytes
    of the structure *)
Definition init_param (p : list Z) : ctx :=
  {| x_h := map (fun i => Z.lxor (nth i iv 0) (load64 (skipn (8 * i) p))) (seq 0 8);
     x_t0 := 0; x_t1 := 0; x_f0 := 0; x_buf := repeat 0 128; x_buflen := 0; x_outlen := nth 0 p 0 |}.
(** blake2b.h:49-62: digest_length, key_length, fanout, depth, and zeros *)
Definition param (outlen keylen : Z) : list Z := [outlen mod 256; keylen mod 256; 1; 1] ++ repeat 0 60.
(** blake2b.c:100-121 hsk_blake2b_init *)
Definition init (outlen : Z) : outcome ctx :=
  if (outlen =? 0) || (64 <? outlen) then Err (-1) else Ok (init_param (param outlen 0)).

(** blake2b.c:165-175 G: the new a, b, c and d *)
Definition G (x y a b c d : Z) : Z * Z * Z * Z :=
  let a := w64 (a + b + x) in
  let d := rotr64 (Z.lxor d a) 32 in
  let c := w64 (c + d) in
  let b := rotr64 (Z.lxor b c) 24 in
  let a := w64 (a + b + y) in
  let d := rotr64 (Z.lxor d a) 16 in
  let c := w64 (c + d) in
  let b := rotr64 (Z.lxor b c) 63 in
  (a, b, c, d).
(** blake2b.c:177-187 ROUND *)
Definition ROUND (m : list Z) (v : list Z) (r : nat) : list Z :=
  let s := fun j => nth (nth j (nth r sigma []) 0%nat) m 0 in
  match v with
  | [v0; v1; v2; v3; v4; v5; v6; v7; v8; v9; v10; v11; v12; v13; v14; v15] =>
      let '(v0, v4, v8, v12) := G (s 0%nat) (s 1%nat) v0 v4 v8 v12 in
      let '(v1, v5, v9, v13) := G (s 2%nat) (s 3%nat) v1 v5 v9 v13 in
      let '(v2, v6, v10, v14) := G (s 4%nat) (s 5%nat) v2 v6 v10 v14 in
      let '(v3, v7, v11, v15) := G (s 6%nat) (s 7%nat) v3 v7 v11 v15 in
      let '(v0, v5, v10, v15) := G (s 8%nat) (s 9%nat) v0 v5 v10 v15 in
      let '(v1, v6, v11, v12) := G (s 10%nat) (s 11%nat) v1 v6 v11 v12 in
      let '(v2, v7, v8, v13) := G (s 12%nat) (s 13%nat) v2 v7 v8 v13 in
      let '(v3, v4, v9, v14) := G (s 14%nat) (s 15%nat) v3 v4 v9 v14 in
      [v0; v1; v2; v3; v4; v5; v6; v7; v8; v9; v10; v11; v12; v13; v14; v15]
  | _ => v
  end.
(** blake2b.c:189-228 hsk_blake2b_compress: the new h *)
Definition compress (h : list Z) (t0 t1 f0 : Z) (block : list Z) : list Z :=
  let m := map (fun i => load64 (skipn (8 * i) block)) (seq 0 16) in
  let k := fun i => nth i iv 0 in
  let v := h ++ [k 0; k 1; k 2; k 3; Z.lxor (k 4) t0; Z.lxor (k 5) t1; Z.lxor (k 6) f0; Z.lxor (k 7) 0]%nat in
  let v := fold_left (ROUND m) [0; 1; 2; 3; 4; 5; 6; 7; 8; 9; 10; 11]%nat v in
  map (fun i => Z.lxor (Z.lxor (nth i h 0) (nth i v 0)) (nth (i + 8) v 0)) (seq 0 8).

(** memcpy and memset into an array *)
Definition put (buf : list Z) (i : Z) (d : list Z) : list Z := firstn (Z.to_nat i) buf ++ d ++ skipn (Z.to_nat i + length d) buf.
(** blake2b.c:251-256: the blocks of the input while more than one is left *)
Fixpoint blk_loop (fuel : nat) (h : list Z) (t0 t1 f0 : Z) (m : list Z) : list Z * Z * Z * list Z :=
  match fuel with
  | O => (h, t0, t1, m)
  | S k =>
      if 128 <? zlen m then
        let '(t0, t1) := increment t0 t1 128 in
        blk_loop k (compress h t0 t1 f0 (firstn 128 m)) t0 t1 f0 (skipn 128 m)
      else (h, t0, t1, m)
  end.
(** blake2b.c:233-264 hsk_blake2b_update *)
Definition update (c : ctx) (m : list Z) : ctx :=
  if 0 <? zlen m then
    let left := x_buflen c in
    let fill := 128 - left in
    if fill <? zlen m then
      let buf := put (x_buf c) left (firstn (Z.to_nat fill) m) in
      let '(t0, t1) := increment (x_t0 c) (x_t1 c) 128 in
      let h := compress (x_h c) t0 t1 (x_f0 c) buf in
      let m := skipn (Z.to_nat fill) m in
      let '(h, t0, t1, m) := blk_loop (length m) h t0 t1 (x_f0 c) m in
      {| x_h := h; x_t0 := t0; x_t1 := t1; x_f0 := x_f0 c; x_buf := put buf 0 m; x_buflen := zlen m; x_outlen := x_outlen c |}
    else {| x_h := x_h c; x_t0 := x_t0 c; x_t1 := x_t1 c; x_f0 := x_f0 c; x_buf := put (x_buf c) (x_buflen c) m; x_buflen := x_buflen c + zlen m; x_outlen := x_outlen c |}
  else c.
(** blake2b.c:266-289 hsk_blake2b_final *)
Definition final (c : ctx) (outlen : Z) : outcome (ctx * list Z) :=
  if outlen <? x_outlen c then Err (-1) else
  if negb (x_f0 c =? 0) then Err (-1) else
  let '(t0, t1) := increment (x_t0 c) (x_t1 c) (x_buflen c) in
  let f0 := 2 ^ 64 - 1 in
  let buf := put (x_buf c) (x_buflen c) (repeat 0 (Z.to_nat (128 - x_buflen c))) in
  let h := compress (x_h c) t0 t1 f0 buf in
  Ok ({| x_h := h; x_t0 := t0; x_t1 := t1; x_f0 := f0; x_buf := buf; x_buflen := x_buflen c; x_outlen := x_outlen c |},
      firstn (Z.to_nat (x_outlen c)) (concat (map (le_bytes 8) h))).
(** blake2b.c:123-163 hsk_blake2b_init_key *)
Definition init_key (outlen : Z) (key : list Z) : outcome ctx :=
  if (outlen =? 0) || (64 <? outlen) then Err (-1) else
  if (zlen key =? 0) || (64 <? zlen key) then Err (-1) else
  Ok (update (init_param (param outlen (zlen key))) (put (repeat 0 128) 0 key)).
(** blake2b.c:291-329 hsk_blake2b; the results of update and final are not looked at *)
Definition blake2b (outlen : Z) (data key : list Z) : outcome (list Z) :=
  if (outlen =? 0) || (64 <? outlen) then Err (-1) else
  if 64 <? zlen key then Err (-1) else
  obind (if 0 <? zlen key then init_key outlen key else init outlen) (fun c =>
  obind (final (update c data) outlen) (fun '(_, d) => Ok d)).

(** An assertion that a call gives zero; the call is inside of it *)
Definition must {A : Type} (x : outcome A) : outcome A := match x with Err _ => Abort | _ => x end.
(** hash.c:15-22 hsk_hash_blake2b, 39-46 hsk_hash_blake160, 48-55 hsk_hash_blake256,
    57-64 hsk_hash_blake512: with 32, 20, 32 and 64 *)
Definition hash_blake (n : Z) (data : list Z) : outcome (list Z) :=
  obind (must (init n)) (fun c => obind (must (final (update c data) n)) (fun '(_, d) => Ok d)).
Definition hash_blake2b (data : list Z) : outcome (list Z) := hash_blake 32 data.
Definition hash_blake160 (data : list Z) : outcome (list Z) := hash_blake 20 data.
Definition hash_blake256 (data : list Z) : outcome (list Z) := hash_blake 32 data.
Definition hash_blake512 (data : list Z) : outcome (list Z) := hash_blake 64 data.
(** hash.c:24-37 hsk_hash_blake2b_key *)
Definition hash_blake2b_key (data key : list Z) : outcome (list Z) :=
  obind (must (init_key 32 key)) (fun c => obind (must (final (update c data) 32)) (fun '(_, d) => Ok d)).
