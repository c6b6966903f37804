(** Model of src/sha256.c and of HMAC and HKDF of src/hash.c, on a little endian machine.
    [unsigned int] is a number below 2^32. *)
From Verif Require Import Common.

(** sha256.c:63 ROTR32 *)
Definition w32 (x : Z) : Z := x mod 2 ^ 32.
Definition rotr32 (x n : Z) : Z := Z.lxor (Z.shiftr x n) (w32 (Z.shiftl x (32 - n))).
(** sha256.c:65-77 k256 *)
Definition k256 : list Z := [
  0x428a2f98; 0x71374491; 0xb5c0fbcf; 0xe9b5dba5; 0x3956c25b; 0x59f111f1;
  0x923f82a4; 0xab1c5ed5; 0xd807aa98; 0x12835b01; 0x243185be; 0x550c7dc3;
  0x72be5d74; 0x80deb1fe; 0x9bdc06a7; 0xc19bf174; 0xe49b69c1; 0xefbe4786;
  0x0fc19dc6; 0x240ca1cc; 0x2de92c6f; 0x4a7484aa; 0x5cb0a9dc; 0x76f988da;
  0x983e5152; 0xa831c66d; 0xb00327c8; 0xbf597fc7; 0xc6e00bf3; 0xd5a79147;
  0x06ca6351; 0x14292967; 0x27b70a85; 0x2e1b2138; 0x4d2c6dfc; 0x53380d13;
  0x650a7354; 0x766a0abb; 0x81c2c92e; 0x92722c85; 0xa2bfe8a1; 0xa81a664b;
  0xc24b8b70; 0xc76c51a3; 0xd192e819; 0xd6990624; 0xf40e3585; 0x106aa070;
  0x19a4c116; 0x1e376c08; 0x2748774c; 0x34b0bcb5; 0x391c0cb3; 0x4ed8aa4a;
  0x5b9cca4f; 0x682e6ff3; 0x748f82ee; 0x78a5636f; 0x84c87814; 0x8cc70208;
  0x90befffa; 0xa4506ceb; 0xbef9a3f7; 0xc67178f2].
(** sha256.c:79-85 *)
Definition ch (x y z : Z) : Z := Z.lxor z (Z.land x (Z.lxor y z)).
Definition maj (x y z : Z) : Z := Z.lxor (Z.land x y) (Z.land z (Z.lxor x y)).
Definition big0 (x : Z) : Z := Z.lxor (Z.lxor (rotr32 x 2) (rotr32 x 13)) (rotr32 x 22).
Definition big1 (x : Z) : Z := Z.lxor (Z.lxor (rotr32 x 6) (rotr32 x 11)) (rotr32 x 25).
Definition small0 (x : Z) : Z := Z.lxor (Z.lxor (rotr32 x 7) (rotr32 x 18)) (Z.shiftr x 3).
Definition small1 (x : Z) : Z := Z.lxor (Z.lxor (rotr32 x 17) (rotr32 x 19)) (Z.shiftr x 10).
(** sha256.c:92-96 ROUND: the new d and h *)
Definition round (a b c d e f g h k data : Z) : Z * Z :=
  let t1 := w32 (h + big1 e + ch e f g + k + data) in (w32 (d + t1), w32 (t1 + big0 a + maj a b c)).
Definition regs : Type := Z * Z * Z * Z * Z * Z * Z * Z.
(** sha256.c:132-139, 140-147, 150-157, 158-165: eight rounds, each with the names moved by
    one; [k] and [w] give the constants and the words of the eight *)
Definition rounds8 (k w : list Z) (r : regs) : regs :=
  let '(A, B, C, D, E, F, G, H) := r in
  let '(D, H) := round A B C D E F G H (nth 0 k 0) (nth 0 w 0) in
  let '(C, G) := round H A B C D E F G (nth 1 k 0) (nth 1 w 0) in
  let '(B, F) := round G H A B C D E F (nth 2 k 0) (nth 2 w 0) in
  let '(A, E) := round F G H A B C D E (nth 3 k 0) (nth 3 w 0) in
  let '(H, D) := round E F G H A B C D (nth 4 k 0) (nth 4 w 0) in
  let '(G, C) := round D E F G H A B C (nth 5 k 0) (nth 5 w 0) in
  let '(F, B) := round C D E F G H A B (nth 6 k 0) (nth 6 w 0) in
  let '(E, A) := round B C D E F G H A (nth 7 k 0) (nth 7 w 0) in
  (A, B, C, D, E, F, G, H).
Definition set_nth (l : list Z) (i : nat) (x : Z) : list Z := firstn i l ++ x :: skipn (S i) l.
(** sha256.c:87-90 RECALCULATE_W, where the index wraps around *)
Definition recalc (W : list Z) (n : nat) : list Z :=
  let at_ := fun d : nat => nth (Nat.modulo (n + 16 - d) 16) W 0 in
  set_nth W n (w32 (nth n W 0 + (small1 (at_ 2%nat) + at_ 7%nat + small0 (at_ 15%nat)))).
Definition recalc_all (W : list Z) : list Z := fold_left recalc [0; 1; 2; 3; 4; 5; 6; 7; 8; 9; 10; 11; 12; 13; 14; 15]%nat W.
(** sha256.c:149-166, one turn of the loop. The words of a turn do not depend on the
    registers, so they are computed first. *)
Definition turn (rw : regs * list Z) (i : nat) : regs * list Z :=
  let '(r, W) := rw in
  let W := recalc_all W in
  let k := skipn i k256 in
  (rounds8 (skipn 8 k) (skipn 8 W) (rounds8 k W r), W).
(** be2me_32 of the four bytes of a word *)
Definition words (block : list Z) : list Z := map (fun i => be_val (firstn 4 (skipn (4 * i) block))) (seq 0 16).
(** sha256.c:120-170 hsk_sha256_process_block *)
Definition process (hash : list Z) (block : list Z) : list Z :=
  let g := fun i => nth i hash 0 in
  let W := words block in
  let r := (g 0, g 1, g 2, g 3, g 4, g 5, g 6, g 7)%nat in
  let r := rounds8 (skipn 8 k256) (skipn 8 W) (rounds8 k256 W r) in
  let '(A, B, C, D, E, F, G, H, _) := fold_left turn [16; 32; 48]%nat (r, W) in
  map (fun '(x, y) => w32 (x + y)) (combine hash [A; B; C; D; E; F; G; H]).

(** sha256.h hsk_sha256_ctx: [s_msg] are the 64 bytes of the array message *)
Record sha := { s_hash : list Z; s_len : Z; s_msg : list Z }.
(** sha256.c:104-118 hsk_sha256_init; [junk] is what was in memory *)
Definition sha_init (junk : list Z) : sha :=
  {| s_hash := [0x6a09e667; 0xbb67ae85; 0x3c6ef372; 0xa54ff53a; 0x510e527f; 0x9b05688c; 0x1f83d9ab; 0x5be0cd19]; s_len := 0; s_msg := junk |}.
(** memcpy into an array *)
Definition overwrite (buf : list Z) (i : nat) (d : list Z) : list Z := firstn i buf ++ d ++ skipn (i + length d) buf.
(** sha256.c:191-211; [al]: the input is aligned, and is not copied first *)
Fixpoint sha_loop (fuel : nat) (al : bool) (hash msg m : list Z) : list Z * list Z :=
  match fuel with
  | O => (hash, overwrite msg 0 m)
  | S k =>
      if 64 <=? zlen m then
        let msg := if al then msg else overwrite msg 0 (firstn 64 m) in
        sha_loop k al (process hash (firstn 64 m)) msg (skipn 64 m)
      else (hash, overwrite msg 0 m)
  end.
(** sha256.c:172-212 hsk_sha256_update *)
Definition sha_update (c : sha) (al : bool) (m : list Z) : sha :=
  let index := Z.land (s_len c) 63 in
  let len := (s_len c + zlen m) mod 2 ^ 64 in
  let left := 64 - index in
  if negb (index =? 0) then
    if zlen m <? left then {| s_hash := s_hash c; s_len := len; s_msg := overwrite (s_msg c) (Z.to_nat index) m |}
    else
      let msg := overwrite (s_msg c) (Z.to_nat index) (firstn (Z.to_nat left) m) in
      let m := skipn (Z.to_nat left) m in
      let '(hash, msg) := sha_loop (length m) al (process (s_hash c) msg) msg m in
      {| s_hash := hash; s_len := len; s_msg := msg |}
  else let '(hash, msg) := sha_loop (length m) al (s_hash c) (s_msg c) m in {| s_hash := hash; s_len := len; s_msg := msg |}.
(** Words of the array in memory *)
Definition get_word (msg : list Z) (i : nat) : Z := le_val (firstn 4 (skipn (4 * i) msg)).
Definition set_word (msg : list Z) (i : nat) (x : Z) : list Z := overwrite msg (4 * i) (le_bytes 4 x).
Fixpoint clear (msg : list Z) (i n : nat) : list Z := match n with O => msg | S k => clear (set_word msg i 0) (S i) k end.
(** sha256.c:214-244 hsk_sha256_final *)
Definition sha_final (c : sha) : list Z :=
  let index := Z.to_nat (Z.shiftr (Z.land (w32 (s_len c)) 63) 2) in
  let shift := Z.land (w32 (s_len c)) 3 * 8 in
  let msg := s_msg c in
  let msg := set_word msg index (Z.land (get_word msg index) (Z.lxor (w32 (Z.shiftl 0xFFFFFFFF shift)) 0xFFFFFFFF)) in
  let msg := set_word msg index (Z.lxor (get_word msg index) (w32 (Z.shiftl 0x80 shift))) in
  let index := S index in
  let '(hash, msg, index) :=
    if (14 <? Z.of_nat index) then let msg := clear msg index (16 - index) in (process (s_hash c) msg, msg, O) else (s_hash c, msg, index) in
  let msg := clear msg index (14 - index) in
  let msg := overwrite msg 56 (be_bytes 4 (w32 (Z.shiftr (s_len c) 29))) in
  let msg := overwrite msg 60 (be_bytes 4 (w32 (Z.shiftl (s_len c) 3))) in
  concat (map (be_bytes 4) (process hash msg)).

(** hash.c:149-156 hsk_hash_sha256 *)
Definition hash_sha256 (junk : list Z) (al : bool) (data : list Z) : list Z := sha_final (sha_update (sha_init junk) al data).
(** hash.c:158-168 hsk_hash_hash256 *)
Definition hash_hash256 (junk : list Z) (al : bool) (data : list Z) : list Z := hash_sha256 junk al (hash_sha256 junk al data).
(** hash.c:170-217 hsk_hash_sha256_hmac *)
Definition hash_hmac (junk : list Z) (al : bool) (data key : list Z) : list Z :=
  let key := if 64 <? zlen key then hash_sha256 junk al key else key in
  let pad := fun x : Z => map (fun b => Z.lxor b x) key ++ repeat x (64 - length key) in
  let inner := sha_update (sha_init junk) al (pad 0x36) in
  let outer := sha_update (sha_init junk) al (pad 0x5c) in
  let mac := sha_final (sha_update inner al data) in
  sha_final (sha_update outer al mac).
(** hash.c:219-261 hsk_hash_hkdf: the second turn of the loop is the only one *)
Definition hash_hkdf (junk : list Z) (al : bool) (secret salt info : list Z) : outcome (list Z * list Z) :=
  if 512 <? zlen info then Abort else
  let prk := hash_hmac junk al secret salt in
  let h1 := hash_hmac junk al (info ++ [1]) prk in
  let h2 := hash_hmac junk al (h1 ++ info ++ [2]) prk in
  Ok (h1, h2).
