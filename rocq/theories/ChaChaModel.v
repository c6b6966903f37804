(** Model of src/chacha20/chacha20.c. [uint32_t] is a number below 2^32. *)
From Verif Require Import Common.

Definition u32 (x : Z) : Z := x mod 2 ^ 32.
(** chacha20.c:29 ROTL32 *)
Definition rotl32 (v n : Z) : Z := Z.lor (u32 (Z.shiftl v n)) (Z.shiftr v (32 - n)).
(** chacha20.c:31-35 READLE, at an offset *)
Definition readle (p : list Z) (i : Z) : Z :=
  let p := skipn (Z.to_nat i) p in
  Z.lor (Z.lor (Z.lor (nth 0 p 0) (Z.shiftl (nth 1 p 0) 8)) (Z.shiftl (nth 2 p 0) 16)) (u32 (Z.shiftl (nth 3 p 0) 24)).
(** chacha20.c:37-41 WRITELE *)
Definition writele (i : Z) : list Z := [Z.land i 0xFF; Z.land (Z.shiftr i 8) 0xFF; Z.land (Z.shiftr i 16) 0xFF; Z.land (Z.shiftr i 24) 0xFF].
(** Assignment to an element of an array *)
Definition set_nth (l : list Z) (i : nat) (x : Z) : list Z := firstn i l ++ x :: skipn (S i) l.
(** chacha20.c:47-51 QUARTERROUND *)
Definition quarter (x : list Z) '(a, b, c, d) : list Z :=
  let g := fun x i => nth i x 0 in
  let x := set_nth x a (u32 (g x a + g x b)) in let x := set_nth x d (rotl32 (Z.lxor (g x d) (g x a)) 16) in
  let x := set_nth x c (u32 (g x c + g x d)) in let x := set_nth x b (rotl32 (Z.lxor (g x b) (g x c)) 12) in
  let x := set_nth x a (u32 (g x a + g x b)) in let x := set_nth x d (rotl32 (Z.lxor (g x d) (g x a)) 8) in
  let x := set_nth x c (u32 (g x c + g x d)) in set_nth x b (rotl32 (Z.lxor (g x b) (g x c)) 7).
(** chacha20.c:138-145, one turn of the loop *)
Definition turn (x : list Z) : list Z :=
  fold_left quarter [(0, 4, 8, 12); (1, 5, 9, 13); (2, 6, 10, 14); (3, 7, 11, 15); (0, 5, 10, 15); (1, 6, 11, 12); (2, 7, 8, 13); (3, 4, 9, 14)]%nat x.

(** chacha20.h:27-32 hsk_chacha20_ctx; [h_stream] are the 64 bytes of keystream *)
Record chacha := { h_sched : list Z; h_stream : list Z; h_avail : Z; h_nonce : Z }.
(** The two strings of chacha20.c:71-73, expand 32-byte k and expand 16-byte k *)
Definition k32 : list Z := [101; 120; 112; 97; 110; 100; 32; 51; 50; 45; 98; 121; 116; 101; 32; 107].
Definition k16 : list Z := [101; 120; 112; 97; 110; 100; 32; 49; 54; 45; 98; 121; 116; 101; 32; 107].
(** chacha20.c:65-91 hsk_chacha20_keysetup; the words 13 to 15 stay *)
Definition keysetup (c : chacha) (key : list Z) (len : Z) : chacha :=
  let k := if len =? 32 then k32 else k16 in
  {| h_sched := [readle k 0; readle k 4; readle k 8; readle k 12; readle key 0; readle key 4; readle key 8; readle key 12;
       readle key (16 mod len); readle key (20 mod len); readle key (24 mod len); readle key (28 mod len); 0] ++ skipn 13 (h_sched c);
     h_stream := h_stream c; h_avail := 0; h_nonce := 8 |}.
(** chacha20.c:93-112 hsk_chacha20_ivsetup *)
Definition ivsetup (c : chacha) (nonce : list Z) (size : Z) : chacha :=
  {| h_sched := firstn 12 (h_sched c) ++ (if size =? 8 then [0; 0; readle nonce 0; readle nonce 4] else [0; readle nonce 0; readle nonce 4; readle nonce 8]);
     h_stream := h_stream c; h_avail := h_avail c; h_nonce := size |}.
(** chacha20.c:53-63 hsk_chacha20_setup *)
Definition setup (c : chacha) (key : list Z) (len : Z) (nonce : list Z) (size : Z) : chacha := ivsetup (keysetup c key len) nonce size.
(** chacha20.c:114-123 hsk_chacha20_counter_set; the counter is below 2^64 *)
Definition counter_set (c : chacha) (n : Z) : chacha :=
  {| h_sched := if h_nonce c =? 8 then set_nth (set_nth (h_sched c) 12 (Z.land n 0xFFFFFFFF)) 13 (Z.shiftr n 32) else set_nth (h_sched c) 12 (u32 n);
     h_stream := h_stream c; h_avail := 0; h_nonce := h_nonce c |}.
(** chacha20.c:125-131 hsk_chacha20_counter_get *)
Definition counter_get (c : chacha) : Z :=
  if h_nonce c =? 8 then Z.lor (Z.shiftl (nth 13 (h_sched c) 0) 32) (nth 12 (h_sched c) 0) else nth 12 (h_sched c) 0.
(** chacha20.c:133-158 hsk_chacha20_block: the output goes to the key stream *)
Definition block (c : chacha) : chacha :=
  let s := h_sched c in
  let x := fold_left (fun x _ => turn x) (repeat tt 10) s in
  let out := concat (map (fun '(a, b) => writele (u32 (a + b))) (combine x s)) in
  let n0 := u32 (nth 12 s 0 + 1) in
  let s := set_nth s 12 n0 in
  let s := if (n0 =? 0) && (h_nonce c =? 8) then set_nth s 13 (u32 (nth 13 s 0 + 1)) else s in
  {| h_sched := s; h_stream := out; h_avail := h_avail c; h_nonce := h_nonce c |}.
(** chacha20.c:160-171 hsk_chacha20_xor *)
Definition xor_bytes (ks m : list Z) : list Z := map (fun '(a, b) => Z.lxor b a) (combine ks m).
(** chacha20.c:192-198, the loop; a turn takes 64 bytes or all that is left *)
Fixpoint crypt_loop (fuel : nat) (c : chacha) (m : list Z) : chacha * list Z :=
  match fuel with
  | O => (c, [])
  | S k =>
      if zlen m =? 0 then (c, []) else
      let amount := Z.min (zlen m) 64 in
      let c := block c in
      let out := xor_bytes (firstn (Z.to_nat amount) (h_stream c)) (firstn (Z.to_nat amount) m) in
      let c := {| h_sched := h_sched c; h_stream := h_stream c; h_avail := 64 - amount; h_nonce := h_nonce c |} in
      let '(c, rest) := crypt_loop k c (skipn (Z.to_nat amount) m) in
      (c, out ++ rest)
  end.
(** chacha20.c:173-200 hsk_chacha20_encrypt, and 202-210 hsk_chacha20_decrypt *)
Definition encrypt (c : chacha) (m : list Z) : chacha * list Z :=
  if zlen m =? 0 then (c, []) else
  let '(c, out, m) :=
    if negb (h_avail c =? 0) then
      let amount := Z.min (zlen m) (h_avail c) in
      let size := 64 - h_avail c in
      ({| h_sched := h_sched c; h_stream := h_stream c; h_avail := h_avail c - amount; h_nonce := h_nonce c |},
       xor_bytes (firstn (Z.to_nat amount) (skipn (Z.to_nat size) (h_stream c))) (firstn (Z.to_nat amount) m), skipn (Z.to_nat amount) m)
    else (c, [], m) in
  let '(c, rest) := crypt_loop (length m) c m in
  (c, out ++ rest).
