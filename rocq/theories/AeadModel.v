(** Model of src/aead.c on top of the cipher and the authenticator. [uint64_t] is a number
    below 2^64. *)
From Verif Require Import Common BioModel.
From Verif Require ChaChaModel PolyModel.

(** aead.h:13-20 hsk_aead_t *)
Record aead := { a_chacha : ChaChaModel.chacha; a_poly : PolyModel.poly; a_aad : Z; a_cipher : Z; a_has : bool; a_key : list Z }.

(** aead.c:17-26 hsk_aead_init *)
Definition aead_init : aead :=
  {| a_chacha := {| ChaChaModel.h_sched := repeat 0 16; ChaChaModel.h_stream := repeat 0 64; ChaChaModel.h_avail := 0; ChaChaModel.h_nonce := 8 |};
     a_poly := {| PolyModel.p_r := (0, 0, 0); PolyModel.p_h := (0, 0, 0); PolyModel.p_pad := (0, 0); PolyModel.p_left := 0; PolyModel.p_buf := repeat 0 16; PolyModel.p_final := false |};
     a_aad := 0; a_cipher := 0; a_has := false; a_key := repeat 0 32 |}.
(** aead.c:28-52 hsk_aead_setup *)
Definition aead_setup (a : aead) (key iv : list Z) : outcome aead :=
  let c := ChaChaModel.keysetup (a_chacha a) key 32 in
  let c := ChaChaModel.ivsetup c iv 12 in
  let c := ChaChaModel.counter_set c 0 in
  let '(c, k) := ChaChaModel.encrypt c (repeat 0 32) in
  let p := PolyModel.poly_init (a_poly a) k in
  let '(c, _) := ChaChaModel.encrypt c (repeat 0 32) in
  if negb (ChaChaModel.counter_get c =? 1) then Abort
  else Ok {| a_chacha := c; a_poly := p; a_aad := 0; a_cipher := 0; a_has := false; a_key := k |}.
(** aead.c:54-59 hsk_aead_aad *)
Definition aead_aad (a : aead) (d : list Z) : outcome aead :=
  if a_has a then Abort
  else Ok {| a_chacha := a_chacha a; a_poly := PolyModel.poly_update (a_poly a) d; a_aad := (a_aad a + zlen d) mod 2 ^ 64; a_cipher := a_cipher a; a_has := a_has a; a_key := a_key a |}.
(** aead.c:126-137 hsk_aead_pad16 *)
Definition aead_pad16 (p : PolyModel.poly) (size : Z) : PolyModel.poly :=
  let size := size mod 16 in
  if size =? 0 then p else PolyModel.poly_update p (firstn (Z.to_nat (16 - size)) (repeat 0 16)).
(** aead.c:68-69, 86-87 and 99-100 *)
Definition first_pad (a : aead) : PolyModel.poly := if a_has a then a_poly a else aead_pad16 (a_poly a) (a_aad a).
(** aead.c:61-76 hsk_aead_encrypt *)
Definition aead_encrypt (a : aead) (d : list Z) : aead * list Z :=
  let p := first_pad a in
  let '(c, out) := ChaChaModel.encrypt (a_chacha a) d in
  ({| a_chacha := c; a_poly := PolyModel.poly_update p out; a_aad := a_aad a; a_cipher := (a_cipher a + zlen d) mod 2 ^ 64; a_has := true; a_key := a_key a |}, out).
(** aead.c:78-94 hsk_aead_decrypt *)
Definition aead_decrypt (a : aead) (d : list Z) : aead * list Z :=
  let p := first_pad a in
  let p := PolyModel.poly_update p d in
  let '(c, out) := ChaChaModel.encrypt (a_chacha a) d in
  ({| a_chacha := c; a_poly := p; a_aad := a_aad a; a_cipher := (a_cipher a + zlen d) mod 2 ^ 64; a_has := true; a_key := a_key a |}, out).
(** aead.c:96-105 hsk_aead_auth *)
Definition aead_auth (a : aead) (d : list Z) : aead :=
  let p := first_pad a in
  {| a_chacha := a_chacha a; a_poly := PolyModel.poly_update p d; a_aad := a_aad a; a_cipher := (a_cipher a + zlen d) mod 2 ^ 64; a_has := true; a_key := a_key a |}.
(** aead.c:107-124 hsk_aead_final *)
Definition aead_final (a : aead) : aead * list Z :=
  let len := write_u64 (a_aad a) ++ write_u64 (a_cipher a) in
  let p := first_pad a in
  let p := aead_pad16 p (a_cipher a) in
  let '(p, tag) := PolyModel.poly_finish (PolyModel.poly_update p len) in
  ({| a_chacha := a_chacha a; a_poly := p; a_aad := a_aad a; a_cipher := a_cipher a; a_has := a_has a; a_key := a_key a |}, tag).
(** aead.c:139-142 hsk_aead_verify *)
Definition aead_verify (a b : list Z) : bool := negb (PolyModel.poly_verify a b =? 0).
(** brontide.c:104-116 and 126-140: what a cipher state does with its context; [None] is a
    null pointer for the additional data *)
Definition aad_opt (a : aead) (ad : option (list Z)) : outcome aead := match ad with None => Ok a | Some d => aead_aad a d end.
Definition seal (a : aead) (key iv : list Z) (ad : option (list Z)) (d : list Z) : outcome (list Z * list Z * aead) :=
  obind (aead_setup a key iv) (fun a => obind (aad_opt a ad) (fun a =>
  let '(a, out) := aead_encrypt a d in let '(a, tag) := aead_final a in Ok (out, tag, a))).
Definition unseal (a : aead) (key iv : list Z) (ad : option (list Z)) (d : list Z) : outcome (list Z * list Z * aead) :=
  obind (aead_setup a key iv) (fun a => obind (aad_opt a ad) (fun a =>
  let '(a, out) := aead_decrypt a d in let '(a, tag) := aead_final a in Ok (out, tag, a))).
