(** AEAD_CHACHA20_POLY1305 as in RFC 8439, 2.6 and 2.8. *)
From Verif Require Import Common ChaChaSpec PolySpec.

Definition one_time_key (key nonce : list Z) : list Z := firstn 32 (chacha_block key 0 nonce).
Definition pad16 (l : list Z) : list Z := l ++ repeat 0 ((16 - length l mod 16) mod 16)%nat.
Definition cipher (key nonce m : list Z) : list Z := chacha20 key 1 nonce m.
Definition tag (key nonce ad ct : list Z) : list Z :=
  poly1305 (one_time_key key nonce) (pad16 ad ++ pad16 ct ++ le_bytes 8 (zlen ad) ++ le_bytes 8 (zlen ct)).
