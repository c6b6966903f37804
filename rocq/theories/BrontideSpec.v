(** What the encrypted transport should do, stated without the model: the ChaCha20-
    Poly1305 construction of RFC 8439, a key schedule that moves to a new key every
    1000 uses, frames, and what a receiver makes of a byte stream. *)
From Verif Require Import Common.

Section Spec.
Variable chacha : list Z -> list Z -> nat -> Z.
Variable poly : list Z -> list Z -> list Z.
Variable hmac : list Z -> list Z -> list Z.

(** RFC 8439: the stream from block 1 on is xored with the text *)
Definition crypt (k iv p : list Z) : list Z :=
  map (fun '(i, b) => Z.lxor b (chacha k iv (64 + i))) (combine (seq 0 (length p)) p).
Definition zpad (l : list Z) : list Z := l ++ repeat 0 ((16 - length l mod 16) mod 16)%nat.
Definition mac (k iv ad ct : list Z) : list Z :=
  poly (map (chacha k iv) (seq 0 32)) (zpad ad ++ zpad ct ++ le_bytes 8 (zlen ad) ++ le_bytes 8 (zlen ct)).

(** RFC 5869 with empty info, two blocks *)
Definition kdf1 (secret salt : list Z) : list Z := hmac [1] (hmac secret salt).
Definition kdf2 (secret salt : list Z) : list Z := hmac (kdf1 secret salt ++ [2]) (hmac secret salt).

(** Key and salt of epoch [j]. *)
Fixpoint epoch (k s : list Z) (j : nat) : list Z * list Z :=
  match j with O => (k, s) | S j => let '(k, s) := epoch k s j in (kdf2 k s, kdf1 k s) end.
Definition iv_of (n : Z) : list Z := repeat 0 4 ++ le_bytes 4 n ++ repeat 0 4.

(** The Noise XK handshake, one definition per step of the Noise specification: [h] is
    the transcript hash, [ck] the chaining key, [tk] the message key, [t] a tag. [rs]
    and [is] are the static keys of responder and initiator, [ei] and [er] the ephemeral
    keys, [es], [ee] and [se] the shared secrets. *)
Section Noise.
Variable sha256 : list Z -> list Z.
Variable name prologue : list Z.
Variables rs ei er is es ee se : list Z.
Definition n_h2 := sha256 (sha256 (sha256 name ++ prologue) ++ rs).
Definition n_h3 := sha256 (n_h2 ++ ei).
Definition n_ck1 := kdf1 es (sha256 name).
Definition n_tk1 := kdf2 es (sha256 name).
Definition n_t1 := mac n_tk1 (iv_of 0) n_h3 [].
Definition n_h5 := sha256 (sha256 (n_h3 ++ n_t1) ++ er).
Definition n_ck2 := kdf1 ee n_ck1.
Definition n_tk2 := kdf2 ee n_ck1.
Definition n_t2 := mac n_tk2 (iv_of 0) n_h5 [].
Definition n_h6 := sha256 (n_h5 ++ n_t2).
Definition n_c3 := crypt n_tk2 (iv_of 1) is.
Definition n_t3 := mac n_tk2 (iv_of 1) n_h6 n_c3.
Definition n_h7 := sha256 (n_h6 ++ n_c3 ++ n_t3).
Definition n_ck3 := kdf1 se n_ck2.
Definition n_tk3 := kdf2 se n_ck2.
Definition n_t4 := mac n_tk3 (iv_of 0) n_h7 [].
(** initiator to responder, responder to initiator, and the salt of both *)
Definition n_key_ir := kdf1 [] n_ck3.
Definition n_key_ri := kdf2 [] n_ck3.
End Noise.

Section Direction.
Variables k s : list Z.
(** Use number [i] of one direction: key of epoch i / 1000, counter i mod 1000. *)
Definition key_at (i : Z) : list Z := fst (epoch k s (Z.to_nat (i / 1000))).
Definition salt_at (i : Z) : list Z := snd (epoch k s (Z.to_nat (i / 1000))).
Definition cipher (i : Z) (p : list Z) : list Z := crypt (key_at i) (iv_of (i mod 1000)) p.
Definition tag_at (i : Z) (ct : list Z) : list Z := mac (key_at i) (iv_of (i mod 1000)) [] ct.
Definition seal (i : Z) (p : list Z) : list Z := cipher i p ++ tag_at i (cipher i p).
Definition frame (i : Z) (m : list Z) : list Z := seal i (le_bytes 4 (zlen m)) ++ seal (i + 1) m.
Fixpoint frames (i : Z) (ms : list (list Z)) : list Z :=
  match ms with [] => [] | m :: ms => frame i m ++ frames (i + 2) ms end.

(** The ciphertext the sender of [ms] produced at use number [j], if any. *)
Fixpoint sealed (i : Z) (ms : list (list Z)) (j : Z) : option (list Z) :=
  match ms with
  | [] => None
  | m :: ms => if j =? i then Some (cipher i (le_bytes 4 (zlen m)))
               else if j =? i + 1 then Some (cipher (i + 1) m) else sealed (i + 2) ms j
  end.

(** Receiving [d] from use number [i] on, with application state [x]: the messages
    delivered and what becomes of the connection. *)
Variable X : Type.
Variable deliver : X -> list Z -> X * bool.       (* true: the application closes *)
Inductive fate := Open (x : X) (rest : list Z) | Shut (code : Z) (x : X).
Definition header (i : Z) (ct tag : list Z) (n : Z) : Prop :=
  length ct = 4%nat /\ tag = tag_at i ct /\ length tag = 16%nat /\ n = le_val (cipher i ct).
Inductive recv : Z -> X -> list Z -> list (list Z) -> fate -> Prop :=
| rv_short i x d : zlen d < 20 -> recv i x d [] (Open x d)
| rv_badhead i x ct tag r : length ct = 4%nat -> length tag = 16%nat -> tag <> tag_at i ct -> recv i x (ct ++ tag ++ r) [] (Shut 31 x)
| rv_size i x ct tag n r : header i ct tag n -> ~ 0 <= n <= 8000009 -> recv i x (ct ++ tag ++ r) [] (Shut 30 x)
| rv_part i x ct tag n r : header i ct tag n -> 0 <= n <= 8000009 -> zlen r < n + 16 -> recv i x (ct ++ tag ++ r) [] (Open x (ct ++ tag ++ r))
| rv_badbody i x ct tag n c t r : header i ct tag n -> 0 <= n <= 8000009 -> zlen c = n -> length t = 16%nat ->
    t <> tag_at (i + 1) c -> recv i x (ct ++ tag ++ c ++ t ++ r) [] (Shut 31 x)
| rv_msg i x ct tag n c t r x' ms f : header i ct tag n -> 0 <= n <= 8000009 -> zlen c = n -> length t = 16%nat ->
    t = tag_at (i + 1) c -> deliver x (cipher (i + 1) c) = (x', false) -> recv (i + 2) x' r ms f ->
    recv i x (ct ++ tag ++ c ++ t ++ r) (cipher (i + 1) c :: ms) f
| rv_last i x ct tag n c t r x' : header i ct tag n -> 0 <= n <= 8000009 -> zlen c = n -> length t = 16%nat ->
    t = tag_at (i + 1) c -> deliver x (cipher (i + 1) c) = (x', true) ->
    recv i x (ct ++ tag ++ c ++ t ++ r) [cipher (i + 1) c] (Shut 0 x').

(** [d] contains a ciphertext with a valid tag for a use number at which the sender of
    [ms] sealed something else or nothing. *)
Definition forged (i : Z) (ms : list (list Z)) (d : list Z) : Prop :=
  exists a ct r j, d = a ++ ct ++ tag_at j ct ++ r /\ i <= j /\ sealed i ms j <> Some ct.
End Direction.
End Spec.
Arguments Open {X}. Arguments Shut {X}.
