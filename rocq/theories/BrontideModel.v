(** Model of src/brontide.c (encrypted transport), src/aead.c and hsk_hash_hkdf of
    src/hash.c.

    Parameters: the ChaCha20 key stream, Poly1305, SHA-256, HMAC-SHA-256 and the
    elliptic-curve functions of src/ec.c. Not modelled: failing allocations. *)
From Verif Require Import Common BioModel.

(** brontide.h:14-21 hsk_cs_t, without the AEAD working state *)
Record cs := mk_cs { c_nonce : Z; c_iv : list Z; c_key : list Z; c_salt : list Z; c_tag : list Z }.

(** brontide.h:39-73 hsk_brontide_t. [b_buf] is the first msg_pos bytes of msg. The
    curve context and the callbacks are parameters. [b_rand] is the randomness the
    next ephemeral key will use (private key and encoding entropy), drawn ahead. *)
Record br := mk_br {
  b_cs : cs; b_ck : list Z; b_temp : list Z; b_digest : list Z;
  b_init : bool; b_ls : list Z; b_le : list Z; b_rs : list Z; b_re : list Z;
  b_send : cs; b_recv : cs;
  b_state : Z; b_has_size : bool; b_buf : list Z; b_len : Z; b_rand : list Z * list Z }.

Section Brontide.
Variable chacha : list Z -> list Z -> nat -> Z.     (* key, iv: byte of the key stream from block 0 *)
Variable poly : list Z -> list Z -> list Z.         (* one-time key, data: 16-byte tag *)
Variable sha256 : list Z -> list Z.
Variable hmac : list Z -> list Z -> list Z.         (* data, key *)

(** aead.c:71, 92: chacha20 from the given stream position *)
Fixpoint xor_stream (k iv : list Z) (pos : nat) (d : list Z) : list Z :=
  match d with [] => [] | b :: d => Z.lxor b (chacha k iv pos) :: xor_stream k iv (S pos) d end.

(** aead.c:123-134 *)
Definition pad16 (n : Z) : list Z := if n mod 16 =? 0 then [] else repeat 0 (Z.to_nat (16 - n mod 16)).

(** aead.c:28-121: the tag over additional data and ciphertext. Block 0 of the key
    stream gives the one-time key (38-40). *)
Definition aead_tag (k iv ad ct : list Z) : list Z :=
  poly (xor_stream k iv 0 (repeat 0 32))
    (ad ++ pad16 (zlen ad) ++ ct ++ pad16 (zlen ct) ++ write_u64 (zlen ad) ++ write_u64 (zlen ct)).
(** aead.c:61-93: both directions use the stream from block 1 (64 bytes in). *)
Definition aead_encrypt (k iv d : list Z) : list Z := xor_stream k iv 64 d.
Definition aead_decrypt (k iv d : list Z) : list Z := xor_stream k iv 64 d.

(** hash.c:220-261 with no info: both outputs of 32 bytes *)
Definition hkdf (secret salt : list Z) : list Z * list Z :=
  let prk := hmac secret salt in
  let h1 := hmac [1] prk in
  let h2 := hmac (h1 ++ [2]) prk in
  (h1, h2).

(** brontide.c:57-65 *)
Definition cs_init : cs := mk_cs 0 (repeat 0 12) (repeat 0 32) (repeat 0 32) (repeat 0 16).
(** brontide.c:67-71 *)
Definition cs_update (c : cs) : cs :=
  mk_cs (c_nonce c) (firstn 4 (c_iv c) ++ write_u32 (c_nonce c) ++ skipn 8 (c_iv c)) (c_key c) (c_salt c) (c_tag c).
(** brontide.c:73-78 *)
Definition cs_init_key (c : cs) (key : list Z) : cs := cs_update (mk_cs 0 (c_iv c) key (c_salt c) (c_tag c)).
(** brontide.c:80-84 *)
Definition cs_init_saltkey (c : cs) (salt key : list Z) : cs :=
  cs_init_key (mk_cs (c_nonce c) (c_iv c) (c_key c) salt (c_tag c)) key.
(** brontide.c:86-100 *)
Definition cs_rotate_key (c : cs) : cs :=
  let '(h1, h2) := hkdf (c_key c) (c_salt c) in
  cs_init_key (mk_cs (c_nonce c) (c_iv c) (c_key c) h1 (c_tag c)) h2.
(** brontide.c:117-121 and 141-145: after each use *)
Definition cs_advance (c : cs) (tag : list Z) : cs :=
  let c := cs_update (mk_cs ((c_nonce c + 1) mod 4294967296) (c_iv c) (c_key c) (c_salt c) tag) in
  if c_nonce c =? 1000 then cs_rotate_key c else c.
(** brontide.c:102-122; no additional data is the same as empty additional data *)
Definition cs_encrypt (c : cs) (ad d : list Z) : list Z * cs :=
  let ct := aead_encrypt (c_key c) (c_iv c) d in
  (ct, cs_advance c (aead_tag (c_key c) (c_iv c) ad ct)).
(** brontide.c:124-146 *)
Definition cs_decrypt (c : cs) (ad d : list Z) : list Z * cs :=
  (aead_decrypt (c_key c) (c_iv c) d, cs_advance c (aead_tag (c_key c) (c_iv c) ad d)).
(** brontide.c:148-151: comparison of 16 bytes (poly1305.c) *)
Definition cs_verify (c : cs) (tag : list Z) : bool := beq (c_tag c) tag.

(** * Handshake *)
Variable pub : list Z -> option (list Z).             (* hsk_ec_create_pubkey *)
Variable ecdh : list Z -> list Z -> option (list Z).  (* hsk_ec_ecdh: public, private *)
Variable to_hash : list Z -> list Z -> list Z.        (* hsk_ec_pubkey_to_hash: key, entropy *)
Variable from_hash : list Z -> option (list Z).       (* hsk_ec_pubkey_from_hash *)
Variable verify_pub : list Z -> bool.                 (* hsk_ec_verify_pubkey *)

(** an assert on a result *)
Definition must {A B} (o : option A) (k : A -> outcome B) : outcome B :=
  match o with None => Abort | Some a => k a end.

Definition set_sym (b : br) (c : cs) (ck temp digest : list Z) : br :=
  mk_br c ck temp digest (b_init b) (b_ls b) (b_le b) (b_rs b) (b_re b) (b_send b) (b_recv b)
        (b_state b) (b_has_size b) (b_buf b) (b_len b) (b_rand b).

(** brontide.c:157-194 *)
Definition br_init (rand : list Z * list Z) : br :=
  let z := repeat 0 32 in
  mk_br cs_init z z z false z z (repeat 0 33) (repeat 0 33) cs_init cs_init 0 false [] 0 rand.

(** brontide.c:212-227 *)
Definition br_init_sym (b : br) (proto : list Z) : br :=
  let h := sha256 proto in set_sym b (cs_init_key (b_cs b) (repeat 0 32)) h (b_temp b) h.
(** brontide.c:229-238. The chaining key is both salt and output; it is read first. *)
Definition br_mix_key (b : br) (secret : list Z) : br :=
  let '(h1, h2) := hkdf secret (b_ck b) in
  set_sym b (cs_init_key (b_cs b) h2) h1 h2 (b_digest b).
(** brontide.c:240-262 *)
Definition br_mix_hash (b : br) (d : list Z) : br :=
  set_sym b (b_cs b) (b_ck b) (b_temp b) (sha256 (b_digest b ++ d)).
(** brontide.c:264-273 *)
Definition br_encrypt (b : br) (d : list Z) : list Z * br :=
  let '(ct, c) := cs_encrypt (b_cs b) (b_digest b) d in
  (ct, set_sym b c (b_ck b) (b_temp b) (sha256 (b_digest b ++ ct ++ c_tag c))).
(** brontide.c:275-288 *)
Definition br_decrypt (b : br) (ct tag : list Z) : list Z * br :=
  let h := sha256 (b_digest b ++ ct ++ tag) in
  let '(pt, c) := cs_decrypt (b_cs b) (b_digest b) ct in
  (pt, set_sym b c (b_ck b) (b_temp b) h).

(** brontide.c:27-32: the bytes of the two strings *)
Definition protocol_name : list Z :=
  [78; 111; 105; 115; 101; 95; 88; 75; 95; 115; 101; 99; 112; 50; 53; 54; 107; 49; 95; 67; 104; 97; 67; 104; 97; 80; 111; 108;
   121; 95; 83; 72; 65; 50; 53; 54; 43; 83; 86; 68; 87; 95; 83; 113; 117; 97; 114; 101; 100].
Definition prologue : list Z := [104; 110; 115].

(** brontide.c:290-333 (the parameter called local_pub is the private key) *)
Definition br_init_brontide (b : br) (initiator : bool) (our_key : list Z) (their_key : option (list Z)) : outcome br :=
  let b := mk_br (b_cs b) (b_ck b) (b_temp b) (b_digest b) initiator our_key (b_le b)
             (match their_key with Some k => k | None => repeat 0 33 end) (b_re b) (b_send b) (b_recv b)
             (b_state b) (b_has_size b) (b_buf b) (b_len b) (b_rand b) in
  let b := br_mix_hash (br_init_sym b protocol_name) prologue in
  if initiator then must their_key (fun k => Ok (br_mix_hash b k))
  else must (pub our_key) (fun p => Ok (br_mix_hash b p)).

(** brontide.c:343-351 and 392-400: a new ephemeral key, hashed in, and its encoding.
    A failing hsk_ec_pubkey_to_hash is not modelled. *)
Definition br_new_ephemeral (b : br) : outcome (list Z * br) :=
  let '(priv, entropy) := b_rand b in
  must (pub priv) (fun e =>
  let b := mk_br (b_cs b) (b_ck b) (b_temp b) (b_digest b) (b_init b) (b_ls b) priv (b_rs b) (b_re b) (b_send b) (b_recv b)
             (b_state b) (b_has_size b) (b_buf b) (b_len b) (b_rand b) in
  Ok (to_hash e entropy, br_mix_hash b e)).
(** brontide.c:353-356, 376-379, 402-405, 428-431, 449-451, 479-482 *)
Definition br_mix_dh (b : br) (public private : list Z) : outcome br :=
  must (ecdh public private) (fun s => Ok (br_mix_key b s)).

(** brontide.c:340-362 *)
Definition gen_act_one (b : br) : outcome (list Z * br) :=
  obind (br_new_ephemeral b) (fun '(uniform, b) =>
  obind (br_mix_dh b (b_rs b) (b_le b)) (fun b =>
  let '(_, b) := br_encrypt b [] in
  Ok (uniform ++ c_tag (b_cs b), b))).

(** brontide.c:369-374, 418-426: the remote ephemeral key. If the encoding is invalid
    the buffer is used uninitialised: [Ub]. *)
Definition br_remote_ephemeral (b : br) (e : list Z) : br :=
  br_mix_hash (mk_br (b_cs b) (b_ck b) (b_temp b) (b_digest b) (b_init b) (b_ls b) (b_le b) (b_rs b) e (b_send b) (b_recv b)
                 (b_state b) (b_has_size b) (b_buf b) (b_len b) (b_rand b)) e.
(** brontide.c:364-387 *)
Definition recv_act_one (b : br) (act : list Z) : outcome (bool * br) :=
  let u := firstn 64 act in let p := firstn 16 (skipn 64 act) in
  match from_hash u with
  | None => Ub
  | Some e =>
      let b := br_remote_ephemeral b e in
      obind (br_mix_dh b (b_re b) (b_ls b)) (fun b =>
      let '(_, b) := br_decrypt b [] p in
      Ok (cs_verify (b_cs b) p, b))
  end.
(** brontide.c:389-411 *)
Definition gen_act_two (b : br) : outcome (list Z * br) :=
  obind (br_new_ephemeral b) (fun '(uniform, b) =>
  obind (br_mix_dh b (b_re b) (b_le b)) (fun b =>
  let '(_, b) := br_encrypt b [] in
  Ok (uniform ++ c_tag (b_cs b), b))).
(** brontide.c:413-439 *)
Definition recv_act_two (b : br) (act : list Z) : outcome (bool * br) :=
  let u := firstn 64 act in let p := firstn 16 (skipn 64 act) in
  match from_hash u with
  | None => Ub
  | Some e =>
      if negb (verify_pub e) then Ok (false, b) else
      let b := br_remote_ephemeral b e in
      obind (br_mix_dh b (b_re b) (b_le b)) (fun b =>
      let '(_, b) := br_decrypt b [] p in
      Ok (cs_verify (b_cs b) p, b))
  end.
(** brontide.c:494-512 *)
Definition br_split (b : br) : br :=
  let '(h1, h2) := hkdf [] (b_ck b) in
  let '(sk, rk) := if b_init b then (h1, h2) else (h2, h1) in
  mk_br (b_cs b) (b_ck b) (b_temp b) (b_digest b) (b_init b) (b_ls b) (b_le b) (b_rs b) (b_re b)
        (cs_init_saltkey (b_send b) (b_ck b) sk) (cs_init_saltkey (b_recv b) (b_ck b) rk)
        (b_state b) (b_has_size b) (b_buf b) (b_len b) (b_rand b).
(** brontide.c:441-461 *)
Definition gen_act_three (b : br) : outcome (list Z * br) :=
  must (pub (b_ls b)) (fun p =>
  let '(ct, b) := br_encrypt b p in
  let tag1 := c_tag (b_cs b) in
  obind (br_mix_dh b (b_re b) (b_ls b)) (fun b =>
  let '(_, b) := br_encrypt b [] in
  Ok (ct ++ tag1 ++ c_tag (b_cs b), br_split b))).
(** brontide.c:463-492 *)
Definition recv_act_three (b : br) (act : list Z) : outcome (bool * br) :=
  let s1 := firstn 33 act in let p1 := firstn 16 (skipn 33 act) in let p2 := firstn 16 (skipn 49 act) in
  let '(rp, b) := br_decrypt b s1 p1 in
  if negb (cs_verify (b_cs b) p1) then Ok (false, b) else
  let b := mk_br (b_cs b) (b_ck b) (b_temp b) (b_digest b) (b_init b) (b_ls b) (b_le b) rp (b_re b) (b_send b) (b_recv b)
             (b_state b) (b_has_size b) (b_buf b) (b_len b) (b_rand b) in
  obind (br_mix_dh b (b_rs b) (b_le b)) (fun b =>
  let '(_, b) := br_decrypt b [] p2 in
  if negb (cs_verify (b_cs b) p2) then Ok (false, b) else Ok (true, br_split b)).

(** * The connection *)
(** The callbacks act on an environment [Env]; connect and read may also write, which
    changes the sending cipher, and may destroy the connection (the boolean). This is
    what after_brontide_connect and after_brontide_read (pool.c:1897-1916) can do. *)
Variable Env : Type.
Variable write_cb : Env -> list Z -> Z * Env.
Variable connect_cb : Env -> cs -> Env * cs * bool.
Variable read_cb : Env -> cs -> list Z -> Env * cs * bool.

Definition set_io (b : br) (s r : cs) (st : Z) (hs : bool) (buf : list Z) (len : Z) : br :=
  mk_br (b_cs b) (b_ck b) (b_temp b) (b_digest b) (b_init b) (b_ls b) (b_le b) (b_rs b) (b_re b) s r st hs buf len (b_rand b).
(** brontide.c:335-338 *)
Definition br_destroy (b : br) : br := set_io b (b_send b) (b_recv b) 0 (b_has_size b) (b_buf b) (b_len b).
Definition set_state (b : br) (st : Z) : br := set_io b (b_send b) (b_recv b) st (b_has_size b) (b_buf b) (b_len b).

(** brontide.c:530-568 *)
Definition br_on_connect (e : Env) (b : br) : outcome (Z * Env * br) :=
  if b_init b then
    obind (gen_act_one (set_state b 2)) (fun '(act1, b) =>
    let '(r, e) := write_cb e act1 in
    if negb (r =? 0) then Ok (r, e, br_destroy b)
    else Ok (0, e, set_io b (b_send b) (b_recv b) (b_state b) (b_has_size b) [] 80))
  else Ok (0, e, set_io b (b_send b) (b_recv b) 1 (b_has_size b) [] 80).

(** brontide.c:570-609 *)
Definition br_write (e : Env) (b : br) (d : list Z) : Z * Env * br :=
  if negb (b_state b =? 4) then (0, e, b) else
  let upd b c := set_io b c (b_recv b) (b_state b) (b_has_size b) (b_buf b) (b_len b) in
  let fail r e b := (r, e, br_destroy b) in
  let '(len, c) := cs_encrypt (b_send b) [] (write_u32 (zlen d)) in
  let b := upd b c in
  let '(r, e) := write_cb e len in if negb (r =? 0) then fail r e b else
  let '(r, e) := write_cb e (c_tag c) in if negb (r =? 0) then fail r e b else
  let '(ct, c) := cs_encrypt (b_send b) [] d in
  let b := upd b c in
  let '(r, e) := write_cb e ct in if negb (r =? 0) then fail r e b else
  let '(r, e) := write_cb e (c_tag c) in if negb (r =? 0) then fail r e b else
  (0, e, b).

(** get_i32 (bio.h:686-689) *)
Definition get_i32 (d : list Z) : Z := let v := le_val d in if v <? 2147483648 then v else v - 4294967296.

(** brontide.c:659-780. The result is the error code and the length of the next message
    (0 where the C code leaves it unset). *)
Definition br_parse (e : Env) (b : br) (d : list Z) : outcome (Z * Z * Env * br) :=
  if b_init b && (b_state b =? 2) then
    if negb (zlen d =? 80) then Abort else
    obind (recv_act_two b d) (fun '(ok, b) =>
    if negb ok then Ok (28, 0, e, b) else
    obind (gen_act_three b) (fun '(act3, b) =>
    let '(r, e) := write_cb e act3 in
    if negb (r =? 0) then Ok (r, 0, e, b) else
    let '(e, s, closed) := connect_cb e (b_send b) in
    Ok (0, 20, e, set_io b s (b_recv b) (if closed then 0 else 4) (b_has_size b) (b_buf b) (b_len b))))
  else if negb (b_init b) && (b_state b =? 1) then
    if negb (zlen d =? 80) then Abort else
    obind (recv_act_one b d) (fun '(ok, b) =>
    if negb ok then Ok (27, 0, e, b) else
    obind (gen_act_two b) (fun '(act2, b) =>
    let '(r, e) := write_cb e act2 in
    if negb (r =? 0) then Ok (r, 0, e, b) else
    Ok (0, 65, e, set_state b 3)))
  else if negb (b_init b) && (b_state b =? 3) then
    if negb (zlen d =? 65) then Abort else
    obind (recv_act_three b d) (fun '(ok, b) =>
    if negb ok then Ok (29, 0, e, b) else
    let '(e, s, closed) := connect_cb e (b_send b) in
    Ok (0, 20, e, set_io b s (b_recv b) (if closed then 0 else 4) (b_has_size b) (b_buf b) (b_len b)))
  else if negb (b_state b =? 4) then Abort
  else if negb (b_has_size b) then
    if negb ((b_len b =? 20) && (zlen d =? 20)) then Abort else
    let '(len, c) := cs_decrypt (b_recv b) [] (firstn 4 d) in
    let b := set_io b (b_send b) c (b_state b) (b_has_size b) (b_buf b) (b_len b) in
    if negb (cs_verify c (skipn 4 d)) then Ok (31, 0, e, b) else
    let size := get_i32 len in
    if (size <? 0) || (8000009 <? size) then Ok (30, 0, e, b)
    else Ok (0, size + 16, e, set_io b (b_send b) c (b_state b) true (b_buf b) (b_len b))
  else
    let n := Z.to_nat (zlen d - 16) in
    let '(pt, c) := cs_decrypt (b_recv b) [] (firstn n d) in
    let b := set_io b (b_send b) c (b_state b) (b_has_size b) (b_buf b) (b_len b) in
    if negb (cs_verify c (skipn n d)) then Ok (31, 0, e, b) else
    let '(e, s, closed) := read_cb e (b_send b) pt in
    Ok (0, 20, e, set_io b s c (if closed then 0 else b_state b) false (b_buf b) (b_len b)).

(** brontide.c:618-656. hsk_brontide_parse does not read msg_pos, so the model already
    empties the buffer when it is called. [None]: out of fuel. *)
Fixpoint br_loop (fuel : nat) (e : Env) (b : br) (data : list Z) : option (outcome (Z * Env * br)) :=
  match fuel with
  | O => None
  | S fuel =>
      if b_len b <=? zlen (b_buf b) + zlen data then
        if negb (zlen (b_buf b) <? b_len b) then Some Abort else
        let need := Z.to_nat (b_len b - zlen (b_buf b)) in
        let empty := set_io b (b_send b) (b_recv b) (b_state b) (b_has_size b) [] (b_len b) in
        match br_parse e empty (b_buf b ++ firstn need data) with
        | Ok (r, ml, e, b) =>
            if negb (r =? 0) then Some (Ok (r, e, br_destroy b))
            else if b_state b =? 0 then Some (Ok (0, e, b))
            else if ml =? 0 then Some Abort
            else br_loop fuel e (set_io b (b_send b) (b_recv b) (b_state b) (b_has_size b) [] ml) (skipn need data)
        | Err x => Some (Err x) | Abort => Some Abort | Ub => Some Ub
        end
      else Some (Ok (0, e, set_io b (b_send b) (b_recv b) (b_state b) (b_has_size b) (b_buf b ++ data) (b_len b)))
  end.
(** brontide.c:611-657 *)
Definition br_on_read (e : Env) (b : br) (data : list Z) : option (outcome (Z * Env * br)) :=
  if b_state b =? 0 then Some (Ok (0, e, b)) else br_loop (length data + 2) e b data.

(** Successive reads (pool.c:1846-1878): an error code ends the connection. *)
Fixpoint br_reads (e : Env) (b : br) (chunks : list (list Z)) : option (outcome (Z * Env * br)) :=
  match chunks with
  | [] => Some (Ok (0, e, b))
  | c :: cs => match br_on_read e b c with
               | Some (Ok (0, e, b)) => br_reads e b cs
               | r => r
               end
  end.
End Brontide.
