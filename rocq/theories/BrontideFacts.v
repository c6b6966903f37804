(** Lemmas about the transport model: ciphers against the key schedule, writing,
    reading. *)
From Verif Require Import Common CommonFacts BioModel BioFacts BrontideModel BrontideSpec.

Section Facts.
Variable chacha : list Z -> list Z -> nat -> Z.
Variable poly : list Z -> list Z -> list Z.
Variable hmac : list Z -> list Z -> list Z.

Lemma xor_stream_map k iv : forall d pos,
  xor_stream chacha k iv pos d = map (fun '(i, b) => Z.lxor b (chacha k iv (pos + i))) (combine (seq 0 (length d)) d).
Proof.
  clear poly hmac. assert (G : forall d pos o, xor_stream chacha k iv (pos + o) d = map (fun '(i, b) => Z.lxor b (chacha k iv (pos + i))) (combine (seq o (length d)) d)).
  { induction d as [|b d IH]; intros pos o; cbn; auto. f_equal. rewrite <- IH. f_equal. lia. }
  intros d pos. rewrite <- (G d pos 0%nat). f_equal. lia.
Qed.
Lemma crypt_xor k iv d : xor_stream chacha k iv 64 d = crypt chacha k iv d.
Proof. apply xor_stream_map. Qed.
Lemma xor_length k iv : forall d pos, length (xor_stream chacha k iv pos d) = length d.
Proof. induction d; intros; cbn; auto. Qed.
Lemma xor_invol k iv : forall d pos, xor_stream chacha k iv pos (xor_stream chacha k iv pos d) = d.
Proof. induction d as [|b d IH]; intros; cbn; auto. rewrite IH. f_equal. now rewrite Z.lxor_assoc, Z.lxor_nilpotent, Z.lxor_0_r. Qed.
Lemma crypt_length k iv d : length (crypt chacha k iv d) = length d.
Proof. rewrite <- crypt_xor. apply xor_length. Qed.
Lemma crypt_invol k iv d : crypt chacha k iv (crypt chacha k iv d) = d.
Proof. rewrite <- !crypt_xor. apply xor_invol. Qed.

Lemma zero_stream k iv : forall n pos, xor_stream chacha k iv pos (repeat 0 n) = map (chacha k iv) (seq pos n).
Proof. induction n as [|n IH]; intros pos; cbn [repeat xor_stream seq map]; auto. rewrite IH, Z.lxor_0_l. reflexivity. Qed.

Lemma pad_zpad l : l ++ pad16 (zlen l) = zpad l.
Proof.
  clear chacha poly hmac. unfold zpad, pad16. f_equal. pose proof (Nat.mod_upper_bound (length l) 16 ltac:(discriminate)) as U.
  assert (M : zlen l mod 16 = Z.of_nat (length l mod 16)) by (unfold zlen; rewrite Nat2Z.inj_mod; reflexivity). rewrite M.
  set (m := (length l mod 16)%nat) in *. clearbody m. destruct m as [|m]; [reflexivity|].
  destruct (Z.eqb_spec (Z.of_nat (S m)) 0); [lia|]. f_equal. rewrite Nat.mod_small by lia. lia.
Qed.
Lemma aead_tag_mac k iv ad ct : aead_tag chacha poly k iv ad ct = mac chacha poly k iv ad ct.
Proof.
  unfold aead_tag, mac. rewrite zero_stream. f_equal. rewrite <- !pad_zpad, <- !app_assoc. reflexivity.
Qed.

Lemma hkdf_kdf a b : hkdf hmac a b = (kdf1 hmac a b, kdf2 hmac a b).
Proof. reflexivity. Qed.

(** A cipher at use number [i] of the schedule with key [k] and salt [s]. *)
Definition cs_at (k s : list Z) (i : Z) (c : cs) : Prop :=
  0 <= i /\ c_nonce c = i mod 1000 /\ c_iv c = iv_of (i mod 1000) /\ c_key c = key_at hmac k s i /\ c_salt c = salt_at hmac k s i.

Lemma cs_update_iv n m c : c_iv c = iv_of m -> c_nonce c = n -> c_iv (cs_update c) = iv_of n.
Proof. intros E <-. unfold cs_update. cbn [c_iv]. rewrite E. reflexivity. Qed.

Lemma cs_at_start k s c : c_iv c = iv_of 0 \/ (exists n, c_iv c = iv_of n) -> cs_at k s 0 (cs_init_saltkey c s k).
Proof.
  intros H. assert (E : exists n, c_iv c = iv_of n) by (destruct H; eauto). destruct E as [n E].
  unfold cs_init_saltkey, cs_init_key, cs_at. repeat split; try reflexivity; try lia. apply (cs_update_iv _ n); [exact E|reflexivity].
Qed.

Lemma epoch_step i : 0 <= i -> i mod 1000 <> 999 -> (i + 1) / 1000 = i / 1000 /\ (i + 1) mod 1000 = i mod 1000 + 1.
Proof. intros. lia. Qed.
Lemma epoch_roll i : 0 <= i -> i mod 1000 = 999 -> (i + 1) / 1000 = i / 1000 + 1 /\ (i + 1) mod 1000 = 0.
Proof. intros. lia. Qed.

Lemma cs_advance_at k s i c t : cs_at k s i c -> cs_at k s (i + 1) (cs_advance hmac c t) /\ c_tag (cs_advance hmac c t) = t.
Proof.
  intros (Hi & N & V & K & Sl). pose proof (Z.mod_pos_bound i 1000 ltac:(lia)) as U. unfold cs_advance. rewrite N.
  rewrite (Z.mod_small (i mod 1000 + 1)) by lia. cbn [c_nonce cs_update].
  destruct (Z.eqb_spec (i mod 1000 + 1) 1000) as [E|E].
  - destruct (epoch_roll i Hi ltac:(lia)) as [E1 E2]. unfold cs_rotate_key. cbn [c_key c_salt cs_update]. rewrite hkdf_kdf.
    unfold cs_at, key_at, salt_at. rewrite E1, E2. replace (Z.to_nat (i / 1000 + 1)) with (S (Z.to_nat (i / 1000))) by lia. cbn [epoch].
    unfold key_at, salt_at in K, Sl. destruct (epoch hmac k s (Z.to_nat (i / 1000))) as [k' s']. cbn [fst snd] in *.
    split; [|reflexivity]. split; [lia|]. split; [reflexivity|]. split; [|rewrite <- K, <- Sl; split; reflexivity].
    unfold cs_init_key. apply (cs_update_iv _ (i mod 1000 + 1)); [|reflexivity]. cbn [c_iv]. change (firstn 4 (c_iv c)) with (firstn 4 (c_iv c)).
    rewrite V. reflexivity.
  - destruct (epoch_step i Hi ltac:(lia)) as [E1 E2]. unfold cs_at, key_at, salt_at. rewrite E1, E2. unfold key_at, salt_at in K, Sl.
    split; [|reflexivity]. split; [lia|]. split; [reflexivity|]. split; [|auto]. cbn [c_iv]. rewrite V. reflexivity.
Qed.

Notation cipher := (cipher chacha hmac).
Notation tag_at := (tag_at chacha poly hmac).

Lemma cs_encrypt_at k s i c p : cs_at k s i c ->
  exists c', cs_encrypt chacha poly hmac c [] p = (cipher k s i p, c') /\ cs_at k s (i + 1) c' /\ c_tag c' = tag_at k s i (cipher k s i p).
Proof.
  intros H. pose proof H as (Hi & N & V & K & Sl). unfold cs_encrypt, aead_encrypt. rewrite V, K, crypt_xor, aead_tag_mac.
  eexists. split; [reflexivity|]. now apply cs_advance_at.
Qed.
Lemma cs_decrypt_at k s i c p : cs_at k s i c ->
  exists c', cs_decrypt chacha poly hmac c [] p = (cipher k s i p, c') /\ cs_at k s (i + 1) c' /\ c_tag c' = tag_at k s i p.
Proof.
  intros H. pose proof H as (Hi & N & V & K & Sl). unfold cs_decrypt, aead_decrypt. rewrite V, K, crypt_xor, aead_tag_mac.
  eexists. split; [reflexivity|]. now apply cs_advance_at.
Qed.
Lemma cipher_length k s i p : length (cipher k s i p) = length p.
Proof. apply crypt_length. Qed.
Lemma cipher_invol k s i p : cipher k s i (cipher k s i p) = p.
Proof. apply crypt_invol. Qed.
Lemma cipher_inj k s i p q : cipher k s i p = cipher k s i q -> p = q.
Proof. intros E. rewrite <- (cipher_invol k s i p), E. apply cipher_invol. Qed.

(** * Writing *)
Section Write.
Variable Env : Type.
Variable write_cb : Env -> list Z -> Z * Env.

(** The pieces handed to the socket, in order, until one is refused. *)
Fixpoint offer (e : Env) (ps : list (list Z)) : Z * Env :=
  match ps with
  | [] => (0, e)
  | p :: ps => let '(r, e) := write_cb e p in if r =? 0 then offer e ps else (r, e)
  end.
Definition pieces (k s : list Z) (i : Z) (m : list Z) : list (list Z) :=
  [cipher k s i (le_bytes 4 (zlen m)); tag_at k s i (cipher k s i (le_bytes 4 (zlen m)));
   cipher k s (i + 1) m; tag_at k s (i + 1) (cipher k s (i + 1) m)].

Lemma br_write_at k s i e b m : b_state b = 4 -> cs_at k s i (b_send b) ->
  exists r e' b', br_write chacha poly hmac Env write_cb e b m = (r, e', b') /\ offer e (pieces k s i m) = (r, e') /\
    b_recv b' = b_recv b /\ b_has_size b' = b_has_size b /\ b_buf b' = b_buf b /\ b_len b' = b_len b /\
    if r =? 0 then b_state b' = 4 /\ cs_at k s (i + 2) (b_send b') else b_state b' = 0.
Proof.
  intros S H. unfold br_write. rewrite S. zred. cbn [negb]. destruct (cs_encrypt_at k s i _ (write_u32 (zlen m)) H) as (c1 & -> & H1 & T1).
  cbn [offer pieces]. change (write_u32 (zlen m)) with (le_bytes 4 (zlen m)) in *. rewrite T1.
  destruct (write_cb e (cipher k s i (le_bytes 4 (zlen m)))) as [r1 e1]. destruct (Z.eqb_spec r1 0) as [->|N1]; cbn [negb].
  2:{ do 3 eexists. split; [reflexivity|]. destruct (Z.eqb_spec r1 0); [congruence|]. auto 10. }
  destruct (write_cb e1 _) as [r2 e2]. destruct (Z.eqb_spec r2 0) as [->|N2]; cbn [negb].
  2:{ do 3 eexists. split; [reflexivity|]. destruct (Z.eqb_spec r2 0); [congruence|]. auto 10. }
  cbn [b_send set_io]. destruct (cs_encrypt_at k s (i + 1) c1 m H1) as (c2 & -> & H2 & T2). rewrite T2. replace (i + 1 + 1) with (i + 2) in H2 by lia.
  destruct (write_cb e2 (cipher k s (i + 1) m)) as [r3 e3]. destruct (Z.eqb_spec r3 0) as [->|N3]; cbn [negb].
  2:{ do 3 eexists. split; [reflexivity|]. destruct (Z.eqb_spec r3 0); [congruence|]. auto 10. }
  destruct (write_cb e3 _) as [r4 e4]. destruct (Z.eqb_spec r4 0) as [->|N4]; cbn [negb].
  2:{ do 3 eexists. split; [reflexivity|]. destruct (Z.eqb_spec r4 0); [congruence|]. auto 10. }
  do 3 eexists. split; [reflexivity|]. zred. auto 10.
Qed.
End Write.

(** * Reading *)
Section Read.
Variable sha256 : list Z -> list Z.
Variable pub : list Z -> option (list Z).
Variable ecdh : list Z -> list Z -> option (list Z).
Variable to_hash : list Z -> list Z -> list Z.
Variable from_hash : list Z -> option (list Z).
Variable verify_pub : list Z -> bool.
Variable Env : Type.
Variable write_cb : Env -> list Z -> Z * Env.
Variable connect_cb : Env -> cs -> Env * cs * bool.
Variable read_cb : Env -> cs -> list Z -> Env * cs * bool.
Variables k s : list Z.
Hypothesis chacha_byte : forall a b n, is_byte (chacha a b n).

Notation parse := (br_parse chacha poly sha256 hmac pub ecdh to_hash from_hash verify_pub Env write_cb connect_cb read_cb).
Notation loop := (br_loop chacha poly sha256 hmac pub ecdh to_hash from_hash verify_pub Env write_cb connect_cb read_cb).
Notation on_read := (br_on_read chacha poly sha256 hmac pub ecdh to_hash from_hash verify_pub Env write_cb connect_cb read_cb).
Notation reads := (br_reads chacha poly sha256 hmac pub ecdh to_hash from_hash verify_pub Env write_cb connect_cb read_cb).
Definition xdeliver (x : Env * cs) (m : list Z) : (Env * cs) * bool :=
  let '(e, c, closed) := read_cb (fst x) (snd x) m in ((e, c), closed).
Notation recv := (recv chacha poly hmac k s (Env * cs) xdeliver).
Notation header := (header chacha poly hmac k s).

Lemma lxor_byte a b : is_byte a -> is_byte b -> is_byte (Z.lxor a b).
Proof.
  clear. unfold is_byte. intros Ha Hb. change 256 with (2 ^ 8) in *.
  assert (forall z, 0 <= z < 2 ^ 8 <-> 0 <= z /\ forall n, 8 <= n -> Z.testbit z n = false) as T.
  { intros z. split.
    - intros H. split; [lia|]. intros n Hn. apply Z.testbit_false; [lia|]. rewrite Z.div_small; [reflexivity|].
      assert (2 ^ 8 <= 2 ^ n) by (apply Z.pow_le_mono_r; lia). lia.
    - intros [P H]. split; [exact P|]. destruct (Z_lt_le_dec z (2 ^ 8)); [auto|exfalso].
      assert (8 <= Z.log2 z) by (apply Z.log2_le_pow2; lia). specialize (H (Z.log2 z) ltac:(lia)). rewrite Z.bit_log2 in H; [discriminate|lia]. }
  apply T. apply T in Ha, Hb. split; [now apply Z.lxor_nonneg|]. intros n Hn. rewrite Z.lxor_spec, (proj2 Ha), (proj2 Hb) by lia. reflexivity.
Qed.
Lemma cipher_bytes a b i d : bytes_ok d -> bytes_ok (cipher a b i d).
Proof.
  intros H. unfold BrontideSpec.cipher. rewrite <- crypt_xor. generalize 64%nat as pos. induction H as [|z d Hz H IH]; intros pos; cbn; constructor.
  - apply lxor_byte; [exact Hz|apply chacha_byte].
  - apply IH.
Qed.
Lemma i32_range d : bytes_ok d -> length d = 4%nat -> (get_i32 d <? 0) || (8000009 <? get_i32 d) = negb ((0 <=? le_val d) && (le_val d <=? 8000009)) /\
  (0 <= le_val d <= 8000009 -> get_i32 d = le_val d).
Proof.
  clear. intros B L. pose proof (le_val_bound d B) as V. rewrite L in V. change (256 ^ Z.of_nat 4) with 4294967296 in V. unfold get_i32.
  destruct (Z.ltb_spec (le_val d) 2147483648), (Z.leb_spec 0 (le_val d)), (Z.leb_spec (le_val d) 8000009); try lia; cbn [andb negb].
  all: split; try lia.
Qed.

(** Connection states of an established connection. [pend] are the bytes since the last
    complete frame. *)
Definition conn (i : Z) (b : br) (pend : list Z) : Prop :=
  b_state b = 4 /\
  if b_has_size b then
    exists ct tag, header i ct tag (b_len b - 16) /\ 0 <= b_len b - 16 <= 8000009 /\ cs_at k s (i + 1) (b_recv b) /\ pend = ct ++ tag ++ b_buf b
  else b_len b = 20 /\ cs_at k s i (b_recv b) /\ pend = b_buf b.
Definition settles (r : option (outcome (Z * Env * br))) (i : Z) (ms : list (list Z)) (f : fate (Env * cs)) : Prop :=
  match f with
  | Open x p => exists b, r = Some (Ok (0, fst x, b)) /\ b_send b = snd x /\ conn (i + 2 * zlen ms) b p /\ zlen (b_buf b) < b_len b /\ bytes_ok (b_buf b)
  | Shut code x => exists b, r = Some (Ok (code, fst x, b)) /\ b_send b = snd x /\ b_state b = 0
  end.

Lemma settles_step r i ms f m : settles r (i + 2) ms f -> settles r i (m :: ms) f.
Proof. destruct f; cbn [settles]; auto. rewrite zlen_cons. now replace (i + 2 * (1 + zlen ms)) with (i + 2 + 2 * zlen ms) by lia. Qed.

Lemma loop_recv : forall fuel i b e data pend, conn i b pend -> zlen (b_buf b) < b_len b -> bytes_ok (b_buf b) -> bytes_ok data ->
  (length data < fuel)%nat ->
  exists ms f, recv i (e, b_send b) (pend ++ data) ms f /\ settles (loop fuel e b data) i ms f.
Proof.
  induction fuel as [|fuel IH]; intros i b e data pend C L Bb Bd Hf; [lia|]. cbn [br_loop].
  destruct (Z.leb_spec (b_len b) (zlen (b_buf b) + zlen data)) as [Le|Gt].
  2:{ exists [], (Open (e, b_send b) (pend ++ data)). destruct C as [St C]. split.
      - destruct (b_has_size b).
        + destruct C as (ct & tag & Hd & Hn & Cs & ->). rewrite <- !app_assoc. eapply rv_part; eauto. rewrite zlen_app. lia.
        + destruct C as (Hl & Cs & ->). apply rv_short. rewrite zlen_app. lia.
      - cbn [settles fst snd]. eexists. split; [reflexivity|]. cbn [b_send set_io b_buf b_len]. split; auto. rewrite zlen_app.
        change (zlen (@nil (list Z))) with 0. rewrite Z.mul_0_r, Z.add_0_r.
        split; [|split; [lia|now apply bytes_ok_app]]. unfold conn. cbn [b_state b_has_size b_len b_recv b_buf set_io]. split; auto.
        destruct (b_has_size b).
        + destruct C as (ct & tag & Hd & Hn & Cs & ->). exists ct, tag. rewrite <- !app_assoc. auto.
        + destruct C as (Hl & Cs & ->). auto. }
  destruct (Z.ltb_spec (zlen (b_buf b)) (b_len b)) as [_|]; [|lia]. cbn [negb].
  set (need := Z.to_nat (b_len b - zlen (b_buf b))).
  assert (Hneed : (0 < need <= length data)%nat) by (unfold need, zlen in *; lia).
  rewrite <- (firstn_skipn need data) in Bd. apply bytes_ok_app in Bd as [Bf Br].
  set (d := b_buf b ++ firstn need data).
  assert (Ld : zlen d = b_len b).
  { unfold d. rewrite zlen_app. unfold zlen at 2. rewrite firstn_length_le by lia. unfold need. unfold zlen in *. lia. }
  assert (Bdd : bytes_ok d) by (apply bytes_ok_app; auto).
  assert (Ed : b_buf b ++ data = d ++ skipn need data) by (unfold d; now rewrite <- app_assoc, firstn_skipn).
  assert (Lr : (length (skipn need data) + need = length data)%nat) by (rewrite skipn_length; lia).
  destruct C as [St C]. unfold br_parse. cbn [b_init b_state b_has_size b_len b_recv b_send b_buf set_io]. rewrite St. zred. cbn [negb andb]. rewrite !andb_false_r. destruct (b_has_size b) eqn:Hs; cbn [negb].
  - (* payload *)
    destruct C as (ct & tag & Hd & Hn & Cs & ->). rewrite <- !app_assoc, Ed.
    set (n := Z.to_nat (zlen d - 16)). assert (Esp : d ++ skipn need data = firstn n d ++ skipn n d ++ skipn need data) by (rewrite app_assoc, firstn_skipn; reflexivity). rewrite Esp.
    assert (Ln : zlen (firstn n d) = b_len b - 16) by (unfold zlen in *; rewrite firstn_length_le; unfold n; lia).
    assert (Lt : length (skipn n d) = 16%nat) by (rewrite skipn_length; unfold n, zlen in *; lia).
    destruct (cs_decrypt_at k s (i + 1) _ (firstn n d) Cs) as (c' & -> & C' & T'). unfold cs_verify. rewrite T'.
    destruct (beq (tag_at k s (i + 1) (firstn n d)) (skipn n d)) eqn:Eb.
    2:{ apply beq_false_iff in Eb. cbn [negb]. zred. exists [], (Shut 31 (e, b_send b)). split.
        - eapply rv_badbody; eauto.
        - cbn. eexists. split; [reflexivity|]. auto. }
    apply beq_true_iff in Eb. cbn [negb b_send set_io].
    destruct (read_cb e (b_send b) (cipher k s (i + 1) (firstn n d))) as [[e' s'] closed] eqn:Ec. zred. cbn [negb b_state set_io].
    assert (Dl : xdeliver (e, b_send b) (cipher k s (i + 1) (firstn n d)) = ((e', s'), closed)) by (unfold xdeliver; cbn [fst snd]; now rewrite Ec).
    destruct closed; zred.
    + exists [cipher k s (i + 1) (firstn n d)], (Shut 0 (e', s')). split; [eapply rv_last; eauto|]. cbn. eexists. split; [reflexivity|]. auto.
    + replace (i + 1 + 1) with (i + 2) in C' by lia.
      match goal with |- context [loop fuel e' ?b' _] => destruct (IH (i + 2) b' e' (skipn need data) []) as (ms & f & R & G) end.
      * unfold conn. cbn. repeat split; auto; apply C'.
      * reflexivity.
      * constructor.
      * exact Br.
      * lia.
      * cbn [app b_send set_io] in R. exists (cipher k s (i + 1) (firstn n d) :: ms), f. split; [eapply rv_msg; eauto|]. apply settles_step. exact G.
  - (* header *)
    destruct C as (Hl & Cs & ->). rewrite Ed, Hl. assert (L20 : zlen d = 20) by lia. rewrite L20. zred. cbn [negb andb].
    destruct (cs_decrypt_at k s i _ (firstn 4 d) Cs) as (c' & -> & C' & T'). unfold cs_verify. rewrite T'.
    assert (Esp : d ++ skipn need data = firstn 4 d ++ skipn 4 d ++ skipn need data) by (rewrite app_assoc, firstn_skipn; reflexivity). rewrite Esp.
    assert (L4 : length (firstn 4 d) = 4%nat) by (apply firstn_length_le; unfold zlen in *; lia).
    assert (L16 : length (skipn 4 d) = 16%nat) by (rewrite skipn_length; unfold zlen in *; lia).
    destruct (beq (tag_at k s i (firstn 4 d)) (skipn 4 d)) eqn:Eb.
    2:{ apply beq_false_iff in Eb. cbn [negb]. zred. exists [], (Shut 31 (e, b_send b)). split.
        - apply rv_badhead; auto.
        - cbn. eexists. split; [reflexivity|]. auto. }
    apply beq_true_iff in Eb. cbn [negb].
    assert (Bp : bytes_ok (cipher k s i (firstn 4 d))) by (apply cipher_bytes; now apply bytes_ok_firstn).
    destruct (i32_range _ Bp) as [Hc Hv]; [now rewrite cipher_length|]. rewrite Hc.
    assert (Hd : header i (firstn 4 d) (skipn 4 d) (le_val (cipher k s i (firstn 4 d)))) by (unfold BrontideSpec.header; auto).
    clear Hc. remember (le_val (cipher k s i (firstn 4 d))) as n eqn:En. clear En.
    destruct ((0 <=? n) && (n <=? 8000009)) eqn:Er; cbn [negb].
    2:{ change (30 =? 0) with false. cbn [negb]. exists [], (Shut 30 (e, b_send b)). split.
        - eapply rv_size; eauto. apply andb_false_iff in Er. destruct Er as [Er|Er]; apply Z.leb_gt in Er; lia.
        - cbn. eexists. split; [reflexivity|]. auto. }
    apply andb_true_iff in Er as [Er1 Er2]. apply Z.leb_le in Er1, Er2. rewrite Hv by lia. change (0 =? 0) with true. cbn [negb b_state set_io]. change (4 =? 0) with false.
    destruct (Z.eqb_spec (n + 16) 0) as [X|_]; [lia|].
    match goal with |- context [loop fuel e ?b' _] => destruct (IH i b' e (skipn need data) (firstn 4 d ++ skipn 4 d ++ [])) as (ms & f & R & G) end.
    + unfold conn. cbn. split; auto. exists (firstn 4 d), (skipn 4 d). replace (n + 16 - 16) with n by lia. auto.
    + cbn. change (zlen (@nil Z)) with 0. lia.
    + constructor.
    + exact Br.
    + lia.
    + rewrite <- !app_assoc in R. cbn [app b_send set_io] in R. eauto.
Qed.

Lemma recv_extend i x d ms f : recv i x d ms f -> forall y,
  match f with
  | Open x' p => forall ms' f', recv (i + 2 * zlen ms) x' (p ++ y) ms' f' -> recv i x (d ++ y) (ms ++ ms') f'
  | Shut _ _ => recv i x (d ++ y) ms f
  end.
Proof.
  assert (Z0 : forall j, j + 2 * zlen (@nil (list Z)) = j) by (intros; change (zlen (@nil (list Z))) with 0; lia).
  induction 1; intros y; try rewrite Z0; auto.
  - rewrite <- !app_assoc. now apply rv_badhead.
  - rewrite <- !app_assoc. eapply rv_size; eauto.
  - rewrite <- !app_assoc. eapply rv_badbody; eauto.
  - specialize (IHrecv y). rewrite <- !app_assoc. rewrite zlen_cons. destruct f.
    + intros ms' f' R. cbn [app]. eapply rv_msg; eauto. apply IHrecv. replace (i + 2 + 2 * zlen ms) with (i + 2 * (1 + zlen ms)) by lia. exact R.
    + eapply rv_msg; eauto.
  - rewrite <- !app_assoc. eapply rv_last; eauto.
Qed.

Lemma reads_recv : forall chunks i b e pend, conn i b pend -> zlen (b_buf b) < b_len b -> bytes_ok (b_buf b) -> Forall bytes_ok chunks ->
  exists ms f, recv i (e, b_send b) (pend ++ concat chunks) ms f /\ settles (reads e b chunks) i ms f.
Proof.
  assert (Dead : forall chunks e b, b_state b = 0 -> reads e b chunks = Some (Ok (0, e, b))).
  { induction chunks as [|c cs IH]; intros e b D; cbn; auto. unfold br_on_read. rewrite D. zred. auto. }
  induction chunks as [|c chunks IH]; intros i b e pend C L Bb B; cbn [br_reads concat].
  - rewrite app_nil_r. exists [], (Open (e, b_send b) pend). split.
    + destruct C as [St C]. destruct (b_has_size b).
      * destruct C as (ct & tag & Hd & Hn & Cs & ->). eapply rv_part; eauto. lia.
      * destruct C as (Hl & Cs & ->). apply rv_short. lia.
    + cbn. exists b. change (zlen (@nil (list Z))) with 0. rewrite Z.add_0_r. auto.
  - inversion B as [|? ? Bc Bcs]; subst.
    destruct (loop_recv (length c + 2) i b e c pend C L Bb Bc) as (ms & f & R & G); [lia|].
    pose proof (recv_extend _ _ _ _ _ R (concat chunks)) as X. rewrite <- app_assoc in X.
    unfold br_on_read. destruct C as [St C]. rewrite St. zred. destruct f as [x p|code x]; cbn [settles] in G.
    + destruct G as (b' & -> & Es & C' & L' & B'). destruct (IH _ b' (fst x) p C' L' B' Bcs) as (ms' & f' & R' & G').
      rewrite Es in R'. rewrite <- surjective_pairing in R'. exists (ms ++ ms'), f'. split; [now apply X|].
      destruct f'; cbn [settles] in *; auto. rewrite zlen_app. destruct G' as (b2 & E2 & G'). exists b2. split; [exact E2|].
      replace (i + 2 * (zlen ms + zlen ms')) with (i + 2 * zlen ms + 2 * zlen ms') by lia. exact G'.
    + destruct G as (b' & -> & Es & D). exists ms, (Shut code x). split; auto. cbn. destruct code; [rewrite Dead by auto|..]; eauto.
Qed.
End Read.
End Facts.
