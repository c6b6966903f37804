(** C80: the sealed box of aead.c is AEAD_CHACHA20_POLY1305, and the transport of brontide.c
    runs on it. *)
From Verif Require Import Common CommonFacts ProofFacts ChaChaSpec ChaChaFacts PolySpec PolyFacts AeadModel AeadSpec AeadFacts.
From Verif Require ChaChaModel PolyModel PolyTheorems BrontideModel BrontideSpec BrontideFacts BrontideTheorems BioModel Sha256Spec Sha256Theorems StreamFacts ChaChaTheorems.
From Coq Require Import Lia.
#[local] Opaque chacha_block ChaChaModel.block PolyModel.poly_update PolyModel.poly_finish PolyModel.poly_init ChaChaModel.encrypt poly1305.

(** ** Specification of a run: additional data and text in pieces *)
Fixpoint aads (a : aead) (l : list (list Z)) : outcome aead := match l with [] => Ok a | d :: l => obind (aead_aad a d) (fun a => aads a l) end.
Fixpoint texts (op : aead -> list Z -> aead * list Z) (a : aead) (l : list (list Z)) : aead * list (list Z) :=
  match l with [] => (a, []) | d :: l => let '(a, o) := op a d in let '(a, os) := texts op a l in (a, o :: os) end.
Definition box (op : aead -> list Z -> aead * list Z) (a : aead) (key iv : list Z) (ads ds : list (list Z)) : outcome (list (list Z) * list Z * aead) :=
  obind (aead_setup a key iv) (fun a => obind (aads a ads) (fun a =>
  let '(a, outs) := texts op a ds in let '(a, t) := aead_final a in Ok (outs, t, a))).

(** ** Lemmas *)
Section Key.
Variables key iv : list Z.
Hypothesis Lk : length key = 32%nat.
Hypothesis Bk : bytes_ok key.
Hypothesis Li : length iv = 12%nat.
Hypothesis Bi : bytes_ok iv.
Lemma aads_st l : forall a ad, st key iv a ad [] false 0 -> bytes_ok ad -> Forall bytes_ok l -> exists a', aads a l = Ok a' /\ st key iv a' (ad ++ concat l) [] false 0.
Proof.
  induction l as [|d l IH]; intros a ad S Ba F; cbn [aads concat]; [exists a; rewrite app_nil_r; auto|]. inversion F as [|? ? Bd Fl]. subst. destruct (aad_st key iv Lk Bk Li Bi a ad d 0 S Ba Bd) as (a1 & -> & S1). cbn [obind]. rewrite app_assoc. apply IH; auto. apply bytes_ok_app. now split.
Qed.
Lemma enc_st l : forall a ad ct has pos, st key iv a ad ct has pos -> bytes_ok ad -> bytes_ok ct -> Forall bytes_ok l ->
  exists a' outs has', texts aead_encrypt a l = (a', outs) /\ concat outs = xs key iv 1 pos (concat l) /\ st key iv a' ad (ct ++ concat outs) has' (pos + length (concat l)) /\ map (@length Z) outs = map (@length Z) l.
Proof.
  induction l as [|d l IH]; intros a ad ct has pos S Ba Bc F; cbn [texts concat]; [exists a, [], has; rewrite app_nil_r, Nat.add_0_r; auto|]. inversion F as [|? ? Bd Fl]. subst.
  destruct (encrypt_st key iv Lk Bk Li Bi a ad ct has pos d S Ba Bc Bd) as (a1 & -> & S1). destruct (IH a1 ad _ _ _ S1 Ba) as (a2 & outs & h2 & -> & E & S2 & M); [apply bytes_ok_app; split; [exact Bc|now apply xs_bytes]|exact Fl|].
  exists a2, (xs key iv 1 pos d :: outs), h2. split; [reflexivity|]. cbn [concat map]. rewrite (xs_app key iv 1 Lk), <- E. split; [reflexivity|]. rewrite app_assoc, app_length, Nat.add_assoc. split; [exact S2|]. now rewrite M, xs_length.
Qed.
Lemma dec_st l : forall a ad ct has pos, st key iv a ad ct has pos -> bytes_ok ad -> bytes_ok ct -> Forall bytes_ok l ->
  exists a' outs has', texts aead_decrypt a l = (a', outs) /\ concat outs = xs key iv 1 pos (concat l) /\ st key iv a' ad (ct ++ concat l) has' (pos + length (concat l)) /\ map (@length Z) outs = map (@length Z) l.
Proof.
  induction l as [|d l IH]; intros a ad ct has pos S Ba Bc F; cbn [texts concat]; [exists a, [], has; rewrite app_nil_r, Nat.add_0_r; auto|]. inversion F as [|? ? Bd Fl]. subst.
  destruct (decrypt_st key iv Lk Bk Li Bi a ad ct has pos d S Ba Bc Bd) as (a1 & -> & S1). destruct (IH a1 ad _ _ _ S1 Ba) as (a2 & outs & h2 & -> & E & S2 & M); [apply bytes_ok_app; now split|exact Fl|].
  exists a2, (xs key iv 1 pos d :: outs), h2. split; [reflexivity|]. cbn [concat map]. rewrite (xs_app key iv 1 Lk), <- E. split; [reflexivity|]. rewrite app_assoc, app_length, Nat.add_assoc. split; [exact S2|]. now rewrite M, xs_length.
Qed.
Lemma auths_st l : forall a ad ct has pos, st key iv a ad ct has pos -> bytes_ok ad -> bytes_ok ct -> Forall bytes_ok l -> exists has', st key iv (fold_left aead_auth l a) ad (ct ++ concat l) has' pos.
Proof.
  induction l as [|d l IH]; intros a ad ct has pos S Ba Bc F; cbn [fold_left concat]; [exists has; rewrite app_nil_r; auto|]. inversion F as [|? ? Bd Fl]. subst.
  pose proof (auth_st key iv Lk Bk Li Bi a ad ct has pos d S Ba Bc Bd) as S1. rewrite app_assoc. apply (IH _ ad _ _ _ S1 Ba); [apply bytes_ok_app; now split|exact Fl].
Qed.
Lemma cipher_bytes m : bytes_ok m -> bytes_ok (cipher key iv m).
Proof. intros B. rewrite <- xs_chacha by assumption. now apply xs_bytes. Qed.

(** ** Theorems *)
(** Whatever a context was used for before: additional data and text in any pieces give
    the ciphertext and the tag of RFC 8439 2.8, no assertion fails, and the context can be
    used again. *)
Theorem seal_exact a ads ds : usable a -> Forall bytes_ok ads -> Forall bytes_ok ds ->
  exists outs a', box aead_encrypt a key iv ads ds = Ok (outs, tag key iv (concat ads) (cipher key iv (concat ds)), a') /\
    concat outs = cipher key iv (concat ds) /\ map (@length Z) outs = map (@length Z) ds /\ usable a'.
Proof.
  intros U Fa Fd. unfold box. destruct (setup_st key iv Lk Bk Li Bi a U) as (a0 & -> & S0 & _). cbn [obind]. destruct (aads_st ads a0 [] S0 ltac:(constructor) Fa) as (a1 & -> & S1). cbn [obind app] in *.
  pose proof (bytes_ok_concat _ Fa) as Ba. pose proof (bytes_ok_concat _ Fd) as Bd. destruct (enc_st ds a1 _ [] _ _ S1 Ba ltac:(constructor) Fd) as (a2 & outs & h & -> & E & S2 & M). cbn [app] in S2. rewrite (xs_chacha key iv Lk) in E. rewrite E in S2. pose proof (cipher_bytes _ Bd) as Bc.
  pose proof (final_st key iv Lk Bk Li Bi _ _ _ _ _ S2 Ba Bc) as T. pose proof (finish_buf key iv _ _ _ _ _ Lk Bk Li Bi S2 Ba Bc) as U2. destruct (aead_final a2) as [a3 t]. cbn [fst snd] in T, U2. subst t. exists outs, a3. auto.
Qed.
Theorem unseal_exact a ads ds : usable a -> Forall bytes_ok ads -> Forall bytes_ok ds ->
  exists outs a', box aead_decrypt a key iv ads ds = Ok (outs, tag key iv (concat ads) (concat ds), a') /\
    concat outs = cipher key iv (concat ds) /\ map (@length Z) outs = map (@length Z) ds /\ usable a'.
Proof.
  intros U Fa Fd. unfold box. destruct (setup_st key iv Lk Bk Li Bi a U) as (a0 & -> & S0 & _). cbn [obind]. destruct (aads_st ads a0 [] S0 ltac:(constructor) Fa) as (a1 & -> & S1). cbn [obind app] in *.
  pose proof (bytes_ok_concat _ Fa) as Ba. pose proof (bytes_ok_concat _ Fd) as Bd. destruct (dec_st ds a1 _ [] _ _ S1 Ba ltac:(constructor) Fd) as (a2 & outs & h & -> & E & S2 & M). cbn [app] in S2. rewrite (xs_chacha key iv Lk) in E.
  pose proof (final_st key iv Lk Bk Li Bi _ _ _ _ _ S2 Ba Bd) as T. pose proof (finish_buf key iv _ _ _ _ _ Lk Bk Li Bi S2 Ba Bd) as U2. destruct (aead_final a2) as [a3 t]. cbn [fst snd] in T, U2. subst t. exists outs, a3. auto.
Qed.
(** Authenticating without deciphering gives the same tag. *)
Theorem auth_exact a ads ds : usable a -> Forall bytes_ok ads -> Forall bytes_ok ds ->
  exists a', obind (aead_setup a key iv) (fun a => obind (aads a ads) (fun a => let '(a, t) := aead_final (fold_left aead_auth ds a) in Ok (t, a))) = Ok (tag key iv (concat ads) (concat ds), a') /\ usable a'.
Proof.
  intros U Fa Fd. destruct (setup_st key iv Lk Bk Li Bi a U) as (a0 & -> & S0 & _). cbn [obind]. destruct (aads_st ads a0 [] S0 ltac:(constructor) Fa) as (a1 & -> & S1). cbn [obind app] in *.
  pose proof (bytes_ok_concat _ Fa) as Ba. pose proof (bytes_ok_concat _ Fd) as Bd. destruct (auths_st ds a1 _ [] _ _ S1 Ba ltac:(constructor) Fd) as (h & S2). cbn [app] in S2.
  pose proof (final_st key iv Lk Bk Li Bi _ _ _ _ _ S2 Ba Bd) as T. pose proof (finish_buf key iv _ _ _ _ _ Lk Bk Li Bi S2 Ba Bd) as U2. destruct (aead_final _) as [a3 t]. cbn [fst snd] in T, U2. subst t. exists a3. auto.
Qed.
(** Additional data after text is refused. *)
Theorem late_aad_aborts a d x : aead_aad (fst (aead_encrypt a d)) x = Abort /\ aead_aad (fst (aead_decrypt a d)) x = Abort /\ aead_aad (aead_auth a d) x = Abort.
Proof. unfold aead_encrypt, aead_decrypt, aead_auth. cbv zeta. destruct (ChaChaModel.encrypt (a_chacha a) d) as [c out]. repeat split; reflexivity. Qed.

End Key.

(** Opening what was sealed gives the text back, and the same tag. *)
Theorem unseal_sealed a b key iv ads ads' ds cs outs t a' : usable a -> usable b -> length key = 32%nat -> bytes_ok key -> length iv = 12%nat -> bytes_ok iv -> Forall bytes_ok ads -> Forall bytes_ok ads' -> Forall bytes_ok ds -> concat ads = concat ads' ->
  box aead_encrypt a key iv ads ds = Ok (outs, t, a') -> concat cs = concat outs -> Forall bytes_ok cs ->
  exists os b', box aead_decrypt b key iv ads' cs = Ok (os, t, b') /\ concat os = concat ds.
Proof.
  intros Ua Ub Lk Bk Li Bi Fa Fa' Fd Ea E Ec Fc. destruct (seal_exact key iv Lk Bk Li Bi a ads ds Ua Fa Fd) as (o1 & a1 & E1 & C1 & _). rewrite E1 in E. apply Ok_inj in E. injection E as -> <- _.
  destruct (unseal_exact key iv Lk Bk Li Bi b ads' cs Ub Fa' Fc) as (o2 & b2 & E2 & C2 & _). exists o2, b2. rewrite E2, C2, Ec, C1, Ea. split; [reflexivity|]. unfold cipher. apply ChaChaTheorems.chacha20_involutive. now apply bytes_ok_concat.
Qed.
(** The comparison of tags *)
Theorem aead_verify_exact a b : bytes_ok a -> bytes_ok b -> length a = 16%nat -> length b = 16%nat -> aead_verify a b = true <-> a = b.
Proof. intros Ba Bb La Lb. unfold aead_verify. rewrite PolyTheorems.poly_verify_exact by assumption. destruct (list_eq_dec Z.eq_dec a b) as [e|n]; cbn; split; intros H; [exact e|reflexivity|discriminate H|now destruct n]. Qed.

(** ** The transport *)
(** The published functions for the parameters of the model of brontide.c *)
Definition stream (k iv : list Z) (n : nat) : Z := key_stream k 0 iv n.
Definition mac256 (data key : list Z) : list Z := Sha256Spec.hmac key data.
Definition some_ad (ad : option (list Z)) : list Z := match ad with None => [] | Some d => d end.
Lemma stream_next key iv i : key_stream key 1 iv i = key_stream key 0 iv (64 + i).
Proof.
  unfold key_stream. replace (64 + i)%nat with (i + 1 * 64)%nat by lia. rewrite Nat.mod_add, Nat.div_add by lia. do 2 f_equal. lia.
Qed.
Lemma xor_stream_xs key iv d : forall pos, BrontideModel.xor_stream stream key iv (64 + pos) d = xs key iv 1 pos d.
Proof. induction d as [|b d IH]; intros pos; [reflexivity|]. cbn [BrontideModel.xor_stream xs]. unfold stream at 1. rewrite <- stream_next. f_equal. exact (IH (S pos)). Qed.
Lemma stream_zeros key iv n : forall pos, map (stream key iv) (seq pos n) = xs key iv 0 pos (repeat 0 n).
Proof. induction n as [|n IH]; intros pos; [reflexivity|]. cbn [seq map repeat xs]. rewrite IH, Z.lxor_0_l. reflexivity. Qed.
Lemma cipher_same key iv d : length key = 32%nat -> BrontideModel.aead_encrypt stream key iv d = cipher key iv d.
Proof. intros Lk. unfold BrontideModel.aead_encrypt. change 64%nat with (64 + 0)%nat. rewrite xor_stream_xs. now apply xs_chacha. Qed.
Lemma tag_same key iv ad ct : length key = 32%nat -> bytes_ok key -> length iv = 12%nat -> bytes_ok iv -> BrontideModel.aead_tag stream poly1305 key iv ad ct = tag key iv ad ct.
Proof.
  intros Lk Bk Li Bi. destruct (BrontideTheorems.aead_rfc8439 stream poly1305 key iv ad ct) as (_ & _ & _ & ->). unfold BrontideSpec.mac, tag, one_time_key. rewrite stream_zeros, zeros_stream by (assumption || (apply Nat.leb_le; reflexivity)). reflexivity.
Qed.
Definition cs_good (c : BrontideModel.cs) : Prop :=
  (length (BrontideModel.c_key c) = 32%nat /\ bytes_ok (BrontideModel.c_key c)) /\ (length (BrontideModel.c_iv c) = 12%nat /\ bytes_ok (BrontideModel.c_iv c)) /\ bytes_ok (BrontideModel.c_salt c).
Lemma H0_len : length Sha256Spec.H0 = 8%nat.
Proof. unfold Sha256Spec.H0. rewrite map_length. vm_compute. reflexivity. Qed.
Lemma compress_len h b : length h = 8%nat -> length (Sha256Spec.compress h b) = 8%nat.
Proof. intros L. unfold Sha256Spec.compress. cbv zeta. destruct (fold_left Sha256Spec.step _ _) as [[[[[[[? ?] ?] ?] ?] ?] ?] ?]. rewrite map_length, combine_length, L. reflexivity. Qed.
Lemma chain_len (f : list Z -> list Z -> list Z) : (forall h b, length h = 8%nat -> length (f h b) = 8%nat) -> forall bs h, length h = 8%nat -> length (fold_left f bs h) = 8%nat.
Proof. intros F. induction bs as [|b bs IH]; intros h L; [exact L|]. cbn [fold_left]. apply IH. now apply F. Qed.
Lemma words_len h : length h = 8%nat -> length (concat (map (be_bytes 4) h)) = 32%nat.
Proof. intros L. do 8 (destruct h as [|? h]; [discriminate|]). destruct h; [|discriminate]. cbn [map concat]. rewrite !app_length, !be_bytes_length. reflexivity. Qed.
Lemma sha256_len m : length (Sha256Spec.sha256 m) = 32%nat.
Proof. unfold Sha256Spec.sha256. apply words_len, chain_len; [exact compress_len|exact H0_len]. Qed.
#[local] Opaque Sha256Spec.sha256.
Lemma mac256_good d k : length (mac256 d k) = 32%nat /\ bytes_ok (mac256 d k).
Proof. unfold mac256, Sha256Spec.hmac. cbv zeta. split; [apply sha256_len|apply Sha256Theorems.sha256_bytes]. Qed.
Lemma cs_update_good c : cs_good c -> cs_good (BrontideModel.cs_update c).
Proof.
  intros ((Lk & Bk) & (Li & Bi) & Bs). unfold BrontideModel.cs_update, cs_good. cbn [BrontideModel.c_key BrontideModel.c_iv BrontideModel.c_salt]. split; [now split|]. split; [|exact Bs]. split.
  - rewrite !app_length, firstn_length, skipn_length, Li. unfold BioModel.write_u32. rewrite le_bytes_length. reflexivity.
  - apply bytes_ok_app. split; [now apply bytes_ok_firstn|]. apply bytes_ok_app. split; [apply le_bytes_ok|now apply bytes_ok_skipn].
Qed.
Lemma cs_advance_good c t : cs_good c -> cs_good (BrontideModel.cs_advance mac256 c t).
Proof.
  intros G. unfold BrontideModel.cs_advance. cbv zeta. set (c1 := BrontideModel.cs_update _). assert (G1 : cs_good c1) by (apply cs_update_good; exact G). clearbody c1. destruct (BrontideModel.c_nonce c1 =? 1000); [|exact G1].
  unfold BrontideModel.cs_rotate_key, BrontideModel.hkdf, BrontideModel.cs_init_key. apply cs_update_good. destruct G1 as (_ & Gi & _). split; [apply mac256_good|]. split; [exact Gi|]. apply mac256_good.
Qed.

(** The operations of the cipher state of brontide.c are the sealed box of aead.c with the
    key and the nonce of the state: same bytes, same tag; the state stays good. *)
Theorem cs_encrypt_seals a c ad d : usable a -> cs_good c -> bytes_ok (some_ad ad) -> bytes_ok d ->
  exists out t a', seal a (BrontideModel.c_key c) (BrontideModel.c_iv c) ad d = Ok (out, t, a') /\ usable a' /\
    BrontideModel.cs_encrypt stream poly1305 mac256 c (some_ad ad) d = (out, BrontideModel.cs_advance mac256 c t) /\ cs_good (BrontideModel.cs_advance mac256 c t).
Proof.
  intros U G Ba Bd. pose proof (fun t => cs_advance_good c t G) as Ga. destruct G as ((Lk & Bk) & (Li & Bi) & _). set (key := BrontideModel.c_key c) in *. set (iv := BrontideModel.c_iv c) in *.
  set (ads := match ad with None => [] | Some x => [x] end). assert (Fa : Forall bytes_ok ads) by (destruct ad; [apply Forall_cons; [exact Ba|]|]; apply Forall_nil).
  destruct (seal_exact key iv Lk Bk Li Bi a ads [d] U Fa ltac:(apply Forall_cons; [exact Bd|apply Forall_nil])) as (outs & a' & E & C & M & U').
  assert (Ea : concat ads = some_ad ad) by (destruct ad; cbn; [apply app_nil_r|reflexivity]). cbn [concat] in C, E. rewrite app_nil_r in C, E. rewrite Ea in E.
  exists (cipher key iv d), (tag key iv (some_ad ad) (cipher key iv d)), a'. split; [|split; [exact U'|split; [|apply Ga]]].
  - unfold seal. unfold box in E. destruct (aead_setup a key iv) as [a0| | |]; try discriminate E. cbn [obind] in *. assert (Eo : aad_opt a0 ad = aads a0 ads) by (destruct ad; cbn; [destruct (aead_aad a0 l); reflexivity|reflexivity]). rewrite Eo. destruct (aads a0 ads) as [a1| | |]; try discriminate E. cbn [obind texts] in *.
    destruct (aead_encrypt a1 d) as [a2 o]. destruct (aead_final a2) as [a3 t]. apply Ok_inj in E. injection E as <- <- <-. cbn [concat] in C. rewrite app_nil_r in C. now subst o.
  - unfold BrontideModel.cs_encrypt. cbv zeta. fold key iv. now rewrite cipher_same, tag_same.
Qed.
Theorem cs_decrypt_unseals a c ad d : usable a -> cs_good c -> bytes_ok (some_ad ad) -> bytes_ok d ->
  exists out t a', unseal a (BrontideModel.c_key c) (BrontideModel.c_iv c) ad d = Ok (out, t, a') /\ usable a' /\
    BrontideModel.cs_decrypt stream poly1305 mac256 c (some_ad ad) d = (out, BrontideModel.cs_advance mac256 c t) /\ cs_good (BrontideModel.cs_advance mac256 c t).
Proof.
  intros U G Ba Bd. pose proof (fun t => cs_advance_good c t G) as Ga. destruct G as ((Lk & Bk) & (Li & Bi) & _). set (key := BrontideModel.c_key c) in *. set (iv := BrontideModel.c_iv c) in *.
  set (ads := match ad with None => [] | Some x => [x] end). assert (Fa : Forall bytes_ok ads) by (destruct ad; [apply Forall_cons; [exact Ba|]|]; apply Forall_nil).
  destruct (unseal_exact key iv Lk Bk Li Bi a ads [d] U Fa ltac:(apply Forall_cons; [exact Bd|apply Forall_nil])) as (outs & a' & E & C & M & U').
  assert (Ea : concat ads = some_ad ad) by (destruct ad; cbn; [apply app_nil_r|reflexivity]). cbn [concat] in C, E. rewrite app_nil_r in C, E. rewrite Ea in E.
  exists (cipher key iv d), (tag key iv (some_ad ad) d), a'. split; [|split; [exact U'|split; [|apply Ga]]].
  - unfold unseal. unfold box in E. destruct (aead_setup a key iv) as [a0| | |]; try discriminate E. cbn [obind] in *. assert (Eo : aad_opt a0 ad = aads a0 ads) by (destruct ad; cbn; [destruct (aead_aad a0 l); reflexivity|reflexivity]). rewrite Eo. destruct (aads a0 ads) as [a1| | |]; try discriminate E. cbn [obind texts] in *.
    destruct (aead_decrypt a1 d) as [a2 o]. destruct (aead_final a2) as [a3 t]. apply Ok_inj in E. injection E as <- <- <-. cbn [concat] in C. rewrite app_nil_r in C. now subst o.
  - unfold BrontideModel.cs_decrypt. fold key iv. change (BrontideModel.aead_decrypt stream key iv d) with (BrontideModel.aead_encrypt stream key iv d). now rewrite cipher_same, tag_same.
Qed.

(** With the published functions, delivery needs no assumption at all: C45 for the code as
    it is. *)
Theorem delivery_real pub ecdh to_hash from_hash verify_pub Env write_cb connect_cb read_cb (a b : BrontideModel.br) k k' k'' s (e : Env) ms :
  BrontideTheorems.established a k k' s -> BrontideTheorems.established b k'' k s -> Forall (fun m => bytes_ok m /\ zlen m <= 8000009) ms -> (forall e c m, snd (read_cb e c m) = false) ->
  exists wire a', BrontideTheorems.write_all stream poly1305 mac256 a ms = (0, wire, a') /\ zlen wire = BrontideTheorems.wire_size ms /\
    forall chunks rest, concat chunks ++ rest = wire ->
      exists j b', let x := BrontideTheorems.pass (Env * BrontideModel.cs) (BrontideFacts.xdeliver Env read_cb) (e, BrontideModel.b_send b) (firstn j ms) in
        BrontideModel.br_reads stream poly1305 Sha256Spec.sha256 mac256 pub ecdh to_hash from_hash verify_pub Env write_cb connect_cb read_cb e b chunks = Some (Ok (0, fst x, b')) /\
        BrontideModel.b_send b' = snd x /\ BrontideModel.b_state b' = 4 /\ (j <= length ms)%nat /\ BrontideTheorems.wire_size (firstn j ms) <= zlen (concat chunks) /\
        ((j < length ms)%nat -> zlen (concat chunks) < BrontideTheorems.wire_size (firstn (S j) ms)).
Proof. apply BrontideTheorems.transport_delivery; [intros; apply key_stream_byte|apply PolyTheorems.poly1305_tag]. Qed.
(** And tampering is noticed, unless a tag of the published AEAD was forged. *)
Theorem tampering_real pub ecdh to_hash from_hash verify_pub Env write_cb connect_cb read_cb (a b : BrontideModel.br) k k' k'' s (e : Env) ms chunks :
  BrontideTheorems.established a k k' s -> BrontideTheorems.established b k'' k s -> Forall (fun m => zlen m <= 8000009) ms -> Forall bytes_ok chunks ->
  exists code e' b', BrontideModel.br_reads stream poly1305 Sha256Spec.sha256 mac256 pub ecdh to_hash from_hash verify_pub Env write_cb connect_cb read_cb e b chunks = Some (Ok (code, e', b')) /\
    (BrontideSpec.forged stream poly1305 mac256 k s 0 ms (concat chunks) \/
     (exists j, (e', BrontideModel.b_send b') = BrontideTheorems.pass (Env * BrontideModel.cs) (BrontideFacts.xdeliver Env read_cb) (e, BrontideModel.b_send b) (firstn j ms)) /\
     forall n, (n <= length ms)%nat -> BrontideTheorems.wire_size (firstn n ms) <= zlen (concat chunks) ->
       (forall y, concat chunks <> snd (fst (BrontideTheorems.write_all stream poly1305 mac256 a (firstn n ms))) ++ y) -> BrontideModel.b_state b' = 0).
Proof. apply BrontideTheorems.transport_tampering; [intros; apply key_stream_byte|apply PolyTheorems.poly1305_tag]. Qed.

(** ** Examples *)
(** RFC 8439 2.8.2 *)
Definition ex_key : list Z := [128; 129; 130; 131; 132; 133; 134; 135; 136; 137; 138; 139; 140; 141; 142; 143; 144; 145; 146; 147; 148; 149; 150; 151; 152; 153; 154; 155; 156; 157; 158; 159].
Definition ex_iv : list Z := [7; 0; 0; 0; 64; 65; 66; 67; 68; 69; 70; 71].
Definition ex_ad : list Z := [80; 81; 82; 83; 192; 193; 194; 195; 196; 197; 198; 199].
Definition ex_text : list Z := [76; 97; 100; 105; 101; 115; 32; 97; 110; 100; 32; 71; 101; 110; 116; 108; 101; 109; 101; 110; 32; 111; 102; 32; 116; 104; 101; 32; 99; 108; 97; 115; 115; 32; 111; 102; 32; 39; 57; 57; 58; 32; 73; 102; 32; 73; 32; 99; 111; 117; 108; 100; 32; 111; 102; 102; 101; 114; 32; 121; 111; 117; 32; 111; 110; 108; 121; 32; 111; 110; 101; 32; 116; 105; 112; 32; 102; 111; 114; 32; 116; 104; 101; 32; 102; 117; 116; 117; 114; 101; 44; 32; 115; 117; 110; 115; 99; 114; 101; 101; 110; 32; 119; 111; 117; 108; 100; 32; 98; 101; 32; 105; 116; 46].
Definition ex_cipher : list Z := [211; 26; 141; 52; 100; 142; 96; 219; 123; 134; 175; 188; 83; 239; 126; 194; 164; 173; 237; 81; 41; 110; 8; 254; 169; 226; 181; 167; 54; 238; 98; 214; 61; 190; 164; 94; 140; 169; 103; 18; 130; 250; 251; 105; 218; 146; 114; 139; 26; 113; 222; 10; 158; 6; 11; 41; 5; 214; 165; 182; 126; 205; 59; 54; 146; 221; 189; 127; 45; 119; 139; 140; 152; 3; 174; 227; 40; 9; 27; 88; 250; 179; 36; 228; 250; 214; 117; 148; 85; 133; 128; 139; 72; 49; 215; 188; 63; 244; 222; 240; 142; 75; 122; 157; 229; 118; 210; 101; 134; 206; 198; 75; 97; 22].
Definition ex_tag : list Z := [26; 225; 11; 89; 79; 9; 226; 106; 126; 144; 46; 203; 208; 96; 6; 145].
Example ex_hyp : usable aead_init /\ length ex_key = 32%nat /\ bytes_ok ex_key /\ length ex_iv = 12%nat /\ bytes_ok ex_iv /\ bytes_ok ex_ad /\ bytes_ok ex_text.
Proof. split; [reflexivity|]. split; [reflexivity|]. split; [apply bytes_ok_check; vm_compute; reflexivity|]. split; [reflexivity|]. repeat split; apply bytes_ok_check; vm_compute; reflexivity. Qed.
Definition view (r : outcome (list (list Z) * list Z * aead)) : option (list (list Z) * list Z) := match r with Ok (o, t, _) => Some (o, t) | _ => None end.
Example ex_seal : view (box aead_encrypt aead_init ex_key ex_iv [firstn 5 ex_ad; skipn 5 ex_ad] [firstn 50 ex_text; skipn 50 ex_text]) = Some ([firstn 50 ex_cipher; skipn 50 ex_cipher], ex_tag).
Proof. vm_compute. reflexivity. Qed.
Example ex_unseal : view (box aead_decrypt aead_init ex_key ex_iv [ex_ad] [firstn 70 ex_cipher; skipn 70 ex_cipher]) = Some ([firstn 70 ex_text; skipn 70 ex_text], ex_tag).
Proof. vm_compute. reflexivity. Qed.
Example ex_spec : cipher ex_key ex_iv ex_text = ex_cipher /\ tag ex_key ex_iv ex_ad ex_cipher = ex_tag.
Proof. split; vm_compute; reflexivity. Qed.
Example ex_good : cs_good (BrontideModel.cs_init_saltkey BrontideModel.cs_init ex_key ex_key).
Proof. unfold cs_good. cbn. repeat split; try reflexivity; apply bytes_ok_check; vm_compute; reflexivity. Qed.
(** Two established ends with the published functions *)
Definition ex_br : BrontideModel.br :=
  let b := BrontideModel.br_init (ex_key, ex_key) in
  let c := BrontideModel.cs_init_saltkey BrontideModel.cs_init ex_key ex_key in
  BrontideModel.set_io b c c 4 false [] 20.
Example ex_established : BrontideTheorems.established ex_br ex_key ex_key ex_key.
Proof. repeat split; reflexivity. Qed.
(** A message written by one end and read by the other, one byte flipped and not *)
Definition ex_wire : list Z := snd (fst (BrontideTheorems.write_all stream poly1305 mac256 ex_br [ex_ad])).
Definition ex_read (d : list Z) : option (outcome (Z * list (list Z) * BrontideModel.br)) :=
  BrontideModel.br_reads stream poly1305 Sha256Spec.sha256 mac256 (fun _ => None) (fun _ _ => None) (fun x _ => x) (fun _ => None) (fun _ => true) (list (list Z)) (fun e _ => (0, e)) (fun e c => (e, c, false)) (fun e c m => (e ++ [m], c, false)) [] ex_br [d].
Definition got (r : option (outcome (Z * list (list Z) * BrontideModel.br))) : option (Z * list (list Z) * Z) := match r with Some (Ok (code, e, b)) => Some (code, e, BrontideModel.b_state b) | _ => None end.
Example ex_delivered : got (ex_read ex_wire) = Some (0, [ex_ad], 4).
Proof. vm_compute. reflexivity. Qed.
Example ex_flipped : match got (ex_read (firstn 30 ex_wire ++ Z.lxor (nth 30 ex_wire 0) 1 :: skipn 31 ex_wire)) with Some (code, [], 0) => negb (code =? 0) | _ => false end = true.
Proof. vm_compute. reflexivity. Qed.
Print Assumptions seal_exact.
Print Assumptions unseal_exact.
Print Assumptions auth_exact.
Print Assumptions late_aad_aborts.
Print Assumptions unseal_sealed.
Print Assumptions aead_verify_exact.
Print Assumptions cs_encrypt_seals.
Print Assumptions cs_decrypt_unseals.
Print Assumptions delivery_real.
Print Assumptions tampering_real.
