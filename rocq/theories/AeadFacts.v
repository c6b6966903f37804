(** Lemmas on the sealed box: the context between calls. *)
From Verif Require Import Common CommonFacts ProofFacts ChaChaSpec ChaChaFacts PolySpec PolyFacts AeadModel AeadSpec.
From Verif Require ChaChaModel PolyModel.
From Coq Require Import Lia.
Lemma chacha_block_bytes key n nonce : bytes_ok (chacha_block key n nonce).
Proof. apply core_bytes. Qed.
Lemma chacha_block_length key n iv : length key = 32%nat -> bytes_ok key -> length iv = 12%nat -> bytes_ok iv -> length (chacha_block key n iv) = 64%nat.
Proof. intros Lk Bk Li Bi. unfold chacha_block. apply core_length; auto; [rewrite app_length, le_bytes_length, Li; reflexivity|]. apply bytes_ok_app. split; [apply le_bytes_ok|exact Bi]. Qed.
#[local] Opaque chacha_block ChaChaModel.block PolyModel.poly_update PolyModel.poly_finish PolyModel.poly_init ChaChaModel.encrypt.

(** ** Lemmas *)
Lemma key_stream_byte key n nonce i : is_byte (key_stream key n nonce i).
Proof. unfold key_stream. set (l := chacha_block _ _ _). assert (B : bytes_ok l) by apply chacha_block_bytes. clearbody l. set (j := Nat.modulo i 64). clearbody j. destruct (Nat.lt_ge_cases j (length l)) as [L|L]; [exact (proj1 (Forall_forall _ _) B _ (nth_In _ _ L))|rewrite nth_overflow by exact L; split; [discriminate|reflexivity]]. Qed.
Lemma xs_bytes key nonce n0 m : bytes_ok m -> forall pos, bytes_ok (xs key nonce n0 pos m).
Proof. induction 1 as [|x m Hx B IH]; intros pos; cbn [xs]; [apply Forall_nil|]. apply Forall_cons; [|apply IH]. pose proof (PolyFacts.lxor_byte x _ Hx (key_stream_byte key n0 nonce pos)). exact H. Qed.
Lemma skipn_at (l : list Z) : forall i, (i < length l)%nat -> skipn i l = nth i l 0 :: skipn (S i) l.
Proof. induction l as [|x l IH]; intros [|i] H; cbn [length] in H; try lia; [reflexivity|]. change (skipn (S i) (x :: l)) with (skipn i l). rewrite (IH i) by lia. reflexivity. Qed.
Section Key.
Variables key iv : list Z.
Hypothesis Lk : length key = 32%nat.
Hypothesis Bk : bytes_ok key.
Hypothesis Li : length iv = 12%nat.
Hypothesis Bi : bytes_ok iv.
Notation otk := (one_time_key key iv).
Lemma good_iv : good_nonce iv.
Proof. split; [exact Bi|right; exact Li]. Qed.
Lemma block_len n : length (chacha_block key n iv) = 64%nat.
Proof. now apply chacha_block_length. Qed.
Lemma otk_ok : length otk = 32%nat /\ bytes_ok otk.
Proof. unfold one_time_key. split; [apply firstn_length_le; rewrite block_len; apply Nat.leb_le; reflexivity|apply bytes_ok_firstn, chacha_block_bytes]. Qed.
Lemma zeros_stream : forall n pos, (pos + n <= 64)%nat -> xs key iv 0 pos (repeat 0 n) = firstn n (skipn pos (chacha_block key 0 iv)).
Proof.
  induction n as [|n IH]; intros pos L; [reflexivity|]. cbn [repeat xs]. rewrite IH by lia. rewrite (skipn_at _ pos) by (rewrite block_len; lia). cbn [firstn]. f_equal.
  rewrite Z.lxor_0_l. unfold key_stream. rewrite Nat.mod_small, Nat.div_small by lia. reflexivity.
Qed.
(** The context between calls *)
Record st (a : aead) (ad ct : list Z) (has : bool) (pos : nat) : Prop := {
  st_pos : at_pos key iv 1 (a_chacha a) pos;
  st_has : a_has a = has; st_aad : a_aad a = zlen ad mod 2 ^ 64; st_cipher : a_cipher a = zlen ct mod 2 ^ 64;
  st_rep : rep (key_r otk) (key_pad otk) (a_poly a) (if has then pad16 ad ++ ct else ad); st_nil : has = false -> ct = [] }.
Lemma K : key_small (key_r otk).
Proof. destruct otk_ok as [L B]. exact (proj2 (key_ok otk B L)). Qed.
Lemma setup_st a : length (PolyModel.p_buf (a_poly a)) = 16%nat -> exists a', aead_setup a key iv = Ok a' /\ st a' [] [] false 0 /\ a_key a' = otk.
Proof.
  intros Lb. pose proof good_iv as G. unfold aead_setup. destruct (setup_ok (a_chacha a) key iv Lk Bk G) as [R _]. unfold ChaChaModel.setup, zlen in R. rewrite Li in R. change (Z.of_nat 12) with 12 in R.
  destruct (counter_set_ok _ _ _ 0 _ Lk G R ltac:(lia)) as [R2 A2]. set (c := ChaChaModel.counter_set _ 0) in *. clearbody c. cbv zeta.
  destruct (encrypt_pos key iv 0 Lk Bk G c (repeat 0 32) 0 (at_start _ _ _ Lk _ R2 A2)) as (c1 & -> & P1). destruct (encrypt_pos key iv 0 Lk Bk G c1 (repeat 0 32) _ P1) as (c2 & -> & P2).
  rewrite !repeat_length in P2. cbn [Nat.add] in P2. destruct P2 as (nb & R3 & A3 & E3 & _). assert (nb = 1%nat /\ ChaChaModel.h_avail c2 = 0) as [-> A0] by lia. change (0 + Z.of_nat 1) with 1 in R3. rewrite (counter_get_ok _ _ _ _ Lk G R3). rewrite Li.
  change (1 mod 2 ^ (if (12 =? 8)%nat then 64 else 32) =? 1) with true. cbn [negb]. eexists. split; [reflexivity|]. rewrite zeros_stream by (apply Nat.leb_le; reflexivity). cbn [skipn]. fold otk. split; [|reflexivity].
  constructor; cbn [a_chacha a_poly a_aad a_cipher a_has]; try reflexivity; [now apply at_start|now apply rep_init].
Qed.
Lemma aad_st a ad d pos : st a ad [] false pos -> bytes_ok ad -> bytes_ok d -> exists a', aead_aad a d = Ok a' /\ st a' (ad ++ d) [] false pos.
Proof.
  intros [S1 S2 S3 S4 S5 S6] Ba Bd. unfold aead_aad. rewrite S2. eexists. split; [reflexivity|]. constructor; cbn [a_chacha a_poly a_aad a_cipher a_has]; try assumption; try reflexivity; [|apply rep_update; [exact K|assumption|assumption|exact S5]].
  rewrite S3, zlen_app. apply Z.add_mod_idemp_l. discriminate.
Qed.
Lemma pad_rep p data (l : list Z) : bytes_ok data -> rep (key_r otk) (key_pad otk) p data -> rep (key_r otk) (key_pad otk) (aead_pad16 p (zlen l mod 2 ^ 64)) (data ++ repeat 0 ((16 - length l mod 16) mod 16)%nat).
Proof.
  intros B R. unfold aead_pad16. cbv zeta. assert (E : (zlen l mod 2 ^ 64) mod 16 = Z.of_nat (length l mod 16)). { rewrite Nat2Z.inj_mod. change (Z.of_nat 16) with 16. unfold zlen. lia. }
  rewrite E. pose proof (Nat.mod_upper_bound (length l) 16 ltac:(lia)) as U. set (m := (length l mod 16)%nat) in *. clearbody m. destruct (Z.eqb_spec (Z.of_nat m) 0) as [Z0|N].
  - replace m with 0%nat by lia. cbn. now rewrite app_nil_r.
  - rewrite Nat.mod_small by lia. replace (Z.to_nat (16 - Z.of_nat m)) with (16 - m)%nat by lia. replace (firstn (16 - m) (repeat 0 16)) with (repeat 0 (16 - m)).
    + apply rep_update; [exact K|apply bytes_ok_repeat|exact B|exact R].
    + replace 16%nat with ((16 - m) + m)%nat at 3 by lia. rewrite repeat_app, firstn_app, repeat_length, Nat.sub_diag, firstn_O, app_nil_r. rewrite firstn_all2; [reflexivity|rewrite repeat_length; lia].
Qed.
Lemma pad16_ok l : bytes_ok l -> bytes_ok (pad16 l).
Proof. intros B. unfold pad16. apply bytes_ok_app. split; [exact B|apply bytes_ok_repeat]. Qed.
Lemma first_st a ad ct has pos : st a ad ct has pos -> bytes_ok ad -> rep (key_r otk) (key_pad otk) (first_pad a) (pad16 ad ++ ct).
Proof.
  intros [S1 S2 S3 S4 S5 S6] Ba. unfold first_pad. rewrite S2. destruct has; [exact S5|]. rewrite (S6 eq_refl), app_nil_r, S3. unfold pad16. now apply pad_rep.
Qed.
Lemma encrypt_st a ad ct has pos d : st a ad ct has pos -> bytes_ok ad -> bytes_ok ct -> bytes_ok d ->
  exists a', aead_encrypt a d = (a', xs key iv 1 pos d) /\ st a' ad (ct ++ xs key iv 1 pos d) true (pos + length d).
Proof.
  intros S Ba Bc Bd. pose proof (first_st _ _ _ _ _ S Ba) as F. destruct S as [S1 S2 S3 S4 S5 S6]. unfold aead_encrypt. cbv zeta. destruct (encrypt_pos key iv 1 Lk Bk good_iv (a_chacha a) d pos S1) as (c & -> & P). eexists. split; [reflexivity|].
  constructor; cbn [a_chacha a_poly a_aad a_cipher a_has]; try assumption; try reflexivity; [| |discriminate].
  - rewrite S4, zlen_app. rewrite Z.add_mod_idemp_l by discriminate. do 2 f_equal. unfold zlen. now rewrite xs_length.
  - rewrite app_assoc. apply rep_update; [exact K|now apply xs_bytes|apply bytes_ok_app; split; [now apply pad16_ok|exact Bc]|exact F].
Qed.
Lemma decrypt_st a ad ct has pos d : st a ad ct has pos -> bytes_ok ad -> bytes_ok ct -> bytes_ok d ->
  exists a', aead_decrypt a d = (a', xs key iv 1 pos d) /\ st a' ad (ct ++ d) true (pos + length d).
Proof.
  intros S Ba Bc Bd. pose proof (first_st _ _ _ _ _ S Ba) as F. destruct S as [S1 S2 S3 S4 S5 S6]. unfold aead_decrypt. cbv zeta. destruct (encrypt_pos key iv 1 Lk Bk good_iv (a_chacha a) d pos S1) as (c & -> & P). eexists. split; [reflexivity|].
  constructor; cbn [a_chacha a_poly a_aad a_cipher a_has]; try assumption; try reflexivity; [| |discriminate].
  - rewrite S4, zlen_app. now rewrite Z.add_mod_idemp_l by discriminate.
  - rewrite app_assoc. apply rep_update; [exact K|exact Bd|apply bytes_ok_app; split; [now apply pad16_ok|exact Bc]|exact F].
Qed.
Lemma auth_st a ad ct has pos d : st a ad ct has pos -> bytes_ok ad -> bytes_ok ct -> bytes_ok d -> st (aead_auth a d) ad (ct ++ d) true pos.
Proof.
  intros S Ba Bc Bd. pose proof (first_st _ _ _ _ _ S Ba) as F. destruct S as [S1 S2 S3 S4 S5 S6]. unfold aead_auth. cbv zeta.
  constructor; cbn [a_chacha a_poly a_aad a_cipher a_has]; try assumption; try reflexivity; [| |discriminate].
  - rewrite S4, zlen_app. now rewrite Z.add_mod_idemp_l by discriminate.
  - rewrite app_assoc. apply rep_update; [exact K|exact Bd|apply bytes_ok_app; split; [now apply pad16_ok|exact Bc]|exact F].
Qed.
Lemma le8 v : le_bytes 8 (v mod 2 ^ 64) = le_bytes 8 v.
Proof. exact (le_bytes_mod 8 v). Qed.
Lemma final_st a ad ct has pos : st a ad ct has pos -> bytes_ok ad -> bytes_ok ct -> snd (aead_final a) = tag key iv ad ct.
Proof.
  intros S Ba Bc. pose proof (first_st _ _ _ _ _ S Ba) as F. destruct S as [S1 S2 S3 S4 S5 S6]. unfold aead_final. cbv zeta. destruct (PolyModel.poly_finish _) as [p t] eqn:E. cbn [snd]. apply (f_equal snd) in E. cbn [snd] in E. rewrite <- E. destruct otk_ok as [Lo Bo].
  assert (B0 : bytes_ok (pad16 ad ++ ct)) by (apply bytes_ok_app; split; [now apply pad16_ok|exact Bc]). rewrite S3, S4. unfold BioModel.write_u64. rewrite !le8. unfold tag.
  replace (pad16 ad ++ pad16 ct ++ le_bytes 8 (zlen ad) ++ le_bytes 8 (zlen ct)) with (((pad16 ad ++ ct) ++ repeat 0 ((16 - length ct mod 16) mod 16)%nat) ++ (le_bytes 8 (zlen ad) ++ le_bytes 8 (zlen ct))) by (unfold pad16 at 3; rewrite <- !app_assoc; reflexivity).
  assert (B1 : bytes_ok ((pad16 ad ++ ct) ++ repeat 0 ((16 - length ct mod 16) mod 16)%nat)) by (apply bytes_ok_app; split; [exact B0|apply bytes_ok_repeat]). assert (B2 : bytes_ok (le_bytes 8 (zlen ad) ++ le_bytes 8 (zlen ct))) by (apply bytes_ok_app; split; apply le_bytes_ok).
  apply rep_finish; [exact Bo|exact Lo|apply bytes_ok_app; now split|]. apply rep_update; [exact K|exact B2|exact B1|]. now apply pad_rep.
Qed.
(** Reading the pieces one after the other *)
Lemma xs_chacha m : xs key iv 1 0 m = cipher key iv m.
Proof. now apply xs_spec. Qed.
End Key.

(** A context that may be set up: its buffer is there *)
Definition usable (a : aead) : Prop := length (PolyModel.p_buf (a_poly a)) = 16%nat.
Lemma finish_buf key iv a ad ct has pos : length key = 32%nat -> bytes_ok key -> length iv = 12%nat -> bytes_ok iv -> st key iv a ad ct has pos -> bytes_ok ad -> bytes_ok ct -> usable (fst (aead_final a)).
Proof.
  intros Lk Bk Li Bi S Ba Bc. pose proof (first_st key iv Lk Bk Li Bi _ _ _ _ _ S Ba) as F. destruct S as [S1 S2 S3 S4 S5 S6]. unfold aead_final. cbv zeta. destruct (PolyModel.poly_finish _) as [p t] eqn:E. cbn [fst]. unfold usable. cbn [a_poly]. apply (f_equal fst) in E. cbn [fst] in E. rewrite <- E.
  assert (B0 : bytes_ok (pad16 ad ++ ct)) by (apply bytes_ok_app; split; [now apply pad16_ok|exact Bc]). rewrite S4. pose proof (pad_rep key iv Lk Bk Li Bi _ _ ct B0 F) as R. pose proof (K key iv Lk Bk Li Bi) as Ks.
  apply (rep_update _ _ _ _ (BioModel.write_u64 (a_aad a) ++ BioModel.write_u64 (zlen ct mod 2 ^ 64)) Ks) in R; [|apply bytes_ok_app; split; apply le_bytes_ok|apply bytes_ok_app; split; [exact B0|apply bytes_ok_repeat]]. exact (buf_finish _ _ _ _ R).
Qed.
