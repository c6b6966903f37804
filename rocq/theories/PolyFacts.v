(** Lemmas on Poly1305: the arithmetic, the buffer and the end. *)
From Verif Require Import Common CommonFacts ProofFacts StreamFacts Sha256Facts ChaChaFacts PolyModel PolySpec.
From Coq Require Import Lia.

(** ** Words *)
Lemma m44 x : Z.land x 0xfffffffffff = x mod 2 ^ 44.
Proof. change 0xfffffffffff with (Z.ones 44). apply Z.land_ones. lia. Qed.
Lemma m42 x : Z.land x 0x3ffffffffff = x mod 2 ^ 42.
Proof. change 0x3ffffffffff with (Z.ones 42). apply Z.land_ones. lia. Qed.
Lemma shr_div x n : 0 <= n -> shr x n = x / 2 ^ n.
Proof. intros H. unfold shr. now apply Z.shiftr_div_pow2. Qed.
Lemma shl_mul x n : 0 <= n -> shl x n = u64 (x * 2 ^ n).
Proof. intros H. unfold shl. now rewrite Z.shiftl_mul_pow2. Qed.
Lemma u64_id x : 0 <= x < 2 ^ 64 -> u64 x = x.
Proof. apply Z.mod_small. Qed.
Lemma u128_id x : 0 <= x < 2 ^ 128 -> u128 x = x.
Proof. apply Z.mod_small. Qed.
Lemma middle t0 t1 : 0 <= t0 < 2 ^ 64 -> 0 <= t1 < 2 ^ 64 -> Z.lor (shr t0 44) (shl t1 20) = ((t0 + 2 ^ 64 * t1) / 2 ^ 44) mod 2 ^ 64.
Proof.
  intros A B. rewrite shr_div, shl_mul by lia. unfold u64. replace (t1 * 2 ^ 20 mod 2 ^ 64) with ((t1 mod 2 ^ 44) * 2 ^ 20) by (change (2 ^ 64) with (2 ^ 44 * 2 ^ 20); rewrite Z.mul_mod_distr_r by lia; reflexivity).
  rewrite lor_high by lia. lia.
Qed.
Lemma land_split x m0 m1 k : 0 <= k -> 0 <= m0 < 2 ^ k -> Z.land x (m0 + 2 ^ k * m1) = Z.land (x mod 2 ^ k) m0 + 2 ^ k * Z.land (x / 2 ^ k) m1.
Proof.
  intros Hk Hm. assert (P : 0 < 2 ^ k) by (apply Z.pow_pos_nonneg; lia). assert (B : 0 <= Z.land (x mod 2 ^ k) m0 < 2 ^ k).
  { split; [apply Z.land_nonneg; right; lia|]. pose proof (Z.land_ones (Z.land (x mod 2 ^ k) m0) k Hk) as E. rewrite <- Z.land_assoc, Z.land_ones, (Z.mod_small m0) in E by lia. rewrite E. apply Z.mod_pos_bound. exact P. }
  rewrite !(Z.mul_comm (2 ^ k)). rewrite <- !lor_high by lia. apply Z.bits_inj'. intros i Hi. rewrite Z.land_spec, !Z.lor_spec, Z.land_spec. rewrite <- !Z.shiftl_mul_pow2, !Z.shiftl_spec by lia.
  rewrite Z.land_spec. destruct (Z.lt_ge_cases i k) as [L|L].
  - rewrite !(Z.testbit_neg_r _ (i - k)) by lia. rewrite !orb_false_r. now rewrite Z.mod_pow2_bits_low by lia.
  - rewrite Z.mod_pow2_bits_high by lia. replace (Z.testbit m0 i) with false by (rewrite <- (Z.mod_small m0 (2 ^ k)), Z.mod_pow2_bits_high by lia; reflexivity). cbn [orb andb]. rewrite Z.div_pow2_bits by lia. do 2 f_equal. lia.
Qed.
Lemma land_le x m : 0 <= x -> 0 <= m -> 0 <= Z.land x m <= m.
Proof.
  intros Hx Hm. split; [apply Z.land_nonneg; now left|]. rewrite Z.land_comm. pose proof (Z.add_nocarry_lxor (Z.land m x) (Z.ldiff m x)) as E.
  assert (D : Z.land (Z.land m x) (Z.ldiff m x) = 0). { apply Z.bits_inj'. intros i Hi. rewrite Z.land_spec, Z.ldiff_spec, Z.land_spec, Z.bits_0. destruct (Z.testbit m i), (Z.testbit x i); reflexivity. }
  specialize (E D). rewrite Z.lxor_lor in E by exact D. assert (Em : Z.lor (Z.land m x) (Z.ldiff m x) = m). { apply Z.bits_inj'. intros i Hi. rewrite Z.lor_spec, Z.ldiff_spec, Z.land_spec. destruct (Z.testbit m i), (Z.testbit x i); reflexivity. }
  rewrite Em in E. assert (0 <= Z.ldiff m x) by (apply Z.ldiff_nonneg; now left). lia.
Qed.

(** ** Bytes *)
Lemma byte_ff b : is_byte b -> Z.land b 0xff = b.
Proof. intros H. change 0xff with (Z.ones 8). rewrite Z.land_ones by lia. apply Z.mod_small. exact H. Qed.
Lemma eight (l : list Z) : length l = 8%nat -> exists a b c d e f g h, l = [a; b; c; d; e; f; g; h].
Proof. destruct l as [|a [|b [|c [|d [|e [|f [|g [|h [|]]]]]]]]]; intros H; try discriminate H. now exists a, b, c, d, e, f, g, h. Qed.
Lemma shl_byte b n : is_byte b -> 0 <= n <= 56 -> shl b n = Z.shiftl b n.
Proof.
  intros B N. unfold shl, u64. apply Z.mod_small. rewrite Z.shiftl_mul_pow2 by lia. unfold is_byte in B. assert (0 < 2 ^ n) by (apply Z.pow_pos_nonneg; lia). assert (2 ^ n <= 2 ^ 56) by (apply Z.pow_le_mono_r; lia). change (2 ^ 64) with (256 * 2 ^ 56). nia.
Qed.
Lemma u8to64_ok p i : bytes_ok p -> (i + 8 <= length p)%nat -> u8to64 p i = le_val (firstn 8 (skipn i p)) /\ 0 <= u8to64 p i < 2 ^ 64.
Proof.
  intros B L. assert (Bq : bytes_ok (firstn 8 (skipn i p))) by now apply bytes_ok_firstn, bytes_ok_skipn. assert (Lq : length (firstn 8 (skipn i p)) = 8%nat) by (rewrite firstn_length_le; [reflexivity|rewrite skipn_length; lia]).
  assert (E : u8to64 p i = le_val (firstn 8 (skipn i p))).
  2:{ split; [exact E|]. rewrite E. pose proof (le_val_bound _ Bq) as H. rewrite Lq in H. exact H. }
  assert (F : forall j, (j < 8)%nat -> nth (i + j) p 0 = nth j (firstn 8 (skipn i p)) 0).
  { intros j Hj. rewrite <- (firstn_skipn 8 (skipn i p)) in Lq. rewrite <- (firstn_skipn i p) at 1. rewrite app_nth2; rewrite firstn_length_le by lia; [|lia]. replace (i + j - i)%nat with j by lia. rewrite <- (firstn_skipn 8 (skipn i p)) at 1. apply app_nth1. rewrite firstn_length_le; [exact Hj|rewrite skipn_length; lia]. }
  unfold u8to64. cbv zeta. rewrite !F by (apply Nat.ltb_lt; reflexivity). clear F. destruct (eight _ Lq) as (a & b & c & d & e & f & g & h & Eq). rewrite Eq in *. cbn [nth].
  unfold bytes_ok in Bq. rewrite !Forall_cons_iff in Bq. destruct Bq as (A1 & A2 & A3 & A4 & A5 & A6 & A7 & A8 & _). rewrite !byte_ff by assumption. rewrite !shl_byte by (assumption || lia). unfold is_byte in *.
  rewrite (lor_shift a b 8), (lor_shift _ c 16), (lor_shift _ d 24), (lor_shift _ e 32), (lor_shift _ f 40), (lor_shift _ g 48), (lor_shift _ h 56) by lia. cbn [le_val]. ring.
Qed.
Lemma u8to128 p : bytes_ok p -> (16 <= length p)%nat -> u8to64 p 0 + 2 ^ 64 * u8to64 p 8 = le_val (firstn 16 p).
Proof.
  intros B L. destruct (u8to64_ok p 0 B) as [-> _]; [lia|]. destruct (u8to64_ok p 8 B) as [-> _]; [lia|]. cbn [skipn]. replace (firstn 16 p) with (firstn 8 p ++ firstn 8 (skipn 8 p)).
  - rewrite le_val_app. unfold zlen. rewrite firstn_length_le by lia. reflexivity.
  - clear B. do 8 (destruct p as [|? p]; [exfalso; cbn [length] in L; lia|]). reflexivity.
Qed.
Lemma u64to8_ok v : u64to8 v = le_bytes 8 v.
Proof.
  unfold u64to8. rewrite !shr_div by lia. change 0xff with (Z.ones 8). rewrite !Z.land_ones by lia. cbn [le_bytes]. change (2 ^ 8) with 256.
  rewrite !Z.div_div by lia. reflexivity.
Qed.

(** ** The arithmetic *)
Definition val (h : Z * Z * Z) : Z := let '(h0, h1, h2) := h in h0 + 2 ^ 44 * h1 + 2 ^ 88 * h2.
Definition small (h : Z * Z * Z) : Prop := let '(h0, h1, h2) := h in 0 <= h0 < 2 ^ 44 /\ 0 <= h1 < 2 ^ 44 + 2 ^ 8 /\ 0 <= h2 < 2 ^ 42.
Definition grown (h : Z * Z * Z) : Prop := let '(h0, h1, h2) := h in 0 <= h0 < 2 ^ 45 /\ 0 <= h1 < 2 ^ 45 + 2 ^ 8 /\ 0 <= h2 < 2 ^ 42 + 2 ^ 41.
Definition key_small (r : Z * Z * Z) : Prop := let '(r0, r1, r2) := r in 0 <= r0 < 2 ^ 44 /\ 0 <= r1 < 2 ^ 44 /\ 0 <= r2 < 2 ^ 36.
Definition same (a b : Z) : Prop := exists k, a = b + k * p1305.
Lemma same_mod a b : same a b -> a mod p1305 = b mod p1305.
Proof. intros [k ->]. apply Z.mod_add. discriminate. Qed.
Lemma same_refl a : same a a.
Proof. exists 0. ring. Qed.
Lemma same_trans a b c : same a b -> same b c -> same a c.
Proof. intros [k ->] [l ->]. exists (k + l). ring. Qed.
Lemma key_ok key : bytes_ok key -> length key = 32%nat -> val (p_r (poly_init {| p_r := (0,0,0); p_h := (0,0,0); p_pad := (0,0); p_left := 0; p_buf := []; p_final := false |} key)) = clamp (le_val (firstn 16 key)) /\
  key_small (p_r (poly_init {| p_r := (0,0,0); p_h := (0,0,0); p_pad := (0,0); p_left := 0; p_buf := []; p_final := false |} key)).
Proof.
  intros B L. rewrite <- (u8to128 key B) by lia. destruct (u8to64_ok key 0 B) as [_ A0]; [lia|]. destruct (u8to64_ok key 8 B) as [_ A1]; [lia|].
  unfold poly_init. cbn [p_r]. rewrite middle by assumption. set (t0 := u8to64 key 0) in *. set (t1 := u8to64 key 8) in *. clearbody t0 t1. rewrite shr_div by lia. split.
  - unfold clamp. change 0x0ffffffc0ffffffc0ffffffc0fffffff with (0xffc0fffffff + 2 ^ 44 * (0xfffffc0ffff + 2 ^ 44 * 0x00ffffffc0f)). rewrite land_split by lia. rewrite land_split by lia. unfold val.
    assert (M : forall x m, 0 <= m < 2 ^ 44 -> Z.land x m = Z.land (x mod 2 ^ 44) m). { intros x m Hm. rewrite <- (Z.mod_small m (2 ^ 44)) at 1 by exact Hm. rewrite <- !Z.land_ones by lia. rewrite <- Z.land_assoc. f_equal. apply Z.land_comm. }
    rewrite (M t0) by lia. rewrite (M (((t0 + 2 ^ 64 * t1) / 2 ^ 44) mod 2 ^ 64)) by lia. 
    replace ((t0 + 2 ^ 64 * t1) mod 2 ^ 44) with (t0 mod 2 ^ 44) by lia. replace ((((t0 + 2 ^ 64 * t1) / 2 ^ 44) mod 2 ^ 64) mod 2 ^ 44) with (((t0 + 2 ^ 64 * t1) / 2 ^ 44) mod 2 ^ 44) by lia. replace ((t0 + 2 ^ 64 * t1) / 2 ^ 44 / 2 ^ 44) with (t1 / 2 ^ 24) by lia.
    rewrite Z.mul_add_distr_l, Z.mul_assoc. change (2 ^ 44 * 2 ^ 44) with (2 ^ 88). ring.
  - unfold key_small. assert (0 <= ((t0 + 2 ^ 64 * t1) / 2 ^ 44) mod 2 ^ 64) by (apply Z.mod_pos_bound; reflexivity). assert (0 <= t1 / 2 ^ 24) by (apply Z.div_pos; lia).
    pose proof (land_le t0 0xffc0fffffff ltac:(lia) ltac:(lia)). pose proof (land_le (((t0 + 2 ^ 64 * t1) / 2 ^ 44) mod 2 ^ 64) 0xfffffc0ffff ltac:(lia) ltac:(lia)). pose proof (land_le (t1 / 2 ^ 24) 0x00ffffffc0f ltac:(lia) ltac:(lia)). lia.
Qed.
Lemma absorb_ok hi h m : hi = 0 \/ hi = 1 -> small h -> bytes_ok m -> (16 <= length m)%nat -> grown (absorb (hi * 2 ^ 40) h m) /\ val (absorb (hi * 2 ^ 40) h m) = val h + le_val (firstn 16 m) + hi * 2 ^ 128.
Proof.
  intros Hi S B L. destruct h as [[h0 h1] h2]. destruct S as (S0 & S1 & S2). rewrite <- (u8to128 m B) by lia. destruct (u8to64_ok m 0 B) as [_ A0]; [lia|]. destruct (u8to64_ok m 8 B) as [_ A1]; [lia|].
  unfold absorb. rewrite middle by assumption. set (t0 := u8to64 m 0) in *. set (t1 := u8to64 m 8) in *. clearbody t0 t1. cbv zeta. rewrite shr_div by lia. rewrite !m44, m42. rewrite lor_high by lia. 
  rewrite !u64_id by lia. unfold grown, val. lia.
Qed.
Lemma products_ok r h : key_small r -> grown h -> let '(d0, d1, d2) := products r h in 0 <= d0 < 2 ^ 95 /\ 0 <= d1 < 2 ^ 95 /\ 0 <= d2 < 2 ^ 91 /\ same (val h * val r) (val (d0, d1, d2)).
Proof.
  destruct r as [[r0 r1] r2], h as [[h0 h1] h2]. intros (R0 & R1 & R2) (H0 & H1 & H2). unfold products. change (Z.shiftl 5 2) with 20. rewrite !(u64_id (_ * 20)) by lia.
  assert (Mb : forall a b x y, 0 <= a < x -> 0 <= b < y -> 0 <= a * b < x * y) by (clear; intros; nia).
  pose proof (Mb _ _ _ _ H0 R0) as P00. pose proof (Mb _ _ _ _ H0 R1) as P01. pose proof (Mb _ _ _ _ H0 R2) as P02. pose proof (Mb _ _ _ _ H1 R0) as P10. pose proof (Mb _ _ _ _ H1 R1) as P11. pose proof (Mb _ _ _ _ H1 R2) as P12.
  pose proof (Mb _ _ _ _ H2 R0) as P20. pose proof (Mb _ _ _ _ H2 R1) as P21. pose proof (Mb _ _ _ _ H2 R2) as P22. rewrite !Z.mul_assoc.
  set (q00 := h0 * r0) in *. set (q01 := h0 * r1) in *. set (q02 := h0 * r2) in *. set (q10 := h1 * r0) in *. set (q11 := h1 * r1) in *. set (q12 := h1 * r2) in *. set (q20 := h2 * r0) in *. set (q21 := h2 * r1) in *. set (q22 := h2 * r2) in *.
  assert (E : val (h0, h1, h2) * val (r0, r1, r2) = q00 + 2 ^ 44 * (q01 + q10) + 2 ^ 88 * (q02 + q11 + q20) + 2 ^ 132 * (q12 + q21 + 2 ^ 44 * q22)) by (unfold val, q00, q01, q02, q10, q11, q12, q20, q21, q22; ring).
  rewrite E. clear E. clearbody q00 q01 q02 q10 q11 q12 q20 q21 q22. clear Mb. rewrite !(u128_id q00), !(u128_id q01), !(u128_id q02), !(u128_id q10), !(u128_id q11), !(u128_id q20), !(u128_id (_ * 20)) by lia.
  rewrite (u128_id (q00 + _)), (u128_id (q00 + _ + _)), (u128_id (q01 + _)), (u128_id (q01 + _ + _)), (u128_id (q02 + _)), (u128_id (q02 + _ + _)) by lia.
  split; [lia|]. split; [lia|]. split; [lia|]. exists (4 * (q12 + q21 + 2 ^ 44 * q22)). unfold val, p1305. ring.
Qed.
Lemma carry_ok d0 d1 d2 : 0 <= d0 < 2 ^ 95 -> 0 <= d1 < 2 ^ 95 -> 0 <= d2 < 2 ^ 91 -> small (carry (d0, d1, d2)) /\ same (val (d0, d1, d2)) (val (carry (d0, d1, d2))).
Proof.
  intros H0 H1 H2. unfold carry, shr128, lo128, shr. cbv zeta. rewrite !Z.shiftr_div_pow2, !m44, !m42 by lia.
  assert (D0 : d0 = 2 ^ 44 * (d0 / 2 ^ 44) + d0 mod 2 ^ 44) by (apply Z.div_mod; discriminate). pose proof (Z.mod_pos_bound d0 (2 ^ 44) ltac:(lia)) as B0. replace (u64 d0 mod 2 ^ 44) with (d0 mod 2 ^ 44) by (unfold u64; lia).
  set (c0 := d0 / 2 ^ 44) in *. set (x0 := d0 mod 2 ^ 44) in *. clearbody c0 x0. subst d0. rewrite (u64_id c0) by lia. rewrite (u128_id (d1 + c0)) by lia.
  assert (D1 : d1 + c0 = 2 ^ 44 * ((d1 + c0) / 2 ^ 44) + (d1 + c0) mod 2 ^ 44) by (apply Z.div_mod; discriminate). pose proof (Z.mod_pos_bound (d1 + c0) (2 ^ 44) ltac:(lia)) as B1. replace (u64 (d1 + c0) mod 2 ^ 44) with ((d1 + c0) mod 2 ^ 44) by (unfold u64; lia).
  set (c1 := (d1 + c0) / 2 ^ 44) in *. set (x1 := (d1 + c0) mod 2 ^ 44) in *. clearbody c1 x1. rewrite (u64_id c1) by lia. rewrite (u128_id (d2 + c1)) by lia.
  assert (D2 : d2 + c1 = 2 ^ 42 * ((d2 + c1) / 2 ^ 42) + (d2 + c1) mod 2 ^ 42) by (apply Z.div_mod; discriminate). pose proof (Z.mod_pos_bound (d2 + c1) (2 ^ 42) ltac:(lia)) as B2. replace (u64 (d2 + c1) mod 2 ^ 42) with ((d2 + c1) mod 2 ^ 42) by (unfold u64; lia).
  set (c2 := (d2 + c1) / 2 ^ 42) in *. set (x2 := (d2 + c1) mod 2 ^ 42) in *. clearbody c2 x2. rewrite (u64_id c2) by lia. rewrite (u64_id (c2 * 5)) by lia. rewrite (u64_id (x0 + c2 * 5)) by lia.
  assert (D3 : x0 + c2 * 5 = 2 ^ 44 * ((x0 + c2 * 5) / 2 ^ 44) + (x0 + c2 * 5) mod 2 ^ 44) by (apply Z.div_mod; discriminate). pose proof (Z.mod_pos_bound (x0 + c2 * 5) (2 ^ 44) ltac:(lia)) as B3.
  set (c3 := (x0 + c2 * 5) / 2 ^ 44) in *. set (x3 := (x0 + c2 * 5) mod 2 ^ 44) in *. clearbody c3 x3. rewrite (u64_id (x1 + c3)) by lia. split; [unfold small; lia|]. exists c2. unfold val, p1305. lia.
Qed.
Lemma step_ok hi r h m : hi = 0 \/ hi = 1 -> key_small r -> small h -> bytes_ok m -> (16 <= length m)%nat ->
  small (carry (products r (absorb (hi * 2 ^ 40) h m))) /\ same ((val h + le_val (firstn 16 m) + hi * 2 ^ 128) * val r) (val (carry (products r (absorb (hi * 2 ^ 40) h m)))).
Proof.
  intros Hi K S B L. destruct (absorb_ok hi h m Hi S B L) as [G E]. rewrite <- E. pose proof (products_ok r _ K G) as P. destruct (products r (absorb (hi * 2 ^ 40) h m)) as [[d0 d1] d2]. destruct P as (P0 & P1 & P2 & P3). destruct (carry_ok d0 d1 d2 P0 P1 P2) as [C1 C2]. split; [exact C1|]. eapply same_trans; eassumption.
Qed.
Lemma full_carry_ok h : small h -> let '(h0, h1, h2) := full_carry h in 0 <= h0 < 2 ^ 44 /\ 0 <= h1 <= 2 ^ 44 /\ 0 <= h2 < 2 ^ 42 /\ same (val h) (val (full_carry h)).
Proof.
  destruct h as [[h0 h1] h2]. intros (H0 & H1 & H2). unfold full_carry, shr. cbv zeta. rewrite !Z.shiftr_div_pow2, !m44, !m42 by lia.
  assert (D1 : h1 = 2 ^ 44 * (h1 / 2 ^ 44) + h1 mod 2 ^ 44) by (apply Z.div_mod; discriminate). pose proof (Z.mod_pos_bound h1 (2 ^ 44) ltac:(lia)) as B1.
  set (c1 := h1 / 2 ^ 44) in *. set (x1 := h1 mod 2 ^ 44) in *. clearbody c1 x1. rewrite (u64_id (h2 + c1)) by lia.
  assert (D2 : h2 + c1 = 2 ^ 42 * ((h2 + c1) / 2 ^ 42) + (h2 + c1) mod 2 ^ 42) by (apply Z.div_mod; discriminate). pose proof (Z.mod_pos_bound (h2 + c1) (2 ^ 42) ltac:(lia)) as B2.
  set (c2 := (h2 + c1) / 2 ^ 42) in *. set (x2 := (h2 + c1) mod 2 ^ 42) in *. clearbody c2 x2. rewrite (u64_id (c2 * 5)) by lia. rewrite (u64_id (h0 + c2 * 5)) by lia.
  assert (D3 : h0 + c2 * 5 = 2 ^ 44 * ((h0 + c2 * 5) / 2 ^ 44) + (h0 + c2 * 5) mod 2 ^ 44) by (apply Z.div_mod; discriminate). pose proof (Z.mod_pos_bound (h0 + c2 * 5) (2 ^ 44) ltac:(lia)) as B3.
  set (c3 := (h0 + c2 * 5) / 2 ^ 44) in *. set (x3 := (h0 + c2 * 5) mod 2 ^ 44) in *. clearbody c3 x3. rewrite (u64_id (x1 + c3)) by lia.
  assert (D4 : x1 + c3 = 2 ^ 44 * ((x1 + c3) / 2 ^ 44) + (x1 + c3) mod 2 ^ 44) by (apply Z.div_mod; discriminate). pose proof (Z.mod_pos_bound (x1 + c3) (2 ^ 44) ltac:(lia)) as B4.
  set (c4 := (x1 + c3) / 2 ^ 44) in *. set (x4 := (x1 + c3) mod 2 ^ 44) in *. clearbody c4 x4. rewrite (u64_id (x2 + c4)) by lia.
  assert (D5 : x2 + c4 = 2 ^ 42 * ((x2 + c4) / 2 ^ 42) + (x2 + c4) mod 2 ^ 42) by (apply Z.div_mod; discriminate). pose proof (Z.mod_pos_bound (x2 + c4) (2 ^ 42) ltac:(lia)) as B5.
  set (c5 := (x2 + c4) / 2 ^ 42) in *. set (x5 := (x2 + c4) mod 2 ^ 42) in *. clearbody c5 x5. rewrite (u64_id (c5 * 5)) by lia. rewrite (u64_id (x3 + c5 * 5)) by lia.
  assert (D6 : x3 + c5 * 5 = 2 ^ 44 * ((x3 + c5 * 5) / 2 ^ 44) + (x3 + c5 * 5) mod 2 ^ 44) by (apply Z.div_mod; discriminate). pose proof (Z.mod_pos_bound (x3 + c5 * 5) (2 ^ 44) ltac:(lia)) as B6.
  set (c6 := (x3 + c5 * 5) / 2 ^ 44) in *. set (x6 := (x3 + c5 * 5) mod 2 ^ 44) in *. clearbody c6 x6. rewrite (u64_id (x4 + c6)) by lia.
  split; [lia|]. split; [lia|]. split; [lia|]. exists (c2 + c5). unfold val, p1305. lia.
Qed.
Lemma land_all x : 0 <= x < 2 ^ 64 -> Z.land x (2 ^ 64 - 1) = x.
Proof. intros H. change (2 ^ 64 - 1) with (Z.ones 64). rewrite Z.land_ones by lia. now apply Z.mod_small. Qed.
Lemma select_ok h0 h1 h2 : 0 <= h0 < 2 ^ 44 -> 0 <= h1 <= 2 ^ 44 -> 0 <= h2 < 2 ^ 42 -> let '(g0, g1, g2) := select (h0, h1, h2) in 0 <= g0 < 2 ^ 44 /\ 0 <= g1 <= 2 ^ 44 /\ 0 <= g2 < 2 ^ 42 /\ val (g0, g1, g2) = val (h0, h1, h2) mod p1305.
Proof.
  intros H0 H1 H2. unfold select, shr. cbv zeta. rewrite !Z.shiftr_div_pow2, !m44 by lia. rewrite (u64_id (h0 + 5)) by lia.
  assert (D1 : h0 + 5 = 2 ^ 44 * ((h0 + 5) / 2 ^ 44) + (h0 + 5) mod 2 ^ 44) by (apply Z.div_mod; discriminate). pose proof (Z.mod_pos_bound (h0 + 5) (2 ^ 44) ltac:(lia)) as B1.
  set (c1 := (h0 + 5) / 2 ^ 44) in *. set (g0 := (h0 + 5) mod 2 ^ 44) in *. clearbody c1 g0. rewrite (u64_id (h1 + c1)) by lia.
  assert (D2 : h1 + c1 = 2 ^ 44 * ((h1 + c1) / 2 ^ 44) + (h1 + c1) mod 2 ^ 44) by (apply Z.div_mod; discriminate). pose proof (Z.mod_pos_bound (h1 + c1) (2 ^ 44) ltac:(lia)) as B2.
  set (c2 := (h1 + c1) / 2 ^ 44) in *. set (g1 := (h1 + c1) mod 2 ^ 44) in *. clearbody c2 g1. change (shl 1 42) with (2 ^ 42).
  destruct (Z.lt_ge_cases (h2 + c2) (2 ^ 42)) as [L|L].
  - replace (u64 (h2 + c2 - 2 ^ 42)) with (2 ^ 64 + (h2 + c2 - 2 ^ 42)) by (unfold u64; lia). replace ((2 ^ 64 + (h2 + c2 - 2 ^ 42)) / 2 ^ 63) with 1 by lia. change (u64 (1 - 1)) with 0. unfold not64. rewrite Z.sub_0_r, !Z.land_0_r, !Z.lor_0_r, !land_all by lia.
    split; [lia|]. split; [lia|]. split; [lia|]. symmetry. apply Z.mod_small. unfold val, p1305. lia.
  - replace (u64 (h2 + c2 - 2 ^ 42)) with 0 by (unfold u64; lia). change (0 / 2 ^ 63) with 0. change (u64 (0 - 1)) with (2 ^ 64 - 1). unfold not64. rewrite Z.sub_diag, !Z.land_0_r, !Z.lor_0_l, !land_all by lia.
    split; [lia|]. split; [lia|]. split; [lia|]. apply Z.mod_unique with (q := 1); unfold val, p1305; lia.
Qed.
Lemma le_bytes_app n m v : le_bytes (n + m) v = le_bytes n v ++ le_bytes m (v / 256 ^ Z.of_nat n).
Proof. revert v. induction n as [|n IH]; intros v; cbn [Nat.add le_bytes app]; [now rewrite Z.div_1_r|]. f_equal. rewrite IH. do 2 f_equal. rewrite pow256_S. rewrite Z.div_div by (try lia; apply Z.pow_pos_nonneg; lia). reflexivity. Qed.
Lemma le_bytes_mod n v : le_bytes n (v mod 256 ^ Z.of_nat n) = le_bytes n v.
Proof. rewrite <- le_val_le_bytes_mod. rewrite <- (le_bytes_length n v) at 1. apply le_bytes_le_val, le_bytes_ok. Qed.
Lemma le_bytes_16 a b v : 0 <= a < 2 ^ 64 -> (a + 2 ^ 64 * b) mod 2 ^ 128 = v mod 2 ^ 128 -> le_bytes 8 a ++ le_bytes 8 b = le_bytes 16 v.
Proof.
  intros A E. rewrite <- (le_bytes_mod 16 v). change (256 ^ Z.of_nat 16) with (2 ^ 128). rewrite <- E. change (2 ^ 128) with (256 ^ Z.of_nat 16). rewrite le_bytes_mod. change 16%nat with (8 + 8)%nat. rewrite le_bytes_app. change (256 ^ Z.of_nat 8) with (2 ^ 64). f_equal.
  - rewrite <- (le_bytes_mod 8 (a + 2 ^ 64 * b)). change (256 ^ Z.of_nat 8) with (2 ^ 64). f_equal. lia.
  - f_equal. lia.
Qed.
Lemma add_pad_ok h0 h1 h2 t0 t1 : 0 <= h0 < 2 ^ 44 -> 0 <= h1 <= 2 ^ 44 -> 0 <= h2 < 2 ^ 42 -> 0 <= t0 < 2 ^ 64 -> 0 <= t1 < 2 ^ 64 -> add_pad (h0, h1, h2) (t0, t1) = le_bytes 16 (val (h0, h1, h2) + (t0 + 2 ^ 64 * t1)).
Proof.
  intros H0 H1 H2 T0 T1. unfold add_pad. rewrite middle by assumption. cbv zeta. unfold shr. rewrite !Z.shiftr_div_pow2, !m44, !m42 by lia. rewrite !u64to8_ok.
  set (T := t0 + 2 ^ 64 * t1). assert (ET : T = t0 + 2 ^ 64 * t1) by reflexivity.
  replace (t0 mod 2 ^ 44) with (T mod 2 ^ 44) by lia. replace (((T / 2 ^ 44) mod 2 ^ 64) mod 2 ^ 44) with ((T / 2 ^ 44) mod 2 ^ 44) by lia. replace ((t1 / 2 ^ 24) mod 2 ^ 42) with (T / 2 ^ 88) by lia. assert (BT : 0 <= T < 2 ^ 128) by lia. clearbody T. clear ET T0 T1 t0 t1.
  assert (DT : T = T mod 2 ^ 44 + 2 ^ 44 * ((T / 2 ^ 44) mod 2 ^ 44) + 2 ^ 88 * (T / 2 ^ 88)) by lia. assert (BT2 : 0 <= T / 2 ^ 88 < 2 ^ 40) by lia. pose proof (Z.mod_pos_bound T (2 ^ 44) ltac:(lia)) as BT0. pose proof (Z.mod_pos_bound (T / 2 ^ 44) (2 ^ 44) ltac:(lia)) as BT1.
  set (a0 := T mod 2 ^ 44) in *. set (a1 := (T / 2 ^ 44) mod 2 ^ 44) in *. set (a2 := T / 2 ^ 88) in *. rewrite DT. clearbody a0 a1 a2. clear DT BT T.
  rewrite (u64_id (h0 + a0)) by lia.
  assert (D1 : h0 + a0 = 2 ^ 44 * ((h0 + a0) / 2 ^ 44) + (h0 + a0) mod 2 ^ 44) by (apply Z.div_mod; discriminate). pose proof (Z.mod_pos_bound (h0 + a0) (2 ^ 44) ltac:(lia)) as B1.
  set (c1 := (h0 + a0) / 2 ^ 44) in *. set (x0 := (h0 + a0) mod 2 ^ 44) in *. clearbody c1 x0. rewrite (u64_id (a1 + c1)) by lia. rewrite (u64_id (h1 + (a1 + c1))) by lia.
  assert (D2 : h1 + (a1 + c1) = 2 ^ 44 * ((h1 + (a1 + c1)) / 2 ^ 44) + (h1 + (a1 + c1)) mod 2 ^ 44) by (apply Z.div_mod; discriminate). pose proof (Z.mod_pos_bound (h1 + (a1 + c1)) (2 ^ 44) ltac:(lia)) as B2.
  set (c2 := (h1 + (a1 + c1)) / 2 ^ 44) in *. set (x1 := (h1 + (a1 + c1)) mod 2 ^ 44) in *. clearbody c2 x1. rewrite (u64_id (a2 + c2)) by lia. rewrite (u64_id (h2 + (a2 + c2))) by lia.
  assert (D3 : h2 + (a2 + c2) = 2 ^ 42 * ((h2 + (a2 + c2)) / 2 ^ 42) + (h2 + (a2 + c2)) mod 2 ^ 42) by (apply Z.div_mod; discriminate). pose proof (Z.mod_pos_bound (h2 + (a2 + c2)) (2 ^ 42) ltac:(lia)) as B3.
  set (c3 := (h2 + (a2 + c2)) / 2 ^ 42) in *. set (x2 := (h2 + (a2 + c2)) mod 2 ^ 42) in *. clearbody c3 x2.
  rewrite !shl_mul by lia. replace (u64 (x1 * 2 ^ 44)) with ((x1 mod 2 ^ 20) * 2 ^ 44) by (unfold u64; lia). replace (u64 (x2 * 2 ^ 24)) with ((x2 mod 2 ^ 40) * 2 ^ 24) by (unfold u64; lia). rewrite !lor_high by lia.
  apply le_bytes_16; [lia|]. unfold val.
  assert (E1 : x1 = 2 ^ 20 * (x1 / 2 ^ 20) + x1 mod 2 ^ 20) by (apply Z.div_mod; discriminate). pose proof (Z.mod_pos_bound x1 (2 ^ 20) ltac:(lia)) as B4. assert (E2 : x2 = 2 ^ 40 * (x2 / 2 ^ 40) + x2 mod 2 ^ 40) by (apply Z.div_mod; discriminate). pose proof (Z.mod_pos_bound x2 (2 ^ 40) ltac:(lia)) as B5.
  set (y0 := x1 / 2 ^ 20) in *. set (y1 := x1 mod 2 ^ 20) in *. set (y2 := x2 / 2 ^ 40) in *. set (y3 := x2 mod 2 ^ 40) in *. clearbody y0 y1 y2 y3.
  replace (h0 + 2 ^ 44 * h1 + 2 ^ 88 * h2 + (a0 + 2 ^ 44 * a1 + 2 ^ 88 * a2)) with (x0 + y1 * 2 ^ 44 + 2 ^ 64 * (y0 + y3 * 2 ^ 24) + (y2 + 4 * c3) * 2 ^ 128) by lia. symmetry. apply Z.mod_add. discriminate.
Qed.

(** ** The blocks and the buffer *)
#[local] Opaque absorb products carry full_carry select add_pad.
Lemma acc_step r a a' b : a mod p1305 = a' mod p1305 -> ((a + b) * r) mod p1305 = ((a' + b) * r) mod p1305.
Proof. intros E. rewrite Z.mul_mod, (Z.mul_mod (a' + b)) by discriminate. rewrite Z.add_mod, (Z.add_mod a') by discriminate. now rewrite E. Qed.
Lemma last_one b : length b = 16%nat -> le_val (b ++ [1]) = le_val b + 1 * 2 ^ 128.
Proof. intros L. rewrite le_val_app. unfold zlen. rewrite L. reflexivity. Qed.
Lemma blocks_loop_ok r fuel : key_small r -> forall h m a, small h -> bytes_ok m -> (length m <= fuel)%nat -> val h mod p1305 = a mod p1305 ->
  small (blocks_loop fuel (Z.shiftl 1 40) r h m) /\ val (blocks_loop fuel (Z.shiftl 1 40) r h m) mod p1305 = fold_left (accumulate (val r)) (blocks 16 m) a mod p1305.
Proof.
  intros K. induction fuel as [|f IH]; intros h m a S B L E.
  - destruct m as [|x m]; [|cbn [length] in L; lia]. split; [exact S|exact E].
  - cbn [blocks_loop]. destruct (16 <=? zlen m) eqn:Q.
    + apply Z.leb_le in Q. unfold zlen in Q. assert (L16 : (16 <= length m)%nat) by lia. destruct (step_ok 1 r h m (or_intror eq_refl) K S B L16) as [S2 V2]. change (1 * 2 ^ 40) with (Z.shiftl 1 40) in S2, V2. set (h' := carry (products r (absorb (Z.shiftl 1 40) h m))) in *. clearbody h'. assert (Lf : length (firstn 16 m) = 16%nat) by (apply firstn_length_le; lia).
      replace (blocks 16 m) with (firstn 16 m :: blocks 16 (skipn 16 m)) by (rewrite <- (blocks_cons 16) by (lia || exact Lf); now rewrite firstn_skipn). rewrite fold_cons. apply IH; [exact S2|now apply bytes_ok_skipn|rewrite skipn_length; lia|]. rewrite <- (same_mod _ _ V2). unfold accumulate. rewrite last_one by exact Lf. rewrite Z.mod_mod by discriminate. rewrite <- Z.add_assoc. now apply acc_step.
    + apply Z.leb_gt in Q. unfold zlen in Q. rewrite blocks_short by lia. split; [exact S|exact E].
Qed.
Definition total (r : Z) (data : list Z) : Z := fold_left (accumulate r) (blocks 16 data) 0.
(** The context after some data, under a key *)
Record rep (r : Z * Z * Z) (pad : Z * Z) (c : poly) (data : list Z) : Prop := {
  rep_r : p_r c = r; rep_pad : p_pad c = pad; rep_final : p_final c = false; rep_small : small (p_h c);
  rep_val : val (p_h c) mod p1305 = total (val r) data mod p1305;
  rep_left : p_left c = Z.of_nat (length (rest 16 data)); rep_len : length (p_buf c) = 16%nat; rep_buf : firstn (length (rest 16 data)) (p_buf c) = rest 16 data }.
Lemma poly_blocks_ok r pad c data m : key_small r -> bytes_ok m -> (length m mod 16 = 0)%nat -> p_r c = r -> p_pad c = pad -> p_final c = false -> small (p_h c) -> val (p_h c) mod p1305 = fold_left (accumulate (val r)) (blocks 16 data) 0 mod p1305 ->
  small (p_h (poly_blocks c m)) /\ val (p_h (poly_blocks c m)) mod p1305 = fold_left (accumulate (val r)) (blocks 16 data ++ blocks 16 m) 0 mod p1305.
Proof.
  intros K B M R P F S V. unfold poly_blocks. rewrite F, R. cbn [set_h p_h]. rewrite fold_left_app. apply blocks_loop_ok; auto.
Qed.
Lemma store_length buf i m : (i + length m <= length buf)%nat -> length (store buf (Z.of_nat i) m) = length buf.
Proof. intros L. unfold store. rewrite Nat2Z.id, !app_length, skipn_length, firstn_length_le by lia. lia. Qed.
Lemma store_prefix buf i m : (i + length m <= length buf)%nat -> firstn (i + length m) (store buf (Z.of_nat i) m) = firstn i buf ++ m.
Proof.
  intros L. unfold store. rewrite Nat2Z.id, app_assoc. assert (E : length (firstn i buf ++ m) = (i + length m)%nat) by (rewrite app_length, firstn_length_le by lia; reflexivity). rewrite <- E at 1. rewrite firstn_app, Nat.sub_diag, firstn_O, app_nil_r. apply firstn_all.
Qed.
Lemma want_ok n : Z.to_nat (Z.land (Z.of_nat n) (Z.lnot 15)) = (n / 16 * 16)%nat.
Proof.
  rewrite <- Z.ldiff_land. change 15 with (Z.ones 4). rewrite Z.ldiff_ones_r by lia. rewrite Z.shiftl_mul_pow2, Z.shiftr_div_pow2 by lia. change (2 ^ 4) with (Z.of_nat 16). rewrite <- Nat2Z.inj_div, <- Nat2Z.inj_mul. apply Nat2Z.id.
Qed.
Lemma blocks_whole m : blocks 16 (firstn (length m / 16 * 16) m) = blocks 16 m.
Proof.
  pose proof (Nat.mul_div_le (length m) 16 ltac:(lia)) as D. unfold blocks. rewrite firstn_length_le by lia. rewrite Nat.div_mul by lia. apply map_ext_in. intros i Hi. apply in_seq in Hi. unfold block. rewrite skipn_firstn_comm, firstn_firstn. f_equal. apply Nat.min_l. nia.
Qed.
Lemma rest_nil : rest 16 [] = [].
Proof. reflexivity. Qed.
Lemma poly_rest_ok r pad c data m : key_small r -> bytes_ok m -> rep r pad c data -> rest 16 data = [] -> rep r pad (poly_rest c m) (data ++ m).
Proof.
  intros K B [R1 R2 R3 R4 R5 R6 R7 R8] E0. rewrite E0 in R6. cbn [length] in R6. change (Z.of_nat 0) with 0 in R6.
  assert (Eb : blocks 16 (data ++ m) = blocks 16 data ++ blocks 16 m) by (rewrite (blocks_app 16) by lia; rewrite E0; reflexivity). assert (Er : rest 16 (data ++ m) = rest 16 m) by (rewrite (rest_app 16) by lia; rewrite E0; reflexivity).
  unfold poly_rest. cbv zeta.
  assert (X : exists c', (if 16 <=? zlen m then (poly_blocks c (firstn (Z.to_nat (Z.land (zlen m) (Z.lnot 15))) m), skipn (Z.to_nat (Z.land (zlen m) (Z.lnot 15))) m) else (c, m)) = (c', rest 16 m) /\ p_r c' = r /\ p_pad c' = pad /\ p_final c' = false /\ small (p_h c') /\ val (p_h c') mod p1305 = total (val r) (data ++ m) mod p1305 /\ p_left c' = 0 /\ p_buf c' = p_buf c).
  { destruct (16 <=? zlen m) eqn:Q.
    - unfold zlen. rewrite want_ok. exists (poly_blocks c (firstn (length m / 16 * 16) m)). split; [reflexivity|]. pose proof (Nat.mul_div_le (length m) 16 ltac:(lia)) as D.
      destruct (poly_blocks_ok r pad c data (firstn (length m / 16 * 16) m) K ltac:(now apply bytes_ok_firstn) ltac:(rewrite firstn_length_le by lia; apply Nat.mod_mul; lia) R1 R2 R3 R4 R5) as [S V]. rewrite blocks_whole, <- Eb in V. repeat split; assumption.
    - exists c. apply Z.leb_gt in Q. unfold zlen in Q. rewrite (rest_short 16) by lia. rewrite (blocks_short 16 m), app_nil_r in Eb by lia. unfold total. rewrite Eb. repeat split; assumption. }
  destruct X as (c' & -> & Q1 & Q2 & Q3 & Q4 & Q5 & Q6 & Q7). pose proof (rest_lt 16 ltac:(lia) m) as Lr. unfold zlen. destruct (Z.eqb_spec (Z.of_nat (length (rest 16 m))) 0) as [Z0|NZ].
  - constructor; rewrite ?Er; try assumption; [rewrite Q6; symmetry; exact Z0|now rewrite Q7|]. apply (f_equal Z.to_nat) in Z0. rewrite Nat2Z.id in Z0. rewrite Z0. apply length_zero_iff_nil in Z0. now rewrite Z0.
  - rewrite Q6, Q7. change 0 with (Z.of_nat 0). constructor; unfold set_left; cbn [p_r p_h p_pad p_left p_buf p_final]; rewrite ?Er; try assumption; [reflexivity|rewrite store_length by lia; exact R7|]. exact (store_prefix (p_buf c) 0 (rest 16 m) ltac:(cbn [Nat.add]; lia)).
Qed.
Lemma rep_update r pad c data m : key_small r -> bytes_ok m -> bytes_ok data -> rep r pad c data -> rep r pad (poly_update c m) (data ++ m).
Proof.
  intros K B Bd R. pose proof R as [R1 R2 R3 R4 R5 R6 R7 R8]. pose proof (rest_lt 16 ltac:(lia) data) as Lr. unfold poly_update. destruct (Z.eqb_spec (p_left c) 0) as [Z0|NZ].
  - apply poly_rest_ok; try assumption. rewrite R6 in Z0. apply length_zero_iff_nil. lia.
  - rewrite R6 in *. set (q := rest 16 data) in *. cbv zeta. unfold zlen. 
    assert (Ed : data = concat (blocks 16 data) ++ q) by (symmetry; apply blocks_rest; lia).
    destruct (Z.ltb_spec (Z.of_nat (length m)) (16 - Z.of_nat (length q))) as [L|L].
    + rewrite Nat2Z.id, firstn_all. cbn [set_left p_left]. rewrite (proj2 (Z.ltb_lt _ _)) by lia. 
      assert (Er : rest 16 (data ++ m) = q ++ m) by (rewrite (rest_app 16) by lia; fold q; apply rest_short; rewrite app_length; lia).
      assert (Eb : blocks 16 (data ++ m) = blocks 16 data) by (rewrite (blocks_app 16) by lia; fold q; rewrite (blocks_short 16 (q ++ m)), app_nil_r by (rewrite app_length; lia); reflexivity).
      constructor; unfold set_left; cbn [p_r p_h p_pad p_left p_buf p_final]; rewrite ?Er; try assumption; [unfold total; rewrite Eb; exact R5|rewrite app_length; lia|rewrite store_length by lia; exact R7|]. rewrite app_length, store_prefix by lia. now rewrite R8.
    + cbn [set_left p_left p_buf]. replace (Z.of_nat (length q) + (16 - Z.of_nat (length q))) with 16 by lia. change (16 <? 16) with false. cbv iota.
      set (w := Z.to_nat (16 - Z.of_nat (length q))). assert (Lw : length (firstn w m) = w) by (apply firstn_length_le; lia). set (buf := store (p_buf c) (Z.of_nat (length q)) (firstn w m)).
      assert (Eb : buf = q ++ firstn w m). { rewrite <- R8 at 1. rewrite <- store_prefix by lia. fold buf. symmetry. apply firstn_all2. unfold buf. rewrite store_length by lia. lia. }
      assert (Lb : length buf = 16%nat) by (unfold buf; rewrite store_length by lia; exact R7). assert (Bb : bytes_ok buf) by (rewrite Eb; apply bytes_ok_app; split; [now apply rest_ok|now apply bytes_ok_firstn]).
      rewrite <- (firstn_skipn w m) at 2. rewrite app_assoc. apply poly_rest_ok; [exact K|now apply bytes_ok_skipn| |].
      2:{ rewrite (rest_app 16) by lia. fold q. rewrite <- Eb. apply blocks_all; [lia|now rewrite Lb]. }
      assert (Eb2 : blocks 16 (data ++ firstn w m) = blocks 16 data ++ blocks 16 buf) by (rewrite (blocks_app 16) by lia; fold q; now rewrite <- Eb). assert (Er : rest 16 (data ++ firstn w m) = []) by (rewrite (rest_app 16) by lia; fold q; rewrite <- Eb; apply blocks_all; [lia|now rewrite Lb]).
      destruct (poly_blocks_ok r pad (set_left c 16 buf) data buf K Bb ltac:(now rewrite Lb) R1 R2 R3 R4 R5) as [S V]. constructor; unfold set_left, poly_blocks, set_h; cbn [p_r p_h p_pad p_left p_buf p_final]; rewrite ?Er; try assumption; try reflexivity. unfold total. rewrite Eb2. exact V.
Qed.
Definition key_pad (key : list Z) : Z * Z := (u8to64 key 16, u8to64 key 24).
Definition key_r (key : list Z) : Z * Z * Z := p_r (poly_init {| p_r := (0,0,0); p_h := (0,0,0); p_pad := (0,0); p_left := 0; p_buf := []; p_final := false |} key).
Lemma rep_init c key : length (p_buf c) = 16%nat -> rep (key_r key) (key_pad key) (poly_init c key) [].
Proof. intros L. constructor; try reflexivity; [|exact L]. cbn [poly_init p_h]. unfold small. lia. Qed.
Lemma rep_finish key c data : bytes_ok key -> length key = 32%nat -> bytes_ok data -> rep (key_r key) (key_pad key) c data -> snd (poly_finish c) = poly1305 key data.
Proof.
  intros Bk Lk Bd [R1 R2 R3 R4 R5 R6 R7 R8]. destruct (key_ok key Bk Lk) as [Ek K]. fold (key_r key) in Ek, K. unfold poly_finish.
  assert (X : exists c', flush c = c' /\ p_pad c' = key_pad key /\ small (p_h c') /\ val (p_h c') mod p1305 = fold_left (accumulate (val (key_r key))) (pieces data) 0 mod p1305).
  { pose proof (rest_lt 16 ltac:(lia) data) as Lr. pose proof (rest_ok 16 data Bd) as Br. unfold pieces, flush. destruct (Z.eqb_spec (p_left c) 0) as [Z0|NZ].
    - exists c. rewrite R6 in Z0. assert (E0 : rest 16 data = []) by (apply length_zero_iff_nil; lia). rewrite E0, app_nil_r. auto.
    - rewrite R6 in *. rewrite Nat2Z.id, R8. set (q := rest 16 data) in *. eexists. split; [reflexivity|]. unfold poly_blocks. cbn [p_final p_r p_h p_pad set_h]. split; [exact R2|].
      assert (Eq : match q with [] => [] | z :: l => [z :: l] end = [q]) by (destruct q; [cbn [length] in NZ; lia|reflexivity]). rewrite Eq. clear Eq. rewrite fold_left_app. cbn [fold_left]. fold (total (val (key_r key)) data).
      set (buf := q ++ 1 :: repeat 0 (Z.to_nat (16 - (Z.of_nat (length q) + 1)))). assert (Lb : length buf = 16%nat) by (unfold buf; rewrite app_length; cbn [length]; rewrite repeat_length; lia).
      assert (Bb : bytes_ok buf) by (unfold buf; apply bytes_ok_app; split; [exact Br|apply Forall_cons; [unfold is_byte; lia|apply bytes_ok_repeat]]).
      assert (Vb : le_val buf = le_val (q ++ [1])) by (unfold buf; rewrite !le_val_app; f_equal; f_equal; cbn [le_val]; rewrite le_val_zeros; reflexivity).
      rewrite Lb. cbn [blocks_loop]. unfold zlen. rewrite Lb. change (16 <=? Z.of_nat 16) with true. cbv iota. rewrite (skipn_all2 buf) by lia. cbn [length]. change (16 <=? Z.of_nat 0) with false. cbv iota. rewrite R1.
      destruct (step_ok 0 (key_r key) (p_h c) buf (or_introl eq_refl) K R4 Bb ltac:(lia)) as [S V]. change (0 * 2 ^ 40) with 0 in S, V. split; [exact S|]. rewrite <- (same_mod _ _ V). unfold accumulate. rewrite firstn_all2 by lia. rewrite Z.mod_mod by discriminate. rewrite Z.add_0_r, Vb. now apply acc_step. }
  destruct X as (c' & -> & P & S & V). cbn [snd]. pose proof (full_carry_ok _ S) as F. destruct (full_carry (p_h c')) as [[h0 h1] h2]. destruct F as (F0 & F1 & F2 & FV). pose proof (select_ok h0 h1 h2 F0 F1 F2) as G. destruct (select (h0, h1, h2)) as [[g0 g1] g2]. destruct G as (G0 & G1 & G2 & GV).
  rewrite P. unfold key_pad. destruct (u8to64_ok key 16 Bk) as [E1 T1]; [lia|]. destruct (u8to64_ok key 24 Bk) as [E2 T2]; [lia|]. rewrite add_pad_ok by assumption. unfold poly1305. f_equal. rewrite GV, <- (same_mod _ _ FV), V, <- Ek. f_equal.
  - unfold pieces. destruct (rest 16 data) as [|x q] eqn:Q.
    + rewrite app_nil_r. destruct (blocks 16 data) as [|b bs] using rev_ind; [reflexivity|]. rewrite fold_left_app. cbn [fold_left]. unfold accumulate at 1 3. apply Z.mod_mod. discriminate.
    + rewrite fold_left_app. cbn [fold_left]. unfold accumulate at 1 3. apply Z.mod_mod. discriminate.
  - rewrite E1, E2. clear - Lk. set (k := skipn 16 key). replace (skipn 24 key) with (skipn 8 k) by (unfold k; rewrite skipn_skipn'; reflexivity). assert (L16 : length k = 16%nat) by (unfold k; rewrite skipn_length; lia). replace (firstn 16 k) with (firstn 8 k ++ firstn 8 (skipn 8 k)).
    + rewrite le_val_app. unfold zlen. rewrite firstn_length_le by lia. reflexivity.
    + rewrite (firstn_all2 (n := 16) k), (firstn_all2 (skipn 8 k)) by (rewrite ?skipn_length; lia). apply firstn_skipn.
Qed.

(** ** The comparison *)
Lemma lxor_byte a b : is_byte a -> is_byte b -> 0 <= Z.lxor a b < 2 ^ 8.
Proof.
  unfold is_byte. intros A B. assert (N : 0 <= Z.lxor a b) by (apply Z.lxor_nonneg; lia). split; [exact N|]. rewrite <- (Z.mod_small a (2 ^ 8)), <- (Z.mod_small b (2 ^ 8)) by (change (2 ^ 8) with 256; lia). rewrite <- !Z.land_ones by lia. rewrite <- (Z.mod_small (Z.lxor _ _) (2 ^ 8)); [apply Z.mod_pos_bound; reflexivity|].
  split; [apply Z.lxor_nonneg; rewrite !Z.land_ones by lia; pose proof (Z.mod_pos_bound a (2 ^ 8) ltac:(reflexivity)); pose proof (Z.mod_pos_bound b (2 ^ 8) ltac:(reflexivity)); lia|].
  replace (Z.lxor (Z.land a (Z.ones 8)) (Z.land b (Z.ones 8))) with (Z.land (Z.lxor a b) (Z.ones 8)) by (apply Z.bits_inj'; intros i Hi; rewrite Z.lxor_spec, !Z.land_spec, Z.lxor_spec; destruct (Z.testbit a i), (Z.testbit b i), (Z.testbit (Z.ones 8) i); reflexivity). rewrite Z.land_ones by lia. apply Z.mod_pos_bound. reflexivity.
Qed.
Lemma lor_byte a b : 0 <= a < 2 ^ 8 -> 0 <= b < 2 ^ 8 -> 0 <= Z.lor a b < 2 ^ 8.
Proof.
  intros A B. split; [apply Z.lor_nonneg; lia|]. rewrite <- (Z.mod_small a (2 ^ 8) A), <- (Z.mod_small b (2 ^ 8) B). rewrite <- !Z.land_ones by lia. rewrite <- Z.land_lor_distr_l, Z.land_ones by lia. apply Z.mod_pos_bound. reflexivity.
Qed.
Lemma fold_left_map {A B C} (f : A -> C -> A) (g : B -> C) l : forall a, fold_left f (map g l) a = fold_left (fun a x => f a (g x)) l a.
Proof. induction l as [|x l IH]; intros a; [reflexivity|]. cbn [map fold_left]. apply IH. Qed.
Lemma dif_ok a b n d : bytes_ok a -> bytes_ok b -> length a = n -> length b = n -> 0 <= d < 2 ^ 8 ->
  0 <= fold_left (fun d i => Z.lor d (Z.lxor (nth i a 0) (nth i b 0))) (seq 0 n) d < 2 ^ 8 /\ (fold_left (fun d i => Z.lor d (Z.lxor (nth i a 0) (nth i b 0))) (seq 0 n) d = 0 <-> d = 0 /\ a = b).
Proof.
  revert b n d. induction a as [|x a IH]; intros b n d Ba Bb La Lb Hd.
  - cbn [length] in La. subst n. apply length_zero_iff_nil in Lb. subst b. cbn [seq fold_left]. tauto.
  - destruct b as [|y b]; [cbn in *; lia|]. destruct n as [|n]; [discriminate La|]. injection La as La. injection Lb as Lb. inversion Ba as [|? ? Hx Ba']. inversion Bb as [|? ? Hy Bb']. subst.
    cbn [seq fold_left]. rewrite <- seq_shift. rewrite fold_left_map. cbn [nth]. destruct (IH b (length a) (Z.lor d (Z.lxor x y)) Ba' Bb' eq_refl Lb ltac:(apply lor_byte; [exact Hd|now apply lxor_byte])) as [I1 I2]. split; [exact I1|]. rewrite I2, Z.lor_eq_0_iff, Z.lxor_eq_0_iff. split; [intros ((-> & ->) & ->); now split|intros [-> E]; injection E as -> ->; tauto].
Qed.
Lemma poly_verify_ok a b : bytes_ok a -> bytes_ok b -> length a = 16%nat -> length b = 16%nat -> (poly_verify a b = 1 /\ a = b) \/ (poly_verify a b = 0 /\ a <> b).
Proof.
  intros Ba Bb La Lb. unfold poly_verify. destruct (dif_ok a b 16 0 Ba Bb La Lb ltac:(lia)) as [D1 D2]. set (d := fold_left _ _ _) in *. clearbody d. rewrite Z.shiftr_div_pow2 by lia. destruct (Z.eq_dec d 0) as [E|N].
  - left. split; [rewrite E; reflexivity|tauto].
  - right. split; [|tauto]. replace ((d - 1) mod 2 ^ 32 / 2 ^ 31) with 0 by lia. reflexivity.
Qed.
Lemma bytes_ok_concat l : Forall bytes_ok l -> bytes_ok (concat l).
Proof. induction 1 as [|m l B F IH]; [constructor|]. cbn [concat]. apply bytes_ok_app. now split. Qed.
Lemma buf_finish r pad c data : rep r pad c data -> length (p_buf (fst (poly_finish c))) = 16%nat.
Proof.
  intros [R1 R2 R3 R4 R5 R6 R7 R8]. unfold poly_finish, flush. cbn [fst p_buf]. destruct (Z.eqb_spec (p_left c) 0) as [Z0|NZ]; [exact R7|]. unfold poly_blocks, set_h. cbn [p_buf]. pose proof (rest_lt 16 ltac:(lia) data) as Lr. rewrite R6. rewrite app_length, firstn_length_le by lia. cbn [length]. rewrite repeat_length. lia.
Qed.
