From Verif Require Import Common CommonFacts BioModel BioFacts BnModel BnSpec BnFacts ProofFacts HeaderModel HeaderSpec.

(* ---------- pow_to_target ---------- *)

Lemma le_bytes_0 n : le_bytes n 0 = repeat 0 n.
Proof. induction n; cbn [le_bytes repeat]; auto. change (0 mod 256) with 0. change (0/256) with 0. now rewrite IHn. Qed.

Lemma pow_fill_spec n : forall m, 0 <= m -> pow_fill n m = (le_bytes n m, m / 256 ^ Z.of_nat n).
Proof.
  induction n as [|k IH]; intros m Hm.
  - cbn [pow_fill le_bytes]. change (256 ^ Z.of_nat 0) with 1. now rewrite Z.div_1_r.
  - cbn [pow_fill]. destruct (Z.eqb_spec m 0) as [->|N].
    + rewrite le_bytes_0, Z.div_0_l; auto. apply Z.pow_nonzero; lia.
    + rewrite IH by (apply Z.div_pos; lia). cbn [le_bytes]. f_equal.
      rewrite Z.div_div by (try lia; apply Z.pow_pos_nonneg; lia).
      f_equal. replace (Z.of_nat (S k)) with (1 + Z.of_nat k) by lia.
      rewrite Z.pow_add_r by lia. reflexivity.
Qed.

Lemma le_val_repeat0 n l : le_val (repeat 0 n ++ l) = 256 ^ Z.of_nat n * le_val l.
Proof.
  rewrite le_val_app. unfold zlen. rewrite repeat_length.
  assert (le_val (repeat 0 n) = 0) as ->; [|lia].
  induction n; cbn [repeat le_val]; auto. rewrite IHn. reflexivity.
Qed.

(** [shift_of e]: the number of low zero bytes the code uses. *)
Definition shift_of (e : Z) : Z := if e <=? 3 then 0 else (e - 3) mod 32.
Definition mant_of (e m : Z) : Z := if e <=? 3 then m / 256 ^ (3 - e) else m.

Lemma compact_split e m : 0 <= e < 256 -> 0 <= m < 2 ^ 24 ->
  compact e m / 16777216 = e /\ Z.land (compact e m) 8388607 = m mod 2 ^ 23 /\
  Z.odd (compact e m / 8388608) = (2 ^ 23 <=? m).
Proof.
  intros He Hm. unfold compact. change (2^24) with 16777216 in *. split; [|split].
  - symmetry. apply (Z.div_unique _ _ _ m); lia.
  - change 8388607 with (Z.ones 23). rewrite Z.land_ones by lia.
    change 16777216 with (2 * 2 ^ 23). rewrite Z.add_comm.
    replace (e * (2 * 2^23)) with (2 * e * 2^23) by ring. apply Z_mod_plus_full.
  - destruct (Z.leb_spec (2^23) m).
    + assert ((e * 16777216 + m) / 8388608 = 2 * e + 1) as ->.
      { symmetry. apply (Z.div_unique _ _ _ (m - 2^23)); lia. }
      rewrite Z.odd_add, Z.odd_mul. reflexivity.
    + assert ((e * 16777216 + m) / 8388608 = 2 * e) as ->.
      { symmetry. apply (Z.div_unique _ _ _ m); lia. }
      rewrite Z.odd_mul. reflexivity.
Qed.

Lemma pow8 k : 0 <= k -> 2 ^ (8 * k) = 256 ^ k.
Proof. intros. rewrite Z.pow_mul_r by lia. reflexivity. Qed.

Lemma p256 : 2 ^ 256 = 256 ^ 32. Proof. reflexivity. Qed.

(** Exact behaviour of pow_to_target on every compact value. *)
Lemma to_target_exact e m : 0 <= e < 256 -> 0 <= m < 2 ^ 24 ->
  (exists t, pow_to_target (compact e m) = Some t /\ hash_ok t /\
     be_val t = mant_of e m * 256 ^ shift_of e /\
     compact e m <> 0 /\ m < 2 ^ 23 /\ mant_of e m * 256 ^ shift_of e < 2 ^ 256)
  \/ (pow_to_target (compact e m) = None /\
      (compact e m = 0 \/ 2 ^ 23 <= m \/ 2 ^ 256 <= mant_of e m * 256 ^ shift_of e)).
Proof.
  intros He Hm. destruct (compact_split e m He Hm) as (E1 & E2 & E3).
  unfold pow_to_target. destruct (Z.eqb_spec (compact e m) 0) as [Z0|NZ]; [right; auto|].
  rewrite E3. destruct (Z.leb_spec (2^23) m) as [B|B]; [right; auto|].
  cbv zeta. rewrite E1, E2. rewrite (Z.mod_small m) by lia.
  assert (M : (if e <=? 3 then m / 2 ^ (8 * (3 - e)) else m) = mant_of e m).
  { unfold mant_of. destruct (Z.leb_spec e 3); auto. now rewrite pow8 by lia. }
  assert (S : (if e <=? 3 then 0 else Z.land (e - 3) 31) = shift_of e).
  { unfold shift_of. destruct (Z.leb_spec e 3); auto. change 31 with (Z.ones 5). now rewrite Z.land_ones by lia. }
  rewrite M, S.
  assert (Hs : 0 <= shift_of e < 32).
  { unfold shift_of. destruct (Z.leb_spec e 3); [lia|]. apply Z.mod_pos_bound. lia. }
  assert (Hq : 0 <= mant_of e m).
  { unfold mant_of. destruct (Z.leb_spec e 3); [|lia]. apply Z.div_pos; [lia|]. apply Z.pow_pos_nonneg; lia. }
  set (q := mant_of e m) in *. set (s := shift_of e) in *.
  rewrite pow_fill_spec by auto.
  replace (Z.of_nat (Z.to_nat (32 - s))) with (32 - s) by lia.
  assert (P1 : 0 < 256 ^ (32 - s)) by (apply Z.pow_pos_nonneg; lia).
  assert (P2 : 0 < 256 ^ s) by (apply Z.pow_pos_nonneg; lia).
  assert (PP : 2 ^ 256 = 256 ^ (32 - s) * 256 ^ s).
  { rewrite p256, <- Z.pow_add_r by lia. f_equal. lia. }
  destruct (Z.eqb_spec (q / 256 ^ (32 - s)) 0) as [D|D].
  - left. assert (L : q < 256 ^ (32 - s)) by (apply Z.div_small_iff in D; lia).
    eexists. split; [reflexivity|]. split; [split|split; [|repeat split; auto; nia]].
    + rewrite rev_length, app_length, repeat_length, le_bytes_length. lia.
    + apply bytes_ok_rev. apply bytes_ok_app. split; [apply bytes_ok_repeat; unfold is_byte; lia|apply le_bytes_ok].
    + unfold be_val. rewrite rev_involutive, le_val_repeat0.
      rewrite le_val_le_bytes by (rewrite Z2Nat.id; lia). replace (Z.of_nat (Z.to_nat s)) with s by lia. ring.
  - right. split; auto. right. right. 
    assert (~ q < 256 ^ (32 - s)) by (intros X; apply D; apply Z.div_small; lia). nia.
Qed.

(* ---------- pow_to_bits ---------- *)

Lemma pow_acc_gen l : forall m, 0 <= m -> bytes_ok l -> (m + 1) * 256 ^ zlen l <= 2 ^ 32 ->
  fold_left (fun m b => Z.lor ((m * 256) mod 4294967296) b) l m = m * 256 ^ zlen l + be_val l.
Proof.
  induction l as [|b l IH]; intros m Hm OK Bd.
  - cbn [fold_left]. change (zlen (@nil Z)) with 0. rewrite be_val_nil. change (256^0) with 1. ring.
  - inversion OK as [|? ? Hb OK']; subst. unfold is_byte in Hb. cbn [fold_left].
    rewrite zlen_cons in Bd. pose proof (zlen_nonneg l) as ZN.
    rewrite Z.pow_add_r in Bd by lia. change (256^1) with 256 in Bd.
    assert (P : 1 <= 256 ^ zlen l) by (pose proof (Z.pow_pos_nonneg 256 (zlen l)); lia).
    rewrite Z.mod_small by (change 4294967296 with (2^32); nia).
    assert (LA : Z.lor (m * 256) b = m * 256 + b) by (apply (lor_mul_add m 8 b); lia). rewrite LA.
    rewrite IH; auto; try lia; [|nia].
    rewrite be_val_cons, zlen_cons, Z.pow_add_r by lia. change (256^1) with 256. ring.
Qed.

Lemma pow_acc_spec l : bytes_ok l -> (length l <= 3)%nat -> pow_acc l = be_val l.
Proof.
  intros OK L. unfold pow_acc. rewrite pow_acc_gen; auto; try lia.
  assert (256 ^ zlen l <= 256 ^ 3) by (apply Z.pow_le_mono_r; unfold zlen; lia).
  change (2^32) with (256 * 256 ^ 3). lia.
Qed.

Lemma be_val_bounds l : bytes_ok l -> 0 <= be_val l < 256 ^ zlen l.
Proof.
  intros OK. unfold be_val. apply bytes_ok_rev in OK. pose proof (le_val_bound _ OK) as B.
  unfold zlen in *. rewrite rev_length in B. exact B.
Qed.

Lemma skip_zeros_val t : be_val (skip_zeros t) = be_val t.
Proof.
  induction t as [|b t IH]; [reflexivity|]. cbn [skip_zeros]. destruct (Z.eqb_spec b 0) as [->|]; auto.
  rewrite be_val_cons, IH. ring.
Qed.
Lemma skip_zeros_suffix t : exists p, t = p ++ skip_zeros t.
Proof.
  induction t as [|b t [p IH]]; [exists []; reflexivity|]. cbn [skip_zeros]. destruct (Z.eqb_spec b 0) as [->|].
  - exists (0 :: p). cbn [app]. now rewrite <- IH.
  - exists []. reflexivity.
Qed.
Lemma skip_zeros_head t : skip_zeros t = [] \/ exists b r, skip_zeros t = b :: r /\ b <> 0.
Proof.
  induction t as [|b t IH]; [auto|]. cbn [skip_zeros]. destruct (Z.eqb_spec b 0); auto.
  right. eauto.
Qed.

(** The exponent/mantissa pair the code computes from the value of the target. *)
Definition bits_of_value (e v : Z) : Z * Z :=
  let m := if e <=? 3 then v * 256 ^ (3 - e) else v / 256 ^ (e - 3) in
  if 2 ^ 23 <=? m then (e + 1, m / 256) else (e, m).

Lemma to_bits_exact t : hash_ok t ->
  (be_val t = 0 /\ pow_to_bits t = 0) \/
  exists e, 1 <= e <= 32 /\ 256 ^ (e - 1) <= be_val t < 256 ^ e /\
    pow_to_bits t = compact (fst (bits_of_value e (be_val t))) (snd (bits_of_value e (be_val t))).
Proof.
  intros [L OK]. unfold pow_to_bits.
  rewrite <- (skip_zeros_val t).
  destruct (skip_zeros_suffix t) as [p Hp].
  assert (LS : zlen (skip_zeros t) <= 32).
  { apply (f_equal (@length Z)) in Hp. rewrite app_length in Hp. unfold zlen. lia. }
  assert (OS : bytes_ok (skip_zeros t)).
  { rewrite Hp in OK. apply bytes_ok_app in OK. tauto. }
  destruct (skip_zeros_head t) as [E|(b & r & E & NB)].
  { left. rewrite E. split; reflexivity. }
  right. set (sg := skip_zeros t) in *. set (e := zlen sg) in *. set (v := be_val sg).
  assert (He : 1 <= e).
  { unfold e. rewrite E, zlen_cons. pose proof (zlen_nonneg r). lia. }
  exists e. split; [lia|].
  assert (HV : 256 ^ (e - 1) <= v < 256 ^ e).
  { split; [|apply be_val_bounds; auto].
    unfold v, e. rewrite E, zlen_cons, be_val_cons.
    rewrite E in OS. apply bytes_ok_cons in OS as [Hb Or]. unfold is_byte in Hb.
    pose proof (be_val_bounds _ Or). replace (1 + zlen r - 1) with (zlen r) by lia. nia. }
  split; [exact HV|].
  destruct (Z.eqb_spec e 0); [lia|].
  assert (M : (if e <=? 3 then (pow_acc sg * 2 ^ (8 * (3 - e))) mod 4294967296 else pow_acc (firstn 3 sg))
              = if e <=? 3 then v * 256 ^ (3 - e) else v / 256 ^ (e - 3)).
  { destruct (Z.leb_spec e 3).
    - rewrite pow_acc_spec by (auto; unfold e, zlen in *; lia).
      rewrite pow8 by lia. fold v. apply Z.mod_small.
      assert (P : 0 < 256 ^ (3 - e)) by (apply Z.pow_pos_nonneg; lia).
      assert (256 ^ e * 256 ^ (3 - e) = 16777216).
      { rewrite <- Z.pow_add_r by lia. replace (e + (3 - e)) with 3 by lia. reflexivity. }
      pose proof (Z.pow_pos_nonneg 256 (e-1)). nia.
    - rewrite pow_acc_spec.
      + unfold v. rewrite <- (firstn_skipn 3 sg) at 2. rewrite be_val_app.
        assert (Z3 : zlen (skipn 3 sg) = e - 3) by (unfold zlen, e in *; unfold zlen; rewrite skipn_length; unfold zlen in *; lia).
        assert (O3 : bytes_ok (skipn 3 sg)) by (apply bytes_ok_skipn; auto).
        pose proof (be_val_bounds _ O3) as B3. rewrite Z3 in *.
        apply (Z.div_unique _ _ _ (be_val (skipn 3 sg))); [lia|ring].
      + apply bytes_ok_firstn; auto.
      + rewrite firstn_length. lia. }
  cbv zeta. rewrite M. unfold bits_of_value. cbv zeta.
  set (m := if e <=? 3 then v * 256 ^ (3 - e) else v / 256 ^ (e - 3)).
  assert (Hm : 0 <= m < 2 ^ 24).
  { unfold m. destruct (Z.leb_spec e 3).
    - assert (P : 0 < 256 ^ (3 - e)) by (apply Z.pow_pos_nonneg; lia).
      assert (256 ^ e * 256 ^ (3 - e) = 2 ^ 24).
      { rewrite <- Z.pow_add_r by lia. replace (e + (3 - e)) with 3 by lia. reflexivity. }
      pose proof (Z.pow_pos_nonneg 256 (e-1)). nia.
    - assert (P : 0 < 256 ^ (e - 3)) by (apply Z.pow_pos_nonneg; lia).
      pose proof (Z.pow_pos_nonneg 256 (e-1)).
      split; [apply Z.div_pos; lia|]. apply Z.div_lt_upper_bound; [lia|].
      change (2^24) with (256^3). rewrite <- Z.pow_add_r by lia. replace (e - 3 + 3) with e by lia. lia. }
  assert (O : Z.odd (m / 8388608) = (2 ^ 23 <=? m)).
  { pose proof (compact_split 0 m ltac:(lia) Hm) as (_ & _ & X).
    unfold compact in X. rewrite Z.mul_0_l, Z.add_0_l in X. exact X. }
  rewrite O.
  destruct (Z.leb_spec (2^23) m) as [G|G]; cbn [fst snd]; unfold compact.
  - assert (0 <= m / 256 < 2 ^ 24).
    { split. apply Z.div_pos; lia. apply Z.div_lt_upper_bound; lia. }
    rewrite Z.mod_small by lia. change 16777216 with (2^24). apply lor_mul_add; lia.
  - rewrite Z.mod_small by lia. change 16777216 with (2^24). apply lor_mul_add; lia.
Qed.

(** What the pair means. *)
Lemma bits_of_value_spec e v : 1 <= e <= 32 -> 256 ^ (e - 1) <= v < 256 ^ e ->
  let (E, m) := bits_of_value e v in
  canonical E m /\ 1 <= E <= 33 /\ compact_value E m <= v /\
  (E <= 3 -> compact_value E m = v) /\ (3 < E -> v < compact_value E m + 256 ^ (E - 3)).
Proof.
  intros He Hv. unfold bits_of_value, canonical, compact_value.
  assert (C : e = 1 \/ e = 2 \/ e = 3 \/ 4 <= e) by lia.
  destruct C as [->|[->|[->|C]]].
  - change (1 <=? 3) with true. cbv iota zeta. change (256 ^ (3-1)) with 65536 in *.
    change (256 ^ (1 - 1)) with 1 in *. change (256 ^ 1) with 256 in *.
    destruct (Z.leb_spec (2^23) (v * 65536)).
    + change (1 + 1 <=? 3) with true. cbv iota. change (1 + 1) with 2. change (256 ^ (3 - 2)) with 256.
      assert (v * 65536 / 256 = v * 256) as -> by (symmetry; apply (Z.div_unique _ _ _ 0); lia).
      rewrite Z_div_mult, Z_mod_mult by lia. lia.
    + change (1 <=? 3) with true. cbv iota. change (256 ^ (3-1)) with 65536.
      rewrite Z_div_mult, Z_mod_mult by lia. lia.
  - change (2 <=? 3) with true. cbv iota zeta. change (256 ^ (3-2)) with 256 in *.
    change (256 ^ (2 - 1)) with 256 in *. change (256 ^ 2) with 65536 in *.
    destruct (Z.leb_spec (2^23) (v * 256)).
    + change (2 + 1 <=? 3) with true. cbv iota. change (2 + 1) with 3. change (256 ^ (3 - 3)) with 1.
      rewrite Z_div_mult, Z.div_1_r, Z.mod_1_r by lia. lia.
    + change (2 <=? 3) with true. cbv iota. change (256 ^ (3-2)) with 256.
      rewrite Z_div_mult, Z_mod_mult by lia. lia.
  - change (3 <=? 3) with true. cbv iota zeta. change (256 ^ (3-3)) with 1 in *.
    change (256 ^ (3 - 1)) with 65536 in *. change (256 ^ 3) with 16777216 in *. rewrite Z.mul_1_r.
    destruct (Z.leb_spec (2^23) v).
    + change (3 + 1 <=? 3) with false. cbv iota. change (3 + 1) with 4. change (256 ^ (4 - 3)) with 256.
      pose proof (Z.div_mod v 256 ltac:(lia)). pose proof (Z.mod_pos_bound v 256 ltac:(lia)). lia.
    + change (3 <=? 3) with true. cbv iota. change (256 ^ (3-3)) with 1.
      rewrite Z.div_1_r, Z.mod_1_r by lia. lia.
  - destruct (Z.leb_spec e 3); [lia|]. cbv zeta.
    assert (P : 0 < 256 ^ (e - 3)) by (apply Z.pow_pos_nonneg; lia).
    assert (E1 : 256 ^ (e - 1) = 65536 * 256 ^ (e - 3)).
    { change 65536 with (256 ^ 2). rewrite <- Z.pow_add_r by lia. f_equal. lia. }
    assert (E2 : 256 ^ e = 16777216 * 256 ^ (e - 3)).
    { change 16777216 with (256 ^ 3). rewrite <- Z.pow_add_r by lia. f_equal. lia. }
    rewrite E1, E2 in Hv. 
    assert (E3 : 256 ^ (e + 1 - 3) = 256 * 256 ^ (e - 3)).
    { change 256 with (256 ^ 1) at 2. rewrite <- Z.pow_add_r by lia. f_equal. lia. }
    set (p := 256 ^ (e - 3)) in *.
    pose proof (Z.div_mod v p ltac:(lia)) as D. pose proof (Z.mod_pos_bound v p P) as Bm.
    set (q := v / p) in *. set (r := v mod p) in *.
    assert (65536 <= q < 16777216) by nia.
    destruct (Z.leb_spec (2^23) q).
    + destruct (Z.leb_spec (e+1) 3); [lia|]. rewrite E3.
      pose proof (Z.div_mod q 256 ltac:(lia)) as D2. pose proof (Z.mod_pos_bound q 256 ltac:(lia)) as B2.
      set (q' := q / 256) in *. set (r' := q mod 256) in *.
      repeat split; try lia; nia.
    + destruct (Z.leb_spec e 3); [lia|]. fold p. repeat split; try lia; nia.
Qed.

Lemma canonical_exact e m : 1 <= e -> canonical e m -> e <= 3 -> compact_value e m * 256 ^ (3 - e) = m.
Proof.
  intros He (_ & Hm & X) L. specialize (X L). unfold compact_value. destruct (Z.leb_spec e 3); [|lia].
  assert (P : 0 < 256 ^ (3 - e)) by (apply Z.pow_pos_nonneg; lia).
  pose proof (Z.div_mod m (256 ^ (3 - e)) ltac:(lia)). lia.
Qed.

(** No non-negative compact value lies strictly between. *)
Lemma greatest_representable E m v e' m' : canonical E m -> compact_value E m <= v ->
  (E <= 3 -> compact_value E m = v) -> (3 < E -> v < compact_value E m + 256 ^ (E - 3)) ->
  0 <= e' -> 0 <= m' < 2 ^ 23 -> compact_value e' m' <= v -> compact_value e' m' <= compact_value E m.
Proof.
  intros (C1 & C2 & _) H1 H2 H3 He Hm Hle.
  destruct (Z.leb_spec E 3) as [S|S]; [rewrite H2; auto|]. specialize (H3 S).
  unfold compact_value in *. destruct (Z.leb_spec E 3); [lia|].
  assert (P : 0 < 256 ^ (E - 3)) by (apply Z.pow_pos_nonneg; lia).
  destruct (Z.leb_spec e' 3).
  - assert (P3 : 0 < 256 ^ (3 - e')) by (apply Z.pow_pos_nonneg; lia).
    assert (m' / 256 ^ (3 - e') <= m') by (apply Z.div_le_upper_bound; nia).
    assert (E4 : 256 ^ 1 <= 256 ^ (E - 3)) by (apply Z.pow_le_mono_r; lia).
    change (256 ^ 1) with 256 in E4. change (2^15) with 32768 in *. change (2^23) with (32768 * 256) in *. nia.
  - destruct (Z.leb_spec E e').
    + assert (F : 256 ^ (e' - 3) = 256 ^ (e' - E) * 256 ^ (E - 3)).
      { rewrite <- Z.pow_add_r by lia. f_equal. lia. }
      rewrite F in Hle |- *. rewrite Z.mul_assoc in Hle |- *.
      remember (m' * 256 ^ (e' - E)) as k eqn:Ek. remember (256 ^ (E - 3)) as p eqn:Ep. clear - Hle H3 P.
      assert (k * p < (m + 1) * p) by lia. apply Z.mul_le_mono_nonneg_r; [lia|].
      apply Z.mul_lt_mono_pos_r in H; lia.
    + assert (F : 256 ^ (e' - 2) <= 256 ^ (E - 3)) by (apply Z.pow_le_mono_r; lia).
      replace (e' - 2) with (e' - 3 + 1) in F by lia. rewrite Z.pow_add_r in F by lia.
      change (256^1) with 256 in F.
      assert (0 < 256 ^ (e' - 3)) by (apply Z.pow_pos_nonneg; lia).
      change (2^15) with 32768 in *. change (2^23) with (32768 * 256) in *. nia.
Qed.

(** The value of a canonical pair determines the pair. *)
Lemma canonical_size e m : canonical e m -> 
  exists k, (k = e \/ k = e - 1) /\ 1 <= k /\ 256 ^ (k - 1) <= compact_value e m < 256 ^ k /\
    bits_of_value k (compact_value e m) = (e, m).
Proof.
  intros C. assert (C' := C). destruct C' as (C1 & C2 & C3).
  assert (K : e = 1 \/ e = 2 \/ e = 3 \/ 4 <= e) by lia.
  destruct K as [->|[->|[->|K]]].
  - specialize (C3 ltac:(lia)). change (256 ^ (3 - 1)) with 65536 in *.
    unfold compact_value. change (1 <=? 3) with true. cbv iota. change (256 ^ (3 - 1)) with 65536.
    pose proof (Z.div_mod m 65536 ltac:(lia)) as D. rewrite C3 in D. set (a := m / 65536) in *.
    exists 1. change (256 ^ (1-1)) with 1. change (256^1) with 256. repeat split; try lia.
    unfold bits_of_value. change (1 <=? 3) with true. cbv iota zeta. change (256 ^ (3 - 1)) with 65536.
    destruct (Z.leb_spec (2^23) (a * 65536)); [lia|]. f_equal. lia.
  - specialize (C3 ltac:(lia)). change (256 ^ (3 - 2)) with 256 in *.
    unfold compact_value. change (2 <=? 3) with true. cbv iota. change (256 ^ (3 - 2)) with 256.
    pose proof (Z.div_mod m 256 ltac:(lia)) as D. rewrite C3 in D. set (a := m / 256) in *.
    destruct (Z.leb_spec 256 a).
    + exists 2. change (256 ^ (2-1)) with 256. change (256^2) with 65536. repeat split; try lia.
      unfold bits_of_value. change (2 <=? 3) with true. cbv iota zeta. change (256 ^ (3 - 2)) with 256.
      destruct (Z.leb_spec (2^23) (a * 256)); [lia|]. f_equal. lia.
    + exists 1. change (256 ^ (1-1)) with 1. change (256^1) with 256. repeat split; try lia.
      unfold bits_of_value. change (1 <=? 3) with true. cbv iota zeta. change (256 ^ (3 - 1)) with 65536.
      destruct (Z.leb_spec (2^23) (a * 65536)); [|lia]. f_equal.
      symmetry. apply (Z.div_unique _ _ _ 0); lia.
  - unfold compact_value. change (3 <=? 3) with true. cbv iota. change (256 ^ (3 - 3)) with 1. rewrite Z.div_1_r.
    destruct (Z.leb_spec 65536 m).
    + exists 3. change (256 ^ (3-1)) with 65536. change (256^3) with 16777216. repeat split; try lia.
      unfold bits_of_value. change (3 <=? 3) with true. cbv iota zeta. change (256 ^ (3 - 3)) with 1. rewrite Z.mul_1_r.
      destruct (Z.leb_spec (2^23) m); [lia|]. reflexivity.
    + exists 2. change (256 ^ (2-1)) with 256. change (256^2) with 65536. repeat split; try lia.
      unfold bits_of_value. change (2 <=? 3) with true. cbv iota zeta. change (256 ^ (3 - 2)) with 256.
      destruct (Z.leb_spec (2^23) (m * 256)); [|lia]. f_equal. apply Z_div_mult. lia.
  - unfold compact_value. destruct (Z.leb_spec e 3); [lia|].
    assert (P : 0 < 256 ^ (e - 3)) by (apply Z.pow_pos_nonneg; lia).
    assert (E1 : 256 ^ (e - 1) = 65536 * 256 ^ (e - 3)).
    { change 65536 with (256 ^ 2). rewrite <- Z.pow_add_r by lia. f_equal. lia. }
    assert (E2 : 256 ^ e = 16777216 * 256 ^ (e - 3)).
    { change 16777216 with (256 ^ 3). rewrite <- Z.pow_add_r by lia. f_equal. lia. }
    assert (E3 : 256 ^ (e - 2) = 256 * 256 ^ (e - 3)).
    { change 256 with (256 ^ 1) at 2. rewrite <- Z.pow_add_r by lia. f_equal. lia. }
    set (p := 256 ^ (e - 3)) in *.
    destruct (Z.leb_spec 65536 m).
    + exists e. rewrite E1, E2. repeat split; try lia; try nia.
      unfold bits_of_value. destruct (Z.leb_spec e 3); [lia|]. cbv zeta. fold p.
      rewrite Z_div_mult by lia. destruct (Z.leb_spec (2^23) m); [lia|]. reflexivity.
    + exists (e - 1). replace (e - 1 - 1) with (e - 2) by lia. rewrite E1, E3. repeat split; try lia; try nia.
      unfold bits_of_value. destruct (Z.eq_dec e 4) as [->|].
      * change (4 - 1 <=? 3) with true. cbv iota zeta. change (256 ^ (3 - (4 - 1))) with 1.
        change p with 256. rewrite Z.mul_1_r.
        destruct (Z.leb_spec (2^23) (m * 256)); [|lia]. rewrite Z_div_mult by lia. reflexivity.
      * destruct (Z.leb_spec (e - 1) 3); [lia|]. cbv zeta.
        assert (E4 : p = 256 * 256 ^ (e - 1 - 3)).
        { unfold p. change 256 with (256 ^ 1) at 2. rewrite <- Z.pow_add_r by lia. f_equal. lia. }
        assert (P4 : 0 < 256 ^ (e - 1 - 3)) by (apply Z.pow_pos_nonneg; lia).
        rewrite E4, Z.mul_assoc, Z_div_mult by lia.
        destruct (Z.leb_spec (2^23) (m * 256)); [|lia]. rewrite Z_div_mult by lia.
        f_equal. lia.
Qed.

Lemma size_unique v a b : 1 <= a -> 1 <= b -> 256 ^ (a - 1) <= v < 256 ^ a -> 256 ^ (b - 1) <= v < 256 ^ b -> a = b.
Proof.
  intros Ha Hb [A1 A2] [B1 B2].
  assert (~ a < b). { intros L. assert (256 ^ a <= 256 ^ (b - 1)) by (apply Z.pow_le_mono_r; lia). lia. }
  assert (~ b < a). { intros L. assert (256 ^ b <= 256 ^ (a - 1)) by (apply Z.pow_le_mono_r; lia). lia. }
  lia.
Qed.

Lemma value_mant e m : e <= 34 -> compact_value e m = mant_of e m * 256 ^ shift_of e.
Proof.
  intros H. unfold compact_value, mant_of, shift_of. destruct (Z.leb_spec e 3).
  - change (256^0) with 1. ring.
  - rewrite Z.mod_small by lia. reflexivity.
Qed.

(** decoding *)
Lemma to_target_value e m : 0 <= e < 256 -> 0 <= m < 2 ^ 23 -> compact e m <> 0 ->
  compact_value e m < 2 ^ 256 ->
  exists t, pow_to_target (compact e m) = Some t /\ hash_ok t /\ be_val t = compact_value e m.
Proof.
  intros He Hm NZ Hv.
  assert (S : compact_value e m = mant_of e m * 256 ^ shift_of e).
  { destruct (Z.leb_spec e 34); [apply value_mant; auto|].
    assert (m = 0).
    { unfold compact_value in Hv. destruct (Z.leb_spec e 3); [lia|].
      assert (256 ^ 32 <= 256 ^ (e - 3)) by (apply Z.pow_le_mono_r; lia). rewrite <- p256 in *. nia. }
    subst m. unfold compact_value, mant_of. destruct (Z.leb_spec e 3); [lia|]. ring. }
  destruct (to_target_exact e m He ltac:(lia)) as [(t & E & O & V & _)|(E & X)].
  - exists t. split; auto. split; auto. congruence.
  - exfalso. rewrite <- S in X. lia.
Qed.

Lemma to_target_rejects e m : 0 <= e <= 34 -> 0 <= m < 2 ^ 24 ->
  (compact e m = 0 \/ 2 ^ 23 <= m \/ 2 ^ 256 <= compact_value e m) ->
  pow_to_target (compact e m) = None.
Proof.
  intros He Hm X.
  destruct (to_target_exact e m ltac:(lia) ltac:(lia)) as [(t & E & O & V & N0 & NM & NV)|(E & _)]; auto.
  rewrite <- value_mant in NV by lia. lia.
Qed.

(** encode *)
Lemma to_bits_spec t : hash_ok t ->
  (be_val t = 0 /\ pow_to_bits t = 0) \/
  (exists e m, pow_to_bits t = compact e m /\ canonical e m /\ e <= 33 /\
     compact_value e m <= be_val t /\
     forall e' m', 0 <= e' -> 0 <= m' < 2 ^ 23 -> compact_value e' m' <= be_val t ->
       compact_value e' m' <= compact_value e m).
Proof.
  intros H. destruct (to_bits_exact t H) as [L|(e & He & Hv & E)]; [auto|right].
  pose proof (bits_of_value_spec e (be_val t) He Hv) as S.
  destruct (bits_of_value e (be_val t)) as [E1 m]. cbn [fst snd] in E.
  destruct S as (S1 & S2 & S3 & S4 & S5).
  exists E1, m. repeat split; auto; try apply S1; try lia.
  intros. apply (greatest_representable E1 m (be_val t) e' m'); auto.
Qed.

Lemma canonical_roundtrip e m : canonical e m -> e < 256 -> compact_value e m < 2 ^ 256 ->
  exists t, pow_to_target (compact e m) = Some t /\ be_val t = compact_value e m /\
    pow_to_bits t = compact e m.
Proof.
  intros C He Hv. assert (C' := C). destruct C' as (C1 & C2 & _).
  destruct (to_target_value e m) as (t & E & O & V); try lia. { unfold compact; lia. }
  exists t. split; auto. split; auto.
  destruct (canonical_size e m C) as (k & _ & K1 & K2 & K3).
  destruct (to_bits_exact t O) as [[Z0 _]|(e2 & He2 & Hv2 & E2)].
  - assert (0 < 256 ^ (k - 1)) by (apply Z.pow_pos_nonneg; lia). lia.
  - rewrite V in *. assert (e2 = k) by (apply (size_unique (compact_value e m)); lia). subst e2.
    rewrite E2, K3. reflexivity.
Qed.

(* ---------- work ---------- *)

Lemma max_bn_ok : bn_ok (bn_lshift (bn_from_int 1) 256) /\ bn_val (bn_lshift (bn_from_int 1) 256) = 2 ^ 256.
Proof. destruct (lshift_spec _ 256 (from_int_ok 1)) as [O _]. split; [exact O|]. vm_compute. reflexivity. Qed.

Lemma get_proof_spec bits t : pow_to_target bits = Some t -> hash_ok t ->
  exists p, get_proof bits = Some p /\ hash_ok p /\ be_val p = work_of (be_val t) mod 2 ^ 256.
Proof.
  intros E [L OK]. unfold get_proof. rewrite E.
  destruct (from_array_spec t 8) as (n & En & On & Vn); auto; try lia. rewrite En.
  destruct (inc_spec n On) as [Oi Vi].
  pose proof (be_val_bounds _ OK) as B. assert (ZL : zlen t = 32) by (unfold zlen; lia). rewrite ZL, <- p256 in B.
  rewrite Vn, Z.mod_small in Vi by (split; [lia|]; apply Z.le_lt_trans with (2^256); [lia|reflexivity]).
  destruct max_bn_ok as [Om Vm].
  destruct (div_spec _ _ Om Oi) as (q & Eq & Oq & Vq); [lia|]. rewrite Eq.
  destruct (to_array_spec q 8 Oq) as (A1 & A2 & A3); [lia|].
  eexists. split; [reflexivity|]. split; [split; auto|].
  rewrite A3, Vq, Vm, Vi. reflexivity.
Qed.

Lemma get_proof_none bits : pow_to_target bits = None -> get_proof bits = None.
Proof. intros E. unfold get_proof. now rewrite E. Qed.

Lemma calc_work_spec bits t w : pow_to_target bits = Some t -> hash_ok t -> hash_ok w ->
  exists p, calc_work bits (Some w) = Some p /\ hash_ok p /\
    be_val p = (be_val w + work_of (be_val t)) mod 2 ^ 256.
Proof.
  intros E O [Lw Ow]. unfold calc_work.
  destruct (from_array_spec w 8) as (n & En & On & Vn); auto; try lia. rewrite En.
  destruct (get_proof_spec bits t E O) as (p & Ep & [Lp Op] & Vp). rewrite Ep.
  destruct (from_array_spec p 8) as (pn & Epn & Opn & Vpn); auto; try lia. rewrite Epn.
  destruct (add_spec n pn On Opn) as [Oa Va].
  destruct (to_array_spec _ 8 Oa) as (A1 & A2 & A3); [lia|].
  eexists. split; [reflexivity|]. split; [split; auto|].
  rewrite A3, Va, Vn, Vpn, Vp. change (32 * Z.of_nat 8) with 256.
  assert (B1 := be_val_bounds _ Ow). assert (ZL : zlen w = 32) by (unfold zlen; lia). rewrite ZL, <- p256 in B1.
  pose proof (Z.mod_pos_bound (work_of (be_val t)) (2^256) ltac:(reflexivity)) as B2.
  rewrite (Z.mod_small _ (2^512)).
  - rewrite Z.add_mod_idemp_r by discriminate. reflexivity.
  - split; [lia|]. apply Z.lt_le_trans with (2 * 2^256); [lia|]. vm_compute. discriminate.
Qed.

Lemma calc_work_none bits w : pow_to_target bits = None -> calc_work bits w = None.
Proof.
  intros E. unfold calc_work. rewrite get_proof_none by auto. destruct w; auto. destruct (bn_from_array l); auto.
Qed.

Lemma work_pos t : 0 <= t < 2 ^ 256 -> 1 <= work_of t.
Proof. intros H. unfold work_of. apply Z.div_le_lower_bound; lia. Qed.

(* ---------- codec ---------- *)

Lemma take_app_len (a b : list Z) n : length a = n -> take n (a ++ b) = Some (a, b).
Proof. intros L. apply take_app. exact L. Qed.

Lemma read_u32_app v d : 0 <= v < 2 ^ 32 -> read_u32 (write_u32 v ++ d) = Some (v, d).
Proof. intros. apply read_le_app. exact H. Qed.
Lemma read_u64_app v d : 0 <= v < 2 ^ 64 -> read_u64 (write_u64 v ++ d) = Some (v, d).
Proof. intros. apply read_le_app. exact H. Qed.

Lemma hdr_read_write h d : hdr_ok h -> hdr_read (hdr_write h ++ d) = Some (h, d).
Proof.
  intros (H1 & H2 & [H3 _] & [H4 _] & [H5 _] & [H6 _] & [H7 _] & [H8 _] & H9 & H10 & [H11 _]).
  unfold hdr_read, hdr_write. repeat rewrite <- app_assoc.
  rewrite read_u32_app, read_u64_app by auto. unfold read_bytes.
  rewrite !take_app_len by auto.
  rewrite !read_u32_app by auto.
  rewrite !take_app_len by auto.
  destruct h; reflexivity.
Qed.

Lemma hdr_write_length h : hdr_ok h -> length (hdr_write h) = 236%nat.
Proof.
  intros (H1 & H2 & [H3 _] & [H4 _] & [H5 _] & [H6 _] & [H7 _] & [H8 _] & H9 & H10 & [H11 _]).
  unfold hdr_write, write_u32, write_u64. rewrite !app_length, !le_bytes_length. lia.
Qed.

Lemma hdr_write_bytes h : hdr_ok h -> bytes_ok (hdr_write h).
Proof.
  intros (H1 & H2 & [_ H3] & [_ H4] & [_ H5] & [_ H6] & [_ H7] & [_ H8] & H9 & H10 & [_ H11]).
  unfold hdr_write. repeat (apply bytes_ok_app; split; auto); apply le_bytes_ok.
Qed.

Lemma hdr_read_inv d h r : bytes_ok d -> hdr_read d = Some (h, r) ->
  d = hdr_write h ++ r /\ hdr_ok h /\ bytes_ok r.
Proof.
  intros OK. unfold hdr_read.
  Ltac rd_le H := match type of H with
    match ?f ?d with _ => _ end = _ => 
      let x := fresh "x" in let d' := fresh "d" in let E := fresh "E" in
      destruct (f d) as [[x d']|] eqn:E; [|discriminate];
      apply read_le_some in E as (-> & ? & ?); [|assumption]
    end.
  Ltac rd_b H := match type of H with
    match read_bytes ?n ?d with _ => _ end = _ => 
      let x := fresh "x" in let d' := fresh "d" in let E := fresh "E" in
      destruct (read_bytes n d) as [[x d']|] eqn:E; [|discriminate];
      apply read_bytes_some in E as (-> & ? & ? & ?); [|assumption]
    end.
  intros E. do 2 rd_le E. do 6 rd_b E. do 2 rd_le E. rd_b E.
  injection E as <- <-.
  split; [unfold hdr_write; cbn; repeat rewrite <- app_assoc; reflexivity|].
  split; [|assumption]. unfold hdr_ok, hash_ok. cbn. repeat split; auto; try lia.
Qed.

Lemma hdr_read_none d : bytes_ok d -> (hdr_read d = None <-> (length d < 236)%nat).
Proof.
  intros OK. split.
  - intros E. destruct (Nat.ltb_spec (length d) 236) as [|G]; auto. exfalso.
    revert E. unfold hdr_read.
    Ltac go_le n := match goal with |- context [match ?f ?d with _ => _ end] =>
      let E := fresh "E" in destruct (f d) as [[? ?]|] eqn:E;
      [apply read_le_some in E as (-> & _ & ?); [|assumption]; rewrite app_length, le_bytes_length in *
      |apply read_le_none in E; lia] end.
    Ltac go_b := match goal with |- context [match read_bytes ?n ?d with _ => _ end] =>
      let E := fresh "E" in destruct (read_bytes n d) as [[? ?]|] eqn:E;
      [apply read_bytes_some in E as (-> & ? & _ & ?); [|assumption]; rewrite app_length in *
      |unfold read_bytes in E; apply take_none in E; lia] end.
    do 2 go_le 0. do 6 go_b. do 2 go_le 0. go_b. discriminate.
  - intros L. destruct (hdr_read d) as [[h r]|] eqn:E; auto.
    apply hdr_read_inv in E as (-> & O & _); auto. rewrite app_length, hdr_write_length in L by auto. lia.
Qed.

(* ---------- proof of work check ---------- *)

Lemma memcmp_gt_spec a : forall b, length a = length b -> bytes_ok a -> bytes_ok b ->
  memcmp_gt a b = (be_val b <? be_val a).
Proof.
  induction a as [|x a IH]; intros [|y b] L Ha Hb; try discriminate; [reflexivity|].
  apply bytes_ok_cons in Ha as [Hx Ha]. apply bytes_ok_cons in Hb as [Hy Hb]. injection L as L.
  cbn [memcmp_gt]. rewrite !be_val_cons. assert (ZL : zlen b = zlen a) by (unfold zlen; lia). rewrite ZL.
  pose proof (be_val_bounds _ Ha) as B1. pose proof (be_val_bounds _ Hb) as B2. rewrite ZL in B2.
  rewrite (IH b L Ha Hb). set (p := 256 ^ zlen a) in *. unfold is_byte in *.
  destruct (Z.ltb_spec y x); [|destruct (Z.ltb_spec x y)].
  - destruct (Z.ltb_spec (y * p + be_val b) (x * p + be_val a)); auto. nia.
  - destruct (Z.ltb_spec (y * p + be_val b) (x * p + be_val a)); auto. nia.
  - assert (x = y) by lia. subst. destruct (Z.ltb_spec (be_val b) (be_val a));
    destruct (Z.ltb_spec (y * p + be_val b) (y * p + be_val a)); auto; lia.
Qed.

Lemma lxor_byte x y : is_byte x -> is_byte y -> is_byte (Z.lxor x y).
Proof.
  unfold is_byte. intros Hx Hy. change 256 with (2^8) in *.
  assert (0 <= Z.lxor x y) by (apply Z.lxor_nonneg; lia). split; auto.
  destruct (Z.eq_dec (Z.lxor x y) 0) as [->|N]; [lia|].
  apply Z.log2_lt_pow2; [lia|].
  eapply Z.le_lt_trans; [apply Z.log2_lxor; lia|].
  assert (forall z, 0 <= z < 2 ^ 8 -> Z.log2 z < 8).
  { intros z Hz. destruct (Z.eq_dec z 0) as [->|]; [reflexivity|]. apply Z.log2_lt_pow2; lia. }
  apply Z.max_lub_lt; auto.
Qed.

Lemma xor_bytes_ok a : forall b, length a = length b -> bytes_ok a -> bytes_ok b ->
  length (xor_bytes a b) = length a /\ bytes_ok (xor_bytes a b).
Proof.
  induction a as [|x a IH]; intros [|y b] L Ha Hb; try discriminate; [split; [reflexivity|constructor]|].
  apply bytes_ok_cons in Ha as [Hx Ha]. apply bytes_ok_cons in Hb as [Hy Hb]. injection L as L.
  destruct (IH b L Ha Hb) as [L' O]. cbn [xor_bytes length]. split; [lia|].
  apply bytes_ok_cons. split; auto. now apply lxor_byte.
Qed.

Lemma nth_map_lt {A B} (f : A -> B) (l : list A) i d d' : (i < length l)%nat -> nth i (map f l) d = f (nth i l d').
Proof. intros H. rewrite (nth_indep _ d (f d')) by (rewrite map_length; auto). apply map_nth. Qed.
Lemma nth_firstn_lt {A} (l : list A) i n d : (i < n)%nat -> nth i (firstn n l) d = nth i l d.
Proof.
  revert i n. induction l as [|x l IH]; intros i n H; destruct n, i; cbn; auto; try lia. apply IH. lia.
Qed.

Section Hash.
  Variable blake256 blake512 sha3 : list Z -> list Z.
  Hypothesis b256 : forall x, length (blake256 x) = 32%nat /\ bytes_ok (blake256 x).

  Lemma hdr_hash_ok h : hdr_ok h -> hash_ok (hdr_hash blake256 blake512 sha3 h).
  Proof.
    intros (H1 & H2 & H3 & H4 & H5 & H6 & H7 & H8 & H9 & H10 & [H11 H12]).
    destruct (xor_bytes_ok (hdr_share_hash blake256 blake512 sha3 h) (h_mask h)) as [L O]; auto.
    - unfold hdr_share_hash. rewrite (proj1 (b256 _)). auto.
    - apply b256.
    - split; auto. unfold hdr_hash. rewrite L. apply b256.
  Qed.

  Lemma verify_pow_spec h : hdr_ok h ->
    verify_pow blake256 blake512 sha3 h =
    match pow_to_target (h_bits h) with
    | None => 19
    | Some t => if be_val t <? be_val (hdr_hash blake256 blake512 sha3 h) then 20 else 0
    end.
  Proof.
    intros O. unfold verify_pow. destruct (pow_to_target (h_bits h)) as [t|] eqn:E; auto.
    destruct (hdr_hash_ok h O) as [L1 O1].
    assert (B : 0 <= h_bits h < 2 ^ 32) by (unfold hdr_ok in O; tauto).
    assert (TO : hash_ok t).
    { destruct (to_target_exact (h_bits h / 2^24) (h_bits h mod 2^24)) as [(t' & E' & O' & _)|(E' & _)].
      - split. apply Z.div_pos; lia. apply Z.div_lt_upper_bound; lia.
      - apply Z.mod_pos_bound. lia.
      - unfold compact in E'. replace (h_bits h / 2^24 * 2^24 + h_bits h mod 2^24) with (h_bits h) in E'.
        congruence. pose proof (Z.div_mod (h_bits h) (2^24) ltac:(lia)). lia.
      - unfold compact in E'. replace (h_bits h / 2^24 * 2^24 + h_bits h mod 2^24) with (h_bits h) in E'.
        congruence. pose proof (Z.div_mod (h_bits h) (2^24) ltac:(lia)). lia. }
    destruct TO as [L2 O2]. rewrite memcmp_gt_spec; auto. congruence.
  Qed.

  Hypothesis b512 : forall x, length (blake512 x) = 64%nat.

  Lemma padding_length h n : length (hdr_padding h n) = n.
  Proof using. unfold hdr_padding. rewrite map_length, seq_length. reflexivity. Qed.

  Lemma le4_inj a b x y : 0 <= a < 2 ^ 32 -> 0 <= b < 2 ^ 32 -> write_u32 a ++ x = write_u32 b ++ y -> a = b /\ x = y.
  Proof using.
    clear. intros Ha Hb E.
    pose proof (read_u32_app a x Ha) as R1. pose proof (read_u32_app b y Hb) as R2. rewrite E in R1. split; congruence.
  Qed.
  Lemma le8_inj a b x y : 0 <= a < 2 ^ 64 -> 0 <= b < 2 ^ 64 -> write_u64 a ++ x = write_u64 b ++ y -> a = b /\ x = y.
  Proof using.
    clear. intros Ha Hb E.
    pose proof (read_u64_app a x Ha) as R1. pose proof (read_u64_app b y Hb) as R2. rewrite E in R1. split; congruence.
  Qed.

  Lemma padding_spec h n : hash_ok (h_prev h) -> hash_ok (h_root h) -> (n <= 32)%nat ->
    hdr_padding h n = spec_pad h n.
  Proof using.
    clear. intros [L1 _] [L2 _] N. unfold hdr_padding, spec_pad.
    apply nth_ext with (d := 0) (d' := 0).
    - rewrite map_length, seq_length, firstn_length, map_length, combine_length, L1, L2. lia.
    - rewrite map_length, seq_length. intros i Hi.
      rewrite (nth_map_lt _ _ _ 0 0%nat) by (rewrite seq_length; auto).
      rewrite seq_nth by auto. cbn [Nat.add]. rewrite Nat.mod_small by lia.
      rewrite nth_firstn_lt by auto.
      rewrite (nth_map_lt _ _ _ 0 (0,0)) by (rewrite combine_length; lia).
      rewrite combine_nth by lia. reflexivity.
  Qed.

  Lemma pre_spec h : hdr_ok h -> hdr_pre_write blake256 h = spec_pre blake256 h.
  Proof using.
    intros (H1 & H2 & H3 & H4 & _). unfold hdr_pre_write, spec_pre. rewrite padding_spec by (auto; lia). reflexivity.
  Qed.

  Lemma share_spec h : hdr_ok h ->
    hdr_share_hash blake256 blake512 sha3 h = spec_share blake256 blake512 sha3 h.
  Proof using.
    intros O. assert (O' := O). destruct O' as (H1 & H2 & H3 & H4 & _).
    unfold hdr_share_hash, spec_share, spec_final. rewrite pre_spec by auto.
    rewrite !padding_spec by (auto; lia). reflexivity.
  Qed.

  Lemma spec_pad_length h n : hash_ok (h_prev h) -> hash_ok (h_root h) -> (n <= 32)%nat ->
    length (spec_pad h n) = n.
  Proof using.
    clear. intros [L1 _] [L2 _] N. unfold spec_pad. rewrite firstn_length, map_length, combine_length, L1, L2. lia.
  Qed.

  Lemma share_commits h1 h2 : hdr_ok h1 -> hdr_ok h2 ->
    collision_free blake256 (strings256 blake256 blake512 sha3 h1 ++ strings256 blake256 blake512 sha3 h2) ->
    collision_free blake512 (strings512 blake256 h1 ++ strings512 blake256 h2) ->
    hdr_share_hash blake256 blake512 sha3 h1 = hdr_share_hash blake256 blake512 sha3 h2 -> h1 = h2.
  Proof.
    intros O1 O2 G256 G512 E. rewrite !share_spec in E by auto.
    assert (PL1 := spec_pad_length h1 20 ltac:(apply O1) ltac:(apply O1) ltac:(lia)).
    assert (PL2 := spec_pad_length h2 20 ltac:(apply O2) ltac:(apply O2) ltac:(lia)).
    destruct O1 as (A1 & A2 & [A3 _] & [A4 _] & [A5 _] & [A6 _] & [A7 _] & [A8 _] & A9 & A10 & [A11 _]).
    destruct O2 as (B1 & B2 & [B3 _] & [B4 _] & [B5 _] & [B6 _] & [B7 _] & [B8 _] & B9 & B10 & [B11 _]).
    unfold spec_share in E. apply G256 in E; [|cbn; tauto|cbn; tauto]. unfold spec_final in E.
    apply app_inj_len in E as [E _]; [|rewrite !b512; reflexivity].
    apply G512 in E; [|cbn; tauto|cbn; tauto].
    unfold spec_pre in E.
    apply le4_inj in E as [N1 E]; auto. apply le8_inj in E as [N2 E]; auto.
    apply app_inj_len in E as [_ E]; [|first [assumption|now rewrite ?PL1, ?PL2|now rewrite ?A3, ?A4, ?A5, ?A6, ?A7, ?A8, ?B3, ?B4, ?B5, ?B6, ?B7, ?B8]].
    apply app_inj_len in E as [N3 E]; [|first [assumption|now rewrite ?PL1, ?PL2|now rewrite ?A3, ?A4, ?A5, ?A6, ?A7, ?A8, ?B3, ?B4, ?B5, ?B6, ?B7, ?B8]].
    apply app_inj_len in E as [N4 E]; [|first [assumption|now rewrite ?PL1, ?PL2|now rewrite ?A3, ?A4, ?A5, ?A6, ?A7, ?A8, ?B3, ?B4, ?B5, ?B6, ?B7, ?B8]].
    apply G256 in E; [|cbn; tauto|cbn; tauto].
    unfold spec_commit_string in E.
    apply app_inj_len in E as [E1 E2]; [|rewrite !(proj1 (b256 _)); reflexivity].
    apply G256 in E1; [|cbn; tauto|cbn; tauto]. apply G256 in E2; [|cbn; tauto|cbn; tauto].
    apply app_inj_len in E2 as [_ N11]; [|first [assumption|now rewrite ?PL1, ?PL2|now rewrite ?A3, ?A4, ?A5, ?A6, ?A7, ?A8, ?B3, ?B4, ?B5, ?B6, ?B7, ?B8]].
    unfold spec_sub in E1.
    apply app_inj_len in E1 as [N5 E1]; [|first [assumption|now rewrite ?PL1, ?PL2|now rewrite ?A3, ?A4, ?A5, ?A6, ?A7, ?A8, ?B3, ?B4, ?B5, ?B6, ?B7, ?B8]].
    apply app_inj_len in E1 as [N6 E1]; [|first [assumption|now rewrite ?PL1, ?PL2|now rewrite ?A3, ?A4, ?A5, ?A6, ?A7, ?A8, ?B3, ?B4, ?B5, ?B6, ?B7, ?B8]].
    apply app_inj_len in E1 as [N7 E1]; [|first [assumption|now rewrite ?PL1, ?PL2|now rewrite ?A3, ?A4, ?A5, ?A6, ?A7, ?A8, ?B3, ?B4, ?B5, ?B6, ?B7, ?B8]].
    apply app_inj_len in E1 as [N8 E1]; [|first [assumption|now rewrite ?PL1, ?PL2|now rewrite ?A3, ?A4, ?A5, ?A6, ?A7, ?A8, ?B3, ?B4, ?B5, ?B6, ?B7, ?B8]].
    apply le4_inj in E1 as [N9 E1]; auto.
    rewrite <- (app_nil_r (le_bytes 4 (h_bits h1))), <- (app_nil_r (le_bytes 4 (h_bits h2))) in E1.
    apply le4_inj in E1 as [N10 _]; auto.
    destruct h1, h2; cbn in *; congruence.
  Qed.
End Hash.

(** The listed strings are all the strings hashed. *)
Lemma strings_complete b1 b2 c1 c2 s h : hdr_ok h ->
  (forall x, In x (strings256 b1 c1 s h) -> b2 x = b1 x) ->
  (forall x, In x (strings512 b1 h) -> c2 x = c1 x) ->
  hdr_share_hash b2 c2 s h = hdr_share_hash b1 c1 s h.
Proof.
  intros O H1 H2. rewrite !share_spec by auto.
  assert (P : spec_pre b2 h = spec_pre b1 h).
  { unfold spec_pre. do 5 f_equal. unfold spec_commit_string at 1.
    rewrite (H1 (spec_sub h)) by (cbn; tauto). rewrite (H1 (h_prev h ++ h_mask h)) by (cbn; tauto).
    apply H1. cbn. tauto. }
  unfold spec_share, spec_final. rewrite P. rewrite (H2 (spec_pre b1 h)) by (cbn; tauto).
  apply H1. cbn. tauto.
Qed.

Lemma xor_bytes_invol a : forall b, length a = length b -> xor_bytes (xor_bytes a b) b = a.
Proof.
  induction a as [|x a IH]; intros [|y b] L; try discriminate; auto.
  cbn [xor_bytes]. injection L as L. rewrite IH by auto.
  rewrite Z.lxor_assoc, Z.lxor_nilpotent, Z.lxor_0_r. reflexivity.
Qed.

Lemma layout h : hdr_ok h -> wire_layout (hdr_write h) h.
Proof.
  intros O. assert (L := hdr_write_length h O). split; auto.
  destruct O as (H1 & H2 & [H3 _] & [H4 _] & [H5 _] & [H6 _] & [H7 _] & [H8 _] & H9 & H10 & [H11 _]).
  assert (S : forall p m s n o, length p = o -> length m = n -> slice o n (p ++ m ++ s) = m).
  { intros p m s n o <- <-. unfold slice. rewrite skipn_app, skipn_all, Nat.sub_diag. cbn [app skipn].
    rewrite firstn_app, firstn_all, Nat.sub_diag. cbn [firstn]. apply app_nil_r. }
  assert (W4 : forall v, length (write_u32 v) = 4%nat) by (intros; apply le_bytes_length).
  assert (W8 : forall v, length (write_u64 v) = 8%nat) by (intros; apply le_bytes_length).
  assert (V4 : forall v, 0 <= v < 2 ^ 32 -> le_val (write_u32 v) = v) by (intros; apply le_val_le_bytes; auto).
  assert (V8 : forall v, 0 <= v < 2 ^ 64 -> le_val (write_u64 v) = v) by (intros; apply le_val_le_bytes; auto).
  unfold hdr_write.
  set (a1 := write_u32 (h_nonce h)). set (a2 := write_u64 (h_time h)).
  set (a9 := write_u32 (h_version h)). set (a10 := write_u32 (h_bits h)).
  assert (La1 : length a1 = 4%nat) by apply W4. assert (La2 : length a2 = 8%nat) by apply W8.
  assert (La9 : length a9 = 4%nat) by apply W4. assert (La10 : length a10 = 4%nat) by apply W4.
  repeat split.
  - match goal with |- context [slice ?o ?n ?d] => replace (slice o n d) with (a1) end;
      [apply V4; auto|].
    symmetry. etransitivity; [|apply (S [] (a1) (a2 ++ h_prev h ++ h_root h ++ h_extra h ++ h_reserved h ++ h_witness h ++ h_merkle h ++ a9 ++ a10 ++ h_mask h) 4%nat 0%nat); rewrite ?app_length; cbn [length]; lia].
    all: f_equal; rewrite <- ?app_assoc, ?app_nil_r; reflexivity.
  - match goal with |- context [slice ?o ?n ?d] => replace (slice o n d) with (a2) end;
      [apply V8; auto|].
    symmetry. etransitivity; [|apply (S (a1) (a2) (h_prev h ++ h_root h ++ h_extra h ++ h_reserved h ++ h_witness h ++ h_merkle h ++ a9 ++ a10 ++ h_mask h) 8%nat 4%nat); rewrite ?app_length; cbn [length]; lia].
    all: f_equal; rewrite <- ?app_assoc, ?app_nil_r; reflexivity.
  - match goal with |- context [slice ?o ?n ?d] => replace (slice o n d) with (h_prev h) end;
      [reflexivity|].
    symmetry. etransitivity; [|apply (S (a1 ++ a2) (h_prev h) (h_root h ++ h_extra h ++ h_reserved h ++ h_witness h ++ h_merkle h ++ a9 ++ a10 ++ h_mask h) 32%nat 12%nat); rewrite ?app_length; cbn [length]; lia].
    all: f_equal; rewrite <- ?app_assoc, ?app_nil_r; reflexivity.
  - match goal with |- context [slice ?o ?n ?d] => replace (slice o n d) with (h_root h) end;
      [reflexivity|].
    symmetry. etransitivity; [|apply (S (a1 ++ a2 ++ h_prev h) (h_root h) (h_extra h ++ h_reserved h ++ h_witness h ++ h_merkle h ++ a9 ++ a10 ++ h_mask h) 32%nat 44%nat); rewrite ?app_length; cbn [length]; lia].
    all: f_equal; rewrite <- ?app_assoc, ?app_nil_r; reflexivity.
  - match goal with |- context [slice ?o ?n ?d] => replace (slice o n d) with (h_extra h) end;
      [reflexivity|].
    symmetry. etransitivity; [|apply (S (a1 ++ a2 ++ h_prev h ++ h_root h) (h_extra h) (h_reserved h ++ h_witness h ++ h_merkle h ++ a9 ++ a10 ++ h_mask h) 24%nat 76%nat); rewrite ?app_length; cbn [length]; lia].
    all: f_equal; rewrite <- ?app_assoc, ?app_nil_r; reflexivity.
  - match goal with |- context [slice ?o ?n ?d] => replace (slice o n d) with (h_reserved h) end;
      [reflexivity|].
    symmetry. etransitivity; [|apply (S (a1 ++ a2 ++ h_prev h ++ h_root h ++ h_extra h) (h_reserved h) (h_witness h ++ h_merkle h ++ a9 ++ a10 ++ h_mask h) 32%nat 100%nat); rewrite ?app_length; cbn [length]; lia].
    all: f_equal; rewrite <- ?app_assoc, ?app_nil_r; reflexivity.
  - match goal with |- context [slice ?o ?n ?d] => replace (slice o n d) with (h_witness h) end;
      [reflexivity|].
    symmetry. etransitivity; [|apply (S (a1 ++ a2 ++ h_prev h ++ h_root h ++ h_extra h ++ h_reserved h) (h_witness h) (h_merkle h ++ a9 ++ a10 ++ h_mask h) 32%nat 132%nat); rewrite ?app_length; cbn [length]; lia].
    all: f_equal; rewrite <- ?app_assoc, ?app_nil_r; reflexivity.
  - match goal with |- context [slice ?o ?n ?d] => replace (slice o n d) with (h_merkle h) end;
      [reflexivity|].
    symmetry. etransitivity; [|apply (S (a1 ++ a2 ++ h_prev h ++ h_root h ++ h_extra h ++ h_reserved h ++ h_witness h) (h_merkle h) (a9 ++ a10 ++ h_mask h) 32%nat 164%nat); rewrite ?app_length; cbn [length]; lia].
    all: f_equal; rewrite <- ?app_assoc, ?app_nil_r; reflexivity.
  - match goal with |- context [slice ?o ?n ?d] => replace (slice o n d) with (a9) end;
      [apply V4; auto|].
    symmetry. etransitivity; [|apply (S (a1 ++ a2 ++ h_prev h ++ h_root h ++ h_extra h ++ h_reserved h ++ h_witness h ++ h_merkle h) (a9) (a10 ++ h_mask h) 4%nat 196%nat); rewrite ?app_length; cbn [length]; lia].
    all: f_equal; rewrite <- ?app_assoc, ?app_nil_r; reflexivity.
  - match goal with |- context [slice ?o ?n ?d] => replace (slice o n d) with (a10) end;
      [apply V4; auto|].
    symmetry. etransitivity; [|apply (S (a1 ++ a2 ++ h_prev h ++ h_root h ++ h_extra h ++ h_reserved h ++ h_witness h ++ h_merkle h ++ a9) (a10) (h_mask h) 4%nat 200%nat); rewrite ?app_length; cbn [length]; lia].
    all: f_equal; rewrite <- ?app_assoc, ?app_nil_r; reflexivity.
  - match goal with |- context [slice ?o ?n ?d] => replace (slice o n d) with (h_mask h) end;
      [reflexivity|].
    symmetry. etransitivity; [|apply (S (a1 ++ a2 ++ h_prev h ++ h_root h ++ h_extra h ++ h_reserved h ++ h_witness h ++ h_merkle h ++ a9 ++ a10) (h_mask h) [] 32%nat 204%nat); rewrite ?app_length; cbn [length]; lia].
    all: f_equal; rewrite <- ?app_assoc, ?app_nil_r; reflexivity.
Qed.

(* ---------- work along a chain ---------- *)

Lemma target_hash_ok bits t : 0 <= bits < 2 ^ 32 -> pow_to_target bits = Some t -> hash_ok t.
Proof.
  intros B E.
  assert (EQ : compact (bits / 2^24) (bits mod 2^24) = bits).
  { unfold compact. pose proof (Z.div_mod bits (2^24) ltac:(lia)). lia. }
  destruct (to_target_exact (bits / 2^24) (bits mod 2^24)) as [(t' & E' & O' & _)|(E' & _)].
  - split. apply Z.div_pos; lia. apply Z.div_lt_upper_bound; lia.
  - apply Z.mod_pos_bound. lia.
  - rewrite EQ in E'. congruence.
  - rewrite EQ in E'. congruence.
Qed.

Lemma work_along_spec bits : forall ts w, hash_ok w -> Forall (fun b => 0 <= b < 2 ^ 32) bits ->
  Forall2 (fun b t => pow_to_target b = Some t) bits ts ->
  exists w', work_along calc_work bits w = Some w' /\ hash_ok w' /\
    be_val w' = (be_val w + fold_right Z.add 0 (map (fun t => work_of (be_val t)) ts)) mod 2 ^ 256.
Proof.
  induction bits as [|b bits IH]; intros ts w Ow OB F2; inversion F2 as [|? t ? ts' Ht F2']; subst.
  - exists w. split; auto. split; auto. cbn [map fold_right]. destruct Ow as [L O].
    pose proof (be_val_bounds _ O) as B. assert (ZL : zlen w = 32) by (unfold zlen; lia). rewrite ZL, <- p256 in B.
    rewrite Z.add_0_r, Z.mod_small; lia.
  - inversion OB; subst.
    assert (Ot := target_hash_ok b t H1 Ht).
    destruct (calc_work_spec b t w Ht Ot Ow) as (w1 & E1 & O1 & V1).
    destruct (IH ts' w1 O1 H2 F2') as (w' & E' & O' & V').
    exists w'. cbn [work_along map fold_right]. rewrite E1. split; auto. split; auto.
    rewrite V', V1, Z.add_mod_idemp_l by discriminate. f_equal. ring.
Qed.
