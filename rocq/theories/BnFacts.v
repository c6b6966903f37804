From Verif Require Import Common CommonFacts BnModel BnSpec.

Lemma base_pow : bn_base = 2 ^ 32. Proof. reflexivity. Qed.
Lemma base_pos : 0 < bn_base. Proof. reflexivity. Qed.

Definition BP (n : nat) : Z := 2 ^ 32 ^ Z.of_nat n.
Definition M512 : Z := 2 ^ 512.

Fixpoint basep (n : nat) : Z := match n with O => 1 | S k => 2 ^ 32 * basep k end.
Arguments basep : simpl never.
Lemma basep_0 : basep 0 = 1. Proof. reflexivity. Qed.
Lemma basep_S n : basep (S n) = 2 ^ 32 * basep n. Proof. reflexivity. Qed.
Lemma basep_pos n : 0 < basep n.
Proof. induction n. reflexivity. rewrite basep_S. change (2^32) with bn_base. pose proof base_pos. nia. Qed.
Lemma basep_add a b : basep (a + b) = basep a * basep b.
Proof.
  induction a; cbn [Nat.add]; rewrite ?basep_0, ?basep_S, ?IHa; ring.
Qed.
Lemma basep_16 : basep 16 = 2 ^ 512. Proof. reflexivity. Qed.
Lemma basep_pow n : basep n = 2 ^ (32 * Z.of_nat n).
Proof.
  induction n. reflexivity.
  rewrite basep_S, IHn, <- Z.pow_add_r by lia. f_equal. lia.
Qed.

Lemma bn_val_cons x l : bn_val (x :: l) = x + 2 ^ 32 * bn_val l.
Proof. reflexivity. Qed.
Lemma bn_val_nil : bn_val [] = 0. Proof. reflexivity. Qed.

Lemma bn_val_app a b : bn_val (a ++ b) = bn_val a + basep (length a) * bn_val b.
Proof.
  induction a; cbn [app length]; rewrite ?bn_val_nil, ?basep_0, ?bn_val_cons, ?basep_S; [ring|].
  rewrite IHa. ring.
Qed.

Lemma bn_val_repeat0 n : bn_val (repeat 0 n) = 0.
Proof. induction n; cbn [repeat]; rewrite ?bn_val_cons, ?IHn; reflexivity. Qed.

Lemma bn_val_bound l : Forall limb_ok l -> 0 <= bn_val l < basep (length l).
Proof.
  induction 1 as [|x l Hx _ IH]; cbn [length]; rewrite ?bn_val_nil, ?basep_0, ?bn_val_cons, ?basep_S; [lia|].
  unfold limb_ok in Hx. change (2^32) with bn_base in *. nia.
Qed.

Lemma limbs_repeat0 n : Forall limb_ok (repeat 0 n).
Proof. induction n; cbn; constructor; auto. unfold limb_ok. lia. Qed.

Lemma mod_limb x : limb_ok (x mod bn_base).
Proof. unfold limb_ok. rewrite <- base_pow. apply Z.mod_pos_bound, base_pos. Qed.

(* ---------- addition ---------- *)

Lemma add_c_spec a : forall b c,
  length a = length b -> Forall limb_ok a -> Forall limb_ok b -> 0 <= c <= 1 ->
  length (bn_add_c c a b) = length a /\ Forall limb_ok (bn_add_c c a b) /\
  exists co, 0 <= co <= 1 /\
    bn_val a + bn_val b + c = bn_val (bn_add_c c a b) + co * basep (length a).
Proof.
  induction a as [|x a IH]; intros [|y b] c L Ha Hb Hc; try discriminate.
  - cbn. repeat split; auto. exists c. rewrite basep_0. lia.
  - inversion Ha as [|? ? Hx Ha']; inversion Hb as [|? ? Hy Hb']; subst.
    cbn [length] in L. injection L as L.
    cbn [bn_add_c].
    set (co1 := if bn_max <? x + y + c then 1 else 0).
    destruct (IH b co1 L Ha' Hb') as (L1 & O1 & co & Hco & E).
    { unfold co1. destruct (_ <? _); lia. }
    cbn [length]. repeat split.
    + lia.
    + constructor; auto. apply mod_limb.
    + exists co. split; auto. rewrite !bn_val_cons, basep_S.
      assert (D : x + y + c = (x + y + c) mod bn_base + co1 * bn_base).
      { unfold limb_ok in *. change (2^32) with bn_base in *.
        unfold co1. destruct (Z.ltb_spec bn_max (x + y + c)) as [G|G].
        - rewrite <- (Z.mod_unique (x+y+c) bn_base 1 (x+y+c-bn_base)); unfold bn_base, bn_max in *; lia.
        - rewrite Z.mod_small; unfold bn_base, bn_max in *; lia. }
      change (2^32) with bn_base in *. nia.
Qed.

Lemma add_spec a b : bn_ok a -> bn_ok b ->
  bn_ok (bn_add a b) /\ bn_val (bn_add a b) = (bn_val a + bn_val b) mod 2 ^ 512.
Proof.
  intros [La Ha] [Lb Hb]. unfold bn_add.
  destruct (add_c_spec a b 0) as (L & O & co & Hco & E); auto; try congruence; try lia.
  split. split; [congruence|auto].
  rewrite La in E. rewrite <- basep_16.
  pose proof (bn_val_bound _ O) as B. rewrite L, La in B.
  apply (Z.mod_unique _ _ co); lia.
Qed.

(* ---------- subtraction ---------- *)

Lemma sub_c_spec a : forall b c,
  length a = length b -> Forall limb_ok a -> Forall limb_ok b -> 0 <= c <= 1 ->
  length (bn_sub_c c a b) = length a /\ Forall limb_ok (bn_sub_c c a b) /\
  exists co, 0 <= co <= 1 /\
    bn_val a - bn_val b - c = bn_val (bn_sub_c c a b) - co * basep (length a).
Proof.
  induction a as [|x a IH]; intros [|y b] c L Ha Hb Hc; try discriminate.
  - cbn. repeat split; auto. exists c. rewrite basep_0. lia.
  - inversion Ha as [|? ? Hx Ha']; inversion Hb as [|? ? Hy Hb']; subst.
    cbn [length] in L. injection L as L.
    cbn [bn_sub_c].
    set (res := (x + (bn_max + 1) - (y + c)) mod u64).
    set (co1 := if res <=? bn_max then 1 else 0).
    destruct (IH b co1 L Ha' Hb') as (L1 & O1 & co & Hco & E).
    { unfold co1. destruct (_ <=? _); lia. }
    cbn [length]. repeat split.
    + lia.
    + constructor; auto. apply mod_limb.
    + exists co. split; auto. rewrite !bn_val_cons, basep_S.
      assert (R : res = x + bn_base - (y + c)).
      { unfold res. unfold limb_ok in *. change (2^32) with bn_base in *.
        unfold bn_max, bn_base, u64 in *. rewrite Z.mod_small; lia. }
      assert (D : x - y - c = res mod bn_base - co1 * bn_base).
      { unfold limb_ok in *. change (2^32) with bn_base in *.
        unfold co1. destruct (Z.leb_spec res bn_max) as [G|G].
        - rewrite Z.mod_small; unfold bn_base, bn_max in *; lia.
        - rewrite <- (Z.mod_unique res bn_base 1 (res-bn_base)); unfold bn_base, bn_max in *; lia. }
      change (2^32) with bn_base in *. nia.
Qed.

Lemma sub_spec a b : bn_ok a -> bn_ok b ->
  bn_ok (bn_sub a b) /\ bn_val (bn_sub a b) = (bn_val a - bn_val b) mod 2 ^ 512.
Proof.
  intros [La Ha] [Lb Hb]. unfold bn_sub.
  destruct (sub_c_spec a b 0) as (L & O & co & Hco & E); auto; try congruence; try lia.
  split. split; [congruence|auto].
  rewrite La in E. rewrite <- basep_16.
  pose proof (bn_val_bound _ O) as B. rewrite L, La in B.
  apply (Z.mod_unique _ _ (- co)); lia.
Qed.

(* ---------- increment, decrement ---------- *)

Lemma inc_c_spec a : Forall limb_ok a ->
  length (bn_inc a) = length a /\ Forall limb_ok (bn_inc a) /\
  exists co, 0 <= co <= 1 /\ bn_val a + 1 = bn_val (bn_inc a) + co * basep (length a).
Proof.
  induction 1 as [|x a Hx Ha (L & O & co & Hco & E)].
  - cbn. repeat split; auto. exists 1. rewrite basep_0. lia.
  - cbn [bn_inc length]. assert (Hx' := Hx). unfold limb_ok in Hx'. change (2^32) with bn_base in Hx'.
    destruct (Z.ltb_spec x ((x+1) mod bn_base)) as [G|G].
    + cbn [length]. repeat split; auto.
      constructor; auto. apply mod_limb.
      exists 0. split; [lia|]. rewrite !bn_val_cons.
      assert (x + 1 <> bn_base). { intros Q. rewrite Q, Z_mod_same_full in G. lia. }
      rewrite Z.mod_small by lia. lia.
    + cbn [length]. repeat split; try lia.
      constructor; auto. apply mod_limb.
      exists co. split; auto. rewrite !bn_val_cons, basep_S.
      assert (x + 1 = bn_base).
      { destruct (Z.eq_dec (x+1) bn_base); auto. rewrite Z.mod_small in G by lia. lia. }
      rewrite H, Z_mod_same_full. change (2^32) with bn_base. nia.
Qed.

Lemma inc_spec a : bn_ok a -> bn_ok (bn_inc a) /\ bn_val (bn_inc a) = (bn_val a + 1) mod 2 ^ 512.
Proof.
  intros [La Ha]. destruct (inc_c_spec a Ha) as (L & O & co & Hco & E).
  split. split; [congruence|auto].
  rewrite La in E. rewrite <- basep_16.
  pose proof (bn_val_bound _ O) as B. rewrite L, La in B.
  apply (Z.mod_unique _ _ co); lia.
Qed.

Lemma dec_c_spec a : Forall limb_ok a ->
  length (bn_dec a) = length a /\ Forall limb_ok (bn_dec a) /\
  exists co, 0 <= co <= 1 /\ bn_val a - 1 = bn_val (bn_dec a) - co * basep (length a).
Proof.
  induction 1 as [|x a Hx Ha (L & O & co & Hco & E)].
  - cbn. repeat split; auto. exists 1. rewrite basep_0. lia.
  - cbn [bn_dec length]. assert (Hx' := Hx). unfold limb_ok in Hx'. change (2^32) with bn_base in Hx'.
    destruct (Z.eq_dec x 0) as [->|N].
    + change ((0 - 1) mod bn_base) with 4294967295. zred. cbv iota. cbn [length].
      repeat split; try lia. constructor; auto. unfold limb_ok. lia.
      exists co. split; auto. rewrite !bn_val_cons, basep_S. nia.
    + rewrite Z.mod_small by lia. destruct (Z.ltb_spec x (x-1)); [lia|].
      cbn [length]. repeat split; auto.
      constructor; auto. unfold limb_ok. change (2^32) with bn_base. lia.
      exists 0. split; [lia|]. rewrite !bn_val_cons. lia.
Qed.

Lemma dec_spec a : bn_ok a -> bn_ok (bn_dec a) /\ bn_val (bn_dec a) = (bn_val a - 1) mod 2 ^ 512.
Proof.
  intros [La Ha]. destruct (dec_c_spec a Ha) as (L & O & co & Hco & E).
  split. split; [congruence|auto].
  rewrite La in E. rewrite <- basep_16.
  pose proof (bn_val_bound _ O) as B. rewrite L, La in B.
  apply (Z.mod_unique _ _ (-co)); lia.
Qed.

(* ---------- comparison ---------- *)

Lemma cmp_be_spec a : forall b, length a = length b -> Forall limb_ok a -> Forall limb_ok b ->
  bn_cmp_be a b =
  if bn_val (rev b) <? bn_val (rev a) then 1
  else if bn_val (rev a) <? bn_val (rev b) then -1 else 0.
Proof.
  induction a as [|x a IH]; intros [|y b] L Ha Hb; try discriminate; [reflexivity|].
  inversion Ha as [|? ? Hx Ha']; inversion Hb as [|? ? Hy Hb']; subst.
  injection L as L. cbn [bn_cmp_be rev].
  rewrite !bn_val_app, !rev_length, !bn_val_cons, !bn_val_nil, <- L.
  assert (Forall limb_ok (rev a)) by (now apply Forall_rev).
  assert (Forall limb_ok (rev b)) by (now apply Forall_rev).
  pose proof (bn_val_bound _ H) as B1. pose proof (bn_val_bound _ H0) as B2.
  rewrite rev_length in B1, B2. rewrite <- L in B2.
  specialize (IH b L Ha' Hb').
  set (p := basep (length a)) in *. set (A := bn_val (rev a)) in *. set (Bv := bn_val (rev b)) in *.
  destruct (Z.ltb_spec y x); [|destruct (Z.ltb_spec x y)].
  - destruct (Z.ltb_spec (Bv + p * (y + 2^32*0)) (A + p * (x + 2^32*0))); [auto|nia].
  - destruct (Z.ltb_spec (Bv + p * (y + 2^32*0)) (A + p * (x + 2^32*0))); [nia|].
    destruct (Z.ltb_spec (A + p * (x + 2^32*0)) (Bv + p * (y + 2^32*0))); [auto|nia].
  - assert (x = y) by lia. subst y. rewrite IH.
    destruct (Z.ltb_spec Bv A); destruct (Z.ltb_spec (Bv + p * (x + 2^32*0)) (A + p * (x + 2^32*0))); try lia;
    destruct (Z.ltb_spec A Bv); destruct (Z.ltb_spec (A + p * (x + 2^32*0)) (Bv + p * (x + 2^32*0))); lia.
Qed.

Lemma cmp_spec a b : bn_ok a -> bn_ok b ->
  bn_cmp a b = if bn_val b <? bn_val a then 1 else if bn_val a <? bn_val b then -1 else 0.
Proof.
  intros [La Ha] [Lb Hb]. unfold bn_cmp. rewrite cmp_be_spec.
  - rewrite !rev_involutive. reflexivity.
  - rewrite !rev_length. congruence.
  - now apply Forall_rev.
  - now apply Forall_rev.
Qed.

Lemma is_zero_spec a : Forall limb_ok a -> bn_is_zero a = (bn_val a =? 0).
Proof.
  induction 1 as [|x a Hx Ha IH]; [reflexivity|].
  cbn [bn_is_zero]. rewrite bn_val_cons, IH. pose proof (bn_val_bound _ Ha) as B.
  unfold limb_ok in Hx. change (2^32) with bn_base in *. pose proof base_pos.
  destruct (Z.eqb_spec x 0); destruct (Z.eqb_spec (bn_val a) 0);
    destruct (Z.eqb_spec (x + bn_base * bn_val a) 0); nia.
Qed.

(* ---------- or, shifts ---------- *)

Lemma land_mul_low x k c : 0 <= k -> 0 <= c < 2 ^ k -> Z.land (x * 2 ^ k) c = 0.
Proof.
  intros Hk Hc. apply Z.bits_inj'. intros n Hn. rewrite Z.land_spec, Z.bits_0.
  destruct (Z.eq_dec c 0) as [->|N0]; [rewrite Z.bits_0; apply andb_false_r|].
  destruct (Z.ltb_spec n k).
  - rewrite Z.mul_pow2_bits_low by lia. reflexivity.
  - rewrite (Z.bits_above_log2 c n), andb_false_r; auto; try lia.
    apply Z.log2_lt_pow2; try lia. apply Z.lt_le_trans with (2^k); try lia.
    apply Z.pow_le_mono_r; lia.
Qed.

Lemma lor_mul_add x k c : 0 <= k -> 0 <= c < 2 ^ k -> Z.lor (x * 2 ^ k) c = x * 2 ^ k + c.
Proof.
  intros Hk Hc. symmetry. rewrite <- Z.lxor_lor by now apply land_mul_low.
  apply Z.add_nocarry_lxor. now apply land_mul_low.
Qed.

Lemma lor_bound x y k : 0 <= k -> 0 <= x < 2 ^ k -> 0 <= y < 2 ^ k -> 0 <= Z.lor x y < 2 ^ k.
Proof.
  intros Hk Hx Hy. split; [apply Z.lor_nonneg; lia|].
  destruct (Z.eq_dec (Z.lor x y) 0) as [->|N]; [lia|].
  apply Z.log2_lt_pow2. { assert (0 <= Z.lor x y) by (apply Z.lor_nonneg; lia). lia. }
  rewrite Z.log2_lor by lia.
  apply Z.max_lub_lt.
  - destruct (Z.eq_dec x 0) as [->|]; [|apply Z.log2_lt_pow2; lia].
    cbn. destruct (Z.eq_dec k 0) as [->|]; [|lia]. 
    assert (y = 0) by (change (2^0) with 1 in *; lia). subst. cbn in N. lia.
  - destruct (Z.eq_dec y 0) as [->|]; [|apply Z.log2_lt_pow2; lia].
    cbn. destruct (Z.eq_dec k 0) as [->|]; [|lia]. 
    assert (x = 0) by (change (2^0) with 1 in *; lia). subst. cbn in N. lia.
Qed.

Lemma or_spec_gen a : forall b, length a = length b -> Forall limb_ok a -> Forall limb_ok b ->
  length (bn_or a b) = length a /\ Forall limb_ok (bn_or a b) /\
  bn_val (bn_or a b) = Z.lor (bn_val a) (bn_val b).
Proof.
  induction a as [|x a IH]; intros [|y b] L Ha Hb; try discriminate.
  - cbn. auto.
  - inversion Ha as [|? ? Hx Ha']; inversion Hb as [|? ? Hy Hb']; subst.
    injection L as L. destruct (IH b L Ha' Hb') as (L1 & O1 & E).
    cbn [bn_or length]. repeat split; [lia| |].
    + constructor; auto. apply lor_bound; auto; lia.
    + rewrite !bn_val_cons, E. 
      rewrite !(Z.add_comm _ (2^32 * _)), !(Z.mul_comm (2^32)).
      unfold limb_ok in Hx, Hy.
      pose proof (lor_bound x y 32 ltac:(lia) Hx Hy) as HL.
      rewrite <- (lor_mul_add _ 32 x), <- (lor_mul_add _ 32 y), <- (lor_mul_add _ 32 (Z.lor x y)) by lia.
      rewrite <- !Z.shiftl_mul_pow2, Z.shiftl_lor by lia.
      apply Z.bits_inj'. intros n Hn. rewrite !Z.lor_spec. 
      destruct (Z.testbit (Z.shiftl (bn_val a) 32) n), (Z.testbit (Z.shiftl (bn_val b) 32) n),
        (Z.testbit x n), (Z.testbit y n); reflexivity.
Qed.

Lemma or_spec a b : bn_ok a -> bn_ok b -> bn_ok (bn_or a b) /\ bn_val (bn_or a b) = Z.lor (bn_val a) (bn_val b).
Proof.
  intros [La Ha] [Lb Hb]. destruct (or_spec_gen a b) as (L & O & E); auto; try congruence.
  split; auto. split; [congruence|auto].
Qed.

Lemma lshift_word_spec a n : bn_ok a ->
  bn_ok (bn_lshift_word a n) /\ bn_val (bn_lshift_word a n) = (bn_val a * 2 ^ (32 * Z.of_nat n)) mod 2 ^ 512.
Proof.
  intros [La Ha]. unfold bn_lshift_word.
  assert (OK : Forall limb_ok (repeat 0 n ++ a)) by (apply Forall_app; split; auto using limbs_repeat0).
  assert (L : length (firstn bn_size (repeat 0 n ++ a)) = 16%nat).
  { rewrite firstn_length, app_length, repeat_length, La. unfold bn_size. lia. }
  assert (O : Forall limb_ok (firstn bn_size (repeat 0 n ++ a))).
  { rewrite <- (firstn_skipn bn_size) in OK. apply Forall_app in OK. tauto. }
  split. split; auto.
  rewrite <- basep_pow, <- basep_16.
  pose proof (f_equal bn_val (firstn_skipn bn_size (repeat 0 n ++ a))) as E.
  rewrite !bn_val_app, bn_val_repeat0, repeat_length, L in E.
  pose proof (bn_val_bound _ O) as B. rewrite L in B.
  apply (Z.mod_unique _ _ (bn_val (skipn bn_size (repeat 0 n ++ a)))); lia.
Qed.

Lemma mulpow_mod x k : 0 < k < 32 -> (x * 2 ^ k) mod bn_base = (x mod 2 ^ (32 - k)) * 2 ^ k.
Proof.
  intros Hk. rewrite base_pow. replace (2 ^ 32) with (2 ^ (32 - k) * 2 ^ k).
  - apply Z.mul_mod_distr_r; apply Z.pow_nonzero; lia.
  - rewrite <- Z.pow_add_r by lia. f_equal. lia.
Qed.

Lemma lshift_bits_spec k a : 0 < k < 32 -> forall prev, limb_ok prev -> Forall limb_ok a ->
  length (bn_lshift_bits k prev a) = length a /\ Forall limb_ok (bn_lshift_bits k prev a) /\
  exists co, 0 <= co /\
   bn_val a * 2 ^ k + prev / 2 ^ (32 - k) = bn_val (bn_lshift_bits k prev a) + co * basep (length a).
Proof.
  intros Hk. induction a as [|x a IH]; intros prev Hp Ha.
  - cbn. repeat split; auto. exists (prev / 2 ^ (32-k)). rewrite basep_0. split; [|lia].
    apply Z.div_pos. unfold limb_ok in Hp; lia. apply Z.pow_pos_nonneg; lia.
  - inversion Ha as [|? ? Hx Ha']; subst.
    destruct (IH x Hx Ha') as (L1 & O1 & co & Hco & E).
    cbn [bn_lshift_bits length].
    assert (P1 : 0 < 2 ^ (32 - k)) by (apply Z.pow_pos_nonneg; lia).
    assert (P2 : 0 < 2 ^ k) by (apply Z.pow_pos_nonneg; lia).
    assert (PP : 2 ^ 32 = 2 ^ (32 - k) * 2 ^ k) by (rewrite <- Z.pow_add_r by lia; f_equal; lia).
    assert (Hq : 0 <= prev / 2 ^ (32 - k) < 2 ^ k).
    { unfold limb_ok in Hp. split. apply Z.div_pos; lia. apply Z.div_lt_upper_bound; lia. }
    rewrite mulpow_mod by auto. rewrite lor_mul_add by lia.
    pose proof (Z.mod_pos_bound x _ P1) as Hm.
    repeat split; [lia| |].
    + constructor; auto. unfold limb_ok. rewrite PP. nia.
    + exists co. split; auto. rewrite !bn_val_cons, basep_S.
      pose proof (Z.div_mod x (2 ^ (32-k)) ltac:(lia)) as D.
      replace ((x + 2^32 * bn_val a) * 2^k + prev / 2 ^ (32-k))
        with (x * 2^k + 2^32 * (bn_val a * 2^k) + prev / 2^(32-k)) by ring.
      replace (bn_val a * 2 ^ k) with (bn_val (bn_lshift_bits k x a) + co * basep (length a) - x / 2 ^ (32-k)) by lia.
      rewrite PP. rewrite D at 1. ring.
Qed.

Lemma lshift_bits_ok k a : 0 < k < 32 -> bn_ok a ->
  bn_ok (bn_lshift_bits k 0 a) /\ bn_val (bn_lshift_bits k 0 a) = (bn_val a * 2 ^ k) mod 2 ^ 512.
Proof.
  intros Hk [La Ha].
  destruct (lshift_bits_spec k a Hk 0) as (L & O & co & Hco & E); auto.
  { unfold limb_ok. lia. }
  rewrite Z.div_0_l in E by (apply Z.pow_nonzero; lia).
  split. split; [congruence|auto].
  rewrite La in E. rewrite <- basep_16.
  pose proof (bn_val_bound _ O) as B. rewrite L, La in B.
  apply (Z.mod_unique _ _ co); lia.
Qed.

Lemma lshift_spec a n : bn_ok a ->
  bn_ok (bn_lshift a n) /\ bn_val (bn_lshift a n) = (bn_val a * 2 ^ Z.of_nat n) mod 2 ^ 512.
Proof.
  intros Ha. unfold bn_lshift.
  destruct (lshift_word_spec a (n / 32) Ha) as [O E].
  pose proof (Nat.div_mod n 32 ltac:(discriminate)) as D.
  pose proof (Nat.mod_upper_bound n 32 ltac:(discriminate)) as U.
  set (q := (n / 32)%nat) in *. set (r := (n mod 32)%nat) in *.
  destruct (Nat.eqb_spec r 0) as [Z0|NZ].
  - split; auto. rewrite E. do 3 f_equal. lia.
  - destruct (lshift_bits_ok (Z.of_nat r) (bn_lshift_word a q)) as [O2 E2]; auto; [lia|].
    split; auto. rewrite E2, E, Z.mul_mod_idemp_l by discriminate.
    f_equal. rewrite <- Z.mul_assoc, <- Z.pow_add_r by lia. do 2 f_equal. lia.
Qed.

Lemma rshift_bits_spec k a : 0 < k < 32 -> Forall limb_ok a ->
  length (bn_rshift_bits k a) = length a /\ Forall limb_ok (bn_rshift_bits k a) /\
  bn_val (bn_rshift_bits k a) = bn_val a / 2 ^ k.
Proof.
  intros Hk. 
  assert (P1 : 0 < 2 ^ (32 - k)) by (apply Z.pow_pos_nonneg; lia).
  assert (P2 : 0 < 2 ^ k) by (apply Z.pow_pos_nonneg; lia).
  assert (PP : 2 ^ 32 = 2 ^ (32 - k) * 2 ^ k) by (rewrite <- Z.pow_add_r by lia; f_equal; lia).
  induction 1 as [|x a Hx Ha (L & O & E)]; [cbn; auto|].
  cbn [bn_rshift_bits length].
  assert (Hq : 0 <= x / 2 ^ k < 2 ^ (32 - k)).
  { unfold limb_ok in Hx. split. apply Z.div_pos; lia. apply Z.div_lt_upper_bound; lia. }
  assert (R : (nth 0 a 0 * 2 ^ (32 - k)) mod bn_base = (bn_val a mod 2 ^ k) * 2 ^ (32 - k)).
  { rewrite mulpow_mod by lia. replace (32 - (32 - k)) with k by lia. f_equal.
    destruct a as [|y r]; [reflexivity|]. cbn [nth]. rewrite bn_val_cons, PP.
    replace (y + 2 ^ (32-k) * 2 ^ k * bn_val r) with (y + (2 ^ (32-k) * bn_val r) * 2 ^ k) by ring.
    rewrite Z_mod_plus_full. reflexivity. }
  rewrite R. rewrite Z.lor_comm, lor_mul_add by lia.
  pose proof (Z.mod_pos_bound (bn_val a) _ P2) as Hm.
  repeat split; [lia| |].
  - constructor; auto. unfold limb_ok. rewrite PP. nia.
  - rewrite !bn_val_cons, E.
    pose proof (Z.div_mod (bn_val a) (2 ^ k) ltac:(lia)) as D.
    assert (Q : (x + 2 ^ 32 * bn_val a) / 2 ^ k = x / 2 ^ k + 2 ^ (32-k) * bn_val a).
    { rewrite PP. replace (x + 2 ^ (32-k) * 2 ^ k * bn_val a) with (x + (2 ^ (32-k) * bn_val a) * 2 ^ k) by ring.
      apply Z_div_plus_full. lia. }
    rewrite Q. rewrite D at 3. rewrite PP. ring.
Qed.

Lemma rshift_one_ok a : bn_ok a -> bn_ok (bn_rshift_one a) /\ bn_val (bn_rshift_one a) = bn_val a / 2.
Proof.
  intros [La Ha]. destruct (rshift_bits_spec 1 a) as (L & O & E); auto; [lia|].
  split; auto. split; [unfold bn_rshift_one; congruence|auto].
Qed.

(* ---------- conversions ---------- *)

Lemma init_ok : bn_ok bn_init. Proof. split. reflexivity. apply limbs_repeat0. Qed.
Lemma init_val : bn_val bn_init = 0. Proof. reflexivity. Qed.

Lemma from_int_ok i : bn_ok (bn_from_int i).
Proof.
  split; [reflexivity|]. unfold bn_from_int. constructor; [apply mod_limb|]. constructor; [apply mod_limb|].
  apply limbs_repeat0.
Qed.

Lemma from_int_val i : 0 <= i < 2 ^ 64 -> bn_val (bn_from_int i) = i.
Proof.
  intros Hi. unfold bn_from_int. rewrite !bn_val_cons, bn_val_repeat0.
  change (2^32) with bn_base. change (2^64) with (bn_base * bn_base) in Hi.
  assert (0 <= i / bn_base < bn_base). { pose proof base_pos. split. apply Z.div_pos; lia. apply Z.div_lt_upper_bound; lia. }
  rewrite (Z.mod_small (i / bn_base)) by lia.
  pose proof (Z.div_mod i bn_base ltac:(discriminate)). lia.
Qed.

Lemma limb_of_bytes_val a b c d : is_byte a -> is_byte b -> is_byte c -> is_byte d ->
  limb_of_bytes a b c d = d + 256 * (c + 256 * (b + 256 * a)).
Proof.
  unfold is_byte, limb_of_bytes. intros.
  change 16777216 with (2^24). change 65536 with (2^16). change 256 with (2^8) at 1.
  rewrite <- Z.lor_assoc, <- Z.lor_assoc.
  assert (E3 : Z.lor (c * 2^8) d = c * 2^8 + d) by (apply lor_mul_add; lia).
  rewrite E3.
  assert (E2 : Z.lor (b * 2^16) (c * 2^8 + d) = b * 2^16 + (c * 2^8 + d)) by (apply lor_mul_add; lia).
  rewrite E2.
  assert (E1 : Z.lor (a * 2^24) (b * 2^16 + (c * 2^8 + d)) = a * 2^24 + (b * 2^16 + (c * 2^8 + d))) by (apply lor_mul_add; lia).
  rewrite E1. lia.
Qed.

Lemma be_val_app a b : be_val (a ++ b) = be_val a * 256 ^ zlen b + be_val b.
Proof.
  unfold be_val. rewrite rev_app_distr, le_val_app.
  replace (zlen (rev b)) with (zlen b) by (unfold zlen; now rewrite rev_length). lia.
Qed.
Lemma be_val_cons x b : be_val (x :: b) = x * 256 ^ zlen b + be_val b.
Proof. change (x :: b) with ([x] ++ b). rewrite be_val_app. unfold be_val at 1. cbn. lia. Qed.
Lemma be_val_nil : be_val [] = 0. Proof. reflexivity. Qed.

Lemma list4_ind (P : list Z -> Prop) :
  (forall l, (length l < 4)%nat -> P l) ->
  (forall a b c d l, P l -> P (a :: b :: c :: d :: l)) -> forall l, P l.
Proof.
  intros H0 H4.
  assert (G : forall n l, (length l <= n)%nat -> P l).
  { induction n; intros l L.
    - apply H0. lia.
    - destruct l as [|a [|b [|c [|d l]]]]; try (apply H0; cbn in *; lia).
      apply H4. apply IHn. cbn in L. lia. }
  intros l. apply (G (length l)). lia.
Qed.

Lemma read_limbs_spec arr : forall acc k, length arr = (4 * k)%nat -> bytes_ok arr -> Forall limb_ok acc ->
  length (bn_read_limbs arr acc) = (k + length acc)%nat /\ Forall limb_ok (bn_read_limbs arr acc) /\
  bn_val (bn_read_limbs arr acc) = be_val arr + basep k * bn_val acc.
Proof.
  induction arr as [l L|a b c d l IH] using list4_ind; intros acc k K OK HA.
  - assert (k = 0%nat) by lia. subst. destruct l; [|cbn in K; lia]. cbn [bn_read_limbs].
    rewrite basep_0, be_val_nil. repeat split; auto. lia.
  - destruct k as [|k]; [cbn in K; lia|].
    cbn [bn_read_limbs length] in *.
    inversion OK as [|? ? Oa OK1]; inversion OK1 as [|? ? Ob OK2]; inversion OK2 as [|? ? Oc OK3];
    inversion OK3 as [|? ? Od OK4]; subst.
    assert (LV := limb_of_bytes_val a b c d Oa Ob Oc Od).
    destruct (IH (limb_of_bytes a b c d :: acc) k) as (L1 & O1 & E1); auto; try lia.
    { constructor; auto. rewrite LV. unfold limb_ok, is_byte in *. lia. }
    repeat split; auto.
    + rewrite L1. cbn. lia.
    + rewrite E1, bn_val_cons, LV, basep_S.
      rewrite !be_val_cons. rewrite !zlen_cons.
      assert (ZL : zlen l = 4 * Z.of_nat k) by (unfold zlen; lia).
      assert (BP : basep k = 256 ^ zlen l).
      { rewrite basep_pow, ZL. change 256 with (2^8). rewrite <- Z.pow_mul_r by lia. f_equal. lia. }
      rewrite BP. set (p := 256 ^ zlen l).
      assert (N : 0 <= zlen l) by apply zlen_nonneg.
      repeat (rewrite (Z.pow_add_r 256) by lia). change (256^1) with 256. fold p. 
      rewrite ?Z.add_0_r. ring_simplify. change (2^32) with (256*256*256*256). ring.
Qed.

Lemma from_array_spec arr k : length arr = (4 * k)%nat -> (k <= 16)%nat -> bytes_ok arr ->
  exists n, bn_from_array arr = Some n /\ bn_ok n /\ bn_val n = be_val arr.
Proof.
  intros L K OK. destruct (read_limbs_spec arr [] k L OK (Forall_nil _)) as (L1 & O1 & E1).
  unfold bn_from_array. destruct (Nat.ltb_spec bn_size (length (bn_read_limbs arr []))) as [G|G].
  { cbn in L1. unfold bn_size in G. lia. }
  eexists. split; [reflexivity|]. split; [split|].
  - rewrite app_length, repeat_length. unfold bn_size in *. lia.
  - apply Forall_app. split; auto using limbs_repeat0.
  - rewrite bn_val_app, bn_val_repeat0, E1. cbn [bn_val]. lia.
Qed.

Lemma to_array_spec_gen l : Forall limb_ok l ->
  bytes_ok (concat (map bytes_of_limb (rev l))) /\
  length (concat (map bytes_of_limb (rev l))) = (4 * length l)%nat /\
  be_val (concat (map bytes_of_limb (rev l))) = bn_val l.
Proof.
  induction 1 as [|x l Hx Hl (O & L & E)].
  - cbn. repeat split; auto. constructor.
  - cbn [rev length]. rewrite map_app, concat_app. cbn [map concat]. rewrite app_nil_r.
    split; [|split].
    + apply Forall_app. split; auto. unfold bytes_of_limb.
      repeat (apply Forall_cons; [apply Z.mod_pos_bound; lia|]). apply Forall_nil.
    + rewrite app_length, L. cbn. lia.
    + rewrite be_val_app, E, bn_val_cons.
      assert (V : be_val (bytes_of_limb x) = x).
      { unfold bytes_of_limb, be_val. cbn [rev app le_val].
        unfold limb_ok in Hx.
        pose proof (Z.div_mod x 256 ltac:(lia)). pose proof (Z.div_mod (x/256) 256 ltac:(lia)).
        pose proof (Z.div_mod (x/65536) 256 ltac:(lia)).
        assert (x / 256 / 256 = x / 65536) by (rewrite Z.div_div by lia; reflexivity).
        assert (x / 65536 / 256 = x / 16777216) by (rewrite Z.div_div by lia; reflexivity).
        rewrite (Z.mod_small (x / 16777216)). lia.
        split. apply Z.div_pos; lia. apply Z.div_lt_upper_bound; lia. }
      rewrite V. change (256 ^ zlen (bytes_of_limb x)) with (2^32). lia.
Qed.

Lemma to_array_spec n k : bn_ok n -> (k <= 16)%nat ->
  bytes_ok (bn_to_array n k) /\ length (bn_to_array n k) = (4 * k)%nat /\
  be_val (bn_to_array n k) = bn_val n mod 2 ^ (32 * Z.of_nat k).
Proof.
  intros [Ln On] K. unfold bn_to_array.
  assert (O : Forall limb_ok (firstn k n)).
  { rewrite <- (firstn_skipn k) in On. apply Forall_app in On. tauto. }
  assert (L : length (firstn k n) = k) by (rewrite firstn_length; lia).
  destruct (to_array_spec_gen _ O) as (A & B & C). repeat split; auto. { lia. }
  rewrite C. rewrite <- basep_pow.
  pose proof (f_equal bn_val (firstn_skipn k n)) as E. rewrite bn_val_app, L in E.
  pose proof (bn_val_bound _ O) as Bd. rewrite L in Bd.
  apply (Z.mod_unique _ _ (bn_val (skipn k n))); lia.
Qed.

Lemma to_int_spec n : bn_ok n -> bn_to_int n = bn_val n mod 2 ^ 64.
Proof.
  intros [L O]. unfold bn_to_int. destruct n as [|x [|y r]]; try discriminate.
  cbn [nth]. inversion O as [|? ? Hx O1]; inversion O1 as [|? ? Hy O2]; subst.
  unfold limb_ok in *. rewrite Z.mod_small by (unfold bn_base, u64; lia).
  rewrite base_pow, Z.lor_comm, lor_mul_add by lia. rewrite !bn_val_cons.
  replace (x + 2^32 * (y + 2^32 * bn_val r)) with ((y * 2^32 + x) + bn_val r * 2^64) by ring.
  rewrite Z_mod_plus_full, Z.mod_small; lia.
Qed.

(* ---------- multiplication ---------- *)

Definition wsum (b : list Z) (js : list nat) : Z :=
  fold_right (fun j acc => nth j b 0 * basep j + acc) 0 js.

Lemma nth_limb a i : Forall limb_ok a -> limb_ok (nth i a 0).
Proof.
  intros H. destruct (nth_in_or_default i a 0) as [I|E].
  - rewrite Forall_forall in H. auto.
  - rewrite E. unfold limb_ok. lia.
Qed.

Lemma basep_mod_over n x : (16 <= n)%nat -> (basep n * x) mod 2 ^ 512 = 0.
Proof.
  intros. replace n with (16 + (n - 16))%nat by lia. rewrite basep_add, basep_16.
  rewrite <- Z.mul_assoc, Z.mul_comm. apply Z_mod_mult.
Qed.

Lemma mul_row_spec a b i : bn_ok a -> bn_ok b -> forall js row, bn_ok row ->
  bn_ok (bn_mul_row a b i js row) /\
  bn_val (bn_mul_row a b i js row) mod 2 ^ 512 =
    (bn_val row + nth i a 0 * basep i * wsum b js) mod 2 ^ 512.
Proof.
  intros Oa Ob. induction js as [|j js IH]; intros row Or.
  - cbn [bn_mul_row wsum fold_right]. split; auto. f_equal. ring.
  - cbn [bn_mul_row].
    assert (Ha := nth_limb a i (proj2 Oa)). assert (Hb := nth_limb b j (proj2 Ob)).
    unfold limb_ok in Ha, Hb.
    destruct (Nat.ltb_spec (i + j) bn_size) as [G|G].
    + rewrite (Z.mod_small (nth i a 0 * nth j b 0)) by (change u64 with (2^32*2^32); nia).
      destruct (lshift_word_spec (bn_from_int (nth i a 0 * nth j b 0)) (i+j) (from_int_ok _)) as [O1 E1].
      rewrite from_int_val in E1 by (change (2^64) with (2^32*2^32); nia).
      destruct (add_spec _ row O1 Or) as [O2 E2].
      destruct (IH _ O2) as [O3 E3]. split; auto.
      rewrite E3, E2, E1, <- basep_pow, basep_add.
      rewrite Z.add_mod_idemp_l by discriminate.
      rewrite <- (Z.add_assoc _ (bn_val row)), Z.add_mod_idemp_l by discriminate.
      f_equal. unfold wsum. cbn [fold_right]. fold (wsum b js). ring.
    + destruct (IH row Or) as [O3 E3]. split; auto. rewrite E3.
      unfold wsum. cbn [fold_right]. fold (wsum b js).
      replace (bn_val row + nth i a 0 * basep i * (nth j b 0 * basep j + wsum b js))
        with (bn_val row + nth i a 0 * basep i * wsum b js + basep (i+j) * (nth i a 0 * nth j b 0))
        by (rewrite basep_add; ring).
      rewrite (Z.add_mod _ (basep (i+j) * _)) by discriminate.
      rewrite basep_mod_over by (unfold bn_size in G; lia).
      rewrite Z.add_0_r, Z.mod_mod by discriminate. reflexivity.
Qed.

Lemma wsum_seq_gen l : forall k pre, length pre = k ->
  wsum (pre ++ l) (seq k (length l)) = basep k * bn_val l.
Proof.
  induction l as [|x l IH]; intros k pre L.
  - cbn. ring.
  - cbn [length seq]. unfold wsum. cbn [fold_right].
    fold (wsum (pre ++ x :: l) (seq (S k) (length l))).
    replace (pre ++ x :: l) with ((pre ++ [x]) ++ l) at 2 by (rewrite <- app_assoc; reflexivity).
    rewrite (IH (S k) (pre ++ [x])) by (rewrite app_length; cbn; lia).
    rewrite app_nth2, L, Nat.sub_diag by lia. cbn [nth].
    rewrite basep_S, bn_val_cons. ring.
Qed.

Lemma wsum_val b : bn_ok b -> wsum b (seq 0 bn_size) = bn_val b.
Proof.
  intros [L _]. change bn_size with 16%nat. rewrite <- L.
  pose proof (wsum_seq_gen b 0 [] eq_refl) as E. cbn [app] in E. rewrite E, basep_0. ring.
Qed.

Lemma mul_rows_spec a b : bn_ok a -> bn_ok b -> forall is cc, bn_ok cc ->
  bn_ok (bn_mul_rows a b is cc) /\
  bn_val (bn_mul_rows a b is cc) mod 2 ^ 512 =
    (bn_val cc + wsum a is * bn_val b) mod 2 ^ 512.
Proof.
  intros Oa Ob. induction is as [|i is IH]; intros cc Oc.
  - cbn [bn_mul_rows wsum fold_right]. split; auto; f_equal; ring.
  - cbn [bn_mul_rows].
    destruct (mul_row_spec a b i Oa Ob (seq 0 bn_size) bn_init init_ok) as [O1 E1].
    destruct (add_spec cc _ Oc O1) as [O2 E2].
    destruct (IH _ O2) as [O3 E3]. split; auto.
    rewrite E3, E2, Z.add_mod_idemp_l by discriminate.
    rewrite wsum_val in E1 by auto. rewrite init_val in E1.
    rewrite <- Z.add_assoc, (Z.add_mod (bn_val cc)), (Z.add_mod (bn_val (bn_mul_row _ _ _ _ _))), E1 by discriminate.
    rewrite <- (Z.add_mod (0 + _)), <- Z.add_mod by discriminate.
    f_equal. unfold wsum. cbn [fold_right]. fold (wsum a is). ring.
Qed.

Lemma mul_spec a b : bn_ok a -> bn_ok b ->
  bn_ok (bn_mul a b) /\ bn_val (bn_mul a b) = (bn_val a * bn_val b) mod 2 ^ 512.
Proof.
  intros Oa Ob. destruct (mul_rows_spec a b Oa Ob (seq 0 bn_size) bn_init init_ok) as [O E].
  split; auto. unfold bn_mul. rewrite wsum_val, init_val in E by auto.
  rewrite Z.add_0_l in E. rewrite <- E. symmetry. apply Z.mod_small.
  destruct O as [L O]. pose proof (bn_val_bound _ O) as B. rewrite L in B. exact B.
Qed.

(* ---------- division ---------- *)

Lemma bn_bound a : bn_ok a -> 0 <= bn_val a < 2 ^ 512.
Proof. intros [L O]. pose proof (bn_val_bound _ O) as B. rewrite L in B. exact B. Qed.

Lemma top_limb d : bn_ok d -> (2147483648 <=? nth (bn_size - 1) d 0) = (2 ^ 511 <=? bn_val d).
Proof.
  intros [L O]. pose proof (firstn_skipn 15 d) as E.
  assert (L2 : length (firstn 15 d) = 15%nat) by (rewrite firstn_length; lia).
  assert (O1 : Forall limb_ok (firstn 15 d)).
  { rewrite <- (firstn_skipn 15) in O. apply Forall_app in O. tauto. }
  destruct (skipn 15 d) as [|t [|]] eqn:S; try (apply (f_equal (@length Z)) in S; rewrite skipn_length in S; cbn in S; lia).
  assert (T : nth (bn_size - 1) d 0 = t).
  { rewrite <- E. change (bn_size - 1)%nat with 15%nat. rewrite app_nth2, L2 by lia. reflexivity. }
  rewrite T. rewrite <- E, bn_val_app, L2, bn_val_cons, bn_val_nil.
  pose proof (bn_val_bound _ O1) as B. rewrite L2 in B.
  change (2^511) with (2147483648 * basep 15). set (p := basep 15) in *.
  destruct (Z.leb_spec 2147483648 t); destruct (Z.leb_spec (2147483648 * p) (bn_val (firstn 15 d) + p * (t + 2 ^ 32 * 0))); nia.
Qed.

Lemma lshift_one_ok a : bn_ok a -> bn_ok (bn_lshift_one a) /\ bn_val (bn_lshift_one a) = (2 * bn_val a) mod 2 ^ 512.
Proof.
  intros H. destruct (lshift_bits_ok 1 a ltac:(lia) H) as [O E]. split; auto.
  unfold bn_lshift_one. rewrite E. f_equal. change (2^1) with 2. ring.
Qed.

Lemma div_up_spec a b : bn_ok a -> bn_ok b -> 0 < bn_val b ->
  forall fuel k denom current, bn_ok denom -> bn_ok current ->
  bn_val denom = bn_val b * 2 ^ Z.of_nat k -> bn_val current = 2 ^ Z.of_nat k ->
  (k = 0%nat \/ bn_val b * 2 ^ Z.of_nat k <= 2 * bn_val a) ->
  (512 <= fuel + k)%nat ->
  exists k' denom' current' ov, bn_div_up fuel a denom current = Some (denom', current', ov) /\
    bn_ok denom' /\ bn_ok current' /\
    bn_val denom' = bn_val b * 2 ^ Z.of_nat k' /\ bn_val current' = 2 ^ Z.of_nat k' /\
    (k' <= k + fuel)%nat /\
    if ov then bn_val denom' <= bn_val a /\ 2 ^ 511 <= bn_val denom'
    else bn_val a < bn_val denom' /\ (k' = 0%nat \/ bn_val denom' <= 2 * bn_val a).
Proof.
  intros Oa Ob Pb. induction fuel as [|f IH]; intros k denom current Od Oc Ed Ec G F.
  - assert (P := bn_bound _ Od).
    assert (2 ^ 512 <= 2 ^ Z.of_nat k) by (apply Z.pow_le_mono_r; lia).
    assert (bn_val b * 1 <= bn_val b) by lia. exfalso. nia.
  - cbn [bn_div_up]. rewrite cmp_spec, top_limb by auto.
    destruct (Z.ltb_spec (bn_val a) (bn_val denom)) as [C|C].
    + change (1 =? 1) with true. cbv iota.
      exists k, denom, current, false. repeat split; auto; try apply Od; try apply Oc; try lia.
    + assert (X : ((if bn_val denom <? bn_val a then -1 else 0) =? 1) = false) by (destruct (_ <? _); reflexivity).
      rewrite X. destruct (Z.leb_spec (2^511) (bn_val denom)) as [T|T].
      * exists k, denom, current, true. repeat split; auto; try apply Od; try apply Oc; try lia.
      * destruct (lshift_one_ok _ Od) as [O1 E1]. destruct (lshift_one_ok _ Oc) as [O2 E2].
        assert (P512 : 2 ^ 512 = 2 * 2 ^ 511) by reflexivity.
        assert (Bd := bn_bound _ Od).
        assert (PS : 2 ^ Z.of_nat (S k) = 2 * 2 ^ Z.of_nat k).
        { replace (Z.of_nat (S k)) with (1 + Z.of_nat k) by lia. rewrite Z.pow_add_r by lia. reflexivity. }
        assert (Ppos : 0 < 2 ^ Z.of_nat k) by (apply Z.pow_pos_nonneg; lia).
        rewrite Z.mod_small in E1 by lia.
        rewrite Z.mod_small in E2 by nia.
        destruct (IH (S k) _ _ O1 O2) as (k' & d' & c' & ov & R1 & R2 & R3 & R4 & R5 & R6 & R7).
        { rewrite E1, PS, Ed. ring. }
        { rewrite E2, PS, Ec. ring. }
        { right. rewrite PS. nia. }
        { lia. }
        exists k', d', c', ov. repeat split; auto; try apply R2; try apply R3; try lia.
Qed.

Lemma lor_pow_add c k : 0 <= k -> c mod 2 ^ (k + 1) = 0 -> Z.lor c (2 ^ k) = c + 2 ^ k.
Proof.
  intros Hk Hc. pose proof (Z.div_mod c (2 ^ (k+1)) ltac:(apply Z.pow_nonzero; lia)) as D.
  rewrite Hc, Z.add_0_r in D. rewrite D, Z.mul_comm.
  apply lor_mul_add; try lia. split. apply Z.pow_nonneg; lia. apply Z.pow_lt_mono_r; lia.
Qed.

Lemma pow2_half k : 0 <= k -> 2 ^ (k + 1) = 2 * 2 ^ k.
Proof. intros. rewrite Z.pow_add_r by lia. change (2^1) with 2. ring. Qed.

(* the loop once current is zero *)
Lemma div_down_zero fuel tmp denom current c : bn_ok current -> bn_val current = 0 ->
  bn_div_down fuel tmp denom current c = Some c.
Proof.
  intros [L O] E. destruct fuel; cbn [bn_div_down]; rewrite is_zero_spec, E by auto; reflexivity.
Qed.

Lemma div_down_spec a b : bn_ok a -> bn_ok b -> 0 < bn_val b ->
  forall k fuel tmp denom current c, bn_ok tmp -> bn_ok denom -> bn_ok current -> bn_ok c ->
  bn_val denom = bn_val b * 2 ^ Z.of_nat k -> bn_val current = 2 ^ Z.of_nat k ->
  bn_val a = bn_val tmp + bn_val b * bn_val c -> bn_val tmp < 2 * bn_val denom ->
  bn_val c mod 2 ^ (Z.of_nat k + 1) = 0 -> (k < fuel)%nat ->
  exists q, bn_div_down fuel tmp denom current c = Some q /\ bn_ok q /\
    bn_val q = bn_val a / bn_val b.
Proof.
  intros Oa Ob Pb. induction k as [k IHk] using lt_wf_ind.
  intros fuel tmp denom current c Ot Od Oc Oq Ed Ec Ea Lt Mc F.
  destruct fuel as [|f]; [lia|]. cbn [bn_div_down].
  assert (Pk : 0 < 2 ^ Z.of_nat k) by (apply Z.pow_pos_nonneg; lia).
  rewrite is_zero_spec by apply Oc. rewrite Ec. destruct (Z.eqb_spec (2 ^ Z.of_nat k) 0); [lia|].
  rewrite cmp_spec by auto.
  destruct (rshift_one_ok _ Od) as [O1 E1]. destruct (rshift_one_ok _ Oc) as [O2 E2].
  set (ge := negb _).
  assert (GE : ge = (bn_val denom <=? bn_val tmp)).
  { unfold ge. destruct (Z.ltb_spec (bn_val denom) (bn_val tmp)); destruct (Z.ltb_spec (bn_val tmp) (bn_val denom));
    destruct (Z.leb_spec (bn_val denom) (bn_val tmp)); try lia; reflexivity. }
  set (tmp' := if ge then bn_sub tmp denom else tmp).
  set (c' := if ge then bn_or c current else c).
  assert (HT : bn_ok tmp' /\ bn_ok c' /\ bn_val a = bn_val tmp' + bn_val b * bn_val c' /\
               bn_val tmp' < bn_val denom /\ bn_val c' mod 2 ^ Z.of_nat k = 0).
  { assert (Mk : bn_val c mod 2 ^ Z.of_nat k = 0).
    { pose proof (Z.div_mod (bn_val c) (2 ^ (Z.of_nat k+1)) ltac:(apply Z.pow_nonzero; lia)) as D.
      rewrite Mc in D. rewrite D, pow2_half by lia.
      replace (2 * 2 ^ Z.of_nat k * (bn_val c / (2 * 2 ^ Z.of_nat k)) + 0)
        with ((2 * (bn_val c / (2 * 2 ^ Z.of_nat k))) * 2 ^ Z.of_nat k) by ring.
      apply Z_mod_mult. }
    unfold tmp', c'. rewrite GE. destruct (Z.leb_spec (bn_val denom) (bn_val tmp)) as [G|G].
    - destruct (sub_spec tmp denom Ot Od) as [Os Es]. destruct (or_spec c current Oq Oc) as [Oo Eo].
      assert (Bt := bn_bound _ Ot). assert (Bd := bn_bound _ Od).
      rewrite Z.mod_small in Es by lia.
      rewrite Ec, lor_pow_add in Eo by (auto; lia).
      split; [auto|]. split; [auto|]. rewrite Es, Eo. split; [|split].
      + rewrite Ea, Ed. ring.
      + lia.
      + rewrite Z.add_mod, Mk, Z_mod_same_full by lia. reflexivity.
    - repeat split; auto; try apply Ot; try apply Oq. }
  destruct HT as (T1 & T2 & T3 & T4 & T5).
  destruct k as [|k].
  - change (2 ^ Z.of_nat 0) with 1 in *.
    rewrite div_down_zero by (auto; rewrite E2, Ec; reflexivity).
    exists c'. split; auto. split; auto.
    rewrite Z.mul_1_r in Ed. rewrite T3. rewrite Z.mul_comm, Z.div_add by lia.
    rewrite Z.div_small; [lia|]. pose proof (bn_bound _ T1). lia.
  - assert (PS : 2 ^ Z.of_nat (S k) = 2 * 2 ^ Z.of_nat k).
    { replace (Z.of_nat (S k)) with (Z.of_nat k + 1) by lia. apply pow2_half. lia. }
    apply (IHk k ltac:(lia) f tmp' (bn_rshift_one denom) (bn_rshift_one current) c'); auto; try lia.
Qed.

Lemma div_fuel_spec fuel a b : bn_ok a -> bn_ok b -> 0 < bn_val b -> (513 <= fuel)%nat ->
  exists q, bn_div_fuel fuel a b = Some q /\ bn_ok q /\ bn_val q = bn_val a / bn_val b.
Proof.
  intros Oa Ob Pb F. unfold bn_div_fuel.
  destruct (div_up_spec a b Oa Ob Pb fuel 0 b (bn_from_int 1)) as (k & d & c & ov & R & Od & Oc & Ed & Ec & Hk & HR).
  { auto. } { apply from_int_ok. } { change (2 ^ Z.of_nat 0) with 1. ring. } { reflexivity. } { auto. } { lia. }
  rewrite R.
  assert (Ba := bn_bound _ Oa). assert (Bd := bn_bound _ Od).
  assert (K512 : (k <= 512)%nat).
  { assert (Bc := bn_bound _ Oc). rewrite Ec in Bc.
    destruct (Nat.leb_spec k 512); auto. exfalso.
    assert (2 ^ 512 <= 2 ^ Z.of_nat k) by (apply Z.pow_le_mono_r; lia). lia. }
  destruct ov.
  - destruct HR as [H1 H2]. change (2^512) with (2 * 2^511) in Ba.
    apply (div_down_spec a b Oa Ob Pb k); auto using init_ok; try lia.
    rewrite init_val. ring.
  - destruct HR as [H1 H2].
    destruct (rshift_one_ok _ Od) as [O1 E1]. destruct (rshift_one_ok _ Oc) as [O2 E2].
    destruct k as [|k].
    + change (2 ^ Z.of_nat 0) with 1 in *.
      rewrite div_down_zero by (auto; rewrite E2, Ec; reflexivity).
      exists bn_init. split; auto. split; [apply init_ok|]. rewrite init_val, Z.div_small; lia.
    + assert (PS : 2 ^ Z.of_nat (S k) = 2 * 2 ^ Z.of_nat k).
      { replace (Z.of_nat (S k)) with (Z.of_nat k + 1) by lia. apply pow2_half. lia. }
      assert (E1' : bn_val (bn_rshift_one d) = bn_val b * 2 ^ Z.of_nat k).
      { rewrite E1, Ed, PS. replace (bn_val b * (2 * 2 ^ Z.of_nat k)) with ((bn_val b * 2 ^ Z.of_nat k) * 2) by ring.
        apply Z_div_mult. lia. }
      assert (E2' : bn_val (bn_rshift_one c) = 2 ^ Z.of_nat k).
      { rewrite E2, Ec, PS. rewrite Z.mul_comm. apply Z_div_mult. lia. }
      apply (div_down_spec a b Oa Ob Pb k); auto using init_ok; try lia.
      * rewrite init_val. ring.
Qed.

Lemma div_spec a b : bn_ok a -> bn_ok b -> bn_val b <> 0 ->
  exists q, bn_div a b = Some q /\ bn_ok q /\ bn_val q = bn_val a / bn_val b.
Proof.
  intros Oa Ob N. pose proof (bn_bound _ Ob).
  assert (E : exists f, f = 520%nat) by (eexists; reflexivity). destruct E as [f E].
  unfold bn_div. rewrite <- E. apply div_fuel_spec; auto; try lia.
Qed.

Lemma div_up_zero a : bn_ok a -> forall fuel d c, bn_ok d -> bn_ok c -> bn_val d = 0 ->
  bn_div_up fuel a d c = None.
Proof.
  intros Oa. induction fuel; intros d c Od Oc E; cbn [bn_div_up]; rewrite cmp_spec, top_limb, E by auto;
    pose proof (bn_bound _ Oa); destruct (Z.ltb_spec (bn_val a) 0); try lia;
    assert (X : ((if 0 <? bn_val a then -1 else 0) =? 1) = false) by (destruct (_ <? _); reflexivity); rewrite X;
    change (2^511 <=? 0) with false; cbv iota; auto.
  destruct (lshift_one_ok _ Od) as [O1 E1]. destruct (lshift_one_ok _ Oc) as [O2 E2].
  apply IHfuel; auto. rewrite E1, E. reflexivity.
Qed.

Lemma div_zero fuel a b : bn_ok a -> bn_ok b -> bn_val b = 0 -> bn_div_fuel fuel a b = None.
Proof.
  intros Oa Ob E. unfold bn_div_fuel. rewrite div_up_zero; auto using from_int_ok.
Qed.
