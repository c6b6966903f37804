(** vli_mod_mult of EccModel: a product modulo a number of 256 bits. *)
From Verif Require Import Common CommonFacts EccModel EccSpec EccLimb EccMult EccMmod EccField.

(** Eight digits *)
Definition of8 (v : Z) : list Z := digits 8 v.
Definition B8 : Z := 2 ^ 512.
Lemma B8_eq : B8 = B4 * B4. Proof. reflexivity. Qed.
Lemma wide_of8 v : wide (of8 v). Proof. split; [apply words_digits|apply length_digits]. Qed.
Lemma val_of8 v : 0 <= v < B8 -> val (of8 v) = v.
Proof. intros. unfold of8. rewrite val_digits. apply Z.mod_small. exact H. Qed.
Lemma of8_val l : wide l -> of8 (val l) = l.
Proof. intros [W L]. unfold of8. rewrite <- L. apply digits_val. exact W. Qed.
Lemma wide_eq l v : wide l -> val l = v -> l = of8 v.
Proof. intros W <-. symmetry. apply of8_val. exact W. Qed.
Lemma digits_app a : forall n v, digits (a + n) v = digits a v ++ digits n (v / base a).
Proof.
  induction a; intros n v; cbn [digits app Nat.add].
  - rewrite base0, Z.div_1_r. reflexivity.
  - rewrite IHa, baseS. rewrite <- Z.div_div by (pose proof (base_pos a); lia). reflexivity.
Qed.
Lemma of8_split v : of8 v = of v ++ of (v / B4).
Proof. exact (digits_app 4 4 v). Qed.
Lemma first4 v : firstn 4 (of8 v) = of v. Proof. rewrite of8_split. reflexivity. Qed.
Lemma last4 v : skipn 4 (of8 v) = of (v / B4). Proof. rewrite of8_split. reflexivity. Qed.
Lemma of8_join lo hi : 0 <= lo < B4 -> of lo ++ of hi = of8 (lo + B4 * hi).
Proof.
  intros H. rewrite of8_split. f_equal.
  - rewrite (Z.mul_comm B4), of_shift. reflexivity.
  - rewrite Z.mul_comm, Z.div_add by discriminate. rewrite Z.div_small by lia. reflexivity.
Qed.
Lemma split_range v : 0 <= v < B8 -> 0 <= v mod B4 < B4 /\ 0 <= v / B4 < B4 /\ v = v mod B4 + B4 * (v / B4).
Proof.
  intros H. pose proof (Z.div_mod v B4 ltac:(discriminate)). pose proof (Z.mod_pos_bound v B4 ltac:(reflexivity)). rewrite B8_eq in H.
  repeat split; try lia; [apply Z.div_pos; lia|apply Z.div_lt_upper_bound; lia].
Qed.
Lemma pb_ok v : 0 <= v < B8 -> product_bits (of8 v) = size v.
Proof.
  intros H. destruct (split_range v H) as (L & R & E). unfold product_bits. rewrite first4, last4.
  rewrite !num_bits_ok by apply vli_of. rewrite (val_of (v / B4)) by assumption. rewrite val_of_mod.
  destruct (size_spec (v / B4) ltac:(lia)) as (S1 & S2 & S3).
  destruct (Z.eqb_spec (size (v / B4)) 0) as [Q|Q].
  - rewrite Q in S1. change (2 ^ 0) with 1 in S1. assert (v / B4 = 0) by lia. rewrite H0 in E. rewrite Z.mul_0_r, Z.add_0_r in E. rewrite <- E. reflexivity.
  - set (h := v / B4) in *. set (lo := v mod B4) in *. clearbody h lo. assert (h <> 0) by (intros ->; apply Q; reflexivity).
    specialize (S2 H0). unfold size at 2. destruct (Z.eqb_spec v 0); [unfold B4 in *; lia|]. 
    rewrite (Z.log2_unique v (256 + (size h - 1))); [lia|lia|]. rewrite <- Z.add_succ_r, !Z.pow_add_r by lia.
    replace (Z.succ (size h - 1)) with (size h) by lia. change (2 ^ 256) with B4 in *. set (t := 2 ^ size h) in *. set (t' := 2 ^ (size h - 1)) in *. clearbody t t'. nia.
Qed.
Lemma multiple_ok m s : 2 ^ 255 <= m < B4 -> 0 <= s <= 256 -> mod_multiple (of m) s = of8 (m * 2 ^ s).
Proof.
  intros Hm Hs. assert (0 < 2 ^ s) by (apply Z.pow_pos_nonneg; lia).
  pose proof (Z.div_mod s 64 ltac:(lia)) as D. pose proof (Z.mod_pos_bound s 64 ltac:(lia)) as M.
  assert (Q : 0 <= s / 64 <= 4) by lia. set (q := s / 64) in *. set (t := s mod 64) in *. 
  assert (Hp : 2 ^ s = base (Z.to_nat q) * 2 ^ t). { unfold base. rewrite Z2Nat.id by lia. rewrite <- Z.pow_add_r by lia. f_equal. lia. }
  unfold mod_multiple. fold q t. rewrite Hp. clearbody q t.
  assert (QQ : q = 0 \/ q = 1 \/ q = 2 \/ q = 3 \/ q = 4) by lia.
  destruct (vli_of m) as [Wm Lm]. pose proof (val_of m ltac:(lia)) as Vm.
  destruct (Z.eqb_spec t 0) as [->|T].
  - destruct (four _ Lm) as (w0 & w1 & w2 & w3 & E). rewrite E in *.
    inversion Wm as [|? ? A0 W0]; inversion W0 as [|? ? A1 W1]; inversion W1 as [|? ? A2 W2]; inversion W2 as [|? ? A3 W3]; subst.
    assert (Z0 : word 0) by (unfold word; lia).
    destruct QQ as [Qq|[Qq|[Qq|[Qq|Qq]]]]; first [replace (Z.to_nat q) with 0%nat by (subst q; reflexivity)|replace (Z.to_nat q) with 1%nat by (subst q; reflexivity)|replace (Z.to_nat q) with 2%nat by (subst q; reflexivity)|replace (Z.to_nat q) with 3%nat by (subst q; reflexivity)|replace (Z.to_nat q) with 4%nat by (subst q; reflexivity)]; apply wide_eq; (split; [repeat (apply Forall_cons; [assumption|]); apply Forall_nil|reflexivity]) || (cbn -[Z.pow Z.mul Z.add]; rewrite ?baseS, ?base0; ring).
  - rewrite vli_lshift_ok by (lia || apply vli_of). rewrite Vm.
    assert (Q3 : q <= 3) by (destruct QQ as [Qq|[Qq|[Qq|[Qq|Qq]]]]; first [replace (Z.to_nat q) with 0%nat by (subst q; reflexivity)|replace (Z.to_nat q) with 1%nat by (subst q; reflexivity)|replace (Z.to_nat q) with 2%nat by (subst q; reflexivity)|replace (Z.to_nat q) with 3%nat by (subst q; reflexivity)|replace (Z.to_nat q) with 4%nat by (subst q; reflexivity)]; lia).
    assert (T0 : 0 < 2 ^ t < 2 ^ 64) by (split; [apply Z.pow_pos_nonneg; lia|apply Z.pow_lt_mono_r; lia]).
    set (x := m * 2 ^ t). assert (Hx : 0 <= x < B4 * 2 ^ 64) by (unfold x; nia).
    assert (Hd : word (x / B4)) by (unfold word; split; [apply Z.div_pos; lia|apply Z.div_lt_upper_bound; lia]).
    pose proof (Z.div_mod x B4 ltac:(discriminate)) as Dx. pose proof (val_of_mod x) as Vx. destruct (vli_of x) as [Wx Lx]. destruct (four _ Lx) as (w0 & w1 & w2 & w3 & E). rewrite E in *.
    inversion Wx as [|? ? A0 W0]; inversion W0 as [|? ? A1 W1]; inversion W1 as [|? ? A2 W2]; inversion W2 as [|? ? A3 W3]; subst.
    assert (Z0 : word 0) by (unfold word; lia).
    replace (m * (base (Z.to_nat q) * 2 ^ t)) with (base (Z.to_nat q) * x) by (unfold x; ring).
    set (c := x / B4) in *. clearbody c. rewrite <- Vx in Dx. clearbody x. subst x. clear - QQ Q3 A0 A1 A2 A3 Z0 Hd.
    destruct QQ as [Qq|[Qq|[Qq|[Qq|Qq]]]]; first [replace (Z.to_nat q) with 0%nat by (subst q; reflexivity)|replace (Z.to_nat q) with 1%nat by (subst q; reflexivity)|replace (Z.to_nat q) with 2%nat by (subst q; reflexivity)|replace (Z.to_nat q) with 3%nat by (subst q; reflexivity)|replace (Z.to_nat q) with 4%nat by (subst q; reflexivity)]; try lia; apply wide_eq; (split; [repeat (apply Forall_cons; [assumption|]); apply Forall_nil|reflexivity]) || (cbn -[Z.pow Z.mul Z.add]; rewrite ?baseS, ?base0; unfold B4; ring).
Qed.
Section Modulus.
  Variable ml : list Z.
  Variable m : Z.
  Hypothesis Hml : vli ml.
  Hypothesis Hm : val ml = m.
  Hypothesis Hpos : 2 ^ 255 <= m < B4.
  Lemma ml_of : ml = of m. Proof. apply vli_eq; assumption. Qed.
  Lemma take_ok x y : 0 <= x < B8 -> 0 <= y < B8 -> take_multiple (of8 x) (of8 y) = of8 (if y <=? x then x - y else x).
  Proof.
    intros Hx Hy. destruct (split_range x Hx) as (X1 & X2 & X3). destruct (split_range y Hy) as (Y1 & Y2 & Y3).
    unfold take_multiple. rewrite !first4, !last4. rewrite !vli_cmp_ok by apply vli_of. rewrite !vli_sub_ok by apply vli_of. rewrite !val_of_mod. rewrite !(Z.mod_small (_ / B4)) by assumption.
    set (xl := x mod B4) in *. set (yl := y mod B4) in *.
    assert (OX : of8 x = of xl ++ of (x / B4)) by (rewrite of8_join by assumption; rewrite <- X3; reflexivity).
    set (xh := x / B4) in *. set (yh := y / B4) in *. clearbody xl yl xh yh.
    assert (C : ((if xh <? yh then 1 else if yh <? xh then -1 else 0) <? 0) || (((if xh <? yh then 1 else if yh <? xh then -1 else 0) =? 0) && ((if xl <? yl then 1 else if yl <? xl then -1 else 0) <=? 0)) = (y <=? x)).
    { destruct (Z.ltb_spec xh yh); [|destruct (Z.ltb_spec yh xh)].
      - change ((1 <? 0) || (1 =? 0) && _) with false. symmetry. apply Z.leb_gt. nia.
      - change ((-1 <? 0) || _) with true. symmetry. apply Z.leb_le. nia.
      - assert (xh = yh) by lia. subst xh. change (0 <? 0) with false. change (0 =? 0) with true. cbn [orb andb].
        destruct (Z.ltb_spec xl yl); [|destruct (Z.ltb_spec yl xl)].
        + change (1 <=? 0) with false. symmetry. apply Z.leb_gt. lia.
        + change (-1 <=? 0) with true. symmetry. apply Z.leb_le. lia.
        + change (0 <=? 0) with true. symmetry. apply Z.leb_le. lia. }
    rewrite C. destruct (Z.leb_spec y x); [|reflexivity].
    unfold bit. destruct (Z.ltb_spec xl yl).
    - change (1 =? 0) with false. cbv iota. change vli_one with (of 1). rewrite (vli_sub_ok (of xh)) by apply vli_of. cbn [fst]. rewrite vli_sub_ok by apply vli_of. cbn [fst].
      assert (1 <= xh - yh) by nia. rewrite (val_of xh), (val_of yh) by lia.
      rewrite (val_of 1) by (unfold B4; lia). rewrite (val_of (xh - 1)) by lia.
      rewrite <- (of_shift (xl - yl) 1), Z.mul_1_l. rewrite of8_join by lia. f_equal. lia.
    - change (0 =? 0) with true. cbv iota. assert (0 <= xh - yh) by nia. rewrite !vli_sub_ok by apply vli_of. cbn [fst]. rewrite !val_of by lia.
      rewrite of8_join by lia. f_equal. lia.
  Qed.
  Lemma halve_multiple_ok y : 0 <= y < B8 -> halve_multiple (of8 y) = of8 (y / 2).
  Proof.
    intros Hy. destruct (split_range y Hy) as (Y1 & Y2 & Y3). unfold halve_multiple. rewrite first4, last4. rewrite <- (of_mod y).
    set (yl := y mod B4) in *. set (yh := y / B4) in *. clearbody yl yh.
    rewrite !vli_rshift1_ok by apply vli_of. rewrite !val_of by assumption.
    assert (N0 : Z.land (nth 0 (of yh) 0) 1 = yh mod 2).
    { change 1 with (Z.ones 1). rewrite Z.land_ones by lia. change (2 ^ 1) with 2. cbn [of digits nth].
      rewrite <- Znumtheory.Zmod_div_mod; [reflexivity|lia|lia|exists (2 ^ 63); reflexivity]. }
    rewrite N0. assert (TOP : forall z b, 0 <= z < 2 ^ 255 -> 0 <= b <= 1 -> firstn 3 (of z) ++ [Z.lor (nth 3 (of z) 0) (shl b 63)] = of (z + b * 2 ^ 255)).
    { intros z b Hz Hb. assert (Bb : b = 0 \/ b = 1) by lia. destruct Bb as [->| ->].
      - change (shl 0 63) with 0. rewrite Z.lor_0_r, Z.mul_0_l, Z.add_0_r. reflexivity.
      - change (shl 1 63) with 0x8000000000000000. exact (set_top_ok z true Hz). }
    rewrite app_assoc, TOP by (unfold B4 in *; lia). rewrite of8_join.
    - f_equal. unfold B4 in *. lia.
    - unfold B4 in *. lia.
  Qed.
  Lemma mult_loop_mod : forall k fuel x, (k < fuel)%nat -> (k <= 256)%nat -> 0 <= x < 2 * (m * 2 ^ Z.of_nat k) ->
    0 <= x < B8 -> mod_mult_loop (S fuel) ml (of8 x) (of8 (m * 2 ^ Z.of_nat k)) (256 + Z.of_nat k) = Some (of (x mod m)).
  Proof.
    assert (B255 : B4 = 2 * 2 ^ 255) by reflexivity. 
    induction k as [|k IH]; intros fuel x F K Hx H8.
    - change (Z.of_nat 0) with 0 in *. rewrite Z.pow_0_r, Z.mul_1_r, Z.add_0_r in *. cbn [mod_mult_loop].
      rewrite first4. rewrite vli_cmp_ok by (apply vli_of || assumption). rewrite val_of, Hm by lia. rewrite (Z.ltb_irrefl m).
      change ((4 * 64 <? 256) || (0 <=? 0)) with true. cbv iota. rewrite take_ok, halve_multiple_ok by (rewrite ?B8_eq in *; nia).
      destruct fuel; [lia|]. cbn [mod_mult_loop]. rewrite !first4. rewrite vli_cmp_ok by (apply vli_of || assumption).
      assert (M2 : 0 <= m / 2 < m) by (clear - Hpos; lia). rewrite val_of, Hm by lia.
      destruct (Z.ltb_spec m (m / 2)); [lia|]. destruct (Z.ltb_spec (m / 2) m); [|lia].
      change ((4 * 64 <? 256 - 1) || (0 <=? -1)) with false. cbv iota. f_equal. f_equal.
      destruct (Z.leb_spec m x); [|symmetry; apply Z.mod_small; lia]. apply (Z.mod_unique_pos _ _ 1); lia.
    - cbn [mod_mult_loop]. rewrite Nat2Z.inj_succ in *. destruct (Z.ltb_spec (4 * 64) (256 + Z.succ (Z.of_nat k))); [|lia]. cbn [orb].
      set (t := 2 ^ Z.of_nat k) in *. assert (P : 2 ^ Z.succ (Z.of_nat k) = 2 * t) by (unfold t; rewrite Z.pow_succ_r by lia; reflexivity).
      assert (T : 0 < t <= 2 ^ 255) by (unfold t; split; [apply Z.pow_pos_nonneg; lia|apply Z.pow_le_mono_r; lia]).
      rewrite P in *. assert (Y : 0 <= m * (2 * t) < B8) by (rewrite B8_eq; nia).
      rewrite take_ok, halve_multiple_ok by assumption.
      replace (m * (2 * t) / 2) with (m * t) by (replace (m * (2 * t)) with (m * t * 2) by ring; rewrite Z.div_mul by lia; reflexivity).
      replace (256 + Z.succ (Z.of_nat k) - 1) with (256 + Z.of_nat k) by lia.
      destruct fuel as [|fuel]; [lia|]. change (m * t) with (m * 2 ^ Z.of_nat k).
      rewrite IH; [|lia|lia| |].
      + f_equal. f_equal. destruct (Z.leb_spec (m * (2 * t)) x); [|reflexivity].
        replace (x - m * (2 * t)) with (x + (- (2 * t)) * m) by ring. apply Z.mod_add. lia.
      + fold t. destruct (Z.leb_spec (m * (2 * t)) x); lia.
      + destruct (Z.leb_spec (m * (2 * t)) x); lia.
  Qed.
  Lemma mod_mult_ok a b : 0 <= a < B4 -> 0 <= b < B4 -> vli_mod_mult (of a) (of b) ml = Some (of ((a * b) mod m)).
  Proof.
    intros Ha Hb. unfold vli_mod_mult. rewrite num_bits_ok by assumption. rewrite Hm.
    assert (S256 : size m = 256).
    { unfold size. destruct (Z.eqb_spec m 0); [lia|]. rewrite (Z.log2_unique m 255); [reflexivity|lia|]. unfold B4 in Hpos. exact Hpos. }
    rewrite S256. destruct (vli_mult_ok (of a) (of b) (vli_of a) (vli_of b)) as [W V]. rewrite !val_of in V by assumption.
    rewrite (wide_eq _ _ W V). set (x := a * b) in *. assert (Hx : 0 <= x < B8) by (exact (B4_mul a b Ha Hb)).
    rewrite pb_ok by assumption. destruct (size_spec x ltac:(lia)) as (S1 & S2 & S3).
    destruct (Z.ltb_spec (size x) 256) as [L|L].
    - rewrite first4. f_equal. f_equal. symmetry. apply Z.mod_small. split; [lia|].
      assert (2 ^ size x <= 2 ^ 255) by (apply Z.pow_le_mono_r; lia). lia.
    - assert (SB : size x <= 512) by (apply size_bound; [lia|exact Hx]).
      rewrite ml_of at 2. rewrite multiple_ok by lia. 
      replace (size x) with (256 + Z.of_nat (Z.to_nat (size x - 256))) at 2 by lia.
      replace (size x - 256) with (Z.of_nat (Z.to_nat (size x - 256))) at 1 by lia.
      change (Z.to_nat 1024) with (S (Z.to_nat 1023)). apply mult_loop_mod; [lia|lia| |exact Hx].
      split; [lia|]. rewrite Z2Nat.id by lia. 
      replace (2 ^ size x) with (2 ^ 256 * 2 ^ (size x - 256)) in S1 by (rewrite <- Z.pow_add_r by lia; f_equal; lia).
      assert (0 < 2 ^ (size x - 256)) by (apply Z.pow_pos_nonneg; lia). change (2 ^ 256) with (2 * 2 ^ 255) in S1. nia.
  Qed.
End Modulus.
