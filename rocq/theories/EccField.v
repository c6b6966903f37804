(** Modular arithmetic of EccModel: addition, subtraction, product, inverse. *)
From Verif Require Import Common CommonFacts EccModel EccSpec EccLimb EccMult EccMmod.
From Coq Require Import Znumtheory.

Lemma of_mod v : of (v mod B4) = of v.
Proof. unfold of. apply (digits_mod 4). Qed.
Lemma of_shift v k : of (v + k * B4) = of v.
Proof. rewrite <- of_mod, Z.mod_add, of_mod by discriminate. reflexivity. Qed.

Lemma set_top_ok u b : 0 <= u < 2 ^ 255 -> set_top (of u) b = of (u + (if b then 2 ^ 255 else 0)).
Proof.
  intros Hu. destruct b; cbn [set_top]; [|rewrite Z.add_0_r; reflexivity].
  apply vli_eq.
  - destruct (vli_of u) as [W L]. destruct (four _ L) as (w0 & w1 & w2 & w3 & E). rewrite E in *. cbn [firstn nth app].
    inversion W as [|? ? A0 W0]; inversion W0 as [|? ? A1 W1]; inversion W1 as [|? ? A2 W2]; inversion W2 as [|? ? A3 W3]; subst.
    apply vli4; try assumption. unfold word in *. change 0x8000000000000000 with (2 ^ 63).
    split; [apply Z.lor_nonneg; lia|]. destruct (Z.eq_dec (Z.lor w3 (2 ^ 63)) 0) as [Q|Q]; [lia|].
    assert (0 <= Z.lor w3 (2 ^ 63)) by (apply Z.lor_nonneg; lia).
    apply Z.log2_lt_pow2; [lia|]. rewrite Z.log2_lor by lia. rewrite Z.log2_pow2 by lia. apply Z.max_lub_lt; [|lia].
    destruct (Z.eq_dec w3 0) as [->|]; [reflexivity|]. apply Z.log2_lt_pow2; lia.
  - pose proof (val_of u ltac:(unfold B4; lia)) as E. destruct (vli_of u) as [W L]. destruct (four _ L) as (w0 & w1 & w2 & w3 & F). rewrite F in *.
    cbn [firstn nth app val] in *. change 0x8000000000000000 with (1 * 2 ^ 63).
    inversion W as [|? ? A0 W0]; inversion W0 as [|? ? A1 W1]; inversion W1 as [|? ? A2 W2]; inversion W2 as [|? ? A3 W3]; subst. unfold word in *.
    rewrite Z.lor_comm, lor_high by lia. lia.
Qed.

Section Modulus.
  Variable ml : list Z.
  Variable m : Z.
  Hypothesis Hml : vli ml.
  Hypothesis Hm : val ml = m.
  Hypothesis Hpos : 0 < m < B4.
  Lemma mod_add_gen a b : 0 <= a < B4 -> 0 <= b < m ->
    vli_mod_add (of a) (of b) ml = of (if m <=? a + b then a + b - m else a + b).
  Proof.
    intros Ha Hb. unfold vli_mod_add. rewrite vli_add_ok by apply vli_of. rewrite !val_of by lia.
    rewrite vli_cmp_ok by (apply vli_of || assumption). rewrite Hm.
    destruct (Z.lt_ge_cases (a + b) B4) as [L|L].
    - rewrite Z.div_small by lia. rewrite val_of by lia. cbn [Z.eqb negb orb].
      destruct (Z.leb_spec m (a + b)).
      + destruct (Z.ltb_spec m (a + b)); [|destruct (Z.ltb_spec (a + b) m); [lia|]]; cbn [Z.leb Z.compare];
          change (0 <=? 1) with true; change (0 <=? 0) with true; cbv iota; cbn [negb orb Z.eqb]; change (negb (0 =? 0)) with false; cbn [orb];
          rewrite vli_sub_ok by (apply vli_of || assumption); rewrite val_of, Hm by lia; reflexivity.
      + destruct (Z.ltb_spec m (a + b)); [lia|]. destruct (Z.ltb_spec (a + b) m); [|lia].
        change (negb (0 =? 0) || (0 <=? -1)) with false. reflexivity.
    - assert (E : (a + b) / B4 = 1) by (symmetry; apply (Z.div_unique_pos _ _ _ (a + b - B4)); lia).
      rewrite E. change (negb (1 =? 0)) with true. cbn [orb].
      destruct (Z.leb_spec m (a + b)); [|lia].
      rewrite vli_sub_ok by (apply vli_of || assumption). rewrite Hm. cbn [fst].
      rewrite val_of_mod. replace ((a + b) mod B4) with (a + b - B4) by (apply (Z.mod_unique_pos _ _ 1); lia).
      replace (a + b - B4 - m) with (a + b - m + (-1) * B4) by ring. rewrite of_shift. reflexivity.
  Qed.
  Lemma mod_add_ok a b : 0 <= a < m -> 0 <= b < m -> vli_mod_add (of a) (of b) ml = of ((a + b) mod m).
  Proof.
    intros Ha Hb. rewrite mod_add_gen by lia. f_equal. destruct (Z.leb_spec m (a + b)).
    - apply (Z.mod_unique_pos _ _ 1); lia.
    - symmetry. apply Z.mod_small. lia.
  Qed.
  Lemma mod_sub_ok a b : 0 <= a < m -> 0 <= b < m -> vli_mod_sub (of a) (of b) ml = of ((a - b) mod m).
  Proof.
    intros Ha Hb. unfold vli_mod_sub. rewrite vli_sub_ok by apply vli_of. rewrite !val_of by lia. unfold bit.
    destruct (Z.ltb_spec a b).
    - change (negb (1 =? 0)) with true. cbv iota. rewrite vli_add_ok by (apply vli_of || assumption). cbn [fst].
      rewrite val_of_mod, Hm. replace ((a - b) mod B4) with (a - b + B4) by (apply (Z.mod_unique_pos _ _ (-1)); lia).
      replace (a - b + B4 + m) with (a - b + m + 1 * B4) by ring. rewrite of_shift. f_equal. apply (Z.mod_unique_pos _ _ (-1)); lia.
    - change (negb (0 =? 0)) with false. cbv iota. f_equal. symmetry. apply Z.mod_small. lia.
  Qed.

  (** ** Inverse *)
  Hypothesis Hodd : m mod 2 = 1.
  Definition half (u : Z) : Z := if u mod 2 =? 0 then u / 2 else (u + m) / 2.
  Lemma halve_ok u : 0 <= u < m -> halve (of u) ml = of (half u) /\ 0 <= half u < m /\ (2 * half u - u) mod m = 0.
  Proof.
    intros Hu. unfold half, halve. rewrite even_ok by apply vli_of. rewrite val_of by lia.
    destruct (Z.eqb_spec (u mod 2) 0) as [E|E].
    - change (negb (0 =? 0)) with false. unfold set_top. rewrite vli_rshift1_ok by apply vli_of. rewrite val_of by lia.
      split; [reflexivity|]. split; [clear - Hu; lia|]. replace (2 * (u / 2) - u) with 0 by (clear - E; lia). apply Z.mod_0_l. lia.
    - rewrite vli_add_ok by (apply vli_of || assumption). rewrite val_of, Hm by lia.
      assert (P : 2 * ((u + m) / 2) = u + m) by (clear - E Hodd; lia).
      split; [|split; [lia|replace (2 * ((u + m) / 2) - u) with m by lia; apply Z.mod_same; lia]].
      rewrite vli_rshift1_ok by apply vli_of. rewrite val_of_mod.
      destruct (Z.lt_ge_cases (u + m) B4) as [L|L].
      + rewrite (Z.div_small (u + m) B4) by lia. rewrite (Z.mod_small (u + m) B4) by lia. change (negb (0 =? 0)) with false. reflexivity.
      + assert (D : (u + m) / B4 = 1) by (symmetry; apply (Z.div_unique_pos _ _ _ (u + m - B4)); lia). rewrite D.
        replace ((u + m) mod B4) with (u + m - B4) by (apply (Z.mod_unique_pos _ _ 1); lia).
        change (negb (1 =? 0)) with true. change B4 with (2 * 2 ^ 255) in *.
        rewrite set_top_ok by lia. f_equal. lia.
  Qed.
  Lemma less_ok u v : 0 <= u < m -> 0 <= v < m -> less (of u) (of v) ml = of ((u - v) mod m).
  Proof.
    intros Hu Hv. unfold less. rewrite vli_cmp_ok by apply vli_of. rewrite !val_of by lia.
    destruct (Z.ltb_spec v u); [|destruct (Z.ltb_spec u v)].
    - change (1 <? 0) with false. cbv iota. rewrite vli_sub_ok by apply vli_of. rewrite !val_of by lia. cbn [fst]. f_equal. symmetry. apply Z.mod_small. lia.
    - change (-1 <? 0) with true. cbv iota. rewrite vli_add_ok by (apply vli_of || assumption). cbn [fst].
      rewrite vli_sub_ok by apply vli_of. cbn [fst]. rewrite val_of_mod, !val_of, Hm by lia.
      replace ((u - v) mod m) with (u - v + m) by (apply (Z.mod_unique_pos _ _ (-1)); lia).
      destruct (Z.lt_ge_cases (u + m) B4).
      + rewrite Z.mod_small by lia. f_equal. ring.
      + replace ((u + m) mod B4) with (u + m - B4) by (apply (Z.mod_unique_pos _ _ 1); lia).
        replace (u + m - B4 - v) with (u - v + m + (-1) * B4) by ring. apply of_shift.
    - change (0 <? 0) with false. cbv iota. rewrite vli_sub_ok by apply vli_of. rewrite !val_of by lia. cbn [fst]. f_equal. symmetry. apply Z.mod_small. lia.
  Qed.
  (** [x] is [y] times the number to invert, modulo m *)
  Variable inp : Z.
  Definition rel (u a : Z) : Prop := (u * inp - a) mod m = 0.
  Lemma div_ex a : a mod m = 0 <-> exists k, a = k * m.
  Proof. split; [intros H; exists (a / m); pose proof (Z.div_mod a m); lia|intros [k ->]; apply Z.mod_mul; lia]. Qed.
  (** Division by two modulo an odd number *)
  Lemma cancel2 x : (2 * x) mod m = 0 -> x mod m = 0.
  Proof.
    intros H. apply div_ex in H. destruct H as [k H]. apply div_ex. exists (k / 2).
    assert (k mod 2 = 0). 
    { assert (E : m = 2 * (m / 2) + 1) by (clear - Hodd; lia). set (h := m / 2) in *. clearbody h. subst m.
      assert (k = 2 * (x - k * h)) by lia. rewrite H0. rewrite Z.mul_comm. apply Z.mod_mul. lia. }
    assert (k = 2 * (k / 2)) by (clear - H0; lia). set (h := k / 2) in *. clearbody h. subst k. lia.
  Qed.
  Lemma rel_half u a : a mod 2 = 0 -> rel u a -> (2 * half u - u) mod m = 0 -> rel (half u) (a / 2).
  Proof.
    unfold rel. intros E R H. apply cancel2. apply div_ex in R. apply div_ex in H. destruct R as [k R], H as [j H].
    apply div_ex. exists (k + j * inp). assert (a = 2 * (a / 2)) by (clear - E; lia). set (b := a / 2) in *. clearbody b. subst a.
    replace (2 * (half u * inp - b)) with (2 * half u * inp - 2 * b) by ring. replace (2 * half u) with (u + j * m) by lia.
    replace ((u + j * m) * inp - 2 * b) with (u * inp - 2 * b + j * inp * m) by ring. rewrite R. ring.
  Qed.
  Lemma rel_less u v a b : rel u a -> rel v b -> rel ((u - v) mod m) (a - b).
  Proof.
    unfold rel. intros R1 R2. apply div_ex in R1. apply div_ex in R2. destruct R1 as [k R1], R2 as [j R2]. apply div_ex.
    pose proof (Z.div_mod (u - v) m ltac:(lia)) as D. set (q := (u - v) / m) in *. set (r := (u - v) mod m) in *. clearbody q r.
    exists (k - j - q * inp). replace r with (u - v - m * q) by lia. 
    replace ((u - v - m * q) * inp - (a - b)) with ((u * inp - a) - (v * inp - b) - m * q * inp) by ring. rewrite R1, R2. ring.
  Qed.
  Definition bits2 (a b : Z) : Z := size a + size b.
  Lemma size_half a : 0 < a -> size (a / 2) = size a - 1.
  Proof.
    intros H. unfold size. destruct (Z.eqb_spec a 0); [lia|]. destruct (Z.eqb_spec (a / 2) 0).
    - assert (a = 1) by lia. subst. reflexivity.
    - assert (E : Z.log2 (a / 2) = Z.log2 a - 1); [|lia].
      change 2 with (2 ^ 1). rewrite <- Z.shiftr_div_pow2 by lia. rewrite Z.log2_shiftr by lia.
      assert (1 <= Z.log2 a). { change 1 with (Z.log2 2). apply Z.log2_le_mono. lia. } lia.
  Qed.
  Lemma size_mono a b : 0 <= a <= b -> size a <= size b.
  Proof.
    intros H. unfold size. destruct (Z.eqb_spec a 0); [destruct (Z.eqb_spec b 0); [lia|pose proof (Z.log2_nonneg b); lia]|].
    destruct (Z.eqb_spec b 0); [lia|]. pose proof (Z.log2_le_mono a b). lia.
  Qed.
  Lemma size_nonneg a : 0 <= a -> 0 <= size a. Proof. intros. apply size_spec. assumption. Qed.
  Lemma size_pos a : 0 < a -> 1 <= size a.
  Proof. intros. unfold size. destruct (Z.eqb_spec a 0); [lia|]. pose proof (Z.log2_nonneg a). lia. Qed.
  Lemma gcd_half a b : a mod 2 = 0 -> b mod 2 = 1 \/ Z.gcd a b = 1 -> Z.gcd a b = 1 -> Z.gcd (a / 2) b = 1.
  Proof.
    intros E _ G. apply Zgcd_1_rel_prime. apply Zgcd_1_rel_prime in G. assert (X : a = 2 * (a / 2)) by (clear - E; lia).
    rewrite X in G. apply rel_prime_sym. apply rel_prime_sym in G. apply rel_prime_div with (p := b) (q := b) || idtac.
    apply Zgcd_1_rel_prime. apply Zgcd_1_rel_prime in G.
    assert (D : (Z.gcd b (a / 2) | 1)).
    { rewrite <- G. apply Z.gcd_greatest; [apply Z.gcd_divide_l|]. apply Z.divide_mul_r. apply Z.gcd_divide_r. }
    apply Z.divide_1_r_nonneg; [apply Z.gcd_nonneg|exact D].
  Qed.
  Lemma gcd_minus a b : Z.gcd (a - b) b = Z.gcd a b.
  Proof. rewrite Z.gcd_comm, Z.gcd_sub_diag_r, Z.gcd_comm. reflexivity. Qed.
  Lemma inv_loop_ok : forall fuel a b u v, 0 < a < B4 -> 0 < b < B4 -> 0 <= u < m -> 0 <= v < m ->
    Z.gcd a b = 1 -> rel u a -> rel v b -> bits2 a b < Z.of_nat fuel ->
    exists w, inv_loop fuel ml (of a) (of b) (of u) (of v) = Some (of w) /\ 0 <= w < m /\ rel w 1.
  Proof.
    induction fuel as [|fuel IH]; intros a b u v Ha Hb Hu Hv G Ru Rv F.
    { change (Z.of_nat 0) with 0 in F. unfold bits2 in F. pose proof (size_pos a). pose proof (size_pos b). lia. }
    rewrite Nat2Z.inj_succ in F. cbn [inv_loop]. rewrite vli_cmp_ok, !even_ok by apply vli_of. rewrite !val_of by lia.
    rewrite !vli_sub_ok by apply vli_of. cbn [fst]. rewrite !val_of by lia.
    destruct (Z.eq_dec a b) as [->|N].
    { rewrite !Z.ltb_irrefl. change (0 =? 0) with true. cbv iota. exists u. split; [reflexivity|]. split; [assumption|].
      rewrite Z.gcd_diag in G. rewrite Z.abs_eq in G by lia. rewrite <- G. exact Ru. }
    assert (C : (if b <? a then 1 else if a <? b then -1 else 0) =? 0 = false).
    { destruct (Z.ltb_spec b a); [reflexivity|]. destruct (Z.ltb_spec a b); [reflexivity|lia]. }
    rewrite C. clear C. unfold bits2 in F.
    destruct (halve_ok u Hu) as (U1 & U2 & U3). destruct (halve_ok v Hv) as (V1 & V2 & V3).
    destruct (Z.eqb_spec (a mod 2) 0) as [Ea|Ea].
    - rewrite vli_rshift1_ok by apply vli_of. rewrite val_of by lia. rewrite U1.
      apply IH; try assumption; [clear - Ha Ea; lia|apply gcd_half; auto|apply rel_half; assumption|unfold bits2; rewrite size_half by lia; lia].
    - destruct (Z.eqb_spec (b mod 2) 0) as [Eb|Eb].
      + rewrite vli_rshift1_ok by apply vli_of. rewrite val_of by lia. rewrite V1.
        apply IH; try assumption; [clear - Hb Eb; lia|rewrite Z.gcd_comm; apply gcd_half; try assumption; rewrite Z.gcd_comm; auto|apply rel_half; assumption|unfold bits2; rewrite size_half by lia; lia].
      + destruct (Z.ltb_spec b a).
        * change (0 <? 1) with true. cbv iota. rewrite !vli_rshift1_ok by apply vli_of. rewrite !val_of by lia. rewrite less_ok by assumption.
          destruct (halve_ok ((u - v) mod m) ltac:(apply Z.mod_pos_bound; lia)) as (L1 & L2 & L3). rewrite L1.
          assert (E2 : (a - b) mod 2 = 0) by (clear - Ea Eb; lia).
          apply IH; try assumption.
          -- clear - Ha Hb H E2 N; lia.
          -- apply gcd_half; try assumption; rewrite gcd_minus; auto.
          -- apply rel_half; [assumption| |assumption]. apply rel_less; assumption.
          -- unfold bits2. rewrite size_half by lia. pose proof (size_mono (a - b) a ltac:(lia)). lia.
        * destruct (Z.ltb_spec a b); [|lia]. change (0 <? -1) with false. cbv iota. rewrite !vli_rshift1_ok by apply vli_of. rewrite !val_of by lia. rewrite less_ok by assumption.
          destruct (halve_ok ((v - u) mod m) ltac:(apply Z.mod_pos_bound; lia)) as (L1 & L2 & L3). rewrite L1.
          assert (E2 : (b - a) mod 2 = 0) by (clear - Ea Eb; lia).
          apply IH; try assumption.
          -- clear - Ha Hb H H0 E2 N; lia.
          -- rewrite Z.gcd_comm. apply gcd_half; try assumption; rewrite gcd_minus, Z.gcd_comm; auto.
          -- apply rel_half; [assumption| |assumption]. apply rel_less; assumption.
          -- unfold bits2. rewrite size_half by lia. pose proof (size_mono (b - a) b ltac:(lia)). lia.
  Qed.
  Lemma mod_inv_ok : 1 < m -> 0 < inp < B4 -> Z.gcd inp m = 1 ->
    exists w, vli_mod_inv (of inp) ml = Some (of w) /\ 0 <= w < m /\ (w * inp) mod m = 1.
  Proof.
    intros H1 Hi G. unfold vli_mod_inv. rewrite is_zero_ok by apply vli_of. rewrite val_of by lia.
    destruct (Z.eqb_spec inp 0); [lia|].
    assert (Q : of m = ml) by (rewrite <- Hm; apply of_val; assumption).
    change vli_one with (of 1). change vli_clear with (of 0).
    destruct (inv_loop_ok (Z.to_nat 1024) inp m 1 0) as (w & E & R & W); try lia.
    - unfold rel. replace (1 * inp - inp) with 0 by ring. apply Z.mod_0_l. lia.
    - unfold rel. replace (0 * inp - m) with ((-1) * m) by ring. apply Z.mod_mul. lia.
    - unfold bits2. pose proof (size_bound inp 256 ltac:(lia) ltac:(unfold B4 in *; lia)). pose proof (size_bound m 256 ltac:(lia) ltac:(unfold B4 in *; lia)). lia.
    - rewrite Q in E. exists w. split; [exact E|]. split; [exact R|]. unfold rel in W. apply div_ex in W. destruct W as [k W].
      replace (w * inp) with (1 + k * m) by lia. rewrite Z.mod_add by lia. apply Z.mod_small. lia.
  Qed.
  Lemma mod_inv_zero : vli_mod_inv (of 0) ml = Some (of 0).
  Proof. reflexivity. Qed.
End Modulus.

(** ** Products modulo p *)
Lemma mult_fast_ok a b : 0 <= a < B4 -> 0 <= b < B4 -> vli_mod_mult_fast (of a) (of b) = Some (of ((a * b) mod p256)).
Proof.
  intros Ha Hb. unfold vli_mod_mult_fast. destruct (vli_mult_ok (of a) (of b) (vli_of a) (vli_of b)) as [W V].
  rewrite mmod_fast_ok by assumption. rewrite V, !val_of by assumption. reflexivity.
Qed.
Lemma sqr_fast_ok a : 0 <= a < B4 -> vli_mod_sqr_fast (of a) = Some (of ((a * a) mod p256)).
Proof.
  intros Ha. unfold vli_mod_sqr_fast. destruct (vli_sqr_ok (of a) (vli_of a)) as [W V].
  rewrite mmod_fast_ok by assumption. rewrite V, !val_of by assumption. reflexivity.
Qed.
