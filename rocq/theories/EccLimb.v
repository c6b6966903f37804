(** The 64-bit digit arithmetic of EccModel computes with the numbers. *)
From Verif Require Import Common CommonFacts EccModel EccSpec.

Notation B := (2 ^ 64).
Definition base (n : nat) : Z := 2 ^ (64 * Z.of_nat n).
Lemma base0 : base 0 = 1. Proof. reflexivity. Qed.
Lemma baseS n : base (S n) = 2 ^ 64 * base n.
Proof. unfold base. rewrite Nat2Z.inj_succ. replace (64 * Z.succ (Z.of_nat n)) with (64 + 64 * Z.of_nat n) by lia. rewrite Z.pow_add_r by lia. reflexivity. Qed.
Lemma base_pos n : 0 < base n.
Proof. unfold base. apply Z.pow_pos_nonneg; lia. Qed.
Lemma val_range l : words l -> 0 <= val l < base (length l).
Proof.
  induction 1 as [|d l Hd _ IH].
  - cbn [length val]. rewrite base0. lia.
  - cbn [length val]. rewrite baseS. unfold word in Hd. pose proof (base_pos (length l)). nia.
Qed.
Lemma words_digits n : forall v, words (digits n v).
Proof. induction n; intros; cbn; constructor; [|apply IHn]. apply Z.mod_pos_bound. lia. Qed.
Lemma length_digits n : forall v, length (digits n v) = n.
Proof. induction n; intros; cbn; auto. Qed.
Lemma val_digits n : forall v, val (digits n v) = v mod base n.
Proof.
  induction n; intros; cbn [digits val].
  - rewrite base0, Z.mod_1_r. reflexivity.
  - rewrite IHn, baseS. pose proof (base_pos n).
    rewrite Z.rem_mul_r by lia. reflexivity.
Qed.
Lemma digits_val l : words l -> digits (length l) (val l) = l.
Proof.
  induction 1 as [|d l Hd _ IH]; [reflexivity|].
  cbn [length digits val]. unfold word in Hd.
  replace ((d + 2 ^ 64 * val l) mod 2 ^ 64) with d.
  2:{ rewrite Z.mul_comm, Z.mod_add by lia. symmetry. apply Z.mod_small. lia. }
  replace ((d + 2 ^ 64 * val l) / 2 ^ 64) with (val l).
  2:{ rewrite Z.mul_comm, Z.div_add by lia. rewrite (Z.div_small d) by lia. lia. }
  rewrite IH. reflexivity.
Qed.
Lemma digits_mod n : forall v, digits n (v mod base n) = digits n v.
Proof.
  intros v. rewrite <- (digits_val (digits n v)) by apply words_digits.
  rewrite length_digits, val_digits. reflexivity.
Qed.
Lemma val_inj l r : words l -> words r -> length l = length r -> val l = val r -> l = r.
Proof. intros. rewrite <- (digits_val l), <- (digits_val r) by assumption. congruence. Qed.
Lemma words_app l r : words (l ++ r) <-> words l /\ words r.
Proof. apply Forall_app. Qed.
Lemma val_app l : forall r, val (l ++ r) = val l + base (length l) * val r.
Proof.
  induction l; intros; cbn [app val length].
  - rewrite base0. lia.
  - rewrite IHl, baseS. ring.
Qed.
Lemma val_repeat0 n : val (repeat 0 n) = 0.
Proof. induction n; cbn [repeat val]; rewrite ?IHn; reflexivity. Qed.
Lemma words_repeat0 n : words (repeat 0 n).
Proof. induction n; cbn; constructor; [unfold word; lia|assumption]. Qed.

(** Addition and subtraction *)
Lemma add_loop_ok : forall l r c, words l -> words r -> length l = length r -> 0 <= c <= 1 ->
  let (s, c') := add_loop c l r in
  words s /\ length s = length l /\ 0 <= c' <= 1 /\ val s + base (length l) * c' = val l + val r + c.
Proof.
  induction l as [|a l IH]; intros [|b r] c Wl Wr HL Hc; try discriminate HL; cbn [add_loop].
  - cbn [length val]. rewrite base0. split; [constructor|]. lia.
  - inversion Wl as [|? ? Ha Wl']; inversion Wr as [|? ? Hb Wr']; subst. injection HL as HL.
    unfold word in Ha, Hb.
    set (sum := u64 (u64 (a + b) + c)). set (c1 := if sum =? a then c else bit (sum <? a)).
    assert (E : 0 <= sum < 2 ^ 64 /\ 0 <= c1 <= 1 /\ sum + 2 ^ 64 * c1 = a + b + c).
    { clear - Ha Hb Hc. unfold c1, sum, u64, bit. rewrite Z.add_mod_idemp_l by lia.
      set (t := a + b + c). assert (Ht : 0 <= t < 2 * 2 ^ 64) by (unfold t; lia).
      destruct (Z.lt_ge_cases t (2 ^ 64)).
      - rewrite (Z.mod_small t) by lia. destruct (Z.eqb_spec t a); [lia|]. destruct (Z.ltb_spec t a); lia.
      - replace (t mod 2 ^ 64) with (t - 2 ^ 64).
        2:{ rewrite <- (Z.mod_small (t - 2 ^ 64) (2 ^ 64)) by lia. replace (t - 2 ^ 64) with (t + (-1) * 2 ^ 64) by lia. rewrite Z.mod_add by lia. reflexivity. }
        destruct (Z.eqb_spec (t - 2 ^ 64) a); [unfold t in *; lia|]. destruct (Z.ltb_spec (t - 2 ^ 64) a); unfold t in *; lia. }
    destruct E as (E1 & E2 & E3).
    specialize (IH r c1 Wl' Wr' HL E2). destruct (add_loop c1 l r) as [s c']. destruct IH as (I1 & I2 & I3 & I4).
    cbn [length val]. rewrite baseS. split; [constructor; assumption|]. split; [lia|]. split; [lia|]. nia.
Qed.
Lemma sub_loop_ok : forall l r c, words l -> words r -> length l = length r -> 0 <= c <= 1 ->
  let (s, c') := sub_loop c l r in
  words s /\ length s = length l /\ 0 <= c' <= 1 /\ val s - base (length l) * c' = val l - val r - c.
Proof.
  induction l as [|a l IH]; intros [|b r] c Wl Wr HL Hc; try discriminate HL; cbn [sub_loop].
  - cbn [length val]. rewrite base0. split; [constructor|]. lia.
  - inversion Wl as [|? ? Ha Wl']; inversion Wr as [|? ? Hb Wr']; subst. injection HL as HL.
    unfold word in Ha, Hb.
    set (sum := u64 (u64 (a - b) - c)). set (c1 := if sum =? a then c else bit (a <? sum)).
    assert (E : 0 <= sum < 2 ^ 64 /\ 0 <= c1 <= 1 /\ sum - 2 ^ 64 * c1 = a - b - c).
    { clear - Ha Hb Hc. unfold c1, sum, u64, bit. rewrite Zminus_mod_idemp_l.
      set (t := a - b - c). assert (Ht : - 2 ^ 64 <= t < 2 ^ 64) by (unfold t; lia).
      destruct (Z.lt_ge_cases t 0).
      - replace (t mod 2 ^ 64) with (t + 2 ^ 64).
        2:{ rewrite <- (Z.mod_small (t + 2 ^ 64) (2 ^ 64)) by lia. replace (t + 2 ^ 64) with (t + 1 * 2 ^ 64) by lia. rewrite Z.mod_add by lia. reflexivity. }
        destruct (Z.eqb_spec (t + 2 ^ 64) a); [unfold t in *; lia|]. destruct (Z.ltb_spec a (t + 2 ^ 64)); unfold t in *; lia.
      - rewrite (Z.mod_small t) by lia. destruct (Z.eqb_spec t a); [unfold t in *; lia|]. destruct (Z.ltb_spec a t); unfold t in *; lia. }
    destruct E as (E1 & E2 & E3).
    specialize (IH r c1 Wl' Wr' HL E2). destruct (sub_loop c1 l r) as [s c']. destruct IH as (I1 & I2 & I3 & I4).
    cbn [length val]. rewrite baseS. split; [constructor; assumption|]. split; [lia|]. split; [lia|]. nia.
Qed.

(** Numbers of four digits *)
Definition B4 : Z := 2 ^ 256.
Lemma base4 : base 4 = B4. Proof. reflexivity. Qed.
Definition vli (l : list Z) : Prop := words l /\ length l = 4%nat.
Lemma vli_range l : vli l -> 0 <= val l < B4.
Proof. intros [W L]. apply val_range in W. rewrite L in W. exact W. Qed.
Definition of (v : Z) : list Z := digits 4 v.
Lemma vli_of v : vli (of v).
Proof. split; [apply words_digits|apply length_digits]. Qed.
Lemma val_of v : 0 <= v < B4 -> val (of v) = v.
Proof. intros. unfold of. rewrite val_digits. apply Z.mod_small. exact H. Qed.
Lemma val_of_mod v : val (of v) = v mod B4.
Proof. unfold of. apply val_digits. Qed.
Lemma of_val l : vli l -> of (val l) = l.
Proof. intros [W L]. unfold of. rewrite <- L. apply digits_val. exact W. Qed.
Lemma vli_eq l v : vli l -> val l = v -> l = of v.
Proof. intros V E. subst. symmetry. apply of_val. exact V. Qed.

Lemma vli_add_ok l r : vli l -> vli r ->
  vli_add l r = (of (val l + val r), (val l + val r) / B4).
Proof.
  intros [Wl Ll] [Wr Lr]. unfold vli_add. pose proof (add_loop_ok l r 0 Wl Wr ltac:(congruence) ltac:(lia)) as H.
  destruct (add_loop 0 l r) as [s c]. destruct H as (H1 & H2 & H3 & H4). rewrite Ll, base4 in *.
  assert (V : vli s) by (split; [assumption|congruence]). pose proof (vli_range s V).
  assert (E : (val l + val r) / B4 = c).
  { symmetry. apply (Z.div_unique_pos _ _ _ (val s)); lia. }
  rewrite E. f_equal. rewrite <- (of_val s V). unfold of. rewrite <- (digits_mod 4 (val l + val r)). f_equal.
  change (base 4) with B4. apply (Z.mod_unique_pos _ _ c); lia.
Qed.
Lemma vli_sub_ok l r : vli l -> vli r ->
  vli_sub l r = (of (val l - val r), bit (val l <? val r)).
Proof.
  intros [Wl Ll] [Wr Lr]. unfold vli_sub. pose proof (sub_loop_ok l r 0 Wl Wr ltac:(congruence) ltac:(lia)) as H.
  destruct (sub_loop 0 l r) as [s c]. destruct H as (H1 & H2 & H3 & H4). rewrite Ll, base4 in *.
  assert (V : vli s) by (split; [assumption|congruence]). pose proof (vli_range s V).
  f_equal.
  - rewrite <- (of_val s V). unfold of. rewrite <- (digits_mod 4 (val l - val r)). f_equal.
    change (base 4) with B4. apply (Z.mod_unique_pos _ _ (- c)); lia.
  - unfold bit. assert (0 < B4) by reflexivity. destruct (Z.ltb_spec (val l) (val r)); nia.
Qed.

(** Comparison *)
Lemma cmp_ok : forall n l r, words l -> words r -> length l = n -> length r = n ->
  cmp_loop n l r = if val r <? val l then 1 else if val l <? val r then -1 else 0.
Proof.
  induction n as [|n IH]; intros l r Wl Wr Ll Lr.
  - destruct l; [|discriminate]. destruct r; [|discriminate]. reflexivity.
  - destruct (@exists_last _ l) as (l' & a & ->); [destruct l; discriminate|].
    destruct (@exists_last _ r) as (r' & b & ->); [destruct r; discriminate|].
    rewrite app_length in Ll, Lr. cbn [length] in Ll, Lr.
    apply words_app in Wl. apply words_app in Wr. destruct Wl as [Wl Ha], Wr as [Wr Hb].
    assert (L1 : length l' = n) by lia. assert (L2 : length r' = n) by lia.
    cbn [cmp_loop].
    replace (nth n (l' ++ [a]) 0) with a by (rewrite app_nth2 by lia; rewrite L1, Nat.sub_diag; reflexivity).
    replace (nth n (r' ++ [b]) 0) with b by (rewrite app_nth2 by lia; rewrite L2, Nat.sub_diag; reflexivity).
    assert (N : forall m x y z, (m <= length x)%nat -> (m <= length y)%nat -> cmp_loop m (x ++ [a]) (y ++ [z]) = cmp_loop m x y).
    { induction m; intros; [reflexivity|]. cbn [cmp_loop]. rewrite !app_nth1 by lia. rewrite IHm by lia. reflexivity. }
    rewrite N by lia. rewrite IH by assumption.
    rewrite !val_app, L1, L2. cbn [val]. rewrite !Z.mul_0_r, !Z.add_0_r.
    pose proof (val_range l' Wl). pose proof (val_range r' Wr). rewrite L1, L2 in *. pose proof (base_pos n).
    inversion Ha; inversion Hb; subst. unfold word in *. set (bn := base (length l')) in *. replace (base (length r')) with bn in * by (unfold bn; congruence).
    destruct (Z.ltb_spec b a).
    + destruct (Z.ltb_spec (val r' + bn * b) (val l' + bn * a)); [reflexivity|nia].
    + destruct (Z.ltb_spec a b).
      * destruct (Z.ltb_spec (val r' + bn * b) (val l' + bn * a)); [nia|].
        destruct (Z.ltb_spec (val l' + bn * a) (val r' + bn * b)); [reflexivity|nia].
      * assert (a = b) by lia. subst b.
        destruct (Z.ltb_spec (val r') (val l')), (Z.ltb_spec (val r' + bn * a) (val l' + bn * a)); try lia.
        destruct (Z.ltb_spec (val l') (val r')), (Z.ltb_spec (val l' + bn * a) (val r' + bn * a)); lia.
Qed.
Lemma vli_cmp_ok l r : vli l -> vli r ->
  vli_cmp l r = if val r <? val l then 1 else if val l <? val r then -1 else 0.
Proof. intros [] []. apply cmp_ok; assumption. Qed.
Lemma is_zero_ok l : words l -> vli_is_zero l = (val l =? 0).
Proof.
  induction 1 as [|d l Hd W IH]; [reflexivity|]. cbn [vli_is_zero forallb val].
  change (forallb (fun d => d =? 0) l) with (vli_is_zero l). rewrite IH.
  pose proof (val_range l W). unfold word in Hd.
  destruct (Z.eqb_spec d 0), (Z.eqb_spec (val l) 0), (Z.eqb_spec (d + 2 ^ 64 * val l) 0); cbn; lia.
Qed.

(** Shifts *)
Lemma land_high a b n : 0 <= n -> 0 <= a < 2 ^ n -> Z.land (b * 2 ^ n) a = 0.
Proof.
  intros Hn Ha. apply Z.bits_inj'. intros i Hi. rewrite Z.land_spec, Z.bits_0. rewrite <- Z.shiftl_mul_pow2 by exact Hn. rewrite Z.shiftl_spec by exact Hi.
  destruct (Z.lt_ge_cases i n) as [L|L]; [rewrite (Z.testbit_neg_r b) by lia; reflexivity|].
  rewrite <- (Z.mod_small a (2 ^ n) Ha). rewrite Z.mod_pow2_bits_high by lia. apply andb_false_r.
Qed.
Lemma lor_high a b n : 0 <= n -> 0 <= a < 2 ^ n -> Z.lor (b * 2 ^ n) a = b * 2 ^ n + a.
Proof. intros Hn Ha. pose proof (land_high a b n Hn Ha) as E. rewrite <- Z.lxor_lor by exact E. symmetry. apply Z.add_nocarry_lxor. exact E. Qed.
Lemma shr_div x n : 0 <= n -> shr x n = x / 2 ^ n.
Proof. intros. apply Z.shiftr_div_pow2. exact H. Qed.
(** A shift to the left keeps the low bits *)
Lemma shl_mul x n : 0 <= n <= 64 -> shl x n = (x mod 2 ^ (64 - n)) * 2 ^ n.
Proof.
  intros. unfold shl, u64. rewrite Z.shiftl_mul_pow2 by lia.
  replace (2 ^ 64) with (2 ^ (64 - n) * 2 ^ n) by (rewrite <- Z.pow_add_r by lia; f_equal; lia).
  rewrite Zmult_mod_distr_r. reflexivity.
Qed.
Lemma lshift_loop_ok : forall l c s, 0 < s < 64 -> words l -> 0 <= c < 2 ^ s ->
  let (r, c') := lshift_loop c l s in
  words r /\ length r = length l /\ 0 <= c' < 2 ^ s /\ val r + base (length l) * c' = val l * 2 ^ s + c.
Proof.
  induction l as [|t l IH]; intros c s Hs W Hc; cbn [lshift_loop].
  - cbn [length val]. rewrite base0. split; [constructor|]. lia.
  - inversion W as [|? ? Ht W']; subst. unfold word in Ht.
    assert (P : 2 ^ 64 = 2 ^ (64 - s) * 2 ^ s) by (rewrite <- Z.pow_add_r by lia; f_equal; lia).
    assert (0 < 2 ^ s) by (apply Z.pow_pos_nonneg; lia). assert (0 < 2 ^ (64 - s)) by (apply Z.pow_pos_nonneg; lia).
    rewrite shr_div by lia. rewrite shl_mul by lia. rewrite lor_high by lia.
    set (h := t / 2 ^ (64 - s)). set (lo := t mod 2 ^ (64 - s)).
    assert (E : t = 2 ^ (64 - s) * h + lo) by (apply Z.div_mod; lia).
    assert (Hlo : 0 <= lo < 2 ^ (64 - s)) by (apply Z.mod_pos_bound; lia).
    assert (Hh : 0 <= h < 2 ^ s) by (clearbody h lo; nia).
    specialize (IH h s Hs W' Hh). destruct (lshift_loop h l s) as [r c']. destruct IH as (I1 & I2 & I3 & I4).
    clearbody h lo. cbn [length val]. rewrite baseS. split; [constructor; [unfold word; nia|assumption]|].
    split; [lia|]. split; [lia|]. rewrite E. rewrite <- Z.mul_assoc, (Z.add_comm (lo * 2 ^ s + c)), <- Z.add_assoc.
    rewrite P at 1 2. rewrite P at 1. nia.
Qed.
Lemma vli_lshift_ok l s : 0 < s < 64 -> vli l ->
  vli_lshift l s = (of (val l * 2 ^ s), val l * 2 ^ s / B4).
Proof.
  intros Hs [W L]. unfold vli_lshift. assert (0 < 2 ^ s) by (apply Z.pow_pos_nonneg; lia).
  pose proof (lshift_loop_ok l 0 s Hs W ltac:(lia)) as H1.
  destruct (lshift_loop 0 l s) as [r c]. destruct H1 as (H1 & H2 & H3 & H4). rewrite L, base4 in *.
  assert (V : vli r) by (split; [assumption|congruence]). pose proof (vli_range r V).
  assert (E : val l * 2 ^ s / B4 = c) by (symmetry; apply (Z.div_unique_pos _ _ _ (val r)); lia).
  rewrite E. f_equal. rewrite <- (of_val r V). unfold of. rewrite <- (digits_mod 4 (val l * 2 ^ s)). f_equal.
  change (base 4) with B4. apply (Z.mod_unique_pos _ _ c); lia.
Qed.
Lemma rshift_loop_ok : forall l c, words l -> c = 0 \/ c = 2 ^ 63 ->
  words (rshift_loop c l) /\ length (rshift_loop c l) = length l /\
  val (rev (rshift_loop c l)) = (val (rev l) + base (length l) * (c / 2 ^ 63)) / 2.
Proof.
  induction l as [|t l IH]; intros c W Hc; cbn [rshift_loop].
  - cbn [rev length val]. rewrite base0. split; [constructor|]. split; [reflexivity|]. destruct Hc; subst; reflexivity.
  - inversion W as [|? ? Ht W']; subst. unfold word in Ht.
    rewrite shr_div by lia. rewrite shl_mul by lia. change (2 ^ (64 - 63)) with 2. change (2 ^ 1) with 2.
    assert (D : t = 2 * (t / 2) + t mod 2) by (apply Z.div_mod; lia). pose proof (Z.mod_pos_bound t 2 ltac:(lia)) as M.
    destruct (IH (t mod 2 * 2 ^ 63) W') as (I1 & I2 & I3).
    { destruct (Z.eq_dec (t mod 2) 0) as [->|]; [left; reflexivity|right; replace (t mod 2) with 1 by lia; lia]. }
    rewrite Z.div_mul in I3 by lia.
    assert (HT : Z.lor (t / 2) c = t / 2 + c).
    { rewrite Z.lor_comm, Z.add_comm. replace c with ((c / 2 ^ 63) * 2 ^ 63) by (destruct Hc; subst; reflexivity). apply lor_high; [lia|]. lia. }
    rewrite HT. split; [constructor; [unfold word; destruct Hc; subst; lia|assumption]|].
    split; [cbn [length]; lia|]. cbn [rev length]. rewrite !val_app, !rev_length, I2, I3. cbn [val]. rewrite baseS.
    set (bn := base (length l)) in *. set (x := val (rev l)) in *.
    rewrite !Z.mul_0_r, !Z.add_0_r.
    assert (C : c = 2 ^ 63 * (c / 2 ^ 63)) by (destruct Hc; subst; reflexivity). rewrite C at 1.
    set (k := c / 2 ^ 63) in *. clearbody k bn x.
    replace (x + bn * t + 2 ^ 64 * bn * k) with (x + bn * (t mod 2) + (bn * (t / 2 + 2 ^ 63 * k)) * 2).
    2:{ rewrite D at 3. change (2 ^ 64) with (2 * 2 ^ 63). ring. }
    rewrite Z.div_add by lia. reflexivity.
Qed.
Lemma words_rev l : words l -> words (rev l).
Proof. apply Forall_rev. Qed.
Lemma vli_rshift1_ok l : vli l -> vli_rshift1 l = of (val l / 2).
Proof.
  intros [W L]. unfold vli_rshift1. destruct (rshift_loop_ok (rev l) 0 (words_rev l W) (or_introl eq_refl)) as (H1 & H2 & H3).
  rewrite rev_involutive in H3. rewrite rev_length in H2. rewrite Z.mul_0_r, Z.add_0_r in H3.
  apply vli_eq; [|exact H3]. split; [apply words_rev; assumption|]. rewrite rev_length. congruence.
Qed.
Lemma even_ok l : vli l -> even l = (val l mod 2 =? 0).
Proof.
  intros [W L]. destruct l as [|d l]; [discriminate|]. unfold even. cbn [nth val].
  change 1 with (Z.ones 1) at 1. rewrite Z.land_ones by lia. change (2 ^ 1) with 2.
  replace (d + 2 ^ 64 * val l) with (d + (2 ^ 63 * val l) * 2) by (change (2 ^ 64) with (2 ^ 63 * 2); ring).
  rewrite Z.mod_add by lia. reflexivity.
Qed.
(** Bits *)
Lemma nth_val : forall i l, words l -> nth i l 0 = (val l / base i) mod 2 ^ 64.
Proof.
  induction i; intros l W; destruct l as [|d l]; cbn [nth val]; try (rewrite Zdiv_0_l; reflexivity);
    inversion W as [|? ? Hd W']; subst; unfold word in Hd.
  - rewrite base0, Z.div_1_r. rewrite Z.mul_comm, Z.mod_add by lia. symmetry. apply Z.mod_small. lia.
  - rewrite (IHi l W'), baseS, <- Z.div_div by (pose proof (base_pos i); lia).
    f_equal. f_equal. rewrite Z.mul_comm, Z.div_add by lia. rewrite (Z.div_small d) by lia. lia.
Qed.
Lemma test_bit_ok l b : words l -> 0 <= b -> (vli_test_bit l b =? 0) = negb (Z.testbit (val l) b).
Proof.
  intros W Hb. unfold vli_test_bit. rewrite nth_val by assumption.
  unfold shl, u64. pose proof (Z.mod_pos_bound b 64 ltac:(lia)) as M.
  rewrite Z.shiftl_mul_pow2 by lia. rewrite Z.mul_1_l. rewrite (Z.mod_small (2 ^ (b mod 64))).
  2:{ split; [lia|apply Z.pow_lt_mono_r; lia]. }
  unfold base. rewrite Z2Nat.id by (apply Z.div_pos; lia).
  set (x := val l / 2 ^ (64 * (b / 64))). 
  assert (E : Z.testbit (val l) b = Z.testbit (x mod 2 ^ 64) (b mod 64)).
  { rewrite Z.mod_pow2_bits_low by lia. unfold x. rewrite <- Z.shiftr_div_pow2 by lia. rewrite Z.shiftr_spec by lia.
    f_equal. pose proof (Z.div_mod b 64). lia. }
  rewrite E. set (y := x mod 2 ^ 64). clearbody y. set (k := b mod 64) in *. clearbody k.
  destruct (Z.testbit y k) eqn:T; cbn [negb].
  - apply Z.eqb_neq. intro Z0. assert (Z.testbit (Z.land y (2 ^ k)) k = false) by (rewrite Z0; apply Z.bits_0).
    rewrite Z.land_spec, T, Z.pow2_bits_true in H by lia. discriminate.
  - apply Z.eqb_eq. apply Z.bits_inj'. intros i Hi. rewrite Z.land_spec, Z.bits_0.
    destruct (Z.eq_dec i k) as [->|N]; [rewrite T; reflexivity|]. rewrite Z.pow2_bits_false by lia. apply andb_false_r.
Qed.
(** The number of bits *)
Definition size (v : Z) : Z := if v =? 0 then 0 else Z.log2 v + 1.
Lemma count_loop_ok : forall n d, 0 <= d < 2 ^ Z.of_nat n -> count_loop n d = size d.
Proof.
  induction n; intros d Hd.
  - change (2 ^ Z.of_nat 0) with 1 in Hd. replace d with 0 by lia. reflexivity.
  - cbn [count_loop]. unfold size. destruct (Z.eqb_spec d 0); [reflexivity|]. rewrite shr_div by lia. change (2 ^ 1) with 2.
    rewrite Nat2Z.inj_succ, Z.pow_succ_r in Hd by lia. rewrite IHn by lia. unfold size.
    destruct (Z.eqb_spec (d / 2) 0).
    + assert (d = 1) by lia. subst. reflexivity.
    + rewrite <- Z.div2_div. rewrite (Z.div2_div). change 2 with (2 ^ 1) at 1. rewrite <- Z.shiftr_div_pow2 by lia. rewrite Z.log2_shiftr by lia.
      assert (1 <= Z.log2 d). { change 1 with (Z.log2 2). apply Z.log2_le_mono. lia. } lia.
Qed.
Lemma num_digits_ok : forall n l, words l -> length l = n ->
  let k := num_digits_loop n l in
  (k = 0%nat /\ val l = 0) \/ (exists i, k = S i /\ nth i l 0 <> 0 /\ base i * nth i l 0 <= val l < base i * (nth i l 0 + 1)).
Proof.
  induction n; intros l W L.
  - destruct l; [|discriminate]. left. split; reflexivity.
  - destruct (@exists_last _ l) as (l' & a & ->); [destruct l; discriminate|].
    rewrite app_length in L. cbn [length] in L. assert (L1 : length l' = n) by lia.
    apply words_app in W. destruct W as [W Ha]. inversion Ha; subst. unfold word in *.
    cbn [num_digits_loop]. 
    assert (N : nth (length l') (l' ++ [a]) 0 = a) by (rewrite app_nth2 by lia; rewrite Nat.sub_diag; reflexivity).
    rewrite N. rewrite val_app. cbn [val]. rewrite Z.mul_0_r, Z.add_0_r. pose proof (val_range l' W).
    destruct (Z.eqb_spec a 0) as [->|Na].
    + assert (Q : forall m, (m <= length l')%nat -> num_digits_loop m (l' ++ [0]) = num_digits_loop m l').
      { induction m; intros; [reflexivity|]. cbn [num_digits_loop]. rewrite app_nth1 by lia. rewrite IHm by lia. reflexivity. }
      rewrite Q by lia. rewrite Z.mul_0_r, Z.add_0_r. destruct (IHn l' W eq_refl) as [J1|(i & J1 & J2 & J3)]; [left; exact J1|right].
      exists i. assert (i < length l')%nat. { destruct (Nat.lt_ge_cases i (length l')); [assumption|]. rewrite nth_overflow in J2 by lia. congruence. }
      rewrite app_nth1 by lia. split; [exact J1|]. split; assumption.
    + right. exists (length l'). rewrite N. split; [reflexivity|]. split; [assumption|]. nia.
Qed.
Lemma num_bits_ok l : vli l -> vli_num_bits l = size (val l).
Proof.
  intros [W L]. unfold vli_num_bits, vli_num_digits. destruct (num_digits_ok 4 l W L) as [(-> & ->)|(i & -> & H2 & H3)]; [reflexivity|].
  assert (Hd : 0 <= nth i l 0 < 2 ^ 64). { rewrite nth_val by assumption. apply Z.mod_pos_bound. lia. }
  rewrite count_loop_ok by exact Hd. set (d := nth i l 0) in *. unfold base in H3. set (e := 64 * Z.of_nat i) in *.
  assert (0 < 2 ^ e) by (apply Z.pow_pos_nonneg; lia).
  unfold size. destruct (Z.eqb_spec d 0); [contradiction|]. destruct (Z.eqb_spec (val l) 0); [nia|].
  pose proof (Z.log2_spec d ltac:(lia)) as [S1 S2].
  rewrite (Z.log2_unique (val l) (e + Z.log2 d)); [lia|pose proof (Z.log2_nonneg d); lia|].
  pose proof (Z.log2_nonneg d). rewrite <- Z.add_succ_r, !Z.pow_add_r by lia. nia.
Qed.
Lemma size_bound v n : 0 <= n -> 0 <= v < 2 ^ n -> size v <= n.
Proof.
  intros. unfold size. destruct (Z.eqb_spec v 0); [lia|]. assert (Z.log2 v < n) by (apply Z.log2_lt_pow2; lia). lia.
Qed.
Lemma size_spec v : 0 <= v -> v < 2 ^ size v /\ (v <> 0 -> 2 ^ (size v - 1) <= v) /\ 0 <= size v.
Proof.
  intros. unfold size. destruct (Z.eqb_spec v 0); [subst; repeat split; try lia; try reflexivity|].
  pose proof (Z.log2_spec v ltac:(lia)). pose proof (Z.log2_nonneg v). rewrite Z.add_simpl_r. unfold Z.succ in *. repeat split; lia.
Qed.
