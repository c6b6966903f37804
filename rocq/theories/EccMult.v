(** Products of EccModel, and their reduction modulo p. *)
From Verif Require Import Common CommonFacts EccModel EccSpec EccLimb.

(** ** Columns *)
Definition col_sum (l r : list Z) (k : nat) (is : list nat) : Z :=
  fold_right (fun i s => nth i l 0 * nth (k - i) r 0 + s) 0 is.
Lemma nth_word l i : words l -> 0 <= nth i l 0 < 2 ^ 64.
Proof. intros W. rewrite nth_val by assumption. apply Z.mod_pos_bound. lia. Qed.
Lemma word_mul a b : 0 <= a < 2 ^ 64 -> 0 <= b < 2 ^ 64 -> 0 <= a * b <= (2 ^ 64 - 1) * (2 ^ 64 - 1).
Proof. intros. split; [nia|]. apply Z.mul_le_mono_nonneg; lia. Qed.
Lemma carry_ok r01 r2 x : 0 <= r01 < 2 ^ 128 -> 0 <= x < 2 ^ 128 -> 0 <= r2 < 2 ^ 64 - 1 ->
  0 <= u128 (r01 + x) < 2 ^ 128 /\ r2 <= u64 (r2 + bit (u128 (r01 + x) <? x)) <= r2 + 1 /\
  u128 (r01 + x) + 2 ^ 128 * u64 (r2 + bit (u128 (r01 + x) <? x)) = r01 + 2 ^ 128 * r2 + x.
Proof.
  intros H1 H2 H3. unfold u128.
  destruct (Z.lt_ge_cases (r01 + x) (2 ^ 128)).
  - rewrite (Z.mod_small (r01 + x)) by lia. destruct (Z.ltb_spec (r01 + x) x); [lia|]. cbn [bit]. unfold u64. rewrite Z.mod_small by lia. lia.
  - replace ((r01 + x) mod 2 ^ 128) with (r01 + x - 2 ^ 128).
    2:{ apply (Z.mod_unique_pos _ _ 1); lia. }
    destruct (Z.ltb_spec (r01 + x - 2 ^ 128) x); [|lia]. cbn [bit]. unfold u64. rewrite Z.mod_small by lia. lia.
Qed.
Lemma mult_cells l r k : words l -> words r -> forall is r01 r2,
  0 <= r01 < 2 ^ 128 -> 0 <= r2 -> r2 + Z.of_nat (length is) < 2 ^ 64 ->
  let (a, c) := fold_left (mult_cell l r k) is (r01, r2) in
  0 <= a < 2 ^ 128 /\ 0 <= c <= r2 + Z.of_nat (length is) /\ a + 2 ^ 128 * c = r01 + 2 ^ 128 * r2 + col_sum l r k is.
Proof.
  intros Wl Wr. induction is as [|i is IH]; intros r01 r2 H1 H2 H3.
  - cbn [fold_left col_sum fold_right length]. lia.
  - cbn [fold_left]. unfold mult_cell at 2.
    pose proof (word_mul _ _ (nth_word l i Wl) (nth_word r (k - i) Wr)) as P.
    cbn [col_sum fold_right]. set (x := nth i l 0 * nth (k - i) r 0) in *. cbn [length] in *.
    assert (X : u128 x = x) by (unfold u128; apply Z.mod_small; lia). rewrite X.
    destruct (carry_ok r01 r2 x H1 ltac:(lia) ltac:(lia)) as (C1 & C2 & C3).
    set (a1 := u128 (r01 + x)) in *. set (c1 := u64 (r2 + bit (a1 <? x))) in *. clearbody a1 c1.
    specialize (IH a1 c1 C1 ltac:(lia) ltac:(lia)). fold (col_sum l r k is).
    destruct (fold_left (mult_cell l r k) is (a1, c1)) as [a c]. lia.
Qed.
(** The square: a product of different digits counts twice *)
Definition sqr_sum (l : list Z) (k : nat) (is : list nat) : Z :=
  fold_right (fun i s => (if (i <? k - i)%nat then 2 else 1) * (nth i l 0 * nth (k - i) l 0) + s) 0 is.
Lemma sqr_cells l k : words l -> forall is r01 r2,
  0 <= r01 < 2 ^ 128 -> 0 <= r2 -> r2 + 2 * Z.of_nat (length is) < 2 ^ 64 ->
  let (a, c) := fold_left (sqr_cell l k) is (r01, r2) in
  0 <= a < 2 ^ 128 /\ 0 <= c <= r2 + 2 * Z.of_nat (length is) /\ a + 2 ^ 128 * c = r01 + 2 ^ 128 * r2 + sqr_sum l k is.
Proof.
  intros Wl. induction is as [|i is IH]; intros r01 r2 H1 H2 H3.
  - cbn [fold_left sqr_sum fold_right length]. lia.
  - cbn [fold_left]. unfold sqr_cell at 2.
    pose proof (word_mul _ _ (nth_word l i Wl) (nth_word l (k - i) Wl)) as P.
    cbn [sqr_sum fold_right]. set (x := nth i l 0 * nth (k - i) l 0) in *. cbn [length] in *.
    assert (X : u128 x = x) by (unfold u128; apply Z.mod_small; lia). rewrite X. fold (sqr_sum l k is).
    destruct (i <? k - i)%nat.
    + rewrite Z.shiftr_div_pow2 by lia.
      assert (D : x = 2 ^ 127 * (x / 2 ^ 127) + x mod 2 ^ 127) by (apply Z.div_mod; lia).
      pose proof (Z.mod_pos_bound x (2 ^ 127) ltac:(lia)) as M. set (q := x / 2 ^ 127) in *. set (m := x mod 2 ^ 127) in *. clearbody q m.
      assert (Q : 0 <= q <= 1) by lia.
      assert (U : u128 (x * 2) = 2 * m). { unfold u128. rewrite D. symmetry. apply (Z.mod_unique_pos _ _ q); lia. }
      assert (U2 : u64 (r2 + q) = r2 + q) by (unfold u64; apply Z.mod_small; lia). rewrite U, U2.
      destruct (carry_ok r01 (r2 + q) (2 * m) H1 ltac:(lia) ltac:(lia)) as (C1 & C2 & C3).
      set (a1 := u128 (r01 + 2 * m)) in *. set (c1 := u64 (r2 + q + bit (a1 <? 2 * m))) in *. clearbody a1 c1.
      specialize (IH a1 c1 C1 ltac:(lia) ltac:(lia)).
      destruct (fold_left (sqr_cell l k) is (a1, c1)) as [a c]. lia.
    + destruct (carry_ok r01 r2 x H1 ltac:(lia) ltac:(lia)) as (C1 & C2 & C3).
      set (a1 := u128 (r01 + x)) in *. set (c1 := u64 (r2 + bit (a1 <? x))) in *. clearbody a1 c1.
      specialize (IH a1 c1 C1 ltac:(lia) ltac:(lia)).
      destruct (fold_left (sqr_cell l k) is (a1, c1)) as [a c]. lia.
Qed.
Lemma column_end_ok a c : 0 <= a < 2 ^ 128 -> 0 <= c < 2 ^ 64 ->
  column_end (a, c) = ((a + 2 ^ 128 * c) mod 2 ^ 64, ((a + 2 ^ 128 * c) / 2 ^ 64, 0)) /\ 0 <= (a + 2 ^ 128 * c) / 2 ^ 64 < 2 ^ 128.
Proof.
  intros Ha Hc. unfold column_end. rewrite Z.shiftr_div_pow2 by lia. unfold u128. rewrite Z.shiftl_mul_pow2 by lia.
  rewrite (Z.mod_small (c * 2 ^ 64)) by lia. rewrite Z.lor_comm, lor_high by lia.
  change (2 ^ 128) with (2 ^ 64 * 2 ^ 64). split.
  - unfold u64. f_equal; [|f_equal].
    + replace (a + 2 ^ 64 * 2 ^ 64 * c) with (a + (2 ^ 64 * c) * 2 ^ 64) by ring. rewrite Z.mod_add by lia. reflexivity.
    + replace (a + 2 ^ 64 * 2 ^ 64 * c) with (a + (2 ^ 64 * c) * 2 ^ 64) by ring. rewrite Z.div_add by lia. lia.
  - replace (a + 2 ^ 64 * 2 ^ 64 * c) with (a + (2 ^ 64 * c) * 2 ^ 64) by ring. rewrite Z.div_add by lia. lia.
Qed.
Fixpoint columns (f : nat -> Z) (ks : list nat) : Z :=
  match ks with [] => 0 | k :: ks => f k + 2 ^ 64 * columns f ks end.
Lemma loop_step A n d c s : d = A mod 2 ^ 64 -> c = A / 2 ^ 64 -> d + 2 ^ 64 * ((c + s) mod base n) = (A + 2 ^ 64 * s) mod base (S n).
Proof.
  intros -> ->. rewrite baseS. pose proof (base_pos n).
  rewrite Z.rem_mul_r by lia. f_equal.
  - rewrite Z.mul_comm, Z.mod_add by lia. reflexivity.
  - f_equal. f_equal. rewrite Z.mul_comm, Z.div_add by lia. reflexivity.
Qed.
Lemma mult_loop_ok l r : words l -> words r -> forall ks c, 0 <= c < 2 ^ 128 ->
  words (mult_loop l r ks (c, 0)) /\ length (mult_loop l r ks (c, 0)) = S (length ks) /\
  val (mult_loop l r ks (c, 0)) = (c + columns (fun k => col_sum l r k (mult_indices k)) ks) mod base (S (length ks)).
Proof.
  intros Wl Wr. induction ks as [|k ks IH]; intros c Hc; cbn [mult_loop columns length].
  - cbn [fst val length]. rewrite baseS, base0, Z.mul_1_r, Z.mul_0_r, !Z.add_0_r. split; [|split; reflexivity].
    constructor; [apply Z.mod_pos_bound; lia|constructor].
  - assert (L : Z.of_nat (length (mult_indices k)) <= 4).
    { unfold mult_indices. rewrite seq_length. pose proof (Nat.le_min_r k 3). lia. }
    pose proof (mult_cells l r k Wl Wr (mult_indices k) c 0 Hc ltac:(lia) ltac:(lia)) as M.
    destruct (fold_left (mult_cell l r k) (mult_indices k) (c, 0)) as [a q]. destruct M as (M1 & M2 & M3).
    destruct (column_end_ok a q M1 ltac:(lia)) as [-> CE]. rewrite M3, Z.mul_0_r, Z.add_0_r in *.
    destruct (IH _ CE) as (I1 & I2 & I3). split; [constructor; [apply Z.mod_pos_bound; lia|exact I1]|].
    split; [cbn [length]; congruence|]. cbn [val]. rewrite I3. rewrite Z.add_assoc. apply loop_step; reflexivity.
Qed.
Lemma sqr_loop_ok l : words l -> forall ks c, (forall k, In k ks -> (k <= 6)%nat) -> 0 <= c < 2 ^ 128 ->
  words (sqr_loop l ks (c, 0)) /\ length (sqr_loop l ks (c, 0)) = S (length ks) /\
  val (sqr_loop l ks (c, 0)) = (c + columns (fun k => sqr_sum l k (sqr_indices k)) ks) mod base (S (length ks)).
Proof.
  intros Wl. induction ks as [|k ks IH]; intros c HK Hc; cbn [sqr_loop columns length].
  - cbn [fst val length]. rewrite baseS, base0, Z.mul_1_r, Z.mul_0_r, !Z.add_0_r. split; [|split; reflexivity].
    constructor; [apply Z.mod_pos_bound; lia|constructor].
  - assert (L : Z.of_nat (length (sqr_indices k)) <= 7).
    { unfold sqr_indices. rewrite seq_length. assert (k <= 6)%nat by (apply HK; left; reflexivity). pose proof (Nat.div_le_upper_bound k 2 6). lia. }
    pose proof (sqr_cells l k Wl (sqr_indices k) c 0 Hc ltac:(lia) ltac:(lia)) as M.
    destruct (fold_left (sqr_cell l k) (sqr_indices k) (c, 0)) as [a q]. destruct M as (M1 & M2 & M3).
    destruct (column_end_ok a q M1 ltac:(lia)) as [-> CE]. rewrite M3, Z.mul_0_r, Z.add_0_r in *.
    destruct (IH _ (fun k I => HK k (or_intror I)) CE) as (I1 & I2 & I3). split; [constructor; [apply Z.mod_pos_bound; lia|exact I1]|].
    split; [cbn [length]; congruence|]. cbn [val]. rewrite I3. rewrite Z.add_assoc. apply loop_step; reflexivity.
Qed.
(** A product of eight digits *)
Lemma four (l : list Z) : length l = 4%nat -> exists a b c d, l = [a; b; c; d].
Proof. intros L. destruct l as [|a [|b [|c [|d [|]]]]]; try discriminate. exists a, b, c, d. reflexivity. Qed.
Definition wide (l : list Z) : Prop := words l /\ length l = 8%nat.
Lemma B4_mul a b : 0 <= a < B4 -> 0 <= b < B4 -> 0 <= a * b < base 8.
Proof. intros. change (base 8) with (B4 * B4). nia. Qed.
Lemma vli_mult_ok l r : vli l -> vli r -> wide (vli_mult l r) /\ val (vli_mult l r) = val l * val r.
Proof.
  intros Vl Vr. pose proof (vli_range l Vl) as Rl. pose proof (vli_range r Vr) as Rr. destruct Vl as [Wl Ll], Vr as [Wr Lr].
  destruct (mult_loop_ok l r Wl Wr (seq 0 7) 0 ltac:(lia)) as (H1 & H2 & H3). unfold vli_mult. split; [split; assumption|].
  rewrite H3. replace (0 + columns _ (seq 0 7)) with (val l * val r).
  - apply Z.mod_small. apply B4_mul; assumption.
  - destruct (four l Ll) as (a & b & c & d & ->). destruct (four r Lr) as (e & f & g & h & ->).
    cbn -[Z.pow Z.add Z.mul]. ring.
Qed.
Lemma vli_sqr_ok l : vli l -> wide (vli_sqr l) /\ val (vli_sqr l) = val l * val l.
Proof.
  intros Vl. pose proof (vli_range l Vl) as Rl. destruct Vl as [Wl Ll].
  destruct (sqr_loop_ok l Wl (seq 0 7) 0) as (H1 & H2 & H3); [intros k I; apply in_seq in I; lia|lia|]. unfold vli_sqr. split; [split; assumption|].
  rewrite H3. replace (0 + columns _ (seq 0 7)) with (val l * val l).
  - apply Z.mod_small. apply B4_mul; assumption.
  - destruct (four l Ll) as (a & b & c & d & ->).
    cbn -[Z.pow Z.add Z.mul]. ring.
Qed.

(** ** Reduction modulo p *)
Lemma vli_p : vli curve_p. Proof. split; [|reflexivity]. unfold curve_p, words, word. repeat (apply Forall_cons; [lia|]). constructor. Qed.
Lemma val_p : val curve_p = p256. Proof. reflexivity. Qed.
Lemma vli_n : vli curve_n. Proof. split; [|reflexivity]. unfold curve_n, words, word. repeat (apply Forall_cons; [lia|]). constructor. Qed.
Lemma val_n : val curve_n = n256. Proof. reflexivity. Qed.
Lemma p_range : 0 < p256 < B4. Proof. split; reflexivity. Qed.
Lemma n_range : 0 < n256 < B4. Proof. split; reflexivity. Qed.
Lemma mod_plus x m : 0 < m -> (x + m) mod m = x mod m.
Proof. intros. replace (x + m) with (x + 1 * m) by ring. apply Z.mod_add. lia. Qed.
Lemma mod_less x m : 0 < m -> (x - m) mod m = x mod m.
Proof. intros. replace (x - m) with (x + (-1) * m) by ring. apply Z.mod_add. lia. Qed.
Lemma add_eq l r : vli l -> vli r -> exists s c, vli_add l r = (s, c) /\ vli s /\ 0 <= c <= 1 /\ val s + B4 * c = val l + val r.
Proof.
  intros Vl Vr. rewrite vli_add_ok by assumption. eexists _, _. split; [reflexivity|]. split; [apply vli_of|].
  pose proof (vli_range l Vl). pose proof (vli_range r Vr). rewrite val_of_mod.
  pose proof (Z.div_mod (val l + val r) B4 ltac:(discriminate)). pose proof (Z.mod_pos_bound (val l + val r) B4 ltac:(reflexivity)).
  set (q := (val l + val r) / B4) in *. set (m := (val l + val r) mod B4) in *. clearbody q m. unfold B4 in *. lia.
Qed.
Lemma sub_eq l r : vli l -> vli r -> exists s c, vli_sub l r = (s, c) /\ vli s /\ 0 <= c <= 1 /\ val s - B4 * c = val l - val r.
Proof.
  intros Vl Vr. rewrite vli_sub_ok by assumption. eexists _, _. split; [reflexivity|]. split; [apply vli_of|].
  pose proof (vli_range l Vl). pose proof (vli_range r Vr). rewrite val_of_mod. unfold bit.
  destruct (Z.ltb_spec (val l) (val r)).
  - replace ((val l - val r) mod B4) with (val l - val r + B4); [lia|]. apply (Z.mod_unique_pos _ _ (-1)); lia.
  - rewrite Z.mod_small by lia. lia.
Qed.
Lemma lshift1_eq l : vli l -> exists s c, vli_lshift l 1 = (s, c) /\ vli s /\ 0 <= c <= 1 /\ val s + B4 * c = 2 * val l.
Proof.
  intros Vl. rewrite vli_lshift_ok by (assumption || lia). eexists _, _. split; [reflexivity|]. split; [apply vli_of|].
  pose proof (vli_range l Vl). rewrite val_of_mod. change (2 ^ 1) with 2.
  pose proof (Z.div_mod (val l * 2) B4 ltac:(discriminate)). pose proof (Z.mod_pos_bound (val l * 2) B4 ltac:(reflexivity)).
  set (q := (val l * 2) / B4) in *. set (m := (val l * 2) mod B4) in *. clearbody q m. unfold B4 in *. lia.
Qed.
Lemma mmod_up_ok : forall fuel c r, vli r -> c < 0 -> - (Z.of_nat fuel * p256) <= val r + B4 * c ->
  mmod_up fuel c r = Some (of ((val r + B4 * c) mod p256)).
Proof.
  pose proof p_range as P.
  induction fuel as [|fuel IH]; intros c r V Hc Hf; pose proof (vli_range r V) as R.
  - cbn [Z.of_nat] in Hf. change (Z.of_nat 0) with 0 in Hf. nia.
  - cbn [mmod_up]. destruct (add_eq r curve_p V vli_p) as (s & c1 & -> & Vs & C1 & E). rewrite val_p in E.
    pose proof (vli_range s Vs) as Rs. rewrite Nat2Z.inj_succ in Hf.
    assert (S : val s + B4 * (c + c1) = val r + B4 * c + p256) by lia.
    assert (M : (val s + B4 * (c + c1)) mod p256 = (val r + B4 * c) mod p256).
    { rewrite S. apply mod_plus. apply P. }
    destruct (Z.ltb_spec (c + c1) 0).
    + rewrite IH by (assumption || lia). rewrite M. reflexivity.
    + assert (c + c1 = 0) by lia. rewrite <- M. rewrite H0, Z.mul_0_r, Z.add_0_r.
      rewrite Z.mod_small by nia. rewrite of_val by assumption. reflexivity.
Qed.
Lemma mmod_down_ok : forall fuel c r, vli r -> 0 <= c -> val r + B4 * c < Z.of_nat fuel * p256 ->
  mmod_down fuel c r = Some (of ((val r + B4 * c) mod p256)).
Proof.
  pose proof p_range as P.
  induction fuel as [|fuel IH]; intros c r V Hc Hf; pose proof (vli_range r V) as R.
  - change (Z.of_nat 0) with 0 in Hf. nia.
  - cbn [mmod_down]. rewrite vli_cmp_ok by (assumption || apply vli_p). rewrite val_p.
    rewrite Nat2Z.inj_succ in Hf.
    destruct (negb (c =? 0) || negb ((if val r <? p256 then 1 else if p256 <? val r then -1 else 0) =? 1)) eqn:E.
    + destruct (sub_eq r curve_p V vli_p) as (s & c1 & -> & Vs & C1 & Es). rewrite val_p in Es. pose proof (vli_range s Vs) as Rs.
      assert (S : val s + B4 * (c - c1) = val r + B4 * c - p256) by lia.
      assert (M : (val s + B4 * (c - c1)) mod p256 = (val r + B4 * c) mod p256).
      { rewrite S. apply mod_less. apply P. }
      rewrite IH; [rewrite M; reflexivity|assumption| |lia].
      apply orb_true_iff in E. destruct E as [E|E].
      * apply negb_true_iff, Z.eqb_neq in E. lia.
      * destruct (Z.ltb_spec (val r) p256); [discriminate E|]. nia.
    + apply orb_false_iff in E. destruct E as [E1 E2]. apply negb_false_iff, Z.eqb_eq in E1. subst c. rewrite Z.mul_0_r, Z.add_0_r.
      destruct (Z.ltb_spec (val r) p256); [|destruct (p256 <? val r); discriminate E2].
      rewrite Z.mod_small by lia. rewrite of_val by assumption. reflexivity.
Qed.
(** Halves of digits *)
Lemma land_low w : Z.land w 0xffffffff = w mod 2 ^ 32.
Proof. change 0xffffffff with (Z.ones 32). apply Z.land_ones. lia. Qed.
Lemma land_high32 w : 0 <= w < 2 ^ 64 -> Z.land w 0xffffffff00000000 = w / 2 ^ 32 * 2 ^ 32.
Proof.
  intros H. change 0xffffffff00000000 with (Z.shiftl (Z.ones 32) 32). rewrite <- Z.shiftr_div_pow2, <- Z.shiftl_mul_pow2 by lia.
  apply Z.bits_inj'. intros i Hi. rewrite Z.land_spec, !Z.shiftl_spec by lia.
  destruct (Z.lt_ge_cases i 32).
  - rewrite !(Z.testbit_neg_r _ (i - 32)) by lia. apply andb_false_r.
  - rewrite Z.shiftr_spec by lia. replace (i - 32 + 32) with i by lia. rewrite Z.testbit_ones_nonneg by lia.
    destruct (Z.ltb_spec (i - 32) 32); [apply andb_true_r|].
    rewrite <- (Z.mod_small w (2 ^ 64)) by lia. rewrite Z.mod_pow2_bits_high by lia. reflexivity.
Qed.
Lemma halves w : word w -> exists a b, 0 <= a < 2 ^ 32 /\ 0 <= b < 2 ^ 32 /\ w = a + 2 ^ 32 * b /\
  shr w 32 = b /\ shl w 32 = a * 2 ^ 32 /\ Z.land w 0xffffffff = a /\ Z.land w 0xffffffff00000000 = b * 2 ^ 32.
Proof.
  unfold word. intros H. exists (w mod 2 ^ 32), (w / 2 ^ 32).
  rewrite shr_div by lia. rewrite shl_mul by lia. change (64 - 32) with 32. rewrite land_low, land_high32 by lia.
  pose proof (Z.div_mod w (2 ^ 32) ltac:(lia)). pose proof (Z.mod_pos_bound w (2 ^ 32) ltac:(lia)).
  repeat split; lia.
Qed.
Lemma lor_halves a b : 0 <= a < 2 ^ 32 -> Z.lor a (b * 2 ^ 32) = a + b * 2 ^ 32.
Proof. intros. rewrite Z.lor_comm, lor_high by lia. lia. Qed.
Lemma vli4 a b c d : word a -> word b -> word c -> word d -> vli [a; b; c; d].
Proof. intros. split; [|reflexivity]. repeat (apply Forall_cons; [assumption|]). apply Forall_nil. Qed.
