(** Lemmas about the hash table: arrays, flags, the order of the places tried. *)
From Coq Require Import Permutation.
From Verif Require Import Common CommonFacts MapModel.

(** ** Arrays *)
Lemma zget_some {A} (l : list A) i x : 0 <= i -> nth_error l (Z.to_nat i) = Some x -> zget l i = Done x.
Proof. intros H E. unfold zget. replace (i <? 0) with false by lia. now rewrite E. Qed.
Lemma zget_in {A} (l : list A) i d : 0 <= i < zlen l -> zget l i = Done (nth (Z.to_nat i) l d).
Proof. intros H. apply zget_some; [lia|]. apply nth_error_nth'. unfold zlen in H. lia. Qed.
Lemma upd_length {A} (l : list A) i x : length (upd l i x) = length l.
Proof. revert i. induction l as [|y l IH]; intros [|i]; cbn; auto. Qed.
Lemma upd_nth {A} (l : list A) i x j d : (i < length l)%nat -> nth j (upd l i x) d = if Nat.eqb i j then x else nth j l d.
Proof.
  revert i j. induction l as [|y l IH]; intros [|i] [|j] H; cbn [length] in H; try lia; cbn [upd nth Nat.eqb]; auto. apply IH. lia.
Qed.
Lemma zset_in {A} (l : list A) i x : 0 <= i < zlen l -> exists l', zset l i x = Done l' /\ zlen l' = zlen l /\ forall j d, 0 <= j -> nth (Z.to_nat j) l' d = if j =? i then x else nth (Z.to_nat j) l d.
Proof.
  intros H. exists (upd l (Z.to_nat i) x). unfold zset. replace ((0 <=? i) && (i <? zlen l)) with true by lia. split; [reflexivity|]. split; [unfold zlen; now rewrite upd_length|]. intros j d Hj. rewrite upd_nth by (unfold zlen in H; lia).
  destruct (Z.eqb_spec j i) as [->|N]; [now rewrite Nat.eqb_refl|]. replace (Nat.eqb (Z.to_nat i) (Z.to_nat j)) with false by (symmetry; apply Nat.eqb_neq; lia). reflexivity.
Qed.
Lemma realloc_in {A} (l : list (option A)) n j : 0 <= n -> 0 <= j < n -> nth (Z.to_nat j) (realloc l n) None = nth (Z.to_nat j) l None.
Proof.
  intros Hn H. unfold realloc. destruct (Nat.lt_ge_cases (Z.to_nat j) (length l)) as [L|L].
  - rewrite app_nth1 by (rewrite firstn_length; lia). rewrite <- (firstn_skipn (Z.to_nat n) l) at 2. rewrite app_nth1 by (rewrite firstn_length; lia). reflexivity.
  - rewrite (nth_overflow l) by lia. rewrite app_nth2 by (rewrite firstn_length; lia). destruct (Nat.lt_ge_cases (Z.to_nat j - length (firstn (Z.to_nat n) l)) (Z.to_nat n - length l)) as [Q|Q]; [|apply nth_overflow; rewrite repeat_length; lia]. apply nth_repeat.
Qed.
Lemma realloc_len {A} (l : list (option A)) n : 0 <= n -> zlen (realloc l n) = n.
Proof. intros H. unfold realloc, zlen. rewrite app_length, firstn_length, repeat_length. lia. Qed.

(** ** Flags *)
Definition word (f : list Z) (i : Z) : Z := nth (Z.to_nat (i / 16)) f 0.
Definition emp (f : list Z) (i : Z) : bool := Z.testbit (word f i) (2 * (i mod 16) + 1).
Definition del (f : list Z) (i : Z) : bool := Z.testbit (word f i) (2 * (i mod 16)).
Definition live (f : list Z) (i : Z) : bool := negb (emp f i) && negb (del f i).
Lemma shift_of_eq i : 0 <= i -> shift_of i = 2 * (i mod 16).
Proof. intros H. unfold shift_of. change 15 with (Z.ones 4). rewrite Z.land_ones, Z.shiftl_mul_pow2 by lia. change (2 ^ 1) with 2. change (2 ^ 4) with 16. lia. Qed.
Lemma low_bits x : (negb (Z.land x 1 =? 0) = Z.testbit x 0) /\ (negb (Z.land x 2 =? 0) = Z.testbit x 1) /\ (negb (Z.land x 3 =? 0) = Z.testbit x 0 || Z.testbit x 1).
Proof.
  assert (L : forall m, m = 1 \/ m = 2 \/ m = 3 -> (Z.land x m =? 0) = (negb (Z.testbit x 0 && Z.testbit m 0) && negb (Z.testbit x 1 && Z.testbit m 1))).
  { intros m Hm. apply eq_true_iff_eq. rewrite Z.eqb_eq, andb_true_iff, !negb_true_iff. split.
    - intros E. rewrite <- !Z.land_spec, E, !Z.bits_0. auto.
    - intros [E0 E1]. apply Z.bits_inj'. intros k Hk. rewrite Z.bits_0, Z.land_spec. destruct (Z.eq_dec k 0) as [->|N0]; [exact E0|]. destruct (Z.eq_dec k 1) as [->|N1]; [exact E1|].
      replace (Z.testbit m k) with false; [apply andb_false_r|]. symmetry. apply Z.bits_above_log2; [lia|]. destruct Hm as [->|[->| ->]]; cbn; lia. }
  rewrite (L 1), (L 2), (L 3) by auto. change (Z.testbit 1 0) with true. change (Z.testbit 1 1) with false. change (Z.testbit 2 0) with false. change (Z.testbit 2 1) with true. change (Z.testbit 3 0) with true. change (Z.testbit 3 1) with true. destruct (Z.testbit x 0), (Z.testbit x 1); cbn; auto.
Qed.
Lemma flag_in f i mask : 0 <= i < 16 * zlen f -> flag f i mask = Done (Z.land (Z.shiftr (word f i) (2 * (i mod 16))) mask).
Proof.
  intros H. unfold flag. rewrite Z.shiftr_div_pow2 by lia. change (2 ^ 4) with 16. rewrite (zget_in f (i / 16) 0) by lia. cbn [rbind]. rewrite shift_of_eq by lia. reflexivity.
Qed.
Lemma isempty_in f i : 0 <= i < 16 * zlen f -> isempty f i = Done (emp f i).
Proof. intros H. unfold isempty. rewrite flag_in by exact H. cbn [rbind]. rewrite (proj1 (proj2 (low_bits _))), Z.shiftr_spec by lia. unfold emp. do 2 f_equal. lia. Qed.
Lemma isdel_in f i : 0 <= i < 16 * zlen f -> isdel f i = Done (del f i).
Proof. intros H. unfold isdel. rewrite flag_in by exact H. cbn [rbind]. rewrite (proj1 (low_bits _)), Z.shiftr_spec by lia. unfold del. do 2 f_equal. Qed.
Lemma iseither_in f i : 0 <= i < 16 * zlen f -> iseither f i = Done (negb (live f i)).
Proof.
  intros H. unfold iseither. rewrite flag_in by exact H. cbn [rbind]. rewrite (proj2 (proj2 (low_bits _))), !Z.shiftr_spec by lia. unfold live, del, emp. replace (1 + 2 * (i mod 16)) with (2 * (i mod 16) + 1) by lia. rewrite Z.add_0_l. f_equal. destruct (Z.testbit _ (2 * (i mod 16))), (Z.testbit _ (2 * (i mod 16) + 1)); reflexivity.
Qed.
(** Change of one word at place [i] *)
Lemma change_word f i w' : 0 <= i < 16 * zlen f -> exists f', zset f (Z.shiftr i 4) w' = Done f' /\ zlen f' = zlen f /\ forall j, 0 <= j -> word f' j = if j / 16 =? i / 16 then w' else word f j.
Proof.
  intros H. rewrite Z.shiftr_div_pow2 by lia. change (2 ^ 4) with 16. destruct (zset_in f (i / 16) w') as (f' & E & L & N); [lia|]. exists f'. split; [exact E|]. split; [exact L|]. intros j Hj. unfold word. apply N. lia.
Qed.
Lemma same_place i j : 0 <= i -> 0 <= j -> (j =? i) = (j / 16 =? i / 16) && (j mod 16 =? i mod 16).
Proof. intros. lia. Qed.
Lemma clear_in f i mask : 0 <= i < 16 * zlen f -> mask = 2 \/ mask = 3 -> exists f', clear_flag f i mask = Done f' /\ zlen f' = zlen f /\
  forall j, 0 <= j -> emp f' j = (if j =? i then false else emp f j) /\ del f' j = (if j =? i then (mask =? 2) && del f j else del f j).
Proof.
  intros H M. unfold clear_flag. replace (zget f (Z.shiftr i 4)) with (Done (word f i)) by (rewrite Z.shiftr_div_pow2 by lia; change (2 ^ 4) with 16; symmetry; apply zget_in; lia). cbn [rbind].
  destruct (change_word f i (Z.land (word f i) (Z.lnot (Z.shiftl mask (shift_of i)))) H) as (f' & E & L & W). exists f'. split; [exact E|]. split; [exact L|]. intros j Hj. unfold emp, del. rewrite (W j Hj), shift_of_eq by lia. rewrite (same_place i j) by lia. destruct (Z.eqb_spec (j / 16) (i / 16)) as [Eq|N]; [|cbn [andb]; auto]. replace (word f i) with (word f j) by (unfold word; now rewrite Eq). cbn [andb].
  rewrite !Z.land_spec, !Z.lnot_spec, !Z.shiftl_spec by lia. destruct (Z.eqb_spec (j mod 16) (i mod 16)) as [->|Nm].
  - rewrite Z.add_simpl_l, Z.sub_diag. destruct M as [->| ->]; cbn [Z.testbit Z.eqb Z.odd Pos.testbit negb andb]; rewrite ?andb_false_r, ?andb_true_r; split; reflexivity.
  - assert (T : forall k, k < 0 \/ 2 <= k -> Z.testbit mask k = false). { intros k [Hk|Hk]; [now apply Z.testbit_neg_r|]. apply Z.bits_above_log2; [lia|]. destruct M as [->| ->]; cbn; lia. }
    rewrite !T by lia. cbn [negb]. rewrite !andb_true_r. auto.
Qed.
Lemma setdel_in f i : 0 <= i < 16 * zlen f -> exists f', set_isdel_true f i = Done f' /\ zlen f' = zlen f /\
  forall j, 0 <= j -> emp f' j = emp f j /\ del f' j = (if j =? i then true else del f j).
Proof.
  intros H. unfold set_isdel_true. replace (zget f (Z.shiftr i 4)) with (Done (word f i)) by (rewrite Z.shiftr_div_pow2 by lia; change (2 ^ 4) with 16; symmetry; apply zget_in; lia). cbn [rbind].
  destruct (change_word f i (Z.lor (word f i) (Z.shiftl 1 (shift_of i))) H) as (f' & E & L & W). exists f'. split; [exact E|]. split; [exact L|]. intros j Hj. unfold emp, del. rewrite (W j Hj), shift_of_eq by lia. rewrite (same_place i j) by lia. destruct (Z.eqb_spec (j / 16) (i / 16)) as [Eq|N]; [|cbn [andb]; auto]. replace (word f i) with (word f j) by (unfold word; now rewrite Eq). cbn [andb].
  rewrite !Z.lor_spec, !Z.shiftl_spec by lia. assert (T : forall k, k <> 0 -> Z.testbit 1 k = false). { intros k Hk. destruct (Z.lt_ge_cases k 0); [now apply Z.testbit_neg_r|]. apply Z.bits_above_log2; cbn; lia. }
  split; [rewrite T by lia; apply orb_false_r|]. destruct (Z.eqb_spec (j mod 16) (i mod 16)) as [->|Nm]; [rewrite Z.sub_diag; apply orb_true_r|rewrite T by lia; apply orb_false_r].
Qed.
Lemma all_empty_in n i : 0 <= n -> 0 <= i < 16 * fsize n -> emp (all_empty n) i = true /\ del (all_empty n) i = false.
Proof.
  intros Hn H. unfold emp, del, word, all_empty. set (w := 170 + _). assert (E : nth (Z.to_nat (i / 16)) (repeat w (Z.to_nat (fsize n))) 0 = w).
  { rewrite (nth_indep _ 0 w) by (rewrite repeat_length; lia). apply nth_repeat. }
  rewrite E. assert (0 <= i mod 16 < 16) by lia. assert (C : forall k, 0 <= k < 16 -> Z.testbit w (2 * k + 1) = true /\ Z.testbit w (2 * k) = false).
  { intros k Hk. assert (k = 0 \/ k = 1 \/ k = 2 \/ k = 3 \/ k = 4 \/ k = 5 \/ k = 6 \/ k = 7 \/ k = 8 \/ k = 9 \/ k = 10 \/ k = 11 \/ k = 12 \/ k = 13 \/ k = 14 \/ k = 15) as D by lia. repeat (destruct D as [-> |D]; [vm_compute; auto|]). subst k. vm_compute. auto. }
  apply C. lia.
Qed.
Lemma all_empty_len n : 0 <= n -> zlen (all_empty n) = fsize n.
Proof. intros H. unfold all_empty, zlen. rewrite repeat_length. assert (0 <= fsize n); [|lia]. unfold fsize. destruct (n <? 16); [lia|]. rewrite Z.shiftr_div_pow2 by lia. apply Z.div_pos; lia. Qed.

(** ** Powers of two *)
Lemma pow2_cases k : 2 <= k <= 31 -> 4 <= 2 ^ k <= 2147483648 /\ 2 ^ k = 2 * 2 ^ (k - 1) /\ 2 ^ k = 4 * 2 ^ (k - 2).
Proof.
  intros H. split; [split; [change 4 with (2 ^ 2); apply Z.pow_le_mono_r; lia|change 2147483648 with (2 ^ 31); apply Z.pow_le_mono_r; lia]|]. split; [rewrite <- Z.pow_succ_r by lia; f_equal; lia|]. change 4 with (2 ^ 2). rewrite <- Z.pow_add_r by lia. f_equal. lia.
Qed.
Lemma fsize_pow k : 2 <= k <= 31 -> 2 ^ k <= 16 * fsize (2 ^ k).
Proof.
  intros H. unfold fsize. destruct (Z.ltb_spec (2 ^ k) 16); [lia|]. rewrite Z.shiftr_div_pow2 by lia. change (2 ^ 4) with 16. assert (4 <= k) by (apply (Z.pow_le_mono_r_iff 2); [lia|lia|exact H0]). replace (2 ^ k) with (16 * 2 ^ (k - 4)); [lia|]. change 16 with (2 ^ 4). rewrite <- Z.pow_add_r by lia. f_equal. lia.
Qed.
Lemma upper_pow n : 4 <= n -> n / 2 < upper n < n /\ upper n < upper (2 * n) /\ 0 < upper n.
Proof. intros H. unfold upper. lia. Qed.
Lemma mask_mod k x : 0 <= k <= 31 -> Z.land x (u32 (2 ^ k - 1)) = x mod 2 ^ k.
Proof.
  intros H. assert (1 <= 2 ^ k <= 2147483648). { split; [change 1 with (2 ^ 0); apply Z.pow_le_mono_r; lia|change 2147483648 with (2 ^ 31); apply Z.pow_le_mono_r; lia]. }
  unfold u32. rewrite Z.mod_small by (change (2 ^ 32) with 4294967296; lia). rewrite <- Z.land_ones by lia. f_equal. rewrite Z.ones_equiv. lia.
Qed.
Lemma u32_mod k x : 0 <= k <= 32 -> (u32 x) mod 2 ^ k = x mod 2 ^ k.
Proof.
  intros H. unfold u32. symmetry. apply Znumtheory.Zmod_div_mod; [apply Z.pow_pos_nonneg; lia|lia|]. exists (2 ^ (32 - k)). rewrite <- Z.pow_add_r by lia. f_equal. lia.
Qed.

(** Rounding up to a power of two *)
Definition window (y x w : Z) : Prop := forall i, 0 <= i -> Z.testbit x i = true <-> exists d, 0 <= d < w /\ Z.testbit y (i + d) = true.
Lemma window_step y x w : 0 < w -> window y x w -> window y (Z.lor x (Z.shiftr x w)) (2 * w).
Proof.
  intros Hw H i Hi. rewrite Z.lor_spec, Z.shiftr_spec, orb_true_iff, (H i Hi), (H (i + w)) by lia. split.
  - intros [(d & D & E)|(d & D & E)]; [exists d; split; [lia|exact E]|exists (w + d); split; [lia|]]. now rewrite Z.add_assoc.
  - intros (d & D & E). destruct (Z.lt_ge_cases d w); [left; exists d; split; [lia|exact E]|right; exists (d - w); split; [lia|]]. now replace (i + w + (d - w)) with (i + d) by lia.
Qed.
Lemma smear y : 0 < y < 2 ^ 32 -> 
  (let x := y in let x := Z.lor x (Z.shiftr x 1) in let x := Z.lor x (Z.shiftr x 2) in let x := Z.lor x (Z.shiftr x 4) in let x := Z.lor x (Z.shiftr x 8) in Z.lor x (Z.shiftr x 16)) = 2 ^ (Z.log2 y + 1) - 1.
Proof.
  intros H. cbv zeta. set (x1 := Z.lor y (Z.shiftr y 1)). set (x2 := Z.lor x1 (Z.shiftr x1 2)). set (x3 := Z.lor x2 (Z.shiftr x2 4)). set (x4 := Z.lor x3 (Z.shiftr x3 8)). set (x5 := Z.lor x4 (Z.shiftr x4 16)).
  assert (W0 : window y y 1). { intros i Hi. split; [intros E; exists 0; split; [lia|now rewrite Z.add_0_r]|intros (d & D & E); replace (i + d) with i in E by lia; exact E]. }
  pose proof (window_step y y 1 ltac:(lia) W0) as W1. fold x1 in W1. pose proof (window_step y x1 2 ltac:(lia) W1) as W2. fold x2 in W2. pose proof (window_step y x2 4 ltac:(lia) W2) as W3. fold x3 in W3. pose proof (window_step y x3 8 ltac:(lia) W3) as W4. fold x4 in W4. pose proof (window_step y x4 16 ltac:(lia) W4) as W5. fold x5 in W5. clearbody x5. clear W0 W1 W2 W3 W4 x1 x2 x3 x4.
  assert (L : 0 <= Z.log2 y < 32) by (split; [apply Z.log2_nonneg|apply Z.log2_lt_pow2; lia]). replace (2 ^ (Z.log2 y + 1) - 1) with (Z.ones (Z.log2 y + 1)) by (rewrite Z.ones_equiv; lia). apply Z.bits_inj'. intros i Hi. apply eq_true_iff_eq. rewrite (W5 i Hi). split.
  - intros (d & D & E). apply Z.ones_spec_iff; [lia|]. split; [exact Hi|]. destruct (Z.lt_ge_cases (Z.log2 y) (i + d)) as [Q|Q]; [|lia]. rewrite Z.bits_above_log2 in E by lia. discriminate.
  - intros E. apply Z.ones_spec_iff in E; [|lia]. exists (Z.log2 y - i). split; [lia|]. replace (i + (Z.log2 y - i)) with (Z.log2 y) by lia. apply Z.bit_log2. lia.
Qed.
Lemma roundup_pow x k : 0 <= k <= 31 -> 2 ^ k < 2 * x -> x <= 2 ^ k -> roundup32 x = 2 ^ k.
Proof.
  intros Hk L U. assert (P : 1 <= 2 ^ k <= 2147483648). { split; [change 1 with (2 ^ 0); apply Z.pow_le_mono_r; lia|change 2147483648 with (2 ^ 31); apply Z.pow_le_mono_r; lia]. }
  unfold roundup32. assert (E : u32 (x - 1) = x - 1) by (unfold u32; apply Z.mod_small; change (2 ^ 32) with 4294967296; lia). rewrite E. destruct (Z.eq_dec x 1) as [->|N1].
  - destruct (Z.eq_dec k 0) as [->|Nk]; [reflexivity|]. assert (2 <= 2 ^ k) by (change 2 with (2 ^ 1) at 1; apply Z.pow_le_mono_r; lia). lia.
  - pose proof (smear (x - 1)) as Sm. cbv zeta in Sm |- *. rewrite Sm by (change (2 ^ 32) with 4294967296; lia). replace (Z.log2 (x - 1) + 1) with k.
    + rewrite Z.sub_add. unfold u32. apply Z.mod_small. change (2 ^ 32) with 4294967296. lia.
    + symmetry. destruct (Z.eq_dec k 0) as [->|Nk]; [change (2 ^ 0) with 1 in U; lia|]. assert (E2 : 2 ^ k = 2 * 2 ^ (k - 1)) by (rewrite <- Z.pow_succ_r by lia; f_equal; lia). rewrite (Z.log2_unique (x - 1) (k - 1)); [lia|lia|]. replace (Z.succ (k - 1)) with k by lia. lia.
Qed.
Lemma roundup_any x : 0 <= x < 2 ^ 32 -> roundup32 x = 0 \/ exists k, 0 <= k <= 31 /\ roundup32 x = 2 ^ k.
Proof.
  intros H. destruct (Z.eq_dec x 0) as [->|N0]; [left; vm_compute; reflexivity|]. destruct (Z.eq_dec x 1) as [->|N1]; [right; exists 0; split; [lia|vm_compute; reflexivity]|].
  unfold roundup32. assert (E : u32 (x - 1) = x - 1) by (unfold u32; apply Z.mod_small; lia). rewrite E. pose proof (smear (x - 1)) as Sm. cbv zeta in Sm |- *. rewrite Sm by lia. rewrite Z.sub_add. assert (L : 0 <= Z.log2 (x - 1) < 32) by (split; [apply Z.log2_nonneg|apply Z.log2_lt_pow2; lia]).
  destruct (Z.eq_dec (Z.log2 (x - 1)) 31) as [->|N]; [left; reflexivity|]. right. exists (Z.log2 (x - 1) + 1). split; [lia|]. unfold u32. apply Z.mod_small. split; [apply Z.pow_nonneg; lia|apply Z.pow_lt_mono_r; lia].
Qed.

(** ** The places tried: h, h+1, h+3, h+6, ... *)
Definition tri (s : Z) : Z := s * (s + 1) / 2.
Lemma tri_step s : tri (s + 1) = tri s + (s + 1).
Proof. unfold tri. replace ((s + 1) * (s + 1 + 1)) with (s * (s + 1) + (s + 1) * 2) by ring. apply Z.div_add. lia. Qed.
Lemma tri_twice s : 2 * tri s = s * (s + 1).
Proof. unfold tri. assert (E : (s * (s + 1)) mod 2 = 0) by (rewrite Zmult_mod, Zplus_mod; assert (s mod 2 = 0 \/ s mod 2 = 1) as [-> | ->] by lia; reflexivity). pose proof (Z.div_mod (s * (s + 1)) 2 ltac:(lia)). lia. Qed.
Definition pos (h n s : Z) : Z := (h + tri s) mod n.
Lemma pow2_odd_div k a b : 0 <= k -> Z.odd a = true -> (2 ^ k | a * b) -> (2 ^ k | b).
Proof.
  intros Hk O D. apply Znumtheory.Gauss with a; [exact D|]. apply Znumtheory.rel_prime_sym. replace k with (Z.of_nat (Z.to_nat k)) by lia. induction (Z.to_nat k) as [|j IH]; [apply Znumtheory.rel_prime_sym, Znumtheory.rel_prime_1|].
  replace (Z.of_nat (S j)) with (Z.succ (Z.of_nat j)) by lia. rewrite Z.pow_succ_r by lia. apply Znumtheory.rel_prime_mult; [|exact IH]. apply Znumtheory.rel_prime_sym. apply Znumtheory.prime_rel_prime; [exact Znumtheory.prime_2|]. intros [q E]. subst a. rewrite Z.odd_mul in O. cbn in O. rewrite andb_false_r in O. discriminate.
Qed.
Lemma pos_inj k h a b : 0 <= k -> 0 <= a < 2 ^ k -> 0 <= b < 2 ^ k -> pos h (2 ^ k) a = pos h (2 ^ k) b -> a = b.
Proof.
  intros Hk Ha Hb E. assert (P : 0 < 2 ^ k) by lia. assert (D : (2 ^ k | tri a - tri b)).
  { unfold pos in E. exists ((h + tri a) / 2 ^ k - (h + tri b) / 2 ^ k). pose proof (Z.div_mod (h + tri a) (2 ^ k) ltac:(lia)). pose proof (Z.div_mod (h + tri b) (2 ^ k) ltac:(lia)). rewrite E in H. nia. }
  assert (D2 : (2 ^ (k + 1) | (a - b) * (a + b + 1))).
  { destruct D as [q D]. exists q. rewrite Z.pow_add_r by lia. change (2 ^ 1) with 2. pose proof (tri_twice a). pose proof (tri_twice b). nia. }
  assert (P2 : 2 ^ (k + 1) = 2 * 2 ^ k) by (rewrite Z.pow_add_r by lia; change (2 ^ 1) with 2; lia).
  destruct (Z.odd (a - b)) eqn:O.
  - apply pow2_odd_div in D2; [|lia|exact O]. apply Z.divide_pos_le in D2; lia.
  - assert (O' : Z.odd (a + b + 1) = true). { replace (a + b + 1) with ((a - b) + (2 * b + 1)) by lia. rewrite Z.odd_add, O. rewrite Z.add_comm with (n := 2 * b). rewrite Z.odd_add_mul_2. reflexivity. }
    rewrite Z.mul_comm in D2. apply pow2_odd_div in D2; [|lia|exact O']. destruct (Z.eq_dec a b) as [|N]; [assumption|]. assert (D3 : (2 ^ (k + 1) | Z.abs (a - b))) by now apply Z.divide_abs_r. apply Z.divide_pos_le in D3; lia.
Qed.
Definition zseq (n : Z) : list Z := map Z.of_nat (seq 0 (Z.to_nat n)).
Lemma zseq_in n i : In i (zseq n) <-> 0 <= i < n.
Proof. unfold zseq. rewrite in_map_iff. split; [intros (x & <- & H); apply in_seq in H; lia|]. intros H. exists (Z.to_nat i). split; [lia|]. apply in_seq. lia. Qed.
Lemma zseq_nodup n : NoDup (zseq n).
Proof. unfold zseq. apply FinFun.Injective_map_NoDup; [intros a b H; lia|apply seq_NoDup]. Qed.
Lemma zseq_len n : 0 <= n -> zlen (zseq n) = n.
Proof. intros H. unfold zseq, zlen. rewrite map_length, seq_length. lia. Qed.
Lemma pos_range h n s : 0 < n -> 0 <= pos h n s < n.
Proof. intros. unfold pos. apply Z.mod_pos_bound. lia. Qed.
(** Every place is tried within n steps *)
Lemma pos_all k h i : 0 <= k -> 0 <= i < 2 ^ k -> exists s, 0 <= s < 2 ^ k /\ pos h (2 ^ k) s = i.
Proof.
  intros Hk Hi. assert (P : 0 < 2 ^ k) by lia. assert (I : incl (zseq (2 ^ k)) (map (pos h (2 ^ k)) (zseq (2 ^ k)))).
  { apply NoDup_length_incl.
    - assert (G : forall l, (forall x, In x l -> 0 <= x < 2 ^ k) -> NoDup l -> NoDup (map (pos h (2 ^ k)) l)).
      { induction l as [|x l IH]; intros B N; cbn [map]; constructor; inversion N; subst; [|apply IH; [intros; apply B; now right|assumption]]. rewrite in_map_iff. intros (y & E & Iy). assert (y = x); [|congruence]. apply (pos_inj k h); [lia|apply B; now right|apply B; now left|exact E]. }
      apply G; [intros x Hx; now apply zseq_in|apply zseq_nodup].
    - rewrite map_length. lia.
    - intros x Hx. apply in_map_iff in Hx. destruct Hx as (s & <- & Hs). apply zseq_in. apply pos_range. lia. }
  assert (J : In i (map (pos h (2 ^ k)) (zseq (2 ^ k)))) by (apply I, zseq_in; lia). apply in_map_iff in J. destruct J as (s & E & Hs). exists s. split; [now apply zseq_in|exact E].
Qed.
(** The step of the loops *)
Lemma pos_step k h s : 0 <= k <= 31 -> 0 <= s < 2 ^ 32 - 1 -> u32 (s + 1) = s + 1 /\ Z.land (u32 (pos h (2 ^ k) s + u32 (s + 1))) (u32 (2 ^ k - 1)) = pos h (2 ^ k) (s + 1).
Proof.
  intros Hk Hs. assert (E : u32 (s + 1) = s + 1) by (unfold u32; apply Z.mod_small; lia). split; [exact E|]. rewrite E, mask_mod, u32_mod by lia. unfold pos. rewrite tri_step, Zplus_mod_idemp_l. f_equal. lia.
Qed.
Lemma pos_first k h : 0 <= k <= 31 -> Z.land h (u32 (2 ^ k - 1)) = pos h (2 ^ k) 0.
Proof. intros H. rewrite mask_mod by lia. unfold pos. change (tri 0) with 0. now rewrite Z.add_0_r. Qed.
Lemma least (f : Z -> bool) t : 0 <= t -> f t = true -> exists t0, 0 <= t0 <= t /\ f t0 = true /\ forall s, 0 <= s < t0 -> f s = false.
Proof.
  intros Ht E. assert (G : forall n s, t = s + Z.of_nat n -> 0 <= s -> (forall s', 0 <= s' < s -> f s' = false) -> exists t0, 0 <= t0 <= t /\ f t0 = true /\ forall s, 0 <= s < t0 -> f s = false).
  { induction n as [|n IH]; intros s Es Hs B; [exists t; replace s with t in B by lia; repeat split; auto; lia|]. destruct (f s) eqn:F; [exists s; repeat split; auto; lia|]. apply (IH (s + 1)); [lia|lia|]. intros s' H'. destruct (Z.eq_dec s' s) as [->|]; [exact F|apply B; lia]. }
  apply (G (Z.to_nat t) 0); [lia|lia|intros; lia].
Qed.

(** ** What is in the places *)
Section Elems.
  Context {E : Type}.
  Definition elems (n : Z) (p : Z -> bool) (c : Z -> E) : list E := flat_map (fun i => if p i then [c i] else []) (zseq n).
  Lemma elems_ext n p p' c c' : (forall i, 0 <= i < n -> p i = p' i) -> (forall i, 0 <= i < n -> p i = true -> c i = c' i) -> elems n p c = elems n p' c'.
  Proof.
    intros Hp Hc. unfold elems. assert (B : forall i, In i (zseq n) -> 0 <= i < n) by (intros i; apply zseq_in). induction (zseq n) as [|i l IH]; [reflexivity|]. cbn [flat_map]. rewrite <- IH by (intros; apply B; now right). assert (Bi := B i (or_introl eq_refl)). rewrite <- (Hp i Bi). destruct (p i) eqn:Q; [now rewrite (Hc i Bi Q)|reflexivity].
  Qed.
  Lemma elems_in n p c e : In e (elems n p c) <-> exists i, 0 <= i < n /\ p i = true /\ c i = e.
  Proof.
    unfold elems. rewrite in_flat_map. split.
    - intros (i & I & H). exists i. apply zseq_in in I. destruct (p i); [destruct H as [H|[]]; auto|destruct H].
    - intros (i & I & P & <-). exists i. split; [now apply zseq_in|]. rewrite P. now left.
  Qed.
  Lemma elems_drop n p c x : 0 <= x < n -> p x = true -> Permutation (elems n p c) (c x :: elems n (fun i => p i && negb (i =? x)) c).
  Proof.
    intros Hx P. unfold elems. assert (I : In x (zseq n)) by now apply zseq_in. assert (N := zseq_nodup n). induction (zseq n) as [|i l IH]; [destruct I|]. cbn [flat_map]. inversion N as [|? ? Nx Nl]; subst. destruct (Z.eqb_spec i x) as [->|Ne].
    - rewrite P. cbn [andb negb app]. apply perm_skip. assert (Q : forall j, In j l -> j <> x) by (intros j Ij ->; contradiction). clear -Q. induction l as [|j l IH]; [constructor|]. cbn [flat_map]. assert (Ej : (j =? x) = false) by (apply Z.eqb_neq, Q; now left). rewrite Ej, andb_true_r. apply Permutation_app_head, IH. intros; apply Q; now right.
    - destruct I as [->|I]; [congruence|]. rewrite andb_true_r. rewrite (IH I Nl). destruct (p i); cbn [app]; [apply perm_swap|reflexivity].
  Qed.
  Lemma elems_nil n p c : (forall i, 0 <= i < n -> p i = false) -> elems n p c = [].
  Proof. intros H. unfold elems. assert (B : forall i, In i (zseq n) -> p i = false) by (intros i I; apply H, zseq_in, I). induction (zseq n) as [|i l IH]; [reflexivity|]. cbn [flat_map]. rewrite B, IH; auto; [|now left]. intros; apply B; now right. Qed.
  Lemma elems_room n p c : 0 <= n -> zlen (elems n p c) < n -> exists i, 0 <= i < n /\ p i = false.
  Proof.
    intros Hn L. unfold elems in L. assert (B : forall i, In i (zseq n) -> 0 <= i < n) by (intros i; apply zseq_in). rewrite <- (zseq_len n Hn) in L at 2. induction (zseq n) as [|i l IH]; [cbn [flat_map] in L; change (zlen (@nil E)) with 0 in L; change (zlen (@nil Z)) with 0 in L; lia|]. cbn [flat_map] in L. destruct (p i) eqn:Q; [|exists i; split; [apply B; now left|exact Q]]. rewrite zlen_app in L. change (zlen [c i]) with 1 in L. rewrite zlen_cons in L. apply IH; [lia|intros; apply B; now right].
  Qed.
  Lemma elems_count n p (c c' : Z -> E) : zlen (elems n p c) = zlen (elems n p c').
  Proof. unfold elems. induction (zseq n) as [|i l IH]; [reflexivity|]. cbn [flat_map]. rewrite !zlen_app, IH. destruct (p i); reflexivity. Qed.
  Lemma elems_fewer n (p q : Z -> bool) c : (forall i, 0 <= i < n -> p i = true -> q i = true) -> zlen (elems n p c) <= zlen (elems n q c).
  Proof.
    intros H. unfold elems. assert (B : forall i, In i (zseq n) -> p i = true -> q i = true) by (intros i I; apply H, zseq_in, I). induction (zseq n) as [|i l IH]; [reflexivity|]. cbn [flat_map]. rewrite !zlen_app. assert (IHl := IH ltac:(intros; apply B; [now right|assumption])). specialize (B i (or_introl eq_refl)). destruct (p i); [rewrite B by reflexivity; change (zlen [c i]) with 1; lia|]. change (zlen (@nil E)) with 0. pose proof (zlen_nonneg (if q i then [c i] else [])). lia.
  Qed.
End Elems.
Lemma elems_map {E F} (g : E -> F) n p c : map g (elems n p c) = elems n p (fun i => g (c i)).
Proof. unfold elems. induction (zseq n) as [|i l IH]; [reflexivity|]. cbn [flat_map]. rewrite map_app, IH. destruct (p i); reflexivity. Qed.
Lemma zlen_perm {E} (a b : list E) : Permutation a b -> zlen a = zlen b.
Proof. intros H. unfold zlen. now rewrite (Permutation_length H). Qed.
