(** Lemmas on SHA-256: the block function, the buffer and the padding. *)
From Verif Require Import Common CommonFacts ProofFacts StreamFacts Sha256Model Sha256Spec.
From Coq Require Import Lia.

(** ** Lemmas: words *)
Definition word (x : Z) : Prop := 0 <= x < 2 ^ 32.
Lemma nocarry a b n : 0 <= n -> 0 <= a < 2 ^ n -> Z.lxor a (b * 2 ^ n) = a + b * 2 ^ n.
Proof.
  intros Hn Ha. symmetry. apply Z.add_nocarry_lxor. apply Z.bits_inj'. intros i Hi. rewrite Z.land_spec, Z.bits_0. rewrite <- Z.shiftl_mul_pow2 by exact Hn. rewrite Z.shiftl_spec by exact Hi.
  destruct (Z.lt_ge_cases i n) as [L|L]; [rewrite (Z.testbit_neg_r b) by lia; apply andb_false_r|]. rewrite <- (Z.mod_small a (2 ^ n) Ha). rewrite Z.mod_pow2_bits_high by lia. reflexivity.
Qed.
Lemma rotr32_ok x n : word x -> 0 < n < 32 -> rotr32 x n = rotr 32 n x.
Proof.
  intros Hx Hn. unfold rotr32, rotr, w32. rewrite Z.shiftr_div_pow2, Z.shiftl_mul_pow2 by lia.
  replace (x * 2 ^ (32 - n) mod 2 ^ 32) with (x mod 2 ^ n * 2 ^ (32 - n)).
  2:{ replace (2 ^ 32) with (2 ^ n * 2 ^ (32 - n)) by (rewrite <- Z.pow_add_r by lia; f_equal; lia). rewrite Z.mul_mod_distr_r; [reflexivity| |]; apply Z.pow_nonzero; lia. }
  apply nocarry; [lia|]. unfold word in Hx. split; [apply Z.div_pos; [lia|apply Z.pow_pos_nonneg; lia]|]. apply Z.div_lt_upper_bound; [apply Z.pow_pos_nonneg; lia|]. rewrite <- Z.pow_add_r by lia. replace (n + (32 - n)) with 32 by lia. lia.
Qed.
Lemma bits_eq a b : (forall i, 0 <= i -> Z.testbit a i = Z.testbit b i) -> a = b.
Proof. intros H. apply Z.bits_inj'. exact H. Qed.
Lemma ch_ok x y z : ch x y z = Ch x y z.
Proof. apply bits_eq. intros i Hi. unfold ch, Ch. rewrite !Z.lxor_spec, !Z.land_spec, Z.lnot_spec, Z.lxor_spec by exact Hi. destruct (Z.testbit x i), (Z.testbit y i), (Z.testbit z i); reflexivity. Qed.
Lemma maj_ok x y z : maj x y z = Maj x y z.
Proof. apply bits_eq. intros i Hi. unfold maj, Maj, xor3. rewrite !Z.lxor_spec, !Z.land_spec, Z.lxor_spec. destruct (Z.testbit x i), (Z.testbit y i), (Z.testbit z i); reflexivity. Qed.
Lemma big0_ok x : word x -> big0 x = Sigma0 x.
Proof. intros H. unfold big0, Sigma0, xor3. rewrite !rotr32_ok by (auto; lia). reflexivity. Qed.
Lemma big1_ok x : word x -> big1 x = Sigma1 x.
Proof. intros H. unfold big1, Sigma1, xor3. rewrite !rotr32_ok by (auto; lia). reflexivity. Qed.
Lemma small0_ok x : word x -> small0 x = sigma0 x.
Proof. intros H. unfold small0, sigma0, xor3, shr. rewrite !rotr32_ok by (auto; lia). rewrite Z.shiftr_div_pow2 by lia. reflexivity. Qed.
Lemma small1_ok x : word x -> small1 x = sigma1 x.
Proof. intros H. unfold small1, sigma1, xor3, shr. rewrite !rotr32_ok by (auto; lia). rewrite Z.shiftr_div_pow2 by lia. reflexivity. Qed.
Lemma w32_word x : word (w32 x).
Proof. apply Z.mod_pos_bound. reflexivity. Qed.
Lemma sum32_word l : word (sum32 l).
Proof. apply Z.mod_pos_bound. reflexivity. Qed.

(** ** Lemmas: the block function *)
Definition newA (r : regs) (kw : Z * Z) : Z := let '(a, _, _, _, _, _, _, _) := step r kw in a.
Definition newE (r : regs) (kw : Z * Z) : Z := let '(_, _, _, _, e, _, _, _) := step r kw in e.
Lemma newA_word r kw : word (newA r kw).
Proof. destruct r as [[[[[[[a b] c] d] e] f] g] h]. apply sum32_word. Qed.
Lemma newE_word r kw : word (newE r kw).
Proof. destruct r as [[[[[[[a b] c] d] e] f] g] h]. apply sum32_word. Qed.
Lemma round_ok a b c d e f g h k w : word a -> word e -> round a b c d e f g h k w = (newE (a, b, c, d, e, f, g, h) (k, w), newA (a, b, c, d, e, f, g, h) (k, w)).
Proof.
  intros Ha He. unfold round, newE, newA, step, sum32, w32. cbn [fold_right fst snd]. rewrite big0_ok, big1_ok, ch_ok, maj_ok by assumption. rewrite !Z.add_0_r.
  replace (h + Sigma1 e + Ch e f g + k + w) with (h + (Sigma1 e + (Ch e f g + (k + w)))) by lia. set (t := (h + _) mod _). f_equal.
  rewrite Zplus_mod_idemp_r. f_equal. lia.
Qed.
Lemma step_new a b c d e f g h kw : step (a, b, c, d, e, f, g, h) kw = (newA (a, b, c, d, e, f, g, h) kw, a, b, c, newE (a, b, c, d, e, f, g, h) kw, e, f, g).
Proof. reflexivity. Qed.
Lemma fold_cons {A B} (f : A -> B -> A) x l a : fold_left f (x :: l) a = fold_left f l (f a x).
Proof. reflexivity. Qed.
Lemma rounds8_ok k w a b c d e f g h : length k = 8%nat -> length w = 8%nat -> word a -> word b -> word c -> word d -> word e -> word f -> word g -> word h ->
  forall k' w', rounds8 (k ++ k') (w ++ w') (a, b, c, d, e, f, g, h) = fold_left step (combine k w) (a, b, c, d, e, f, g, h).
Proof.
  intros Lk Lw Wa Wb Wc Wd We Wf Wg Wh k' w'.
  do 8 (destruct k as [|? k]; [discriminate Lk|]). destruct k; [|discriminate Lk]. do 8 (destruct w as [|? w]; [discriminate Lw|]). destruct w; [|discriminate Lw].
  unfold rounds8. cbn [nth app combine].
  do 8 (rewrite round_ok by assumption; rewrite fold_cons, step_new; cbv beta iota;
    match goal with |- context [newA ?r ?kw] => generalize (newA_word r kw); generalize (newA r kw); generalize (newE_word r kw); generalize (newE r kw); intros ? ? ? ? end).
  reflexivity.
Qed.

(** The array of words, whose index wraps around, and the words of the schedule, the latest
    first, where [n] is written next *)
Definition circ (W : list Z) (n : nat) (r : list Z) : Prop := length W = 16%nat /\ forall j, (j < 16)%nat -> nth j r 0 = nth ((n + 15 - j) mod 16) W 0.
Lemma set_nth_length W n x : (n < length W)%nat -> length (set_nth W n x) = length W.
Proof. intros H. unfold set_nth. rewrite app_length, firstn_length. cbn [length]. rewrite skipn_length. lia. Qed.
Lemma set_nth_same W n x : (n < length W)%nat -> nth n (set_nth W n x) 0 = x.
Proof. intros H. unfold set_nth. rewrite app_nth2; rewrite firstn_length; [|lia]. replace (n - Nat.min n (length W))%nat with O by lia. reflexivity. Qed.
Lemma set_nth_other W n x j : (n < length W)%nat -> j <> n -> nth j (set_nth W n x) 0 = nth j W 0.
Proof.
  intros H Hj. unfold set_nth. destruct (Nat.lt_ge_cases j n) as [L|L].
  - rewrite app_nth1 by (rewrite firstn_length; lia). rewrite <- (firstn_skipn n W) at 2. rewrite app_nth1 by (rewrite firstn_length; lia). reflexivity.
  - rewrite app_nth2; rewrite firstn_length; [|lia]. replace (j - Nat.min n (length W))%nat with (S (j - S n)) by lia. cbn [nth].
    rewrite <- (firstn_skipn (S n) W) at 2. rewrite app_nth2 by (rewrite firstn_length; lia). rewrite firstn_length. f_equal. lia.
Qed.
Definition next (w : list Z) : Z := sum32 [sigma1 (nth 1 w 0); nth 6 w 0; sigma0 (nth 14 w 0); nth 15 w 0].
Lemma recalc_circ W n r : (n < 16)%nat -> Forall word W -> circ W n r -> circ (recalc W n) (S n mod 16) (next r :: r) /\ Forall word (recalc W n).
Proof.
  intros Hn FW [L C]. assert (Wn : forall i, word (nth i W 0)).
  { intros i. destruct (Nat.lt_ge_cases i (length W)); [apply Forall_forall with (x := nth i W 0) in FW; [exact FW|now apply nth_In]|rewrite nth_overflow by lia; split; [lia|reflexivity]]. }
  assert (E : w32 (nth n W 0 + (small1 (nth ((n + 16 - 2) mod 16) W 0) + nth ((n + 16 - 7) mod 16) W 0 + small0 (nth ((n + 16 - 15) mod 16) W 0))) = next r).
  { unfold next. rewrite !C by lia. rewrite <- small0_ok, <- small1_ok by apply Wn. unfold sum32, w32. cbn [fold_right].
    replace ((n + 15 - 1) mod 16)%nat with ((n + 16 - 2) mod 16)%nat by (f_equal; lia). replace ((n + 15 - 6) mod 16)%nat with ((n + 16 - 7) mod 16)%nat by (f_equal; lia).
    replace ((n + 15 - 14) mod 16)%nat with ((n + 16 - 15) mod 16)%nat by (f_equal; lia). replace ((n + 15 - 15) mod 16)%nat with n by (rewrite Nat.mod_small; lia). f_equal. lia. }
  unfold recalc. rewrite E. split.
  - split; [rewrite set_nth_length; lia|]. intros [|j] Hj; cbn [nth].
    + replace ((S n mod 16 + 15 - 0) mod 16)%nat with n; [rewrite set_nth_same by lia; reflexivity|]. destruct (Nat.eq_dec n 15) as [->|]; [reflexivity|]. rewrite (Nat.mod_small (S n)) by lia. replace (S n + 15 - 0)%nat with (n + 1 * 16)%nat by lia. rewrite Nat.mod_add, Nat.mod_small by lia. reflexivity.
    + rewrite C by lia. assert (M : ((S n mod 16 + 15 - S j) mod 16 = (n + 15 - j) mod 16)%nat).
      { destruct (Nat.eq_dec n 15) as [->|]; [|rewrite (Nat.mod_small (S n)) by lia; f_equal; lia]. change (S 15 mod 16)%nat with O. replace (15 + 15 - j)%nat with (0 + 15 - S j + 1 * 16)%nat by lia. now rewrite Nat.mod_add by lia. }
      rewrite M. rewrite set_nth_other; [reflexivity|lia|]. destruct (Nat.lt_ge_cases (n + 15 - j) 16) as [Q|Q]; [rewrite Nat.mod_small; lia|].
      replace (n + 15 - j)%nat with (n - j - 1 + 1 * 16)%nat by lia. rewrite Nat.mod_add, Nat.mod_small by lia. lia.
  - unfold set_nth. apply Forall_app. split; [|constructor; [apply sum32_word|]]; rewrite <- (firstn_skipn n W) in FW; [now apply Forall_app in FW|]. apply Forall_app in FW as [_ FW]. destruct (skipn n W) as [|x t] eqn:Es; [apply (f_equal (@length Z)) in Es; rewrite skipn_length in Es; cbn in Es; lia|]. replace (skipn (S n) W) with t; [now apply Forall_cons_iff in FW|].
    rewrite <- (firstn_skipn n W) at 1. rewrite Es, skipn_app, firstn_length, skipn_all2 by (rewrite firstn_length; lia). replace (S n - Nat.min n (length W))%nat with 1%nat by lia. reflexivity.
Qed.
Lemma schedule_next n w : schedule (S n) w = schedule n (next w :: w).
Proof. reflexivity. Qed.
Lemma schedule_add n m w : schedule (n + m) w = schedule m (schedule n w).
Proof. revert w. induction n as [|n IH]; intros w; [reflexivity|]. cbn [Nat.add]. rewrite !schedule_next. apply IH. Qed.
Lemma schedule_grows n : forall w, exists new, schedule n w = new ++ w /\ length new = n.
Proof. induction n as [|n IH]; intros w; [exists []; auto|]. rewrite schedule_next. destruct (IH (next w :: w)) as (new & -> & L). exists (new ++ [next w]). rewrite <- app_assoc, app_length. cbn. split; [reflexivity|lia]. Qed.
Lemma recalc_some k : forall n W r, (n + k = 16)%nat -> Forall word W -> circ W (n mod 16) r -> circ (fold_left recalc (seq n k) W) 0 (schedule k r) /\ Forall word (fold_left recalc (seq n k) W).
Proof.
  induction k as [|k IH]; intros n W r E F C; [assert (n = 16%nat) by lia; subst n; cbn; auto|]. cbn [seq]. rewrite fold_cons, schedule_next. rewrite Nat.mod_small in C by lia.
  destruct (recalc_circ W n r ltac:(lia) F C) as [C' F']. apply IH; [lia|exact F'|exact C'].
Qed.
Lemma recalc_all_circ W r : Forall word W -> circ W 0 r -> circ (recalc_all W) 0 (schedule 16 r) /\ Forall word (recalc_all W).
Proof. intros F C. exact (recalc_some 16 0 W r eq_refl F C). Qed.
Lemma circ_words W r : circ W 0 r -> (16 <= length r)%nat -> firstn 16 r = rev W.
Proof.
  intros [L C] Lr. apply (nth_ext _ _ 0 0); [rewrite firstn_length, rev_length; lia|]. rewrite firstn_length. intros j Hj. rewrite rev_nth by lia.
  rewrite <- (firstn_skipn 16 r) in C. specialize (C j ltac:(lia)). rewrite app_nth1 in C by (rewrite firstn_length; lia). rewrite C. f_equal. rewrite L, Nat.mod_small; lia.
Qed.
Lemma words_circ W r : length W = 16%nat -> circ W 0 (rev W ++ r).
Proof. intros L. split; [exact L|]. intros j Hj. rewrite app_nth1 by (rewrite rev_length; lia). rewrite rev_nth by lia. f_equal. rewrite L, Nat.mod_small; lia. Qed.
Lemma recalc_all_ok W r : length W = 16%nat -> Forall word W -> schedule 16 (rev W ++ r) = rev (recalc_all W) ++ rev W ++ r /\ length (recalc_all W) = 16%nat /\ Forall word (recalc_all W).
Proof.
  intros L F. destruct (recalc_all_circ W (rev W ++ r) F (words_circ W r L)) as [C F']. split; [|split; [apply C|exact F']].
  destruct (schedule_grows 16 (rev W ++ r)) as (new & E & Ln). rewrite E in *. f_equal. rewrite <- (circ_words _ _ C) by (rewrite app_length; lia). rewrite firstn_app, Ln, Nat.sub_diag, firstn_O, app_nil_r. symmetry. apply firstn_all2. lia.
Qed.
Lemma k256_ok : k256 = K.
Proof. vm_compute. reflexivity. Qed.
Lemma words_ok blk : length blk = 64%nat -> bytes_ok blk -> words blk = map be_val (blocks 4 blk) /\ length (words blk) = 16%nat /\ Forall word (words blk).
Proof.
  intros L B. split; [unfold words, blocks; rewrite L, map_map; apply map_ext; intros i; unfold block; now rewrite (Nat.mul_comm 4 i)|]. split; [unfold words; now rewrite map_length, seq_length|].
  apply Forall_forall. intros x I. apply in_map_iff in I as (i & <- & I). apply in_seq in I. unfold word. assert (Lb : length (firstn 4 (skipn (4 * i) blk)) = 4%nat) by (rewrite firstn_length, skipn_length; lia).
  pose proof (be_val_bound (firstn 4 (skipn (4 * i) blk)) ltac:(now apply bytes_ok_firstn, bytes_ok_skipn)) as H. rewrite Lb in H. exact H.
Qed.
Definition words_in (r : regs) : Prop := let '(a, b, c, d, e, f, g, h) := r in word a /\ word b /\ word c /\ word d /\ word e /\ word f /\ word g /\ word h.
Lemma step_words r kw : words_in r -> words_in (step r kw).
Proof. destruct r as [[[[[[[a b] c] d] e] f] g] h]. rewrite step_new. unfold words_in. pose proof (newA_word (a, b, c, d, e, f, g, h) kw). pose proof (newE_word (a, b, c, d, e, f, g, h) kw). tauto. Qed.
Lemma steps_words l : forall r, words_in r -> words_in (fold_left step l r).
Proof. induction l as [|x l IH]; intros r H; [exact H|]. apply IH, step_words, H. Qed.
Lemma rounds8_run k w r : (8 <= length k)%nat -> (8 <= length w)%nat -> words_in r -> rounds8 k w r = fold_left step (combine (firstn 8 k) (firstn 8 w)) r.
Proof.
  intros Lk Lw H. rewrite <- (firstn_skipn 8 k) at 1. rewrite <- (firstn_skipn 8 w) at 1. destruct r as [[[[[[[a b] c] d] e] f] g] h]. destruct H as (Ha & Hb & Hc & Hd & He & Hf & Hg & Hh). apply rounds8_ok; auto; rewrite firstn_length; lia.
Qed.
Lemma combine_app {A B} (a a' : list A) (b b' : list B) : length a = length b -> combine (a ++ a') (b ++ b') = combine a b ++ combine a' b'.
Proof. revert b. induction a as [|x a IH]; intros [|y b] L; try discriminate L; [reflexivity|]. cbn [app combine]. now rewrite IH by (injection L as L; exact L). Qed.
Lemma rounds16_run k W r : (16 <= length k)%nat -> length W = 16%nat -> words_in r ->
  rounds8 (skipn 8 k) (skipn 8 W) (rounds8 k W r) = fold_left step (combine (firstn 16 k) W) r.
Proof.
  intros Lk Lw H. rewrite (rounds8_run k W r) by (auto; lia). rewrite rounds8_run by (rewrite ?skipn_length; auto using steps_words; lia). rewrite <- fold_left_app. f_equal.
  rewrite <- (firstn_skipn 8 W) at 3. rewrite <- (firstn_skipn 8 k) at 3. rewrite firstn_app, firstn_firstn, firstn_length. replace (16 - Nat.min 8 (length k))%nat with 8%nat by lia. change (Nat.min 16 8) with 8%nat.
  rewrite (firstn_all2 (skipn 8 W)) by (rewrite skipn_length; lia). rewrite combine_app by (rewrite !firstn_length; lia). reflexivity.
Qed.
Lemma process_ok hash blk : length hash = 8%nat -> Forall word hash -> length blk = 64%nat -> bytes_ok blk ->
  process hash blk = compress hash blk /\ length (process hash blk) = 8%nat /\ Forall word (process hash blk).
Proof.
  intros Lh Fh Lb Bb. destruct (words_ok blk Lb Bb) as (Ew & Lw & Fw). unfold process. rewrite k256_ok. cbv zeta. set (g := fun i => nth i hash 0). 
  assert (Wg : forall i, word (g i)). { intros i. unfold g. destruct (Nat.lt_ge_cases i (length hash)); [apply (proj1 (Forall_forall _ _) Fh); now apply nth_In|rewrite nth_overflow by lia; split; [lia|reflexivity]]. }
  set (r0 := (g 0, g 1, g 2, g 3, g 4, g 5, g 6, g 7)%nat). assert (W0 : words_in r0) by (repeat split; apply Wg).
  assert (LK : length K = 64%nat) by (rewrite <- k256_ok; reflexivity).
  set (Wa := words blk) in *. destruct (recalc_all_ok Wa [] Lw Fw) as (S1 & L1 & F1). set (Wb := recalc_all Wa) in *. rewrite app_nil_r in S1.
  destruct (recalc_all_ok Wb (rev Wa) L1 F1) as (S2 & L2 & F2). set (Wc := recalc_all Wb) in *. destruct (recalc_all_ok Wc (rev Wb ++ rev Wa) L2 F2) as (S3 & L3 & F3). set (Wd := recalc_all Wc) in *.
  assert (T : forall i r W, (i + 16 <= 64)%nat -> words_in r -> length (recalc_all W) = 16%nat -> turn (r, W) i = (fold_left step (combine (firstn 16 (skipn i K)) (recalc_all W)) r, recalc_all W)).
  { intros i r W Hi Hr HW. unfold turn. rewrite k256_ok. f_equal. apply rounds16_run; [rewrite skipn_length; lia|exact HW|exact Hr]. }
  change (nth 0 hash 0, nth 1 hash 0, nth 2 hash 0, nth 3 hash 0, nth 4 hash 0, nth 5 hash 0, nth 6 hash 0, nth 7 hash 0) with r0.
  rewrite (rounds16_run K Wa r0) by (auto; lia).
  set (ra := fold_left step (combine (firstn 16 K) Wa) r0). set (rb := fold_left step (combine (firstn 16 (skipn 16 K)) Wb) ra). set (rc := fold_left step (combine (firstn 16 (skipn 32 K)) Wc) rb). set (rd := fold_left step (combine (firstn 16 (skipn 48 K)) Wd) rc).
  assert (Q : fold_left turn [16; 32; 48]%nat (ra, Wa) = (rd, Wd)).
  { assert (R1 : words_in ra) by apply steps_words, W0. assert (R2 : words_in rb) by apply steps_words, R1. assert (R3 : words_in rc) by apply steps_words, R2.
    assert (Q1 : turn (ra, Wa) 16 = (rb, Wb)) by exact (T 16%nat ra Wa (leb_complete 32 64 eq_refl) R1 L1).
    assert (Q2 : turn (rb, Wb) 32 = (rc, Wc)) by exact (T 32%nat rb Wb (leb_complete 48 64 eq_refl) R2 L2).
    assert (Q3 : turn (rc, Wc) 48 = (rd, Wd)) by exact (T 48%nat rc Wc (leb_complete 64 64 eq_refl) R3 L3).
    clearbody ra rb rc rd Wb Wc Wd. cbn [fold_left]. now rewrite Q1, Q2, Q3. }
  unfold regs in *. rewrite Q. clear Q T. unfold rd, rc, rb, ra. clear ra rb rc rd.
  rewrite <- !fold_left_app.
  assert (E : combine (firstn 16 K) Wa ++ combine (firstn 16 (skipn 16 K)) Wb ++ combine (firstn 16 (skipn 32 K)) Wc ++ combine (firstn 16 (skipn 48 K)) Wd = combine K (rev (schedule 48 (rev (map be_val (blocks 4 blk)))))).
  { rewrite <- Ew. change 48%nat with (16 + (16 + 16))%nat. rewrite !schedule_add, S1, S2, S3. rewrite !rev_app_distr, !rev_involutive, <- !app_assoc.
    transitivity (combine (firstn 16 K ++ firstn 16 (skipn 16 K) ++ firstn 16 (skipn 32 K) ++ firstn 16 (skipn 48 K)) (Wa ++ Wb ++ Wc ++ Wd)); [|rewrite <- k256_ok; reflexivity].
    rewrite !combine_app by (rewrite ?firstn_length, ?skipn_length, LK; lia). reflexivity. }
  unfold compress. cbv zeta. change (nth 0 hash 0, nth 1 hash 0, nth 2 hash 0, nth 3 hash 0, nth 4 hash 0, nth 5 hash 0, nth 6 hash 0, nth 7 hash 0) with r0. rewrite <- E, !app_assoc. clear E. set (l := ((_ ++ _) ++ _) ++ _). pose proof (steps_words l r0 W0) as W'. destruct (fold_left step l r0) as [[[[[[[a b] c] d] e] f] g'] h].
  split; [apply map_ext; intros [x y]; unfold sum32, w32; cbn [fold_right]; now rewrite Z.add_0_r|]. split; [rewrite map_length, combine_length, Lh; reflexivity|].
  apply Forall_forall. intros x I. apply in_map_iff in I as ([u v] & <- & _). apply w32_word.
Qed.

(** ** Lemmas: the buffer *)
#[local] Opaque process compress.
Definition start : list Z := s_hash (sha_init []).
Definition good_hash (h : list Z) : Prop := length h = 8%nat /\ Forall word h.
Definition good_block (b : list Z) : Prop := length b = 64%nat /\ bytes_ok b.
Lemma start_ok : start = H0.
Proof. vm_compute. reflexivity. Qed.
Lemma start_good : good_hash start.
Proof. split; [reflexivity|]. repeat apply Forall_cons; try (split; [discriminate|reflexivity]). apply Forall_nil. Qed.
Lemma chain_step h b : good_hash h -> good_block b -> process h b = compress h b /\ good_hash (process h b).
Proof. intros [Lh Fh] [Lb Bb]. destruct (process_ok h b Lh Fh Lb Bb) as (E & L & W). split; [exact E|split; [exact L|exact W]]. Qed.
Lemma chain_ok bs : Forall good_block bs -> forall h, good_hash h -> fold_left process bs h = fold_left compress bs h /\ good_hash (fold_left process bs h).
Proof. exact (chain_gen good_hash good_block process compress chain_step bs). Qed.
Lemma blocks_good m : bytes_ok m -> Forall good_block (blocks 64 m).
Proof. intros B. apply Forall_forall. intros b Hb. split; [now apply (blocks_length 64 ltac:(lia) m)|]. exact (proj1 (Forall_forall _ _) (blocks_ok 64 ltac:(lia) m B) b Hb). Qed.
Lemma overwrite_length buf i d : (i + length d <= length buf)%nat -> length (overwrite buf i d) = length buf.
Proof. intros H. unfold overwrite. rewrite !app_length, firstn_length_le, skipn_length by lia. lia. Qed.
Lemma overwrite_ok buf i d : bytes_ok buf -> bytes_ok d -> bytes_ok (overwrite buf i d).
Proof. intros B D. unfold overwrite. apply bytes_ok_app. split; [now apply bytes_ok_firstn|]. apply bytes_ok_app. split; [exact D|now apply bytes_ok_skipn]. Qed.
Lemma overwrite_prefix buf i d : (i + length d <= length buf)%nat -> firstn (i + length d) (overwrite buf i d) = firstn i buf ++ d.
Proof.
  intros H. unfold overwrite. rewrite app_assoc. rewrite firstn_app. replace (i + length d - length (firstn i buf ++ d))%nat with 0%nat by (rewrite app_length, firstn_length_le; lia). rewrite firstn_O, app_nil_r. apply firstn_all2. rewrite app_length, firstn_length_le; lia.
Qed.
Lemma overwrite_full buf i d : (i + length d = length buf)%nat -> overwrite buf i d = firstn i buf ++ d.
Proof. intros H. unfold overwrite. rewrite skipn_all2 by lia. now rewrite app_nil_r. Qed.

(** What is in the buffer when [r] is not yet processed *)
Definition holds (msg r : list Z) : Prop := length msg = 64%nat /\ bytes_ok msg /\ firstn (length r) msg = r.
Lemma loop_S k al h msg m : sha_loop (S k) al h msg m = if 64 <=? zlen m then sha_loop k al (process h (firstn 64 m)) (if al then msg else overwrite msg 0 (firstn 64 m)) (skipn 64 m) else (h, overwrite msg 0 m).
Proof. reflexivity. Qed.
Lemma ovr_0 msg m : length msg = 64%nat -> bytes_ok msg -> bytes_ok m -> (length m < 64)%nat -> holds (overwrite msg 0 m) m.
Proof. intros L Bm B E. split; [rewrite overwrite_length; lia|]. split; [now apply overwrite_ok|]. change (length m) with (0 + length m)%nat. rewrite overwrite_prefix by lia. reflexivity. Qed.
Lemma loop_ok al m fuel : (length m <= fuel)%nat -> bytes_ok m -> forall h msg, length msg = 64%nat -> bytes_ok msg ->
  exists msg', sha_loop fuel al h msg m = (fold_left process (blocks 64 m) h, msg') /\ holds msg' (rest 64 m).
Proof.
  revert m. induction fuel as [|k IH]; intros m Hf B h msg L Bm.
  - destruct m; [|cbn in Hf; lia]. exists (overwrite msg 0 []). split; [reflexivity|]. rewrite rest_short by (cbn; lia). now apply ovr_0; [| | |cbn; lia].
  - rewrite loop_S. destruct (64 <=? zlen m) eqn:E; unfold zlen in E.
    + assert (L64 : length (firstn 64 m) = 64%nat) by (apply firstn_length_le; lia).
      assert (H1 : length (if al then msg else overwrite msg 0 (firstn 64 m)) = 64%nat) by (destruct al; [exact L|rewrite overwrite_length; lia]).
      assert (H2 : bytes_ok (if al then msg else overwrite msg 0 (firstn 64 m))) by (destruct al; [exact Bm|]; apply overwrite_ok; [exact Bm|now apply bytes_ok_firstn]).
      assert (Hf2 : (length (skipn 64 m) <= k)%nat) by (rewrite skipn_length; lia).
      destruct (IH (skipn 64 m) Hf2 (bytes_ok_skipn 64 m B) (process h (firstn 64 m)) _ H1 H2) as (msg' & Q & R). clear H1 H2.
      assert (Eb : blocks 64 m = firstn 64 m :: blocks 64 (skipn 64 m)) by (rewrite <- (firstn_skipn 64 m) at 1; apply blocks_cons; [lia|exact L64]).
      assert (Er : rest 64 m = rest 64 (skipn 64 m)) by (rewrite <- (firstn_skipn 64 m) at 1; apply rest_cons; [lia|exact L64]).
      exists msg'. rewrite Eb, Er, fold_cons. split; [exact Q|exact R].
    + exists (overwrite msg 0 m). rewrite blocks_short, rest_short by lia. split; [reflexivity|]. now apply ovr_0; [| | |lia].
Qed.

(** The context after the bytes [data] *)
Definition rep (c : sha) (data : list Z) : Prop := s_hash c = fold_left process (blocks 64 data) start /\ s_len c = zlen data mod 2 ^ 64 /\ holds (s_msg c) (rest 64 data).
Lemma rep_init junk : length junk = 64%nat -> bytes_ok junk -> rep (sha_init junk) [].
Proof. intros L B. split; [reflexivity|]. split; [reflexivity|]. split; [exact L|]. split; [exact B|reflexivity]. Qed.
Lemma len_index data : Z.land (zlen data mod 2 ^ 64) 63 = Z.of_nat (length (rest 64 data)).
Proof. change 63 with (Z.ones 6). rewrite Z.land_ones by lia. rewrite rest_length by lia. rewrite Nat2Z.inj_mod. unfold zlen. change (2 ^ 6) with 64. change (Z.of_nat 64) with 64. change (2 ^ 64) with (64 * 2 ^ 58). rewrite Z.rem_mul_r by lia. rewrite Z.mul_comm, Z.mod_add, Z.mod_mod by lia. reflexivity. Qed.
Lemma rep_update c al m data : rep c data -> bytes_ok data -> bytes_ok m -> rep (sha_update c al m) (data ++ m).
Proof.
  intros (Hh & Hl & Lm & Bm & Hm) Bd B. pose proof (rest_lt 64 ltac:(lia) data) as Rl. unfold sha_update. rewrite Hl, len_index. set (r := rest 64 data) in *.
  assert (El : (zlen data mod 2 ^ 64 + zlen m) mod 2 ^ 64 = zlen (data ++ m) mod 2 ^ 64) by (rewrite zlen_app, Zplus_mod_idemp_l; reflexivity).
  assert (Eb : blocks 64 (data ++ m) = blocks 64 data ++ blocks 64 (r ++ m)) by (apply blocks_app; lia). assert (Er : rest 64 (data ++ m) = rest 64 (r ++ m)) by (apply rest_app; lia).
  unfold rep. rewrite Eb, Er, fold_left_app, <- Hh.
  destruct (Z.of_nat (length r) =? 0) eqn:E0; cbn [negb].
  - assert (Rn : r = []) by (apply length_zero_iff_nil; lia). rewrite Rn in *. cbn [app]. destruct (loop_ok al m (length m) ltac:(lia) B (s_hash c) (s_msg c) Lm Bm) as (msg' & Q & H). rewrite Q. cbn [s_hash s_len s_msg]. split; [reflexivity|]. split; [exact El|exact H].
  - destruct (zlen m <? 64 - Z.of_nat (length r)) eqn:E1; unfold zlen in E1.
    + cbn [s_hash s_len s_msg]. rewrite Nat2Z.id. rewrite blocks_short, rest_short by (rewrite app_length; lia). split; [reflexivity|]. split; [exact El|]. split; [rewrite overwrite_length; lia|]. split; [now apply overwrite_ok|]. rewrite app_length, overwrite_prefix by lia. now rewrite Hm.
    + rewrite Nat2Z.id. replace (Z.to_nat (64 - Z.of_nat (length r))) with (64 - length r)%nat by lia. set (q := (64 - length r)%nat). assert (Lq : length (firstn q m) = q) by (apply firstn_length_le; lia).
      assert (Eo : overwrite (s_msg c) (length r) (firstn q m) = r ++ firstn q m) by (rewrite overwrite_full by lia; now rewrite Hm). rewrite Eo.
      assert (L64 : length (r ++ firstn q m) = 64%nat) by (rewrite app_length; lia).
      destruct (loop_ok al (skipn q m) (length (skipn q m)) ltac:(lia) (bytes_ok_skipn q m B) (process (s_hash c) (r ++ firstn q m)) (r ++ firstn q m)) as (msg' & Q & H); [exact L64|apply bytes_ok_app; split; [now apply rest_ok|now apply bytes_ok_firstn]|].
      assert (Em : r ++ m = (r ++ firstn q m) ++ skipn q m) by (now rewrite <- app_assoc, firstn_skipn). rewrite Q. cbn [s_hash s_len s_msg]. rewrite Em, blocks_cons, rest_cons by (exact L64 || lia). rewrite fold_cons. split; [reflexivity|]. split; [exact El|exact H].
Qed.

(** ** Lemmas: the padding *)
Lemma mask_word x j : (j < 4)%nat -> Z.land x (Z.lxor (w32 (Z.shiftl 0xFFFFFFFF (Z.of_nat j * 8))) 0xFFFFFFFF) = x mod 256 ^ Z.of_nat j.
Proof.
  intros H. assert (J : (j = 0 \/ j = 1 \/ j = 2 \/ j = 3)%nat) by lia.
  destruct J as [->|[->|[->| ->]]]; [apply (Z.land_ones x 0)|apply (Z.land_ones x 8)|apply (Z.land_ones x 16)|apply (Z.land_ones x 24)]; discriminate.
Qed.
Lemma mark_word j : (j < 4)%nat -> w32 (Z.shiftl 0x80 (Z.of_nat j * 8)) = 128 * 2 ^ (8 * Z.of_nat j).
Proof. intros H. assert (J : (j = 0 \/ j = 1 \/ j = 2 \/ j = 3)%nat) by lia. destruct J as [->|[->|[->| ->]]]; reflexivity. Qed.
Lemma pow_256 j : 256 ^ Z.of_nat j = 2 ^ (8 * Z.of_nat j).
Proof. rewrite Z.pow_mul_r by lia. reflexivity. Qed.
Lemma le_val_zeros n : le_val (repeat 0 n) = 0.
Proof. induction n as [|n IH]; [reflexivity|]. cbn [repeat le_val]. rewrite IH. reflexivity. Qed.
Lemma word_pad w j : length w = 4%nat -> bytes_ok w -> (j < 4)%nat ->
  le_bytes 4 (Z.lxor (le_val (le_bytes 4 (Z.land (le_val w) (Z.lxor (w32 (Z.shiftl 0xFFFFFFFF (Z.of_nat j * 8))) 0xFFFFFFFF)))) (w32 (Z.shiftl 0x80 (Z.of_nat j * 8)))) = firstn j w ++ 128 :: repeat 0 (3 - j).
Proof.
  intros L B H. rewrite mask_word, mark_word by exact H. set (a := firstn j w). assert (La : length a = j) by (apply firstn_length_le; lia). assert (Ba : bytes_ok a) by now apply bytes_ok_firstn.
  pose proof (le_val_bound a Ba) as Va. rewrite La in Va.
  assert (E : le_val w mod 256 ^ Z.of_nat j = le_val a).
  { rewrite <- (firstn_skipn j w). fold a. rewrite le_val_app. unfold zlen. rewrite La. rewrite Z.mul_comm, Z.mod_add by (apply Z.pow_nonzero; lia). now apply Z.mod_small. }
  rewrite E. assert (V4 : 0 <= le_val a < 256 ^ Z.of_nat 4) by (split; [lia|]; apply Z.lt_le_trans with (256 ^ Z.of_nat j); [lia|apply Z.pow_le_mono_r; lia]).
  rewrite le_val_le_bytes by exact V4. rewrite nocarry by (rewrite <- ?pow_256; lia).
  assert (Q : le_val a + 128 * 2 ^ (8 * Z.of_nat j) = le_val (a ++ 128 :: repeat 0 (3 - j))).
  { rewrite le_val_app. cbn [le_val]. rewrite le_val_zeros. unfold zlen. rewrite La, <- pow_256. ring. }
  rewrite Q. assert (L4 : length (a ++ 128 :: repeat 0 (3 - j)) = 4%nat) by (rewrite app_length; cbn [length]; rewrite repeat_length; lia). rewrite <- L4 at 1. apply le_bytes_le_val.
  apply bytes_ok_app. split; [exact Ba|]. apply bytes_ok_cons. split; [split; [discriminate|reflexivity]|apply bytes_ok_repeat].
Qed.
Lemma firstn_over buf i d : (i <= length buf)%nat -> firstn i (overwrite buf i d) = firstn i buf.
Proof. intros H. unfold overwrite. rewrite firstn_app, firstn_firstn, Nat.min_id, firstn_length_le, Nat.sub_diag, firstn_O, app_nil_r by exact H. reflexivity. Qed.
Lemma skipn_over buf i d : (i + length d <= length buf)%nat -> skipn (i + length d) (overwrite buf i d) = skipn (i + length d) buf.
Proof.
  intros H. unfold overwrite. rewrite app_assoc, skipn_app. rewrite skipn_all2 by (rewrite app_length, firstn_length_le; lia). rewrite app_length, firstn_length_le by lia. rewrite Nat.sub_diag. reflexivity.
Qed.
Lemma get_set msg i x : (4 * i + 4 <= length msg)%nat -> get_word (set_word msg i x) i = le_val (le_bytes 4 x).
Proof.
  intros H. unfold get_word, set_word. f_equal. unfold overwrite. rewrite skipn_app. rewrite skipn_all2 by (rewrite firstn_length_le; lia). rewrite firstn_length_le by lia. rewrite Nat.sub_diag. cbn [skipn app]. rewrite firstn_app, le_bytes_length, Nat.sub_diag, firstn_O, app_nil_r. apply firstn_all2. rewrite le_bytes_length. lia.
Qed.
Lemma set_set msg i x y : (4 * i + 4 <= length msg)%nat -> set_word (set_word msg i x) i y = set_word msg i y.
Proof.
  intros H. unfold set_word. unfold overwrite at 1. rewrite firstn_over by lia. rewrite le_bytes_length. replace (4 * i + 4)%nat with (4 * i + length (le_bytes 4 x))%nat at 1 by (rewrite le_bytes_length; lia).
  rewrite skipn_over by (rewrite le_bytes_length; lia). unfold overwrite. now rewrite !le_bytes_length.
Qed.
(** The word with the mark *)
Lemma mark_ok msg k : length msg = 64%nat -> bytes_ok msg -> (k < 64)%nat ->
  (let index := (k / 4)%nat in let shift := Z.of_nat (k mod 4) * 8 in
   let msg := set_word msg index (Z.land (get_word msg index) (Z.lxor (w32 (Z.shiftl 0xFFFFFFFF shift)) 0xFFFFFFFF)) in
   set_word msg index (Z.lxor (get_word msg index) (w32 (Z.shiftl 0x80 shift)))) = firstn k msg ++ 128 :: repeat 0 (3 - k mod 4) ++ skipn (4 * S (k / 4)) msg.
Proof.
  intros L B H. cbv zeta. pose proof (Nat.div_mod k 4 ltac:(lia)) as D. pose proof (Nat.mod_upper_bound k 4 ltac:(lia)) as M. set (i := (k / 4)%nat) in *. set (j := (k mod 4)%nat) in *.
  rewrite get_set, set_set by lia. unfold set_word, get_word. set (w := firstn 4 (skipn (4 * i) msg)). assert (Lw : length w = 4%nat) by (apply firstn_length_le; rewrite skipn_length; lia).
  rewrite (word_pad w j Lw) by (try exact M; apply bytes_ok_firstn, bytes_ok_skipn, B). unfold overwrite.
  replace (4 * i + length (firstn j w ++ 128%Z :: repeat 0%Z (3 - j)))%nat with (4 * S i)%nat by (rewrite app_length, firstn_length_le by lia; cbn [length]; rewrite repeat_length; lia).
  rewrite <- app_assoc. cbn [app]. rewrite app_assoc. f_equal.
  unfold w. rewrite firstn_firstn, Nat.min_l by lia. rewrite D. rewrite <- (firstn_skipn (4 * i) msg) at 3. rewrite firstn_app. rewrite firstn_firstn, Nat.min_r by lia. rewrite firstn_length_le by lia. f_equal. f_equal. lia.
Qed.
Lemma skipn_skipn' (a b : nat) (l : list Z) : skipn a (skipn b l) = skipn (b + a) l.
Proof. revert l. induction b as [|b IH]; intros l; [reflexivity|]. destruct l; [now rewrite !skipn_nil|]. cbn. apply IH. Qed.
Lemma clear_ok n : forall msg i, (4 * (i + n) <= length msg)%nat -> clear msg i n = firstn (4 * i) msg ++ repeat 0 (4 * n) ++ skipn (4 * (i + n)) msg.
Proof.
  induction n as [|n IH]; intros msg i H; cbn [clear]; [rewrite Nat.mul_0_r, Nat.add_0_r; cbn [repeat app]; now rewrite firstn_skipn|].
  assert (L : length (set_word msg i 0) = length msg) by (apply overwrite_length; rewrite le_bytes_length; lia). rewrite IH by lia.
  change (set_word msg i 0) with (overwrite msg (4 * i) (repeat 0 4)).
  replace (4 * S i)%nat with (4 * i + length (repeat 0%Z 4))%nat by (cbn [length repeat]; lia). rewrite overwrite_prefix by (cbn [length repeat]; lia).
  rewrite <- app_assoc. f_equal. replace (4 * S n)%nat with (4 + 4 * n)%nat by lia. rewrite repeat_app, <- app_assoc. f_equal. f_equal.
  replace (4 * (S i + n))%nat with ((4 * i + length (repeat 0%Z 4)) + 4 * n)%nat by (cbn [length repeat]; lia). rewrite <- skipn_skipn', skipn_over by (cbn [length repeat]; lia). rewrite skipn_skipn'. f_equal. cbn [length repeat]. lia.
Qed.
(** The last eight bytes *)
Lemma be_bytes_split x : be_bytes 8 x = be_bytes 4 (x / 2 ^ 32) ++ be_bytes 4 x.
Proof. unfold be_bytes. rewrite <- rev_app_distr. f_equal. cbn [le_bytes app]. rewrite !Z.div_div by lia. reflexivity. Qed.
Lemma le_bytes_mod n x : le_bytes n (x mod 256 ^ Z.of_nat n) = le_bytes n x.
Proof.
  rewrite <- le_val_le_bytes_mod. rewrite <- (le_bytes_length n x) at 1. apply le_bytes_le_val, le_bytes_ok.
Qed.
Lemma be_bytes_w32 x : be_bytes 4 (w32 x) = be_bytes 4 x.
Proof. unfold be_bytes. f_equal. exact (le_bytes_mod 4 x). Qed.
Lemma len_bytes n : be_bytes 4 (w32 (Z.shiftr (n mod 2 ^ 64) 29)) ++ be_bytes 4 (w32 (Z.shiftl (n mod 2 ^ 64) 3)) = be_bytes 8 (8 * n mod 2 ^ 64).
Proof.
  rewrite be_bytes_split. rewrite Z.shiftr_div_pow2, Z.shiftl_mul_pow2 by lia. f_equal.
  - rewrite <- (be_bytes_w32 (8 * n mod 2 ^ 64 / 2 ^ 32)). f_equal. unfold w32. change (2 ^ 64) with (2 ^ 29 * 2 ^ 35) at 1. change (2 ^ 64) with (2 ^ 32 * 2 ^ 32).
    rewrite !Z.rem_mul_r by lia. rewrite (Z.mul_comm (2 ^ 29) (_ mod _)), Z.div_add by lia. rewrite (Z.div_small (n mod 2 ^ 29)) by (apply Z.mod_pos_bound; lia). rewrite (Z.mul_comm (2 ^ 32) (_ mod _)), Z.div_add by lia. rewrite (Z.div_small (_ mod 2 ^ 32)) by (apply Z.mod_pos_bound; lia). cbn [Z.add].
    rewrite !Z.add_0_l, Z.mod_mod by lia. change (2 ^ 35) with (2 ^ 32 * 2 ^ 3). rewrite Z.rem_mul_r by lia. rewrite Z.mul_comm, Z.mod_add, Z.mod_mod by lia. f_equal. change (2 ^ 32) with (8 * 2 ^ 29). now rewrite Z.div_mul_cancel_l by lia.
  - rewrite be_bytes_w32. rewrite <- (be_bytes_w32 (n mod 2 ^ 64 * 2 ^ 3)), <- (be_bytes_w32 (8 * n mod 2 ^ 64)). f_equal. unfold w32. change (2 ^ 64) with (2 ^ 32 * 2 ^ 32). rewrite !Z.rem_mul_r by lia. rewrite (Z.mul_comm (2 ^ 32) (_ mod _)). rewrite (Z.mul_comm (2 ^ 32) ((8 * n / 2 ^ 32) mod _)). rewrite Z.mod_add by lia.
    rewrite Z.mul_add_distr_r. replace ((n / 2 ^ 32) mod 2 ^ 32 * 2 ^ 32 * 2 ^ 3) with ((n / 2 ^ 32) mod 2 ^ 32 * 2 ^ 3 * 2 ^ 32) by ring. rewrite Z.mod_add by lia. rewrite Z.mul_mod_idemp_l, Z.mod_mod by lia. f_equal. ring.
Qed.
Lemma over_last msg a b : length msg = 64%nat -> length a = 4%nat -> length b = 4%nat -> overwrite (overwrite msg 56 a) 60 b = firstn 56 msg ++ a ++ b.
Proof.
  intros L A B. rewrite overwrite_full by (rewrite overwrite_length; lia). replace 60%nat with (56 + length a)%nat by lia. rewrite overwrite_prefix by lia. now rewrite <- app_assoc.
Qed.
Lemma mod_mul x a b : 0 < a -> 0 < b -> (x mod (a * b)) mod a = x mod a.
Proof. intros A B. rewrite Z.rem_mul_r by lia. rewrite Z.mul_comm, Z.mod_add, Z.mod_mod by lia. reflexivity. Qed.
Lemma final_ok c data : rep c data -> bytes_ok data -> sha_final c = concat (map (be_bytes 4) (fold_left process (blocks 64 (padded data)) start)).
Proof.
  intros (Hh & Hl & Lm & Bm & Hm) Bd. pose proof (rest_lt 64 ltac:(lia) data) as Rl. pose proof (len_index data) as LI. pose proof (rest_length 64 ltac:(lia) data) as RL.
  set (r := rest 64 data) in *. set (k := length r) in *.
  assert (I1 : Z.land (w32 (s_len c)) 63 = Z.of_nat k).
  { rewrite <- LI, Hl. change 63 with (Z.ones 6). rewrite !Z.land_ones by lia. unfold w32. change (2 ^ 64) with (2 ^ 6 * 2 ^ 58) at 2. change (2 ^ 64) with (2 ^ 32 * 2 ^ 32). rewrite mod_mul by lia. change (2 ^ 32) with (2 ^ 6 * 2 ^ 26). rewrite !mod_mul by lia. reflexivity. }
  assert (I2 : Z.to_nat (Z.shiftr (Z.of_nat k) 2) = (k / 4)%nat) by (rewrite Z.shiftr_div_pow2 by lia; change (2 ^ 2) with (Z.of_nat 4); rewrite <- Nat2Z.inj_div; apply Nat2Z.id).
  assert (I3 : Z.land (w32 (s_len c)) 3 = Z.of_nat (k mod 4)).
  { rewrite Nat2Z.inj_mod, <- I1. change 63 with (Z.ones 6). change 3 with (Z.ones 2). rewrite !Z.land_ones by lia. change (2 ^ 6) with (4 * 16). change (2 ^ 2) with 4. change (Z.of_nat 4) with 4. rewrite Z.rem_mul_r by lia. rewrite (Z.mul_comm 4), Z.mod_add, Z.mod_mod by lia. reflexivity. }
  unfold sha_final. rewrite I1, I2, I3. cbv zeta.
  pose proof (mark_ok (s_msg c) k Lm Bm Rl) as MK. cbv zeta in MK. rewrite MK, Hm. clear MK.
  pose proof (Nat.div_mod k 4 ltac:(lia)) as D. pose proof (Nat.mod_upper_bound k 4 ltac:(lia)) as M. set (i := (k / 4)%nat) in *. set (j := (k mod 4)%nat) in *.
  set (P := r ++ 128 :: repeat 0 (3 - j)). set (msg := r ++ 128 :: repeat 0 (3 - j) ++ skipn (4 * S i) (s_msg c)).
  assert (EP : msg = P ++ skipn (4 * S i) (s_msg c)) by (unfold msg, P; rewrite <- app_assoc; reflexivity).
  assert (LP : length P = (4 * S i)%nat) by (unfold P; rewrite app_length; cbn [length]; rewrite repeat_length; fold k; lia).
  assert (Lmsg : length msg = 64%nat) by (rewrite EP, app_length, skipn_length, LP, Lm; lia).
  assert (FP : firstn (4 * S i) msg = P) by (rewrite EP, firstn_app, LP, Nat.sub_diag, firstn_O, app_nil_r; apply firstn_all2; lia).
  assert (EZ : zlen data = 64 * Z.of_nat (length data / 64) + Z.of_nat k) by (unfold zlen; rewrite RL; rewrite (Nat.div_mod (length data) 64) at 1 by lia; lia).
  unfold padded. rewrite blocks_app, fold_left_app by lia. fold r. rewrite <- Hh.
  assert (N0 : (55 - zlen data) mod 64 = (55 - Z.of_nat k) mod 64) by (rewrite EZ; replace (55 - (64 * Z.of_nat (length data / 64) + Z.of_nat k)) with (55 - Z.of_nat k + (- Z.of_nat (length data / 64)) * 64) by ring; apply Z.mod_add; lia).
  rewrite N0. set (lb := be_bytes 8 (8 * zlen data mod 2 ^ 64)). assert (Llb : length lb = 8%nat) by apply be_bytes_length.
  assert (OL : forall m, length m = 64%nat -> overwrite (overwrite m 56 (be_bytes 4 (w32 (Z.shiftr (s_len c) 29)))) 60 (be_bytes 4 (w32 (Z.shiftl (s_len c) 3))) = firstn 56 m ++ lb).
  { intros m H. rewrite over_last by (auto using be_bytes_length). rewrite Hl, len_bytes. reflexivity. }
  destruct (14 <? Z.of_nat (S i)) eqn:E.
  - set (b1 := clear msg (S i) (16 - S i)). assert (E1 : b1 = P ++ repeat 0 (4 * (16 - S i))).
    { unfold b1. rewrite clear_ok by lia. rewrite FP. replace (4 * (S i + (16 - S i)))%nat with 64%nat by lia. rewrite skipn_all2 by lia. now rewrite app_nil_r. }
    assert (L1 : length b1 = 64%nat) by (rewrite E1, app_length, repeat_length; lia).
    assert (E2 : clear b1 0 14 = repeat 0 56 ++ skipn 56 b1) by (rewrite clear_ok by lia; reflexivity).
    change (14 - 0)%nat with 14%nat. rewrite OL by (rewrite E2, app_length, repeat_length, skipn_length; lia). rewrite E2. rewrite firstn_app, repeat_length, Nat.sub_diag, firstn_O, app_nil_r, (firstn_all2 (repeat 0 56)) by (rewrite repeat_length; lia).
    replace (Z.to_nat ((55 - Z.of_nat k) mod 64)) with ((3 - j) + (4 * (16 - S i)) + 56)%nat.
    2:{ replace (55 - Z.of_nat k) with (119 - Z.of_nat k + (-1) * 64) by ring. rewrite Z.mod_add by lia. rewrite Z.mod_small by lia. lia. }
    assert (Q : r ++ 128 :: repeat 0 (3 - j + 4 * (16 - S i) + 56) ++ lb = b1 ++ (repeat 0 56 ++ lb)).
    { rewrite E1. unfold P. rewrite !repeat_app. rewrite <- ?app_assoc. cbn [app]. rewrite <- ?app_assoc. reflexivity. }
    rewrite Q. rewrite blocks_cons by (lia || exact L1). assert (L2 : length (repeat 0 56 ++ lb) = 64%nat) by (rewrite app_length, repeat_length; lia).
    rewrite <- (app_nil_r (repeat 0 56 ++ lb)) at 2. rewrite blocks_cons by (lia || exact L2). rewrite blocks_short by (cbn; lia). rewrite !fold_cons. reflexivity.
  - set (b1 := clear msg (S i) (14 - S i)). assert (E1 : b1 = P ++ repeat 0 (4 * (14 - S i)) ++ skipn 56 msg).
    { unfold b1. rewrite clear_ok by lia. rewrite FP. do 2 f_equal. f_equal. lia. }
    assert (L1 : length b1 = 64%nat) by (rewrite E1, !app_length, repeat_length, skipn_length; lia).
    rewrite (OL b1 L1). assert (F1 : firstn 56 b1 = P ++ repeat 0 (4 * (14 - S i))).
    { rewrite E1, app_assoc, firstn_app. replace (56 - length (P ++ repeat 0%Z (4 * (14 - S i))))%nat with 0%nat by (rewrite app_length, repeat_length; lia). rewrite firstn_O, app_nil_r. apply firstn_all2. rewrite app_length, repeat_length. lia. }
    rewrite F1. replace (Z.to_nat ((55 - Z.of_nat k) mod 64)) with ((3 - j) + (4 * (14 - S i)))%nat by (rewrite Z.mod_small by lia; lia).
    assert (Q : r ++ 128 :: repeat 0 (3 - j + 4 * (14 - S i)) ++ lb = (P ++ repeat 0 (4 * (14 - S i))) ++ lb).
    { unfold P. rewrite !repeat_app. rewrite <- ?app_assoc. cbn [app]. rewrite <- ?app_assoc. reflexivity. }
    rewrite Q. set (b2 := (P ++ _) ++ lb). assert (L2 : length b2 = 64%nat) by (unfold b2; rewrite !app_length, repeat_length; lia).
    rewrite <- (app_nil_r b2) at 2. rewrite blocks_cons by (lia || exact L2). rewrite blocks_short by (cbn; lia). rewrite fold_cons. reflexivity.
Qed.
