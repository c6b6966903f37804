(** The progress of a chain whose tip is young enough is 1: rounding keeps the order. *)
From Coq Require Import Floats.SpecFloat.
From Verif Require Import Common ProgressModel ProgressTheorems.

(* ---------- rounding keeps the order ---------- *)
Definition weight (r : shr_record) : Z := 4 * shr_m r + (if shr_r r then 2 else 0) + (if shr_s r then 1 else 0).
Definition rounded (r : shr_record) : Z := round_nearest_even (shr_m r) (loc_of_shr_record r).
Lemma shr_1_weight r : 0 <= shr_m r -> weight (shr_1 r) = 2 * shr_m r + (if shr_r r || shr_s r then 1 else 0).
Proof. destruct r as [m r s]. unfold weight. cbn [shr_m shr_r shr_s]. intros H. destruct m as [|[p|p|]|p], r, s; cbn [shr_1 orb shr_m shr_r shr_s]; lia. Qed.
Lemma shr_1_mono r r' : 0 <= shr_m r -> 0 <= shr_m r' -> weight r <= weight r' -> weight (shr_1 r) <= weight (shr_1 r').
Proof.
  intros H H' W. rewrite !shr_1_weight by assumption. unfold weight in W. destruct (shr_r r), (shr_s r), (shr_r r'), (shr_s r'); cbn [orb]; lia.
Qed.
Lemma shr_1_pos r : 0 <= shr_m r -> 0 <= shr_m (shr_1 r).
Proof. intros H. rewrite shr_1_m by exact H. apply Z.div_pos; lia. Qed.
Lemma iter_pos_pos p : forall r, 0 <= shr_m r -> 0 <= shr_m (SpecFloat.iter_pos shr_1 p r).
Proof. intros r H. rewrite iter_shr by exact H. apply Z.div_pos; [exact H|]. apply Z.pow_pos_nonneg; lia. Qed.
Lemma iter_mono p : forall r r', 0 <= shr_m r -> 0 <= shr_m r' -> weight r <= weight r' -> weight (SpecFloat.iter_pos shr_1 p r) <= weight (SpecFloat.iter_pos shr_1 p r').
Proof.
  induction p as [p IH|p IH|]; intros r r' H H' W; cbn [SpecFloat.iter_pos].
  - apply IH; try apply iter_pos_pos; try apply shr_1_pos; try assumption. apply IH; try apply shr_1_pos; try assumption. apply shr_1_mono; assumption.
  - apply IH; try apply iter_pos_pos; try assumption. apply IH; assumption.
  - apply shr_1_mono; assumption.
Qed.
Lemma rounded_mono r r' : 0 <= shr_m r -> 0 <= shr_m r' -> weight r <= weight r' -> rounded r <= rounded r'.
Proof.
  destruct r as [m r s], r' as [m' r' s']. unfold weight, rounded. cbn [shr_m shr_r shr_s]. intros H H' W.
  destruct (Z.eq_dec m m') as [<-|N].
  - destruct r, s, r', s'; cbn [loc_of_shr_record round_nearest_even]; try destruct (Z.even m); lia.
  - assert (m + 1 <= m') by (destruct r, s, r', s'; lia).
    pose proof (round_up m (loc_of_shr_record {| shr_m := m; shr_r := r; shr_s := s |})). pose proof (round_up m' (loc_of_shr_record {| shr_m := m'; shr_r := r'; shr_s := s' |})). lia.
Qed.
Lemma shr_mono r r' e e' n : 0 <= shr_m r -> 0 <= shr_m r' -> weight r <= weight r' -> rounded (fst (shr r e n)) <= rounded (fst (shr r' e' n)).
Proof.
  intros H H' W. destruct n as [|p|p]; cbn [shr fst]; apply rounded_mono; try assumption.
  - apply iter_pos_pos; assumption.
  - apply iter_pos_pos; assumption.
  - apply iter_mono; assumption.
Qed.

(* ---------- the form of a rounded number ---------- *)
Lemma digits_spec z : 0 < z -> 1 <= Zdigits2 z /\ 2 ^ (Zdigits2 z - 1) <= z < 2 ^ Zdigits2 z.
Proof. intros H. destruct z as [|p|p]; try lia. cbn [Zdigits2]. split; [lia|]. apply digits_pos. Qed.
Lemma digits_unique z k : 1 <= k -> 2 ^ (k - 1) <= z < 2 ^ k -> Zdigits2 z = k.
Proof.
  intros K H. assert (0 < 2 ^ (k - 1)) by (apply Z.pow_pos_nonneg; lia). destruct (digits_spec z) as [D1 D2]; [lia|].
  pose proof (Z.pow_le_mono_r 2 (Zdigits2 z) (k - 1)). pose proof (Z.pow_le_mono_r 2 k (Zdigits2 z - 1)). lia.
Qed.
Lemma aux_form M e l : 0 < M -> 24 <= Zdigits2 M -> -149 <= e -> e + Zdigits2 M <= 120 ->
  exists m e', binary_round_aux 24 128 false M e l = S754_finite false m e' /\ 2 ^ 23 <= Zpos m < 2 ^ 24 /\
    let R := rounded (fst (shr (shr_record_of_loc M l) e (Zdigits2 M - 24))) in
    (Zpos m = R /\ e' = e + Zdigits2 M - 24) \/ (R = 2 ^ 24 /\ Zpos m = 2 ^ 23 /\ e' = e + Zdigits2 M - 23).
Proof.
  intros P D E B. unfold binary_round_aux, shr_fexp.
  replace (fexp 24 128 (Zdigits2 M + e) - e) with (Zdigits2 M - 24) by (unfold fexp, emin; lia).
  pose proof (shr_spec (shr_record_of_loc M l) e (Zdigits2 M - 24)) as [S1 E1]; [rewrite rec_of_loc; lia|].
  destruct (shr (shr_record_of_loc M l) e (Zdigits2 M - 24)) as [r e1]. cbn [fst snd] in *. rewrite rec_of_loc, Z.max_r in S1 by lia. rewrite Z.max_r in E1 by lia.
  destruct (digits_spec M P) as [_ [L U]].
  assert (Q : 2 ^ 23 <= shr_m r < 2 ^ 24).
  { rewrite S1. split.
    - apply Z.div_le_lower_bound; [apply Z.pow_pos_nonneg; lia|]. rewrite <- Z.pow_add_r by lia. replace (Zdigits2 M - 24 + 23) with (Zdigits2 M - 1) by lia. exact L.
    - apply Z.div_lt_upper_bound; [apply Z.pow_pos_nonneg; lia|]. rewrite <- Z.pow_add_r by lia. replace (Zdigits2 M - 24 + 24) with (Zdigits2 M) by lia. exact U. }
  fold (rounded r). pose proof (round_up (shr_m r) (loc_of_shr_record r)) as R. fold (rounded r) in R. set (m2 := rounded r) in *.
  change (2 ^ 23) with 8388608 in *. change (2 ^ 24) with 16777216 in *. clear S1 L U.
  destruct (Z.eq_dec m2 16777216) as [T|T].
  - rewrite T. change (Zdigits2 16777216) with 25. replace (fexp 24 128 (25 + e1) - e1) with 1 by (unfold fexp, emin; lia).
    cbn [shr shr_record_of_loc SpecFloat.iter_pos shr_1 shr_m]. rewrite (proj2 (Z.leb_le (e1 + 1) (128 - 24))) by lia.
    eexists _, _. split; [reflexivity|]. split; [lia|]. right. lia.
  - assert (D2 : Zdigits2 m2 = 24) by (apply digits_unique; change (2 ^ (24 - 1)) with 8388608; change (2 ^ 24) with 16777216; lia).
    rewrite D2. replace (fexp 24 128 (24 + e1) - e1) with 0 by (unfold fexp, emin; lia).
    cbn [shr shr_record_of_loc shr_m]. destruct m2 as [|p|p]; try lia.
    rewrite (proj2 (Z.leb_le e1 (128 - 24))) by lia. eexists _, _. split; [reflexivity|]. split; [lia|]. left. lia.
Qed.
(** What is rounded for a 64-bit number: at least 24 digits. *)
Definition wide (z : Z) : Z := z * 2 ^ Z.max 0 (24 - Zdigits2 z).
Lemma u64_aux z : 0 < z < 2 ^ 64 -> of_u64 z = binary_round_aux 24 128 false (wide z) (Z.min 0 (Zdigits2 z - 24)) loc_Exact /\ 0 < wide z /\ Zdigits2 (wide z) = Z.max 24 (Zdigits2 z) /\ 1 <= Zdigits2 z <= 64.
Proof.
  intros H. destruct (digits_spec z) as [D1 D2]; [lia|]. assert (D3 : Zdigits2 z <= 64) by (apply digits_le; lia).
  assert (W : 0 < wide z) by (unfold wide; apply Z.mul_pos_pos; [lia|apply Z.pow_pos_nonneg; lia]).
  split; [|split; [exact W|split; [|lia]]].
  - unfold wide. destruct z as [|p|p]; try lia. unfold of_u64, binary_normalize, binary_round, shl_align. cbn [Zdigits2] in *. set (d := Zpos (digits2_pos p)) in *.
    destruct (fexp 24 128 (d + 0) - 0) as [|q|q] eqn:F.
    + replace (Z.max 0 (24 - d)) with 0 by (unfold fexp, emin in F; lia). replace (Z.min 0 (d - 24)) with 0 by (unfold fexp, emin in F; lia). rewrite Z.mul_1_r. reflexivity.
    + replace (Z.max 0 (24 - d)) with 0 by (unfold fexp, emin in F; lia). replace (Z.min 0 (d - 24)) with 0 by (unfold fexp, emin in F; lia). rewrite Z.mul_1_r. reflexivity.
    + replace (fexp 24 128 (d + 0)) with (Z.min 0 (d - 24)) by (unfold fexp, emin in *; lia). f_equal.
      rewrite shift_pos_correct. change (Z.pow_pos 2 q) with (2 ^ Zpos q). replace (Z.max 0 (24 - d)) with (Zpos q) by (unfold fexp, emin in F; lia). apply Z.mul_comm.
  - unfold wide. set (d := Zdigits2 z) in *. set (k := Z.max 0 (24 - d)). replace (Z.max 24 d) with (d + k) by (unfold k; lia).
    assert (0 <= k) by (unfold k; lia). assert (0 < 2 ^ k) by (apply Z.pow_pos_nonneg; lia).
    apply digits_unique; [lia|]. replace (d + k - 1) with (d - 1 + k) by lia. rewrite !Z.pow_add_r by lia. split; [apply Z.mul_le_mono_nonneg_r; lia|apply Z.mul_lt_mono_pos_r; lia].
Qed.
Lemma u64_mono z z' : 0 < z <= z' -> z' < 2 ^ 64 -> exists m e m' e', of_u64 z = S754_finite false m e /\ of_u64 z' = S754_finite false m' e' /\
  2 ^ 23 <= Zpos m < 2 ^ 24 /\ 2 ^ 23 <= Zpos m' < 2 ^ 24 /\ -23 <= e <= 41 /\ -23 <= e' <= 41 /\ (e < e' \/ (e = e' /\ Zpos m <= Zpos m')).
Proof.
  intros H H'. destruct (u64_aux z) as (A & W & D & B); [lia|]. destruct (u64_aux z') as (A' & W' & D' & B'); [lia|].
  destruct (digits_spec z) as [_ S]; [lia|]. destruct (digits_spec z') as [_ S']; [lia|].
  assert (DD : Zdigits2 z <= Zdigits2 z') by (apply digits_le; lia).
  destruct (aux_form (wide z) (Z.min 0 (Zdigits2 z - 24)) loc_Exact) as (m & e & F & M & R); try lia.
  destruct (aux_form (wide z') (Z.min 0 (Zdigits2 z' - 24)) loc_Exact) as (m' & e' & F' & M' & R'); try lia.
  exists m, e, m', e'. rewrite A, A', F, F'. split; [reflexivity|]. split; [reflexivity|]. split; [exact M|]. split; [exact M'|].
  cbv zeta in R, R'. rewrite D in R. rewrite D' in R'.
  destruct (Z.eq_dec (Zdigits2 z) (Zdigits2 z')) as [Q|Q].
  - assert (RR : rounded (fst (shr (shr_record_of_loc (wide z) loc_Exact) (Z.min 0 (Zdigits2 z - 24)) (Z.max 24 (Zdigits2 z) - 24)))
      <= rounded (fst (shr (shr_record_of_loc (wide z') loc_Exact) (Z.min 0 (Zdigits2 z' - 24)) (Z.max 24 (Zdigits2 z') - 24)))).
    { rewrite <- Q. apply shr_mono; try (rewrite rec_of_loc; lia). unfold weight. cbn [shr_record_of_loc shr_m shr_r shr_s].
      assert (wide z <= wide z'); [|lia]. unfold wide. rewrite <- Q. apply Z.mul_le_mono_nonneg_r; [apply Z.pow_nonneg; lia|lia]. }
    destruct R as [R|R], R' as [R'|R']; lia.
  - destruct R as [R|R], R' as [R'|R']; lia.
Qed.

(* ---------- the quotient ---------- *)
Lemma div_above m1 e1 m2 e2 : 2 ^ 23 <= Zpos m1 < 2 ^ 24 -> 2 ^ 23 <= Zpos m2 < 2 ^ 24 -> 0 <= e1 - e2 <= 64 -> (e2 < e1 \/ Zpos m2 <= Zpos m1) ->
  exists m e, fdiv (S754_finite false m1 e1) (S754_finite false m2 e2) = S754_finite false m e /\ 2 ^ 23 <= Zpos m /\ -23 <= e.
Proof.
  intros H1 H2 E C. unfold fdiv, SFdiv, SFdiv_core_binary.
  rewrite (digits_unique (Zpos m1) 24), (digits_unique (Zpos m2) 24) by (first [exact H1|exact H2|lia]).
  replace (Z.min (fexp 24 128 (24 + e1 - (24 + e2))) (e1 - e2)) with (e1 - e2 - 24) by (unfold fexp, emin; lia).
  replace (e1 - e2 - (e1 - e2 - 24)) with 24 by lia. rewrite Z.shiftl_mul_pow2 by lia.
  pose proof (Z_div_mod (Zpos m1 * 2 ^ 24) (Zpos m2) ltac:(lia)) as Q. destruct (Z.div_eucl (Zpos m1 * 2 ^ 24) (Zpos m2)) as [q r].
  change (2 ^ 23) with 8388608 in *. change (2 ^ 24) with 16777216 in *.
  assert (Q1 : 8388608 <= q) by nia. assert (Q2 : q < 33554432) by nia. assert (Q3 : Zpos m2 <= Zpos m1 -> 16777216 <= q) by (intros; nia).
  assert (D1 : Zdigits2 q <= 25) by (apply digits_le; [lia|change (2 ^ 25) with 33554432; lia]).
  assert (D2 : 24 <= Zdigits2 q) by (destruct (digits_spec q) as [_ [_ U]]; [lia|]; destruct (Z.le_gt_cases 24 (Zdigits2 q)) as [L|L]; [exact L|]; pose proof (Z.pow_le_mono_r 2 (Zdigits2 q) 23) as P; change (2 ^ 23) with 8388608 in P; lia).
  assert (D3 : 16777216 <= q -> Zdigits2 q = 25) by (intros; apply digits_unique; [lia|change (2 ^ (25 - 1)) with 16777216; change (2 ^ 25) with 33554432; lia]).
  cbn [xorb]. destruct (aux_form q (e1 - e2 - 24) (new_location (Zpos m2) r)) as (m & e & F & M & R); try lia.
  exists m, e. split; [exact F|]. change (2 ^ 23) with 8388608 in *. split; [lia|]. cbv zeta in R.
  destruct C as [C|C]; [|specialize (D3 (Q3 C))]; destruct R as [R|R]; lia.
Qed.
Lemma cut_above m e : 2 ^ 23 <= Zpos m -> -23 <= e -> (if SFltb fone (S754_finite false m e) then fone else S754_finite false m e) = S754_finite false 8388608 (-23).
Proof.
  intros M E. change fone with (S754_finite false 8388608 (-23)). unfold SFltb. cbn [SFcompare].
  destruct (Z.compare_spec (-23) e) as [<-|L|G]; [|reflexivity|lia].
  change (Pos.compare_cont Eq 8388608 m) with (8388608 ?= m)%positive. destruct (Pos.compare_spec 8388608 m) as [<-|L|G]; [reflexivity|reflexivity|].
  change (2 ^ 23) with 8388608 in M. lia.
Qed.

(** C94. From 40 minutes after the genesis block on, the progress is 1 if the tip is at most 40 minutes
    behind the clock. *)
Theorem progress_caught_up_partial : forall start tip now, 0 <= start -> start + 2400 < now -> now - 2400 <= tip -> tip < 2 ^ 64 ->
  progress start tip now = S754_finite false 8388608 (-23).
Proof.
  intros start tip now S N T U. unfold progress. change (40 * 60) with 2400. rewrite !Z.mod_small by lia.
  destruct (u64_mono (now - start - 2400) (tip - start)) as (m & e & m' & e' & -> & -> & M & M' & E & E' & O); [lia|lia|].
  destruct (div_above m' e' m e) as (mq & eq & -> & Q1 & Q2); try lia. apply cut_above; assumption.
Qed.
(** A tip a little behind the clock, and one before it. *)
Example ex_caught_up : 1580745078 + 2400 < 1700000000 /\ 1700000000 - 2400 <= 1699997601 < 2 ^ 64 /\
  progress 1580745078 1699997601 1700000000 = S754_finite false 8388608 (-23) /\ progress 1580745078 1700000007 1700000000 = S754_finite false 8388608 (-23) /\
  progress 1580745078 1640000000 1700000000 <> S754_finite false 8388608 (-23).
Proof. split; [lia|]. split; [lia|]. split; [reflexivity|]. split; [reflexivity|]. vm_compute. discriminate. Qed.

Print Assumptions progress_caught_up_partial.
