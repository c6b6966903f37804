(** The progress of the chain is a number from 0 to 1, except at one second. *)
From Coq Require Import Floats.SpecFloat.
From Verif Require Import Common ProgressModel.

(** A float that is not negative and not NaN; finite ones have a mantissa above zero by type. *)
Definition nonneg (f : spec_float) : Prop :=
  match f with S754_zero s | S754_infinity s | S754_finite s _ _ => s = false | S754_nan => False end.
Definition finite (f : spec_float) : Prop := match f with S754_zero _ | S754_finite _ _ _ => True | _ => False end.

(* ---------- shifting right ---------- *)
Lemma shr_1_m r : 0 <= shr_m r -> shr_m (shr_1 r) = shr_m r / 2.
Proof.
  destruct r as [m r s]. cbn [shr_m]. intros H. rewrite <- Z.div2_div. destruct m as [|[p|p|]|p]; try reflexivity. lia.
Qed.
Lemma iter_shr p : forall r, 0 <= shr_m r -> shr_m (SpecFloat.iter_pos shr_1 p r) = shr_m r / 2 ^ Zpos p.
Proof.
  induction p as [p IH|p IH|]; intros r H; cbn [SpecFloat.iter_pos].
  - assert (H1 : 0 <= shr_m (shr_1 r)) by (rewrite shr_1_m by exact H; apply Z.div_pos; lia).
    assert (H2 : 0 <= shr_m (SpecFloat.iter_pos shr_1 p (shr_1 r))) by (rewrite IH by exact H1; apply Z.div_pos; lia).
    rewrite IH by exact H2. rewrite IH by exact H1. rewrite shr_1_m by exact H. rewrite !Z.div_div by lia.
    f_equal. rewrite (Pos2Z.inj_xI p), Z.pow_add_r, Z.pow_1_r by lia. replace (2 * Zpos p) with (Zpos p + Zpos p) by lia. rewrite Z.pow_add_r by lia. ring.
  - assert (H2 : 0 <= shr_m (SpecFloat.iter_pos shr_1 p r)) by (rewrite IH by exact H; apply Z.div_pos; lia).
    rewrite IH by exact H2. rewrite IH by exact H. rewrite Z.div_div by lia.
    f_equal. rewrite (Pos2Z.inj_xO p). replace (2 * Zpos p) with (Zpos p + Zpos p) by lia. rewrite Z.pow_add_r by lia. reflexivity.
  - rewrite shr_1_m by exact H. reflexivity.
Qed.
Lemma shr_spec r e n : 0 <= shr_m r -> shr_m (fst (shr r e n)) = shr_m r / 2 ^ Z.max 0 n /\ snd (shr r e n) = e + Z.max 0 n.
Proof.
  intros H. unfold shr. destruct n as [|p|p]; cbn [fst snd].
  - rewrite Z.div_1_r. split; [reflexivity|cbn; lia].
  - rewrite iter_shr by exact H. split; [reflexivity|lia].
  - rewrite Z.max_l, Z.div_1_r by lia. split; [reflexivity|lia].
Qed.
Lemma digits_pos p : 2 ^ (Zpos (digits2_pos p) - 1) <= Zpos p < 2 ^ Zpos (digits2_pos p).
Proof.
  induction p as [p IH|p IH|]; cbn [digits2_pos].
  3: { cbn. lia. }
  all: rewrite Pos2Z.inj_succ; replace (Z.succ (Zpos (digits2_pos p)) - 1) with (Z.succ (Zpos (digits2_pos p) - 1)) by lia; rewrite !Z.pow_succ_r by lia; lia.
Qed.
Lemma rec_of_loc m l : shr_m (shr_record_of_loc m l) = m.
Proof. destruct l as [|[]]; reflexivity. Qed.
Lemma round_up m l : m <= round_nearest_even m l <= m + 1.
Proof. destruct l as [|[]]; cbn [round_nearest_even]; try destruct (Z.even m); lia. Qed.
Lemma digits_le z k : 0 <= k -> 0 <= z < 2 ^ k -> Zdigits2 z <= k.
Proof.
  intros K H. destruct z as [|p|p]; cbn [Zdigits2]; [exact K| |lia].
  destruct (Z.le_gt_cases (Zpos (digits2_pos p)) k) as [L|L]; [exact L|].
  pose proof (digits_pos p) as D. pose proof (Z.pow_le_mono_r 2 k (Zpos (digits2_pos p) - 1)). lia.
Qed.
(** Shifting to 24 digits leaves a number above zero. *)
Lemma fexp_shift z e : -149 <= e -> 1 <= z -> 1 <= z / 2 ^ Z.max 0 (fexp 24 128 (Zdigits2 z + e) - e).
Proof.
  intros E H. destruct z as [|p|p]; try lia. cbn [Zdigits2]. pose proof (digits_pos p) as D.
  set (d := Zpos (digits2_pos p)) in *. assert (1 <= d) by (unfold d; lia).
  set (n := Z.max 0 _). assert (N : 0 <= n <= d - 1) by (unfold n, fexp, emin; lia).
  apply Z.div_le_lower_bound; [lia|]. pose proof (Z.pow_le_mono_r 2 n (d - 1)). lia.
Qed.

(* ---------- rounding ---------- *)
Lemma round_nonneg m e l : 0 <= m -> nonneg (binary_round_aux 24 128 false m e l).
Proof.
  intros H. unfold binary_round_aux, shr_fexp.
  pose proof (shr_spec (shr_record_of_loc m l) e (fexp 24 128 (Zdigits2 m + e) - e)) as [S1 _]; [rewrite rec_of_loc; exact H|].
  destruct (shr _ _ _) as [r e']. cbn [fst] in S1. rewrite rec_of_loc in S1.
  pose proof (round_up (shr_m r) (loc_of_shr_record r)) as R. set (m2 := round_nearest_even _ _) in *.
  assert (0 <= shr_m r) by (rewrite S1; apply Z.div_pos; lia).
  pose proof (shr_spec (shr_record_of_loc m2 loc_Exact) e' (fexp 24 128 (Zdigits2 m2 + e') - e')) as [S2 _]; [rewrite rec_of_loc; lia|].
  destruct (shr _ _ _) as [r2 e2]. cbn [fst] in S2. rewrite rec_of_loc in S2.
  assert (0 <= shr_m r2) by (rewrite S2; apply Z.div_pos; lia).
  destruct (shr_m r2); [reflexivity| |lia]. destruct (Zle_bool _ _); reflexivity.
Qed.
Lemma round_finite m e : 1 <= m < 2 ^ 64 -> -149 <= e <= 0 -> exists p e', binary_round_aux 24 128 false m e loc_Exact = S754_finite false p e'.
Proof.
  intros H E. unfold binary_round_aux, shr_fexp.
  pose proof (shr_spec (shr_record_of_loc m loc_Exact) e (fexp 24 128 (Zdigits2 m + e) - e)) as [S1 E1]; [rewrite rec_of_loc; lia|].
  pose proof (fexp_shift m e) as P1. pose proof (digits_le m 64) as D1.
  assert (Q1 : shr_m (shr_record_of_loc m loc_Exact) / 2 ^ Z.max 0 (fexp 24 128 (Zdigits2 m + e) - e) <= m).
  { rewrite rec_of_loc. assert (0 < 2 ^ Z.max 0 (fexp 24 128 (Zdigits2 m + e) - e)) by (apply Z.pow_pos_nonneg; lia).
    apply Z.div_le_upper_bound; [assumption|]. destruct H as [H _]. generalize dependent (2 ^ Z.max 0 (fexp 24 128 (Zdigits2 m + e) - e)). clear - H. intros. nia. }
  destruct (shr _ _ _) as [r e1]. cbn [fst snd] in S1, E1. rewrite <- S1 in Q1. rewrite rec_of_loc in S1. rewrite <- S1 in P1.
  specialize (P1 ltac:(lia) ltac:(lia)). specialize (D1 ltac:(lia) ltac:(lia)).
  assert (B1 : -149 <= e1 <= 40) by (unfold fexp, emin in E1; lia). clear E1 S1.
  pose proof (round_up (shr_m r) (loc_of_shr_record r)) as R. set (m2 := round_nearest_even _ _) in *.
  pose proof (shr_spec (shr_record_of_loc m2 loc_Exact) e1 (fexp 24 128 (Zdigits2 m2 + e1) - e1)) as [S2 E2]; [rewrite rec_of_loc; lia|].
  pose proof (fexp_shift m2 e1) as P2. pose proof (digits_le m2 65) as D2. change (2 ^ 65) with (2 * 2 ^ 64) in D2.
  destruct (shr _ _ _) as [r2 e2]. cbn [fst snd] in S2, E2. rewrite rec_of_loc in S2. rewrite <- S2 in P2.
  specialize (P2 ltac:(lia) ltac:(lia)). specialize (D2 ltac:(lia) ltac:(lia)).
  assert (B2 : e2 <= 104) by (unfold fexp, emin in E2; lia).
  destruct (shr_m r2) as [|p|p]; try lia. exists p, e2. rewrite (proj2 (Z.leb_le e2 (128 - 24))) by lia. reflexivity.
Qed.
Lemma of_u64_zero : of_u64 0 = S754_zero false.
Proof. reflexivity. Qed.
Lemma of_u64_pos z : 0 < z < 2 ^ 64 -> exists p e, of_u64 z = S754_finite false p e.
Proof.
  intros H. destruct z as [|p|p]; try lia. unfold of_u64, binary_normalize, binary_round, shl_align.
  pose proof (digits_pos p) as D. set (d := Zpos (digits2_pos p)) in *.
  destruct (fexp 24 128 (d + 0) - 0) as [|q|q] eqn:F.
  1, 2: apply round_finite; lia.
  assert (N : Zpos q = 24 - d /\ fexp 24 128 (d + 0) = d - 24) by (unfold fexp, emin in *; lia).
  apply round_finite; [|unfold fexp, emin; lia].
  rewrite shift_pos_correct. change (Z.pow_pos 2 q) with (2 ^ Zpos q).
  assert (2 ^ Zpos q * Zpos p < 2 ^ Zpos q * 2 ^ d) by (apply Zmult_lt_compat_l; [lia|apply D]).
  rewrite <- Z.pow_add_r in * by (unfold d; lia). replace (Zpos q + d) with 24 in * by lia.
  assert (0 < 2 ^ Zpos q) by lia. assert (2 ^ 24 < 2 ^ 64) by reflexivity. nia.
Qed.
Lemma of_u64_nonneg z : 0 <= z < 2 ^ 64 -> nonneg (of_u64 z) /\ finite (of_u64 z) /\ (of_u64 z = S754_zero false -> z = 0).
Proof.
  intros H. destruct (Z.eq_dec z 0) as [->|N]; [repeat split|].
  destruct (of_u64_pos z) as (p & e & ->); [lia|]. repeat split. discriminate.
Qed.

(* ---------- the order ---------- *)
Lemma not_above f : nonneg f -> SFltb fone f = false -> SFleb f fone = true.
Proof.
  intros N. change fone with (S754_finite false 8388608 (-23)). destruct f as [s|s| |s m e]; cbn in N; subst; try contradiction; try discriminate; try reflexivity.
  unfold SFltb, SFleb. cbn [SFcompare]. rewrite (Z.compare_antisym e (-23)). destruct (e ?= -23); cbn [CompOpp]; try discriminate; try reflexivity.
  change (Pos.compare_cont Eq m 8388608) with (m ?= 8388608)%positive. change (Pos.compare_cont Eq 8388608 m) with (8388608 ?= m)%positive.
  rewrite (Pos.compare_antisym m 8388608). destruct (m ?= 8388608)%positive; cbn [CompOpp]; try discriminate; reflexivity.
Qed.
Lemma above_zero f : nonneg f -> SFleb (S754_zero false) f = true.
Proof. destruct f as [s|s| |s m e]; cbn; intros N; subst; try contradiction; reflexivity. Qed.
Lemma div_nonneg x y : nonneg x -> nonneg y -> finite x -> finite y -> (x = S754_zero false -> y = S754_zero false -> False) -> nonneg (fdiv x y).
Proof.
  intros X Y FX FY Z0. destruct x as [s|s| |s m e], y as [s'|s'| |s' m' e']; cbn in X, Y, FX, FY; subst; try contradiction; try reflexivity.
  - exfalso. apply Z0; reflexivity.
  - unfold fdiv, SFdiv. destruct (SFdiv_core_binary 24 128 (Zpos m) e (Zpos m') e') as [[q e2] l] eqn:D. apply round_nonneg.
    unfold SFdiv_core_binary in D. set (m1 := match _ with Z0 => _ | Zpos _ => _ | Zneg _ => _ end) in D.
    assert (M : 0 <= m1). { unfold m1. destruct (e - e' - _) as [|k|k]; [lia|apply Z.shiftl_nonneg; lia|lia]. }
    pose proof (Z_div_mod m1 (Zpos m')) as Q. destruct (Z.div_eucl m1 (Zpos m')) as [q' r]. injection D as <- _ _.
    specialize (Q ltac:(lia)). nia.
Qed.

(** C94. The progress is a number from 0 to 1, unless the tip has the time of the genesis block and the
    clock shows 40 minutes after it. *)
Theorem progress_in_range_partial : forall start tip now,
  ((tip - start) mod 2 ^ 64 <> 0 \/ (now - start - 2400) mod 2 ^ 64 <> 0) ->
  SFleb (S754_zero false) (progress start tip now) = true /\ SFleb (progress start tip now) (S754_finite false 8388608 (-23)) = true.
Proof.
  intros start tip now N. unfold progress. change (40 * 60) with 2400.
  set (c := (tip - start) mod 2 ^ 64) in *. set (d := (now - start - 2400) mod 2 ^ 64) in *.
  assert (C : 0 <= c < 2 ^ 64) by (apply Z.mod_pos_bound; lia). assert (D : 0 <= d < 2 ^ 64) by (apply Z.mod_pos_bound; lia). clearbody c d.
  destruct (of_u64_nonneg c C) as (C1 & C2 & C3), (of_u64_nonneg d D) as (D1 & D2 & D3).
  assert (P : nonneg (fdiv (of_u64 c) (of_u64 d))). { apply div_nonneg; try assumption. intros X Y. apply C3 in X. apply D3 in Y. destruct N; contradiction. }
  destruct (SFltb fone (fdiv (of_u64 c) (of_u64 d))) eqn:L.
  - split; reflexivity.
  - split; [apply above_zero, P|apply (not_above _ P L)].
Qed.
(** On the main network (genesis 1580745078): half way, and caught up. *)
Example ex_progress :
  progress 1580745078 (1580745078 + 5000) (1580745078 + 2400 + 10000) = S754_finite false 8388608 (-24) /\
  progress 1580745078 1700000000 1700000500 = S754_finite false 8388608 (-23) /\
  progress 1580745078 1580745078 1700000500 = S754_zero false.
Proof. repeat split. Qed.

(** C94 refuted: it is always a number. A new chain 40 minutes after the genesis block has no number. *)
Theorem progress_in_range_refuted : exists start tip now, 0 <= start < 2 ^ 63 /\ start <= tip <= now /\ now < 2 ^ 63 /\ progress start tip now = S754_nan.
Proof. exists 1580745078, 1580745078, (1580745078 + 2400). split; [lia|]. split; [lia|]. split; [lia|reflexivity]. Qed.
(** C94 refuted: 1 only if the tip is at most 40 minutes old. Four seconds are lost in the float. *)
Theorem progress_one_refuted : exists start tip now, 0 <= start < 2 ^ 63 /\ start <= tip /\ tip + 2400 < now /\ now < 2 ^ 63 /\ progress start tip now = S754_finite false 8388608 (-23).
Proof. exists 1580745078, 1700000000, 1700002401. split; [lia|]. split; [lia|]. split; [lia|]. split; [lia|]. vm_compute. reflexivity. Qed.
(** C94 refuted: 1 if the tip is at most 40 minutes old. In the first 40 minutes of a chain the end wraps
    around, and a chain with the newest block has a progress below 2^-50. *)
Theorem progress_young_refuted : exists start tip now, 0 <= start < 2 ^ 63 /\ start <= tip <= now /\ now <= tip + 2400 /\ now < 2 ^ 63 /\
  SFltb (progress start tip now) (S754_finite false 8388608 (-73)) = true.
Proof. exists 1580745078, (1580745078 + 2000), (1580745078 + 2000). split; [lia|]. split; [lia|]. split; [lia|]. split; [lia|]. vm_compute. reflexivity. Qed.

Print Assumptions progress_in_range_partial.
Print Assumptions progress_in_range_refuted.
Print Assumptions progress_one_refuted.
Print Assumptions progress_young_refuted.
