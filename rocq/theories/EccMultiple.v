(** The ladder computes the multiple where the next odd multiple exists, and zero otherwise. *)
From Verif Require Import Common CommonFacts EccModel EccSpec EccLimb EccMult EccField EccPrime EccLadder EccAlgebra EccCurve.
From Coq Require Import Znumtheory Setoid Morphisms.

Lemma line_eqpt l a b b' c : eqpt b b' -> line l a b c -> line l a b' c.
Proof. intros [E1 E2] [L [X Y]]. split; [rewrite <- E1, <- E2; exact L|]. split; [rewrite <- E1; exact X|exact Y]. Qed.
Section Ladder.
Variable P : Z * Z.
Hypothesis HP : on_curve P.
Definition live (m : Z) (r : zpt * zpt) : Prop :=
  exists z a b l, 1 <= m /\ unitp z /\ on_curve a /\ on_curve b /\ multiple P m a /\ multiple P (m + 1) b /\
    rep z a (fst r) /\ rep z b (snd r) /\ line l a P b.
Definition both (m : Z) : Prop := (exists a, multiple P m a) /\ (exists b, multiple P (m + 1) b).
(** After the first addition of a round *)
Definition mid (m : Z) (nb : bool) (r : zpt * zpt) : Prop :=
  exists z s d k c, unitp z /\ rep z s (zpick nb r) /\ rep z d (zpick (negb nb) r) /\ line k s d c /\ unitp (fst d - fst s) /\
    on_curve s /\ on_curve c /\ multiple P (2 * m + 1) s /\ multiple P (if nb then 2 * m else 2 * m + 2) c /\
    eqpt d (if nb then neg P else P).
Lemma rep_diff z a b A B : rep z a A -> rep z b B -> eqp (fst B - fst A) ((fst b - fst a) * z * z).
Proof. intros [A1 _] [B1 _]. rewrite A1, B1. ering. Qed.
Lemma unit_diff z a b A B : unitp z -> rep z a A -> rep z b B -> unitp (fst b - fst a) -> unitp (z * (fst B - fst A)).
Proof.
  intros Uz RA RB U. apply unit_mul; [exact Uz|]. apply (unit_eqp _ _ (eqp_sym _ _ (rep_diff z a b A B RA RB))).
  apply unit_mul; [apply unit_mul; assumption|exact Uz].
Qed.
Lemma first_half m nb r : live m r -> mid m nb (zl_addc nb r) \/ (lost nb (zl_addc nb r) /\ ~ exists c, multiple P (2 * m + 1) c).
Proof.
  intros (z & a & b & L & M & Uz & A & B & MA & MB & RA & RB & HL).
  destruct (unit_or_zero (fst b - fst a)) as [U|Z0].
  - left. unfold mid, zl_addc. destruct nb; cbn [negb zpick].
    + destruct (line_exists a b U) as (l & s & LS). destruct (line_exists a (neg b) U) as (mm & d & LD).
      destruct (round_points l mm a b s d A B U LS LD) as (k & c & T & OC & OS & LK & UD).
      destruct (zaddc_rep z l mm a b s d _ _ RA RB LS LD) as [RD RS].
      destruct (zaddc (fst r) (snd r)) as [p q]. cbn [fst snd zput] in *.
      exists (z * (fst (snd r) - fst (fst r))), s, d, k, c. repeat split; try assumption.
      * apply (unit_diff z a b); assumption.
      * apply RS.
      * apply RS.
      * apply RD.
      * apply RD.
      * apply LK.
      * apply LK.
      * apply LK.
      * apply (multiple_odd P m a b s M MA MB). split; [exact U|]. exists l. exact LS.
      * apply (multiple_even P m a c MA T).
      * apply (line_unique mm L a (neg b) d (neg P) U LD). apply line_sym.
        rewrite <- (Z.opp_involutive L), <- (neg_neg a). apply line_neg. apply line_turn. apply line_sym. exact HL.
      * apply (line_unique mm L a (neg b) d (neg P) U LD). apply line_sym.
        rewrite <- (Z.opp_involutive L), <- (neg_neg a). apply line_neg. apply line_turn. apply line_sym. exact HL.
    + assert (U' : unitp (fst a - fst b)). { apply (unit_eqp (- (fst b - fst a))); [ering|]. apply unit_opp. exact U. }
      destruct (line_exists b a U') as (l & s & LS). destruct (line_exists b (neg a) U') as (mm & d & LD).
      destruct (round_points l mm b a s d B A U' LS LD) as (k & c & T & OC & OS & LK & UD).
      destruct (zaddc_rep z l mm b a s d _ _ RB RA LS LD) as [RD RS].
      destruct (zaddc (snd r) (fst r)) as [p q]. cbn [fst snd zput] in *.
      exists (z * (fst (fst r) - fst (snd r))), s, d, k, c. 
      assert (D : eqpt d P). { apply (line_unique mm (- L) b (neg a) d P U' LD). apply line_turn. apply line_sym. exact HL. }
      repeat split; try assumption.
      * apply (unit_diff z b a); assumption.
      * apply RS.
      * apply RS.
      * apply RD.
      * apply RD.
      * apply LK.
      * apply LK.
      * apply LK.
      * apply (multiple_odd P m a b s M MA MB). split; [exact U|]. exists l. apply line_sym. exact LS.
      * replace (2 * m + 2) with (2 * (m + 1)) by ring. apply (multiple_even P (m + 1) b c MB T).
      * apply D.
      * apply D.
  - right. assert (E : eqp (fst b) (fst a)). { apply (lin1 _ _ 1 _ _ Z0). ring. }
    split; [exact (addc_lost nb z a b r A B E RA RB)|]. intros [c C]. apply multiple_odd_inv in C; [|exact M].
    destruct C as (a' & b' & C1 & C2 & [U _]).
    pose proof (multiple_unique P _ m a a' (Nat.le_refl _) MA C1) as [Q1 _].
    pose proof (multiple_unique P _ (m + 1) b b' (Nat.le_refl _) MB C2) as [Q2 _].
    apply unit_nz in U. apply U. rewrite <- Q1, <- Q2, E. ering.
Qed.
Definition bit01 (nb : bool) : Z := if nb then 0 else 1.
Lemma second_half m nb r : 1 <= m -> mid m nb r -> live (2 * m + bit01 nb) (zl_add nb r).
Proof.
  intros M (z & s & d & k & c & Uz & RS & RD & LK & UD & OS & OC & MS & MC & D). unfold zl_add.
  pose proof (unit_diff z s d _ _ Uz RS RD UD) as Uz'.
  destruct (zadd_rep z k s d c _ _ RS RD LK) as [S1 S2].
  pose proof (line_eqpt k s d _ c D LK) as LP.
  unfold live. destruct nb; cbn [negb zpick bit01] in *; destruct (zadd _ _) as [p q]; cbn [fst snd zput] in *.
  - exists (z * (fst (fst r) - fst (snd r))), c, s, (- k). rewrite Z.add_0_r.
    pose proof (line_turn _ _ _ _ LP) as LT. rewrite neg_neg in LT. repeat split; try assumption; try lia; try apply S1; try apply S2; apply LT.
  - exists (z * (fst (snd r) - fst (fst r))), s, c, k. replace (2 * m + 1 + 1) with (2 * m + 2) by ring.
    repeat split; try assumption; try lia; try apply S1; try apply S2; apply LP.
Qed.
Definition state (m : Z) (r : zpt * zpt) : Prop := 1 <= m /\ (live m r \/ (dead r /\ ~ both m)).
Lemma no_odd m : 1 <= m -> ~ both m -> ~ exists c, multiple P (2 * m + 1) c.
Proof. intros M N [c C]. apply multiple_odd_inv in C; [|exact M]. destruct C as (a & b & X & Y & _). apply N. split; eauto. Qed.
Lemma no_both m nb : (~ exists c, multiple P (2 * m + 1) c) -> ~ both (2 * m + bit01 nb).
Proof.
  intros N [X Y]. apply N. destruct nb; cbn [bit01] in *; [|exact X]. rewrite Z.add_0_r in Y. exact Y.
Qed.
Lemma step m nb r : state m r -> state (2 * m + bit01 nb) (zl_add nb (zl_addc nb r)).
Proof.
  intros (M & [H|[H N]]); (split; [destruct nb; cbn [bit01]; lia|]).
  - destruct (first_half m nb r H) as [K|[K N]]; [left; apply second_half; assumption|right]. split; [|apply no_both; exact N].
    destruct (lost_add nb _ K) as (f & X & Y & _). exists f. destruct nb; cbn [negb zpick] in *; [right|left]; split; assumption.
  - right. split; [apply dead_step; exact H|]. apply no_both. apply no_odd; assumption.
Qed.
Lemma loop_state k : 0 <= k -> forall n r, state (k / 2 ^ (Z.of_nat n + 1)) r -> state (k / 2) (zloop n k r).
Proof.
  intros Hk. induction n; intros r H; [exact H|]. cbn [zloop]. apply IHn.
  replace (k / 2 ^ (Z.of_nat n + 1)) with (2 * (k / 2 ^ (Z.of_nat (S n) + 1)) + bit01 (negb (Z.testbit k (Z.of_nat (S n))))); [apply step; exact H|].
  rewrite Nat2Z.inj_succ. unfold Z.succ. set (e := Z.of_nat n + 1). assert (He : 0 <= e) by (unfold e; lia). clearbody e.
  rewrite Z.pow_add_r, Z.pow_1_r, <- Z.div_div by (lia || (apply Z.pow_nonzero; lia)). set (q := k / 2 ^ e).
  assert (T : bit01 (negb (Z.testbit k e)) = q mod 2).
  { unfold q. rewrite <- Z.testbit_spec' by exact He. destruct (Z.testbit k e); reflexivity. }
  rewrite T. symmetry. apply Z.div_mod. discriminate.
Qed.
(** ** The last round *)
Hypothesis HX : unitp (fst P).
Lemma zapply_eq a z : eqpt (zapply a z) (fst a * z * z, snd a * z * z * z).
Proof. unfold zapply, eqpt. cbn [fst snd]. split; fe; ering. Qed.
Definition inv_z (nb : bool) (r : zpt * zpt) : Z := 
  fmul (fmul (finv (fmul (fmul (fsub (fst (snd r)) (fst (fst r))) (snd (zpick (negb nb) r))) (fst P))) (snd P)) (fst (zpick (negb nb) r)).
Lemma zfinish_eq nb r : zfinish P nb r = zapply (fst (zl_add nb r)) (inv_z nb r).
Proof. unfold zfinish, inv_z. cbv zeta. reflexivity. Qed.
Lemma zapply_zero a z : eqp z 0 \/ eqpt a (0, 0) -> zapply a z = (0, 0).
Proof.
  intros H. assert (E : eqpt (zapply a z) (0, 0)).
  { eapply eqpt_trans; [apply zapply_eq|]. destruct H as [H|[H K]]; cbn [fst snd] in *; split; cbn [fst snd]; [rewrite H|rewrite H|rewrite H|rewrite K]; ering. }
  destruct E as [E1 E2]. cbn [fst snd] in E1, E2.
  assert (R : redp (zapply a z)) by (unfold zapply, redp; cbn [fst snd]; auto with fp). destruct R as [R1 R2].
  rewrite (surjective_pairing (zapply a z)). f_equal; apply red_zero; assumption.
Qed.
Lemma finish_lost nb r : lost nb r -> zfinish P nb r = (0, 0).
Proof.
  intros H. rewrite zfinish_eq. apply zapply_zero. destruct (lost_add nb r H) as (f & X & Y & [Z0|[Z0 _]]).
  - right. assert (X' : eqpt (zpick nb (zl_add nb r)) (0, 0)).
    { eapply eqpt_trans; [exact X|]. unfold cusp. split; cbn [fst snd]; rewrite Z0; ering. }
    destruct nb; cbn [negb zpick] in *; assumption.
  - left. unfold inv_z. match goal with |- eqp (fmul ?u ?v) _ => generalize dependent v; generalize u; intros u0 v0 Z0 end.
    rewrite fe_mul, Z0. cbn [fst]. ering.
Qed.
Lemma finish_mid m nb r : 1 <= m -> mid m nb r -> on_curve (zfinish P nb r) /\ multiple P (2 * m + bit01 nb) (zfinish P nb r).
Proof.
  intros M (z & s & d & k & c & Uz & RS & RD & LK & UD & OS & OC & MS & MC & D). rewrite zfinish_eq.
  destruct (zadd_rep z k s d c _ _ RS RD LK) as [S1 S2].
  pose proof (unit_diff z s d _ _ Uz RS RD UD) as Uz'.
  set (z' := z * (fst (zpick (negb nb) r) - fst (zpick nb r))) in *.
  assert (Q : exists q, rep z' q (fst (zl_add nb r)) /\ on_curve q /\ multiple P (2 * m + bit01 nb) q).
  { unfold zl_add. destruct nb; cbn [negb zpick bit01] in *; destruct (zadd _ _) as [u v]; cbn [zput fst snd] in *; [exists c|exists s].
    - rewrite Z.add_0_r. auto.
    - auto. }
  destruct Q as (q & RQ & OQ & MQ).
  assert (IZ : eqp (inv_z nb r * z') 1).
  { destruct RD as [RD1 RD2]. destruct D as [D1 D2].
    set (w := fmul (fmul (fsub (fst (snd r)) (fst (fst r))) (snd (zpick (negb nb) r))) (fst P)).
    assert (W : eqp w (z' * snd P * fst P * z * z)).
    { unfold w. fe. unfold z'. destruct nb; cbn [negb zpick] in *; rewrite RD2, D2; cbn [neg snd fst]; ering. }
    assert (UW : unitp w).
    { apply (unit_eqp _ _ (eqp_sym _ _ W)). repeat (apply unit_mul; try assumption). apply y_unit. exact HP. }
    apply (unit_cancel w); [exact UW|]. unfold inv_z. fold w. pose proof (fe_inv w UW) as FI. generalize dependent (finv w). intros i FI.
    clearbody w z'. generalize dependent (fst (zpick (negb nb) r)). intros xd RD1.
    transitivity ((i * w) * (snd P * xd * z')); [rewrite !fe_mul; ering|]. rewrite FI, W, RD1, D1.
    destruct nb; cbn [neg fst]; ering. }
  assert (E : eqpt (zapply (fst (zl_add nb r)) (inv_z nb r)) q).
  { eapply eqpt_trans; [apply zapply_eq|]. destruct RQ as [R1 R2]. generalize dependent (inv_z nb r). intros i IZ. clearbody z'. clear - R1 R2 IZ.
    generalize dependent (zl_add nb r). intros r2 R1 R2. split; cbn [fst snd].
    - rewrite R1. transitivity (fst q * (i * z') * (i * z')); [ering|]. rewrite !IZ. ering.
    - rewrite R2. transitivity (snd q * (i * z') * (i * z') * (i * z')); [ering|]. rewrite !IZ. ering. }
  apply eqpt_sym in E. split; [exact (curve_eqpt _ _ E OQ)|]. apply (multiple_eqpt P _ q); [destruct nb; cbn [bit01]; lia|exact E|exact MQ].
Qed.
Lemma zero2_lost nb r : zero2 r -> lost nb r.
Proof. intros [H K]. exists 0. left. destruct nb; cbn [negb zpick]; split; assumption. Qed.
Lemma last m nb r : state m r ->
  (on_curve (zfinish P nb (zl_addc nb r)) /\ multiple P (2 * m + bit01 nb) (zfinish P nb (zl_addc nb r)) /\ (exists c, multiple P (2 * m + 1) c)) \/
  (zfinish P nb (zl_addc nb r) = (0, 0) /\ ~ exists c, multiple P (2 * m + 1) c).
Proof.
  intros (M & [H|[H N]]).
  - destruct (first_half m nb r H) as [K|[K N]].
    + left. destruct (finish_mid m nb _ M K). split; [assumption|split; [assumption|]]. destruct K as (z & s & d & k & c & K). exists s. apply K.
    + right. split; [apply finish_lost; exact K|exact N].
  - right. split; [apply finish_lost, zero2_lost, addc_dead; exact H|]. apply no_odd; assumption.
Qed.
(** ** The start *)
Hypothesis RP : redp P.
Lemma zdouble_eq x y z : red x -> red y -> red z -> exists h,
  eqp (2 * h) (3 * (x + z * z) * (x - z * z)) /\
  let x3 := h * h - 2 * x * y * y in
  eqpt (fst (zdouble x y z)) (x3, h * (x * y * y - x3) - y * y * y * y) /\ eqp (snd (zdouble x y z)) (y * z).
Proof.
  intros Hx Hy Hz. unfold zdouble. cbv zeta. cbn [fst snd].
  match goal with |- context [fhalf ?u] => set (u0 := u) end. exists (fhalf u0).
  assert (R : red u0) by (unfold u0; auto with fp). split; [rewrite (fe_half u0 R); unfold u0; fe; ering|].
  clearbody u0. unfold eqpt. cbn [fst snd]. split; [split|]; fe; ering.
Qed.
Lemma start : state 1 (let '(r1, r0) := zinitial P in (r0, r1)).
Proof.
  split; [lia|]. left. unfold zinitial. set (q := zapply P 1).
  assert (RQ : redp q) by (unfold q, zapply, redp; cbn [fst snd]; auto with fp).
  assert (QP : eqpt q P). { eapply eqpt_trans; [apply zapply_eq|]. split; cbn [fst snd]; ering. }
  destruct (zdouble_eq (fst q) (snd q) 1 (proj1 RQ) (proj2 RQ) red1) as (h & Hh & E1 & E2).
  destruct (zdouble (fst q) (snd q) 1) as [d z]. cbn [fst snd] in E1, E2. clearbody q. destruct QP as [QX QY].
  destruct (tangent_exists P HP) as (t & Ht & T). pose proof (y_unit P HP) as UY.
  assert (TH : eqp (t * snd P) h).
  { apply (unit_cancel 2); [apply unit2|]. rewrite Hh, QX. transitivity (t * (2 * snd P)); [ering|]. rewrite Ht. ering. }
  exists z, P, (pt3 t P P), t. cbn [fst snd].
  assert (EZ : eqp z (snd P)). { rewrite E2, QY. ering. }
  assert (RC : on_curve (pt3 t P P)) by (exact (tangent_curve P t _ HP Ht (pt3_third t P P))).
  repeat split; try assumption; try apply multiple_one; try lia.
  - apply (unit_eqp _ _ (eqp_sym _ _ EZ)). exact UY.
  - change (1 + 1) with (2 * 1). apply (multiple_even P 1 P); [apply multiple_one|exact T].
  - apply zapply_eq.
  - apply zapply_eq.
  - destruct E1 as [E1 _]. cbn [fst] in E1. rewrite E1, <- TH, QX, QY, EZ. unfold pt3. cbn [fst snd]. ering.
  - destruct E1 as [_ E1]. cbn [snd] in E1. rewrite E1, <- TH, !QX, !QY, !EZ. unfold pt3. cbn [fst snd]. ering.
  - rewrite !Z.sub_diag. ering.
  - apply pt3_third.
  - apply pt3_third.
Qed.
Theorem zmult_ok k : 0 <= k -> 
  (on_curve (zmult P k) /\ multiple P (used k) (zmult P k) /\ exists c, multiple P (2 * (used k / 2) + 1) c) \/
  (zmult P k = (0, 0) /\ ~ exists c, multiple P (2 * (used k / 2) + 1) c).
Proof.
  intros Hk. unfold zmult. pose proof start as S. destruct (zinitial P) as [r1 r0].
  assert (S2 : state (used k / 2) (zloop (Z.to_nat (size k - 2)) k (r0, r1))).
  { unfold used. destruct (Z.ltb_spec k 2) as [L|L].
    - replace ((k + 2) / 2) with 1 by (assert (k = 0 \/ k = 1) as [-> | ->] by lia; reflexivity).
      replace (Z.to_nat (size k - 2)) with 0%nat by (assert (k = 0 \/ k = 1) as [-> | ->] by lia; reflexivity). exact S.
    - apply loop_state; [exact Hk|]. pose proof (size_spec k Hk) as (X & Y & W). specialize (Y ltac:(lia)).
      assert (2 <= size k). { destruct (Z_lt_le_dec (size k) 2) as [Q|Q]; [|exact Q]. assert (2 ^ size k <= 2 ^ 1) by (apply Z.pow_le_mono_r; lia). change (2 ^ 1) with 2 in *. lia. }
      rewrite Z2Nat.id by lia. replace (size k - 2 + 1) with (size k - 1) by ring.
      replace (k / 2 ^ (size k - 1)) with 1; [exact S|].
      assert (D : 2 ^ size k = 2 * 2 ^ (size k - 1)). { rewrite <- Z.pow_succ_r by lia. f_equal. lia. }
      apply (Z.div_unique k _ 1 (k - 2 ^ (size k - 1))); [left|]; lia. }
  assert (U : used k = 2 * (used k / 2) + bit01 (negb (Z.testbit k 0))).
  { replace (bit01 (negb (Z.testbit k 0))) with (used k mod 2); [apply Z.div_mod; discriminate|].
    rewrite Z.bit0_odd. assert (O : Z.odd (used k) = Z.odd k). { unfold used. destruct (k <? 2); [|reflexivity]. rewrite Z.odd_add. cbn. destruct (Z.odd k); reflexivity. }
    rewrite <- O, Zmod_odd. destruct (Z.odd (used k)); reflexivity. }
  destruct (last (used k / 2) (negb (Z.testbit k 0)) _ S2) as [(X & Y & W)|X]; [left|right; exact X].
  rewrite U at 1. split; [exact X|split; [|exact W]]. exact Y.
Qed.
End Ladder.
