(** The curve operations of EccModel as computations modulo p on plain integers. *)
From Verif Require Import Common CommonFacts EccModel EccSpec EccLimb EccMult EccMmod EccField EccPrime EccModMult.
From Coq Require Import Znumtheory Zpow_facts.

Definition fadd (a b : Z) : Z := (a + b) mod p256.
Definition fsub (a b : Z) : Z := (a - b) mod p256.
Definition fmul (a b : Z) : Z := (a * b) mod p256.
Definition finv (a : Z) : Z := Zpow_mod a (p256 - 2) p256.
Definition red (a : Z) : Prop := 0 <= a < p256.
Lemma p_pos : 0 < p256. Proof. reflexivity. Qed.
Lemma red_mod x : red (x mod p256). Proof. apply Z.mod_pos_bound. apply p_pos. Qed.
Lemma red_add a b : red (fadd a b). Proof. apply red_mod. Qed.
Lemma red_sub a b : red (fsub a b). Proof. apply red_mod. Qed.
Lemma red_mul a b : red (fmul a b). Proof. apply red_mod. Qed.
Lemma red_inv a : red (finv a). Proof. unfold finv. rewrite Zpow_mod_correct by discriminate. apply red_mod. Qed.
Lemma red_B4 a : red a -> 0 <= a < B4. Proof. unfold red. pose proof p_range. lia. Qed.
#[global] Hint Resolve red_mod red_add red_sub red_mul red_inv red_B4 : fp.
Lemma add_f a b : red a -> red b -> vli_mod_add (of a) (of b) curve_p = of (fadd a b).
Proof. intros. apply (mod_add_ok curve_p p256 vli_p val_p p_range); assumption. Qed.
Lemma sub_f a b : red a -> red b -> vli_mod_sub (of a) (of b) curve_p = of (fsub a b).
Proof. intros. apply (mod_sub_ok curve_p p256 vli_p val_p p_range); assumption. Qed.
Lemma mul_f a b : red a -> red b -> vli_mod_mult_fast (of a) (of b) = Some (of (fmul a b)).
Proof. intros. apply mult_fast_ok; auto with fp. Qed.
Lemma sqr_f a : red a -> vli_mod_sqr_fast (of a) = Some (of (fmul a a)).
Proof. intros. apply sqr_fast_ok; auto with fp. Qed.
Lemma inv_f a : red a -> vli_mod_inv (of a) curve_p = Some (of (finv a)).
Proof.
  intros H. destruct (Z.eq_dec a 0) as [->|N]; [vm_compute; reflexivity|].
  destruct (mod_inv_ok curve_p p256 vli_p val_p p_range eq_refl a) as (w & E & R & W); [reflexivity|unfold red in H; pose proof p_range; lia| |].
  - apply Zgcd_1_rel_prime. apply rel_prime_sym. apply prime_rel_prime; [apply p256_prime|].
    intros D. apply Z.divide_pos_le in D; unfold red in H; lia.
  - rewrite E. f_equal. f_equal. unfold finv. rewrite Zpow_mod_correct by discriminate.
    pose proof (fermat p256 a p256_prime ltac:(rewrite Z.mod_small; [assumption|exact H])) as F.
    rewrite <- (Z.mod_small w p256 R). pose proof p_pos as PP. assert (P2 : 0 <= p256 - 2) by discriminate.
    clear E R N H. generalize dependent p256. intros p W F PP P2.
    replace (p - 1) with (Z.succ (p - 2)) in F by ring. rewrite Z.pow_succ_r in F by assumption.
    set (e := a ^ (p - 2)) in *. clearbody e.
    transitivity ((w * (a * e)) mod p).
    + rewrite <- Z.mul_mod_idemp_r, F, Z.mul_1_r by lia. reflexivity.
    + replace (w * (a * e)) with ((w * a) * e) by ring. rewrite <- Z.mul_mod_idemp_l, W, Z.mul_1_l by lia. reflexivity.
Qed.

(** ** Points *)
Definition zpt : Type := Z * Z.
Definition zp (a : zpt) : point := (of (fst a), of (snd a)).
Definition redp (a : zpt) : Prop := red (fst a) /\ red (snd a).
Definition zp2 (r : zpt * zpt) : point * point := (zp (fst r), zp (snd r)).
Definition redp2 (r : zpt * zpt) : Prop := redp (fst r) /\ redp (snd r).

Definition zapply (a : zpt) (z : Z) : zpt :=
  let t := fmul z z in (fmul (fst a) t, fmul (snd a) (fmul t z)).
Lemma apply_f a z : redp a -> red z -> apply_z (fst (zp a)) (snd (zp a)) (of z) = Some (zp (zapply a z)).
Proof.
  intros [A1 A2] Hz. unfold apply_z, zp, zapply. cbn [fst snd].
  rewrite sqr_f by assumption; cbn [bindo]. rewrite mul_f by auto with fp; cbn [bindo]. rewrite mul_f by auto with fp; cbn [bindo]. rewrite mul_f by auto with fp; cbn [bindo]. reflexivity.
Qed.
Definition zadd (a b : zpt) : zpt * zpt :=
  let '(x1, y1) := a in let '(x2, y2) := b in
  let t := fsub x2 x1 in let t := fmul t t in
  let x1 := fmul x1 t in let x2 := fmul x2 t in
  let y2 := fsub y2 y1 in
  let t := fmul y2 y2 in let t := fsub t x1 in let t := fsub t x2 in
  let x2 := fsub x2 x1 in
  let y1 := fmul y1 x2 in
  let x2 := fsub x1 t in
  let y2 := fmul y2 x2 in
  let y2 := fsub y2 y1 in
  ((x1, y1), (t, y2)).
Ltac fstep := first [rewrite sqr_f by auto with fp | rewrite mul_f by auto with fp | rewrite sub_f by auto with fp | rewrite add_f by auto with fp]; cbn [bindo].
Lemma zadd_f a b : redp a -> redp b -> xycz_add (zp a) (zp b) = Some (zp2 (zadd a b)).
Proof.
  destruct a as [x1 y1], b as [x2 y2]. intros [A1 A2] [B1 B2]. cbn [fst snd] in *. unfold xycz_add, zp, zadd, zp2, zp. cbn [fst snd]. cbv beta iota zeta.
  repeat fstep. reflexivity.
Qed.
Lemma zadd_red a b : redp2 (zadd a b).
Proof. destruct a, b. unfold zadd, redp2, redp. cbn [fst snd]. auto with fp. Qed.
Definition zaddc (a b : zpt) : zpt * zpt :=
  let '(x1, y1) := a in let '(x2, y2) := b in
  let t5 := fsub x2 x1 in let t5 := fmul t5 t5 in
  let x1 := fmul x1 t5 in let x2 := fmul x2 t5 in
  let t5 := fadd y2 y1 in
  let y2 := fsub y2 y1 in
  let t6 := fsub x2 x1 in
  let y1 := fmul y1 t6 in
  let t6 := fadd x1 x2 in
  let x2 := fmul y2 y2 in
  let x2 := fsub x2 t6 in
  let t7 := fsub x1 x2 in
  let y2 := fmul y2 t7 in
  let y2 := fsub y2 y1 in
  let t7 := fmul t5 t5 in
  let t7 := fsub t7 t6 in
  let t6 := fsub t7 x1 in
  let t6 := fmul t6 t5 in
  let y1 := fsub t6 y1 in
  ((t7, y1), (x2, y2)).
Lemma zaddc_f a b : redp a -> redp b -> xycz_addc (zp a) (zp b) = Some (zp2 (zaddc a b)).
Proof.
  destruct a as [x1 y1], b as [x2 y2]. intros [A1 A2] [B1 B2]. cbn [fst snd] in *. unfold xycz_addc, zp, zaddc, zp2, zp. cbn [fst snd]. cbv beta iota zeta.
  repeat fstep. reflexivity.
Qed.
Lemma zaddc_red a b : redp2 (zaddc a b).
Proof. destruct a, b. unfold zaddc, redp2, redp. cbn [fst snd]. auto with fp. Qed.
Definition h256 : Z := (p256 + 1) / 2.
(** Half of a number modulo p *)
Definition fhalf (x : Z) : Z := half p256 x.
Lemma fhalf_f x : red x ->
  halve_p (of x) = of (fhalf x) /\ red (fhalf x) /\ (2 * fhalf x - x) mod p256 = 0.
Proof.
  intros H. destruct (halve_ok curve_p p256 vli_p val_p p_range eq_refl x H) as (E & R & M). split; [|split; assumption].
  fold (fhalf x) in E. rewrite <- E. unfold halve, halve_p. rewrite even_ok by apply vli_of. rewrite val_of by (apply red_B4; assumption).
  rewrite test_bit_ok by (apply vli_of || lia). rewrite val_of by (apply red_B4; assumption). rewrite negb_involutive.
  assert (T : Z.testbit x 0 = negb (x mod 2 =? 0)). { rewrite Z.bit0_mod || idtac. rewrite Z.bit0_odd, Zmod_odd. destruct (Z.odd x); reflexivity. }
  rewrite T. destruct (x mod 2 =? 0) eqn:Q; cbn [negb].
  - reflexivity.
  - rewrite vli_add_ok by (apply vli_of || apply vli_p). rewrite val_of, val_p by (apply red_B4; assumption).
    assert (C : (x + p256) / B4 = 0 \/ (x + p256) / B4 = 1).
    { assert (0 <= (x + p256) / B4 < 2); [|lia]. split; [apply Z.div_pos; [|reflexivity]|apply Z.div_lt_upper_bound; [reflexivity|]]; unfold red in H; pose proof p_range; lia. }
    destruct C as [-> | ->]; [|reflexivity].
    change (negb (0 =? 0)) with false. unfold set_top. change (shl 0 63) with 0. rewrite Z.lor_0_r.
    set (v := vli_rshift1 (of (x + p256))). assert (L : length v = 4%nat). { unfold v. rewrite vli_rshift1_ok by apply vli_of. apply vli_of. }
    destruct (four v L) as (a & b & c & d & ->). reflexivity.
Qed.
(** The initial doubling *)
Definition zdouble (x y z : Z) : zpt * Z :=
  let t4 := fmul y y in
  let t5 := fmul x t4 in
  let t4 := fmul t4 t4 in
  let y := fmul y z in
  let z := fmul z z in
  let x := fadd x z in
  let z := fadd z z in
  let z := fsub x z in
  let x := fmul x z in
  let z := fadd x x in
  let x := fadd x z in
  let x := fhalf x in
  let z := fmul x x in
  let z := fsub z t5 in
  let z := fsub z t5 in
  let t5 := fsub t5 z in
  let x := fmul x t5 in
  let t4 := fsub x t4 in
  ((z, t4), y).
Lemma red1 : red 1. Proof. split; reflexivity || discriminate. Qed.
#[global] Hint Resolve red1 : fp.
Lemma bindo_some {A B} (a : A) (f : A -> option B) : bindo (Some a) f = f a.
Proof. reflexivity. Qed.
Ltac gstep :=
  match goal with
  | |- context [vli_mod_sqr_fast (of ?a)] => rewrite (sqr_f a) by assumption; rewrite bindo_some; cbv beta; generalize (red_mul a a); generalize (fmul a a); intros ? ?
  | |- context [vli_mod_mult_fast (of ?a) (of ?b)] => rewrite (mul_f a b) by assumption; rewrite bindo_some; cbv beta; generalize (red_mul a b); generalize (fmul a b); intros ? ?
  | |- context [vli_mod_sub (of ?a) (of ?b) curve_p] => rewrite (sub_f a b) by assumption; generalize (red_sub a b); generalize (fsub a b); intros ? ?
  | |- context [vli_mod_add (of ?a) (of ?b) curve_p] => rewrite (add_f a b) by assumption; generalize (red_add a b); generalize (fadd a b); intros ? ?
  | |- context [halve_p (of ?a)] => rewrite (proj1 (fhalf_f a ltac:(assumption))); generalize (proj1 (proj2 (fhalf_f a ltac:(assumption)))); generalize (fhalf a); intros ? ?
  end.
Lemma zdouble_f x y z : red x -> red y -> red z -> vli_is_zero (of z) = false ->
  let '((a, b), c) := zdouble x y z in double_jacobian (of x) (of y) (of z) = Some (of a, of b, of c).
Proof.
  intros Hx Hy Hz NZ. unfold double_jacobian, zdouble. rewrite NZ. cbv zeta. clear NZ.
  repeat gstep. reflexivity.
Qed.
Lemma zdouble_red x y z : redp (fst (zdouble x y z)) /\ red (snd (zdouble x y z)).
Proof. unfold zdouble, redp. cbv zeta. cbn [fst snd]. auto with fp. Qed.
(** 2P and P' *)
Definition zinitial (a : zpt) : zpt * zpt :=
  let q := zapply a 1 in let '(d, z) := zdouble (fst q) (snd q) 1 in (d, zapply a z).
Lemma zinitial_f a : redp a -> initial_double (zp a) None = Some (zp2 (zinitial a)).
Proof.
  intros A. unfold initial_double, zinitial. change vli_one with (of 1). rewrite apply_f by auto with fp. cbn [bindo].
  unfold zp at 1. set (q := zapply a 1). assert (Q : redp q) by (unfold q, zapply, redp; cbn [fst snd]; auto with fp). clearbody q.
  pose proof (zdouble_f (fst q) (snd q) 1 (proj1 Q) (proj2 Q) red1 eq_refl) as D. pose proof (zdouble_red (fst q) (snd q) 1) as [R1 R2].
  destruct (zdouble (fst q) (snd q) 1) as [[d1 d2] z]. rewrite D. cbn [bindo]. cbn [fst snd] in *. rewrite apply_f by assumption. reflexivity.
Qed.
Lemma zinitial_red a : redp2 (zinitial a).
Proof.
  unfold zinitial. pose proof (zdouble_red (fst (zapply a 1)) (snd (zapply a 1)) 1) as [R1 R2]. destruct (zdouble _ _ _) as [d z]. 
  unfold redp2, zapply, redp in *. cbn [fst snd] in *. auto with fp.
Qed.
Definition zpick (nb : bool) (r : zpt * zpt) : zpt := if nb then snd r else fst r.
(** The difference goes to R\[1-nb\] and the sum to R\[nb\] *)
Definition zput (nb : bool) (a b : zpt) : zpt * zpt := if nb then (a, b) else (b, a).
Definition zl_addc (nb : bool) (r : zpt * zpt) : zpt * zpt :=
  let '(p, q) := zaddc (zpick (negb nb) r) (zpick nb r) in zput nb p q.
Definition zl_add (nb : bool) (r : zpt * zpt) : zpt * zpt :=
  let '(p, q) := zadd (zpick nb r) (zpick (negb nb) r) in zput nb q p.
Lemma redp2_put nb a b : redp a -> redp b -> redp2 (zput nb a b).
Proof. intros. destruct nb; split; assumption. Qed.
Lemma zl_addc_f nb r : redp2 r -> ladder_addc nb (zp2 r) = Some (zp2 (zl_addc nb r)) /\ redp2 (zl_addc nb r).
Proof.
  intros [R0 R1]. unfold ladder_addc, zl_addc. destruct r as [r0 r1]. cbn [fst snd] in *.
  destruct nb; cbn [negb zpick pick zp2 fst snd]; rewrite zaddc_f by assumption; cbn [bindo];
    [pose proof (zaddc_red r0 r1) as [Q1 Q2]; destruct (zaddc r0 r1)|pose proof (zaddc_red r1 r0) as [Q1 Q2]; destruct (zaddc r1 r0)]; (split; [reflexivity|apply redp2_put; assumption]).
Qed.
Lemma zl_add_f nb r : redp2 r -> ladder_add nb (zp2 r) = Some (zp2 (zl_add nb r)) /\ redp2 (zl_add nb r).
Proof.
  intros [R0 R1]. unfold ladder_add, zl_add. destruct r as [r0 r1]. cbn [fst snd] in *.
  destruct nb; cbn [negb zpick pick zp2 fst snd]; rewrite zadd_f by assumption; cbn [bindo];
    [pose proof (zadd_red r1 r0) as [Q1 Q2]; destruct (zadd r1 r0)|pose proof (zadd_red r0 r1) as [Q1 Q2]; destruct (zadd r0 r1)]; (split; [reflexivity|apply redp2_put; assumption]).
Qed.
Fixpoint zloop (n : nat) (k : Z) (r : zpt * zpt) : zpt * zpt :=
  match n with
  | O => r
  | S m => let nb := negb (Z.testbit k (Z.of_nat n)) in zloop m k (zl_add nb (zl_addc nb r))
  end.
Lemma zloop_f k : 0 <= k < B4 -> forall n r, redp2 r -> ladder_loop n (of k) (zp2 r) = Some (zp2 (zloop n k r)) /\ redp2 (zloop n k r).
Proof.
  intros Hk. induction n; intros r R; [split; [reflexivity|assumption]|]. cbn [ladder_loop zloop].
  rewrite test_bit_ok by (apply vli_of || lia). rewrite val_of by assumption.
  set (nb := negb (Z.testbit k (Z.of_nat (S n)))). destruct (zl_addc_f nb r R) as [-> R1]. cbn [bindo].
  destruct (zl_add_f nb _ R1) as [-> R2]. cbn [bindo]. apply IHn. exact R2.
Qed.
Definition zfinish (a : zpt) (nb : bool) (r : zpt * zpt) : zpt :=
  let z := fsub (fst (snd r)) (fst (fst r)) in
  let z := fmul z (snd (zpick (negb nb) r)) in
  let z := fmul z (fst a) in
  let z := finv z in
  let z := fmul z (snd a) in
  let z := fmul z (fst (zpick (negb nb) r)) in
  zapply (fst (zl_add nb r)) z.
Definition zmult (a : zpt) (k : Z) : zpt :=
  let '(r1, r0) := zinitial a in
  let r := zloop (Z.to_nat (size k - 2)) k (r0, r1) in
  let nb := negb (Z.testbit k 0) in
  zfinish a nb (zl_addc nb r).
Lemma pick_f nb r : pick nb (zp2 r) = zp (zpick nb r).
Proof. destruct nb; reflexivity. Qed.
Lemma zmult_f a k : redp a -> 0 <= k < B4 -> point_mult (zp a) (of k) None = Some (zp (zmult a k)).
Proof.
  intros A Hk. unfold point_mult, zmult. rewrite zinitial_f by assumption. cbn [bindo].
  pose proof (zinitial_red a) as [I1 I2]. destruct (zinitial a) as [r1 r0]. cbn [fst snd] in *. unfold zp2 at 1. cbn [fst snd].
  rewrite num_bits_ok by apply vli_of. rewrite val_of by assumption.
  change (zp r0, zp r1) with (zp2 (r0, r1)). destruct (zloop_f k Hk (Z.to_nat (size k - 2)) (r0, r1)) as [-> R]; [split; assumption|]. cbn [bindo].
  rewrite test_bit_ok by (apply vli_of || lia). rewrite val_of by assumption. set (nb := negb (Z.testbit k 0)).
  destruct (zl_addc_f nb _ R) as [-> R1]. cbn [bindo]. set (r := zl_addc nb _) in *. clearbody r nb.
  unfold zfinish. rewrite pick_f.
  change (fst (snd (zp2 r))) with (of (fst (snd r))). change (fst (fst (zp2 r))) with (of (fst (fst r))).
  assert (RK : redp (zpick (negb nb) r)) by (destruct nb; apply R1).
  change (fst (zp (zpick (negb nb) r))) with (of (fst (zpick (negb nb) r))). change (snd (zp (zpick (negb nb) r))) with (of (snd (zpick (negb nb) r))).
  change (fst (zp a)) with (of (fst a)). change (snd (zp a)) with (of (snd a)).
  destruct RK as [K1 K2], A as [A1 A2]. destruct (zl_add_f nb r R1) as [E2 R2]. destruct R1 as [[S1 S2] [S3 S4]].
  rewrite sub_f by assumption. rewrite mul_f by auto with fp; rewrite bindo_some; cbv beta.
  rewrite mul_f by auto with fp; rewrite bindo_some; cbv beta. rewrite inv_f by auto with fp; rewrite bindo_some; cbv beta.
  rewrite mul_f by auto with fp; rewrite bindo_some; cbv beta. rewrite mul_f by auto with fp; rewrite bindo_some; cbv beta.
  rewrite E2. rewrite bindo_some; cbv beta. set (r2 := zl_add nb r) in *. clearbody r2. destruct R2 as [R2 _].
  change (fst (zp2 r2)) with (zp (fst r2)). apply apply_f; auto with fp.
Qed.
Lemma zmult_red a k : redp (zmult a k).
Proof. unfold zmult. destruct (zinitial a). unfold zfinish, zapply, redp. cbn [fst snd]. auto with fp. Qed.
