(** The ladder computes the multiple, or zero. *)
From Verif Require Import Common CommonFacts EccModel EccSpec EccLimb EccMult EccField EccPrime EccLadder EccAlgebra.
From Coq Require Import Znumtheory Setoid Morphisms.

Lemma fe_add a b : eqp (fadd a b) (a + b). Proof. apply eqp_mod. Qed.
Lemma fe_sub a b : eqp (fsub a b) (a - b). Proof. apply eqp_mod. Qed.
Lemma fe_mul a b : eqp (fmul a b) (a * b). Proof. apply eqp_mod. Qed.
Lemma fe_half a : red a -> eqp (2 * fhalf a) a.
Proof. intros H. apply (fhalf_f a H). Qed.
Lemma fe_inv a : unitp a -> eqp (finv a * a) 1.
Proof.
  intros U. unfold finv. rewrite Zpow_facts.Zpow_mod_correct by discriminate. rewrite eqp_mod.
  pose proof (fermat_eqp a) as F. assert (D : exists e, p256 = e + 1 + 1 /\ 0 <= e /\ p256 - 2 = e).
  { pose proof p2 as P. clear - P. generalize dependent p256. intros p P. exists (p - 2). lia. }
  destruct D as (e & D & De & D'). rewrite D'. apply (unit_cancel a); [exact U|].
  transitivity (a ^ (e + 1 + 1)). { rewrite !Z.pow_add_r, Z.pow_1_r by lia. ering. }
  transitivity (a ^ p256); [apply eqp_eq; f_equal; symmetry; exact D|]. rewrite F. ering.
Qed.
Lemma red_zero a : red a -> eqp a 0 -> a = 0.
Proof.
  unfold red, eqp. rewrite Z.sub_0_r. intros R E. rewrite Z.mod_small in E; assumption.
Qed.
Lemma fe_add' a b a' b' : eqp a a' -> eqp b b' -> eqp (fadd a b) (a' + b').
Proof. intros A B. rewrite fe_add, A, B. reflexivity. Qed.
Lemma fe_sub' a b a' b' : eqp a a' -> eqp b b' -> eqp (fsub a b) (a' - b').
Proof. intros A B. rewrite fe_sub, A, B. reflexivity. Qed.
Lemma fe_mul' a b a' b' : eqp a a' -> eqp b b' -> eqp (fmul a b) (a' * b').
Proof. intros A B. rewrite fe_mul, A, B. reflexivity. Qed.
Ltac fe1 :=
  match goal with
  | |- eqp (fadd _ _) _ => eapply fe_add'; [fe1|fe1]
  | |- eqp (fsub _ _) _ => eapply fe_sub'; [fe1|fe1]
  | |- eqp (fmul _ _) _ => eapply fe_mul'; [fe1|fe1]
  | |- _ => apply eqp_refl
  end.
Ltac fe := eapply eqp_trans; [fe1|].

(** ** The additions *)
Lemma zadd_eq x1 y1 x2 y2 : let d := x2 - x1 in let e := y2 - y1 in let x3 := e * e - x1 * d * d - x2 * d * d in
  let r := zadd (x1, y1) (x2, y2) in
  eqpt (fst r) (x1 * d * d, y1 * d * d * d) /\ eqpt (snd r) (x3, e * (x1 * d * d - x3) - y1 * d * d * d).
Proof.
  cbv zeta. unfold zadd, eqpt. cbn [fst snd]. repeat split; fe; ering.
Qed.
Lemma zaddc_eq x1 y1 x2 y2 : let d := x2 - x1 in let e := y2 - y1 in let f := y2 + y1 in
  let x3 := e * e - x1 * d * d - x2 * d * d in let x4 := f * f - x1 * d * d - x2 * d * d in
  let r := zaddc (x1, y1) (x2, y2) in
  eqpt (fst r) (x4, f * (x4 - x1 * d * d) - y1 * d * d * d) /\ eqpt (snd r) (x3, e * (x1 * d * d - x3) - y1 * d * d * d).
Proof.
  cbv zeta. unfold zaddc, eqpt. cbn [fst snd]. repeat split; fe; ering.
Qed.
(** A point in coordinates with z *)
Definition rep (z : Z) (a : Z * Z) (x : zpt) : Prop := eqp (fst x) (fst a * z * z) /\ eqp (snd x) (snd a * z * z * z).
Lemma rep_eqpt z a x y : eqpt x y -> rep z a y -> rep z a x.
Proof. intros [E1 E2] [R1 R2]. split; [rewrite E1; exact R1|rewrite E2; exact R2]. Qed.
Lemma rep_point z a b x : eqpt a b -> rep z a x -> rep z b x.
Proof. intros [E1 E2] [R1 R2]. split; [rewrite R1, E1; reflexivity|rewrite R2, E2; reflexivity]. Qed.
(** c = a + b by a line of slope l *)
Definition line (l : Z) (a b c : Z * Z) : Prop := eqp (l * (fst b - fst a)) (snd b - snd a) /\ third l a b c.
Definition neg (a : Z * Z) : Z * Z := (fst a, - snd a).
Lemma zadd_rep z l a b c A B : rep z a A -> rep z b B -> line l a b c ->
  rep (z * (fst B - fst A)) a (fst (zadd A B)) /\ rep (z * (fst B - fst A)) c (snd (zadd A B)).
Proof.
  destruct A as [x1 y1], B as [x2 y2]. intros [A1 A2] [B1 B2] [L [T1 T2]].
  destruct (zadd_eq x1 y1 x2 y2) as [E F]. cbn [fst snd] in *.
  assert (EE : eqp (y2 - y1) (l * z * (x2 - x1))).
  { rewrite A1, B1, A2, B2. apply (lin1 _ _ (- (z * z * z)) _ _ L). ring. }
  split; (eapply rep_eqpt; [eassumption|]); split; cbn [fst snd].
  - rewrite A1 at 1. ering.
  - rewrite A2. ering.
  - rewrite EE, T1. apply (lin2 _ _ (- (x2 - x1) * (x2 - x1)) _ _ (- (x2 - x1) * (x2 - x1)) _ _ A1 B1). ring.
  - rewrite !EE, T2, !T1, !A2. apply (lin2 _ _ (l * z * (x2 - x1) * 2 * (x2 - x1) * (x2 - x1)) _ _ (l * z * (x2 - x1) * (x2 - x1) * (x2 - x1)) _ _ A1 B1). ring.
Qed.
Lemma zaddc_rep z l m a b c d A B : rep z a A -> rep z b B -> line l a b c -> line m a (neg b) d ->
  rep (z * (fst B - fst A)) d (fst (zaddc A B)) /\ rep (z * (fst B - fst A)) c (snd (zaddc A B)).
Proof.
  destruct A as [x1 y1], B as [x2 y2]. intros [A1 A2] [B1 B2] [L [T1 T2]] [M [U1 U2]].
  destruct (zaddc_eq x1 y1 x2 y2) as [E F]. unfold neg in *. cbn [fst snd] in *.
  assert (EE : eqp (y2 - y1) (l * z * (x2 - x1))).
  { rewrite A1, B1, A2, B2. apply (lin1 _ _ (- (z * z * z)) _ _ L). ring. }
  assert (FF : eqp (y2 + y1) (- (m * z * (x2 - x1)))).
  { rewrite A1, B1, A2, B2. apply (lin1 _ _ (z * z * z) _ _ M). ring. }
  split; (eapply rep_eqpt; [eassumption|]); split; cbn [fst snd].
  - rewrite FF, U1. apply (lin2 _ _ (- (x2 - x1) * (x2 - x1)) _ _ (- (x2 - x1) * (x2 - x1)) _ _ A1 B1). ring.
  - rewrite !FF, U2, !U1, !A2. apply (lin2 _ _ (m * z * (x2 - x1) * 2 * (x2 - x1) * (x2 - x1)) _ _ (m * z * (x2 - x1) * (x2 - x1) * (x2 - x1)) _ _ A1 B1). ring.
  - rewrite EE, T1. apply (lin2 _ _ (- (x2 - x1) * (x2 - x1)) _ _ (- (x2 - x1) * (x2 - x1)) _ _ A1 B1). ring.
  - rewrite !EE, T2, !T1, !A2. apply (lin2 _ _ (l * z * (x2 - x1) * 2 * (x2 - x1) * (x2 - x1)) _ _ (l * z * (x2 - x1) * (x2 - x1) * (x2 - x1)) _ _ A1 B1). ring.
Qed.
(** ** Lines *)
Lemma line_sym l a b c : line l a b c -> line l b a c.
Proof.
  intros [L [X Y]]. split; [apply (lin1 _ _ (-1) _ _ L); ring|]. split; [rewrite X; ering|]. rewrite Y. apply (lin1 _ _ (-1) _ _ L). ring.
Qed.
Lemma line_turn l a b c : line l a b c -> line (- l) c (neg b) a.
Proof.
  intros [L [X Y]]. unfold line, third, neg. cbn [fst snd]. split; [|split].
  - rewrite Y. apply (lin1 _ _ (-1) _ _ L). ring.
  - rewrite X. ering.
  - rewrite Y. ering.
Qed.
Lemma line_neg l a b c : line l a b c -> line (- l) (neg a) (neg b) (neg c).
Proof.
  intros [L [X Y]]. unfold line, third, neg. cbn [fst snd]. split; [|split].
  - apply (lin1 _ _ (-1) _ _ L). ring.
  - rewrite X. ering.
  - rewrite Y. ering.
Qed.
Lemma neg_neg a : neg (neg a) = a.
Proof. unfold neg. destruct a. cbn [fst snd]. rewrite Z.opp_involutive. reflexivity. Qed.
Lemma slope_exists a b : unitp (fst b - fst a) -> exists l, eqp (l * (fst b - fst a)) (snd b - snd a).
Proof.
  intros [i I]. exists (i * (snd b - snd a)). transitivity ((i * (fst b - fst a)) * (snd b - snd a)); [ering|]. rewrite I. ering.
Qed.
Definition pt3 (l : Z) (a b : Z * Z) : Z * Z := let x := l * l - fst a - fst b in (x, l * (fst a - x) - snd a).
Lemma pt3_third l a b : third l a b (pt3 l a b).
Proof. split; reflexivity. Qed.
Lemma line_exists a b : unitp (fst b - fst a) -> exists l c, line l a b c.
Proof. intros U. destruct (slope_exists a b U) as [l L]. exists l, (pt3 l a b). split; [exact L|apply pt3_third]. Qed.
Lemma line_unique l l' a b c c' : unitp (fst b - fst a) -> line l a b c -> line l' a b c' -> eqpt c c'.
Proof.
  intros U [L T] [L' T']. apply (chord_eqp a a b b); try (split; reflexivity); (split; [exact U|]); eauto.
Qed.
Lemma curve_neg a : on_curve a -> on_curve (neg a).
Proof. unfold on_curve, neg. cbn [fst snd]. intros H. rewrite <- H. ering. Qed.
Lemma curve_eqpt a b : eqpt a b -> on_curve a -> on_curve b.
Proof. intros [E1 E2]. unfold on_curve. rewrite E1, E2. auto. Qed.
Lemma line_curve l a b c : unitp (fst b - fst a) -> on_curve a -> on_curve b -> line l a b c -> on_curve c.
Proof. intros U A B [L T]. exact (chord_curve a b l c A B U L T). Qed.
Lemma tangent_exists a : on_curve a -> exists t, eqp (t * (2 * snd a)) (3 * fst a * fst a - 3) /\ tangent a (pt3 t a a).
Proof.
  intros H. assert (U : unitp (2 * snd a)) by (apply unit_mul; [apply unit2|apply y_unit; exact H]).
  pose proof U as [i I]. exists (i * (3 * fst a * fst a - 3)).
  assert (E : eqp (i * (3 * fst a * fst a - 3) * (2 * snd a)) (3 * fst a * fst a - 3)).
  { transitivity ((i * (2 * snd a)) * (3 * fst a * fst a - 3)); [ering|]. rewrite I. ering. }
  split; [exact E|]. split; [exact U|]. eexists. split; [exact E|apply pt3_third].
Qed.
Lemma tangent_curve a t c : on_curve a -> eqp (t * (2 * snd a)) (3 * fst a * fst a - 3) -> third t a a c -> on_curve c.
Proof.
  unfold on_curve, third. destruct a as [xa ya], c as [xc yc]. cbn [fst snd]. intros A L [X Y].
  generalize dependent b256. intros B0 A. rewrite Y, X. set (xs := t * t - xa - xa).
  apply (lin2 _ _ 1 _ _ (xs - xa) _ _ A L). unfold xs. ring.
Qed.

(** ** One round on points: from a = mP and b = a + P, with different first coordinates *)
Lemma round_points l m a b s d : on_curve a -> on_curve b -> unitp (fst b - fst a) ->
  line l a b s -> line m a (neg b) d ->
  exists k c, tangent a c /\ on_curve c /\ on_curve s /\ line k s d c /\ unitp (fst d - fst s).
Proof.
  intros A B U LS LD. destruct (tangent_exists a A) as (t & Ht & T). exists (t - (l + m)), (pt3 t a a).
  split; [exact T|]. split; [exact (tangent_curve a t _ A Ht (pt3_third t a a))|]. split; [exact (line_curve l a b s U A B LS)|].
  destruct LS as [L TS], LD as [M TD]. unfold neg in M. cbn [fst snd] in M.
  pose proof (slopes a b l m t A B U L M Ht) as E. split; [exact (sum_tangent a b s d _ l m t L M E TS TD (pt3_third t a a))|].
  pose proof (sum_difference a b s d l m L M TS TD) as SD. apply (unit_r ((fst b - fst a) * (fst b - fst a))).
  apply (unit_eqp _ _ (eqp_sym _ _ SD)). apply unit_mul; [|apply y_unit; exact B].
  apply unit_mul; [|apply y_unit; exact A]. change 4 with (2 * 2). apply unit_mul; apply unit2.
Qed.

(** ** Failure: all the coordinates on the cusp y^2 = x^3, of which at most one point is not zero *)
Definition cusp (f : Z) : Z * Z := (f * f, f * f * f).
Definition dead (r : zpt * zpt) : Prop :=
  exists f, (eqpt (fst r) (cusp f) /\ eqpt (snd r) (0, 0)) \/ (eqpt (snd r) (cusp f) /\ eqpt (fst r) (0, 0)).
Lemma zadd_ext x1 y1 x2 y2 a b : eqpt (x1, y1) a -> eqpt (x2, y2) b ->
  let d := fst b - fst a in let e := snd b - snd a in let x3 := e * e - fst a * d * d - fst b * d * d in
  let r := zadd (x1, y1) (x2, y2) in
  eqpt (fst r) (fst a * d * d, snd a * d * d * d) /\ eqpt (snd r) (x3, e * (fst a * d * d - x3) - snd a * d * d * d).
Proof.
  intros [A1 A2] [B1 B2]. destruct (zadd_eq x1 y1 x2 y2) as [[E1 E2] [F1 F2]]. unfold eqpt. cbn [fst snd] in *.
  rewrite E1, E2, F1, F2. rewrite A1, A2, B1, B2. repeat split; reflexivity.
Qed.
Lemma zaddc_ext x1 y1 x2 y2 a b : eqpt (x1, y1) a -> eqpt (x2, y2) b ->
  let d := fst b - fst a in let e := snd b - snd a in let f := snd b + snd a in
  let x3 := e * e - fst a * d * d - fst b * d * d in let x4 := f * f - fst a * d * d - fst b * d * d in
  let r := zaddc (x1, y1) (x2, y2) in
  eqpt (fst r) (x4, f * (x4 - fst a * d * d) - snd a * d * d * d) /\ eqpt (snd r) (x3, e * (fst a * d * d - x3) - snd a * d * d * d).
Proof.
  intros [A1 A2] [B1 B2]. destruct (zaddc_eq x1 y1 x2 y2) as [[E1 E2] [F1 F2]]. unfold eqpt. cbn [fst snd] in *.
  rewrite E1, E2, F1, F2. rewrite A1, A2, B1, B2. repeat split; reflexivity.
Qed.
Definition zero2 (r : zpt * zpt) : Prop := eqpt (fst r) (0, 0) /\ eqpt (snd r) (0, 0).
Lemma eqpt_trans a b c : eqpt a b -> eqpt b c -> eqpt a c.
Proof. intros [A B] [C D]. split; etransitivity; eassumption. Qed.
Lemma eqpt_sym a b : eqpt a b -> eqpt b a.
Proof. intros [A B]. split; symmetry; assumption. Qed.
Lemma zput_cases (Q : zpt * zpt -> Prop) nb a b : Q (a, b) -> Q (b, a) -> Q (zput nb a b).
Proof. destruct nb; auto. Qed.
(** From two points of the cusp of which one is zero, addc gives zeros *)
Lemma addc_dead nb r : dead r -> zero2 (zl_addc nb r).
Proof.
  intros [f H]. unfold zl_addc. destruct r as [[x1 y1] [x2 y2]]. cbn [fst snd] in H. unfold cusp in H.
  assert (Z0 : forall p q, zaddc (zpick (negb nb) (x1, y1, (x2, y2))) (zpick nb (x1, y1, (x2, y2))) = (p, q) -> eqpt p (0, 0) /\ eqpt q (0, 0)).
  { intros p q E. destruct nb; cbn [negb zpick fst snd] in E.
    - destruct H as [[H K]|[K H]]; pose proof (zaddc_ext x1 y1 x2 y2 _ _ ltac:(eassumption) ltac:(eassumption)) as [X Y]; rewrite E in X, Y; cbn [fst snd] in X, Y;
        (split; [eapply eqpt_trans; [exact X|]|eapply eqpt_trans; [exact Y|]]; split; cbn [fst snd]; ering).
    - destruct H as [[H K]|[K H]]; pose proof (zaddc_ext x2 y2 x1 y1 _ _ ltac:(eassumption) ltac:(eassumption)) as [X Y]; rewrite E in X, Y; cbn [fst snd] in X, Y;
        (split; [eapply eqpt_trans; [exact X|]|eapply eqpt_trans; [exact Y|]]; split; cbn [fst snd]; ering). }
  destruct (zaddc _ _) as [p q]. destruct (Z0 p q eq_refl) as [P Q]. apply zput_cases; split; assumption.
Qed.
Lemma add_zero nb r : zero2 r -> zero2 (zl_add nb r).
Proof.
  intros [H K]. unfold zl_add. destruct r as [[x1 y1] [x2 y2]]. cbn [fst snd] in H, K.
  assert (Z0 : forall p q, zadd (zpick nb (x1, y1, (x2, y2))) (zpick (negb nb) (x1, y1, (x2, y2))) = (p, q) -> eqpt p (0, 0) /\ eqpt q (0, 0)).
  { intros p q E. destruct nb; cbn [negb zpick fst snd] in E;
      [pose proof (zadd_ext x2 y2 x1 y1 _ _ K H) as [X Y]|pose proof (zadd_ext x1 y1 x2 y2 _ _ H K) as [X Y]]; rewrite E in X, Y; cbn [fst snd] in X, Y;
        (split; [eapply eqpt_trans; [exact X|]|eapply eqpt_trans; [exact Y|]]; split; cbn [fst snd]; ering). }
  destruct (zadd _ _) as [p q]. destruct (Z0 p q eq_refl) as [P Q]. apply zput_cases; split; assumption.
Qed.
Lemma zero_dead r : zero2 r -> dead r.
Proof. intros [H K]. exists 0. left. split; [exact H|exact K]. Qed.
Lemma dead_step nb r : dead r -> dead (zl_add nb (zl_addc nb r)).
Proof. intros H. apply zero_dead, add_zero, addc_dead, H. Qed.
(** Points with the same first coordinate: afterwards either the sum or the difference is
    zero, and the other one is on the cusp *)
Definition lost (nb : bool) (r : zpt * zpt) : Prop :=
  let s := zpick nb r in let d := zpick (negb nb) r in
  exists f, (eqpt s (0, 0) /\ eqpt d (cusp f)) \/ (eqpt d (0, 0) /\ eqpt s (cusp f)).
Lemma addc_lost nb z a b r : on_curve a -> on_curve b -> eqp (fst b) (fst a) -> rep z a (fst r) -> rep z b (snd r) -> lost nb (zl_addc nb r).
Proof.
  intros A B E [R1 R2] [S1 S2]. destruct r as [[x1 y1] [x2 y2]]. cbn [fst snd] in *.
  assert (X : eqp x2 x1). { rewrite R1, S1, E. reflexivity. }
  assert (Y : eqp y2 y1 \/ eqp y2 (- y1)).
  { unfold on_curve in A, B. rewrite E in B. rewrite <- A in B.
    assert (I : eqp ((snd b - snd a) * (snd b + snd a)) 0). { apply (lin1 _ _ 1 _ _ B). ring. }
    destruct (integral _ _ I) as [J|J]; [left|right]; rewrite R2, S2.
    - apply (lin1 _ _ (z * z * z) _ _ J). ring.
    - apply (lin1 _ _ (z * z * z) _ _ J). ring. }
  assert (Z0 : forall u v u' v', eqp u' u -> eqp v' v \/ eqp v' (- v) ->
     exists f, (eqpt (snd (zaddc (u, v) (u', v'))) (0, 0) /\ eqpt (fst (zaddc (u, v) (u', v'))) (cusp f)) \/
               (eqpt (fst (zaddc (u, v) (u', v'))) (0, 0) /\ eqpt (snd (zaddc (u, v) (u', v'))) (cusp f))).
  { intros u v u' v' Eu [Ev|Ev].
    - exists (2 * v). left. destruct (zaddc_ext u v u' v' (u, v) (u, v)) as [P Q]; [split; reflexivity|split; assumption|]. cbn [fst snd] in P, Q.
      split; (eapply eqpt_trans; [eassumption|]); split; cbn [fst snd cusp]; unfold cusp; cbn [fst snd]; ering.
    - exists (2 * v). right. destruct (zaddc_ext u v u' v' (u, v) (u, - v)) as [P Q]; [split; reflexivity|split; assumption|]. cbn [fst snd] in P, Q.
      split; (eapply eqpt_trans; [eassumption|]); split; unfold cusp; cbn [fst snd]; ering. }
  unfold lost, zl_addc. destruct nb; cbn [negb zpick fst snd].
  - specialize (Z0 x1 y1 x2 y2 X Y). destruct (zaddc _ _) as [p q]. exact Z0.
  - assert (Y' : eqp y1 y2 \/ eqp y1 (- y2)). { destruct Y as [Y|Y]; [left; symmetry; exact Y|right; rewrite Y; ering]. }
    specialize (Z0 x2 y2 x1 y1 (eqp_sym _ _ X) Y'). destruct (zaddc _ _) as [p q]. exact Z0.
Qed.
Lemma lost_add nb r : lost nb r -> exists f, let r' := zl_add nb r in
  eqpt (zpick nb r') (cusp f) /\ eqpt (zpick (negb nb) r') (0, 0) /\ (eqp f 0 \/ eqpt (zpick (negb nb) r) (0, 0)).
Proof.
  intros [f H]. cbv zeta. unfold zl_add.
  assert (Z0 : forall u v u' v', (eqpt (u, v) (0, 0) /\ eqpt (u', v') (cusp f)) \/ (eqpt (u', v') (0, 0) /\ eqpt (u, v) (cusp f)) ->
    exists g, eqpt (fst (zadd (u, v) (u', v'))) (cusp g) /\ eqpt (snd (zadd (u, v) (u', v'))) (0, 0) /\ (eqp g 0 \/ eqpt (u', v') (0, 0))).
  { intros u v u' v' [[S D]|[D S]].
    - exists 0. destruct (zadd_ext u v u' v' _ _ S D) as [P Q]. unfold cusp in *. cbn [fst snd] in P, Q.
      split; [|split; [|left; reflexivity]]; (eapply eqpt_trans; [eassumption|]); split; cbn [fst snd]; ering.
    - exists (- (f * f * f)). destruct (zadd_ext u v u' v' _ _ S D) as [P Q]. unfold cusp in *. cbn [fst snd] in P, Q.
      split; [|split; [|right; exact D]]; (eapply eqpt_trans; [eassumption|]); split; cbn [fst snd]; ering. }
  destruct r as [[x1 y1] [x2 y2]]. destruct nb; cbn [negb zpick fst snd] in *.
  - destruct (Z0 _ _ _ _ H) as (g & G). destruct (zadd _ _) as [p q]. exists g. exact G.
  - destruct (Z0 _ _ _ _ H) as (g & G). destruct (zadd _ _) as [p q]. exists g. exact G.
Qed.
