(** The curve modulo p: units, chords and tangents, and that no point has order two. *)
From Verif Require Import Common CommonFacts EccSpec EccCert EccPrime.
From Coq Require Import Znumtheory Setoid Morphisms.

(** ** Equality modulo p *)
Lemma p2 : 2 <= p256. Proof. discriminate. Qed.
Lemma eqp_iff a b : eqp a b <-> exists q, a - b = q * p256.
Proof.
  unfold eqp. pose proof p2 as P. generalize dependent p256. intros p P. split.
  - intros H. exists ((a - b) / p). pose proof (Z.div_mod (a - b) p ltac:(lia)). lia.
  - intros [q ->]. apply Z.mod_mul. lia.
Qed.
Ltac pring := generalize p256; intros; ring.
Lemma eqp_eq a b : a = b -> eqp a b.
Proof. intros ->. apply eqp_iff. exists 0. pring. Qed.
Lemma eqp_refl a : eqp a a. Proof. apply eqp_eq. reflexivity. Qed.
Lemma lin1 l r c a b : eqp l r -> a - b = c * (l - r) -> eqp a b.
Proof. rewrite !eqp_iff. intros [q Q] ->. exists (c * q). rewrite Q. pring. Qed.
Lemma lin2 l1 r1 c1 l2 r2 c2 a b : eqp l1 r1 -> eqp l2 r2 -> a - b = c1 * (l1 - r1) + c2 * (l2 - r2) -> eqp a b.
Proof. rewrite !eqp_iff. intros [q Q] [q' Q'] ->. exists (c1 * q + c2 * q'). rewrite Q, Q'. pring. Qed.
Lemma lin3 l1 r1 c1 l2 r2 c2 l3 r3 c3 a b : eqp l1 r1 -> eqp l2 r2 -> eqp l3 r3 ->
  a - b = c1 * (l1 - r1) + c2 * (l2 - r2) + c3 * (l3 - r3) -> eqp a b.
Proof. rewrite !eqp_iff. intros [q1 Q1] [q2 Q2] [q3 Q3] ->. exists (c1 * q1 + c2 * q2 + c3 * q3). rewrite Q1, Q2, Q3. pring. Qed.
Lemma eqp_sym a b : eqp a b -> eqp b a.
Proof. intros H. apply (lin1 a b (-1) b a H). ring. Qed.
Lemma eqp_trans a b c : eqp a b -> eqp b c -> eqp a c.
Proof. intros H K. apply (lin2 a b 1 b c 1 a c H K). ring. Qed.
#[global] Instance eqp_equiv : Equivalence eqp.
Proof. split; [exact eqp_refl|exact eqp_sym|exact eqp_trans]. Qed.
#[global] Instance add_eqp : Proper (eqp ==> eqp ==> eqp) Z.add.
Proof. intros a a' A b b' B. apply (lin2 a a' 1 b b' 1 _ _ A B). ring. Qed.
#[global] Instance sub_eqp : Proper (eqp ==> eqp ==> eqp) Z.sub.
Proof. intros a a' A b b' B. apply (lin2 a a' 1 b b' (-1) _ _ A B). ring. Qed.
#[global] Instance mul_eqp : Proper (eqp ==> eqp ==> eqp) Z.mul.
Proof. intros a a' A b b' B. apply (lin2 a a' b b b' a' _ _ A B). ring. Qed.
#[global] Instance opp_eqp : Proper (eqp ==> eqp) Z.opp.
Proof. intros a a' A. apply (lin1 a a' (-1) _ _ A). ring. Qed.
Ltac ering := apply eqp_eq; ring.

(** ** Units *)
Lemma one_zero : ~ eqp 1 0.
Proof. unfold eqp. vm_compute. discriminate. Qed.
Lemma unit_nz a : unitp a -> ~ eqp a 0.
Proof. intros [i I] H. apply one_zero. rewrite <- I, H. ering. Qed.
Lemma unit_or_zero a : unitp a \/ eqp a 0.
Proof.
  destruct (Z.eq_dec (a mod p256) 0) as [E|N].
  - right. unfold eqp. rewrite Z.sub_0_r. exact E.
  - left. assert (R : rel_prime a p256).
    { apply rel_prime_sym, prime_rel_prime; [apply p256_prime|]. intros D. apply N. apply Z.mod_divide in D; [exact D|discriminate]. }
    apply rel_prime_bezout in R. destruct R as [u v E]. exists u. apply eqp_iff. exists (- v). rewrite <- E. pring.
Qed.
Lemma nz_unit a : ~ eqp a 0 -> unitp a.
Proof. intros N. destruct (unit_or_zero a); [assumption|contradiction]. Qed.
Lemma unit_cancel a b c : unitp a -> eqp (a * b) (a * c) -> eqp b c.
Proof.
  intros [i I] H. transitivity (i * a * b); [rewrite I; ering|]. transitivity (i * a * c); [|rewrite I; ering].
  rewrite <- !Z.mul_assoc, H. reflexivity.
Qed.
Lemma unit_mul a b : unitp a -> unitp b -> unitp (a * b).
Proof. intros [i I] [j J]. exists (i * j). transitivity ((i * a) * (j * b)); [ering|]. rewrite I, J. ering. Qed.
Lemma unit_l a b : unitp (a * b) -> unitp a.
Proof. intros [i I]. exists (i * b). rewrite <- I. ering. Qed.
Lemma unit_r a b : unitp (a * b) -> unitp b.
Proof. rewrite Z.mul_comm. apply unit_l. Qed.
Lemma unit_eqp a b : eqp a b -> unitp a -> unitp b.
Proof. intros E [i I]. exists i. rewrite <- E. exact I. Qed.
Lemma unit_opp a : unitp a -> unitp (- a).
Proof. intros [i I]. exists (- i). rewrite <- I. ering. Qed.
Lemma integral a b : eqp (a * b) 0 -> eqp a 0 \/ eqp b 0.
Proof.
  intros H. destruct (unit_or_zero a) as [U|Z0]; [right|left; assumption]. apply (unit_cancel a b 0 U). rewrite H. ering.
Qed.
Lemma unit2 : unitp 2.
Proof. exists ((p256 + 1) / 2). unfold eqp. vm_compute. reflexivity. Qed.

(** ** No point of order two: x^3 - 3x + b has no root modulo p *)
Lemma eqp_mod a : eqp (a mod p256) a.
Proof.
  apply eqp_iff. exists (- (a / p256)). pose proof (Z.div_mod a p256 ltac:(discriminate)) as E.
  generalize dependent p256. intros p E. rewrite E at 2. ring.
Qed.
Definition cubic (x : Z) : Z := x * x * x - 3 * x + b256.
Lemma p_split : exists e, p256 = 1 + e /\ 0 <= e /\ p256 - 1 = e.
Proof. pose proof p2 as P. generalize dependent p256. intros p P. exists (p - 1). lia. Qed.
Lemma fermat_eqp x : eqp (x ^ p256) x.
Proof.
  destruct (Z.eq_dec (x mod p256) 0) as [E|N].
  - assert (X : eqp x 0) by (unfold eqp; rewrite Z.sub_0_r; exact E).
    destruct p_split as (e & D & De & _). transitivity (x ^ (1 + e)); [apply eqp_eq; f_equal; exact D|]. clear D.
    rewrite Z.pow_add_r, Z.pow_1_r by (discriminate || assumption). generalize (x ^ e). intros w. rewrite X. ering.
  - pose proof (fermat p256 x p256_prime N) as F.
    destruct p_split as (e & D & De & D').
    rewrite D' in F. transitivity (x ^ (1 + e)); [apply eqp_eq; f_equal; exact D|]. clear D D'. rewrite Z.pow_add_r, Z.pow_1_r by (discriminate || assumption).
    assert (G : eqp (x ^ e) 1). { rewrite <- (eqp_mod (x ^ e)). rewrite F. reflexivity. }
    rewrite G. ering.
Qed.
(** With t^2 + b t + 1 = 0 a root x would give the cube root (t + x) / (x^2 - 1) of t;
    but t^((p-1)/3) is not 1. *)
Lemma t_ok : eqp (ct * ct + b256 * ct + 1) 0.
Proof. unfold eqp. vm_compute. reflexivity. Qed.
Definition thirds : Z := (p256 - 1) / 3.
Lemma thirds_ok : 3 * thirds = p256 - 1 /\ 0 <= thirds.
Proof. split; [vm_compute; reflexivity|discriminate]. Qed.
Lemma t_chain : run p256 ct ct 1 ct_c = (ct_u, thirds).
Proof. vm_compute. reflexivity. Qed.
Lemma t_power : eqp (ct ^ thirds) ct_u.
Proof. apply eqp_iff. exact (power p256 ct ct_u thirds ct_c (proj2 thirds_ok) t_chain). Qed.
Lemma u_not_one : ~ eqp ct_u 1.
Proof. unfold eqp. vm_compute. discriminate. Qed.
Lemma b_not_two : ~ eqp (b256 * b256) 4.
Proof. unfold eqp. vm_compute. discriminate. Qed.
Lemma pow_eqp a b e : 0 <= e -> eqp a b -> eqp (a ^ e) (b ^ e).
Proof. intros E. rewrite !eqp_iff. intros H. exact (power_same p256 a b e E H). Qed.
Lemma cube_root t b x i : eqp (t * t + b * t + 1) 0 -> eqp (x * x * x - 3 * x + b) 0 -> eqp (i * (x * x - 1)) 1 ->
  eqp (((t + x) * i) ^ 3) t.
Proof.
  intros T C I.
  assert (X : eqp ((t + x) * (t + x) * (t + x)) (t * ((x * x - 1) * (x * x - 1) * (x * x - 1)))).
  { apply (lin2 _ _ (t - b + 3 * x) _ _ (1 + t * (b - x * x * x)) _ _ T C). ring. }
  transitivity ((t + x) * (t + x) * (t + x) * (i * i * i)); [ering|]. rewrite X.
  transitivity (t * ((i * (x * x - 1)) * (i * (x * x - 1)) * (i * (x * x - 1)))); [ering|]. rewrite !I. ering.
Qed.
Theorem no_root x : ~ eqp (cubic x) 0.
Proof.
  unfold cubic. intros H.
  assert (N1 : ~ eqp (x * x - 1) 0).
  { intros E. apply b_not_two. clear - H E. generalize dependent b256. intros b H.
    assert (B : eqp b (2 * x)) by (apply (lin2 _ _ 1 _ _ (- x) _ _ H E); ring).
    rewrite !B. apply (lin1 _ _ 4 _ _ E). ring. }
  destruct (nz_unit _ N1) as [i I].
  pose proof (cube_root ct b256 x i t_ok H I) as W. clear H N1 I. generalize dependent ((ct + x) * i). clear x i. intros w W.
  assert (Nw : w mod p256 <> 0).
  { intros E. assert (Z0 : eqp w 0) by (unfold eqp; rewrite Z.sub_0_r; exact E).
    assert (T0 : eqp ct 0). { rewrite <- W. replace (w ^ 3) with (w * w * w) by ring. rewrite !Z0. ering. }
    apply one_zero. pose proof t_ok as T. generalize dependent ct. intros t W T0 T. rewrite !T0 in T. clear - T. generalize dependent b256. intros b T. rewrite <- T. ering. }
  pose proof (fermat p256 w p256_prime Nw) as F. destruct thirds_ok as [T3 T0].
  apply u_not_one. rewrite <- t_power. rewrite <- (pow_eqp _ _ _ T0 W). rewrite <- Z.pow_mul_r by (discriminate || exact T0). rewrite T3.
  rewrite <- (eqp_mod (w ^ (p256 - 1))). rewrite F. reflexivity.
Qed.
Lemma y_unit a : on_curve a -> unitp (snd a).
Proof.
  intros H. apply nz_unit. intros Z0. apply (no_root (fst a)). unfold on_curve in H. unfold cubic. rewrite <- H, Z0. ering.
Qed.

(** ** Equal points *)
Definition eqpt (a b : Z * Z) : Prop := eqp (fst a) (fst b) /\ eqp (snd a) (snd b).
Lemma third_eqp l l' a a' b b' c c' : eqp l l' -> eqpt a a' -> eqpt b b' -> third l a b c -> third l' a' b' c' -> eqpt c c'.
Proof.
  intros L [A1 A2] [B1 B2] [X Y] [X' Y'].
  assert (C1 : eqp (fst c) (fst c')). { rewrite X, X', L, A1, B1. reflexivity. }
  split; [exact C1|]. rewrite Y, Y', L, A1, A2, C1. reflexivity.
Qed.
Lemma chord_eqp a a' b b' c c' : eqpt a a' -> eqpt b b' -> chord a b c -> chord a' b' c' -> eqpt c c'.
Proof.
  intros A B (U & l & L & T) (U' & l' & L' & T'). apply (third_eqp l l' a a' b b'); try assumption.
  destruct A as [A1 A2], B as [B1 B2]. apply (unit_cancel (fst b - fst a)); [exact U|].
  rewrite (Z.mul_comm _ l), L. rewrite A1, A2, B1, B2. rewrite (Z.mul_comm _ l'), L'. reflexivity.
Qed.
Lemma tangent_eqp a a' c c' : eqpt a a' -> tangent a c -> tangent a' c' -> eqpt c c'.
Proof.
  intros A (U & l & L & T) (U' & l' & L' & T'). apply (third_eqp l l' a a' a a'); try assumption.
  destruct A as [A1 A2]. apply (unit_cancel (2 * snd a)); [exact U|].
  rewrite (Z.mul_comm _ l), L. rewrite A1, A2. rewrite (Z.mul_comm _ l'), L'. reflexivity.
Qed.
Lemma multiple_pos a m b : multiple a m b -> 1 <= m.
Proof. induction 1; lia. Qed.
Lemma multiple_odd_inv a m c : 1 <= m -> multiple a (2 * m + 1) c -> exists b b', multiple a m b /\ multiple a (m + 1) b' /\ chord b b' c.
Proof.
  intros M H. remember (2 * m + 1) as k. destruct H as [|m' b c H T|m' b b' c M' H H' T]; [lia|lia|].
  assert (m' = m) as -> by lia. eauto.
Qed.
Lemma multiple_even_inv a m c : 1 <= m -> multiple a (2 * m) c -> exists b, multiple a m b /\ tangent b c.
Proof.
  intros M H. remember (2 * m) as k. destruct H as [|m' b c H T|m' b b' c M' H H' T]; [lia| |lia].
  assert (m' = m) as -> by lia. eauto.
Qed.
Lemma multiple_unique a : forall n m b c, (Z.to_nat m <= n)%nat -> multiple a m b -> multiple a m c -> eqpt b c.
Proof.
  induction n as [|n IH]; intros m b c Hn Hb Hc.
  - pose proof (multiple_pos _ _ _ Hb). lia.
  - pose proof (multiple_pos _ _ _ Hb) as P. destruct Hb as [|m b' b Hb T|m b1 b2 b M H1 H2 T].
    + remember 1 as k eqn:K in Hc. destruct Hc as [|m b' b Hb T|m b1 b2 b M H1 H2 T]; [split; reflexivity| |lia].
      pose proof (multiple_pos _ _ _ Hb). lia.
    + pose proof (multiple_pos _ _ _ Hb) as Q. apply multiple_even_inv in Hc; [|exact Q]. destruct Hc as (c' & Hc & T').
      apply (tangent_eqp b' c'); try assumption. apply (IH m); [lia|assumption|assumption].
    + apply multiple_odd_inv in Hc; [|exact M]. destruct Hc as (c1 & c2 & G1 & G2 & T').
      apply (chord_eqp b1 c1 b2 c2); try assumption; [apply (IH m)|apply (IH (m + 1))]; (lia || assumption).
Qed.
Lemma multiple_eqpt a m b b' : 2 <= m -> eqpt b b' -> multiple a m b -> multiple a m b'.
Proof.
  intros M [E1 E2] H. assert (TH : forall l p q, third l p q b -> third l p q b').
  { intros l p q [X Y]. split; [rewrite <- E1; exact X|]. rewrite <- E2, <- E1. exact Y. }
  destruct H as [|m c b H T|m b1 b2 b N H1 H2 T]; [lia| |].
  - apply (multiple_even a m c); [exact H|]. destruct T as (U & l & L & T). split; [exact U|]. exists l. auto.
  - apply (multiple_odd a m b1 b2); try assumption. destruct T as (U & l & L & T). split; [exact U|]. exists l. auto.
Qed.

(** ** The sum of two points of the curve is on the curve *)
Lemma chord_curve a b l c : on_curve a -> on_curve b -> unitp (fst b - fst a) -> eqp (l * (fst b - fst a)) (snd b - snd a) -> third l a b c -> on_curve c.
Proof.
  unfold on_curve, third. destruct a as [xa ya], b as [xb yb], c as [xc yc]. cbn [fst snd]. intros A B U L [X Y].
  generalize dependent b256. intros B0 A B.
  assert (YB : eqp yb (ya + l * (xb - xa))). { apply (lin1 _ _ (-1) _ _ L). ring. }
  rewrite YB in B. clear L YB yb.
  assert (K : eqp (xb * xb + xa * xb + xa * xa - 3 - 2 * l * ya - l * l * (xb - xa)) 0).
  { apply (unit_cancel (xb - xa)); [exact U|]. apply (lin2 _ _ 1 _ _ (-1) _ _ A B). ring. }
  rewrite Y, X. set (xs := l * l - xa - xb).
  apply (lin2 _ _ 1 _ _ (- (xs - xa)) _ _ A K). unfold xs. ring.
Qed.

(** a + b and a - b add up to 2a. The slopes: l of a + b, m of a - b, t of the tangent, and
    t - (l + m) of the sum *)
Lemma slopes a b l m t : on_curve a -> on_curve b -> unitp (fst b - fst a) ->
  eqp (l * (fst b - fst a)) (snd b - snd a) -> eqp (m * (fst b - fst a)) (- snd b - snd a) ->
  eqp (t * (2 * snd a)) (3 * fst a * fst a - 3) ->
  eqp (t * (l + m)) (l * m + 2 * fst a + fst b).
Proof.
  unfold on_curve. destruct a as [xa ya], b as [xb yb]. cbn [fst snd]. intros A B U L M T.
  generalize dependent b256. intros B0 A B.
  assert (E1 : eqp (- (l * m * (xb - xa))) (xb * xb + xa * xb + xa * xa - 3)).
  { apply (unit_cancel (xb - xa)); [exact U|].
    transitivity (- ((l * (xb - xa)) * (m * (xb - xa)))); [ering|]. rewrite L, M.
    apply (lin2 _ _ (-1) _ _ 1 _ _ A B). ring. }
  apply (unit_cancel (xb - xa)); [exact U|].
  transitivity (t * (l * (xb - xa) + m * (xb - xa))); [ering|]. rewrite L, M.
  transitivity (- (t * (2 * ya))); [ering|]. rewrite T.
  apply (lin1 _ _ 1 _ _ E1). ring.
Qed.
Lemma sum_tangent a b s d c l m t :
  eqp (l * (fst b - fst a)) (snd b - snd a) -> eqp (m * (fst b - fst a)) (- snd b - snd a) ->
  eqp (t * (l + m)) (l * m + 2 * fst a + fst b) ->
  third l a b s -> third m a (fst b, - snd b) d -> third t a a c ->
  eqp ((t - (l + m)) * (fst d - fst s)) (snd d - snd s) /\ third (t - (l + m)) s d c.
Proof.
  unfold third. destruct a as [xa ya], b as [xb yb], s as [xs ys], d as [xd yd], c as [xc yc]. cbn [fst snd].
  intros L M E [XS YS] [XD YD] [XC YC].
  assert (Y2 : eqp (2 * ya) (- (l + m) * (xb - xa))). { apply (lin2 _ _ 1 _ _ 1 _ _ L M). ring. }
  split; [|split].
  - rewrite YS, YD, XS, XD. apply (lin1 _ _ (m - l) _ _ E). ring.
  - rewrite XC, XS, XD. apply (lin1 _ _ 2 _ _ E). ring.
  - rewrite YC, YS, XC, XS. apply (lin2 _ _ (-1) _ _ (- (t + l)) _ _ Y2 E). ring.
Qed.
Lemma sum_difference a b s d l m :
  eqp (l * (fst b - fst a)) (snd b - snd a) -> eqp (m * (fst b - fst a)) (- snd b - snd a) ->
  third l a b s -> third m a (fst b, - snd b) d ->
  eqp ((fst b - fst a) * (fst b - fst a) * (fst d - fst s)) (4 * snd a * snd b).
Proof.
  unfold third. destruct a as [xa ya], b as [xb yb], s as [xs ys], d as [xd yd]. cbn [fst snd].
  intros L M [XS YS] [XD YD]. rewrite XS, XD.
  transitivity ((m * (xb - xa)) * (m * (xb - xa)) - (l * (xb - xa)) * (l * (xb - xa))); [ering|]. rewrite L, M. ering.
Qed.
