(** p and n of the curve P-256 are prime: Fermat's little theorem, Pocklington's criterion
    and its certificates. *)
From Verif Require Import Common CommonFacts EccSpec EccCert.
From Coq Require Import Znumtheory Zpow_facts Permutation.

(** ** Fermat *)
Definition prod (l : list Z) : Z := fold_right Z.mul 1 l.
Lemma prod_perm l r : Permutation l r -> prod l = prod r.
Proof. induction 1; cbn [prod fold_right] in *; try congruence; unfold prod in *; cbn; try rewrite IHPermutation; lia. Qed.
Lemma prod_map a q l : 0 < q -> (prod (map (fun x => (a * x) mod q) l)) mod q = (a ^ Z.of_nat (length l) * prod l) mod q.
Proof.
  intros Hq. induction l as [|x l IH]; [reflexivity|].
  cbn [map length]. change (prod ((a * x) mod q :: map (fun x => (a * x) mod q) l)) with ((a * x) mod q * prod (map (fun x => (a * x) mod q) l)).
  change (prod (x :: l)) with (x * prod l). rewrite Nat2Z.inj_succ, Z.pow_succ_r by lia.
  rewrite Z.mul_mod_idemp_l by lia. rewrite <- Z.mul_mod_idemp_r, IH, Z.mul_mod_idemp_r by lia. f_equal. ring.
Qed.
Definition below (q : Z) : list Z := map Z.of_nat (seq 1 (Z.to_nat (q - 1))).
Lemma in_below q x : 1 < q -> In x (below q) <-> 1 <= x < q.
Proof.
  intros Hq. unfold below. rewrite in_map_iff. split.
  - intros (n & <- & I). apply in_seq in I. lia.
  - intros H. exists (Z.to_nat x). split; [lia|]. apply in_seq. lia.
Qed.
Lemma nodup_below q : NoDup (below q).
Proof. unfold below. apply FinFun.Injective_map_NoDup; [intros x y E; lia|apply seq_NoDup]. Qed.
Lemma prime_mult_mod q a b : prime q -> (a * b) mod q = 0 -> a mod q = 0 \/ b mod q = 0.
Proof.
  intros P H. pose proof (prime_ge_2 q P). apply Z.mod_divide in H; [|lia].
  apply prime_mult in H; [|assumption]. destruct H as [H|H]; [left|right]; apply Z.mod_divide; (lia || assumption).
Qed.
Lemma fermat q a : prime q -> a mod q <> 0 -> a ^ (q - 1) mod q = 1.
Proof.
  intros P Na. pose proof (prime_ge_2 q P) as Q2.
  assert (PM : Permutation (map (fun x => (a * x) mod q) (below q)) (below q)).
  { apply NoDup_Permutation_bis.
    - assert (G : forall l, NoDup l -> (forall x, In x l -> 1 <= x < q) -> NoDup (map (fun x => (a * x) mod q) l)).
      { induction l as [|x l IH]; intros N B; [constructor|]. inversion N; subst. cbn [map]. constructor; [|apply IH; [assumption|intros; apply B; right; assumption]].
        intros I. apply in_map_iff in I. destruct I as (y & E & I). 
        assert (D : (a * (y - x)) mod q = 0). { rewrite Z.mul_sub_distr_l, Zminus_mod, E, Z.sub_diag. apply Z.mod_0_l. lia. }
        destruct (prime_mult_mod q _ _ P D) as [D'|D']; [contradiction|].
        assert (1 <= x < q) by (apply B; left; reflexivity). assert (1 <= y < q) by (apply B; right; assumption).
        apply Z.mod_divide in D'; [|lia]. destruct D' as [k D']. assert (k = 0) by nia. assert (x = y) by lia. subst. contradiction. }
      apply G; [apply nodup_below|]. intros x I. apply in_below in I; lia.
    - rewrite map_length. lia.
    - intros x I. apply in_map_iff in I. destruct I as (y & E & I). apply in_below; [lia|]. apply in_below in I; [|lia].
      pose proof (Z.mod_pos_bound (a * y) q ltac:(lia)). subst x.
      assert ((a * y) mod q <> 0); [|lia]. intros Z0. destruct (prime_mult_mod q _ _ P Z0) as [D|D]; [contradiction|]. rewrite Z.mod_small in D by lia. lia. }
  pose proof (prod_map a q (below q) ltac:(lia)) as E. rewrite (prod_perm _ _ PM) in E.
  assert (L : Z.of_nat (length (below q)) = q - 1) by (unfold below; rewrite map_length, seq_length; lia). rewrite L in E.
  assert (NZ : prod (below q) mod q <> 0).
  { assert (G : forall l, (forall x, In x l -> 1 <= x < q) -> prod l mod q <> 0).
    { induction l as [|x l IH]; intros B. { change (prod []) with 1. rewrite Z.mod_small by lia. lia. }
      change (prod (x :: l)) with (x * prod l). intros Z0. destruct (prime_mult_mod q _ _ P Z0) as [D|D].
      - assert (1 <= x < q) by (apply B; left; reflexivity). rewrite Z.mod_small in D by lia. lia.
      - apply IH in D; [assumption|]. intros; apply B; right; assumption. }
    apply G. intros x I. apply in_below in I; lia. }
  assert (D : ((a ^ (q - 1) - 1) * prod (below q)) mod q = 0).
  { rewrite Z.mul_sub_distr_r, Z.mul_1_l, Zminus_mod, <- E, Z.sub_diag. apply Z.mod_0_l. lia. }
  destruct (prime_mult_mod q _ _ P D) as [D'|D']; [|contradiction].
  apply Z.mod_divide in D'; [|lia]. destruct D' as [k D']. replace (a ^ (q - 1)) with (1 + k * q) by lia. rewrite Z.mod_add by lia. apply Z.mod_small. lia.
Qed.

(** ** Pocklington *)
Lemma pow1_mod x k q : 1 < q -> 0 <= k -> x mod q = 1 -> x ^ k mod q = 1.
Proof. intros Hq Hk E. rewrite Zpower_mod by lia. rewrite E, Z.pow_1_l by lia. apply Z.mod_small. lia. Qed.
(** A prime [f] of N - 1 divides q - 1 for each prime q dividing N *)
Lemma pocklington_step N a f q : 1 < N -> prime f -> (f | N - 1) ->
  Zpow_mod a (N - 1) N = 1 -> Z.gcd (Zpow_mod a ((N - 1) / f) N - 1) N = 1 -> prime q -> (q | N) -> (f | q - 1).
Proof.
  intros HN Pf Df E1 E2 Pq Dq. pose proof (prime_ge_2 q Pq) as Q2. pose proof (prime_ge_2 f Pf) as F2.
  rewrite Zpow_mod_correct in E1, E2 by lia. destruct Df as [R DR].
  assert (HR : (N - 1) / f = R) by (rewrite DR; apply Z.div_mul; lia). rewrite HR in E2. assert (R0 : 0 <= R) by nia.
  destruct Dq as [c Dc].
  assert (MM : forall x, x mod N mod q = x mod q).
  { intros x. pose proof (Z.div_mod x N ltac:(lia)) as D. rewrite D at 2. rewrite Dc at 2. replace (c * q * (x / N) + x mod N) with (x mod N + (c * (x / N)) * q) by ring. rewrite Z.mod_add by lia. reflexivity. }
  set (b := a ^ R) in *.
  assert (B1 : b ^ f mod q = 1).
  { unfold b. rewrite <- Z.pow_mul_r by lia. rewrite <- DR. rewrite <- MM, E1. apply Z.mod_small. lia. }
  assert (B0 : b mod q <> 0).
  { intros Z0. rewrite Zpower_mod in B1 by lia. rewrite Z0, Z.pow_0_l in B1 by lia. rewrite Z.mod_0_l in B1 by lia. lia. }
  assert (B2 : b mod q <> 1).
  { intros E. assert (D : (q | Z.gcd (b mod N - 1) N)).
    { apply Z.gcd_greatest; [|exists c; exact Dc]. apply Z.mod_divide; [lia|]. rewrite Zminus_mod, MM, E. rewrite (Z.mod_small 1) by lia. apply Z.mod_0_l. lia. }
    rewrite E2 in D. apply Z.divide_1_r_nonneg in D; lia. }
  destruct (Zdivide_dec f (q - 1)) as [D|D]; [exact D|exfalso].
  assert (RP : rel_prime f (q - 1)) by (apply prime_rel_prime; assumption).
  pose proof (fermat q b Pq B0) as FM.
  assert (BZ : exists u v, 0 <= u /\ 0 <= v /\ u * f = 1 + v * (q - 1)).
  { clear - RP Q2 F2. destruct (rel_prime_bezout _ _ RP) as [u v UV]. exists (u + (Z.abs u + Z.abs v) * (q - 1)), ((Z.abs u + Z.abs v) * f - v).
    set (t := Z.abs u + Z.abs v). assert (T : 0 <= t /\ - u <= t /\ v <= t) by (unfold t; lia). clearbody t.
    assert (t * 1 <= t * (q - 1)) by (apply Z.mul_le_mono_nonneg_l; lia). assert (t * 1 <= t * f) by (apply Z.mul_le_mono_nonneg_l; lia).
    split; [lia|]. split; [lia|]. replace ((u + t * (q - 1)) * f) with (u * f + v * (q - 1) + (t * f - v) * (q - 1)) by ring. rewrite UV. ring. }
  destruct BZ as (u & v & U0 & V0 & UV). clear Dc E1 E2 MM.
  apply B2. assert (X : b ^ (u * f) mod q = 1). { rewrite Z.mul_comm, Z.pow_mul_r by lia. apply pow1_mod; [lia|exact U0|exact B1]. }
  rewrite UV in X. rewrite Z.pow_add_r, Z.pow_1_r in X; [|lia|apply Z.mul_nonneg_nonneg; lia]. rewrite <- Z.mul_mod_idemp_r in X by lia.
  assert (Y : b ^ (v * (q - 1)) mod q = 1).
  { clear X. rewrite (Z.mul_comm v), Z.pow_mul_r by lia. clear UV. apply pow1_mod; [lia|exact V0|exact FM]. }
  rewrite Y, Z.mul_1_r in X. exact X.
Qed.
(** A number has a prime divisor not above its square root, if it is not prime *)
Lemma prime_divisor : forall n N, (Z.to_nat N <= n)%nat -> 1 < N -> exists q, prime q /\ (q | N).
Proof.
  induction n; intros N L H; [lia|]. destruct (prime_dec N) as [P|P]; [exists N; split; [assumption|exists 1; lia]|].
  destruct (not_prime_divide N H P) as (d & Hd & D). destruct (IHn d) as (q & Pq & Dq); [lia|lia|].
  exists q. split; [assumption|]. eapply Z.divide_trans; eassumption.
Qed.
Lemma prime_by_roots N : 1 < N -> (forall q, prime q -> (q | N) -> N < q * q) -> prime N.
Proof.
  intros H A. destruct (prime_dec N) as [P|P]; [exact P|exfalso].
  destruct (not_prime_divide N H P) as (d & Hd & (e & E)).
  assert (0 < e) by nia. assert (1 < e) by nia.
  destruct (prime_divisor (Z.to_nat d) d (le_n _) ltac:(lia)) as (q & Pq & Dq). destruct (prime_divisor (Z.to_nat e) e (le_n _) ltac:(lia)) as (r & Pr & Dr).
  assert (q <= d) by (apply Z.divide_pos_le; [lia|assumption]). assert (r <= e) by (apply Z.divide_pos_le; [lia|assumption]).
  pose proof (prime_ge_2 _ Pq). pose proof (prime_ge_2 _ Pr).
  assert (N < q * q) by (apply A; [assumption|]; eapply Z.divide_trans; [eassumption|exists e; assumption]).
  assert (N < r * r) by (apply A; [assumption|]; eapply Z.divide_trans; [eassumption|exists d; lia]).
  assert (q * q <= d * d) by (apply Z.mul_le_mono_nonneg; lia). assert (r * r <= e * e) by (apply Z.mul_le_mono_nonneg; lia).
  assert (e < d) by (apply (Z.mul_lt_mono_pos_r d); lia). assert (d < e) by (apply (Z.mul_lt_mono_pos_l e); lia). lia.
Qed.
(** The conditions of [pocklington_step], with a^((N-1)/f) named *)
Definition step_ok (N a f : Z) : Prop :=
  1 < N /\ (f | N - 1) /\ (N | a ^ (N - 1) - 1) /\ (exists u, (N | u * (a ^ ((N - 1) / f) - 1) - 1)).
Lemma step_divides N a f q : step_ok N a f -> prime f -> prime q -> (q | N) -> (f | q - 1).
Proof.
  intros (H & D & E & u & (w & U)) Pf Pq Dq. pose proof (prime_ge_2 f Pf).
  assert (X : (N - 1) / f * f = N - 1) by (destruct D as [c D]; rewrite D at 1; rewrite Z.div_mul by lia; lia).
  assert (0 <= (N - 1) / f) by (apply Z.div_pos; lia).
  apply (pocklington_step N a f q); try assumption.
  - rewrite Zpow_mod_correct by lia. destruct E as [e E]. replace (a ^ (N - 1)) with (1 + e * N) by lia. rewrite Z.mod_add by lia. apply Z.mod_small. lia.
  - rewrite Zpow_mod_correct by lia. apply Zis_gcd_gcd; [lia|]. apply Zis_gcd_sym. generalize dependent (a ^ ((N - 1) / f)). intros y U.
    pose proof (Z.div_mod y N ltac:(lia)) as DM. apply bezout_rel_prime. apply (Bezout_intro _ _ _ (u * (y / N) - w) u).
    transitivity (u * (N * (y / N) + y mod N - 1) - w * N); [ring|]. rewrite <- DM. lia.
Qed.
Lemma pocklington1 N a f : prime f -> step_ok N a f -> (N <? f * f) = true -> prime N.
Proof.
  intros Pf C S. apply Z.ltb_lt in S. assert (H : 1 < N) by apply C.
  apply prime_by_roots; [assumption|]. intros q Pq Dq. pose proof (step_divides N a f q C Pf Pq Dq) as D. pose proof (prime_ge_2 q Pq). pose proof (prime_ge_2 f Pf).
  assert (f <= q - 1) by (apply Z.divide_pos_le; [lia|assumption]). nia.
Qed.
Lemma pocklington2 N a f g : prime f -> prime g -> f <> g -> step_ok N a f -> step_ok N a g -> (N <? (f * g) * (f * g)) = true -> prime N.
Proof.
  intros Pf Pg NE C1 C2 S. apply Z.ltb_lt in S. assert (H : 1 < N) by apply C1.
  apply prime_by_roots; [assumption|]. intros q Pq Dq. pose proof (step_divides N a f q C1 Pf Pq Dq) as D1. pose proof (step_divides N a g q C2 Pg Pq Dq) as D2.
  pose proof (prime_ge_2 q Pq). pose proof (prime_ge_2 f Pf). pose proof (prime_ge_2 g Pg).
  assert (D : (f * g | q - 1)).
  { destruct D1 as [k D1]. rewrite D1 in D2. assert (RP : rel_prime g f).
    { apply prime_rel_prime; [assumption|]. intros X. apply prime_div_prime in X; try assumption. congruence. }
    rewrite Z.mul_comm in D2. apply Gauss in D2; [|assumption]. destruct D2 as [j D2]. exists j. rewrite D1, D2. ring. }
  assert (f * g <= q - 1) by (apply Z.divide_pos_le; [lia|assumption]). nia.
Qed.
(** ** Powers by given quotients and remainders *)
Fixpoint run (N b x e : Z) (l : list (bool * Z * Z)) : Z * Z :=
  match l with
  | [] => (x, e)
  | (m, q, r) :: l =>
      if (if m then x * b else x * x) =? q * N + r then run N b r (if m then e + 1 else 2 * e) l else (0, -1)
  end.
Lemma run_ok N b : forall l x e y f, 0 <= f -> run N b x e l = (y, f) -> 0 <= e -> (N | b ^ e - x) -> (N | b ^ f - y).
Proof.
  induction l as [|[[m q] r] l IH]; intros x e y f F R E D; cbn [run] in R.
  { injection R as -> ->. assumption. }
  destruct (Z.eqb_spec (if m then x * b else x * x) (q * N + r)) as [Q|]; [|injection R as <- <-; lia].
  apply IH in R; [assumption|assumption|destruct m; lia|]. destruct D as [c D].
  assert (B : b ^ e = c * N + x) by lia. destruct m.
  - rewrite Z.pow_add_r, Z.pow_1_r, B by lia. exists (c * b + q). replace ((c * N + x) * b) with (c * b * N + x * b) by ring. rewrite Q. ring.
  - replace (2 * e) with (e + e) by lia. rewrite Z.pow_add_r, B by lia. exists (c * c * N + 2 * c * x + q). replace ((c * N + x) * (c * N + x)) with ((c * c * N + 2 * c * x) * N + x * x) by ring. rewrite Q. ring.
Qed.
Lemma power N b y e l : 0 <= e -> run N b b 1 l = (y, e) -> (N | b ^ e - y).
Proof. intros E R. eapply run_ok; [exact E|exact R|lia|]. rewrite Z.pow_1_r. exists 0. lia. Qed.
Lemma power_same N a b : forall e, 0 <= e -> (N | a - b) -> (N | a ^ e - b ^ e).
Proof.
  intros e E [c D]. revert e E. apply natlike_ind; [exists 0; rewrite !Z.pow_0_r; lia|]. intros e E [d H]. rewrite !Z.pow_succ_r by lia.
  exists (c * a ^ e + b * d). replace (a * a ^ e - b * b ^ e) with ((a - b) * a ^ e + b * (a ^ e - b ^ e)) by ring. rewrite D, H. ring.
Qed.
Lemma divide_trans N a b c : (N | a - b) -> (N | b - c) -> (N | a - c).
Proof. intros [x X] [y Y]. exists (x + y). lia. Qed.
Lemma same_unit N u x y : (N | x - y) -> (N | u * (y - 1) - 1) -> (N | u * (x - 1) - 1).
Proof. intros [c C] [d D]. exists (u * c + d). replace (u * (x - 1) - 1) with (u * (x - y) + (u * (y - 1) - 1)) by ring. rewrite C, D. ring. Qed.
Definition chk1 (N a f y i : Z) (c d : list (bool * Z * Z)) : bool :=
  let R := (N - 1) / f in
  (1 <? N) && (1 <? f) && (R * f =? N - 1) && (0 <=? R) &&
  (let '(y', e) := run N a a 1 c in (y' =? y) && (e =? R)) &&
  (let '(z, e) := run N y y 1 d in (z =? 1) && (e =? f)) &&
  ((i * (y - 1) - 1) mod N =? 0).
Lemma run_pair N a c y e : (let '(y', e') := run N a a 1 c in (y' =? y) && (e' =? e)) = true -> run N a a 1 c = (y, e).
Proof. destruct (run N a a 1 c). rewrite andb_true_iff, !Z.eqb_eq. intros [-> ->]. reflexivity. Qed.
Lemma chk1_ok N a f y i c d : chk1 N a f y i c d = true -> step_ok N a f.
Proof.
  unfold chk1. rewrite !andb_true_iff, !Z.eqb_eq, Z.leb_le, !Z.ltb_lt. intros [[[[[[N1 F1] RF] R0] P1] P2] I].
  apply run_pair, power in P1; [|assumption]. apply run_pair, power in P2; [|lia]. apply Z.mod_divide in I; [|lia].
  split; [assumption|]. split; [exists ((N - 1) / f); lia|]. split.
  - rewrite <- RF at 1. rewrite Z.pow_mul_r by lia. eapply divide_trans; [|exact P2]. apply power_same; [lia|assumption].
  - exists i. eapply same_unit; eassumption.
Qed.
Definition chk2 (N a f g y u v i j : Z) (c cf cg d : list (bool * Z * Z)) : bool :=
  let R := (N - 1) / (f * g) in
  (1 <? N) && (1 <? f) && (1 <? g) && (R * f * g =? N - 1) && (0 <=? R) &&
  (let '(z, e) := run N a a 1 c in (z =? y) && (e =? R)) &&
  (let '(z, e) := run N y y 1 cf in (z =? u) && (e =? f)) &&
  (let '(z, e) := run N y y 1 cg in (z =? v) && (e =? g)) &&
  (let '(z, e) := run N u u 1 d in (z =? 1) && (e =? g)) &&
  ((i * (u - 1) - 1) mod N =? 0) && ((j * (v - 1) - 1) mod N =? 0).
Lemma chk2_ok N a f g y u v i j c cf cg d : chk2 N a f g y u v i j c cf cg d = true -> step_ok N a f /\ step_ok N a g.
Proof.
  unfold chk2. rewrite !andb_true_iff, !Z.eqb_eq, Z.leb_le, !Z.ltb_lt. intros [[[[[[[[[[N1 F1] G1] RF] R0] P1] P2] P3] P4] I] J].
  apply run_pair, power in P1; [|assumption]. apply run_pair, power in P2; [|lia]. apply run_pair, power in P3; [|lia]. apply run_pair, power in P4; [|lia].
  apply Z.mod_divide in I; [|lia]. apply Z.mod_divide in J; [|lia]. generalize dependent ((N - 1) / (f * g)). intros R RF R0 P1.
  assert (U : (N | a ^ (R * f) - u)).
  { rewrite Z.pow_mul_r by lia. eapply divide_trans; [|exact P2]. apply power_same; [lia|assumption]. }
  assert (V : (N | a ^ (R * g) - v)).
  { rewrite Z.pow_mul_r by lia. eapply divide_trans; [|exact P3]. apply power_same; [lia|assumption]. }
  assert (W : (N | a ^ (N - 1) - 1)).
  { rewrite <- RF, Z.pow_mul_r by nia. eapply divide_trans; [|exact P4]. apply power_same; [lia|assumption]. }
  split; (split; [assumption|]).
  - split; [exists (R * g); nia|]. split; [assumption|]. exists j. replace ((N - 1) / f) with (R * g). { eapply same_unit; eassumption. }
    rewrite <- RF. replace (R * f * g) with (R * g * f) by ring. rewrite Z.div_mul by lia. reflexivity.
  - split; [exists (R * f); nia|]. split; [assumption|]. exists i. replace ((N - 1) / g) with (R * f). { eapply same_unit; eassumption. }
    rewrite <- RF. rewrite Z.div_mul by lia. reflexivity.
Qed.
(** Trial division *)
Fixpoint trial (n : nat) (d N : Z) : bool :=
  match n with O => true | S n => negb (N mod d =? 0) && trial n (d + 1) N end.
Lemma trial_ok : forall n d N, trial n d N = true -> forall q, d <= q < d + Z.of_nat n -> N mod q <> 0.
Proof.
  induction n; intros d N H q Hq; [lia|]. cbn [trial] in H. apply andb_true_iff in H. destruct H as [H1 H2]. apply negb_true_iff, Z.eqb_neq in H1.
  destruct (Z.eq_dec q d) as [->|]; [assumption|]. eapply IHn; [eassumption|lia].
Qed.
Lemma prime_by_trial N k : trial (Z.to_nat k) 2 N = true -> (1 <? N) && (0 <=? k) && (N <? (k + 2) * (k + 2)) = true -> prime N.
Proof.
  intros T B. rewrite !andb_true_iff, Z.leb_le, !Z.ltb_lt in B. destruct B as [[H1 H2] H3]. apply prime_by_roots; [assumption|].
  intros q Pq Dq. pose proof (prime_ge_2 q Pq). destruct (Z.lt_ge_cases q (k + 2)); [|nia]. exfalso.
  apply (trial_ok _ _ _ T q); [lia|]. apply Z.mod_divide; [lia|assumption].
Qed.
Ltac by_trial k := apply (prime_by_trial _ k); vm_compute; reflexivity.
Lemma pr_3677 : prime 3677.
Proof. by_trial 61. Qed.
Lemma pr_197 : prime 197.
Proof. by_trial 15. Qed.
Lemma pr_313 : prime 313.
Proof. by_trial 17. Qed.
Lemma pr_5 : prime 5.
Proof. by_trial 1. Qed.
Lemma pr_4349 : prime 4349.
Proof. by_trial 65. Qed.
Lemma pr_155317 : prime 155317.
Proof. by_trial 393. Qed.
Lemma pr_104471 : prime 104471.
Proof. by_trial 323. Qed.
Lemma pr_3023 : prime 3023.
Proof. by_trial 55. Qed.
Lemma pr_78283 : prime 78283.
Proof. apply (pocklington1 _ 2 4349 pr_4349); [apply (chk1_ok _ _ _ c_78283_y c_78283_i c_78283_a c_78283_b)|]; vm_compute; reflexivity. Qed.
Lemma ch_704251 : step_ok 704251 2 313 /\ step_ok 704251 2 5.
Proof. apply (chk2_ok _ _ _ _ c_704251_y c_704251_u c_704251_v c_704251_ui c_704251_vi c_704251_a c_704251_f c_704251_g c_704251_fg). vm_compute. reflexivity. Qed.
Lemma pr_704251 : prime 704251.
Proof. apply (pocklington2 _ 2 313 5 pr_313 pr_5); [discriminate|exact (proj1 ch_704251)|exact (proj2 ch_704251)|vm_compute; reflexivity]. Qed.
Lemma pr_3969899 : prime 3969899.
Proof. apply (pocklington1 _ 2 104471 pr_104471); [apply (chk1_ok _ _ _ c_3969899_y c_3969899_i c_3969899_a c_3969899_b)|]; vm_compute; reflexivity. Qed.
Lemma pr_191039911 : prime 191039911.
Proof. apply (pocklington1 _ 2 155317 pr_155317); [apply (chk1_ok _ _ _ c_191039911_y c_191039911_i c_191039911_a c_191039911_b)|]; vm_compute; reflexivity. Qed.
Lemma ch_66417393611 : step_ok 66417393611 2 3677 /\ step_ok 66417393611 2 197.
Proof. apply (chk2_ok _ _ _ _ c_66417393611_y c_66417393611_u c_66417393611_v c_66417393611_ui c_66417393611_vi c_66417393611_a c_66417393611_f c_66417393611_g c_66417393611_fg). vm_compute. reflexivity. Qed.
Lemma pr_66417393611 : prime 66417393611.
Proof. apply (pocklington2 _ 2 3677 197 pr_3677 pr_197); [discriminate|exact (proj1 ch_66417393611)|exact (proj2 ch_66417393611)|vm_compute; reflexivity]. Qed.
Lemma pr_1002328039319 : prime 1002328039319.
Proof. apply (pocklington1 _ 2 3969899 pr_3969899); [apply (chk1_ok _ _ _ c_1002328039319_y c_1002328039319_i c_1002328039319_a c_1002328039319_b)|]; vm_compute; reflexivity. Qed.
Lemma pr_11290956913871 : prime 11290956913871.
Proof. apply (pocklington1 _ 2 66417393611 pr_66417393611); [apply (chk1_ok _ _ _ c_11290956913871_y c_11290956913871_i c_11290956913871_a c_11290956913871_b)|]; vm_compute; reflexivity. Qed.
Lemma ch_46076956964474543 : step_ok 46076956964474543 2 704251 /\ step_ok 46076956964474543 2 78283.
Proof. apply (chk2_ok _ _ _ _ c_46076956964474543_y c_46076956964474543_u c_46076956964474543_v c_46076956964474543_ui c_46076956964474543_vi c_46076956964474543_a c_46076956964474543_f c_46076956964474543_g c_46076956964474543_fg). vm_compute. reflexivity. Qed.
Lemma pr_46076956964474543 : prime 46076956964474543.
Proof. apply (pocklington2 _ 2 704251 78283 pr_704251 pr_78283); [discriminate|exact (proj1 ch_46076956964474543)|exact (proj2 ch_46076956964474543)|vm_compute; reflexivity]. Qed.
Lemma ch_208150935158385979 : step_ok 208150935158385979 2 191039911 /\ step_ok 208150935158385979 2 3023.
Proof. apply (chk2_ok _ _ _ _ c_208150935158385979_y c_208150935158385979_u c_208150935158385979_v c_208150935158385979_ui c_208150935158385979_vi c_208150935158385979_a c_208150935158385979_f c_208150935158385979_g c_208150935158385979_fg). vm_compute. reflexivity. Qed.
Lemma pr_208150935158385979 : prime 208150935158385979.
Proof. apply (pocklington2 _ 2 191039911 3023 pr_191039911 pr_3023); [discriminate|exact (proj1 ch_208150935158385979)|exact (proj2 ch_208150935158385979)|vm_compute; reflexivity]. Qed.
Lemma pr_2624747550333869278416773953 : prime 2624747550333869278416773953.
Proof. apply (pocklington1 _ 2 208150935158385979 pr_208150935158385979); [apply (chk1_ok _ _ _ c_2624747550333869278416773953_y c_2624747550333869278416773953_i c_2624747550333869278416773953_a c_2624747550333869278416773953_b)|]; vm_compute; reflexivity. Qed.
Lemma ch_774023187263532362759620327192479577272145303 : step_ok 774023187263532362759620327192479577272145303 2 11290956913871 /\ step_ok 774023187263532362759620327192479577272145303 2 46076956964474543.
Proof. apply (chk2_ok _ _ _ _ c_774023187263532362759620327192479577272145303_y c_774023187263532362759620327192479577272145303_u c_774023187263532362759620327192479577272145303_v c_774023187263532362759620327192479577272145303_ui c_774023187263532362759620327192479577272145303_vi c_774023187263532362759620327192479577272145303_a c_774023187263532362759620327192479577272145303_f c_774023187263532362759620327192479577272145303_g c_774023187263532362759620327192479577272145303_fg). vm_compute. reflexivity. Qed.
Lemma pr_774023187263532362759620327192479577272145303 : prime 774023187263532362759620327192479577272145303.
Proof. apply (pocklington2 _ 2 11290956913871 46076956964474543 pr_11290956913871 pr_46076956964474543); [discriminate|exact (proj1 ch_774023187263532362759620327192479577272145303)|exact (proj2 ch_774023187263532362759620327192479577272145303)|vm_compute; reflexivity]. Qed.
Lemma pr_835945042244614951780389953367877943453916927241 : prime 835945042244614951780389953367877943453916927241.
Proof. apply (pocklington1 _ 2 774023187263532362759620327192479577272145303 pr_774023187263532362759620327192479577272145303); [apply (chk1_ok _ _ _ c_835945042244614951780389953367877943453916927241_y c_835945042244614951780389953367877943453916927241_i c_835945042244614951780389953367877943453916927241_a c_835945042244614951780389953367877943453916927241_b)|]; vm_compute; reflexivity. Qed.
Lemma ch_n256 : step_ok n256 2 2624747550333869278416773953 /\ step_ok n256 2 1002328039319.
Proof. apply (chk2_ok _ _ _ _ c_n256_y c_n256_u c_n256_v c_n256_ui c_n256_vi c_n256_a c_n256_f c_n256_g c_n256_fg). vm_compute. reflexivity. Qed.
Lemma pr_n256 : prime n256.
Proof. apply (pocklington2 _ 2 2624747550333869278416773953 1002328039319 pr_2624747550333869278416773953 pr_1002328039319); [discriminate|exact (proj1 ch_n256)|exact (proj2 ch_n256)|vm_compute; reflexivity]. Qed.
Lemma pr_p256 : prime p256.
Proof. apply (pocklington1 _ 2 835945042244614951780389953367877943453916927241 pr_835945042244614951780389953367877943453916927241); [apply (chk1_ok _ _ _ c_p256_y c_p256_i c_p256_a c_p256_b)|]; vm_compute; reflexivity. Qed.
Theorem p256_prime : prime p256.
Proof. exact pr_p256. Qed.
Theorem n256_prime : prime n256.
Proof. exact pr_n256. Qed.
