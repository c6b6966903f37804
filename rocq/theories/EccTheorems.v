(** P-256: the arithmetic, the public key and the signature of src/ecc.c. *)
From Verif Require Import Common CommonFacts EccModel EccSpec EccLimb EccMult EccMmod EccField EccPrime EccModMult EccLadder EccAlgebra EccCurve EccMultiple EccBytes EccSign.
From Coq Require Import Znumtheory Setoid Morphisms.

(** ** The arithmetic *)
Definition four_words (l : list Z) : Prop := words l /\ length l = 4%nat.
Theorem product_exact a b : four_words a -> four_words b ->
  vli_mult a b = digits 8 (val a * val b) /\ vli_sqr a = digits 8 (val a * val a).
Proof.
  intros A B. assert (G : forall l v, wide l -> val l = v -> l = digits 8 v) by (intros l v [W L] <-; rewrite <- L; symmetry; apply digits_val; exact W).
  split; apply G; first [apply vli_mult_ok | apply vli_sqr_ok]; assumption.
Qed.
Print Assumptions product_exact.

(** Without 128-bit integers the products are wrong: the carry out of the third digit is lost
    where the digits happen to be equal (ecc.c:512-515 and 540-543) *)
Theorem product_without_int128_refuted : exists a b c, four_words a /\ four_words b /\ four_words c /\
  val (vli_mult_pair a b) <> val a * val b /\ val (vli_sqr_pair c) <> val c * val c.
Proof.
  exists [2 ^ 63; 2 ^ 63; 1; 0], [2 ^ 64 - 1; 2 ^ 64 - 1; 2 ^ 64 - 1; 0], [9223372036854775808; 9223372036854775807; 1; 18446744073709551615].
  assert (W : forall a b c d, forallb (fun x => (0 <=? x) && (x <? 2 ^ 64)) [a; b; c; d] = true -> four_words [a; b; c; d]).
  { intros a b c d H. split; [|reflexivity]. rewrite forallb_forall in H. apply Forall_forall. intros x Hx. specialize (H x Hx). unfold word. lia. }
  split; [apply W; reflexivity|]. split; [apply W; reflexivity|]. split; [apply W; reflexivity|]. split; vm_compute; discriminate.
Qed.
Print Assumptions product_without_int128_refuted.

(** The operations modulo p, on numbers below p *)
Theorem field_exact a b : four_words a -> four_words b -> val a < p256 -> val b < p256 ->
  vli_mod_add a b curve_p = digits 4 ((val a + val b) mod p256) /\
  vli_mod_sub a b curve_p = digits 4 ((val a - val b) mod p256) /\
  vli_mod_mult_fast a b = Some (digits 4 ((val a * val b) mod p256)) /\
  vli_mod_sqr_fast a = Some (digits 4 ((val a * val a) mod p256)).
Proof.
  intros A B Ha Hb. assert (G : forall l, four_words l -> 0 <= val l) by (intros l [W L]; apply val_range in W; lia).
  pose proof (G a A). pose proof (G b B). rewrite <- (of_val a A), <- (of_val b B), !val_of by (apply red_B4; split; assumption).
  split; [apply add_f; split; assumption|]. split; [apply sub_f; split; assumption|]. split; [apply mul_f; split; assumption|apply sqr_f; split; assumption].
Qed.
Print Assumptions field_exact.
(** The product is right for every pair of numbers of four digits, and any number of eight
    digits is reduced *)
Theorem reduction_exact l : words l -> length l = 8%nat -> vli_mmod_fast l = Some (digits 4 (val l mod p256)).
Proof. intros W L. apply mmod_fast_ok. split; assumption. Qed.
Print Assumptions reduction_exact.

(** p and n are prime, so every number but zero has an inverse; the inverse is found *)
Theorem primes : prime p256 /\ prime n256.
Proof. split; [apply p256_prime|apply n256_prime]. Qed.
Print Assumptions primes.
Theorem inverse_exact m a : m = p256 \/ m = n256 -> four_words a -> val a < m ->
  exists w, vli_mod_inv a (digits 4 m) = Some (digits 4 w) /\ 0 <= w < m /\ (w * val a) mod m = (if val a =? 0 then 0 else 1) /\ (val a = 0 -> w = 0).
Proof.
  intros M A Ha. assert (G : 0 <= val a) by (destruct A as [W L]; apply val_range in W; lia).
  assert (PM : prime m) by (destruct M as [-> | ->]; [apply p256_prime|apply n256_prime]).
  assert (MR : 0 < m < B4) by (destruct M as [-> | ->]; [apply p_range|apply n_range]).
  assert (MO : m mod 2 = 1) by (destruct M as [-> | ->]; reflexivity).
  assert (MV : vli (digits 4 m)) by apply vli_of.
  assert (MX : val (digits 4 m) = m) by (apply val_of; lia).
  rewrite <- (of_val a A). rewrite val_of by lia. destruct (Z.eqb_spec (val a) 0) as [E|E].
  - exists 0. rewrite E. split; [apply mod_inv_zero|]. split; [lia|]. split; [apply Z.mod_0_l; lia|reflexivity].
  - destruct (mod_inv_ok (digits 4 m) m MV MX MR MO (val a)) as (w & W1 & W2 & W3); [pose proof (prime_ge_2 m PM); lia|lia| |].
    { apply Zgcd_1_rel_prime. apply rel_prime_sym. apply prime_rel_prime; [exact PM|]. intros D. apply Z.divide_pos_le in D; lia. }
    exists w. split; [exact W1|]. split; [exact W2|]. split; [exact W3|]. intros Q. contradiction.
Qed.
Print Assumptions inverse_exact.
(** The product modulo n, for every pair of numbers of four digits *)
Theorem order_product_exact a b : four_words a -> four_words b -> vli_mod_mult a b curve_n = Some (digits 4 ((val a * val b) mod n256)).
Proof.
  intros A B. assert (G : forall l, four_words l -> 0 <= val l < B4).
  { intros l [W L]. pose proof (val_range l W) as R. rewrite L in R. exact R. }
  rewrite <- (of_val a A), <- (of_val b B). rewrite !val_of by (apply G; assumption).
  apply (mod_mult_ok curve_n n256 vli_n val_n n_top); apply G; assumption.
Qed.
Print Assumptions order_product_exact.

(** ** The public key *)
Lemma some_inj {A} (a b : A) : Some a = Some b -> a = b.
Proof. congruence. Qed.
Lemma signed_inj a b : Signed a = Signed b -> a = b.
Proof. congruence. Qed.
Lemma reduced_eqpt a b : reduced a -> reduced b -> eqpt a b -> a = b.
Proof.
  intros [A1 A2] [B1 B2] [E1 E2]. rewrite (surjective_pairing a), (surjective_pairing b).
  assert (G : forall x y, 0 <= x < p256 -> 0 <= y < p256 -> eqp x y -> x = y).
  { intros x y X Y E. unfold eqp in E. pose proof p2 as P. generalize dependent p256. intros p. intros.
    apply mod_cong in E; [|lia]. rewrite !Z.mod_small in E by assumption. exact E. }
  f_equal; apply G; assumption.
Qed.
Lemma base_multiple_gmul k q : 0 <= k -> base_multiple k q <-> q = gmul k /\ gmul k <> (0, 0).
Proof.
  intros K. destruct (gmul_ok k K) as [(O & M & C)|[E N]].
  - split.
    + intros (M' & O' & R & _). split; [|apply on_curve_nonzero; exact O]. apply reduced_eqpt; [exact R|apply gmul_red|].
      apply (multiple_unique g256 _ (used k) q (gmul k) (Nat.le_refl _)); assumption.
    + intros [-> _]. split; [exact M|]. split; [exact O|]. split; [apply gmul_red|exact C].
  - split; [intros (_ & _ & _ & C); contradiction|]. intros [_ X]. contradiction.
Qed.
Lemma zero_pair (q : Z * Z) : (fst q =? 0) && (snd q =? 0) = true <-> q = (0, 0).
Proof. destruct q as [x y]. cbn [fst snd]. split; [intros H; f_equal; lia|intros [= -> ->]; reflexivity]. Qed.
(** The multiple of the base point is unique *)
Theorem base_multiple_unique k q q' : 0 <= k -> base_multiple k q -> base_multiple k q' -> q = q'.
Proof. intros K A B. apply base_multiple_gmul in A; [|exact K]. apply base_multiple_gmul in B; [|exact K]. destruct A as [-> _], B as [-> _]. reflexivity. Qed.
Print Assumptions base_multiple_unique.
(** For every key of 32 bytes: the call ends, and gives the coordinates of the multiple of the
    base point or nothing. *)
Theorem public_key_partial key : octets key ->
  (forall out, make_pubkey key = Some (Some out) <->
     number key <> 0 /\ exists q, base_multiple (number key mod n256) q /\ out = big 32 (fst q) ++ big 32 (snd q)) /\
  (make_pubkey key = Some None <-> number key = 0 \/ ~ exists q, base_multiple (number key mod n256) q).
Proof.
  intros O. rewrite (make_pubkey_ok key O). pose proof (Z.mod_pos_bound (number key) n256 n_pos) as [K _].
  set (k := number key mod n256) in *. destruct (Z.eqb_spec (number key) 0) as [E|E].
  - split; [|tauto]. intros out. split; [discriminate|]. intros [X _]. contradiction.
  - cbv zeta. destruct ((fst (gmul k) =? 0) && (snd (gmul k) =? 0)) eqn:Q.
    + apply zero_pair in Q. split.
      * intros out. split; [discriminate|]. intros (_ & q & B & _). apply base_multiple_gmul in B; [|exact K]. tauto.
      * split; [|reflexivity]. intros _. right. intros [q B]. apply base_multiple_gmul in B; [|exact K]. tauto.
    + assert (NZ : gmul k <> (0, 0)) by (intros X; apply zero_pair in X; congruence). split.
      * intros out. split.
        -- intros X. apply some_inj, some_inj in X. subst out. split; [exact E|]. exists (gmul k). split; [apply base_multiple_gmul; [exact K|tauto]|reflexivity].
        -- intros (_ & q & B & ->). apply base_multiple_gmul in B; [|exact K]. destruct B as [-> _]. reflexivity.
      * split; [discriminate|]. intros [X|X]; [contradiction|]. exfalso. apply X. exists (gmul k). apply base_multiple_gmul; [exact K|tauto].
Qed.
Print Assumptions public_key_partial.
(** From 2 on this is the key times the base point, in the published sense *)
Corollary public_key_is_multiple key out : octets key -> 2 <= number key < n256 -> make_pubkey key = Some (Some out) ->
  exists q, multiple g256 (number key) q /\ on_curve q /\ reduced q /\ out = big 32 (fst q) ++ big 32 (snd q).
Proof.
  intros O R E. apply (proj1 (public_key_partial key O)) in E. destruct E as (_ & q & (M & C & D & _) & ->).
  rewrite Z.mod_small in M by lia. unfold used in M. destruct (Z.ltb_spec (number key) 2); [lia|]. exists q. auto.
Qed.
Print Assumptions public_key_is_multiple.
Lemma octets_big v : octets (big 32 v).
Proof.
  assert (G : forall n, length (big n v) = n /\ Forall (fun x => 0 <= x < 256) (big n v)).
  { induction n as [|n [L F]]; [split; [reflexivity|apply Forall_nil]|]. cbn [big length]. split; [congruence|]. apply Forall_cons; [apply Z.mod_pos_bound; reflexivity|exact F]. }
  apply G.
Qed.
Lemma big_inj a b c d : 0 <= a < B4 -> 0 <= b < B4 -> 0 <= c < B4 -> 0 <= d < B4 -> big 32 a ++ big 32 b = big 32 c ++ big 32 d -> a = c /\ b = d.
Proof.
  intros A B C D E. assert (L : forall x, length (big 32 x) = 32%nat) by (intros; apply octets_big).
  assert (E1 : firstn 32 (big 32 a ++ big 32 b) = firstn 32 (big 32 c ++ big 32 d)) by (rewrite E; reflexivity).
  assert (E2 : skipn 32 (big 32 a ++ big 32 b) = skipn 32 (big 32 c ++ big 32 d)) by (rewrite E; reflexivity).
  rewrite !firstn_app, !firstn_all2, !L, Nat.sub_diag, !app_nil_r in E1 by (rewrite L; lia).
  rewrite !skipn_app, !skipn_all2, !L, Nat.sub_diag in E2 by (rewrite L; lia). cbn [skipn app] in E2.
  split.
  - rewrite <- (big_number 32 a A), <- (big_number 32 c C), E1. reflexivity.
  - rewrite <- (big_number 32 b B), <- (big_number 32 d D), E2. reflexivity.
Qed.
(** Small multiples of the base point, with the slopes and inverses that show them *)
Definition zerop (v : Z) : bool := v mod p256 =? 0.
Definition is_third (l : Z) (a b c : Z * Z) : bool :=
  zerop (fst c - (l * l - fst a - fst b)) && zerop (snd c - (l * (fst a - fst c) - snd a)).
Definition is_chord (l i : Z) (a b c : Z * Z) : bool :=
  zerop (i * (fst b - fst a) - 1) && zerop (l * (fst b - fst a) - (snd b - snd a)) && is_third l a b c.
Definition is_tangent (l i : Z) (a c : Z * Z) : bool :=
  zerop (i * (2 * snd a) - 1) && zerop (l * (2 * snd a) - (3 * fst a * fst a - 3)) && is_third l a a c.
Definition is_point (a : Z * Z) : bool :=
  zerop (snd a * snd a - (fst a * fst a * fst a - 3 * fst a + b256)) && (0 <=? fst a) && (fst a <? p256) && (0 <=? snd a) && (snd a <? p256).
Lemma chord_by l i a b c : is_chord l i a b c = true -> chord a b c.
Proof.
  unfold is_chord, is_third, zerop. rewrite !andb_true_iff, !Z.eqb_eq. intros [[H1 H2] [H3 H4]]. split; [exists i; exact H1|]. exists l. split; [exact H2|]. split; assumption.
Qed.
Lemma tangent_by l i a c : is_tangent l i a c = true -> tangent a c.
Proof.
  unfold is_tangent, is_third, zerop. rewrite !andb_true_iff, !Z.eqb_eq. intros [[H1 H2] [H3 H4]]. split; [exists i; exact H1|]. exists l. split; [exact H2|]. split; assumption.
Qed.
Lemma point_by a : is_point a = true -> on_curve a /\ reduced a.
Proof. unfold is_point, zerop. rewrite !andb_true_iff, Z.eqb_eq, !Z.leb_le, !Z.ltb_lt. intros [[[[H1 H2] H3] H4] H5]. split; [exact H1|]. split; split; assumption. Qed.
Definition g2 : Z * Z :=
  (0x7cf27b188d034f7e8a52380304b51ac3c08969e277f21b35a60b48fc47669978,
   0x7775510db8ed040293d9ac69f7430dbba7dade63ce982299e04b79d227873d1).
Definition g3 : Z * Z :=
  (0x5ecbe4d1a6330a44c8f7ef951d4bf165e6c6b721efada985fb41661bc6e7fd6c,
   0x8734640c4998ff7e374b06ce1a64a2ecd82ab036384fb83d9a79b127a27d5032).
Definition g4 : Z * Z :=
  (0xe2534a3532d08fbba02dde659ee62bd0031fe2db785596ef509302446b030852,
   0xe0f1575a4c633cc719dfee5fda862d764efc96c3f30ee0055c42c23f184ed8c6).
Definition g5 : Z * Z :=
  (0x51590b7a515140d2d784c85608668fdfef8c82fd1f5be52421554a0dc3d033ed,
   0xe0c17da8904a727d8ae1bf36bf8a79260d012f00d4d80888d1d0bb44fda16da4).
Definition g6 : Z * Z :=
  (0xb01a172a76a4602c92d3242cb897dde3024c740debb215b4c6b0aae93c2291a9,
   0xe85c10743237dad56fec0e2dfba703791c00f7701c7e16bdfd7c48538fc77fe2).
Definition g7 : Z * Z :=
  (0x8e533b6fa0bf7b4625bb30667c01fb607ef9f8b8a80fef5b300628703187b2a3,
   0x73eb1dbde03318366d069f83a6f5900053c73633cb041b21c55e1a86c1f400b4).
Lemma m1 : multiple g256 1 g256.
Proof. apply multiple_one. Qed.
Lemma m2 : multiple g256 2 g2.
Proof. apply (multiple_even g256 1 g256 g2 m1). apply (tangent_by
  0xa249bcb3191802d3cb56fc75a8731f848e7b2caf080f3477a4e4d904a671af9d
  0x7d13d1ed160030c54147c66b2e0d48cf7fe33dfb45a6dd82dded53bae22ea01a). vm_compute. reflexivity. Qed.
Lemma m3 : multiple g256 3 g3.
Proof. apply (multiple_odd g256 1 g256 g2 g3 ltac:(discriminate) m1 m2). apply (chord_by
  0x28cdb0fe6681d140c59fb73f85f16459ca4cee083742bada762de4ca226a8086
  0x5cd14f7b0db3ae51c4b8a837b2f5efd55ea52a15f4802742d3248c306ae52d7). vm_compute. reflexivity. Qed.
Lemma m4 : multiple g256 4 g4.
Proof. apply (multiple_even g256 2 g2 g4 m2). apply (tangent_by
  0xc2489a9eef61dfa06d3741ff3b405300988bd0db42a937859069b9cefb576e35
  0x3355e608a7d25b3e0e175eb42ce49ad42fdbd5bf97ae4531ef210539e529ec72). vm_compute. reflexivity. Qed.
Lemma m5 : multiple g256 5 g5.
Proof. apply (multiple_odd g256 2 g2 g3 g5 ltac:(discriminate) m2 m3). apply (chord_by
  0x63fed8962c05ae08af71e0370a29504a31d75d0224fb0135dedbf2b49db4ec5a
  0x48d9c72bd7ba4c2badbfc04e404acffbca12532bc63450f982a3f58b2e484698). vm_compute. reflexivity. Qed.
Lemma m6 : multiple g256 6 g6.
Proof. apply (multiple_even g256 3 g3 g6 m3). apply (tangent_by
  0xcffdb37b9cade05fdb719f4ad73b00878ccbbf536584dc9d3ea8a8ba9b0101fa
  0xa3656d62d560665e4267d316d3d2bd2de25e12aca8159d338efa3608f84897a1). vm_compute. reflexivity. Qed.
Lemma m7 : multiple g256 7 g7.
Proof. apply (multiple_odd g256 3 g3 g4 g7 ltac:(discriminate) m3 m4). apply (chord_by
  0xba77e145a317c0f788ce2cf76a4904293ea165fa3fbcf912de8a37fe731b54f8
  0x45308d7e43003d1e0f7f53d106e4a32e56dfea7f8690a155220182490c5d0cb5). vm_compute. reflexivity. Qed.
Lemma o2 : on_curve g2 /\ reduced g2.
Proof. apply point_by. vm_compute. reflexivity. Qed.
Lemma o3 : on_curve g3 /\ reduced g3.
Proof. apply point_by. vm_compute. reflexivity. Qed.
Lemma o5 : on_curve g5 /\ reduced g5.
Proof. apply point_by. vm_compute. reflexivity. Qed.
Lemma o6 : on_curve g6 /\ reduced g6.
Proof. apply point_by. vm_compute. reflexivity. Qed.
Lemma base0 : base_multiple 0 g2.
Proof. exact (conj m2 (conj (proj1 o2) (conj (proj2 o2) (ex_intro _ g3 m3)))). Qed.
Lemma base2 : base_multiple 2 g2.
Proof. exact (conj m2 (conj (proj1 o2) (conj (proj2 o2) (ex_intro _ g3 m3)))). Qed.
Lemma base1 : base_multiple 1 g3.
Proof. exact (conj m3 (conj (proj1 o3) (conj (proj2 o3) (ex_intro _ g3 m3)))). Qed.
Lemma base3 : base_multiple 3 g3.
Proof. exact (conj m3 (conj (proj1 o3) (conj (proj2 o3) (ex_intro _ g3 m3)))). Qed.
Lemma base5 : base_multiple 5 g5.
Proof. exact (conj m5 (conj (proj1 o5) (conj (proj2 o5) (ex_intro _ g5 m5)))). Qed.
Lemma base6 : base_multiple 6 g6.
Proof. exact (conj m6 (conj (proj1 o6) (conj (proj2 o6) (ex_intro _ g7 m7)))). Qed.
Lemma key_of v k q : 0 <= v < 2 ^ 256 -> v <> 0 -> v mod n256 = k -> base_multiple k q -> make_pubkey (big 32 v) = Some (Some (big 32 (fst q) ++ big 32 (snd q))).
Proof.
  intros R N E B. apply (proj1 (public_key_partial (big 32 v) (octets_big v))). rewrite (big_number 32 v R). split; [exact N|]. exists q. rewrite E. split; [exact B|reflexivity].
Qed.
Lemma six_small : 0 <= 6 < 2 ^ 256. Proof. split; [discriminate|reflexivity]. Qed.
Lemma three_small : 0 <= 3 < 2 ^ 256. Proof. split; [discriminate|reflexivity]. Qed.
Lemma two_small : 0 <= 2 < 2 ^ 256. Proof. split; [discriminate|reflexivity]. Qed.
Lemma one_small : 0 <= 1 < 2 ^ 256. Proof. split; [discriminate|reflexivity]. Qed.
Lemma n_small : 0 <= n256 < 2 ^ 256. Proof. split; [discriminate|reflexivity]. Qed.
(** The key 6 *)
Example key_six : let key := big 32 6 in octets key /\ 2 <= number key < n256 /\
  make_pubkey key = Some (Some (big 32 0xb01a172a76a4602c92d3242cb897dde3024c740debb215b4c6b0aae93c2291a9 ++
                               big 32 0xe85c10743237dad56fec0e2dfba703791c00f7701c7e16bdfd7c48538fc77fe2)).
Proof.
  cbv zeta. split; [apply octets_big|]. split; [rewrite (big_number 32 6 six_small); split; [discriminate|reflexivity]|].
  exact (key_of 6 6 g6 six_small ltac:(discriminate) eq_refl base6).
Qed.
(** The key 1 gives three times the base point, and the key n, which should be refused, twice
    the base point *)
Theorem key_one_refuted : exists key, octets key /\ number key = 1 /\
  make_pubkey key <> Some (Some (big 32 (fst g256) ++ big 32 (snd g256))) /\ make_pubkey key = make_pubkey (big 32 3).
Proof.
  exists (big 32 1). split; [apply octets_big|]. split; [apply (big_number 32 1 one_small)|].
  pose proof (key_of 1 1 g3 one_small ltac:(discriminate) eq_refl base1) as E1. pose proof (key_of 3 3 g3 three_small ltac:(discriminate) eq_refl base3) as E3.
  rewrite E1, E3. split; [|reflexivity]. intros X. apply some_inj, some_inj in X.
  apply big_inj in X; try (split; [discriminate|reflexivity]). destruct X as [X _]. discriminate X.
Qed.
Print Assumptions key_one_refuted.
Theorem key_order_refuted : exists key out, octets key /\ number key = n256 /\ make_pubkey key = Some (Some out) /\ make_pubkey (big 32 2) = Some (Some out).
Proof.
  exists (big 32 n256), (big 32 (fst g2) ++ big 32 (snd g2)). split; [apply octets_big|]. split; [apply (big_number 32 n256 n_small)|].
  split; [exact (key_of n256 0 g2 n_small ltac:(discriminate) (Z_mod_same_full n256) base0)|exact (key_of 2 2 g2 two_small ltac:(discriminate) eq_refl base2)].
Qed.
Print Assumptions key_order_refuted.

(** ** The signature *)
Lemma from_source_of rnd : Forall from_source rnd -> exists ks, Forall vnum ks /\ rnd = map (option_map of) ks /\ ks = map (option_map val) rnd.
Proof.
  induction 1 as [|o rnd H F (ks & V & E & E')]; [exists []; repeat split; apply Forall_nil|].
  exists (option_map val o :: ks). subst ks. destruct o as [v|]; cbn [option_map map from_source] in *.
  - split; [apply Forall_cons; [|exact V]|].
    + cbn [vnum]. destruct H as [W L]. pose proof (val_range v W) as R. rewrite L in R. exact R.
    + split; [|reflexivity]. f_equal; [|exact E]. f_equal. symmetry. apply of_val. exact H.
  - split; [apply Forall_cons; [exact I|exact V]|]. split; [f_equal; exact E|reflexivity].
Qed.
Lemma good_iff v : four_words v -> good v <-> val v <> 0 /\ nonce_r (val v) <> 0.
Proof.
  intros [W L]. pose proof (Z.mod_pos_bound (val v) n256 n_pos) as [K _]. unfold good, nonce_r. split.
  - intros (N & q & B & Q). apply base_multiple_gmul in B; [|exact K]. destruct B as [-> _]. tauto.
  - intros (N & Q). split; [exact N|]. exists (gmul (val v mod n256)). split; [|exact Q]. apply base_multiple_gmul; [exact K|].
    split; [reflexivity|]. intros X. rewrite X in Q. apply Q. reflexivity.
Qed.
(** What the search does with the random numbers *)
Definition bad (o : option (list Z)) : Prop := exists w, o = Some w /\ ~ good w.
Definition starts (rnd : list (option (list Z))) : Prop := match rnd with Some w :: _ => val w <> 0 | _ => True end.
Lemma draw_spec : forall (tries : nat) rnd (first : bool), Forall from_source rnd ->
  (forall k, draw tries (map (option_map val) rnd) first = FNum k <->
     (first = true -> starts rnd) /\ exists l v rest, (length l < tries)%nat /\ rnd = l ++ Some v :: rest /\ Forall bad l /\ good v /\ k = val v) /\
  (draw tries (map (option_map val) rnd) first = FUnset <-> first = true /\ (0 < tries)%nat /\ ~ starts rnd).
Proof.
  induction tries as [|tries IH]; intros rnd first F.
  { split; [intros k; split; [discriminate|intros (_ & l & v & r & L & _); lia]|split; [discriminate|intros (_ & L & _); lia]]. }
  destruct rnd as [|o rnd].
  { split; [intros k; split; [discriminate|intros (_ & l & v & r & L & E & _); destruct l; discriminate E]|split; [discriminate|intros (_ & _ & N); exfalso; apply N; exact I]]. }
  apply Forall_cons_iff in F. destruct F as [Ho F]. destruct o as [w|]; cbn [map option_map draw starts].
  - cbn [from_source] in Ho. destruct (IH rnd false F) as [I1 I2].
    pose proof (good_iff w Ho) as G. destruct (Z.eqb_spec (val w) 0) as [E|E].
    + destruct first.
      * split; [intros k; split; [discriminate|intros (S & _); exfalso; apply (S eq_refl); exact E]|split; [intros _; split; [reflexivity|split; [lia|tauto]]|reflexivity]].
      * split.
        -- intros k. rewrite I1. split.
           ++ intros (_ & l & v & r & L & X & B & Gv & K). split; [discriminate|]. exists (Some w :: l), v, r.
              split; [cbn [length]; lia|]. split; [rewrite X; reflexivity|]. split; [apply Forall_cons; [exists w; split; [reflexivity|tauto]|exact B]|]. auto.
           ++ intros (_ & l & v & r & L & X & B & Gv & K). split; [discriminate|]. destruct l as [|o l]; cbn [app] in X; injection X as X1 X2; [subst v; tauto|].
              exists l, v, r. cbn [length] in L. split; [lia|]. split; [exact X2|]. apply Forall_cons_iff in B. tauto.
        -- rewrite I2. split; [intros (X & _); discriminate|intros (X & _); discriminate].
    + destruct (Z.eqb_spec (nonce_r (val w)) 0) as [R|R].
      * split.
        -- intros k. rewrite I1. split.
           ++ intros (_ & l & v & r & L & X & B & Gv & K). split; [intros _; exact E|]. exists (Some w :: l), v, r.
              split; [cbn [length]; lia|]. split; [rewrite X; reflexivity|]. split; [apply Forall_cons; [exists w; split; [reflexivity|tauto]|exact B]|]. auto.
           ++ intros (_ & l & v & r & L & X & B & Gv & K). split; [discriminate|]. destruct l as [|o l]; cbn [app] in X; injection X as X1 X2; [subst v; tauto|].
              exists l, v, r. cbn [length] in L. split; [lia|]. split; [exact X2|]. apply Forall_cons_iff in B. tauto.
        -- rewrite I2. split; [intros (X & _); discriminate|intros (_ & _ & X); contradiction].
      * split.
        -- intros k. split.
           ++ intros [= <-]. split; [intros _; exact E|]. exists [], w, rnd. split; [cbn [length]; lia|]. split; [reflexivity|]. split; [apply Forall_nil|]. tauto.
           ++ intros (_ & l & v & r & L & X & B & Gv & K). destruct l as [|o l]; cbn [app] in X; injection X as X1 X2; [subst v; congruence|].
              apply Forall_cons_iff in B. destruct B as [(w' & Y & NG) _]. subst o. injection Y as <-. tauto.
        -- split; [discriminate|]. intros (_ & _ & X). contradiction.
  - split; [intros k; split; [discriminate|]|split; [discriminate|intros (_ & _ & X); exfalso; apply X; exact I]].
    intros (_ & l & v & r & L & X & B & _). destruct l as [|o l]; cbn [app] in X; [discriminate|]. injection X as X1 X2. subst o.
    apply Forall_cons_iff in B. destruct B as [(w' & Y & _) _]. discriminate.
Qed.
Lemma signed_by_s d e v s : four_words v -> good v -> 0 <= d < B4 -> 0 <= e < B4 -> sign_s d e (val v) (nonce_r (val v)) = Some (of s) -> 0 <= s < n256 ->
  (val v mod n256 = 0 -> s = 0) -> (val v mod n256 <> 0 -> (s * val v - (e + nonce_r (val v) * d)) mod n256 = 0) ->
  signed_by d e (val v mod n256) (big 32 (nonce_r (val v)) ++ big 32 s).
Proof.
  intros W G Hd He E R S0 S1. pose proof (Z.mod_pos_bound (val v) n256 n_pos) as [K _]. destruct G as (N & q & B & Q).
  pose proof B as B'. apply base_multiple_gmul in B'; [|exact K]. destruct B' as [-> _].
  exists (gmul (val v mod n256)), (nonce_r (val v)), s. split; [exact B|]. split; [reflexivity|].
  split; [unfold nonce_r in *; pose proof (Z.mod_pos_bound (fst (gmul (val v mod n256))) n256 n_pos); lia|]. split; [exact R|]. split; [reflexivity|]. split; [exact S0|].
  intros NZ. specialize (S1 NZ). revert S1. generalize (nonce_r (val v)). intros r S1. pose proof n_pos as P. generalize dependent n256. intros n. intros.
  rewrite Zminus_mod, (Z.mul_mod_idemp_r s (val v)), <- Zminus_mod by lia. exact S1.
Qed.
(** The signature that a number gives is unique *)
Lemma signed_by_unique d e k o o' : 0 <= k < n256 -> signed_by d e k o -> signed_by d e k o' -> o = o'.
Proof.
  intros K (q & r & s & B & R & R0 & S & O & S0 & S1) (q' & r' & s' & B' & R' & R0' & S' & O' & S0' & S1').
  assert (q = q') as <- by (apply (base_multiple_unique k); [lia|assumption|assumption]). rewrite <- R in R'. subst r' o o'. f_equal. f_equal.
  destruct (Z.eq_dec k 0) as [Z0|NZ]; [rewrite (S0 Z0), (S0' Z0); reflexivity|].
  specialize (S1 NZ). specialize (S1' NZ). pose proof n256_prime as PN. pose proof n_pos as P. clear R B B'. generalize dependent n256. intros n. intros.
  assert (D : (n | (s - s') * k)).
  { apply Z.mod_divide; [lia|]. replace ((s - s') * k) with ((s * k - (e + r * d)) - (s' * k - (e + r * d))) by ring. rewrite Zminus_mod, S1, S1'. apply Z.mod_0_l. lia. }
  apply prime_mult in D; [|exact PN]. destruct D as [D|D].
  - destruct (Z.eq_dec s s') as [E|NE]; [exact E|]. apply Z.divide_abs_r in D. apply Z.divide_pos_le in D; lia.
  - apply Z.divide_pos_le in D; lia.
Qed.
(** For every key, hash and sequence of random numbers: the call ends. It gives a signature
    exactly when one of the first sixteen numbers can be used and none failed before, with
    the first such number; it is undefined exactly when the very first number is zero. *)
Theorem signature_partial rnd key hash : Forall from_source rnd -> octets key -> octets hash ->
  (forall out, ecc_sign rnd key hash = Some (Signed out) <->
     starts rnd /\ exists l v rest, (length l < 16)%nat /\ rnd = l ++ Some v :: rest /\ Forall bad l /\ good v /\
       signed_by (number key) (number hash) (val v mod n256) out) /\
  (ecc_sign rnd key hash = Some Undefined <-> ~ starts rnd) /\ ecc_sign rnd key hash <> None.
Proof.
  intros F OK OH. destruct (draw_spec 16 rnd true F) as [D1 D2].
  destruct (from_source_of rnd F) as (ks & V & E & E'). subst ks.
  pose proof (ecc_sign_ok _ key hash V OK OH) as S. rewrite <- E in S. rewrite S. clear S E.
  pose proof (proj2 (bytes2native_ok key OK)) as Hd. pose proof (proj2 (bytes2native_ok hash OH)) as He.
  destruct (draw 16 (map (option_map val) rnd) true) as [|k|] eqn:D.
  - split; [|split; [|discriminate]].
    + intros out. split; [discriminate|]. intros (ST & l & v & r & L & X & B & G & _). exfalso.
      assert (Q : FNo = FNum (val v)); [|discriminate]. apply D1. split; [intros _; exact ST|]. exists l, v, r. auto.
    + split; [discriminate|]. intros N. exfalso. assert (Q : FNo = FUnset); [|discriminate]. apply D2. split; [reflexivity|]. split; [lia|exact N].
  - destruct (proj1 (D1 k) eq_refl) as (ST & l & v & r & L & X & B & G & ->). specialize (ST eq_refl).
    assert (Wv : four_words v). { rewrite X in F. apply Forall_app in F. destruct F as [_ F]. apply Forall_cons_iff in F. apply F. }
    assert (Hr : 0 <= nonce_r (val v) < B4) by apply mod_n_B4.
    destruct (sign_s_ok (number key) (number hash) (val v) (nonce_r (val v)) Hd He Hr) as (s & Es & Rs & S0 & S1).
    rewrite Es. cbn [bindo]. rewrite native2bytes_ok by (pose proof n_range; lia).
    pose proof (signed_by_s _ _ v s Wv G Hd He Es Rs S0 S1) as SB.
    split; [|split; [|discriminate]].
    + intros out. split.
      * intros Y. apply some_inj, signed_inj in Y. subst out. split; [exact ST|]. exists l, v, r. auto 6.
      * intros (_ & l' & v' & r' & L' & X' & B' & G' & SB').
        assert (VV : val v' = val v).
        { assert (Q : FNum (val v) = FNum (val v')); [|injection Q; auto]. apply D1. split; [intros _; exact ST|]. exists l', v', r'. auto. }
        rewrite VV in SB'. f_equal. f_equal. apply (signed_by_unique _ _ _ _ _ (Z.mod_pos_bound (val v) n256 n_pos) SB SB').
    + split; [discriminate|]. intros N. contradiction.
  - destruct (proj1 D2 eq_refl) as (_ & _ & N). split; [|split; [|discriminate]].
    + intros out. split; [discriminate|]. intros (ST & _). contradiction.
    + split; [intros _; exact N|reflexivity].
Qed.
Print Assumptions signature_partial.
(** A signature from a number that is neither 0 nor 1 modulo n is an ECDSA signature *)
Corollary signature_is_ecdsa d e k out : 2 <= k < n256 -> signed_by d e k out -> exists r s, ecdsa d e k r s /\ out = big 32 r ++ big 32 s.
Proof.
  intros K (q & r & s & (M & C & R & _) & E & R0 & S & O & _ & S1). unfold used in M. destruct (Z.ltb_spec k 2); [lia|].
  exists r, s. split; [|exact O]. split; [exists q; auto|]. split; [subst r; pose proof (Z.mod_pos_bound (fst q) n256 n_pos); lia|]. split; [exact S|]. apply S1. lia.
Qed.
Print Assumptions signature_is_ecdsa.
(** With the number 5 *)
Lemma sign_of v k q s d e : 0 <= d < 2 ^ 256 -> 0 <= e < 2 ^ 256 -> 0 < v < 2 ^ 256 -> v mod n256 = k -> base_multiple k q -> 0 < fst q < n256 -> 0 <= s < n256 ->
  (k = 0 -> s = 0) -> (k <> 0 -> (s * k - (e + fst q * d)) mod n256 = 0) ->
  ecc_sign [Some (digits 4 v)] (big 32 d) (big 32 e) = Some (Signed (big 32 (fst q) ++ big 32 s)).
Proof.
  intros Hd He V E B Q S S0 S1. assert (FV : val (digits 4 v) = v) by (apply val_of; unfold B4; lia).
  assert (F : Forall from_source [Some (digits 4 v)]) by (apply Forall_cons; [apply vli_of|apply Forall_nil]).
  apply (proj1 (signature_partial _ (big 32 d) (big 32 e) F (octets_big d) (octets_big e))).
  rewrite (big_number 32 d Hd), (big_number 32 e He). split; [cbn [starts]; rewrite FV; lia|].
  exists [], (digits 4 v), []. split; [cbn [length]; lia|]. split; [reflexivity|]. split; [apply Forall_nil|]. unfold good. rewrite FV, E.
  assert (R : fst q mod n256 = fst q) by (apply Z.mod_small; lia).
  split; [split; [lia|]; exists q; split; [exact B|rewrite R; lia]|].
  exists q, (fst q), s. split; [exact B|]. split; [symmetry; exact R|]. split; [lia|]. auto.
Qed.
Example sign_with_five : exists r s, ecc_sign [Some (digits 4 5)] (big 32 7) (big 32 1000) = Some (Signed (big 32 r ++ big 32 s)) /\
  r = 0x51590b7a515140d2d784c85608668fdfef8c82fd1f5be52421554a0dc3d033ed /\ (s * 5 - (1000 + r * 7)) mod n256 = 0.
Proof.
  exists (fst g5), 0xa5164344a50b5ac0fa86b2120bc2c96ca8594feb808560805f695d07116a8424. split; [|split; vm_compute; reflexivity].
  apply (sign_of 5 5 g5); try (split; [discriminate|reflexivity]); try (split; reflexivity); [exact base5|discriminate].
Qed.
(** n as the random number: success, with s = 0, which no verifier accepts *)
Theorem signature_zero_refuted : exists rnd key hash r, Forall from_source rnd /\ octets key /\ octets hash /\
  ecc_sign rnd key hash = Some (Signed (big 32 r ++ repeat 0 32)).
Proof.
  exists [Some (digits 4 n256)], (big 32 7), (big 32 1000), (fst g2).
  split; [apply Forall_cons; [|apply Forall_nil]; apply vli_of|]. split; [apply octets_big|]. split; [apply octets_big|].
  change (repeat 0 32) with (big 32 0).
  apply (sign_of n256 0 g2); try (split; [discriminate|reflexivity]); try (split; reflexivity); [exact base0|]. intros X. contradiction.
Qed.
Print Assumptions signature_zero_refuted.
(** 1 as the random number: r is not that of the base point *)
Theorem signature_one_refuted : exists rnd key hash r s, Forall from_source rnd /\ octets key /\ octets hash /\ rnd = [Some (digits 4 1)] /\
  ecc_sign rnd key hash = Some (Signed (big 32 r ++ big 32 s)) /\ 0 < r < n256 /\ r <> fst g256 mod n256.
Proof.
  exists [Some (digits 4 1)], (big 32 7), (big 32 1000), (fst g3), 0x979341bd8b6547df7ec78d13cd1399c9d5a10c923f90659ff756353c7791a73a.
  split; [apply Forall_cons; [|apply Forall_nil]; apply vli_of|]. split; [apply octets_big|]. split; [apply octets_big|].
  split; [reflexivity|]. split; [|split; [split; reflexivity|vm_compute; discriminate]].
  apply (sign_of 1 1 g3); try (split; [discriminate|reflexivity]); try (split; reflexivity); [exact base1|discriminate].
Qed.
Print Assumptions signature_one_refuted.
(** 0 as the first random number: a coordinate that was never written is read *)
Theorem signature_unset_refuted : exists rnd key hash, Forall from_source rnd /\ octets key /\ octets hash /\ ecc_sign rnd key hash = Some Undefined.
Proof.
  exists [Some (digits 4 0)], (big 32 7), (big 32 1000). split; [apply Forall_cons; [|apply Forall_nil]; apply vli_of|]. split; [apply octets_big|]. split; [apply octets_big|]. reflexivity.
Qed.
Print Assumptions signature_unset_refuted.
