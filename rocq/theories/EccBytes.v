(** Bytes and digits; the multiplication of the base point. *)
From Verif Require Import Common CommonFacts EccModel EccSpec EccLimb EccMult EccField EccPrime EccModMult EccLadder EccAlgebra EccCurve EccMultiple.
From Coq Require Import Znumtheory Setoid Morphisms.

Lemma number_app a b : number (a ++ b) = number a * 256 ^ Z.of_nat (length b) + number b.
Proof.
  unfold number. rewrite fold_left_app. generalize (fold_left (fun a x => a * 256 + x) a 0). clear a.
  induction b as [|x b IH]; intros u; [cbn [fold_left length]; change (256 ^ Z.of_nat 0) with 1; ring|]. cbn [fold_left length]. rewrite IH, (IH (0 * 256 + x)).
  rewrite Nat2Z.inj_succ, Z.pow_succ_r by lia. ring.
Qed.
Definition octs (b : list Z) : Prop := Forall (fun x => 0 <= x < 256) b.
Lemma number_range b : octs b -> 0 <= number b < 256 ^ Z.of_nat (length b).
Proof.
  induction 1 as [|x b Hx F IH].
  - split; [reflexivity|]. reflexivity.
  - change (x :: b) with ([x] ++ b). rewrite number_app. change (length ([x] ++ b)) with (S (length b)). rewrite Nat2Z.inj_succ, Z.pow_succ_r by lia.
    change (number [x]) with x. set (e := 256 ^ Z.of_nat (length b)) in *. clearbody e. nia.
Qed.
Lemma lor_step u x n : 0 <= n -> 0 <= x < 256 -> Z.lor (u * 2 ^ (n + 8)) (x * 2 ^ n) = (u * 256 + x) * 2 ^ n.
Proof.
  intros Hn Hx. replace (u * 2 ^ (n + 8)) with ((u * 2 ^ 8) * 2 ^ n) by (rewrite Z.pow_add_r by lia; ring).
  rewrite <- !Z.shiftl_mul_pow2 with (n := n) by exact Hn. rewrite <- Z.shiftl_lor. rewrite lor_high by (lia || exact Hx). reflexivity.
Qed.
Lemma shl_byte x n : 0 <= x < 256 -> 0 <= n <= 56 -> shl x n = x * 2 ^ n.
Proof.
  intros Hx Hn. rewrite shl_mul by lia. f_equal. apply Z.mod_small. split; [lia|].
  apply Z.lt_le_trans with (2 ^ 8); [exact (proj2 Hx)|]. apply Z.pow_le_mono_r; lia.
Qed.
Lemma digit_of_ok a b c d e f g h r : octs [a; b; c; d; e; f; g; h] -> digit_of ([a; b; c; d; e; f; g; h] ++ r) = number [a; b; c; d; e; f; g; h].
Proof.
  intros O. unfold octs in O. rewrite !Forall_cons_iff in O. destruct O as (Ha & Hb & Hc & Hd & He & Hf & Hg & Hh & _).
  unfold digit_of. cbn [nth app]. rewrite !shl_byte by (assumption || lia).
  assert (S : forall u x n k, k = n + 8 -> 0 <= n -> 0 <= x < 256 -> Z.lor (u * 2 ^ k) (x * 2 ^ n) = (u * 256 + x) * 2 ^ n) by (intros; subst; apply lor_step; assumption).
  rewrite (S a b 48 56), (S _ c 40 48), (S _ d 32 40), (S _ e 24 32), (S _ f 16 24), (S _ g 8 16) by (assumption || lia).
  rewrite lor_high by (assumption || lia). unfold number. cbn [fold_left]. change (2 ^ 8) with 256. ring.
Qed.
Lemma octs_app a b : octs (a ++ b) <-> octs a /\ octs b.
Proof. apply Forall_app. Qed.
Lemma split8 (b : list Z) n : length b = (8 + n)%nat -> exists x y : list Z, b = x ++ y /\ length x = 8%nat /\ length y = n.
Proof. intros L. exists (firstn 8 b), (skipn 8 b). rewrite firstn_skipn, firstn_length, skipn_length, L. repeat split; lia. Qed.
Lemma digit8 x r : length x = 8%nat -> octs x -> digit_of (x ++ r) = number x /\ word (number x).
Proof.
  intros L O. split.
  - do 8 (destruct x as [|? x]; [discriminate L|]). destruct x; [|discriminate L]. apply digit_of_ok. exact O.
  - pose proof (number_range x O) as R. rewrite L in R. exact R.
Qed.
Lemma bytes2native_ok b : octets b -> bytes2native b = of (number b) /\ 0 <= number b < B4.
Proof.
  intros [L O]. change (octs b) in O.
  destruct (split8 b 24 L) as (x1 & b1 & -> & L1 & M1). destruct (split8 b1 16 M1) as (x2 & b2 & -> & L2 & M2).
  destruct (split8 b2 8 M2) as (x3 & b3 & -> & L3 & M3). destruct (split8 b3 0 M3) as (x4 & b4 & -> & L4 & M4).
  destruct b4; [|discriminate M4]. rewrite app_nil_r in *. rewrite !octs_app in O. destruct O as (O1 & O2 & O3 & O4).
  split.
  - unfold bytes2native. cbn [map seq Nat.sub Nat.mul Nat.add].
    replace (skipn 0 (x1 ++ x2 ++ x3 ++ x4)) with (x1 ++ x2 ++ x3 ++ x4) by reflexivity.
    replace (skipn 8 (x1 ++ x2 ++ x3 ++ x4)) with (x2 ++ x3 ++ x4) by (rewrite skipn_app, skipn_all2, L1 by lia; reflexivity).
    replace (skipn 16 (x1 ++ x2 ++ x3 ++ x4)) with (x3 ++ x4) by (rewrite app_assoc, skipn_app, skipn_all2 by (rewrite app_length; lia); rewrite app_length, L1, L2; reflexivity).
    replace (skipn 24 (x1 ++ x2 ++ x3 ++ x4)) with (x4 ++ []) by (rewrite app_nil_r, !app_assoc, skipn_app, skipn_all2 by (rewrite !app_length; lia); rewrite !app_length, L1, L2, L3; reflexivity).
    destruct (digit8 x1 (x2 ++ x3 ++ x4) L1 O1) as [-> W1]. destruct (digit8 x2 (x3 ++ x4) L2 O2) as [-> W2].
    destruct (digit8 x3 x4 L3 O3) as [-> W3]. destruct (digit8 x4 [] L4 O4) as [-> W4].
    apply vli_eq; [apply vli4; assumption|]. cbn [val]. rewrite !number_app, !app_length, L2, L3, L4. 
    change (256 ^ Z.of_nat (8 + (8 + 8))) with (2 ^ 64 * 2 ^ 64 * 2 ^ 64). change (256 ^ Z.of_nat (8 + 8)) with (2 ^ 64 * 2 ^ 64). change (256 ^ Z.of_nat 8) with (2 ^ 64). ring.
  - pose proof (number_range (x1 ++ x2 ++ x3 ++ x4)) as R. rewrite !app_length, L1, L2, L3, L4 in R. apply R. rewrite !octs_app. auto.
Qed.
Lemma big_app n m v : big (n + m) v = big n (v / 256 ^ Z.of_nat m) ++ big m v.
Proof.
  induction n; [reflexivity|]. cbn [Nat.add big app]. rewrite IHn. f_equal. f_equal.
  rewrite Z.div_div by (apply Z.pow_nonzero || apply Z.pow_pos_nonneg; lia). rewrite <- Z.pow_add_r by lia. f_equal. f_equal. lia.
Qed.
Lemma big_mod n v : big n v = big n (v mod 256 ^ Z.of_nat n).
Proof.
  assert (G : forall m, (n <= m)%nat -> big n v = big n (v mod 256 ^ Z.of_nat m)); [|apply (G n); lia].
  induction n; intros m Hm; [reflexivity|]. cbn [big]. rewrite (IHn m) by lia. f_equal.
  replace (Z.of_nat m) with (Z.of_nat n + 1 + (Z.of_nat m - Z.of_nat n - 1)) by lia. rewrite Z.pow_add_r, (Z.pow_add_r 256 (Z.of_nat n) 1) by lia.
  assert (0 < 256 ^ Z.of_nat n) by (apply Z.pow_pos_nonneg; lia). assert (0 < 256 ^ (Z.of_nat m - Z.of_nat n - 1)) by (apply Z.pow_pos_nonneg; lia).
  set (e := 256 ^ Z.of_nat n) in *. set (f := 256 ^ (Z.of_nat m - Z.of_nat n - 1)) in *. change (256 ^ 1) with 256. clearbody e f.
  rewrite <- Z.mul_assoc. rewrite (Z.rem_mul_r v e (256 * f)) by lia. rewrite (Z.mul_comm e (_ mod _)), Z.div_add, (Z.div_small (v mod e)) by (lia || (apply Z.mod_pos_bound; lia)).
  rewrite Z.add_0_l. rewrite (Z.rem_mul_r (v / e) 256 f) by lia. rewrite (Z.mul_comm 256), Z.mod_add, Z.mod_mod by lia. reflexivity.
Qed.
Lemma bytes_of_ok d : bytes_of d = big 8 d.
Proof. unfold bytes_of. cbn [map big]. rewrite !shr_div by lia. reflexivity. Qed.
Lemma native2bytes_ok v : 0 <= v < B4 -> native2bytes (of v) = big 32 v.
Proof.
  intros Hv. unfold native2bytes, of. cbn [digits flat_map seq Nat.sub nth]. rewrite !bytes_of_ok, app_nil_r.
  change 32%nat with (8 + (8 + (8 + 8)))%nat. rewrite !big_app.
  assert (M : forall w, big 8 (w mod 2 ^ 64) = big 8 w) by (intros; symmetry; apply (big_mod 8)). rewrite !M.
  rewrite !Z.div_div by (discriminate || reflexivity). reflexivity.
Qed.
Lemma big_number n v : 0 <= v < 256 ^ Z.of_nat n -> number (big n v) = v.
Proof.
  revert v. induction n; intros v Hv; [change (256 ^ Z.of_nat 0) with 1 in Hv; cbn; lia|].
  cbn [big]. change (?x :: ?l) with ([x] ++ l). rewrite number_app. change (number [?x]) with x.
  assert (L : forall w k, length (big k w) = k) by (clear; induction k; cbn; congruence). rewrite L.
  rewrite (big_mod n v). rewrite IHn by (apply Z.mod_pos_bound, Z.pow_pos_nonneg; lia).
  rewrite Nat2Z.inj_succ, Z.pow_succ_r in Hv by lia. assert (P : 0 < 256 ^ Z.of_nat n) by (apply Z.pow_pos_nonneg; lia).
  set (e := 256 ^ Z.of_nat n) in *. clearbody e. rewrite (Z.mod_small (v / e)).
  - rewrite Z.mul_comm. symmetry. apply Z.div_mod. lia.
  - split; [apply Z.div_pos; lia|apply Z.div_lt_upper_bound; lia].
Qed.
(** ** The base point *)
Lemma g_curve : on_curve g256. Proof. unfold on_curve, eqp. vm_compute. reflexivity. Qed.
Lemma g_red : redp g256. Proof. split; split; vm_compute; congruence || reflexivity. Qed.
Lemma g_unit : unitp (fst g256). Proof. apply nz_unit. unfold eqp. vm_compute. discriminate. Qed.
Lemma curve_g_of : curve_g = zp g256. Proof. vm_compute. reflexivity. Qed.
Lemma n_B4 : B4 < 2 * n256. Proof. reflexivity. Qed.
Lemma below_n_ok v : 0 <= v < B4 -> below_n (of v) = of (v mod n256).
Proof.
  intros Hv. unfold below_n. rewrite vli_cmp_ok by (apply vli_of || apply vli_n). rewrite val_of, val_n by exact Hv.
  pose proof n_range as NR. pose proof n_B4 as NB. destruct (Z.ltb_spec v n256) as [L|L].
  - change (1 =? 1) with true. cbv iota. rewrite Z.mod_small by lia. reflexivity.
  - assert (M : v mod n256 = v - n256). { rewrite <- (Z_mod_plus_full v (-1)). replace (v + -1 * n256) with (v - n256) by ring. apply Z.mod_small. lia. }
    rewrite M. replace ((if n256 <? v then -1 else 0) =? 1) with false by (destruct (n256 <? v); reflexivity).
    rewrite vli_sub_ok by (apply vli_of || apply vli_n). rewrite val_of, val_n by exact Hv. reflexivity.
Qed.
