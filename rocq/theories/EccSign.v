(** The public key and the signature *)
From Verif Require Import Common CommonFacts EccModel EccSpec EccLimb EccMult EccField EccPrime EccModMult EccLadder EccAlgebra EccCurve EccMultiple EccBytes.
From Coq Require Import Znumtheory Setoid Morphisms.

(** The multiplication of the base point by a number, as a number pair; (0, 0) is failure *)
Definition gmul (k : Z) : Z * Z := zmult g256 k.
Lemma point_mult_g k : 0 <= k < B4 -> point_mult curve_g (of k) None = Some (zp (gmul k)).
Proof. intros. rewrite curve_g_of. apply zmult_f; [apply g_red|assumption]. Qed.
Lemma gmul_red k : redp (gmul k).
Proof. apply zmult_red. Qed.
Lemma gmul_ok k : 0 <= k ->
  (on_curve (gmul k) /\ multiple g256 (used k) (gmul k) /\ exists c, multiple g256 (odd_up (used k)) c) \/
  (gmul k = (0, 0) /\ ~ exists c, multiple g256 (odd_up (used k)) c).
Proof. intros. apply zmult_ok; [apply g_curve|apply g_unit|assumption]. Qed.
Lemma on_curve_nonzero a : on_curve a -> a <> (0, 0).
Proof. intros H ->. apply y_unit in H. apply unit_nz in H. apply H. reflexivity. Qed.
Lemma point_zero_ok a : redp a -> point_is_zero (zp a) = (fst a =? 0) && (snd a =? 0).
Proof.
  intros [A B]. unfold point_is_zero, zp. cbn [fst snd]. rewrite !is_zero_ok by apply vli_of. rewrite !val_of by (apply red_B4; assumption). reflexivity.
Qed.
Lemma n_pos : 0 < n256. Proof. reflexivity. Qed.
Lemma mod_n_B4 v : 0 <= v mod n256 < B4.
Proof. pose proof (Z.mod_pos_bound v n256 n_pos). pose proof n_range. lia. Qed.
Lemma make_pubkey_ok key : octets key -> make_pubkey key =
  Some (if number key =? 0 then None
        else let q := gmul (number key mod n256) in
             if (fst q =? 0) && (snd q =? 0) then None else Some (big 32 (fst q) ++ big 32 (snd q))).
Proof.
  intros O. destruct (bytes2native_ok key O) as [E R]. unfold make_pubkey. rewrite E. rewrite is_zero_ok by apply vli_of. rewrite val_of by exact R.
  destruct (number key =? 0); [reflexivity|]. rewrite below_n_ok by exact R. rewrite point_mult_g by apply mod_n_B4. cbn [bindo]. cbv zeta.
  pose proof (gmul_red (number key mod n256)) as Q. rewrite point_zero_ok by exact Q. destruct Q as [Q1 Q2].
  destruct ((fst (gmul (number key mod n256)) =? 0) && (snd (gmul (number key mod n256)) =? 0)); [reflexivity|].
  unfold zp. cbn [fst snd]. rewrite !native2bytes_ok by (apply red_B4; assumption). reflexivity.
Qed.

(** ** The signature *)
(** r for the random number [k] *)
Definition nonce_r (k : Z) : Z := fst (gmul (k mod n256)) mod n256.
Definition sign_s (d e k r : Z) : option (list Z) :=
  do s <- vli_mod_mult (of r) (of d) curve_n;
  let s := vli_mod_add (of e) s curve_n in
  do k <- vli_mod_inv (of (k mod n256)) curve_n;
  vli_mod_mult s k curve_n.
Lemma mod_cong a b m : (a - b) mod m = 0 -> m <> 0 -> a mod m = b mod m.
Proof. intros H M. replace a with (b + (a - b)) by ring. rewrite Z.add_mod, H, Z.add_0_r, Z.mod_mod by exact M. reflexivity. Qed.
Lemma n_top : 2 ^ 255 <= n256 < B4. Proof. split; [discriminate|reflexivity]. Qed.
Lemma n_odd : n256 mod 2 = 1. Proof. reflexivity. Qed.
Lemma sign_s_ok d e k r : 0 <= d < B4 -> 0 <= e < B4 -> 0 <= r < B4 ->
  exists s, sign_s d e k r = Some (of s) /\ 0 <= s < n256 /\ (k mod n256 = 0 -> s = 0) /\ (k mod n256 <> 0 -> (s * k - (e + r * d)) mod n256 = 0).
Proof.
  intros Hd He Hr. unfold sign_s. pose proof n_pos as NP. pose proof n_range as NR. pose proof n_top as NT.
  rewrite (mod_mult_ok curve_n n256 vli_n val_n NT) by assumption. cbn [bindo].
  set (t := (r * d) mod n256). assert (Ht : 0 <= t < n256) by (apply Z.mod_pos_bound; exact NP).
  rewrite (mod_add_gen curve_n n256 vli_n val_n NR e t He Ht).
  set (u := if n256 <=? e + t then e + t - n256 else e + t).
  assert (Hu : 0 <= u < B4). { unfold u. destruct (Z.leb_spec n256 (e + t)); lia. }
  assert (Cu : (u - (e + r * d)) mod n256 = 0).
  { assert (T : t = r * d - n256 * (r * d / n256)) by (unfold t; pose proof (Z.div_mod (r * d) n256 ltac:(lia)); lia).
    unfold u. destruct (Z.leb_spec n256 (e + t)).
    - replace (e + t - n256 - (e + r * d)) with (- (r * d / n256) * n256 + - n256) by (rewrite T; ring). replace (- (r * d / n256) * n256 + - n256) with ((- (r * d / n256) - 1) * n256) by ring. apply Z.mod_mul. lia.
    - replace (e + t - (e + r * d)) with (- (r * d / n256) * n256) by (rewrite T; ring). apply Z.mod_mul. lia. }
  clearbody u. clear t Ht.
  assert (Hk : 0 <= k mod n256 < n256) by (apply Z.mod_pos_bound; exact NP).
  destruct (Z.eq_dec (k mod n256) 0) as [K|K].
  - rewrite K, mod_inv_zero. cbn [bindo]. rewrite (mod_mult_ok curve_n n256 vli_n val_n NT) by (assumption || lia).
    exists 0. rewrite Z.mul_0_r. split; [reflexivity|]. split; [lia|]. split; [reflexivity|contradiction].
  - destruct (mod_inv_ok curve_n n256 vli_n val_n NR n_odd (k mod n256)) as (w & W1 & W2 & W3); [lia|lia| |].
    { apply Zgcd_1_rel_prime. apply rel_prime_sym. apply prime_rel_prime; [apply n256_prime|]. intros D. apply Z.divide_pos_le in D; lia. }
    rewrite W1. cbn [bindo]. rewrite (mod_mult_ok curve_n n256 vli_n val_n NT) by (assumption || lia).
    exists ((u * w) mod n256). split; [reflexivity|]. split; [apply Z.mod_pos_bound; exact NP|]. split; [contradiction|]. intros _.
    generalize dependent n256. intros n. intros.
    assert (G : ((u * w) mod n * k) mod n = u mod n).
    { rewrite Z.mul_mod_idemp_l by lia. replace (u * w * k) with (u * (w * k)) by ring. rewrite <- Z.mul_mod_idemp_r by lia.
      rewrite <- (Z.mul_mod_idemp_r w k) by lia. rewrite W3. rewrite Z.mul_1_r. reflexivity. }
    rewrite Zminus_mod, G, <- Zminus_mod. exact Cu.
Qed.
(** ** The search for a number *)
Inductive found := FNo | FNum (k : Z) | FUnset.
Fixpoint draw (tries : nat) (rnd : list (option Z)) (first : bool) : found :=
  match tries, rnd with
  | S tries, Some k :: rnd =>
    if k =? 0 then if first then FUnset else draw tries rnd false
    else if nonce_r k =? 0 then draw tries rnd false else FNum k
  | _, _ => FNo
  end.
Definition vnum (o : option Z) : Prop := match o with Some v => 0 <= v < B4 | None => True end.
Lemma sign_loop_ok : forall (tries : nat) (rnd : list (option Z)) (first : bool), Forall vnum rnd ->
  sign_loop tries (map (option_map of) rnd) (if first then None else Some (of 0)) =
  Some (match draw tries rnd first with FNo => NoNumber | FNum k => Number (of (k mod n256)) (of (nonce_r k)) | FUnset => Unset end).
Proof.
  induction tries; intros rnd first F; [reflexivity|]. destruct rnd as [|[k|] rnd]; try reflexivity.
  apply Forall_cons_iff in F. destruct F as [Hk F]. cbn [vnum] in Hk. cbn [map option_map sign_loop draw].
  rewrite is_zero_ok by apply vli_of. rewrite val_of by exact Hk. destruct (k =? 0) eqn:K.
  - destruct first; [reflexivity|]. change (vli_is_zero (of 0)) with true. cbv iota. apply (IHtries rnd false F).
  - rewrite below_n_ok by exact Hk. rewrite point_mult_g by apply mod_n_B4. cbn [bindo]. cbv zeta.
    pose proof (gmul_red (k mod n256)) as [Q1 Q2]. unfold zp. cbn [fst]. rewrite below_n_ok by (apply red_B4; exact Q1). fold (nonce_r k).
    rewrite is_zero_ok by apply vli_of. rewrite val_of by apply mod_n_B4.
    destruct (Z.eqb_spec (nonce_r k) 0) as [R|R]; [|reflexivity]. rewrite R. apply (IHtries rnd false F).
Qed.
Lemma ecc_sign_ok rnd key hash : Forall vnum rnd -> octets key -> octets hash ->
  ecc_sign (map (option_map of) rnd) key hash =
  match draw 16 rnd true with
  | FNo => Some Failed
  | FUnset => Some Undefined
  | FNum k => do s <- sign_s (number key) (number hash) k (nonce_r k); Some (Signed (big 32 (nonce_r k) ++ native2bytes s))
  end.
Proof.
  intros F OK OH. unfold ecc_sign. rewrite (sign_loop_ok 16 rnd true F). cbn [bindo].
  destruct (bytes2native_ok key OK) as [-> _]. destruct (bytes2native_ok hash OH) as [-> _].
  destruct (draw 16 rnd true); try reflexivity. unfold sign_s. rewrite native2bytes_ok by apply mod_n_B4.
  destruct (vli_mod_mult (of (nonce_r k)) (of (number key)) curve_n); [|reflexivity]. cbn [bindo]. cbv zeta.
  destruct (vli_mod_inv (of (k mod n256)) curve_n); [|reflexivity]. cbn [bindo].
  destruct (vli_mod_mult _ _ curve_n); reflexivity.
Qed.
