(** Lemmas about the shared vocabulary. *)
From Verif Require Export Common.

Ltac Zify.zify_post_hook ::= Z.div_mod_to_equations.

Lemma bytes_ok_app a b : bytes_ok (a ++ b) <-> bytes_ok a /\ bytes_ok b.
Proof. unfold bytes_ok. apply Forall_app. Qed.

Lemma bytes_ok_cons x a : bytes_ok (x :: a) <-> is_byte x /\ bytes_ok a.
Proof.
  unfold bytes_ok; split; intro H.
  - inversion H; auto.
  - constructor; tauto.
Qed.

Lemma bytes_ok_rev a : bytes_ok a -> bytes_ok (rev a).
Proof. unfold bytes_ok. apply Forall_rev. Qed.

Lemma bytes_ok_firstn n a : bytes_ok a -> bytes_ok (firstn n a).
Proof.
  intro H. rewrite <- (firstn_skipn n a) in H. apply bytes_ok_app in H. tauto.
Qed.

Lemma bytes_ok_skipn n a : bytes_ok a -> bytes_ok (skipn n a).
Proof.
  intro H. rewrite <- (firstn_skipn n a) in H. apply bytes_ok_app in H. tauto.
Qed.

Lemma bytes_ok_repeat n : bytes_ok (repeat 0 n).
Proof. induction n; simpl; constructor; auto. unfold is_byte; lia. Qed.

Lemma le_bytes_length n v : length (le_bytes n v) = n.
Proof. revert v; induction n; simpl; intros; auto. Qed.

Lemma be_bytes_length n v : length (be_bytes n v) = n.
Proof. unfold be_bytes. rewrite rev_length. apply le_bytes_length. Qed.

Lemma le_bytes_ok n v : bytes_ok (le_bytes n v).
Proof.
  revert v; induction n; simpl; intros; constructor.
  - unfold is_byte. apply Z.mod_pos_bound; lia.
  - apply IHn.
Qed.

Lemma be_bytes_ok n v : bytes_ok (be_bytes n v).
Proof. apply bytes_ok_rev, le_bytes_ok. Qed.

Lemma pow256_S n : 256 ^ Z.of_nat (S n) = 256 * 256 ^ Z.of_nat n.
Proof. rewrite Nat2Z.inj_succ, Z.pow_succ_r by lia. reflexivity. Qed.

Lemma pow256_pos n : 0 < 256 ^ Z.of_nat n.
Proof. apply Z.pow_pos_nonneg; lia. Qed.

Lemma le_val_bound l : bytes_ok l -> 0 <= le_val l < 256 ^ Z.of_nat (length l).
Proof.
  induction 1 as [|b r Hb Hr IH].
  - change (0 <= 0 < 1). lia.
  - cbn [le_val length]. rewrite pow256_S. unfold is_byte in Hb. lia.
Qed.

Lemma be_val_bound l : bytes_ok l -> 0 <= be_val l < 256 ^ Z.of_nat (length l).
Proof.
  intro H. unfold be_val. rewrite <- (rev_length l). apply le_val_bound, bytes_ok_rev, H.
Qed.

Lemma le_val_le_bytes n v : 0 <= v < 256 ^ Z.of_nat n -> le_val (le_bytes n v) = v.
Proof.
  revert v; induction n; intros v Hv.
  - change (0 <= v < 1) in Hv. cbn [le_val le_bytes]. lia.
  - cbn [le_val le_bytes]. rewrite pow256_S in Hv. rewrite IHn.
    + rewrite Z.add_comm. symmetry. apply Z.div_mod. lia.
    + split. apply Z.div_pos; lia. apply Z.div_lt_upper_bound; lia.
Qed.

Lemma le_val_le_bytes_mod n v : le_val (le_bytes n v) = v mod 256 ^ Z.of_nat n.
Proof.
  revert v; induction n; intros v.
  - change (256 ^ Z.of_nat 0) with 1. rewrite Z.mod_1_r. reflexivity.
  - cbn [le_val le_bytes]. rewrite IHn, pow256_S.
    pose proof (pow256_pos n). rewrite Z.rem_mul_r by lia. reflexivity.
Qed.

Lemma le_bytes_le_val l : bytes_ok l -> le_bytes (length l) (le_val l) = l.
Proof.
  induction 1 as [|b r Hb Hr IH]; simpl.
  - reflexivity.
  - unfold is_byte in Hb. f_equal.
    + rewrite Z.mul_comm, Z_mod_plus_full. apply Z.mod_small. lia.
    + replace ((b + 256 * le_val r) / 256) with (le_val r). exact IH.
      rewrite Z.mul_comm, Z.div_add by lia. rewrite Z.div_small; lia.
Qed.

Lemma be_val_be_bytes n v : 0 <= v < 256 ^ Z.of_nat n -> be_val (be_bytes n v) = v.
Proof. intro H. unfold be_val, be_bytes. rewrite rev_involutive. apply le_val_le_bytes, H. Qed.

Lemma be_bytes_be_val l : bytes_ok l -> be_bytes (length l) (be_val l) = l.
Proof.
  intro H. unfold be_val, be_bytes. rewrite <- (rev_length l).
  rewrite le_bytes_le_val. apply rev_involutive. apply bytes_ok_rev, H.
Qed.

Lemma le_val_app a b : le_val (a ++ b) = le_val a + 256 ^ zlen a * le_val b.
Proof.
  unfold zlen. induction a as [|x a IH].
  - change (256 ^ Z.of_nat (length (@nil Z))) with 1. cbn [app le_val]. lia.
  - cbn [app le_val length]. rewrite IH, pow256_S. lia.
Qed.

Lemma le_val_inj a b :
  bytes_ok a -> bytes_ok b -> length a = length b -> le_val a = le_val b -> a = b.
Proof.
  intros Ha Hb Hl He.
  rewrite <- (le_bytes_le_val a), <- (le_bytes_le_val b) by assumption.
  congruence.
Qed.

Lemma beq_true_iff a b : beq a b = true <-> a = b.
Proof.
  revert b; induction a as [|x a IH]; destruct b as [|y b]; simpl; try (split; congruence).
  rewrite andb_true_iff, Z.eqb_eq, IH. split; intro H.
  - destruct H; congruence.
  - inversion H; auto.
Qed.

Lemma beq_false_iff a b : beq a b = false <-> a <> b.
Proof.
  rewrite <- beq_true_iff. destruct (beq a b); split; congruence.
Qed.

Lemma beq_refl a : beq a a = true.
Proof. apply beq_true_iff; reflexivity. Qed.

Lemma take_app n a b : length a = n -> take n (a ++ b) = Some (a, b).
Proof.
  intros <-. unfold take. rewrite app_length.
  destruct (Nat.ltb_spec (length a + length b) (length a)); [lia|].
  rewrite firstn_app, skipn_app, Nat.sub_diag, firstn_all, skipn_all. simpl.
  rewrite app_nil_r. reflexivity.
Qed.

Lemma take_some n l a r : take n l = Some (a, r) -> l = a ++ r /\ length a = n.
Proof.
  unfold take. destruct (Nat.ltb_spec (length l) n); [discriminate|].
  intro H1; inversion H1; subst. split.
  - symmetry. apply firstn_skipn.
  - apply firstn_length_le. lia.
Qed.

Lemma take_none n l : take n l = None <-> (length l < n)%nat.
Proof.
  unfold take. destruct (Nat.ltb_spec (length l) n); split; try congruence; try lia.
Qed.

Lemma zlen_app {A} (a b : list A) : zlen (a ++ b) = zlen a + zlen b.
Proof. unfold zlen. rewrite app_length. lia. Qed.

Lemma zlen_cons {A} (a : A) b : zlen (a :: b) = 1 + zlen b.
Proof. unfold zlen. simpl length. lia. Qed.

Lemma zlen_nonneg {A} (a : list A) : 0 <= zlen a.
Proof. unfold zlen. lia. Qed.

Lemma app_inj_len {A} (a b c d : list A) :
  length a = length c -> a ++ b = c ++ d -> a = c /\ b = d.
Proof.
  revert c; induction a as [|x a IH]; destruct c as [|y c]; simpl; intros Hl He; try discriminate.
  - auto.
  - inversion He; subst. destruct (IH c) as [-> ->]; auto.
Qed.

(** Facts about single bytes can be checked by enumeration. *)
Definition all_bytes : list Z := map Z.of_nat (seq 0 256).

Lemma byte_all (P : Z -> bool) :
  forallb P all_bytes = true -> forall b, is_byte b -> P b = true.
Proof.
  intros H b Hb. rewrite forallb_forall in H. apply H.
  unfold all_bytes. apply in_map_iff. exists (Z.to_nat b). unfold is_byte in Hb.
  split; [lia|]. apply in_seq. lia.
Qed.

(** Evaluate comparisons between integer literals. *)
Ltac zcmp1 t :=
  let x := eval compute in t in
  match x with
  | true => change t with true in *
  | false => change t with false in *
  end.
Ltac zred :=
  repeat match goal with
  | |- context [Z.eqb ?a ?b] => zcmp1 (Z.eqb a b)
  | |- context [Z.ltb ?a ?b] => zcmp1 (Z.ltb a b)
  | |- context [Z.leb ?a ?b] => zcmp1 (Z.leb a b)
  | _ : context [Z.eqb ?a ?b] |- _ => zcmp1 (Z.eqb a b)
  | _ : context [Z.ltb ?a ?b] |- _ => zcmp1 (Z.ltb a b)
  | _ : context [Z.leb ?a ?b] |- _ => zcmp1 (Z.leb a b)
  end; cbv iota in *.

Lemma Ok_inj {A} (a b : A) : Ok a = Ok b -> a = b.
Proof. congruence. Qed.
