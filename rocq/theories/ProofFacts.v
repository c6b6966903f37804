(** Lemmas about proof decoding and verification. *)
From Verif Require Import CommonFacts BioModel BioFacts ProofModel ProofSpec.

(** ** Bits *)
Lemma byte_bits_length b : length (byte_bits b) = 8%nat.
Proof. reflexivity. Qed.

Lemma bits_of_length l : length (bits_of l) = (8 * length l)%nat.
Proof.
  induction l as [|b l IH]; simpl; [reflexivity|]. rewrite IH. lia.
Qed.

Lemma bits_of_app a b : bits_of (a ++ b) = bits_of a ++ bits_of b.
Proof. unfold bits_of. apply flat_map_app. Qed.

Lemma byte_bit_nth b r : (r < 8)%nat ->
  nth_error (byte_bits b) r = Some (Z.land (Z.shiftr b (7 - Z.of_nat r)) 1 =? 1).
Proof.
  intro Hr.
  assert (E : forall k, (Z.land (Z.shiftr b k) 1 =? 1) = Z.odd (Z.shiftr b k)).
  { intro k. change 1 with (Z.ones 1) at 1. rewrite Z.land_ones by lia.
    change (2^1) with 2. rewrite Zmod_odd. destruct (Z.odd _); reflexivity. }
  rewrite E.
  do 8 (destruct r as [|r]; [ cbn [nth_error byte_bits];
    (rewrite Z.shiftr_div_pow2 by lia); cbn -[Z.div Z.odd];
    try rewrite Z.div_1_r; reflexivity |]). lia.
Qed.

Lemma nth_error_bits l q r : (r < 8)%nat ->
  nth_error (bits_of l) (8 * q + r)%nat =
  match nth_error l q with Some b => nth_error (byte_bits b) r | None => None end.
Proof.
  intro Hr. revert q; induction l as [|b l IH]; intro q.
  - simpl. destruct q; simpl; destruct r; reflexivity.
  - destruct q as [|q].
    + change (bits_of (b :: l)) with (byte_bits b ++ bits_of l).
      rewrite nth_error_app1; [reflexivity|]. rewrite byte_bits_length. lia.
    + change (bits_of (b :: l)) with (byte_bits b ++ bits_of l).
      rewrite nth_error_app2; rewrite byte_bits_length; [|lia].
      replace (8 * S q + r - 8)%nat with (8 * q + r)%nat by lia. apply IH.
Qed.

Lemma has_bit_nth m i : 0 <= i ->
  has_bit m i = match nth_error (bits_of m) (Z.to_nat i) with Some b => Ok b | None => Ub end.
Proof.
  intro Hi. unfold has_bit. destruct (Z.ltb_spec i 0); [lia|].
  rewrite Z.shiftr_div_pow2 by lia. change (2^3) with 8.
  change 7 with (Z.ones 3) at 2. rewrite Z.land_ones by lia. change (2^3) with 8.
  replace (Z.to_nat i) with (8 * Z.to_nat (i / 8) + Z.to_nat (i mod 8))%nat by lia.
  rewrite nth_error_bits by lia.
  destruct (nth_error m (Z.to_nat (i / 8))); [|reflexivity].
  rewrite byte_bit_nth by lia. rewrite Z2Nat.id by lia. reflexivity.
Qed.

Lemma has_bit_some m i b : has_bit m i = Ok b -> 0 <= i /\ nth_error (bits_of m) (Z.to_nat i) = Some b.
Proof.
  intro E. assert (0 <= i). { unfold has_bit in E. destruct (Z.ltb_spec i 0); [discriminate|lia]. }
  split; [assumption|]. rewrite has_bit_nth in E by assumption.
  destruct (nth_error _ _); congruence.
Qed.

(** ** Packing *)
Lemma bit_at_01 l i : bit_at l i = 0 \/ bit_at l i = 1.
Proof. unfold bit_at. destruct (nth i l false); auto. Qed.

Lemma pack_byte_ok l : is_byte (pack_byte l).
Proof.
  unfold pack_byte, is_byte.
  pose proof (bit_at_01 l 0); pose proof (bit_at_01 l 1); pose proof (bit_at_01 l 2);
  pose proof (bit_at_01 l 3); pose proof (bit_at_01 l 4); pose proof (bit_at_01 l 5);
  pose proof (bit_at_01 l 6); pose proof (bit_at_01 l 7). lia.
Qed.

Lemma pack_n_ok n l : bytes_ok (pack_n n l).
Proof. revert l; induction n; simpl; intros; constructor; auto using pack_byte_ok. apply IHn. Qed.

Lemma pack_ok l : bytes_ok (pack l).
Proof. apply pack_n_ok. Qed.

Lemma pack_n_length n l : length (pack_n n l) = n.
Proof. revert l; induction n; simpl; intros; auto. Qed.

Lemma pack_length l : length (pack l) = Nat.div (length l + 7) 8.
Proof. apply pack_n_length. Qed.

Lemma byte_bits_pack l : byte_bits (pack_byte l) =
  [nth 0 l false; nth 1 l false; nth 2 l false; nth 3 l false;
   nth 4 l false; nth 5 l false; nth 6 l false; nth 7 l false].
Proof.
  unfold pack_byte, bit_at.
  destruct (nth 0 l false), (nth 1 l false), (nth 2 l false), (nth 3 l false),
           (nth 4 l false), (nth 5 l false), (nth 6 l false), (nth 7 l false);
  vm_compute; reflexivity.
Qed.

Lemma bits_pack_n n l : (length l <= 8 * n)%nat ->
  bits_of (pack_n n l) = l ++ repeat false (8 * n - length l).
Proof.
  revert l; induction n; intros l Hl.
  - destruct l; simpl in *; [reflexivity|lia].
  - cbn [pack_n]. change (bits_of (?a :: ?b)) with (byte_bits a ++ bits_of b).
    rewrite byte_bits_pack. rewrite IHn by (rewrite skipn_length; lia).
    replace (8 * S n)%nat with (8 + 8 * n)%nat by lia.
    generalize (8 * n)%nat as m. intro m.
    do 8 (destruct l as [|? l]; [
      cbn [firstn skipn nth length app Nat.sub Nat.add repeat];
      rewrite ?Nat.sub_0_r; reflexivity |]).
    reflexivity.
Qed.

Lemma bits_pack l : firstn (length l) (bits_of (pack l)) = l.
Proof.
  unfold pack. rewrite bits_pack_n.
  - rewrite firstn_app, firstn_all, Nat.sub_diag. simpl. apply app_nil_r.
  - pose proof (Nat.div_mod (length l + 7) 8 ltac:(discriminate)). pose proof (Nat.mod_upper_bound (length l + 7) 8 ltac:(discriminate)). lia.
Qed.

(** ** [proof_has] *)
Fixpoint bprefix (p l : list bool) : bool :=
  match p, l with
  | [], _ => true
  | x :: p', y :: l' => Bool.eqb x y && bprefix p' l'
  | _ :: _, [] => false
  end.

Lemma bprefix_iff p l : bprefix p l = true <-> exists r, l = p ++ r.
Proof.
  revert l; induction p as [|x p IH]; intros l; simpl.
  - split; [intros _; exists l; reflexivity|reflexivity].
  - destruct l as [|y l].
    + split; [discriminate|]. intros [r Hr]; discriminate.
    + rewrite andb_true_iff, eqb_true_iff, IH. split.
      * intros [-> [r ->]]. exists r. reflexivity.
      * intros [r Hr]. inversion Hr; subst. split; eauto.
Qed.

Lemma nth_error_skipn {A} n (l : list A) : 
  skipn n l = match nth_error l n with Some x => x :: skipn (S n) l | None => [] end.
Proof.
  revert l; induction n; destruct l; simpl; try reflexivity. apply IHn.
Qed.

Lemma nth_error_skipn_add {A} n m (l : list A) :
  nth_error (skipn n l) m = nth_error l (n + m).
Proof. revert l; induction n; destruct l; simpl; auto. destruct m; reflexivity. Qed.

Lemma has_loop_spec cnt prefix x key y c :
  0 <= x -> 0 <= y ->
  (Z.to_nat x + cnt <= length (bits_of prefix))%nat ->
  (Z.to_nat y + cnt <= length (bits_of key))%nat ->
  exists k, has_loop cnt prefix x key y c = Ok (c + Z.of_nat k) /\ (k <= cnt)%nat /\
    (k = cnt <-> bprefix (firstn cnt (skipn (Z.to_nat x) (bits_of prefix)))
                         (skipn (Z.to_nat y) (bits_of key)) = true).
Proof.
  revert x y c; induction cnt as [|cnt IH]; intros x y c Hx Hy Hp Hk.
  - exists O. simpl. rewrite Z.add_0_r. intuition.
  - cbn [has_loop]. rewrite !has_bit_nth by lia.
    rewrite (nth_error_skipn (Z.to_nat x) (bits_of prefix)), (nth_error_skipn (Z.to_nat y) (bits_of key)).
    destruct (nth_error (bits_of prefix) (Z.to_nat x)) as [a|] eqn:Ea;
      [|apply nth_error_None in Ea; lia].
    destruct (nth_error (bits_of key) (Z.to_nat y)) as [b|] eqn:Eb;
      [|apply nth_error_None in Eb; lia].
    cbn [obind firstn bprefix]. destruct (Bool.eqb a b) eqn:Eab.
    + destruct (IH (x+1) (y+1) (c+1)) as (k & E1 & E2 & E3); try lia.
      exists (S k). rewrite E1. repeat split; try lia.
      * f_equal. lia.
      * intro E. rewrite <- !Z2Nat.inj_succ by lia. apply E3. lia.
      * intro E. f_equal. apply E3. rewrite <- !Z2Nat.inj_succ in E by lia. exact E.
    + exists O. rewrite Z.add_0_r. repeat split; try lia.
Qed.

(** The prefix bits of a byte array of which [size] bits are used. *)
Definition pbits (prefix : list Z) (size : Z) : list bool :=
  firstn (Z.to_nat size) (bits_of prefix).

Lemma proof_has_spec prefix size key depth :
  0 <= size <= 256 -> size <= 8 * zlen prefix -> length key = 32%nat -> 0 <= depth <= 256 ->
  proof_has prefix size key depth =
  Ok (bprefix (pbits prefix size) (skipn (Z.to_nat depth) (bits_of key))).
Proof.
  intros Hs Hp Hk Hd. unfold proof_has, pbits.
  set (len := if size <? 256 - depth then size else 256 - depth).
  assert (Hc : len = size /\ size < 256 - depth \/ len = 256 - depth /\ 256 - depth <= size)
    by (unfold len; destruct (Z.ltb_spec size (256 - depth)); lia).
  clearbody len.
  destruct ((len <? 0) || (256 <? len)) eqn:E; [lia|]. clear E.
  destruct (has_loop_spec (Z.to_nat len) prefix 0 key depth 0) as (k & -> & Hk1 & Hk2).
  - lia.
  - lia.
  - rewrite bits_of_length. unfold zlen in Hp. lia.
  - rewrite bits_of_length, Hk. lia.
  - cbn [obind]. f_equal. change (Z.to_nat 0) with O in Hk2. cbn [skipn] in Hk2.
    destruct (Z.eq_dec len size) as [->|Hne].
    + destruct (bprefix _ _); destruct (Z.eqb_spec (0 + Z.of_nat k) size); auto; exfalso.
      * apply n. rewrite (proj2 Hk2) by auto. lia.
      * apply diff_false_true. apply Hk2. lia.
    + destruct (Z.eqb_spec (0 + Z.of_nat k) size); [lia|].
      destruct (bprefix (firstn (Z.to_nat size) (bits_of prefix)) (skipn (Z.to_nat depth) (bits_of key))) eqn:Eb; auto.
      exfalso. apply bprefix_iff in Eb as [r Hr].
      assert (Hl := f_equal (@length bool) Hr).
      rewrite app_length, skipn_length, firstn_length, !bits_of_length, Hk in Hl.
      unfold zlen in Hp. lia.
Qed.

(** ** Validity of decoded proofs *)
Definition valid_node (n : pnode) : Prop :=
  length (n_prefix n) = 32%nat /\ bytes_ok (n_prefix n) /\ 0 <= n_prefix_size n <= 256
  /\ hash32 (n_node n).

Definition valid_tail (p : proof) : Prop :=
  (p_type p = 0 /\ p_value_size p = 0)
  \/ (p_type p = 1 /\ p_value_size p = 0 /\ 1 <= p_prefix_size p <= 256 /\
      exists b l r, p_prefix p = Some b /\ bytes_ok b /\ p_prefix_size p <= 8 * zlen b
        /\ p_left p = Some l /\ p_right p = Some r /\ hash32 l /\ hash32 r)
  \/ (p_type p = 2 /\ p_value_size p = 0 /\
      exists k h, p_nx_key p = Some k /\ p_nx_hash p = Some h /\ hash32 k /\ hash32 h)
  \/ (p_type p = 3 /\ exists v, p_value p = Some v /\ bytes_ok v /\ zlen v = p_value_size p
      /\ zlen v <= 668).

Definition valid_proof (p : proof) : Prop :=
  0 <= p_depth p <= 256 /\ zlen (p_nodes p) <= 256 /\ Forall valid_node (p_nodes p)
  /\ valid_tail p.

Lemma read_u8_some d v r : bytes_ok d -> read_u8 d = Some (v, r) -> d = v :: r /\ is_byte v /\ bytes_ok r.
Proof.
  intro Hd. destruct d; simpl; intro E; inversion E; subst.
  apply bytes_ok_cons in Hd. tauto.
Qed.

Lemma read_bytes_some n d a r : bytes_ok d -> read_bytes n d = Some (a, r) ->
  d = a ++ r /\ length a = n /\ bytes_ok a /\ bytes_ok r.
Proof.
  intros Hd E. apply take_some in E as [-> Hl]. apply bytes_ok_app in Hd. tauto.
Qed.

Lemma read_u16_some d v r : bytes_ok d -> read_u16 d = Some (v, r) ->
  d = le_bytes 2 v ++ r /\ 0 <= v < 65536 /\ bytes_ok r.
Proof. intros Hd E. apply (read_le_some 2) in E; auto. Qed.

Lemma bitlen_hi b : is_byte b ->
  (Z.land b 128 = 0 -> b < 128) /\
  (Z.land b 128 <> 0 -> 128 <= b /\ Z.land b (Z.lnot 128) = b - 128).
Proof.
  intro Hb.
  pose proof (byte_all (fun b => if Z.land b 128 =? 0 then b <? 128
                        else (128 <=? b) && (Z.land b (Z.lnot 128) =? b - 128))
                       ltac:(vm_compute; reflexivity) b Hb) as E.
  cbv beta in E. destruct (Z.eqb_spec (Z.land b 128) 0); split; intros; try congruence; lia.
Qed.

Lemma read_bitlen_some d size bytes r : bytes_ok d ->
  read_bitlen d = Some ((size, bytes), r) ->
  1 <= size <= 256 /\ bytes = (size + 7) / 8 /\ bytes_ok r.
Proof.
  intros Hd. unfold read_bitlen.
  destruct (read_u8 d) as [[b r1]|] eqn:E1; [|discriminate].
  apply read_u8_some in E1 as (-> & Hb & Hr1); auto.
  destruct (bitlen_hi b Hb) as [B0 B1].
  assert (F : forall s r', 0 <= s -> bytes_ok r' ->
     (if (s =? 0) || (256 <? s) then None else Some (s, (s + 7) / 8, r')) = Some (size, bytes, r) ->
     1 <= size <= 256 /\ bytes = (size + 7) / 8 /\ bytes_ok r).
  { intros s r' Hs Hr'. destruct ((s =? 0) || (256 <? s)) eqn:E; [discriminate|].
    intro E2; inversion E2; subst. repeat split; auto; lia. }
  destruct (Z.eqb_spec (Z.land b 128) 0).
  - apply F; auto. unfold is_byte in Hb; lia.
  - destruct (read_u8 r1) as [[b2 r2]|] eqn:E2; [|discriminate].
    apply read_u8_some in E2 as (-> & Hb2 & Hr2); auto.
    apply F; auto. apply Z.lor_nonneg. split.
    + apply Z.shiftl_nonneg. destruct B1 as [? ->]; lia.
    + unfold is_byte in Hb2; lia.
Qed.

Lemma pad32_length b : (length b <= 32)%nat -> length (pad32 b) = 32%nat.
Proof. intro. unfold pad32. rewrite app_length, repeat_length. lia. Qed.

Lemma read_nodes_total n i map d : bytes_ok d -> 0 <= i ->
  i + Z.of_nat n <= 8 * zlen map ->
  (exists o, read_nodes n i map d = Ok o) /\
  (forall ns r, read_nodes n i map d = Ok (Some (ns, r)) ->
     length ns = n /\ Forall valid_node ns /\ bytes_ok r).
Proof.
  revert i d; induction n as [|n IH]; intros i d Hd Hi Hm.
  - cbn [read_nodes]. split; [eauto|]. intros ns r E. inversion E; subst. auto.
  - cbn [read_nodes]. rewrite has_bit_nth by lia.
    destruct (nth_error (bits_of map) (Z.to_nat i)) as [hb|] eqn:Eb.
    2:{ apply nth_error_None in Eb. rewrite bits_of_length in Eb. unfold zlen in Hm. lia. }
    cbn [obind].
    set (hdr := if hb then _ else _).
    assert (Hh : hdr = None \/ exists p s d2, hdr = Some (p, s, d2) /\
       length p = 32%nat /\ bytes_ok p /\ 0 <= s <= 256 /\ bytes_ok d2).
    { unfold hdr. destruct hb.
      - destruct (read_bitlen d) as [[[s bs] d1]|] eqn:E1; [|auto].
        apply read_bitlen_some in E1 as (Hs & -> & Hd1); auto.
        destruct (read_bytes _ d1) as [[p d2]|] eqn:E2; [|auto].
        apply read_bytes_some in E2 as (_ & Hl & Hp & Hd2); auto.
        right. exists (pad32 p), s, d2. repeat split; auto; try lia.
        + apply pad32_length. lia.
        + unfold pad32. apply bytes_ok_app. split; auto. apply bytes_ok_repeat.
      - right. exists (repeat 0 32), 0, d. repeat split; auto; try lia. apply bytes_ok_repeat. }
    destruct Hh as [->|(p & s & d2 & -> & Hp & Hpo & Hs & Hd2)].
    + split; [eauto|]. discriminate.
    + destruct (read_bytes 32 d2) as [[nd d3]|] eqn:E3.
      2:{ split; [eauto|]. discriminate. }
      apply read_bytes_some in E3 as (_ & Hl & Hn & Hd3); auto.
      destruct (IH (i + 1) d3) as [[o Eo] Hall]; auto; try lia.
      rewrite Eo. rewrite Eo in Hall. cbn [obind]. destruct o as [[ns d4]|].
      * split; [eauto|]. intros ns' r E. inversion E; subst.
        destruct (Hall ns r eq_refl) as (H1 & H2 & H3). repeat split; auto.
        -- simpl. congruence.
        -- constructor; auto. repeat split; simpl; auto; lia.
      * split; [eauto|]. discriminate.
Qed.

Lemma depth_mask x : 0 <= x < 65536 -> Z.land x (Z.lnot (Z.shiftl 3 14)) = x mod 16384.
Proof.
  intro Hx. change 16384 with (2 ^ 14). rewrite <- Z.land_ones by lia.
  apply Z.bits_inj'. intros m Hm. rewrite !Z.land_spec, Z.lnot_spec, Z.shiftl_spec by lia.
  destruct (Z_lt_ge_dec m 14).
  - rewrite Z.ones_spec_low by lia. rewrite (Z.testbit_neg_r 3) by lia. reflexivity.
  - rewrite Z.ones_spec_high by lia.
    destruct (Z.eq_dec m 14) as [->|]; [simpl; rewrite !andb_false_r; reflexivity|].
    destruct (Z.eq_dec m 15) as [->|]; [simpl; rewrite !andb_false_r; reflexivity|].
    replace (Z.testbit x m) with false; [reflexivity|]. symmetry.
    destruct (Z.eq_dec x 0) as [->|]; [apply Z.bits_0|].
    apply Z.bits_above_log2; [lia|]. apply Z.log2_lt_pow2; [lia|].
    apply Z.lt_le_trans with (2^16); [change (2^16) with 65536; lia|].
    apply Z.pow_le_mono_r; lia.
Qed.

Lemma type_shift x : 0 <= x < 65536 -> Z.shiftr x 14 = x / 16384.
Proof. intro. rewrite Z.shiftr_div_pow2 by lia. reflexivity. Qed.

Lemma read_tail_total t dp ns d : bytes_ok d -> 0 <= t <= 3 -> 0 <= dp <= 256 ->
  zlen ns <= 256 -> Forall valid_node ns ->
  (exists o, read_tail t dp ns d = Ok o) /\
  (forall p r, read_tail t dp ns d = Ok (Some (p, r)) ->
    valid_proof p /\ bytes_ok r).
Proof.
  intros Hd Ht Hdp Hns Hv. unfold read_tail, HSK_PROOF_DEADEND, HSK_PROOF_SHORT,
    HSK_PROOF_COLLISION, HSK_PROOF_EXISTS, HSK_MAX_DATA_SIZE, proof_base.
  destruct (Z.eqb_spec t 0).
  { split; [eauto|]. intros p r E; inversion E; subst. split; auto.
    repeat split; cbn; auto; try lia. left. cbn. auto. }
  destruct (Z.eqb_spec t 1).
  { destruct (read_bitlen d) as [[[s bs] d1]|] eqn:E1; [|split; [eauto|discriminate]].
    apply read_bitlen_some in E1 as (Hs & -> & Hd1); auto.
    destruct (read_bytes _ d1) as [[b d2]|] eqn:E2; [|split; [eauto|discriminate]].
    apply read_bytes_some in E2 as (_ & Hl & Hb & Hd2); auto.
    destruct (read_bytes 32 d2) as [[l d3]|] eqn:E3; [|split; [eauto|discriminate]].
    apply read_bytes_some in E3 as (_ & Hl3 & Hb3 & Hd3); auto.
    destruct (read_bytes 32 d3) as [[r4 d4]|] eqn:E4; [|split; [eauto|discriminate]].
    apply read_bytes_some in E4 as (_ & Hl4 & Hb4 & Hd4); auto.
    split; [eauto|]. intros p r E; inversion E; subst. split; auto.
    repeat split; cbn; auto; try lia. right. left. cbn.
    repeat split; auto; try lia. exists b, l, r4. repeat split; auto. unfold zlen. lia. }
  destruct (Z.eqb_spec t 2).
  { destruct (read_bytes 32 d) as [[k d1]|] eqn:E3; [|split; [eauto|discriminate]].
    apply read_bytes_some in E3 as (_ & Hl3 & Hb3 & Hd3); auto.
    destruct (read_bytes 32 d1) as [[h d2]|] eqn:E4; [|split; [eauto|discriminate]].
    apply read_bytes_some in E4 as (_ & Hl4 & Hb4 & Hd4); auto.
    split; [eauto|]. intros p r E; inversion E; subst. split; auto.
    repeat split; cbn; auto; try lia. right. right. left. cbn.
    repeat split; auto; try lia. exists k, h. repeat split; auto. }
  destruct (Z.eqb_spec t 3); [|lia].
  destruct (read_u16 d) as [[vs d1]|] eqn:E1; [|split; [eauto|discriminate]].
  apply read_u16_some in E1 as (_ & Hvs & Hd1); auto.
  destruct (Z.ltb_spec 668 vs); [split; [eauto|discriminate]|].
  destruct (read_bytes _ d1) as [[v d2]|] eqn:E2; [|split; [eauto|discriminate]].
  apply read_bytes_some in E2 as (_ & Hl & Hb & Hd2); auto.
  split; [eauto|]. intros p r E; inversion E; subst. split; auto.
  repeat split; cbn; auto; try lia. right. right. right. cbn.
  split; auto. exists v. unfold zlen. repeat split; auto; lia.
Qed.

Lemma proof_read_total d : bytes_ok d ->
  (exists o, proof_read d = Ok o) /\
  (forall p r, proof_read d = Ok (Some (p, r)) -> valid_proof p /\ bytes_ok r).
Proof.
  intro Hd. unfold proof_read.
  destruct (read_u16 d) as [[field d1]|] eqn:E1; [|split; [eauto|discriminate]].
  apply read_u16_some in E1 as (_ & Hf & Hd1); auto.
  rewrite type_shift, depth_mask by auto.
  destruct (Z.ltb_spec 256 (field mod 16384)); [split; [eauto|discriminate]|].
  destruct (read_u16 d1) as [[count d2]|] eqn:E2; [|split; [eauto|discriminate]].
  apply read_u16_some in E2 as (_ & Hc & Hd2); auto.
  destruct (Z.ltb_spec 256 count); [split; [eauto|discriminate]|].
  destruct (read_bytes _ d2) as [[map d3]|] eqn:E3; [|split; [eauto|discriminate]].
  apply read_bytes_some in E3 as (_ & Hl & Hb & Hd3); auto.
  destruct (read_nodes_total (Z.to_nat count) 0 map d3) as [[o Eo] Hall]; auto; try lia.
  { unfold zlen. lia. }
  rewrite Eo. rewrite Eo in Hall. cbn [obind]. destruct o as [[ns d4]|]; [|split; [eauto|discriminate]].
  destruct (Hall ns d4 eq_refl) as (Hn1 & Hn2 & Hn3).
  apply read_tail_total; auto; try lia. unfold zlen. lia.
Qed.

(** ** Verification is total on decoded proofs *)
Section Verify.
Variable H : list Z -> list Z.

Definition step (key : list Z) (n : pnode) (dn : Z * list Z) : outcome (Z * list Z) :=
  climb H key [n] (fst dn) (snd dn).

Lemma climb_app key a b depth next :
  climb H key (a ++ b) depth next =
  obind (climb H key a depth next) (fun dn => climb H key b (fst dn) (snd dn)).
Proof.
  revert depth next; induction a as [|n a IH]; intros depth next.
  - reflexivity.
  - cbn [app climb]. destruct (depth <? n_prefix_size n + 1); [reflexivity|].
    destruct (has_bit key (depth - 1)); cbn [obind]; try reflexivity.
    destruct (proof_has _ _ _ _); cbn [obind]; try reflexivity.
    destruct a1; [apply IH|reflexivity].
Qed.

Definition pre_of (b : bool) (n : pnode) (next : list Z) : list Z :=
  if b then internal_pre (n_prefix n) (n_prefix_size n) (n_node n) next
  else internal_pre (n_prefix n) (n_prefix_size n) next (n_node n).

Lemma climb_pre_app key a b depth next d' next' :
  climb H key a depth next = Ok (d', next') ->
  climb_pre H key (a ++ b) depth next = climb_pre H key a depth next ++ climb_pre H key b d' next'.
Proof.
  revert depth next; induction a as [|n a IH]; intros depth next.
  - cbn. intro E; inversion E; reflexivity.
  - cbn [app climb climb_pre]. destruct (depth <? n_prefix_size n + 1); [discriminate|].
    destruct (has_bit key (depth - 1)) as [bt| | |]; cbn [obind]; try discriminate.
    destruct (proof_has _ _ _ _) as [m| | |]; cbn [obind]; try discriminate.
    destruct m; [|discriminate]. intro E. unfold hash_internal in E.
    cbn [app]. f_equal. rewrite <- IH.
    + destruct bt; reflexivity.
    + destruct bt; exact E.
Qed.

(** One step, in terms of bits. *)
Lemma step_ok key n d1 h1 d0 h :
  length key = 32%nat -> valid_node n -> d1 <= 256 ->
  (climb H key [n] d1 h1 = Ok (d0, h) <->
   0 <= d0 /\ d1 = d0 + n_prefix_size n + 1 /\
   exists b rest,
     skipn (Z.to_nat d0) (bits_of key) = pbits (n_prefix n) (n_prefix_size n) ++ b :: rest /\
     h = H (pre_of b n h1)).
Proof.
  intros Hk (Hp & Hpo & Hs & Hn) Hd1. cbn [climb].
  assert (Hlp : length (pbits (n_prefix n) (n_prefix_size n)) = Z.to_nat (n_prefix_size n)).
  { unfold pbits. rewrite firstn_length, bits_of_length, Hp. lia. }
  destruct (Z.ltb_spec d1 (n_prefix_size n + 1)).
  { split; [discriminate|]. intros (A & B & _). lia. }
  rewrite has_bit_nth by lia.
  assert (Hkb : nth_error (bits_of key) (Z.to_nat (d1 - 1)) <> None).
  { apply nth_error_Some. rewrite bits_of_length, Hk. lia. }
  destruct (nth_error (bits_of key) (Z.to_nat (d1 - 1))) as [bt|] eqn:Eb; [|congruence].
  cbn [obind]. rewrite proof_has_spec by (unfold zlen; lia).
  cbn [obind].
  assert (Hnth : forall d0' b rest, 0 <= d0' -> d1 = d0' + n_prefix_size n + 1 ->
     skipn (Z.to_nat d0') (bits_of key) = pbits (n_prefix n) (n_prefix_size n) ++ b :: rest -> b = bt).
  { intros d0' b rest A1 A2 A3.
    assert (E2 : nth_error (skipn (Z.to_nat d0') (bits_of key)) (Z.to_nat (n_prefix_size n)) = Some b).
    { rewrite A3, nth_error_app2 by lia. rewrite Hlp, Nat.sub_diag. reflexivity. }
    rewrite nth_error_skipn_add in E2. 
    replace (Z.to_nat d0' + Z.to_nat (n_prefix_size n))%nat with (Z.to_nat (d1 - 1)) in E2 by lia.
    congruence. }
  destruct (bprefix _ _) eqn:Ebp.
  - apply bprefix_iff in Ebp as [r Hr]. split.
    + intro E; inversion E; subst. clear E. split; [lia|]. split; [lia|].
      destruct r as [|b rest].
      { exfalso. assert (Hl := f_equal (@length bool) Hr). rewrite app_length, skipn_length, Hlp, bits_of_length, Hk in Hl.
        cbn [length] in Hl. lia. }
      exists b, rest. split; auto.
      assert (b = bt) by (eapply Hnth; [| |exact Hr]; lia). subst b. unfold pre_of, hash_internal. destruct bt; reflexivity.
    + intros (A & B & b & rest & C & D). rewrite (Hnth _ _ _ A B C) in D. subst h.
      unfold pre_of, hash_internal. f_equal. f_equal; [lia|]. destruct bt; reflexivity.
  - split; [discriminate|]. intros (A & B & b & rest & C & D). exfalso.
    replace (d1 - 1 - n_prefix_size n) with d0 in Ebp by lia.
    apply diff_false_true. rewrite <- Ebp. apply bprefix_iff. eauto.
Qed.

Lemma climb_depth key ns depth next d0 h : Forall valid_node ns ->
  climb H key ns depth next = Ok (d0, h) -> d0 <= depth.
Proof.
  intro Hv. revert depth next; induction Hv as [|n ns Hn Hns IH]; intros depth next.
  - cbn. intro E; inversion E; lia.
  - cbn [climb]. destruct (depth <? n_prefix_size n + 1); [discriminate|].
    destruct (has_bit key (depth - 1)) as [bt| | |]; cbn [obind]; try discriminate.
    destruct (proof_has _ _ _ _) as [m| | |]; cbn [obind]; try discriminate.
    destruct m; [|discriminate]. intro E. apply IH in E. destruct Hn as (_ & _ & Hs & _). lia.
Qed.

Lemma climb_len key ns depth next d0 h : (forall x, length (H x) = 32%nat) ->
  length next = 32%nat -> climb H key ns depth next = Ok (d0, h) -> length h = 32%nat.
Proof.
  intros HH. revert depth next; induction ns as [|n ns IH]; intros depth next Hl.
  - cbn. intro E; inversion E; subst; auto.
  - cbn [climb]. destruct (depth <? n_prefix_size n + 1); [discriminate|].
    destruct (has_bit key (depth - 1)) as [bt| | |]; cbn [obind]; try discriminate.
    destruct (proof_has _ _ _ _) as [m| | |]; cbn [obind]; try discriminate.
    destruct m; [|discriminate]. apply IH. destruct bt; apply HH.
Qed.

Definition verify_error (e : Z) : Prop :=
  e = HSK_EENCODING \/ e = HSK_EHASHMISMATCH \/ e = HSK_ESAMEKEY \/ e = HSK_ESAMEPATH
  \/ e = HSK_ENEGDEPTH \/ e = HSK_EPATHMISMATCH \/ e = HSK_ETOODEEP.

Lemma climb_total key ns depth next : length key = 32%nat -> Forall valid_node ns ->
  depth <= 256 ->
  (exists dn, climb H key ns depth next = Ok dn) \/
  (exists e, climb H key ns depth next = Err e /\ verify_error e).
Proof.
  intros Hk Hv. revert depth next; induction Hv as [|n ns Hn Hns IH]; intros depth next Hd.
  - cbn. eauto.
  - cbn [climb]. destruct Hn as (Hp & Hpo & Hs & Hn).
    destruct (Z.ltb_spec depth (n_prefix_size n + 1)).
    { right. eexists. split; [reflexivity|]. unfold verify_error. tauto. }
    rewrite has_bit_nth by lia.
    destruct (nth_error (bits_of key) (Z.to_nat (depth - 1))) as [bt|] eqn:Eb.
    2:{ apply nth_error_None in Eb. rewrite bits_of_length, Hk in Eb. lia. }
    cbn [obind]. rewrite proof_has_spec by (unfold zlen; lia). cbn [obind].
    destruct (bprefix _ _).
    + apply IH. lia.
    + right. eexists. split; [reflexivity|]. unfold verify_error. tauto.
Qed.

Lemma make_leaf_total key p : length key = 32%nat -> valid_proof p ->
  (exists l, make_leaf H key p = Ok l) \/
  (exists e, make_leaf H key p = Err e /\ verify_error e).
Proof.
  intros Hk (Hd & Hc & Hn & Ht). unfold make_leaf, HSK_PROOF_DEADEND, HSK_PROOF_SHORT,
    HSK_PROOF_COLLISION, HSK_PROOF_EXISTS.
  destruct Ht as [[T _]|[(T & _ & Hps & b & l & r & Eb & Hb & Hbs & El & Er & Hl & Hr)|
    [(T & _ & k & h & Ek & Eh & Hkk & Hh)|(T & v & Ev & Hv & Hvs & Hvm)]]]; rewrite T; zred.
  - eauto.
  - rewrite Eb, El, Er. destruct (Z.eqb_spec (p_prefix_size p) 0); [lia|].
    rewrite proof_has_spec by lia. cbn [obind]. destruct (bprefix _ _); [|eauto].
    right. eexists. split; [reflexivity|]. unfold verify_error. tauto.
  - rewrite Ek, Eh. destruct (beq k key); [|eauto].
    right. eexists. split; [reflexivity|]. unfold verify_error. tauto.
  - rewrite Ev. eauto.
Qed.

Lemma verify_total root key p : length key = 32%nat -> valid_proof p ->
  (exists r, proof_verify H root key p = Ok r) \/
  (exists e, proof_verify H root key p = Err e /\ verify_error e).
Proof.
  intros Hk Hv. assert (Hv' := Hv). destruct Hv' as (Hd & Hc & Hn & Ht).
  assert (Hvs : p_value_size p <= 668).
  { destruct Ht as [[T ?]|[(T & ? & _)|[(T & ? & _)|(T & v & Ev & Hv1 & Hvs & Hvm)]]]; lia. }
  unfold proof_verify, HSK_MAX_DATA_SIZE.
  destruct ((256 <? p_depth p) || (256 <? zlen (p_nodes p)) || (668 <? p_value_size p)) eqn:E; [lia|].
  destruct (make_leaf_total key p Hk Hv) as [[l ->]|(e & -> & He)]; cbn [obind]; [|eauto].
  destruct (climb_total key (rev (p_nodes p)) (p_depth p) l Hk) as [[[d h] ->]|(e & -> & He)];
    cbn [obind fst snd]; [apply Forall_rev; auto|lia| |eauto].
  destruct (d =? 0); cbn [negb]; [|right; eexists; split; [reflexivity|unfold verify_error; tauto]].
  destruct (beq h root); cbn [negb]; [|right; eexists; split; [reflexivity|unfold verify_error; tauto]].
  destruct (p_type p =? HSK_PROOF_EXISTS); [|eauto].
  destruct (parse_namestate _); [eauto|]. right; eexists; split; [reflexivity|unfold verify_error; tauto].
Qed.

(** ** Injectivity of the hashed strings *)
Lemma internal_pre_cases p s l r : 0 <= s <= 256 -> s <= 8 * zlen p ->
  (s = 0 /\ internal_pre p s l r = 1 :: l ++ r) \/
  (1 <= s /\ internal_pre p s l r =
     2 :: le_bytes 2 s ++ firstn (Z.to_nat ((s + 7) / 8)) p ++ l ++ r).
Proof using. clear H.
  intros. unfold internal_pre. destruct (Z.eqb_spec s 0); [left|right]; split; auto; lia.
Qed.

Lemma pbits_firstn p s : 0 <= s ->
  pbits p s = firstn (Z.to_nat s) (bits_of (firstn (Z.to_nat ((s + 7) / 8)) p)).
Proof using. clear H.
  intros Hs. unfold pbits.
  rewrite <- (firstn_skipn (Z.to_nat ((s + 7) / 8)) p) at 1.
  rewrite bits_of_app, firstn_app, bits_of_length.
  destruct (Nat.le_gt_cases (length p) (Z.to_nat ((s + 7) / 8))).
  - rewrite skipn_all2 by auto. cbn. rewrite firstn_nil, app_nil_r. reflexivity.
  - rewrite firstn_length_le by lia.
    replace (Z.to_nat s - 8 * Z.to_nat ((s + 7) / 8))%nat with O by lia.
    cbn [firstn]. apply app_nil_r.
Qed.

Lemma internal_pre_inj p s l r p' s' l' r' :
  0 <= s <= 256 -> 0 <= s' <= 256 -> s <= 8 * zlen p -> s' <= 8 * zlen p' ->
  length l = 32%nat -> length r = 32%nat -> length l' = 32%nat -> length r' = 32%nat ->
  internal_pre p s l r = internal_pre p' s' l' r' ->
  s = s' /\ pbits p s = pbits p' s' /\ l = l' /\ r = r'.
Proof using. clear H.
  intros Hs Hs' Hp Hp' Hl Hr Hl' Hr' E.
  destruct (internal_pre_cases p s l r) as [[A1 A2]|[A1 A2]]; auto;
  destruct (internal_pre_cases p' s' l' r') as [[B1 B2]|[B1 B2]]; auto; rewrite A2, B2 in E;
  try discriminate.
  - inversion E as [E1]. apply app_inj_len in E1 as [-> ->]; [|congruence].
    subst. repeat split; reflexivity.
  - assert (E1 := f_equal (@tl Z) E); cbn [tl] in E1. apply app_inj_len in E1 as [E1 E2]; [|rewrite !le_bytes_length; reflexivity].
    assert (s = s').
    { rewrite <- (le_val_le_bytes 2 s), <- (le_val_le_bytes 2 s') by (change (256 ^ Z.of_nat 2) with 65536; lia).
      congruence. }
    subst s'. apply app_inj_len in E2 as [E2 E3].
    2:{ unfold zlen in *. rewrite !firstn_length. lia. }
    apply app_inj_len in E3 as [-> ->]; [|congruence].
    repeat split. rewrite !pbits_firstn by lia. congruence.
Qed.

Lemma internal_leaf_disjoint p s l r k h : internal_pre p s l r <> leaf_pre k h.
Proof using. clear H. unfold internal_pre, leaf_pre. destruct (s =? 0); discriminate. Qed.

Lemma leaf_pre_inj k h k' h' : length k = length k' -> leaf_pre k h = leaf_pre k' h' -> k = k' /\ h = h'.
Proof using. clear H. unfold leaf_pre. intros Hl E. injection E as E. apply app_inj_len in E; auto. Qed.

Lemma node_string_pre p hl hr : zlen p <= 256 ->
  node_string p hl hr = internal_pre (pack p) (zlen p) hl hr.
Proof using. clear H.
  intro Hp. unfold node_string, internal_pre. destruct p as [|b p].
  - reflexivity.
  - destruct (Z.eqb_spec (zlen (b :: p)) 0). { rewrite zlen_cons in e. pose proof (zlen_nonneg p). lia. }
    unfold write_u16. do 3 f_equal. rewrite firstn_all2; auto.
    rewrite pack_length. unfold zlen.
    rewrite <- (Nat2Z.id ((length (b :: p) + 7) / 8)). rewrite Nat2Z.inj_div, Nat2Z.inj_add.
    apply Nat.le_refl.
Qed.

Lemma pack_zlen p : zlen p <= 8 * zlen (pack p).
Proof using. clear H.
  unfold zlen. rewrite pack_length.
  pose proof (Nat.div_mod (length p + 7) 8 ltac:(discriminate)).
  pose proof (Nat.mod_upper_bound (length p + 7) 8 ltac:(discriminate)). lia.
Qed.

Lemma pbits_pack p : pbits (pack p) (zlen p) = p.
Proof using. clear H. unfold pbits, zlen. rewrite Nat2Z.id. apply bits_pack. Qed.

(** ** Trees *)
Lemma wf_leaves path t k v : wf_at path t -> In (k, v) (leaves t) ->
  hash32 k /\ bytes_ok v /\ exists rest, bits_of k = path ++ rest.
Proof using. clear H.
  revert path; induction t as [|k' v'|p l IHl r IHr]; intros path Hwf Hin; cbn in Hwf, Hin.
  - contradiction.
  - destruct Hin as [E|[]]. inversion E; subst. unfold hash32. tauto.
  - destruct Hwf as (_ & Hl & Hr). apply in_app_or in Hin as [Hin|Hin].
    + destruct (IHl _ Hl Hin) as (A & B & rest & C). split; auto. split; auto.
      rewrite <- app_assoc in C. eauto.
    + destruct (IHr _ Hr Hin) as (A & B & rest & C). split; auto. split; auto.
      rewrite <- app_assoc in C. eauto.
Qed.

Lemma tree_hash_len t : (forall x, length (H x) = 32%nat) -> length (tree_hash H t) = 32%nat.
Proof. intro HH. destruct t; cbn; auto. Qed.

Lemma pre_of_node b n h1 : valid_node n -> length h1 = 32%nat ->
  forall p l r, zlen p <= 256 -> length l = 32%nat -> length r = 32%nat ->
  node_string p l r = pre_of b n h1 ->
  p = pbits (n_prefix n) (n_prefix_size n) /\ (if b then l = n_node n /\ r = h1 else l = h1 /\ r = n_node n).
Proof using. clear H.
  intros (Hp & Hpo & Hs & Hn & _) Hh1 p l r Hpl Hl Hr E. rewrite node_string_pre in E by auto.
  unfold pre_of in E. pose proof (pack_zlen p). pose proof (zlen_nonneg p).
  destruct b; apply internal_pre_inj in E as (E1 & E2 & E3 & E4); auto; try (unfold zlen in *; lia);
  rewrite pbits_pack in E2; auto.
Qed.

Lemma descend S key ns : length key = 32%nat -> Forall valid_node ns -> hash_good_on H S ->
  forall t path depth leaf d0,
  depth <= 256 -> length leaf = 32%nat ->
  climb H key (rev ns) depth leaf = Ok (d0, tree_hash H t) ->
  wf_at path t -> 0 <= d0 -> path = firstn (Z.to_nat d0) (bits_of key) ->
  incl (tree_strings H t) S -> incl (climb_pre H key (rev ns) depth leaf) S ->
  exists t', tree_hash H t' = leaf /\ wf_at (firstn (Z.to_nat depth) (bits_of key)) t' /\
     incl (tree_strings H t') S /\
     (forall v, In (key, v) (leaves t) <-> In (key, v) (leaves t')) /\ 0 <= depth.
Proof.
  intros Hk Hv (Hlen & Hcol & Hz).
  assert (HH : forall x, length (H x) = 32%nat) by (intro; apply Hlen).
  induction Hv as [|n ns Hn Hns IH]; intros t path depth leaf d0 Hdep Hleaf Hcl Hwf Hd0 Hpath Hts Hcs.
  - cbn in Hcl. inversion Hcl; subst. exists t. repeat split; auto; tauto.
  - cbn [rev] in Hcl, Hcs. rewrite climb_app in Hcl.
    destruct (climb H key (rev ns) depth leaf) as [[d1 h1]| | |] eqn:Ecl; cbn [obind fst snd] in Hcl; try discriminate.
    rewrite (climb_pre_app _ _ _ _ _ _ _ Ecl) in Hcs.
    assert (Hd1 : d1 <= depth) by (eapply climb_depth; [apply Forall_rev; exact Hns|exact Ecl]).
    assert (Hh1 : length h1 = 32%nat) by (eapply climb_len; eauto).
    assert (Hcl' := Hcl). apply step_ok in Hcl' as (_ & Ed1 & b & rest & Esk & Eh); auto; [|lia].
    assert (Hpre : In (pre_of b n h1) S).
    { apply Hcs. apply in_or_app. right. cbn [climb_pre]. destruct Hn as (Hp & Hpo & Hs & Hnn).
      rewrite has_bit_nth by lia.
      replace (nth_error (bits_of key) (Z.to_nat (d1 - 1))) with (Some b).
      - left. reflexivity.
      - replace (Z.to_nat (d1 - 1)) with (Z.to_nat d0 + Z.to_nat (n_prefix_size n))%nat by lia.
        rewrite <- nth_error_skipn_add, Esk.
        assert (Hlp : length (pbits (n_prefix n) (n_prefix_size n)) = Z.to_nat (n_prefix_size n)).
        { unfold pbits. rewrite firstn_length, bits_of_length, Hp. lia. }
        rewrite nth_error_app2 by lia. rewrite Hlp, Nat.sub_diag. reflexivity. }
    destruct t as [|k v|p l r].
    + exfalso. apply (Hz _ Hpre). symmetry. exact Eh.
    + exfalso. cbn [tree_hash] in Eh. apply Hcol in Eh; auto.
      * unfold leaf_string, pre_of, internal_pre in Eh.
        destruct b, (n_prefix_size n =? 0); discriminate.
      * apply Hts. cbn. auto.
    + cbn [tree_hash] in Eh. apply Hcol in Eh; auto.
      2:{ apply Hts. cbn. auto. }
      destruct Hwf as (Hw0 & Hwl & Hwr).
      apply pre_of_node in Eh as [Ep Elr]; auto using tree_hash_len.
      2:{ unfold zlen. lia. }
      assert (Hpl : length p = Z.to_nat (n_prefix_size n)).
      { rewrite Ep. unfold pbits. rewrite firstn_length, bits_of_length.
        destruct Hn as (Hp & Hpo & Hs & Hnn). lia. }
      assert (Hpb : path ++ p ++ [b] = firstn (Z.to_nat d1) (bits_of key)).
      { rewrite <- (firstn_skipn (Z.to_nat d0) (bits_of key)). rewrite Esk, <- Ep, <- Hpath.
        rewrite !app_assoc. rewrite firstn_app.
        assert (Hpa : length path = Z.to_nat d0).
        { rewrite Hpath, firstn_length, bits_of_length, Hk.
          assert (Hl := f_equal (@length bool) Esk). rewrite skipn_length, bits_of_length, Hk, app_length in Hl.
          cbn [length] in Hl. destruct Hn as (Hp & Hpo & Hs & Hnn). lia. }
        replace (b :: rest) with ([b] ++ rest) by reflexivity.
        replace (Z.to_nat d1) with (length (path ++ p) + 1)%nat
          by (rewrite app_length; destruct Hn as (Hp & Hpo & Hs & Hnn); lia).
        rewrite firstn_all2 by lia. f_equal.
        replace (length (path ++ p) + 1 - length (path ++ p))%nat with 1%nat by lia. reflexivity. }
      destruct (IH (if b then r else l) (path ++ p ++ [b]) depth leaf d1) as (t' & A & B & C & D & E); auto.
      * rewrite Ecl. destruct b; destruct Elr; congruence.
      * destruct b; auto.
      * destruct Hn as (Hp & Hpo & Hs & Hnn). lia.
      * intros x Hx. apply Hts. cbn. right. apply in_or_app. destruct b; auto.
      * intros x Hx. apply Hcs. apply in_or_app. auto.
      * exists t'. repeat split; auto.
        -- intro Hin. apply D. cbn [leaves] in Hin. apply in_app_or in Hin.
           assert (Hno : forall c, wf_at (path ++ p ++ [negb b]) c -> ~ In (key, v) (leaves c)).
           { intros c Hc Hic. destruct (wf_leaves _ _ _ _ Hc Hic) as (_ & _ & rs & Ers).
             rewrite <- (firstn_skipn (Z.to_nat d1) (bits_of key)) in Ers. rewrite <- Hpb in Ers.
             rewrite <- !app_assoc in Ers. apply app_inv_head in Ers. apply app_inv_head in Ers.
             inversion Ers. destruct b; discriminate. }
           destruct b; cbn [negb] in Hno; destruct Hin as [Hin|Hin]; auto; exfalso; eapply Hno; eauto.
        -- intro Hin. apply D in Hin. cbn [leaves]. apply in_or_app. destruct b; auto.
Qed.

(** ** Stored values *)
Lemma parse_namestate_spec value data : bytes_ok value ->
  (parse_namestate value = Some data <-> value_has_data value data).
Proof using. clear H.
  intro Hv. unfold parse_namestate, value_has_data, HSK_MAX_DATA_SIZE.
  destruct (Z.ltb_spec 668 (zlen value)).
  { split; [discriminate|]. intros (A & _). lia. }
  split.
  - destruct (read_u8 value) as [[ns d1]|] eqn:E1; [|discriminate].
    apply read_u8_some in E1 as (-> & Hb & Hd1); auto.
    destruct (read_bytes _ d1) as [[nm d2]|] eqn:E2; [|discriminate].
    apply read_bytes_some in E2 as (-> & Hl & Hbn & Hd2); auto.
    destruct (read_u16 d2) as [[rs d3]|] eqn:E3; [|discriminate].
    apply read_u16_some in E3 as (-> & Hrs & Hd3); auto.
    destruct (read_bytes _ d3) as [[res d4]|] eqn:E4; [|discriminate].
    apply read_bytes_some in E4 as (-> & Hl4 & Hb4 & Hd4); auto.
    intro E; inversion E; subst. split; [lia|]. exists nm, d4.
    unfold is_byte in Hb. unfold zlen. rewrite Hl, Hl4, !Z2Nat.id by lia.
    repeat split; auto; lia.
  - intros (_ & name & tr & E & Hn & Hd). subst value. cbn [app read_u8].
    unfold zlen in *. unfold read_bytes at 1. rewrite Nat2Z.id, take_app by reflexivity.
    unfold read_u16. rewrite (read_le_app 2) by (change (256 ^ Z.of_nat 2) with 65536; lia).
    unfold read_bytes. rewrite Nat2Z.id, take_app by reflexivity. reflexivity.
Qed.

Lemma value_data_unique value d1 d2 : bytes_ok value ->
  value_has_data value d1 -> value_has_data value d2 -> d1 = d2.
Proof using. clear H.
  intros Hv A B. apply parse_namestate_spec in A; auto. apply parse_namestate_spec in B; auto. congruence.
Qed.

(** ** Soundness *)
Lemma verify_inv root key p r : valid_proof p -> proof_verify H root key p = Ok r ->
  exists leaf, make_leaf H key p = Ok leaf /\
    climb H key (rev (p_nodes p)) (p_depth p) leaf = Ok (0, root) /\
    (p_type p = 3 -> exists v data, p_value p = Some v /\ parse_namestate v = Some data /\ r = Some data) /\
    (p_type p <> 3 -> r = None).
Proof.
  intros Hv. unfold proof_verify.
  destruct ((256 <? p_depth p) || _ || _) eqn:E; [discriminate|].
  destruct (make_leaf H key p) as [leaf| | |]; cbn [obind]; try discriminate.
  destruct (climb H key (rev (p_nodes p)) (p_depth p) leaf) as [[d h]| | |] eqn:Ec; cbn [obind fst snd]; try discriminate.
  destruct (Z.eqb_spec d 0); cbn [negb]; [|discriminate]. subst d.
  destruct (beq h root) eqn:Eb; cbn [negb]; [|discriminate]. apply beq_true_iff in Eb. subst h.
  intro Er. exists leaf. split; auto. split; auto. unfold HSK_PROOF_EXISTS in Er.
  destruct (Z.eqb_spec (p_type p) 3).
  - split; [|congruence]. intros _.
    destruct Hv as (_ & _ & _ & Ht).
    destruct Ht as [[T _]|[(T & _)|[(T & _)|(T & v & Ev & Hv & Hvs & Hvm)]]]; try lia.
    rewrite Ev in Er. destruct (parse_namestate v) as [data|] eqn:Ep; [|discriminate].
    exists v, data. inversion Er. auto.
  - split; [congruence|]. intros _. inversion Er. auto.
Qed.

Lemma make_leaf_len key p leaf : (forall x, length (H x) = 32%nat) ->
  make_leaf H key p = Ok leaf -> length leaf = 32%nat.
Proof.
  intro HH. unfold make_leaf.
  destruct (p_type p =? HSK_PROOF_DEADEND). { intro E; inversion E. reflexivity. }
  destruct (p_type p =? HSK_PROOF_SHORT).
  { destruct (p_prefix p), (p_left p), (p_right p); try discriminate.
    destruct (p_prefix_size p =? 0); [discriminate|].
    destruct (proof_has _ _ _ _) as [m| | |]; cbn [obind]; try discriminate.
    destruct m; [discriminate|]. intro E; inversion E. apply HH. }
  destruct (p_type p =? HSK_PROOF_COLLISION).
  { destruct (p_nx_key p), (p_nx_hash p); try discriminate.
    destruct (beq _ _); [discriminate|]. intro E; inversion E. apply HH. }
  destruct (p_type p =? HSK_PROOF_EXISTS); [|discriminate].
  destruct (p_value p). { intro E; inversion E. apply HH. }
  destruct (p_value_size p =? 0); [|discriminate]. intro E; inversion E. apply HH.
Qed.

Lemma verify_sound t key p r :
  length key = 32%nat -> valid_proof p -> wf_tree t ->
  hash_good_on H (tree_strings H t ++ verify_pres H key p) ->
  proof_verify H (tree_hash H t) key p = Ok r ->
  match r with
  | Some data => exists v, In (key, v) (leaves t) /\ value_has_data v data
  | None => forall v, ~ In (key, v) (leaves t)
  end.
Proof.
  intros Hk Hv Hwf Hgood Hver.
  destruct (verify_inv _ _ _ _ Hv Hver) as (leaf & Eleaf & Ecl & H3 & Hn3).
  assert (Hg := Hgood). destruct Hg as (Hlen & Hcol & Hz).
  assert (HH : forall x, length (H x) = 32%nat) by (intro; apply Hlen).
  assert (Hv' := Hv). destruct Hv' as (Hd & Hc & Hn & Ht).
  assert (Hsplit : verify_pres H key p = leaf_pres H key p ++ climb_pre H key (rev (p_nodes p)) (p_depth p) leaf).
  { unfold verify_pres. rewrite Eleaf. reflexivity. }
  destruct (descend (tree_strings H t ++ verify_pres H key p) key (p_nodes p) Hk Hn Hgood
              t [] (p_depth p) leaf 0) as (t' & Et & Wt & It & Lt & _); auto; try lia.
  { eapply make_leaf_len; eauto. }
  { intros x Hx. apply in_or_app; auto. }
  { rewrite Hsplit. intros x Hx. apply in_or_app; right. apply in_or_app; auto. }
  assert (Hlp : incl (leaf_pres H key p) (tree_strings H t ++ verify_pres H key p)).
  { rewrite Hsplit. intros x Hx. apply in_or_app; right. apply in_or_app; auto. }
  set (S := tree_strings H t ++ verify_pres H key p) in *. clearbody S.
  unfold make_leaf, leaf_pres, HSK_PROOF_DEADEND, HSK_PROOF_SHORT,
    HSK_PROOF_COLLISION, HSK_PROOF_EXISTS in *.
  destruct Ht as [[T _]|[(T & _ & Hps & b & l & r' & Eb & Hb & Hbs & El & Er & Hl & Hr)|
    [(T & _ & k & h & Ek & Eh & Hkk & Hh)|(T & v & Ev & Hvo & Hvs & Hvm)]]]; rewrite T in *; zred.
  - rewrite Hn3 by lia. intros v Hin. apply Lt in Hin. apply Ok_inj in Eleaf; subst leaf.
    destruct t' as [|k' v'|p' l' r'']; cbn in Hin; auto.
    + cbn [tree_hash] in Et. eapply Hz; [|exact Et]. apply It. cbn. auto.
    + cbn [tree_hash] in Et. eapply Hz; [|exact Et]. apply It. cbn. auto.
  - rewrite Hn3 by lia. rewrite Eb, El, Er in *.
    destruct (Z.eqb_spec (p_prefix_size p) 0); [lia|].
    rewrite proof_has_spec in Eleaf by lia. cbn [obind] in Eleaf.
    destruct (bprefix _ _) eqn:Ebp; [discriminate|]. apply Ok_inj in Eleaf; subst leaf.
    intros v Hin. apply Lt in Hin.
    destruct t' as [|k' v'|p' l' r'']; cbn [tree_hash] in Et.
    + eapply Hz; [|symmetry; exact Et]. apply Hlp. left. reflexivity.
    + apply Hcol in Et; [|apply It; cbn; auto|apply Hlp; left; reflexivity].
      symmetry in Et. revert Et. apply internal_leaf_disjoint.
    + apply Hcol in Et; [|apply It; cbn; auto|apply Hlp; left; reflexivity].
      destruct Wt as (W0 & W1 & W2). rewrite node_string_pre in Et by (unfold zlen; lia).
      assert (Hpf := Et). destruct Hl as [Hl1 Hl2]. destruct Hr as [Hr1 Hr2].
      apply internal_pre_inj in Hpf as (F1 & F2 & F3 & F4); auto using tree_hash_len; try lia;
        try (pose proof (zlen_nonneg p'); unfold zlen in *; lia); try apply pack_zlen.
      rewrite pbits_pack in F2.
      assert (Hpre : exists rest, bits_of key = firstn (Z.to_nat (p_depth p)) (bits_of key) ++ p' ++ rest).
      { cbn [leaves] in Hin. apply in_app_or in Hin as [Hin|Hin].
        - destruct (wf_leaves _ _ _ _ W1 Hin) as (_ & _ & rest & Er').
          exists ([false] ++ rest). rewrite <- !app_assoc in Er'. exact Er'.
        - destruct (wf_leaves _ _ _ _ W2 Hin) as (_ & _ & rest & Er').
          exists ([true] ++ rest). rewrite <- !app_assoc in Er'. exact Er'. }
      destruct Hpre as [rest Epre]. apply diff_false_true. rewrite <- Ebp. apply bprefix_iff.
      exists rest. rewrite <- F2. rewrite <- (firstn_skipn (Z.to_nat (p_depth p)) (bits_of key)) in Epre at 1.
      apply app_inv_head in Epre. exact Epre.
  - rewrite Hn3 by lia. rewrite Ek, Eh in *.
    destruct (beq k key) eqn:Ebk; [discriminate|]. apply beq_false_iff in Ebk.
    apply Ok_inj in Eleaf; subst leaf.
    intros v Hin. apply Lt in Hin.
    destruct t' as [|k' v'|p' l' r'']; cbn [tree_hash] in Et.
    + eapply Hz; [|symmetry; exact Et]. apply Hlp. left. reflexivity.
    + apply Hcol in Et; [|apply It; cbn; auto|apply Hlp; left; reflexivity].
      apply leaf_pre_inj in Et as [-> _].
      * cbn in Hin. destruct Hin as [E|[]]. inversion E. congruence.
      * cbn in Wt. destruct Wt as [W _]. destruct Hkk. congruence.
    + apply Hcol in Et; [|apply It; cbn; auto|apply Hlp; left; reflexivity].
      destruct Wt as (W0 & W1 & W2). rewrite node_string_pre in Et by (unfold zlen; lia).
      revert Et. apply internal_leaf_disjoint.
  - destruct (H3 eq_refl) as (v' & data & Ev' & Epn & ->). rewrite Ev in *. inversion Ev'; subst v'.
    apply Ok_inj in Eleaf; subst leaf.
    exists v. split; [|apply parse_namestate_spec; auto].
    apply Lt. destruct t' as [|k' w|p' l' r'']; cbn [tree_hash] in Et.
    + exfalso. eapply Hz; [|symmetry; exact Et]. apply Hlp. right. left. reflexivity.
    + apply Hcol in Et; [|apply It; cbn; auto|apply Hlp; right; left; reflexivity].
      apply leaf_pre_inj in Et as [-> Eh].
      * apply Hcol in Eh; [|apply It; cbn; auto|apply Hlp; left; reflexivity]. subst. cbn. auto.
      * cbn in Wt. destruct Wt as [W _]. congruence.
    + exfalso. apply Hcol in Et; [|apply It; cbn; auto|apply Hlp; right; left; reflexivity].
      destruct Wt as (W0 & W1 & W2). rewrite node_string_pre in Et by (unfold zlen; lia).
      revert Et. apply internal_leaf_disjoint.
Qed.

(** ** Two accepted proofs agree *)
Definition on_path (S : list (list Z)) (key : list Z) (dep : Z) (leaf : list Z) : Prop :=
  exists n b rest h1, valid_node n /\ length h1 = 32%nat /\ 0 <= dep <= 256 /\
    skipn (Z.to_nat dep) (bits_of key) = pbits (n_prefix n) (n_prefix_size n) ++ b :: rest /\
    leaf = H (pre_of b n h1) /\ In (pre_of b n h1) S.

Lemma pre_in_climb_pre key n d1 h1 d0 b rest : length key = 32%nat -> valid_node n ->
  0 <= d0 -> d1 = d0 + n_prefix_size n + 1 ->
  skipn (Z.to_nat d0) (bits_of key) = pbits (n_prefix n) (n_prefix_size n) ++ b :: rest ->
  In (pre_of b n h1) (climb_pre H key [n] d1 h1).
Proof.
  intros Hk (Hp & Hpo & Hs & Hnn) Hd0 Ed1 Esk. cbn [climb_pre].
  rewrite has_bit_nth by lia.
  replace (nth_error (bits_of key) (Z.to_nat (d1 - 1))) with (Some b).
  - left. reflexivity.
  - replace (Z.to_nat (d1 - 1)) with (Z.to_nat d0 + Z.to_nat (n_prefix_size n))%nat by lia.
    rewrite <- nth_error_skipn_add, Esk.
    assert (Hlp : length (pbits (n_prefix n) (n_prefix_size n)) = Z.to_nat (n_prefix_size n)).
    { unfold pbits. rewrite firstn_length, bits_of_length, Hp. lia. }
    rewrite nth_error_app2 by lia. rewrite Hlp, Nat.sub_diag. reflexivity.
Qed.

Lemma climb_nonneg key ns depth next d0 h : Forall valid_node ns -> 0 <= depth ->
  climb H key ns depth next = Ok (d0, h) -> 0 <= d0.
Proof.
  intro Hv. revert depth next; induction Hv as [|n ns Hn Hns IH]; intros depth next Hd.
  - cbn. intro E; inversion E; lia.
  - cbn [climb]. destruct (Z.ltb_spec depth (n_prefix_size n + 1)); [discriminate|].
    destruct (has_bit key (depth - 1)) as [bt| | |]; cbn [obind]; try discriminate.
    destruct (proof_has _ _ _ _) as [m| | |]; cbn [obind]; try discriminate.
    destruct m; [|discriminate]. intro E. apply IH in E; auto. lia.
Qed.

Lemma climb_top S key n ns depth leaf d0 h :
  length key = 32%nat -> (forall x, length (H x) = 32%nat) -> valid_node n -> Forall valid_node ns ->
  0 <= depth <= 256 -> length leaf = 32%nat ->
  climb H key (rev (n :: ns)) depth leaf = Ok (d0, h) ->
  incl (climb_pre H key (rev (n :: ns)) depth leaf) S ->
  exists d1 h1 b rest, climb H key (rev ns) depth leaf = Ok (d1, h1) /\
    incl (climb_pre H key (rev ns) depth leaf) S /\ length h1 = 32%nat /\
    0 <= d0 /\ d1 = d0 + n_prefix_size n + 1 /\ d1 <= 256 /\
    skipn (Z.to_nat d0) (bits_of key) = pbits (n_prefix n) (n_prefix_size n) ++ b :: rest /\
    h = H (pre_of b n h1) /\ In (pre_of b n h1) S.
Proof.
  intros Hk HH Hn Hns Hdep Hleaf Hcl Hcs. cbn [rev] in *. rewrite climb_app in Hcl.
  destruct (climb H key (rev ns) depth leaf) as [[d1 h1]| | |] eqn:Ecl; cbn [obind fst snd] in Hcl; try discriminate.
  rewrite (climb_pre_app _ _ _ _ _ _ _ Ecl) in Hcs.
  assert (Hd1 : d1 <= depth) by (eapply climb_depth; [apply Forall_rev; exact Hns|exact Ecl]).
  assert (Hh1 : length h1 = 32%nat) by (eapply climb_len; eauto).
  apply step_ok in Hcl as (Hd0 & Ed1 & b & rest & Esk & Eh); auto; [|lia].
  exists d1, h1, b, rest. repeat split; auto; try lia.
  - intros x Hx. apply Hcs. apply in_or_app. auto.
  - apply Hcs. apply in_or_app. right. eapply pre_in_climb_pre; eauto.
Qed.

Lemma pre_of_inj b n h b' n' h' : valid_node n -> valid_node n' ->
  length h = 32%nat -> length h' = 32%nat -> pre_of b n h = pre_of b' n' h' ->
  n_prefix_size n = n_prefix_size n' /\
  pbits (n_prefix n) (n_prefix_size n) = pbits (n_prefix n') (n_prefix_size n') /\
  (b = b' -> h = h').
Proof using. clear H.
  intros (Hp & Hpo & Hs & Hn & _) (Hp' & Hpo' & Hs' & Hn' & _) Hh Hh' E. unfold pre_of in E.
  destruct b, b'; apply internal_pre_inj in E as (E1 & E2 & E3 & E4); auto;
    try (unfold zlen; lia); repeat split; auto; discriminate.
Qed.

Lemma agree_paths S key ns1 : length key = 32%nat -> hash_good_on H S -> Forall valid_node ns1 ->
  forall ns2 dep1 dep2 leaf1 leaf2 d h, Forall valid_node ns2 ->
  0 <= dep1 <= 256 -> 0 <= dep2 <= 256 -> length leaf1 = 32%nat -> length leaf2 = 32%nat ->
  climb H key (rev ns1) dep1 leaf1 = Ok (d, h) -> climb H key (rev ns2) dep2 leaf2 = Ok (d, h) ->
  incl (climb_pre H key (rev ns1) dep1 leaf1) S -> incl (climb_pre H key (rev ns2) dep2 leaf2) S ->
  (dep1 = dep2 /\ leaf1 = leaf2) \/ on_path S key dep1 leaf1 \/ on_path S key dep2 leaf2.
Proof.
  intros Hk (Hlen & Hcol & Hz) Hv1.
  assert (HH : forall x, length (H x) = 32%nat) by (intro; apply Hlen).
  induction Hv1 as [|n1 ns1 Hn1 Hns1 IH]; intros ns2 dep1 dep2 leaf1 leaf2 d h Hv2 Hd1 Hd2 Hl1 Hl2 C1 C2 P1 P2.
  - cbn in C1. inversion C1; subst. destruct ns2 as [|n2 ns2].
    + cbn in C2. inversion C2; subst. auto.
    + inversion Hv2; subst. right. left.
      edestruct (climb_top S key n2 ns2) as (d1 & h1 & b & rest & A1 & A2 & A3 & A4 & A5 & A6 & A7 & A8 & A9); eauto.
      exists n2, b, rest, h1. split; [assumption|]. repeat split; auto; lia.
  - destruct ns2 as [|n2 ns2].
    + cbn in C2. inversion C2; subst. right. right.
      destruct (climb_top S key n1 ns1 dep1 leaf1 d h) as (d1 & h1 & b & rest & A1 & A2 & A3 & A4 & A5 & A6 & A7 & A8 & A9); eauto.
      exists n1, b, rest, h1. split; [assumption|]. repeat split; auto; lia.
    + inversion Hv2; subst.
      destruct (climb_top S key n1 ns1 dep1 leaf1 d h) as (d1 & h1 & b & rest & A1 & A2 & A3 & A4 & A5 & A6 & A7 & A8 & A9); auto.
      destruct (climb_top S key n2 ns2 dep2 leaf2 d h) as (d1' & h1' & b' & rest' & B1 & B2 & B3 & B4 & B5 & B6 & B7 & B8 & B9); auto.
      assert (E : pre_of b n1 h1 = pre_of b' n2 h1') by (apply Hcol; auto; congruence).
      apply pre_of_inj in E as (E1 & E2 & E3); auto.
      rewrite E2, B7 in A7. apply app_inv_head in A7. inversion A7; subst b'.
      specialize (E3 eq_refl). subst h1'. replace d1' with d1 in * by lia.
      eapply IH; eauto.
Qed.

Lemma leaf_not_on_path S key p leaf : length key = 32%nat -> valid_proof p -> hash_good_on H S ->
  incl (leaf_pres H key p) S -> make_leaf H key p = Ok leaf ->
  on_path S key (p_depth p) leaf -> False.
Proof.
  intros Hk (Hd & Hc & Hn & Ht) (Hlen & Hcol & Hz) Hi El (n & b & rest & h1 & Vn & Lh & _ & Esk & Ee & Hin).
  assert (HH : forall x, length (H x) = 32%nat) by (intro; apply Hlen).
  unfold make_leaf, leaf_pres, HSK_PROOF_DEADEND, HSK_PROOF_SHORT,
    HSK_PROOF_COLLISION, HSK_PROOF_EXISTS in *.
  assert (Hnl : forall k h, leaf_pre k h = pre_of b n h1 -> False).
  { intros k h. unfold pre_of. destruct b; intro E; symmetry in E; revert E; apply internal_leaf_disjoint. }
  destruct Ht as [[T _]|[(T & _ & Hps & bb & l & r' & Eb & Hb & Hbs & El' & Er & Hl & Hr)|
    [(T & _ & k & h & Ek & Eh & Hkk & Hh)|(T & v & Ev & Hvo & Hvs & Hvm)]]]; rewrite T in *; zred.
  - apply Ok_inj in El. subst leaf. eapply Hz; [exact Hin|]. auto.
  - rewrite Eb, El', Er in *. destruct (Z.eqb_spec (p_prefix_size p) 0); [lia|].
    rewrite proof_has_spec in El by lia. cbn [obind] in El.
    destruct (bprefix _ _) eqn:Ebp; [discriminate|]. apply Ok_inj in El. subst leaf.
    apply Hcol in Ee; [|apply Hi; left; reflexivity|auto].
    destruct Hl as [Hl _], Hr as [Hr _]. destruct Vn as (Vp & Vo & Vs & Vh & _).
    assert (F : pbits bb (p_prefix_size p) = pbits (n_prefix n) (n_prefix_size n)).
    { unfold pre_of in Ee.
      destruct b; apply internal_pre_inj in Ee as (E1 & E2 & E3 & E4); auto; try lia; unfold zlen; lia. }
    apply diff_false_true. rewrite <- Ebp. apply bprefix_iff. rewrite F. eauto.
  - rewrite Ek, Eh in *. destruct (beq k key); [discriminate|]. apply Ok_inj in El. subst leaf.
    apply Hcol in Ee; [|apply Hi; left; reflexivity|auto]. eapply Hnl; eauto.
  - rewrite Ev in *. apply Ok_inj in El. subst leaf.
    apply Hcol in Ee; [|apply Hi; right; left; reflexivity|auto]. eapply Hnl; eauto.
Qed.

Lemma leaf_value S key p1 p2 leaf : length key = 32%nat -> valid_proof p1 -> valid_proof p2 ->
  hash_good_on H S -> incl (leaf_pres H key p1) S -> incl (leaf_pres H key p2) S ->
  make_leaf H key p1 = Ok leaf -> make_leaf H key p2 = Ok leaf -> p_type p1 = 3 ->
  p_type p2 = 3 /\ p_value p1 = p_value p2.
Proof.
  intros Hk (_ & _ & _ & Ht1) (_ & _ & _ & Ht2) (Hlen & Hcol & Hz) I1 I2 L1 L2 T1.
  assert (HH : forall x, length (H x) = 32%nat) by (intro; apply Hlen).
  destruct Ht1 as [[T _]|[(T & _)|[(T & _)|(T & v & Ev & Hvo & Hvs & Hvm)]]]; try lia.
  unfold make_leaf in L1. unfold leaf_pres in I1. rewrite T in *. rewrite Ev in *. cbn in I1, L1.
  unfold HSK_PROOF_DEADEND, HSK_PROOF_SHORT, HSK_PROOF_COLLISION, HSK_PROOF_EXISTS in *. zred.
  apply Ok_inj in L1. subst leaf.
  unfold make_leaf in L2. unfold leaf_pres in I2.
  unfold HSK_PROOF_DEADEND, HSK_PROOF_SHORT, HSK_PROOF_COLLISION, HSK_PROOF_EXISTS in *.
  destruct Ht2 as [[T' _]|[(T' & _ & Hps & bb & l & r' & Eb & Hb & Hbs & El' & Er & Hl & Hr)|
    [(T' & _ & k & h & Ek & Eh & Hkk & Hh)|(T' & w & Ew & Hwo & Hws & Hwm)]]]; rewrite T' in *; zred.
  - apply Ok_inj in L2. exfalso. eapply Hz; [|symmetry; exact L2]. apply I1. right; left; reflexivity.
  - rewrite Eb, El', Er in *. destruct (Z.eqb_spec (p_prefix_size p2) 0); [lia|].
    destruct (proof_has _ _ _ _) as [m| | |]; cbn [obind] in L2; try discriminate.
    destruct m; [discriminate|]. apply Ok_inj in L2. exfalso.
    apply Hcol in L2; [|apply I2; left; reflexivity|apply I1; right; left; reflexivity].
    revert L2. apply internal_leaf_disjoint.
  - rewrite Ek, Eh in *. destruct (beq k key) eqn:Eb; [discriminate|]. apply Ok_inj in L2. exfalso.
    apply Hcol in L2; [|apply I2; left; reflexivity|apply I1; right; left; reflexivity].
    apply leaf_pre_inj in L2 as [L2 _]; [|destruct Hkk; congruence].
    apply beq_false_iff in Eb. congruence.
  - split; auto. rewrite Ew in *. apply Ok_inj in L2.
    apply Hcol in L2; [|apply I2; right; left; reflexivity|apply I1; right; left; reflexivity].
    apply leaf_pre_inj in L2 as [_ L2]; auto.
    apply Hcol in L2; [congruence|apply I2; left; reflexivity|apply I1; left; reflexivity].
Qed.

Lemma verify_agree root key p1 p2 r1 r2 : length key = 32%nat -> valid_proof p1 -> valid_proof p2 ->
  hash_good_on H (verify_pres H key p1 ++ verify_pres H key p2) ->
  proof_verify H root key p1 = Ok r1 -> proof_verify H root key p2 = Ok r2 -> r1 = r2.
Proof.
  intros Hk V1 V2 Hg R1 R2.
  destruct (verify_inv _ _ _ _ V1 R1) as (l1 & L1 & C1 & Y1 & N1).
  destruct (verify_inv _ _ _ _ V2 R2) as (l2 & L2 & C2 & Y2 & N2).
  set (S := verify_pres H key p1 ++ verify_pres H key p2) in *.
  assert (HH : forall x, length (H x) = 32%nat) by (intro; apply Hg).
  assert (I1 : incl (leaf_pres H key p1) S /\ incl (climb_pre H key (rev (p_nodes p1)) (p_depth p1) l1) S).
  { unfold S, verify_pres. rewrite L1. split; intros x Hx; apply in_or_app; left; apply in_or_app; auto. }
  assert (I2 : incl (leaf_pres H key p2) S /\ incl (climb_pre H key (rev (p_nodes p2)) (p_depth p2) l2) S).
  { unfold S, verify_pres. rewrite L2. split; intros x Hx; apply in_or_app; right; apply in_or_app; auto. }
  clearbody S. destruct I1 as [I1 J1], I2 as [I2 J2].
  assert (V1' := V1). assert (V2' := V2).
  destruct V1' as (D1 & _ & Hn1 & _), V2' as (D2 & _ & Hn2 & _).
  destruct (agree_paths S key (p_nodes p1) Hk Hg Hn1 (p_nodes p2) (p_depth p1) (p_depth p2) l1 l2 0 root)
    as [[Ed El]|[F|F]]; auto; try (eapply make_leaf_len; eauto).
  - subst l2. destruct (Z.eq_dec (p_type p1) 3) as [T1|T1].
    + destruct (leaf_value S key p1 p2 l1) as [T2 Ev]; auto.
      destruct (Y1 T1) as (v1 & x1 & A1 & B1 & ->). destruct (Y2 T2) as (v2 & x2 & A2 & B2 & ->).
      congruence.
    + destruct (Z.eq_dec (p_type p2) 3) as [T2|T2].
      * destruct (leaf_value S key p2 p1 l1) as [T1' _]; auto. congruence.
      * rewrite N1, N2; auto.
  - exfalso. eapply (leaf_not_on_path S key p1); eauto.
  - exfalso. eapply (leaf_not_on_path S key p2); eauto.
Qed.
End Verify.

(** ** Encoding *)
Lemma pack_len_z p : Z.of_nat (length (pack p)) = (zlen p + 7) / 8.
Proof. rewrite pack_length. unfold zlen. rewrite Nat2Z.inj_div, Nat2Z.inj_add. reflexivity. Qed.

Lemma read_bitlen_enc p d : 1 <= zlen p <= 256 ->
  read_bitlen (enc_bits p ++ d) = Some ((zlen p, (zlen p + 7) / 8), pack p ++ d).
Proof.
  intro Hp. unfold enc_bits, read_bitlen. destruct (Z.ltb_spec (zlen p) 128).
  - cbn [app read_u8].
    destruct (Z.eqb_spec (Z.land (zlen p) 128) 0) as [E|E].
    + destruct ((zlen p =? 0) || (256 <? zlen p)) eqn:F; [lia|reflexivity].
    + destruct (bitlen_hi (zlen p)) as [_ B]; [unfold is_byte; lia|]. destruct (B E). lia.
  - cbn [app read_u8].
    assert (Hc : zlen p / 256 = 0 \/ zlen p = 256) by lia.
    destruct Hc as [Hc|Hc].
    + rewrite Hc. change (Z.land (128 + 0) 128 =? 0) with false. cbv iota.
      change (Z.shiftl (Z.land (128 + 0) (Z.lnot 128)) 8) with 0.
      rewrite Z.lor_0_l, Z.mod_small by lia.
      destruct ((zlen p =? 0) || (256 <? zlen p)) eqn:F; [lia|reflexivity].
    + rewrite Hc. reflexivity.
Qed.

Lemma read_nodes_enc ns : forall i map0 d, 0 <= i ->
  Forall (fun n => zlen (fst n) <= 256 /\ hash32 (snd n)) ns ->
  firstn (length ns) (skipn (Z.to_nat i) (bits_of map0)) = map has_prefix ns ->
  read_nodes (length ns) i map0 (flat_map enc_node ns ++ d) = Ok (Some (map node_of ns, d)).
Proof.
  induction ns as [|[p h] ns IH]; intros i map0 d Hi Hf Hb.
  - reflexivity.
  - inversion Hf as [|x y [Hp Hh] Hf']; subst. cbn [length read_nodes]. rewrite has_bit_nth by lia.
    cbn [length map] in Hb. rewrite nth_error_skipn in Hb.
    destruct (nth_error (bits_of map0) (Z.to_nat i)) as [hb|]; [|discriminate].
    cbn [firstn] in Hb. assert (Eb : hb = has_prefix (p, h)) by congruence.
    apply (f_equal (@tl bool)) in Hb. cbn [tl] in Hb. cbn [obind]. subst hb.
    replace (S (Z.to_nat i)) with (Z.to_nat (i + 1)) in Hb by lia.
    cbn [fst snd] in *. destruct Hh as [Hh1 Hh2].
    cbn [flat_map]. unfold enc_node at 1. unfold has_prefix. cbn [fst snd].
    destruct p as [|b p].
    + cbn [app]. rewrite <- app_assoc. unfold read_bytes. rewrite take_app by auto.
      rewrite IH by (auto; lia). reflexivity.
    + rewrite <- !app_assoc. rewrite read_bitlen_enc.
      2:{ rewrite zlen_cons in *. pose proof (zlen_nonneg p). lia. }
      unfold read_bytes at 1.
      rewrite take_app.
      2:{ rewrite <- (Nat2Z.id (length _)), pack_len_z. reflexivity. }
      cbv iota beta. unfold read_bytes. rewrite take_app by auto.
      rewrite IH by (auto; lia). reflexivity.
Qed.

Lemma read_tail_enc depth ns e d : ending_ok e ->
  read_tail (end_type e) depth (map node_of ns) (enc_end e ++ d) = Ok (Some (struct_of depth ns e, d)).
Proof.
  intro He. unfold read_tail, HSK_PROOF_DEADEND, HSK_PROOF_SHORT, HSK_PROOF_COLLISION, HSK_PROOF_EXISTS,
    HSK_MAX_DATA_SIZE.
  destruct e as [|p l r|k h|v]; cbn [end_type enc_end ending_ok] in *; zred.
  - reflexivity.
  - destruct He as (Hp & [Hl _] & [Hr _]). rewrite <- !app_assoc, read_bitlen_enc by auto.
    unfold read_bytes. rewrite take_app.
    2:{ rewrite <- (Nat2Z.id (length _)), pack_len_z. reflexivity. }
    rewrite !take_app by auto. reflexivity.
  - destruct He as ([Hl _] & [Hr _]). rewrite <- !app_assoc. unfold read_bytes.
    rewrite !take_app by auto. reflexivity.
  - destruct He as (Hv & Hb). pose proof (zlen_nonneg v).
    unfold read_u16. rewrite <- app_assoc, (read_le_app 2) by (change (256 ^ Z.of_nat 2) with 65536; lia).
    destruct (Z.ltb_spec 668 (zlen v)); [lia|].
    unfold read_bytes. rewrite take_app by (unfold zlen; lia). reflexivity.
Qed.

Lemma proof_read_encode depth ns e d : 0 <= depth <= 256 -> path_ok ns -> ending_ok e ->
  proof_read (encode_proof depth ns e ++ d) = Ok (Some (struct_of depth ns e, d)).
Proof.
  intros Hd [Hn Hf] He. unfold proof_read, encode_proof. rewrite <- !app_assoc.
  assert (Ht : 0 <= end_type e <= 3) by (destruct e; cbn; lia).
  unfold read_u16. rewrite (read_le_app 2) by (change (256 ^ Z.of_nat 2) with 65536; lia).
  rewrite type_shift, depth_mask by lia.
  replace ((end_type e * 16384 + depth) / 16384) with (end_type e) by lia.
  replace ((end_type e * 16384 + depth) mod 16384) with depth by lia.
  destruct (Z.ltb_spec 256 depth); [lia|].
  pose proof (zlen_nonneg ns).
  rewrite (read_le_app 2) by (change (256 ^ Z.of_nat 2) with 65536; lia).
  destruct (Z.ltb_spec 256 (zlen ns)); [lia|].
  assert (Em : zlen (map has_prefix ns) = zlen ns) by (unfold zlen; rewrite map_length; reflexivity).
  unfold read_bytes at 1. rewrite take_app.
  2:{ rewrite <- (Nat2Z.id (length _)), pack_len_z, Em. reflexivity. }
  replace (Z.to_nat (zlen ns)) with (length ns) by (unfold zlen; lia).
  rewrite read_nodes_enc; auto; [|lia|].
  - cbn [obind]. apply read_tail_enc. auto.
  - change (Z.to_nat 0) with O. cbn [skipn].
    rewrite <- (map_length has_prefix ns). apply bits_pack.
Qed.

(** ** Honest proofs *)
Lemma strip_spec p bits r : strip p bits = Some r <-> bits = p ++ r.
Proof.
  revert bits; induction p as [|x p IH]; intros bits; cbn.
  - split; congruence.
  - destruct bits as [|y bits].
    + split; discriminate.
    + destruct (Bool.eqb x y) eqn:E.
      * apply eqb_prop in E. subst. rewrite IH. split; [intros ->; reflexivity|congruence].
      * split; [discriminate|]. intro F. inversion F. subst. rewrite eqb_reflx in E. discriminate.
Qed.

Section Honest.
Variable H : list Z -> list Z.

Definition end_hash (key : list Z) (e : ending) : list Z :=
  match e with
  | EDead => repeat 0 32
  | EShort p l r => H (node_string p l r)
  | ECollision k h => H (leaf_string k h)
  | EExists v => H (leaf_string key (H v))
  end.

Lemma pad32_pack_bits p : zlen p <= 256 -> pbits (pad32 (pack p)) (zlen p) = p.
Proof using. clear H.
  intro Hp. unfold pbits, pad32. rewrite bits_of_app, firstn_app.
  pose proof (pack_zlen p). unfold zlen in *. rewrite Nat2Z.id.
  rewrite bits_pack, bits_of_length.
  replace (length p - 8 * length (pack p))%nat with O by lia. cbn. apply app_nil_r.
Qed.

Lemma node_of_valid n : zlen (fst n) <= 256 -> hash32 (snd n) -> valid_node (node_of n).
Proof using. clear H.
  intros Hp Hh. destruct n as [p h]. cbn [fst snd] in *. unfold node_of. cbn [fst snd].
  assert (Hl : (length (pack p) <= 32)%nat).
  { pose proof (pack_len_z p). lia. }
  repeat split; cbn [n_prefix n_prefix_size n_node]; try apply Hh.
  - apply (pad32_length (pack p)); auto.
  - unfold pad32. apply bytes_ok_app. split; [apply pack_ok|apply bytes_ok_repeat].
  - apply zlen_nonneg.
  - auto.
Qed.

Lemma pre_of_node_of b p h h1 : zlen p <= 256 ->
  pre_of b (node_of (p, h)) h1 = if b then node_string p h h1 else node_string p h1 h.
Proof using. clear H.
  intros Hp. unfold pre_of, node_of. cbn [fst snd n_prefix n_prefix_size n_node].
  fold (pad32 (pack p)).
  rewrite !node_string_pre by auto. unfold internal_pre.
  assert (E : firstn (Z.to_nat ((zlen p + 7) / 8)) (pad32 (pack p))
              = firstn (Z.to_nat ((zlen p + 7) / 8)) (pack p)).
  { rewrite <- pack_len_z, Nat2Z.id. unfold pad32. rewrite firstn_app, firstn_all, Nat.sub_diag.
    cbn. apply app_nil_r. }
  rewrite E. destruct b; reflexivity.
Qed.

Lemma path_bits_nonneg ns : zlen ns <= path_bits ns.
Proof using. clear H.
  induction ns as [|n ns IH]; cbn [path_bits fold_right].
  - unfold zlen. cbn. lia.
  - rewrite zlen_cons. unfold path_bits in IH. pose proof (zlen_nonneg (fst n)). lia.
Qed.

Lemma walk_ok key : hash32 key -> (forall x, hash32 (H x)) ->
  forall t path bits, wf_at path t -> bits_of key = path ++ bits ->
  let ns := fst (walk H t key bits) in
  let e := snd (walk H t key bits) in
  climb H key (rev (map node_of ns)) (zlen path + path_bits ns) (end_hash key e)
    = Ok (zlen path, tree_hash H t)
  /\ Forall (fun n => zlen (fst n) <= 256 /\ hash32 (snd n)) ns
  /\ zlen path + path_bits ns <= 256
  /\ match e with
     | EDead => True
     | EShort p l r => 1 <= zlen p <= 256 /\ hash32 l /\ hash32 r /\
         bprefix p (skipn (Z.to_nat (zlen path + path_bits ns)) (bits_of key)) = false
     | ECollision k h => hash32 k /\ hash32 h /\ k <> key
     | EExists v => bytes_ok v /\ In (key, v) (leaves t)
     end
  /\ (match e with EExists _ => False | _ => True end -> forall v, ~ In (key, v) (leaves t)).
Proof.
  intros [Hk1 Hk2] HH.
  assert (HT : forall t, hash32 (tree_hash H t)).
  { intros [| |]; cbn; auto. split; [reflexivity|apply (bytes_ok_repeat 32)]. }
  induction t as [|k v|p l IHl r IHr]; intros path bits Hwf Hb.
  - cbn. assert (Hl := f_equal (@length bool) Hb). rewrite bits_of_length, app_length, Hk1 in Hl.
    unfold zlen. rewrite Z.add_0_r. repeat split; auto; lia.
  - assert (Hl := f_equal (@length bool) Hb). rewrite bits_of_length, app_length, Hk1 in Hl.
    cbn [walk fst snd]. destruct Hwf as (W1 & W2 & W3 & W4).
    change (path_bits []) with 0. rewrite Z.add_0_r.
    destruct (beq k key) eqn:Ek.
    + apply beq_true_iff in Ek. subst k. cbn. unfold zlen.
      repeat split; auto; try lia; try tauto.
    + apply beq_false_iff in Ek. cbn. unfold zlen.
      repeat split; auto; try apply HH; try lia.
      intros _ v' [E|[]]. inversion E; congruence.
  - assert (Hl := f_equal (@length bool) Hb). rewrite bits_of_length, app_length, Hk1 in Hl.
    destruct Hwf as (W0 & W1 & W2).
    assert (Hp : zlen p <= 256) by (unfold zlen; lia).
    assert (Wno : forall b' c v, wf_at (path ++ p ++ [b']) c -> In (key, v) (leaves c) ->
                  exists rest, bits = p ++ b' :: rest).
    { intros b' c v Wc Hin. destruct (wf_leaves _ _ _ _ Wc Hin) as (_ & _ & rest & E).
      exists rest. rewrite Hb, <- !app_assoc in E. apply app_inv_head in E. exact E. }
    cbn [walk]. destruct (strip p bits) as [[|b rest]|] eqn:Es.
    + exfalso. apply strip_spec in Es. rewrite app_nil_r in Es. subst bits. lia.
    + apply strip_spec in Es.
      assert (Hb' : bits_of key = (path ++ p ++ [b]) ++ rest).
      { rewrite Hb, Es, <- !app_assoc. reflexivity. }
      assert (IH : forall c, c = (if b then r else l) -> wf_at (path ++ p ++ [b]) c /\
         let ns := fst (walk H c key rest) in
         let e := snd (walk H c key rest) in
         climb H key (rev (map node_of ns)) (zlen (path ++ p ++ [b]) + path_bits ns) (end_hash key e)
           = Ok (zlen (path ++ p ++ [b]), tree_hash H c)
         /\ Forall (fun n => zlen (fst n) <= 256 /\ hash32 (snd n)) ns
         /\ zlen (path ++ p ++ [b]) + path_bits ns <= 256
         /\ match e with
            | EDead => True
            | EShort p' l r => 1 <= zlen p' <= 256 /\ hash32 l /\ hash32 r /\
                bprefix p' (skipn (Z.to_nat (zlen (path ++ p ++ [b]) + path_bits ns)) (bits_of key)) = false
            | ECollision k h => hash32 k /\ hash32 h /\ k <> key
            | EExists v => bytes_ok v /\ In (key, v) (leaves c)
            end
         /\ (match e with EExists _ => False | _ => True end -> forall v, ~ In (key, v) (leaves c))).
      { intros c ->. destruct b; split; auto; [apply IHr|apply IHl]; auto. }
      destruct (IH _ eq_refl) as (Wc & I1 & I2 & I3 & I4 & I5). clear IH IHl IHr.
      cbn [fst snd].
      assert (Epb : forall x, zlen path + path_bits ((p, tree_hash H (if b then l else r)) :: x)
                    = zlen (path ++ p ++ [b]) + path_bits x).
      { intro x. cbn [path_bits fold_right]. rewrite !zlen_app. change (zlen [b]) with 1. cbn [fst].
        unfold path_bits. lia. }
      rewrite Epb.
      repeat split.
      * cbn [map rev]. rewrite climb_app, I1. cbn [obind fst snd].
        apply step_ok; auto.
        -- apply node_of_valid; cbn [fst snd]; auto.
        -- pose proof (path_bits_nonneg (fst (walk H (if b then r else l) key rest))).
           pose proof (zlen_nonneg (fst (walk H (if b then r else l) key rest))). lia.
        -- split; [apply zlen_nonneg|]. split.
           { unfold node_of. cbn [n_prefix_size fst]. rewrite !zlen_app. change (zlen [b]) with 1. lia. }
           exists b, rest. split.
           { unfold node_of. cbn [n_prefix n_prefix_size fst]. fold (pad32 (pack p)). rewrite pad32_pack_bits by auto.
             unfold zlen at 1. rewrite Nat2Z.id, Hb, skipn_app, skipn_all, Nat.sub_diag. cbn. exact Es. }
           rewrite pre_of_node_of by auto. cbn [tree_hash]. destruct b; reflexivity.
      * constructor; cbn [fst snd]; auto.
      * auto.
      * destruct (snd (walk H (if b then r else l) key rest)); auto.
        destruct I4 as [I4 I4']. split; auto. cbn [leaves]. apply in_or_app. destruct b; auto.
      * intros He v Hin. cbn [leaves] in Hin. apply in_app_or in Hin.
        destruct b; destruct Hin as [Hin|Hin]; try (eapply I5; eauto; fail).
        -- destruct (Wno false l v W1 Hin) as [rs E]. rewrite Es in E. apply app_inv_head in E. discriminate.
        -- destruct (Wno true r v W2 Hin) as [rs E]. rewrite Es in E. apply app_inv_head in E. discriminate.
    + cbn [fst snd]. change (path_bits []) with 0. rewrite Z.add_0_r.
      assert (Ep : forall r0, bits <> p ++ r0).
      { intros r0 E. apply strip_spec in E. congruence. }
      repeat split; try apply HT; auto; try (unfold zlen; lia).
      * destruct p; [exfalso; apply (Ep bits); reflexivity|]. rewrite zlen_cons. pose proof (zlen_nonneg p). lia.
      * destruct (bprefix _ _) eqn:Eb; auto. exfalso. apply bprefix_iff in Eb as [r0 E].
        unfold zlen in E. rewrite Nat2Z.id, Hb, skipn_app, skipn_all, Nat.sub_diag in E. cbn in E.
        eapply Ep; eauto.
      * intros _ v Hin. cbn [leaves] in Hin. apply in_app_or in Hin as [Hin|Hin].
        -- destruct (Wno false l v W1 Hin) as [rs E]. eapply Ep; eauto.
        -- destruct (Wno true r v W2 Hin) as [rs E]. eapply Ep; eauto.
Qed.

Lemma leaves_unique path t : wf_at path t -> forall k v1 v2, In (k, v1) (leaves t) -> In (k, v2) (leaves t) -> v1 = v2.
Proof using. clear H.
  revert path; induction t as [|k v|p l IHl r IHr]; intros path Hwf k0 v1 v2 H1 H2; cbn in Hwf, H1, H2.
  - contradiction.
  - destruct H1 as [H1|[]], H2 as [H2|[]]. congruence.
  - destruct Hwf as (_ & Hl & Hr). apply in_app_or in H1, H2.
    destruct H1 as [H1|H1], H2 as [H2|H2].
    + eapply IHl; eauto.
    + destruct (wf_leaves _ _ _ _ Hl H1) as (_ & _ & r1 & E1). destruct (wf_leaves _ _ _ _ Hr H2) as (_ & _ & r2 & E2).
      rewrite E1, <- !app_assoc in E2. apply app_inv_head in E2. apply app_inv_head in E2. discriminate.
    + destruct (wf_leaves _ _ _ _ Hr H1) as (_ & _ & r1 & E1). destruct (wf_leaves _ _ _ _ Hl H2) as (_ & _ & r2 & E2).
      rewrite E1, <- !app_assoc in E2. apply app_inv_head in E2. apply app_inv_head in E2. discriminate.
    + eapply IHr; eauto.
Qed.

Lemma honest_accepted t key rest :
  (forall x, hash32 (H x)) -> wf_tree t -> hash32 key ->
  (forall k v, In (k, v) (leaves t) -> exists data, value_has_data v data) ->
  exists p, proof_read (honest_proof H t key ++ rest) = Ok (Some (p, rest)) /\
    (forall v data, In (key, v) (leaves t) -> value_has_data v data ->
       proof_verify H (tree_hash H t) key p = Ok (Some data)) /\
    ((forall v, ~ In (key, v) (leaves t)) -> proof_verify H (tree_hash H t) key p = Ok None).
Proof.
  intros HH Hwf Hk Hval.
  destruct (walk_ok key Hk HH t [] (bits_of key) Hwf eq_refl) as (C & F & D & E & N).
  unfold honest_proof.
  set (ns := fst (walk H t key (bits_of key))) in *. set (e := snd (walk H t key (bits_of key))) in *.
  clearbody ns e. change (zlen (@nil bool)) with 0 in *. rewrite Z.add_0_l in *.
  assert (Hns : 0 <= zlen ns <= path_bits ns) by (pose proof (path_bits_nonneg ns); pose proof (zlen_nonneg ns); lia).
  assert (He : ending_ok e).
  { destruct e as [|p l r|k h|v]; cbn; auto; try tauto. destruct E as [E1 E2].
    destruct (Hval _ _ E2) as [data [Hd _]]. auto. }
  exists (struct_of (path_bits ns) ns e). split.
  { apply proof_read_encode; auto; try lia. split; auto; lia. }
  assert (Hlen : zlen (map node_of ns) = zlen ns) by (unfold zlen; rewrite map_length; auto).
  assert (Hdepth : p_depth (struct_of (path_bits ns) ns e) = path_bits ns) by (destruct e; reflexivity).
  assert (Hnodes : p_nodes (struct_of (path_bits ns) ns e) = map node_of ns) by (destruct e; reflexivity).
  assert (Hvs : p_value_size (struct_of (path_bits ns) ns e) <= 668).
  { destruct e; cbn; try lia. apply He. }
  assert (Hleaf : make_leaf H key (struct_of (path_bits ns) ns e) = Ok (end_hash key e)).
  { destruct Hk as [Hk1 Hk2].
    unfold make_leaf, HSK_PROOF_DEADEND, HSK_PROOF_SHORT, HSK_PROOF_COLLISION, HSK_PROOF_EXISTS.
    destruct e as [|p l r|k h|v]; cbn [struct_of proof_base p_type p_depth p_nodes p_prefix p_prefix_size p_left p_right
       p_nx_key p_nx_hash p_value p_value_size]; zred; auto.
    - destruct E as (E1 & E2 & E3 & E4). destruct (Z.eqb_spec (zlen p) 0); [lia|].
      rewrite proof_has_spec; auto; try lia; [|apply pack_zlen].
      rewrite pbits_pack, E4. cbn [obind end_hash]. unfold hash_internal.
      rewrite node_string_pre by lia. reflexivity.
    - destruct E as (E1 & E2 & E3). rewrite (proj2 (beq_false_iff k key) E3). reflexivity. }
  assert (Hver : proof_verify H (tree_hash H t) key (struct_of (path_bits ns) ns e) =
     if p_type (struct_of (path_bits ns) ns e) =? 3 then
        match parse_namestate (match p_value (struct_of (path_bits ns) ns e) with Some v => v | None => [] end) with
        | Some res => Ok (Some res) | None => Err HSK_EENCODING end
     else Ok None).
  { unfold proof_verify, HSK_MAX_DATA_SIZE. rewrite Hdepth, Hnodes, Hlen, Hleaf.
    destruct ((256 <? path_bits ns) || (256 <? zlen ns) || (668 <? p_value_size (struct_of (path_bits ns) ns e))) eqn:X; [lia|].
    cbn [obind]. rewrite C. cbn [obind fst snd]. change (0 =? 0) with true. cbn [negb].
    rewrite beq_refl. cbn [negb]. reflexivity. }
  rewrite Hver. split.
  - intros v data Hin Hd.
    assert (Hev : e = EExists v).
    { destruct e as [| | |v']; try (exfalso; eapply N; eauto; fail).
      destruct E as [_ E]. f_equal. eapply leaves_unique; eauto. }
    rewrite Hev in *. cbn [struct_of p_type p_value]. zred.
    rewrite (proj2 (parse_namestate_spec v data ltac:(apply E)) Hd). reflexivity.
  - intro Hno. destruct e as [| | |v']; try reflexivity. exfalso. eapply Hno, E.
Qed.

End Honest.

(** Verification only depends on the hash function through [verify_pres]. *)
Lemma climb_ext H H' key ns : forall depth next,
  (forall x, In x (climb_pre H key ns depth next) -> H' x = H x) ->
  climb H' key ns depth next = climb H key ns depth next.
Proof.
  induction ns as [|n ns IH]; intros depth next Hx; cbn [climb]; auto.
  destruct (depth <? n_prefix_size n + 1); auto. cbn [climb_pre] in Hx.
  destruct (has_bit key (depth - 1)) as [b| | |]; cbn [obind]; auto.
  destruct (proof_has _ _ _ _) as [m| | |]; cbn [obind]; auto. destruct m; auto.
  unfold hash_internal in *.
  destruct b; rewrite (Hx _ (or_introl eq_refl)); apply IH; intros x Hi; apply Hx; right; exact Hi.
Qed.

Lemma verify_ext H H' root key p :
  (forall x, In x (verify_pres H key p) -> H' x = H x) ->
  proof_verify H' root key p = proof_verify H root key p.
Proof.
  intro Hx. unfold verify_pres in Hx. unfold proof_verify. destruct (_ || _ || _); auto.
  assert (El : make_leaf H' key p = make_leaf H key p).
  { assert (Hx' : forall x, In x (leaf_pres H key p) -> H' x = H x) by (intros x Hi; apply Hx, in_or_app; auto).
    unfold leaf_pres in Hx'. unfold make_leaf.
    destruct (p_type p =? HSK_PROOF_DEADEND); auto.
    destruct (p_type p =? HSK_PROOF_SHORT).
    { destruct (p_prefix p), (p_left p), (p_right p); auto.
      destruct (p_prefix_size p =? 0); auto. destruct (proof_has _ _ _ _) as [m| | |]; cbn [obind]; auto.
      destruct m; auto. unfold hash_internal. rewrite Hx'; cbn; auto. }
    destruct (p_type p =? HSK_PROOF_COLLISION).
    { destruct (p_nx_key p), (p_nx_hash p); auto. destruct (beq _ _); auto.
      unfold hash_leaf. rewrite Hx'; cbn; auto. }
    destruct (p_type p =? HSK_PROOF_EXISTS); auto.
    destruct (p_value p) as [v|]; [|destruct (p_value_size p =? 0); auto];
    unfold hash_value, hash_leaf; rewrite (Hx' _ (or_introl eq_refl)); rewrite Hx'; cbn; auto. }
  rewrite El. destruct (make_leaf H key p) as [leaf| | |] eqn:Em; cbn [obind]; auto.
  rewrite (climb_ext H H'); auto. intros x Hi. apply Hx, in_or_app. right. exact Hi.
Qed.

Lemma read_tail_limits t dp ns d p r : bytes_ok d -> read_tail t dp ns d = Ok (Some (p, r)) ->
  p_type p = t /\ 0 <= p_prefix_size p <= 256 /\
  match p_value p with Some v => zlen v = p_value_size p /\ zlen v <= 668 | None => p_value_size p = 0 end.
Proof.
  intro Hd. unfold read_tail, HSK_MAX_DATA_SIZE.
  destruct (t =? HSK_PROOF_DEADEND). { intro E; inversion E; subst; cbn. lia. }
  destruct (t =? HSK_PROOF_SHORT).
  { destruct (read_bitlen d) as [[[s bs] d1]|] eqn:E1; [|discriminate].
    apply read_bitlen_some in E1 as (Hs & -> & Hd1); auto.
    destruct (read_bytes _ d1) as [[b d2]|] eqn:E2; [|discriminate].
    destruct (read_bytes 32 d2) as [[l d3]|] eqn:E3; [|discriminate].
    destruct (read_bytes 32 d3) as [[r4 d4]|] eqn:E4; [|discriminate].
    intro E; inversion E; subst; cbn. lia. }
  destruct (t =? HSK_PROOF_COLLISION).
  { destruct (read_bytes 32 d) as [[l d3]|] eqn:E3; [|discriminate].
    destruct (read_bytes 32 d3) as [[r4 d4]|] eqn:E4; [|discriminate].
    intro E; inversion E; subst; cbn. lia. }
  destruct (t =? HSK_PROOF_EXISTS); [|discriminate].
  destruct (read_u16 d) as [[vs d1]|] eqn:E1; [|discriminate].
  apply read_u16_some in E1 as (_ & Hvs & Hd1); auto.
  destruct (Z.ltb_spec 668 vs); [discriminate|].
  destruct (read_bytes _ d1) as [[v d2]|] eqn:E2; [|discriminate].
  apply read_bytes_some in E2 as (_ & Hl & Hb & Hd2); auto.
  intro E; inversion E; subst; cbn. unfold zlen. lia.
Qed.

Lemma proof_read_limits d p r : bytes_ok d -> proof_read d = Ok (Some (p, r)) -> within_limits p.
Proof.
  intros Hd E. destruct (proof_read_total d Hd) as [_ V]. destruct (V _ _ E) as [(V1 & V2 & V3 & V4) _].
  unfold proof_read in E.
  destruct (read_u16 d) as [[field d1]|] eqn:E1; [|discriminate].
  apply read_u16_some in E1 as (_ & Hf & Hd1); auto.
  rewrite type_shift, depth_mask in E by auto.
  destruct (Z.ltb_spec 256 (field mod 16384)); [discriminate|].
  destruct (read_u16 d1) as [[count d2]|] eqn:E2; [|discriminate].
  apply read_u16_some in E2 as (_ & Hc & Hd2); auto.
  destruct (Z.ltb_spec 256 count); [discriminate|].
  destruct (read_bytes _ d2) as [[map d3]|] eqn:E3; [|discriminate].
  apply read_bytes_some in E3 as (_ & Hl & Hb & Hd3); auto.
  destruct (read_nodes_total (Z.to_nat count) 0 map d3) as [[o Eo] Hall]; auto; try lia.
  { unfold zlen. lia. }
  rewrite Eo in E, Hall. cbn [obind] in E. destruct o as [[ns d4]|]; [|discriminate].
  destruct (Hall ns d4 eq_refl) as (Hn1 & Hn2 & Hn3).
  apply read_tail_limits in E as (T & L1 & L2); auto.
  unfold within_limits. repeat split; auto; try lia.
  eapply Forall_impl; [|exact V3]. intros n (A1 & A2 & A3 & A4). auto.
Qed.

(** What is consumed is a prefix of the input. *)
Lemma read_bitlen_suffix d x r : read_bitlen d = Some (x, r) -> exists c, d = c ++ r.
Proof.
  unfold read_bitlen. destruct d as [|b d]; [discriminate|]. cbn [read_u8].
  destruct (Z.land b 128 =? 0).
  - destruct (_ || _); [discriminate|]. intro E; inversion E; subst. exists [b]. reflexivity.
  - destruct d as [|b2 d]; [discriminate|]. cbn [read_u8].
    destruct (_ || _); [discriminate|]. intro E; inversion E; subst. exists [b; b2]. reflexivity.
Qed.

Lemma read_bytes_suffix n d x r : read_bytes n d = Some (x, r) -> exists c, d = c ++ r.
Proof. intro E. apply take_some in E as [-> _]. eauto. Qed.

Lemma read_u16_suffix d x r : read_u16 d = Some (x, r) -> exists c, d = c ++ r.
Proof.
  unfold read_u16, read_le. destruct (take 2 d) as [[a b]|] eqn:E; [|discriminate].
  intro F; inversion F; subst. apply take_some in E as [-> _]. eauto.
Qed.

Ltac suffix_step :=
  match goal with
  | H : read_bitlen _ = Some _ |- _ => apply read_bitlen_suffix in H as [? ->]
  | H : read_bytes _ _ = Some _ |- _ => apply read_bytes_suffix in H as [? ->]
  | H : read_u16 _ = Some _ |- _ => apply read_u16_suffix in H as [? ->]
  end.
Ltac suffix_done := repeat suffix_step; rewrite ?app_assoc; eexists; reflexivity.

Lemma read_nodes_suffix n : forall i m d ns r, read_nodes n i m d = Ok (Some (ns, r)) -> exists c, d = c ++ r.
Proof.
  induction n as [|n IH]; intros i m d ns r; cbn [read_nodes].
  - intro E; inversion E; subst. exists []. reflexivity.
  - destruct (has_bit m i) as [hb| | |]; cbn [obind]; try discriminate.
    destruct hb.
    + destruct (read_bitlen d) as [[[s bs] d1]|] eqn:E1; [|discriminate].
      destruct (read_bytes _ d1) as [[p d2]|] eqn:E2; [|discriminate].
      destruct (read_bytes 32 d2) as [[nd d3]|] eqn:E3; [|discriminate].
      destruct (read_nodes n (i + 1) m d3) as [[[x y]|]| | |] eqn:E4; cbn [obind]; try discriminate.
      intro E; inversion E; subst. apply IH in E4 as [c4 ->]. suffix_done.
    + destruct (read_bytes 32 d) as [[nd d3]|] eqn:E3; [|discriminate].
      destruct (read_nodes n (i + 1) m d3) as [[[x y]|]| | |] eqn:E4; cbn [obind]; try discriminate.
      intro E; inversion E; subst. apply IH in E4 as [c4 ->]. suffix_done.
Qed.

Lemma proof_read_suffix d p r : proof_read d = Ok (Some (p, r)) -> exists c, d = c ++ r.
Proof.
  unfold proof_read.
  destruct (read_u16 d) as [[field d1]|] eqn:E1; [|discriminate].
  destruct (_ <? _); [discriminate|].
  destruct (read_u16 d1) as [[count d2]|] eqn:E2; [|discriminate].
  destruct (_ <? _); [discriminate|].
  destruct (read_bytes _ d2) as [[m d3]|] eqn:E3; [|discriminate].
  destruct (read_nodes (Z.to_nat count) 0 m d3) as [[[ns d4]|]| | |] eqn:E4; cbn [obind]; try discriminate.
  apply read_nodes_suffix in E4 as [c4 ->]. unfold read_tail.
  destruct (_ =? HSK_PROOF_DEADEND). { intro E; inversion E; subst. suffix_done. }
  destruct (_ =? HSK_PROOF_SHORT).
  { destruct (read_bitlen d4) as [[[s bs] d5]|] eqn:E5; [|discriminate].
    destruct (read_bytes _ d5) as [[b d6]|] eqn:E6; [|discriminate].
    destruct (read_bytes 32 d6) as [[l d7]|] eqn:E7; [|discriminate].
    destruct (read_bytes 32 d7) as [[r4 d8]|] eqn:E8; [|discriminate].
    intro E; inversion E; subst. suffix_done. }
  destruct (_ =? HSK_PROOF_COLLISION).
  { destruct (read_bytes 32 d4) as [[l d7]|] eqn:E7; [|discriminate].
    destruct (read_bytes 32 d7) as [[r4 d8]|] eqn:E8; [|discriminate].
    intro E; inversion E; subst. suffix_done. }
  destruct (_ =? HSK_PROOF_EXISTS); [|discriminate].
  destruct (read_u16 d4) as [[vs d5]|] eqn:E5; [|discriminate].
  destruct (_ <? vs); [discriminate|].
  destruct (read_bytes _ d5) as [[v d6]|] eqn:E6; [|discriminate].
  intro E; inversion E; subst. suffix_done.
Qed.

(** ** A decidable form of [hash_good_on], used by the examples *)
Fixpoint no_collision (H : list Z -> list Z) (S : list (list Z)) : bool :=
  match S with
  | [] => true
  | x :: r => forallb (fun y => negb (beq (H x) (H y)) || beq x y) r && no_collision H r
  end.

Lemma no_collision_sound H S : no_collision H S = true ->
  forall x y, In x S -> In y S -> H x = H y -> x = y.
Proof.
  induction S as [|a S IH]; cbn; intros Hc x y Hx Hy E; [contradiction|].
  apply andb_true_iff in Hc as [Hc1 Hc2]. rewrite forallb_forall in Hc1.
  assert (F : forall z, In z S -> H a = H z -> a = z).
  { intros z Hz Ez. specialize (Hc1 z Hz). rewrite Ez, beq_refl in Hc1. cbn in Hc1. apply beq_true_iff. exact Hc1. }
  destruct Hx as [<-|Hx], Hy as [<-|Hy]; auto. symmetry. apply F; auto.
Qed.

Lemma hash_good_check H S : (forall x, hash32 (H x)) ->
  no_collision H S && forallb (fun x => negb (beq (H x) (repeat 0 32))) S = true -> hash_good_on H S.
Proof.
  intros HH Hc. apply andb_true_iff in Hc as [Hc1 Hc2]. split; [exact HH|]. split.
  - apply no_collision_sound. auto.
  - intros x Hx. rewrite forallb_forall in Hc2. specialize (Hc2 x Hx). apply negb_true_iff, beq_false_iff in Hc2. auto.
Qed.

(** ** Concrete data for the examples in ProofTheorems.v *)
Lemma bytes_ok_check (l : list Z) : forallb (fun b => (0 <=? b) && (b <? 256)) l = true -> bytes_ok l.
Proof.
  intro E. apply Forall_forall. intros b Hb. rewrite forallb_forall in E.
  specialize (E b Hb). unfold is_byte. lia.
Qed.

Definition ex_hash (x : list Z) : list Z :=
  be_bytes 3 (fold_left (fun a b => (a * 31 + b + 1) mod 16777213) x 7) ++ repeat 1 29.
Definition ex_k1 : list Z := repeat 0 32.
Definition ex_k2 : list Z := [16] ++ repeat 0 31.
Definition ex_k3 : list Z := [128] ++ repeat 7 31.
Definition ex_k4 : list Z := [64] ++ repeat 9 31.
Definition ex_v1 : list Z := [3; 97; 98; 99; 4; 0; 1; 2; 3; 4; 250; 251].
Definition ex_v2 : list Z := [1; 97; 2; 0; 9; 9].
Definition ex_v3 : list Z := [0; 0; 0].
Definition ex_tree : tree :=
  Node [] (Node [false; false] (Leaf ex_k1 ex_v1) (Leaf ex_k2 ex_v2)) (Leaf ex_k3 ex_v3).

Lemma ex_hash32 : forall x, hash32 (ex_hash x).
Proof.
  intro x. unfold ex_hash. split; [rewrite app_length, be_bytes_length; reflexivity|].
  apply bytes_ok_app. split; [apply be_bytes_ok|]. apply bytes_ok_check. reflexivity.
Qed.

Lemma ex_tree_wf : wf_tree ex_tree.
Proof.
  unfold wf_tree, ex_tree. cbn [wf_at app length].
  repeat match goal with |- _ /\ _ => split end;
  match goal with
  | |- exists _, _ => eexists; vm_compute; reflexivity
  | |- bytes_ok _ => apply bytes_ok_check; vm_compute; reflexivity
  | |- (_ <= _)%nat => lia
  | |- _ = _ => reflexivity
  end.
Qed.
