(** Lemmas on BLAKE2b: the compression function and the buffer. *)
From Verif Require Import Common CommonFacts ProofFacts StreamFacts Sha256Spec Sha256Facts Blake2bModel Blake2bSpec.
From Coq Require Import Lia.

(** ** Words *)
Definition word64 (x : Z) : Prop := 0 <= x < 2 ^ 64.
Lemma w64_word x : word64 (w64 x).
Proof. apply Z.mod_pos_bound. reflexivity. Qed.
Lemma sum64_word l : word64 (sum64 l).
Proof. apply Z.mod_pos_bound. reflexivity. Qed.
Lemma lxor_bound n a b : 0 <= n -> 0 <= a < 2 ^ n -> 0 <= b < 2 ^ n -> 0 <= Z.lxor a b < 2 ^ n.
Proof.
  intros Hn A B. split; [apply Z.lxor_nonneg; lia|]. rewrite <- (Z.mod_small a (2 ^ n) A), <- (Z.mod_small b (2 ^ n) B). rewrite <- !Z.land_ones by exact Hn.
  replace (Z.lxor (Z.land a (Z.ones n)) (Z.land b (Z.ones n))) with (Z.land (Z.lxor a b) (Z.ones n)); [rewrite Z.land_ones by exact Hn; apply Z.mod_pos_bound, Z.pow_pos_nonneg; lia|].
  apply Z.bits_inj'. intros i _. rewrite ?Z.land_spec, ?Z.lxor_spec, ?Z.land_spec. destruct (Z.testbit a i), (Z.testbit b i), (Z.testbit (Z.ones n) i); reflexivity.
Qed.
Lemma lxor_word a b : word64 a -> word64 b -> word64 (Z.lxor a b).
Proof. apply (lxor_bound 64). lia. Qed.
Lemma rotr64_ok x n : word64 x -> 0 < n < 64 -> rotr64 x n = rotr 64 n x /\ word64 (rotr64 x n).
Proof.
  intros Hx Hn. unfold word64 in *. assert (P1 : 0 < 2 ^ n) by (apply Z.pow_pos_nonneg; lia). assert (P2 : 0 < 2 ^ (64 - n)) by (apply Z.pow_pos_nonneg; lia).
  assert (P3 : 2 ^ 64 = 2 ^ n * 2 ^ (64 - n)) by (rewrite <- Z.pow_add_r by lia; f_equal; lia).
  assert (A : 0 <= x / 2 ^ n < 2 ^ (64 - n)) by (split; [apply Z.div_pos; lia|apply Z.div_lt_upper_bound; lia]).
  assert (E : rotr64 x n = rotr 64 n x).
  { unfold rotr64, rotr, w64. rewrite Z.shiftr_div_pow2, Z.shiftl_mul_pow2 by lia.
    replace (x * 2 ^ (64 - n) mod 2 ^ 64) with (x mod 2 ^ n * 2 ^ (64 - n)) by (rewrite P3, Z.mul_mod_distr_r by lia; reflexivity).
    rewrite <- Z.lxor_lor; [apply nocarry; lia|]. apply Z.bits_inj'. intros i Hi. rewrite Z.land_spec, Z.bits_0. rewrite <- Z.shiftl_mul_pow2 by lia. rewrite Z.shiftl_spec by exact Hi.
    destruct (Z.lt_ge_cases i (64 - n)) as [L|L]; [rewrite (Z.testbit_neg_r (x mod 2 ^ n)) by lia; apply andb_false_r|]. rewrite <- (Z.mod_small (x / 2 ^ n) (2 ^ (64 - n)) A). rewrite Z.mod_pow2_bits_high by lia. reflexivity. }
  split; [exact E|]. rewrite E. unfold rotr. pose proof (Z.mod_pos_bound x (2 ^ n) P1). nia.
Qed.

(** ** The mixing function *)
Definition words4 (q : Z * Z * Z * Z) : Prop := let '(a, b, c, d) := q in word64 a /\ word64 b /\ word64 c /\ word64 d.
Lemma w64_sum2 a b : w64 (a + b) = sum64 [a; b].
Proof. unfold w64, sum64. cbn [fold_right]. f_equal. ring. Qed.
Lemma w64_sum3 a b c : w64 (a + b + c) = sum64 [a; b; c].
Proof. unfold w64, sum64. cbn [fold_right]. f_equal. ring. Qed.
Lemma G_ok x y a b c d : word64 a -> word64 b -> word64 c -> word64 d -> G x y a b c d = mix x y (a, b, c, d) /\ words4 (mix x y (a, b, c, d)).
Proof.
  intros A B C D. unfold G, mix. rewrite !w64_sum3, !w64_sum2.
  set (a1 := sum64 [a; b; x]). assert (A1 : word64 a1) by apply sum64_word. destruct (rotr64_ok (Z.lxor d a1) 32) as [E1 D1]; [now apply lxor_word|lia|]. rewrite E1 in *. set (d1 := rotr 64 32 (Z.lxor d a1)) in *. clearbody a1 d1.
  set (c1 := sum64 [c; d1]). assert (C1 : word64 c1) by apply sum64_word. destruct (rotr64_ok (Z.lxor b c1) 24) as [E2 B1]; [now apply lxor_word|lia|]. rewrite E2 in *. set (b1 := rotr 64 24 (Z.lxor b c1)) in *. clearbody c1 b1.
  set (a2 := sum64 [a1; b1; y]). assert (A2 : word64 a2) by apply sum64_word. destruct (rotr64_ok (Z.lxor d1 a2) 16) as [E3 D2]; [now apply lxor_word|lia|]. rewrite E3 in *. set (d2 := rotr 64 16 (Z.lxor d1 a2)) in *. clearbody a2 d2.
  set (c2 := sum64 [c1; d2]). assert (C2 : word64 c2) by apply sum64_word. destruct (rotr64_ok (Z.lxor b1 c2) 63) as [E4 B2]; [now apply lxor_word|lia|]. rewrite E4 in *. split; [reflexivity|]. repeat split; (apply A2 || apply B2 || apply C2 || apply D2).
Qed.
Lemma sigma_ok r : (r < 12)%nat -> nth r sigma [] = nth (Nat.modulo r 10) SIGMA [].
Proof. intros H. do 12 (destruct r as [|r]; [reflexivity|]). lia. Qed.
Definition good_v (v : list Z) : Prop := length v = 16%nat /\ Forall word64 v.
#[local] Opaque mix G.
Lemma columns16 f v0 v1 v2 v3 v4 v5 v6 v7 v8 v9 v10 v11 v12 v13 v14 v15 : columns f [v0; v1; v2; v3; v4; v5; v6; v7; v8; v9; v10; v11; v12; v13; v14; v15] =
  let '(v0, v4, v8, v12) := f 0%nat (v0, v4, v8, v12) in let '(v1, v5, v9, v13) := f 1%nat (v1, v5, v9, v13) in let '(v2, v6, v10, v14) := f 2%nat (v2, v6, v10, v14) in let '(v3, v7, v11, v15) := f 3%nat (v3, v7, v11, v15) in
  [v0; v1; v2; v3; v4; v5; v6; v7; v8; v9; v10; v11; v12; v13; v14; v15].
Proof.
  unfold columns. cbn [map seq nth Nat.add]. destruct (f 0%nat _) as [[[? ?] ?] ?], (f 1%nat _) as [[[? ?] ?] ?], (f 2%nat _) as [[[? ?] ?] ?], (f 3%nat _) as [[[? ?] ?] ?]. reflexivity.
Qed.
Lemma ROUND_ok m v r : (r < 12)%nat -> good_v v -> ROUND m v r = mix_round m v r /\ good_v (ROUND m v r).
Proof.
  intros Hr [L W]. do 16 (destruct v as [|? v]; [discriminate|]). destruct v; [|discriminate]. clear L.
  repeat match goal with H : Forall word64 (_ :: _) |- _ => apply Forall_cons_iff in H; destruct H end.
  unfold ROUND, mix_round. rewrite (sigma_ok r Hr). set (s := fun j => nth (nth j (nth (Nat.modulo r 10) SIGMA []) 0%nat) m 0).
  change (nth (nth ?j (nth (Nat.modulo r 10) SIGMA []) 0%nat) m 0) with (s j). cbv zeta. rewrite columns16. cbn [Nat.mul Nat.add].
  do 4 (match goal with |- context [G ?x ?y ?a ?b ?c ?d] => destruct (G_ok x y a b c d) as [Eq ?]; [assumption..|]; rewrite Eq; clear Eq; destruct (mix x y (a, b, c, d)) as [[[? ?] ?] ?]; match goal with H : words4 _ |- _ => destruct H as (? & ? & ? & ?) end end; cbv beta iota).
  match goal with |- context [rotate_rows (fun i => i) ?v] => let e := eval vm_compute in (rotate_rows (fun i => i) v) in change (rotate_rows (fun i => i) v) with e end. rewrite columns16. cbn [Nat.mul Nat.add].
  do 4 (match goal with |- context [G ?x ?y ?a ?b ?c ?d] => destruct (G_ok x y a b c d) as [Eq ?]; [assumption..|]; rewrite Eq; clear Eq; destruct (mix x y (a, b, c, d)) as [[[? ?] ?] ?]; match goal with H : words4 _ |- _ => destruct H as (? & ? & ? & ?) end end; cbv beta iota).
  split; [reflexivity|]. split; [reflexivity|]. repeat (apply Forall_cons; [assumption|]). apply Forall_nil.
Qed.
Lemma iv_ok : iv = IV.
Proof. vm_compute. reflexivity. Qed.
Lemma iv_words : Forall word64 iv.
Proof. unfold iv. repeat (apply Forall_cons; [split; [discriminate|reflexivity]|]). apply Forall_nil. Qed.

(** ** The compression function *)
Definition counts (t0 t1 t : Z) : Prop := t0 = t mod 2 ^ 64 /\ t1 = t / 2 ^ 64 mod 2 ^ 64.
Lemma increment_ok t0 t1 t inc : counts t0 t1 t -> 0 <= inc < 2 ^ 64 -> counts (fst (increment t0 t1 inc)) (snd (increment t0 t1 inc)) (t + inc).
Proof.
  intros [E0 E1] H. unfold increment, counts, w64. cbn [fst snd]. split; [subst t0; apply Zplus_mod_idemp_l|].
  pose proof (Z.div_mod t (2 ^ 64) ltac:(lia)) as D. pose proof (Z.mod_pos_bound t (2 ^ 64) ltac:(lia)) as M. rewrite <- E0 in D, M. set (q := t / 2 ^ 64) in *.
  assert (C : (t0 + inc) mod 2 ^ 64 = (if t0 + inc <? 2 ^ 64 then t0 + inc else t0 + inc - 2 ^ 64)).
  { destruct (t0 + inc <? 2 ^ 64) eqn:E; [apply Z.mod_small; lia|]. symmetry. apply Z.mod_unique with (q := 1); lia. }
  rewrite C. assert (Q : (t + inc) / 2 ^ 64 = q + (if t0 + inc <? 2 ^ 64 then 0 else 1)).
  { symmetry. apply Z.div_unique with (r := if t0 + inc <? 2 ^ 64 then t0 + inc else t0 + inc - 2 ^ 64); destruct (t0 + inc <? 2 ^ 64) eqn:E; lia. }
  rewrite Q, E1. destruct (t0 + inc <? 2 ^ 64) eqn:E.
  - replace (t0 + inc <? inc) with false by lia. rewrite !Z.add_0_r. apply Z.mod_mod. lia.
  - replace (t0 + inc - 2 ^ 64 <? inc) with true by lia. apply Zplus_mod_idemp_l.
Qed.
Definition good_h (h : list Z) : Prop := length h = 8%nat /\ Forall word64 h.
Definition good_blk (b : list Z) : Prop := length b = 128%nat /\ bytes_ok b.
Lemma rounds_ok m l : Forall (fun r => (r < 12)%nat) l -> forall v, good_v v -> fold_left (ROUND m) l v = fold_left (mix_round m) l v /\ good_v (fold_left (ROUND m) l v).
Proof. intros F. apply (chain_gen good_v (fun r => (r < 12)%nat) (ROUND m) (mix_round m)); [|exact F]. intros v r V R. now apply ROUND_ok. Qed.
Lemma load_blocks b : length b = 128%nat -> map (fun i => load64 (skipn (8 * i) b)) (seq 0 16) = map le_val (blocks 8 b).
Proof. intros L. unfold blocks. rewrite L. change (128 / 8)%nat with 16%nat. rewrite map_map. apply map_ext. intros i. unfold load64, block. now rewrite Nat.mul_comm. Qed.
Lemma compress_ok h t0 t1 t (last : bool) b : good_h h -> good_blk b -> counts t0 t1 t ->
  compress h t0 t1 (if last then 2 ^ 64 - 1 else 0) b = F h b t last /\ good_h (F h b t last).
Proof.
  intros [Lh Wh] [Lb _] [E0 E1]. unfold compress, F. rewrite (load_blocks b Lb). set (m := map le_val (blocks 8 b)).
  change [0; 1; 2; 3; 4; 5; 6; 7; 8; 9; 10; 11]%nat with (seq 0 12). rewrite <- iv_ok, <- E0, <- E1.
  assert (Ev : [nth 0 iv 0; nth 1 iv 0; nth 2 iv 0; nth 3 iv 0; Z.lxor (nth 4 iv 0) t0; Z.lxor (nth 5 iv 0) t1; Z.lxor (nth 6 iv 0) (if last then 2 ^ 64 - 1 else 0); Z.lxor (nth 7 iv 0) 0] =
    map (fun '(a, b) => Z.lxor a b) (combine iv [0; 0; 0; 0; t0; t1; if last then 2 ^ 64 - 1 else 0; 0])).
  { unfold iv. cbn [nth combine map]. rewrite !Z.lxor_0_r. reflexivity. }
  cbv zeta. rewrite Ev. set (v := h ++ _). assert (V : good_v v).
  { unfold v. rewrite <- Ev. split; [rewrite app_length, Lh; reflexivity|]. apply Forall_app. split; [exact Wh|]. assert (T0 : word64 t0) by (subst t0; apply Z.mod_pos_bound; lia). assert (T1 : word64 t1) by (subst t1; apply Z.mod_pos_bound; lia).
    pose proof iv_words as W. repeat apply Forall_cons; try apply Forall_nil; try (apply lxor_word); try (apply (proj1 (Forall_forall _ _) W), nth_In; cbn; lia); [exact T0|exact T1|destruct last; split; lia|split; lia]. }
  destruct (rounds_ok m (seq 0 12)) with (v := v) as [E Gv]; [apply Forall_forall; intros r Hr; apply in_seq in Hr; lia|exact V|]. rewrite <- E. clearbody v. set (v' := fold_left (ROUND m) (seq 0 12) v) in *. clearbody v'.
  split; [apply map_ext; intros i; unfold xor3; now rewrite (Nat.add_comm i 8)|]. split; [now rewrite map_length, seq_length|]. apply Forall_forall. intros x I. apply in_map_iff in I as (i & <- & Hi). apply in_seq in Hi. destruct Gv as [Lv Wv].
  unfold xor3. apply lxor_word; [apply lxor_word; [apply (proj1 (Forall_forall _ _) Wh)|apply (proj1 (Forall_forall _ _) Wv)]|apply (proj1 (Forall_forall _ _) Wv)]; apply nth_In; lia.
Qed.
#[local] Opaque compress F.

(** ** The buffer *)
Lemma put_length buf i d : 0 <= i -> i + zlen d <= zlen buf -> length (put buf i d) = length buf.
Proof. unfold zlen. intros P H. unfold put. rewrite !app_length, firstn_length_le, skipn_length by lia. lia. Qed.
Lemma put_prefix buf i d : 0 <= i -> i + zlen d <= zlen buf -> firstn (Z.to_nat i + length d) (put buf i d) = firstn (Z.to_nat i) buf ++ d.
Proof.
  unfold zlen. intros P H. unfold put. rewrite app_assoc. rewrite firstn_app. replace (Z.to_nat i + length d - length (firstn (Z.to_nat i) buf ++ d))%nat with 0%nat by (rewrite app_length, firstn_length_le; lia). rewrite firstn_O, app_nil_r. apply firstn_all2. rewrite app_length, firstn_length_le; lia.
Qed.
Lemma put_full buf i d : 0 <= i -> i + zlen d = zlen buf -> put buf i d = firstn (Z.to_nat i) buf ++ d.
Proof. unfold zlen. intros P H. unfold put. rewrite skipn_all2 by lia. now rewrite app_nil_r. Qed.
(** Blocks one after the other, counted from [t] *)
Fixpoint run (h : list Z) (t : Z) (bs : list (list Z)) : list Z := match bs with [] => h | b :: bs => run (F h b (t + 128) false) (t + 128) bs end.
Lemma run_app a : forall h t b, run h t (a ++ b) = run (run h t a) (t + 128 * zlen a) b.
Proof. induction a as [|x a IH]; intros h t b; cbn [run app]; [unfold zlen; cbn; now rewrite Z.add_0_r|]. rewrite IH. f_equal. unfold zlen. cbn [length]. lia. Qed.
Lemma run_good bs : Forall good_blk bs -> forall h t, good_h h -> good_h (run h t bs).
Proof.
  induction 1 as [|b bs B _ IH]; intros h t G; [exact G|]. cbn [run]. apply IH. destruct (compress_ok h ((t + 128) mod 2 ^ 64) ((t + 128) / 2 ^ 64 mod 2 ^ 64) (t + 128) false b G B (conj eq_refl eq_refl)) as [_ G']. exact G'.
Qed.
Lemma lblocks_good m : bytes_ok m -> Forall good_blk (lblocks 128 m).
Proof. intros B. apply Forall_forall. intros b Hb. split; [now apply (lblocks_length 128 ltac:(lia) m)|]. exact (proj1 (Forall_forall _ _) (lblocks_ok 128 ltac:(lia) m B) b Hb). Qed.
Lemma blk_loop_S k h t0 t1 f0 m : blk_loop (S k) h t0 t1 f0 m =
  if 128 <? zlen m then blk_loop k (compress h (fst (increment t0 t1 128)) (snd (increment t0 t1 128)) f0 (firstn 128 m)) (fst (increment t0 t1 128)) (snd (increment t0 t1 128)) f0 (skipn 128 m) else (h, t0, t1, m).
Proof. cbn [blk_loop]. destruct (128 <? zlen m); [|reflexivity]. destruct (increment t0 t1 128). reflexivity. Qed.
Lemma blk_loop_ok fuel : forall m h t0 t1 t, (length m <= fuel)%nat -> bytes_ok m -> good_h h -> counts t0 t1 t ->
  exists t0' t1', blk_loop fuel h t0 t1 0 m = (run h t (lblocks 128 m), t0', t1', lrest 128 m) /\ counts t0' t1' (t + 128 * zlen (lblocks 128 m)).
Proof.
  induction fuel as [|k IH]; intros m h t0 t1 t Hf B G C.
  - destruct m; [|cbn in Hf; lia]. exists t0, t1. rewrite lblocks_short, lrest_short by (cbn; lia). unfold zlen. cbn [length run blk_loop]. rewrite Z.mul_0_r, Z.add_0_r. split; [reflexivity|exact C].
  - rewrite blk_loop_S. destruct (128 <? zlen m) eqn:E; unfold zlen in E.
    + pose proof (increment_ok t0 t1 t 128 C ltac:(lia)) as C'. destruct (increment t0 t1 128) as [u0 u1]. cbn [fst snd] in *.
      assert (L : length (firstn 128 m) = 128%nat) by (apply firstn_length_le; lia). assert (N : skipn 128 m <> []) by (intros Q; apply (f_equal (@length Z)) in Q; rewrite skipn_length in Q; cbn [length] in Q; lia).
      destruct (compress_ok h u0 u1 (t + 128) false (firstn 128 m) G (conj L (bytes_ok_firstn 128 m B)) C') as [Ec Gc]. rewrite Ec.
      assert (Hf2 : (length (skipn 128 m) <= k)%nat) by (rewrite skipn_length; lia).
      destruct (IH (skipn 128 m) _ u0 u1 (t + 128) Hf2 (bytes_ok_skipn 128 m B) Gc C') as (v0 & v1 & Q & Cv). exists v0, v1.
      assert (Eb : lblocks 128 m = firstn 128 m :: lblocks 128 (skipn 128 m)) by (rewrite <- (firstn_skipn 128 m) at 1; apply lblocks_cons; [lia|exact L|exact N]).
      assert (Er : lrest 128 m = lrest 128 (skipn 128 m)) by (rewrite <- (firstn_skipn 128 m) at 1; apply lrest_cons; [lia|exact L|exact N]).
      rewrite Eb, Er. cbn [run]. split; [exact Q|]. replace (t + 128 * zlen (firstn 128 m :: lblocks 128 (skipn 128 m))) with (t + 128 + 128 * zlen (lblocks 128 (skipn 128 m))) by (unfold zlen; cbn [length]; lia). exact Cv.
    + exists t0, t1. rewrite lblocks_short, lrest_short by lia. unfold zlen. cbn [length run]. rewrite Z.mul_0_r, Z.add_0_r. split; [reflexivity|exact C].
Qed.
(** The context, begun with [h0], after the bytes [data] *)
Definition brep (c : ctx) (h0 : list Z) (outlen : Z) (data : list Z) : Prop :=
  x_h c = run h0 0 (lblocks 128 data) /\ counts (x_t0 c) (x_t1 c) (128 * zlen (lblocks 128 data)) /\ x_f0 c = 0 /\ x_outlen c = outlen /\
  x_buflen c = zlen (lrest 128 data) /\ length (x_buf c) = 128%nat /\ firstn (length (lrest 128 data)) (x_buf c) = lrest 128 data.
Lemma brep_update c h0 n data m : good_h h0 -> brep c h0 n data -> bytes_ok data -> bytes_ok m -> brep (update c m) h0 n (data ++ m).
Proof.
  intros G (Hh & Ht & Hf & Ho & Hl & Lb & Hb) Bd B. unfold update. destruct (0 <? zlen m) eqn:Em; unfold zlen in Em.
  2:{ destruct m; [|cbn [length] in Em; lia]. rewrite app_nil_r. repeat split; try assumption; apply Ht. }
  assert (N : m <> []) by (destruct m; [discriminate|discriminate]). pose proof (lrest_le 128 ltac:(lia) data) as Rl. rewrite Hl.
  assert (Eb : lblocks 128 (data ++ m) = lblocks 128 data ++ lblocks 128 (lrest 128 data ++ m)) by (apply lblocks_app; [lia|exact N]). assert (Er : lrest 128 (data ++ m) = lrest 128 (lrest 128 data ++ m)) by (apply lrest_app; [lia|exact N]).
  pose proof (lrest_ok 128 data Bd) as Br. set (r := lrest 128 data) in *. unfold brep. rewrite Eb, Er. clear Eb Er.
  destruct (128 - zlen r <? zlen m) eqn:E; unfold zlen in E.
  - replace (Z.to_nat (128 - zlen r)) with (128 - length r)%nat by (unfold zlen; lia). set (q := (128 - length r)%nat). assert (Lq : length (firstn q m) = q) by (apply firstn_length_le; lia).
    assert (Eo : put (x_buf c) (zlen r) (firstn q m) = r ++ firstn q m) by (rewrite put_full by (unfold zlen; lia); unfold zlen; rewrite Nat2Z.id; now rewrite Hb). rewrite Eo.
    assert (Lb1 : length (r ++ firstn q m) = 128%nat) by (rewrite app_length; lia). assert (Bb1 : bytes_ok (r ++ firstn q m)) by (apply bytes_ok_app; split; [exact Br|now apply bytes_ok_firstn]).
    assert (N2 : skipn q m <> []) by (intros Q; apply (f_equal (@length Z)) in Q; rewrite skipn_length in Q; cbn [length] in Q; lia).
    assert (Es : r ++ m = (r ++ firstn q m) ++ skipn q m) by (now rewrite <- app_assoc, firstn_skipn). rewrite Es. rewrite (lblocks_cons 128 ltac:(lia) _ _ Lb1 N2), (lrest_cons 128 ltac:(lia) _ _ Lb1 N2). set (b := r ++ firstn q m) in *.
    pose proof (increment_ok _ _ _ 128 Ht ltac:(lia)) as C'. destruct (increment (x_t0 c) (x_t1 c) 128) as [u0 u1]. cbn [fst snd] in C'. rewrite Hf.
    assert (Gh : good_h (x_h c)) by (rewrite Hh; apply run_good; [apply lblocks_good, Bd|exact G]).
    destruct (compress_ok (x_h c) u0 u1 _ false b Gh (conj Lb1 Bb1) C') as [Ec Gc]. rewrite Ec.
    destruct (blk_loop_ok (length (skipn q m)) (skipn q m) _ u0 u1 _ ltac:(lia) (bytes_ok_skipn q m B) Gc C') as (v0 & v1 & Q & Cv). rewrite Q. cbn [x_h x_t0 x_t1 x_f0 x_buf x_buflen x_outlen].
    pose proof (lrest_le 128 ltac:(lia) (skipn q m)) as Rl2. set (r2 := lrest 128 (skipn q m)) in *. split; [rewrite Hh, run_app; cbn [run]; rewrite Z.add_0_l; reflexivity|].
    split; [replace (128 * zlen (lblocks 128 data ++ b :: lblocks 128 (skipn q m))) with (128 * zlen (lblocks 128 data) + 128 + 128 * zlen (lblocks 128 (skipn q m))) by (unfold zlen; rewrite app_length; cbn [length]; lia); exact Cv|].
    split; [reflexivity|]. split; [exact Ho|]. split; [reflexivity|]. split; [rewrite put_length; unfold zlen; lia|]. change (length r2) with (Z.to_nat 0 + length r2)%nat. rewrite put_prefix by (unfold zlen; lia). reflexivity.
  - rewrite (lblocks_short 128 ltac:(lia) (r ++ m)), (lrest_short 128 ltac:(lia) (r ++ m)) by (rewrite app_length; lia). rewrite app_nil_r. cbn [x_h x_t0 x_t1 x_f0 x_buf x_buflen x_outlen]. split; [exact Hh|]. split; [exact Ht|]. split; [exact Hf|]. split; [exact Ho|]. split; [now rewrite zlen_app|]. split; [rewrite put_length; unfold zlen; lia|].
    rewrite app_length. rewrite <- (Nat2Z.id (length r)) at 1. change (Z.of_nat (length r)) with (zlen r). rewrite put_prefix by (unfold zlen; lia). unfold zlen. rewrite Nat2Z.id. now rewrite Hb.
Qed.
Lemma brep_final c h0 n data : good_h h0 -> brep c h0 n data -> bytes_ok data -> forall outlen, n <= outlen ->
  exists c', final c outlen = Ok (c', firstn (Z.to_nat n) (concat (map (le_bytes 8) (F (run h0 0 (lblocks 128 data)) (lrest 128 data ++ repeat 0 (128 - length (lrest 128 data))) (zlen data) true)))) /\ x_f0 c' <> 0.
Proof.
  intros G (Hh & Ht & Hf & Ho & Hl & Lb & Hb) Bd outlen Ho2. pose proof (lrest_le 128 ltac:(lia) data) as Rl. pose proof (lrest_ok 128 data Bd) as Br. pose proof (lblocks_total 128 ltac:(lia) data) as Tt. unfold final. rewrite Ho, Hf, Hl. replace (outlen <? n) with false by lia. rewrite Z.eqb_refl. cbn [negb].
  set (r := lrest 128 data) in *. pose proof (increment_ok _ _ _ (zlen r) Ht ltac:(unfold zlen; lia)) as C'. destruct (increment (x_t0 c) (x_t1 c) (zlen r)) as [u0 u1]. cbn [fst snd] in C'.
  replace (Z.to_nat (128 - zlen r)) with (128 - length r)%nat by (unfold zlen; lia). set (z := repeat 0 (128 - length r)). assert (Lz : length z = (128 - length r)%nat) by apply repeat_length.
  assert (Eo : put (x_buf c) (zlen r) z = r ++ z) by (rewrite put_full by (unfold zlen; lia); unfold zlen; rewrite Nat2Z.id; now rewrite Hb). rewrite Eo, Hh.
  replace (128 * zlen (lblocks 128 data) + zlen r) with (zlen data) in C' by (unfold zlen; lia).
  assert (Gh : good_h (run h0 0 (lblocks 128 data))) by (apply run_good; [apply lblocks_good, Bd|exact G]). assert (Gb : good_blk (r ++ z)) by (split; [rewrite app_length; lia|apply bytes_ok_app; split; [exact Br|apply bytes_ok_repeat]]).
  destruct (compress_ok _ u0 u1 _ true _ Gh Gb C') as [Ec _]. rewrite Ec. eexists. split; [reflexivity|]. cbn. discriminate.
Qed.
