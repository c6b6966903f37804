(** Lemmas on SHA-3: the permutation, the buffer and the padding. *)
From Verif Require Import Common CommonFacts ProofFacts StreamFacts Sha256Facts Blake2bFacts Sha3Model Sha3Spec.
From Coq Require Import Lia.

(** ** The permutation *)
Lemma w64_is x : w64 x = x mod 2 ^ 64.
Proof. reflexivity. Qed.
Lemma rotl64_ok x n : word64 x -> 0 < n < 64 -> rotl64 x n = rotl 64 n x /\ word64 (rotl64 x n).
Proof.
  intros Hx Hn. unfold word64 in *. assert (P1 : 0 < 2 ^ n) by (apply Z.pow_pos_nonneg; lia). assert (P2 : 0 < 2 ^ (64 - n)) by (apply Z.pow_pos_nonneg; lia).
  assert (P3 : 2 ^ 64 = 2 ^ (64 - n) * 2 ^ n) by (rewrite <- Z.pow_add_r by lia; f_equal; lia).
  assert (A : 0 <= x / 2 ^ (64 - n) < 2 ^ n) by (split; [apply Z.div_pos; lia|apply Z.div_lt_upper_bound; lia]).
  assert (M : x * 2 ^ n mod 2 ^ 64 = x mod 2 ^ (64 - n) * 2 ^ n) by (rewrite P3, Z.mul_mod_distr_r by lia; reflexivity).
  assert (E : rotl64 x n = rotl 64 n x).
  { unfold rotl64, rotl, w64. rewrite Z.shiftr_div_pow2, Z.shiftl_mul_pow2 by lia. rewrite M. rewrite Z.lxor_comm, nocarry by lia. ring. }
  split; [exact E|]. rewrite E. unfold rotl. rewrite M. pose proof (Z.mod_pos_bound x (2 ^ (64 - n)) P2). nia.
Qed.
Definition state (A : list Z) : Prop := length A = 25%nat /\ Forall word64 A.
Lemma not64_ok x y : word64 x -> word64 y -> Z.land (not64 x) y = Z.land (Z.lnot x) y.
Proof.
  intros X Y. unfold not64. change (2 ^ 64 - 1) with (Z.ones 64). apply Z.bits_inj'. intros i Hi. rewrite !Z.land_spec, Z.lxor_spec, Z.lnot_spec by exact Hi. destruct (Z.lt_ge_cases i 64) as [L|L].
  - rewrite Z.ones_spec_low by lia. now rewrite xorb_true_r.
  - unfold word64 in Y. rewrite <- (Z.mod_small y (2 ^ 64) Y). rewrite Z.mod_pow2_bits_high by lia. now rewrite !andb_false_r.
Qed.
Lemma land_word x y : word64 y -> word64 (Z.land x y).
Proof.
  intros Y. unfold word64 in *. rewrite <- (Z.mod_small y (2 ^ 64) Y). rewrite <- Z.land_ones by lia. rewrite Z.land_assoc, Z.land_ones by lia. apply Z.mod_pos_bound. lia.
Qed.
Ltac open_state H := let L := fresh "L" in let W := fresh "W" in destruct H as [L W];
  match type of W with Forall _ ?A => do 25 (destruct A as [|? A]; [discriminate L|]); destruct A; [|discriminate L]; clear L end;
  repeat match goal with H : Forall word64 (_ :: _) |- _ => apply Forall_cons_iff in H; destruct H end.
Ltac words := repeat first [apply Forall_nil | apply Forall_cons | assumption
  | match goal with |- word64 (rotl64 _ _) => apply rotl64_ok; [|lia] | |- word64 (Z.lxor _ _) => apply lxor_word | |- word64 (Z.land _ _) => apply land_word end].
Lemma C5 a b c d e : Z.lxor (Z.lxor (Z.lxor (Z.lxor a b) c) d) e = Z.lxor a (Z.lxor b (Z.lxor c (Z.lxor d e))).
Proof. now rewrite !Z.lxor_assoc. Qed.
Lemma cons_eq (x y : Z) a b : x = y -> a = b -> x :: a = y :: b.
Proof. intros -> ->. reflexivity. Qed.
Lemma theta_ok A : state A -> theta A = Theta A /\ state (theta A).
Proof.
  intros H. open_state H.
  match goal with |- context [theta ?l] => let e := eval cbv -[Z.lxor rotl64] in (theta l) in change (theta l) with e; let e' := eval cbv -[Z.lxor rotl] in (Theta l) in change (Theta l) with e' end.
  split; [|split; [reflexivity|words]].
  repeat match goal with |- context [rotl64 ?x 1] => rewrite (proj1 (rotl64_ok x 1 ltac:(words) ltac:(lia))) end.
  rewrite !C5, !Z.lxor_0_r. do 25 (apply cons_eq; [rewrite (Z.lxor_comm (rotl _ _ _)); reflexivity|]). reflexivity.
Qed.
Lemma rho_ok A : state A -> rho A = Rho A /\ state (rho A).
Proof.
  intros H. open_state H.
  match goal with |- context [rho ?l] => let e := eval cbv -[rotl64] in (rho l) in change (rho l) with e; let e' := eval cbv -[rotl] in (Rho l) in change (Rho l) with e' end.
  split; [|split; [reflexivity|words]].
  repeat match goal with |- context [rotl64 ?x ?n] => rewrite (proj1 (rotl64_ok x n ltac:(words) ltac:(lia))) end.
  f_equal. unfold rotl. change (2 ^ 0) with 1. change (2 ^ (64 - 0)) with (2 ^ 64). match goal with |- ?x = _ => rewrite Z.mul_1_r, Z.mod_small, Z.div_small, Z.add_0_r by assumption; reflexivity end.
Qed.
Lemma pi_ok A : state A -> pi A = Pi A /\ state (pi A).
Proof.
  intros H. open_state H. match goal with |- context [pi ?l] => let e := eval cbv in (pi l) in change (pi l) with e; let e' := eval cbv in (Pi l) in change (Pi l) with e' end. split; [reflexivity|]. split; [reflexivity|words].
Qed.
Lemma chi_ok A : state A -> chi A = Chi A /\ state (chi A).
Proof.
  intros H. open_state H.
  match goal with |- context [chi ?l] => let e := eval cbv -[Z.lxor Z.land not64] in (chi l) in change (chi l) with e; let e' := eval cbv -[Z.lxor Z.land Z.lnot] in (Chi l) in change (Chi l) with e' end.
  split; [|split; [reflexivity|words]]. rewrite !not64_ok by assumption. reflexivity.
Qed.
Lemma iota_ok A i : state A -> (i < 24)%nat -> set_nth A 0 (Z.lxor (nth 0 A 0) (nth i round_constants 0)) = Iota i A /\ state (set_nth A 0 (Z.lxor (nth 0 A 0) (nth i round_constants 0))).
Proof.
  intros H Hi. assert (R : nth i round_constants 0 = RC i) by (do 24 (destruct i as [|i]; [vm_compute; reflexivity|]); lia). assert (W : word64 (nth i round_constants 0)) by (clear R; do 24 (destruct i as [|i]; [split; [discriminate|reflexivity]|]); lia).
  unfold Iota. rewrite R in *. revert W. generalize (RC i) as r. clear R. intros r W. open_state H. split; [reflexivity|]. split; [reflexivity|]. cbn [set_nth firstn skipn app nth]. words.
Qed.
Definition c_round (A : list Z) (i : nat) : list Z := let A := chi (pi (rho (theta A))) in set_nth A 0 (Z.lxor (nth 0 A 0) (nth i round_constants 0)).
Lemma permutation_rounds A : permutation A = fold_left c_round (seq 0 24) A.
Proof.
  assert (E : round_constants = map (fun i => nth i round_constants 0) (seq 0 24)) by reflexivity. unfold permutation. rewrite E. clear E. generalize (seq 0 24) as l. intros l. revert A. induction l as [|i l IH]; intros A; [reflexivity|]. cbn [map fold_left]. rewrite IH. reflexivity.
Qed.
Lemma round_ok A i : state A -> (i < 24)%nat -> c_round A i = Iota i (Chi (Pi (Rho (Theta A)))) /\ state (c_round A i).
Proof.
  intros S0 Hi. unfold c_round. destruct (theta_ok A S0) as [E1 S1]. rewrite E1 in *. destruct (rho_ok _ S1) as [E2 S2]. rewrite E2 in *. destruct (pi_ok _ S2) as [E3 S3]. rewrite E3 in *. destruct (chi_ok _ S3) as [E4 S4]. rewrite E4 in *. exact (iota_ok _ i S4 Hi).
Qed.
Lemma permutation_ok A : state A -> permutation A = keccak_f A /\ state (permutation A).
Proof.
  intros H. rewrite permutation_rounds. unfold keccak_f. apply (chain_gen state (fun i => (i < 24)%nat) c_round (fun A i => Iota i (Chi (Pi (Rho (Theta A)))))); [|apply Forall_forall; intros i Hi; apply in_seq in Hi; lia|exact H]. intros B i SB Hi. now apply round_ok.
Qed.
#[local] Opaque permutation keccak_f.

(** ** Bits and bytes *)
Lemma bits_app a b : bits (a ++ b) = bits a ++ bits b.
Proof. unfold bits. now rewrite map_app, concat_app. Qed.
Lemma bits_cons x a : bits (x :: a) = map (fun i => x / 2 ^ Z.of_nat i mod 2) (seq 0 8) ++ bits a.
Proof. reflexivity. Qed.
Lemma bits_length l : length (bits l) = (8 * length l)%nat.
Proof. induction l as [|x l IH]; [reflexivity|]. rewrite bits_cons, app_length, map_length, seq_length, IH. cbn [length]. lia. Qed.
Lemma bval_app a b : bval (a ++ b) = bval a + 2 ^ zlen a * bval b.
Proof.
  induction a as [|x a IH]; [cbn [app bval]; unfold zlen; cbn [length]; change (2 ^ Z.of_nat 0) with 1; ring|]. cbn [app bval]. rewrite IH, zlen_cons, Z.pow_add_r by (try apply zlen_nonneg; lia). change (2 ^ 1) with 2. ring.
Qed.
Lemma bval_byte x : is_byte x -> bval (map (fun i => x / 2 ^ Z.of_nat i mod 2) (seq 0 8)) = x.
Proof.
  intros H. pose proof (byte_all (fun x => bval (map (fun i => x / 2 ^ Z.of_nat i mod 2) (seq 0 8)) =? x)) as P. apply Z.eqb_eq. apply P; [vm_compute; reflexivity|exact H].
Qed.
Lemma bval_bits l : bytes_ok l -> bval (bits l) = le_val l.
Proof.
  induction l as [|x l IH]; [reflexivity|]. intros B. apply bytes_ok_cons in B as [Bx B]. rewrite bits_cons, bval_app, (bval_byte x Bx), (IH B). reflexivity.
Qed.
Lemma blocks_bits R l : (0 < R)%nat -> blocks (8 * R) (bits l) = map bits (blocks R l).
Proof.
  intros H. induction l as [l L|b l E IH] using (block_ind R H).
  - rewrite (blocks_short R l), (blocks_short (8 * R) (bits l)) by (rewrite ?bits_length; lia). reflexivity.
  - rewrite bits_app, (blocks_cons R H b l E), (blocks_cons (8 * R) ltac:(lia) (bits b) (bits l) ltac:(rewrite bits_length, E; reflexivity)), IH. reflexivity.
Qed.
Lemma lanes_bits b : bytes_ok b -> map bval (blocks 64 (bits b)) = map le_val (blocks 8 b).
Proof.
  intros B. change 64%nat with (8 * 8)%nat. rewrite (blocks_bits 8 b ltac:(lia)), map_map. apply map_ext_in. intros x I. apply bval_bits. exact (proj1 (Forall_forall _ _) (blocks_ok 8 ltac:(lia) b B) x I).
Qed.

(** ** A block *)
Definition rate_ok (R : nat) : Prop := (R = 72 \/ R = 104 \/ R = 136 \/ R = 144)%nat.
Lemma set_fold (g : nat -> Z -> Z) h n : (n <= length h)%nat -> fold_left (fun h i => set_nth h i (g i (nth i h 0))) (seq 0 n) h = map (fun i => g i (nth i h 0)) (seq 0 n) ++ skipn n h.
Proof.
  induction n as [|n IH]; intros H; [reflexivity|]. rewrite seq_S, fold_left_app, IH by lia. cbn [fold_left Nat.add]. set (a := map _ (seq 0 n)). assert (La : length a = n) by (unfold a; now rewrite map_length, seq_length).
  assert (En : nth n (a ++ skipn n h) 0 = nth n h 0). { rewrite app_nth2 by lia. rewrite La, Nat.sub_diag. rewrite <- (firstn_skipn n h) at 2. rewrite app_nth2 by (rewrite firstn_length_le; lia). rewrite firstn_length_le by lia. now rewrite Nat.sub_diag. }
  rewrite En. unfold set_nth. rewrite firstn_app, La, Nat.sub_diag, firstn_O, app_nil_r, firstn_all2 by lia. rewrite skipn_app, La. replace (S n - n)%nat with 1%nat by lia. rewrite skipn_all2 by lia. cbn [app]. rewrite skipn_skipn'. replace (n + 1)%nat with (S n) by lia.
  rewrite map_app. cbn [map]. rewrite <- app_assoc. reflexivity.
Qed.
Lemma nth_skip (l : list Z) n i d : nth i (skipn n l) d = nth (n + i) l d.
Proof. revert l. induction n as [|n IH]; intros l; [reflexivity|]. destruct l; [destruct i; reflexivity|]. cbn. apply IH. Qed.
Lemma process_ok h blk R : rate_ok R -> state h -> (R <= length blk)%nat -> bytes_ok blk ->
  process h blk (Z.of_nat R) = absorb h (bits (firstn R blk)) /\ state (process h blk (Z.of_nat R)).
Proof.
  intros HR S L B. unfold process, absorb. set (b := firstn R blk). assert (Lb : length b = R) by (apply firstn_length_le; lia). assert (Bb : bytes_ok b) by now apply bytes_ok_firstn. rewrite (lanes_bits b Bb).
  set (n := if 72 <? Z.of_nat R then _ else 9%nat). assert (Hn : (R = 8 * n)%nat /\ (n <= 25)%nat) by (unfold n; destruct HR as [->|[->|[->| ->]]]; (split; [reflexivity|apply Nat.leb_le; reflexivity])). clearbody n. destruct Hn as [Hn Hn2].
  set (p := map le_val (blocks 8 b)). destruct S as [Lh Wh].
  assert (Lp : length p = n) by (unfold p, blocks; rewrite !map_length, seq_length, Lb, Hn; symmetry; apply Nat.div_unique with (r := 0%nat); lia).
  assert (Ep : forall i, (i < n)%nat -> le_val (firstn 8 (skipn (8 * i) blk)) = nth i p 0).
  { intros i Hi. unfold p, blocks. rewrite map_map. rewrite (nth_indep _ 0 (le_val (block 8 b 0))) by (rewrite map_length, seq_length; lia || (unfold p, blocks in Lp; rewrite !map_length, seq_length in Lp; lia)).
    rewrite (map_nth (fun i => le_val (block 8 b i))). rewrite seq_nth by (unfold p, blocks in Lp; rewrite !map_length, seq_length in Lp; lia). cbn [Nat.add]. f_equal. unfold block, b. rewrite (Nat.mul_comm i 8). rewrite skipn_firstn_comm, firstn_firstn. f_equal. lia. }
  assert (E : fold_left (fun h i => set_nth h i (Z.lxor (nth i h 0) (le_val (firstn 8 (skipn (8 * i) blk))))) (seq 0 n) h = map (fun i => Z.lxor (nth i h 0) (nth i p 0)) (seq 0 25)).
  { rewrite (set_fold (fun i x => Z.lxor x (le_val (firstn 8 (skipn (8 * i) blk)))) h n) by lia. replace 25%nat with (n + (25 - n))%nat by lia. rewrite seq_app, map_app. f_equal.
    - apply map_ext_in. intros i Hi. apply in_seq in Hi. rewrite Ep by lia. reflexivity.
    - cbn [Nat.add]. apply nth_ext with (d := 0) (d' := Z.lxor (nth 0 h 0) (nth 0 p 0)); [rewrite skipn_length, map_length, seq_length; lia|]. rewrite skipn_length. intros i Hi. rewrite (map_nth (fun i => Z.lxor (nth i h 0) (nth i p 0))), seq_nth by lia. rewrite nth_skip. rewrite (nth_overflow p) by lia. now rewrite Z.lxor_0_r. }
  rewrite E. apply permutation_ok. split; [now rewrite map_length, seq_length|]. apply Forall_forall. intros x I. apply in_map_iff in I as (i & <- & Hi). apply in_seq in Hi. apply lxor_word; [apply (proj1 (Forall_forall _ _) Wh), nth_In; lia|].
  destruct (Nat.lt_ge_cases i n) as [Hl|Hl]; [|rewrite nth_overflow by lia; split; [discriminate|reflexivity]]. rewrite <- Ep by exact Hl. assert (B8 : bytes_ok (firstn 8 (skipn (8 * i) blk))) by now apply bytes_ok_firstn, bytes_ok_skipn. pose proof (le_val_bound _ B8) as V. assert (L8 : (length (firstn 8 (skipn (8 * i) blk)) <= 8)%nat) by apply firstn_le_length.
  split; [lia|]. apply Z.lt_le_trans with (256 ^ Z.of_nat (length (firstn 8 (skipn (8 * i) blk)))); [lia|]. change (2 ^ 64) with (256 ^ 8). apply Z.pow_le_mono_r; lia.
Qed.
#[local] Opaque process absorb.

(** ** The stream of input *)
Lemma put_length buf i d : (i + length d <= length buf)%nat -> length (put buf i d) = length buf.
Proof. exact (Sha256Facts.overwrite_length buf i d). Qed.
Lemma put_ok buf i d : bytes_ok buf -> bytes_ok d -> bytes_ok (put buf i d).
Proof. exact (Sha256Facts.overwrite_ok buf i d). Qed.
Lemma put_prefix buf i d : (i + length d <= length buf)%nat -> firstn (i + length d) (put buf i d) = firstn i buf ++ d.
Proof. exact (Sha256Facts.overwrite_prefix buf i d). Qed.
Lemma rate_pos R : rate_ok R -> (0 < R)%nat /\ (R <= 144)%nat /\ (72 <= R)%nat.
Proof. unfold rate_ok. lia. Qed.
Definition absorbs (l : list (list Z)) (h : list Z) : list Z := fold_left (fun h b => absorb h (bits b)) l h.
Lemma absorbs_cons b l h : absorbs (b :: l) h = absorbs l (absorb h (bits b)).
Proof. reflexivity. Qed.
Lemma absorbs_app a b h : absorbs (a ++ b) h = absorbs b (absorbs a h).
Proof. unfold absorbs. apply fold_left_app. Qed.
Definition holds (msg r : list Z) : Prop := length msg = 192%nat /\ bytes_ok msg /\ firstn (length r) msg = r.
Lemma k3_loop_S k al bs h msg m : k3_loop (S k) al bs h msg m = if bs <=? zlen m then k3_loop k al bs (process h (firstn (Z.to_nat bs) m) bs) (if al then msg else put msg 0 (firstn (Z.to_nat bs) m)) (skipn (Z.to_nat bs) m) else (h, put msg 0 m).
Proof. reflexivity. Qed.
Lemma put_0 msg m : length msg = 192%nat -> bytes_ok msg -> bytes_ok m -> (length m <= 192)%nat -> holds (put msg 0 m) m.
Proof. intros L Bm B E. split; [rewrite put_length; lia|]. split; [now apply put_ok|]. change (length m) with (0 + length m)%nat. rewrite put_prefix by lia. reflexivity. Qed.
Lemma loop_ok R al m fuel : rate_ok R -> (length m <= fuel)%nat -> bytes_ok m -> forall h msg, state h -> length msg = 192%nat -> bytes_ok msg ->
  exists msg', k3_loop fuel al (Z.of_nat R) h msg m = (absorbs (blocks R m) h, msg') /\ holds msg' (rest R m) /\ state (absorbs (blocks R m) h).
Proof.
  intros HR. destruct (rate_pos R HR) as (Hp & Hm & _). revert m. induction fuel as [|k IH]; intros m Hf B h msg S L Bm.
  - destruct m; [|cbn in Hf; lia]. exists (put msg 0 []). rewrite blocks_short, rest_short by (cbn [length]; lia). split; [reflexivity|]. split; [apply put_0; auto; cbn [length]; lia|exact S].
  - rewrite k3_loop_S, Nat2Z.id. destruct (Z.of_nat R <=? zlen m) eqn:E; unfold zlen in E.
    + assert (LR : length (firstn R m) = R) by (apply firstn_length_le; lia).
      assert (H1 : length (if al then msg else put msg 0 (firstn R m)) = 192%nat) by (destruct al; [exact L|rewrite put_length; lia]).
      assert (H2 : bytes_ok (if al then msg else put msg 0 (firstn R m))) by (destruct al; [exact Bm|]; apply put_ok; [exact Bm|now apply bytes_ok_firstn]).
      assert (Hf2 : (length (skipn R m) <= k)%nat) by (rewrite skipn_length; lia).
      destruct (process_ok h (firstn R m) R HR S ltac:(lia) (bytes_ok_firstn R m B)) as [Ep Sp]. rewrite (firstn_all2 (firstn R m)) in Ep by lia.
      destruct (IH (skipn R m) Hf2 (bytes_ok_skipn R m B) _ _ Sp H1 H2) as (msg' & Q & Hh & Hs). clear H1 H2.
      assert (Eb : blocks R m = firstn R m :: blocks R (skipn R m)) by (rewrite <- (firstn_skipn R m) at 1; apply blocks_cons; [lia|exact LR]).
      assert (Er : rest R m = rest R (skipn R m)) by (rewrite <- (firstn_skipn R m) at 1; apply rest_cons; [lia|exact LR]).
      exists msg'. rewrite Eb, Er, absorbs_cons, <- Ep. split; [exact Q|]. split; [exact Hh|exact Hs].
    + exists (put msg 0 m). rewrite blocks_short, rest_short by lia. split; [reflexivity|]. split; [apply put_0; auto; lia|exact S].
Qed.

Definition rep (R : nat) (c : k3) (data : list Z) : Prop :=
  k_hash c = absorbs (blocks R data) (repeat 0 25) /\ state (k_hash c) /\ k_rest c = Z.of_nat (length (rest R data)) /\ k_bs c = Z.of_nat R /\ holds (k_msg c) (rest R data).
Lemma state_0 : state (repeat 0 25).
Proof. split; [reflexivity|]. apply Forall_forall. intros x I. apply repeat_spec in I. subst. split; [discriminate|reflexivity]. Qed.
Lemma not_final n : Z.of_nat n < 2 ^ 31 -> Z.land (Z.of_nat n) finalized =? 0 = true.
Proof.
  intros H. apply Z.eqb_eq. apply Z.bits_inj'. intros i Hi. rewrite Z.land_spec, Z.bits_0. unfold finalized. change 0x80000000 with (2 ^ 31). rewrite Z.pow2_bits_eqb by lia. destruct (Z.eqb_spec 31 i) as [<-|]; [|apply andb_false_r]. rewrite andb_true_r. destruct n; [apply Z.bits_0|]. apply Z.bits_above_log2; [lia|]. apply Z.log2_lt_pow2; lia.
Qed.
Lemma rep_update R c al m data : rate_ok R -> rep R c data -> bytes_ok data -> bytes_ok m -> rep R (update c al m) (data ++ m).
Proof.
  intros HR (Hh & Hs & Hk & Hb & Lm & Bm & Hm) Bd B. destruct (rate_pos R HR) as (Hp & Hmx & _). pose proof (rest_lt R Hp data) as Rl. unfold update. rewrite Hk, Hb. rewrite not_final by (change (2 ^ 31) with 2147483648; lia). cbn [negb].
  set (r := rest R data) in *.
  assert (El : (Z.of_nat (length r) + zlen m) mod Z.of_nat R = Z.of_nat (length (rest R (data ++ m)))).
  { rewrite rest_app by lia. fold r. rewrite rest_length by lia. rewrite app_length. unfold zlen. rewrite Nat2Z.inj_mod. f_equal. lia. }
  assert (Eb : blocks R (data ++ m) = blocks R data ++ blocks R (r ++ m)) by (apply blocks_app; lia). assert (Er : rest R (data ++ m) = rest R (r ++ m)) by (apply rest_app; lia).
  unfold rep. rewrite Eb, absorbs_app, <- Hh.
  destruct (Z.of_nat (length r) =? 0) eqn:E0; cbn [negb].
  - assert (Rn : r = []) by (apply length_zero_iff_nil; lia). destruct (loop_ok R al m (length m) HR ltac:(lia) B (k_hash c) (k_msg c) Hs Lm Bm) as (msg' & Q & H & H'). rewrite Q. cbn [k_hash k_rest k_msg k_bs]. rewrite El, Er, Rn. cbn [app]. split; [reflexivity|]. split; [exact H'|]. split; [reflexivity|]. split; [reflexivity|exact H].
  - destruct (zlen m <? Z.of_nat R - Z.of_nat (length r)) eqn:E1; unfold zlen in E1.
    + cbn [k_hash k_rest k_msg k_bs]. rewrite Nat2Z.id, El, Er. rewrite blocks_short, rest_short by (rewrite ?app_length; lia). split; [reflexivity|]. split; [exact Hs|]. split; [reflexivity|]. split; [reflexivity|]. split; [rewrite put_length; lia|]. split; [now apply put_ok|]. rewrite app_length, put_prefix by lia. now rewrite Hm.
    + rewrite Nat2Z.id. replace (Z.to_nat (Z.of_nat R - Z.of_nat (length r))) with (R - length r)%nat by lia. set (q := (R - length r)%nat). assert (Lq : length (firstn q m) = q) by (apply firstn_length_le; lia).
      set (mm := put (k_msg c) (length r) (firstn q m)). assert (Em : firstn R mm = r ++ firstn q m). { unfold mm. replace R with (length r + length (firstn q m))%nat at 1 by lia. rewrite put_prefix by lia. now rewrite Hm. }
      assert (Lmm : length mm = 192%nat) by (unfold mm; rewrite put_length; lia). assert (Bmm : bytes_ok mm) by (unfold mm; apply put_ok; [exact Bm|now apply bytes_ok_firstn]).
      destruct (process_ok (k_hash c) mm R HR Hs ltac:(lia) Bmm) as [Ep Sp]. rewrite Em in Ep.
      destruct (loop_ok R al (skipn q m) (length (skipn q m)) HR ltac:(lia) (bytes_ok_skipn q m B) _ mm Sp Lmm Bmm) as (msg' & Q & H & H').
      assert (Lb : length (r ++ firstn q m) = R) by (rewrite app_length; lia).
      assert (E2 : r ++ m = (r ++ firstn q m) ++ skipn q m) by (rewrite <- app_assoc, firstn_skipn; reflexivity).
      assert (Eb2 : blocks R (r ++ m) = (r ++ firstn q m) :: blocks R (skipn q m)) by (rewrite E2; apply blocks_cons; lia).
      assert (Er2 : rest R (r ++ m) = rest R (skipn q m)) by (rewrite E2; apply rest_cons; lia).
      rewrite Q. cbn [k_hash k_rest k_msg k_bs]. rewrite El, Er, Er2, Eb2, absorbs_cons, <- Ep. split; [reflexivity|]. split; [exact H'|]. split; [reflexivity|]. split; [reflexivity|exact H].
Qed.

(** ** The padding *)
Definition suffix (d : Z) : list Z := if d =? 6 then [0; 1] else if d =? 4 then [0; 0] else [].
Definition dom (d : Z) : Prop := d = 6 \/ d = 1 \/ d = 4.
Definition tail (d : Z) (k : nat) : list Z := match k with S (S k) => d :: repeat 0 k ++ [128] | _ => [Z.lor d 128] end.
Lemma tail_length d k : (0 < k)%nat -> length (tail d k) = k.
Proof. destruct k as [|[|k]]; intros H; [lia|reflexivity|]. cbn [tail length]. rewrite app_length, repeat_length. cbn [length]. lia. Qed.
Lemma bits_zeros k : bits (repeat 0 k) = repeat 0 (8 * k).
Proof. induction k as [|k IH]; [reflexivity|]. cbn [repeat]. rewrite bits_cons, IH. replace (8 * S k)%nat with (8 + 8 * k)%nat by lia. rewrite repeat_app. reflexivity. Qed.
Lemma bits_tail d k : dom d -> (0 < k)%nat -> bits (tail d k) = suffix d ++ [1] ++ repeat 0 (8 * k - 2 - length (suffix d)) ++ [1].
Proof.
  intros D H. destruct k as [|[|k]]; [lia|destruct D as [->|[->| ->]]; reflexivity|]. cbn [tail]. rewrite bits_cons, bits_app, bits_zeros. set (z := (8 * k)%nat).
  assert (E : bits [128] = repeat 0 7 ++ [1]) by reflexivity. rewrite E.
  assert (F : forall s, (s <= 2)%nat -> repeat 0 (8 * S (S k) - 2 - s) = repeat 0 (7 - s) ++ repeat 0 z ++ repeat 0 7) by (intros s Hs; rewrite <- !repeat_app; f_equal; unfold z; lia).
  clearbody z. rewrite (F (length (suffix d))) by (apply Nat.leb_le; destruct D as [->|[->| ->]]; reflexivity). rewrite <- !app_assoc. destruct D as [->|[->| ->]]; reflexivity.
Qed.
Lemma pad_ok R data d : (0 < R)%nat -> dom d -> pad101 (8 * R) (bits data ++ suffix d) = bits (data ++ tail d (R - length (rest R data))).
Proof.
  intros H D. pose proof (rest_lt R H data) as Rl. unfold pad101. rewrite bits_app, bits_tail by (exact D || lia). rewrite <- !app_assoc. do 4 f_equal. f_equal.
  unfold zlen. rewrite app_length, bits_length. rewrite rest_length in * by lia. set (s := length (suffix d)). assert (Hs : (s <= 2)%nat) by (unfold s; apply Nat.leb_le; destruct D as [->|[->| ->]]; reflexivity).
  pose proof (Nat.div_mod (length data) R ltac:(lia)) as Q. set (q := (length data / R)%nat) in *. set (e := (length data mod R)%nat) in *. clearbody s q e. 
  apply Nat2Z.inj. rewrite Z2Nat.id by (apply Z.mod_pos_bound; lia). symmetry. apply Z.mod_unique_pos with (q := - Z.of_nat q - 1); nia.
Qed.
Lemma put_app (a r d : list Z) : put (a ++ r) (length a) d = a ++ d ++ skipn (length d) r.
Proof. unfold put. rewrite firstn_app, Nat.sub_diag, firstn_O, app_nil_r, firstn_all2 by lia. do 2 f_equal. rewrite skipn_app, skipn_all2 by lia. cbn [app]. f_equal. lia. Qed.
Lemma set_app (a : list Z) x y r : set_nth (a ++ x :: r) (length a) y = a ++ y :: r.
Proof. unfold set_nth. rewrite firstn_app, Nat.sub_diag, firstn_O, app_nil_r, firstn_all2 by lia. do 2 f_equal. rewrite skipn_app, skipn_all2 by lia. replace (S (length a) - length a)%nat with 1%nat by lia. reflexivity. Qed.
Lemma or_app (a : list Z) x b r i : i = zlen a -> or_at (a ++ x :: r) i b = a ++ Z.lor x b :: r.
Proof. intros ->. unfold or_at, zlen. rewrite Nat2Z.id, set_app. do 2 f_equal. rewrite app_nth2, Nat.sub_diag by lia. reflexivity. Qed.
Lemma msg_ok R msg r d : (R <= 192)%nat -> holds msg r -> (length r < R)%nat -> dom d ->
  firstn R (or_at (or_at (put msg (length r) (repeat 0 (R - length r))) (Z.of_nat (length r)) d) (Z.of_nat R - 1) 0x80) = r ++ tail d (R - length r).
Proof.
  intros H (L & Bm & Hm) Hr D. rewrite <- (firstn_skipn (length r) msg), Hm, put_app, repeat_length. set (w := skipn (R - length r) _). clearbody w. set (k := (R - length r)%nat). assert (Hk : R = (length r + k)%nat) by lia. assert (Hk' : (0 < k)%nat) by lia. clearbody k.
  assert (E : or_at (or_at (r ++ repeat 0 k ++ w) (Z.of_nat (length r)) d) (Z.of_nat R - 1) 128 = r ++ tail d k ++ w).
  { destruct k as [|k]; [lia|]. cbn [repeat app]. rewrite or_app by reflexivity. rewrite Z.lor_0_l. destruct k as [|k].
    - cbn [repeat app tail]. rewrite or_app by (unfold zlen; lia). reflexivity.
    - assert (E : r ++ d :: repeat 0 (S k) ++ w = (r ++ d :: repeat 0 k) ++ 0 :: w). { rewrite <- app_assoc. cbn [app]. do 2 f_equal. replace (S k) with (k + 1)%nat by lia. rewrite repeat_app, <- app_assoc. reflexivity. }
      rewrite E, or_app by (unfold zlen; rewrite app_length; cbn [length]; rewrite repeat_length; lia). cbn [tail]. rewrite <- !app_assoc. cbn [app]. rewrite <- ?app_assoc. reflexivity. }
  rewrite E, app_assoc, firstn_app, firstn_all2 by (rewrite app_length, tail_length; lia). rewrite app_length, tail_length by lia. replace (R - (length r + k))%nat with 0%nat by lia. rewrite firstn_O, app_nil_r. reflexivity.
Qed.
Lemma or_at_ok l i b : bytes_ok l -> is_byte b -> bytes_ok (or_at l i b).
Proof.
  intros B H. unfold or_at, set_nth. apply bytes_ok_app. split; [now apply bytes_ok_firstn|]. apply bytes_ok_cons. split; [|now apply bytes_ok_skipn].
  set (x := nth (Z.to_nat i) l 0). assert (Hx : is_byte x). { unfold x. destruct (Nat.lt_ge_cases (Z.to_nat i) (length l)) as [Hl|Hl]; [apply (proj1 (Forall_forall _ _) B), nth_In, Hl|rewrite nth_overflow by exact Hl; split; [discriminate|reflexivity]]. }
  clearbody x. destruct Hx as [X1 X2], H as [H1 H2]. split; [now apply Z.lor_nonneg|]. destruct (Z.eq_dec (Z.lor x b) 0) as [->|N]; [reflexivity|]. pose proof (proj2 (Z.lor_nonneg x b) (conj X1 H1)). change 256 with (2 ^ 8). apply Z.log2_lt_pow2; [lia|]. rewrite Z.log2_lor by lia. apply Z.max_lub_lt; (destruct (Z.eq_dec x 0) as [->|]; destruct (Z.eq_dec b 0) as [->|]; try reflexivity; apply Z.log2_lt_pow2; lia).
Qed.
Lemma or_at_length l i b : (Z.to_nat i < length l)%nat -> length (or_at l i b) = length l.
Proof. intros H. unfold or_at, set_nth. rewrite app_length. cbn [length]. rewrite firstn_length_le, skipn_length by lia. lia. Qed.

Lemma final_ok R c data d : rate_ok R -> rep R c data -> bytes_ok data -> dom d ->
  exists c', final_with d c = Ok (c', sponge (8 * R) (bits data ++ suffix d) (800 - 4 * R)) /\ k_rest c' = finalized /\
  (forall al m, update c' al m = c') /\ final_with d c' = Ok (c', sponge (8 * R) (bits data ++ suffix d) (800 - 4 * R)).
Proof.
  intros HR (Hh & Hs & Hk & Hb & Hm) Bd D. destruct (rate_pos R HR) as (Hp & Hmx & _). pose proof (rest_lt R Hp data) as Rl. set (r := rest R data) in *.
  pose proof Hm as (Lm & Bm & _). pose proof (msg_ok R (k_msg c) r d ltac:(lia) Hm Rl D) as Em.
  set (msg := or_at _ (Z.of_nat R - 1) 128) in Em. assert (Lmsg : length msg = 192%nat) by (unfold msg; rewrite !or_at_length; rewrite ?or_at_length; rewrite ?put_length; rewrite ?repeat_length; lia).
  assert (Bmsg : bytes_ok msg). { unfold msg. apply or_at_ok; [apply or_at_ok; [apply put_ok; [exact Bm|apply bytes_ok_repeat]|]|split; [discriminate|reflexivity]]. destruct D as [->|[->| ->]]; (split; [discriminate|reflexivity]). }
  destruct (process_ok (k_hash c) msg R HR Hs ltac:(lia) Bmsg) as [Ep Sp]. rewrite Em in Ep.
  set (c' := {| k_hash := process (k_hash c) msg (Z.of_nat R); k_msg := msg; k_rest := finalized; k_bs := Z.of_nat R |}).
  assert (Es : sponge (8 * R) (bits data ++ suffix d) (800 - 4 * R) = firstn (Z.to_nat (100 - Z.of_nat R / 2)) (concat (map (le_bytes 8) (k_hash c')))).
  { unfold sponge. rewrite (pad_ok R data d Hp D). fold r. rewrite (blocks_bits R _ Hp). f_equal.
    - unfold rate_ok in HR. destruct HR as [->|[->|[->| ->]]]; reflexivity.
    - do 2 f_equal. unfold c'. cbn [k_hash]. rewrite Ep, Hh. rewrite blocks_app by exact Hp. fold r. rewrite map_app, fold_left_app.
      assert (F : forall l h, fold_left absorb (map bits l) h = absorbs l h) by (induction l as [|b l IH]; intros h; [reflexivity|]; cbn [map]; rewrite absorbs_cons, <- IH; reflexivity).
      rewrite !F. assert (Lt : length (r ++ tail d (R - length r)) = R) by (rewrite app_length, tail_length; lia). rewrite <- (app_nil_r (r ++ _)). rewrite (blocks_cons R Hp _ [] Lt), blocks_short by (cbn [length]; lia). rewrite app_nil_r. reflexivity. }
  assert (En : 100 - Z.of_nat R / 2 <? Z.of_nat R = true) by (unfold rate_ok in HR; destruct HR as [->|[->|[->| ->]]]; reflexivity).
  exists c'. split; [|split; [reflexivity|split]].
  - unfold final_with. rewrite Hk, Hb. rewrite not_final by (change (2 ^ 31) with 2147483648; lia). rewrite Nat2Z.id. replace (Z.to_nat (Z.of_nat R - Z.of_nat (length r))) with (R - length r)%nat by lia. fold msg. fold c'. rewrite En, Es. reflexivity.
  - intros al m. reflexivity.
  - unfold final_with. cbn [k_rest k_bs c']. change (Z.land finalized finalized =? 0) with false. cbv iota. fold c'. rewrite En, Es. reflexivity.
Qed.
