(** Remainder, bitwise operations and text of 512-bit numbers. *)
From Verif Require Import Common CommonFacts BnModel BnSpec BnFacts BnTextModel.

(* ---------- specification ---------- *)
(** A C string ends before its first 0. *)
Fixpoint c_string (l : list Z) : list Z := match l with [] => [] | c :: l => if c =? 0 then [] else c :: c_string l end.
(** The value of a hexadecimal digit, and of digits, the first the most significant *)
Definition hex_val (c : Z) : option Z :=
  if (48 <=? c) && (c <=? 57) then Some (c - 48) else if (97 <=? c) && (c <=? 102) then Some (c - 87) else None.
Fixpoint reads_as (v : Z) (s : list Z) : option Z :=
  match s with [] => Some v | c :: s => match hex_val c with Some d => reads_as (16 * v + d) s | None => None end end.

(* ---------- bitwise operations ---------- *)
Lemma val_bits x l n : limb_ok x -> 0 <= n -> Z.testbit (bn_val (x :: l)) n = if n <? 32 then Z.testbit x n else Z.testbit (bn_val l) (n - 32).
Proof.
  intros X N. unfold limb_ok in X. rewrite bn_val_cons, Z.add_comm, Z.mul_comm, <- (lor_mul_add _ 32 x) by lia.
  rewrite Z.lor_spec, <- Z.shiftl_mul_pow2, Z.shiftl_spec by lia. destruct (Z.ltb_spec n 32).
  - rewrite (Z.testbit_neg_r (bn_val l)) by lia. reflexivity.
  - assert (E : Z.testbit x n = false).
    { destruct (Z.eq_dec x 0) as [->|]; [apply Z.bits_0|]. apply Z.bits_above_log2; [lia|]. apply Z.log2_lt_pow2; [lia|].
      apply Z.lt_le_trans with (2 ^ 32); [apply X|]. apply Z.pow_le_mono_r; lia. }
    rewrite E. apply Bool.orb_false_r.
Qed.
Lemma small_bits x : 0 <= x -> (forall n, 32 <= n -> Z.testbit x n = false) -> limb_ok x.
Proof.
  intros P B. split; [exact P|]. destruct (Z.eq_dec x 0) as [->|N]; [reflexivity|]. apply Z.log2_lt_pow2; [lia|].
  destruct (Z_lt_ge_dec (Z.log2 x) 32) as [L|L]; [exact L|]. exfalso.
  pose proof (B (Z.log2 x) ltac:(lia)) as X. rewrite Z.bit_log2 in X by lia. discriminate X.
Qed.
Lemma limb_bit x n : limb_ok x -> 32 <= n -> Z.testbit x n = false.
Proof.
  intros X H. unfold limb_ok in X. destruct (Z.eq_dec x 0) as [->|]; [apply Z.bits_0|]. apply Z.bits_above_log2; [lia|]. apply Z.log2_lt_pow2; [lia|].
  apply Z.lt_le_trans with (2 ^ 32); [apply X|]. apply Z.pow_le_mono_r; lia.
Qed.
Lemma and_gen a : forall b, length a = length b -> Forall limb_ok a -> Forall limb_ok b ->
  length (bn_and a b) = length a /\ Forall limb_ok (bn_and a b) /\ bn_val (bn_and a b) = Z.land (bn_val a) (bn_val b).
Proof.
  induction a as [|x a IH]; intros [|y b] L Ha Hb; try discriminate; [cbn; auto|].
  inversion Ha as [|? ? Hx Ha']; inversion Hb as [|? ? Hy Hb']; subst. injection L as L. destruct (IH b L Ha' Hb') as (L1 & O1 & E).
  assert (X : limb_ok (Z.land x y)).
  { apply small_bits; [apply Z.land_nonneg; left; apply Hx|]. intros n N. rewrite Z.land_spec, (limb_bit x n Hx N). reflexivity. }
  cbn [bn_and length]. split; [lia|]. split; [constructor; auto|]. apply Z.bits_inj'. intros n N.
  rewrite Z.land_spec, !val_bits by auto. rewrite E, !Z.land_spec. destruct (n <? 32); reflexivity.
Qed.
Lemma xor_gen a : forall b, length a = length b -> Forall limb_ok a -> Forall limb_ok b ->
  length (bn_xor a b) = length a /\ Forall limb_ok (bn_xor a b) /\ bn_val (bn_xor a b) = Z.lxor (bn_val a) (bn_val b).
Proof.
  induction a as [|x a IH]; intros [|y b] L Ha Hb; try discriminate; [cbn; auto|].
  inversion Ha as [|? ? Hx Ha']; inversion Hb as [|? ? Hy Hb']; subst. injection L as L. destruct (IH b L Ha' Hb') as (L1 & O1 & E).
  assert (X : limb_ok (Z.lxor x y)).
  { apply small_bits; [apply Z.lxor_nonneg; split; intros; [apply Hy|apply Hx]|]. intros n N. rewrite Z.lxor_spec, (limb_bit x n Hx N), (limb_bit y n Hy N). reflexivity. }
  cbn [bn_xor length]. split; [lia|]. split; [constructor; auto|]. apply Z.bits_inj'. intros n N.
  rewrite Z.lxor_spec, !val_bits by auto. rewrite E, !Z.lxor_spec. destruct (n <? 32); reflexivity.
Qed.
Lemma neg_gen a : Forall limb_ok a -> Forall limb_ok (bn_neg a) /\ bn_val (bn_neg a) = basep (length a) - 1 - bn_val a.
Proof.
  induction a as [|x a IH]; intros Ha; [cbn; auto|]. inversion Ha as [|? ? Hx Ha']; subst. destruct (IH Ha') as (O1 & E).
  assert (X : Z.lnot x mod bn_base = 2 ^ 32 - 1 - x).
  { unfold limb_ok in Hx. unfold Z.lnot. symmetry. apply Z.mod_unique with (-1); [left|]; unfold bn_base in *; change (2 ^ 32) with 4294967296 in *; lia. }
  cbn [bn_neg map]. fold (bn_neg a). rewrite X. split.
  - constructor; auto. unfold limb_ok in *. lia.
  - cbn [length]. rewrite !bn_val_cons, E, basep_S. lia.
Qed.

(** C92. Remainder, and, exclusive or and complement of 512-bit numbers are exact; a remainder by zero never
    returns. *)
Theorem bn_more_arithmetic : forall a b, bn_ok a -> bn_ok b ->
  (bn_ok (bn_and a b) /\ bn_val (bn_and a b) = Z.land (bn_val a) (bn_val b)) /\
  (bn_ok (bn_xor a b) /\ bn_val (bn_xor a b) = Z.lxor (bn_val a) (bn_val b)) /\
  (bn_ok (bn_neg a) /\ bn_val (bn_neg a) = 2 ^ 512 - 1 - bn_val a) /\
  (bn_val b <> 0 -> exists r, bn_mod a b = Some r /\ bn_ok r /\ bn_val r = bn_val a mod bn_val b) /\
  (bn_val b = 0 -> bn_mod a b = None).
Proof.
  intros a b A B. pose proof A as [La Ha]. pose proof B as [Lb Hb].
  split; [|split; [|split; [|split]]].
  - destruct (and_gen a b ltac:(congruence) Ha Hb) as (L & O & E). split; [split; [congruence|exact O]|exact E].
  - destruct (xor_gen a b ltac:(congruence) Ha Hb) as (L & O & E). split; [split; [congruence|exact O]|exact E].
  - destruct (neg_gen a Ha) as [O E]. split; [split; [unfold bn_neg; rewrite map_length; exact La|exact O]|]. rewrite E, La, basep_16. reflexivity.
  - intros N. unfold bn_mod. destruct (div_spec a b A B N) as (q & -> & Q & V). destruct (mul_spec q b Q B) as [M1 M2].
    destruct (sub_spec a (bn_mul q b) A M1) as [S1 S2]. eexists. split; [reflexivity|]. split; [exact S1|]. rewrite S2, M2, V.
    pose proof (bn_bound a A) as Ba. pose proof (bn_bound b B) as Bb. set (u := bn_val a) in *. set (v := bn_val b) in *. set (K := 2 ^ 512) in *.
    assert (Y : 0 <= u / v * v <= u). { pose proof (Z.mul_div_le u v ltac:(lia)). split; [|lia]. apply Z.mul_nonneg_nonneg; [apply Z.div_pos; lia|lia]. }
    rewrite (Z.mod_small (u / v * v) K) by lia. rewrite (Z.mod_small _ K) by lia. rewrite (Z.mod_eq u v N). lia.
  - intros Z0. unfold bn_mod, bn_div. rewrite (div_zero 520 a b A B Z0). reflexivity.
Qed.

(* ---------- the text ---------- *)
Lemma hex_char_val d : 0 <= d < 16 -> hex_val (hex_char d) = Some d /\ hex_char d <> 0 /\ (hex_char d = 48 <-> d = 0).
Proof.
  intros H. unfold hex_char, hex_val. destruct (Z.ltb_spec d 10).
  - replace ((48 <=? 48 + d) && (48 + d <=? 57)) with true by lia. split; [f_equal; lia|lia].
  - replace ((48 <=? 87 + d) && (87 + d <=? 57)) with false by lia. replace ((97 <=? 87 + d) && (87 + d <=? 102)) with true by lia. split; [f_equal; lia|lia].
Qed.
Lemma reads_digit v d s : 0 <= d < 16 -> reads_as v (hex_char d :: s) = reads_as (16 * v + d) s.
Proof. intros H. cbn [reads_as]. destruct (hex_char_val d H) as [-> _]. reflexivity. Qed.
Lemma reads_hex8 v x s : limb_ok x -> reads_as v (hex8 x ++ s) = reads_as (v * 2 ^ 32 + x) s.
Proof.
  intros X. unfold limb_ok in X. change (2 ^ 32) with 4294967296 in *. unfold hex8. cbn [map app].
  rewrite !reads_digit by (apply Z.mod_pos_bound; lia). f_equal.
  change (16 ^ 7) with 268435456. change (16 ^ 6) with 16777216. change (16 ^ 5) with 1048576. change (16 ^ 4) with 65536.
  change (16 ^ 3) with 4096. change (16 ^ 2) with 256. change (16 ^ 1) with 16. change (16 ^ 0) with 1. lia.
Qed.
Lemma reads_limbs l : Forall limb_ok l -> forall v s, reads_as v (concat (map hex8 (rev l)) ++ s) = reads_as (v * basep (length l) + bn_val l) s.
Proof.
  induction l as [|x l IH]; intros F v s; [cbn [rev map concat app length]; rewrite basep_0, bn_val_nil; f_equal; lia|].
  inversion F as [|? ? X F']; subst. cbn [rev]. rewrite map_app, concat_app. cbn [map concat]. rewrite app_nil_r, <- app_assoc, (IH F'), (reads_hex8 _ x s X).
  cbn [length]. rewrite basep_S, bn_val_cons. f_equal. lia.
Qed.
Lemma hex8_chars x : Forall (fun c => c <> 0) (hex8 x).
Proof. unfold hex8. repeat (apply Forall_cons; [apply hex_char_val; apply Z.mod_pos_bound; lia|]). apply Forall_nil. Qed.
Lemma poke_at pre rest s : (length s <= length rest)%nat -> poke (pre ++ rest) (length pre) s = Ok (pre ++ s ++ skipn (length s) rest).
Proof.
  intros L. unfold poke. rewrite app_length. replace (Nat.leb (length pre + length s) (length pre + length rest)) with true by (symmetry; apply Nat.leb_le; lia).
  f_equal. f_equal; [|f_equal].
  - rewrite firstn_app, Nat.sub_diag, firstn_O, app_nil_r. apply firstn_all.
  - rewrite skipn_app. rewrite skipn_all2 by lia. replace (length pre + length s - length pre)%nat with (length s) by lia. reflexivity.
Qed.
Lemma text_exact ls : forall pre rest, (length pre + 8 * length ls = 128)%nat -> (8 * length ls + 1 <= length rest)%nat -> ls <> [] ->
  exists r, text_loop ls (length pre) (pre ++ rest) 128 = Ok (pre ++ concat (map hex8 ls) ++ 0 :: r) /\ (length r = length rest - (8 * length ls + 1))%nat.
Proof.
  induction ls as [|x ls IH]; intros pre rest L R N; [contradiction|]. cbn [length] in *. cbn [text_loop].
  replace (Nat.ltb (length pre + 1) 128) with true by (symmetry; apply Nat.ltb_lt; lia).
  rewrite poke_at by (rewrite app_length; change (length (hex8 x)) with 8%nat; cbn [length]; lia). cbn [obind].
  rewrite app_length. change (length (hex8 x) + length [0%Z])%nat with 9%nat. replace (pre ++ (hex8 x ++ [0]) ++ skipn 9 rest) with ((pre ++ hex8 x) ++ 0 :: skipn 9 rest) by (rewrite <- !app_assoc; reflexivity).
  destruct ls as [|y ls].
  - cbn [text_loop map concat length] in *. exists (skipn 9 rest). rewrite app_nil_r, <- app_assoc. split; [reflexivity|]. rewrite skipn_length. lia.
  - assert (Lp : length (pre ++ hex8 x) = (length pre + 8)%nat) by (rewrite app_length; reflexivity). rewrite <- Lp.
    destruct (IH (pre ++ hex8 x) (0 :: skipn 9 rest)) as (r & E & Lr).
    + rewrite Lp. lia.
    + cbn [length] in *. rewrite skipn_length. lia.
    + discriminate.
    + exists r. rewrite E. split.
      * cbn [map concat]. rewrite <- !app_assoc. reflexivity.
      * rewrite Lr. cbn [length]. rewrite skipn_length. cbn [length] in *. lia.
Qed.
Lemma zeros_split t r : Forall (fun c => c <> 0) t -> exists j t', t = repeat 48 j ++ t' /\ zeros_at (t ++ 0 :: r) = Ok j /\ hd 0 t' <> 48.
Proof.
  induction t as [|c t IH]; intros F.
  - exists 0%nat, []. split; [reflexivity|]. split; [reflexivity|]. discriminate.
  - inversion F as [|? ? C F']; subst. cbn [app zeros_at]. destruct (Z.eqb_spec c 48) as [->|N].
    + destruct (IH F') as (j & t' & E & Z1 & H). exists (S j), t'. rewrite Z1, E. split; [reflexivity|]. split; [reflexivity|exact H].
    + exists 0%nat, (c :: t). split; [reflexivity|]. split; [reflexivity|exact N].
Qed.
Lemma reads_zeros j t : reads_as 0 (repeat 48 j ++ t) = reads_as 0 t.
Proof. induction j as [|j IH]; [reflexivity|]. exact IH. Qed.
Lemma c_string_app t r : Forall (fun c => c <> 0) t -> c_string (t ++ 0 :: r) = t.
Proof. induction t as [|c t IH]; intros F; [reflexivity|]. inversion F; subst. cbn [app c_string]. destruct (Z.eqb_spec c 0); [contradiction|]. f_equal. auto. Qed.
Lemma concat_hex8_length l : length (concat (map hex8 l)) = (8 * length l)%nat.
Proof. induction l as [|x l IH]; [reflexivity|]. cbn [map concat]. rewrite app_length, IH. change (length (hex8 x)) with 8%nat. cbn [length]. lia. Qed.
Lemma concat_hex8_chars l : Forall (fun c => c <> 0) (concat (map hex8 l)).
Proof. induction l as [|x l IH]; [constructor|]. cbn [map concat]. apply Forall_app. split; [apply hex8_chars|exact IH]. Qed.

(** C92. With room for 129 bytes and the size 128 the text is the number in hexadecimal, without leading
    zeros; nothing behind the memory is written. *)
Theorem bn_text_partial : forall n buf, bn_ok n -> (129 <= length buf)%nat ->
  exists buf', bn_to_string n buf 128 = Ok buf' /\ length buf' = length buf /\
    reads_as 0 (c_string buf') = Some (bn_val n) /\ hd 0 (c_string buf') <> 48.
Proof.
  intros n buf [L F] B. unfold bn_to_string. change (Nat.eqb 128 0 || Nat.odd 128) with false. cbv iota.
  destruct (text_exact (rev n) [] buf) as (r & E & Lr).
  { rewrite rev_length, L. reflexivity. } { rewrite rev_length, L. lia. } { intros X. apply (f_equal (@length Z)) in X. rewrite rev_length, L in X. discriminate X. }
  rewrite rev_length, L in Lr. cbn [length app] in E. rewrite E. cbn [obind].
  set (t := concat (map hex8 (rev n))) in *. assert (Lt : length t = 128%nat) by (unfold t; rewrite concat_hex8_length, rev_length, L; reflexivity).
  assert (Ft : Forall (fun c => c <> 0) t) by apply concat_hex8_chars.
  destruct (zeros_split t r Ft) as (j & t' & Et & Zj & H). rewrite Zj. cbn [obind].
  assert (Lj : (j + length t' = 128)%nat) by (rewrite Et, app_length, repeat_length in Lt; exact Lt).
  rewrite app_length, Lt. cbn [length]. replace (Nat.ltb (128 + S (length r)) 128) with false by (symmetry; apply Nat.ltb_ge; lia). cbn [andb].
  replace (128 - j)%nat with (length t') by lia.
  assert (X : firstn (length t') (skipn j (t ++ 0 :: r)) = t').
  { rewrite Et, <- app_assoc, skipn_app, repeat_length, Nat.sub_diag. rewrite skipn_all2 by (rewrite repeat_length; lia).
    cbn [app]. change (skipn 0 (t' ++ 0 :: r)) with (t' ++ 0 :: r). rewrite firstn_app, Nat.sub_diag, firstn_O, app_nil_r. apply firstn_all. }
  rewrite X. set (rest := skipn (length t') (t ++ 0 :: r)).
  assert (Lrest : (length rest = length buf - length t')%nat) by (unfold rest; rewrite skipn_length, app_length, Lt; cbn [length]; lia).
  rewrite poke_at by (cbn [length]; lia). eexists. split; [reflexivity|].
  assert (Ft' : Forall (fun c => c <> 0) t') by (rewrite Et in Ft; apply Forall_app in Ft as [_ Ft]; exact Ft).
  split; [rewrite !app_length, skipn_length; cbn [length]; lia|].
  cbn [app]. rewrite (c_string_app t' _ Ft'). split; [|exact H].
  rewrite <- (reads_zeros j), <- Et. pose proof (reads_limbs n F 0 []) as Y. rewrite app_nil_r in Y. fold t in Y. rewrite Y. cbn [reads_as]. f_equal.
Qed.

(** C92, false: with the memory as large as the size that is given, the function writes behind it, for
    every number and every size up to 128. *)
Lemma overrun ls : forall i buf nbytes, length buf = nbytes -> Nat.even nbytes = true -> (exists k, i = 8 * k)%nat -> (i + 1 < nbytes)%nat -> (nbytes <= i + 8 * length ls)%nat ->
  text_loop ls i buf nbytes = Ub.
Proof.
  induction ls as [|x ls IH]; intros i buf nb Lb Ev [k K] I M; [cbn [length] in M; lia|]. cbn [text_loop length] in *.
  replace (Nat.ltb (i + 1) nb) with true by (symmetry; apply Nat.ltb_lt; exact I). unfold poke. rewrite app_length. change (length (hex8 x) + length [0%Z])%nat with 9%nat.
  destruct (Nat.leb (i + 9) (length buf)) eqn:G; [|reflexivity]. apply Nat.leb_le in G. cbn [obind]. apply Nat.even_spec in Ev as [q Q].
  apply IH; [|apply Nat.even_spec; exists q; exact Q|exists (S k); lia|lia|lia].
  rewrite !app_length, firstn_length, skipn_length. cbn [length]. rewrite ?app_length. change (length (hex8 x)) with 8%nat. cbn [length]. lia.
Qed.
Theorem bn_text_overruns : forall n buf, bn_ok n -> (0 < length buf <= 128)%nat -> Nat.even (length buf) = true -> bn_to_string n buf (length buf) = Ub.
Proof.
  intros n buf [L _] B Ev. unfold bn_to_string. rewrite <- Nat.negb_even, Ev. replace (Nat.eqb (length buf) 0) with false by (symmetry; apply Nat.eqb_neq; lia). cbn [negb orb].
  rewrite overrun; [reflexivity|reflexivity|exact Ev|exists 0%nat; reflexivity| |rewrite rev_length, L; lia].
  apply Nat.even_spec in Ev as [q Q]. lia.
Qed.
(** C92, false: 0 has the empty text, and a smaller size gives the upper digits only: the text of 2^32 in
    64 digits and that of 0 are the same. *)
Theorem bn_text_refuted : exists z b r r', bn_ok z /\ bn_ok b /\ bn_val z = 0 /\ bn_val b = 2 ^ 32 /\
  bn_to_string z (repeat 7 200) 128 = Ok r /\ c_string r = [] /\
  bn_to_string b (repeat 7 200) 64 = Ok r' /\ c_string r' = [].
Proof.
  exists bn_init, (bn_from_int (2 ^ 32)). eexists. eexists. split; [apply init_ok|]. split; [apply from_int_ok|]. split; [reflexivity|]. split; [reflexivity|].
  split; [vm_compute; reflexivity|]. split; [vm_compute; reflexivity|]. split; [vm_compute; reflexivity|]. vm_compute. reflexivity.
Qed.

(* ---------- reading ---------- *)
Lemma reads_app a : forall v b, reads_as v (a ++ b) = match reads_as v a with Some w => reads_as w b | None => None end.
Proof. induction a as [|c a IH]; intros v b; [reflexivity|]. cbn [app reads_as]. destruct (hex_val c); [apply IH|reflexivity]. Qed.
Lemma reads_shift b : forall v w, reads_as w b = Some v -> forall u, reads_as (u + w) b = Some (u * 16 ^ zlen b + v).
Proof.
  induction b as [|c b IH]; intros v w E u; cbn [reads_as] in *.
  - injection E as <-. f_equal. change (zlen []) with 0. change (16 ^ 0) with 1. lia.
  - destruct (hex_val c) as [d|]; [|discriminate E]. specialize (IH v (16 * w + d) E (16 * u)).
    replace (16 * (u + w) + d) with (16 * u + (16 * w + d)) by lia. rewrite IH. f_equal.
    replace (zlen (c :: b)) with (zlen b + 1) by (unfold zlen; cbn [length]; lia). rewrite Z.pow_add_r by (unfold zlen; lia). change (16 ^ 1) with 16. lia.
Qed.
Lemma reads_bound b : forall v w, 0 <= w -> reads_as w b = Some v -> 0 <= v < (w + 1) * 16 ^ zlen b.
Proof.
  induction b as [|c b IH]; intros v w W E; cbn [reads_as] in *.
  - injection E as <-. change (zlen []) with 0. change (16 ^ 0) with 1. lia.
  - destruct (hex_val c) as [d|] eqn:D; [|discriminate E]. assert (R : 0 <= d < 16).
    { unfold hex_val in D. destruct ((48 <=? c) && (c <=? 57)) eqn:X; [injection D as <-; lia|]. destruct ((97 <=? c) && (c <=? 102)) eqn:Y; [injection D as <-; lia|discriminate D]. }
    specialize (IH v (16 * w + d) ltac:(lia) E). split; [apply IH|].
    replace (zlen (c :: b)) with (1 + zlen b) by (unfold zlen; cbn [length]; lia). rewrite Z.pow_add_r by (unfold zlen; lia). change (16 ^ 1) with 16.
    assert (P : 0 < 16 ^ zlen b) by (apply Z.pow_pos_nonneg; unfold zlen; lia). nia.
Qed.
Lemma scan_reads b : forall v w r, reads_as w b = Some v -> scan (length b) w (b ++ r) = v.
Proof.
  induction b as [|c b IH]; intros v w r E; cbn [reads_as length scan app] in *; [congruence|].
  unfold hex_val in E. unfold scan_digit. destruct ((48 <=? c) && (c <=? 57)); [apply IH; exact E|].
  destruct ((97 <=? c) && (c <=? 102)); [apply IH; exact E|discriminate E].
Qed.
Lemma limbs_read k : forall p s v, length s = (8 * k)%nat -> reads_as 0 (p ++ s) = Some v ->
  let l := map (fun j => scan 8 0 (skipn (length (p ++ s) - 8 * (j + 1)) (p ++ s))) (seq 0 k) in
  Forall limb_ok l /\ bn_val l = v mod basep k.
Proof.
  induction k as [|k IH]; intros p s v L E.
  - cbn [seq map]. split; [constructor|]. rewrite basep_0, Z.mod_1_r. reflexivity.
  - set (a := firstn (8 * k) s). set (b := skipn (8 * k) s). assert (La : length a = (8 * k)%nat) by (unfold a; rewrite firstn_length; lia).
    assert (Lb : length b = 8%nat) by (unfold b; rewrite skipn_length; lia). assert (S : s = a ++ b) by (symmetry; apply firstn_skipn). clearbody a b. subst s.
    rewrite app_assoc, reads_app in E. destruct (reads_as 0 (p ++ a)) as [u|] eqn:U; [|discriminate E].
    assert (X : exists x, reads_as 0 b = Some x).
    { clear - E. revert u E. generalize 0. induction b as [|c b IH]; intros w u E; [eexists; reflexivity|]. cbn [reads_as] in *. destruct (hex_val c); [eapply IH; exact E|discriminate E]. }
    destruct X as [x X]. pose proof (reads_shift b x 0 X u) as Y. rewrite Z.add_0_r, E in Y. injection Y as ->.
    pose proof (reads_bound b x 0 ltac:(lia) X) as Bx. replace (zlen b) with 8 in * by (unfold zlen; lia). change (16 ^ 8) with (2 ^ 32) in *.
    specialize (IH p a u La U). cbv zeta in IH. destruct IH as [F V]. rewrite app_assoc.
    cbn [seq map]. rewrite <- seq_shift, map_map.
    assert (M : map (fun j => scan 8 0 (skipn (length ((p ++ a) ++ b) - 8 * (S j + 1)) ((p ++ a) ++ b))) (seq 0 k) =
                map (fun j => scan 8 0 (skipn (length (p ++ a) - 8 * (j + 1)) (p ++ a))) (seq 0 k)).
    { apply map_ext_in. intros j J. apply in_seq in J. set (q := p ++ a). assert (Lq : (8 * k <= length q)%nat) by (unfold q; rewrite app_length; lia).
      rewrite app_length, Lb. replace (length q + 8 - 8 * (S j + 1))%nat with (length q - 8 * (j + 1))%nat by lia.
      rewrite skipn_app. replace (length q - 8 * (j + 1) - length q)%nat with 0%nat by lia. cbn [skipn].
      set (g := skipn (length q - 8 * (j + 1)) q). assert (Lg : (8 <= length g)%nat) by (unfold g; rewrite skipn_length; lia).
      clearbody g. clear - Lg. generalize 0 as w. revert Lg. generalize 8%nat as m. revert b. induction g as [|c g IH]; intros b m Lg w.
      - replace m with 0%nat by (cbn [length] in Lg; lia). reflexivity.
      - destruct m; [reflexivity|]. cbn [app scan]. destruct (scan_digit c); [|reflexivity]. apply IH. cbn [length] in Lg. lia. }
    rewrite M. replace (length ((p ++ a) ++ b) - 8 * (0 + 1))%nat with (length (p ++ a)) by (rewrite (app_length (p ++ a)), Lb; lia).
    rewrite skipn_app, skipn_all, Nat.sub_diag. cbn [app skipn].
    assert (Sx : scan 8 0 b = x) by (rewrite <- Lb; rewrite <- (app_nil_r b) at 2; apply scan_reads; exact X). rewrite Sx. split.
    + constructor; [unfold limb_ok; lia|exact F].
    + rewrite bn_val_cons, V, basep_S. pose proof (basep_pos k). rewrite Z.rem_mul_r by lia. rewrite (Z.add_comm (u * _) x).
      rewrite (Z.mod_add x u) by lia. rewrite (Z.mod_small x) by lia. rewrite (Z.div_add x u) by lia. rewrite (Z.div_small x) by lia. reflexivity.
Qed.
(** C92. Digits are read eight at a time from the end: what is left over in front is ignored. *)
Theorem bn_from_text_partial : forall s v, (0 < length s < 136)%nat -> Nat.even (length s) = true -> reads_as 0 s = Some v ->
  exists n, bn_from_string s (length s) = Ok n /\ bn_ok n /\ bn_val n = v mod 16 ^ (8 * (zlen s / 8)).
Proof.
  intros s v L Ev E. unfold bn_from_string. rewrite <- Nat.negb_even, Ev. replace (Nat.eqb (length s) 0) with false by (symmetry; apply Nat.eqb_neq; lia). cbn [negb orb].
  set (k := (length s / 8)%nat). assert (K : (8 * k <= length s < 8 * k + 8)%nat).
  { unfold k. pose proof (Nat.div_mod (length s) 8 ltac:(lia)). pose proof (Nat.mod_upper_bound (length s) 8 ltac:(lia)). lia. }
  assert (Zk : zlen s / 8 = Z.of_nat k) by (symmetry; apply Z.div_unique with (zlen s - 8 * Z.of_nat k); unfold zlen; lia).
  replace (Nat.ltb bn_size k) with false by (symmetry; apply Nat.ltb_ge; unfold bn_size; lia).
  set (p := firstn (length s - 8 * k) s). set (t := skipn (length s - 8 * k) s). assert (S : s = p ++ t) by (symmetry; apply firstn_skipn).
  assert (Lt : length t = (8 * k)%nat) by (unfold t; rewrite skipn_length; lia).
  pose proof (limbs_read k p t v Lt) as H. rewrite <- S in H. specialize (H E). cbv zeta in H. destruct H as [F V].
  eexists. split; [reflexivity|]. split.
  - split; [rewrite app_length, map_length, seq_length, repeat_length; unfold bn_size; lia|]. apply Forall_app. split; [exact F|apply limbs_repeat0].
  - rewrite bn_val_app, bn_val_repeat0, Z.mul_0_r, Z.add_0_r, V, basep_pow, Zk. f_equal. change 16 with (2 ^ 4). rewrite <- Z.pow_mul_r by lia. f_equal. lia.
Qed.
(** C92, false: the text that is written is not read back: 48879 becomes "beef" and is read as 0. *)
Theorem bn_text_round_trip_refuted : exists n buf n', bn_ok n /\ bn_val n = 48879 /\ bn_to_string n (repeat 7 129) 128 = Ok buf /\
  bn_from_string (c_string buf) (length (c_string buf)) = Ok n' /\ bn_val n' = 0.
Proof.
  exists (bn_from_int 48879). eexists. eexists. split; [apply from_int_ok|]. split; [reflexivity|]. split; [vm_compute; reflexivity|].
  split; [vm_compute; reflexivity|]. reflexivity.
Qed.

(* ---------- cases ---------- *)
Example bn_cases : bn_ok (bn_from_int 1000) /\ bn_val (bn_from_int 7) <> 0 /\
  option_map bn_val (bn_mod (bn_from_int 1000) (bn_from_int 7)) = Some 6 /\ bn_val (bn_and (bn_from_int 12) (bn_from_int 10)) = 8 /\
  (exists r, bn_to_string (bn_from_int 48879) (repeat 7 129) 128 = Ok r /\ c_string r = [98; 101; 101; 102]).
Proof.
  split; [apply from_int_ok|]. split; [discriminate|]. split; [vm_compute; reflexivity|]. split; [reflexivity|].
  eexists. split; [vm_compute; reflexivity|]. vm_compute. reflexivity.
Qed.

Example from_text_case : reads_as 0 [48; 49; 50; 97; 98; 99; 48; 48; 102; 102] = Some 5011931391 /\
  exists n, bn_from_string [48; 49; 50; 97; 98; 99; 48; 48; 102; 102] 10 = Ok n /\ bn_val n = 5011931391 mod 16 ^ 8.
Proof. split; [reflexivity|]. eexists. split; [vm_compute; reflexivity|]. reflexivity. Qed.

Print Assumptions bn_more_arithmetic.
Print Assumptions bn_text_partial.
Print Assumptions bn_text_overruns.
Print Assumptions bn_text_refuted.
Print Assumptions bn_from_text_partial.
Print Assumptions bn_text_round_trip_refuted.
