(** SipHash: equal to the published function for every message below 2^35 bytes. *)
From Verif Require Import Common CommonFacts UtilTheorems SipModel SipSpec.

Definition w64 (x : Z) : Prop := 0 <= x < 2 ^ 64.
Lemma ROTL_ok x n : w64 x -> 0 < n < 64 -> ROTL x n = left n x /\ w64 (left n x).
Proof.
  intros Hx Hn. unfold w64 in *. assert (P1 : 0 < 2 ^ n) by (apply Z.pow_pos_nonneg; lia). assert (P2 : 0 < 2 ^ (64 - n)) by (apply Z.pow_pos_nonneg; lia).
  assert (P3 : 2 ^ 64 = 2 ^ (64 - n) * 2 ^ n) by (rewrite <- Z.pow_add_r by lia; f_equal; lia).
  assert (A : 0 <= x / 2 ^ (64 - n) < 2 ^ n) by (split; [apply Z.div_pos; lia|apply Z.div_lt_upper_bound; lia]).
  assert (M : x * 2 ^ n mod 2 ^ 64 = x mod 2 ^ (64 - n) * 2 ^ n) by (rewrite P3, Z.mul_mod_distr_r by lia; reflexivity).
  split.
  - unfold ROTL, left, v64. rewrite Z.shiftr_div_pow2, Z.shiftl_mul_pow2 by lia. apply (lor_add _ _ n); [lia|exact A|]. rewrite M. exists (x mod 2 ^ (64 - n)). reflexivity.
  - unfold left. rewrite M. pose proof (Z.mod_pos_bound x (2 ^ (64 - n)) P2). nia.
Qed.
Lemma xor_w64 a b : w64 a -> w64 b -> w64 (Z.lxor a b).
Proof.
  unfold w64. intros A B. split; [apply Z.lxor_nonneg; lia|]. destruct (Z.eq_dec (Z.lxor a b) 0) as [->|N]; [reflexivity|].
  assert (0 <= Z.lxor a b) by (apply Z.lxor_nonneg; lia). apply Z.log2_lt_pow2; [lia|]. eapply Z.le_lt_trans; [apply Z.log2_lxor; lia|].
  apply Z.max_lub_lt; [destruct (Z.eq_dec a 0) as [->|]|destruct (Z.eq_dec b 0) as [->|]]; try reflexivity; apply Z.log2_lt_pow2; lia.
Qed.
Lemma plus_w64 a b : w64 (plus a b).
Proof. apply Z.mod_pos_bound. reflexivity. Qed.
Definition state_ok (v : sip) : Prop := let '(v0, v1, v2, v3) := v in w64 v0 /\ w64 v1 /\ w64 v2 /\ w64 v3.
Lemma round_ok v : state_ok v -> SIPROUND v = round v /\ state_ok (round v).
Proof.
  destruct v as [[[v0 v1] v2] v3]. intros (W0 & W1 & W2 & W3). unfold SIPROUND, round. change v64 with (fun x => x mod 2 ^ 64). cbv beta.
  fold (plus v0 v1). fold (plus v2 v3).
  destruct (ROTL_ok v1 13 W1 ltac:(lia)) as [-> L1]. destruct (ROTL_ok v3 16 W3 ltac:(lia)) as [-> L3].
  destruct (ROTL_ok (plus v0 v1) 32 (plus_w64 _ _) ltac:(lia)) as [-> L0].
  set (a1 := Z.lxor (left 13 v1) (plus v0 v1)). set (a3 := Z.lxor (left 16 v3) (plus v2 v3)).
  assert (A1 : w64 a1) by (apply xor_w64; [exact L1|apply plus_w64]). assert (A3 : w64 a3) by (apply xor_w64; [exact L3|apply plus_w64]).
  fold (plus (left 32 (plus v0 v1)) a3). fold (plus (plus v2 v3) a1).
  destruct (ROTL_ok a3 21 A3 ltac:(lia)) as [-> M3]. destruct (ROTL_ok a1 17 A1 ltac:(lia)) as [-> M1].
  destruct (ROTL_ok (plus (plus v2 v3) a1) 32 (plus_w64 _ _) ltac:(lia)) as [-> M2].
  split; [reflexivity|]. split; [apply plus_w64|]. split; [apply xor_w64; [exact M1|apply plus_w64]|]. split; [exact M2|apply xor_w64; [exact M3|apply plus_w64]].
Qed.
Lemma read64_ok b : bytes_ok b -> w64 (read64 b).
Proof.
  intros B. unfold read64, w64. assert (F : bytes_ok (firstn 8 b)) by (rewrite <- (firstn_skipn 8 b) in B; apply bytes_ok_app in B; tauto).
  pose proof (le_val_bound _ F) as [L U]. split; [exact L|]. eapply Z.lt_le_trans; [exact U|]. change (2 ^ 64) with (256 ^ 8). apply Z.pow_le_mono_r; [lia|]. rewrite firstn_length. lia.
Qed.
Lemma skip_ok n b : bytes_ok b -> bytes_ok (skipn n b).
Proof. intros B. rewrite <- (firstn_skipn n b) in B. apply bytes_ok_app in B. tauto. Qed.
Lemma skip_skip (a b : nat) (l : list Z) : skipn a (skipn b l) = skipn (b + a) l.
Proof. revert l. induction b as [|b IH]; intros l; [reflexivity|]. destruct l as [|x l]; [rewrite !skipn_nil; reflexivity|]. apply IH. Qed.
Lemma keyed_ok key : bytes_ok key -> keyed key = start (read64 key) (read64 (skipn 8 key)) /\ state_ok (keyed key).
Proof.
  intros B. split; [reflexivity|]. pose proof (read64_ok key B). pose proof (read64_ok _ (skip_ok 8 key B)).
  unfold keyed, state_ok. repeat split; try (apply xor_w64; [assumption|unfold w64; lia]).
Qed.
Lemma two_rounds v d : state_ok v -> w64 d ->
  sip_word v d = compress v d /\ state_ok (compress v d).
Proof.
  destruct v as [[[v0 v1] v2] v3]. intros (W0 & W1 & W2 & W3) D. unfold sip_word, compress. cbn [rounds].
  assert (S : state_ok (v0, v1, v2, Z.lxor v3 d)) by (repeat split; try apply W0; try apply W1; try apply W2; apply xor_w64; assumption).
  destruct (round_ok _ S) as [-> S1]. destruct (round_ok _ S1) as [-> S2]. destruct (round (round (v0, v1, v2, Z.lxor v3 d))) as [[[a b] c] e].
  split; [reflexivity|]. destruct S2 as (A & B & C & E). split; [apply xor_w64; assumption|]. auto.
Qed.
Lemma end_ok f0 v : state_ok v -> w64 f0 -> sip_end f0 v = finish (compress v f0).
Proof.
  intros S F. destruct (two_rounds v f0 S F) as [E S']. unfold sip_end. rewrite E. destruct (compress v f0) as [[[a b] c] e]. unfold finish. cbn [rounds].
  destruct S' as (A & B & C & D). assert (S4 : state_ok (a, b, Z.lxor c 255, e)) by (split; [exact A|split; [exact B|split; [apply xor_w64; [exact C|unfold w64; lia]|exact D]]]).
  destruct (round_ok _ S4) as [-> S5]. destruct (round_ok _ S5) as [-> S6]. destruct (round_ok _ S6) as [-> S7]. destruct (round_ok _ S7) as [-> S8]. reflexivity.
Qed.
Lemma loop_ok : forall n data v, bytes_ok data -> state_ok v ->
  exists v', sip_loop n data v = (skipn (8 * n) data, v') /\ v' = fold_left compress (map (fun i => read64 (skipn (8 * i) data)) (seq 0 n)) v /\ state_ok v'.
Proof.
  induction n as [|n IH]; intros data v B S; [exists v; auto|].
  destruct (two_rounds v (read64 data) S (read64_ok data B)) as [E S'].
  cbn [sip_loop]. rewrite E.
  destruct (IH (skipn 8 data) _ (skip_ok 8 data B) S') as (v' & L & F & G). exists v'. rewrite L. split; [|split; [|exact G]].
  - rewrite skip_skip. do 2 f_equal; lia.
  - rewrite F. assert (M : map (fun i => read64 (skipn (8 * i) data)) (seq 0 (Datatypes.S n)) = read64 data :: map (fun i => read64 (skipn (8 * i) (skipn 8 data))) (seq 0 n)).
    { cbn [seq map]. rewrite Nat.mul_0_r, skipn_O. rewrite <- seq_shift, map_map. f_equal. apply map_ext. intros i. rewrite skip_skip. do 2 f_equal; lia. }
    rewrite M. reflexivity.
Qed.
Lemma tail_ok data : bytes_ok data -> forall t c, (t <= length data)%nat -> (t < 8)%nat ->
  sip_tail t data (c * 2 ^ (8 * Z.of_nat t)) = le_val (firstn t data) + c * 2 ^ (8 * Z.of_nat t).
Proof.
  intros B. induction t as [|t IH]; intros c L T; [cbn [sip_tail firstn le_val]; lia|]. cbn [sip_tail].
  assert (N : is_byte (nth t data 0)) by (unfold bytes_ok in B; rewrite Forall_forall in B; apply B; apply nth_In; lia).
  assert (P : 2 ^ (8 * Z.of_nat (S t)) = 256 * 2 ^ (8 * Z.of_nat t)) by (replace (8 * Z.of_nat (S t)) with (8 + 8 * Z.of_nat t) by lia; rewrite Z.pow_add_r by lia; reflexivity).
  assert (P0 : 0 < 2 ^ (8 * Z.of_nat t)) by (apply Z.pow_pos_nonneg; lia).
  rewrite Z.shiftl_mul_pow2 by lia. unfold is_byte in N.
  rewrite (lor_add _ _ (8 * Z.of_nat (S t))); [|lia|rewrite P; nia|exists c; reflexivity]. rewrite P.
  replace (c * (256 * 2 ^ (8 * Z.of_nat t)) + nth t data 0 * 2 ^ (8 * Z.of_nat t)) with ((c * 256 + nth t data 0) * 2 ^ (8 * Z.of_nat t)) by ring.
  rewrite IH by lia. assert (F : firstn (S t) data = firstn t data ++ [nth t data 0]).
  { clear - L. revert data L. induction t as [|t IH]; intros data L; destruct data as [|x data]; cbn [length] in L; try lia; [reflexivity|]. cbn [firstn nth app]. f_equal. rewrite <- IH by lia. reflexivity. }
  rewrite F, le_val_app. assert (ZF : zlen (firstn t data) = Z.of_nat t) by (unfold zlen; rewrite firstn_length; lia). rewrite ZF. cbn [le_val].
  replace (256 ^ Z.of_nat t) with (2 ^ (8 * Z.of_nat t)) by (rewrite Z.pow_mul_r by lia; reflexivity). ring.
Qed.
(** The words of the message *)
Lemma words_ok m : bytes_ok m -> words m =
  map (fun i => read64 (skipn (8 * i) m)) (seq 0 (Z.to_nat (zlen m / 8))) ++ [le_val (skipn (8 * Z.to_nat (zlen m / 8)) m) + (zlen m mod 256) * 2 ^ 56].
Proof.
  intros B. unfold words. set (n := Z.to_nat (zlen m / 8)). set (r := zlen m mod 8).
  assert (L : length m = (8 * n + Z.to_nat r)%nat) by (unfold n, r, zlen; lia). assert (R : 0 <= r < 8) by (unfold r; lia).
  rewrite seq_S, map_app. cbn [map Nat.add]. f_equal.
  - apply map_ext_in. intros i I. apply in_seq in I. unfold read64, padded. rewrite skipn_app, firstn_app, skipn_length. fold r.
    replace (8 - (length m - 8 * i))%nat with 0%nat by lia. cbn [firstn]. rewrite app_nil_r. reflexivity.
  - f_equal. unfold padded. fold r. rewrite skipn_app. replace (8 * n - length m)%nat with 0%nat by lia. cbn [skipn].
    rewrite firstn_all2 by (rewrite !app_length, skipn_length, repeat_length; cbn [length]; lia).
    rewrite !le_val_app. cbn [le_val]. assert (Z0 : forall k, le_val (repeat 0 k) = 0) by (induction k as [|k IH]; [reflexivity|cbn [repeat le_val]; lia]).
    rewrite Z0. assert (ZL : zlen (skipn (8 * n) m) = r) by (unfold zlen; rewrite skipn_length; lia). assert (ZR : zlen (repeat 0 (Z.to_nat (7 - r))) = 7 - r) by (unfold zlen; rewrite repeat_length; lia).
    rewrite ZL, ZR. assert (P : 256 ^ r * 256 ^ (7 - r) = 2 ^ 56) by (rewrite <- Z.pow_add_r by lia; replace (r + (7 - r)) with 7 by lia; reflexivity).
    rewrite <- P. ring.
Qed.
(** For every message of less than 2^35 bytes and every key of 16 bytes *)
Theorem siphash_exact data key : bytes_ok data -> zlen data < 2 ^ 35 -> bytes_ok key -> length key = 16%nat ->
  siphash data key = siphash_2_4 (le_val (firstn 8 key)) (le_val (skipn 8 key)) data.
Proof.
  intros B L BK LK. unfold siphash, siphash_2_4. rewrite words_ok by exact B.
  assert (BL : Z.shiftr (zlen data) 3 mod 2 ^ 32 = zlen data / 8).
  { rewrite Z.shiftr_div_pow2 by lia. change (2 ^ 3) with 8. apply Z.mod_small. unfold zlen in *. split; [apply Z.div_pos; lia|apply Z.div_lt_upper_bound; lia]. }
  rewrite BL. destruct (keyed_ok key BK) as [E S]. destruct (loop_ok (Z.to_nat (zlen data / 8)) data (keyed key) B S) as (v & -> & F & SV).
  change 7 with (2 ^ 3 - 1). rewrite land_mod by lia. change (2 ^ 3) with 8.
  set (n := Z.to_nat (zlen data / 8)) in *. set (rest := skipn (8 * n) data).
  assert (LR : length rest = Z.to_nat (zlen data mod 8)) by (unfold rest, n, zlen; rewrite skipn_length; lia). assert (R : 0 <= zlen data mod 8 < 8) by lia.
  assert (BR : bytes_ok rest) by (apply skip_ok; exact B).
  assert (T : sip_tail (Z.to_nat (zlen data mod 8)) rest (v64 (Z.shiftl (zlen data) 56)) = le_val rest + (zlen data mod 256) * 2 ^ 56).
  { assert (V : v64 (Z.shiftl (zlen data) 56) = (zlen data mod 256) * 2 ^ 56).
    { unfold v64. rewrite Z.shiftl_mul_pow2 by lia. change (2 ^ 64) with (256 * 2 ^ 56). rewrite Z.mul_mod_distr_r by lia. reflexivity. }
    rewrite V. set (t := Z.to_nat (zlen data mod 8)) in *. set (c := zlen data mod 256).
    replace (c * 2 ^ 56) with ((c * 2 ^ (56 - 8 * Z.of_nat t)) * 2 ^ (8 * Z.of_nat t)).
    2:{ rewrite <- Z.mul_assoc, <- Z.pow_add_r by lia. do 2 f_equal. lia. }
    rewrite tail_ok by (assumption || lia). rewrite firstn_all2 by lia. reflexivity. }
  rewrite T. rewrite end_ok; [|exact SV|].
  - rewrite fold_left_app. cbn [fold_left]. f_equal. f_equal. rewrite F. f_equal. rewrite E. unfold read64. f_equal. rewrite firstn_all2 by (rewrite skipn_length; lia). reflexivity.
  - pose proof (le_val_bound rest BR) as [A1 A2]. assert (A3 : 256 ^ Z.of_nat (length rest) <= 2 ^ 56) by (change (2 ^ 56) with (256 ^ 7); apply Z.pow_le_mono_r; lia). unfold w64. lia.
Qed.
Print Assumptions siphash_exact.
(** A number is hashed as its one word, without the length; the 256-bit key is the state *)
Theorem siphash_number_exact num key : 0 <= num < 2 ^ 64 -> bytes_ok key -> length key = 16%nat ->
  siphash64 num key = finish (compress (start (le_val (firstn 8 key)) (le_val (skipn 8 key))) num) /\
  siphash32 num key = siphash64 num key mod 2 ^ 32.
Proof.
  intros N B L. split; [|reflexivity]. unfold siphash64. destruct (keyed_ok key B) as [E S]. rewrite end_ok by assumption. rewrite E. unfold read64. do 3 f_equal. rewrite firstn_all2 by (rewrite skipn_length; lia). reflexivity.
Qed.
Print Assumptions siphash_number_exact.
Lemma long_key num k0 k1 k2 k3 : 0 <= num < 2 ^ 64 -> w64 k0 -> w64 k1 -> w64 k2 -> w64 k3 ->
  siphash64k256 num (le_bytes 8 k0 ++ le_bytes 8 k1 ++ le_bytes 8 k2 ++ le_bytes 8 k3) = finish (compress (k0, k1, k2, k3) num).
Proof.
  intros N W0 W1 W2 W3. assert (G : forall k r, w64 k -> read64 (le_bytes 8 k ++ r) = k).
  { intros k r W. unfold read64. change (firstn 8 (le_bytes 8 k ++ r)) with (le_bytes 8 k). apply le_val_le_bytes. exact W. }
  unfold siphash64k256. replace (le_bytes 8 k3) with (le_bytes 8 k3 ++ []) by apply app_nil_r.
  change (skipn 8 (le_bytes 8 k0 ++ le_bytes 8 k1 ++ le_bytes 8 k2 ++ le_bytes 8 k3 ++ [])) with (le_bytes 8 k1 ++ le_bytes 8 k2 ++ le_bytes 8 k3 ++ []).
  change (skipn 16 (le_bytes 8 k0 ++ le_bytes 8 k1 ++ le_bytes 8 k2 ++ le_bytes 8 k3 ++ [])) with (le_bytes 8 k2 ++ le_bytes 8 k3 ++ []).
  change (skipn 24 (le_bytes 8 k0 ++ le_bytes 8 k1 ++ le_bytes 8 k2 ++ le_bytes 8 k3 ++ [])) with (le_bytes 8 k3 ++ []).
  rewrite !G by assumption. apply end_ok; [|exact N]. exact (conj W0 (conj W1 (conj W2 W3))).
Qed.
Theorem siphash_number_long_key num k0 k1 k2 k3 : 0 <= num < 2 ^ 64 -> w64 k0 -> w64 k1 -> w64 k2 -> w64 k3 ->
  siphash64k256 num (le_bytes 8 k0 ++ le_bytes 8 k1 ++ le_bytes 8 k2 ++ le_bytes 8 k3) = finish (compress (k0, k1, k2, k3) num) /\
  siphash32k256 num (le_bytes 8 k0 ++ le_bytes 8 k1 ++ le_bytes 8 k2 ++ le_bytes 8 k3) = finish (compress (k0, k1, k2, k3) num) mod 2 ^ 32.
Proof. intros. unfold siphash32k256. rewrite long_key by assumption. split; reflexivity. Qed.
Print Assumptions siphash_number_long_key.
(** The vector of the paper, appendix A *)
Example sip_vector : siphash (map Z.of_nat (seq 0 15)) (map Z.of_nat (seq 0 16)) = 0xa129ca6149be45e5 /\
  siphash_2_4 0x0706050403020100 0x0f0e0d0c0b0a0908 (map Z.of_nat (seq 0 15)) = 0xa129ca6149be45e5.
Proof. split; vm_compute; reflexivity. Qed.
(** From 2^35 bytes on the counter of blocks wraps: all messages of that length have the same
    hash, whatever the key *)
Theorem siphash_long_refuted : exists a b, length a = length b /\ a <> b /\ forall key, siphash a key = siphash b key.
Proof.
  exists (repeat 0 (Z.to_nat (2 ^ 35))), (repeat 1 (Z.to_nat (2 ^ 35))). rewrite !repeat_length. split; [reflexivity|].
  assert (P : exists n, Z.to_nat (2 ^ 35) = S n). { assert (0 < Z.to_nat (2 ^ 35))%nat by lia. destruct (Z.to_nat (2 ^ 35)) as [|n]; [lia|]. exists n. reflexivity. }
  split.
  - destruct P as [n ->]. cbn [repeat]. intros X. injection X as X _. discriminate X.
  - assert (G : forall c key, siphash (repeat c (Z.to_nat (2 ^ 35))) key = sip_end 0 (keyed key)).
    { intros c key. unfold siphash. assert (E : zlen (repeat c (Z.to_nat (2 ^ 35))) = 2 ^ 35) by (unfold zlen; rewrite repeat_length; apply Z2Nat.id; lia). rewrite E.
      change (Z.shiftr (2 ^ 35) 3 mod 2 ^ 32) with 0. change (Z.land (2 ^ 35) 7) with 0. change (v64 (Z.shiftl (2 ^ 35) 56)) with 0. cbn [Z.to_nat sip_loop sip_tail]. reflexivity. }
    intros key. rewrite !G. reflexivity.
Qed.
Print Assumptions siphash_long_refuted.
