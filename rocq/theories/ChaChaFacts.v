(** Lemmas on ChaCha20: the block function and the key stream. *)
From Verif Require Import Common CommonFacts ProofFacts StreamFacts Sha256Facts ChaChaModel ChaChaSpec.
From Coq Require Import Lia.

(** ** Words *)
Lemma land_high a b n : 0 <= n -> 0 <= a < 2 ^ n -> Z.land a (b * 2 ^ n) = 0.
Proof.
  intros Hn Ha. apply Z.bits_inj'. intros i Hi. rewrite Z.land_spec, Z.bits_0. rewrite <- Z.shiftl_mul_pow2 by exact Hn. rewrite Z.shiftl_spec by exact Hi.
  destruct (Z.lt_ge_cases i n) as [L|L]; [rewrite (Z.testbit_neg_r b) by lia; apply andb_false_r|]. rewrite <- (Z.mod_small a (2 ^ n) Ha). rewrite Z.mod_pow2_bits_high by lia. reflexivity.
Qed.
Lemma lor_high a b n : 0 <= n -> 0 <= a < 2 ^ n -> Z.lor a (b * 2 ^ n) = a + b * 2 ^ n.
Proof. intros Hn Ha. pose proof (land_high a b n Hn Ha) as E. rewrite <- Z.lxor_lor by exact E. now apply nocarry. Qed.
Lemma lor_shift a b n : 0 <= n -> 0 <= a < 2 ^ n -> Z.lor a (Z.shiftl b n) = a + b * 2 ^ n.
Proof. intros Hn Ha. rewrite Z.shiftl_mul_pow2 by exact Hn. now apply lor_high. Qed.
Lemma rotl32_ok x n : word x -> 0 < n < 32 -> rotl32 x n = rol n x /\ word (rol n x).
Proof.
  intros Hx Hn. unfold word in *. assert (P1 : 0 < 2 ^ n) by (apply Z.pow_pos_nonneg; lia). assert (P2 : 0 < 2 ^ (32 - n)) by (apply Z.pow_pos_nonneg; lia).
  assert (P3 : 2 ^ 32 = 2 ^ (32 - n) * 2 ^ n) by (rewrite <- Z.pow_add_r by lia; f_equal; lia).
  assert (A : 0 <= x / 2 ^ (32 - n) < 2 ^ n) by (split; [apply Z.div_pos; lia|apply Z.div_lt_upper_bound; lia]).
  assert (M : x * 2 ^ n mod 2 ^ 32 = x mod 2 ^ (32 - n) * 2 ^ n) by (rewrite P3, Z.mul_mod_distr_r by lia; reflexivity).
  split.
  - unfold rotl32, rol, u32. rewrite Z.shiftr_div_pow2, Z.shiftl_mul_pow2 by lia. rewrite M. rewrite Z.lor_comm, lor_high by lia. ring.
  - unfold rol. rewrite M. pose proof (Z.mod_pos_bound x (2 ^ (32 - n)) P2). nia.
Qed.
Lemma plus_word a b : word (plus a b).
Proof. apply Z.mod_pos_bound. reflexivity. Qed.
Lemma lxor_word a b : word a -> word b -> word (Z.lxor a b).
Proof.
  unfold word. intros [A1 A2] [B1 B2]. split; [apply Z.lxor_nonneg; tauto|]. destruct (Z.eq_dec (Z.lxor a b) 0) as [->|N]; [reflexivity|]. assert (0 <= Z.lxor a b) by (apply Z.lxor_nonneg; tauto). apply Z.log2_lt_pow2; [lia|]. eapply Z.le_lt_trans; [apply Z.log2_lxor; lia|]. 
  apply Z.max_lub_lt; (destruct (Z.eq_dec a 0) as [->|]; destruct (Z.eq_dec b 0) as [->|]; try reflexivity; apply Z.log2_lt_pow2; lia).
Qed.

(** ** The rounds *)
(** The quarter round with the operations of the code *)
Definition qr (q : Z * Z * Z * Z) : Z * Z * Z * Z :=
  let '(a, b, c, d) := q in
  let a := u32 (a + b) in let d := rotl32 (Z.lxor d a) 16 in
  let c := u32 (c + d) in let b := rotl32 (Z.lxor b c) 12 in
  let a := u32 (a + b) in let d := rotl32 (Z.lxor d a) 8 in
  let c := u32 (c + d) in let b := rotl32 (Z.lxor b c) 7 in (a, b, c, d).
Definition words4 (q : Z * Z * Z * Z) : Prop := let '(a, b, c, d) := q in word a /\ word b /\ word c /\ word d.
Lemma qr_ok q : words4 q -> qround q = qr q /\ words4 (qr q).
Proof.
  destruct q as [[[a b] c] d]. intros (A & B & C & D). assert (E : qround (a, b, c, d) = qr (a, b, c, d) /\ words4 (qround (a, b, c, d))); [|destruct E as [E F]; split; [exact E|rewrite <- E; exact F]].
  unfold qround, qr. cbv zeta. change (fun x => u32 x) with u32. change (u32 (a + b)) with (plus a b).
  pose proof (plus_word a b) as W1. set (a1 := plus a b) in *. clearbody a1.
  destruct (rotl32_ok (Z.lxor d a1) 16 ltac:(now apply lxor_word) ltac:(lia)) as [-> W2]. set (d1 := rol 16 (Z.lxor d a1)) in *. clearbody d1.
  change (u32 (c + d1)) with (plus c d1). pose proof (plus_word c d1) as W3. set (c1 := plus c d1) in *. clearbody c1.
  destruct (rotl32_ok (Z.lxor b c1) 12 ltac:(now apply lxor_word) ltac:(lia)) as [-> W4]. set (b1 := rol 12 (Z.lxor b c1)) in *. clearbody b1.
  change (u32 (a1 + b1)) with (plus a1 b1). pose proof (plus_word a1 b1) as W5. set (a2 := plus a1 b1) in *. clearbody a2.
  destruct (rotl32_ok (Z.lxor d1 a2) 8 ltac:(now apply lxor_word) ltac:(lia)) as [-> W6]. set (d2 := rol 8 (Z.lxor d1 a2)) in *. clearbody d2.
  change (u32 (c1 + d2)) with (plus c1 d2). pose proof (plus_word c1 d2) as W7. set (c2 := plus c1 d2) in *. clearbody c2.
  destruct (rotl32_ok (Z.lxor b1 c2) 7 ltac:(now apply lxor_word) ltac:(lia)) as [-> W8]. split; [reflexivity|]. unfold words4. auto.
Qed.
Definition flat (m : rows) : list Z := let '(a, b, c, d) := m in a ++ b ++ c ++ d.
Definition matrix (m : rows) : Prop := let '(a, b, c, d) := m in length a = 4%nat /\ length b = 4%nat /\ length c = 4%nat /\ length d = 4%nat /\ Forall word a /\ Forall word b /\ Forall word c /\ Forall word d.
Section Quarter.
Variables x0 x1 x2 x3 x4 x5 x6 x7 x8 x9 x10 x11 x12 x13 x14 x15 : Z.
Let x := [x0; x1; x2; x3; x4; x5; x6; x7; x8; x9; x10; x11; x12; x13; x14; x15].
Lemma q1 : quarter x (0, 4, 8, 12)%nat = let '(a, b, c, d) := qr (x0, x4, x8, x12) in [a; x1; x2; x3; b; x5; x6; x7; c; x9; x10; x11; d; x13; x14; x15].
Proof. reflexivity. Qed.
Lemma q2 : quarter x (1, 5, 9, 13)%nat = let '(a, b, c, d) := qr (x1, x5, x9, x13) in [x0; a; x2; x3; x4; b; x6; x7; x8; c; x10; x11; x12; d; x14; x15].
Proof. reflexivity. Qed.
Lemma q3 : quarter x (2, 6, 10, 14)%nat = let '(a, b, c, d) := qr (x2, x6, x10, x14) in [x0; x1; a; x3; x4; x5; b; x7; x8; x9; c; x11; x12; x13; d; x15].
Proof. reflexivity. Qed.
Lemma q4 : quarter x (3, 7, 11, 15)%nat = let '(a, b, c, d) := qr (x3, x7, x11, x15) in [x0; x1; x2; a; x4; x5; x6; b; x8; x9; x10; c; x12; x13; x14; d].
Proof. reflexivity. Qed.
Lemma q5 : quarter x (0, 5, 10, 15)%nat = let '(a, b, c, d) := qr (x0, x5, x10, x15) in [a; x1; x2; x3; x4; b; x6; x7; x8; x9; c; x11; x12; x13; x14; d].
Proof. reflexivity. Qed.
Lemma q6 : quarter x (1, 6, 11, 12)%nat = let '(a, b, c, d) := qr (x1, x6, x11, x12) in [x0; a; x2; x3; x4; x5; b; x7; x8; x9; x10; c; d; x13; x14; x15].
Proof. reflexivity. Qed.
Lemma q7 : quarter x (2, 7, 8, 13)%nat = let '(a, b, c, d) := qr (x2, x7, x8, x13) in [x0; x1; a; x3; x4; x5; x6; b; c; x9; x10; x11; x12; d; x14; x15].
Proof. reflexivity. Qed.
Lemma q8 : quarter x (3, 4, 9, 14)%nat = let '(a, b, c, d) := qr (x3, x4, x9, x14) in [x0; x1; x2; a; b; x5; x6; x7; x8; c; x10; x11; x12; x13; d; x15].
Proof. reflexivity. Qed.
End Quarter.
Ltac quad q := let H := fresh "Q" in let E := fresh "E" in let W := fresh "W" in
  destruct (qr_ok q ltac:(unfold words4; split; [|split; [|split]]; assumption)) as [E W]; rewrite E; clear E; destruct (qr q) as [[[? ?] ?] ?]; cbn [words4] in W; destruct W as (? & ? & ? & ?).
Lemma turn_ok m : matrix m -> turn (flat m) = flat (double_round m) /\ matrix (double_round m).
Proof.
  destruct m as [[[a b] c] d]. intros (La & Lb & Lc & Ld & Wa & Wb & Wc & Wd).
  destruct a as [|x0 [|x1 [|x2 [|x3 [|]]]]]; try discriminate La. destruct b as [|x4 [|x5 [|x6 [|x7 [|]]]]]; try discriminate Lb.
  destruct c as [|x8 [|x9 [|x10 [|x11 [|]]]]]; try discriminate Lc. destruct d as [|x12 [|x13 [|x14 [|x15 [|]]]]]; try discriminate Ld.
  rewrite !Forall_cons_iff in *. destruct Wa as (? & ? & ? & ? & _), Wb as (? & ? & ? & ? & _), Wc as (? & ? & ? & ? & _), Wd as (? & ? & ? & ? & _).
  unfold double_round, flat, turn. cbn [app fold_left columns]. 
  rewrite q1. quad (x0, x4, x8, x12). rewrite q2. quad (x1, x5, x9, x13). rewrite q3. quad (x2, x6, x10, x14). rewrite q4. quad (x3, x7, x11, x15).
  cbn [left skipn firstn app columns].
  rewrite q5. lazymatch goal with |- context [qr ?t] => quad t end.
  rewrite q6. lazymatch goal with |- context [qr ?t] => quad t end.
  rewrite q7. lazymatch goal with |- context [qr ?t] => quad t end.
  rewrite q8. lazymatch goal with |- context [qr ?t] => quad t end.
  cbn [left skipn firstn app]. split; [reflexivity|]. unfold matrix. rewrite !Forall_cons_iff. repeat lazymatch goal with |- _ /\ _ => split end; first [assumption|reflexivity|apply Forall_nil].
Qed.
Lemma turns_ok m n : matrix m -> fold_left (fun x _ => turn x) (repeat tt n) (flat m) = flat (Nat.iter n double_round m) /\ matrix (Nat.iter n double_round m).
Proof.
  intros H. induction n as [|n [IH M]]; [split; [reflexivity|exact H]|]. replace (repeat tt (S n)) with (repeat tt n ++ [tt]) by (rewrite <- repeat_cons; reflexivity). rewrite fold_left_app, IH. cbn [fold_left]. change (Nat.iter (S n) double_round m) with (double_round (Nat.iter n double_round m)). now apply turn_ok.
Qed.
#[local] Opaque turn double_round.

(** ** Bytes and words *)
Lemma four (l : list Z) : length l = 4%nat -> exists a b c d, l = [a; b; c; d].
Proof. destruct l as [|a [|b [|c [|d [|]]]]]; intros H; try discriminate H. now exists a, b, c, d. Qed.
Lemma or4 a b c d : is_byte a -> is_byte b -> is_byte c -> is_byte d -> Z.lor (Z.lor (Z.lor a (Z.shiftl b 8)) (Z.shiftl c 16)) (u32 (Z.shiftl d 24)) = le_val [a; b; c; d].
Proof.
  unfold is_byte. intros A B C D. unfold u32. rewrite (Z.shiftl_mul_pow2 d) by lia. rewrite (Z.mod_small (d * 2 ^ 24)) by (change (2 ^ 32) with (256 * 2 ^ 24); lia). rewrite <- (Z.shiftl_mul_pow2 d) by lia.
  rewrite (lor_shift a b 8), (lor_shift (a + b * 2 ^ 8) c 16), (lor_shift (a + b * 2 ^ 8 + c * 2 ^ 16) d 24) by lia. cbn [le_val]. ring.
Qed.
Lemma readle_ok p i : bytes_ok p -> (i + 4 <= length p)%nat -> readle p (Z.of_nat i) = le_val (firstn 4 (skipn i p)).
Proof.
  intros B L. unfold readle. rewrite Nat2Z.id. assert (Bq : bytes_ok (firstn 4 (skipn i p))) by now apply bytes_ok_firstn, bytes_ok_skipn. assert (Lq : length (firstn 4 (skipn i p)) = 4%nat) by (rewrite firstn_length_le; [reflexivity|rewrite skipn_length; lia]).
  rewrite <- (firstn_skipn 4 (skipn i p)). destruct (four _ Lq) as (a & b & c & d & E). rewrite E in *. cbn [app nth firstn]. unfold bytes_ok in Bq. rewrite !Forall_cons_iff in Bq. destruct Bq as (? & ? & ? & ? & _). now apply or4.
Qed.
Lemma writele_ok x : writele x = le_bytes 4 x.
Proof.
  unfold writele. cbn [le_bytes]. change 0xFF with (Z.ones 8). rewrite !Z.land_ones by lia. rewrite !Z.shiftr_div_pow2 by lia. change (2 ^ 8) with 256. rewrite !Z.div_div by lia. reflexivity.
Qed.
Lemma words_cons b l : length b = 4%nat -> words (b ++ l) = le_val b :: words l.
Proof. intros H. unfold words. rewrite blocks_cons by (lia || exact H). reflexivity. Qed.
Lemma words_ok l : bytes_ok l -> Forall word (words l).
Proof.
  intros B. unfold words. apply Forall_forall. intros x I. apply in_map_iff in I as (b & <- & Hb). pose proof (blocks_length 4 ltac:(lia) l b Hb) as L. pose proof (proj1 (Forall_forall _ _) (blocks_ok 4 ltac:(lia) l B) b Hb) as Bb. pose proof (le_val_bound b Bb) as V. rewrite L in V. exact V.
Qed.
Lemma words_length l n : length l = (4 * n)%nat -> length (words l) = n.
Proof. intros H. unfold words, blocks. rewrite !map_length, seq_length, H. symmetry. apply Nat.div_unique with (r := 0%nat); lia. Qed.
Lemma words_at l n : length l = (4 * n)%nat -> bytes_ok l -> words l = map (fun i => readle l (Z.of_nat (4 * i))) (seq 0 n).
Proof.
  intros L B. unfold words, blocks. rewrite map_map. replace (length l / 4)%nat with n by (rewrite L; apply Nat.div_unique with (r := 0%nat); lia). apply map_ext_in. intros i Hi. apply in_seq in Hi. rewrite readle_ok by (exact B || lia). unfold StreamFacts.block. rewrite (Nat.mul_comm i 4). reflexivity.
Qed.

(** ** A block *)
Definition sched (key last : list Z) : list Z := sigma ++ words key ++ words last.
Lemma sigma_words : Forall word sigma.
Proof. unfold sigma. repeat (apply Forall_cons; [split; [discriminate|reflexivity]|]). apply Forall_nil. Qed.
Lemma core_ok key last : length key = 32%nat -> length last = 16%nat -> bytes_ok key -> bytes_ok last ->
  concat (map (fun '(a, b) => writele (u32 (a + b))) (combine (fold_left (fun x _ => turn x) (repeat tt 10) (sched key last)) (sched key last))) = core key last.
Proof.
  intros Lk Ll Bk Bl. pose proof (words_length key 8 Lk) as Wk. pose proof (words_length last 4 Ll) as Wl. pose proof (words_ok key Bk) as Fk. pose proof (words_ok last Bl) as Fl.
  set (m := (sigma, firstn 4 (words key), skipn 4 (words key), words last)).
  assert (E : sched key last = flat m) by (unfold m, flat, sched; rewrite (app_assoc (firstn 4 _)), firstn_skipn; reflexivity).
  assert (M : matrix m). { unfold m, matrix. split; [reflexivity|]. split; [rewrite firstn_length_le; lia|]. split; [rewrite skipn_length; lia|]. split; [exact Wl|]. split; [exact sigma_words|]. rewrite <- (firstn_skipn 4 (words key)) in Fk. apply Forall_app in Fk as [F1 F2]. auto. }
  rewrite E at 1. rewrite (proj1 (turns_ok m 10 M)). unfold core. fold m. destruct (Nat.iter 10 double_round m) as [[[a b] c] d]. unfold flat. unfold sched. f_equal. apply map_ext. intros [x y]. rewrite writele_ok. reflexivity.
Qed.
Lemma concat_len n (l : list (list Z)) : Forall (fun x => length x = n) l -> length (concat l) = (n * length l)%nat.
Proof. induction 1 as [|x l H _ IH]; cbn [concat length]; [lia|]. rewrite app_length, H, IH. lia. Qed.
Lemma core_length key last : length key = 32%nat -> length last = 16%nat -> bytes_ok key -> bytes_ok last -> length (core key last) = 64%nat.
Proof.
  intros Lk Ll Bk Bl. pose proof (words_length key 8 Lk) as Wk. pose proof (words_length last 4 Ll) as Wl. rewrite <- core_ok by auto. rewrite (concat_len 4).
  - rewrite map_length, combine_length. replace (length (sched key last)) with 16%nat by (unfold sched; rewrite !app_length, Wk, Wl; reflexivity).
    pose proof (words_ok key Bk) as Fk. pose proof (words_ok last Bl) as Fl. set (m := (sigma, firstn 4 (words key), skipn 4 (words key), words last)).
    assert (E : sched key last = flat m) by (unfold m, flat, sched; rewrite (app_assoc (firstn 4 _)), firstn_skipn; reflexivity).
    assert (M : matrix m). { unfold m, matrix. split; [reflexivity|]. split; [rewrite firstn_length_le; lia|]. split; [rewrite skipn_length; lia|]. split; [exact Wl|]. split; [exact sigma_words|]. rewrite <- (firstn_skipn 4 (words key)) in Fk. apply Forall_app in Fk as [F1 F2]. auto. }
    rewrite E. destruct (turns_ok m 10 M) as [-> M']. destruct (Nat.iter 10 double_round m) as [[[a b] c] d]. destruct M' as (A & B & C & D & _). unfold flat. rewrite !app_length, A, B, C, D. reflexivity.
  - apply Forall_forall. intros x I. apply in_map_iff in I as ([a b] & <- & _). reflexivity.
Qed.
Lemma core_bytes key last : bytes_ok (core key last).
Proof.
  unfold core. destruct (Nat.iter _ _ _) as [[[a b] c] d]. set (l := combine _ _). induction l as [|[x y] l IH]; [apply Forall_nil|]. cbn [map concat]. apply bytes_ok_app. split; [apply le_bytes_ok|exact IH].
Qed.

(** ** The context *)
Definition good_nonce (n : list Z) : Prop := bytes_ok n /\ (length n = 8 \/ length n = 12)%nat.
Definition last (nonce : list Z) (n : Z) : list Z := le_bytes (16 - length nonce) n ++ nonce.
Lemma last_ok nonce n : good_nonce nonce -> length (last nonce n) = 16%nat /\ bytes_ok (last nonce n).
Proof. intros [B L]. unfold last. rewrite app_length, le_bytes_length. split; [lia|]. apply bytes_ok_app. split; [apply le_bytes_ok|exact B]. Qed.
Lemma le4 x : le_val (le_bytes 4 x) = u32 x.
Proof. rewrite le_val_le_bytes_mod. reflexivity. Qed.
Lemma words_last nonce n : good_nonce nonce -> words (last nonce n) = if (length nonce =? 8)%nat then u32 n :: u32 (n / 2 ^ 32) :: words nonce else u32 n :: words nonce.
Proof.
  intros [B [L|L]]; unfold last; rewrite L; cbn [Nat.eqb Nat.sub].
  - change (le_bytes 8 n) with ([n mod 256; n / 256 mod 256; n / 256 / 256 mod 256; n / 256 / 256 / 256 mod 256] ++ le_bytes 4 (n / 256 / 256 / 256 / 256)). rewrite <- app_assoc, words_cons, words_cons by reflexivity. rewrite le4. change ([n mod 256; n / 256 mod 256; n / 256 / 256 mod 256; n / 256 / 256 / 256 mod 256]) with (le_bytes 4 n). rewrite le4. do 3 f_equal. rewrite !Z.div_div by lia. reflexivity.
  - rewrite words_cons by reflexivity. rewrite le4. reflexivity.
Qed.
Definition ready (c : chacha) (key : list Z) (n : Z) (nonce : list Z) : Prop := h_sched c = sched key (last nonce n) /\ h_nonce c = zlen nonce.
Lemma set_at (a : list Z) x y r n : length a = n -> ChaChaModel.set_nth (a ++ x :: r) n y = a ++ y :: r.
Proof. intros <-. unfold set_nth. rewrite firstn_app, Nat.sub_diag, firstn_O, app_nil_r, firstn_all2 by lia. do 2 f_equal. rewrite skipn_app, skipn_all2 by lia. replace (S (length a) - length a)%nat with 1%nat by lia. reflexivity. Qed.
Lemma at_ (a : list Z) x r n : length a = n -> nth n (a ++ x :: r) 0 = x.
Proof. intros <-. rewrite app_nth2 by lia. now rewrite Nat.sub_diag. Qed.
Lemma block_ok c key n nonce : length key = 32%nat -> bytes_ok key -> good_nonce nonce -> ready c key n nonce ->
  ready (block c) key (n + 1) nonce /\ h_stream (block c) = chacha_block key n nonce /\ h_avail (block c) = h_avail c.
Proof.
  intros Lk Bk G [Hs Hn]. destruct (last_ok nonce n G) as [Ll Bl]. pose proof (words_length key 8 Lk) as Wk. split; [|split; [|reflexivity]].
  - split; [|exact Hn]. unfold block. cbn [h_sched]. rewrite Hs, Hn. unfold sched. rewrite !words_last by exact G. rewrite !app_assoc. set (a := sigma ++ words key). assert (La : length a = 12%nat) by (unfold a; rewrite app_length, Wk; reflexivity).
    destruct G as [B [L|L]]; unfold zlen; rewrite L; cbn [Nat.eqb]; change (Z.of_nat 8 =? 8) with true; change (Z.of_nat 12 =? 8) with false.
    + rewrite (at_ a), (set_at a) by exact La. rewrite andb_true_r. unfold u32 in *. rewrite Zplus_mod_idemp_l. destruct (Z.eqb_spec ((n + 1) mod 2 ^ 32) 0) as [E|E].
      * change (a ++ (n + 1) mod 2 ^ 32 :: (n / 2 ^ 32) mod 2 ^ 32 :: words nonce) with (a ++ [(n + 1) mod 2 ^ 32] ++ (n / 2 ^ 32) mod 2 ^ 32 :: words nonce). rewrite app_assoc. rewrite (at_ (a ++ _)), (set_at (a ++ _)) by (rewrite app_length, La; reflexivity). rewrite <- app_assoc. cbn [app]. do 3 f_equal. rewrite Zplus_mod_idemp_l. f_equal.
        pose proof (Z.div_mod n (2 ^ 32) ltac:(discriminate)). pose proof (Z.div_mod (n + 1) (2 ^ 32) ltac:(discriminate)). pose proof (Z.mod_pos_bound n (2 ^ 32) ltac:(reflexivity)). change (2 ^ 32) with 4294967296 in *. nia.
      * do 3 f_equal. f_equal. pose proof (Z.div_mod n (2 ^ 32) ltac:(discriminate)). pose proof (Z.div_mod (n + 1) (2 ^ 32) ltac:(discriminate)). pose proof (Z.mod_pos_bound n (2 ^ 32) ltac:(reflexivity)). pose proof (Z.mod_pos_bound (n + 1) (2 ^ 32) ltac:(reflexivity)). change (2 ^ 32) with 4294967296 in *. nia.
    + rewrite (at_ a), (set_at a) by exact La. rewrite andb_false_r. unfold u32. rewrite Zplus_mod_idemp_l. reflexivity.
  - unfold block. cbn [h_stream]. rewrite Hs. apply core_ok; assumption.
Qed.
Lemma block_length key n nonce : length key = 32%nat -> bytes_ok key -> good_nonce nonce -> length (chacha_block key n nonce) = 64%nat.
Proof. intros Lk Bk G. destruct (last_ok nonce n G) as [Ll Bl]. now apply core_length. Qed.
#[local] Opaque chacha_block.
Lemma setup_ok c key nonce : length key = 32%nat -> bytes_ok key -> good_nonce nonce -> ready (setup c key 32 nonce (zlen nonce)) key 0 nonce /\ h_avail (setup c key 32 nonce (zlen nonce)) = 0.
Proof.
  intros Lk Bk G. split; [|reflexivity]. split; [|reflexivity]. unfold setup, ivsetup, keysetup. cbn [h_sched firstn app]. change (32 =? 32) with true. cbv iota.
  unfold sched. rewrite words_last by exact G. rewrite (words_at key 8 Lk Bk). cbn [map seq Nat.mul Nat.add]. change (Z.of_nat 4) with 4. change (Z.of_nat 8) with 8. change (Z.of_nat 12) with 12. change (Z.of_nat 16) with 16. change (Z.of_nat 20) with 20. change (Z.of_nat 24) with 24. change (Z.of_nat 28) with 28. change (Z.of_nat 0) with 0.
  change (16 mod 32) with 16. change (20 mod 32) with 20. change (24 mod 32) with 24. change (28 mod 32) with 28.
  assert (Es : sigma = [readle k32 0; readle k32 4; readle k32 8; readle k32 12]) by reflexivity. rewrite Es. cbn [app]. do 12 f_equal.
  destruct G as [B [L|L]]; unfold zlen; rewrite L; cbn [Nat.eqb]; [change (Z.of_nat 8 =? 8) with true|change (Z.of_nat 12 =? 8) with false]; cbv iota; [rewrite (words_at nonce 2 L B)|rewrite (words_at nonce 3 L B)]; reflexivity.
Qed.
Lemma counter_set_ok c key n m nonce : length key = 32%nat -> good_nonce nonce -> ready c key n nonce -> 0 <= m < 2 ^ 64 -> ready (counter_set c m) key m nonce /\ h_avail (counter_set c m) = 0.
Proof.
  intros Lk G [Hs Hn] Hm. split; [|reflexivity]. split; [|exact Hn]. unfold counter_set. cbn [h_sched]. rewrite Hs, Hn. unfold sched. rewrite !words_last by exact G. pose proof (words_length key 8 Lk) as Wk. rewrite !app_assoc. set (a := sigma ++ words key). assert (La : length a = 12%nat) by (unfold a; rewrite app_length, Wk; reflexivity).
  destruct G as [B [L|L]]; unfold zlen; rewrite L; cbn [Nat.eqb]; change (Z.of_nat 8 =? 8) with true; change (Z.of_nat 12 =? 8) with false.
  - rewrite (set_at a) by exact La. change (a ++ Z.land m 0xFFFFFFFF :: u32 (n / 2 ^ 32) :: words nonce) with (a ++ [Z.land m 0xFFFFFFFF] ++ u32 (n / 2 ^ 32) :: words nonce). rewrite app_assoc, (set_at (a ++ _)) by (rewrite app_length, La; reflexivity). rewrite <- app_assoc. cbn [app]. change 0xFFFFFFFF with (Z.ones 32). rewrite Z.land_ones, Z.shiftr_div_pow2 by lia. unfold u32. rewrite (Z.mod_small (m / 2 ^ 32)); [reflexivity|]. split; [apply Z.div_pos; lia|apply Z.div_lt_upper_bound; [lia|]; exact (proj2 Hm)].
  - cbv iota. rewrite (set_at a _ _ (words nonce)) by exact La. reflexivity.
Qed.
Lemma counter_get_ok c key n nonce : length key = 32%nat -> good_nonce nonce -> ready c key n nonce -> counter_get c = n mod 2 ^ (if (length nonce =? 8)%nat then 64 else 32).
Proof.
  intros Lk G [Hs Hn]. unfold counter_get. rewrite Hs, Hn. unfold sched. rewrite !words_last by exact G. pose proof (words_length key 8 Lk) as Wk. rewrite !app_assoc. set (a := sigma ++ words key). assert (La : length a = 12%nat) by (unfold a; rewrite app_length, Wk; reflexivity).
  destruct G as [B [L|L]]; unfold zlen; rewrite L; cbn [Nat.eqb]; change (Z.of_nat 8 =? 8) with true; change (Z.of_nat 12 =? 8) with false; cbv iota.
  - rewrite (at_ a _ _ 12) by exact La. replace (nth 13 (a ++ u32 n :: u32 (n / 2 ^ 32) :: words nonce) 0) with (u32 (n / 2 ^ 32)). 2:{ change (a ++ u32 n :: u32 (n / 2 ^ 32) :: words nonce) with (a ++ [u32 n] ++ u32 (n / 2 ^ 32) :: words nonce). rewrite app_assoc, at_ by (rewrite app_length, La; reflexivity). reflexivity. }
    rewrite Z.lor_comm, lor_shift by (lia || apply Z.mod_pos_bound; reflexivity). unfold u32. change (2 ^ 64) with (2 ^ 32 * 2 ^ 32). rewrite Z.rem_mul_r by lia. ring.
  - apply (at_ a). exact La.
Qed.

(** ** The stream *)
Section Stream.
Variables key nonce : list Z. Variable n0 : Z.
Hypothesis Lk : length key = 32%nat. Hypothesis Bk : bytes_ok key. Hypothesis G : good_nonce nonce.
Fixpoint xs (pos : nat) (m : list Z) : list Z := match m with [] => [] | x :: m => Z.lxor x (key_stream key n0 nonce pos) :: xs (S pos) m end.
Lemma xs_app a b pos : xs pos (a ++ b) = xs pos a ++ xs (pos + length a) b.
Proof. revert pos. induction a as [|x a IH]; intros pos; cbn [app xs length]; [now rewrite Nat.add_0_r|]. rewrite IH. do 3 f_equal. lia. Qed.
Lemma xs_length m pos : length (xs pos m) = length m.
Proof. revert pos. induction m as [|x m IH]; intros pos; [reflexivity|]. cbn [xs length]. now rewrite IH. Qed.
Lemma skipn_nth (l : list Z) i : (i < length l)%nat -> skipn i l = nth i l 0 :: skipn (S i) l.
Proof. revert l. induction i as [|i IH]; intros [|x l] H; cbn in H; try lia; [reflexivity|]. change (skipn (S i) (x :: l)) with (skipn i l). rewrite (IH l) by lia. reflexivity. Qed.
Lemma piece j off m : (off + length m <= 64)%nat -> xor_bytes (firstn (length m) (skipn off (chacha_block key (n0 + Z.of_nat j) nonce))) m = xs (64 * j + off) m.
Proof.
  revert off. induction m as [|x m IH]; intros off H; [reflexivity|]. cbn [length] in H. rewrite skipn_nth by (rewrite block_length by auto; lia). cbn [length firstn]. unfold xor_bytes. cbn [combine map xs]. f_equal.
  - unfold key_stream. replace ((64 * j + off) mod 64)%nat with off by (apply Nat.mod_unique with (q := j); lia). replace ((64 * j + off) / 64)%nat with j by (apply Nat.div_unique with (r := off); lia). reflexivity.
  - replace (S (64 * j + off)) with (64 * j + S off)%nat by lia. apply IH. lia.
Qed.
Definition at_pos (c : chacha) (pos : nat) : Prop :=
  exists nb, ready c key (n0 + Z.of_nat nb) nonce /\ 0 <= h_avail c < 64 /\ Z.of_nat pos + h_avail c = 64 * Z.of_nat nb /\ (0 < h_avail c -> h_stream c = chacha_block key (n0 + Z.of_nat nb - 1) nonce).
Lemma at_start c : ready c key n0 nonce -> h_avail c = 0 -> at_pos c 0.
Proof. intros R A. exists 0%nat. rewrite Z.add_0_r, A. split; [exact R|]. split; [lia|]. split; [reflexivity|lia]. Qed.
Lemma loop_pos fuel : forall c m pos, at_pos c pos -> h_avail c = 0 -> (length m <= fuel)%nat -> exists c', crypt_loop fuel c m = (c', xs pos m) /\ at_pos c' (pos + length m).
Proof.
  induction fuel as [|k IH]; intros c m pos P A L.
  - destruct m; [|cbn in L; lia]. exists c. split; [reflexivity|]. now rewrite Nat.add_0_r.
  - cbn [crypt_loop]. destruct (Z.eqb_spec (zlen m) 0) as [E|E]; [destruct m; [exists c; split; [reflexivity|now rewrite Nat.add_0_r]|unfold zlen in E; cbn in E; lia]|].
    destruct P as (nb & R & _ & Ep & _). destruct (block_ok c key _ nonce Lk Bk G R) as (R' & St & Av). set (c1 := block c) in *. clearbody c1.
    set (am := Z.min (zlen m) 64). set (q := Z.to_nat am). assert (Hq : (q = Nat.min (length m) 64)%nat) by (unfold q, am, zlen; lia). assert (Hm : (0 < length m)%nat) by (unfold zlen in E; lia).
    assert (Lq : length (firstn q m) = q) by (apply firstn_length_le; lia).
    assert (Eo : xor_bytes (firstn q (h_stream c1)) (firstn q m) = xs pos (firstn q m)). { rewrite St. rewrite <- Lq at 1. change (chacha_block key (n0 + Z.of_nat nb) nonce) with (skipn 0 (chacha_block key (n0 + Z.of_nat nb) nonce)). rewrite piece by lia. f_equal. lia. }
    cbv zeta. rewrite Eo. set (c2 := {| h_sched := h_sched c1; h_stream := h_stream c1; h_avail := 64 - am; h_nonce := h_nonce c1 |}).
    assert (P2 : at_pos c2 (pos + q)). { exists (S nb). unfold c2. cbn [h_avail h_stream]. split; [split; [cbn [h_sched]; rewrite (proj1 R'); do 2 f_equal; lia|exact (proj2 R')]|]. unfold am in *. split; [unfold zlen; lia|]. split; [unfold q, zlen in *; lia|]. intros _. rewrite St. f_equal. lia. }
    destruct (Nat.le_gt_cases (length m) 64) as [Hl|Hl].
    + rewrite (skipn_all2 m) by lia. exists c2. destruct k; cbn [crypt_loop]; change (zlen [] =? 0) with true; cbv iota; rewrite app_nil_r; rewrite firstn_all2 by lia; (split; [reflexivity|]); replace (length m) with q by lia; exact P2.
    + assert (A2 : h_avail c2 = 0) by (unfold c2, am, zlen; cbn [h_avail]; lia). destruct (IH c2 (skipn q m) (pos + q)%nat P2 A2 ltac:(rewrite skipn_length; lia)) as (c3 & -> & P3). exists c3. split.
      * f_equal. rewrite <- (firstn_skipn q m) at 3. rewrite xs_app, Lq. reflexivity.
      * rewrite skipn_length in P3. replace (pos + length m)%nat with (pos + q + (length m - q))%nat by lia. exact P3.
Qed.
Lemma encrypt_pos c m pos : at_pos c pos -> exists c', encrypt c m = (c', xs pos m) /\ at_pos c' (pos + length m).
Proof.
  intros P. unfold encrypt. destruct (Z.eqb_spec (zlen m) 0) as [E|E]; [destruct m; [exists c; split; [reflexivity|now rewrite Nat.add_0_r]|unfold zlen in E; cbn in E; lia]|].
  destruct (Z.eqb_spec (h_avail c) 0) as [A|A]; cbn [negb].
  - destruct (loop_pos (length m) c m pos P A ltac:(lia)) as (c' & -> & P'). exists c'. split; [reflexivity|exact P'].
  - destruct P as (nb & R & Ha & Ep & St). set (am := Z.min (zlen m) (h_avail c)). set (q := Z.to_nat am). assert (Hq : (Z.of_nat q = Z.min (Z.of_nat (length m)) (h_avail c))) by (unfold q, am, zlen in *; lia).
    assert (Lq : length (firstn q m) = q) by (apply firstn_length_le; lia). rewrite St by lia. destruct nb as [|nb]; [lia|]. replace (n0 + Z.of_nat (S nb) - 1) with (n0 + Z.of_nat nb) by lia.
    set (off := Z.to_nat (64 - h_avail c)). assert (Hoff : (pos = 64 * nb + off)%nat) by (unfold off; lia).
    assert (Eo : xor_bytes (firstn q (skipn off (chacha_block key (n0 + Z.of_nat nb) nonce))) (firstn q m) = xs pos (firstn q m)). { rewrite <- Lq at 1. rewrite piece by (unfold off; lia). f_equal. lia. }
    rewrite Eo. set (c2 := {| h_sched := h_sched c; h_stream := chacha_block key (n0 + Z.of_nat nb) nonce; h_avail := h_avail c - am; h_nonce := h_nonce c |}).
    assert (P2 : at_pos c2 (pos + q)). { exists (S nb). unfold c2. cbn [h_avail h_stream]. split; [exact R|]. split; [unfold am, zlen; lia|]. split; [unfold am, zlen; lia|]. intros _. f_equal. lia. }
    destruct (Nat.le_gt_cases (length m) q) as [Hl|Hl].
    + rewrite (skipn_all2 m) by lia. exists c2. cbn [length crypt_loop]. rewrite app_nil_r, firstn_all2 by lia. split; [reflexivity|]. replace (length m) with q by lia. exact P2.
    + assert (A2 : h_avail c2 = 0) by (unfold c2, am, zlen; cbn [h_avail]; lia). destruct (loop_pos (length (skipn q m)) c2 (skipn q m) (pos + q)%nat P2 A2 ltac:(lia)) as (c3 & -> & P3). exists c3. split.
      * f_equal. rewrite <- (firstn_skipn q m) at 3. rewrite xs_app, Lq. reflexivity.
      * rewrite skipn_length in P3. replace (pos + length m)%nat with (pos + q + (length m - q))%nat by lia. exact P3.
Qed.
Lemma xs_spec m : xs 0 m = chacha20 key n0 nonce m.
Proof.
  unfold chacha20. assert (H : forall m pos, xs pos m = map (fun i => Z.lxor (nth i m 0) (key_stream key n0 nonce (pos + i))) (seq 0 (length m))).
  { induction m0 as [|x m0 IH]; intros pos; [reflexivity|]. cbn [xs length seq map nth]. rewrite Nat.add_0_r. f_equal. rewrite IH, <- seq_shift, map_map. apply map_ext. intros i. cbn [nth]. do 2 f_equal. lia. }
  rewrite H. apply map_ext. intros i. reflexivity.
Qed.
End Stream.
