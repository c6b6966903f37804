(** C51, C52: base32 and hexadecimal. *)
From Verif Require Import Common CommonFacts HeaderFacts Base32Model.

(** Value of a list of base-32 digits, most significant first. *)
Definition val32 (l : list Z) : Z := fold_left (fun a d => a * 32 + d) l 0.
Definition digits_ok (l : list Z) : Prop := Forall (fun d => 0 <= d < 32) l.

(** Letter case does not matter. *)
Definition lower (c : Z) : Z := if (65 <=? c) && (c <=? 90) then c + 32 else c.

(** The digit of a character under an alphabet: its position, in any letter case. *)
Definition digit_of (cs : list Z) (c d : Z) : Prop := 0 <= d /\ nth_error cs (Z.to_nat d) = Some (lower c).

(** A string [s] is the base32 form of [data] under alphabet [cs] (without padding):
    ceil(8n/5) characters, whose value is the data's, shifted left to fill them. *)
Definition base32 (cs data s : list Z) : Prop :=
  exists ds, Forall2 (fun c d => 0 <= d /\ nth_error cs (Z.to_nat d) = Some c) s ds /\
    zlen s = (8 * zlen data + 4) / 5 /\ val32 ds = be_val data * 2 ^ (5 * zlen s - 8 * zlen data).
(** Padding fills up to a multiple of eight characters. *)
Definition pad_len (n : Z) : Z := (- n) mod 8.

Lemma nth_error_lt {A} (l : list A) n x : nth_error l n = Some x -> (n < length l)%nat.
Proof. intros E. apply nth_error_Some. congruence. Qed.
Lemma zlen_repeat (x : Z) n : zlen (repeat x n) = Z.of_nat n.
Proof. unfold zlen. now rewrite repeat_length. Qed.
Lemma zlen_map {A B} (f : A -> B) l : zlen (map f l) = zlen l.
Proof. unfold zlen. now rewrite map_length. Qed.
Lemma val32_snoc l d : val32 (l ++ [d]) = val32 l * 32 + d.
Proof. unfold val32. now rewrite fold_left_app. Qed.
Lemma be_val_snoc l d : be_val (l ++ [d]) = be_val l * 256 + d.
Proof. unfold be_val. rewrite rev_app_distr. cbn [rev app le_val]. lia. Qed.

Lemma val32_inj a : forall b, length a = length b -> digits_ok a -> digits_ok b -> val32 a = val32 b -> a = b.
Proof.
  induction a as [|x a IH] using rev_ind; intros b L Oa Ob E.
  - destruct b; [auto|discriminate].
  - destruct (exists_last (l := b)) as (b' & y & ->); [intros ->; rewrite app_length in L; cbn in L; lia|].
    rewrite !val32_snoc in E. apply Forall_app in Oa as [Oa Ox], Ob as [Ob Oy]. inversion Ox; inversion Oy; subst.
    rewrite !app_length in L. cbn in L. assert (x = y) by lia. subst. f_equal. apply IH; auto; lia.
Qed.
Lemma val32_bound l : digits_ok l -> 0 <= val32 l < 32 ^ zlen l.
Proof.
  induction l as [|x l IH] using rev_ind; intros O; [split; [discriminate|reflexivity]|]. apply Forall_app in O as [O Ox]. inversion Ox; subst.
  rewrite val32_snoc, zlen_app. change (zlen [x]) with 1. rewrite Z.pow_add_r by (unfold zlen; lia). specialize (IH O).
  change (32 ^ 1) with 32. nia.
Qed.

(** * Encoding *)
Local Notation byte_case := (fun P => byte_all P).

Lemma shiftr_div a n : 0 <= n -> Z.shiftr a n = a / 2 ^ n.
Proof. apply Z.shiftr_div_pow2. Qed.
Lemma land_mod a n : 0 <= n -> Z.land a (2 ^ n - 1) = a mod 2 ^ n.
Proof. intros. rewrite <- Z.land_ones by lia. now rewrite Z.ones_equiv, Z.sub_1_r. Qed.
Lemma lor_add a b n : 0 <= n -> 0 <= b < 2 ^ n -> (2 ^ n | a) -> Z.lor a b = a + b.
Proof.
  intros Hn Hb [k ->]. symmetry. rewrite Z.add_nocarry_lxor, <- Z.lxor_lor; auto.
  all: apply Z.bits_inj'; intros i Hi; rewrite Z.land_spec, Z.bits_0;
    destruct (Z.lt_ge_cases i n); [rewrite Z.mul_pow2_bits_low by lia; reflexivity|];
    (replace (Z.testbit b i) with false; [apply Bool.andb_false_r|]); symmetry;
    destruct (Z.eq_dec b 0) as [->|]; [apply Z.bits_0|]; apply Z.bits_above_log2; [lia|];
    apply Z.log2_lt_pow2; try lia; eapply Z.lt_le_trans; [apply Hb|]; apply Z.pow_le_mono_r; lia.
Qed.

(** State after [n] bytes: mode is n mod 5; [r] bits are pending in [left]. *)
Definition enc_inv (p ds : list Z) (mode left : Z) : Prop :=
  mode = zlen p mod 5 /\ digits_ok ds /\ zlen ds = 8 * zlen p / 5 /\
  (mode = 0 -> val32 ds = be_val p) /\
  (0 < mode -> val32 ds * 32 + left = be_val p * 2 ^ (5 * (zlen ds + 1) - 8 * zlen p) /\ 0 <= left < 32 /\
     (2 ^ (5 * (zlen ds + 1) - 8 * zlen p) | left)).

Lemma enc_loop_spec data : forall p ds mode left, bytes_ok data -> enc_inv p ds mode left ->
  let '(ix, m, l) := enc_loop data mode left in enc_inv (p ++ data) (ds ++ ix) m l.
Proof.
  induction data as [|ch r IH]; intros p ds mode left B I.
  - cbn. now rewrite !app_nil_r.
  - apply bytes_ok_cons in B as [Bc Br]. unfold is_byte in Bc. cbn [enc_loop].
    assert (Step : forall out left' mode', enc_inv (p ++ [ch]) (ds ++ out) mode' left' ->
      let '(ix, m, l) := (let '(out', m, l) := enc_loop r mode' left' in (out ++ out', m, l)) in
      enc_inv (p ++ ch :: r) (ds ++ ix) m l).
    { intros out left' mode' I'. specialize (IH _ _ _ _ Br I'). destruct (enc_loop r mode' left') as [[out' m] l].
      rewrite <- app_assoc in IH. cbn [app] in IH. now rewrite <- app_assoc in IH. }
    destruct I as (Em & Od & Ln & I0 & I1).
    set (n := zlen p) in *. assert (Hn : 0 <= n) by apply zlen_nonneg.
    assert (Lp : zlen (p ++ [ch]) = n + 1) by (rewrite zlen_app; reflexivity).
    assert (Hm : mode = 0 \/ mode = 1 \/ mode = 2 \/ mode = 3 \/ mode = 4) by lia.
    assert (R3 : Z.shiftr ch 3 = ch / 8) by (rewrite shiftr_div by lia; reflexivity).
    assert (R6 : Z.shiftr ch 6 = ch / 64) by (rewrite shiftr_div by lia; reflexivity).
    assert (R1 : Z.land (Z.shiftr ch 1) 31 = ch / 2 mod 32) by (change 31 with (2 ^ 5 - 1); rewrite land_mod, shiftr_div by lia; reflexivity).
    assert (R4 : Z.shiftr ch 4 = ch / 16) by (rewrite shiftr_div by lia; reflexivity).
    assert (R7 : Z.shiftr ch 7 = ch / 128) by (rewrite shiftr_div by lia; reflexivity).
    assert (R2 : Z.land (Z.shiftr ch 2) 31 = ch / 4 mod 32) by (change 31 with (2 ^ 5 - 1); rewrite land_mod, shiftr_div by lia; reflexivity).
    assert (R5 : Z.shiftr ch 5 = ch / 32) by (rewrite shiftr_div by lia; reflexivity).
    assert (R0 : Z.land ch 31 = ch mod 32) by (change 31 with (2 ^ 5 - 1); rewrite land_mod by lia; reflexivity).
    assert (L0 : Z.shiftl (Z.land ch 7) 2 = ch mod 8 * 4) by (change 7 with (2 ^ 3 - 1); rewrite land_mod, Z.shiftl_mul_pow2 by lia; reflexivity).
    assert (L1 : Z.shiftl (Z.land ch 1) 4 = ch mod 2 * 16) by (change 1 with (2 ^ 1 - 1) at 1; rewrite land_mod, Z.shiftl_mul_pow2 by lia; reflexivity).
    assert (L2 : Z.shiftl (Z.land ch 15) 1 = ch mod 16 * 2) by (change 15 with (2 ^ 4 - 1); rewrite land_mod, Z.shiftl_mul_pow2 by lia; reflexivity).
    assert (L3 : Z.shiftl (Z.land ch 3) 3 = ch mod 4 * 8) by (change 3 with (2 ^ 2 - 1) at 1; rewrite land_mod, Z.shiftl_mul_pow2 by lia; reflexivity).
    rewrite R3, R6, R1, R4, R7, R2, R5, R0, L0, L1, L2, L3. clear R3 R6 R1 R4 R7 R2 R5 R0 L0 L1 L2 L3.
    assert (V2 : forall a b, val32 (ds ++ [a; b]) = (val32 ds * 32 + a) * 32 + b).
    { intros. change [a; b] with ([a] ++ [b]). now rewrite app_assoc, !val32_snoc. }
    assert (Exp : forall e (X : Z), X = e -> 2 ^ X = 2 ^ e) by congruence.
    destruct Hm as [-> |[-> |[-> |[-> | ->]]]]; zred; apply Step; clear Step IH; unfold enc_inv;
      rewrite Lp, ?zlen_app; change (zlen [ch / 8]) with 1;
      (split; [lia|]).
    + specialize (I0 eq_refl). clear I1. split; [apply Forall_app; split; auto; repeat constructor; lia|].
      split; [lia|]. split; [lia|]. intros _. rewrite val32_snoc, be_val_snoc, I0.
      rewrite (Exp 2) by lia. change (2 ^ 2) with 4. split; [lia|]. split; [lia|]. exists (ch mod 8). lia.
    + destruct I1 as (I1 & Lb & Dv); [lia|]. rewrite (Exp 2) in * by lia. rewrite (lor_add _ _ 2) by (auto; lia).
      change (2 ^ 2) with 4 in *. destruct Dv as [q Dv].
      split; [apply Forall_app; split; auto; repeat constructor; lia|]. change (zlen [_; _]) with 2 in *.
      split; [lia|]. split; [lia|]. intros _. rewrite V2, be_val_snoc.
      rewrite (Exp 4) by lia. change (2 ^ 4) with 16. split; [lia|]. split; [lia|]. exists (ch mod 2). lia.
    + destruct I1 as (I1 & Lb & Dv); [lia|]. rewrite (Exp 4) in * by lia. rewrite (lor_add _ _ 4) by (auto; lia).
      change (2 ^ 4) with 16 in *. destruct Dv as [q Dv].
      split; [apply Forall_app; split; auto; repeat constructor; lia|]. change (zlen [_]) with 1 in *.
      split; [lia|]. split; [lia|]. intros _. rewrite val32_snoc, be_val_snoc.
      rewrite (Exp 1) by lia. change (2 ^ 1) with 2. split; [lia|]. split; [lia|]. exists (ch mod 16). lia.
    + destruct I1 as (I1 & Lb & Dv); [lia|]. rewrite (Exp 1) in * by lia. rewrite (lor_add _ _ 1) by (auto; lia).
      change (2 ^ 1) with 2 in *. destruct Dv as [q Dv].
      split; [apply Forall_app; split; auto; repeat constructor; lia|]. change (zlen [_; _]) with 2 in *.
      split; [lia|]. split; [lia|]. intros _. rewrite V2, be_val_snoc.
      rewrite (Exp 3) by lia. change (2 ^ 3) with 8. split; [lia|]. split; [lia|]. exists (ch mod 4). lia.
    + destruct I1 as (I1 & Lb & Dv); [lia|]. rewrite (Exp 3) in * by lia. rewrite (lor_add _ _ 3) by (auto; lia).
      change (2 ^ 3) with 8 in *. destruct Dv as [q Dv].
      split; [apply Forall_app; split; auto; repeat constructor; lia|]. change (zlen [_; _]) with 2 in *.
      split; [lia|]. split; [|intros; lia]. intros _. rewrite V2, be_val_snoc. lia.
Qed.

(** * Decoding *)
(** What the proofs need of an alphabet and its table. *)
Definition alphabet_ok (cs tb : list Z) : Prop :=
  zlen cs = 32 /\
  (forall c d, is_byte c -> digit tb c = d /\ d <> -1 <-> digit_of cs c d) /\
  (forall c, In c cs -> is_byte c /\ lower c = c) /\ digit tb 61 = -1.
Definition alphabet_okb (cs tb : list Z) : bool :=
  (zlen cs =? 32) && (digit tb 61 =? -1) &&
  forallb (fun c => (0 <=? c) && (c <? 256) && (lower c =? c)) cs &&
  forallb (fun c =>
    ((digit tb c =? -1) || (0 <=? digit tb c)) &&
    forallb (fun d => Bool.eqb (digit tb c =? Z.of_nat d) (nth d cs (-1) =? lower c)) (seq 0 32) &&
    (digit tb c <? 32))
    (map Z.of_nat (seq 0 256)).
Lemma alphabet_okb_sound cs tb : alphabet_okb cs tb = true -> alphabet_ok cs tb.
Proof.
  unfold alphabet_okb. rewrite !Bool.andb_true_iff, !forallb_forall. intros [[[L E] C] T].
  apply Z.eqb_eq in L, E. split; auto. split; [|split; auto].
  - intros c d Hc. unfold is_byte in Hc. assert (Hin : In c (map Z.of_nat (seq 0 256))).
    { rewrite in_map_iff. exists (Z.to_nat c). split; [lia|]. apply in_seq. lia. }
    specialize (T c Hin). rewrite !Bool.andb_true_iff in T. destruct T as [[T1 T2] T3].
    rewrite forallb_forall in T2. apply Bool.orb_true_iff in T1. rewrite Z.eqb_eq, Z.leb_le in T1. apply Z.ltb_lt in T3.
    assert (Hn : forall k, (k < 32)%nat -> nth_error cs k = Some (nth k cs (-1))).
    { intros k Hk. apply nth_error_nth'. unfold zlen in L. lia. }
    unfold digit_of. split.
    + intros [<- Hd]. destruct T1 as [T1|T1]; [congruence|]. split; auto.
      specialize (T2 (Z.to_nat (digit tb c))). rewrite in_seq in T2. specialize (T2 ltac:(lia)).
      rewrite Z2Nat.id, Z.eqb_refl in T2 by lia. apply Bool.eqb_prop in T2. symmetry in T2. apply Z.eqb_eq in T2.
      rewrite Hn by lia. congruence.
    + intros [Hd En]. assert (Z.to_nat d < 32)%nat. { apply nth_error_lt in En. unfold zlen in L. lia. }
      specialize (T2 (Z.to_nat d)). rewrite in_seq in T2. specialize (T2 ltac:(lia)). rewrite Hn in En by lia.
      injection En as En. rewrite En, Z.eqb_refl, Z2Nat.id in T2 by lia. apply Bool.eqb_prop in T2. apply Z.eqb_eq in T2. lia.
  - intros c Hc. specialize (C c Hc). rewrite !Bool.andb_true_iff, Z.leb_le, Z.ltb_lt, Z.eqb_eq in C. unfold is_byte. lia.
Qed.
Theorem alphabets_ok : alphabet_ok charset table /\ alphabet_ok charset_hex table_hex.
Proof. split; apply alphabet_okb_sound; vm_compute; reflexivity. Qed.

Definition dec_inv (ds out : list Z) (mode left : Z) : Prop :=
  mode = zlen ds mod 8 /\ digits_ok ds /\ bytes_ok out /\ zlen out = 5 * zlen ds / 8 /\
  (mode = 0 -> val32 ds = be_val out) /\
  (0 < mode -> val32 ds = be_val out * 2 ^ (5 * zlen ds - 8 * zlen out) + left /\
     0 <= left < 2 ^ (5 * zlen ds - 8 * zlen out)).

Lemma digit_lt cs c d : zlen cs = 32 -> digit_of cs c d -> 0 <= d < 32.
Proof. intros L [H0 H1]. apply nth_error_lt in H1. unfold zlen in L. lia. Qed.

Lemma dec_loop_spec cs tb : alphabet_ok cs tb -> forall str unpad ds out mode left, bytes_ok str -> dec_inv ds out mode left ->
  let '(bad, out', m, l, rest) := dec_loop tb str unpad mode left in
  exists s1 ds', str = s1 ++ rest /\ Forall2 (digit_of cs) s1 ds' /\ dec_inv (ds ++ ds') (out ++ out') m l /\
    match rest with
    | [] => bad = false
    | c :: _ => digit tb c = -1 /\ bad = negb (unpad && (0 <? m))
    end.
Proof.
  intros [Lc [Al _]] str unpad. induction str as [|ch r IH]; intros ds out mode left B I; cbn [dec_loop].
  - exists [], []. rewrite !app_nil_r. cbn. split; auto.
  - apply bytes_ok_cons in B as [Bc Br]. destruct (Z.eqb_spec (digit tb ch) (-1)) as [Ev|Ev].
    { exists [], []. rewrite !app_nil_r. cbn. split; auto. }
    destruct (Al ch (digit tb ch) Bc) as [Dg _]. specialize (Dg (conj eq_refl Ev)).
    pose proof (digit_lt _ _ _ Lc Dg) as Hv. set (v := digit tb ch) in *. clearbody v.
    assert (Step : forall o left' mode', dec_inv (ds ++ [v]) (out ++ map (fun x => x mod 256) o) mode' left' ->
      let '(bad, out', m, l, rest) := (let '(bad, out', m, l, s) := dec_loop tb r unpad mode' left' in
        (bad, map (fun x => x mod 256) o ++ out', m, l, s)) in
      exists s1 ds', ch :: r = s1 ++ rest /\ Forall2 (digit_of cs) s1 ds' /\ dec_inv (ds ++ ds') (out ++ out') m l /\
        match rest with
        | [] => bad = false
        | c :: _ => digit tb c = -1 /\ bad = negb (unpad && (0 <? m))
        end).
    { intros o left' mode' I'. specialize (IH _ _ _ _ Br I'). destruct (dec_loop tb r unpad mode' left') as [[[[bad out'] m] l] rest].
      destruct IH as (s1 & ds' & -> & F & I2 & R). exists (ch :: s1), (v :: ds'). rewrite <- !app_assoc in I2. cbn [app] in *. auto. }
    destruct I as (Em & Od & Bo & Ln & I0 & I1).
    set (n := zlen ds) in *. assert (Hn : 0 <= n) by apply zlen_nonneg.
    assert (Lp : zlen (ds ++ [v]) = n + 1) by (rewrite zlen_app; reflexivity).
    assert (Hm : mode = 0 \/ mode = 1 \/ mode = 2 \/ mode = 3 \/ mode = 4 \/ mode = 5 \/ mode = 6 \/ mode = 7) by lia.
    assert (Od' : digits_ok (ds ++ [v])) by (apply Forall_app; split; auto; repeat constructor; lia).
    assert (R2 : Z.shiftr v 2 = v / 4) by (rewrite shiftr_div by lia; reflexivity).
    assert (R4 : Z.shiftr v 4 = v / 16) by (rewrite shiftr_div by lia; reflexivity).
    assert (R1 : Z.shiftr v 1 = v / 2) by (rewrite shiftr_div by lia; reflexivity).
    assert (R3 : Z.shiftr v 3 = v / 8) by (rewrite shiftr_div by lia; reflexivity).
    assert (M3 : Z.land v 3 = v mod 4) by (change 3 with (2 ^ 2 - 1); rewrite land_mod by lia; reflexivity).
    assert (M15 : Z.land v 15 = v mod 16) by (change 15 with (2 ^ 4 - 1); rewrite land_mod by lia; reflexivity).
    assert (M1 : Z.land v 1 = v mod 2) by (change 1 with (2 ^ 1 - 1) at 1; rewrite land_mod by lia; reflexivity).
    assert (M7 : Z.land v 7 = v mod 8) by (change 7 with (2 ^ 3 - 1); rewrite land_mod by lia; reflexivity).
    rewrite R2, R4, R1, R3, M3, M15, M1, M7, !Z.shiftl_mul_pow2 by lia.
    clear R2 R4 R1 R3 M3 M15 M1 M7.
    assert (Dv : forall k, (2 ^ k | left * 2 ^ k)) by (intros; exists left; auto).
    rewrite (lor_add _ (v / 4) 3), (lor_add _ v 5), (lor_add _ (v / 16) 1), (lor_add _ (v / 2) 4), (lor_add _ (v / 8) 2)
      by (auto; lia).
    change (2 ^ 3) with 8. change (2 ^ 5) with 32. change (2 ^ 1) with 2. change (2 ^ 4) with 16. change (2 ^ 2) with 4.
    assert (Bs : forall x, bytes_ok (out ++ [x mod 256])).
    { intros x. apply bytes_ok_app. split; auto. constructor; [unfold is_byte; lia|constructor]. }
    assert (Exp : forall e (X : Z), X = e -> 2 ^ X = 2 ^ e) by congruence.
    assert (Lo : forall x : Z, zlen (out ++ [x]) = zlen out + 1) by (intros; rewrite zlen_app; reflexivity).
    destruct Hm as [-> |[-> |[-> |[-> |[-> |[-> |[-> | ->]]]]]]]; zred; apply Step; clear Step IH; unfold dec_inv;
      cbn [map]; rewrite ?app_nil_r, Lp, ?Lo, val32_snoc, ?be_val_snoc;
      (split; [lia|]); (split; [auto|]); (split; [auto|]); (split; [lia|]).
    + specialize (I0 eq_refl). split; [lia|]. intros _. rewrite (Exp 5) by lia. change (2 ^ 5) with 32. lia.
    + destruct I1 as (I1 & Lb); [lia|]. rewrite (Exp 5) in * by lia. change (2 ^ 5) with 32 in *.
      split; [lia|]. intros _. rewrite (Exp 2) by lia. change (2 ^ 2) with 4. lia.
    + destruct I1 as (I1 & Lb); [lia|]. rewrite (Exp 2) in * by lia. change (2 ^ 2) with 4 in *.
      split; [lia|]. intros _. rewrite (Exp 7) by lia. change (2 ^ 7) with 128. lia.
    + destruct I1 as (I1 & Lb); [lia|]. rewrite (Exp 7) in * by lia. change (2 ^ 7) with 128 in *.
      split; [lia|]. intros _. rewrite (Exp 4) by lia. change (2 ^ 4) with 16. lia.
    + destruct I1 as (I1 & Lb); [lia|]. rewrite (Exp 4) in * by lia. change (2 ^ 4) with 16 in *.
      split; [lia|]. intros _. rewrite (Exp 1) by lia. change (2 ^ 1) with 2. lia.
    + destruct I1 as (I1 & Lb); [lia|]. rewrite (Exp 1) in * by lia. change (2 ^ 1) with 2 in *.
      split; [lia|]. intros _. rewrite (Exp 6) by lia. change (2 ^ 6) with 64. lia.
    + destruct I1 as (I1 & Lb); [lia|]. rewrite (Exp 6) in * by lia. change (2 ^ 6) with 64 in *.
      split; [lia|]. intros _. rewrite (Exp 3) by lia. change (2 ^ 3) with 8. lia.
    + destruct I1 as (I1 & Lb); [lia|]. rewrite (Exp 3) in * by lia. change (2 ^ 3) with 8 in *.
      split; [|intros; lia]. intros _. lia.
Qed.

Lemma digits_forall cs s ds : zlen cs = 32 -> Forall2 (digit_of cs) s ds -> digits_ok ds.
Proof. intros L. induction 1; constructor; eauto using digit_lt. Qed.
Lemma Forall2_length {A B} (R : A -> B -> Prop) l1 l2 : Forall2 R l1 l2 -> length l1 = length l2.
Proof. induction 1; cbn; congruence. Qed.
Lemma Forall2_zlen {A B} (R : A -> B -> Prop) l1 l2 : Forall2 R l1 l2 -> zlen l1 = zlen l2.
Proof. intros F. unfold zlen. f_equal. eapply Forall2_length; eauto. Qed.

Lemma split_unique (P : Z -> Prop) a : forall b c d, a ++ b = c ++ d -> Forall P a -> Forall P c ->
  (forall x r, b = x :: r -> ~ P x) -> (forall x r, d = x :: r -> ~ P x) -> a = c /\ b = d.
Proof.
  induction a as [|x a IH]; intros b c d E Fa Fc Nb Nd.
  - destruct c as [|y c]; [auto|]. cbn in E. exfalso. inversion Fc; subst. eapply Nb; eauto.
  - destruct c as [|y c]; cbn in E.
    + exfalso. inversion Fa; subst. eapply Nd; eauto.
    + injection E as -> E. inversion Fa; inversion Fc; subst. destruct (IH _ _ _ E) as [-> ->]; auto.
Qed.

(** Specification of what a string means: its longest prefix of digits. *)
Definition is_digit (cs : list Z) (c : Z) : Prop := exists d, digit_of cs c d.

Lemma is_digit_iff cs tb c : alphabet_ok cs tb -> is_byte c -> is_digit cs c <-> digit tb c <> -1.
Proof.
  intros (_ & Al & _) B. split.
  - intros [d D]. apply Al in D as [E N]; auto. congruence.
  - intros N. exists (digit tb c). apply Al; auto.
Qed.

Lemma base32_unique cs data s s' : zlen cs = 32 -> base32 cs data s -> base32 cs data s' -> s = s'.
Proof.
  intros Lc (ds & F & L & V) (ds' & F' & L' & V').
  assert (D : forall s ds, Forall2 (fun c d => 0 <= d /\ nth_error cs (Z.to_nat d) = Some c) s ds -> digits_ok ds).
  { induction 1 as [|c d ? ? [H0 H1]]; constructor; auto. apply nth_error_lt in H1. unfold zlen in Lc. lia. }
  assert (ds = ds').
  { apply val32_inj; eauto.
    - apply Forall2_length in F, F'. unfold zlen in *. lia.
    - rewrite V, V', L, L'. reflexivity. }
  subst ds'. clear - F F'. revert s' F'. induction F as [|c d ? ? [H0 H1] F IH]; intros s' F'; inversion F' as [|c' ? ? ? [H2 H3]]; subst; auto.
  f_equal; [congruence|auto].
Qed.

(** C51: encoding. The characters written are exactly the base32 form, padded with
    '=' to a multiple of eight if asked, and the size function announces their number
    and the terminating 0. *)
Theorem base32_encoding_exact : forall cs tb data pad, alphabet_ok cs tb -> bytes_ok data ->
  exists s, base32 cs data s /\
    encode2 cs data pad = Ok (s ++ if pad then repeat 61 (Z.to_nat (pad_len (zlen s))) else []) /\
    encode_size data pad = zlen (s ++ if pad then repeat 61 (Z.to_nat (pad_len (zlen s))) else []) + 1.
Proof.
  intros cs tb data pad (Lc & _) B.
  assert (I0 : enc_inv [] [] 0 0).
  { unfold enc_inv. repeat split; try constructor; try (intros; lia). }
  pose proof (enc_loop_spec data [] [] 0 0 B I0) as S. unfold encode2, encode_size.
  destruct (enc_loop data 0 0) as [[ix m] l]. cbn [app] in S. destruct S as (Em & Od & Ln & S0 & S1).
  set (n := zlen data) in *. assert (Hn : 0 <= n) by apply zlen_nonneg.
  set (ds := if 0 <? m then ix ++ [l] else ix).
  assert (P : digits_ok ds /\ zlen ds = (8 * n + 4) / 5 /\ val32 ds = be_val data * 2 ^ (5 * zlen ds - 8 * n)).
  { unfold ds. destruct (Z.ltb_spec 0 m).
    - destruct S1 as (V & Lb & _); [lia|]. split; [apply Forall_app; split; auto; repeat constructor; lia|].
      rewrite zlen_app. change (zlen [l]) with 1. split; [lia|]. now rewrite val32_snoc, V.
    - split; auto. split; [lia|]. rewrite S0 by lia. replace (5 * zlen ix - 8 * n) with 0 by lia. change (2 ^ 0) with 1. lia. }
  destruct P as (Od' & Lds & V).
  assert (Ch : exists s, chars_of cs ds = Ok s /\ Forall2 (fun c d => 0 <= d /\ nth_error cs (Z.to_nat d) = Some c) s ds).
  { clear - Od' Lc. induction ds as [|d ds IH]; cbn [chars_of]; [eauto|]. inversion Od'; subst. destruct (IH H2) as (s & -> & F).
    destruct (Z.ltb_spec d 0); [lia|]. destruct (nth_error cs (Z.to_nat d)) as [c|] eqn:E.
    - exists (c :: s). split; auto.
    - apply nth_error_None in E. unfold zlen in Lc. lia. }
  destruct Ch as (s & Ec & F). rewrite Ec. cbn [obind].
  assert (Ls : zlen s = zlen ds) by (eapply Forall2_zlen; eauto).
  assert (Hm : m = 0 \/ m = 1 \/ m = 2 \/ m = 3 \/ m = 4) by lia.
  assert (Pd : (if (0 <? m) && pad then repeat 61 (Z.to_nat (nth (Z.to_nat m) padding 0)) else []) =
    if pad then repeat 61 (Z.to_nat (pad_len (zlen s))) else []).
  { destruct pad; [|now rewrite Bool.andb_false_r]. rewrite Bool.andb_true_r.
    replace (pad_len (zlen s)) with (nth (Z.to_nat m) padding 0).
    - destruct Hm as [-> |[-> |[-> |[-> | ->]]]]; reflexivity.
    - unfold pad_len. rewrite Ls, Lds. destruct Hm as [-> |[-> |[-> |[-> | ->]]]]; (match goal with |- ?a = _ => let b := eval vm_compute in a in change a with b end); lia. }
  exists s. split.
  - exists ds. split; auto. rewrite Ls. auto.
  - rewrite Pd. split; auto. rewrite zlen_app, Ls. rewrite Ls in Pd. unfold ds at 1. destruct (Z.ltb_spec 0 m); [|].
    + rewrite zlen_app. change (zlen [l]) with 1. destruct pad; [|change (zlen []) with 0; lia].
      rewrite Bool.andb_true_r in Pd. rewrite <- Pd. destruct (Z.ltb_spec 0 m); [|lia].
      rewrite zlen_repeat. assert (0 <= nth (Z.to_nat m) padding 0); [|lia].
      destruct Hm as [-> |[-> |[-> |[-> | ->]]]]; cbv; discriminate.
    + assert (m = 0) by lia. subst m. destruct pad; [|change (zlen []) with 0; lia]. rewrite <- Pd. zred. cbn [andb]. change (zlen []) with 0. lia.
Qed.

(** The meaning of the loop on a whole string. *)
Lemma dec_start : dec_inv [] [] 0 0.
Proof. unfold dec_inv. repeat split; try constructor; try (intros; lia). Qed.

Lemma lower_eq_61 c : lower c = 61 -> c = 61.
Proof. unfold lower. destruct ((65 <=? c) && (c <=? 90)) eqn:E; [|auto]. apply Bool.andb_true_iff in E. lia. Qed.

Lemma no_carry a b P l : a * P = b * P + l -> 0 <= l < P -> b = a /\ l = 0.
Proof. intros E H. assert (D : (a - b) * P = l) by lia. destruct (Z.lt_trichotomy (a - b) 0) as [X|[X|X]]; [nia|nia|nia]. Qed.
Lemma pad_check (tb : list Z) m l rest bad k (G : Prop) : 0 < m -> G -> 0 <= l -> (0 < k)%nat ->
  match rest with [] => bad = false | c :: _ => digit tb c = -1 /\ bad = negb (true && (0 <? m)) end ->
  bad = false /\ negb (0 <? l) && beq rest (repeat 61 k) = true <-> G /\ (m = 0 \/ l = 0) /\ rest = repeat 61 k.
Proof.
  intros Hm g Hl Hk R. rewrite Bool.andb_true_iff, beq_true_iff. destruct (Z.ltb_spec 0 l) as [H|H]; cbn [negb].
  - split; [intros (_ & ? & _); discriminate|intros (_ & ? & _); lia].
  - split; [intros (_ & _ & ->); split; auto; split; auto; lia|]. intros (_ & _ & ->). split; auto.
    destruct k; [lia|]. cbn [repeat] in R. destruct R as [_ ->]. destruct (Z.ltb_spec 0 m); [reflexivity|lia].
Qed.

(** C51: decoding of padded strings accepts exactly the padded base32 form (letters in
    any case) and returns the data; everything else is an error. *)
Theorem base32_padded_decoding_exact : forall cs tb str, alphabet_ok cs tb -> bytes_ok str ->
  (forall data, bytes_ok data -> decode2 tb str true = (zlen data, data) <->
     exists s, base32 cs data s /\ map lower str = s ++ repeat 61 (Z.to_nat (pad_len (zlen s)))) /\
  (fst (decode2 tb str true) <> -1 -> fst (decode2 tb str true) = zlen (snd (decode2 tb str true))).
Proof.
  intros cs tb str Al B. pose proof Al as (Lc & Dg & Ch & Eq). unfold decode2.
  pose proof (dec_loop_spec cs tb Al str true [] [] 0 0 B dec_start) as S.
  destruct (dec_loop tb str true 0 0) as [[[[bad out] m] l] rest]. cbn [app] in S.
  destruct S as (s1 & ds & -> & F & (Em & Od & Bo & Ln & I0 & I1) & R). apply bytes_ok_app in B as [B1 B2].
  set (n := zlen ds) in *. assert (Hn : 0 <= n) by apply zlen_nonneg.
  assert (L1 : zlen s1 = n) by (eapply Forall2_zlen; eauto).
  assert (P1 : Forall (is_digit cs) s1). { clear - F. induction F; constructor; auto. eexists; eauto. }
  assert (Nd : forall x r, rest = x :: r -> ~ is_digit cs x).
  { intros x r -> D. destruct R as [R _]. inversion B2; subst. apply (is_digit_iff cs tb) in D; auto. }
  assert (Hm : m = 0 \/ m = 1 \/ m = 2 \/ m = 3 \/ m = 4 \/ m = 5 \/ m = 6 \/ m = 7) by lia.
  (* the check at the end *)
  set (ok := if m =? 0 then true else if (m =? 1) || (m =? 3) || (m =? 6) then false
      else negb (0 <? l) && beq rest (repeat 61 (if m =? 2 then 6%nat else if m =? 4 then 4%nat else if m =? 5 then 3%nat else 1%nat))).
  assert (Okiff : bad = false /\ ok = true <->
    (m = 0 \/ m = 2 \/ m = 4 \/ m = 5 \/ m = 7) /\ (m = 0 \/ l = 0) /\ rest = repeat 61 (Z.to_nat (pad_len n))).
  { assert (X : forall k, Z.to_nat (pad_len n) = k -> repeat 61 (Z.to_nat (pad_len n)) = repeat 61 k) by congruence.
    unfold ok. destruct Hm as [-> |[-> |[-> |[-> |[-> |[-> |[-> | ->]]]]]]]; zred; cbn [orb andb].
    - rewrite (X 0%nat) by (unfold pad_len; lia). cbn [repeat]. split.
      + intros [-> _]. split; [auto|]. split; [auto|]. destruct rest; auto. destruct R as [_ R]. discriminate.
      + intros (_ & _ & ->). auto.
    - split; [intros [_ ?]; discriminate|intros [? _]; lia].
    - rewrite (X 6%nat) by (unfold pad_len; lia). apply (pad_check tb); auto; try lia; apply I1; lia.
    - split; [intros [_ ?]; discriminate|intros [? _]; lia].
    - rewrite (X 4%nat) by (unfold pad_len; lia). apply (pad_check tb); auto; try lia; apply I1; lia.
    - rewrite (X 3%nat) by (unfold pad_len; lia). apply (pad_check tb); auto; try lia; apply I1; lia.
    - split; [intros [_ ?]; discriminate|intros [? _]; lia].
    - rewrite (X 1%nat) by (unfold pad_len; lia). apply (pad_check tb); auto; try lia; apply I1; lia. }
  assert (Res : (if bad then (-1, out) else (if (if negb true then true else ok) then zlen out else -1, out)) =
    (if negb bad && ok then zlen out else -1, out)). { destruct bad, ok; reflexivity. }
  cbn zeta. fold ok. rewrite Res. clear Res.
  split.
  - intros data Bd. split.
    + intros E. injection E as E ->. pose proof (zlen_nonneg data).
      assert (X : bad = false /\ ok = true) by (destruct bad, ok; cbn in E; auto; lia).
      apply Okiff in X as (Xm & Xl & ->). exists (map lower s1). split.
      * exists ds. split; [|split].
        -- clear - F. induction F as [|c d ? ? [? ?]]; cbn; constructor; auto.
        -- rewrite zlen_map. lia.
        -- rewrite zlen_map. rewrite L1. destruct (Z.eq_dec m 0) as [E0|N0].
           ++ rewrite I0 by auto. replace (5 * n - 8 * zlen data) with 0 by lia. change (2 ^ 0) with 1. lia.
           ++ destruct I1 as [-> _]; [lia|]. lia.
      * rewrite map_app. rewrite zlen_map. rewrite L1. f_equal.
        generalize (Z.to_nat (pad_len n)). intros k. induction k; cbn; [reflexivity|]. now f_equal.
    + intros (s & Bs & Es). rewrite map_app in Es.
      assert (Fs : Forall (is_digit cs) s /\ Forall (fun c => is_byte c /\ lower c = c) s).
      { destruct Bs as (ds' & F' & _). clear - F' Ch. split; induction F' as [|c d ? ? [? E]]; constructor; auto.
        - exists d. split; auto. destruct (Ch c) as [_ ->]; auto. eapply nth_error_In; eauto.
        - apply Ch. eapply nth_error_In; eauto. }
      destruct Fs as [Fs Fl].
      assert (Dl : forall c, is_digit cs c -> is_digit cs (lower c)).
      { intros c [d [D1 D2]]. exists d. split; auto. destruct (Ch (lower c)) as [_ ->]; auto. eapply nth_error_In; eauto. }
      assert (Nl : forall c, is_digit cs (lower c) -> is_digit cs c).
      { intros c [d [D1 D2]]. exists d. split; auto. unfold digit_of. destruct (Ch (lower (lower c))) as [_ E]; [eapply nth_error_In; eauto|].
        rewrite D2. f_equal. unfold lower. destruct ((65 <=? c) && (c <=? 90)) eqn:E1; [|now rewrite E1].
        apply Bool.andb_true_iff in E1. destruct ((65 <=? c + 32) && (c + 32 <=? 90)) eqn:E2; auto. apply Bool.andb_true_iff in E2. lia. }
      destruct (split_unique (is_digit cs) (map lower s1) (map lower rest) s (repeat 61 (Z.to_nat (pad_len (zlen s))))) as [E1 E2]; auto.
      { clear - P1 Dl. induction P1; cbn; constructor; auto. }
      { intros x r E D. destruct rest as [|y rest]; [discriminate|]. injection E as <- <-. eapply Nd; eauto. }
      { intros x r E D. destruct (Z.to_nat (pad_len (zlen s))); [discriminate|]. injection E as <- <-.
        apply (is_digit_iff cs tb) in D; auto. unfold is_byte; lia. }
      assert (Ls : zlen s = n) by (rewrite <- E1; unfold zlen; rewrite map_length; exact L1).
      rewrite Ls in E2.
      assert (Er : rest = repeat 61 (Z.to_nat (pad_len n))).
      { clear - E2. revert E2. generalize (Z.to_nat (pad_len n)). induction rest as [|x rest IH]; intros [|k] E; cbn in *; try discriminate; auto.
        injection E as E1 E2. apply lower_eq_61 in E1. subst. f_equal. auto. }
      destruct Bs as (ds' & F' & L' & V'). assert (ds' = ds).
      { clear - F F' E1 Dg B1 Ch Lc. revert s ds' E1 F'. induction F as [|c d ? ? D F IH]; intros s ds' E1 F'; cbn in E1; subst s; inversion F' as [|? d' ? ? [H0 H1]]; subst; auto.
        inversion B1; subst. f_equal; [|eapply IH; eauto].
        assert (X : digit_of cs c d') by (split; auto). apply Dg in X as [<- _]; auto. apply Dg in D as [<- _]; auto. }
      subst ds'. rewrite Ls in L', V'. set (k := zlen data) in *. assert (Hk : 0 <= k) by apply zlen_nonneg.
      assert (Lo : zlen out = k) by lia.
      assert (V : be_val out = be_val data /\ (m = 0 \/ l = 0)).
      { destruct (Z.eq_dec m 0) as [E0|N0].
        - rewrite I0 in V' by auto. replace (5 * n - 8 * k) with 0 in V' by lia. change (2 ^ 0) with 1 in V'. lia.
        - destruct I1 as [V Lb]; [lia|]. rewrite V' in V. rewrite Lo in *. set (P := 2 ^ (5 * n - 8 * k)) in *.
          destruct (no_carry (be_val data) (be_val out) P l) as [X Y]; [lia|lia|]. split; auto. }
      destruct V as [V Vl].
      assert (out = data).
      { rewrite <- (be_bytes_be_val out), <- (be_bytes_be_val data) by auto. rewrite V. f_equal. unfold k, zlen in Lo. lia. }
      subst out. destruct (proj2 Okiff) as [-> ->]; [|reflexivity]. split; [lia|]. auto.
  - destruct (negb bad && ok); cbn; congruence.
Qed.

(** C51: decoding of unpadded strings accepts exactly strings of digits; it returns
    the whole bytes among their bits and drops the rest. *)
Theorem base32_unpadded_decoding_exact : forall cs tb str, alphabet_ok cs tb -> bytes_ok str ->
  (fst (decode2 tb str false) = -1 <-> ~ Forall (is_digit cs) str) /\
  (forall ds, Forall2 (digit_of cs) str ds ->
     exists data, decode2 tb str false = (zlen data, data) /\ bytes_ok data /\ zlen data = 5 * zlen str / 8 /\
       be_val data = val32 ds / 2 ^ (5 * zlen str - 8 * zlen data)).
Proof.
  intros cs tb str Al B. pose proof Al as (Lc & Dg & Ch & Eq). unfold decode2.
  pose proof (dec_loop_spec cs tb Al str false [] [] 0 0 B dec_start) as S.
  destruct (dec_loop tb str false 0 0) as [[[[bad out] m] l] rest]. cbn [app] in S.
  destruct S as (s1 & ds & -> & F & (Em & Od & Bo & Ln & I0 & I1) & R). apply bytes_ok_app in B as [B1 B2]. cbn [negb andb] in *.
  assert (P1 : Forall (is_digit cs) s1). { clear - F. induction F; constructor; auto. eexists; eauto. }
  pose proof (zlen_nonneg out). destruct rest as [|c rest].
  - subst bad. rewrite app_nil_r. split.
    + cbn. split; [lia|]. intros N. tauto.
    + intros ds' F'. assert (ds' = ds).
      { clear - F F' Dg B1. revert ds' F'. induction F as [|c d ? ? D F IH]; intros ds' F'; inversion F'; subst; auto.
        inversion B1; subst. f_equal; [|auto]. apply Dg in D as [<- _]; auto. apply Dg in H1 as [<- _]; auto. }
      subst ds'. exists out. assert (L1 : zlen s1 = zlen ds) by (eapply Forall2_zlen; eauto).
      split; auto. split; auto. split; [lia|]. rewrite L1. pose proof (zlen_nonneg ds). destruct (Z.eq_dec m 0) as [E0|N0].
      * rewrite I0 by auto. replace (5 * zlen ds - 8 * zlen out) with 0 by lia. change (2 ^ 0) with 1. now rewrite Z.div_1_r.
      * destruct I1 as [V Lb]; [lia|]. rewrite V. rewrite Z.div_add_l, Z.div_small by lia. lia.
  - destruct R as [R ->]. split.
    + cbn. split; auto. intros _ N. apply Forall_app in N as [_ N]. inversion N; subst. inversion B2; subst.
      apply (is_digit_iff cs tb) in H2; auto.
    + intros ds' F'. exfalso. apply Forall2_app_inv_l in F' as (? & ? & _ & F' & _). inversion F'; subst. inversion B2; subst.
      assert (X : is_digit cs c) by (eexists; eauto). apply (is_digit_iff cs tb) in X; auto.
Qed.

(** C51: the bytes written, also in case of an error, never exceed 5/8 of the input,
    nor the value of the size function. *)
Theorem base32_decoding_within_size : forall cs tb str unpad, alphabet_ok cs tb -> bytes_ok str ->
  8 * zlen (snd (decode2 tb str unpad)) <= 5 * zlen str /\
  zlen (snd (decode2 tb str unpad)) <= decode_size tb str /\
  bytes_ok (snd (decode2 tb str unpad)).
Proof.
  intros cs tb str unpad Al B.
  assert (G : forall unpad, 8 * zlen (snd (decode2 tb str unpad)) <= 5 * zlen str /\ bytes_ok (snd (decode2 tb str unpad))).
  { clear unpad. intros unpad. unfold decode2. pose proof (dec_loop_spec cs tb Al str unpad [] [] 0 0 B dec_start) as S.
    destruct (dec_loop tb str unpad 0 0) as [[[[bad out] m] l] rest]. cbn [app] in S.
    destruct S as (s1 & ds & E & F & (Em & Od & Bo & Ln & _) & _).
    assert (zlen s1 = zlen ds) by (eapply Forall2_zlen; eauto). subst str. rewrite zlen_app. pose proof (zlen_nonneg rest). pose proof (zlen_nonneg ds).
    destruct bad; cbn [snd]; split; auto; lia. }
  destruct (G unpad) as [G1 G2]. split; auto. split; auto. unfold decode_size.
  destruct (Z.eqb_spec (fst (decode2 tb str false)) (-1)) as [E|E]; [lia|].
  destruct (base32_unpadded_decoding_exact cs tb str Al B) as [U1 U2].
  assert (Dec : exists ds, Forall2 (digit_of cs) str ds).
  { assert (D : ~ ~ Forall (is_digit cs) str) by tauto. clear - D Al B.
    induction str as [|c r IH]; [exists []; constructor|]. inversion B; subst.
    destruct (Z.eq_dec (digit tb c) (-1)) as [N|N].
    - exfalso. apply D. intros X. inversion X; subst. apply (is_digit_iff cs tb) in H3; auto.
    - destruct IH as [ds F]; auto. { intros N2. apply D. intros X. inversion X; auto. }
      apply (is_digit_iff cs tb) in N as [d N]; auto. exists (d :: ds). constructor; auto. }
  destruct Dec as [ds F]. destruct (U2 ds F) as (data & Ed & _ & Ld & _). rewrite Ed. cbn [fst]. lia.
Qed.

(** C51: round trips, with and without padding. *)
Theorem base32_round_trip : forall cs tb data pad, alphabet_ok cs tb -> bytes_ok data ->
  exists s, encode2 cs data pad = Ok s /\ encode_size data pad = zlen s + 1 /\ decode2 tb s pad = (zlen data, data).
Proof.
  intros cs tb data pad Al B. pose proof Al as (Lc & Dg & Ch & Eq).
  destruct (base32_encoding_exact cs tb data pad Al B) as (s & Bs & -> & ->). eexists. split; [reflexivity|]. split; [reflexivity|].
  pose proof Bs as (ds & F & L & V).
  assert (Fc : Forall (fun c => is_byte c /\ lower c = c) s).
  { clear - F Ch. induction F as [|c d ? ? [? ?]]; constructor; auto. apply Ch. eapply nth_error_In; eauto. }
  assert (Bb : bytes_ok s). { clear - Fc. induction Fc as [|? ? []]; constructor; auto. }
  assert (El : map lower s = s). { clear - Fc. induction Fc as [|? ? []]; cbn; congruence. }
  destruct pad.
  - apply (base32_padded_decoding_exact cs tb); auto.
    + apply bytes_ok_app. split; auto. apply Forall_forall. intros x X. apply repeat_spec in X. subst. unfold is_byte. lia.
    + exists s. split; auto. rewrite map_app, El. f_equal. generalize (Z.to_nat (pad_len (zlen s))). intros k. induction k; cbn; [reflexivity|]. now f_equal.
  - rewrite app_nil_r. destruct (base32_unpadded_decoding_exact cs tb s Al Bb) as [_ U].
    destruct (U ds) as (d & -> & Bd & Ld & Vd).
    { clear - F Fc. induction F as [|c d ? ? [? ?]]; constructor; inversion Fc; subst; auto. split; auto. destruct H3 as [_ ->]. auto. }
    pose proof (zlen_nonneg data). assert (Lk : zlen d = zlen data) by lia.
    rewrite V, Lk in Vd. rewrite Z.div_mul in Vd.
    + enough (d = data) by congruence. rewrite <- (be_bytes_be_val d), <- (be_bytes_be_val data) by auto. rewrite Vd. f_equal. unfold zlen in Lk. lia.
    + apply Z.pow_nonzero; lia.
Qed.

(** * Hexadecimal *)
(** The value of a hexadecimal digit, from a list of the characters. *)
Definition hex_lower : list Z := [48;49;50;51;52;53;54;55;56;57;97;98;99;100;101;102].
Definition hex_digit (c d : Z) : Prop := 0 <= d /\ nth_error hex_lower (Z.to_nat d) = Some (lower c).
(** [s] is the lower-case hexadecimal form of [data]: two digits per byte. *)
Inductive hex_form : list Z -> list Z -> Prop :=
| hf_nil : hex_form [] []
| hf_cons : forall b r hi lo s, b = 16 * hi + lo -> 0 <= hi < 16 -> 0 <= lo < 16 -> hex_form r s ->
    hex_form (b :: r) (nth (Z.to_nat hi) hex_lower 0 :: nth (Z.to_nat lo) hex_lower 0 :: s).

Lemma nibble_table : forall c, is_byte c ->
  (to_nibble c = -1 /\ forall d, ~ hex_digit c d) \/
  (0 <= to_nibble c < 16 /\ nth (Z.to_nat (to_nibble c)) hex_lower 0 = lower c).
Proof.
  intros c Hc. assert (T : ((to_nibble c =? -1) && forallb (fun x => negb (x =? lower c)) hex_lower) ||
    ((0 <=? to_nibble c) && (to_nibble c <? 16) && (nth (Z.to_nat (to_nibble c)) hex_lower 0 =? lower c)) = true).
  { revert c Hc. apply byte_all. vm_compute. reflexivity. }
  apply Bool.orb_true_iff in T as [T|T]; rewrite !Bool.andb_true_iff in T.
  - left. destruct T as [T1 T2]. split; [lia|]. intros d [H0 H1]. rewrite forallb_forall in T2. apply nth_error_In in H1. specialize (T2 _ H1).
    rewrite Z.eqb_refl in T2. discriminate.
  - right. lia.
Qed.

(** C52: encoding writes exactly the hexadecimal form, and never fails. *)
Theorem hex_encoding_exact : forall data, bytes_ok data -> exists s, hex_encode data = Some s /\ hex_form data s /\ zlen s = 2 * zlen data.
Proof.
  induction data as [|b r IH]; intros B; cbn [hex_encode].
  - exists []. repeat split. constructor.
  - apply bytes_ok_cons in B as [Bb Br]. destruct (IH Br) as (s & -> & F & L). unfold is_byte in Bb.
    assert (E : Z.shiftr b 4 = b / 16) by (rewrite shiftr_div by lia; reflexivity).
    assert (E2 : Z.land b 15 = b mod 16) by (change 15 with (2 ^ 4 - 1); rewrite land_mod by lia; reflexivity).
    rewrite E, E2.
    assert (T : forall d, 0 <= d < 16 -> to_char d <> -1 /\ to_char d = nth (Z.to_nat d) hex_lower 0).
    { intros d Hd. assert (D : d = 0 \/ d = 1 \/ d = 2 \/ d = 3 \/ d = 4 \/ d = 5 \/ d = 6 \/ d = 7 \/ d = 8 \/ d = 9 \/ d = 10 \/ d = 11 \/ d = 12 \/ d = 13 \/ d = 14 \/ d = 15) by lia.
      repeat (destruct D as [-> |D]; [split; [discriminate|reflexivity]|]). subst. split; [discriminate|reflexivity]. }
    destruct (T (b / 16)) as [T1 T2]; [lia|]. destruct (T (b mod 16)) as [T3 T4]; [lia|].
    rewrite (proj2 (Z.eqb_neq _ _) T1), (proj2 (Z.eqb_neq _ _) T3). cbn [orb option_map].
    eexists. split; [reflexivity|]. rewrite T2, T4. split; [constructor; auto; lia|]. rewrite !zlen_cons. lia.
Qed.

(** C52: decoding succeeds exactly on the hexadecimal forms, in any letter case, and
    returns the data; the bytes written never exceed the announced size. *)
Theorem hex_decoding_exact : forall str, bytes_ok str ->
  (forall data, bytes_ok data -> hex_decode str = (true, data) <-> hex_form data (map lower str)) /\
  bytes_ok (snd (hex_decode str)) /\ zlen (snd (hex_decode str)) <= hex_decode_size str /\
  (fst (hex_decode str) = true <-> Z.even (zlen str) = true /\ Forall (fun c => exists d, hex_digit c d) str).
Proof.
  assert (G : forall n str, (length str <= n)%nat -> bytes_ok str ->
   (forall data, bytes_ok data -> hex_decode str = (true, data) <-> hex_form data (map lower str)) /\
   bytes_ok (snd (hex_decode str)) /\ 2 * zlen (snd (hex_decode str)) <= zlen str /\
   (fst (hex_decode str) = true <-> Z.even (zlen str) = true /\ Forall (fun c => exists d, hex_digit c d) str)).
  { induction n as [|n IH]; intros str Hl B.
    { destruct str; [|cbn in Hl; lia]. cbn [hex_decode fst snd]. split; [|split; [apply Forall_nil|split; [change (zlen (@nil Z)) with 0; lia|split; auto]]]. intros data Bd.
      split; [intros E; injection E as <-; constructor|intros F; inversion F; auto]. }
    destruct str as [|c [|d r]]; cbn [hex_decode].
    - cbn [hex_decode fst snd]. split; [|split; [apply Forall_nil|split; [change (zlen (@nil Z)) with 0; lia|split; auto]]]. intros data Bd.
      split; [intros E; injection E as <-; constructor|intros F; inversion F; auto].
    - cbn [hex_decode fst snd]. split; [|split; [apply Forall_nil|split; [change (zlen [c]) with 1; change (zlen (@nil Z)) with 0; lia|]]]; [|split; [discriminate|intros [? _]; discriminate]]. intros data Bd.
      split; [discriminate|intros F; inversion F].
    - apply bytes_ok_cons in B as [Bc B]. apply bytes_ok_cons in B as [Bd Br].
      assert (Nx : forall x, (forall k, ~ hex_digit x k) -> forall i, 0 <= i < 16 -> lower x <> nth (Z.to_nat i) hex_lower 0).
      { intros x N i Hi E. apply (N i). split; [lia|]. rewrite E. apply nth_error_nth'. cbn. lia. }
      assert (Yx : forall x, 0 <= to_nibble x < 16 -> nth (Z.to_nat (to_nibble x)) hex_lower 0 = lower x -> exists k, hex_digit x k).
      { intros x H E. exists (to_nibble x). split; [lia|]. rewrite <- E. apply nth_error_nth'. cbn. lia. }
      destruct (nibble_table c Bc) as [[Ec Nc]|[Hc Ec]].
      { rewrite Ec. zred. cbn [fst snd]. split; [|split; [constructor|split; [change (zlen []) with 0; unfold zlen; lia|]]].
        - intros data _. split; [discriminate|]. intros F. inversion F; subst. exfalso. apply (Nx c Nc hi); auto.
        - split; [discriminate|]. intros [_ F]. inversion F as [|? ? [k K]]; subst. exfalso. eapply Nc; eauto. }
      destruct (nibble_table d Bd) as [[Ed Nd]|[Hd Ed]].
      { rewrite Ed. rewrite (proj2 (Z.eqb_neq (to_nibble c) (-1))) by lia. zred. cbn [fst snd].
        split; [|split; [constructor|split; [change (zlen []) with 0; unfold zlen; lia|]]].
        - intros data _. split; [discriminate|]. intros F. inversion F; subst. exfalso. apply (Nx d Nd lo); auto.
        - split; [discriminate|]. intros [_ F]. inversion F as [|? ? _ F2]; subst. inversion F2 as [|? ? [k K]]; subst. exfalso. eapply Nd; eauto. }
      rewrite (proj2 (Z.eqb_neq (to_nibble c) (-1))), (proj2 (Z.eqb_neq (to_nibble d) (-1))) by lia.
      assert (W : (Z.lor (Z.shiftl (to_nibble c) 4 mod 256) (to_nibble d)) mod 256 = 16 * to_nibble c + to_nibble d).
      { rewrite Z.shiftl_mul_pow2 by lia. change (2 ^ 4) with 16. rewrite (Z.mod_small (_ * 16)) by lia.
        rewrite (lor_add _ _ 4) by (try (exists (to_nibble c); reflexivity); lia). rewrite Z.mod_small; lia. }
      rewrite W. clear W. destruct (IH r) as (I1 & I2 & I3 & I4); [cbn in Hl; lia|auto|].
      destruct (hex_decode r) as [ok l]. cbn [fst snd] in *. split; [|split; [|split]].
      + intros data Bdt. split.
        * intros E. injection E as -> <-. cbn [map]. rewrite <- Ec, <- Ed. apply bytes_ok_cons in Bdt as [_ Bdt].
          constructor; auto. apply I1; auto.
        * cbn [map]. intros F. inversion F as [|b r' hi lo s -> H0 H1 F' Eb Es]; subst. apply bytes_ok_cons in Bdt as [_ Bdt].
          apply I1 in F'; auto. injection F' as -> ->.
          assert (Inj : forall i j, 0 <= i < 16 -> 0 <= j < 16 -> nth (Z.to_nat i) hex_lower 0 = nth (Z.to_nat j) hex_lower 0 -> i = j).
          { intros i j Hi Hj E. assert (NoDup hex_lower) by (repeat constructor; cbn; lia).
            assert (Z.to_nat i = Z.to_nat j); [|lia]. eapply (proj1 (NoDup_nth hex_lower 0)); eauto; cbn; lia. }
          assert (hi = to_nibble c) by (apply Inj; auto; rewrite Ec; assumption).
          assert (lo = to_nibble d) by (apply Inj; auto; rewrite Ed; assumption). subst. reflexivity.
      + constructor; auto. unfold is_byte. lia.
      + rewrite !zlen_cons. lia.
      + rewrite I4, !zlen_cons. replace (1 + (1 + zlen r)) with (2 + zlen r) by lia. assert (Z.even (2 + zlen r) = Z.even (zlen r)) as -> by (rewrite Z.even_add; destruct (Z.even (zlen r)); reflexivity). split.
        * intros [? ?]. split; auto.
        * intros [? F]. split; auto. inversion F; subst. now inversion H3. }
  intros str B. destruct (G (length str) str (le_n _) B) as (G1 & G2 & G3 & G4). split; auto. split; auto. split; auto.
  unfold hex_decode_size. rewrite shiftr_div by lia. change (2 ^ 1) with 2. lia.
Qed.

(** Concrete cases: "foobar" and a string of 4 bytes in both alphabets. *)
Example ex_base32 : encode2 charset [102; 111; 111; 98] true = Ok [109; 122; 120; 119; 54; 121; 113; 61] /\
  decode2 table [77; 122; 120; 119; 54; 89; 113; 61] true = (4, [102; 111; 111; 98]) /\
  decode2 table [109; 122; 120; 119; 54; 121; 114; 61] true = (-1, [102; 111; 111; 98]) /\
  decode2 table_hex [99; 112] false = (1, [102]) /\ decode_size table_hex [99; 112; 61] = 1.
Proof. vm_compute. repeat split. Qed.
Example ex_base32_hyp : alphabet_ok charset table /\ bytes_ok [102; 111; 111; 98] /\ bytes_ok [77; 122; 120; 119; 54; 89; 113; 61].
Proof. split; [apply alphabets_ok|]. split; repeat (apply Forall_cons; [unfold is_byte; lia|]); apply Forall_nil. Qed.
Example ex_hex : hex_encode [0; 171; 255] = Some [48; 48; 97; 98; 102; 102] /\ hex_decode [48; 48; 65; 98; 70; 102] = (true, [0; 171; 255]) /\
  hex_decode [48; 48; 65] = (false, [0]) /\ hex_decode [48; 48; 71; 48] = (false, [0]).
Proof. vm_compute. repeat split. Qed.

Print Assumptions alphabets_ok.
Print Assumptions base32_encoding_exact.
Print Assumptions base32_padded_decoding_exact.
Print Assumptions base32_unpadded_decoding_exact.
Print Assumptions base32_decoding_within_size.
Print Assumptions base32_round_trip.
Print Assumptions hex_encoding_exact.
Print Assumptions hex_decoding_exact.
