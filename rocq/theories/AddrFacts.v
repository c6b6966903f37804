(** Facts about the text of addresses. *)
From Verif Require Import Common CommonFacts Base32Model UtilTheorems MapModel AddrModel ProofFacts.

(* ---------- numbers ---------- *)
Lemma xdigit_char d : 0 <= d < 16 -> xdigit (digit_char d) = Some d.
Proof.
  intros H. assert (A : forallb (fun d => match xdigit (digit_char d) with Some x => x =? d | None => false end) (map Z.of_nat (seq 0 16)) = true)
    by (vm_compute; reflexivity).
  rewrite forallb_forall in A. specialize (A d).
  destruct (xdigit (digit_char d)) as [x|] eqn:E.
  - f_equal. apply Z.eqb_eq, A. apply in_map_iff. exists (Z.to_nat d). split; [lia|]. apply in_seq. lia.
  - assert (X : false = true); [|discriminate X]. apply A. apply in_map_iff. exists (Z.to_nat d). split; [lia|]. apply in_seq. lia.
Qed.
Lemma digit_dec d : 0 <= d < 10 -> digit_char d = 48 + d.
Proof. intros H. unfold digit_char. replace (d <? 10) with true by lia. reflexivity. Qed.

(** One digit after the other *)
Lemma show_step fuel base n acc : show_loop (S fuel) base n acc =
  if n / base =? 0 then digit_char (n mod base) :: acc else show_loop fuel base (n / base) (digit_char (n mod base) :: acc).
Proof. reflexivity. Qed.
Lemma show1 base n : 2 <= base -> 0 <= n < base -> show base n = [digit_char n].
Proof. intros B H. unfold show. rewrite show_step, (Z.div_small n base), (Z.mod_small n base) by lia. reflexivity. Qed.
Lemma show2 base n : 2 <= base -> base <= n < base * base -> show base n = [digit_char (n / base); digit_char (n mod base)].
Proof.
  intros B H. unfold show. rewrite show_step.
  assert (1 <= n / base < base) by (split; [apply Z.div_le_lower_bound; lia|apply Z.div_lt_upper_bound; lia]).
  replace (n / base =? 0) with false by lia. rewrite show_step.
  rewrite (Z.div_small (n / base) base), (Z.mod_small (n / base) base) by lia. reflexivity.
Qed.
Lemma div_range n b m : 0 < b -> b * m <= n -> m <= n / b.
Proof. intros. apply Z.div_le_lower_bound; lia. Qed.
Lemma div_upper n b m : 0 < b -> n < b * m -> n / b < m.
Proof. intros. apply Z.div_lt_upper_bound; lia. Qed.
Lemma show3 base n : 2 <= base -> base * base <= n < base * base * base ->
  show base n = [digit_char (n / base / base); digit_char ((n / base) mod base); digit_char (n mod base)].
Proof.
  intros B H. unfold show. rewrite show_step.
  assert (base <= n / base < base * base) by (split; [apply div_range|apply div_upper]; lia).
  assert (1 <= n / base / base < base) by (split; [apply div_range|apply div_upper]; lia).
  replace (n / base =? 0) with false by lia. rewrite show_step.
  replace (n / base / base =? 0) with false by lia. rewrite show_step.
  rewrite (Z.div_small (n / base / base) base), (Z.mod_small (n / base / base) base) by lia. reflexivity.
Qed.
Lemma show4 base n : 2 <= base -> base * base * base <= n < base * base * base * base ->
  show base n = [digit_char (n / base / base / base); digit_char ((n / base / base) mod base); digit_char ((n / base) mod base); digit_char (n mod base)].
Proof.
  intros B H. unfold show. rewrite show_step.
  assert (base * base <= n / base < base * base * base) by (split; [apply div_range|apply div_upper]; lia).
  assert (base <= n / base / base < base * base) by (split; [apply div_range|apply div_upper]; lia).
  assert (1 <= n / base / base / base < base) by (split; [apply div_range|apply div_upper]; lia).
  replace (n / base =? 0) with false by lia. rewrite show_step.
  replace (n / base / base =? 0) with false by lia. rewrite show_step.
  replace (n / base / base / base =? 0) with false by lia. rewrite show_step.
  rewrite (Z.div_small (n / base / base / base) base), (Z.mod_small (n / base / base / base) base) by lia. reflexivity.
Qed.
Lemma show5 base n : 2 <= base -> base * base * base * base <= n < base * base * base * base * base ->
  show base n = [digit_char (n / base / base / base / base); digit_char ((n / base / base / base) mod base);
                 digit_char ((n / base / base) mod base); digit_char ((n / base) mod base); digit_char (n mod base)].
Proof.
  intros B H. unfold show. rewrite show_step.
  assert (base * base * base <= n / base < base * base * base * base) by (split; [apply div_range|apply div_upper]; lia).
  assert (base * base <= n / base / base < base * base * base) by (split; [apply div_range|apply div_upper]; lia).
  assert (base <= n / base / base / base < base * base) by (split; [apply div_range|apply div_upper]; lia).
  assert (1 <= n / base / base / base / base < base) by (split; [apply div_range|apply div_upper]; lia).
  replace (n / base =? 0) with false by lia. rewrite show_step.
  replace (n / base / base =? 0) with false by lia. rewrite show_step.
  replace (n / base / base / base =? 0) with false by lia. rewrite show_step.
  replace (n / base / base / base / base =? 0) with false by lia. rewrite show_step.
  rewrite (Z.div_small (n / base / base / base / base) base), (Z.mod_small (n / base / base / base / base) base) by lia. reflexivity.
Qed.

(** The digits of a number: what they are and how many *)
Definition lower_hex (c : Z) : Prop := exists d, 0 <= d < 16 /\ c = digit_char d.
Definition dec_char (c : Z) : Prop := 48 <= c <= 57.
Lemma show_dec n : 0 <= n < 100000 -> Forall dec_char (show 10 n) /\ 1 <= zlen (show 10 n) <= 5.
Proof.
  intros H. assert (D : forall x, dec_char (digit_char (x mod 10))).
  { intros x. rewrite digit_dec by lia. unfold dec_char. lia. }
  assert (D' : forall x, 0 <= x < 10 -> dec_char (digit_char x)) by (intros x Hx; rewrite digit_dec by lia; unfold dec_char; lia).
  destruct (Z_lt_ge_dec n 10). { rewrite show1 by lia. split; [repeat constructor; apply D'; lia|vm_compute; split; discriminate]. }
  destruct (Z_lt_ge_dec n 100). { rewrite show2 by lia. split; [repeat constructor; auto; apply D'; lia|vm_compute; split; discriminate]. }
  destruct (Z_lt_ge_dec n 1000). { rewrite show3 by lia. split; [repeat constructor; auto; apply D'; lia|vm_compute; split; discriminate]. }
  destruct (Z_lt_ge_dec n 10000). { rewrite show4 by lia. split; [repeat constructor; auto; apply D'; lia|vm_compute; split; discriminate]. }
  rewrite show5 by lia. split; [repeat constructor; auto; apply D'; lia|vm_compute; split; discriminate].
Qed.
Lemma show_hex n : 0 <= n < 65536 -> Forall lower_hex (show 16 n) /\ 1 <= zlen (show 16 n) <= 4.
Proof.
  intros H. assert (D : forall x, lower_hex (digit_char (x mod 16))) by (intros x; exists (x mod 16); lia).
  assert (D' : forall x, 0 <= x < 16 -> lower_hex (digit_char x)) by (intros x Hx; exists x; lia).
  destruct (Z_lt_ge_dec n 16). { rewrite show1 by lia. split; [repeat constructor; apply D'; lia|vm_compute; split; discriminate]. }
  destruct (Z_lt_ge_dec n 256). { rewrite show2 by lia. split; [repeat constructor; auto; apply D'; lia|vm_compute; split; discriminate]. }
  destruct (Z_lt_ge_dec n 4096). { rewrite show3 by lia. split; [repeat constructor; auto; apply D'; lia|vm_compute; split; discriminate]. }
  rewrite show4 by lia. split; [repeat constructor; auto; apply D'; lia|vm_compute; split; discriminate].
Qed.
Lemma byte_len n : 0 <= n < 256 -> zlen (show 10 n) <= 3.
Proof.
  intros H. destruct (Z_lt_ge_dec n 10). { rewrite show1 by lia. vm_compute. discriminate. }
  destruct (Z_lt_ge_dec n 100). { rewrite show2 by lia. vm_compute. discriminate. }
  rewrite show3 by lia. vm_compute. discriminate.
Qed.

(** The port *)
Lemma port_step i word d s : 0 <= d < 10 -> i < 5 -> port_loop i word (digit_char d :: s) = port_loop (i + 1) (word * 10 + d) s.
Proof.
  intros H Hi. cbn [port_loop]. rewrite digit_dec by lia. replace (48 + d - 48) with d by lia.
  replace ((d <? 0) || (9 <? d)) with false by lia. replace (i =? 5) with false by lia. reflexivity.
Qed.
Lemma port_show n : 0 <= n < 65536 -> port_loop 0 0 (show 10 n) = Some n.
Proof.
  intros H. assert (E : forall i w, port_loop i w [] = Some (w mod 65536)) by reflexivity.
  destruct (Z_lt_ge_dec n 10). { rewrite show1, port_step by lia. rewrite E. f_equal. lia. }
  destruct (Z_lt_ge_dec n 100). { rewrite show2, !port_step by lia. rewrite E. f_equal. lia. }
  destruct (Z_lt_ge_dec n 1000). { rewrite show3, !port_step by lia. rewrite E. f_equal. lia. }
  destruct (Z_lt_ge_dec n 10000). { rewrite show4, !port_step by lia. rewrite E. f_equal. lia. }
  rewrite show5, !port_step by lia. rewrite E. f_equal. lia.
Qed.

(* ---------- IPv4 ---------- *)
Lemma pton4_digit done cur o saw d r : 0 <= d < 10 -> pton4_loop done cur o saw (digit_char d :: r) =
  (if saw && (cur =? 0) then None else if 255 <? cur * 10 + d then None
   else if negb saw then (if 4 <? o + 1 then None else pton4_loop done (cur * 10 + d) (o + 1) true r)
   else pton4_loop done (cur * 10 + d) o true r).
Proof.
  intros H. cbn [pton4_loop]. rewrite digit_dec by lia. replace ((48 <=? 48 + d) && (48 + d <=? 57)) with true by lia.
  replace (cur * 10 + (48 + d - 48)) with (cur * 10 + d) by lia. reflexivity.
Qed.
Lemma pton4_byte done o b r : is_byte b -> o < 4 -> pton4_loop done 0 o false (show 10 b ++ r) = pton4_loop done b (o + 1) true r.
Proof.
  intros B Ho. unfold is_byte in B.
  destruct (Z_lt_ge_dec b 10).
  { rewrite show1 by lia. cbn [app]. rewrite pton4_digit by lia. cbn [andb negb].
    replace (255 <? 0 * 10 + b) with false by lia. replace (4 <? o + 1) with false by lia. f_equal. }
  destruct (Z_lt_ge_dec b 100).
  { rewrite show2 by lia. cbn [app]. rewrite pton4_digit by lia. cbn [andb negb].
    replace (255 <? 0 * 10 + b / 10) with false by lia. replace (4 <? o + 1) with false by lia.
    rewrite pton4_digit by lia. cbn [andb negb]. replace (0 * 10 + b / 10 =? 0) with false by lia.
    replace (255 <? (0 * 10 + b / 10) * 10 + b mod 10) with false by lia. f_equal. lia. }
  rewrite show3 by lia. cbn [app]. rewrite pton4_digit by lia. cbn [andb negb].
  replace (255 <? 0 * 10 + b / 10 / 10) with false by lia. replace (4 <? o + 1) with false by lia.
  rewrite pton4_digit by lia. cbn [andb negb]. replace (0 * 10 + b / 10 / 10 =? 0) with false by lia.
  replace (255 <? (0 * 10 + b / 10 / 10) * 10 + (b / 10) mod 10) with false by lia.
  rewrite pton4_digit by lia. cbn [andb negb].
  replace ((0 * 10 + b / 10 / 10) * 10 + (b / 10) mod 10 =? 0) with false by lia.
  replace (255 <? ((0 * 10 + b / 10 / 10) * 10 + (b / 10) mod 10) * 10 + b mod 10) with false by lia. f_equal. lia.
Qed.
Lemma pton4_dot done cur o r : o < 4 -> pton4_loop done cur o true (46 :: r) = pton4_loop (done ++ [cur]) 0 o false r.
Proof. intros H. cbn [pton4_loop]. zred. cbn [andb]. replace (o =? 4) with false by lia. reflexivity. Qed.
Lemma pton4_text a b c d : bytes_ok [a; b; c; d] -> pton4 (ntop4_text [a; b; c; d]) = Some [a; b; c; d].
Proof.
  intros B. apply bytes_ok_cons in B as [Ba B]. apply bytes_ok_cons in B as [Bb B]. apply bytes_ok_cons in B as [Bc B].
  apply bytes_ok_cons in B as [Bd _]. unfold pton4, ntop4_text. cbn [nth].
  rewrite pton4_byte by (auto; lia). cbn [app]. rewrite pton4_dot by lia.
  rewrite pton4_byte by (auto; lia). cbn [app]. rewrite pton4_dot by lia.
  rewrite pton4_byte by (auto; lia). cbn [app]. rewrite pton4_dot by lia.
  rewrite <- (app_nil_r (show 10 d)). rewrite pton4_byte by (auto; lia). reflexivity.
Qed.
(** A text with another character is not an IPv4 address. *)
Lemma pton4_other s : forall done cur o saw x, In x s -> ~ dec_char x -> x <> 46 -> pton4_loop done cur o saw s = None.
Proof.
  induction s as [|c s IH]; intros done cur o saw x Hin Nd Np; [destruct Hin|]. cbn [pton4_loop].
  destruct Hin as [->|Hin].
  - unfold dec_char in Nd. replace ((48 <=? x) && (x <=? 57)) with false by lia. replace (x =? 46) with false by lia. reflexivity.
  - destruct ((48 <=? c) && (c <=? 57)).
    + destruct (saw && (cur =? 0)); auto. destruct (255 <? cur * 10 + (c - 48)); auto. destruct (negb saw); eauto.
      destruct (4 <? o + 1); eauto.
    + destruct ((c =? 46) && saw); auto. destruct (o =? 4); eauto.
Qed.

(* ---------- IPv6 ---------- *)
Lemma pton6_digit out c seen val tok d r : 0 <= d < 16 -> seen < 4 ->
  pton6_loop out c seen val tok (digit_char d :: r) = pton6_loop out c (seen + 1) (val * 16 + d) tok r.
Proof. intros H Hs. cbn [pton6_loop]. rewrite xdigit_char by lia. replace (4 <? seen + 1) with false by lia. reflexivity. Qed.
Lemma pton6_word out c tok w r : 0 <= w < 65536 ->
  exists k, 0 < k /\ pton6_loop out c 0 0 tok (show 16 w ++ r) = pton6_loop out c k w tok r.
Proof.
  intros H. destruct (Z_lt_ge_dec w 16).
  { exists 1. split; [lia|]. rewrite show1 by lia. cbn [app]. rewrite pton6_digit by lia. f_equal. }
  destruct (Z_lt_ge_dec w 256).
  { exists 2. split; [lia|]. rewrite show2 by lia. cbn [app]. rewrite !pton6_digit by lia. f_equal. lia. }
  destruct (Z_lt_ge_dec w 4096).
  { exists 3. split; [lia|]. rewrite show3 by lia. cbn [app]. rewrite !pton6_digit by lia. f_equal. lia. }
  exists 4. split; [lia|]. rewrite show4 by lia. cbn [app]. rewrite !pton6_digit by lia. f_equal. lia.
Qed.
Lemma pton6_last out c tok w : 0 <= w < 65536 -> zlen out <= 14 ->
  pton6_loop out c 0 0 tok (show 16 w) = pton6_end (out ++ word_bytes w) c 0 0.
Proof.
  intros H L. destruct (pton6_word out c tok w [] H) as (k & Hk & E). rewrite app_nil_r in E. rewrite E.
  cbn [pton6_loop]. unfold pton6_end. replace (0 <? k) with true by lia. replace (16 <? zlen out + 2) with false by lia. reflexivity.
Qed.
Lemma pton6_colon_word out c tok w r : 0 <= w < 65536 -> zlen out <= 14 -> r <> [] ->
  pton6_loop out c 0 0 tok (show 16 w ++ 58 :: r) = pton6_loop (out ++ word_bytes w) c 0 0 r r.
Proof.
  intros H L Nr. destruct (pton6_word out c tok w (58 :: r) H) as (k & Hk & E). rewrite E.
  cbn [pton6_loop]. change (xdigit 58) with (@None Z). cbv iota. zred. replace (k =? 0) with false by lia.
  destruct r as [|x r]; [contradiction|]. replace (16 <? zlen out + 2) with false by lia. reflexivity.
Qed.
Lemma pton6_colon out tok r : pton6_loop out None 0 0 tok (58 :: r) = pton6_loop out (Some (zlen out)) 0 0 r r.
Proof. reflexivity. Qed.
Lemma pton6_ip4 out c a b d e : bytes_ok [a; b; d; e] -> zlen out <= 12 ->
  pton6_loop out c 0 0 (ntop4_text [a; b; d; e]) (ntop4_text [a; b; d; e]) = pton6_end (out ++ [a; b; d; e]) c 0 0.
Proof.
  intros B L. pose proof (pton4_text a b d e B) as P. apply bytes_ok_cons in B as [Ba _].
  set (t := ntop4_text [a; b; d; e]) in *.
  assert (E : exists r k v, 0 <= v /\ pton6_loop out c 0 0 t t = pton6_loop out c k v t (46 :: r)).
  { assert (Et : exists r, t = show 10 a ++ 46 :: r) by (eexists; reflexivity). destruct Et as [r Et].
    exists r. replace (pton6_loop out c 0 0 t t) with (pton6_loop out c 0 0 t (show 10 a ++ 46 :: r)) by (now rewrite <- Et).
    clear Et. clearbody t. unfold is_byte in Ba.
    destruct (Z_lt_ge_dec a 10).
    { rewrite show1 by lia. exists 1, (0 * 16 + a). split; [lia|]. cbn [app]. rewrite pton6_digit by lia. reflexivity. }
    destruct (Z_lt_ge_dec a 100).
    { rewrite show2 by lia. eexists _, _. split; [|cbn [app]; rewrite !pton6_digit by lia; reflexivity]. lia. }
    rewrite show3 by lia. eexists _, _. split; [|cbn [app]; rewrite !pton6_digit by lia; reflexivity]. lia. }
  destruct E as (r & k & v & Hv & E). rewrite E. cbn [pton6_loop]. change (xdigit 46) with (@None Z). cbv iota. zred.
  replace (zlen out + 4 <=? 16) with true by lia. cbn [andb]. rewrite P. unfold pton6_end. zred. reflexivity.
Qed.

(** The run chosen is a run of zeros. *)
Definition good (b : zrun) (i : Z) (ws : list Z) : Prop :=
  z_base b = -1 \/ (0 <= z_base b /\ 1 <= z_len b /\ z_base b + z_len b <= i /\
    forall j, z_base b <= j < z_base b + z_len b -> nth (Z.to_nat j) ws 1 = 0).
Lemma good_better best cur i ws : good best i ws -> good cur i ws -> good (better best cur) i ws.
Proof. intros G1 G2. unfold better. destruct (z_base cur =? -1); auto. destruct ((z_base best =? -1) || (z_len best <? z_len cur)); auto. Qed.
Lemma good_more b i j ws : good b i ws -> i <= j -> good b j ws.
Proof. intros [G|(G1 & G2 & G3 & G4)] L; [left; auto|right]. repeat split; auto; lia. Qed.
Lemma run_loop_good ws : forall r pre best cur, ws = pre ++ r -> good best (zlen pre) ws -> good cur (zlen pre) ws ->
  z_base cur = -1 \/ z_base cur + z_len cur = zlen pre -> good (run_loop (zlen pre) best cur r) (zlen ws) ws.
Proof.
  induction r as [|w r IH]; intros pre best cur E Gb Gc Hc; cbn [run_loop].
  - rewrite app_nil_r in E. rewrite E. rewrite <- E. subst ws. apply good_better; auto.
  - assert (Lp : zlen (pre ++ [w]) = zlen pre + 1) by (rewrite zlen_app; change (zlen [w]) with 1; reflexivity).
    assert (E' : ws = (pre ++ [w]) ++ r) by (rewrite <- app_assoc; exact E).
    assert (P0 : 0 <= zlen pre) by (unfold zlen; lia).
    assert (Nw : nth (Z.to_nat (zlen pre)) ws 1 = w).
    { rewrite E. rewrite app_nth2 by (unfold zlen; lia). replace (Z.to_nat (zlen pre) - length pre)%nat with 0%nat by (unfold zlen; lia). reflexivity. }
    rewrite <- Lp. destruct (Z.eqb_spec w 0) as [W|W].
    + apply IH; auto; try (rewrite Lp).
      * eapply good_more; eauto. lia.
      * destruct (Z.eqb_spec (z_base cur) (-1)) as [B|B].
        -- right. cbn. repeat split; try lia. intros j Hj. replace j with (zlen pre) by lia. congruence.
        -- destruct Gc as [Gc|(C1 & C2 & C3 & C4)]; [contradiction|]. destruct Hc as [Hc|Hc]; [contradiction|].
           right. cbn. repeat split; try lia. intros j Hj. destruct (Z.eq_dec j (zlen pre)) as [->|]; [congruence|]. apply C4. lia.
      * right. destruct (Z.eqb_spec (z_base cur) (-1)) as [B|B]; cbn; [lia|]. destruct Hc; [contradiction|lia].
    + apply IH; auto; try (rewrite Lp).
      * eapply good_more; [apply good_better; eauto|lia].
      * left. reflexivity.
Qed.
Lemma best_run_good ws : z_base (best_run ws) = -1 \/
  (0 <= z_base (best_run ws) /\ 2 <= z_len (best_run ws) /\ z_base (best_run ws) + z_len (best_run ws) <= zlen ws /\
   forall j, z_base (best_run ws) <= j < z_base (best_run ws) + z_len (best_run ws) -> nth (Z.to_nat j) ws 1 = 0).
Proof.
  pose proof (run_loop_good ws ws [] {| z_base := -1; z_len := 0 |} {| z_base := -1; z_len := 0 |} eq_refl) as G.
  change (zlen (@nil Z)) with 0 in G. specialize (G ltac:(left; reflexivity) ltac:(left; reflexivity) ltac:(left; reflexivity)).
  unfold best_run. set (b := run_loop 0 _ _ ws) in *. destruct G as [G|(G1 & G2 & G3 & G4)].
  - left. rewrite G. zred. cbn [negb andb]. exact G.
  - replace (z_base b =? -1) with false by lia. cbn [negb andb]. destruct (Z.ltb_spec (z_len b) 2); [left; reflexivity|].
    right. repeat split; auto.
Qed.

Lemma pton6_start w r : 0 <= w < 65536 -> pton6 (show 16 w ++ r) = pton6_loop [] None 0 0 (show 16 w ++ r) (show 16 w ++ r).
Proof.
  intros H. destruct (show_hex w H) as [F L]. destruct (show 16 w) as [|c s]; [change (zlen (@nil Z)) with 0 in L; lia|].
  cbn [app pton6]. apply Forall_inv in F. destruct F as (d & Hd & ->).
  assert (N : digit_char d =? 58 = false) by (unfold digit_char; destruct (Z.ltb_spec d 10); lia). rewrite N. reflexivity.
Qed.
Lemma pton6_start0 w : 0 <= w < 65536 -> pton6 (show 16 w) = pton6_loop [] None 0 0 (show 16 w) (show 16 w).
Proof. intros H. pose proof (pton6_start w [] H) as E. rewrite app_nil_r in E. exact E. Qed.
Lemma pton6_start_colon r : pton6 (58 :: 58 :: r) = pton6_loop [] (Some 0) 0 0 r r.
Proof. reflexivity. Qed.
Lemma word_bytes_eq a b : is_byte a -> is_byte b -> word_bytes (a * 256 + b) = [a; b].
Proof. intros A B. unfold is_byte in *. unfold word_bytes. f_equal; [lia|f_equal; lia]. Qed.
Lemma word_zero a b : is_byte a -> is_byte b -> a * 256 + b = 0 -> a = 0 /\ b = 0.
Proof. intros A B. unfold is_byte in *. lia. Qed.
