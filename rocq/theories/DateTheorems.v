(** C53: dates and SOA serial numbers. *)
From Verif Require Import Common CommonFacts DateModel.

(** * The Gregorian calendar, day by day *)
Definition leap (y : Z) : bool := (y mod 4 =? 0) && (negb (y mod 100 =? 0) || (y mod 400 =? 0)).
Definition month_length (y m : Z) : Z :=
  if m =? 2 then (if leap y then 29 else 28)
  else if (m =? 4) || (m =? 6) || (m =? 9) || (m =? 11) then 30 else 31.
Definition next_day (d : Z * Z * Z) : Z * Z * Z :=
  let '(y, m, d) := d in
  if d <? month_length y m then (y, m, d + 1)
  else if m <? 12 then (y, m + 1, 1) else (y + 1, 1, 1).
(** Day 0 is 1 January 1970. *)
Inductive date_on : Z -> Z * Z * Z -> Prop :=
| day_zero : date_on 0 (1970, 1, 1)
| day_next n d : date_on n d -> date_on (n + 1) (next_day d).

(** * The conversion without wrap-around *)
Definition civil (n : Z) : Z * Z * Z :=
  let z := n + 719468 in
  let era := z / 146097 in
  let doe := z mod 146097 in
  let yoe := (doe - doe / 1460 + doe / 36524 - doe / 146096) / 365 in
  let doy := doe - (365 * yoe + yoe / 4 - yoe / 100) in
  let mp := (5 * doy + 2) / 153 in
  let m := if mp <? 10 then mp + 3 else mp - 9 in
  (yoe + era * 400 + (if m <=? 2 then 1 else 0), m, doy - (153 * mp + 2) / 5 + 1).

(** A day of the calendar whose years start in March: centuries, four-year groups. *)
Definition parts_ok (c q r doy : Z) : Prop :=
  0 <= c <= 3 /\ 0 <= q <= 24 /\ 0 <= r <= 3 /\ 0 <= doy <= 365 /\ (doy = 365 -> r = 3 /\ (q = 24 -> c = 3)).
Definition march_date (e c q r doy : Z) : Z * Z * Z :=
  let mp := (5 * doy + 2) / 153 in
  let m := if mp <? 10 then mp + 3 else mp - 9 in
  (100 * c + 4 * q + r + e * 400 + (if m <=? 2 then 1 else 0), m, doy - (153 * mp + 2) / 5 + 1).

Lemma parts_bound c q r doy : parts_ok c q r doy -> 0 <= 36524 * c + 1461 * q + 365 * r + doy < 146097.
Proof. intros (Hc & Hq & Hr & Hd & Hl). lia. Qed.
Lemma parts_yoe c q r doy : parts_ok c q r doy ->
  let doe := 36524 * c + 1461 * q + 365 * r + doy in
  (doe - doe / 1460 + doe / 36524 - doe / 146096) / 365 = 100 * c + 4 * q + r.
Proof.
  intros (Hc & Hq & Hr & Hd & Hl) doe.
  assert (C : c = 0 \/ c = 1 \/ c = 2 \/ c = 3) by lia. assert (R : r = 0 \/ r = 1 \/ r = 2 \/ r = 3) by lia.
  unfold doe. destruct C as [-> |[-> |[-> | ->]]]; destruct R as [-> |[-> |[-> | ->]]]; lia.
Qed.
Lemma civil_parts n e c q r doy : n + 719468 = e * 146097 + (36524 * c + 1461 * q + 365 * r + doy) -> parts_ok c q r doy ->
  civil n = march_date e c q r doy.
Proof.
  intros E P. pose proof (parts_bound _ _ _ _ P) as B. pose proof (parts_yoe _ _ _ _ P) as Y. cbn zeta in Y. unfold civil, march_date.
  set (doe := 36524 * c + 1461 * q + 365 * r + doy) in *.
  assert (E1 : (n + 719468) / 146097 = e) by lia. assert (E2 : (n + 719468) mod 146097 = doe) by lia.
  rewrite E1, E2, Y. destruct P as (Hc & Hq & Hr & Hd & Hl).
  assert (D : doe - (365 * (100 * c + 4 * q + r) + (100 * c + 4 * q + r) / 4 - (100 * c + 4 * q + r) / 100) = doy).
  { replace ((100 * c + 4 * q + r) / 4) with (25 * c + q) by lia. replace ((100 * c + 4 * q + r) / 100) with c by lia. unfold doe. lia. }
  rewrite D. reflexivity.
Qed.
Lemma parts_exist n : 0 <= n -> exists e c q r doy, n + 719468 = e * 146097 + (36524 * c + 1461 * q + 365 * r + doy) /\ parts_ok c q r doy /\ 0 <= e.
Proof.
  intros Hn. set (z := n + 719468). set (doe := z mod 146097). exists (z / 146097).
  set (c := Z.min 3 (doe / 36524)). set (x := doe - 36524 * c).
  set (q := Z.min 24 (x / 1461)). set (w := x - 1461 * q). set (r := Z.min 3 (w / 365)).
  exists c, q, r, (w - 365 * r).
  assert (0 <= doe < 146097) by (unfold doe; lia). assert (z = z / 146097 * 146097 + doe) by (unfold doe; lia).
  split; [lia|]. split; [|lia]. unfold parts_ok.
  assert (0 <= c <= 3) by lia. assert (0 <= x <= 36524 /\ (x = 36524 -> c = 3)) by lia.
  assert (0 <= q <= 24) by lia. assert (0 <= w <= 1460 /\ (w = 1460 -> q = 24 -> c = 3)) by lia.
  assert (0 <= r <= 3) by lia. lia.
Qed.

Lemma leap_march e c q r : 0 <= c <= 3 -> 0 <= q <= 24 -> 0 <= r <= 3 ->
  leap (100 * c + 4 * q + r + e * 400 + 1) = (r =? 3) && (negb (q =? 24) || (c =? 3)).
Proof.
  intros Hc Hq Hr. unfold leap.
  replace ((100 * c + 4 * q + r + e * 400 + 1) mod 4 =? 0) with (r =? 3).
  2: { destruct (Z.eqb_spec r 3); symmetry; [apply Z.eqb_eq|apply Z.eqb_neq]; lia. }
  destruct (Z.eqb_spec r 3) as [->|]; cbn [andb]; [|reflexivity].
  replace ((100 * c + 4 * q + 3 + e * 400 + 1) mod 100 =? 0) with (q =? 24).
  2: { replace (100 * c + 4 * q + 3 + e * 400 + 1) with (4 * q + 4 + (c + e * 4) * 100) by lia. rewrite Z.mod_add by lia.
       destruct (Z.eqb_spec q 24) as [->|]; [reflexivity|]. rewrite Z.mod_small by lia. symmetry. apply Z.eqb_neq. lia. }
  destruct (Z.eqb_spec q 24) as [->|]; cbn [negb orb]; [|reflexivity].
  replace (100 * c + 4 * 24 + 3 + e * 400 + 1) with (100 * c + 100 + e * 400) by lia. rewrite Z.mod_add by lia.
  destruct (Z.eqb_spec c 3) as [->|]; [reflexivity|]. rewrite Z.mod_small by lia. apply Z.eqb_neq. lia.
Qed.
(** The step within a March-based year, checked for each of the 366 days and both
    kinds of year. *)
Definition month_day (doy : Z) : Z * Z :=
  let mp := (5 * doy + 2) / 153 in
  (if mp <? 10 then mp + 3 else mp - 9, doy - (153 * mp + 2) / 5 + 1).
Definition early (m : Z) : Z := if m <=? 2 then 1 else 0.
Definition step_okb (lp : bool) (doy : Z) : bool :=
  let '(m, d) := month_day doy in
  let ml := if m =? 2 then (if lp then 29 else 28) else if (m =? 4) || (m =? 6) || (m =? 9) || (m =? 11) then 30 else 31 in
  let '(dy, m', d') := if d <? ml then (0, m, d + 1) else if m <? 12 then (0, m + 1, 1) else (1, 1, 1) in
  (1 <=? d) && (d <=? 31) && (1 <=? m) && (m <=? 12) &&
  if (doy <? 364) || ((doy =? 364) && lp) then
    let '(m2, d2) := month_day (doy + 1) in (m' =? m2) && (d' =? d2) && (early m + dy =? early m2)
  else (m' =? 3) && (d' =? 1) && (early m + dy =? 1).
Lemma steps_ok : forallb (fun n => step_okb true (Z.of_nat n) && ((Z.of_nat n =? 365) || step_okb false (Z.of_nat n))) (seq 0 366) = true.
Proof. vm_compute. reflexivity. Qed.

Lemma march_next e c q r doy : parts_ok c q r doy ->
  next_day (march_date e c q r doy) =
    (if (doy <? 364) || ((doy =? 364) && ((r =? 3) && (negb (q =? 24) || (c =? 3)))) then march_date e c q r (doy + 1)
     else (100 * c + 4 * q + r + e * 400 + 1, 3, 1)).
Proof.
  intros (Hc & Hq & Hr & Hd & Hl). pose proof (leap_march e c q r Hc Hq Hr) as Lp.
  set (y := 100 * c + 4 * q + r + e * 400) in *. unfold march_date. fold y.
  set (lp := (r =? 3) && (negb (q =? 24) || (c =? 3))) in *.
  assert (Hlp : doy = 365 -> lp = true).
  { intros E. destruct (Hl E) as [-> Hq']. unfold lp. zred. cbn [andb]. destruct (Z.eqb_spec q 24); cbn; auto. apply Z.eqb_eq. auto. }
  assert (S : step_okb lp doy = true).
  { pose proof steps_ok as A. rewrite forallb_forall in A. specialize (A (Z.to_nat doy)). rewrite in_seq in A. specialize (A ltac:(lia)).
    rewrite Z2Nat.id in A by lia. apply Bool.andb_true_iff in A as [A1 A2]. destruct lp; auto.
    apply Bool.orb_true_iff in A2 as [A2|A2]; auto. apply Z.eqb_eq in A2. specialize (Hlp A2). discriminate. }
  clearbody y lp. clear Hc Hq Hr Hl Hlp. unfold step_okb, month_day in S. cbn zeta in *.
  set (m := if (5 * doy + 2) / 153 <? 10 then (5 * doy + 2) / 153 + 3 else (5 * doy + 2) / 153 - 9) in *.
  set (d := doy - (153 * ((5 * doy + 2) / 153) + 2) / 5 + 1) in *.
  set (m2 := if (5 * (doy + 1) + 2) / 153 <? 10 then _ else _) in *.
  set (d2 := doy + 1 - (153 * ((5 * (doy + 1) + 2) / 153) + 2) / 5 + 1) in *. clearbody m d m2 d2.
  fold (early m) (early m2). unfold next_day.
  assert (Ml : month_length (y + early m) m = if m =? 2 then (if lp then 29 else 28) else if (m =? 4) || (m =? 6) || (m =? 9) || (m =? 11) then 30 else 31).
  { unfold month_length. destruct (Z.eqb_spec m 2) as [->|]; auto. unfold early. zred. now rewrite Lp. }
  rewrite Ml. set (ml := if m =? 2 then _ else _) in *. clearbody ml. clear Lp Ml.
  destruct (d <? ml); [|destruct (m <? 12)]; destruct ((doy <? 364) || _); rewrite !Bool.andb_true_iff, !Z.eqb_eq in S; f_equal; try f_equal; lia.
Qed.

Lemma civil_zero : civil 0 = (1970, 1, 1).
Proof. vm_compute. reflexivity. Qed.
Lemma civil_next n : 0 <= n -> civil (n + 1) = next_day (civil n).
Proof.
  intros Hn. destruct (parts_exist n Hn) as (e & c & q & r & doy & E & P & He).
  rewrite (civil_parts n e c q r doy E P), march_next by auto. pose proof P as (Hc & Hq & Hr & Hd & Hl).
  destruct ((doy <? 364) || ((doy =? 364) && ((r =? 3) && (negb (q =? 24) || (c =? 3))))) eqn:C.
  - apply civil_parts; [lia|]. unfold parts_ok. apply Bool.orb_true_iff in C as [C|C].
    + apply Z.ltb_lt in C. repeat split; lia.
    + rewrite !Bool.andb_true_iff, Bool.orb_true_iff, Bool.negb_true_iff, !Z.eqb_eq, Z.eqb_neq in C. repeat split; lia.
  - apply Bool.orb_false_iff in C as [C1 C2]. apply Z.ltb_ge in C1.
    assert (Last : doy = 365 \/ (doy = 364 /\ (r < 3 \/ (q = 24 /\ c < 3)))).
    { destruct (Z.eq_dec doy 365); auto. right. split; [lia|]. destruct (Z.eq_dec r 3) as [->|]; [|lia]. right.
      replace (doy =? 364) with true in C2 by (symmetry; apply Z.eqb_eq; lia). zred. cbn [andb] in C2.
      apply Bool.orb_false_iff in C2 as [C2 C3]. apply Bool.negb_false_iff, Z.eqb_eq in C2. apply Z.eqb_neq in C3. lia. }
    (* first day of the next March-based year *)
    assert (N : exists e' c' q' r', n + 1 + 719468 = e' * 146097 + (36524 * c' + 1461 * q' + 365 * r' + 0) /\ parts_ok c' q' r' 0 /\
       100 * c' + 4 * q' + r' + e' * 400 = 100 * c + 4 * q + r + e * 400 + 1).
    { unfold parts_ok. destruct (Z.eq_dec r 3) as [->|Nr].
      - destruct (Z.eq_dec q 24) as [->|Nq].
        + destruct (Z.eq_dec c 3) as [->|Nc].
          * exists (e + 1), 0, 0, 0. repeat split; lia.
          * exists e, (c + 1), 0, 0. repeat split; lia.
        + exists e, c, (q + 1), 0. repeat split; lia.
      - exists e, c, q, (r + 1). repeat split; lia. }
    destruct N as (e' & c' & q' & r' & E' & P' & Ey). rewrite (civil_parts _ _ _ _ _ _ E' P'). unfold march_date.
    rewrite Ey. change ((5 * 0 + 2) / 153) with 0. zred. cbn [Z.add]. zred. f_equal. f_equal. lia.
Qed.

Lemma civil_date n : 0 <= n -> date_on n (civil n).
Proof.
  intros Hn. pattern n. apply natlike_ind; auto.
  - rewrite civil_zero. constructor.
  - intros x Hx IH. rewrite <- Z.add_1_r, civil_next by auto. now constructor.
Qed.
Lemma date_on_unique n d : date_on n d -> 0 <= n /\ d = civil n.
Proof.
  induction 1 as [|n d H [Hn ->]]; [now rewrite civil_zero|]. split; [lia|]. now rewrite civil_next.
Qed.
Lemma civil_bounds n : 0 <= n -> let '(y, m, d) := civil n in 1970 <= y <= 1970 + n /\ 1 <= m <= 12 /\ 1 <= d <= 31.
Proof.
  intros Hn. pattern n. apply natlike_ind; auto.
  - rewrite civil_zero. lia.
  - intros x Hx IH. rewrite <- Z.add_1_r, civil_next by auto. destruct (civil x) as [[y m] d]. unfold next_day.
    assert (month_length y m <= 31) by (unfold month_length; destruct (m =? 2), (leap y), ((m =? 4) || (m =? 6) || (m =? 9) || (m =? 11)); lia).
    destruct (Z.ltb_spec d (month_length y m)), (Z.ltb_spec m 12); lia.
Qed.

Lemma civil_year now : 0 <= now < 2 ^ 31 -> fst (fst (civil (now / 86400))) < 3000.
Proof.
  intros Hn. destruct (parts_exist (now / 86400)) as (e & c & q & r & doy & E & P & He); [lia|]. rewrite (civil_parts _ e c q r doy E P).
  destruct P as (Hc & Hq & Hr & Hd & Hl). unfold march_date. cbn [fst]. assert (e <= 5) by lia. destruct (_ <=? 2); lia.
Qed.

(** Without wrap-around the code computes [civil]. *)
Lemma u32_small x : 0 <= x < 2 ^ 32 -> u32 x = x.
Proof. intros. apply Z.mod_small; auto. Qed.
Lemma hsk_date_civil now : 0 <= now < 2 ^ 31 ->
  hsk_date now = (civil (now / 86400), now / 3600 mod 24, now / 60 mod 60, now mod 60).
Proof.
  intros Hn. unfold hsk_date.
  assert (Es : int32 now = now) by (unfold int32; rewrite Z.mod_small; lia). rewrite Es. clear Es.
  rewrite (Z.quot_div_nonneg now 86400), (Z.quot_div_nonneg now 3600), (Z.quot_div_nonneg now 60) by lia. assert (D : 0 <= now / 86400 <= 24855) by lia.
  destruct (Z.leb_spec 0 (now / 86400 + 719468)); [|lia]. rewrite Z.quot_div_nonneg by lia.
  rewrite (Z.rem_mod_nonneg (now / 3600) 24), (Z.rem_mod_nonneg (now / 60) 60), (Z.rem_mod_nonneg now 60) by lia. rewrite (u32_small (now / 3600 mod 24)), (u32_small (now / 60 mod 60)), (u32_small (now mod 60)) by lia.
  f_equal. f_equal. f_equal. set (n := now / 86400) in *. clearbody n. clear Hn now.
  destruct (parts_exist n) as (e & c & q & r & doy & E & P & He); [lia|]. rewrite (civil_parts n e c q r doy E P).
  pose proof (parts_bound _ _ _ _ P) as B. pose proof (parts_yoe _ _ _ _ P) as Y. cbn zeta in Y. unfold march_date.
  set (doe := 36524 * c + 1461 * q + 365 * r + doy) in *.
  assert (E1 : (n + 719468) / 146097 = e) by lia. rewrite E1. assert (E2 : n + 719468 - e * 146097 = doe) by lia. rewrite E2.
  rewrite (u32_small doe) by lia. rewrite (u32_small (doe - doe / 1460)) by lia. rewrite (u32_small (doe - doe / 1460 + doe / 36524)) by lia.
  rewrite (u32_small (doe - doe / 1460 + doe / 36524 - doe / 146096)) by lia. rewrite Y. destruct P as (Hc & Hq & Hr & Hd & Hl).
  replace ((100 * c + 4 * q + r) / 4) with (25 * c + q) by lia. replace ((100 * c + 4 * q + r) / 100) with c by lia.
  assert (D1 : u32 (u32 (365 * (100 * c + 4 * q + r) + (25 * c + q)) - c) = 36524 * c + 1461 * q + 365 * r).
  { rewrite (u32_small (365 * (100 * c + 4 * q + r) + (25 * c + q))) by lia. rewrite u32_small; lia. }
  rewrite D1. replace (doe - (36524 * c + 1461 * q + 365 * r)) with doy by (unfold doe; lia).
  rewrite (u32_small doy) by lia. rewrite (u32_small (5 * doy + 2)) by lia. set (mp := (5 * doy + 2) / 153) in *.
  assert (Hmp : 0 <= mp <= 11) by (unfold mp; lia). rewrite (u32_small (153 * mp + 2)) by lia.
  assert (Hd5 : 0 <= doy - (153 * mp + 2) / 5 <= 31) by (unfold mp; lia).
  rewrite (u32_small (doy - (153 * mp + 2) / 5)) by lia. rewrite (u32_small (_ + 1)) by lia.
  assert (Em : u32 (mp + (if mp <? 10 then 3 else -9)) = if mp <? 10 then mp + 3 else mp - 9).
  { destruct (Z.ltb_spec mp 10); rewrite u32_small; lia. }
  rewrite Em. clearbody mp. assert (e <= 5) by lia.
  f_equal. f_equal. rewrite u32_small; [lia|]. destruct (Z.leb_spec (if mp <? 10 then mp + 3 else mp - 9) 2); lia.
Qed.

(** C53: the date of every moment up to the end of the int range is the Gregorian
    one, counted day by day from 1 January 1970, and the time is the usual one. *)
Theorem date_is_gregorian : forall now y m d h mi s, 0 <= now < 2 ^ 31 -> hsk_date now = (y, m, d, h, mi, s) ->
  date_on (now / 86400) (y, m, d) /\ now = 86400 * (now / 86400) + 3600 * h + 60 * mi + s /\
  0 <= h < 24 /\ 0 <= mi < 60 /\ 0 <= s < 60.
Proof.
  intros now y m d h mi s Hn E. rewrite hsk_date_civil in E by auto. injection E as Ec <- <- <-. rewrite <- Ec.
  split; [apply civil_date; lia|]. lia.
Qed.
(** The day-by-day calendar gives one date per day. *)
Theorem calendar_functional : forall n d d', date_on n d -> date_on n d' -> d = d'.
Proof. intros n d d' H H'. apply date_on_unique in H, H'. destruct H, H'. congruence. Qed.

(** C53: the serial number is the date and hour in decimal. *)
Theorem serial_is_date : forall now y m d, 0 <= now < 2 ^ 31 -> date_on (now / 86400) (y, m, d) ->
  soa_serial now = 1000000 * y + 10000 * m + 100 * d + (now mod 86400) / 3600.
Proof.
  intros now y m d Hn H. apply date_on_unique in H as [_ H]. unfold soa_serial. rewrite hsk_date_civil, <- H by auto.
  pose proof (civil_bounds (now / 86400)) as B. rewrite <- H in B. specialize (B ltac:(lia)).
  pose proof (civil_year now Hn) as Y. rewrite <- H in Y. cbn [fst] in Y.
  assert (0 <= y < 3000) by lia.
  rewrite (u32_small (y * 1000000 + m * 10000)) by lia. rewrite (u32_small (_ + d * 100)) by lia. rewrite u32_small by lia. lia.
Qed.

(** C53: serial numbers never run backwards. *)
Theorem serial_monotone : forall t u, 0 <= t <= u -> u < 2 ^ 31 -> soa_serial t <= soa_serial u.
Proof.
  intros t u Ht Hu. destruct (civil (t / 86400)) as [[y m] d] eqn:E1. destruct (civil (u / 86400)) as [[y' m'] d'] eqn:E2.
  rewrite (serial_is_date t y m d), (serial_is_date u y' m' d'); try lia.
  2: rewrite <- E2; apply civil_date; lia. 2: rewrite <- E1; apply civil_date; lia.
  assert (G : forall k n, 0 <= n -> 0 <= k -> let '(y, m, d) := civil n in let '(y', m', d') := civil (n + k) in
    1000000 * y + 10000 * m + 100 * d + (if 0 <? k then 100 else 0) <= 1000000 * y' + 10000 * m' + 100 * d').
  { intros k n Hn' Hk. pattern k. apply natlike_ind; auto.
    - rewrite Z.add_0_r. destruct (civil n) as [[a b] c]. zred. lia.
    - intros x Hx IH. replace (n + Z.succ x) with (n + x + 1) by lia. rewrite (civil_next (n + x)) by lia.
      pose proof (civil_bounds (n + x) ltac:(lia)) as B. destruct (civil n) as [[a b] c]. destruct (civil (n + x)) as [[a' b'] c'].
      destruct (Z.ltb_spec 0 (Z.succ x)); [|lia]. unfold next_day.
      destruct (Z.ltb_spec c' (month_length a' b')), (Z.ltb_spec b' 12), (Z.ltb_spec 0 x); lia. }
  destruct (Z.eq_dec (t / 86400) (u / 86400)) as [E|N].
  - rewrite E, E2 in E1. injection E1 as -> -> ->. lia.
  - specialize (G (u / 86400 - t / 86400) (t / 86400)). rewrite E1 in G. replace (t / 86400 + (u / 86400 - t / 86400)) with (u / 86400) in G by lia.
    rewrite E2 in G. destruct (Z.ltb_spec 0 (u / 86400 - t / 86400)); lia.
Qed.

(** Finding: (int)now: on 19 January 2038 the serial falls back to the year 1901. *)
Theorem serial_monotone_after_2038_refuted : exists t u, 0 <= t <= u /\ soa_serial u < soa_serial t.
Proof. exists (2 ^ 31 - 1), (2 ^ 31). split; [lia|]. vm_compute. reflexivity. Qed.

(** 29 February 2024, 12:34:56, and the last hour of 1999. *)
Example ex_date : hsk_date 1709210096 = (2024, 2, 29, 12, 34, 56) /\ soa_serial 1709210096 = 2024022912 /\
  soa_serial 946684799 = 1999123123 /\ soa_serial 946684800 = 2000010100.
Proof. vm_compute. repeat split. Qed.

Print Assumptions date_is_gregorian.
Print Assumptions calendar_functional.
Print Assumptions serial_is_date.
Print Assumptions serial_monotone.
Print Assumptions serial_monotone_after_2038_refuted.
