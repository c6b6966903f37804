(** C24: network time. *)
From Coq Require Import Sorted.
From Verif Require Import Common CommonFacts TimeModel.

(** The samples in use. *)
Definition live (td : timedata) : list Z := firstn (Z.to_nat (td_len td)) (td_samples td).

(** A history of reports (address, reported time, local clock). *)
Inductive history : list (list Z * Z * Z) -> timedata -> Prop :=
| hi_nil : history [] td_init
| hi_add ops td a time now td' : history ops td -> td_add td a time now = Ok td' ->
    history (ops ++ [(a, time, now)]) td'.

(** No signed overflow: reported and local time differ by less than 2^62. *)
Definition sane (op : list Z * Z * Z) : Prop := let '(_, time, now) := op in - 2 ^ 62 < time - now < 2 ^ 62.

Definition inside (x : Z) : Prop := - 2 ^ 62 < x < 2 ^ 62.

Definition td_ok (td : timedata) : Prop :=
  length (td_samples td) = 200%nat /\ 0 <= td_len td <= 200 /\ StronglySorted Z.le (live td) /\
  Forall inside (live td) /\ NoDup (td_known td) /\ zlen (td_known td) = td_len td /\ 0 <= td_offset td < 4200.

Lemma arr_get_ok l i : 0 <= i < zlen l -> exists x, arr_get l i = Ok x /\ nth_error l (Z.to_nat i) = Some x.
Proof.
  intros H. unfold arr_get. destruct (Z.ltb_spec i 0); [lia|].
  destruct (nth_error l (Z.to_nat i)) as [x|] eqn:E; eauto.
  apply nth_error_None in E. unfold zlen in H. lia.
Qed.

Lemma sorted_nth (s : list Z) : StronglySorted Z.le s -> forall i j x y, (i <= j)%nat ->
  nth_error s i = Some x -> nth_error s j = Some y -> x <= y.
Proof.
  induction 1 as [|a s S IH F]; intros i j x y H E1 E2; [destruct i; discriminate|].
  destruct i as [|i], j as [|j]; cbn in *; try lia.
  - injection E1 as <-. injection E2 as <-. lia.
  - injection E1 as <-. rewrite Forall_forall in F. apply F. eapply nth_error_In; eauto.
  - eapply (IH i j); eauto. lia.
Qed.

Lemma inside_diff v x : inside v -> inside x -> i64b (v - x) = true.
Proof.
  unfold inside, i64b. change (2 ^ 62) with 4611686018427387904. change (- 2 ^ 63) with (-9223372036854775808).
  change (2 ^ 63) with 9223372036854775808. intros. apply Bool.andb_true_iff. rewrite Z.leb_le, Z.ltb_lt. lia.
Qed.
Lemma inside_i64 x : inside x -> i64b x = true.
Proof. intros H. rewrite <- (Z.sub_0_r x). apply inside_diff; auto. unfold inside. lia. Qed.

(** The binary search finds an equal sample or the place between smaller and larger
    ones. *)
Lemma search_spec s rest sample : StronglySorted Z.le s -> Forall inside s -> inside sample ->
  forall fuel start finish, 0 <= start -> start <= finish + 1 -> finish < zlen s -> finish - start < Z.of_nat fuel ->
    (forall i x, (Z.of_nat i < start) -> nth_error s i = Some x -> x < sample) ->
    (forall i x, finish < Z.of_nat i -> nth_error s i = Some x -> sample < x) ->
  exists i, td_search fuel (s ++ rest) sample start finish = Ok i /\ 0 <= i <= zlen s /\
    (forall k x, Z.of_nat k < i -> nth_error s k = Some x -> x <= sample) /\
    (forall k x, i <= Z.of_nat k -> nth_error s k = Some x -> sample <= x).
Proof.
  intros Srt Ins Isa. induction fuel as [|fuel IH]; intros start finish H1 H2 H3 H4 Lo Hi; cbn [td_search].
  - destruct (Z.ltb_spec finish start); [|lia]. exists start. split; auto. split; [lia|].
    split; intros k x Hk E; [apply Lo in E; lia|]. apply Hi in E; lia.
  - destruct (Z.ltb_spec finish start).
    + exists start. split; auto. split; [lia|]. split; intros k x Hk E; [apply Lo in E; lia|]. apply Hi in E; lia.
    + set (pos := (start + finish) / 2). assert (P : start <= pos <= finish) by (unfold pos; lia).
      unfold zlen in *. 
      destruct (arr_get_ok (s ++ rest) pos) as (v & Ev & En). { unfold zlen. rewrite app_length. lia. }
      rewrite nth_error_app1 in En by lia. rewrite Ev. cbn [obind].
      assert (Iv : inside v). { rewrite Forall_forall in Ins. apply Ins. eapply nth_error_In; eauto. }
      rewrite (inside_diff v sample Iv Isa). cbn [negb].
      destruct (Z.eqb_spec (v - sample) 0).
      * exists pos. split; auto. split; [lia|]. split; intros k x Hk E.
        -- enough (x <= v) by lia. eapply (sorted_nth s Srt k (Z.to_nat pos)); eauto. lia.
        -- enough (v <= x) by lia. eapply (sorted_nth s Srt (Z.to_nat pos) k); eauto. lia.
      * destruct (Z.ltb_spec (v - sample) 0).
        -- apply IH; try lia; auto. intros i x Hi' E.
           assert (x <= v) by (eapply (sorted_nth s Srt i (Z.to_nat pos)); eauto; lia). lia.
        -- apply IH; try lia; auto. intros i x Hi' E.
           assert (v <= x) by (eapply (sorted_nth s Srt (Z.to_nat pos) i); eauto; lia). lia.
Qed.

Lemma arr_set_app a x y b : arr_set (a ++ x :: b) (zlen a) y = Ok (a ++ y :: b).
Proof.
  unfold arr_set, zlen. rewrite app_length. cbn [length].
  destruct (Z.leb_spec 0 (Z.of_nat (length a))); [|lia].
  destruct (Z.ltb_spec (Z.of_nat (length a)) (Z.of_nat (length a + S (length b)))); [|lia]. cbn [andb].
  rewrite Nat2Z.id, firstn_app, firstn_all, Nat.sub_diag, app_nil_r.
  f_equal. f_equal. f_equal. rewrite skipn_app.
  rewrite skipn_all2 by lia. replace (S (length a) - length a)%nat with 1%nat by lia. reflexivity.
Qed.

(** What the shifting loop does: it copies the element at the insertion point over
    all later ones. *)
Lemma shift_spec n : forall a v b, (n <= length b)%nat ->
  td_shift n (a ++ v :: b) (zlen a + 1) = Ok (a ++ v :: repeat v n ++ skipn n b).
Proof.
  induction n as [|n IH]; intros a v b H; [reflexivity|].
  destruct b as [|w b]; [cbn in H; lia|]. cbn [td_shift]. replace (zlen a + 1 - 1) with (zlen a) by lia.
  assert (G : arr_get (a ++ v :: w :: b) (zlen a) = Ok v).
  { unfold arr_get, zlen. destruct (Z.ltb_spec (Z.of_nat (length a)) 0); [lia|]. rewrite Nat2Z.id, nth_error_app2 by lia.
    now rewrite Nat.sub_diag. }
  rewrite G. cbn [obind].
  replace (a ++ v :: w :: b) with ((a ++ [v]) ++ w :: b) by now rewrite <- app_assoc.
  replace (zlen a + 1) with (zlen (a ++ [v])) by (rewrite zlen_app; reflexivity).
  rewrite arr_set_app. cbn [obind]. rewrite IH by (cbn in H; lia). rewrite <- app_assoc. reflexivity.
Qed.

(** Exact effect of an insertion into sorted samples [s]: at some place [i] that
    keeps the order, the sample goes in and everything after it becomes copies of
    the sample that was there. *)
Lemma insert_spec s rest sample : StronglySorted Z.le s -> Forall inside s -> inside sample ->
  zlen s < 200 -> length (s ++ rest) = 200%nat ->
  exists a b rest', td_insert (s ++ rest) (zlen s) sample = Ok (a ++ sample :: repeat (hd 0 b) (length b) ++ rest', zlen s + 1) /\
    s = a ++ b /\ Forall (fun x => x <= sample) a /\ Forall (fun x => sample <= x) b /\ S (length rest') = length rest.
Proof.
  intros Srt Ins Isa H HL. unfold td_insert.
  destruct (search_spec s rest sample Srt Ins Isa (Z.to_nat (zlen s)) 0 (zlen s - 1)) as (i & E & Hi & Lo & Hg); try (unfold zlen in *; lia).
  { intros k x Hk E. assert (k < length s)%nat by (apply nth_error_Some; congruence). unfold zlen in Hk. lia. }
  rewrite E. cbn [obind]. unfold td_limit. destruct (Z.ltb_spec 200 (zlen s + 1)); [lia|].
  assert (X : exists a b, s = a ++ b /\ zlen a = i /\ Forall (fun x => x <= sample) a /\ Forall (fun x => sample <= x) b).
  { set (n := Z.to_nat i). exists (firstn n s), (skipn n s).
    assert (Ln : length (firstn n s) = n) by (rewrite firstn_length; unfold n, zlen in *; lia).
    split; [symmetry; apply firstn_skipn|]. split; [unfold zlen; rewrite Ln; unfold n; lia|]. split.
    - apply Forall_forall. intros x Hx. apply In_nth_error in Hx as [k Hk].
      assert (k < n)%nat by (rewrite <- Ln; apply nth_error_Some; congruence).
      apply (Lo k); [unfold n in *; lia|]. rewrite <- (firstn_skipn n s), nth_error_app1 by lia. exact Hk.
    - apply Forall_forall. intros x Hx. apply In_nth_error in Hx as [k Hk].
      apply (Hg (n + k)%nat); [unfold n in *; lia|]. rewrite <- (firstn_skipn n s), nth_error_app2 by lia.
      rewrite Ln. now replace (n + k - n)%nat with k by lia. }
  destruct X as (a & b & -> & <- & Fa & Fb). exists a, b.
  assert (Hr : exists r0 rest1, rest = r0 :: rest1).
  { rewrite app_length in HL. unfold zlen in *. destruct rest; [cbn in HL; lia|eauto]. }
  destruct Hr as (r0 & rest1 & ->). exists rest1. rewrite <- !app_assoc.
  replace (Z.to_nat (zlen (a ++ b) - zlen a)) with (length b) by (rewrite zlen_app; unfold zlen; lia).
  destruct b as [|v b].
  - cbn [td_shift obind app length repeat]. rewrite arr_set_app. cbn [obind]. auto.
  - cbn [app length]. rewrite shift_spec by (rewrite app_length; cbn [length]; lia). cbn [obind].
    rewrite arr_set_app. cbn [obind hd].
    assert (Sk : skipn (S (length b)) (b ++ r0 :: rest1) = rest1).
    { rewrite skipn_app, skipn_all2 by lia. replace (S (length b) - length b)%nat with 1%nat by lia. reflexivity. }
    rewrite Sk. auto.
Qed.

Lemma sorted_app_intro (a b : list Z) : StronglySorted Z.le a -> StronglySorted Z.le b ->
  (forall x y, In x a -> In y b -> x <= y) -> StronglySorted Z.le (a ++ b).
Proof.
  induction 1 as [|x a S IH F]; intros Sb H; [exact Sb|]. cbn. constructor.
  - apply IH; auto. intros; apply H; [now right|auto].
  - apply Forall_app. split; auto. apply Forall_forall. intros y Hy. apply H; [now left|auto].
Qed.

Lemma sorted_app_left (a b : list Z) : StronglySorted Z.le (a ++ b) -> StronglySorted Z.le a.
Proof.
  induction a as [|x a IH]; cbn; intros H; constructor; inversion H; subst; auto.
  apply Forall_app in H3. tauto.
Qed.

Lemma td_match_ok n : forall l, (n <= length l)%nat -> Forall inside (firstn n l) -> exists b, td_match n l = Ok b.
Proof.
  induction n as [|n IH]; intros l H F; cbn [td_match]; eauto. destruct l as [|x l]; [cbn in H; lia|].
  cbn [firstn] in F. inversion F; subst. unfold inside in *.
  destruct (Z.eqb_spec x (- 2 ^ 63)); [lia|]. destruct (_ && _); eauto. apply IH; auto. cbn in H; lia.
Qed.

(** Effect of one report. *)
Definition step_ok (td : timedata) (a : list Z) (sample : Z) (td' : timedata) : Prop :=
  (td_len td = 200 \/ In a (td_known td)) /\ td' = td \/
  td_len td < 200 /\ ~ In a (td_known td) /\ td_known td' = a :: td_known td /\ td_len td' = td_len td + 1 /\
  (exists s1 s2, live td = s1 ++ s2 /\ live td' = s1 ++ sample :: repeat (hd 0 s2) (length s2) /\
     Forall (fun x => x <= sample) s1 /\ Forall (fun x => sample <= x) s2) /\
  (if (5 <=? td_len td') && Z.odd (td_len td') then
     exists m, nth_error (live td') (Z.to_nat (td_len td' / 2)) = Some m /\
       td_offset td' = (if 4200 <=? Z.abs m then 0 else Z.abs m)
   else td_offset td' = td_offset td).

Lemma existsb_in a l : existsb (beq a) l = true <-> In a l.
Proof.
  rewrite existsb_exists. split; [intros (x & Hx & E); apply beq_true_iff in E; now subst|].
  intros H. exists a. split; auto. apply beq_refl.
Qed.

Lemma add_step td a time now : td_ok td -> sane (a, time, now) ->
  exists td', td_add td a time now = Ok td' /\ td_ok td' /\ step_ok td a (time - now) td'.
Proof.
  intros OK Sn. pose proof OK as (L & Hl & Srt & Ins & Nd & Kn & Off). unfold td_add.
  change td_limit with 200. destruct (Z.leb_spec 200 (td_len td)) as [|Hlt].
  { exists td. split; auto. split; auto. left. split; auto. left. lia. }
  destruct (existsb (beq a) (td_known td)) eqn:Ex.
  { exists td. split; auto. split; auto. left. apply existsb_in in Ex. auto. }
  assert (Nin : ~ In a (td_known td)) by (intros X; apply existsb_in in X; congruence).
  cbn in Sn. assert (Isa : inside (time - now)) by exact Sn.
  rewrite (inside_i64 _ Isa).
  cbn [negb]. set (s := live td) in *. set (rest := skipn (Z.to_nat (td_len td)) (td_samples td)).
  assert (Esr : td_samples td = s ++ rest) by (symmetry; apply firstn_skipn).
  assert (Ls : zlen s = td_len td) by (unfold zlen, s, live; rewrite firstn_length; lia).
  destruct (insert_spec s rest (time - now) Srt Ins Isa) as (s1 & s2 & rest' & Ei & E12 & F1 & F2 & Lr).
  { lia. } { rewrite <- Esr. exact L. }
  rewrite <- Esr in Ei. rewrite Ls in Ei. rewrite Ei. cbn [obind].
  set (l' := s1 ++ time - now :: repeat (hd 0 s2) (length s2) ++ rest').
  set (s' := s1 ++ time - now :: repeat (hd 0 s2) (length s2)).
  assert (El' : l' = s' ++ rest') by (unfold l', s'; rewrite <- app_assoc; reflexivity).
  assert (Ls' : length s' = Z.to_nat (td_len td + 1)).
  { unfold s'. rewrite app_length. cbn [length]. rewrite repeat_length.
    assert (length s = length s1 + length s2)%nat by (rewrite E12; apply app_length). unfold zlen in Ls. lia. }
  assert (Ll' : length l' = 200%nat).
  { rewrite El', app_length, Ls'. rewrite Esr, app_length in L. unfold zlen in Ls. lia. }
  assert (Lv : forall k o c, live (mk_td l' (td_len td + 1) k o c) = s').
  { intros. unfold live. cbn. rewrite <- Ls', El', firstn_app, firstn_all, Nat.sub_diag. cbn. apply app_nil_r. }
  assert (Srt' : StronglySorted Z.le s').
  { unfold s'. apply sorted_app_intro.
    - rewrite E12 in Srt. now apply sorted_app_left in Srt.
    - rewrite Forall_forall in F2. constructor.
      + clear. induction (length s2) as [|n IH]; cbn; constructor; auto. apply Forall_forall. intros y Hy. apply repeat_spec in Hy. lia.
      + apply Forall_forall. intros y Hy. assert (s2 <> []) by (intros ->; destruct Hy). apply repeat_spec in Hy. subst y.
        destruct s2; [congruence|]. apply F2. now left.
    - intros x y Hx Hy. rewrite Forall_forall in F1. specialize (F1 x Hx). destruct Hy as [<-|Hy]; auto.
      assert (s2 <> []) by (intros ->; destruct Hy). apply repeat_spec in Hy. subst y. destruct s2; [congruence|].
      rewrite Forall_forall in F2. assert (time - now <= z) by (apply F2; now left). cbn. lia. }
  assert (Ins' : Forall inside s').
  { unfold s'. rewrite E12 in Ins. apply Forall_app in Ins as [I1 I2]. apply Forall_app. split; auto. constructor; auto.
    apply Forall_forall. intros y Hy. assert (s2 <> []) by (intros ->; destruct Hy). apply repeat_spec in Hy. subst y.
    destruct s2; [congruence|]. now inversion I2. }
  assert (Ok' : forall o c, 0 <= o < 4200 -> td_ok (mk_td l' (td_len td + 1) (a :: td_known td) o c)).
  { intros o c Ho. unfold td_ok. rewrite Lv. cbn [td_samples td_len td_known td_offset]. split; auto. split; [lia|]. split; auto. split; auto.
    split; [now constructor|]. split; [|auto]. rewrite zlen_cons. lia. }
  assert (Odd : forall z, (z mod 2 =? 1) = Z.odd z).
  { intros z. rewrite Zmod_odd. destruct (Z.odd z); reflexivity. }
  assert (Shape : exists s1 s2, live td = s1 ++ s2 /\ s' = s1 ++ time - now :: repeat (hd 0 s2) (length s2) /\
     Forall (fun x => x <= time - now) s1 /\ Forall (fun x => time - now <= x) s2).
  { exists s1, s2. auto. }
  rewrite Odd. destruct ((5 <=? td_len td + 1) && Z.odd (td_len td + 1)) eqn:E5.
  - destruct (arr_get_ok l' ((td_len td + 1) / 2)) as (m & Em & Enm). { unfold zlen. lia. }
    rewrite Em. cbn [obind].
    assert (Enm' : nth_error s' (Z.to_nat ((td_len td + 1) / 2)) = Some m).
    { rewrite El' in Enm. rewrite nth_error_app1 in Enm by lia. exact Enm. }
    assert (Im : inside m) by (rewrite Forall_forall in Ins'; apply Ins'; eapply nth_error_In; eauto).
    destruct (Z.eqb_spec m (- 2 ^ 63)) as [->|_]; [unfold inside in Im; lia|].
    assert (Mk : forall o c, o = (if 4200 <=? Z.abs m then 0 else Z.abs m) ->
      td_ok (mk_td l' (td_len td + 1) (a :: td_known td) o c) /\ step_ok td a (time - now) (mk_td l' (td_len td + 1) (a :: td_known td) o c)).
    { intros o c Eo. split.
      - apply Ok'. destruct (Z.leb_spec 4200 (Z.abs m)); lia.
      - right. rewrite Lv. cbn [td_samples td_len td_known td_offset]. split; auto. split; auto. split; auto. split; auto. split; auto.
        rewrite E5. exists m. auto. }
    destruct (Z.leb_spec 4200 (Z.abs m)) as [Hm|Hm].
    + destruct (td_checked td); [eexists; split; [reflexivity|]; apply Mk; auto|].
      destruct (td_match_ok (Z.to_nat (td_len td + 1)) l') as [b Eb]. { lia. }
      { rewrite <- Ls', El', firstn_app, firstn_all, Nat.sub_diag. cbn. rewrite app_nil_r. exact Ins'. }
      rewrite Eb. cbn [obind]. eexists. split; [reflexivity|]. apply Mk; auto.
    + eexists. split; [reflexivity|]. apply Mk; auto.
  - eexists. split; [reflexivity|]. split; [apply Ok'; auto|]. right. rewrite Lv. cbn [td_samples td_len td_known td_offset].
    split; auto. split; auto. split; auto. split; auto. split; auto. rewrite E5. reflexivity.
Qed.

Lemma init_ok : td_ok td_init.
Proof.
  unfold td_ok, live. cbn. split; [reflexivity|]. split; [lia|]. split; [constructor|]. split; [constructor|].
  split; [constructor|]. split; [reflexivity|lia].
Qed.

Lemma history_ok ops td : history ops td -> Forall sane ops -> td_ok td.
Proof.
  induction 1 as [|ops td a time now td' H IH E]; intros F; [apply init_ok|].
  apply Forall_app in F as [F1 F2]. inversion F2; subst.
  destruct (add_step td a time now (IH F1)) as (td2 & E2 & O & _); auto. rewrite E in E2. apply Ok_inj in E2. now subst.
Qed.

(** C24 (partial): with sane clocks every report is processed without abort, out of
    bounds access or overflow; the stored samples stay sorted, at most 200, one per
    address; the offset is in [0, 4200) and is, after every fifth or later odd
    sample, the magnitude of the stored median or 0, otherwise unchanged; a report
    is ignored exactly when 200 samples are stored or the address is known.
    Missing: the sign of the offset, and that the stored median is the median of the
    samples received (both refuted below). *)
Theorem network_time_partial : forall ops td a time now, history ops td -> Forall sane (ops ++ [(a, time, now)]) ->
  td_ok td /\ exists td', td_add td a time now = Ok td' /\ td_ok td' /\ step_ok td a (time - now) td'.
Proof.
  intros ops td a time now H F. apply Forall_app in F as [F1 F2]. inversion F2; subst.
  pose proof (history_ok _ _ H F1) as O. split; auto. now apply add_step.
Qed.

(** The adjusted clock is always less than 70 minutes away from the local one (and
    never behind it). *)
Theorem adjusted_clock_bounded : forall ops td now, history ops td -> Forall sane ops ->
  now <= td_now td now < now + 4200.
Proof. intros ops td now H F. destruct (history_ok _ _ H F) as (_ & _ & _ & _ & _ & _ & O). unfold td_now. lia. Qed.

(** Addresses that reported are exactly the known ones until 200 are known. *)
Theorem one_sample_per_address : forall ops td, history ops td -> Forall sane ops -> td_len td < 200 ->
  forall a, In a (td_known td) <-> exists time now, In (a, time, now) ops.
Proof.
  induction 1 as [|ops td a time now td' H IH E]; intros F Hl b.
  - cbn. split; [intros []|intros (? & ? & [])].
  - apply Forall_app in F as [F1 F2]. inversion F2; subst.
    destruct (add_step td a time now (history_ok _ _ H F1)) as (td2 & E2 & O & S); auto. rewrite E in E2. apply Ok_inj in E2. subst td2.
    destruct S as [[[X|X] ->]|(X1 & X2 & X3 & X4 & _)].
    + lia.
    + rewrite IH by auto. split.
      * intros (t & n & Y). exists t, n. apply in_or_app. auto.
      * intros (t & n & Y). apply in_app_or in Y as [Y|[Y|[]]]; [eauto|]. injection Y as <- <- <-. apply IH; auto.
    + rewrite X3. cbn [In]. rewrite IH by (auto; lia). split.
      * intros [<-|(t & n & Y)]; [exists time, now; apply in_or_app; right; now left|]. exists t, n. apply in_or_app. auto.
      * intros (t & n & Y). apply in_app_or in Y as [Y|[Y|[]]]; [right; eauto|]. injection Y as <- _ _. now left.
Qed.

(** Playing a list of reports. *)
Fixpoint reports (td : timedata) (ops : list (list Z * Z * Z)) : outcome timedata :=
  match ops with
  | [] => Ok td
  | (a, t, n) :: r => obind (td_add td a t n) (fun td' => reports td' r)
  end.
Lemma reports_history ops : forall done td td', history done td -> reports td ops = Ok td' -> history (done ++ ops) td'.
Proof.
  induction ops as [|[[a t] n] ops IH]; intros done td td' H E; cbn in E.
  - apply Ok_inj in E. subst. now rewrite app_nil_r.
  - destruct (td_add td a t n) as [td1|?| |] eqn:Ea; try discriminate. cbn in E.
    change ((a, t, n) :: ops) with ([(a, t, n)] ++ ops). rewrite app_assoc. eapply IH; [|exact E]. econstructor; eauto.
Qed.

(** Finding: five peers 100 seconds behind move the clock 100 seconds ahead. *)
Theorem clock_moves_toward_peers_refuted : exists ops td, history ops td /\ Forall sane ops /\
  Forall (fun op => let '(_, time, now) := op in time - now = -100) ops /\ td_offset td = 100.
Proof.
  exists (map (fun i => ([i], 900, 1000)) [1; 2; 3; 4; 5]). eexists. split; [|split; [|split]].
  - apply (reports_history _ [] td_init); [constructor|]. vm_compute. reflexivity.
  - repeat constructor; cbn; lia.
  - repeat constructor; cbn; lia.
  - reflexivity.
Qed.

(** Finding: the shifting loop loses samples, so the stored median is not the median
    of the samples: from 10, 20, 30, 40, 5 (median 20) the offset becomes 10. *)
Theorem offset_is_median_refuted : exists ops td, history ops td /\ Forall sane ops /\
  map (fun op => let '(_, time, now) := op in time - now) ops = [10; 20; 30; 40; 5] /\ td_offset td = 10.
Proof.
  exists (map (fun d => ([d], 1000 + d, 1000)) [10; 20; 30; 40; 5]). eexists. split; [|split; [|split]].
  - apply (reports_history _ [] td_init); [constructor|]. vm_compute. reflexivity.
  - repeat constructor; cbn; lia.
  - reflexivity.
  - reflexivity.
Qed.

(** Finding: the reported time is a 64-bit value from the peer; an extreme one makes
    the subtraction overflow, which is undefined in C. *)
Theorem sample_overflow_refuted : exists a time now, 0 <= now < 2 ^ 62 /\ - 2 ^ 63 <= time < 2 ^ 63 /\
  td_add td_init a time now = Ub.
Proof. exists [1], (- 2 ^ 63), 1700000000. split; [lia|]. split; [lia|]. vm_compute. reflexivity. Qed.

(** A history with seven samples in mixed order meets the hypotheses. *)
Example ex_history : exists td, history (map (fun d => ([d], 1000 + d, 1000)) [5; 9; 1; 7; 3; 4; 8]) td /\
  td_len td = 7 /\ td_offset td = 5.
Proof.
  eexists. split; [|split].
  - apply (reports_history _ [] td_init); [constructor|]. vm_compute. reflexivity.
  - reflexivity.
  - reflexivity.
Qed.

Print Assumptions network_time_partial.
Print Assumptions adjusted_clock_bounded.
Print Assumptions one_sample_per_address.
Print Assumptions clock_moves_toward_peers_refuted.
Print Assumptions offset_is_median_refuted.
Print Assumptions sample_overflow_refuted.
