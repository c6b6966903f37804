(** The choice of an address to dial: it ends, and what it chooses; addresses told by peers;
    every run of the table. *)
From Coq Require Import Permutation.
From Verif Require Import Common CommonFacts ProofFacts MapModel AddrModel AddrTheorems AddrmanModel AddrmanFacts AddrmanTheorems.

(* ---------- searching ends ---------- *)
Lemma accept_44 e now num : 0 <= e_attempts e -> 0 <= num < 2 ^ 30 ->
  let '(p, q) := chance e now in num * (5 ^ 44 * q) <? 6 ^ 44 * p * 2 ^ 30 = true.
Proof.
  intros Ha Hn. unfold chance. set (n := Z.min (e_attempts e) 8). set (c := if _ <? 600 then 1 else 100).
  assert (Hc : 1 <= c) by (unfold c; destruct (_ <? 600); lia).
  assert (Q : 5 ^ 44 * (100 * 50 ^ n) <= 6 ^ 44 * 33 ^ n).
  { assert (H : n = 0 \/ n = 1 \/ n = 2 \/ n = 3 \/ n = 4 \/ n = 5 \/ n = 6 \/ n = 7 \/ n = 8) by (unfold n; lia).
    destruct H as [->|[->|[->|[->|[->|[->|[->|[->| ->]]]]]]]]; vm_compute; discriminate. }
  assert (P : 0 < 5 ^ 44 * (100 * 50 ^ n)).
  { apply Z.mul_pos_pos; [reflexivity|]. apply Z.mul_pos_pos; [lia|]. apply Z.pow_pos_nonneg; [lia|unfold n; lia]. }
  apply Z.ltb_lt. remember (5 ^ 44 * (100 * 50 ^ n)) as X. clear HeqX. 
  replace (6 ^ 44 * (c * 33 ^ n)) with (c * (6 ^ 44 * 33 ^ n)) by ring. remember (6 ^ 44 * 33 ^ n) as Y. clear HeqY.
  clear n. remember (2 ^ 30) as T. clear HeqT. clearbody c. clear now e Ha.
  apply Z.lt_le_trans with (T * X); [apply Z.mul_lt_mono_pos_r; lia|]. apply Z.le_trans with (T * Y); [apply Z.mul_le_mono_nonneg_l; lia|].
  replace (c * Y * T) with (c * (T * Y)) by ring. assert (0 <= T * Y) by (apply Z.mul_nonneg_nonneg; lia). nia.
Qed.
Lemma search_ends fuel rnd now slots num : slots <> [] -> Forall (fun e => 0 <= e_attempts e) slots -> 0 <= num < 2 ^ 30 ->
  forall d k, 0 <= k <= 44 -> 44 < k + Z.of_nat fuel ->
  exists i d' e, search_loop fuel rnd d k num now slots = Ok (i, d') /\ nth_error slots i = Some e.
Proof.
  intros Ne F Hn. induction fuel as [|fuel IH]; intros d k Hk L; [lia|]. cbn [search_loop].
  destruct (draw_in slots (rnd d) Ne) as [e E]. rewrite E. destruct (chance e now) as [p q] eqn:C.
  destruct (num * (5 ^ k * q) <? 6 ^ k * p * 2 ^ 30) eqn:A; [eauto|].
  assert (k <> 44).
  { intros ->. rewrite Forall_forall in F. pose proof (accept_44 e now num (F e (nth_error_In _ _ E)) Hn) as X. rewrite C in X. congruence. }
  apply IH; lia.
Qed.
Lemma search_ok rnd d now am : am_ok am ->
  match am_slots am with
  | [] => search rnd d now am = Ok (None, d)
  | _ => exists i d' e, search rnd d now am = Ok (Some i, d') /\ nth_error (am_slots am) i = Some e
  end.
Proof.
  intros K. unfold search. destruct (am_slots am) as [|x s] eqn:E; [reflexivity|]. rewrite <- E.
  destruct (search_ends 50 rnd now (am_slots am) (rnd d mod 2 ^ 30)) with (d := S d) (k := 0) as (i & d' & e & S & N); try lia.
  - congruence.
  - apply Forall_forall. intros y I. pose proof (ok_entries _ K) as F. rewrite Forall_forall in F. apply (F y I).
  - exists i, d', e. rewrite S. cbn. auto.
Qed.
(** An entry that was never tried is taken at once. *)
Theorem untried_taken_at_once : forall rnd now am i e, am_ok am -> nth_error (am_slots am) i = Some e -> e_attempts e = 0 -> 600 <= now - e_attempt e ->
  rnd 1%nat mod am_size am = Z.of_nat i -> search rnd 0 now am = Ok (Some i, 2%nat).
Proof.
  intros rnd now am i e K N A T R. unfold search. destruct (am_slots am) as [|x s] eqn:E; [destruct i; discriminate N|]. rewrite <- E in *.
  cbn [search_loop]. change (zlen (am_slots am)) with (am_size am). rewrite R, Nat2Z.id, N. unfold chance. rewrite A. replace (now - e_attempt e <? 600) with false by lia.
  change (5 ^ 0 * (100 * 50 ^ Z.min 0 8)) with 100. change (6 ^ 0 * (100 * 33 ^ Z.min 0 8)) with 100.
  pose proof (Z.mod_pos_bound (rnd 0%nat) (2 ^ 30) eq_refl). replace (_ <? _) with true by lia. reflexivity.
Qed.

(* ---------- choosing ---------- *)
(** What is asked of an address at every try *)
Record candidate (peers : list addr) (e : entry) : Prop := {
  c_kept : e_removed e = false;
  c_new : forall p, In p peers -> ~ same (e_addr e) p;
  c_valid : is_valid (e_addr e) = true;
  c_full : Z.odd (e_services e) = true;
  c_ip : ~ tor (e_addr e) }.
Lemma land1 x : (Z.land x 1 =? 0) = negb (Z.odd x).
Proof.
  change 1 with (Z.ones 1). rewrite Z.land_ones by lia. change (2 ^ 1) with 2. rewrite Zmod_odd. destruct (Z.odd x); reflexivity.
Qed.
Definition ban_over (clock : Z) (am : addrman) (a : addr) : Prop := forall t, ban_find (am_bans am) a = Some t -> t + 86400 < clock.
Lemma is_banned_spec clock am a : let (am', b) := is_banned clock am a in
  am_slots am' = am_slots am /\ am_map am' = am_map am /\ (b = false <-> ban_over clock am a) /\ (b = true -> am' = am).
Proof.
  unfold is_banned, ban_over, ban_time. destruct (ban_find (am_bans am) a) as [t|].
  - destruct (Z.ltb_spec (t + 86400) clock); cbn; repeat split; try discriminate; auto.
    + intros _ u U. injection U as <-. lia.
    + intros H0. specialize (H0 t eq_refl). lia.
  - repeat split; try discriminate.
Qed.
Lemma onion_iff a : is_onion a = true <-> tor a.
Proof. apply (starts_iff a tor_onion). Qed.
Lemma candidate_dec peers e :
  negb (e_removed e) && negb (existsb (addr_equal (e_addr e)) peers) && is_valid (e_addr e) && negb (Z.land (e_services e) 1 =? 0) && negb (is_onion (e_addr e)) = true
  <-> candidate peers e.
Proof.
  rewrite !andb_true_iff, !negb_true_iff, land1. split.
  - intros ((((A & B) & C) & D) & E). constructor; auto.
    + intros p I S. assert (X : existsb (addr_equal (e_addr e)) peers = true) by (apply existsb_exists; exists p; split; [exact I|apply eq_same; exact S]). congruence.
    + destruct (Z.odd (e_services e)); auto.
    + intros T. apply onion_iff in T. congruence.
  - intros [A B C D E]. repeat split; auto.
    + destruct (existsb _ peers) eqn:X; [|reflexivity]. apply existsb_exists in X as (p & I & S). apply eq_same in S. exfalso. exact (B p I S).
    + rewrite D. reflexivity.
    + apply not_onion. exact E.
Qed.
(** What try [i] does with the slot it found *)
Definition good_try (i port clock now : Z) (am : addrman) (peers : list addr) (e : entry) : Prop :=
  candidate peers e /\ (i < 30 -> 600 <= now - e_attempt e) /\ (i < 50 -> a_port (e_addr e) = port) /\ (i < 95 -> ban_over clock am (e_addr e)).
Lemma pick_step k i port rnd clock d now am peers : am_ok am ->
  (am_slots am = [] /\ pick_loop (S k) i port rnd clock d now am peers = Ok (am, None)) \/
  (exists j d' e, search rnd d now am = Ok (Some j, d') /\ nth_error (am_slots am) j = Some e /\
    ((good_try i port (clock i) now am peers e /\ exists am', am_slots am' = am_slots am /\ am_map am' = am_map am /\
        pick_loop (S k) i port rnd clock d now am peers = Ok (am', Some j)) \/
     (~ good_try i port (clock i) now am peers e /\ pick_loop (S k) i port rnd clock d now am peers = pick_loop k (i + 1) port rnd clock d' now am peers))).
Proof.
  intros K. pose proof (search_ok rnd d now am K) as S. cbn [pick_loop]. destruct (am_slots am) as [|x s] eqn:E.
  { left. rewrite S. auto. }
  right. destruct S as (j & d' & e & S & N). exists j, d', e. rewrite S. cbn [obind]. rewrite ?E, N. split; [reflexivity|]. split; [reflexivity|].
  pose proof (candidate_dec peers e) as C.
  assert (R : ~ candidate peers e -> ~ good_try i port (clock i) now am peers e) by (intros H [H1 _]; exact (H H1)).
  destruct (e_removed e); [right; split; [apply R; rewrite <- C; discriminate|reflexivity]|].
  destruct (existsb (addr_equal (e_addr e)) peers); [right; split; [apply R; rewrite <- C; discriminate|reflexivity]|].
  destruct (is_valid (e_addr e)); [|right; split; [apply R; rewrite <- C; discriminate|reflexivity]]. cbn [negb].
  destruct (Z.land (e_services e) 1 =? 0); [right; split; [apply R; rewrite <- C; discriminate|reflexivity]|].
  destruct (is_onion (e_addr e)); [right; split; [apply R; rewrite <- C; discriminate|reflexivity]|].
  cbn in C. assert (C' : candidate peers e) by (apply C; reflexivity). clear C R.
  destruct ((i <? 30) && (now - e_attempt e <? 600)) eqn:A; [right; split; [intros (_ & H & _); lia|reflexivity]|].
  destruct ((i <? 50) && negb (a_port (e_addr e) =? port)) eqn:B; [right; split; [intros (_ & _ & H & _); lia|reflexivity]|].
  destruct (Z.ltb_spec i 95).
  - pose proof (is_banned_spec (clock i) am (e_addr e)) as X. destruct (is_banned (clock i) am (e_addr e)) as [am' b]. destruct X as (X1 & X2 & X3 & X4).
    destruct b.
    + right. split; [intros (_ & _ & _ & H4); apply X3 in H4; [discriminate H4|lia]|]. rewrite (X4 eq_refl). reflexivity.
    + left. split; [|exists am'; rewrite X1, E; auto]. split; [exact C'|]. repeat split; try lia. intros _. apply X3. reflexivity.
  - left. split; [|exists am; rewrite E; auto]. split; [exact C'|]. repeat split; lia.
Qed.
Lemma pick_loop_spec k port rnd clock now peers am : am_ok am -> forall i d,
  exists am' o, pick_loop k i port rnd clock d now am peers = Ok (am', o) /\ am_slots am' = am_slots am /\ am_map am' = am_map am /\
    (forall j, o = Some j -> exists t e, i <= t < i + Z.of_nat k /\ nth_error (am_slots am) j = Some e /\ good_try t port (clock t) now am peers e) /\
    (o = None -> am' = am).
Proof.
  intros K. induction k as [|k IH]; intros i d.
  { exists am, None. repeat split; auto. intros j H. discriminate H. }
  destruct (pick_step k i port rnd clock d now am peers K) as [(E & P)|(j & d' & e & S & N & [(G & am' & A & M & P)|(G & P)])]; rewrite P.
  - exists am, None. repeat split; auto. intros j H. discriminate H.
  - exists am', (Some j). repeat split; auto; [|discriminate]. intros j' H. injection H as <-. exists i, e. repeat split; auto; try lia; apply G.
  - destruct (IH (i + 1) d') as (am' & o & Q & A & M & F & Z). exists am', o. repeat split; auto. intros j' H. destruct (F j' H) as (t & e' & T & N' & G').
    exists t, e'. repeat split; auto; try lia; apply G'.
Qed.
(** The tries up to the [k]-th decide alone if one of them succeeds. *)
Lemma pick_prefix k k' port rnd clock now peers am am' j : forall i d,
  pick_loop k i port rnd clock d now am peers = Ok (am', Some j) -> pick_loop (k + k') i port rnd clock d now am peers = Ok (am', Some j).
Proof.
  revert am. induction k as [|k IH]; intros am i d E; [discriminate E|]. cbn [Nat.add pick_loop] in *. destruct (search rnd d now am) as [[o d']|n| |]; try discriminate E.
  cbn [obind] in *. destruct o as [x|]; [|discriminate E]. destruct (nth_error (am_slots am) x) as [e|]; [|discriminate E].
  destruct (e_removed e); [auto|]. destruct (existsb _ peers); [auto|]. destruct (negb (is_valid _)); [auto|]. destruct (_ =? 0); [auto|]. destruct (is_onion _); [auto|].
  destruct (_ && _); [auto|]. destruct (_ && _); [auto|]. destruct (i <? 95); [|exact E]. destruct (is_banned (clock i) am (e_addr e)) as [am2 []]; auto.
Qed.

(** C50. The choice always ends, leaves the table alone, and what it chooses is an address
    of the table that is not marked removed, that no peer has, that is valid, offers full
    service and is no onion address. *)
Theorem picked_address_eligible : forall port rnd clock now am peers, am_ok am ->
  exists am' o, pick port rnd clock now am peers = Ok (am', o) /\ am_ok am' /\ am_slots am' = am_slots am /\
    (forall j, o = Some j -> exists e, nth_error (am_slots am) j = Some e /\ candidate peers e).
Proof.
  intros port rnd clock now am peers K. destruct (pick_loop_spec 100 port rnd clock now peers am K 0 0%nat) as (am' & o & P & A & M & F & _).
  exists am', o. split; [exact P|]. split; [|split; [exact A|]].
  - destruct K as [K1 K2 K3 K4]. constructor; unfold am_size; rewrite ?A, ?M; auto.
  - intros j H. destruct (F j H) as (t & e & _ & N & G). exists e. split; [exact N|apply G].
Qed.
(** C50. An address chosen in the first thirty tries was not tried for ten minutes, in the
    first fifty has the port of encrypted peers, in the first ninety-five is not banned.
    The last five tries ignore the bans: the full statement is refuted below. *)
Theorem picked_not_banned_partial : forall k port rnd clock now am peers am' j, am_ok am ->
  pick_loop k 0 port rnd clock 0 now am peers = Ok (am', Some j) -> (k <= 100)%nat ->
  pick port rnd clock now am peers = Ok (am', Some j) /\
  exists e t, nth_error (am_slots am) j = Some e /\ 0 <= t < Z.of_nat k /\
    ((k <= 30)%nat -> 600 <= now - e_attempt e) /\ ((k <= 50)%nat -> a_port (e_addr e) = port) /\
    ((k <= 95)%nat -> snd (is_banned (clock t) am (e_addr e)) = false).
Proof.
  intros k port rnd clock now am peers am' j K E L. split.
  - unfold pick. replace 100%nat with (k + (100 - k))%nat by lia. apply pick_prefix. exact E.
  - destruct (pick_loop_spec k port rnd clock now peers am K 0 0%nat) as (am2 & o & P & _ & _ & F & _). rewrite E in P. injection P as <- <-.
    destruct (F j eq_refl) as (t & e & T & N & (_ & G1 & G2 & G3)). exists e, t. split; [exact N|]. split; [lia|]. split; [intros; apply G1; lia|]. split; [intros; apply G2; lia|].
    intros H. pose proof (is_banned_spec (clock t) am (e_addr e)) as X. destruct (is_banned (clock t) am (e_addr e)) as [a b]. cbn. apply X. apply G3. lia.
Qed.
(** C50. It does choose: an address, if every address of the table may be dialled; the one
    of the first try, if it was not tried lately, has the port and is not banned. *)
Theorem some_address_is_picked : forall port rnd clock now am peers, am_ok am -> am_slots am <> [] ->
  (forall e, In e (am_slots am) -> candidate peers e) ->
  (exists am' j, pick port rnd clock now am peers = Ok (am', Some j)) /\
  (forall j d e, search rnd 0 now am = Ok (Some j, d) -> nth_error (am_slots am) j = Some e -> 600 <= now - e_attempt e -> a_port (e_addr e) = port ->
     snd (is_banned (clock 0) am (e_addr e)) = false -> exists am', pick port rnd clock now am peers = Ok (am', Some j)).
Proof.
  intros port rnd clock now am peers K Ne C. split.
  - assert (G : forall k i d, 95 < i + Z.of_nat (S k) -> exists am' j, pick_loop (S k) i port rnd clock d now am peers = Ok (am', Some j)).
    { induction k as [|k IH]; intros i d L.
      - destruct (pick_step 0 i port rnd clock d now am peers K) as [(E & P)|(j & d' & e & X & N & [(G & am' & A & M & P)|(G & P)])]; rewrite P; [contradiction|eauto|].
        exfalso. apply G. split; [apply C; eapply nth_error_In; eauto|]. repeat split; lia.
      - destruct (pick_step (S k) i port rnd clock d now am peers K) as [(E & P)|(j & d' & e & X & N & [(G & am' & A & M & P)|(G & P)])]; rewrite P; [contradiction|eauto|]. apply IH. lia. }
    apply (G 99%nat); lia.
  - intros j d e S N H1 H2 H3. destruct (pick_step 99 0 port rnd clock 0 now am peers K) as [(E & P)|(j' & d' & e' & S' & N' & [(G & am' & A & M & P)|(G & P)])].
    + contradiction.
    + rewrite S in S'. injection S' as <- <-. exists am'. exact P.
    + exfalso. rewrite S in S'. injection S' as <- <-. rewrite N in N'. injection N' as <-. apply G. split; [apply C; eapply nth_error_In; eauto|].
      split; [auto|]. split; [auto|]. intros _. pose proof (is_banned_spec (clock 0) am (e_addr e)) as X. destruct (is_banned (clock 0) am (e_addr e)) as [a b]. cbn in H3. subst b. apply X. reflexivity.
Qed.

(** An address that is banned is not chosen: refuted, the last five tries do not ask. *)
Definition one_table : addrman := {| am_slots := [fresh {| na_time := 1600000000; na_services := 1; na_addr := nth_addr 1 |}]; am_map := [0%nat]; am_bans := [(nth_addr 1, 1600000000)] |}.
Lemma one_table_ok : am_ok one_table.
Proof.
  constructor.
  - vm_compute. discriminate.
  - reflexivity.
  - intros [|[|i]] [|[|j]] e f E F _; try discriminate; reflexivity.
  - repeat constructor; try (vm_compute; discriminate); cbn [one_table am_slots fresh e_addr na_addr]; apply (wf_zero 1 12038); lia.
Qed.
Theorem picked_not_banned_refuted : exists am am', am_ok am /\ snd (is_banned 1600000001 am (nth_addr 1)) = true /\
  pick 44806 (fun _ => 0) (fun _ => 1600000001) 1600000001 am [] = Ok (am', Some 0%nat) /\
  exists e, nth_error (am_slots am') 0 = Some e /\ e_addr e = nth_addr 1.
Proof.
  exists one_table. eexists. split; [apply one_table_ok|]. split; [vm_compute; reflexivity|]. split; [vm_compute; reflexivity|]. eexists. split; vm_compute; reflexivity.
Qed.
Example ex_candidate : candidate [nth_addr 2] (fresh {| na_time := 1600000000; na_services := 1; na_addr := nth_addr 1 |}).
Proof. apply candidate_dec. vm_compute. reflexivity. Qed.

(* ---------- addresses told by peers ---------- *)
(** C50. Which addresses of a message are kept: those that can be routed, of full nodes, with
    a port and without key. A time that makes no sense is replaced by five days ago. *)
Theorem told_address_kept_exactly : forall now na na', 432000 <= now < 2 ^ 63 ->
  usable now na = Some na' <->
  is_routable (na_addr na) = true /\ Z.odd (na_services na) = true /\ a_port (na_addr na) <> 0 /\ has_key (na_addr na) = false /\
  na_addr na' = na_addr na /\ na_services na' = na_services na /\
  (100000000 < na_time na <= now + 600 /\ na_time na' = na_time na \/
   ~ 100000000 < na_time na <= now + 600 /\ na_time na' = now - 432000).
Proof.
  intros now na na' Hn. unfold usable. rewrite land1. change (2 ^ 63) with 9223372036854775808 in *. unfold u64. change (2 ^ 64) with 18446744073709551616.
  rewrite !Z.mod_small by lia. destruct (is_routable (na_addr na)); cbn [negb]; [|split; [discriminate|intros (H & _); discriminate H]].
  destruct (Z.odd (na_services na)); cbn [negb]; [|split; [discriminate|intros (_ & H & _); discriminate H]].
  destruct (Z.eqb_spec (a_port (na_addr na)) 0) as [P|P]; [split; [discriminate|tauto]|].
  destruct (has_key (na_addr na)); [split; [discriminate|intros (_ & _ & _ & H & _); discriminate H]|].
  split.
  - intros E. injection E as <-. cbn. repeat (split; [auto|]). destruct ((_ <=? _) || _) eqn:T; lia.
  - intros (_ & _ & _ & _ & A & S & T). f_equal. destruct na' as [t s a]. cbn in *. subst a s. f_equal. destruct ((_ <=? _) || _) eqn:Q; lia.
Qed.

(* ---------- every run ---------- *)
Definition attempts_upto (n : Z) (am : addrman) : Prop := forall e, In e (am_slots am) -> e_attempts e <= n.
Lemma in_set_slot s i e x : In x (set_slot s i e) -> x = e \/ In x s.
Proof.
  revert i. induction s as [|y s IH]; intros [|i] I; cbn in I; auto.
  - destruct I as [->|I]; [auto|right; right; exact I].
  - destruct I as [->|I]; [right; left; reflexivity|]. destruct (IH i I) as [H|H]; [auto|right; right; exact H].
Qed.
Lemma add_run fb rnd now am na src n : 0 <= fb < 65536 -> am_ok am -> addr_wf (na_addr na) -> attempts_upto n am -> 0 <= n ->
  exists am' r, add_entry fb true rnd now am na src = Ok (am', r) /\ am_ok am' /\ attempts_upto n am'.
Proof.
  intros Hf K W A Hn. destruct (adding_exact fb rnd now am na src Hf K W) as (am' & r & E & K' & C). exists am', r. split; [exact E|]. split; [exact K'|].
  destruct C as [(i & e & e' & N & S & Se & [Sl _])|(_ & [(_ & _ & [Sl _])|[(_ & _ & -> & _)|(_ & _ & j & e & _ & N & _ & _ & [Sl _])]])].
  - intros x I. rewrite Sl in I. apply in_set_slot in I as [->|I]; [|auto]. pose proof (ok_entries _ K) as F. rewrite Forall_forall in F.
    destruct (F e (nth_error_In _ _ N)) as (_ & R & _). destruct (see_again_ok rnd now na src e R) as (e2 & r2 & Se2 & _ & At & _). rewrite Se in Se2. injection Se2 as <- <-.
    rewrite At. apply A. eapply nth_error_In; eauto.
  - intros x I. rewrite Sl in I. apply in_app_or in I as [I|[<-|[]]]; [auto|cbn; lia].
  - exact A.
  - intros x I. rewrite Sl in I. apply in_set_slot in I as [->|I]; [cbn; lia|auto].
Qed.
Lemma mark_run m now am a n : am_ok am -> attempts_upto n am -> 0 <= n < 2147483647 ->
  exists am' r, do_mark m now am a = Ok (am', r) /\ am_ok am' /\ attempts_upto (n + match m with Attempted => 1 | _ => 0 end) am'.
Proof.
  intros K A Hn. pose proof (ok_entries _ K) as Ke. rewrite Forall_forall in Ke.
  assert (G : forall f, do_mark m now am a = on_entry am a f ->
    (forall e, In e (am_slots am) -> exists e' r, f e = Ok (e', r) /\ e_addr e' = e_addr e /\ entry_ok e' /\ e_attempts e' <= n + match m with Attempted => 1 | _ => 0 end) ->
    exists am' r, do_mark m now am a = Ok (am', r) /\ am_ok am' /\ attempts_upto (n + match m with Attempted => 1 | _ => 0 end) am').
  { intros f E H. rewrite E. destruct (on_entry_spec am a f K) as (am' & r & E1 & K1 & B & C).
    - intros e I. destruct (H e I) as (e' & r & E1 & Ad & Ke1 & _). exists e', r. auto.
    - exists am', r. split; [exact E1|]. split; [exact K1|]. destruct C as [(i & e & e' & N & S & Ef & Sl)|(_ & -> & _)].
      + intros x I. rewrite Sl in I. apply in_set_slot in I as [->|I].
        * destruct (H e (nth_error_In _ _ N)) as (e1 & r1 & Ef1 & _ & _ & M). rewrite Ef in Ef1. injection Ef1 as <- <-. exact M.
        * specialize (A x I). destruct m; lia.
      + intros x I. specialize (A x I). destruct m; lia. }
  destruct m as [| | |s]; (eapply G; [reflexivity|]); intros e I; destruct (Ke e I) as (W & R & At); specialize (A e I); cbv beta.
  - eexists _, _. split; [reflexivity|]. split; [reflexivity|]. split; [split; [exact W|cbn; lia]|cbn; lia].
  - replace (e_attempts e =? 2147483647) with false by lia. eexists _, _. split; [reflexivity|]. split; [reflexivity|]. split; [split; [exact W|cbn; lia]|cbn; lia].
  - destruct (1200 <? _); eexists _, _; (split; [reflexivity|]; split; [reflexivity|]; split; [split; [exact W|cbn; lia]|cbn; lia]).
  - eexists _, _. split; [reflexivity|]. split; [reflexivity|]. split; [split; [exact W|cbn; lia]|cbn; lia].
Qed.
Lemma add_all_run fb rnd now l n : 0 <= fb < 65536 -> Forall (fun na => addr_wf (na_addr na)) l -> 0 <= n -> forall k am, am_ok am -> attempts_upto n am ->
  exists am', add_all fb (fun _ => true) rnd now k am l = Ok am' /\ am_ok am' /\ attempts_upto n am'.
Proof.
  intros Hf F Hn. induction l as [|na l IH]; intros k am K A; [exists am; auto|]. apply Forall_cons_iff in F as [W F]. cbn [add_all].
  destruct (usable now na) as [na'|] eqn:U; [|apply IH; auto].
  assert (X : na_addr na' = na_addr na).
  { unfold usable in U. repeat match type of U with (if ?b then _ else _) = _ => destruct b; [discriminate U|] end. cbv zeta in U.
    repeat match type of U with (if ?b then None else _) = _ => destruct b; [discriminate U|] end. injection U as <-. reflexivity. }
  destruct (add_run fb (rnd k) now am na' true n Hf K) as (am1 & r & E & K1 & A1); auto; [rewrite X; exact W|].
  unfold add_na. rewrite E. cbn [obind]. apply (IH F); auto.
Qed.
Inductive op :=
| Add (na : netaddr) (told : bool) (rnd : nat -> Z) (now : Z)
| Mark (m : mark) (now : Z) (a : addr)
| Bans (o : ban_op)
| Pick (port : Z) (rnd : nat -> Z) (clock : Z -> Z) (now : Z) (peers : list addr)
| Told (rnd : nat -> nat -> Z) (now : Z) (l : list netaddr).
Definition step (fb : Z) (am : addrman) (o : op) : outcome addrman :=
  match o with
  | Add na told rnd now => obind (add_entry fb true rnd now am na told) (fun '(am, _) => Ok am)
  | Mark m now a => obind (do_mark m now am a) (fun '(am, _) => Ok am)
  | Bans o => Ok (ban_step am o)
  | Pick port rnd clock now peers => obind (pick port rnd clock now am peers) (fun '(am, _) => Ok am)
  | Told rnd now l => obind (handle_addr fb (fun _ => true) rnd now am l) (fun '(am, _) => Ok am)
  end.
Fixpoint run (fb : Z) (am : addrman) (ops : list op) : outcome addrman :=
  match ops with [] => Ok am | o :: r => obind (step fb am o) (fun am => run fb am r) end.
Definition op_ok (o : op) : Prop :=
  match o with Add na _ _ _ => addr_wf (na_addr na) | Told _ _ l => Forall (fun na => addr_wf (na_addr na)) l | _ => True end.
Definition attempt_ops (ops : list op) : Z := zlen (filter (fun o => match o with Mark Attempted _ _ => true | _ => false end) ops).
Lemma same_table_ok am am' : am_slots am' = am_slots am -> am_map am' = am_map am -> am_ok am -> am_ok am'.
Proof. intros S M [A B C D]. constructor; unfold am_size; rewrite ?S, ?M; auto. Qed.
Definition tries (o : op) : Z := match o with Mark Attempted _ _ => 1 | _ => 0 end.
Lemma step_ok fb am o n : 0 <= fb < 65536 -> am_ok am -> attempts_upto n am -> 0 <= n -> op_ok o -> n + tries o <= 2147483646 ->
  exists am', step fb am o = Ok am' /\ am_ok am' /\ attempts_upto (n + tries o) am'.
Proof.
  intros Hf K A Hn O L. unfold tries in *.
destruct o as [na told rnd now|m now a|o|port rnd clock now peers|rnd now l]; cbn [step op_ok] in *.
      - destruct (add_run fb rnd now am na told n Hf K O A Hn) as (am' & r & E & K' & A'). exists am'. rewrite E. rewrite Z.add_0_r. auto.
      - destruct (mark_run m now am a n K A) as (am' & r & E & K' & A').
        { destruct m; lia. }
        exists am'. rewrite E. split; [reflexivity|]. split; [exact K'|]. destruct m; exact A'.
      - exists (ban_step am o). rewrite Z.add_0_r. split; [reflexivity|].
        assert (X : am_slots (ban_step am o) = am_slots am /\ am_map (ban_step am o) = am_map am).
        { destruct o as [c b|c b|]; cbn [ban_step]; [unfold add_ban; destruct (ban_find (am_bans am) b); cbn; auto| |cbn; auto].
          unfold is_banned. destruct (ban_find (am_bans am) b); [|cbn; auto]. destruct (_ <? c); cbn; auto. }
        destruct X as [X Y]. split; [apply (same_table_ok am); auto|]. intros e I. rewrite X in I. auto.
      - destruct (picked_address_eligible port rnd clock now am peers K) as (am' & r & E & K' & S & _). exists am'. rewrite E, Z.add_0_r. split; [reflexivity|]. split; [exact K'|].
        intros e I. rewrite S in I. auto.
      - rewrite Z.add_0_r. unfold handle_addr. destruct (1000 <? zlen l); [exists am; auto|].
        destruct (add_all_run fb rnd now l n Hf O Hn 0 am K A) as (am' & E & K' & A'). exists am'. rewrite E. auto.
Qed.
(** C49. Whatever is added, told, marked, banned and chosen, in any order: nothing fails, at
    most 2000 addresses are kept, no two of them the same, and lookups find each at its slot
    (lookup_exact). The counter of attempts is an int32: fewer than 2^31 of them. *)
Theorem table_always_consistent : forall fb ops am n, 0 <= fb < 65536 -> am_ok am -> attempts_upto n am -> 0 <= n ->
  Forall op_ok ops -> n + attempt_ops ops <= 2147483646 ->
  exists am', run fb am ops = Ok am' /\ am_ok am' /\ am_size am' <= 2000 /\
    (forall i j e f, nth_error (am_slots am') i = Some e -> nth_error (am_slots am') j = Some f -> same (e_addr e) (e_addr f) -> i = j) /\
    (forall i e, nth_error (am_slots am') i = Some e -> am_get am' (e_addr e) = Some i).
Proof.
  intros fb ops am n Hf K A Hn F L.
  assert (G : exists am', run fb am ops = Ok am' /\ am_ok am').
  { revert am n K A Hn L. induction ops as [|o ops IH]; intros am n K A Hn L; [exists am; auto|]. apply Forall_cons_iff in F as [O F]. cbn [run].
    assert (Q : 0 <= zlen (filter (fun o => match o with Mark Attempted _ _ => true | _ => false end) ops)) by apply zlen_nonneg.
    destruct (step_ok fb am o n Hf K A Hn O) as (am1 & E & K1 & A1).
    { unfold attempt_ops in L. cbn [filter] in L. destruct o as [| [] | | |]; cbn [tries]; rewrite ?zlen_cons in L; lia. }
    rewrite E. cbn [obind]. apply (IH F am1 _ K1 A1).
    - destruct o as [| [] | | |]; cbn [tries]; lia.
    - unfold attempt_ops in *. cbn [filter] in L. destruct o as [| [] | | |]; cbn [tries]; rewrite ?zlen_cons in L; lia. }
  destruct G as (am' & E & K'). exists am'. split; [exact E|]. split; [exact K'|]. split; [apply (ok_size _ K')|]. split; [apply (ok_distinct _ K')|].
  intros i e N. apply get_iff; auto. exists e. split; [exact N|apply same_refl].
Qed.
Lemma empty_ok : am_ok am_empty.
Proof.
  constructor; cbn.
  - vm_compute. discriminate.
  - reflexivity.
  - intros i j e f E. destruct i; discriminate E.
  - constructor.
Qed.
(** More than 2^31 - 1 attempts at one address without a connection overflow the counter. *)
Theorem attempts_never_overflow_refuted : exists am, am_ok am /\ mark_attempt 1600000000 am (nth_addr 1) = Ub.
Proof.
  exists (put_slot one_table 0 {| e_addr := nth_addr 1; e_time := 1; e_services := 1; e_attempts := 2147483647; e_success := 0; e_attempt := 1; e_ref := 1; e_used := false; e_removed := false |}).
  split.
  - eapply put_slot_ok; [apply one_table_ok|reflexivity|reflexivity|]. split; [apply wf_zero; lia|cbn; lia].
  - vm_compute. reflexivity.
Qed.
Example ex_run : exists am', run 44806 am_empty
  [Add {| na_time := 1600000000; na_services := 1; na_addr := nth_addr 1 |} false (fun _ => 0) 1600000000;
   Told (fun _ _ => 0) 1600000100 [{| na_time := 1600000000; na_services := 1; na_addr := nth_addr 2 |}; {| na_time := 1600000000; na_services := 0; na_addr := nth_addr 3 |}];
   Mark Attempted 1600000200 (nth_addr 2); Bans (Ban 1600000300 (nth_addr 1)); Pick 12038 (fun d => Z.of_nat d) (fun _ => 1600000400) 1600000400 [nth_addr 2]] = Ok am' /\ am_size am' = 2.
Proof. eexists. split; vm_compute; reflexivity. Qed.

Print Assumptions untried_taken_at_once.
Print Assumptions picked_address_eligible.
Print Assumptions picked_not_banned_partial.
Print Assumptions some_address_is_picked.
Print Assumptions picked_not_banned_refuted.
Print Assumptions told_address_kept_exactly.
Print Assumptions table_always_consistent.
Print Assumptions attempts_never_overflow_refuted.
