(** C11-C18, C20, C22, C23: the header chain. *)
From Coq Require Import Sorted.
From Verif Require Import Common CommonFacts BioModel BioFacts HeaderModel HeaderSpec HeaderFacts HeaderTheorems ProofFacts
  Assoc AssocFacts ChainModel ChainSpec ChainFacts ChainRunFacts.

Definition bytes_okb (l : list Z) : bool := forallb (fun b => (0 <=? b) && (b <? 256)) l.

Definition net_okb (N : net) : bool :=
  (length (n_limit N) =? 32)%nat && bytes_okb (n_limit N) && (length (n_chainwork N) =? 32)%nat && bytes_okb (n_chainwork N) &&
  match pow_to_target (n_bits N) with Some _ => true | None => false end &&
  (151 <=? n_window N) && (n_window N <? 2 ^ 31) && (0 <? n_interval N) && (n_interval N <? 2 ^ 31) &&
  (length (n_genesis N) =? 236)%nat && bytes_okb (n_genesis N) &&
  match hdr_decode (n_genesis N) with
  | Some h => (h_time h <? 2 ^ 63) && match pow_to_target (h_bits h) with Some _ => true | None => false end
  | None => false
  end.

Lemma net_okb_ok N : net_okb N = true -> net_ok N.
Proof.
  unfold net_okb, net_ok, hash_ok. rewrite !Bool.andb_true_iff. rewrite !Nat.eqb_eq, !Z.leb_le, !Z.ltb_lt.
  intros H. decompose [and] H. clear H.
  destruct (pow_to_target (n_bits N)) as [t|]; [|discriminate].
  destruct (hdr_decode (n_genesis N)) as [h|]; [|discriminate].
  match goal with X : _ && _ = true |- _ => apply Bool.andb_true_iff in X as [X1 X2] end.
  destruct (pow_to_target (h_bits h)) as [t'|] eqn:Et'; [|discriminate]. apply Z.ltb_lt in X1.
  assert (BO : forall l, bytes_okb l = true -> bytes_ok l) by exact bytes_ok_check.
  split; [split; auto|]. split; [split; auto|]. split; [eauto|]. split; [lia|]. split; [lia|].
  split; [auto|]. split; [auto|]. exists h, t'. auto.
Qed.

(** The constants of all four networks satisfy [net_ok]. *)
Theorem networks_ok : net_ok net_main /\ net_ok net_testnet /\ net_ok net_regtest /\ net_ok net_simnet.
Proof. refine (conj _ (conj _ (conj _ _))); apply net_okb_ok; vm_compute; reflexivity. Qed.

Lemma decoded_below e m t l : canonical e m -> e <= 33 -> compact_value e m <= t -> t <= l -> l < 2 ^ 256 ->
  exists t', pow_to_target (compact e m) = Some t' /\ be_val t' <= l.
Proof.
  intros Can Le V E3 B. set (P := 2 ^ 256) in *.
  destruct Can as (C1 & C2 & C3).
  assert (Hm : 0 <= m < 2 ^ 23) by (change (2 ^ 23) with 8388608 in *; lia).
  assert (He : 0 <= e < 256) by lia.
  destruct (compact_decoding_exact e m He ltac:(change (2 ^ 24) with 16777216; change (2 ^ 23) with 8388608 in *; lia)) as [D _].
  fold P in D. destruct D as (t' & Et' & _ & Vt').
  - apply Hm.
  - unfold compact. change (2 ^ 23) with 8388608 in *. lia.
  - lia.
  - exists t'. split; auto. lia.
Qed.

Section Theorems.
  Variable B256 B512 S3 : list Z -> list Z.
  Hypothesis b256 : forall x, length (B256 x) = 32%nat /\ bytes_ok (B256 x).
  Variable N : net.
  Hypothesis NO : net_ok N.
  Local Notation hash := (hdr_hash B256 B512 S3).
  Local Notation pow := (verify_pow B256 B512 S3).
  Local Notation add := (chain_add B256 B512 S3 N).
  Local Notation started := (ChainSpec.started B256 B512 S3 N).
  Local Notation run := (ChainSpec.run B256 B512 S3 N).
  Local Notation admissible := (ChainSpec.admissible B256 B512 S3).
  Local Notation anc st := (ancestor (chain_get st)).

  (** C11: no connected header has more work than the tip. *)
  Theorem tip_has_most_work : forall st0 ops st, started st0 -> run st0 ops st -> admissible st0 ops ->
    conn st (c_tip st) /\ c_height st = e_height (c_tip st) /\
    (forall e, conn st e -> work_val e <= work_val (c_tip st)) /\
    work_val (c_tip st0) <= work_val (c_tip st).
  Proof.
    intros st0 ops st S R A. destruct (started_inv _ _ _ b256 _ NO _ S) as (T & F & root & low & M & SI).
    destruct (run_inv _ _ _ b256 _ NO _ _ _ _ _ _ _ _ SI R A) as ((C & _) & _).
    destruct (run_tip _ _ _ b256 _ NO _ _ _ _ _ _ _ _ SI R A) as [_ W].
    split; [apply (k_tip _ _ _ _ _ _ _ _ _ _ C)|]. split; [apply (k_height _ _ _ _ _ _ _ _ _ _ C)|].
    split; [apply (k_max _ _ _ _ _ _ _ _ _ _ C)|exact W].
  Qed.

  (** C11: a call replaces the tip only by a header with strictly more work. *)
  Theorem tip_changes_only_for_more_work : forall st0 ops st now h rc st', started st0 -> run st0 ops st ->
    admissible st0 (ops ++ [(now, h)]) -> add now st h = Ok (rc, st') ->
    c_tip st' = c_tip st \/ work_val (c_tip st) < work_val (c_tip st').
  Proof.
    intros st0 ops st now h rc st' S R A E. destruct (started_inv _ _ _ b256 _ NO _ S) as (T & F & root & low & M & SI).
    pose proof (run_next _ _ _ b256 _ NO _ _ _ _ _ _ _ _ (now, h) SI R A) as X. cbn [fst snd] in X. rewrite E in X.
    destruct X as [_ X]. eapply step_tip; eauto.
  Qed.

  (** C12: from the initial height on, the height index is exactly the tip's
      ancestor path; below, it is what it was at the start. *)
  Theorem height_index_is_best_chain : forall st0 ops st, started st0 -> run st0 ops st -> admissible st0 ops ->
    c_init st = c_init st0 /\ c_init st <= c_height st < 2 ^ 32 /\
    (forall h e, c_init st <= h < 2 ^ 32 ->
       (chain_get_by_height st h = Some e <-> anc st (c_tip st) e /\ e_height e = h)) /\
    (forall h, c_init st <= h <= c_height st -> exists e, chain_get_by_height st h = Some e) /\
    (forall h, c_height st < h < 2 ^ 32 -> chain_get_by_height st h = None) /\
    (forall h, 0 <= h < c_init st -> chain_get_by_height st h = chain_get_by_height st0 h).
  Proof.
    intros st0 ops st S R A. destruct (started_inv _ _ _ b256 _ NO _ S) as (T & F & root & low & M & SI).
    destruct (run_inv _ _ _ b256 _ NO _ _ _ _ _ _ _ _ SI R A) as ((C & _) & Sz & Kp & Ei & _).
    destruct SI as (C0 & SI). assert (Ct := k_tip _ _ _ _ _ _ _ _ _ _ C). assert (Kh := k_height _ _ _ _ _ _ _ _ _ _ C).
    destruct (k_root _ _ _ _ _ _ _ _ _ _ C) as (R1 & R2 & R3). destruct (anc_conn _ _ _ _ _ _ _ _ _ _ C _ _ Ct R2) as [Cr Hr].
    pose proof (height_nonneg _ _ _ _ _ _ _ _ _ _ C _ Cr) as P.
    pose proof (k_bound _ _ _ _ _ _ _ _ _ _ C _ Ct) as Bd. destruct A as [_ A].
    destruct SI as (Or & _ & _ & _ & HM & _).
    assert (0 <= zlen (c_orphans st)) by (unfold zlen; lia).
    assert (Hb : c_height st < 2 ^ 32) by lia.
    assert (Idx : forall h e, c_init st <= h < 2 ^ 32 ->
       (chain_get_by_height st h = Some e <-> anc st (c_tip st) e /\ e_height e = h)).
    { intros h e Hh. unfold chain_get_by_height. change 4294967296 with (2 ^ 32). rewrite Z.mod_small by lia.
      apply (k_idx _ _ _ _ _ _ _ _ _ _ C). lia. }
    split; [exact Ei|]. split; [lia|]. split; [exact Idx|]. split; [|split].
    - intros h Hh. destruct (idx_get _ _ _ _ _ _ _ _ _ _ h C Hb Hh) as (e & E & _). eauto.
    - intros h Hh. destruct (chain_get_by_height st h) as [e|] eqn:E; auto. exfalso.
      apply Idx in E as [Ae He]; [|lia]. destruct (anc_conn _ _ _ _ _ _ _ _ _ _ C _ _ Ct Ae) as [_ X]. lia.
    - intros h Hh. unfold chain_get_by_height. change 4294967296 with (2 ^ 32). rewrite Z.mod_small by lia.
      rewrite (k_low _ _ _ _ _ _ _ _ _ _ C) by lia. rewrite (k_low _ _ _ _ _ _ _ _ _ _ C0) by lia. reflexivity.
  Qed.

  (** C13: every header connected since the start obeys the consensus rules, under
      its own hash, and headers once connected stay. *)
  Theorem connected_headers_obey_rules : forall st0 ops st, started st0 -> run st0 ops st -> admissible st0 ops ->
    (forall k e, chain_get st k = Some e -> k = hash (e_hdr e) /\ e_hash e = k /\ hdr_ok (e_hdr e)) /\
    (forall e, conn st e -> conn st0 e \/ rules hash N (chain_get st) e) /\
    (forall e, conn st0 e -> conn st e).
  Proof.
    intros st0 ops st S R A. destruct (started_inv _ _ _ b256 _ NO _ S) as (T & F & root & low & M & SI).
    destruct (run_inv _ _ _ b256 _ NO _ _ _ _ _ _ _ _ SI R A) as ((C & _) & _ & Kp & _).
    split; [|split].
    - intros k e H. destruct (k_keys _ _ _ _ _ _ _ _ _ _ C _ _ H) as (-> & E & O & _). auto.
    - intros e H. destruct (k_rules _ _ _ _ _ _ _ _ _ _ C e H) as [X|X]; auto. left.
      destruct SI as (_ & _ & _ & SI & _). now apply SI.
    - intros e H. now apply Kp.
  Qed.

  (** The violated rule behind the codes 24 and 25. *)
  Definition breaks (rc : Z) (st : chain) (h : hdr) : Prop :=
    exists p ts m, chain_get st (h_prev h) = Some p /\ last_times (chain_get st) 11 p ts /\ median ts m /\
      ((rc = 24 /\ h_time h <= m) \/
       (rc = 25 /\ m < h_time h /\ exists b, bits_rule N (chain_get st) (h_time h) p b /\ h_bits h <> b)).

  Lemma broken_breaks rc st h p : chain_get st (h_prev h) = Some p -> broken N rc st h p -> breaks rc st h.
  Proof.
    intros Hp [(E & ts & m & H1 & H2 & H3)|(E & (ts & m & H1 & H2 & H3) & b & H4 & H5)]; exists p, ts, m; auto 10.
    do 3 (split; auto). right. eauto 10.
  Qed.

  (** C14 (partial): the meaning of every return code and what it changes. For all
      codes but 0 (connected), 26 (orphan) and 24/25 the state is the same; for 26
      only orphans change; for 24 and 25 either nothing changes and the header
      breaks the rule, or the header was connected and it is a header waiting for it
      that breaks the rule and is dropped. Missing: "24/25 change nothing". *)
  Theorem rejected_header_changes_nothing_partial : forall st0 ops st now h rc st', started st0 -> run st0 ops st ->
    admissible st0 (ops ++ [(now, h)]) -> add now st h = Ok (rc, st') ->
    (rc = 21 /\ st' = st /\ now + 7200 < h_time h) \/
    (rc = 22 /\ st' = st /\ chain_get st (hash h) <> None) \/
    (rc = 23 /\ st' = st /\ chain_get_orphan st (hash h) <> None) \/
    ((rc = 19 \/ rc = 20) /\ st' = st /\ rc = pow h) \/
    ((rc = 24 \/ rc = 25) /\ st' = st /\ breaks rc st h) \/
    (rc = 26 /\ chain_get st (h_prev h) = None /\ pow h = 0 /\ chain_get_orphan st' (hash h) = Some h /\
       with_orphans st' (c_orphans st) (c_prevs st) = st) \/
    ((rc = 0 \/ rc = 24 \/ rc = 25) /\ (exists e, chain_get st' (hash h) = Some e /\ e_hdr e = h) /\
       chain_get st (hash h) = None /\
       (rc <> 0 -> exists d, d <> h /\ chain_get_orphan st (hash d) = Some d /\ chain_get_orphan st' (hash d) = None /\
          chain_get st' (hash d) = None /\ breaks rc st' d)).
  Proof.
    intros st0 ops st now h rc st' S R A E. destruct (started_inv _ _ _ b256 _ NO _ S) as (T & F & root & low & M & SI).
    pose proof (run_next _ _ _ b256 _ NO _ _ _ _ _ _ _ _ (now, h) SI R A) as X. cbn [fst snd] in X. rewrite E in X.
    destruct X as [I [[-> [[-> X]|[[-> X]|[[-> X]|[[-> X]|[Xp (p & Hp & X)]]]]]]|[(-> & X1 & X2 & X3 & X4 & ->)|(p & e & st1 & X1 & X2 & X3 & X4 & X5 & [X6 X8] & X7)]]]; auto 10.
    - do 3 right. left. split; auto. assert (Oh : hdr_ok h).
      { destruct A as [A _]. apply Forall_app in A as [_ A]. apply Forall_inv in A. apply A. }
      rewrite (verify_pow_spec _ _ _ b256 h Oh) in *. destruct (pow_to_target (h_bits h)); auto.
      destruct (be_val l <? be_val (hash h)); auto. congruence.
    - do 4 right. left. split; [destruct X as [[-> _]|[-> _]]; auto|]. split; auto. eapply broken_breaks; eauto.
    - do 5 right. left. split; auto. split; auto. split; auto. split; [apply bget_set_same|].
      destruct st. cbn. destruct (10000 <? _); reflexivity.
    - do 6 right. destruct X5 as (Y1 & Y2 & Y3 & (_ & _ & Y4 & _) & _).
      assert (G : chain_get st' (hash h) = Some e).
      { apply (g_keep _ _ _ _ _ X7). unfold chain_get. rewrite Y3. apply bget_set_same. }
      assert (Hrc : (rc = 0 \/ rc = 24 \/ rc = 25) /\ (rc <> 0 -> exists d, chain_get_orphan st (hash d) = Some d /\ chain_get_orphan st' (hash d) = None /\
          chain_get st' (hash d) = None /\ breaks rc st' d)).
      { destruct X6 as [[-> _]|(d & q & D1 & D2 & D3 & D4 & D5 & _)]; [split; [auto|congruence]|].
        split; [destruct D5 as [[-> _]|[-> _]]; auto|]. intros _. exists d. split; [|split; [|split]]; auto.
        - unfold chain_get_orphan in *. rewrite <- Y4. exact D1.
        - eapply broken_breaks; eauto. }
      destruct Hrc as [Q1 Q2]. split; auto. split; [eauto|]. split; auto. intros Hr.
      destruct (Q2 Hr) as (d & D1 & D2 & D3 & D4). exists d. split; auto. intros ->. congruence.
  Qed.

  (** A history in which no two headers wait for the same parent at a time. *)
  Inductive run_single (st0 : chain) : list (Z * hdr) -> chain -> Prop :=
  | rs_nil : run_single st0 [] st0
  | rs_add ops st now h rc st' : run_single st0 ops st -> add now st h = Ok (rc, st') ->
      (rc = 26 -> forall k o, chain_get_orphan st k = Some o -> h_prev o <> h_prev h) ->
      run_single st0 (ops ++ [(now, h)]) st'.

  Lemma run_single_run st0 ops st : run_single st0 ops st -> run st0 ops st.
  Proof. induction 1; econstructor; eauto. Qed.

  (** C15 (partial): the orphan pool is bounded; orphans are valid, unconnected
      headers; and if no two waiting headers share a parent, no waiting header has a
      connected parent. Missing: the last part for all histories. *)
  Theorem orphans_bounded_and_connected_partial :
    (forall st0 ops st, started st0 -> run st0 ops st -> admissible st0 ops ->
       zlen (c_orphans st) <= 10001 /\
       (forall k o, chain_get_orphan st k = Some o -> k = hash o /\ pow o = 0 /\ chain_get st k = None)) /\
    (forall st0 ops st, started st0 -> run_single st0 ops st -> admissible st0 ops ->
       forall k o, chain_get_orphan st k = Some o -> chain_get st (h_prev o) = None).
  Proof.
    split.
    - intros st0 ops st S R A. destruct (started_inv _ _ _ b256 _ NO _ S) as (T & F & root & low & M & SI). split.
      + revert A. induction R as [|ops st now h rc st' R IH E]; intros A.
        * destruct SI as (_ & Oe & _). rewrite Oe. unfold zlen. cbn. lia.
        * assert (A' : admissible st0 ops).
          { destruct A as [A1 A2]. apply Forall_app in A1 as [A1 _]. rewrite zlen_snoc in A2. split; auto; lia. }
          pose proof (run_next _ _ _ b256 _ NO _ _ _ _ _ _ _ _ (now, h) SI R A) as X. cbn [fst snd] in X. rewrite E in X.
          destruct X as [_ X]. eapply step_orphans; eauto.
      + intros k o H. destruct (run_inv _ _ _ b256 _ NO _ _ _ _ _ _ _ _ SI R A) as ((_ & O) & _).
        destruct (o_orph _ _ _ _ _ _ O _ _ H) as (-> & _ & P & _ & X & _). auto.
    - intros st0 ops st S R A. destruct (started_inv _ _ _ b256 _ NO _ S) as (T & F & root & low & M & SI).
      assert (Rg : registered st).
      { revert A. induction R as [|ops st now h rc st' R IH E Ns]; intros A.
        - intros k o H. destruct SI as (_ & Oe & _). unfold chain_get_orphan in H. rewrite Oe in H. discriminate H.
        - assert (A' : admissible st0 ops).
          { destruct A as [A1 A2]. apply Forall_app in A1 as [A1 _]. rewrite zlen_snoc in A2. split; auto; lia. }
          pose proof (run_single_run _ _ _ R) as R'.
          pose proof (run_next _ _ _ b256 _ NO _ _ _ _ _ _ _ _ (now, h) SI R' A) as X. cbn [fst snd] in X. rewrite E in X.
          destruct X as [_ X]. destruct (run_inv _ _ _ b256 _ NO _ _ _ _ _ _ _ _ SI R' A') as (I & _).
          eapply step_registered; eauto. }
      destruct (run_inv _ _ _ b256 _ NO _ _ _ _ _ _ _ _ SI (run_single_run _ _ _ R) A) as (I & _).
      eapply registered_none; eauto.
  Qed.

  (** C15: a successful call connects or keeps every waiting header. *)
  Theorem waiting_headers_connected_or_kept : forall st0 ops st now h st', started st0 -> run st0 ops st ->
    admissible st0 (ops ++ [(now, h)]) -> add now st h = Ok (0, st') ->
    (exists e, chain_get st' (hash h) = Some e /\ e_hdr e = h) /\
    forall k o, chain_get_orphan st k = Some o ->
      chain_get_orphan st' k = Some o \/ exists e, chain_get st' k = Some e /\ e_hash e = k.
  Proof.
    intros st0 ops st now h st' S R A E. destruct (started_inv _ _ _ b256 _ NO _ S) as (T & F & root & low & M & SI).
    pose proof (run_next _ _ _ b256 _ NO _ _ _ _ _ _ _ _ (now, h) SI R A) as X. cbn [fst snd] in X. rewrite E in X.
    destruct X as [[C' _] [[-> [[X _]|[[X _]|[[X _]|[[X X']|[Xp (p & Hp & X)]]]]]]|[(X & _)|(p & e & st1 & X1 & X2 & X3 & X4 & X5 & [X6 X8] & X7)]]]; try discriminate X.
    - congruence.
    - destruct X as [[X _]|[X _]]; discriminate X.
    - destruct X5 as (Y1 & Y2 & Y3 & (_ & _ & Y4 & _) & _). split.
      + exists e. split; auto. apply (g_keep _ _ _ _ _ X7). unfold chain_get. rewrite Y3. apply bget_set_same.
      + intros k o H. destruct X6 as [[_ X6]|(d & q & _ & _ & _ & _ & [[X _]|[X _]] & _)]; try discriminate X.
        destruct (X6 k o) as [|[x Hx]]; auto.
        * unfold chain_get_orphan in *. rewrite Y4. exact H.
        * right. exists x. split; auto. destruct (k_keys _ _ _ _ _ _ _ _ _ _ C' _ _ Hx) as [Ek _]. auto.
  Qed.

  (** C16: the retarget rule on integers, for any two headers; the result never
      stands for an easier target than the network's limit (0 stands for no
      target). *)
  Theorem retarget_exact : forall first last, hash_ok (e_work first) -> hash_ok (e_work last) ->
    0 <= e_time first < 2 ^ 63 -> 0 <= e_time last < 2 ^ 63 ->
    (e_height first <= e_height last ->
       retarget N first last = Ok (retarget_rule N (work_val first) (work_val last) (e_time last - e_time first))) /\
    (e_height last < e_height first -> retarget N first last = Abort).
  Proof.
    intros first last O1 O2 T1 T2. split.
    - intros H. rewrite (retarget_spec B256 B512 S3 b256 N NO) by auto. rewrite to_i64_diff by lia. reflexivity.
    - intros H. unfold retarget. destruct (Z.ltb_spec (e_height last) (e_height first)); [reflexivity|lia].
  Qed.

  Theorem retarget_bounded : forall first last b, hash_ok (e_work first) -> hash_ok (e_work last) ->
    retarget N first last = Ok b ->
    b = n_bits N \/ b = 0 \/ exists t, pow_to_target b = Some t /\ be_val t <= be_val (n_limit N).
  Proof.
    intros first last b O1 O2 E.
    assert (H : e_height first <= e_height last).
    { unfold retarget in E. destruct (Z.ltb_spec (e_height last) (e_height first)); [discriminate|lia]. }
    rewrite (retarget_spec B256 B512 S3 b256 N NO) in E by auto. apply Ok_inj in E. subst b. unfold retarget_rule.
    set (q := _ / _). set (t := 2 ^ 256 / q - 1). destruct ((q =? 0) || (t <? 0) || (be_val (n_limit N) <? t)) eqn:Eb; auto.
    apply Bool.orb_false_iff in Eb as [Eb E3]. apply Bool.orb_false_iff in Eb as [_ E2].
    apply Z.ltb_ge in E2, E3. destruct NO as ([Ll Ol] & _).
    pose proof (be_val_bounds _ Ol) as B. unfold zlen in B. rewrite Ll in B. change (256 ^ Z.of_nat 32) with (2 ^ 256) in B.
    assert (Ot : hash_ok (be_bytes 32 t)) by (split; [apply be_bytes_length|apply be_bytes_ok]).
    assert (Vt : be_val (be_bytes 32 t) = t) by (apply be_val_be_bytes; change (256 ^ Z.of_nat 32) with (2 ^ 256); lia).
    clearbody t. clear E2 q O1 O2 H.
    right. destruct (to_bits_spec (be_bytes 32 t) Ot) as [[_ Z0]|(e & m & Ebm & Can & Le & V & _)]; auto.
    rewrite Vt in V. right. destruct (decoded_below e m t (be_val (n_limit N)) Can Le V E3) as (t' & Et' & Vt').
    { apply B. }
    exists t'. rewrite Ebm. auto.
  Qed.

  (** C17: the name root handed to the resolver belongs to the tip's ancestor at the
      tip's height, or at the last multiple of the interval if the tip is less than
      12 above it. No assertion fails on chains started from genesis, or on
      networks with plain retargeting (main) whatever the start. *)
  Theorem safe_root_on_best_chain : forall st0 ops st, started st0 -> run st0 ops st -> admissible st0 ops ->
    c_init st = 0 \/ c_init st + 11 <= c_height st \/ (n_noretarget N = false /\ n_reset N = false /\ 146 <= c_init st0) ->
    exists e, safe_root N st = Ok (h_root (e_hdr e)) /\ anc st (c_tip st) e /\
      e_height e = (if c_height st mod n_interval N <? 12 then c_height st - c_height st mod n_interval N else c_height st).
  Proof.
    intros st0 ops st S R A Hi. destruct (height_index_is_best_chain st0 ops st S R A) as (_ & Hh & _).
    destruct (started_inv _ _ _ b256 _ NO _ S) as (T & F & root & low & M & SI).
    destruct (run_inv _ _ _ b256 _ NO _ _ _ _ _ _ _ _ SI R A) as ((C & _) & _).
    apply (safe_root_spec _ _ _ _ NO _ _ _ _ _ _ C); [lia|].
    destruct Hi as [Hi|[Hi|(H1 & H2 & H3)]]; auto.
    destruct (tip_above _ _ _ b256 _ NO _ _ _ _ _ _ _ _ SI R A H1 H2 (or_intror H3)); auto. right. lia.
  Qed.

  Theorem safe_root_is_settled : forall st0 ops st, started st0 -> run st0 ops st -> admissible st0 ops ->
    12 <= n_interval N -> c_init st + n_interval N + 11 <= c_height st ->
    (forall a b, anc st (c_tip st) a -> anc st (c_tip st) b ->
       (e_height a - 1) / n_interval N = (e_height b - 1) / n_interval N -> h_root (e_hdr a) = h_root (e_hdr b)) ->
    exists e, safe_root N st = Ok (h_root (e_hdr e)) /\ anc st (c_tip st) e /\ e_height e + 11 <= c_height st.
  Proof.
    intros st0 ops st S R A. destruct (height_index_is_best_chain st0 ops st S R A) as (_ & Hh & _).
    destruct (started_inv _ _ _ b256 _ NO _ S) as (T & F & root & low & M & SI).
    destruct (run_inv _ _ _ b256 _ NO _ _ _ _ _ _ _ _ SI R A) as ((C & _) & _).
    apply (safe_root_settled _ _ _ _ NO _ _ _ _ _ _ C). lia.
  Qed.

  (** C18: the locator lists the indexed headers at strictly falling heights, from
      the tip down to genesis, at most 64 of them. *)
  Theorem locator_bounded_and_complete : forall st0 ops st, started st0 -> run st0 ops st -> admissible st0 ops ->
    exists hs xs, get_locator st = Ok xs /\ (length xs <= 64)%nat /\
      Forall2 (fun h x => exists e, chain_get_by_height st h = Some e /\ e_hash e = x) hs xs /\
      StronglySorted Z.gt hs /\ hd_error hs = Some (c_height st) /\ hd_error xs = Some (e_hash (c_tip st)) /\
      last hs (c_height st) = 0 /\ chain_get_by_height st 0 = Some (c_genesis st) /\ Forall (fun h => 0 <= h) hs.
  Proof.
    intros st0 ops st S R A. destruct (height_index_is_best_chain st0 ops st S R A) as (_ & Hh & Idx & _ & _ & Low).
    destruct (started_inv _ _ _ b256 _ NO _ S) as (T & F & root & low & M & SI).
    destruct (run_inv _ _ _ b256 _ NO _ _ _ _ _ _ _ _ SI R A) as ((C & _) & _ & _ & Ei & Eg).
    assert (Ct := k_tip _ _ _ _ _ _ _ _ _ _ C). assert (Kh := k_height _ _ _ _ _ _ _ _ _ _ C).
    destruct (k_root _ _ _ _ _ _ _ _ _ _ C) as (R1 & R2 & R3). destruct (anc_conn _ _ _ _ _ _ _ _ _ _ C _ _ Ct R2) as [Cr Hr].
    pose proof (height_nonneg _ _ _ _ _ _ _ _ _ _ C _ Cr) as P.
    assert (G0 : chain_get_by_height st 0 = Some (c_genesis st)).
    { destruct SI as (C0 & _ & _ & _ & _ & _ & _ & _ & _ & HG & _). rewrite Eg.
      destruct (Z.eq_dec (c_init st) 0) as [Z0|Z0].
      - apply Idx; [lia|]. 
        assert (GA := HG). apply (k_idx _ _ _ _ _ _ _ _ _ _ C0) in GA as [GA GH]; [|lia].
        destruct (k_root _ _ _ _ _ _ _ _ _ _ C0) as (R1' & R2' & _).
        assert (root = c_genesis st0).
        { eapply (anc_same_height _ _ _ _ _ _ _ _ _ _ C0 (c_tip st0)); auto; try lia.
          apply (conn_par _ _ _ _ _ _ _ _ _ _ C0). apply (k_tip _ _ _ _ _ _ _ _ _ _ C0). }
        subst root. auto.
      - rewrite Low by lia. unfold chain_get_by_height. rewrite Z.mod_small by lia. exact HG. }
    unfold get_locator.
    destruct (locator_spec (chain_get_by_height st) (c_height st) ltac:(lia) ltac:(congruence)
                (Z.to_nat (c_height st)) (c_height st) 1 1 [e_hash (c_tip st)])
      as (hs & xs & E & F2 & Srt & Ls & Nn & Ln); try lia.
    exists (c_height st :: hs), (e_hash (c_tip st) :: xs). rewrite E. split; [reflexivity|].
    split; [unfold zlen in Ln; cbn [length]; lia|]. split.
    { constructor; auto. exists (c_tip st). split; auto. apply Idx; [lia|]. split; [apply anc_refl|auto]. }
    split; [exact Srt|]. split; [reflexivity|]. split; [reflexivity|]. split.
    { destruct hs as [|y hs]; cbn in *; [lia|]. destruct hs; auto. clear -Ls. revert Ls. generalize z.
      induction hs as [|a hs IH]; intros; cbn in *; auto. }
    split; auto. constructor; [lia|auto].
  Qed.

  (** C18: the hashes at or above the initial height are ancestors of the tip. *)
  Theorem locator_entries_on_best_chain : forall st0 ops st h e, started st0 -> run st0 ops st -> admissible st0 ops ->
    c_init st <= h < 2 ^ 32 -> chain_get_by_height st h = Some e -> anc st (c_tip st) e /\ e_height e = h.
  Proof.
    intros st0 ops st h e S R A Hh E. destruct (height_index_is_best_chain st0 ops st S R A) as (_ & _ & Idx & _).
    now apply Idx.
  Qed.

  (** C22: whenever a flush is due, the file content is the specified one: the
      headers it needs exist. *)
  Theorem flush_never_misses_a_header : forall st0 ops st, started st0 -> run st0 ops st -> admissible st0 ops ->
    c_height st mod n_window N = 0 -> n_window N < c_height st - c_init st ->
    exists prev es, 
      store_content N st = Ok (be_bytes 4 (n_magic N) ++ [0] ++
        checkpoint_body (c_height st - n_window N) (e_work prev) (map e_hdr es)) /\
      length es = 150%nat /\ anc st (c_tip st) prev /\ e_height prev = c_height st - n_window N - 1 /\
      (forall i e, nth_error es i = Some e -> anc st (c_tip st) e /\ e_height e = c_height st - n_window N + Z.of_nat i).
  Proof.
    intros st0 ops st S R A Hm Hw. destruct (height_index_is_best_chain st0 ops st S R A) as (_ & Hh & _).
    destruct (started_inv _ _ _ b256 _ NO _ S) as (T & F & root & low & M & SI).
    destruct (run_inv _ _ _ b256 _ NO _ _ _ _ _ _ _ _ SI R A) as ((C & _) & _).
    destruct (store_content_spec _ _ _ _ NO _ _ _ _ _ _ C ltac:(lia) Hm Hw) as (prev & es & E & X). exists prev, es. auto.
  Qed.

  Theorem flush_height_positive : forall st0 ops st, started st0 -> run st0 ops st -> admissible st0 ops ->
    c_height st mod n_window N = 0 -> n_window N < c_height st - c_init st -> 0 < c_height st - n_window N.
  Proof.
    intros st0 ops st S R A Hm Hw. 
    destruct (started_inv _ _ _ b256 _ NO _ S) as (T & F & root & low & M & SI).
    destruct (run_inv _ _ _ b256 _ NO _ _ _ _ _ _ _ _ SI R A) as ((C & _) & _).
    assert (Ct := k_tip _ _ _ _ _ _ _ _ _ _ C).
    destruct (k_root _ _ _ _ _ _ _ _ _ _ C) as (R1 & R2 & R3). destruct (anc_conn _ _ _ _ _ _ _ _ _ _ C _ _ Ct R2) as [Cr Hr].
    pose proof (height_nonneg _ _ _ _ _ _ _ _ _ _ C _ Cr). lia.
  Qed.

  (** C22, C23: whatever the start and the history, hsk_chain_add performs no
      undefined behaviour (no missing header is dereferenced, no loop runs away). *)
  Theorem add_has_no_undefined_behaviour : forall st0 ops st now h, started st0 -> run st0 ops st ->
    admissible st0 (ops ++ [(now, h)]) ->
    (exists rc st', add now st h = Ok (rc, st')) \/ add now st h = Abort.
  Proof.
    intros st0 ops st now h S R A. destruct (started_inv _ _ _ b256 _ NO _ S) as (T & F & root & low & M & SI).
    pose proof (run_next _ _ _ b256 _ NO _ _ _ _ _ _ _ _ (now, h) SI R A) as X. cbn [fst snd] in X.
    destruct (add now st h) as [[rc st']|?| |]; try contradiction; eauto.
  Qed.

  (** C23 (partial): on a chain started from genesis no assertion fails. Missing:
      chains started from a checkpoint, where it is false. *)
  Theorem add_never_aborts_partial : forall now0 pre st0 ops st now h,
    chain_init B256 B512 S3 N now0 pre = Ok st0 -> chain_get st0 (e_prev (c_tip st0)) = None ->
    run st0 ops st -> admissible st0 (ops ++ [(now, h)]) -> exists rc st', add now st h = Ok (rc, st').
  Proof.
    intros now0 pre st0 ops st now h Ei Hg R A.
    destruct (genesis_start _ _ _ b256 _ NO _ _ _ Ei Hg) as (SI & _).
    pose proof (run_next _ _ _ b256 _ NO _ _ _ _ _ _ _ _ (now, h) SI R A) as X. cbn [fst snd] in X.
    destruct (add now st h) as [[rc st']|?| |]; try contradiction; eauto.
    exfalso. apply X. destruct SI as (_ & _ & _ & _ & _ & _ & (_ & Hz) & Hs & _). apply Hs.
    unfold chain_init in Ei. destruct (hdr_decode (n_genesis N)) as [g|]; [|discriminate].
    destruct (calc_work (h_bits g) None); [|discriminate]. apply Ok_inj in Ei. subst st0. reflexivity.
  Qed.

  (** C20: a checkpoint written by any history is read back, and a fresh chain
      restored from it has the same 150 headers, with height and total work. *)
  Theorem checkpoint_roundtrip : forall st0 ops st g now now' pre pre' junk, started st0 -> run st0 ops st ->
    admissible st0 ops -> c_height st mod n_window N = 0 -> n_window N < c_height st - c_init st ->
    0 <= n_magic N < 2 ^ 32 ->
    (forall e p, anc st (c_tip st) e -> chain_get st (e_prev e) = Some p -> work_val p < work_val e) ->
    chain_init B256 B512 S3 N now pre = Ok g -> chain_get g (e_prev (c_tip g)) = None ->
    exists data d st', store_content N st = Ok data /\ zlen data = 35441 /\
      store_read N (Some (data ++ junk)) = Some d /\
      inject_checkpoint B256 B512 S3 N now' (with_prefix g pre') d = Ok st' /\ started st' /\
      c_init st' = c_height st - n_window N /\ c_height st' = c_init st' + 149 /\
      (forall h, c_init st' <= h <= c_height st' -> exists e,
         chain_get_by_height st' h = Some e /\ chain_get_by_height st h = Some e /\ chain_get st' (e_hash e) = Some e).
  Proof.
    intros st0 ops st g now now' pre pre' junk S R A Hm Hw Hmg NW Eg Hg.
    destruct (height_index_is_best_chain st0 ops st S R A) as (_ & Hh & Idx & _).
    destruct (flush_never_misses_a_header st0 ops st S R A Hm Hw) as (prev & es & E & Le & Ap & Hp & Hes).
    pose proof (flush_height_positive st0 ops st S R A Hm Hw) as Pos.
    destruct (started_inv _ _ _ b256 _ NO _ S) as (T & F & root & low & M & SI).
    destruct (checkpoint_fits _ _ _ b256 _ NO _ _ _ _ _ _ _ _ g now pre prev es SI S R A ltac:(lia) Hm Hw NW Eg Hg Le Ap Hp Hes) as [Ft Rs].
    set (height := c_height st - n_window N) in *. set (hs := map e_hdr es) in *.
    exists (be_bytes 4 (n_magic N) ++ [0] ++ checkpoint_body height (e_work prev) hs).
    destruct (genesis_start _ _ _ b256 _ NO _ _ _ Eg Hg) as (SG & Ig & _).
    destruct (inject_spec _ _ _ b256 _ NO now' pre' g _ _ _ _ _ height (e_work prev) hs [] SG Ft)
      as (st' & es' & T' & F' & root' & low' & M' & EI & Rs' & SI' & Ad & (r & Er & Tl) & Ei & Egn & Eh).
    rewrite app_nil_r in EI. exists (checkpoint_body height (e_work prev) hs), st'.
    assert (Ow : hash_ok (e_work prev)) by apply Ft.
    assert (Lb : length (checkpoint_body height (e_work prev) hs) = Z.to_nat 35436).
    { unfold checkpoint_body. rewrite !app_length, be_bytes_length, (proj1 Ow).
      assert (X : length (concat (map hdr_write hs)) = (236 * length hs)%nat).
      { assert (Fo : Forall hdr_ok hs) by (eapply Forall_impl; [|apply Ft]; cbn; intros ? H; apply H). clear -Fo.
        induction Fo as [|h hs Oh Fo IH]; [reflexivity|]. cbn [map concat length]. rewrite app_length, IH, (hdr_write_length h Oh). lia. }
      rewrite X. unfold hs. rewrite map_length, Le. reflexivity. }
    assert (Zl : zlen (be_bytes 4 (n_magic N) ++ [0] ++ checkpoint_body height (e_work prev) hs) = 35441).
    { unfold zlen. rewrite !app_length, be_bytes_length, Lb. reflexivity. }
    split; [exact E|]. split; [exact Zl|]. split.
    { unfold store_read, read_bytes. rewrite take_app.
      2:{ unfold store_size, zlen in *. lia. }
      unfold read_u32be. rewrite read_be_app by (change (256 ^ Z.of_nat 4) with (2 ^ 32); lia).
      rewrite Z.eqb_refl. cbn [negb app]. rewrite read_u8_app. reflexivity. }
    split; [exact EI|]. split; [|split; [exact Ei|split; [lia|]]].
    { eapply st_checkpoint with (rest := []); [eapply st_genesis; eauto|exact Ft|rewrite app_nil_r; exact EI]. }
    assert (Ees : es' = es) by (eapply restored_det; [exact Rs'|]; exact Rs). rewrite Ees in *. clear Ees es'.
    destruct SI' as (C' & _ & _ & _ & _ & _ & _ & _ & Hb' & _). intros h Hi.
    destruct Ad as [Ad _].
    destruct (nth_error es (Z.to_nat (h - height))) as [e|] eqn:En.
    2:{ exfalso. apply nth_error_None in En. lia. }
    destruct (Hes _ _ En) as [Ae He].
    assert (Hhe : e_height e = h) by lia.
    assert (Ce : conn st' e).
    { apply (proj2 (Ad e)). right. eapply nth_error_In. exact En. }
    exists e. split; [|split].
    - assert (Hi2 : c_init st' <= h <= c_height st') by exact Hi.
      destruct (idx_get _ _ _ _ _ _ _ _ _ _ h C' Hb' Hi2) as (x & Ex & Ax & Hx). rewrite Ex. f_equal.
      assert (Ct' := k_tip _ _ _ _ _ _ _ _ _ _ C').
      (* both are the ancestor of the tip at this height *)
      assert (Ax' : anc st' (c_tip st') e).
      { assert (PR : forall l a, restored hash (work_val a) (e_height a + 1) (map e_hdr l) l -> chained hash (e_hash a) (map e_hdr l) ->
          conn st' a -> (forall y, In y l -> conn st' y) -> forall y, In y (a :: l) -> anc st' (last l a) y).
        { clear -C'. induction l as [|b l IH]; intros a Rl Cl Ca Cl' y Hy.
          - destruct Hy as [<-|[]]. apply anc_refl.
          - rewrite last_cons. inversion Rl as [|? ? ? ? ? ? t X1 X2 X3 X4 X5 X6 X7]; subst. cbn [map chained] in Cl. destruct Cl as [Cl1 Cl2].
            rewrite <- X2 in Cl2. 
            assert (Cb : conn st' b) by (apply Cl'; now left).
            assert (IHb := IH b). rewrite X3 in IHb. specialize (IHb X7 Cl2 Cb ltac:(intros; apply Cl'; now right)).
            destruct Hy as [<-|Hy]; [|apply IHb; auto].
            apply (anc_trans st' _ b); [apply IHb; now left|]. apply (anc_parent st' _ a); [|apply anc_refl].
            unfold e_prev. rewrite Cl1. exact Ca. }
        rewrite Tl. rewrite Er in Rs, Ad. unfold hs in Rs. rewrite Er in Rs. cbn [map] in Rs.
        inversion Rs as [|? ? ? ? ? ? t X1 X2 X3 X4 X5 X6 X7]; subst.
        apply (PR r root').
        - rewrite X3. exact X7.
        - pose proof (f_link _ _ _ _ _ Ft) as Lk. unfold hs in Lk. cbn [map chained] in Lk. rewrite X2. apply Lk.
        - apply Ad. right. now left.
        - intros y Hy. apply Ad. right. now right.
        - eapply nth_error_In; eauto. }
      eapply (anc_same_height _ _ _ _ _ _ _ _ _ _ C' (c_tip st')); auto; try lia.
      apply (conn_par _ _ _ _ _ _ _ _ _ _ C' _ Ct').
    - apply Idx; auto. lia.
    - exact Ce.
  Qed.

  (** A header not older than the allowed age, on a branch with the required work. *)
  Definition settled (now : Z) (e : entry) : Prop :=
    now - n_age N <= e_time e /\ be_val (n_chainwork N) <= work_val e.

  Lemma qualifies_settled now e : hash_ok (e_work e) -> 0 <= e_time e < 2 ^ 63 -> (qualifies N now e <-> settled now e).
  Proof.
    intros O T. unfold qualifies, settled, maybe_sync, has_work. rewrite to_i64_small by exact T.
    destruct NO as (_ & NC & _).
    rewrite memcmp_gt_spec; [|rewrite (proj1 NC), (proj1 O); reflexivity|apply NC|apply O].
    unfold work_val. destruct (Z.ltb_spec (e_time e) (now - n_age N)); destruct (Z.ltb_spec (be_val (e_work e)) (be_val (n_chainwork N)));
      cbn; split; intros; try discriminate; try lia; reflexivity.
  Qed.

  (** C62: one call sets "synced" only for a connected header that is recent and has the
      required work, sets it when such a header becomes the tip, and never clears it. *)
  Theorem synced_only_when_settled : forall st0 ops st now h rc st', started st0 -> run st0 ops st ->
    admissible st0 (ops ++ [(now, h)]) -> add now st h = Ok (rc, st') ->
    (c_synced st = true -> c_synced st' = true) /\
    (c_synced st' = true -> c_synced st = true \/ exists e, conn st' e /\ settled now e) /\
    (c_tip st' <> c_tip st -> settled now (c_tip st') -> c_synced st' = true).
  Proof.
    intros st0 ops st now h rc st' S R A E. destruct (started_inv _ _ _ b256 _ NO _ S) as (T & F & root & low & M & SI).
    pose proof (run_next _ _ _ b256 _ NO _ _ _ _ _ _ _ _ (now, h) SI R A) as X. cbn [fst snd] in X. rewrite E in X.
    destruct X as [[C' _] X].
    assert (Y : syncs N now st st').
    { destruct X as [[-> _]|[(_ & _ & _ & _ & _ & ->)|(p & e & st1 & _ & _ & _ & _ & _ & [_ X] & _)]]; [apply syncs_same; reflexivity| |exact X].
      cbn zeta. destruct (10000 <? zlen (c_orphans st)); apply syncs_same; reflexivity. }
    assert (Q : forall e, conn st' e -> (qualifies N now e <-> settled now e)).
    { intros e Ce. destruct (conn_ok _ _ _ _ _ _ _ _ _ _ C' _ Ce) as (_ & Oh & Ow & _ & Ht). apply qualifies_settled; auto. split; auto. apply Oh. }
    destruct Y as [Y1 Y2 Y3]. split; auto. split.
    - intros H. destruct (Y2 H) as [H1|(e & Ce & H1)]; auto. right. exists e. split; auto. now apply Q.
    - intros Nt H. destruct Y3 as [Y3|Y3]; [congruence|]. apply Y3. apply Q; auto. apply (k_tip _ _ _ _ _ _ _ _ _ _ C').
  Qed.

  (** C62: the chain counts as synced only after it had a recent header with the required
      work, at one of the times given; the best chain then has that work for ever. *)
  Theorem synced_has_the_work : forall now0 pre st0 ops st, chain_init B256 B512 S3 N now0 pre = Ok st0 ->
    chain_get st0 (e_prev (c_tip st0)) = None -> run st0 ops st -> admissible st0 ops -> c_synced st = true ->
    (exists now e, (now = now0 \/ In now (map fst ops)) /\ conn st e /\ settled now e) /\
    be_val (n_chainwork N) <= work_val (c_tip st).
  Proof.
    intros now0 pre st0 ops st Ei Hg R A Sy.
    assert (S0 : started st0) by (eapply st_genesis; eauto).
    destruct (started_inv _ _ _ b256 _ NO _ S0) as (T & F & root & low & M & SI).
    assert (X : exists now e, (now = now0 \/ In now (map fst ops)) /\ conn st e /\ settled now e).
    { revert A Sy. induction R as [|ops st now h rc st' R IH E]; intros A Sy.
      - exists now0, (c_tip st0). split; auto. destruct SI as (C0 & _).
        assert (Ct := k_tip _ _ _ _ _ _ _ _ _ _ C0). split; [exact Ct|].
        destruct (conn_ok _ _ _ _ _ _ _ _ _ _ C0 _ Ct) as (_ & Oh & Ow & _ & Ht).
        apply qualifies_settled; [exact Ow|split; [apply Oh|exact Ht]|].
        unfold chain_init in Ei. destruct (hdr_decode (n_genesis N)) as [g|]; [|discriminate].
        destruct (calc_work (h_bits g) None); [|discriminate]. apply Ok_inj in Ei. subst st0. exact Sy.
      - assert (A' : admissible st0 ops).
        { destruct A as [A1 A2]. apply Forall_app in A1 as [A1 _]. rewrite zlen_snoc in A2. split; auto; lia. }
        destruct (synced_only_when_settled _ _ _ _ _ _ _ S0 R A E) as (_ & X & _).
        pose proof (run_next _ _ _ b256 _ NO _ _ _ _ _ _ _ _ (now, h) SI R A) as Y. cbn [fst snd] in Y. rewrite E in Y.
        destruct Y as [_ Y]. apply step_keep in Y as (K & _).
        rewrite map_app. destruct (X Sy) as [Sy'|(e & Ce & Q)].
        + destruct (IH A' Sy') as (t & e & H1 & H2 & H3). exists t, e. split; [|split; auto; apply K, H2].
          destruct H1 as [H1|H1]; auto. right. apply in_or_app. auto.
        + exists now, e. split; auto. right. apply in_or_app. right. left. reflexivity. }
    split; auto. destruct X as (t & e & _ & Ce & _ & W).
    destruct (tip_has_most_work _ _ _ S0 R A) as (_ & _ & Mx & _). specialize (Mx e Ce). lia.
  Qed.

  (** C20: a checkpoint that does not start above the chain's own start changes nothing. *)
  Theorem stale_checkpoint_ignored : forall now st height rest, 0 <= height < 2 ^ 32 -> height <= c_init st ->
    inject_checkpoint B256 B512 S3 N now st (be_bytes 4 height ++ rest) = Ok st.
  Proof.
    intros now st height rest Hh L. unfold inject_checkpoint, read_u32be.
    rewrite read_be_app by (change (256 ^ Z.of_nat 4) with (2 ^ 32); lia).
    replace (height <=? c_init st) with true by lia. reflexivity.
  Qed.
End Theorems.

(** C20: exactly the files of at least 35441 bytes that start with the magic and
    version are read; the rest of the first 35441 bytes is handed on. *)
Theorem checkpoint_file_read_exact : forall N f r, 0 <= n_magic N < 2 ^ 32 ->
  match f with None => True | Some d => bytes_ok d end ->
  (store_read N f = Some r <->
   exists d, f = Some d /\ 35441 <= zlen d /\
     firstn (Z.to_nat 35441) d = be_bytes 4 (n_magic N) ++ [0] ++ r).
Proof.
  intros N f r Hm OK. unfold store_read. destruct f as [d|].
  2:{ split; [discriminate|]. intros (d & E & _). discriminate. }
  unfold read_bytes, take. unfold store_size.
  destruct (Nat.ltb_spec (length d) (Z.to_nat 35441)) as [L|L].
  - destruct (Nat.leb_spec (Z.to_nat 35441) (length d)) as [X|_]; [lia|].
    split; [discriminate|]. intros (d' & [= <-] & X & _). unfold zlen in X. lia.
  - destruct (Nat.leb_spec (Z.to_nat 35441) (length d)) as [_|X]; [|lia].
    set (d0 := firstn (Z.to_nat 35441) d).
    assert (O0 : bytes_ok d0) by (apply bytes_ok_firstn; exact OK).
    assert (Z0 : 35441 <= zlen d) by (unfold zlen; lia).
    split.
    + intros H. exists d. split; auto. split; auto. fold d0.
      destruct (read_u32be d0) as [[m d1]|] eqn:E1; [|discriminate].
      destruct (Z.eqb_spec m (n_magic N)) as [->|]; [|discriminate]. cbn [negb] in H.
      destruct (read_u8 d1) as [[v d2]|] eqn:E2; [|discriminate].
      destruct (Z.eqb_spec v store_version) as [->|]; [|discriminate]. injection H as <-.
      apply (read_be_some 4 d0) in E1 as (X1 & _ & O1); auto.
      destruct d1 as [|b d1]; [discriminate E2|]. rewrite read_u8_app in E2. injection E2 as -> ->.
      rewrite X1. reflexivity.
    + intros (d' & [= <-] & _ & E). fold d0 in E. rewrite E. unfold read_u32be.
      rewrite read_be_app by (change (256 ^ Z.of_nat 4) with (2 ^ 32); lia).
      rewrite Z.eqb_refl. cbn [negb app]. rewrite read_u8_app. reflexivity.
Qed.

Print Assumptions networks_ok.
Print Assumptions tip_has_most_work.
Print Assumptions tip_changes_only_for_more_work.
Print Assumptions height_index_is_best_chain.
Print Assumptions connected_headers_obey_rules.
Print Assumptions rejected_header_changes_nothing_partial.
Print Assumptions orphans_bounded_and_connected_partial.
Print Assumptions waiting_headers_connected_or_kept.
Print Assumptions retarget_exact.
Print Assumptions retarget_bounded.
Print Assumptions safe_root_on_best_chain.
Print Assumptions safe_root_is_settled.
Print Assumptions locator_bounded_and_complete.
Print Assumptions locator_entries_on_best_chain.
Print Assumptions flush_never_misses_a_header.
Print Assumptions flush_height_positive.
Print Assumptions add_has_no_undefined_behaviour.
Print Assumptions add_never_aborts_partial.
Print Assumptions checkpoint_roundtrip.
Print Assumptions checkpoint_file_read_exact.
Print Assumptions synced_only_when_settled.
Print Assumptions synced_has_the_work.
Print Assumptions stale_checkpoint_ignored.
