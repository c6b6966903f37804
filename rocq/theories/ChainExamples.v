(** Concrete chains (with a toy hash) that meet the hypotheses of the theorems in
    ChainTheorems.v and BatchTheorems.v, and the counterexamples for C14, C15, C23. *)
From Verif Require Import Common CommonFacts BioModel BioFacts HeaderModel HeaderSpec HeaderFacts HeaderTheorems ProofFacts
  Assoc AssocFacts ChainModel ChainSpec ChainFacts ChainRunFacts ChainTheorems BatchModel BatchTheorems.

(** Sum and sum of sums, in the low 7 bytes: below every target used here. *)
Definition toy (x : list Z) : list Z :=
  let '(s, t) := fold_left (fun '(s, t) b => (s + b + 1, t + s)) x (0, 0) in
  repeat 0 25 ++ be_bytes 4 t ++ be_bytes 3 s.
Definition toy64 (x : list Z) : list Z := toy x ++ repeat 0 32.
Definition thash : hdr -> list Z := hdr_hash toy toy64 toy.
Definition mk (n time : Z) (prev : list Z) (bits : Z) : hdr :=
  mk_hdr n time prev (repeat (n mod 256) 32) (repeat 0 24) (repeat 0 32) (repeat 0 32) (repeat 0 32) 0 bits (repeat 0 32).

Lemma toy_ok x : length (toy x) = 32%nat /\ bytes_ok (toy x).
Proof.
  unfold toy. destruct (fold_left _ x (0, 0)) as [s t]. rewrite !app_length, !be_bytes_length, repeat_length.
  split; auto. apply bytes_ok_app. split; [apply bytes_ok_repeat|]. apply bytes_ok_app. split; apply be_bytes_ok.
Qed.

(** Running a list of offers, with the return codes. *)
Fixpoint play (N : net) (st : chain) (ops : list (Z * hdr)) : option (list Z * chain) :=
  match ops with
  | [] => Some ([], st)
  | (now, h) :: r =>
      match chain_add toy toy64 toy N now st h with
      | Ok (rc, st') => match play N st' r with Some (l, s) => Some (rc :: l, s) | None => None end
      | _ => None
      end
  end.

Lemma play_run N ops : forall st0 done st rcs st', run toy toy64 toy N st0 done st ->
  play N st ops = Some (rcs, st') -> run toy toy64 toy N st0 (done ++ ops) st'.
Proof.
  induction ops as [|[now h] ops IH]; intros st0 done st rcs st' R E; cbn in E.
  - injection E as <- <-. now rewrite app_nil_r.
  - destruct (chain_add toy toy64 toy N now st h) as [[rc s1]|?| |] eqn:Ea; try discriminate.
    destruct (play N s1 ops) as [[l s]|] eqn:Ep; [|discriminate]. injection E as <- <-.
    change ((now, h) :: ops) with ([(now, h)] ++ ops). rewrite app_assoc. eapply IH; [|exact Ep].
    econstructor; eauto.
Qed.

(** The state after the offers, and whether they got the given codes. *)
Definition final (d : chain) (o : option (list Z * chain)) : chain := match o with Some x => snd x | None => d end.
Definition codes (o : option (list Z * chain)) (rcs : list Z) : bool :=
  match o with Some x => beq (fst x) rcs | None => false end.
Lemma codes_run N st0 done st ops rcs d : run toy toy64 toy N st0 done st -> codes (play N st ops) rcs = true ->
  run toy toy64 toy N st0 (done ++ ops) (final d (play N st ops)).
Proof.
  intros R E. destruct (play N st ops) as [[l s]|] eqn:Ep; [|discriminate]. eapply play_run; eauto.
Qed.
Lemma codes_run0 N st ops rcs d : codes (play N st ops) rcs = true ->
  run toy toy64 toy N st ops (final d (play N st ops)).
Proof. intros E. exact (codes_run N st [] st ops rcs d (run_nil _ _ _ _ _) E). Qed.
(** The value of an outcome. *)
Definition value {A} (d : A) (o : outcome A) : A := match o with Ok a => a | _ => d end.
Definition is_ok {A} (o : outcome A) : bool := match o with Ok _ => true | _ => false end.
Lemma value_ok {A} (d : A) o : is_ok o = true -> o = Ok (value d o).
Proof. destruct o; try discriminate. reflexivity. Qed.

Definition hash_okb (l : list Z) : bool := (length l =? 32)%nat && bytes_okb l.
Definition rangeb (n v : Z) : bool := (0 <=? v) && (v <? 2 ^ n).
Definition hdr_okb (h : hdr) : bool :=
  rangeb 32 (h_nonce h) && rangeb 64 (h_time h) && hash_okb (h_prev h) && hash_okb (h_root h) &&
  ((length (h_extra h) =? 24)%nat && bytes_okb (h_extra h)) && hash_okb (h_reserved h) && hash_okb (h_witness h) &&
  hash_okb (h_merkle h) && rangeb 32 (h_version h) && rangeb 32 (h_bits h) && hash_okb (h_mask h).

Lemma hash_okb_ok l : hash_okb l = true -> hash_ok l.
Proof. unfold hash_okb, hash_ok. rewrite Bool.andb_true_iff, Nat.eqb_eq. intros [A B]. split; auto. now apply bytes_ok_check. Qed.

Lemma hdr_okb_ok h : hdr_okb h = true -> hdr_ok h.
Proof.
  unfold hdr_okb, rangeb. rewrite !Bool.andb_true_iff, !Z.leb_le, !Z.ltb_lt, Nat.eqb_eq. intros H. decompose [and] H. clear H.
  unfold hdr_ok. repeat match goal with X : hash_okb _ = true |- _ => apply hash_okb_ok in X end.
  repeat match goal with |- _ /\ _ => split end; auto; try lia; try apply H0; try (apply bytes_ok_check; auto);
    match goal with X : hash_ok ?l |- length ?l = _ => apply X | X : hash_ok ?l |- bytes_ok ?l => apply X | _ => idtac end.
Qed.

(** Parents of the base headers. *)
Definition base_prevs (st : chain) : list (list Z) :=
  filter (fun k => negb (ahas beq k (c_hashes st))) (map (fun x => e_prev (snd x)) (c_hashes st)).

Lemma base_prevs_in st e : base st e -> In (e_prev e) (base_prevs st).
Proof.
  intros [C B]. apply filter_In. split.
  - apply (aget_in beq beq_true_iff) in C. apply in_map_iff. exists (e_hash e, e). auto.
  - unfold chain_get in B. unfold ahas. now rewrite B.
Qed.

Definition opb (bp : list (list Z)) (op : Z * hdr) : bool :=
  hdr_okb (snd op) && ((0 <=? fst op + 7200) && (fst op + 7200 <? 2 ^ 63)) &&
  negb (existsb (beq (thash (snd op))) bp).
Definition admissibleb (st : chain) (ops : list (Z * hdr)) : bool :=
  forallb (opb (base_prevs st)) ops && (c_height st + zlen (c_hashes st) + zlen ops <? 2 ^ 32).

Lemma admissibleb_ok st ops : admissibleb st ops = true -> admissible toy toy64 toy st ops.
Proof.
  unfold admissibleb, admissible. rewrite Bool.andb_true_iff, Z.ltb_lt. intros [A B]. split; auto.
  apply Forall_forall. intros op Ho. rewrite forallb_forall in A. specialize (A op Ho). unfold opb in A.
  rewrite !Bool.andb_true_iff, Z.leb_le, Z.ltb_lt in A. destruct A as [[A1 [A2 A2']] A3]. split; [now apply hdr_okb_ok|].
  split; [lia|]. intros e Be Eq. apply base_prevs_in in Be. apply Bool.negb_true_iff in A3.
  assert (X : existsb (beq (thash (snd op))) (base_prevs st) = true).
  { apply existsb_exists. exists (e_prev e). split; auto. apply beq_true_iff. exact Eq. }
  congruence.
Qed.

(** * A chain on regtest: start, a fork, a reorganisation, an orphan. *)
Definition no_entry : entry := mk_entry (mk 0 0 [] 0) [] 0 [].
Definition no_chain : chain := mk_chain 0 0 no_entry no_entry false [] [] [] [] false None.
Definition g0 : chain := value no_chain (chain_init toy toy64 toy net_regtest 1600000000 true).
Lemma g0_init : chain_init toy toy64 toy net_regtest 1600000000 true = Ok g0.
Proof. apply value_ok. vm_compute. reflexivity. Qed.
Lemma g0_base : chain_get g0 (e_prev (c_tip g0)) = None.
Proof. vm_compute. reflexivity. Qed.
Lemma g0_started : started toy toy64 toy net_regtest g0.
Proof. eapply st_genesis; [exact g0_init|exact g0_base]. Qed.

Definition t0 : Z := 1580745080.
Definition rb : Z := 0x207fffff.
Definition a1 : hdr := mk 1 (t0 + 10) (e_hash (c_tip g0)) rb.
Definition a2 : hdr := mk 2 (t0 + 20) (thash a1) rb.
Definition b1 : hdr := mk 3 (t0 + 11) (e_hash (c_tip g0)) rb.
Definition b2 : hdr := mk 4 (t0 + 21) (thash b1) rb.
Definition b3 : hdr := mk 5 (t0 + 31) (thash b2) rb.
Definition ex_ops : list (Z * hdr) :=
  map (pair 1600000000) [a1; a2; a1; b3; b1; b2; mk 6 (t0 + 5) (thash b3) rb; mk 7 (t0 + 50) (thash b3) 0x1d00ffff;
    mk 8 1600007201 (thash b3) rb; b3; mk 9 (t0 + 60) (repeat 9 32) rb].
Definition ex_end : chain := final no_chain (play net_regtest g0 ex_ops).
Example ex_play : codes (play net_regtest g0 ex_ops) [0; 0; 22; 26; 0; 0; 24; 25; 21; 22; 26] = true.
Proof. vm_compute. reflexivity. Qed.
Example ex_admissible : admissible toy toy64 toy g0 ex_ops.
Proof. apply admissibleb_ok. vm_compute. reflexivity. Qed.
Example ex_run : run toy toy64 toy net_regtest g0 ex_ops ex_end.
Proof. unfold ex_end. exact (codes_run0 _ _ _ _ no_chain ex_play). Qed.
(** The reorganisation moved the tip and index from branch a to branch b. *)
Example ex_reorganised : e_hdr (c_tip ex_end) = b3 /\ c_height ex_end = 3 /\
  option_map e_hdr (chain_get_by_height ex_end 1) = Some b1 /\ option_map e_hdr (chain_get_by_height ex_end 2) = Some b2.
Proof. vm_compute. auto. Qed.

(** C62: an old genesis does not count as synced; a header found ten seconds before does. *)
Definition sync_ops : list (Z * hdr) := [(t0 + 20, a1)].
Definition sync_end : chain := final no_chain (play net_regtest g0 sync_ops).
Example ex_synced : c_synced g0 = false /\ run toy toy64 toy net_regtest g0 sync_ops sync_end /\
  admissible toy toy64 toy g0 sync_ops /\ c_synced sync_end = true.
Proof.
  split; [vm_compute; reflexivity|]. split; [apply (codes_run0 _ _ _ [0]); vm_compute; reflexivity|].
  split; [apply admissibleb_ok; vm_compute; reflexivity|vm_compute; reflexivity].
Qed.

(** * C14: a header that is connected although the call reports an error.
    The bad orphan [bad] (too old) arrives first. *)
Definition p1 : hdr := mk 1 (t0 + 10) (e_hash (c_tip g0)) rb.
Definition bad : hdr := mk 2 5 (thash p1) rb.
Definition c14_ops : list (Z * hdr) := [(1600000000, bad)].
Definition c14_st : chain := final no_chain (play net_regtest g0 c14_ops).
Definition c14_st' : chain := snd (value (0, no_chain) (chain_add toy toy64 toy net_regtest 1600000000 c14_st p1)).

Theorem rejected_header_changes_nothing_refuted : exists B256 B512 S3 N st0 ops st now h st',
  (forall x, length (B256 x) = 32%nat /\ bytes_ok (B256 x)) /\ net_ok N /\ started B256 B512 S3 N st0 /\
  run B256 B512 S3 N st0 ops st /\ admissible B256 B512 S3 st0 (ops ++ [(now, h)]) /\
  chain_add B256 B512 S3 N now st h = Ok (24, st') /\
  chain_get st (hdr_hash B256 B512 S3 h) = None /\ e_hdr (c_tip st') = h /\ c_height st = 0 /\ c_height st' = 1.
Proof.
  exists toy, toy64, toy, net_regtest, g0, c14_ops, c14_st, 1600000000, p1, c14_st'.
  split; [exact toy_ok|]. split; [apply networks_ok|]. split; [exact g0_started|].
  split. { unfold c14_st. apply (codes_run0 net_regtest g0 c14_ops [26] no_chain). vm_compute. reflexivity. }
  split; [apply admissibleb_ok; vm_compute; reflexivity|].
  split; [vm_compute; reflexivity|]. split; [vm_compute; reflexivity|]. split; [vm_compute; reflexivity|].
  split; vm_compute; reflexivity.
Qed.

(** * C15: of two orphans waiting for the same parent only the later one is
    connected. *)
Definition s1 : hdr := mk 2 (t0 + 20) (thash p1) rb.
Definition s2 : hdr := mk 3 (t0 + 21) (thash p1) rb.
Definition c15_ops : list (Z * hdr) := map (pair 1600000000) [s1; s2; p1].
Definition c15_st : chain := final no_chain (play net_regtest g0 c15_ops).

Theorem orphans_bounded_and_connected_refuted : exists B256 B512 S3 N st0 ops st k o,
  (forall x, length (B256 x) = 32%nat /\ bytes_ok (B256 x)) /\ net_ok N /\ started B256 B512 S3 N st0 /\
  run B256 B512 S3 N st0 ops st /\ admissible B256 B512 S3 st0 ops /\
  chain_get_orphan st k = Some o /\ chain_get st (h_prev o) <> None.
Proof.
  exists toy, toy64, toy, net_regtest, g0, c15_ops, c15_st, (thash s1), s1.
  split; [exact toy_ok|]. split; [apply networks_ok|]. split; [exact g0_started|].
  split. { unfold c15_st. apply (codes_run0 net_regtest g0 c15_ops [26; 26; 0] no_chain). vm_compute. reflexivity. }
  split; [apply admissibleb_ok; vm_compute; reflexivity|].
  split; [vm_compute; reflexivity|]. vm_compute. discriminate.
Qed.

(** The stronger part of C15 has a history with a waiting header. *)
Example ex_single : run_single toy toy64 toy net_regtest g0 c14_ops c14_st /\ zlen (c_orphans c14_st) = 1.
Proof.
  split; [|vm_compute; reflexivity]. apply (rs_add toy toy64 toy net_regtest g0 [] g0 1600000000 bad 26 c14_st).
  - constructor.
  - vm_compute. reflexivity.
  - intros _ k o H. vm_compute in H. discriminate H.
Qed.

(** * A chain long enough to be flushed (window 200 on regtest, tip 400). *)
Fixpoint line (n : nat) (i time : Z) (prev : list Z) : list hdr :=
  match n with
  | O => []
  | S k => let h := mk i time prev rb in h :: line k (i + 1) (time + 600) (thash h)
  end.
Definition long_ops : list (Z * hdr) := map (pair 1600000000) (line 400 1 (t0 + 600) (e_hash (c_tip g0))).
Definition long_end : chain := final no_chain (play net_regtest g0 long_ops).

Definition growsb (st : chain) : bool :=
  forallb (fun x => match chain_get st (e_prev (snd x)) with
                    | Some p => work_val p <? work_val (snd x)
                    | None => true
                    end) (c_hashes st).
Lemma growsb_ok st : growsb st = true -> forall e p, conn st e -> chain_get st (e_prev e) = Some p -> work_val p < work_val e.
Proof.
  intros H e p C E. apply (aget_in beq beq_true_iff) in C. unfold growsb in H. rewrite forallb_forall in H.
  specialize (H _ C). cbn in H. rewrite E in H. now apply Z.ltb_lt.
Qed.

Definition long_ok (st : chain) : bool :=
  (c_height st =? 400) && (c_init st =? 0) && growsb st &&
  match c_file st with Some d => zlen d =? 35441 | None => false end &&
  match safe_root net_regtest st with Ok r => beq r (repeat 144 32) | _ => false end &&
  match get_locator st with Ok l => zlen l =? 20 | _ => false end.

(** Flushing, the name root and the locator all have something to work on. *)
Definition long_both (o : option (list Z * chain)) : bool := codes o (repeat 0 400) && long_ok (final no_chain o).
Lemma long_check : long_both (play net_regtest g0 long_ops) = true.
Proof. vm_cast_no_check (eq_refl true). Qed.
Lemma both_split o : long_both o = true -> codes o (repeat 0 400) = true /\ long_ok (final no_chain o) = true.
Proof. apply Bool.andb_true_iff. Qed.
Lemma long_admb : admissibleb g0 long_ops = true.
Proof. vm_cast_no_check (eq_refl true). Qed.
Lemma long_split : codes (play net_regtest g0 long_ops) (repeat 0 400) = true /\ long_ok long_end = true /\ admissibleb g0 long_ops = true.
Proof.
  unfold long_end. destruct (both_split _ long_check) as [H1 H2]. exact (conj H1 (conj H2 long_admb)).
Qed.
Lemma long_run : run toy toy64 toy net_regtest g0 long_ops long_end.
Proof. unfold long_end. apply (codes_run0 net_regtest g0 long_ops (repeat 0 400) no_chain). exact (proj1 long_split). Qed.
Lemma long_admissible : admissible toy toy64 toy g0 long_ops.
Proof. apply admissibleb_ok. exact long_admb. Qed.

Lemma flush_hyps N st0 ops st : net_ok N -> started toy toy64 toy N st0 -> run toy toy64 toy N st0 ops st ->
  admissible toy toy64 toy st0 ops -> growsb st = true ->
  forall e p, ancestor (chain_get st) (c_tip st) e -> chain_get st (e_prev e) = Some p -> work_val p < work_val e.
Proof.
  intros NO S R A G e p An E. apply (growsb_ok _ G); auto.
  destruct (started_inv _ _ _ toy_ok _ NO _ S) as (T & F & root & low & M & SI).
  destruct (run_inv _ _ _ toy_ok _ NO _ _ _ _ _ _ _ _ SI R A) as ((C & _) & _).
  apply (anc_conn _ _ _ _ _ _ _ _ _ _ C (c_tip st)); auto. apply (k_tip _ _ _ _ _ _ _ _ _ _ C).
Qed.

Example ex_flush :
  c_height long_end mod n_window net_regtest = 0 /\ n_window net_regtest < c_height long_end - c_init long_end /\
  0 <= n_magic net_regtest < 2 ^ 32 /\
  (forall e p, ancestor (chain_get long_end) (c_tip long_end) e -> chain_get long_end (e_prev e) = Some p -> work_val p < work_val e) /\
  (exists d, c_file long_end = Some d /\ zlen d = 35441).
Proof.
  assert (NO : net_ok net_regtest) by apply networks_ok.
  destruct long_split as (_ & L & _). pose proof long_run as R. revert L R. generalize long_end. intros st L R.
  unfold long_ok in L. rewrite !Bool.andb_true_iff, !Z.eqb_eq in L. destruct L as [[[[[L1 L2] L3] L4] _] _].
  rewrite L1, L2. split; [reflexivity|]. split; [reflexivity|]. split; [split; [discriminate|reflexivity]|]. split.
  - exact (flush_hyps net_regtest g0 long_ops st NO g0_started R long_admissible L3).
  - destruct (c_file st) as [d|]; [|discriminate]. exists d. split; auto. now apply Z.eqb_eq.
Qed.

(** * A chain started from a checkpoint on main, and C23. *)
Definition gm : chain := value no_chain (chain_init toy toy64 toy net_main 1600000000 false).
Lemma gm_init : chain_init toy toy64 toy net_main 1600000000 false = Ok gm.
Proof. apply value_ok. vm_compute. reflexivity. Qed.
Lemma gm_base : chain_get gm (e_prev (c_tip gm)) = None.
Proof. vm_compute. reflexivity. Qed.

Definition cp_hdrs : list hdr := line 150 1 (t0 + 1000) (repeat 7 32).
Definition cp_work : list Z := repeat 0 16 ++ repeat 1 16.

Definition fitsb (st : chain) (height : Z) (work : list Z) (hs : list hdr) : bool :=
  let hashes := map thash hs in
  let bp := base_prevs st in
  (length hs =? 150)%nat && hash_okb work &&
  forallb (fun h => hdr_okb h && (h_time h <? 2 ^ 63) && match pow_to_target (h_bits h) with Some _ => true | None => false end) hs &&
  (c_height st <? height) && (height + 150 <=? 2 ^ 32) &&
  forallb (fun x => negb (existsb (beq x) bp) && negb (ahas beq x (c_hashes st))) hashes &&
  match hs with
  | [] => false
  | h :: _ => negb (ahas beq (h_prev h) (c_hashes st)) && negb (existsb (beq (h_prev h)) hashes)
  end &&
  (work_val (c_tip st) <=? be_val work) && (be_val work + sum_work hs <? 2 ^ 256).

Fixpoint nodupb (l : list (list Z)) : bool :=
  match l with [] => true | x :: r => negb (existsb (beq x) r) && nodupb r end.
Lemma existsb_beq x l : existsb (beq x) l = false -> ~ In x l.
Proof.
  intros E H. assert (X : existsb (beq x) l = true) by (apply existsb_exists; exists x; split; auto; apply beq_refl). congruence.
Qed.
Lemma nodupb_ok l : nodupb l = true -> NoDup l.
Proof.
  induction l as [|x l IH]; cbn; intros H; constructor.
  - apply Bool.andb_true_iff in H as [H _]. apply Bool.negb_true_iff in H. now apply existsb_beq.
  - apply Bool.andb_true_iff in H as [_ H]. auto.
Qed.

Lemma ahas_get k (st : chain) : ahas beq k (c_hashes st) = false -> chain_get st k = None.
Proof. unfold ahas, chain_get. destruct (aget beq k (c_hashes st)); [discriminate|auto]. Qed.

Lemma fitsb_ok st height work hs : fitsb st height work hs = true -> nodupb (map thash hs) = true ->
  match hs with [] => True | h :: _ => chained thash (h_prev h) hs end -> fits thash st height work hs.
Proof.
  unfold fitsb. rewrite !Bool.andb_true_iff. rewrite Nat.eqb_eq, !Z.ltb_lt, !Z.leb_le, !forallb_forall.
  intros [[[[[[[[H1 H2] H3] H4] H5] H6] H7] H8] H9] ND CH.
  assert (H6' : forall h, In h hs -> ~ In (thash h) (base_prevs st) /\ chain_get st (thash h) = None).
  { intros h Hh. specialize (H6 (thash h) (in_map _ _ _ Hh)). apply Bool.andb_true_iff in H6 as [X Y].
    apply Bool.negb_true_iff in X, Y. split; [now apply existsb_beq|now apply ahas_get]. }
  split; auto.
  - now apply hash_okb_ok.
  - apply Forall_forall. intros h Hh. specialize (H3 h Hh). rewrite !Bool.andb_true_iff in H3. destruct H3 as [[X Y] Z].
    split; [now apply hdr_okb_ok|]. split; [now apply Z.ltb_lt|]. destruct (pow_to_target (h_bits h)); [eauto|discriminate].
  - now apply nodupb_ok.
  - intros h Hh. apply H6', Hh.
  - intros h r ->. apply Bool.andb_true_iff in H7 as [X Y]. apply Bool.negb_true_iff in X, Y.
    split; [now apply ahas_get|now apply existsb_beq].
  - intros e h Be Hh Eq. destruct (H6' h Hh) as [X _]. apply X. rewrite Eq. now apply base_prevs_in.
Qed.

Lemma line_chained n : forall i time prev, chained thash prev (line n i time prev).
Proof. induction n as [|n IH]; intros; cbn [line chained]; auto. Qed.

Example cp_fits : fits thash gm 4032 cp_work cp_hdrs.
Proof. apply fitsb_ok; [vm_compute; reflexivity|vm_compute; reflexivity|]. apply (line_chained 150 1 (t0 + 1000) (repeat 7 32)). Qed.

Definition cp_st : chain := value no_chain
  (inject_checkpoint toy toy64 toy net_main 1600000000 (with_prefix gm true) (checkpoint_body 4032 cp_work cp_hdrs)).
Lemma cp_inject : inject_checkpoint toy toy64 toy net_main 1600000000 (with_prefix gm true) (checkpoint_body 4032 cp_work cp_hdrs) = Ok cp_st.
Proof. apply value_ok. vm_compute. reflexivity. Qed.
Lemma cp_started : started toy toy64 toy net_main cp_st.
Proof.
  eapply (st_checkpoint _ _ _ _ gm true 4032 cp_work cp_hdrs []); [|exact cp_fits|].
  - eapply st_genesis; [exact gm_init|exact gm_base].
  - rewrite app_nil_r. exact cp_inject.
Qed.
Example cp_state : c_init cp_st = 4032 /\ c_height cp_st = 4181.
Proof. vm_compute. auto. Qed.

(** A header on top of the first checkpoint header: the difficulty rule needs
    headers before the checkpoint, and an assertion fails. *)
Definition fork_hdr : hdr := mk 77 (t0 + 5000) (match cp_hdrs with h :: _ => thash h | [] => [] end) rb.

Theorem add_never_aborts_refuted : exists B256 B512 S3 N st0 now h,
  (forall x, length (B256 x) = 32%nat /\ bytes_ok (B256 x)) /\ net_ok N /\ started B256 B512 S3 N st0 /\
  run B256 B512 S3 N st0 [] st0 /\ admissible B256 B512 S3 st0 [(now, h)] /\
  chain_add B256 B512 S3 N now st0 h = Abort.
Proof.
  exists toy, toy64, toy, net_main, cp_st, 1600000000, fork_hdr.
  split; [exact toy_ok|]. split; [apply networks_ok|]. split; [exact cp_started|]. split; [constructor|].
  split; [apply admissibleb_ok; vm_compute; reflexivity|]. vm_compute. reflexivity.
Qed.

(** * Batches *)
Example ex_batch_ok : batch_ok toy toy64 toy [a1; a2] /\ ~ batch_ok toy toy64 toy [a1; b2].
Proof.
  split.
  - apply (check_batch_spec toy toy64 toy [a1; a2] None). vm_compute. reflexivity.
  - intros H. pose proof (proj2 (check_batch_spec toy toy64 toy [a1; b2] None) (conj H I)) as X. vm_compute in X. discriminate X.
Qed.
Example ex_batch : match handle_headers toy toy64 toy net_regtest (fun _ => 1600000000) g0 [a1; a2] with
  | Ok (rc, st, ev) => rc = 0 /\ c_height st = 2 /\ ev = [] | _ => False end.
Proof. vm_compute. auto. Qed.

(** * Retargeting *)
Definition ex_first : entry := mk_entry (mk 1 1580745080 (repeat 0 32) 0x1c00ffff) (repeat 1 32) 200 (be_bytes 32 (2 ^ 60)).
Definition ex_last : entry := mk_entry (mk 2 (1580745080 + 86400) (repeat 0 32) 0x1c00ffff) (repeat 2 32) 344 (be_bytes 32 (2 ^ 60 + 2 ^ 50)).
Example ex_retarget : hash_ok (e_work ex_first) /\ hash_ok (e_work ex_last) /\
  retarget net_main ex_first ex_last = Ok 0x1b240000.
Proof.
  split; [apply hash_okb_ok; vm_compute; reflexivity|]. split; [apply hash_okb_ok; vm_compute; reflexivity|]. vm_compute. reflexivity.
Qed.

Print Assumptions rejected_header_changes_nothing_refuted.
Print Assumptions orphans_bounded_and_connected_refuted.
Print Assumptions add_never_aborts_refuted.
