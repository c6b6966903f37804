(** Facts about starting a chain (genesis, checkpoints) and about whole histories
    of hsk_chain_add calls (C11-C18, C20, C22, C23). *)
From Coq Require Import Permutation Sorted.
From Verif Require Import Common CommonFacts BioModel BioFacts HeaderModel HeaderSpec HeaderFacts Assoc AssocFacts
  ChainModel ChainSpec ChainFacts.

Lemma last_cons {A} : forall (l : list A) x d, last (x :: l) d = last l x.
Proof.
  induction l as [|y l IH]; intros x d; [reflexivity|].
  change (last (x :: y :: l) d) with (last (y :: l) d). now rewrite (IH y d), (IH y x).
Qed.

Section Run.
  Variable B256 B512 S3 : list Z -> list Z.
  Hypothesis b256 : forall x, length (B256 x) = 32%nat /\ bytes_ok (B256 x).
  Variable N : net.
  Hypothesis NO : net_ok N.
  Local Notation hash := (hdr_hash B256 B512 S3).
  Local Notation pow := (verify_pow B256 B512 S3).
  Local Notation core := (ChainFacts.core B256 B512 S3 N).
  Local Notation inv := (ChainFacts.inv B256 B512 S3 N).
  Local Notation entry_ok := (ChainFacts.entry_ok B256 B512 S3).
  Local Notation step := (ChainFacts.step B256 B512 S3 N).
  Local Notation started := (ChainSpec.started B256 B512 S3 N).
  Local Notation run := (ChainSpec.run B256 B512 S3 N).
  Local Notation admissible := (ChainSpec.admissible B256 B512 S3).
  Local Notation inject_loop := (ChainModel.inject_loop B256 B512 S3).

  (* ---------- genesis ---------- *)

  Lemma core_incl T T' F root low M st : core T F root low M st -> incl T T' -> core T' F root low M st.
  Proof.
    intros [K1 K2 K3 K4 K5 K6 K7 K8 K9 K10 K11 K12] I. constructor; auto.
    - intros e H. destruct (K2 e H) as [|[]]; auto.
    - intros e H. destruct (K4 e H); auto.
  Qed.

  (** What holds in every start state. *)
  Definition start_inv T F root low M st : Prop :=
    core T F root low M st /\ c_orphans st = [] /\ c_prevs st = [] /\
    (forall e, In e T <-> conn st e) /\ (forall k, In k F -> exists e, base st e /\ e_prev e = k) /\
    0 <= M <= c_height st /\ (conn st (c_genesis st) /\ e_height (c_genesis st) = 0) /\
    (zlen (c_hashes st) = 1 -> solo T root) /\ c_height st < 2 ^ 32 /\
    aget Z.eqb 0 (c_heights st) = Some (c_genesis st) /\ (c_init st = 0 \/ c_height st = c_init st + 149) /\
    work_val (c_genesis st) <= work_val root.

  Lemma genesis_start now pre st : chain_init B256 B512 S3 N now pre = Ok st ->
    chain_get st (e_prev (c_tip st)) = None ->
    start_inv [c_tip st] [e_prev (c_tip st)] (c_tip st) (fun _ => None) 0 st /\ c_init st = 0 /\
    hdr_decode (n_genesis N) = Some (e_hdr (c_tip st)).
  Proof.
    destruct NO as (_ & _ & _ & _ & _ & Lg & Og & h & t & Ed & Ht & Et). unfold chain_init. rewrite Ed.
    unfold hdr_decode in Ed. destruct (hdr_read (n_genesis N)) as [[h' r]|] eqn:Er; [|discriminate].
    cbn in Ed. injection Ed as ->. destruct (hdr_read_inv _ _ _ Og Er) as (_ & Oh & _).
    assert (Ot : hash_ok t) by (apply (target_hash_ok (h_bits h)); auto; apply Oh).
    destruct (get_proof_spec (h_bits h) t Et Ot) as (w & Ew & Ow & Vw). cbn [calc_work]. rewrite Ew.
    intros E Hp. apply Ok_inj in E. subst st. cbn [c_tip] in *. set (e := mk_entry h (hash h) 0 w) in *.
    assert (Gk : forall k x, chain_get (mk_chain 0 0 e e (maybe_sync N now false e) [(hash h, e)] [(0, e)] [] [] pre None) k = Some x -> x = e /\ k = hash h).
    { intros k x. unfold chain_get. cbn. destruct (beq k (hash h)) eqn:E.
      - apply beq_true_iff in E. intros [= <-]. auto.
      - discriminate. }
    assert (Gh : chain_get (mk_chain 0 0 e e (maybe_sync N now false e) [(hash h, e)] [(0, e)] [] [] pre None) (hash h) = Some e).
    { unfold chain_get. cbn. now rewrite beq_refl. }
    set (st := mk_chain 0 0 e e (maybe_sync N now false e) [(hash h, e)] [(0, e)] [] [] pre None) in *.
    assert (Cn : forall x, conn st x <-> x = e).
    { intros x. unfold conn. split; [intros H; now apply Gk in H|intros ->; exact Gh]. }
    assert (An : forall x, ancestor (chain_get st) e x <-> x = e).
    { intros x. split; [|intros ->; apply anc_refl]. intros [n B]. inversion B as [|? ? p ? Hpp]; subst; auto. congruence. }
    unfold start_inv. split; [split; [constructor|repeat split]|]; cbn [c_height c_init c_tip c_orphans c_prevs c_hashes st] in *; auto.
    - intros k x H. apply Gk in H as [-> ->]. cbn. repeat split; auto; try apply Oh; try apply Ow. all: subst e; cbn; lia.
    - intros x H. apply Cn in H. subst x. right. cbn. auto.
    - intros k [<-|[]]. exact Hp.
    - intros x H. apply Cn in H. subst x. left. now left.
    - intros x H. apply Cn in H. subst x. lia.
    - repeat split; auto. apply anc_refl. now left.
    - intros i x Hi. rewrite An. cbn. destruct (Z.eqb_spec i 0) as [->|Ne].
      + split; [intros [= <-]; auto|]. intros [-> _]. reflexivity.
      + split; [discriminate|]. intros [-> Hx]. cbn in Hx. congruence.
    - intros i Hi. cbn. destruct (Z.eqb_spec i 0); [lia|reflexivity].
    - intros x H. apply Cn in H. subst x. cbn. unfold zlen. cbn. lia.
    - intros x p H Hx. apply Cn in H. subst x. congruence.
    - intros [<-|[]]. now apply Cn.
    - intros H. left. symmetry. now apply Cn.
    - intros k [<-|[]]. exists e. repeat split; auto. 
    - lia.
    - lia.
    - apply Z.le_refl.
  Qed.

  (* ---------- checkpoints ---------- *)

  Lemma own_work_pos h : hdr_ok h -> (exists t, pow_to_target (h_bits h) = Some t) -> 1 <= own_work h.
  Proof.
    intros O [t E]. unfold own_work. rewrite E. assert (Ot : hash_ok t) by (apply (target_hash_ok (h_bits h)); auto; apply O).
    apply work_pos. destruct Ot as [L B]. pose proof (be_val_bounds _ B) as X. unfold zlen in X. rewrite L in X. exact X.
  Qed.

  Definition hdr_good (h : hdr) : Prop := hdr_ok h /\ h_time h < 2 ^ 63 /\ exists t, pow_to_target (h_bits h) = Some t.

  Lemma sum_work_nonneg hs : Forall hdr_good hs -> 0 <= sum_work hs.
  Proof.
    induction 1 as [|h hs (O & _ & E) F IH]; [cbn; lia|]. cbn [sum_work fold_right].
    fold (sum_work hs). pose proof (own_work_pos h O E). lia.
  Qed.

  Lemma conn_set st st' e : c_hashes st' = aset beq (e_hash e) e (c_hashes st) -> chain_get st (e_hash e) = None ->
    forall x, conn st' x <-> conn st x \/ x = e.
  Proof.
    intros E Hf x. unfold conn, chain_get in *. rewrite E. destruct (beq (e_hash x) (e_hash e)) eqn:Ex.
    - apply beq_true_iff in Ex. rewrite Ex, bget_set_same. split; [intros [= <-]; auto|]. intros [H| ->]; congruence.
    - apply beq_false_iff in Ex. rewrite bget_set_other by auto. split; auto. intros [H| ->]; congruence.
  Qed.

  Lemma core_start T F root low M st e st' : core T F root low M st -> c_height st < 2 ^ 32 ->
    chain_get st (e_hash e) = None -> chain_get st (e_prev e) = None -> e_prev e <> e_hash e -> ~ In (e_hash e) F ->
    entry_ok e -> c_height st < e_height e -> work_val (c_tip st) <= work_val e -> 0 <= M ->
    c_height st' = e_height e -> c_init st' = e_height e -> c_tip st' = e ->
    c_hashes st' = aset beq (e_hash e) e (c_hashes st) -> c_heights st' = aset Z.eqb (e_height e) e (c_heights st) ->
    core (e :: T) (e_prev e :: F) e (fun h => aget Z.eqb h (c_heights st)) (Z.max M (e_height e)) st'.
  Proof.
    intros C Hb Hf Hp Hs HF Eok Hh Hw HM E1 E2 E3 E4 E5.
    assert (G1 : chain_get st' (e_hash e) = Some e) by (unfold chain_get; rewrite E4; apply bget_set_same).
    assert (G2 : forall k, k <> e_hash e -> chain_get st' k = chain_get st k).
    { intros k Hk. unfold chain_get. rewrite E4. now apply bget_set_other. }
    assert (Inv : forall x, conn st' x -> x = e \/ conn st x) by (intros x H; apply (conn_set st st' e E4 Hf) in H; tauto).
    assert (PS := parent_same _ _ _ _ _ _ _ _ _ _ C e Hf HF st' E4).
    assert (RS := rules_same _ _ _ _ _ _ _ _ _ _ C e Hf HF st' E4).
    assert (Pe : chain_get st' (e_prev e) = None) by (rewrite G2; auto).
    assert (An : forall x, ancestor (chain_get st') e x <-> x = e).
    { intros x. split; [|intros ->; apply anc_refl]. intros [n B]. inversion B as [|? ? p ? Hpp]; subst; auto. congruence. }
    assert (HL : zlen (c_hashes st') = zlen (c_hashes st) + 1).
    { rewrite E4. unfold zlen. rewrite (aset_length_fresh beq beq_true_iff) by exact Hf. lia. }
    assert (Ct := k_tip _ _ _ _ _ _ _ _ _ _ C).
    constructor; rewrite ?E1, ?E2, ?E3.
    - intros k x H. destruct (beq k (e_hash e)) eqn:Ek.
      + apply beq_true_iff in Ek. subst k. rewrite G1 in H. injection H as <-. auto.
      + apply beq_false_iff in Ek. rewrite G2 in H by auto. now apply (k_keys _ _ _ _ _ _ _ _ _ _ C).
    - intros x H. apply Inv in H as [->|H]; [right; split; now left|].
      rewrite PS by auto. destruct (k_par _ _ _ _ _ _ _ _ _ _ C x H) as [L|[H1 H2]]; auto. right. split; now right.
    - intros k [<-|H]; auto. rewrite G2. now apply (k_forb _ _ _ _ _ _ _ _ _ _ C). intros ->. contradiction.
    - intros x H. apply Inv in H as [->|H]; [left; now left|].
      destruct (k_rules _ _ _ _ _ _ _ _ _ _ C x H); [left; now right|right; now apply RS].
    - exact G1.
    - reflexivity.
    - intros x H. apply Inv in H as [->|H]; [lia|]. pose proof (k_max _ _ _ _ _ _ _ _ _ _ C x H). lia.
    - repeat split; auto. apply anc_refl. now left.
    - intros i x Hi. rewrite An, E5. destruct (Z.eq_dec i (e_height e)) as [->|Ne].
      + rewrite zget_set_same. split; [intros [= <-]; auto|]. intros [-> _]. reflexivity.
      + rewrite zget_set_other by auto. split; [|intros [-> Hx]; lia]. intros H.
        apply (k_idx _ _ _ _ _ _ _ _ _ _ C) in H as [Ax Hx].
        * destruct (anc_conn _ _ _ _ _ _ _ _ _ _ C _ _ Ct Ax) as [_ L]. rewrite (k_height _ _ _ _ _ _ _ _ _ _ C) in *. lia.
        * destruct (k_root _ _ _ _ _ _ _ _ _ _ C) as (R1 & R2 & _). 
          destruct (anc_conn _ _ _ _ _ _ _ _ _ _ C _ _ Ct R2) as [_ L]. rewrite (k_height _ _ _ _ _ _ _ _ _ _ C) in *. lia.
    - intros i Hi. rewrite E5. now rewrite zget_set_other by lia.
    - intros x H. rewrite HL. assert (0 <= zlen (c_hashes st)) by (unfold zlen; lia). apply Inv in H as [->|H]; [lia|].
      pose proof (k_bound _ _ _ _ _ _ _ _ _ _ C x H). lia.
    - intros x p H Hx. apply Inv in H as [->|H]; [congruence|]. rewrite PS in Hx by auto.
      now apply (k_work _ _ _ _ _ _ _ _ _ _ C).
  Qed.

  (** Entries added so far: old ones plus [es]. *)
  Definition adds (st : chain) (es : list entry) (st' : chain) : Prop :=
    (forall x, conn st' x <-> conn st x \/ In x es) /\ zlen (c_hashes st') = zlen (c_hashes st) + zlen es.

  Lemma inject_tail now rest : forall hs st T F root low M, core T F root low M st ->
    Forall hdr_good hs -> chained hash (e_hash (c_tip st)) hs -> NoDup (map hash hs) ->
    (forall h, In h hs -> chain_get st (hash h) = None /\ ~ In (hash h) F) ->
    work_val (c_tip st) + sum_work hs < 2 ^ 256 -> c_height st + zlen hs < 2 ^ 32 ->
    exists st' es, inject_loop (length hs) N now st (concat (map hdr_write hs) ++ rest) (c_height st + 1)
        (Some (e_hash (c_tip st))) (e_work (c_tip st)) = Ok st' /\
      restored hash (work_val (c_tip st)) (c_height st + 1) hs es /\ core (es ++ T) F root low M st' /\
      same_rest st st' /\ adds st es st' /\ c_tip st' = last es (c_tip st) /\ length es = length hs /\
      c_height st' = c_height st + zlen hs.
  Proof.
    induction hs as [|h hs IH]; intros st T F root low M C G L ND Fr W Hb.
    { exists st, []. cbn. split; auto. split; [constructor|]. split; auto. split; [unfold same_rest; auto|].
      unfold adds, zlen. cbn. repeat split; auto; try lia. intros [|[]]; auto. }
    inversion G as [|? ? (Oh & Ht & t & Et) G']; subst. destruct L as [Lp L]. cbn [map] in ND.
    inversion ND as [|? ? Ni ND']; subst. destruct (Fr h (or_introl eq_refl)) as [Fh FF].
    assert (Ct := k_tip _ _ _ _ _ _ _ _ _ _ C). assert (Kh := k_height _ _ _ _ _ _ _ _ _ _ C).
    destruct (conn_ok _ _ _ _ _ _ _ _ _ _ C _ Ct) as (_ & _ & Ow & Hge & _).
    assert (Ot : hash_ok t) by (apply (target_hash_ok (h_bits h)); auto; apply Oh).
    destruct (calc_work_spec (h_bits h) t (e_work (c_tip st)) Et Ot Ow) as (w & Ew & Oww & Vw).
    assert (Zl : zlen (h :: hs) = zlen hs + 1) by (unfold zlen; cbn [length]; lia). rewrite Zl in Hb.
    assert (0 <= zlen hs) by (unfold zlen; lia).
    assert (W1 : 1 <= own_work h) by (apply own_work_pos; eauto).
    pose proof (sum_work_nonneg hs G') as W2. cbn [sum_work fold_right] in W. fold (sum_work hs) in W.
    assert (Eo : own_work h = work_of (be_val t)) by (unfold own_work; now rewrite Et).
    assert (W0 : 0 <= work_val (c_tip st)).
    { unfold work_val. destruct Ow as [_ Ow]. pose proof (be_val_bounds _ Ow). lia. }
    rewrite Z.mod_small in Vw by (fold (work_val (c_tip st)); lia).
    fold (work_val (c_tip st)) in Vw.
    set (e := mk_entry h (hash h) (c_height st + 1) w).
    assert (We : work_val e = work_val (c_tip st) + work_of (be_val t)) by exact Vw.
    assert (Eok : entry_ok e) by (repeat split; cbn; auto; try apply Oh; try apply Oww; lia).
    assert (Hp : chain_get st (e_prev e) = Some (c_tip st)) by (unfold e_prev; cbn; rewrite Lp; exact Ct).
    assert (C0 : core (e :: T) F root low M st) by (eapply core_incl; [exact C|]; intros x Hx; now right).
    destruct (chain_save_spec B256 B512 S3 N NO (e :: T) F root low M now st e (c_heights st)) as (st1 & Es & C1 & Eh & Et1 & Sr & _).
    { eapply (core_tip _ _ _ _ _ _ _ _ _ _ C0 e (c_tip st) Hp Fh FF); try exact Eok; try reflexivity; try apply anc_refl.
      - cbn. lia.
      - left. now left.
      - exists t. split; auto. rewrite We, Z.mod_small; auto. lia.
      - lia.
      - intros i x Hi. rewrite (k_idx _ _ _ _ _ _ _ _ _ _ C); [reflexivity|].
        destruct (k_root _ _ _ _ _ _ _ _ _ _ C) as (R1 & R2 & _). destruct (anc_conn _ _ _ _ _ _ _ _ _ _ C _ _ Ct R2). lia. }
    { cbn. lia. }
    rewrite with_heights_id in Es.
    assert (K1 := k_height _ _ _ _ _ _ _ _ _ _ C1). rewrite Et1 in K1. cbn [e_height e] in K1.
    assert (G1 := conn_set st st1 e Eh Fh).
    assert (HL : zlen (c_hashes st1) = zlen (c_hashes st) + 1).
    { rewrite Eh. unfold zlen. rewrite (aset_length_fresh beq beq_true_iff) by exact Fh. lia. }
    destruct (IH st1 (e :: T) F root low M C1 G') as (st' & es & I1 & I2 & I3 & I4 & I5 & I6 & I7 & I8); auto.
    - rewrite Et1. exact L.
    - intros h' Hin. destruct (Fr h' (or_intror Hin)) as [F1 F2]. split; auto.
      unfold chain_get. rewrite Eh. rewrite bget_set_other; auto. intros E. apply Ni. cbn [e_hash e] in E. rewrite <- E.
      now apply in_map.
    - rewrite Et1, We. lia.
    - lia.
    - rewrite Et1 in *. rewrite K1 in *. exists st', (e :: es). cbn [length inject_loop map concat]. rewrite <- app_assoc.
      rewrite hdr_read_write by auto. rewrite Lp, beq_refl. cbn [negb]. rewrite Ew.
      change 4294967296 with (2 ^ 32). rewrite Z.mod_small by lia. fold e. rewrite Es. cbn [obind].
      split; [exact I1|]. split; [|split; [|split; [|split; [|split; [|split]]]]].
      + econstructor; eauto. rewrite We, Z.mod_small; auto. lia.
      + eapply core_incl; [exact I3|]. intros x Hx. apply in_app_iff in Hx as [Hx|[<-|Hx]].
        * right. apply in_app_iff. auto.
        * now left.
        * right. apply in_app_iff. auto.
      + destruct Sr as (S1 & S2 & S3' & S4 & S5). destruct I4 as (Q1 & Q2 & Q3 & Q4 & Q5).
        unfold same_rest. rewrite Q1, Q2, Q3, Q4, Q5. auto 10.
      + destruct I5 as [I5 I5']. split.
        * intros x. rewrite I5, G1. cbn [In]. split; [intros [[|]|]; auto|intros [|[|]]; auto].
        * rewrite I5', HL. unfold zlen. cbn [length]. lia.
      + rewrite I6. symmetry. apply last_cons.
      + lia.
      + lia.
  Qed.

  Lemma inject_spec now pre st T F root low M height work hs rest : start_inv T F root low M st ->
    fits hash st height work hs ->
    exists st' es T' F' root' low' M',
      inject_checkpoint B256 B512 S3 N now (with_prefix st pre) (checkpoint_body height work hs ++ rest) = Ok st' /\
      restored hash (be_val work) height hs es /\ start_inv T' F' root' low' M' st' /\ adds st es st' /\
      (exists r, es = root' :: r /\ c_tip st' = last r root') /\
      c_init st' = height /\ c_genesis st' = c_genesis st /\ c_height st' = height + 149.
  Proof.
    intros (C & Oe & Pe & HT & HFb & HM & HG & HS & Hc & Hg0 & Hi0 & Hgw) [L Wk G [H1 H2] Lk ND Fr Fi Fb [Tw Tt]].
    destruct hs as [|h hs]; [discriminate L|]. destruct (Fi h hs eq_refl) as [Fp Fn].
    fold hdr_good in G. inversion G as [|? ? (Oh & Ht & t & Et) G']; subst.
    destruct Lk as [_ Lk]. cbn [map] in ND. inversion ND as [|? ? Ni ND']; subst.
    assert (Ct := k_tip _ _ _ _ _ _ _ _ _ _ C). assert (Kh := k_height _ _ _ _ _ _ _ _ _ _ C).
    pose proof (height_nonneg _ _ _ _ _ _ _ _ _ _ C _ Ct) as Hge.
    destruct (k_root _ _ _ _ _ _ _ _ _ _ C) as (R1 & R2 & _).
    destruct (anc_conn _ _ _ _ _ _ _ _ _ _ C _ _ Ct R2) as [_ Hri].
    assert (Ot : hash_ok t) by (apply (target_hash_ok (h_bits h)); auto; apply Oh).
    destruct (calc_work_spec (h_bits h) t work Et Ot Wk) as (w & Ew & Oww & Vw).
    assert (W1 : 1 <= own_work h) by (apply own_work_pos; eauto).
    pose proof (sum_work_nonneg hs G') as W2. cbn [sum_work fold_right] in Tt. fold (sum_work hs) in Tt.
    assert (Eo : own_work h = work_of (be_val t)) by (unfold own_work; now rewrite Et).
    assert (W0 : 0 <= be_val work) by (destruct Wk as [_ Ow]; pose proof (be_val_bounds _ Ow); lia).
    rewrite Z.mod_small in Vw by lia.
    unfold inject_checkpoint, checkpoint_body. rewrite <- !app_assoc.
    unfold read_u32be. rewrite read_be_app by (change (256 ^ Z.of_nat 4) with (2 ^ 32); lia).
    cbn [c_init with_prefix]. destruct (Z.leb_spec height (c_init st)) as [X|_]; [lia|].
    unfold read_bytes. destruct Wk as [Lw Ow]. rewrite take_app by auto.
    cbn [c_height c_init c_tip c_genesis c_synced c_hashes c_heights c_orphans c_prevs c_prefix c_file with_prefix].
    cbn [map concat]. rewrite <- app_assoc.
    change store_headers_count with (S 149). remember 149%nat as n149 eqn:E149. cbn [ChainModel.inject_loop].
    rewrite hdr_read_write by auto. rewrite Ew. change 4294967296 with (2 ^ 32). rewrite Z.mod_small by lia.
    set (e := mk_entry h (hash h) height w).
    set (st1 := mk_chain (c_height st) height (c_tip st) (c_genesis st) (c_synced st) (c_hashes st) (c_heights st)
                  (c_orphans st) (c_prevs st) pre (c_file st)).
    assert (Eok : entry_ok e) by (repeat split; cbn; auto; try apply Oh; try apply Oww; lia).
    assert (We : work_val e = be_val work + work_of (be_val t)) by exact Vw.
    assert (Fh : chain_get st (e_hash e) = None) by (apply Fr; now left).
    assert (FF : ~ In (e_hash e) F).
    { intros Hin. destruct (HFb _ Hin) as (b & Bb & Eb). apply (Fb b h Bb); [now left|]. symmetry. exact Eb. }
    destruct (chain_save_spec B256 B512 S3 N NO (e :: T) (e_prev e :: F) e (fun i => aget Z.eqb i (c_heights st))
                (Z.max M height) now st1 e (c_heights st)) as (st2 & Es & C2 & Eh & Et2 & Sr & _).
    { apply (core_start T F root low M st e); auto; try lia; try (cbn; lia).
      cbn. intros E. apply Fn. left. symmetry. exact E. }
    { cbn. lia. }
    change (with_heights st1 (c_heights st)) with st1 in Es. rewrite Es. cbn [obind].
    change (c_hashes st1) with (c_hashes st) in Eh.
    assert (K2 := k_height _ _ _ _ _ _ _ _ _ _ C2). rewrite Et2 in K2. cbn [e_height e] in K2.
    assert (G1 := conn_set st st2 e Eh Fh).
    assert (HL : zlen (c_hashes st2) = zlen (c_hashes st) + 1).
    { rewrite Eh. unfold zlen. rewrite (aset_length_fresh beq beq_true_iff) by exact Fh. lia. }
    assert (Lhs : length hs = 149%nat) by (cbn in L; congruence).
    destruct (inject_tail now rest hs st2 (e :: T) (e_prev e :: F) e (fun i => aget Z.eqb i (c_heights st))
                (Z.max M height) C2 G') as (st' & es & I1 & I2 & I3 & I4 & I5 & I6 & I7 & I8); auto.
    { rewrite Et2. exact Lk. }
    { intros h' Hin. split.
      - unfold chain_get. rewrite Eh. rewrite bget_set_other; [apply Fr; now right|]. intros E. apply Ni. cbn [e_hash e] in E.
        rewrite <- E. now apply in_map.
      - intros [E|Hin'].
        + apply Fn. right. unfold e_prev in E. cbn in E. rewrite E. now apply in_map.
        + destruct (HFb _ Hin') as (b & Bb & Eb). apply (Fb b h' Bb); [now right|]. symmetry. exact Eb. }
    { rewrite Et2, We. lia. }
    { unfold zlen. rewrite Lhs, K2. lia. }
    rewrite Et2, K2 in *. rewrite Lhs, <- E149 in I1. change (e_hash e) with (hash h) in I1. change (e_work e) with w in I1. rewrite I1.
    destruct I4 as (Q1 & Q2 & Q3 & Q4 & Q5). destruct Sr as (S1 & S2 & S3' & S4 & S5).
    destruct I5 as [A1 A2].
    assert (Cn : forall x, conn st' x <-> conn st x \/ In x (e :: es)).
    { intros x. rewrite A1, G1. cbn [In]. split; [intros [[|]|]; auto|intros [|[|]]; auto]. }
    assert (ZE : zlen es = 149) by (unfold zlen; lia). assert (ZH : zlen hs = 149) by (unfold zlen; lia).
    rewrite ZH in I8.
    exists st', (e :: es), (es ++ e :: T), (e_prev e :: F), e, (fun i => aget Z.eqb i (c_heights st)), (Z.max M height).
    split; [reflexivity|]. split; [|split; [|split; [|split; [|split; [|split]]]]].
    - econstructor; eauto. rewrite We, Z.mod_small; auto. lia.
    - unfold start_inv. split; auto. rewrite Q3, Q4, S3', S4. split; [exact Oe|]. split; [exact Pe|].
      split; [|split; [|split; [|split; [|split; [|split; [|split; [|split]]]]]]].
      + intros x. rewrite in_app_iff. cbn [In]. rewrite Cn, HT. cbn [In]. tauto.
      + intros k [<-|Hk].
        * exists e. split; auto. split; [apply Cn; right; now left|].
          apply (k_forb _ _ _ _ _ _ _ _ _ _ I3). now left.
        * destruct (HFb k Hk) as (b & [B1 B2] & <-). exists b. split; auto. split; [apply Cn; auto|].
          apply (k_forb _ _ _ _ _ _ _ _ _ _ I3). now right.
      + lia.
      + rewrite Q2, S2. cbn [c_genesis st1]. split; [|apply HG]. apply Cn. left. apply HG.
      + intros X. exfalso. rewrite A2, HL in X. assert (0 <= zlen (c_hashes st)) by (unfold zlen; lia). lia.
      + lia.
      + rewrite (k_low _ _ _ _ _ _ _ _ _ _ I3) by (rewrite Q1, S1; cbn; lia). rewrite Q2, S2. exact Hg0.
      + right. rewrite Q1, S1. cbn [c_init st1]. lia.
      + rewrite Q2, S2. cbn [c_genesis st1]. pose proof (k_max _ _ _ _ _ _ _ _ _ _ C _ (proj1 HG)). lia.
    - split; auto. rewrite A2, HL. unfold zlen. cbn [length]. lia.
    - exists es. auto.
    - rewrite Q1, S1. reflexivity.
    - rewrite Q2, S2. reflexivity.
    - lia.
  Qed.

  Lemma started_inv st : started st -> exists T F root low M, start_inv T F root low M st.
  Proof.
    induction 1 as [now pre st E Hp|st0 pre height work hs rest now st S IH Ft E].
    - do 5 eexists. apply (genesis_start now pre st E Hp).
    - destruct IH as (T & F & root & low & M & SI).
      destruct (inject_spec now pre st0 T F root low M height work hs rest SI Ft)
        as (st' & es & T' & F' & root' & low' & M' & E' & _ & SI' & _).
      rewrite E in E'. apply Ok_inj in E'. subst st'. do 5 eexists. exact SI'.
  Qed.

  (* ---------- histories ---------- *)

  Lemma zlen_snoc {A} (l : list A) x : zlen (l ++ [x]) = zlen l + 1.
  Proof. unfold zlen. rewrite app_length. cbn. lia. Qed.

  Lemma step_size now st h rc st' : step now st h rc st' ->
    zlen (c_hashes st') + zlen (c_orphans st') <= zlen (c_hashes st) + zlen (c_orphans st) + 1.
  Proof.
    intros [[-> _]|[(_ & _ & _ & No & _ & ->)|(p & e & st1 & _ & Nh & _ & _ & I & _ & Gr)]].
    - lia.
    - cbn. destruct (10000 <? zlen (c_orphans st)) eqn:E; cbn [c_hashes c_orphans with_orphans].
      + unfold zlen. cbn. lia.
      + unfold zlen. rewrite (aset_length_fresh beq beq_true_iff) by exact No. lia.
    - pose proof (g_size _ _ _ _ _ Gr) as X. destruct I as (_ & _ & I & (_ & _ & R & _) & _).
      rewrite I, R in X. unfold zlen in *. rewrite (aset_length_fresh beq beq_true_iff) in X by exact Nh. lia.
  Qed.

  Lemma step_keep now st h rc st' : step now st h rc st' ->
    (forall k e, chain_get st k = Some e -> chain_get st' k = Some e) /\ c_init st' = c_init st /\ c_genesis st' = c_genesis st.
  Proof.
    intros [[-> _]|[(_ & _ & _ & No & _ & ->)|(p & e & st1 & _ & Nh & _ & _ & I & _ & Gr)]].
    - auto.
    - cbn. destruct (10000 <? zlen (c_orphans st)) eqn:E; cbn; auto.
    - destruct I as (_ & _ & I & (R1 & R2 & _) & _). split; [|].
      + intros k x H. apply (g_keep _ _ _ _ _ Gr). unfold chain_get. rewrite I. rewrite bget_set_other; auto.
        intros ->. congruence.
      + destruct (g_rest _ _ _ _ _ Gr) as (-> & -> & _). auto.
  Qed.

  Lemma start_offer T F root low M st0 op : start_inv T F root low M st0 -> offer_ok B256 B512 S3 st0 op ->
    ~ In (hash (snd op)) F.
  Proof.
    intros (_ & _ & _ & _ & HF & _) (_ & _ & Ho) Hin. destruct (HF _ Hin) as (e & Be & Ee). apply (Ho e Be). auto.
  Qed.

  Lemma run_inv T F root low M st0 ops st : start_inv T F root low M st0 -> run st0 ops st -> admissible st0 ops ->
    inv T F root low M st /\ zlen (c_hashes st) + zlen (c_orphans st) <= zlen (c_hashes st0) + zlen ops /\
    (forall k e, chain_get st0 k = Some e -> chain_get st k = Some e) /\ c_init st = c_init st0 /\ c_genesis st = c_genesis st0.
  Proof.
    intros S R. induction R as [|ops st now h rc st' R IH E]; intros [A Bd].
    - destruct S as (C & Oe & Pe & _). split; [split; auto|].
      + constructor; unfold chain_get_orphan; rewrite ?Oe, ?Pe; intros k o H; discriminate H.
      + rewrite Oe. unfold zlen. cbn. split; [lia|auto].
    - apply Forall_app in A as [A1 A2]. apply Forall_inv in A2. rewrite zlen_snoc in Bd.
      destruct IH as (I & Sz & K & Ei & Eg); [split; auto; lia|].
      pose proof (start_offer _ _ _ _ _ _ _ S A2) as NF. destruct A2 as (Oh & Cl & _). cbn [fst snd] in *.
      destruct S as (C & _ & _ & _ & _ & HM & _).
      pose proof (add_spec B256 B512 S3 b256 N NO T F root low M now st h I Oh NF Cl ltac:(lia)) as AS.
      rewrite E in AS. destruct AS as [I' S']. split; auto.
      pose proof (step_size _ _ _ _ _ S'). destruct (step_keep _ _ _ _ _ S') as (K' & Ei' & Eg').
      rewrite zlen_snoc. split; [lia|]. split; auto. rewrite Ei', Eg'. auto.
  Qed.

  (** The next call, after any history. *)
  Lemma run_next T F root low M st0 ops st op : start_inv T F root low M st0 -> run st0 ops st ->
    admissible st0 (ops ++ [op]) ->
    match chain_add B256 B512 S3 N (fst op) st (snd op) with
    | Ok (rc, st') => inv T F root low M st' /\ step (fst op) st (snd op) rc st'
    | Abort => ~ solo T root
    | _ => False
    end.
  Proof.
    intros S R [A Bd]. apply Forall_app in A as [A1 A2]. apply Forall_inv in A2. rewrite zlen_snoc in Bd.
    destruct (run_inv _ _ _ _ _ _ _ _ S R) as (I & Sz & _); [split; auto; lia|].
    pose proof (start_offer _ _ _ _ _ _ _ S A2) as NF. destruct A2 as (Oh & Cl & _).
    destruct S as (C & _ & _ & _ & _ & HM & _).
    apply add_spec; auto. lia.
  Qed.

  (* ---------- what a history does to the tip ---------- *)

  Lemma step_tip now st h rc st' : step now st h rc st' ->
    c_tip st' = c_tip st \/ work_val (c_tip st) < work_val (c_tip st').
  Proof.
    intros [[-> _]|[(_ & _ & _ & _ & _ & ->)|(p & e & st1 & _ & _ & _ & _ & I & _ & Gr)]]; auto.
    - left. cbn. destruct (10000 <? zlen (c_orphans st)); reflexivity.
    - destruct I as (_ & _ & _ & _ & I). destruct (g_tip _ _ _ _ _ Gr) as [Q|Q].
      + destruct I as [(I & _)|[I W]]; [left; congruence|right]. rewrite Q, I. exact W.
      + right. destruct I as [(I & _)|[I W]]; [rewrite <- I; exact Q|]. rewrite I in Q. lia.
  Qed.

  (** The tip is the start's, or a header connected since. *)
  Lemma run_tip T F root low M st0 ops st : start_inv T F root low M st0 -> run st0 ops st -> admissible st0 ops ->
    (c_tip st = c_tip st0 \/ ~ conn st0 (c_tip st)) /\ work_val (c_tip st0) <= work_val (c_tip st).
  Proof.
    intros S R A. assert (W : work_val (c_tip st0) <= work_val (c_tip st) /\ (c_tip st = c_tip st0 \/ work_val (c_tip st0) < work_val (c_tip st))).
    { revert A. induction R as [|ops st now h rc st' R IH E]; intros A.
      - split; [lia|auto].
      - assert (A' : admissible st0 ops).
        { destruct A as [A1 A2]. apply Forall_app in A1 as [A1 _]. rewrite zlen_snoc in A2. split; auto; lia. }
        pose proof (run_next _ _ _ _ _ _ _ _ (now, h) S R A) as X. cbn [fst snd] in X. rewrite E in X. destruct X as [_ X].
        apply step_tip in X. destruct (IH A') as [I1 I2]. destruct X as [->|X]; auto.
        split; [lia|]. right. destruct I2 as [I2|I2]; lia. }
    destruct W as [W1 W2]. split; auto. destruct W2 as [W2|W2]; auto. right. intros H.
    destruct S as (C & _). pose proof (k_max _ _ _ _ _ _ _ _ _ _ C _ H). lia.
  Qed.

  (** With retargeting, new headers on the best chain stay above the base. *)
  Lemma tip_above T F root low M st0 ops st : start_inv T F root low M st0 -> run st0 ops st -> admissible st0 ops ->
    n_noretarget N = false -> n_reset N = false -> c_init st0 = 0 \/ 146 <= c_init st0 ->
    c_init st = 0 \/ c_init st + 146 <= c_height st.
  Proof.
    intros S R A N1 N2 Hi. destruct (run_inv _ _ _ _ _ _ _ _ S R A) as ((C & _) & _ & _ & Ei & _).
    rewrite Ei. destruct Hi as [Hi|Hi]; auto. right.
    destruct (run_tip _ _ _ _ _ _ _ _ S R A) as [[Tp|Tp] _].
    - destruct S as (C0 & S). rewrite (k_height _ _ _ _ _ _ _ _ _ _ C), Tp.
      rewrite <- (k_height _ _ _ _ _ _ _ _ _ _ C0). destruct S as (_ & _ & _ & _ & _ & _ & _ & _ & _ & [S|S] & _); lia.
    - assert (Ct := k_tip _ _ _ _ _ _ _ _ _ _ C).
      destruct (k_rules _ _ _ _ _ _ _ _ _ _ C _ Ct) as [X|X].
      { exfalso. apply Tp. destruct S as (_ & _ & _ & S & _). now apply S. }
      destruct X as (p & ts & m & t & P1 & P2 & _ & _ & _ & P3 & _).
      unfold bits_rule in P3. rewrite N1, N2 in P3. cbn [andb] in P3.
      rewrite (k_height _ _ _ _ _ _ _ _ _ _ C). destruct (k_root _ _ _ _ _ _ _ _ _ _ C) as (R1 & R2 & R3).
      assert (Cp := get_conn _ _ _ _ _ _ _ _ _ _ C _ _ P1).
      assert (Ap : ancestor (chain_get st) (c_tip st) p) by (apply (anc_parent st _ p); [exact P1|apply anc_refl]).
      assert (Low : forall a, ancestor (chain_get st) (c_tip st) a -> c_init st <= e_height a).
      { intros a Aa. destruct (Z_le_gt_dec (c_init st) (e_height a)) as [|G]; auto. exfalso.
        assert (X : ancestor (chain_get st) root a).
        { apply (anc_order _ _ _ _ _ _ _ _ _ _ C (c_tip st)); auto; try lia. apply (conn_par _ _ _ _ _ _ _ _ _ _ C _ Ct). }
        apply anc_inv in X as [->|(q & Hq & _)]; [lia|]. apply (k_forb _ _ _ _ _ _ _ _ _ _ C) in R3. congruence. }
      destruct (Z.ltb_spec (e_height p) 146) as [Lp|Lp].
      + specialize (Low p Ap). lia.
      + destruct P3 as (lst & a & fst & _ & B1 & (y & x & G1 & G2 & _) & _).
        assert (Ba : ancestor (chain_get st) (c_tip st) a) by (apply (anc_trans st _ p); [exact Ap|now exists 144%nat]).
        assert (Bx : ancestor (chain_get st) (c_tip st) x).
        { apply (anc_trans st _ a); auto. apply (anc_parent st _ y); auto. apply (anc_parent st _ x); auto. apply anc_refl. }
        destruct (back_spec _ _ _ _ _ _ _ _ _ _ C 144 p a (conn_par _ _ _ _ _ _ _ _ _ _ C _ Cp) B1) as [Ha _].
        destruct (anc_conn _ _ _ _ _ _ _ _ _ _ C _ _ Ct Ba) as [Ca _].
        pose proof (conn_par _ _ _ _ _ _ _ _ _ _ C _ Ca _ G1) as E1.
        pose proof (conn_par _ _ _ _ _ _ _ _ _ _ C _ (get_conn _ _ _ _ _ _ _ _ _ _ C _ _ G1) _ G2) as E2.
        specialize (Low x Bx). lia.
  Qed.

  (* ---------- orphans without siblings ---------- *)

  Definition registered (st : chain) : Prop :=
    forall k o, chain_get_orphan st k = Some o -> aget beq (h_prev o) (c_prevs st) = Some o.

  Lemma step_registered T F root low M now st h rc st' : inv T F root low M st -> step now st h rc st' -> registered st ->
    (rc = 26 -> forall k o, chain_get_orphan st k = Some o -> h_prev o <> h_prev h) -> registered st'.
  Proof.
    intros [C O] [[-> _]|[(Hrc & _ & _ & No & _ & ->)|(p & e & st1 & _ & _ & _ & _ & I & _ & Gr)]] Rg Ns; auto.
    - specialize (Ns Hrc). set (st1 := if 10000 <? zlen (c_orphans st) then with_orphans st [] [] else st).
      assert (X : forall k o, chain_get_orphan st1 k = Some o -> chain_get_orphan st k = Some o /\ aget beq (h_prev o) (c_prevs st1) = Some o).
      { intros k o H. unfold st1 in *. destruct (10000 <? zlen (c_orphans st)); [discriminate H|]. split; [exact H|exact (Rg _ _ H)]. }
      intros k o H. unfold chain_get_orphan in H. cbn [c_orphans c_prevs with_orphans] in *.
      destruct (beq k (hash h)) eqn:E.
      + apply beq_true_iff in E. subst k. rewrite bget_set_same in H. injection H as <-. apply bget_set_same.
      + apply beq_false_iff in E. rewrite bget_set_other in H by auto. apply X in H as [H1 H2].
        rewrite bget_set_other; auto. apply (Ns _ _ H1).
    - destruct I as (_ & _ & _ & (_ & _ & R3 & R4 & _) & _). intros k o H.
      pose proof (g_orph _ _ _ _ _ Gr _ _ H) as H1. unfold chain_get_orphan in H1. rewrite R3 in H1.
      destruct (o_orph _ _ _ _ _ _ O _ _ H1) as (-> & _).
      apply (g_waiting _ _ _ _ _ Gr); auto. rewrite R4. apply (Rg _ _ H1).
  Qed.

  Lemma registered_none T F root low M st : inv T F root low M st -> registered st ->
    forall k o, chain_get_orphan st k = Some o -> chain_get st (h_prev o) = None.
  Proof.
    intros [C O] Rg k o H. destruct (o_prev _ _ _ _ _ _ O _ _ (Rg _ _ H)) as (_ & _ & [X|X]); auto. discriminate X.
  Qed.

  Lemma step_orphans now st h rc st' : step now st h rc st' -> zlen (c_orphans st) <= 10001 -> zlen (c_orphans st') <= 10001.
  Proof.
    intros [[-> _]|[(_ & _ & _ & No & _ & ->)|(p & e & st1 & _ & _ & _ & _ & I & _ & Gr)]] L; auto.
    - cbn. destruct (Z.ltb_spec 10000 (zlen (c_orphans st))) as [E|E]; cbn [c_orphans with_orphans].
      + unfold zlen. cbn. lia.
      + unfold zlen in *. rewrite (aset_length_fresh beq beq_true_iff) by exact No. lia.
    - destruct I as (_ & _ & _ & (_ & _ & R3 & _) & _). pose proof (g_osize _ _ _ _ _ Gr) as X. rewrite R3 in X. lia.
  Qed.

  (* ---------- the name root for resolution ---------- *)

  Lemma safe_root_spec T F root low M st : core T F root low M st -> c_height st < 2 ^ 32 ->
    c_init st = 0 \/ c_init st + 11 <= c_height st ->
    exists e, safe_root N st = Ok (h_root (e_hdr e)) /\ ancestor (chain_get st) (c_tip st) e /\
      e_height e = (if c_height st mod n_interval N <? 12 then c_height st - c_height st mod n_interval N else c_height st).
  Proof.
    intros C Hb Hi. destruct NO as (_ & _ & _ & _ & [I1 I2] & _).
    assert (Ct := k_tip _ _ _ _ _ _ _ _ _ _ C). assert (Kh := k_height _ _ _ _ _ _ _ _ _ _ C).
    pose proof (height_nonneg _ _ _ _ _ _ _ _ _ _ C _ Ct) as P.
    destruct (k_root _ _ _ _ _ _ _ _ _ _ C) as (R1 & R2 & _). destruct (anc_conn _ _ _ _ _ _ _ _ _ _ C _ _ Ct R2) as [_ Hri].
    pose proof (Z.mod_pos_bound (c_height st) (n_interval N) I1) as B.
    pose proof (Z.mod_le (c_height st) (n_interval N) ltac:(lia) I1) as B2.
    unfold safe_root. change 4294967296 with (2 ^ 32). rewrite Z.mod_small by lia.
    set (m := c_height st mod n_interval N) in *.
    assert (X : exists i, c_height st - (if 12 <=? m then 0 else m) = i /\ c_init st <= i <= c_height st /\
      i = (if m <? 12 then c_height st - m else c_height st)).
    { eexists. split; [reflexivity|]. destruct (Z.leb_spec 12 m), (Z.ltb_spec m 12); lia. }
    destruct X as (i & -> & Hii & Ei). rewrite <- Ei.
    destruct (idx_get _ _ _ _ _ _ _ _ _ _ i C Hb Hii) as (e & -> & Ae & He). exists e. auto.
  Qed.

  (** The same root is already in a header at least 11 below the tip, if roots
      change only after interval boundaries. *)
  Lemma safe_root_settled T F root low M st : core T F root low M st -> c_height st < 2 ^ 32 ->
    12 <= n_interval N -> c_init st + n_interval N + 11 <= c_height st ->
    (forall a b, ancestor (chain_get st) (c_tip st) a -> ancestor (chain_get st) (c_tip st) b ->
       (e_height a - 1) / n_interval N = (e_height b - 1) / n_interval N -> h_root (e_hdr a) = h_root (e_hdr b)) ->
    exists e, safe_root N st = Ok (h_root (e_hdr e)) /\ ancestor (chain_get st) (c_tip st) e /\
      e_height e + 11 <= c_height st.
  Proof.
    intros C Hb HI Hi HC. destruct (safe_root_spec _ _ _ _ _ _ C Hb ltac:(lia)) as (e & E & Ae & He).
    assert (Ct := k_tip _ _ _ _ _ _ _ _ _ _ C). 
    destruct (k_root _ _ _ _ _ _ _ _ _ _ C) as (R1 & R2 & _). destruct (anc_conn _ _ _ _ _ _ _ _ _ _ C _ _ Ct R2) as [Cr Hri].
    pose proof (height_nonneg _ _ _ _ _ _ _ _ _ _ C _ Cr) as Pr.
    pose proof (Z.mod_pos_bound (c_height st) (n_interval N) ltac:(lia)) as B.
    pose proof (Z.div_mod (c_height st) (n_interval N) ltac:(lia)) as DM.
    set (q := c_height st / n_interval N) in *. set (m := c_height st mod n_interval N) in *. set (I := n_interval N) in *.
    assert (X : exists i, c_init st <= i /\ i + 11 <= c_height st /\ (e_height e - 1) / I = (i - 1) / I).
    { destruct (Z.ltb_spec m 12) as [L|L].
      - exists (c_height st - m - (I - 1)). split; [lia|]. split; [lia|].
        replace (e_height e - 1) with ((I - 1) + (q - 1) * I) by lia.
        replace (c_height st - m - (I - 1) - 1) with (0 + (q - 1) * I) by lia.
        rewrite !Z.div_add by lia. rewrite !Z.div_small; lia.
      - exists (c_height st - (m - 1)). split; [lia|]. split; [lia|].
        replace (e_height e - 1) with ((m - 1) + q * I) by lia.
        replace (c_height st - (m - 1) - 1) with (0 + q * I) by lia.
        rewrite !Z.div_add by lia. rewrite !Z.div_small; lia. }
    destruct X as (i & Xi1 & Xi2 & Xi3).
    destruct (idx_get _ _ _ _ _ _ _ _ _ _ i C Hb ltac:(lia)) as (a & _ & Aa & Ha).
    exists a. rewrite E. split; [|split; auto; lia]. f_equal. apply HC; auto. rewrite Ha. exact Xi3.
  Qed.

  (* ---------- writing and restoring a checkpoint ---------- *)

  Lemma work_inj a b : hash_ok a -> hash_ok b -> be_val a = be_val b -> a = b.
  Proof.
    intros [La Oa] [Lb Ob] E. rewrite <- (be_bytes_be_val a Oa), <- (be_bytes_be_val b Ob), La, Lb, E. reflexivity.
  Qed.

  Lemma restored_det w i hs es : restored hash w i hs es -> forall es', restored hash w i hs es' -> es = es'.
  Proof.
    induction 1 as [|w i h hs e es t E1 E2 E3 E4 E5 E6 R IH]; intros es' R'; inversion R' as [|? ? ? ? e' es'' t' F1 F2 F3 F4 F5 F6 R'']; subst; auto.
    assert (t' = t) by congruence. subst t'.
    assert (Ee : e = e').
    { destruct e as [a1 a2 a3 a4], e' as [b1 b2 b3 b4]. unfold work_val in *. cbn in *. subst.
      f_equal. apply work_inj; auto. unfold be_val. congruence. }
    subst e'. f_equal. now apply IH.
  Qed.

  (** Total work grows along the best chain (no overflow of 256 bits). *)
  Definition no_wrap (st : chain) : Prop :=
    forall e p, ancestor (chain_get st) (c_tip st) e -> chain_get st (e_prev e) = Some p -> work_val p < work_val e.

  Fixpoint increasing (w : Z) (es : list entry) : Prop :=
    match es with
    | [] => True
    | e :: r => w < work_val e /\ increasing (work_val e) r
    end.

  Lemma path_restored T F root low M st : core T F root low M st -> forall es prev,
    ancestor (chain_get st) (c_tip st) prev ->
    (forall i e, nth_error es i = Some e -> ancestor (chain_get st) (c_tip st) e /\ e_height e = e_height prev + 1 + Z.of_nat i) ->
    restored hash (work_val prev) (e_height prev + 1) (map e_hdr es) es /\
    chained hash (e_hash prev) (map e_hdr es) /\ (no_wrap st -> increasing (work_val prev) es).
  Proof.
    intros C. assert (Ct := k_tip _ _ _ _ _ _ _ _ _ _ C). assert (Pt := conn_par _ _ _ _ _ _ _ _ _ _ C _ Ct).
    induction es as [|e es IH]; intros prev Ap H; cbn [map chained increasing]; [split; [constructor|auto]|].
    destruct (H 0%nat e eq_refl) as [Ae He]. rewrite Z.add_0_r in He.
    destruct (anc_conn _ _ _ _ _ _ _ _ _ _ C _ _ Ct Ae) as [Ce _].
    destruct (conn_ok _ _ _ _ _ _ _ _ _ _ C _ Ce) as (Eh & Oh & Ow & _).
    assert (A : ancestor (chain_get st) e prev) by (apply (anc_order _ _ _ _ _ _ _ _ _ _ C (c_tip st)); auto; lia).
    apply anc_inv in A as [->|(p & Hp & App)]; [lia|].
    assert (p = prev).
    { pose proof (conn_par _ _ _ _ _ _ _ _ _ _ C _ Ce _ Hp) as X.
      apply anc_inv in App as [->|(q & Hq & Aq)]; auto. exfalso.
      pose proof (get_conn _ _ _ _ _ _ _ _ _ _ C _ _ Hp) as Cp.
      pose proof (conn_par _ _ _ _ _ _ _ _ _ _ C _ Cp _ Hq) as Y.
      destruct (anc_conn _ _ _ _ _ _ _ _ _ _ C _ _ (get_conn _ _ _ _ _ _ _ _ _ _ C _ _ Hq) Aq) as [_ Z]. lia. }
    subst p. destruct (k_work _ _ _ _ _ _ _ _ _ _ C _ _ Ce Hp) as (t & Et & Vt).
    destruct (IH e Ae) as (I1 & I2 & I3).
    { intros i x Hx. destruct (H (S i) x Hx) as [X1 X2]. split; auto. lia. }
    rewrite He in I1. split.
    - econstructor; eauto.
    - split; [|intros W; split; auto; apply (W e prev Ae Hp)]. split; [|rewrite <- Eh; exact I2].
      destruct (k_keys _ _ _ _ _ _ _ _ _ _ C _ _ Hp) as [X _]. exact X.
  Qed.

  Lemma work_step p own w : 0 <= p < 2 ^ 256 -> 0 <= own -> w = (p + own) mod 2 ^ 256 -> p < w -> own <= 2 ^ 256 ->
    w = p + own /\ p + own < 2 ^ 256.
  Proof.
    intros H1 H2 -> H3 H4. destruct (Z_lt_ge_dec (p + own) (2 ^ 256)) as [L|L].
    - rewrite Z.mod_small by lia. lia.
    - exfalso. assert (E : (p + own) mod 2 ^ 256 = (p + own - 2 ^ 256) mod 2 ^ 256).
      { rewrite <- (Z.mod_add (p + own - 2 ^ 256) 1) by lia. f_equal. lia. }
      rewrite E in H3. destruct (Z.eq_dec own (2 ^ 256)) as [->|Ne].
      + replace (p + 2 ^ 256 - 2 ^ 256) with p in H3 by lia. rewrite Z.mod_small in H3 by lia. lia.
      + rewrite Z.mod_small in H3 by lia. lia.
  Qed.

  Lemma work_of_le t : 0 <= t -> 0 <= work_of t <= 2 ^ 256.
  Proof.
    intros H. unfold work_of. split; [apply Z.div_pos; lia|]. apply Z.div_le_upper_bound; [lia|]. nia.
  Qed.

  Lemma restored_sum w i hs es : restored hash w i hs es -> Forall hdr_ok hs -> 0 <= w < 2 ^ 256 -> increasing w es ->
    w + sum_work hs < 2 ^ 256.
  Proof.
    induction 1 as [w i|w i h hs e es t E1 E2 E3 E4 E5 E6 R IH]; intros Fo Hw Inc; [cbn; lia|].
    inversion Fo as [|? ? Oh Fo']; subst. destruct Inc as [X Inc].
    cbn [sum_work fold_right]. fold (sum_work hs). unfold own_work. rewrite E5.
    assert (T0 : 0 <= be_val t).
    { destruct (target_hash_ok (h_bits (e_hdr e)) t) as [_ Ob]; auto. { apply Oh. } pose proof (be_val_bounds t Ob). lia. }
    destruct (work_of_le (be_val t) T0) as [W1 W2].
    destruct (work_step w (work_of (be_val t)) (work_val e) Hw W1 E6 X W2) as [Y1 Y2].
    assert (Z : work_val e + sum_work hs < 2 ^ 256); [|lia].
    apply IH; auto. lia.
  Qed.

  Lemma genesis_same st : started st -> forall g now pre, chain_init B256 B512 S3 N now pre = Ok g -> c_genesis st = c_tip g.
  Proof.
    induction 1 as [now' pre' st E Hp|st0 pre' height work hs rest now' st S IH Ft E]; intros g now pre Eg.
    - unfold chain_init in *. destruct (hdr_decode (n_genesis N)) as [h|]; [|discriminate].
      destruct (calc_work (h_bits h) None) as [w|]; [|discriminate].
      apply Ok_inj in E, Eg. subst. reflexivity.
    - destruct (started_inv st0 S) as (T & F & root & low & M & SI).
      destruct (inject_spec now' pre' st0 T F root low M height work hs rest SI Ft)
        as (st' & es & T' & F' & root' & low' & M' & E' & _ & _ & _ & _ & _ & Eg' & _).
      rewrite E in E'. apply Ok_inj in E'. subst st'. rewrite Eg'. eapply IH; eauto.
  Qed.

  Lemma anc_work T F root low M st : core T F root low M st -> no_wrap st -> forall n e a,
    ancestor (chain_get st) (c_tip st) e -> back (chain_get st) n e a -> work_val a <= work_val e.
  Proof.
    intros C W. induction n as [|n IH]; intros e a Ae B; inversion B as [|? ? p ? Hp Hb]; subst; [lia|].
    pose proof (W e p Ae Hp). specialize (IH p a). 
    assert (ancestor (chain_get st) (c_tip st) p).
    { apply (anc_trans st _ e); auto. apply (anc_parent st _ p); auto. apply anc_refl. }
    specialize (IH H0 Hb). lia.
  Qed.

  Lemma map_nth_error_inv {A B} (f : A -> B) l i y : nth_error (map f l) i = Some y -> exists x, nth_error l i = Some x /\ f x = y.
  Proof.
    revert i. induction l as [|x l IH]; intros [|i] H; cbn in *; try discriminate; eauto.
    injection H as <-. eauto.
  Qed.

  (** A checkpoint taken from any history fits a fresh genesis chain. *)
  Lemma checkpoint_fits T F root low M st0 ops st g now pre prev es : start_inv T F root low M st0 ->
    started st0 -> run st0 ops st -> admissible st0 ops -> c_height st < 2 ^ 32 ->
    c_height st mod n_window N = 0 -> n_window N < c_height st - c_init st -> no_wrap st ->
    chain_init B256 B512 S3 N now pre = Ok g -> chain_get g (e_prev (c_tip g)) = None ->
    length es = 150%nat -> ancestor (chain_get st) (c_tip st) prev -> e_height prev = c_height st - n_window N - 1 ->
    (forall i e, nth_error es i = Some e ->
       ancestor (chain_get st) (c_tip st) e /\ e_height e = c_height st - n_window N + Z.of_nat i) ->
    fits hash g (c_height st - n_window N) (e_work prev) (map e_hdr es) /\
    restored hash (work_val prev) (c_height st - n_window N) (map e_hdr es) es.
  Proof.
    intros SI St0 R A Hb Hm Hw NW Eg Hg Le Ap Hpv Hes.
    destruct (run_inv _ _ _ _ _ _ _ _ SI R A) as ((C & _) & _ & Keep & Ei & Egn).
    assert (Ct := k_tip _ _ _ _ _ _ _ _ _ _ C). assert (Pt := conn_par _ _ _ _ _ _ _ _ _ _ C _ Ct).
    destruct (genesis_start now pre g Eg Hg) as (SG & Ig & Dg).
    destruct SG as (CG & _ & _ & HTg & _ & _ & _ & _ & _ & _ & _ & _).
    pose proof (genesis_same st0 St0 g now pre Eg) as GS.
    destruct SI as (C0 & _ & _ & _ & _ & HM & (G1 & G2) & _ & _ & _ & _ & GW).
    assert (Cgen : conn st (c_tip g)) by (rewrite <- GS; apply Keep; exact G1).
    assert (Hgen : e_height (c_tip g) = 0) by (rewrite <- GS; exact G2).
    destruct NO as (_ & _ & _ & [W1 W2] & _).
    destruct (k_root _ _ _ _ _ _ _ _ _ _ C) as (R1 & R2 & R3).
    destruct (anc_conn _ _ _ _ _ _ _ _ _ _ C _ _ Ct R2) as [Cr _]. pose proof (height_nonneg _ _ _ _ _ _ _ _ _ _ C _ Cr) as P.
    assert (Hh : n_window N <= c_height st - n_window N).
    { pose proof (Z.div_mod (c_height st) (n_window N) ltac:(lia)) as DM. rewrite Hm in DM.
      assert (2 <= c_height st / n_window N); [|nia]. 
      destruct (Z_le_gt_dec 2 (c_height st / n_window N)); auto. exfalso. nia. }
    destruct (path_restored _ _ _ _ _ _ C es prev Ap) as (Rs & Ch & Inc).
    { intros i e Hi. destruct (Hes i e Hi) as [X1 X2]. split; auto. lia. }
    rewrite Hpv in Rs. replace (c_height st - n_window N - 1 + 1) with (c_height st - n_window N) in Rs by lia.
    split; auto. specialize (Inc NW).
    assert (Ces : forall e, In e es -> conn st e /\ c_height st - n_window N <= e_height e).
    { intros e He. apply In_nth_error in He as [i Hi]. destruct (Hes i e Hi) as [X1 X2].
      destruct (anc_conn _ _ _ _ _ _ _ _ _ _ C _ _ Ct X1). split; auto. lia. }
    destruct (anc_conn _ _ _ _ _ _ _ _ _ _ C _ _ Ct Ap) as [Cpv _].
    destruct (conn_ok _ _ _ _ _ _ _ _ _ _ C _ Cpv) as (Hpvh & _ & Owp & _).
    assert (Hash : forall e, In e es -> hash (e_hdr e) = e_hash e).
    { intros e He. destruct (conn_ok _ _ _ _ _ _ _ _ _ _ C _ (proj1 (Ces e He))) as (X & _). auto. }
    assert (Gg : forall k e, chain_get g k = Some e -> e = c_tip g /\ k = e_hash (c_tip g)).
    { intros k e H. destruct (k_keys _ _ _ _ _ _ _ _ _ _ CG _ _ H) as [-> _].
      assert (conn g e) by exact H. apply HTg in H0 as [<-|[]]. auto. }
    assert (Other : forall e, conn st e -> 0 < e_height e -> chain_get g (e_hash e) = None).
    { intros e Ce He. destruct (chain_get g (e_hash e)) as [x|] eqn:E; auto. exfalso. apply Gg in E as [_ E].
      pose proof (conn_eq _ _ _ Ce Cgen E). subst e. lia. }
    assert (Fst : forall h r, map e_hdr es = h :: r -> h_prev h = e_hash prev).
    { intros h r E. rewrite E in Ch. apply Ch. }
    assert (Dif : ~ In (e_hash prev) (map hash (map e_hdr es))).
    { intros Hin. rewrite map_map in Hin. apply in_map_iff in Hin as (e & E & He). rewrite Hash in E by auto.
      destruct (Ces e He) as [Ce Hge]. pose proof (conn_eq _ _ _ Ce Cpv E). subst e. lia. }
    constructor.
    - now rewrite map_length.
    - exact Owp.
    - apply Forall_forall. intros h Hin. apply in_map_iff in Hin as (e & <- & He).
      destruct (Ces e He) as [Ce Hge]. destruct (conn_ok _ _ _ _ _ _ _ _ _ _ C _ Ce) as (_ & X1 & _ & _ & X2).
      split; auto. split; auto.
      assert (Ae : ancestor (chain_get st) (c_tip st) e).
      { apply In_nth_error in He as [i Hi]. apply (Hes i e Hi). }
      assert (Ax : ancestor (chain_get st) e prev) by (apply (anc_order _ _ _ _ _ _ _ _ _ _ C (c_tip st)); auto; lia).
      apply anc_inv in Ax as [->|(p & Hp & _)]; [lia|].
      destruct (k_work _ _ _ _ _ _ _ _ _ _ C _ _ Ce Hp) as (t & Et & _). eauto.
    - rewrite (k_height _ _ _ _ _ _ _ _ _ _ CG), Hgen. lia.
    - destruct (map e_hdr es) as [|h r] eqn:E; auto. rewrite (Fst h r eq_refl). exact Ch.
    - rewrite map_map. apply NoDup_nth_error. intros i j Hi Hj.
      rewrite map_length in Hi. destruct (nth_error es i) as [a|] eqn:Ea; [|apply nth_error_None in Ea; lia].
      rewrite (map_nth_error _ _ _ Ea) in Hj. symmetry in Hj. apply map_nth_error_inv in Hj as (b & Eb & Hab).
      pose proof (nth_error_In _ _ Ea) as Ia. pose proof (nth_error_In _ _ Eb) as Ib.
      rewrite !Hash in Hab by auto. pose proof (conn_eq _ _ _ (proj1 (Ces b Ib)) (proj1 (Ces a Ia)) Hab). subst b.
      destruct (Hes _ _ Ea) as [_ X]. destruct (Hes _ _ Eb) as [_ Y]. lia.
    - intros h Hin. apply in_map_iff in Hin as (e & <- & He). rewrite Hash by auto.
      destruct (Ces e He). apply Other; auto. lia.
    - intros h r E. rewrite (Fst h r E). split; auto. apply Other; auto. lia.
    - intros e h [Be _] Hin E. apply in_map_iff in Hin as (x & <- & Hx). rewrite Hash in E by auto.
      assert (e = c_tip g) by (apply (Gg (e_hash e)); exact Be). subst e.
      destruct (Ces x Hx) as [Cx _]. unfold conn in Cx. rewrite E in Cx.
      destruct (k_par _ _ _ _ _ _ _ _ _ _ C _ Cgen) as [(p & Hp & HH)|[HF _]].
      + pose proof (height_nonneg _ _ _ _ _ _ _ _ _ _ C p (get_conn _ _ _ _ _ _ _ _ _ _ C _ _ Hp)). lia.
      + apply (k_forb _ _ _ _ _ _ _ _ _ _ C) in HF. congruence.
    - fold (work_val prev). split.
      + rewrite <- GS. assert (ancestor (chain_get st) prev root) as [n B].
        { apply (anc_order _ _ _ _ _ _ _ _ _ _ C (c_tip st)); auto. lia. }
        pose proof (anc_work _ _ _ _ _ _ C NW n prev root Ap B). lia.
      + apply (restored_sum _ _ _ _ Rs); auto.
        * apply Forall_forall. intros h Hin. apply in_map_iff in Hin as (e & <- & He).
          destruct (conn_ok _ _ _ _ _ _ _ _ _ _ C _ (proj1 (Ces e He))) as (_ & X1 & _). exact X1.
        * destruct Owp as [Lp Op]. pose proof (be_val_bounds _ Op) as X. unfold zlen in X. rewrite Lp in X. exact X.
  Qed.
End Run.

(* ---------- block locators ---------- *)

Section Locator.
  Variable get : Z -> option entry.
  Variable H : Z.
  Hypothesis HH : 0 <= H < 2 ^ 32.
  Hypothesis G0 : get 0 <> None.

  Lemma locator_spec : forall fuel height step i acc, 0 <= height <= Z.of_nat fuel -> 1 <= i <= 63 -> 1 <= step ->
    (i <= 10 -> step = 1) -> (11 <= i -> 2 ^ (i - 11) <= step) -> (0 < height -> height + step - 1 <= H) ->
    exists hs xs, locator_loop fuel get height step i acc = Ok (rev acc ++ xs) /\
      Forall2 (fun h x => exists e, get h = Some e /\ e_hash e = x) hs xs /\
      StronglySorted Z.gt (height :: hs) /\ last (height :: hs) 0 = 0 /\ Forall (fun h => 0 <= h) hs /\
      i + zlen xs <= 64.
  Proof.
    induction fuel as [|fuel IH]; intros height step i acc Hf Hi Hs S1 S2 S3; cbn [locator_loop].
    - destruct (Z.leb_spec height 0); [|lia]. exists [], []. rewrite app_nil_r. split; auto. split; [constructor|].
      split; [repeat constructor|]. split; [cbn; lia|]. split; [constructor|]. unfold zlen. cbn. lia.
    - destruct (Z.leb_spec height 0) as [L|L].
      { exists [], []. rewrite app_nil_r. split; auto. split; [constructor|].
        split; [repeat constructor|]. split; [cbn; lia|]. split; [constructor|]. unfold zlen. cbn. lia. }
      set (h2 := if height - step <? 0 then 0 else height - step).
      assert (Hh2 : 0 <= h2 < height /\ (0 < h2 -> h2 = height - step)).
      { unfold h2. destruct (Z.ltb_spec (height - step) 0); lia. }
      destruct (Z.eqb_spec i (64 * 32 - 1)); [lia|].
      set (step' := if 10 <? i then step * 2 else step).
      assert (Hs' : 1 <= step' /\ (i <= 10 -> step' = step) /\ (11 <= i -> step' = step * 2)).
      { unfold step'. destruct (Z.ltb_spec 10 i); lia. }
      assert (Hb : i <= 43).
      { destruct (Z_le_gt_dec i 43) as [|G]; auto. exfalso.
        assert (2 ^ 33 <= 2 ^ (i - 11)) by (apply Z.pow_le_mono_r; lia). specialize (S2 ltac:(lia)). lia. }
      destruct (get h2) as [e|] eqn:Eg.
      + destruct (Z.leb_spec 64 i); [lia|].
        destruct (IH h2 step' (i + 1) (e_hash e :: acc)) as (hs & xs & E & F2 & Srt & Ls & Nn & Ln); try lia.
        { intros Hi'. replace (i + 1 - 11) with (i - 11 + 1) by lia. destruct (Z.eq_dec i 10) as [->|Ne].
          - change (10 - 11 + 1) with 0. change (2 ^ 0) with 1. lia.
          - rewrite Z.pow_add_r by lia. change (2 ^ 1) with 2. specialize (S2 ltac:(lia)). lia. }
        exists (h2 :: hs), (e_hash e :: xs). rewrite E. split; [cbn [rev]; now rewrite <- app_assoc|].
        split; [constructor; eauto|]. split; [|split; [|split]].
        * constructor; auto. apply StronglySorted_inv in Srt as [Srt Fa]. constructor; [lia|].
          eapply Forall_impl; [|exact Fa]. intros; lia.
        * exact Ls.
        * constructor; auto. lia.
        * unfold zlen in *. cbn [length]. lia.
      + destruct (Z.eq_dec h2 0) as [X|X]; [rewrite X in Eg; congruence|].
        destruct (IH h2 step' i acc) as (hs & xs & E & F2 & Srt & Ls & Nn & Ln); try lia.
        exists hs, xs. split; auto. split; auto. apply StronglySorted_inv in Srt as [Srt Fa].
        split; [|split; [|split]]; auto.
        * constructor; auto. eapply Forall_impl; [|exact Fa]. intros; lia.
        * destruct hs as [|y hs]; [cbn in Ls; lia|]. exact Ls.
  Qed.
End Locator.
