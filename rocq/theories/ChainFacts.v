(** Proofs about the header chain model. *)
From Coq Require Import Permutation Sorted.
From Verif Require Import Common CommonFacts Assoc AssocFacts BioModel BioFacts BnModel BnSpec BnFacts
  HeaderModel HeaderSpec HeaderFacts ChainModel ChainSpec.

(* ---------- sorting and integers ---------- *)

Lemma to_i64_small t : 0 <= t < 2 ^ 63 -> to_i64 t = t.
Proof.
  intros H. unfold to_i64. rewrite Z.mod_small by lia. destruct (Z.ltb_spec t (2^63)); lia.
Qed.
Lemma to_i64_diff a b : 0 <= a < 2 ^ 63 -> 0 <= b < 2 ^ 63 -> to_i64 (a - b) = a - b.
Proof.
  intros Ha Hb. unfold to_i64. change (2^63) with 9223372036854775808 in *.
  change (2^64) with 18446744073709551616 in *.
  destruct (Z.ltb_spec ((a - b) mod 18446744073709551616) 9223372036854775808); lia.
Qed.

Lemma insert_sorted_perm x l : Permutation (x :: l) (insert_sorted x l).
Proof.
  induction l as [|y l IH]; cbn; auto. destruct (x <=? y); auto.
  eapply perm_trans; [apply perm_swap|]. now apply perm_skip.
Qed.
Lemma sort_times_perm l : Permutation l (sort_times l).
Proof.
  induction l as [|x l IH]; cbn; auto. eapply perm_trans; [|apply insert_sorted_perm]. now apply perm_skip.
Qed.
Lemma insert_sorted_sorted x l : Sorted Z.le l -> Sorted Z.le (insert_sorted x l).
Proof.
  induction l as [|y l IH]; intros S; cbn; [repeat constructor|].
  destruct (Z.leb_spec x y).
  - constructor; auto.
  - inversion S as [|? ? S1 S2]; subst. specialize (IH S1). constructor; auto.
    destruct l as [|z l]; cbn in *; [constructor; lia|].
    destruct (x <=? z); constructor; try lia. inversion S2; subst; auto.
Qed.
Lemma sort_times_sorted l : Sorted Z.le (sort_times l).
Proof. induction l as [|x l IH]; cbn; [constructor|]. now apply insert_sorted_sorted. Qed.

(* ---------- ancestors ---------- *)

Section Back.
  Variable get : list Z -> option entry.

  Lemma back_trans n : forall m e a b, back get n e a -> back get m a b -> back get (n + m) e b.
  Proof.
    induction n as [|n IH]; intros m e a b H1 H2; inversion H1; subst; auto.
    cbn. econstructor; eauto.
  Qed.
  Lemma back_det n : forall e a b, back get n e a -> back get n e b -> a = b.
  Proof.
    induction n as [|n IH]; intros e a b H1 H2; inversion H1; inversion H2; subst; auto.
    match goal with E1 : get ?k = Some ?p, E2 : get ?k = Some ?q |- _ => rewrite E1 in E2; injection E2 as <- end.
    eauto.
  Qed.
  Lemma back_split n : forall m e a b, back get n e a -> back get (n + m) e b -> back get m a b.
  Proof.
    induction n as [|n IH]; intros m e a b H1 H2; inversion H1; subst; auto.
    cbn in H2. inversion H2; subst.
    match goal with E1 : get ?k = Some ?p, E2 : get ?k = Some ?q |- _ => rewrite E1 in E2; injection E2 as <- end.
    eauto.
  Qed.
  Lemma back_prefix n : forall m e b, back get (n + m) e b -> exists a, back get n e a /\ back get m a b.
  Proof.
    induction n as [|n IH]; intros m e b H.
    - exists e. split; auto. constructor.
    - cbn in H. inversion H as [|? ? p ? Hp Hb]; subst. destruct (IH _ _ _ Hb) as (a & H4 & H5). exists a. split; auto. econstructor; eauto.
  Qed.
  Lemma back_snoc n e a p : back get n e a -> get (e_prev a) = Some p -> back get (S n) e p.
  Proof. intros H E. rewrite <- Nat.add_1_r. eapply back_trans; eauto. econstructor; eauto. constructor. Qed.
End Back.

Lemma back_mono (get get' : list Z -> option entry) : (forall k v, get k = Some v -> get' k = Some v) ->
  forall n e a, back get n e a -> back get' n e a.
Proof. intros H n. induction n; intros e a B; inversion B; subst; [constructor|econstructor; eauto]. Qed.

  Lemma retarget_tail N q ta : 0 < q -> 0 <= be_val (n_limit N) < 2 ^ 256 -> bytes_ok ta -> length ta = (4 * 8)%nat ->
    be_val ta = ((2 ^ 256 / q - 1) mod 2 ^ 512) mod 2 ^ 256 ->
    (if 0 <? (if be_val (n_limit N) <? (2 ^ 256 / q - 1) mod 2 ^ 512 then 1
              else if (2 ^ 256 / q - 1) mod 2 ^ 512 <? be_val (n_limit N) then -1 else 0)
     then Ok (n_bits N) else Ok (pow_to_bits ta)) =
    Ok (if (2 ^ 256 / q - 1 <? 0) || (be_val (n_limit N) <? 2 ^ 256 / q - 1) then n_bits N
        else pow_to_bits (be_bytes 32 (2 ^ 256 / q - 1))).
  Proof.
    intros Qp Bl Oa La Va.
    assert (Bm : 0 <= 2 ^ 256 / q <= 2 ^ 256).
    { split; [apply Z.div_pos; [discriminate|lia]|]. apply Z.div_le_upper_bound; [lia|].
      assert (P : 0 <= 2 ^ 256) by discriminate. clear - P Qp. nia. }
    assert (P1 : 2 ^ 256 < 2 ^ 512) by reflexivity.
    set (d := 2 ^ 256 / q) in *. clearbody d. clear Qp.
    remember (2 ^ 256) as p256' eqn:E1. remember (2 ^ 512) as p512' eqn:E2. clear E1 E2.
    remember (be_val (n_limit N)) as lim eqn:E3. clear E3.
    destruct (Z.ltb_spec (d - 1) 0) as [Ng|Ps].
    - assert (X : (d - 1) mod p512' = p512' - 1) by (symmetry; apply Z.mod_unique with (-1); lia).
      rewrite X. destruct (Z.ltb_spec lim (p512' - 1)); [|lia]. reflexivity.
    - rewrite (Z.mod_small (d - 1) p512') in * by lia.
      destruct (Z.ltb_spec lim (d - 1)); [reflexivity|].
      replace (0 <? (if d - 1 <? lim then -1 else 0)) with false by (destruct (d - 1 <? lim); reflexivity).
      cbn [orb]. f_equal. f_equal.
      rewrite <- (be_bytes_be_val ta) by auto.
      rewrite La, Va. rewrite Z.mod_small by lia. reflexivity.
  Qed.

(* ---------- invariant ---------- *)

Section Facts.
  Variable B256 B512 S3 : list Z -> list Z.
  Hypothesis b256 : forall x, length (B256 x) = 32%nat /\ bytes_ok (B256 x).
  Variable N : net.
  Hypothesis NO : net_ok N.
  Local Notation hash := (hdr_hash B256 B512 S3).
  Local Notation pow := (verify_pow B256 B512 S3).

  Definition entry_ok (e : entry) : Prop :=
    e_hash e = hash (e_hdr e) /\ hdr_ok (e_hdr e) /\ hash_ok (e_work e) /\ 0 <= e_height e /\ e_time e < 2 ^ 63.

  Record core (T : list entry) (F : list (list Z)) (root : entry) (low : Z -> option entry) (M : Z)
      (st : chain) : Prop := {
    k_keys : forall k e, chain_get st k = Some e -> k = e_hash e /\ entry_ok e;
    k_par : forall e, conn st e ->
      (exists p, chain_get st (e_prev e) = Some p /\ e_height e = e_height p + 1) \/ (In (e_prev e) F /\ In e T);
    k_forb : forall k, In k F -> chain_get st k = None;
    k_rules : forall e, conn st e -> In e T \/ rules hash N (chain_get st) e;
    k_tip : conn st (c_tip st);
    k_height : c_height st = e_height (c_tip st);
    k_max : forall e, conn st e -> work_val e <= work_val (c_tip st);
    k_root : e_height root = c_init st /\ ancestor (chain_get st) (c_tip st) root /\ In (e_prev root) F;
    k_idx : forall h e, c_init st <= h ->
      (aget Z.eqb h (c_heights st) = Some e <-> ancestor (chain_get st) (c_tip st) e /\ e_height e = h);
    k_low : forall h, h < c_init st -> aget Z.eqb h (c_heights st) = low h;
    k_bound : forall e, conn st e -> e_height e < M + zlen (c_hashes st);
    k_work : forall e p, conn st e -> chain_get st (e_prev e) = Some p -> exists t,
      pow_to_target (h_bits (e_hdr e)) = Some t /\ work_val e = (work_val p + work_of (be_val t)) mod 2 ^ 256 }.

  (** The lookups reachable from a header [e] (connected or about to be). *)
  Definition par_ok (st : chain) (e : entry) : Prop :=
    forall p, chain_get st (e_prev e) = Some p -> e_height e = e_height p + 1.

  Section Inv.
    Variables (T : list entry) (F : list (list Z)) (root : entry) (low : Z -> option entry) (M : Z) (st : chain).
    Hypothesis C : core T F root low M st.
    Local Notation get := (chain_get st).

    Lemma get_conn k e : get k = Some e -> conn st e.
    Proof. intros E. destruct (k_keys _ _ _ _ _ _ C _ _ E) as [-> _]. exact E. Qed.
    Lemma conn_ok e : conn st e -> entry_ok e.
    Proof. intros E. exact (proj2 (k_keys _ _ _ _ _ _ C _ _ E)). Qed.
    Lemma conn_par e : conn st e -> par_ok st e.
    Proof.
      intros E p Hp. destruct (k_par _ _ _ _ _ _ C e E) as [(q & Hq & H)|[H _]].
      - rewrite Hp in Hq. injection Hq as <-. exact H.
      - apply (k_forb _ _ _ _ _ _ C) in H. congruence.
    Qed.
    Lemma conn_eq e f : conn st e -> conn st f -> e_hash e = e_hash f -> e = f.
    Proof. unfold conn. intros H1 H2 E. rewrite E, H2 in H1. congruence. Qed.

    Lemma back_spec n : forall e a, par_ok st e -> back get n e a ->
      e_height a = e_height e - Z.of_nat n /\ (a = e \/ conn st a).
    Proof.
      induction n as [|n IH]; intros e a P B; inversion B as [|? ? p ? Hp Hb]; subst.
      - split; auto. lia.
      - pose proof (get_conn _ _ Hp) as Cp. destruct (IH _ _ (conn_par _ Cp) Hb) as [H1 H2].
        rewrite (P _ Hp). split; [lia|]. destruct H2 as [->|]; auto.
    Qed.
    Lemma back_conn n e a : conn st e -> back get n e a -> conn st a /\ e_height a = e_height e - Z.of_nat n.
    Proof.
      intros H B. destruct (back_spec n e a (conn_par _ H) B) as [H1 [->|H2]]; auto.
    Qed.
    Lemma anc_conn e a : conn st e -> ancestor get e a -> conn st a /\ e_height a <= e_height e.
    Proof. intros H [n B]. destruct (back_conn n e a H B). split; auto. lia. Qed.

    (** Two ancestors: the lower one is an ancestor of the higher one. *)
    Lemma anc_order e a b : par_ok st e -> ancestor get e a -> ancestor get e b -> e_height b <= e_height a ->
      ancestor get a b.
    Proof.
      intros H [n Bn] [m Bm] L. destruct (back_spec n e a H Bn) as [H1 _]. destruct (back_spec m e b H Bm) as [H2 _].
      exists (m - n)%nat. eapply back_split; eauto. replace (n + (m - n))%nat with m by lia. exact Bm.
    Qed.
    Lemma anc_same_height e a b : par_ok st e -> ancestor get e a -> ancestor get e b -> e_height b = e_height a -> a = b.
    Proof.
      intros H [n Bn] [m Bm] L. destruct (back_spec n e a H Bn) as [H1 _]. destruct (back_spec m e b H Bm) as [H2 _].
      assert (n = m) by lia. subst. eapply back_det; eauto.
    Qed.
    Lemma anc_trans e a b : ancestor get e a -> ancestor get a b -> ancestor get e b.
    Proof. intros [n Bn] [m Bm]. exists (n + m)%nat. eapply back_trans; eauto. Qed.
    Lemma anc_refl e : ancestor get e e.
    Proof. exists 0%nat. constructor. Qed.
    Lemma anc_parent e p a : get (e_prev e) = Some p -> ancestor get p a -> ancestor get e a.
    Proof. intros Hp [n B]. exists (S n). econstructor; eauto. Qed.
    Lemma anc_inv e a : ancestor get e a -> a = e \/ exists p, get (e_prev e) = Some p /\ ancestor get p a.
    Proof.
      intros [n B]. inversion B as [|m ? p ? Hp Hb]; subst; auto. right. exists p. split; auto. exists m. exact Hb.
    Qed.

    (** Every height between an ancestor and [e] is the height of an ancestor. *)
    Lemma anc_at e a h : par_ok st e -> ancestor get e a -> e_height a <= h <= e_height e ->
      exists b, ancestor get e b /\ e_height b = h.
    Proof.
      intros H [n B] L. destruct (back_spec n e a H B) as [H1 _].
      assert (X : n = (Z.to_nat (e_height e - h) + Z.to_nat (h - e_height a))%nat) by lia.
      rewrite X in B. destruct (back_prefix _ _ _ _ _ B) as (b & B1 & B2).
      exists b. split; [eexists; eauto|]. destruct (back_spec _ e b H B1) as [H2 _]. lia.
    Qed.

    Lemma height_nonneg e : conn st e -> 0 <= e_height e.
    Proof. intros H. apply conn_ok in H. apply H. Qed.

    (* ---- median time ---- *)

    Lemma mtp_times_spec n : forall e, conn st e ->
      last_times get n e (mtp_times n (c_hashes st) (Some e)).
    Proof.
      induction n as [|n IH]; intros e H; [constructor|].
      cbn [mtp_times]. destruct (conn_ok _ H) as (_ & Ho & _ & _ & Ht).
      rewrite to_i64_small. 2:{ split; auto. apply Ho. }
      change (aget beq (e_prev e) (c_hashes st)) with (get (e_prev e)).
      destruct (get (e_prev e)) as [p|] eqn:Hp.
      - econstructor; eauto. apply IH. eapply get_conn; eauto.
      - replace (mtp_times n (c_hashes st) None) with (@nil Z) by (destruct n; reflexivity). now constructor.
    Qed.
    Lemma mtp_spec e : conn st e -> exists l, last_times get 11 e l /\ median l (get_mtp (c_hashes st) e).
    Proof.
      intros H. exists (mtp_times 11 (c_hashes st) (Some e)). split; [now apply mtp_times_spec|].
      unfold get_mtp. set (l := mtp_times 11 _ _).
      assert (L : (0 < length l)%nat) by (subst l; cbn; lia).
      exists (sort_times l). split; [apply sort_times_perm|]. split; [apply sort_times_sorted|].
      rewrite Nat.div2_div. apply nth_error_nth'.
      rewrite <- (Permutation_length (sort_times_perm l)). apply Nat.div_lt; lia.
    Qed.

    (* ---- difficulty ---- *)

    Ltac pick3 :=
      first
        [ left; split; [lia|reflexivity]
        | right; left; split; [lia|split; [lia|first [left; split; [lia|reflexivity]|right; split; [lia|reflexivity]]]]
        | right; right; split; [lia|split; [lia|first [left; split; [lia|reflexivity]|right; split; [lia|reflexivity]]]] ].

    Lemma suitable_block_spec e :
      match suitable_block (c_hashes st) e with
      | Ok r => suitable get e r
      | Abort => get (e_prev e) = None \/ exists y, get (e_prev e) = Some y /\ get (e_prev y) = None
      | _ => False
      end.
    Proof.
      unfold suitable_block. change (aget beq (e_prev e) (c_hashes st)) with (get (e_prev e)).
      destruct (get (e_prev e)) as [y|] eqn:Hy; [|auto].
      change (aget beq (e_prev y) (c_hashes st)) with (get (e_prev y)).
      destruct (get (e_prev y)) as [x|] eqn:Hx; [|eauto].
      assert (X : forall r, middle_of_3 x y e r -> suitable get e r) by (intros r Hr; exists y, x; auto).
      destruct (Z.ltb_spec (e_time e) (e_time x)); cbn;
      match goal with |- context [?a <? ?b] => destruct (Z.ltb_spec a b) end; cbn;
      match goal with |- context [?a <? ?b] => destruct (Z.ltb_spec a b) end; apply X; unfold middle_of_3; pick3.
    Qed.

    Lemma ancestor_loop_spec : forall n e h, conn st e -> h + Z.of_nat n = e_height e ->
      match ancestor_loop n (c_hashes st) e h with
      | Ok a => back get n e a
      | Abort => exists k b, (k < n)%nat /\ back get k e b /\ get (e_prev b) = None
      | _ => False
      end.
    Proof.
      induction n as [|n IH]; intros e h H L.
      - cbn [ancestor_loop]. destruct (Z.eqb_spec (e_height e) h); [constructor|lia].
      - cbn [ancestor_loop]. destruct (Z.eqb_spec (e_height e) h); [lia|].
        change (aget beq (e_prev e) (c_hashes st)) with (get (e_prev e)).
        destruct (get (e_prev e)) as [p|] eqn:Hp.
        + pose proof (get_conn _ _ Hp) as Cp. pose proof (conn_par _ H _ Hp) as Hh.
          specialize (IH p h Cp ltac:(lia)). destruct (ancestor_loop n (c_hashes st) p h); auto.
          * econstructor; eauto.
          * destruct IH as (k & b & Hk & Hb & Hn). exists (S k), b. split; [lia|]. split; auto. econstructor; eauto.
        + exists 0%nat, e. split; [lia|]. split; auto. constructor.
    Qed.
  End Inv.

  Lemma retarget_spec first last : hash_ok (e_work first) -> hash_ok (e_work last) ->
    e_height first <= e_height last ->
    retarget N first last =
      Ok (retarget_rule N (work_val first) (work_val last) (to_i64 (e_time last - e_time first))).
  Proof.
    intros [Lf Of] [Ll Ol] Hh. unfold retarget. destruct (Z.ltb_spec (e_height last) (e_height first)); [lia|].
    destruct (from_array_spec (e_work first) 8) as (bf & Ef & Obf & Vf); auto; try lia.
    destruct (from_array_spec (e_work last) 8) as (bl & El & Obl & Vl); auto; try lia.
    destruct NO as ([Lli Oli] & _).
    destruct (from_array_spec (n_limit N) 8) as (bm & Em & Obm & Vm); auto; try lia.
    rewrite Ef, El, Em.
    set (span := to_i64 (e_time last - e_time first)).
    assert (SP : (if max_actual <? (if span <? min_actual then min_actual else span)
                  then max_actual else (if span <? min_actual then min_actual else span)) = clamp_span span).
    { unfold clamp_span, min_actual, max_actual. change (144 * 600 / 4) with 21600. change (144 * 600 * 4) with 345600.
      destruct (Z.ltb_spec span 21600); [destruct (Z.ltb_spec 345600 21600)|destruct (Z.ltb_spec 345600 span)]; lia. }
    rewrite SP. assert (CS : 21600 <= clamp_span span <= 345600) by (unfold clamp_span; lia).
    destruct (sub_spec bl bf Obl Obf) as [O1 V1].
    destruct (mul_spec _ _ O1 (from_int_ok target_spacing)) as [O2 V2].
    rewrite from_int_val in V2 by (unfold target_spacing; lia).
    destruct (div_spec _ (bn_from_int (clamp_span span)) O2 (from_int_ok _)) as (q & Eq & Oq & Vq).
    { rewrite from_int_val; lia. }
    rewrite Eq. rewrite from_int_val, V2, V1, Vl, Vf in Vq by lia.
    unfold retarget_rule. fold (work_val first) (work_val last) in Vq. change target_spacing with 600 in Vq. rewrite <- Vq.
    rewrite is_zero_spec by apply Oq.
    destruct (Z.eqb_spec (bn_val q) 0) as [|NZ]; [reflexivity|].
    pose proof (bn_bound _ Oq) as Bq.
    destruct max_bn_ok as [Omx Vmx].
    destruct (div_spec _ q Omx Oq NZ) as (m & Em' & Om & Vm'). rewrite Em', Vmx in *.
    destruct (sub_spec m (bn_from_int 1) Om (from_int_ok 1)) as [Ot Vt].
    rewrite (from_int_val 1), Vm' in Vt by (clear; lia).
    rewrite cmp_spec, Vm, Vt by auto. cbn [orb].
    fold (be_val (n_limit N)).
    assert (Bl : 0 <= be_val (n_limit N) < 2 ^ 256).
    { pose proof (be_val_bounds _ Oli) as B. unfold zlen in B. rewrite Lli in B.
      change (256 ^ Z.of_nat 32) with (2^256) in B. exact B. }
    destruct (to_array_spec (bn_sub m (bn_from_int 1)) 8 Ot (le_n_S _ _ (le_n_S _ _ (le_n_S _ _ (le_n_S _ _ (le_n_S _ _ (le_n_S _ _ (le_n_S _ _ (le_n_S _ _ (Nat.le_0_l _)))))))))) as (Oa & La & Va).
    rewrite Vt in Va. change (2 ^ (32 * Z.of_nat 8)) with (2 ^ 256) in Va.
    remember (bn_to_array (bn_sub m (bn_from_int 1)) 8) as ta eqn:Eta.
    assert (Qp : 0 < bn_val q) by (clear - NZ Bq; lia).
    clear - Bl Oa La Va Qp. apply retarget_tail; auto.
  Qed.

  (** All connected headers descend from one base at height 0. *)
  Definition solo (T : list entry) (root : entry) : Prop := T = [root] /\ e_height root = 0.

  Section Inv2.
    Variables (T : list entry) (F : list (list Z)) (root : entry) (low : Z -> option entry) (M : Z) (st : chain).
    Hypothesis C : core T F root low M st.
    Local Notation get := (chain_get st).

    Lemma solo_base b : solo T root -> conn st b -> get (e_prev b) = None -> b = root /\ e_height b = 0.
    Proof.
      intros [-> H0] H E. destruct (k_par _ _ _ _ _ _ C b H) as [(p & Hp & _)|[_ [<-|[]]]]; [congruence|]. auto.
    Qed.

    Lemma suitable_back z r : conn st z -> suitable get z r -> exists k, (k <= 2)%nat /\ back get k z r.
    Proof.
      intros H (y & x & Hy & Hx & Hr).
      assert (B0 : back get 0 z z) by constructor.
      assert (B1 : back get 1 z y) by (econstructor; eauto; constructor).
      assert (B2 : back get 2 z x) by (econstructor; eauto; econstructor; eauto; constructor).
      assert (r = x \/ r = y \/ r = z) as [-> | [-> | ->]].
      { unfold middle_of_3 in Hr. tauto. }
      - exists 2%nat; auto. - exists 1%nat; auto. - exists 0%nat; split; [lia|auto].
    Qed.

    Lemma get_target_spec time e : conn st e -> 0 <= time < 2 ^ 63 ->
      match get_target N (c_hashes st) time e with
      | Ok b => bits_rule N get time e b
      | Abort => n_noretarget N = false /\ 146 <= e_height e /\
          exists k b, (k <= 145)%nat /\ back get k e b /\ get (e_prev b) = None
      | _ => False
      end.
    Proof.
      intros H Ht. unfold get_target, bits_rule. destruct (n_noretarget N); [reflexivity|].
      destruct (conn_ok _ _ _ _ _ _ C _ H) as (_ & Ho & _ & _ & Hte).
      rewrite !to_i64_small; auto. 2:{ split; auto. apply Ho. }
      change (target_spacing * 2) with 1200.
      destruct (n_reset N && (e_time e + 1200 <? time)); [reflexivity|].
      change (144 + 2) with 146.
      destruct (Z.ltb_spec (e_height e) 146); [reflexivity|].
      pose proof (suitable_block_spec st e) as S1.
      destruct (suitable_block (c_hashes st) e) as [last| | |]; cbn [obind]; auto.
      2:{ split; auto. split; auto. destruct S1 as [S1|(y & S1 & S2)].
          - exists 0%nat, e. split; [lia|]. split; auto. constructor.
          - exists 1%nat, y. split; [lia|]. split; auto. econstructor; eauto. constructor. }
      unfold get_ancestor. destruct (Z.ltb_spec (e_height e) (e_height e - 144)); [lia|].
      replace (e_height e - (e_height e - 144)) with 144 by lia. change (Z.to_nat 144) with 144%nat.
      pose proof (ancestor_loop_spec _ _ _ _ _ _ C 144 e (e_height e - 144) H ltac:(lia)) as S2.
      destruct (ancestor_loop 144 (c_hashes st) e (e_height e - 144)) as [a| | |]; cbn [obind]; auto.
      2:{ split; auto. split; auto. destruct S2 as (k & b & Hk & Hb & Hn). exists k, b. split; [lia|]. auto. }
      pose proof (suitable_block_spec st a) as S3'.
      destruct (suitable_block (c_hashes st) a) as [first| | |]; cbn [obind]; auto.
      2:{ split; auto. split; auto. destruct S3' as [S3'|(y & S3' & S4)].
          - exists 144%nat, a. split; [lia|]. split; auto.
          - exists 145%nat, y. split; [lia|]. split; auto. eapply back_snoc; eauto. }
      destruct (back_conn _ _ _ _ _ _ C _ _ _ H S2) as [Ca Ha].
      destruct (suitable_back _ _ H S1) as (k1 & K1 & Bk1). destruct (suitable_back _ _ Ca S3') as (k2 & K2 & Bk2).
      destruct (back_conn _ _ _ _ _ _ C _ _ _ H Bk1) as [Cl Hl]. destruct (back_conn _ _ _ _ _ _ C _ _ _ Ca Bk2) as [Cf Hf].
      destruct (conn_ok _ _ _ _ _ _ C _ Cl) as (_ & Ol & Wl & _ & Tl). destruct (conn_ok _ _ _ _ _ _ C _ Cf) as (_ & Of & Wf & _ & Tf).
      rewrite retarget_spec; auto; try lia.
      rewrite to_i64_diff. 2:{ split; auto. apply Ol. } 2:{ split; auto. apply Of. }
      exists last, a, first. auto.
    Qed.

    Lemma get_target_solo time e : solo T root -> conn st e -> 0 <= time < 2 ^ 63 ->
      exists b, get_target N (c_hashes st) time e = Ok b.
    Proof.
      intros S H Ht. pose proof (get_target_spec time e H Ht) as X.
      destruct (get_target N (c_hashes st) time e) as [b| | |]; eauto; try contradiction. exfalso.
      destruct X as (_ & Hh & k & b & Hk & Hb & Hn). destruct (back_conn _ _ _ _ _ _ C _ _ _ H Hb) as [Cb Eb].
      destruct (solo_base b S Cb Hn) as [_ Z0]. lia.
    Qed.

    (* ---- fork ---- *)

    Lemma fork_lower_spec : forall n e h, par_ok st e -> n = Z.to_nat (e_height e - h) ->
      match fork_lower n (c_hashes st) e h with
      | Ok l => ancestor get e l /\ e_height l <= h
      | Abort => exists b, ancestor get e b /\ get (e_prev b) = None /\ h < e_height b
      | _ => False
      end.
    Proof.
      induction n as [|n IH]; intros e h H L; cbn [fork_lower].
      - destruct (Z.leb_spec (e_height e) h); [|lia]. split; auto. exists 0%nat. constructor.
      - destruct (Z.leb_spec (e_height e) h); [lia|].
        change (aget beq (e_prev e) (c_hashes st)) with (get (e_prev e)).
        destruct (get (e_prev e)) as [p|] eqn:Hp.
        + pose proof (get_conn _ _ _ _ _ _ C _ _ Hp) as Cp. pose proof (H _ Hp) as Hh.
          specialize (IH p h (conn_par _ _ _ _ _ _ C _ Cp) ltac:(lia)).
          destruct (fork_lower n (c_hashes st) p h); auto.
          * destruct IH as [A B]. split; auto. eapply anc_parent; eauto.
          * destruct IH as (b & A & B). exists b. split; auto. eapply anc_parent; eauto.
        + exists e. split; auto. apply anc_refl.
    Qed.

    Lemma anc_conn_or e a : par_ok st e -> ancestor get e a -> a = e \/ conn st a.
    Proof. intros H [n B]. destruct (back_spec _ _ _ _ _ _ C _ _ _ H B) as [_ X]. exact X. Qed.

    (** [e] is connected, or new with a connected parent. *)
    Definition candidate (e : entry) : Prop :=
      conn st e \/ (get (e_hash e) = None /\ exists p, get (e_prev e) = Some p /\ e_height e = e_height p + 1).

    Lemma candidate_par e : candidate e -> par_ok st e.
    Proof.
      intros [H|(_ & p & Hp & Hh)]; [eapply conn_par; eauto|]. intros q Hq. rewrite Hp in Hq. now injection Hq as <-.
    Qed.
    Lemma candidate_anc e a : candidate e -> ancestor get e a -> candidate a.
    Proof.
      intros H A. destruct (anc_conn_or e a (candidate_par _ H) A) as [->|Ca]; auto. left; auto.
    Qed.

    Lemma find_fork_spec : forall n f l, conn st f -> candidate l -> e_height f < Z.of_nat n ->
      match find_fork n (c_hashes st) f l with
      | Ok r => ancestor get f r /\ ancestor get l r
      | Abort => ~ solo T root
      | _ => False
      end.
    Proof.
      induction n as [|n IH]; intros f l Cf Cl L.
      { pose proof (height_nonneg _ _ _ _ _ _ C _ Cf). lia. }
      cbn [find_fork]. destruct (beq (e_hash f) (e_hash l)) eqn:Eh.
      { apply beq_true_iff in Eh. destruct Cl as [Cl|(Hn & _)].
        - assert (f = l) by (eapply conn_eq; eauto). subst. split; apply anc_refl.
        - unfold conn in Cf. rewrite Eh in Cf. congruence. }
      pose proof (fork_lower_spec _ l (e_height f) (candidate_par _ Cl) eq_refl) as FL.
      destruct (fork_lower _ (c_hashes st) l (e_height f)) as [l'| | |]; cbn [obind]; auto.
      2:{ intros S. destruct FL as (b & A & Hn & Hb). pose proof (height_nonneg _ _ _ _ _ _ C _ Cf) as P.
          destruct (candidate_anc _ _ Cl A) as [Cb|(_ & p & Hp & _)]; [|congruence].
          destruct (solo_base b S Cb Hn). lia. }
      destruct FL as [A Hl']. pose proof (candidate_anc _ _ Cl A) as Cl'.
      destruct (beq (e_hash f) (e_hash l')) eqn:Eh'.
      { apply beq_true_iff in Eh'. destruct Cl' as [Cl'|(Hn & _)].
        - assert (f = l') by (eapply conn_eq; eauto). subst. split; auto. apply anc_refl.
        - unfold conn in Cf. rewrite Eh' in Cf. congruence. }
      change (aget beq (e_prev f) (c_hashes st)) with (get (e_prev f)).
      destruct (get (e_prev f)) as [f'|] eqn:Hf'.
      - pose proof (get_conn _ _ _ _ _ _ C _ _ Hf') as Cf'. pose proof (conn_par _ _ _ _ _ _ C _ Cf _ Hf') as Hh.
        specialize (IH f' l' Cf' Cl' ltac:(lia)). destruct (find_fork n (c_hashes st) f' l'); auto.
        destruct IH as [I1 I2]. split; [eapply anc_parent; eauto|eapply anc_trans; eauto].
      - intros S. destruct (solo_base f S Cf Hf') as [-> Z0]. 
        destruct Cl' as [Cl'|(_ & p & Hp & Hh)].
        + pose proof (height_nonneg _ _ _ _ _ _ C _ Cl') as P.
          destruct (get (e_prev l')) as [q|] eqn:Hq.
          * pose proof (conn_par _ _ _ _ _ _ C _ Cl' _ Hq) as Hh.
            pose proof (height_nonneg _ _ _ _ _ _ C _ (get_conn _ _ _ _ _ _ C _ _ Hq)). lia.
          * destruct (solo_base l' S Cl' Hq) as [-> _]. rewrite beq_refl in Eh'. discriminate.
        + pose proof (height_nonneg _ _ _ _ _ _ C _ (get_conn _ _ _ _ _ _ C _ _ Hp)). lia.
    Qed.

    Lemma path_to_spec : forall n e f m, candidate e -> conn st f -> back get m e f -> (m <= n)%nat ->
      exists l, path_to n (c_hashes st) e f = Ok l /\ length l = m /\
        (forall x, In x l <-> exists k, (k < m)%nat /\ back get k e x) /\
        (forall x, In x (tl l) <-> exists k, (0 < k < m)%nat /\ back get k e x).
    Proof.
      induction n as [|n IH]; intros e f m Ce Cf B L.
      - assert (m = 0%nat) by lia. subst. inversion B; subst. cbn [path_to]. rewrite beq_refl. exists [].
        split; auto. split; auto. cbn. split; intros x; split; try tauto; intros (k & K & _); lia.
      - cbn [path_to]. destruct (beq (e_hash e) (e_hash f)) eqn:Eh.
        + apply beq_true_iff in Eh. assert (e = f) as ->.
          { destruct Ce as [Ce|(Hn & _)]; [eapply conn_eq; eauto|]. unfold conn in Cf. rewrite <- Eh in Cf. congruence. }
          assert (m = 0%nat). { destruct (back_conn _ _ _ _ _ _ C _ _ _ Cf B) as [_ X]. lia. } subst.
          exists []. split; auto. split; auto. cbn. split; intros x; split; try tauto; intros (k & K & _); lia.
        + inversion B as [|m' ? p ? Hp Hb]; subst.
          { rewrite beq_refl in Eh. discriminate. }
          change (aget beq (e_prev e) (c_hashes st)) with (get (e_prev e)). rewrite Hp.
          pose proof (get_conn _ _ _ _ _ _ C _ _ Hp) as Cp.
          destruct (IH p f m' (or_introl Cp) Cf Hb ltac:(lia)) as (l & E & Ll & I1 & I2). rewrite E. cbn [obind].
          exists (e :: l). split; auto. split; [cbn; lia|]. cbn [tl In].
          assert (SS : forall x, In x l <-> exists k, (0 < k < S m')%nat /\ back get k e x).
          { intros x. rewrite I1. split.
            - intros (k & K & Bk). exists (S k). split; [lia|]. econstructor; eauto.
            - intros (k & K & Bk). inversion Bk as [|k' ? q ? Hq Hk]; subst; [lia|].
              rewrite Hp in Hq. injection Hq as <-. exists k'. split; [lia|auto]. }
          split; auto. intros x. rewrite SS. split.
          * intros [<-|(k & K & Bk)]; [exists 0%nat; split; [lia|constructor]|exists k; split; [lia|auto]].
          * intros (k & K & Bk). destruct k; [left; inversion Bk; auto|right; exists (S k); split; [lia|auto]].
    Qed.
  End Inv2.

  Lemma fold_adel (D : list entry) : forall (m : list (Z * entry)) h,
    aget Z.eqb h (fold_left (fun m e => adel Z.eqb (e_height e) m) D m) =
    if existsb (fun e => e_height e =? h) D then None else aget Z.eqb h m.
  Proof.
    induction D as [|d D IH]; intros m h; cbn [fold_left existsb]; auto.
    rewrite IH. destruct (existsb _ D); [now rewrite orb_true_r|]. rewrite orb_false_r.
    destruct (Z.eqb_spec (e_height d) h) as [<-|]; [apply zget_del_same|]. apply zget_del_other. auto.
  Qed.
  Lemma fold_aset (L : list entry) : forall (m : list (Z * entry)) h,
    (forall x y, In x L -> In y L -> e_height x = h -> e_height y = h -> x = y) ->
    forall v, aget Z.eqb h (fold_left (fun m e => aset Z.eqb (e_height e) e m) L m) = Some v <->
    (In v L /\ e_height v = h) \/ (aget Z.eqb h m = Some v /\ forall x, In x L -> e_height x <> h).
  Proof.
    induction L as [|d L IH]; intros m h U v; cbn [fold_left].
    - cbn. intuition.
    - rewrite IH. 2:{ intros; apply U; cbn; auto. } cbn [In].
      destruct (Z.eq_dec (e_height d) h) as [E|E].
      + rewrite E, zget_set_same. split.
        * intros [[H1 H2]|[H1 H2]]; [auto|]. injection H1 as <-. auto.
        * intros [[[<-|H1] H2]|[H1 H2]]; auto.
          -- destruct (existsb (fun e => e_height e =? h) L) eqn:X.
             ++ left. apply existsb_exists in X as (y & Y1 & Y2). apply Z.eqb_eq in Y2.
                rewrite (U d y) by (cbn; auto). auto.
             ++ right. split; auto. intros x Hx Ex. rewrite <- not_true_iff_false in X. apply X.
                apply existsb_exists. exists x. split; auto. now apply Z.eqb_eq.
          -- exfalso. apply (H2 d); auto.
      + rewrite zget_set_other by auto. split.
        * intros [[H1 H2]|[H1 H2]]; [auto|]. right. split; auto. intros x [<-|Hx]; auto.
        * intros [[[<-|H1] H2]|[H1 H2]]; [contradiction|auto|]. right. split; auto.
  Qed.

  (** Updating the index in hsk_chain_reorganize. *)
  Lemma reorganize_spec T F root low M st e prev : core T F root low M st ->
    chain_get st (e_prev e) = Some prev -> e_height e = e_height prev + 1 -> chain_get st (e_hash e) = None ->
    match reorganize st e with
    | Ok hs => exists f, ancestor (chain_get st) (c_tip st) f /\ ancestor (chain_get st) prev f /\
        (forall h, h <= e_height f -> aget Z.eqb h hs = aget Z.eqb h (c_heights st)) /\
        (forall h x, e_height f < h -> (aget Z.eqb h hs = Some x <-> ancestor (chain_get st) prev x /\ e_height x = h))
    | Abort => ~ solo T root
    | _ => False
    end.
  Proof.
    intros C Hp Hh Hn. unfold reorganize.
    assert (Ct := k_tip _ _ _ _ _ _ C).
    assert (Ce : candidate st e) by (right; eauto).
    pose proof (get_conn _ _ _ _ _ _ C _ _ Hp) as Cp.
    pose proof (height_nonneg _ _ _ _ _ _ C _ Ct) as Pt.
    pose proof (find_fork_spec _ _ _ _ _ _ C (S (Z.to_nat (e_height (c_tip st)))) (c_tip st) e Ct Ce ltac:(lia)) as FF.
    destruct (find_fork _ (c_hashes st) (c_tip st) e) as [f| | |]; cbn [obind]; auto.
    destruct FF as [[n Bn] Ae]. destruct (back_conn _ _ _ _ _ _ C _ _ _ Ct Bn) as [Cf Hf].
    destruct Ae as [m Bm]. pose proof (candidate_par _ _ _ _ _ _ C _ Ce) as Pe.
    destruct (back_spec _ _ _ _ _ _ C _ _ _ Pe Bm) as [Hm _].
    destruct m as [|m].
    { inversion Bm; subst. unfold conn in Cf. congruence. }
    destruct (path_to_spec _ _ _ _ _ _ C (S (Z.to_nat (e_height (c_tip st) - e_height f))) (c_tip st) f n
                (or_introl Ct) Cf Bn ltac:(lia)) as (D & ED & LD & ID & _).
    rewrite ED. cbn [obind].
    destruct (path_to_spec _ _ _ _ _ _ C (S (Z.to_nat (e_height e - e_height f))) e f (S m) Ce Cf Bm ltac:(lia))
      as (K & EK & LK & _ & IK).
    rewrite EK. cbn [obind]. exists f. split; [exists n; auto|].
    assert (Apf : back (chain_get st) m prev f).
    { inversion Bm as [|? ? q ? Hq Hb]; subst. rewrite Hp in Hq. injection Hq as <-. auto. }
    split; [exists m; auto|].
    (* elements of the connect list *)
    assert (IC : forall x, In x (rev (tl K)) <-> ancestor (chain_get st) prev x /\ e_height f < e_height x).
    { intros x. rewrite <- in_rev, IK. split.
      - intros (k & Kk & Bk). inversion Bk as [|k' ? q ? Hq Hb]; subst; [lia|].
        rewrite Hp in Hq. injection Hq as <-. split; [exists k'; auto|].
        destruct (back_conn _ _ _ _ _ _ C _ _ _ Cp Hb). lia.
      - intros [[k Bk] Hx]. exists (S k). destruct (back_conn _ _ _ _ _ _ C _ _ _ Cp Bk). split; [lia|].
        econstructor; eauto. }
    assert (U : forall h x y, In x (rev (tl K)) -> In y (rev (tl K)) -> e_height x = h -> e_height y = h -> x = y).
    { intros h x y Hx Hy E1 E2. apply IC in Hx as [Hx _]. apply IC in Hy as [Hy _].
      apply (anc_same_height _ _ _ _ _ _ C prev x y); auto; [eapply conn_par; eauto|lia]. }
    assert (DD : forall h, existsb (fun x => e_height x =? h) D = true <-> e_height f < h <= e_height (c_tip st)).
    { intros h. rewrite existsb_exists. split.
      - intros (x & Hx & E). apply Z.eqb_eq in E. apply ID in Hx as (k & Kk & Bk).
        destruct (back_conn _ _ _ _ _ _ C _ _ _ Ct Bk). lia.
      - intros Hr. destruct (anc_at _ _ _ _ _ _ C (c_tip st) f h) as (b & [k Bk] & Hb).
        + eapply conn_par; eauto. + exists n; auto. + lia.
        + exists b. split; [|now apply Z.eqb_eq]. apply ID. exists k. destruct (back_conn _ _ _ _ _ _ C _ _ _ Ct Bk).
          split; [lia|auto]. }
    assert (Fr : e_height root <= e_height f).
    { destruct (k_root _ _ _ _ _ _ C) as (_ & Ar & Fr). destruct (Z_le_gt_dec (e_height root) (e_height f)) as [|G]; auto.
      exfalso. assert (A : ancestor (chain_get st) root f).
      { apply (anc_order _ _ _ _ _ _ C (c_tip st)); auto; [eapply conn_par; eauto|exists n; auto|lia]. }
      apply anc_inv in A as [->|(p & Hpp & _)]; [lia|]. apply (k_forb _ _ _ _ _ _ C) in Fr. congruence. }
    split.
    - intros h Lh. destruct (aget Z.eqb h (c_heights st)) as [v|] eqn:Ev.
      + apply (fold_aset _ _ h (U h)). right. split.
        * rewrite fold_adel. destruct (existsb _ D) eqn:X; auto. apply DD in X. lia.
        * intros x Hx Ex. apply IC in Hx as [_ Hx]. lia.
      + destruct (aget Z.eqb h (fold_left _ (rev (tl K)) _)) as [v|] eqn:Ev'; auto. exfalso.
        apply (fold_aset _ _ h (U h)) in Ev'. destruct Ev' as [[Hv Eh]|[Hv _]]; [apply IC in Hv as [_ Hv]; lia|].
        rewrite fold_adel in Hv. destruct (existsb _ D); congruence.
    - intros h x Lh. rewrite (fold_aset _ _ h (U h)). rewrite IC, fold_adel. split.
      + intros [[[Hx _] Eh]|[Hx _]]; auto. exfalso. destruct (existsb (fun x => e_height x =? h) D) eqn:X; [discriminate|].
        apply (k_idx _ _ _ _ _ _ C) in Hx as [Hx Eh]. 2:{ destruct (k_root _ _ _ _ _ _ C). lia. }
        destruct (anc_conn _ _ _ _ _ _ C _ _ Ct Hx) as [_ Hle].
        assert (Y : e_height f < h <= e_height (c_tip st)) by lia. apply DD in Y. congruence.
      + intros [Hx Eh]. left. repeat split; auto. lia.
  Qed.

  (* ---------- adding one entry to the set of connected headers ---------- *)

  (** Facts about lookups that survive adding a fresh entry [e]. *)
  Section Fresh.
    Variables (T : list entry) (F : list (list Z)) (root : entry) (low : Z -> option entry) (M : Z) (st : chain).
    Hypothesis C : core T F root low M st.
    Variable e prev : entry.
    Hypothesis Hp : chain_get st (e_prev e) = Some prev.
    Hypothesis Hfresh : chain_get st (e_hash e) = None.
    Hypothesis HF : ~ In (e_hash e) F.
    Variable st' : chain.
    Hypothesis HH : c_hashes st' = aset beq (e_hash e) e (c_hashes st).
    Local Notation get := (chain_get st).
    Local Notation get' := (chain_get st').

    Lemma get'_same : get' (e_hash e) = Some e.
    Proof. unfold chain_get. rewrite HH. apply bget_set_same. Qed.
    Lemma get'_other k : k <> e_hash e -> get' k = get k.
    Proof. intros H. unfold chain_get. rewrite HH. now apply bget_set_other. Qed.
    Lemma get'_mono k v : get k = Some v -> get' k = Some v.
    Proof. intros H. rewrite get'_other; auto. intros ->. congruence. Qed.
    Lemma conn'_inv x : conn st' x -> x = e \/ conn st x.
    Proof.
      unfold conn. destruct (beq (e_hash x) (e_hash e)) eqn:E.
      - apply beq_true_iff in E. rewrite E, get'_same. intros [= ->]. auto.
      - apply beq_false_iff in E. rewrite get'_other by auto. auto.
    Qed.
    Lemma conn'_old x : conn st x -> conn st' x.
    Proof. apply get'_mono. Qed.
    (** The parent lookup of a connected header does not change. *)
    Lemma parent_same x : conn st x -> get' (e_prev x) = get (e_prev x).
    Proof.
      intros H. destruct (k_par _ _ _ _ _ _ C x H) as [(p & Hpp & _)|[Hf _]].
      - rewrite Hpp. now apply get'_mono.
      - apply get'_other. intros E. rewrite E in Hf. contradiction.
    Qed.
    Lemma parent_e : get' (e_prev e) = Some prev.
    Proof. now apply get'_mono. Qed.

    Lemma back_same n : forall x a, conn st x -> (back get' n x a <-> back get n x a).
    Proof.
      induction n as [|n IH]; intros x a H; split; intros B; inversion B as [|? ? p ? Hpp Hb]; subst; try constructor.
      - rewrite parent_same in Hpp by auto. econstructor; eauto. apply IH; auto. eapply get_conn; eauto.
      - econstructor; [apply get'_mono; exact Hpp|]. apply IH; auto. eapply get_conn; eauto.
    Qed.
    Lemma anc_same x a : conn st x -> (ancestor get' x a <-> ancestor get x a).
    Proof. intros H. split; intros [n B]; exists n; eapply back_same; eauto. Qed.
    Lemma anc_e a : ancestor get' e a <-> a = e \/ ancestor get prev a.
    Proof.
      pose proof (get_conn _ _ _ _ _ _ C _ _ Hp) as Cp. split.
      - intros [n B]. inversion B as [|n' ? p ? Hpp Hb]; subst; auto.
        rewrite parent_e in Hpp. injection Hpp as <-. right. exists n'. apply back_same; auto.
      - intros [->|[n B]]; [exists 0%nat; constructor|]. exists (S n). econstructor; [apply parent_e|].
        apply back_same; auto.
    Qed.
    Lemma last_times_same n : forall x l, conn st x -> last_times get n x l -> last_times get' n x l.
    Proof.
      induction n as [|n IH]; intros x l H L; inversion L as [|? ? Hb|? ? p l' Hpp Hl]; subst; try (constructor; fail).
      - apply lt_base. now rewrite parent_same.
      - econstructor; [rewrite parent_same; eauto|]. apply IH; auto. eapply get_conn; eauto.
    Qed.
    Lemma suitable_same z r : suitable get z r -> suitable get' z r.
    Proof. intros (y & x & H1 & H2 & H3). exists y, x. auto using get'_mono. Qed.
    Lemma bits_rule_same time x b : bits_rule N get time x b -> bits_rule N get' time x b.
    Proof.
      unfold bits_rule. destruct (n_noretarget N); auto. destruct (n_reset N && (e_time x + 1200 <? time)); auto.
      destruct (e_height x <? 146); auto.
      intros (last & a & first & H1 & H2 & H3 & H4). exists last, a, first.
      repeat split; auto using suitable_same. eapply back_mono; [|eauto]. apply get'_mono.
    Qed.
    Lemma rules_same x : conn st x -> rules hash N get x -> rules hash N get' x.
    Proof.
      intros H (p & ts & m & t & H1 & H2 & H3 & H4 & H5 & H6 & H7 & H8 & H9).
      exists p, ts, m, t. repeat split; auto using get'_mono, bits_rule_same.
      apply last_times_same; auto. eapply get_conn; eauto.
    Qed.

    Hypothesis Eok : entry_ok e.
    Hypothesis Eheight : e_height e = e_height prev + 1.
    Hypothesis Erules : In e T \/ rules hash N get e.
    Hypothesis Ework : exists t, pow_to_target (h_bits (e_hdr e)) = Some t /\
      work_val e = (work_val prev + work_of (be_val t)) mod 2 ^ 256.

    Lemma rules_e : In e T \/ rules hash N get' e.
    Proof.
      destruct Erules as [H|(p & ts & m & t & H1 & H2 & H3 & H4 & H5 & H6 & H7 & H8 & H9)]; auto. right.
      exists p, ts, m, t. repeat split; auto using get'_mono, bits_rule_same.
      apply last_times_same; auto. eapply get_conn; eauto.
    Qed.

    (** The parts of the invariant that do not mention the tip. *)
    Lemma fresh_keys k x : get' k = Some x -> k = e_hash x /\ entry_ok x.
    Proof.
      destruct (beq k (e_hash e)) eqn:E.
      - apply beq_true_iff in E. subst k. rewrite get'_same. intros [= <-]. auto.
      - apply beq_false_iff in E. rewrite get'_other by auto. apply (k_keys _ _ _ _ _ _ C).
    Qed.
    Lemma fresh_par x : conn st' x ->
      (exists p, get' (e_prev x) = Some p /\ e_height x = e_height p + 1) \/ (In (e_prev x) F /\ In x T).
    Proof.
      intros H. apply conn'_inv in H as [->|H].
      - left. exists prev. split; auto. apply parent_e.
      - destruct (k_par _ _ _ _ _ _ C x H) as [(p & Hpp & Hh)|]; auto. left. exists p. auto using get'_mono.
    Qed.
    Lemma fresh_forb k : In k F -> get' k = None.
    Proof.
      intros H. rewrite get'_other. now apply (k_forb _ _ _ _ _ _ C). intros ->. contradiction.
    Qed.
    Lemma fresh_rules x : conn st' x -> In x T \/ rules hash N get' x.
    Proof.
      intros H. apply conn'_inv in H as [->|H]; [apply rules_e|].
      destruct (k_rules _ _ _ _ _ _ C x H); auto. right. now apply rules_same.
    Qed.
    Lemma fresh_bound x : conn st' x -> e_height x < M + zlen (c_hashes st').
    Proof.
      intros H. rewrite HH. unfold zlen.
      rewrite (aset_length_fresh beq beq_true_iff) by exact Hfresh.
      pose proof (k_bound _ _ _ _ _ _ C) as Bd. unfold zlen in Bd.
      apply conn'_inv in H as [->|H].
      - specialize (Bd prev (get_conn _ _ _ _ _ _ C _ _ Hp)). lia.
      - specialize (Bd x H). lia.
    Qed.

    Lemma fresh_work x p : conn st' x -> get' (e_prev x) = Some p -> exists t,
      pow_to_target (h_bits (e_hdr x)) = Some t /\ work_val x = (work_val p + work_of (be_val t)) mod 2 ^ 256.
    Proof.
      intros H Hx. apply conn'_inv in H as [->|H].
      - rewrite parent_e in Hx. injection Hx as <-. exact Ework.
      - rewrite parent_same in Hx by auto. now apply (k_work _ _ _ _ _ _ C).
    Qed.

    (** The new header stays on a side branch. *)
    Lemma core_side : c_tip st' = c_tip st -> c_height st' = c_height st -> c_init st' = c_init st ->
      c_heights st' = c_heights st -> work_val e <= work_val (c_tip st) -> core T F root low M st'.
    Proof.
      intros E1 E2 E3 E4 W. assert (Ct := k_tip _ _ _ _ _ _ C).
      constructor; rewrite ?E1, ?E2, ?E3, ?E4.
      - apply fresh_keys. - apply fresh_par. - apply fresh_forb. - apply fresh_rules.
      - now apply conn'_old.
      - apply (k_height _ _ _ _ _ _ C).
      - intros x H. apply conn'_inv in H as [->|H]; auto. now apply (k_max _ _ _ _ _ _ C).
      - destruct (k_root _ _ _ _ _ _ C) as (R1 & R2 & R3). repeat split; auto. now apply anc_same.
      - intros h x Hi. rewrite (k_idx _ _ _ _ _ _ C) by auto. now rewrite anc_same.
      - apply (k_low _ _ _ _ _ _ C).
      - apply fresh_bound.
      - apply fresh_work.
    Qed.

    (** The new header becomes the tip; [hs] is the index before saving it, and [f]
        the fork point. *)
    Lemma core_tip hs f : c_tip st' = e -> c_height st' = e_height e -> c_init st' = c_init st ->
      c_heights st' = aset Z.eqb (e_height e) e hs ->
      work_val (c_tip st) < work_val e ->
      ancestor get (c_tip st) f -> ancestor get prev f ->
      (forall h, h <= e_height f -> aget Z.eqb h hs = aget Z.eqb h (c_heights st)) ->
      (forall h x, e_height f < h -> (aget Z.eqb h hs = Some x <-> ancestor get prev x /\ e_height x = h)) ->
      core T F root low M st'.
    Proof.
      intros E1 E2 E3 E4 W Af Apf I1 I2. assert (Ct := k_tip _ _ _ _ _ _ C).
      pose proof (get_conn _ _ _ _ _ _ C _ _ Hp) as Cp.
      destruct (k_root _ _ _ _ _ _ C) as (R1 & R2 & R3).
      assert (Pt := conn_par _ _ _ _ _ _ C _ Ct). assert (Pp := conn_par _ _ _ _ _ _ C _ Cp).
      assert (Fr : e_height root <= e_height f).
      { destruct (Z_le_gt_dec (e_height root) (e_height f)) as [|G]; auto.
        exfalso. assert (A : ancestor get root f).
        { apply (anc_order _ _ _ _ _ _ C (c_tip st)); auto; lia. }
        apply anc_inv in A as [->|(p & Hpp & _)]; [lia|]. apply (k_forb _ _ _ _ _ _ C) in R3. congruence. }
      assert (Afr : ancestor get f root) by (apply (anc_order _ _ _ _ _ _ C (c_tip st)); auto).
      destruct (anc_conn _ _ _ _ _ _ C _ _ Cp Apf) as [Cf Lf].
      constructor; rewrite ?E1, ?E2, ?E3, ?E4.
      - apply fresh_keys. - apply fresh_par. - apply fresh_forb. - apply fresh_rules.
      - apply get'_same.
      - reflexivity.
      - intros x H. apply conn'_inv in H as [->|H]; [lia|]. pose proof (k_max _ _ _ _ _ _ C x H). lia.
      - repeat split; auto. apply anc_e. right. apply (anc_trans st prev f root); auto.
      - intros h x Hi. rewrite anc_e. destruct (Z.eq_dec h (e_height e)) as [->|Nh].
        + rewrite zget_set_same. split; [intros [= <-]; auto|]. intros [[->|Ax] Hx]; auto.
          destruct (anc_conn _ _ _ _ _ _ C _ _ Cp Ax). lia.
        + rewrite zget_set_other by auto.
          destruct (Z_le_gt_dec h (e_height f)) as [L|G].
          * rewrite I1 by auto. rewrite (k_idx _ _ _ _ _ _ C) by auto. split.
            -- intros [Ax Hx]. split; auto. right. apply (anc_trans st prev f x); auto.
               apply (anc_order _ _ _ _ _ _ C (c_tip st)); auto. lia.
            -- intros [[->|Ax] Hx]; [lia|]. split; auto. apply (anc_trans st (c_tip st) f x); auto.
               apply (anc_order _ _ _ _ _ _ C prev); auto. lia.
          * rewrite I2 by lia. split; [tauto|]. intros [[->|Ax] Hx]; [lia|auto].
      - intros h Hi. rewrite zget_set_other by lia. rewrite I1 by lia. now apply (k_low _ _ _ _ _ _ C).
      - apply fresh_bound.
      - apply fresh_work.
    Qed.
  End Fresh.

  (* ---------- saving and flushing ---------- *)

  Lemma idx_get T F root low M st h : core T F root low M st -> c_height st < 2 ^ 32 ->
    c_init st <= h <= c_height st ->
    exists e, chain_get_by_height st h = Some e /\ ancestor (chain_get st) (c_tip st) e /\ e_height e = h.
  Proof.
    intros C Hb Hh. assert (Ct := k_tip _ _ _ _ _ _ C). destruct (k_root _ _ _ _ _ _ C) as (R1 & R2 & R3).
    destruct (anc_conn _ _ _ _ _ _ C _ _ Ct R2) as [Cr _]. pose proof (height_nonneg _ _ _ _ _ _ C _ Cr) as P.
    pose proof (k_height _ _ _ _ _ _ C) as Kh.
    destruct (anc_at _ _ _ _ _ _ C (c_tip st) root h) as (e & Ae & He); auto. { eapply conn_par; eauto. } { lia. }
    exists e. split; auto. unfold chain_get_by_height. change (4294967296) with (2 ^ 32). rewrite Z.mod_small by lia.
    apply (k_idx _ _ _ _ _ _ C); auto; lia.
  Qed.

  Lemma store_headers_spec st (get : Z -> entry) : forall n h,
    (forall i, h <= i < h + Z.of_nat n -> chain_get_by_height st i = Some (get i)) ->
    store_headers n st h = Ok (concat (map (fun i => hdr_write (e_hdr (get (h + Z.of_nat i)))) (seq 0 n))).
  Proof.
    induction n as [|n IH]; intros h H; [reflexivity|]. cbn [store_headers]. rewrite H by lia.
    rewrite IH by (intros; apply H; lia). cbn [obind seq map concat].
    replace (h + Z.of_nat 0) with h by lia. do 3 f_equal. rewrite <- seq_shift, map_map. apply map_ext. intros i.
    do 3 f_equal. lia.
  Qed.

  (** The exact content of the checkpoint file: start height, work before it and
      the 150 ancestors of the tip from there on. *)
  Definition checkpoint_bytes (height : Z) (work : list Z) (hs : list hdr) : list Z :=
    be_bytes 4 (n_magic N) ++ [0] ++ be_bytes 4 height ++ work ++ concat (map hdr_write hs).

  Lemma store_content_spec T F root low M st : core T F root low M st -> c_height st < 2 ^ 32 ->
    c_height st mod n_window N = 0 -> n_window N < c_height st - c_init st ->
    exists prev es, store_content N st = Ok (checkpoint_bytes (c_height st - n_window N) (e_work prev) (map e_hdr es)) /\
      length es = 150%nat /\
      ancestor (chain_get st) (c_tip st) prev /\ e_height prev = c_height st - n_window N - 1 /\
      (forall i e, nth_error es i = Some e ->
         ancestor (chain_get st) (c_tip st) e /\ e_height e = c_height st - n_window N + Z.of_nat i).
  Proof.
    intros C Hb Hm Hw. assert (Ct := k_tip _ _ _ _ _ _ C). destruct (k_root _ _ _ _ _ _ C) as (R1 & R2 & R3).
    destruct (anc_conn _ _ _ _ _ _ C _ _ Ct R2) as [Cr _]. pose proof (height_nonneg _ _ _ _ _ _ C _ Cr) as P.
    destruct NO as (_ & _ & _ & W & _).
    unfold store_content. rewrite Hm. zred. cbn [negb].
    change 4294967296 with (2 ^ 32). rewrite Z.mod_small by lia.
    destruct (idx_get _ _ _ _ _ _ (c_height st - n_window N - 1) C Hb ltac:(lia)) as (pv & Gp & Ap & Hp). rewrite Gp.
    set (get := fun i => match chain_get_by_height st i with Some e => e | None => c_tip st end).
    assert (Gs : forall i, c_init st <= i <= c_height st -> chain_get_by_height st i = Some (get i) /\
                   ancestor (chain_get st) (c_tip st) (get i) /\ e_height (get i) = i).
    { intros i Hi. destruct (idx_get _ _ _ _ _ _ i C Hb Hi) as (e & Ge & Ae & He). subst get. cbn. rewrite Ge. auto. }
    rewrite (store_headers_spec st get). 2:{ intros i Hi. unfold store_headers_count in Hi. apply Gs. lia. }
    cbn [obind]. exists pv, (map (fun i => get (c_height st - n_window N + Z.of_nat i)) (seq 0 150)).
    split; [|split; [|split; [exact Ap|split; [exact Hp|]]]].
    - reflexivity.
    - now rewrite map_length, seq_length.
    - intros i e Hi. assert (L : (i < 150)%nat).
      { assert (nth_error (map (fun i => get (c_height st - n_window N + Z.of_nat i)) (seq 0 150)) i <> None) as X by congruence.
        apply nth_error_Some in X. now rewrite map_length, seq_length in X. }
      rewrite (map_nth_error _ i (seq 0 150) (d := i)) in Hi.
      + injection Hi as <-. apply Gs. lia.
      + rewrite (nth_error_nth' _ 0%nat) by now rewrite seq_length. now rewrite seq_nth by auto.
  Qed.

  (** Changing only the record of what was written keeps the invariant. *)
  Lemma core_same T F root low M st st' : core T F root low M st ->
    c_height st' = c_height st -> c_init st' = c_init st -> c_tip st' = c_tip st ->
    c_hashes st' = c_hashes st -> c_heights st' = c_heights st -> core T F root low M st'.
  Proof.
    intros C E1 E2 E3 E4 E5. assert (EG : chain_get st' = chain_get st) by (unfold chain_get; rewrite E4; reflexivity).
    destruct C. constructor; unfold conn in *; rewrite ?E1, ?E2, ?E3, ?E4, ?E5, ?EG; auto.
  Qed.

  (** What one insertion does to the rest of the state. *)
  Definition same_rest (st st' : chain) : Prop :=
    c_init st' = c_init st /\ c_genesis st' = c_genesis st /\ c_orphans st' = c_orphans st /\
    c_prevs st' = c_prevs st /\ c_prefix st' = c_prefix st.

  Lemma chain_save_spec T F root low M now st e hs :
    let st1 := mk_chain (e_height e) (c_init st) e (c_genesis st) (maybe_sync N now (c_synced st) e)
                 (aset beq (e_hash e) e (c_hashes st)) (aset Z.eqb (e_height e) e hs)
                 (c_orphans st) (c_prevs st) (c_prefix st) (c_file st) in
    core T F root low M st1 -> e_height e < 2 ^ 32 ->
    exists st', chain_save N now (with_heights st hs) e = Ok st' /\ core T F root low M st' /\
      c_hashes st' = aset beq (e_hash e) e (c_hashes st) /\ c_tip st' = e /\ same_rest st st' /\
      c_synced st' = maybe_sync N now (c_synced st) e.
  Proof.
    intros st1 C Hb. unfold chain_save. cbn [c_init c_genesis c_synced c_hashes c_heights c_orphans c_prevs c_prefix c_file with_heights].
    fold st1. change (c_height st1) with (e_height e).
    destruct (Z.eqb_spec (e_height e mod n_window N) 0) as [Em|Em].
    2:{ exists st1. unfold same_rest. auto 10. }
    unfold checkpoint_flush. change (c_prefix st1) with (c_prefix st). destruct (c_prefix st) eqn:Pf; cbn [negb].
    2:{ exists st1. unfold same_rest. auto 10. }
    destruct (Z.leb_spec (c_height st1 - c_init st1) (n_window N)) as [Lw|Lw].
    1:{ exists st1. unfold same_rest. cbn [st1 c_prefix]. auto 10. }
    destruct (store_content_spec _ _ _ _ _ _ C Hb Em ltac:(lia)) as (pv & es & -> & _).
    cbn [obind]. eexists. split; [reflexivity|]. split; [eapply core_same; eauto; reflexivity|].
    unfold same_rest. cbn. rewrite Pf. auto 10.
  Qed.

  Lemma with_heights_id st : with_heights st (c_heights st) = st.
  Proof. destruct st; reflexivity. Qed.

  (* ---------- inserting a header ---------- *)

  Definition time_rule (st : chain) (h : hdr) (prev : entry) : Prop :=
    exists ts m, last_times (chain_get st) 11 prev ts /\ median ts m /\ m < h_time h.

  Definition insert_ok T F root low M (st : chain) (h : hdr) (prev : entry) (r : outcome chain) : Prop :=
    match r with
    | Ok st' => core T F root low M st' /\
        exists e, e_hdr e = h /\ e_hash e = hash h /\
          c_hashes st' = aset beq (hash h) e (c_hashes st) /\ same_rest st st' /\
          ((c_tip st' = c_tip st /\ c_heights st' = c_heights st /\ work_val e <= work_val (c_tip st)) \/
           (c_tip st' = e /\ work_val (c_tip st) < work_val e))
    | Err 24 => exists ts m, last_times (chain_get st) 11 prev ts /\ median ts m /\ h_time h <= m
    | Err 25 => time_rule st h prev /\ exists b, bits_rule N (chain_get st) (h_time h) prev b /\ h_bits h <> b
    | Abort => ~ solo T root
    | _ => False
    end.

  Lemma pow_zero h : hdr_ok h -> pow h = 0 ->
    exists t, pow_to_target (h_bits h) = Some t /\ hash_ok t /\ be_val (hash h) <= be_val t.
  Proof.
    intros O E. rewrite (verify_pow_spec _ _ _ b256 h O) in E. destruct (pow_to_target (h_bits h)) as [t|] eqn:Et; [|discriminate].
    exists t. split; auto. split; [apply (target_hash_ok (h_bits h)); auto; apply O|].
    destruct (Z.ltb_spec (be_val t) (be_val (hash h))); [discriminate|auto].
  Qed.

  Lemma insert_spec T F root low M st now h prev : core T F root low M st ->
    hdr_ok h -> h_time h < 2 ^ 63 -> pow h = 0 -> chain_get st (h_prev h) = Some prev ->
    chain_get st (hash h) = None -> ~ In (hash h) F -> M + zlen (c_hashes st) + 1 < 2 ^ 32 ->
    insert_ok T F root low M st h prev (chain_insert N now st h (hash h) prev).
  Proof.
    intros C Oh Ht Hpow Hp Hn HF Hb. unfold chain_insert.
    pose proof (get_conn _ _ _ _ _ _ C _ _ Hp) as Cp.
    destruct (mtp_spec _ _ _ _ _ _ C prev Cp) as (ts & Lts & Med).
    assert (T0 : 0 <= h_time h) by apply Oh. rewrite to_i64_small by lia.
    destruct (Z.leb_spec (h_time h) (get_mtp (c_hashes st) prev)) as [Lt|Lt].
    { cbn. exists ts, (get_mtp (c_hashes st) prev). auto. }
    assert (TR : time_rule st h prev) by (exists ts, (get_mtp (c_hashes st) prev); auto).
    pose proof (get_target_spec _ _ _ _ _ _ C (h_time h) prev Cp ltac:(lia)) as GT.
    destruct (get_target N (c_hashes st) (h_time h) prev) as [b|?| |] eqn:Eg; cbn [obind]; try contradiction.
    2:{ cbn. intros S. destruct (get_target_solo _ _ _ _ _ _ C (h_time h) prev S Cp ltac:(lia)) as [b Eb]. congruence. }
    destruct (Z.eqb_spec (h_bits h) b) as [<-|Nb]; cbn [negb].
    2:{ cbn. split; auto. exists b. auto. }
    destruct (pow_zero h Oh Hpow) as (t & Et & Ot & Le).
    destruct (conn_ok _ _ _ _ _ _ C _ Cp) as (_ & _ & Ow & Hge & _).
    destruct (calc_work_spec (h_bits h) t (e_work prev) Et Ot Ow) as (w & Ew & Oww & Vw). rewrite Ew.
    pose proof (k_bound _ _ _ _ _ _ C prev Cp) as Bd.
    assert (Emod : (e_height prev + 1) mod 4294967296 = e_height prev + 1).
    { apply Z.mod_small. change 4294967296 with (2^32). lia. }
    rewrite Emod. set (e := mk_entry h (hash h) (e_height prev + 1) w).
    assert (Eok : entry_ok e) by (repeat split; cbn; auto; try apply Oh; try apply Oww; lia).
    assert (Er : rules hash N (chain_get st) e).
    { exists prev, ts, (get_mtp (c_hashes st) prev), t. cbn. repeat split; auto. }
    assert (Ew' : exists t, pow_to_target (h_bits (e_hdr e)) = Some t /\
      work_val e = (work_val prev + work_of (be_val t)) mod 2 ^ 256) by (exists t; auto).
    assert (Ct := k_tip _ _ _ _ _ _ C).
    destruct (conn_ok _ _ _ _ _ _ C _ Ct) as (_ & _ & Owt & _ & _).
    assert (MC : memcmp_gt w (e_work (c_tip st)) = (work_val (c_tip st) <? work_val e)).
    { unfold work_val at 2. cbn [e_work e]. apply memcmp_gt_spec; [|apply Oww|apply Owt].
      rewrite (proj1 Oww), (proj1 Owt). reflexivity. }
    rewrite MC. destruct (Z.ltb_spec (work_val (c_tip st)) (work_val e)) as [Wt|Wt]; cbn [negb].
    - assert (Tip : forall hs f, 
        ancestor (chain_get st) (c_tip st) f -> ancestor (chain_get st) prev f ->
        (forall h, h <= e_height f -> aget Z.eqb h hs = aget Z.eqb h (c_heights st)) ->
        (forall h x, e_height f < h -> (aget Z.eqb h hs = Some x <-> ancestor (chain_get st) prev x /\ e_height x = h)) ->
        insert_ok T F root low M st h prev (chain_save N now (with_heights st hs) e)).
      { intros hs f A1 A2 I1 I2.
        destruct (chain_save_spec T F root low M now st e hs) as (st' & -> & C' & Eh & Etip & Sr & _).
        - eapply (core_tip _ _ _ _ _ _ C e prev Hp Hn HF); eauto; reflexivity.
        - cbn. lia.
        - cbn. split; auto. exists e. cbn. repeat split; auto; try apply Sr. }
      destruct (beq (h_prev h) (e_hash (c_tip st))) eqn:Eb; cbn [negb].
      + apply beq_true_iff in Eb. assert (Ept : prev = c_tip st) by (rewrite Eb in Hp; unfold conn in Ct; congruence).
        replace (chain_save N now st e) with (chain_save N now (with_heights st (c_heights st)) e)
          by (now rewrite with_heights_id).
        apply (Tip (c_heights st) prev); try apply anc_refl; auto.
        * rewrite Ept. apply anc_refl.
        * intros i x Hi. rewrite Ept in *. rewrite (k_idx _ _ _ _ _ _ C); [reflexivity|].
          destruct (k_root _ _ _ _ _ _ C) as (R1 & R2 & _). destruct (anc_conn _ _ _ _ _ _ C _ _ Cp R2). lia.
      + pose proof (reorganize_spec T F root low M st e prev C Hp eq_refl Hn) as RS.
        destruct (reorganize st e) as [hs|?| |]; cbn [obind]; [|contradiction|exact RS|contradiction].
        destruct RS as (f & A1 & A2 & I1 & I2). apply (Tip hs f); auto.
    - cbn [insert_ok]. split.
      + eapply (core_side _ _ _ _ _ _ C e prev Hp Hn HF); eauto.
      + exists e. cbn. repeat split; auto. 
  Qed.

  (* ---------- orphans ---------- *)

  (** [x] is the header just inserted, whose waiting orphan is still registered. *)
  Record orph (F : list (list Z)) (x : option (list Z)) (st : chain) : Prop := {
    o_orph : forall k o, chain_get_orphan st k = Some o ->
      k = hash o /\ hdr_ok o /\ pow o = 0 /\ h_time o < 2 ^ 63 /\ chain_get st k = None /\ ~ In k F;
    o_prev : forall k o, aget beq k (c_prevs st) = Some o ->
      h_prev o = k /\ chain_get_orphan st (hash o) = Some o /\ (chain_get st k = None \/ x = Some k) }.

  (** How the state may develop while waiting orphans are connected. *)
  Record grow (st st' : chain) : Prop := {
    g_keep : forall k e, chain_get st k = Some e -> chain_get st' k = Some e;
    g_new : forall k e, chain_get st' k = Some e ->
      chain_get st k = Some e \/ chain_get_orphan st k = Some (e_hdr e);
    g_tip : c_tip st' = c_tip st \/ work_val (c_tip st) < work_val (c_tip st');
    g_size : zlen (c_hashes st') + zlen (c_orphans st') <= zlen (c_hashes st) + zlen (c_orphans st);
    g_osize : zlen (c_orphans st') <= zlen (c_orphans st);
    g_orph : forall k o, chain_get_orphan st' k = Some o -> chain_get_orphan st k = Some o;
    g_prevs : forall k o, aget beq k (c_prevs st') = Some o -> aget beq k (c_prevs st) = Some o;
    g_waiting : forall k o, aget beq k (c_prevs st) = Some o -> chain_get_orphan st' (hash o) = Some o ->
      aget beq k (c_prevs st') = Some o;
    g_rest : c_init st' = c_init st /\ c_genesis st' = c_genesis st /\ c_prefix st' = c_prefix st }.

  Lemma grow_refl st : grow st st.
  Proof. constructor; auto; lia. Qed.

  Lemma grow_trans a b c : grow a b -> grow b c -> grow a c.
  Proof.
    intros [K1 N1 T1 S1 O1 P1 V1 W1 R1] [K2 N2 T2 S2 O2 P2 V2 W2 R2]. constructor; auto; try lia.
    - intros k e H. apply N2 in H as [H|H]; auto.
    - destruct T2 as [->|T2]; auto. destruct T1 as [T1|T1]; [rewrite T1 in T2; auto|right; lia].
    - destruct R1 as (-> & -> & ->) in R2. exact R2.
  Qed.

  (** Header [h] on top of [p] breaks the rule that return code [rc] stands for. *)
  Definition broken (rc : Z) (st : chain) (h : hdr) (p : entry) : Prop :=
    (rc = 24 /\ exists ts m, last_times (chain_get st) 11 p ts /\ median ts m /\ h_time h <= m) \/
    (rc = 25 /\ time_rule st h p /\ exists b, bits_rule N (chain_get st) (h_time h) p b /\ h_bits h <> b).

  Lemma insert_err T F root low M st h p rc : insert_ok T F root low M st h p (Err rc) -> broken rc st h p.
  Proof.
    unfold broken. cbn [insert_ok]. destruct (Z.eq_dec rc 24) as [->|N1]; [auto|].
    destruct (Z.eq_dec rc 25) as [->|N2]; [auto|]. intros H. exfalso.
    destruct rc as [|q|q]; auto. do 6 (destruct q as [q|q|]; auto).
  Qed.

  (** What happens to the orphans of [st] when the result is [rc], [st']: they stay
      or are connected, but one that breaks a rule is dropped. *)
  Definition fate (rc : Z) (st st' : chain) : Prop :=
    (rc = 0 /\ forall k o, chain_get_orphan st k = Some o ->
       chain_get_orphan st' k = Some o \/ exists e, chain_get st' k = Some e) \/
    (exists d p, chain_get_orphan st (hash d) = Some d /\ chain_get_orphan st' (hash d) = None /\
       chain_get st' (hash d) = None /\ chain_get st' (h_prev d) = Some p /\ broken rc st' d p /\
       forall k o, chain_get_orphan st k = Some o ->
         k = hash d \/ chain_get_orphan st' k = Some o \/ exists e, chain_get st' k = Some e).

  (** How the flag "synced" may develop: it stays set, is set only by a header that is
      fresh and heavy enough, and is set by such a tip. *)
  Definition qualifies (now : Z) (e : entry) : Prop := maybe_sync N now false e = true.
  Record syncs (now : Z) (st st' : chain) : Prop := {
    s_mono : c_synced st = true -> c_synced st' = true;
    s_only : c_synced st' = true -> c_synced st = true \/ exists e, conn st' e /\ qualifies now e;
    s_tip : c_tip st' = c_tip st \/ (qualifies now (c_tip st') -> c_synced st' = true) }.
  Lemma syncs_same now st st' : c_tip st' = c_tip st -> c_synced st' = c_synced st -> syncs now st st'.
  Proof. intros E1 E2. constructor; rewrite ?E2; auto. Qed.
  Lemma syncs_trans now a b c : syncs now a b -> syncs now b c ->
    (forall k e, chain_get b k = Some e -> chain_get c k = Some e) -> syncs now a c.
  Proof.
    intros [M1 O1 T1] [M2 O2 T2] K. constructor; auto.
    - intros H. destruct (O2 H) as [H1|H1]; auto. destruct (O1 H1) as [H2|(e & C & Q)]; auto.
      right. exists e. split; auto. apply K, C.
    - destruct T2 as [E|T2]; auto. rewrite E. destruct T1 as [T1|T1]; auto.
  Qed.
  Lemma maybe_sync_cases now b e : maybe_sync N now b e = true <-> b = true \/ qualifies now e.
  Proof. unfold qualifies, maybe_sync. destruct b; [tauto|]. split; [auto|]. intros [H|H]; [discriminate|exact H]. Qed.
  Lemma save_syncs now st e st' : chain_save N now st e = Ok st' -> syncs now st st'.
  Proof.
    intros E. assert (X : c_tip st' = e /\ c_synced st' = maybe_sync N now (c_synced st) e /\ chain_get st' (e_hash e) = Some e).
    { unfold chain_save in E. match type of E with (if ?b then checkpoint_flush _ ?s else _) = _ => set (st1 := s) in * end.
      assert (X : c_tip st1 = e /\ c_synced st1 = maybe_sync N now (c_synced st) e /\ chain_get st1 (e_hash e) = Some e).
      { split; [reflexivity|]. split; [reflexivity|]. apply bget_set_same. }
      destruct (c_height st1 mod n_window N =? 0); [|apply Ok_inj in E; subst st'; exact X].
      unfold checkpoint_flush in E. destruct (negb (c_prefix st1)); [apply Ok_inj in E; subst st'; exact X|].
      destruct (c_height st1 - c_init st1 <=? n_window N); [apply Ok_inj in E; subst st'; exact X|].
      destruct (store_content N st1); cbn [obind] in E; try discriminate. apply Ok_inj in E. subst st'. exact X. }
    destruct X as (X1 & X2 & X3). constructor.
    - intros H. rewrite X2. apply maybe_sync_cases. auto.
    - rewrite X2. intros H. apply maybe_sync_cases in H as [H|H]; auto. right. exists e. split; auto.
    - right. rewrite X1, X2. intros H. apply maybe_sync_cases. auto.
  Qed.
  Lemma insert_syncs now st h hs prev st' : chain_insert N now st h hs prev = Ok st' -> syncs now st st'.
  Proof.
    unfold chain_insert. intros E. destruct (to_i64 (h_time h) <=? get_mtp (c_hashes st) prev); [discriminate|].
    destruct (get_target N (c_hashes st) (h_time h) prev) as [b|?| |]; cbn [obind] in E; try discriminate.
    destruct (negb (h_bits h =? b)); [discriminate|]. destruct (calc_work (h_bits h) (Some (e_work prev))) as [w|]; [|discriminate].
    destruct (negb (memcmp_gt w (e_work (c_tip st)))).
    { apply Ok_inj in E. subst st'. apply syncs_same; reflexivity. }
    destruct (negb (beq (h_prev h) (e_hash (c_tip st)))).
    - match type of E with obind ?x _ = _ => destruct x as [hh|?| |]; cbn [obind] in E; try discriminate end.
      apply save_syncs in E. destruct E as [E1 E2 E3]. constructor; assumption.
    - eapply save_syncs, E.
  Qed.

  Lemma resolve_spec T F root low M now : forall fuel st hs p, core T F root low M st -> orph F (Some hs) st ->
    chain_get st hs = Some p -> zlen (c_orphans st) < Z.of_nat fuel ->
    M + zlen (c_hashes st) + zlen (c_orphans st) < 2 ^ 32 ->
    match resolve_loop B256 B512 S3 fuel N now st hs with
    | Ok (rc, st') => fate rc st st' /\ core T F root low M st' /\ orph F None st' /\ grow st st' /\ syncs now st st'
    | Abort => ~ solo T root
    | _ => False
    end.
  Proof.
    induction fuel as [|fuel IH]; intros st hs p C O Hp Hf Hb.
    { unfold zlen in Hf. lia. }
    cbn [resolve_loop]. unfold resolve_orphan. destruct (aget beq hs (c_prevs st)) as [o|] eqn:Eo.
    2:{ split; [left; auto|]. split; auto. split; [|split; [apply grow_refl|apply syncs_same; reflexivity]]. destruct O as [O1 O2]. constructor; auto.
        intros k o Hk. destruct (O2 k o Hk) as (A & B & [D|D]); auto. injection D as <-. congruence. }
    destruct O as [O1 O2]. destruct (O2 hs o Eo) as (Ep & Eg & _).
    destruct (O1 _ _ Eg) as (_ & Oo & Po & To & No & Fo).
    set (st1 := with_orphans st (adel beq (hash o) (c_orphans st)) (adel beq (h_prev o) (c_prevs st))).
    change (chain_get st1 hs) with (chain_get st hs). rewrite Hp.
    assert (C1 : core T F root low M st1) by (eapply core_same; eauto; reflexivity).
    assert (LO : zlen (c_orphans st1) < zlen (c_orphans st)).
    { unfold zlen. cbn [c_orphans st1 with_orphans]. 
      pose proof (adel_length_present beq beq_true_iff (hash o) (c_orphans st) o Eg). lia. }
    assert (G1 : grow st st1).
    { constructor; auto.
      - change (c_hashes st1) with (c_hashes st). lia.
      - lia.
      - intros k o' H. unfold chain_get_orphan in H. cbn [c_orphans st1 with_orphans] in H.
        destruct (beq k (hash o)) eqn:E; [apply beq_true_iff in E; subst k; rewrite bget_del_same in H; discriminate|].
        apply beq_false_iff in E. rewrite bget_del_other in H by auto. exact H.
      - intros k o' H. cbn [c_prevs st1 with_orphans] in H.
        destruct (beq k (h_prev o)) eqn:E; [apply beq_true_iff in E; subst k; rewrite bget_del_same in H; discriminate|].
        apply beq_false_iff in E. rewrite bget_del_other in H by auto. exact H.
      - intros k o' H H'. cbn [c_prevs st1 with_orphans].
        destruct (beq k (h_prev o)) eqn:E.
        + apply beq_true_iff in E. subst k. rewrite Ep in H. rewrite Eo in H. injection H as <-.
          unfold chain_get_orphan in H'. cbn [c_orphans st1 with_orphans] in H'. rewrite bget_del_same in H'. discriminate.
        + apply beq_false_iff in E. rewrite bget_del_other by auto. exact H. }
    assert (O' : orph F None st1).
    { constructor.
      - intros k o' H. apply (g_orph _ _ G1) in H. apply O1. exact H.
      - intros k o' H. assert (H0 := H). apply (g_prevs _ _ G1) in H0.
        destruct (O2 _ _ H0) as (A1 & A2 & A3). split; auto. 
        assert (Nk : k <> hs).
        { intros ->. cbn [c_prevs st1 with_orphans] in H. rewrite Ep, bget_del_same in H. discriminate. }
        split.
        + unfold chain_get_orphan. cbn [c_orphans st1 with_orphans].
          rewrite bget_del_other; auto. intros E. rewrite E in A2. rewrite Eg in A2. injection A2 as <-. congruence.
        + left. destruct A3 as [A3|A3]; auto. congruence. }
    pose proof (insert_spec T F root low M st1 now o p C1 Oo To Po) as IS.
    change (chain_get st1) with (chain_get st) in IS. change (c_hashes st1) with (c_hashes st) in IS.
    rewrite Ep in IS. specialize (IS Hp No Fo). 
    assert (Bd : M + zlen (c_hashes st) + 1 < 2 ^ 32) by (unfold zlen in *; lia). specialize (IS Bd).
    pose proof (insert_syncs now st1 o (hash o) p) as Sy1.
    destruct (chain_insert N now st1 o (hash o) p) as [st2|rc| |]; cbn [insert_ok] in IS; auto.
    - specialize (Sy1 st2 eq_refl). destruct IS as (C2 & e & E1 & E2 & E3 & Sr & Tp). destruct Sr as (S1 & S2' & S3' & S4 & S5).
      change (c_hashes st1) with (c_hashes st) in E3.
      assert (Gs : chain_get st2 (hash o) = Some e) by (unfold chain_get; rewrite E3; apply bget_set_same).
      assert (Gn : forall k, k <> hash o -> chain_get st2 k = chain_get st k).
      { intros k Hk. unfold chain_get. rewrite E3. now apply bget_set_other. }
      assert (LH : zlen (c_hashes st2) = zlen (c_hashes st) + 1).
      { rewrite E3. unfold zlen. rewrite (aset_length_fresh beq beq_true_iff) by exact No. lia. }
      assert (LO2 : zlen (c_orphans st2) = zlen (c_orphans st1)) by (rewrite S3'; reflexivity).
      assert (G2 : grow st st2).
      { constructor.
        - intros k x H. rewrite Gn; auto. intros ->. congruence.
        - intros k x H. destruct (beq k (hash o)) eqn:E.
          + apply beq_true_iff in E. subst k. right. rewrite Gs in H. injection H as <-. rewrite E1. exact Eg.
          + apply beq_false_iff in E. rewrite Gn in H by auto. auto.
        - destruct Tp as [[Tp _]|[-> Tp]]; auto.
        - lia.
        - lia.
        - intros k o' H. apply (g_orph _ _ G1). unfold chain_get_orphan in *. rewrite <- S3'. exact H.
        - intros k o' H. apply (g_prevs _ _ G1). rewrite <- S4. exact H.
        - intros k o' H H'. rewrite S4. apply (g_waiting _ _ G1); auto. unfold chain_get_orphan in *. rewrite <- S3'. exact H'.
        - rewrite S1, S2', S5. auto. }
      assert (O2' : orph F (Some (hash o)) st2).
      { constructor.
        - intros k o' H. unfold chain_get_orphan in H. rewrite S3' in H.
          assert (H1 := H). apply (o_orph _ _ _ O') in H. destruct H as (A1 & A2 & A3 & A4 & A5 & A6).
          refine (conj A1 (conj A2 (conj A3 (conj A4 (conj _ A6))))).
          rewrite Gn; auto. intros E. subst k. rewrite E in H1. cbn [c_orphans st1 with_orphans] in H1.
            rewrite bget_del_same in H1. discriminate.
        - intros k o' H. rewrite S4 in H. destruct (o_prev _ _ _ O' _ _ H) as (A1 & A2 & A3). split; auto. split.
          + unfold chain_get_orphan in *. rewrite S3'. exact A2.
          + destruct (beq k (hash o)) eqn:E; [apply beq_true_iff in E; rewrite E; right; reflexivity|].
            apply beq_false_iff in E. left. rewrite Gn by auto. destruct A3 as [A3|A3]; [exact A3|discriminate A3]. }
      specialize (IH st2 (hash o) e C2 O2' Gs ltac:(lia) ltac:(lia)).
      destruct (resolve_loop B256 B512 S3 fuel N now st2 (hash o)) as [[rc st']|?| |]; auto.
      destruct IH as (I1 & I2 & I3 & I4 & I5). split; [|split; auto; split; auto; split; [eapply grow_trans; eauto|]].
      2:{ apply (syncs_trans now st st2 st'); [destruct Sy1 as [Y1 Y2 Y3]; constructor; assumption|exact I5|apply (g_keep _ _ I4)]. }
      assert (Keep : forall k o', chain_get_orphan st k = Some o' -> k = hash o \/ chain_get_orphan st2 k = Some o').
      { intros k o' H. destruct (beq k (hash o)) eqn:E; [apply beq_true_iff in E; auto|].
        apply beq_false_iff in E. right. unfold chain_get_orphan. rewrite S3'. cbn [c_orphans st1 with_orphans].
        rewrite bget_del_other by auto. exact H. }
      pose proof (g_keep _ _ I4 _ _ Gs) as Go.
      destruct I1 as [[-> I1]|(d & q & D1 & D2 & D3 & D4 & D5 & D6)]; [left|right].
      + split; auto. intros k o' H. destruct (Keep k o' H) as [->|H']; eauto.
      + exists d, q. split; [apply (g_orph _ _ G2); auto|]. do 4 (split; auto).
        intros k o' H. destruct (Keep k o' H) as [->|H']; eauto.
    - apply (insert_err T F root low M) in IS.
      assert (D : chain_get_orphan st1 (hash o) = None) by (unfold chain_get_orphan; apply bget_del_same).
      split.
      2:{ split; auto. split; auto. split; auto. apply syncs_same; reflexivity. }
      right. exists o, p.
      rewrite Ep. do 5 (split; auto). intros k o' H.
      destruct (beq k (hash o)) eqn:E; [apply beq_true_iff in E; auto|].
      apply beq_false_iff in E. right. left. unfold chain_get_orphan. cbn [c_orphans st1 with_orphans].
      rewrite bget_del_other by auto. exact H.
  Qed.

  (* ---------- one call of hsk_chain_add ---------- *)

  Definition inv T F root low M (st : chain) : Prop := core T F root low M st /\ orph F None st.

  Definition inserted (st st1 : chain) (h : hdr) (e : entry) : Prop :=
    e_hdr e = h /\ e_hash e = hash h /\ c_hashes st1 = aset beq (hash h) e (c_hashes st) /\ same_rest st st1 /\
    ((c_tip st1 = c_tip st /\ c_heights st1 = c_heights st /\ work_val e <= work_val (c_tip st)) \/
     (c_tip st1 = e /\ work_val (c_tip st) < work_val e)).

  Definition step (now : Z) (st : chain) (h : hdr) (rc : Z) (st' : chain) : Prop :=
    (st' = st /\ ((rc = 21 /\ now + 7200 < h_time h) \/ (rc = 22 /\ chain_get st (hash h) <> None) \/
       (rc = 23 /\ chain_get_orphan st (hash h) <> None) \/ (rc = pow h /\ pow h <> 0) \/
       (pow h = 0 /\ exists p, chain_get st (h_prev h) = Some p /\ broken rc st h p))) \/
    (rc = 26 /\ chain_get st (h_prev h) = None /\ chain_get st (hash h) = None /\
       chain_get_orphan st (hash h) = None /\ pow h = 0 /\
       let st1 := if 10000 <? zlen (c_orphans st) then with_orphans st [] [] else st in
       st' = with_orphans st1 (aset beq (hash h) h (c_orphans st1)) (aset beq (h_prev h) h (c_prevs st1))) \/
    (exists p e st1, chain_get st (h_prev h) = Some p /\ chain_get st (hash h) = None /\
       chain_get_orphan st (hash h) = None /\ pow h = 0 /\ 
       inserted st st1 h e /\ (fate rc st1 st' /\ syncs now st st') /\ grow st1 st').

  Lemma add_spec T F root low M now st h : inv T F root low M st ->
    hdr_ok h -> ~ In (hash h) F -> 0 <= now + 7200 < 2 ^ 63 ->
    M + zlen (c_hashes st) + zlen (c_orphans st) + 1 < 2 ^ 32 ->
    match chain_add B256 B512 S3 N now st h with
    | Ok (rc, st') => inv T F root low M st' /\ step now st h rc st'
    | Abort => ~ solo T root
    | _ => False
    end.
  Proof.
    intros [C O] Oh HF Hnow Hb. unfold chain_add.
    rewrite Z.mod_small by lia. destruct (Z.ltb_spec (now + 7200) (h_time h)) as [H1|H1].
    { split; [split; auto|]. left. auto. }
    destruct (ahas beq (hash h) (c_hashes st)) eqn:E1.
    { split; [split; auto|]. left. split; auto. right. left. split; auto.
      apply (ahas_true beq beq_true_iff) in E1 as [e E1]. unfold chain_get. congruence. }
    apply (ahas_false beq beq_true_iff) in E1.
    destruct (ahas beq (hash h) (c_orphans st)) eqn:E2.
    { split; [split; auto|]. left. split; auto. right. right. left. split; auto.
      apply (ahas_true beq beq_true_iff) in E2 as [e E2]. unfold chain_get_orphan. congruence. }
    apply (ahas_false beq beq_true_iff) in E2.
    destruct (Z.eqb_spec (pow h) 0) as [E3|E3]; cbn [negb].
    2:{ split; [split; auto|]. left. split; auto. right. right. right. left. auto. }
    destruct (chain_get st (h_prev h)) as [p|] eqn:Ep.
    - pose proof (insert_spec T F root low M st now h p C Oh ltac:(lia) E3 Ep E1 HF) as IS.
      assert (L1 : 0 <= zlen (c_orphans st)) by (unfold zlen; lia).
      specialize (IS ltac:(lia)).
      pose proof (insert_syncs now st h (hash h) p) as Sy1.
      destruct (chain_insert N now st h (hash h) p) as [st1|rc| |]; auto.
      + specialize (Sy1 st1 eq_refl). cbn [insert_ok] in IS. destruct IS as (C1 & e & I1 & I2 & I3 & I4 & I5).
        assert (Gs : chain_get st1 (hash h) = Some e) by (unfold chain_get; rewrite I3; apply bget_set_same).
        destruct I4 as (R1 & R2 & R3 & R4 & R5).
        assert (O1 : orph F (Some (hash h)) st1).
        { destruct O as [Oa Ob]. constructor.
          - intros k o H. unfold chain_get_orphan in H. rewrite R3 in H.
            assert (Nk : k <> hash h) by (intros ->; congruence).
            apply Oa in H. destruct H as (A1 & A2 & A3 & A4 & A5 & A6).
            refine (conj A1 (conj A2 (conj A3 (conj A4 (conj _ A6))))).
            unfold chain_get. rewrite I3, bget_set_other by auto. exact A5.
          - intros k o H. rewrite R4 in H. destruct (Ob _ _ H) as (A1 & A2 & A3). split; auto. split.
            + unfold chain_get_orphan in *. rewrite R3. exact A2.
            + destruct A3 as [A3|A3]; [|discriminate A3]. destruct (beq k (hash h)) eqn:E.
              * apply beq_true_iff in E. rewrite E. auto.
              * apply beq_false_iff in E. left. unfold chain_get. rewrite I3, bget_set_other by auto. exact A3. }
        assert (LH : zlen (c_hashes st1) = zlen (c_hashes st) + 1).
        { rewrite I3. unfold zlen. rewrite (aset_length_fresh beq beq_true_iff) by exact E1. lia. }
        pose proof (resolve_spec T F root low M now (S (length (c_orphans st1))) st1 (hash h) e C1 O1 Gs) as RS.
        rewrite LH in RS. rewrite R3 in *. specialize (RS ltac:(unfold zlen; lia) ltac:(lia)).
        destruct (resolve_loop B256 B512 S3 (S (length (c_orphans st))) N now st1 (hash h)) as [[rc st']|?| |]; auto.
        destruct RS as (Q1 & Q2 & Q3 & Q4 & Q5). split; [split; auto|]. right. right. exists p, e, st1.
        do 4 (split; auto). split; [unfold inserted, same_rest; auto 12|]. split; auto. split; auto.
        apply (syncs_trans now st st1 st'); auto. apply (g_keep _ _ Q4).
      + apply (insert_err T F root low M) in IS. split; [split; auto|]. left. split; auto. do 4 right. eauto.
    - set (st1 := if 10000 <? zlen (c_orphans st) then with_orphans st [] [] else st).
      assert (HH : c_hashes st1 = c_hashes st) by (unfold st1; destruct (10000 <? zlen (c_orphans st)); reflexivity).
      split; [split|].
      + eapply core_same; [exact C|..]; unfold st1; destruct (10000 <? zlen (c_orphans st)); reflexivity.
      + assert (OO : orph F None st1).
        { unfold st1. destruct (10000 <? zlen (c_orphans st)); auto. constructor; intros k o H; discriminate H. }
        assert (GG : forall k, chain_get (with_orphans st1 (aset beq (hash h) h (c_orphans st1)) (aset beq (h_prev h) h (c_prevs st1))) k = chain_get st k).
        { intros k. unfold chain_get. cbn [c_hashes with_orphans]. now rewrite HH. }
        destruct OO as [Oa Ob]. 
        assert (EQ : forall k, chain_get st1 k = chain_get st k) by (intros k; unfold chain_get; now rewrite HH).
        constructor.
        * intros k o H. rewrite GG. unfold chain_get_orphan in H. cbn [c_orphans with_orphans] in H.
          destruct (beq k (hash h)) eqn:E.
          -- apply beq_true_iff in E. subst k. rewrite bget_set_same in H. injection H as <-.
             split; auto. split; auto. split; auto. split; [lia|]. auto.
          -- apply beq_false_iff in E. rewrite bget_set_other in H by auto. rewrite <- EQ. apply Oa. exact H.
        * intros k o H. rewrite GG. cbn [c_prevs with_orphans] in H. unfold chain_get_orphan. cbn [c_orphans with_orphans].
          destruct (beq k (h_prev h)) eqn:E.
          -- apply beq_true_iff in E. subst k. rewrite bget_set_same in H. injection H as <-.
             split; auto. split; [apply bget_set_same|]. left. exact Ep.
          -- apply beq_false_iff in E. rewrite bget_set_other in H by auto.
             destruct (Ob _ _ H) as (A1 & A2 & A3). split; auto. split; [|rewrite <- EQ; exact A3].
             destruct (beq (hash o) (hash h)) eqn:E'.
             ++ apply beq_true_iff in E'. rewrite E' in A2. exfalso. 
                unfold st1, chain_get_orphan in A2. destruct (10000 <? zlen (c_orphans st)); [discriminate A2|congruence].
             ++ apply beq_false_iff in E'. rewrite bget_set_other by auto. exact A2.
      + right. left. auto 10.
  Qed.
End Facts.
