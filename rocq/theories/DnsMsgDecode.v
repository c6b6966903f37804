(** Decoding of arbitrary bytes: always an answer, and only records with the fields of
    their type. *)
From Verif Require Import Common CommonFacts BioModel BioFacts UtilTheorems DnsNameModel DnsNameSpec DnsNameFacts DnsNameTheorems DnsMsgModel DnsMsgSpec DnsMsgFacts.
From Coq Require Import Lia.

Definition dmp_ok (dmp : option (list Z)) : Prop := forall m, dmp = Some m -> bytes_ok m.
Lemma wire_labels dmp d p ls q h : wire dmp d p ls q h -> bytes_ok d -> dmp_ok dmp -> Forall (fun l => 1 <= zlen l <= 63 /\ bytes_ok l) ls.
Proof.
  induction 1 as [d p E'|d p c l ls q h E' R' El Ln W IH|d p c c1 m ls q h E' R' E1 Ed W IH]; intros Bd Bm; [constructor| |auto].
  constructor; auto. split; [lia|]. subst l. now apply bytes_ok_firstn, bytes_ok_skipn.
Qed.
Lemma name_read_wf dmp d : bytes_ok d -> dmp_ok dmp -> exists o, name_read dmp d = Ok o /\
  forall s x, o = Some (s, x) -> valid_name s /\ exists b, d = b ++ x /\ 1 <= zlen b.
Proof.
  intros Bd Bm. destruct (parse_exact dmp d Bd Bm) as (r & R & X). unfold name_read. rewrite R. destruct r as [[s n]|]; [|exists None; split; [auto|discriminate]].
  exists (Some (s, skipn (Z.to_nat n) d)). split; [reflexivity|]. intros s' x E. apply some_inj in E. pose proof (f_equal fst E) as E1. pose proof (f_equal snd E) as E2. cbn [fst snd] in E1, E2. subst s' x.
  pose proof (parse_inside dmp d s n Bd Bm R) as (In & _). destruct (proj1 (X s n) eq_refl) as (ls & q & h & W & Hh & L & -> & Eq). split.
  - exists (map (map shown) ls). assert (D : dotted (map (map shown) ls) = text ls).
    { destruct ls as [|l ls]; [reflexivity|]. unfold dotted, text. cbn [map]. change (map shown l :: map (map shown) ls) with (map (map shown) (l :: ls)). now rewrite map_map. }
    split; [split; [|now rewrite D]|now rewrite D]. apply Forall_map.
    eapply Forall_impl; [|exact (wire_labels _ _ _ _ _ _ W Bd Bm)]. intros l [Hl Hb]. split; [now rewrite zlen_map|]. apply Forall_map. eapply Forall_impl; [|exact Hb].
    unfold is_byte, pchar, shown. intros b Hbb. destruct (Z.eqb_spec b 0); [lia|]. destruct (Z.eqb_spec b 46); lia.
  - exists (firstn (Z.to_nat n) d). split; [symmetry; apply firstn_skipn|]. unfold zlen in *. rewrite firstn_length. lia.
Qed.
Lemma nsize_bound s : valid_name s -> nsize s <= 256.
Proof. intros (ls & [_ L] & ->). unfold nsize. destruct (beq _ _); lia. Qed.

Lemma get_txts_wf fuel : forall d acc, (length d <= fuel)%nat -> bytes_ok d -> Forall (fun t => bytes_ok t /\ zlen t <= 255) acc -> zlen acc <= 255 ->
  forall l, get_txts fuel d acc = Some l -> Forall (fun t => bytes_ok t /\ zlen t <= 255) l /\ zlen l <= 255 /\
    fold_right Z.add 0 (map (fun t => 1 + zlen t) l) <= fold_right Z.add 0 (map (fun t => 1 + zlen t) acc) + zlen d.
Proof.
  induction fuel as [|fuel IH]; intros d acc Hf Bd Fa La l E.
  - destruct d; [|cbn in Hf; lia]. cbn in E. apply some_inj in E. subst. change (zlen (@nil Z)) with 0. auto with zarith.
  - destruct d as [|n d]; cbn [get_txts] in E; [apply some_inj in E; subst; change (zlen (@nil Z)) with 0; auto with zarith|].
    unfold read_bytes in E. destruct (take (Z.to_nat n) d) as [[t d']|] eqn:T; [|discriminate]. apply take_some in T as [-> Lt].
    apply bytes_ok_cons in Bd as [Bn Bd]. apply bytes_ok_app in Bd as [Bt Bd']. unfold is_byte in Bn. cbn [length] in Hf. rewrite app_length in Hf.
    assert (Ht : zlen t <= 255) by (unfold zlen; lia). rewrite zlen_cons, zlen_app. pose proof (zlen_nonneg t).
    destruct (Z.eqb_spec (zlen acc) 255).
    + apply IH in E; auto; [|lia]. destruct E as (E1 & E2 & E3). split; [auto|]. split; [auto|]. lia.
    + apply IH in E; auto; [|lia|apply Forall_app; split; auto|rewrite zlen_app; change (zlen [t]) with 1; lia].
      destruct E as (E1 & E2 & E3). split; [auto|]. split; [auto|]. rewrite map_app, fold_right_app in E3. cbn [map fold_right] in E3.
      assert (K : forall l x, fold_right Z.add x l = fold_right Z.add 0 l + x) by (clear; induction l; intros; cbn [fold_right]; [lia|rewrite IHl; lia]). rewrite (K _ (1 + zlen t + 0)) in E3. lia.
Qed.
Lemma get_field_wf dmp k d : bytes_ok d -> dmp_ok dmp -> exists o, get_field dmp k d = Ok o /\
  forall v x, o = Some (v, x) -> field_ok k v /\ bytes_ok x /\ field_size k v <= zlen d - zlen x + 255 * zlen (field_names k v).
Proof.
  intros Bd Bm. destruct k; cbn [get_field].
  - destruct (name_read_wf dmp d Bd Bm) as (o & R & X). rewrite R. cbn [obind]. eexists. split; [reflexivity|]. destruct o as [[s y]|]; [|discriminate].
    intros v x E. apply some_inj in E. inversion E; subst. destruct (X s x eq_refl) as (V & b & -> & L). apply bytes_ok_app in Bd. split; [exact V|]. split; [tauto|].
    cbn [field_size field_names]. pose proof (nsize_bound s V). rewrite zlen_app. change (zlen [s]) with 1. lia.
  - eexists. split; [reflexivity|]. destruct (read_be n d) as [[y z]|] eqn:R; [|discriminate]. intros v x E. apply some_inj in E. inversion E; subst.
    apply read_be_some in R as (-> & H & B); auto. split; [exact H|]. split; [exact B|]. cbn [field_size field_names]. rewrite zlen_app, be_bytes_zlen. change (zlen (@nil (list Z))) with 0. lia.
  - eexists. split; [reflexivity|]. unfold read_bytes. destruct (take n d) as [[y z]|] eqn:R; [|discriminate]. intros v x E. apply some_inj in E. inversion E; subst.
    apply take_some in R as [-> L]. apply bytes_ok_app in Bd as [B1 B2]. split; [split; auto|]. split; [auto|]. cbn [field_size field_names]. rewrite zlen_app. change (zlen (@nil (list Z))) with 0. lia.
  - eexists. split; [reflexivity|]. destruct d as [|n d]; cbn [read_u8]; [discriminate|]. unfold read_bytes. destruct (take (Z.to_nat n) d) as [[y z]|] eqn:R; [|discriminate]. intros v x E. apply some_inj in E. inversion E; subst.
    apply take_some in R as [-> L]. apply bytes_ok_cons in Bd as [Bn Bd]. apply bytes_ok_app in Bd as [B1 B2]. unfold is_byte in Bn. split; [split; [auto|unfold zlen; lia]|]. split; [auto|].
    cbn [field_size field_names]. rewrite zlen_cons, zlen_app. change (zlen (@nil (list Z))) with 0. lia.
  - eexists. split; [reflexivity|]. intros v x E. apply some_inj in E. inversion E; subst. split; [exact Bd|]. split; [constructor|]. cbn [field_size field_names]. change (zlen (@nil (list Z))) with 0. change (zlen (@nil Z)) with 0. lia.
  - eexists. split; [reflexivity|]. destruct (get_txts (length d) d []) as [l|] eqn:R; [|discriminate]. intros v x E. apply some_inj in E. inversion E; subst.
    apply get_txts_wf in R; auto; [|unfold zlen; cbn; lia]. destruct R as (R1 & R2 & R3). split; [split; auto|]. split; [constructor|]. cbn [field_size field_names map fold_right] in *.
    change (zlen (@nil (list Z))) with 0. change (zlen (@nil Z)) with 0. lia.
Qed.
Lemma get_fields_wf dmp ks : forall d, bytes_ok d -> dmp_ok dmp -> exists o, get_fields dmp ks d = Ok o /\
  forall vs, o = Some vs -> Forall2 field_ok ks vs /\ fields_size ks vs <= zlen d + 255 * zlen (fields_names ks vs).
Proof.
  induction ks as [|k ks IH]; intros d Bd Bm; cbn [get_fields].
  - exists (Some []). split; [reflexivity|]. intros vs E. apply some_inj in E. subst. split; [constructor|]. cbn [fields_size fields_names]. change (zlen (@nil (list Z))) with 0. pose proof (zlen_nonneg d). lia.
  - destruct (get_field_wf dmp k d Bd Bm) as (o & R & X). rewrite R. cbn [obind]. destruct o as [[v x]|]; [|exists None; split; [auto|discriminate]].
    destruct (X v x eq_refl) as (F & Bx & Sz). destruct (IH x Bx Bm) as (o2 & R2 & X2). rewrite R2. cbn [obind]. eexists. split; [reflexivity|].
    destruct o2 as [vs|]; [|discriminate]. intros vs' E. apply some_inj in E. subst vs'. destruct (X2 vs eq_refl) as [F2 Sz2]. split; [constructor; auto|].
    cbn [fields_size fields_names]. rewrite zlen_app. lia.
Qed.

(** A record with the fields of its type; its data is at most [n] bytes *)
Definition record_of (n : Z) (r : rr) : Prop :=
  head_ok r /\ exists vs, r_rd r = Some vs /\ Forall2 field_ok (layout (r_type r)) vs /\ fields_size (layout (r_type r)) vs <= n + 255 * zlen (fields_names (layout (r_type r)) vs).
Definition item_ok (n : Z) (i : item) : Prop := if fst i then question_ok (snd i) else record_of n (snd i).
Lemma item_read_wf n i dmp d : bytes_ok d -> dmp_ok dmp -> zlen d <= n -> exists o, ird i dmp d = Ok o /\
  forall r x, o = Some (r, x) -> item_ok n (fst i, r) /\ bytes_ok x /\ zlen x < zlen d.
Proof.
  intros Bd Bm Hn. destruct i as [[|] r0]; unfold ird, item_ok; cbn [fst snd]; [unfold qs_read|unfold rr_read];
    destruct (name_read_wf dmp d Bd Bm) as (o & R & X); rewrite R; cbn [obind]; (destruct o as [[s y]|]; [|exists None; split; [auto|discriminate]]);
    destruct (X s y eq_refl) as (V & b & -> & L); apply bytes_ok_app in Bd as [_ By]; rewrite zlen_app in *; unfold read_u16be, read_u32be.
  - destruct (read_be 2 y) as [[t y1]|] eqn:R1; [|exists None; split; [auto|discriminate]]. apply read_be_some in R1 as (-> & Ht & B1); auto.
    destruct (read_be 2 y1) as [[c y2]|] eqn:R2; [|exists None; split; [auto|discriminate]]. apply read_be_some in R2 as (-> & Hc & B2); auto.
    eexists. split; [reflexivity|]. intros r x E. apply some_inj in E. pose proof (f_equal fst E) as E1. pose proof (f_equal snd E) as E2. cbn [fst snd] in E1, E2. subst r x.
    rewrite !zlen_app, !be_bytes_zlen. split; [|split; [auto|lia]]. repeat split; cbn [r_name r_type r_class r_ttl r_rd]; auto; lia.
  - destruct (read_be 2 y) as [[t y1]|] eqn:R1; [|exists None; split; [auto|discriminate]]. apply read_be_some in R1 as (-> & Ht & B1); auto.
    destruct (read_be 2 y1) as [[c y2]|] eqn:R2; [|exists None; split; [auto|discriminate]]. apply read_be_some in R2 as (-> & Hc & B2); auto.
    destruct (read_be 4 y2) as [[tt y3]|] eqn:R3; [|exists None; split; [auto|discriminate]]. apply read_be_some in R3 as (-> & Htt & B3); auto.
    destruct (read_be 2 y3) as [[len y4]|] eqn:R4; [|exists None; split; [auto|discriminate]]. apply read_be_some in R4 as (-> & Hlen & B4); auto.
    destruct (Z.ltb_spec (zlen y4) len); [exists None; split; [auto|discriminate]|]. unfold rd_read. rewrite kinds_read.
    destruct (get_fields_wf dmp (layout t) (firstn (Z.to_nat len) y4)) as (o2 & R5 & X5); [now apply bytes_ok_firstn|auto|]. rewrite R5. cbn [obind].
    eexists. split; [reflexivity|]. destruct o2 as [vs|]; [|discriminate]. destruct (X5 vs eq_refl) as [F5 S5].
    intros r x E. apply some_inj in E. pose proof (f_equal fst E) as E1. pose proof (f_equal snd E) as E2. cbn [fst snd] in E1, E2. subst r x.
    rewrite !zlen_app, !be_bytes_zlen in *. assert (L1 : zlen (firstn (Z.to_nat len) y4) <= zlen y4) by (unfold zlen; rewrite firstn_length; lia).
    assert (L2 : zlen (skipn (Z.to_nat len) y4) <= zlen y4) by (unfold zlen; rewrite skipn_length; lia). pose proof (zlen_nonneg y4).
    split; [|split; [now apply bytes_ok_skipn|lia]]. split; [repeat split; cbn [r_name r_type r_class r_ttl r_rd]; auto; lia|].
    exists vs. cbn [r_rd r_type]. split; [reflexivity|]. split; [exact F5|]. lia.
Qed.
Lemma sect_read_wf n q dmp num : forall d acc, bytes_ok d -> dmp_ok dmp -> zlen d <= n -> Forall (fun r => item_ok n (q, r)) acc -> zlen acc <= 255 ->
  exists o, sect_read (ird (q, edns_rr)) dmp num d acc = Ok o /\
  forall l x, o = Some (l, x) -> Forall (fun r => item_ok n (q, r)) l /\ zlen l <= 255 /\ bytes_ok x /\ zlen x <= zlen d.
Proof.
  assert (P : forall l r, zlen l <= 255 -> Forall (fun r => item_ok n (q, r)) l -> item_ok n (q, r) -> Forall (fun r => item_ok n (q, r)) (rrs_push l r) /\ zlen (rrs_push l r) <= 255).
  { intros l r L F I. unfold rrs_push. destruct (Z.eqb_spec (zlen l) 255); [auto|]. split; [apply Forall_app; auto|]. rewrite zlen_app. change (zlen [r]) with 1. lia. }
  induction num as [|num IH]; intros d acc Bd Bm Hn Fa La; cbn [sect_read].
  - eexists. split; [reflexivity|]. intros l x E. apply some_inj in E. pose proof (f_equal fst E) as E1. pose proof (f_equal snd E) as E2. cbn [fst snd] in E1, E2. subst l x. auto with zarith.
  - destruct d as [|d0 d']; [|remember (d0 :: d') as d eqn:Ed; clear Ed d0 d'].
    + eexists. split; [reflexivity|]. intros l x E. apply some_inj in E. pose proof (f_equal fst E) as E1. pose proof (f_equal snd E) as E2. cbn [fst snd] in E1, E2. subst l x. auto with zarith.
    + destruct (item_read_wf n (q, edns_rr) dmp d Bd Bm Hn) as (o & R & X). rewrite R. cbn [obind]. destruct o as [[r x]|]; [|exists None; split; [auto|discriminate]].
      destruct (X r x eq_refl) as (I & Bx & Lx). cbn [fst] in I. destruct (P acc r La Fa I) as [P1 P2]. destruct (IH x (rrs_push acc r) Bx Bm) as (o & R' & X'); auto; [lia|].
      exists o. split; [exact R'|]. intros l y E. destruct (X' l y E) as (Y1 & Y2 & Y3 & Y4). repeat split; auto. lia.
Qed.
Definition ar_wf (n : Z) (m : msg) : Prop :=
  Forall (fun r => record_of n r /\ r_type r <> 41) (m_ar m) /\ zlen (m_ar m) <= 255 /\ 0 <= m_code m < 4096 /\
  ((m_edns m = edns_init /\ m_code m < 16) \/ e_enabled (m_edns m) = true) /\
  0 <= e_version (m_edns m) < 256 /\ 0 <= e_flags (m_edns m) < 65536 /\ 0 <= e_size (m_edns m) < 65536 /\ 0 <= e_code (m_edns m) < 256 /\ bytes_ok (e_rd (m_edns m)) /\ zlen (e_rd (m_edns m)) <= n.
Lemma ar_read_wf n dmp num : forall d m, bytes_ok d -> dmp_ok dmp -> zlen d <= n -> ar_wf n m ->
  exists o, ar_read dmp num d m = Ok o /\
  forall m', o = Some m' -> ar_wf n m' /\ m_id m' = m_id m /\ m_opcode m' = m_opcode m /\ m_flags m' = m_flags m /\ m_qd m' = m_qd m /\ m_an m' = m_an m /\ m_ns m' = m_ns m /\ m_code m' mod 16 = m_code m mod 16.
Proof.
  induction num as [|num IH]; intros d m Bd Bm Hn Fm; cbn [ar_read].
  - exists (Some m). split; [reflexivity|]. intros m' E. apply some_inj in E. subst m'. auto 10.
  - destruct d as [|d0 d']; [|remember (d0 :: d') as d eqn:Ed; clear Ed d0 d'].
    + exists (Some m). split; [reflexivity|]. intros m' E. apply some_inj in E. subst m'. auto 10.
    + destruct (item_read_wf n (false, edns_rr) dmp d Bd Bm Hn) as (o & R & X). rewrite ird_rr in R. rewrite R. cbn [obind]. destruct o as [[r x]|]; [|exists None; split; [auto|discriminate]].
      destruct (X r x eq_refl) as (I & Bx & Lx). unfold item_ok in I. cbn [fst snd] in I. destruct Fm as (F1 & F2 & F3 & F4 & F5 & F6 & F7 & F8 & F9 & F10). destruct (Z.eqb_spec (r_type r) 41) as [T|T].
      * destruct I as ((_ & _ & Hc & Ht) & vs & Hr & Fv & Sv). rewrite T in *. change (layout 41) with [KRest] in *. inversion Fv as [|? v ? vs' V1 V2]; subst. inversion V2; subst. destruct v as [|b|]; try contradiction. cbn [field_ok fields_size field_size fields_names field_names app] in *. change (zlen (@nil (list Z))) with 0 in Sv.
        assert (A1 : 0 <= Z.land (Z.shiftr (r_ttl r) 24) 255 < 256) by (change 255 with (Z.ones 8); rewrite Z.land_ones by lia; apply Z.mod_pos_bound; lia).
        assert (A2 : 0 <= Z.land (Z.shiftr (r_ttl r) 16) 255 < 256) by (change 255 with (Z.ones 8); rewrite Z.land_ones by lia; apply Z.mod_pos_bound; lia).
        assert (A3 : 0 <= Z.land (r_ttl r) 65535 < 65536) by (change 65535 with (Z.ones 16); rewrite Z.land_ones by lia; apply Z.mod_pos_bound; lia).
        set (code := Z.land (Z.shiftr (r_ttl r) 24) 255) in *.
        assert (C1 : 0 <= Z.lor (m_code m) (Z.shiftl code 4) < 4096).
        { assert (N : 0 <= Z.lor (m_code m) (Z.shiftl code 4)) by (apply Z.lor_nonneg; split; [lia|apply Z.shiftl_nonneg; lia]). split; [exact N|].
          assert (Lg : Z.log2 (Z.lor (m_code m) (Z.shiftl code 4)) <= 11).
          { rewrite Z.log2_lor; [|lia|apply Z.shiftl_nonneg; lia]. apply Z.max_lub; [apply (Z.log2_le_mono _ 4095); lia|]. rewrite Z.shiftl_mul_pow2 by lia. apply (Z.log2_le_mono _ 4095). change (2 ^ 4) with 16. lia. }
          destruct (Z.eq_dec (Z.lor (m_code m) (Z.shiftl code 4)) 0) as [->|Nz]; [lia|]. apply (Z.log2_lt_pow2 _ 12); lia. }
        assert (C2 : Z.lor (m_code m) (Z.shiftl code 4) mod 16 = m_code m mod 16).
        { rewrite <- !land15, Z.land_lor_distr_l. change 15 with (Z.ones 4). rewrite (Z.land_ones (Z.shiftl code 4)) by lia. rewrite Z.shiftl_mul_pow2, Z.mod_mul by lia. apply Z.lor_0_r. }
        assert (W : ar_wf n (set_opt m r)).
        { unfold set_opt, ar_wf. rewrite Hr. fold code. cbn [m_ar m_code m_edns e_enabled e_version e_flags e_size e_code e_rd]. pose proof (zlen_nonneg d). split; [exact F1|]. split; [exact F2|]. split; [exact C1|]. split; [auto|]. repeat (split; [lia|]). split; [exact V1|lia]. }
        destruct (IH x (set_opt m r) Bx Bm) as (o & R' & X'); auto; [lia|]. exists o. split; [exact R'|]. intros m' E. destruct (X' m' E) as (Y1 & Y2 & Y3 & Y4 & Y5 & Y6 & Y7 & Y8).
        split; [exact Y1|]. unfold set_opt in Y2, Y3, Y4, Y5, Y6, Y7, Y8. cbn [m_id m_opcode m_flags m_qd m_an m_ns m_code] in *. repeat (split; [assumption|]). rewrite Y8. exact C2.
      * assert (W : ar_wf n (add_ar m r)).
        { unfold add_ar, ar_wf, rrs_push. cbn. split; [|split; [|split; [lia|split; [exact F4|repeat (split; [lia|]); auto]]]].
          - destruct (Z.eqb_spec (zlen (m_ar m)) 255); [auto|]. apply Forall_app. auto.
          - destruct (Z.eqb_spec (zlen (m_ar m)) 255); [auto|]. rewrite zlen_app. change (zlen [r]) with 1. lia. }
        destruct (IH x (add_ar m r) Bx Bm) as (o & R' & X'); auto; [lia|]. exists o. split; [exact R'|]. intros m' E. destruct (X' m' E) as (Y1 & Y2). split; [exact Y1|exact Y2].
Qed.

(** What decoding [b] yields *)
Definition decoded (b : list Z) (m : msg) : Prop :=
  m_id m = be_val (firstn 2 b) /\ m_flags m = be_val (firstn 2 (skipn 2 b)) /\ m_opcode m = m_flags m / 2048 mod 16 /\ 0 <= m_code m < 4096 /\ m_code m mod 16 = m_flags m mod 16 /\
  ((m_edns m = edns_init /\ m_code m < 16) \/
   (e_enabled (m_edns m) = true /\ 0 <= e_version (m_edns m) < 256 /\ 0 <= e_flags (m_edns m) < 65536 /\ 0 <= e_size (m_edns m) < 65536 /\ 0 <= e_code (m_edns m) < 256 /\ bytes_ok (e_rd (m_edns m)) /\ zlen (e_rd (m_edns m)) <= zlen b)) /\
  (zlen (m_qd m) <= 255 /\ zlen (m_an m) <= 255 /\ zlen (m_ns m) <= 255 /\ zlen (m_ar m) <= 255) /\
  Forall question_ok (m_qd m) /\ Forall (record_of (zlen b)) (m_an m) /\ Forall (record_of (zlen b)) (m_ns m) /\ Forall (fun r => record_of (zlen b) r /\ r_type r <> 41) (m_ar m).
Lemma read_u16be_start d v r : bytes_ok d -> read_u16be d = Some (v, r) -> v = be_val (firstn 2 d) /\ r = skipn 2 d /\ 0 <= v < 65536 /\ bytes_ok r /\ zlen r <= zlen d.
Proof.
  intros B E. pose proof E as E0. apply read_be_some in E0 as (Ed & H & Br); auto. unfold read_u16be, read_be in E. destruct (take 2 d) as [[a x]|] eqn:T; [|discriminate].
  apply some_inj in E. pose proof (f_equal fst E) as E1. pose proof (f_equal snd E) as E2. cbn [fst snd] in E1, E2. apply take_some in T as [Ta La]. subst v x. subst d. split; [rewrite firstn_app, La, Nat.sub_diag, firstn_O, app_nil_r; now rewrite firstn_all2 by lia|].
  split; [rewrite skipn_app, La, Nat.sub_diag, skipn_O; now rewrite skipn_all2 by lia|]. split; [lia|]. split; [auto|]. rewrite zlen_app. pose proof (zlen_nonneg a). lia.
Qed.
Lemma decode_wf b : bytes_ok b -> exists o, msg_decode b = Ok o /\ forall m, o = Some m -> decoded b m.
Proof.
  intros B. assert (Bm : dmp_ok (Some b)) by (intros m E; apply some_inj in E; now subst). unfold msg_decode.
  destruct (read_u16be b) as [[id d1]|] eqn:R1; [|exists None; split; [auto|discriminate]]. apply read_u16be_start in R1 as (I1 & I2 & I3 & B1 & L1); auto.
  destruct (read_u16be d1) as [[fl d2]|] eqn:R2; [|exists None; split; [auto|discriminate]]. apply read_u16be_start in R2 as (J1 & J2 & J3 & B2 & L2); auto. rewrite I2 in J1. clear I2 J2.
  destruct (read_u16be d2) as [[qd d3]|] eqn:R3; [|exists None; split; [auto|discriminate]]. apply read_u16be_start in R3 as (_ & _ & _ & B3 & L3); auto.
  destruct (read_u16be d3) as [[an d4]|] eqn:R4; [|exists None; split; [auto|discriminate]]. apply read_u16be_start in R4 as (_ & _ & _ & B4 & L4); auto.
  destruct (read_u16be d4) as [[ns d5]|] eqn:R5; [|exists None; split; [auto|discriminate]]. apply read_u16be_start in R5 as (_ & _ & _ & B5 & L5); auto.
  destruct (read_u16be d5) as [[ar d6]|] eqn:R6; [|exists None; split; [auto|discriminate]]. apply read_u16be_start in R6 as (_ & _ & _ & B6 & L6); auto.
  rewrite <- (ird_qs edns_rr). destruct (sect_read_wf (zlen b) true (Some b) (Z.to_nat qd) d6 [] B6 Bm) as (o1 & S1 & X1); [lia|constructor|unfold zlen; cbn; lia|].
  rewrite S1. cbn [obind]. destruct o1 as [[lq e1]|]; [|exists None; split; [auto|discriminate]]. destruct (X1 _ _ eq_refl) as (F1 & N1 & G1 & M1). clear S1 X1.
  rewrite <- (ird_rr edns_rr). destruct (sect_read_wf (zlen b) false (Some b) (Z.to_nat an) e1 [] G1 Bm) as (o2 & S2 & X2); [lia|constructor|unfold zlen; cbn; lia|].
  rewrite S2. cbn [obind]. destruct o2 as [[la e2]|]; [|exists None; split; [auto|discriminate]]. destruct (X2 _ _ eq_refl) as (F2 & N2 & G2 & M2). clear S2 X2.
  destruct (sect_read_wf (zlen b) false (Some b) (Z.to_nat ns) e2 [] G2 Bm) as (o3 & S3 & X3); [lia|constructor|unfold zlen; cbn; lia|].
  rewrite S3. cbn [obind]. destruct o3 as [[ln e3]|]; [|exists None; split; [auto|discriminate]]. destruct (X3 _ _ eq_refl) as (F3 & N3 & G3 & M3). clear S3 X3.
  match goal with |- context [ar_read (Some b) _ e3 ?m0] => remember m0 as M eqn:EM end.
  assert (Hc : Z.land fl 15 = fl mod 16) by apply land15. assert (Ho : Z.land (Z.shiftr fl 11) 15 = fl / 2048 mod 16) by (rewrite land15, Z.shiftr_div_pow2 by lia; reflexivity).
  assert (Hd : m_opcode M = fl / 2048 mod 16 /\ m_code M = fl mod 16 /\ m_id M = id /\ m_flags M = fl /\ m_qd M = lq /\ m_an M = la /\ m_ns M = ln) by (rewrite EM; cbn [m_opcode m_code m_id m_flags m_qd m_an m_ns]; auto 10).
  destruct Hd as (D1 & D2 & D3 & D4 & D5 & D6 & D7).
  destruct (ar_read_wf (zlen b) (Some b) (Z.to_nat ar) e3 M G3 Bm) as (o & S4 & X4); [lia| |].
  { unfold ar_wf. rewrite D2, EM. cbn [m_ar m_edns edns_init e_version e_flags e_size e_code e_rd]. clear. split; [constructor|]. split; [unfold zlen; cbn; lia|]. split; [lia|]. split; [left; split; [reflexivity|lia]|].
    repeat (split; [lia|]). split; [constructor|]. change (zlen (@nil Z)) with 0. apply zlen_nonneg. }
  exists o. split; [exact S4|]. intros m Em. destruct (X4 m Em) as ((A1 & A2 & A3 & A4 & A5) & A6 & A7 & A8 & A9 & A10 & A11 & A12).
  rewrite D1, D2, D3, D4, D5, D6, D7 in *. unfold decoded. rewrite A6, A7, A8, A9, A10, A11, A12. split; [exact I1|]. split; [exact J1|]. split; [reflexivity|]. split; [exact A3|]. split; [rewrite Z.mod_mod by lia; reflexivity|].
  split; [destruct A4 as [A4|A4]; [left; exact A4|right; split; [exact A4|exact A5]]|]. split; [auto|]. split; [exact F1|]. split; [exact F2|]. split; [exact F3|exact A1].
Qed.
Lemma layout_names t vs : zlen (fields_names (layout t) vs) <= 2.
Proof.
  assert (K : forall ks vs, zlen (fields_names ks vs) <= zlen (filter (fun k => match k with KName => true | _ => false end) ks)).
  { clear. induction ks as [|k ks IH]; intros [|v vs]; cbn [fields_names filter]; try (change (zlen (@nil (list Z))) with 0; apply zlen_nonneg).
    rewrite zlen_app. specialize (IH vs). destruct k; cbn [field_names]; try (change (zlen (@nil (list Z))) with 0; exact IH). rewrite zlen_cons.
    destruct v; [change (zlen (@nil (list Z))) with 0|change (zlen [b]) with 1|change (zlen (@nil (list Z))) with 0]; lia. }
  eapply Z.le_trans; [apply K|]. unfold layout. destruct (find _ layouts) as [[t' ks]|] eqn:E; [|unfold zlen; cbn; lia]. apply find_some in E as [E _]. cbn [snd].
  assert (A : Forall (fun e : Z * list kind => zlen (filter (fun k => match k with KName => true | _ => false end) (snd e)) <= 2) layouts) by (unfold layouts; repeat constructor; unfold zlen; cbn; lia).
  rewrite Forall_forall in A. exact (A _ E).
Qed.
Lemma record_of_ok n r : n <= 65000 -> record_of n r -> record_ok r.
Proof. intros Hn (H & vs & E & F & Sz). split; [exact H|]. exists vs. split; [exact E|]. split; [exact F|]. pose proof (layout_names (r_type r) vs). lia. Qed.
Lemma decoded_msg_ok b m : zlen b <= 65000 -> decoded b m -> bytes_ok b -> within 0 (msg_names m) -> (e_enabled (m_edns m) = true -> e_code (m_edns m) = m_code m / 16) -> msg_ok m.
Proof.
  intros Lb (H1 & H2 & H3 & H4 & H5 & H6 & H7 & H8 & H9 & H10 & H11) B W Ec.
  assert (V : forall d, bytes_ok d -> 0 <= be_val (firstn 2 d) < 65536).
  { intros d Bd. assert (Bf := bytes_ok_firstn 2 d Bd). destruct (firstn 2 d) as [|x [|y [|z t]]] eqn:E; cbn.
    - lia.
    - inversion Bf as [|? ? X1 X2]; subst. unfold is_byte in *. lia.
    - inversion Bf as [|? ? X1 X2]; subst. inversion X2; subst. unfold is_byte in *. lia.
    - pose proof (firstn_le_length 2 d) as Q. rewrite E in Q. cbn in Q. lia. }
  split; [|split; [|split; [exact H7|split; [exact H8|split; [|split; [|split; [|exact W]]]]]]].
  - unfold header_ok. rewrite H1, H2 in *. split; [apply V; auto|]. split; [apply V; now apply bytes_ok_skipn|]. auto.
  - unfold edns_ok. destruct H6 as [[-> H6]|(En & Q1 & Q2 & Q3 & Q4 & Q5 & Q6)]; [cbn; auto|]. rewrite En. repeat (split; [lia|]). split; [exact Q5|lia].
  - eapply Forall_impl; [|exact H9]. intros r. now apply record_of_ok.
  - eapply Forall_impl; [|exact H10]. intros r. now apply record_of_ok.
  - eapply Forall_impl; [|exact H11]. cbn. intros r [Hr Ht]. split; [now apply (record_of_ok (zlen b))|exact Ht].
Qed.

(** Whatever the bytes of the items, if each is read back the message is. *)
Lemma decode_chunks m bs : header_ok m -> edns_ok m -> (zlen (m_qd m) <= 255 /\ zlen (m_an m) <= 255 /\ zlen (m_ns m) <= 255 /\ zlen (m_ar m) <= 255) -> Forall (fun r => r_type r <> 41) (m_ar m) ->
  chunked (hdr m) (msg_items m) bs -> msg_decode (hdr m ++ concat bs) = Ok (Some m).
Proof.
  intros Hh He (Lq & La & Ln & Lr) Ft Ch. assert (Bd : bytes_ok (hdr m ++ concat bs)) by (apply bytes_ok_app; split; [apply hdr_ok|exact (chunked_bytes _ _ _ Ch)]).
  unfold msg_items in Ch.
  destruct (chunked_split _ _ _ _ Ch) as (b1 & r1 & -> & C1 & D1). destruct (chunked_split _ _ _ _ D1) as (b2 & r2 & -> & C2 & D2).
  destruct (chunked_split _ _ _ _ D2) as (b3 & r3 & -> & C3 & D3). destruct (chunked_split _ _ _ _ D3) as (b4 & b5 & -> & C4 & C5). clear Ch D1 D2 D3.
  assert (Fl := msg_flags_id m Hh). destruct Hh as (H1 & H2 & H3 & H4 & H5).
  rewrite <- !app_assoc in C3. rewrite <- !app_assoc in C4. rewrite <- !app_assoc in C5. rewrite !concat_app in *. remember (hdr m ++ concat b1 ++ concat b2 ++ concat b3 ++ concat b4 ++ concat b5) as D eqn:ED.
  assert (Bt : forall x y, D = x ++ y -> bytes_ok y) by (intros x y Exy; rewrite Exy in Bd; apply bytes_ok_app in Bd; tauto).
  pose proof (zlen_nonneg (m_qd m)). pose proof (zlen_nonneg (m_an m)). pose proof (zlen_nonneg (m_ns m)). pose proof (zlen_nonneg (m_ar m)).
  assert (Le : 0 <= (if e_enabled (m_edns m) then 1 else 0) <= 1) by (destruct (e_enabled (m_edns m)); lia).
  assert (R0 : read_u16be D = Some (m_id m, skipn 2 (hdr m) ++ concat b1 ++ concat b2 ++ concat b3 ++ concat b4 ++ concat b5)) by (rewrite ED; apply (read_u16be_app (m_id m)); lia).
  unfold msg_decode. rewrite R0. unfold hdr. rewrite Fl. change (skipn 2 (write_u16be (m_id m) ++ ?x)) with x. rewrite <- !app_assoc.
  rewrite !read_u16be_app by lia. unfold zlen at 1 2 3. rewrite !Nat2Z.id.
  rewrite <- (ird_qs edns_rr). rewrite (sect_read_at D true (m_qd m) (hdr m) b1 (concat b2 ++ concat b3 ++ concat b4 ++ concat b5)); auto; try (rewrite ED, <- !app_assoc; reflexivity).
  2:{ apply (Bt (hdr m ++ concat b1)). rewrite ED, <- !app_assoc. reflexivity. }
  cbn [obind]. rewrite <- (ird_rr edns_rr). rewrite (sect_read_at D false (m_an m) (hdr m ++ concat b1) b2 (concat b3 ++ concat b4 ++ concat b5)); auto; try (rewrite ED, <- !app_assoc; reflexivity).
  2:{ apply (Bt (hdr m ++ concat b1 ++ concat b2)). rewrite ED, <- !app_assoc. reflexivity. }
  cbn [obind]. rewrite (sect_read_at D false (m_ns m) (hdr m ++ concat b1 ++ concat b2) b3 (concat b4 ++ concat b5)); auto; try (rewrite ED, <- !app_assoc; reflexivity).
  2:{ apply (Bt (hdr m ++ concat b1 ++ concat b2 ++ concat b3)). rewrite ED, <- !app_assoc. reflexivity. }
  cbn [obind]. set (M := {| m_id := m_id m; m_opcode := _; m_code := _; m_flags := _; m_qd := _; m_an := _; m_ns := _; m_ar := _; m_edns := _ |}).
  replace (Z.to_nat (zlen (m_ar m) + (if e_enabled (m_edns m) then 1 else 0))) with (length (m_ar m) + (if e_enabled (m_edns m) then 1 else 0))%nat
    by (unfold zlen; destruct (e_enabled (m_edns m)); lia).
  rewrite (ar_read_at D (m_ar m) (hdr m ++ concat b1 ++ concat b2 ++ concat b3) b4 M (concat b5)); auto; try (rewrite ED, <- !app_assoc; reflexivity).
  2:{ apply (Bt (hdr m ++ concat b1 ++ concat b2 ++ concat b3 ++ concat b4)). rewrite ED, <- !app_assoc. reflexivity. }
  assert (EM : with_ar M (m_ar M ++ m_ar m) = {| m_id := m_id m; m_opcode := m_opcode m; m_code := m_code m mod 16; m_flags := m_flags m; m_qd := m_qd m; m_an := m_an m; m_ns := m_ns m; m_ar := m_ar m; m_edns := edns_init |}).
  { unfold with_ar, M. cbn [m_ar m_id m_opcode m_code m_flags m_qd m_an m_ns m_edns app]. rewrite !land15, H5, H3, Z.shiftr_div_pow2 by lia. reflexivity. }
  rewrite EM. clear EM M. rewrite opt_shape in C5 by auto. destruct (e_enabled (m_edns m)) eqn:En.
  - inversion C5 as [|? ? b bs' L B X Ch']; subst. inversion Ch'; subst. rewrite ird_rr in X. cbn [snd concat] in *. specialize (X [] []). rewrite !app_nil_r, <- !app_assoc in X. rewrite !app_nil_r.
    erewrite opt_step; [| |apply X|reflexivity].
    + rewrite opt_back; auto; [destruct m; reflexivity|repeat split; auto; lia].
    + destruct b; [change (zlen (@nil Z)) with 0 in L; lia|discriminate].
    + rewrite app_nil_r in Bd. exact Bd.
    + constructor.
  - inversion C5; subst. cbn [ar_read]. f_equal. f_equal. unfold edns_ok in He. rewrite En in He. destruct He as [He Hc]. rewrite Z.mod_small by lia. rewrite <- He. now destruct m.
Qed.
