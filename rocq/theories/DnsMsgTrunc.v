(** Truncation of messages. *)
From Verif Require Import Common CommonFacts BioModel BioFacts UtilTheorems DnsNameModel DnsNameSpec DnsNameFacts DnsNameTheorems DnsMsgModel DnsMsgSpec DnsMsgFacts DnsMsgDecode.
From Coq Require Import Lia.

(** * Arbitrary bytes *)
Lemma trunc_sect_wf msg max q : bytes_ok msg -> 0 <= max -> forall todo i j last d, bytes_ok d -> zlen d <= zlen msg -> 12 <= last -> last <= max -> last <= zlen msg -> (j <= i /\ 0 <= j) ->
  (last <= zlen msg - zlen d) ->
  exists o, trunc_sect msg max q todo i j last d = Ok o /\ forall c last' d', o = Some (c, last', d') -> bytes_ok d' /\ zlen d' <= zlen msg /\ 12 <= last' /\ last' <= max /\ last' <= zlen msg /\ 0 <= c <= i + Z.of_nat todo /\ last' <= zlen msg - zlen d'.
Proof.
  intros Bm Hmax. assert (Bm' : dmp_ok (Some msg)) by (intros m E; apply some_inj in E; now subst).
  induction todo as [|todo IH]; intros i j last d Bd Ld L0 L1 L2 Hj L3; cbn [trunc_sect]; (destruct (Z.ltb_spec max (zlen msg - zlen d)); [eexists; split; [reflexivity|]; intros c l' d' E; inversion E; subst; repeat split; auto; lia|]).
  - eexists; split; [reflexivity|]; intros c l' d' E; inversion E; subst. pose proof (zlen_nonneg d'). repeat split; auto; lia.
  - destruct (name_read_wf (Some msg) d Bd Bm') as (o & R & X). rewrite R. cbn [obind]. destruct o as [[s x]|]; [|exists None; split; [auto|discriminate]].
    destruct (X s x eq_refl) as (_ & b & -> & Lb). apply bytes_ok_app in Bd as [_ Bx]. rewrite zlen_app in *. pose proof (zlen_nonneg x).
    assert (K : forall y, bytes_ok y -> zlen y <= zlen x -> exists o, trunc_sect msg max q todo (i + 1) i (zlen msg - (zlen b + zlen x)) y = Ok o /\ forall c last' d', o = Some (c, last', d') -> bytes_ok d' /\ zlen d' <= zlen msg /\ 12 <= last' /\ last' <= max /\ last' <= zlen msg /\ 0 <= c <= i + Z.of_nat (S todo) /\ last' <= zlen msg - zlen d').
    { intros y By Ly. destruct (IH (i + 1) i (zlen msg - (zlen b + zlen x)) y By) as (o & R' & X'); try lia. exists o. split; [exact R'|]. intros c l' d' E. specialize (X' c l' d' E). intuition lia. }
    assert (Sk : forall k (l : list Z), zlen (skipn k l) <= zlen l) by (clear; intros; unfold zlen; rewrite skipn_length; lia).
    destruct q.
    + destruct (Z.ltb_spec (zlen x) 4); [exists None; split; [auto|discriminate]|]. apply K; [now apply bytes_ok_skipn|apply Sk].
    + destruct (Z.ltb_spec (zlen x) 8); [exists None; split; [auto|discriminate]|]. destruct (read_u16be (skipn 8 x)) as [[len y]|] eqn:R2; [|exists None; split; [auto|discriminate]].
      apply read_be_some in R2 as (E & Hl & By); [|now apply bytes_ok_skipn]. assert (Ly : zlen y <= zlen x) by (pose proof (Sk 8%nat x) as Q; rewrite E, zlen_app in Q; pose proof (zlen_nonneg (be_bytes 2 len)); lia).
      destruct (Z.ltb_spec (zlen y) len); [exists None; split; [auto|discriminate]|]. apply K; [now apply bytes_ok_skipn|]. pose proof (Sk (Z.to_nat len) y). lia.
Qed.
Lemma truncate_wf msg max : bytes_ok msg -> exists o, msg_truncate msg max = Ok o /\
  forall out, o = Some out -> 12 <= zlen out <= max /\ zlen out <= zlen msg /\ bytes_ok out /\ firstn 4 out = firstn 4 msg /\ exists x, skipn 12 msg = skipn 12 out ++ x.
Proof.
  intros B. unfold msg_truncate. destruct (Z.ltb_spec (zlen msg) 12); [exists None; split; [auto|discriminate]|]. destruct (Z.ltb_spec max 12); [exists None; split; [auto|discriminate]|].
  destruct (Z.leb_spec (zlen msg) max).
  - exists (Some msg). split; [reflexivity|]. intros out E. apply some_inj in E. subst out. repeat split; auto; try lia. exists []. now rewrite app_nil_r.
  - assert (L12 : zlen (skipn 12 msg) = zlen msg - 12) by (unfold zlen in *; rewrite skipn_length; lia).
    destruct (trunc_sect_wf msg max true B ltac:(lia) (Z.to_nat (be_val (firstn 2 (skipn 4 msg)))) 0 0 12 (skipn 12 msg)) as (o1 & R1 & X1); try lia; [now apply bytes_ok_skipn|].
    rewrite R1. cbn [obind]. destruct o1 as [[[c0 l0] d0]|]; [|exists None; split; [auto|discriminate]]. destruct (X1 _ _ _ eq_refl) as (B1 & M1 & N1 & P1 & Q1 & C1 & S1).
    destruct (trunc_sect_wf msg max false B ltac:(lia) (Z.to_nat (be_val (firstn 2 (skipn 6 msg)))) 0 0 l0 d0) as (o2 & R2 & X2); try lia; [auto|].
    rewrite R2. cbn [obind]. destruct o2 as [[[c1 l1] d1]|]; [|exists None; split; [auto|discriminate]]. destruct (X2 _ _ _ eq_refl) as (B2 & M2 & N2 & P2 & Q2 & C2 & S2).
    destruct (trunc_sect_wf msg max false B ltac:(lia) (Z.to_nat (be_val (firstn 2 (skipn 8 msg)))) 0 0 l1 d1) as (o3 & R3 & X3); try lia; [auto|].
    rewrite R3. cbn [obind]. destruct o3 as [[[c2 l2] d2]|]; [|exists None; split; [auto|discriminate]]. destruct (X3 _ _ _ eq_refl) as (B3 & M3 & N3 & P3 & Q3 & C3 & S3).
    destruct (trunc_sect_wf msg max false B ltac:(lia) (Z.to_nat (be_val (firstn 2 (skipn 10 msg)))) 0 0 l2 d2) as (o4 & R4 & X4); try lia; [auto|].
    rewrite R4. cbn [obind]. destruct o4 as [[[c3 l3] d3]|]; [|exists None; split; [auto|discriminate]]. destruct (X4 _ _ _ eq_refl) as (B4 & M4 & N4 & P4 & Q4 & C4 & S4).
    remember (write_u16be c0 ++ write_u16be c1 ++ write_u16be c2 ++ write_u16be c3) as cs eqn:Ecs. assert (Lcs : length cs = 8%nat) by (rewrite Ecs; reflexivity).
    assert (Bcs : bytes_ok cs) by (rewrite Ecs; bok).
    replace (firstn 4 msg ++ write_u16be c0 ++ write_u16be c1 ++ write_u16be c2 ++ write_u16be c3 ++ skipn 12 msg) with (firstn 4 msg ++ cs ++ skipn 12 msg) by (rewrite Ecs, <- !app_assoc; reflexivity).
    assert (Lm : zlen (firstn 4 msg ++ cs ++ skipn 12 msg) = zlen msg) by (unfold zlen in *; rewrite !app_length, firstn_length, Lcs, skipn_length; lia).
    rewrite Lm. destruct (Z.ltb_spec (zlen msg) l3); [lia|]. eexists. split; [reflexivity|]. intros out E. apply some_inj in E. subst out.
    assert (Lo : zlen (firstn (Z.to_nat l3) (firstn 4 msg ++ cs ++ skipn 12 msg)) = l3) by (unfold zlen in *; rewrite firstn_length; lia).
    split; [lia|]. split; [lia|]. split; [apply bytes_ok_firstn; bok; [now apply bytes_ok_firstn|now apply bytes_ok_skipn]|].
    assert (L4 : length (firstn 4 msg) = 4%nat) by (rewrite firstn_length; unfold zlen in *; lia). split.
    + rewrite firstn_firstn, Nat.min_l by lia. rewrite firstn_app, L4, Nat.sub_diag, firstn_O, app_nil_r, firstn_firstn. reflexivity.
    + exists (skipn (Z.to_nat l3 - 12) (skipn 12 msg)). rewrite skipn_firstn_comm. rewrite app_assoc. rewrite skipn_app.
      rewrite (skipn_all2 (firstn 4 msg ++ cs)) by (rewrite app_length; lia). rewrite app_length, L4, Lcs. cbn [Nat.add Nat.sub app]. change (skipn 0 (skipn 12 msg)) with (skipn 12 msg). symmetry. apply firstn_skipn.
Qed.

(** * Encoded messages *)
Lemma read_be_shape n d v r : read_be n d = Some (v, r) -> exists a, d = a ++ r /\ length a = n.
Proof. unfold read_be. destruct (take n d) as [[a z]|] eqn:T; [|discriminate]. intros E. inversion E; subst. apply take_some in T. eauto. Qed.
Lemma qs_read_inv dmp d r x : qs_read dmp d = Ok (Some (r, x)) -> exists s y, name_read dmp d = Ok (Some (s, y)) /\ 4 <= zlen y /\ x = skipn 4 y.
Proof.
  unfold qs_read. destruct (name_read dmp d) as [[[s y]|]| | |]; cbn [obind]; intros R; try discriminate R. exists s, y. split; [reflexivity|].
  destruct (read_u16be y) as [[t y1]|] eqn:R1; [|discriminate R]. destruct (read_u16be y1) as [[c y2]|] eqn:R2; [|discriminate R]. apply Ok_inj, some_inj in R. pose proof (f_equal snd R) as E2. cbn [snd] in E2. subst y2.
  apply read_be_shape in R1 as (a1 & -> & L1). apply read_be_shape in R2 as (a2 & -> & L2).
  rewrite !zlen_app. pose proof (zlen_nonneg x). split; [unfold zlen in *; lia|]. rewrite app_assoc, skipn_app, app_length, L1, L2. rewrite skipn_all2 by (rewrite app_length; lia). reflexivity.
Qed.
Lemma rr_read_inv dmp d r x : rr_read dmp d = Ok (Some (r, x)) -> exists s y len z, name_read dmp d = Ok (Some (s, y)) /\ 8 <= zlen y /\ read_u16be (skipn 8 y) = Some (len, z) /\ len <= zlen z /\ x = skipn (Z.to_nat len) z.
Proof.
  unfold rr_read. destruct (name_read dmp d) as [[[s y]|]| | |]; cbn [obind]; intros R; try discriminate R. exists s, y.
  destruct (read_u16be y) as [[t y1]|] eqn:R1; [|discriminate R]. destruct (read_u16be y1) as [[c y2]|] eqn:R2; [|discriminate R]. destruct (read_u32be y2) as [[tt y3]|] eqn:R3; [|discriminate R].
  destruct (read_u16be y3) as [[len y4]|] eqn:R4; [|discriminate R]. destruct (Z.ltb_spec (zlen y4) len) as [|Hl]; [discriminate R|]. destruct (rd_read dmp t (firstn (Z.to_nat len) y4)) as [[vs|]| | |]; cbn [obind] in R; try discriminate R.
  apply Ok_inj, some_inj in R. pose proof (f_equal snd R) as E2. cbn [snd] in E2. clear R. subst x. exists len, y4. split; [reflexivity|].
  apply read_be_shape in R1 as (a1 & -> & L1). apply read_be_shape in R2 as (a2 & -> & L2). apply read_be_shape in R3 as (a3 & -> & L3).
  rewrite !zlen_app. pose proof (zlen_nonneg y3). split; [unfold zlen in *; lia|].
  assert (Sk : skipn 8 (a1 ++ a2 ++ a3 ++ y3) = y3).
  { rewrite !app_assoc, skipn_app, !app_length, L1, L2, L3. rewrite skipn_all2 by (rewrite !app_length; lia). reflexivity. }
  rewrite Sk, R4. auto.
Qed.
Lemma trunc_step msg max q r0 r x todo i j last d : zlen msg - zlen d <= max -> ird (q, r0) (Some msg) d = Ok (Some (r, x)) ->
  trunc_sect msg max q (S todo) i j last d = trunc_sect msg max q todo (i + 1) i (zlen msg - zlen d) x.
Proof.
  intros Ho R. assert (E : max <? zlen msg - zlen d = false) by lia. cbn [trunc_sect]. rewrite E. destruct q; [rewrite ird_qs in R|rewrite ird_rr in R].
  - apply qs_read_inv in R as (s & y & N & L & ->). rewrite N. cbn [obind]. assert (E4 : zlen y <? 4 = false) by lia. rewrite E4. reflexivity.
  - apply rr_read_inv in R as (s & y & len & z & N & L & R & Lz & ->). rewrite N. cbn [obind]. assert (E8 : zlen y <? 8 = false) by lia. rewrite E8, R. assert (El : zlen z <? len = false) by lia. rewrite El. reflexivity.
Qed.
Fixpoint fit (max off : Z) (bs : list (list Z)) : nat :=
  match bs with [] => O | b :: bs => if off + zlen b <=? max then S (fit max (off + zlen b) bs) else O end.
Lemma fit_le max : forall bs off, (fit max off bs <= length bs)%nat.
Proof. induction bs as [|b bs IH]; intros off; cbn [fit length]; [lia|]. destruct (_ <=? _); [specialize (IH (off + zlen b)); lia|lia]. Qed.
Lemma fit_bound max : forall bs off, off <= max -> off + zlen (concat (firstn (fit max off bs) bs)) <= max.
Proof.
  induction bs as [|b bs IH]; intros off H; cbn [fit firstn concat]; [change (zlen (@nil Z)) with 0; lia|]. destruct (Z.leb_spec (off + zlen b) max); cbn [firstn concat]; [|change (zlen (@nil Z)) with 0; lia].
  rewrite zlen_app. specialize (IH (off + zlen b)). lia.
Qed.
Lemma fit_next max : forall bs off, (fit max off bs < length bs)%nat -> max < off + zlen (concat (firstn (S (fit max off bs)) bs)).
Proof.
  induction bs as [|b bs IH]; intros off H; cbn [fit length] in *; [lia|]. destruct (Z.leb_spec (off + zlen b) max).
  - specialize (IH (off + zlen b) ltac:(lia)). cbn [firstn concat] in *. rewrite zlen_app. cbn [firstn] in IH. lia.
  - cbn [firstn concat]. rewrite app_nil_r. lia.
Qed.
Lemma fit_app max a : forall off b, fit max off (a ++ b) = if (fit max off a =? length a)%nat then (length a + fit max (off + zlen (concat a)) b)%nat else fit max off a.
Proof.
  induction a as [|x a IH]; intros off b; cbn [fit app length concat]; [change (zlen (@nil Z)) with 0; rewrite Z.add_0_r; reflexivity|].
  destruct (Z.leb_spec (off + zlen x) max).
  - rewrite IH, zlen_app, Z.add_assoc. cbn [Nat.eqb]. destruct (_ =? _)%nat; reflexivity.
  - reflexivity.
Qed.
Lemma trunc_chunks max q l : forall m bs after D i j last, chunked m (map (pair q) l) bs -> zlen m <= max -> D = m ++ concat bs ++ after -> bytes_ok D ->
  exists d', trunc_sect D max q (length l) i j last (concat bs ++ after) =
    Ok (Some (i + Z.of_nat (fit max (zlen m) bs), zlen m + zlen (concat (firstn (fit max (zlen m) bs) bs)), d')) /\
    (if (fit max (zlen m) bs =? length bs)%nat then d' = after else max < zlen D - zlen d').
Proof.
  induction l as [|r l IH]; intros m bs after D i j last Ch Hm ED BD; inversion Ch as [|? ? b bs' L B X Ch']; subst bs.
  - cbn [length fit concat app Nat.eqb firstn]. cbn [trunc_sect]. assert (E : zlen D - zlen after = zlen m) by (rewrite ED; cbn [concat app]; rewrite zlen_app; lia). rewrite E. destruct (Z.ltb_spec max (zlen m)); [lia|].
    exists after. split; [|reflexivity]. rewrite Z.add_0_r. change (zlen (@nil Z)) with 0. rewrite Z.add_0_r. reflexivity.
  - cbn [length concat fit]. cbn [concat] in ED. rewrite <- !app_assoc in *. assert (E : zlen D - zlen (b ++ concat bs' ++ after) = zlen m) by (rewrite ED; rewrite !zlen_app; lia).
    assert (Bx : bytes_ok (b ++ concat bs' ++ after)) by (rewrite ED in BD; apply bytes_ok_app in BD; tauto).
    assert (Bx' : bytes_ok (concat bs' ++ after)) by (apply bytes_ok_app in Bx; tauto).
    rewrite (trunc_step D max q r r (concat bs' ++ after)); [|lia|rewrite ED at 1; apply X; [rewrite <- ED; exact BD|exact Bx']]. rewrite E.
    destruct (Z.leb_spec (zlen m + zlen b) max) as [Hf|Hf].
    + destruct (IH (m ++ b) bs' after D (i + 1) i (zlen m) Ch') as (d' & R & X'); [rewrite zlen_app; lia|rewrite ED, <- !app_assoc; reflexivity|exact BD|].
      rewrite zlen_app in R, X'. exists d'. split; [|exact X']. rewrite R. cbn [firstn concat]. rewrite zlen_app, Z.add_assoc. replace (i + Z.of_nat (S (fit max (zlen m + zlen b) bs'))) with (i + 1 + Z.of_nat (fit max (zlen m + zlen b) bs')) by lia. reflexivity.
    + exists (concat bs' ++ after). assert (E2 : zlen D - zlen (concat bs' ++ after) = zlen m + zlen b) by (rewrite zlen_app in E; lia).
      cbn [firstn concat Nat.eqb]. change (zlen (@nil Z)) with 0. rewrite !Z.add_0_r. split; [|lia].
      destruct l; cbn [length trunc_sect]; rewrite E2; (destruct (Z.ltb_spec max (zlen m + zlen b)); [reflexivity|lia]).
Qed.
Lemma trunc_over max D q todo last d : max < zlen D - zlen d -> trunc_sect D max q todo 0 0 last d = Ok (Some (0, last, d)).
Proof. intros H. destruct todo; cbn [trunc_sect]; (destruct (Z.ltb_spec max (zlen D - zlen d)); [reflexivity|lia]). Qed.
(** A section when [N] items of all that follow fit, and what holds for the rest *)
Definition state (max : Z) (D m : list Z) (rest : list (list Z)) (N : nat) (last : Z) (d : list Z) : Prop :=
  (zlen m <= max /\ d = concat rest /\ D = m ++ concat rest /\ last = zlen m /\ N = fit max (zlen m) rest) \/ (N = O /\ max < zlen D - zlen d).
Lemma trunc_section max q l m bs rest D N last d : bytes_ok D -> chunked m (map (pair q) l) bs -> state max D m (bs ++ rest) N last d ->
  exists last' d', trunc_sect D max q (length l) 0 0 last d = Ok (Some (Z.of_nat (Nat.min N (length l)), last', d')) /\
    last' = last + zlen (concat (firstn N bs)) /\ state max D (m ++ concat bs) rest (N - length l) last' d'.
Proof.
  intros BD Ch [(Hm & -> & ED & -> & ->)|(-> & Ho)].
  - rewrite concat_app in *. destruct (trunc_chunks max q l m bs (concat rest) D 0 0 (zlen m) Ch Hm ED BD) as (d' & R & X). assert (Ln := chunked_length _ _ _ Ch). rewrite map_length in Ln.
    rewrite Z.add_0_l in R. rewrite <- Ln in *. rewrite fit_app. pose proof (fit_le max bs (zlen m)) as Hl. pose proof (fit_bound max bs (zlen m) Hm) as Hb. destruct (Nat.eqb_spec (fit max (zlen m) bs) (length bs)) as [E|E].
    + rewrite E, firstn_all in *. subst d'. exists (zlen m + zlen (concat bs)), (concat rest). rewrite Nat.min_r by lia. split; [exact R|]. rewrite firstn_all2 by lia. split; [reflexivity|].
      left. rewrite zlen_app, <- app_assoc. split; [exact Hb|]. split; [reflexivity|]. split; [exact ED|]. split; [reflexivity|]. lia.
    + exists (zlen m + zlen (concat (firstn (fit max (zlen m) bs) bs))), d'. rewrite Nat.min_l by lia. split; [exact R|]. split; [reflexivity|]. right. split; [lia|exact X].
  - exists last, d. rewrite trunc_over by exact Ho. split; [reflexivity|]. cbn [firstn concat]. change (zlen (@nil Z)) with 0. split; [lia|]. right. split; [reflexivity|exact Ho].
Qed.

(** * The first items of a message *)
Lemma items_len m : msg_ok m -> items m = Z.of_nat (length (msg_items m)).
Proof.
  intros (Hh & He & _). destruct Hh as (_ & _ & _ & Hc & _). unfold items, msg_items. rewrite opt_shape by auto. rewrite !app_length, !map_length. unfold zlen. destruct (e_enabled (m_edns m)); cbn [length]; lia.
Qed.
Lemma cut_full m n : n = items m -> cut n m = m.
Proof.
  intros ->. unfold cut. rewrite Z.eqb_refl. assert (K : forall (l : list rr) k, zlen l <= k -> firstn (Z.to_nat k) l = l) by (intros; apply firstn_all2; unfold zlen in *; lia).
  pose proof (zlen_nonneg (m_qd m)). pose proof (zlen_nonneg (m_an m)). pose proof (zlen_nonneg (m_ns m)). pose proof (zlen_nonneg (m_ar m)).
  rewrite !K by (unfold items; destruct (e_enabled (m_edns m)); lia). now destruct m.
Qed.
Lemma cut_header m n : header_ok m -> header_ok (cut n m).
Proof.
  intros (H1 & H2 & H3 & H4 & H5). unfold header_ok, cut. cbn [m_id m_flags m_opcode m_code]. destruct (n =? items m); auto 10.
  repeat (split; [auto; lia|]). rewrite Z.mod_mod by lia. exact H5.
Qed.
Lemma cut_edns m n : edns_ok m -> edns_ok (cut n m).
Proof. intros H. unfold edns_ok, cut in *. cbn [m_edns m_code]. destruct (n =? items m); auto. cbn. split; [reflexivity|]. lia. Qed.
Lemma to_nat_sub n k : Z.to_nat (n - Z.of_nat k) = (Z.to_nat n - k)%nat. Proof. lia. Qed.
Lemma cut_rrs m n : m_qd (cut n m) ++ m_an (cut n m) ++ m_ns (cut n m) ++ m_ar (cut n m) = firstn (Z.to_nat n) (m_qd m ++ m_an m ++ m_ns m ++ m_ar m).
Proof. unfold cut. cbn [m_qd m_an m_ns m_ar]. rewrite !firstn_app. unfold zlen. rewrite !to_nat_sub. reflexivity. Qed.
Lemma firstn_Forall {A} (P : A -> Prop) n l : Forall P l -> Forall P (firstn n l).
Proof. intros H. revert n. induction H; intros [|n]; cbn [firstn]; constructor; auto. Qed.
Lemma firstn_zlen_le {A} n (l : list A) : zlen (firstn n l) <= zlen l.
Proof. unfold zlen. rewrite firstn_length. lia. Qed.
Lemma cut_ok m n : msg_ok m -> msg_ok (cut n m).
Proof.
  intros (Hh & He & (Lq & La & Ln & Lr) & Hq & Ha & Hn & Hr & W). split; [now apply cut_header|]. split; [now apply cut_edns|]. split.
  - cbn [cut m_qd m_an m_ns m_ar]. repeat split; (eapply Z.le_trans; [apply firstn_zlen_le|assumption]).
  - repeat (split; [cbn [cut m_qd m_an m_ns m_ar]; now apply firstn_Forall|]). unfold msg_names in *. rewrite cut_rrs.
    rewrite <- (firstn_skipn (Z.to_nat n) (m_qd m ++ m_an m ++ m_ns m ++ m_ar m)) in W. rewrite map_app, concat_app in W. apply within_app in W. tauto.
Qed.
Lemma cut_items m n : msg_ok m -> 0 <= n <= items m -> msg_items (cut n m) = firstn (Z.to_nat n) (msg_items m).
Proof.
  intros Hm Hn. assert (Li := items_len m Hm). destruct (Z.eq_dec n (items m)) as [E|E].
  - rewrite cut_full by auto. rewrite firstn_all2; [reflexivity|]. lia.
  - assert (Hc := proj1 (cut_ok m n Hm)). assert (He := proj1 (proj2 (cut_ok m n Hm))). destruct Hc as (_ & _ & _ & Hc & _). destruct Hm as ((_ & _ & _ & Hc0 & _) & He0 & _).
    unfold msg_items. rewrite (opt_shape (cut n m)) by auto. assert (En : e_enabled (m_edns (cut n m)) = false) by (unfold cut; cbn [m_edns]; destruct (Z.eqb_spec n (items m)); [contradiction|reflexivity]). rewrite En.
    rewrite !firstn_app, !firstn_map, !map_length. cbn [map]. rewrite app_nil_r. unfold cut. cbn [m_qd m_an m_ns m_ar]. unfold zlen. rewrite !to_nat_sub.
    assert (Z0 : firstn (Z.to_nat n - length (m_qd m) - length (m_an m) - length (m_ns m) - length (m_ar m)) (opt_rr m) = []).
    { rewrite opt_shape by auto. destruct (e_enabled (m_edns m)) eqn:En0; [|apply firstn_nil]. replace (Z.to_nat n - _ - _ - _ - _)%nat with O; [reflexivity|]. unfold items, zlen in *. rewrite En0 in *. lia. }
    rewrite Z0. cbn [map]. rewrite app_nil_r. reflexivity.
Qed.
Lemma cut_encode m bs n : msg_ok m -> 0 <= n <= items m ->
  (forall k, exists c, iwrite true 12 (firstn k (msg_items m)) (Some []) = Ok (firstn k bs, Some c)) -> msg_encode (cut n m) = Ok (hdr (cut n m) ++ concat (firstn (Z.to_nat n) bs)).
Proof.
  intros Hm Hn F. destruct (msg_encoded _ (cut_ok m n Hm)) as (bs' & E & _ & _ & Ch & F'). rewrite E. f_equal. f_equal. f_equal.
  destruct (F (Z.to_nat n)) as (c & R). rewrite <- cut_items in R by auto. specialize (Ch (hdr m) (hdr_len m)). apply chunked_length in Ch.
  destruct (F' (length (msg_items (cut n m)))) as (c' & R'). rewrite firstn_all in R'. rewrite R in R'. apply Ok_inj in R'.
  pose proof (f_equal fst R') as X. cbn [fst] in X. rewrite X. symmetry. apply firstn_all2. lia.
Qed.
Lemma count_at (v : Z) a b : 0 <= v < 65536 -> Z.to_nat (be_val (firstn 2 (skipn (length a) (a ++ write_u16be v ++ b)))) = Z.to_nat v.
Proof.
  intros H. rewrite skipn_app, skipn_all, Nat.sub_diag. change (skipn 0 (write_u16be v ++ b)) with (write_u16be v ++ b). cbn [app]. change (firstn 2 (write_u16be v ++ b)) with (write_u16be v).
  f_equal. apply (be_val_be_bytes 2). exact H.
Qed.
Lemma truncate_encoded m M max : msg_ok m -> msg_encode m = Ok M -> 12 <= max ->
  exists n M', 0 <= n <= items m /\ msg_truncate M max = Ok (Some M') /\ msg_encode (cut n m) = Ok M' /\ zlen M' <= max /\
    (forall M'', n < items m -> msg_encode (cut (n + 1) m) = Ok M'' -> max < zlen M'').
Proof.
  intros Hm EM Hmax. destruct (msg_encoded m Hm) as (bs & E & _ & _ & Ch & F). rewrite EM in E. apply Ok_inj in E. subst M. specialize (Ch (hdr m) (hdr_len m)).
  assert (Ln := chunked_length _ _ _ Ch). assert (Li := items_len m Hm).
  assert (EL : zlen (hdr m ++ concat bs) = 12 + zlen (concat bs)) by (rewrite zlen_app, hdr_len; reflexivity). pose proof (zlen_nonneg (concat bs)).
  assert (Big : forall n, (n <= length bs)%nat -> zlen (concat (firstn n bs)) <= zlen (concat bs)).
  { intros n _. rewrite <- (firstn_skipn n bs) at 2. rewrite concat_app, zlen_app. pose proof (zlen_nonneg (concat (skipn n bs))). lia. }
  pose proof (fit_le max bs 12) as Fl. pose proof (fit_bound max bs 12 Hmax) as Fb. pose proof (fit_next max bs 12) as Fx. set (N := fit max 12 bs) in *.
  exists (Z.of_nat N), (hdr (cut (Z.of_nat N) m) ++ concat (firstn N bs)). split; [lia|]. split.
  2:{ split; [rewrite (cut_encode m bs) by (auto; lia); rewrite Nat2Z.id; reflexivity|]. split; [rewrite zlen_app, hdr_len; exact Fb|].
      intros M'' Hn E''. rewrite (cut_encode m bs) in E'' by (auto; lia). apply Ok_inj in E''. subst M''. rewrite zlen_app, hdr_len. replace (Z.to_nat (Z.of_nat N + 1)) with (S N) by lia. apply Fx. lia. }
  unfold msg_truncate. destruct (Z.ltb_spec (zlen (hdr m ++ concat bs)) 12); [lia|]. destruct (Z.ltb_spec max 12); [lia|].
  destruct (Z.leb_spec (zlen (hdr m ++ concat bs)) max) as [Hs|Hs].
  - f_equal. f_equal. assert (EN : N = length bs).
    { destruct (Nat.eq_dec N (length bs)) as [|Nn]; [assumption|]. specialize (Fx ltac:(lia)). specialize (Big (S N) ltac:(lia)). lia. }
    rewrite EN, firstn_all, Ln, <- Li. now rewrite cut_full.
  - assert (Bb := chunked_bytes _ _ _ Ch). assert (BD : bytes_ok (hdr m ++ concat bs)) by (apply bytes_ok_app; split; [apply hdr_ok|exact Bb]).
    assert (Hm0 := Hm). assert (Ho : opt_rr m = opt_rr m) by reflexivity. destruct Hm0 as (Hh & He & (Lq & La & Lns & Lr) & _). assert (Fg := msg_flags_id m Hh). destruct Hh as (I1 & I2 & I3 & I4 & I5).
    rewrite opt_shape in Ho at 2 by auto. pose proof (zlen_nonneg (m_qd m)). pose proof (zlen_nonneg (m_an m)). pose proof (zlen_nonneg (m_ns m)). pose proof (zlen_nonneg (m_ar m)).
    assert (Lo : zlen (m_ar m) + (if e_enabled (m_edns m) then 1 else 0) = zlen (m_ar m ++ opt_rr m)) by (rewrite zlen_app, Ho; destruct (e_enabled (m_edns m)); reflexivity).
    assert (Lo' : zlen (m_ar m ++ opt_rr m) <= 256) by (rewrite <- Lo; destruct (e_enabled (m_edns m)); lia). pose proof (zlen_nonneg (m_ar m ++ opt_rr m)).
    assert (K0 : Z.to_nat (be_val (firstn 2 (skipn 4 (hdr m ++ concat bs)))) = length (m_qd m)).
    { unfold hdr. rewrite <- !app_assoc. rewrite (app_assoc (write_u16be (m_id m))). change 4%nat with (length (write_u16be (m_id m) ++ write_u16be (msg_flags m))). rewrite count_at by lia. unfold zlen. lia. }
    assert (K1 : Z.to_nat (be_val (firstn 2 (skipn 6 (hdr m ++ concat bs)))) = length (m_an m)).
    { unfold hdr. rewrite <- !app_assoc. rewrite (app_assoc (write_u16be (m_id m))), (app_assoc (write_u16be (m_id m) ++ _)). change 6%nat with (length ((write_u16be (m_id m) ++ write_u16be (msg_flags m)) ++ write_u16be (zlen (m_qd m)))). rewrite count_at by lia. unfold zlen. lia. }
    assert (K2 : Z.to_nat (be_val (firstn 2 (skipn 8 (hdr m ++ concat bs)))) = length (m_ns m)).
    { unfold hdr. rewrite <- !app_assoc. rewrite (app_assoc (write_u16be (m_id m))), (app_assoc (write_u16be (m_id m) ++ _)), (app_assoc ((write_u16be (m_id m) ++ _) ++ _)).
      change 8%nat with (length (((write_u16be (m_id m) ++ write_u16be (msg_flags m)) ++ write_u16be (zlen (m_qd m))) ++ write_u16be (zlen (m_an m)))). rewrite count_at by lia. unfold zlen. lia. }
    assert (K3 : Z.to_nat (be_val (firstn 2 (skipn 10 (hdr m ++ concat bs)))) = length (m_ar m ++ opt_rr m)).
    { unfold hdr. rewrite Lo. rewrite <- !app_assoc. rewrite (app_assoc (write_u16be (m_id m))), (app_assoc (write_u16be (m_id m) ++ _)), (app_assoc ((write_u16be (m_id m) ++ _) ++ _)), (app_assoc (((write_u16be (m_id m) ++ _) ++ _) ++ _)).
      change 10%nat with (length ((((write_u16be (m_id m) ++ write_u16be (msg_flags m)) ++ write_u16be (zlen (m_qd m))) ++ write_u16be (zlen (m_an m))) ++ write_u16be (zlen (m_ns m)))). rewrite count_at by lia. unfold zlen. lia. }
    rewrite K0, K1, K2, K3. clear K0 K1 K2 K3. change (skipn 12 (hdr m ++ concat bs)) with (concat bs). unfold msg_items in Ch. rewrite <- map_app in Ch.
    destruct (chunked_split _ _ _ _ Ch) as (b1 & r1 & Eb1 & C1 & D1). destruct (chunked_split _ _ _ _ D1) as (b2 & r2 & Eb2 & C2 & D2). destruct (chunked_split _ _ _ _ D2) as (b3 & b4 & Eb3 & C3 & C4).
    assert (Q1 := chunked_length _ _ _ C1). assert (Q2 := chunked_length _ _ _ C2). assert (Q3 := chunked_length _ _ _ C3). assert (Q4 := chunked_length _ _ _ C4). rewrite map_length in Q1, Q2, Q3, Q4.
    remember (hdr m ++ concat bs) as D eqn:ED.
    assert (S0 : state max D (hdr m) (b1 ++ r1) N 12 (concat bs)).
    { left. rewrite hdr_len, <- Eb1. split; [lia|]. split; [reflexivity|]. split; [exact ED|]. split; reflexivity. }
    destruct (trunc_section max true (m_qd m) (hdr m) b1 r1 D N 12 _ BD C1 S0) as (l1 & d1 & R1 & E1 & S1). rewrite R1. cbn [obind].
    rewrite Eb2 in S1. destruct (trunc_section max false (m_an m) _ b2 r2 D _ l1 d1 BD C2 S1) as (l2 & d2 & R2 & E2 & S2). rewrite R2. cbn [obind].
    rewrite Eb3 in S2. destruct (trunc_section max false (m_ns m) _ b3 b4 D _ l2 d2 BD C3 S2) as (l3 & d3 & R3 & E3 & S3). rewrite R3. cbn [obind].
    rewrite <- (app_nil_r b4) in S3. destruct (trunc_section max false (m_ar m ++ opt_rr m) _ b4 [] D _ l3 d3 BD C4 S3) as (l4 & d4 & R4 & E4 & _). rewrite R4. cbn [obind].
    assert (Elast : l4 = 12 + zlen (concat (firstn N bs))).
    { rewrite E4, E3, E2, E1, Eb1, Eb2, Eb3, !firstn_app, !concat_app, !zlen_app. rewrite Q1, Q2, Q3. lia. }
    assert (Ef : forall q a n r, write_u16be q ++ write_u16be a ++ write_u16be n ++ write_u16be r ++ concat bs = (write_u16be q ++ write_u16be a ++ write_u16be n ++ write_u16be r) ++ concat bs) by (intros; rewrite <- !app_assoc; reflexivity).
    cbv zeta. rewrite Ef. rewrite ED. change (firstn 4 (hdr m ++ concat bs)) with (write_u16be (m_id m) ++ write_u16be (msg_flags m)).
    match goal with |- context [?x ++ ?y ++ concat bs] => assert (Eh : x ++ y = hdr (cut (Z.of_nat N) m)) end.
    { unfold hdr. rewrite (msg_flags_id (cut (Z.of_nat N) m)) by (apply cut_header; repeat split; auto; lia). rewrite Fg. rewrite <- !app_assoc. cbn [cut m_id m_flags m_qd m_an m_ns m_ar m_edns].
      assert (G : forall k (l : list rr), zlen (firstn k l) = Z.of_nat (Nat.min k (length l))) by (intros; unfold zlen; rewrite firstn_length; reflexivity). rewrite !G. unfold zlen. rewrite !to_nat_sub, !Nat2Z.id.
      do 5 f_equal. rewrite app_length, Ho. assert (Ly : Z.of_nat N <= items m) by lia. unfold items, zlen in Ly |- *.
      destruct (e_enabled (m_edns m)) eqn:En; cbn [length].
      - destruct (Z.eqb_spec (Z.of_nat N) (Z.of_nat (length (m_qd m)) + Z.of_nat (length (m_an m)) + Z.of_nat (length (m_ns m)) + Z.of_nat (length (m_ar m)) + 1)) as [Ey|Ey]; cbn [e_enabled edns_init]; [rewrite En|]; f_equal; lia.
      - destruct (Z.eqb_spec (Z.of_nat N) (Z.of_nat (length (m_qd m)) + Z.of_nat (length (m_an m)) + Z.of_nat (length (m_ns m)) + Z.of_nat (length (m_ar m)) + 0)) as [Ey|Ey]; cbn [e_enabled edns_init]; [rewrite En|]; f_equal; lia. }
    rewrite app_assoc, Eh. rewrite zlen_app, hdr_len, Elast. specialize (Big N ltac:(lia)). destruct (Z.ltb_spec (12 + zlen (concat bs)) (12 + zlen (concat (firstn N bs)))); [lia|].
    f_equal. f_equal. rewrite <- (firstn_skipn N bs) at 2. rewrite concat_app, app_assoc. rewrite firstn_app.
    assert (Z12 : Z.to_nat (12 + zlen (concat (firstn N bs))) = length (hdr (cut (Z.of_nat N) m) ++ concat (firstn N bs))) by (rewrite app_length; unfold zlen; change (length (hdr (cut (Z.of_nat N) m))) with 12%nat; lia).
    rewrite Z12, firstn_all, Nat.sub_diag, firstn_O, app_nil_r. reflexivity.
Qed.
