(** C28 and C29: decoding and encoding of DNS names. *)
From Verif Require Import Common CommonFacts BioModel ProofFacts UtilTheorems DnsNameModel DnsNameSpec DnsNameFacts.

(** ** C28: decoding is exact, stays inside the buffers and always ends.

    For all bytes and with or without a message for pointers: the parser reads nothing
    outside [d] and the message, writes at most 256 characters, ends within its bound
    (300 rounds, at most 10 pointers), and succeeds exactly on names of at most 255
    characters reached over at most 10 pointers, giving their text and length. *)
Theorem parse_exact dmp d : bytes_ok d -> (forall m, dmp = Some m -> bytes_ok m) ->
  exists r, name_parse dmp d = Some (Ok r) /\
    forall name n, r = Some (name, n) <->
      exists ls q h, wire dmp d 0 ls q h /\ (h <= 10)%nat /\ zlen (text ls) <= 255 /\ name = text ls /\ n = Z.of_nat q.
Proof.
  intros Bd Bm. unfold name_parse.
  destruct (loop_sound dmp Bm 300 d 0 [] 0 0 Bd ltac:(lia) ltac:(unfold zlen; cbn; lia)) as (r & R & G); [change (zlen (@nil Z)) with 0; lia|].
  change (Z.of_nat 0) with 0 in R, G. rewrite R.
  assert (T : forall ls, (if zlen (concat (map (fun l => map shown l ++ [46]) ls)) =? 0 then text [] else concat (map (fun l => map shown l ++ [46]) ls)) = text ls).
  { intros [|l ls]; [reflexivity|]. unfold text. destruct (Z.eqb_spec (zlen (concat (map (fun l => map shown l ++ [46]) (l :: ls)))) 0) as [E|]; auto.
    exfalso. cbn [map concat] in E. rewrite !zlen_app in E. change (zlen [46]) with 1 in E. pose proof (zlen_nonneg (map shown l)). pose proof (zlen_nonneg (concat (map (fun l => map shown l ++ [46]) ls))). lia. }
  assert (TL : forall ls, zlen (concat (map (fun l => map shown l ++ [46]) ls)) <= 255 <-> zlen (text ls) <= 255).
  { intros [|l ls]; [unfold zlen; cbn; lia|reflexivity]. }
  assert (C : forall ls q h, wire dmp d 0 ls q h -> (h <= 10)%nat -> zlen (text ls) <= 255 -> r = Some (concat (map (fun l => map shown l ++ [46]) ls), Z.of_nat q)).
  { intros ls q h W Hh L. apply TL in L. pose proof (loop_complete dmp Bm d 0 ls q h W Bd 300 [] 0 0) as X. cbn [app] in X. change (Z.of_nat 0) with 0 in X.
    rewrite X in R; [|lia|exact L|change (zlen (@nil Z)) with 0; lia]. apply some_inj in R. apply Ok_inj in R. symmetry. exact R. }
  destruct r as [[out res]|].
  - destruct (G out res eq_refl) as (ls & q & h & W & Hh & Eo & L & Er). change (0 =? 0) with true in Er. cbv iota in Er. cbn [app] in Eo. subst out res.
    assert (P : obind (if zlen (concat (map (fun l => map shown l ++ [46]) ls)) =? 0 then put (concat (map (fun l => map shown l ++ [46]) ls)) 46 else Ok (concat (map (fun l => map shown l ++ [46]) ls)))
       (fun out => if zlen out <? 256 then Ok (Some (out, Z.of_nat q)) else Ub) = Ok (Some (text ls, Z.of_nat q))).
    { assert (LT := proj1 (TL ls) L). pose proof (T ls) as TT. destruct (Z.eqb_spec (zlen (concat (map (fun l => map shown l ++ [46]) ls))) 0) as [E0|E0].
      - unfold put. rewrite E0. change (0 <? 256) with true. cbv iota. cbn [obind]. destruct (concat (map (fun l => map shown l ++ [46]) ls)); [|rewrite zlen_cons in E0; pose proof (zlen_nonneg l); lia].
        cbn [app]. rewrite <- TT. reflexivity.
      - cbn [obind]. rewrite <- TT in LT |- *. destruct (Z.ltb_spec (zlen (concat (map (fun l => map shown l ++ [46]) ls))) 256); [reflexivity|lia]. }
    rewrite P. eexists; split; [reflexivity|]. intros name n. split.
    + intros E. apply some_inj in E. pose proof (f_equal fst E) as E1. pose proof (f_equal snd E) as E2. cbn [fst snd] in E1, E2. subst.
      exists ls, q, h. rewrite <- TL. auto.
    + intros (ls' & q' & h' & W' & _ & _ & -> & ->). destruct (wire_fun _ _ _ _ _ _ W _ _ _ W') as (-> & -> & _). reflexivity.
  - eexists; split; [reflexivity|]. intros name n. split; [discriminate|]. intros (ls & q & h & W & Hh & L & _ & _). specialize (C _ _ _ W Hh L). discriminate.
Qed.

(** The position reported lies inside the buffer, so the rest of it can be read on. *)
Theorem parse_inside dmp d name n : bytes_ok d -> (forall m, dmp = Some m -> bytes_ok m) -> name_parse dmp d = Some (Ok (Some (name, n))) ->
  0 < n <= zlen d /\ 1 <= zlen name <= 255 /\ Forall (fun c => 1 <= c <= 255) name /\ last name 0 = 46.
Proof.
  intros Bd Bm E. destruct (parse_exact dmp d Bd Bm) as (r & R & X). rewrite E in R. apply some_inj in R. apply Ok_inj in R.
  destruct (proj1 (X name n) (eq_sym R)) as (ls & q & h & W & Hh & L & -> & ->).
  assert (Q : forall dmp d p ls q h, wire dmp d p ls q h -> (p < q <= length d)%nat).
  { clear. induction 1 as [d p E|d p c l ls q h E R El Ln W IH|d p c c1 m ls q h E R E1 Ed W IH].
    - assert (p < length d)%nat by (apply nth_error_Some; congruence). lia.
    - lia.
    - assert (S p < length d)%nat by (apply nth_error_Some; congruence). lia. }
  specialize (Q _ _ _ _ _ _ W). split; [unfold zlen; lia|].
  assert (F : forall dmp d p ls q h, wire dmp d p ls q h -> bytes_ok d -> (forall m, dmp = Some m -> bytes_ok m) -> Forall bytes_ok ls).
  { clear. induction 1 as [d p E|d p c l ls q h E R El Ln W IH|d p c c1 m ls q h E R E1 Ed W IH]; intros Bd Bm; [constructor| |auto].
    constructor; auto. subst l. now apply bytes_ok_firstn, bytes_ok_skipn. }
  specialize (F _ _ _ _ _ _ W Bd Bm). clear - F L. destruct ls as [|l ls].
  - unfold text, zlen. cbn. split; [lia|]. split; [repeat constructor; lia|reflexivity].
  - split; [|split].
    + split; [|exact L]. unfold text. cbn [map concat]. rewrite !zlen_app. change (zlen [46]) with 1.
      pose proof (zlen_nonneg (map shown l)). pose proof (zlen_nonneg (concat (map (fun l => map shown l ++ [46]) ls))). lia.
    + unfold text. clear L. revert F. generalize (l :: ls). clear. induction 1 as [|l ls H F IH]; cbn [map concat]; [constructor|].
      apply Forall_app. split; auto. apply Forall_app. split; [|repeat constructor; lia]. apply Forall_map. eapply Forall_impl; [|exact H].
      unfold is_byte, shown. intros a Ha. destruct (Z.eqb_spec a 0); [lia|]. destruct (a =? 46); lia.
    + destruct (list_snoc (l :: ls)) as [E|(ls' & x & E)]; [discriminate|]. unfold text. rewrite E. destruct (ls' ++ [x]) eqn:E2; [destruct ls'; discriminate|]. rewrite <- E2.
      rewrite map_app, concat_app. cbn [map concat]. rewrite app_nil_r, app_assoc. apply last_last.
Qed.

(** ** C29: encoding *)

(** No string and no map makes the encoder write more than the 256 bytes of its buffer;
    in particular the check at dns.c:2313, whose failure would leave the length unset,
    cannot fail. *)
Theorem serialize_fits data base name cmp : let '(ok, out, _) := name_serialize data base name cmp in
  (data = true -> zlen out <= 256) /\ (ok = true -> zlen out <= 256).
Proof.
  unfold name_serialize. pose proof (ser_shape data base name 0 None [] [] cmp) as H. unfold small in H.
  destruct (ser_loop data base name 0 None [] [] cmp) as [[ok out] m]. cbn [fst snd] in H. apply H; [reflexivity|]. unfold zlen. cbn. lia.
Qed.

(** Names of the presentation form are written uncompressed as RFC 1035 says; measuring
    and writing agree. *)
Theorem serialize_plain data base ls : pname ls -> name_serialize data base (dotted ls) None = (true, plain ls, []).
Proof.
  intros [H L]. unfold name_serialize. destruct ls as [|l ls].
  - cbn [dotted ser_loop]. change (46 =? 46) with true. change (63 <? zlen (@nil Z)) with false. cbv iota. replace (data && (256 <? zlen (@nil Z) + 1 + zlen (@nil Z))) with false by now destruct data.
    reflexivity.
  - rewrite cat_dots_dotted in * by discriminate. exact (ser_plain data base (l :: ls) 0 [] H ltac:(discriminate) eq_refl ltac:(lia) None).
Qed.
(** And decoding gives the same name back, whatever follows. *)
Lemma wire_plain dmp pre ls rest : Forall plabel ls -> wire dmp (pre ++ plain ls ++ rest) (length pre) (wlabels ls) (length (pre ++ plain ls)) 0.
Proof.
  intros H. revert pre. induction H as [|l ls [Hl Hp] H IH]; intros pre.
  - change (plain []) with [0]. replace (length (pre ++ [0])) with (S (length pre)) by (rewrite app_length; cbn [length]; lia). apply w_end. apply nth_error_mid.
  - change (wlabels (l :: ls)) with (map byte_of l :: wlabels ls).
    replace (plain (l :: ls)) with ((zlen l :: map byte_of l) ++ plain ls) by (unfold plain; cbn [map concat]; now rewrite <- app_assoc).
    eapply w_label with (c := zlen l).
    + rewrite <- app_assoc. apply nth_error_mid.
    + lia.
    + rewrite <- app_assoc. cbn [app]. replace (pre ++ zlen l :: map byte_of l ++ plain ls ++ rest) with ((pre ++ [zlen l]) ++ map byte_of l ++ plain ls ++ rest) by now rewrite <- app_assoc.
      replace (S (length pre)) with (Z.to_nat (zlen (pre ++ [zlen l]))) by (unfold zlen; rewrite app_length; cbn [length]; lia). rewrite skipn_zlen.
      replace (zlen l) with (zlen (map byte_of l)) by apply zlen_map. now rewrite firstn_zlen.
    + now rewrite zlen_map.
    + replace (S (length pre) + Z.to_nat (zlen l))%nat with (length (pre ++ zlen l :: map byte_of l)) by (rewrite app_length; cbn [length]; rewrite map_length; unfold zlen; lia).
      rewrite <- app_assoc, !app_assoc. rewrite <- (app_assoc _ (plain ls) rest). apply IH.
Qed.
Lemma bytes_ok_wlabel l : Forall pchar l -> bytes_ok (map byte_of l).
Proof. intros H. apply Forall_map. eapply Forall_impl; [|exact H]. apply byte_of_byte. Qed.
Lemma bytes_ok_plain ls : Forall plabel ls -> bytes_ok (plain ls).
Proof.
  intros H. unfold plain. apply bytes_ok_app. split; [|repeat constructor; lia]. induction H as [|l ls [Hl Hp] H IH]; cbn [map concat]; [constructor|].
  apply (proj2 (bytes_ok_app (zlen l :: map byte_of l) _)). split; auto. constructor; [unfold is_byte; lia|]. now apply bytes_ok_wlabel.
Qed.
Theorem plain_roundtrip data dmp ls rest : pname ls -> bytes_ok rest -> (forall m, dmp = Some m -> bytes_ok m) ->
  exists out, name_serialize data 0 (dotted ls) None = (true, out, []) /\
    name_parse dmp (out ++ rest) = Some (Ok (Some (dotted ls, zlen out))).
Proof.
  intros H Br Bm. exists (plain ls). split; [now apply serialize_plain|]. destruct H as [H L].
  destruct (parse_exact dmp (plain ls ++ rest)) as (r & R & X); [apply bytes_ok_app; split; auto; now apply bytes_ok_plain|exact Bm|].
  rewrite R. f_equal. f_equal. apply X. exists (wlabels ls), (length (plain ls)), 0%nat.
  split; [exact (wire_plain dmp [] ls rest H)|]. rewrite text_wlabels by auto. split; [lia|]. auto.
Qed.
(** The encoder accepts exactly the names of presentation form and, wrongly, such names
    with a dot in front. *)
Theorem serialize_accepts data base s : noz s -> fst (fst (name_serialize data base s None)) = true <->
  exists ls, (s = dotted ls \/ (ls <> [] /\ s = 46 :: dotted ls)) /\ Forall plabel ls /\ zlen s <= 255.
Proof.
  intros Hs. split.
  - intros E. unfold name_serialize in E. apply ser_accepts in E as [L E]; auto. rewrite Z.add_0_l in L.
    destruct E as [[_ E]|(l & ls & E & Hp & H63 & _ & H)]; [discriminate|]. cbn [app] in H63. destruct l as [|c l].
    + cbn [app] in E. destruct ls as [|l ls].
      * exists []. split; [left; exact E|]. auto.
      * exists (l :: ls). split; [right; split; [discriminate|exact E]|]. auto.
    + exists ((c :: l) :: ls). split; [left; rewrite dotted_cons; exact E|]. split; auto. constructor; auto. split; auto. rewrite zlen_cons in *. pose proof (zlen_nonneg l). lia.
  - intros (ls & [->|[N ->]] & H & L).
    + rewrite serialize_plain by (split; auto). reflexivity.
    + unfold name_serialize. cbn [ser_loop]. change (46 =? 46) with true. change (63 <? zlen (@nil Z)) with false. cbv iota.
      replace (data && (256 <? zlen (@nil Z) + 1 + zlen (@nil Z))) with false by now destruct data. cbv iota zeta. rewrite zlen_cons in L.
      rewrite cat_dots_dotted in * by auto. rewrite ser_plain; auto.
Qed.

(** Compression. [m] is the message so far, [k] the number of names written and [cmp] a
    map good for it (the empty map is). Writing a name keeps the map good for the longer
    message, and the bytes written are that name on the wire with at most as many
    pointers as labels, and as names before. [shape]: they are
    labels of the name followed by the end or one pointer, strictly backwards. *)
Theorem compressed_name data k m cmp ls : pname ls -> cmap_ok k m cmp ->
  exists new cmp' h, name_write data (zlen m) (dotted ls) (Some cmp) = (new, cmp') /\ cmap_ok (S k) (m ++ new) cmp' /\
    wire (Some (m ++ new)) (m ++ new) (length m) (wlabels ls) (length (m ++ new)) h /\ (h <= length ls)%nat /\ (h <= k)%nat /\ zlen new <= zlen (plain ls) /\
    shape (zlen m) ls new.
Proof.
  intros [H L] Hm. unfold name_write, name_serialize. destruct ls as [|l ls].
  - exists [0], cmp, 0%nat. cbn [dotted ser_loop]. change (46 =? 46) with true. change (63 <? zlen (@nil Z)) with false. cbv iota.
    replace (data && (256 <? zlen (@nil Z) + 1 + zlen (@nil Z))) with false by now destruct data. cbv iota zeta.
    replace (beq ([] ++ [46]) [46]) with true by reflexivity. split; [reflexivity|]. split; [apply (cmap_app k); [lia|exact Hm]|].
    split; [|split; [cbn; lia|split; [lia|split; [change (plain []) with [0]; lia|now left]]]].
    replace (length (m ++ [0])) with (S (length m)) by (rewrite app_length; cbn [length]; lia). apply w_end. apply nth_error_mid.
  - rewrite cat_dots_dotted in * by discriminate.
    assert (HB : Forall (fun e => snd e < zlen m) cmp) by (eapply Forall_impl; [|exact Hm]; intros e (? & ? & ? & E); apply E).
    destruct (ser_comp data (zlen m) k (l :: ls) m 0 [] [] cmp H ltac:(discriminate) eq_refl ltac:(lia) Hm HB ltac:(constructor) (zlen_nonneg m) None) as (new & news & h & R & W & Hh & Hk & Hn & Hsh & Hlen).
    change (zlen (@nil Z)) with 0 in R. rewrite Z.sub_0_r in R. cbn [app] in R. change (@Some (list (list Z * Z)) cmp) with (@Some cmap cmp) in R. rewrite R. exists new, (news ++ cmp), h. split; [reflexivity|].
    split; [apply Forall_app; split; [exact Hn|]; apply (cmap_app k); [lia|exact Hm]|]. split; [exact W|]. split; [exact Hh|]. split; [exact Hk|].
    split; [|exact Hsh]. clear - Hlen. replace (zlen (plain (l :: ls))) with (zlen (cat_dots (l :: ls)) + 1); auto. unfold plain. rewrite zlen_app. change (zlen [0]) with 1. f_equal.
    unfold cat_dots. generalize (l :: ls). intros k. induction k as [|x k IH]; auto. cbn [map concat]. rewrite !zlen_app, !zlen_cons, zlen_map, IH. change (zlen (@nil Z)) with 0. lia.
Qed.
Lemma shape_bytes B ls new : Forall plabel ls -> shape B ls new -> bytes_ok new.
Proof.
  assert (K : forall a, Forall plabel a -> bytes_ok (lab_bytes a)).
  { induction 1 as [|l a [Hl Hp] H IH]; [constructor|]. unfold lab_bytes. cbn [map concat]. constructor; [unfold is_byte; lia|].
    apply bytes_ok_app. split; [now apply bytes_ok_wlabel|exact IH]. }
  intros H [->|(a & b & p & -> & -> & Hp & Hq)]; apply bytes_ok_app.
  - split; [now apply K|repeat constructor; unfold is_byte; lia].
  - apply Forall_app in H as [H _]. split; [now apply K|repeat constructor; unfold is_byte; lia].
Qed.
(** So a name of at most 10 labels, and each of the first 11 names of a message, is read
    back at its place, whatever is written afterwards. *)
Lemma nth_skip {A} k (d : list A) n : nth_error (skipn k d) n = nth_error d (k + n).
Proof. revert d. induction k as [|k IH]; intros [|x d]; cbn; auto. now destruct n. Qed.
Lemma skip_skip {A} a b (d : list A) : skipn a (skipn b d) = skipn (a + b) d.
Proof. revert d. induction b as [|b IH]; intros d; [now rewrite Nat.add_0_r|]. rewrite Nat.add_succ_r. destruct d; [now rewrite !skipn_nil|]. apply IH. Qed.
Lemma wire_skip m ls q h p : wire (Some m) m p ls q h -> wire (Some m) (skipn p m) 0 ls (q - p) h /\ (p <= q)%nat.
Proof.
  remember m as d eqn:Ed in |- * at 1. intros W. assert (W' : wire (Some m) d p ls q h) by (subst; exact W). clear W.
  assert (K : forall k, (k <= p)%nat -> wire (Some m) (skipn k d) (p - k) ls (q - k) h /\ (p <= q)%nat).
  { clear Ed. induction W' as [d p E|d p c l ls q h E R El Ln W IH|d p c c1 m' ls q h E R E1 Ed' W IH]; intros k Hk.
    - split; [|lia]. replace (S p - k)%nat with (S (p - k)) by lia. apply w_end. rewrite nth_skip. now replace (k + (p - k))%nat with p by lia.
    - destruct (IH k ltac:(lia)) as [IH1 IH2]. split; [|lia]. eapply w_label with (c := c); eauto.
      + rewrite nth_skip. now replace (k + (p - k))%nat with p by lia.
      + rewrite skip_skip. replace (S (p - k) + k)%nat with (S p) by lia. exact El.
      + replace (S (p - k) + Z.to_nat c)%nat with (S p + Z.to_nat c - k)%nat by lia. exact IH1.
    - split; [|lia]. replace (S (S p) - k)%nat with (S (S (p - k))) by lia. eapply w_ptr; eauto.
      + rewrite nth_skip. now replace (k + (p - k))%nat with p by lia.
      + rewrite nth_skip. now replace (k + S (p - k))%nat with (S p) by lia. }
  subst d. destruct (K p ltac:(lia)) as [K1 K2]. rewrite Nat.sub_diag in K1. auto.
Qed.
(** A name is read from its own bytes. *)
Lemma wire_local dmp d p ls q h w : wire dmp d p ls q h -> wire dmp (firstn q d ++ w) p ls q h.
Proof.
  assert (N : forall (d : list Z) i q w, (i < q)%nat -> (i < length d)%nat -> nth_error (firstn q d ++ w) i = nth_error d i).
  { clear. intros d i q w H L. rewrite nth_error_app1 by (rewrite firstn_length; lia). revert d q H L. induction i as [|i IH]; intros [|x d] [|q] H L; cbn in *; try lia; auto. apply IH; lia. }
  assert (Q : forall dmp d p ls q h, wire dmp d p ls q h -> (p < q <= length d)%nat).
  { clear. induction 1 as [d p E|d p c l ls q h E R El Ln W IH|d p c c1 m ls q h E R E1 Ed W IH].
    - assert (p < length d)%nat by (apply nth_error_Some; congruence). lia.
    - lia.
    - assert (S p < length d)%nat by (apply nth_error_Some; congruence). lia. }
  assert (K : forall d p ls q h, wire dmp d p ls q h -> forall q', (q <= q' <= length d)%nat -> wire dmp (firstn q' d ++ w) p ls q h).
  { clear - N Q. induction 1 as [d p E|d p c l ls q h E R El Ln W IH|d p c c1 m ls q h E R E1 Ed W IH]; intros q' Hq'.
    - apply w_end. rewrite N by lia. exact E.
    - pose proof (Q _ _ _ _ _ _ W). eapply w_label with (c := c); eauto; [rewrite N by lia; exact E|].
      rewrite firstn_skipn_app by (rewrite firstn_length; lia). rewrite skipn_firstn_comm, firstn_firstn. rewrite Nat.min_l by lia. exact El.
    - pose proof (Q _ _ _ _ _ _ (w_ptr _ _ _ _ _ _ _ _ _ E R E1 Ed W)). eapply w_ptr; eauto; rewrite N by lia; auto. }
  intros W. apply K; auto. pose proof (Q _ _ _ _ _ _ W). lia.
Qed.
Theorem compressed_roundtrip_partial data k m cmp ls : pname ls -> (length ls <= 10 \/ k <= 10)%nat -> cmap_ok k m cmp ->
  exists new cmp', name_write data (zlen m) (dotted ls) (Some cmp) = (new, cmp') /\ cmap_ok (S k) (m ++ new) cmp' /\ zlen new <= zlen (plain ls) /\ bytes_ok new /\
    forall after w, bytes_ok (m ++ new ++ after) -> bytes_ok w ->
      name_read (Some (m ++ new ++ after)) (new ++ w) = Ok (Some (dotted ls, w)).
Proof.
  intros H N Hm. destruct (compressed_name data k m cmp ls H Hm) as (new & cmp' & h & R & C & W & Hh & Hk & Hlen & Hsh).
  exists new, cmp'. split; [exact R|]. split; [exact C|]. split; [exact Hlen|]. split; [eapply shape_bytes; [apply H|exact Hsh]|]. intros after w Ba Bw. apply (wire_app _ after) in W. rewrite <- app_assoc in W.
  destruct (wire_skip _ _ _ _ _ W) as [W' _]. replace (skipn (length m) (m ++ new ++ after)) with (new ++ after) in W'.
  2:{ rewrite skipn_app, Nat.sub_diag, skipn_all. reflexivity. }
  replace (length (m ++ new) - length m)%nat with (length new) in W' by (rewrite app_length; lia). apply (wire_local _ _ _ _ _ _ w) in W'.
  rewrite firstn_app, Nat.sub_diag, firstn_all, app_nil_r in W'.
  destruct (parse_exact (Some (m ++ new ++ after)) (new ++ w)) as (r & P & X).
  { apply bytes_ok_app in Ba as [_ Ba]. apply bytes_ok_app in Ba as [Ba _]. apply bytes_ok_app. auto. } { intros ? E. apply some_inj in E. now subst. }
  destruct H as [Hp L]. unfold name_read. rewrite P. replace r with (Some (dotted ls, zlen new)).
  - cbv iota. f_equal. f_equal. f_equal. apply skipn_zlen.
  - symmetry. apply X. exists (wlabels ls), (length new), h. rewrite text_wlabels by auto. split; [exact W'|]. split; [lia|]. auto.
Qed.

(** A decoded name is re-encoded to the same labels unless it has the bytes 254 or 255,
    the stand-ins for dot and zero. *)
Theorem decoded_reencodes dmp d p ls q h : wire dmp d p ls q h -> bytes_ok d -> (forall m, dmp = Some m -> bytes_ok m) ->
  Forall (Forall (fun b => b < 254)) ls -> zlen (text ls) <= 255 ->
  exists ps, pname ps /\ dotted ps = text ls /\ wlabels ps = ls.
Proof.
  intros W Bd Bm F L. exists (map (map shown) ls).
  assert (B : Forall (fun l => 1 <= zlen l <= 63 /\ bytes_ok l) ls).
  { clear F L. induction W as [d p E|d p c l ls q h E R El Ln W IH|d p c c1 m ls q h E R E1 Ed W IH]; [constructor| |auto].
    constructor; auto. split; [lia|]. subst l. now apply bytes_ok_firstn, bytes_ok_skipn. }
  assert (D : dotted (map (map shown) ls) = text ls).
  { destruct ls as [|l ls]; [reflexivity|]. unfold dotted, text. cbn [map]. change (map shown l :: map (map shown) ls) with (map (map shown) (l :: ls)). now rewrite map_map. }
  split; [split; [|now rewrite D]|split; [exact D|]].
  - apply Forall_map. eapply Forall_impl; [|exact B]. intros l [Hl Hb]. split; [now rewrite zlen_map|]. apply Forall_map. eapply Forall_impl; [|exact Hb].
    unfold is_byte, pchar, shown. intros b Hbb. destruct (Z.eqb_spec b 0); [lia|]. destruct (Z.eqb_spec b 46); lia.
  - unfold wlabels. rewrite map_map. rewrite <- (map_id ls) at 2. apply map_ext_in. intros l Il. rewrite map_map. rewrite <- (map_id l) at 2. apply map_ext_in. intros b Ib.
    rewrite Forall_forall in B, F. destruct (B _ Il) as [_ Hb]. specialize (F _ Il). rewrite Forall_forall in F. unfold bytes_ok in Hb. rewrite Forall_forall in Hb. specialize (F _ Ib). specialize (Hb _ Ib).
    unfold is_byte, byte_of, shown in *. destruct (Z.eqb_spec b 0) as [->|]; [reflexivity|]. destruct (Z.eqb_spec b 46) as [->|]; [reflexivity|].
    destruct (Z.eqb_spec b 255); [lia|]. destruct (Z.eqb_spec b 254); lia.
Qed.

(** ** The labels of a name *)
Theorem labels_counted ls : pname ls -> label_count (dotted ls) = zlen ls.
Proof. apply label_count_dotted. Qed.
(** Index [k] from the front, or from the end when negative *)
Theorem label_at ls k l : pname ls -> - zlen ls <= k < zlen ls ->
  nth_error ls (Z.to_nat (if k <? 0 then k + zlen ls else k)) = Some l -> label_get 64 (dotted ls) k = Ok l.
Proof.
  intros H Hk E. apply nth_error_split in E as (a & b & E & La). eapply label_get_dotted; eauto.
  - unfold idx, zlen in *. destruct (Z.ltb_spec k 0); lia.
  - destruct H as [H _]. subst ls. apply Forall_app in H as [_ H]. inversion H as [|? ? [Hl _]]; subst. lia.
Qed.
Theorem labels_from ls k : pname ls -> - zlen ls <= k < zlen ls ->
  label_from 256 (dotted ls) k = Ok (dotted (skipn (Z.to_nat (if k <? 0 then k + zlen ls else k)) ls)).
Proof.
  intros H Hk. destruct (split_at ls (if k <? 0 then k + zlen ls else k)) as (a & l & b & E & La); [destruct (Z.ltb_spec k 0); lia|].
  replace (skipn _ ls) with (l :: b). 
  - eapply label_from_dotted; eauto. destruct H as [H L]. rewrite E in L. rewrite cat_dots_dotted in L by (destruct a; discriminate).
    rewrite cat_dots_app, zlen_app in L. rewrite cat_dots_dotted by discriminate. pose proof (zlen_nonneg (cat_dots a)). lia.
  - rewrite <- La, E. now rewrite skipn_zlen.
Qed.

(** Comparison ignores the case of ASCII letters and a final dot. *)
Theorem name_cmp_eq a b : bytes_ok a -> bytes_ok b -> name_cmp a b = 0 <-> to_lower (chop_dot a) = to_lower (chop_dot b).
Proof.
  intros Ha Hb. unfold name_cmp.
  assert (Ca : bytes_ok (chop_dot a)). { unfold chop_dot. destruct (name_is_fqdn a); auto. rewrite removelast_firstn_len. now apply bytes_ok_firstn. }
  assert (Cb : bytes_ok (chop_dot b)). { unfold chop_dot. destruct (name_is_fqdn b); auto. rewrite removelast_firstn_len. now apply bytes_ok_firstn. }
  revert Ca Cb. generalize (chop_dot a) (chop_dot b). clear. intros a. induction a as [|x a IH]; intros [|y b] Ca Cb; cbn [cmp_chars to_lower map]; try (split; [lia|discriminate]); [tauto|].
  apply Forall_cons_iff in Ca as [Hx Ca]. apply Forall_cons_iff in Cb as [Hy Cb]. cbv zeta.
  assert (E : forall c, is_byte c -> (if (65 <=? c) && (c <=? 90) then Z.lor c 32 else c) = lower1 c).
  { intros c Hc. apply Z.eqb_eq. unfold lower1. revert c Hc. apply (byte_all (fun c => _ =? _)). vm_compute. reflexivity. }
  rewrite !E by auto. destruct (Z.ltb_spec (lower1 x) (lower1 y)); [split; [lia|intros F; injection F; lia]|].
  destruct (Z.ltb_spec (lower1 y) (lower1 x)); [split; [lia|intros F; injection F; lia]|]. rewrite (IH b Ca Cb). unfold to_lower. split.
  - intros F. f_equal; [lia|exact F].
  - intros F. now injection F.
Qed.

(** ** Where the claims of C29 fail in the code *)
(** Writing the names of [l] one after the other *)
Fixpoint write_names (m : list Z) (cmp : cmap) (l : list (list (list Z))) : list Z * cmap :=
  match l with
  | [] => (m, cmp)
  | ls :: l => let '(new, cmp) := name_write true (zlen m) (dotted ls) (Some cmp) in write_names (m ++ new) cmp l
  end.
(** [chain n]: the labels a.a. ... .a with 1, 2, ..., n labels; each longer name is a
    label and a pointer to the one before. *)
Definition nested (n : nat) : list (list (list Z)) := map (fun k => repeat [97] (S k)) (seq 0 n).
(** The decoder refuses the twelfth name: eleven pointers lead to its end. *)
Theorem long_chain_refuted : exists k m cmp ls new cmp', cmap_ok k m cmp /\ bytes_ok m /\ pname ls /\
  name_write true (zlen m) (dotted ls) (Some cmp) = (new, cmp') /\ name_read (Some (m ++ new)) new = Ok None.
Proof.
  set (r := write_names (repeat 1 12) [] (nested 11)).
  assert (K : forall l k m c, Forall pname l -> cmap_ok k m c -> cmap_ok (k + length l) (fst (write_names m c l)) (snd (write_names m c l))).
  { induction l as [|ls l IH]; intros k m c H Hm; [rewrite Nat.add_0_r; exact Hm|]. apply Forall_cons_iff in H as [H1 H]. cbn [write_names].
    destruct (compressed_name true k m c ls H1 Hm) as (new & c' & h & R & C & _). rewrite R. cbn [length]. rewrite Nat.add_succ_r. now apply (IH (S k)). }
  exists 11%nat, (fst r), (snd r), (repeat [97] 12), (fst (name_write true (zlen (fst r)) (dotted (repeat [97] 12)) (Some (snd r)))), (snd (name_write true (zlen (fst r)) (dotted (repeat [97] 12)) (Some (snd r)))).
  assert (P : forall n, (n <= 127)%nat -> pname (repeat [97] n)).
  { intros n Hn. split.
    - clear Hn. induction n; cbn [repeat]; constructor; auto. split; [unfold zlen; cbn; lia|]. repeat constructor; lia.
    - assert (G : zlen (cat_dots (repeat [97] n)) = 2 * Z.of_nat n).
      { clear. induction n as [|n IH]; [reflexivity|]. cbn [repeat]. rewrite cat_dots_len, IH. unfold zlen. cbn [length]. lia. }
      destruct n; [unfold zlen; cbn; lia|]. rewrite cat_dots_dotted by discriminate. lia. }
  split. { apply (K (nested 11) 0%nat); [|constructor]. unfold nested. apply Forall_map, Forall_forall. intros k Hk. apply in_seq in Hk. apply P. lia. }
  split. { apply bytes_ok_check. vm_compute. reflexivity. }
  split; [apply P; lia|]. split; [now destruct (name_write _ _ _ _)|]. vm_compute. reflexivity.
Qed.
(** A name with a dot in front is accepted but read back as the root. *)
Theorem leading_dot_refuted : exists s out, noz s /\ name_serialize true 0 s None = (true, out, []) /\ name_parse None out = Some (Ok (Some ([46], 1))) /\ s <> [46].
Proof. exists [46; 97; 46], [0; 1; 97; 0]. split; [repeat constructor; lia|]. split; [reflexivity|]. split; [reflexivity|discriminate]. Qed.
(** A label with the byte 255 does not survive decoding and encoding. *)
Theorem stand_in_refuted : exists d name out, bytes_ok d /\ name_parse None d = Some (Ok (Some (name, 3))) /\
  name_serialize true 0 name None = (true, out, []) /\ d = [1; 255; 0] /\ out = [1; 0; 0].
Proof. exists [1; 255; 0], [255; 46], [1; 0; 0]. split; [repeat constructor; unfold is_byte; lia|]. repeat (split; [reflexivity|]). reflexivity. Qed.

(** ** Examples: the hypotheses can be met *)
Definition www : list (list Z) := [[119; 119; 119]; [104; 110; 115]].
Definition mail : list (list Z) := [[109]; [104; 110; 115]].
Example ex_pname : pname www /\ dotted www = [119; 119; 119; 46; 104; 110; 115; 46].
Proof. split; [|reflexivity]. split; [repeat constructor; unfold zlen; cbn; lia|unfold zlen; cbn; lia]. Qed.
(** m.hns. is written as the label m and a pointer to hns. in www.hns., offset 16 *)
Example ex_compress : write_names (repeat 0 12) [] [www; mail] =
  (repeat 0 12 ++ [3; 119; 119; 119; 3; 104; 110; 115; 0; 1; 109; 192; 16], [(dotted mail, 21); (dotted [[104; 110; 115]], 16); (dotted www, 12)]).
Proof. reflexivity. Qed.
Example ex_read : name_read (Some (repeat 0 12 ++ [3; 119; 119; 119; 3; 104; 110; 115; 0; 1; 109; 192; 16; 7])) [1; 109; 192; 16; 7] = Ok (Some (dotted mail, [7])).
Proof. reflexivity. Qed.
(** A pointer to itself is refused. *)
Example ex_loop : name_parse (Some [192; 0]) [192; 0] = Some (Ok None).
Proof. reflexivity. Qed.
Example ex_labels : label_get 64 (dotted www) (-1) = Ok [104; 110; 115] /\ label_from 256 (dotted www) (-1) = Ok [104; 110; 115; 46].
Proof. split; reflexivity. Qed.

Print Assumptions parse_exact.
Print Assumptions parse_inside.
Print Assumptions serialize_fits.
Print Assumptions serialize_plain.
Print Assumptions plain_roundtrip.
Print Assumptions serialize_accepts.
Print Assumptions compressed_name.
Print Assumptions compressed_roundtrip_partial.
Print Assumptions decoded_reencodes.
Print Assumptions labels_counted.
Print Assumptions label_at.
Print Assumptions labels_from.
Print Assumptions name_cmp_eq.
Print Assumptions long_chain_refuted.
Print Assumptions leading_dot_refuted.
Print Assumptions stand_in_refuted.
