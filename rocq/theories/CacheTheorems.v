(** C26, C27: the cache of answers. *)
From Verif Require Import Common CommonFacts Assoc BioModel BioFacts UtilTheorems Base32Model DateModel DnsNameModel DnsNameSpec DnsNameFacts DnsNameTheorems DnsMsgModel DnsMsgSpec DnsMsgFacts DnsMsgDecode DnsMsgTheorems ReqModel ReqTheorems ResourceModel ResourceTheorems DnssecModel DnssecTheorems AnswerModel AnswerTheorems CacheModel.

(** ** Specification: names with an answer of their own *)
Definition smimecert : list Z := [95; 115; 109; 105; 109; 101; 99; 101; 114; 116].
Definition openpgpkey : list Z := [95; 111; 112; 101; 110; 112; 103; 112; 107; 101; 121].
Definition service (l : list Z) : Prop := exists b, l = 95 :: b /\ b <> [].
Definition decimal (b : list Z) : Z := fold_left (fun v c => 10 * v + (c - 48)) b 0.
Definition port (l : list Z) : Prop := exists b, l = 95 :: b /\ 1 <= zlen b <= 5 /\ Forall (fun c => 48 <= c <= 57) b /\ decimal b <= 65535.
Definition hashed (l : list Z) : Prop := zlen l = 56 /\ Forall (fun c => exists d, hex_digit c d) l.
Definition pointer (l : list Z) : Prop := exists b ds, l = 95 :: b /\ digits b ds /\ In (zlen b) [7; 26; 27].
(** The answers of every other name are those of all names below its top label. *)
Definition own_answer (ls : list (list Z)) (type : Z) : Prop :=
  match ls with
  | [] | [_] => True
  | [a; _] => pointer a
  | [a; b; _] => (type = 33 /\ service a /\ service b) \/ (type = 52 /\ port a /\ service b) \/
                 (type = 53 /\ hashed a /\ map low b = smimecert) \/ (type = 61 /\ hashed a /\ map low b = openpgpkey)
  | _ => False
  end.
(** Two labels, the first an underscore and one digit *)
Definition aborts (ls : list (list Z)) : Prop := exists c d top, ls = [[95; c]; top] /\ digits [c] [d].

(** ** Lemmas: kinds of names *)
Lemma label_nth ls k l : pname ls -> nth_error ls k = Some l -> label_get 64 (dotted ls) (Z.of_nat k) = Ok l.
Proof.
  intros H E. assert (L : (k < length ls)%nat) by (apply nth_error_Some; congruence). apply label_at; auto; [unfold zlen; lia|]. destruct (Z.ltb_spec (Z.of_nat k) 0); [lia|]. now rewrite Nat2Z.id.
Qed.
Lemma service_label l : negb ((zlen l <? 2) || negb (nth 0 l 0 =? 95)) = true <-> service l.
Proof.
  unfold service. rewrite negb_true_iff, orb_false_iff, Z.ltb_ge, negb_false_iff, Z.eqb_eq. split.
  - intros [L E]. destruct l as [|c [|d b]]; [cbn in E; discriminate|unfold zlen in L; cbn in L; lia|]. cbn in E. subst c. exists (d :: b). split; [reflexivity|discriminate].
  - intros (b & -> & N). destruct b as [|d b]; [contradiction|]. split; [|reflexivity]. rewrite !zlen_cons. pose proof (zlen_nonneg b). lia.
Qed.
Lemma three_labels a b c : pname [a; b; c] -> label_count (dotted [a; b; c]) = 3 /\ label_get 64 (dotted [a; b; c]) 0 = Ok a /\ label_get 64 (dotted [a; b; c]) 1 = Ok b.
Proof. intros H. rewrite labels_counted by auto. split; [reflexivity|]. split; [exact (label_nth _ 0%nat a H eq_refl)|exact (label_nth _ 1%nat b H eq_refl)]. Qed.
Lemma srv_exact a b c : pname [a; b; c] -> exists r, is_srv (dotted [a; b; c]) = Ok r /\ (r = true <-> service a /\ service b).
Proof.
  intros H. destruct (three_labels a b c H) as (E0 & E1 & E2). unfold is_srv. rewrite E0, E1, E2. cbn [obind]. zred. pose proof (service_label b) as Sb. pose proof (service_label a) as Sa.
  destruct ((zlen b <? 2) || negb (nth 0 b 0 =? 95)).
  - exists false. split; [reflexivity|]. cbn in Sb. split; [discriminate|]. intros [_ X]. apply Sb in X. discriminate.
  - eexists. split; [reflexivity|]. rewrite Sa. split; [intros X; split; [exact X|now apply Sb]|tauto].
Qed.
Lemma decimal_mono b : forall v, 0 <= v -> Forall (fun c => 48 <= c <= 57) b -> v <= fold_left (fun v c => 10 * v + (c - 48)) b v.
Proof. induction b as [|c b IH]; intros v Hv F; cbn [fold_left]; [lia|]. apply Forall_cons_iff in F as [Fc F]. specialize (IH (10 * v + (c - 48)) ltac:(lia) F). lia. Qed.
Lemma is_port_exact b : forall v, 0 <= v <= 65535 -> is_port v b = true <-> Forall (fun c => 48 <= c <= 57) b /\ fold_left (fun v c => 10 * v + (c - 48)) b v <= 65535.
Proof.
  induction b as [|c b IH]; intros v Hv; cbn [is_port fold_left].
  - split; [intros _; split; [constructor|lia]|reflexivity].
  - cbv zeta. destruct (Z.ltb_spec (c - 48) 0) as [G|G]; cbn [orb]; [split; [discriminate|intros [F _]; apply Forall_cons_iff in F as [F _]; lia]|].
    destruct (Z.ltb_spec 9 (c - 48)) as [G2|G2]; [split; [discriminate|intros [F _]; apply Forall_cons_iff in F as [F _]; lia]|].
    replace (v * 10) with (10 * v) by lia. destruct (Z.ltb_spec 65535 (10 * v + (c - 48))) as [G3|G3].
    + split; [discriminate|]. intros [F X]. apply Forall_cons_iff in F as [_ F]. pose proof (decimal_mono b (10 * v + (c - 48)) ltac:(lia) F). lia.
    + rewrite IH by lia. rewrite Forall_cons_iff. split; intros [X Y]; split; auto; try tauto. split; [lia|tauto].
Qed.
Lemma tlsa_exact a b c : pname [a; b; c] -> exists r, is_tlsa (dotted [a; b; c]) = Ok r /\ (r = true <-> port a /\ service b).
Proof.
  intros H. destruct (three_labels a b c H) as (E0 & E1 & E2). unfold is_tlsa. rewrite E0, E1, E2. cbn [obind]. zred. pose proof (service_label b) as Sb.
  destruct ((zlen b <? 2) || negb (nth 0 b 0 =? 95)).
  - exists false. split; [reflexivity|]. cbn in Sb. split; [discriminate|]. intros [_ X]. apply Sb in X. discriminate.
  - assert (Xb : service b) by now apply Sb.
    destruct ((zlen a <? 2) || (6 <? zlen a) || negb (nth 0 a 0 =? 95)) eqn:E.
    + exists false. split; [reflexivity|]. split; [discriminate|]. intros [(x & -> & L & _) _]. exfalso. rewrite zlen_cons in E. cbn [nth] in E. change (95 =? 95) with true in E. cbn [negb] in E. lia.
    + eexists. split; [reflexivity|]. rewrite !orb_false_iff, !Z.ltb_ge, negb_false_iff, Z.eqb_eq in E. destruct E as [[L1 L2] L3]. destruct a as [|x a]; [cbn in L3; discriminate|]. cbn in L3. subst x. rewrite zlen_cons in *. cbn [skipn]. rewrite is_port_exact by lia. split.
      * intros [F D]. split; [|exact Xb]. exists a. split; [reflexivity|]. split; [lia|]. split; [exact F|exact D].
      * intros [(y & Ey & _ & F & D) _]. injection Ey as <-. split; [exact F|exact D].
Qed.
Lemma dane_exact tag a b c : pname [a; b; c] -> 2 <= zlen tag -> to_lower tag = tag -> exists r, is_dane tag (dotted [a; b; c]) = Ok r /\ (r = true <-> hashed a /\ map low b = tag).
Proof.
  intros H Lt Et. destruct (three_labels a b c H) as (E0 & E1 & E2). assert (Ba : bytes_ok a) by (destruct H as [H _]; apply Forall_cons_iff in H as [H _]; now apply plabel_bytes).
  unfold is_dane. rewrite E0, E1, E2, Et. cbn [obind]. zred. rewrite lower_low. destruct (beq (map low b) tag) eqn:E.
  - apply beq_true_iff in E. assert (Lb : zlen b = zlen tag) by (rewrite <- E; unfold zlen; now rewrite map_length). replace (zlen b <? 2) with false by lia. cbn [negb orb].
    eexists. split; [reflexivity|]. unfold hashed. destruct (hex_decoding_exact a Ba) as (_ & _ & _ & X). rewrite andb_true_iff, X, Z.eqb_eq. split; [tauto|]. intros [[L F] _]. split; [exact L|]. split; [|exact F]. now rewrite L.
  - rewrite orb_true_r. exists false. split; [reflexivity|]. split; [discriminate|]. intros [_ Y]. apply (beq_true_iff (map low b) tag) in Y. congruence.
Qed.
Lemma digits_dec b : (exists ds, digits b ds) \/ forall ds, ~ digits b ds.
Proof.
  induction b as [|c b IH]; [left; exists []; constructor|].
  assert (D : (exists d, digit_of charset_hex c d) \/ forall d, ~ digit_of charset_hex c d).
  { destruct (in_dec Z.eq_dec (lower c) charset_hex) as [I|I].
    - left. apply In_nth_error in I as [n I]. exists (Z.of_nat n). split; [lia|]. now rewrite Nat2Z.id.
    - right. intros d [_ E]. apply nth_error_In in E. contradiction. }
  destruct D as [[d D]|D]; [|right; intros ds X; inversion X; subst; eapply D; eauto].
  destruct IH as [[ds IH]|IH]; [left; exists (d :: ds); now constructor|right; intros ds X; inversion X; subst; eapply IH; eauto].
Qed.
Lemma ptr_exact a top : pname [a; top] -> (aborts [a; top] -> is_ptr (dotted [a; top]) = Abort) /\ (~ aborts [a; top] -> exists r, is_ptr (dotted [a; top]) = Ok r /\ (r = true <-> pointer a)).
Proof.
  intros H. pose proof (synth_name_exact false a [top] H) as X. cbv zeta in X. destruct X as [X1 X2]. unfold is_ptr. split.
  - intros (c & d & t & E & D). injection E as -> _. destruct (X1 _ _ eq_refl D) as (data & _ & _ & _ & R). rewrite R. reflexivity.
  - intros N. assert (Case : (exists b ds, a = 95 :: b /\ b <> [] /\ digits b ds) \/ forall b ds, a = 95 :: b -> b <> [] -> ~ digits b ds).
    { destruct a as [|x b]; [right; discriminate|]. destruct (Z.eq_dec x 95) as [->|Nx]; [|right; intros b' ds E; injection E as E _; contradiction].
      destruct b as [|y b]; [right; intros b' ds E; injection E as <-; contradiction|]. destruct (digits_dec (y :: b)) as [[ds D]|D]; [left; exists (y :: b), ds; repeat split; auto; discriminate|right; intros b' ds E _; injection E as <-; apply D]. }
    destruct Case as [(b & ds & -> & Nb & D)|C].
    + destruct (X1 _ _ eq_refl D) as (data & _ & _ & _ & R). rewrite R. rewrite Bool.andb_false_r. destruct (Z.eqb_spec (zlen b) 1) as [E1|E1].
      { exfalso. apply N. destruct b as [|c [|c' b]]; [contradiction| |rewrite !zlen_cons in E1; pose proof (zlen_nonneg b); lia]. inversion D; subst. inversion H4; subst. exists c, y, top. auto. }
      assert (P : pointer (95 :: b) <-> In (zlen b) [7; 26; 27]). { unfold pointer. split; [intros (b' & ds' & E & _ & I); injection E as <-; exact I|intros I; exists b, ds; auto]. }
      cbn [In] in P. destruct (Z.eqb_spec (zlen b) 7) as [E7|E7]; cbn [obind]; [exists true; split; [reflexivity|]; rewrite P; intuition auto|].
      destruct ((zlen b =? 26) || (zlen b =? 27)) eqn:E26; cbn [obind]; [exists true|exists false]; (split; [reflexivity|]); rewrite P; [intuition lia|]. split; [discriminate|]. intros; exfalso; lia.
    + rewrite (X2 C). cbn [obind]. exists false. split; [reflexivity|]. split; [discriminate|]. intros (b & ds & -> & D & I). exfalso. eapply C; eauto. intros ->. change (zlen (@nil Z)) with 0 in I. cbn [In] in I. intuition lia.
Qed.

(** ** C27: which answers share a place *)
Theorem key_exact ls type : pname ls -> let k := key_set (dotted ls) type in
  (~ clean_name (dotted ls) -> k = Ok None) /\
  (clean_name (dotted ls) -> aborts ls -> k = Abort) /\
  (clean_name (dotted ls) -> ~ aborts ls -> own_answer ls type -> k = Ok (Some {| k_name := match ls with [] => [] | _ => map low (dotted ls) end; k_type := type; k_ref := false |})) /\
  (clean_name (dotted ls) -> ~ aborts ls -> ~ own_answer ls type -> k = Ok (Some {| k_name := map low (dotted [last ls []]); k_type := type; k_ref := true |})).
Proof.
  intros H k. assert (V : valid_name (dotted ls)) by (exists ls; auto). pose proof (dirty_name (dotted ls) (valid_bytes _ V)) as Dn.
  unfold k, key_set. clear k. rewrite (verify_valid _ V). cbn [negb]. destruct (name_dirty (dotted ls)).
  { split; [auto|]. assert (F : ~ clean_name (dotted ls)) by (intros C; apply Dn in C; discriminate). split; [|split]; contradiction. }
  assert (C : clean_name (dotted ls)) by now apply Dn. split; [contradiction|]. rewrite labels_counted by auto.
  assert (Fin : forall r : bool, (r = true -> 2 <= zlen ls) -> obind (label_from 256 (dotted ls) (- (if r then 1 else zlen ls))) (fun n => Ok (Some {| k_name := to_lower n; k_type := type; k_ref := r |})) =
     Ok (Some {| k_name := if r then map low (dotted [last ls []]) else match ls with [] => [] | _ => map low (dotted ls) end; k_type := type; k_ref := r |})).
  { intros r Hr. destruct ls as [|l0 ls0] eqn:E; [destruct r; [specialize (Hr eq_refl); change (zlen (@nil (list Z))) with 0 in Hr; lia|reflexivity]|]. rewrite <- E in *. assert (N : ls <> []) by (rewrite E; discriminate). assert (Lz : 1 <= zlen ls) by (rewrite E, zlen_cons; pose proof (zlen_nonneg ls0); lia). clear E l0 ls0.
    destruct r.
    - destruct (exists_last N) as (a & l & ->). rewrite last_last. pose proof (labels_from (a ++ [l]) (-1) H ltac:(lia)) as X. change (-1 <? 0) with true in X. cbv iota in X.
      assert (Sk : skipn (Z.to_nat (-1 + zlen (a ++ [l]))) (a ++ [l]) = [l]) by (replace (Z.to_nat (-1 + zlen (a ++ [l]))) with (length a) by (rewrite zlen_app; change (zlen [l]) with 1; unfold zlen; lia); rewrite skipn_app, skipn_all, Nat.sub_diag; reflexivity).
      rewrite Sk in X. change (- (1)) with (-1). rewrite X. cbn [obind]. rewrite lower_low. reflexivity.
    - rewrite labels_from by (auto; lia). replace (- zlen ls <? 0) with true by lia. replace (- zlen ls + zlen ls) with 0 by lia. cbn [Z.to_nat skipn obind]. rewrite lower_low. reflexivity. }
  (* the decision *)
  set (body := if zlen ls <? 2 then _ else _). set (rest := fun ref : bool => _).
  assert (Ab : aborts ls -> body = Abort).
  { intros A. assert (A' := A). destruct A' as (c & d & top & -> & D). unfold body. change (zlen [[95; c]; top] <? 2) with false. change (zlen [[95; c]; top] =? 2) with true. cbv iota. destruct (ptr_exact [95; c] top H) as [P _]. rewrite (P A). reflexivity. }
  assert (Bd : ~ aborts ls -> exists r, body = Ok (negb r) /\ (r = true <-> own_answer ls type)).
  { intros A. unfold body. destruct ls as [|a [|b [|c [|d ls]]]].
    - exists true. split; [reflexivity|]. cbn. tauto.
    - exists true. split; [reflexivity|]. cbn. tauto.
    - change (zlen [a; b] <? 2) with false. change (zlen [a; b] =? 2) with true. cbv iota. destruct (ptr_exact a b H) as [_ P]. destruct (P A) as (r & E & Ir). rewrite E. exists r. split; [reflexivity|exact Ir].
    - change (zlen [a; b; c] <? 2) with false. change (zlen [a; b; c] =? 2) with false. change (zlen [a; b; c] =? 3) with true. cbv iota. cbn [own_answer].
      destruct (Z.eqb_spec type 33) as [->|N1]; [destruct (srv_exact a b c H) as (r & E & Ir); rewrite E; exists r; split; [reflexivity|]; rewrite Ir; intuition lia|].
      destruct (Z.eqb_spec type 52) as [->|N2]; [destruct (tlsa_exact a b c H) as (r & E & Ir); rewrite E; exists r; split; [reflexivity|]; rewrite Ir; intuition lia|].
      destruct (Z.eqb_spec type 53) as [->|N3]; [destruct (dane_exact smimecert a b c H) as (r & E & Ir); [unfold zlen; cbn; lia|reflexivity|]; unfold is_smimea; fold smimecert; rewrite E; exists r; split; [reflexivity|]; rewrite Ir; intuition lia|].
      destruct (Z.eqb_spec type 61) as [->|N4]; [destruct (dane_exact openpgpkey a b c H) as (r & E & Ir); [unfold zlen; cbn; lia|reflexivity|]; unfold is_openpgpkey; fold openpgpkey; rewrite E; exists r; split; [reflexivity|]; rewrite Ir; intuition lia|].
      exists false. split; [reflexivity|]. split; [discriminate|]. intuition lia.
    - exists false. split; [|split; [discriminate|intros []]]. rewrite !zlen_cons. pose proof (zlen_nonneg ls). replace (_ <? 2) with false by lia. replace (_ =? 2) with false by lia. replace (_ =? 3) with false by lia. reflexivity. }
  split; [intros _ A; rewrite (Ab A); reflexivity|]. split; intros _ A O; destruct (Bd A) as (r & E & Ir); rewrite E; cbn [obind]; unfold rest; destruct r; try (exfalso; apply O; now apply Ir); try (exfalso; apply Ir in O; discriminate); cbn [negb]; cbv zeta.
  - rewrite (Fin false) by discriminate. reflexivity.
  - rewrite (Fin true); [reflexivity|]. intros _. destruct ls as [|a [|b ls]]; [exfalso; apply O; exact I|exfalso; apply O; exact I|]. rewrite !zlen_cons. pose proof (zlen_nonneg ls). lia.
Qed.

Lemma own_dec ls type : pname ls -> clean_name (dotted ls) -> ~ aborts ls -> forall k, key_set (dotted ls) type = Ok (Some k) ->
  (own_answer ls type /\ k = {| k_name := match ls with [] => [] | _ => map low (dotted ls) end; k_type := type; k_ref := false |}) \/
  (~ own_answer ls type /\ 2 <= zlen ls /\ k = {| k_name := map low (dotted [last ls []]); k_type := type; k_ref := true |}).
Proof.
  intros H C A k E. destruct (key_exact ls type H) as (_ & _ & X1 & X2).
  assert (D : own_answer ls type \/ ~ own_answer ls type).
  { destruct (k_ref k) eqn:R.
    - right. intros O. rewrite (X1 C A O) in E. apply Ok_inj, some_inj in E. subst k. discriminate.
    - destruct ls as [|a [|b [|c [|d ls]]]]; cbn [own_answer]; auto.
        + destruct (ptr_exact a b H) as [_ P]. destruct (P A) as (r & _ & Ir). destruct r; [left; now apply Ir|right; intros O; apply Ir in O; discriminate].
        + destruct (srv_exact a b c H) as (r1 & _ & I1). destruct (tlsa_exact a b c H) as (r2 & _ & I2). destruct (dane_exact smimecert a b c H) as (r3 & _ & I3); [unfold zlen; cbn; lia|reflexivity|]. destruct (dane_exact openpgpkey a b c H) as (r4 & _ & I4); [unfold zlen; cbn; lia|reflexivity|].
          assert (D : forall (r : bool) (P : Prop) t, (r = true <-> P) -> (type = t /\ P) \/ ~ (type = t /\ P)).
          { intros r P t I. destruct (Z.eq_dec type t) as [e|n]; [|right; intros [X _]; contradiction]. destruct r; [left; split; [exact e|now apply I]|right; intros [_ X]; apply I in X; discriminate]. }
          destruct (D r1 _ 33 I1), (D r2 _ 52 I2), (D r3 _ 53 I3), (D r4 _ 61 I4); tauto. }
  destruct D as [O|O]; [left|right]; (split; [exact O|]).
  - rewrite (X1 C A O) in E. now apply Ok_inj, some_inj in E.
  - split; [|rewrite (X2 C A O) in E; now apply Ok_inj, some_inj in E]. destruct ls as [|a [|b ls]]; [exfalso; apply O; exact I|exfalso; apply O; exact I|]. rewrite !zlen_cons. pose proof (zlen_nonneg ls). lia.
Qed.
Lemma not_clean_key ls type k : pname ls -> key_set (dotted ls) type = Ok (Some k) -> clean_name (dotted ls) /\ ~ aborts ls.
Proof.
  intros H E. destruct (key_exact ls type H) as (X0 & X1 & _). assert (V : valid_name (dotted ls)) by (exists ls; auto). pose proof (dirty_name (dotted ls) (valid_bytes _ V)) as Dn.
  assert (C : clean_name (dotted ls)). { destruct (name_dirty (dotted ls)); [|now apply Dn]. exfalso. rewrite X0 in E by (intros C; apply Dn in C; discriminate). apply Ok_inj in E. discriminate. }
  split; [exact C|]. intros A. rewrite (X1 C A) in E. discriminate.
Qed.

(** Two questions that share a place in the cache ask for the same name and type, or for
    names that share the top label and have no answers of their own; letters are
    compared without case. *)
Theorem shared_place ls1 ls2 t1 t2 k1 k2 : pname ls1 -> pname ls2 -> key_set (dotted ls1) t1 = Ok (Some k1) -> key_set (dotted ls2) t2 = Ok (Some k2) ->
  key_equal k1 k2 = true <->
  (own_answer ls1 t1 /\ own_answer ls2 t2 /\ t1 = t2 /\ map low (dotted ls1) = map low (dotted ls2)) \/
  (~ own_answer ls1 t1 /\ ~ own_answer ls2 t2 /\ 2 <= zlen ls1 /\ 2 <= zlen ls2 /\ map low (last ls1 []) = map low (last ls2 [])).
Proof.
  intros H1 H2 E1 E2. destruct (not_clean_key _ _ _ H1 E1) as [C1 A1]. destruct (not_clean_key _ _ _ H2 E2) as [C2 A2].
  assert (D1 : forall l, dotted [l] = l ++ [46]) by (intros l; unfold dotted; cbn; now rewrite app_nil_r).
  assert (NE : forall l ls, pname (l :: ls) -> map low (dotted (l :: ls)) <> []).
  { intros l ls P E. apply (f_equal (@length Z)) in E. rewrite map_length in E. unfold dotted in E. cbn [map concat] in E. rewrite !app_length in E. cbn in E. lia. }
  assert (NR : forall l ls, pname (l :: ls) -> map low (dotted (l :: ls)) <> [46]).
  { intros l ls P E. apply (f_equal (@length Z)) in E. rewrite map_length in E. destruct P as [P _]. apply Forall_cons_iff in P as [[L _] _]. unfold dotted in E. cbn [map concat] in E. rewrite !app_length in E. unfold zlen in L. cbn in E. lia. }
  unfold key_equal. destruct (own_dec _ _ H1 C1 A1 _ E1) as [[O1 ->]|(O1 & L1 & ->)]; destruct (own_dec _ _ H2 C2 A2 _ E2) as [[O2 ->]|(O2 & L2 & ->)]; cbn [k_ref k_type k_name Bool.eqb orb andb].
  - rewrite andb_true_iff, Z.eqb_eq, beq_true_iff. split.
    + intros [T N]. left. split; [exact O1|]. split; [exact O2|]. split; [exact T|]. destruct ls1 as [|x ls1], ls2 as [|y ls2]; auto; exfalso; [symmetry in N|]; now apply NE in N.
    + intros [(_ & _ & T & N)|(X & _)]; [|contradiction]. split; [exact T|]. destruct ls1 as [|x ls1], ls2 as [|y ls2]; auto; exfalso; [symmetry in N|]; now apply NR in N.
  - split; [discriminate|]. intros [(_ & X & _)|(X & _)]; contradiction.
  - split; [discriminate|]. intros [(X & _)|(_ & X & _)]; contradiction.
  - rewrite beq_true_iff, !D1, !map_app. split.
    + intros E. apply app_inj_tail in E as [E _]. right. auto.
    + intros [(X & _)|(_ & _ & _ & _ & E)]; [contradiction|]. now rewrite E.
Qed.
(** The full claim: such questions get the same answer from every resource. It holds
    where the letters have the same case. *)
Theorem shared_answer_partial ls1 ls2 t1 t2 k1 k2 : pname ls1 -> pname ls2 -> key_set (dotted ls1) t1 = Ok (Some k1) -> key_set (dotted ls2) t2 = Ok (Some k2) ->
  key_equal k1 k2 = true -> (map low (dotted ls1) = map low (dotted ls2) -> ls1 = ls2) -> (map low (last ls1 []) = map low (last ls2 []) -> last ls1 [] = last ls2 []) ->
  (ls1 = [] <-> ls2 = []) /\ (ls1 = [] -> t1 = t2) /\ forall s now rs, to_dns s now rs (dotted ls1) t1 = to_dns s now rs (dotted ls2) t2.
Proof.
  intros H1 H2 E1 E2 K S1 S2. apply (shared_place _ _ _ _ _ _ H1 H2 E1 E2) in K as [(_ & _ & -> & N)|(_ & _ & L1 & L2 & N)].
  - apply S1 in N. subst ls2. split; [tauto|]. auto.
  - apply S2 in N. assert (N1 : ls1 <> []) by (intros ->; change (zlen (@nil (list Z))) with 0 in L1; lia). assert (N2 : ls2 <> []) by (intros ->; change (zlen (@nil (list Z))) with 0 in L2; lia). split; [tauto|]. split; [contradiction|]. intros s now rs. unfold to_dns. rewrite !dotted_end. cbn [negb]. cbv zeta. rewrite !labels_counted, !top_from by auto. cbn [obind]. rewrite N.
    replace (zlen ls1 =? 0) with false by lia. replace (zlen ls2 =? 0) with false by lia. replace (1 <? zlen ls1) with true by lia. replace (1 <? zlen ls2) with true by lia. reflexivity.
Qed.

(** ** C26: what the cache holds *)
(** What tells places apart *)
Definition place (k : ckey) : list Z * option Z := (k_name k, if k_ref k then None else Some (k_type k)).
Lemma key_equal_iff a b : key_equal a b = true <-> place a = place b.
Proof.
  unfold key_equal, place. rewrite !andb_true_iff, Bool.eqb_true_iff, beq_true_iff. destruct (k_ref a), (k_ref b); cbn [orb]; rewrite ?Z.eqb_eq; split.
  - intros (_ & ->). reflexivity.
  - intros E. injection E as ->. auto.
  - intros [[E _] _]. discriminate.
  - intros E. discriminate.
  - intros [[E _] _]. discriminate.
  - intros E. discriminate.
  - intros [[_ ->] ->]. reflexivity.
  - intros E. injection E as -> ->. auto.
Qed.
Lemma key_equal_false a b : key_equal a b = false <-> place a <> place b.
Proof. rewrite <- key_equal_iff. destruct (key_equal a b); split; congruence. Qed.
Definition held (c : cache) (k : ckey) : option citem := aget key_equal k c.
Lemma held_del c k k' : held (adel key_equal k c) k' = if key_equal k' k then None else held c k'.
Proof.
  unfold held. induction c as [|[j v] c IH]; cbn [adel aget]; [now destruct (key_equal k' k)|]. destruct (key_equal k j) eqn:E.
  - rewrite IH. destruct (key_equal k' k) eqn:E2; [reflexivity|]. assert (X : key_equal k' j = false); [|now rewrite X]. apply key_equal_iff in E. apply key_equal_false in E2. apply key_equal_false. now rewrite <- E.
  - cbn [aget]. destruct (key_equal k' j) eqn:E2; [|exact IH]. assert (X : key_equal k' k = false); [|now rewrite X]. apply key_equal_false in E. apply key_equal_iff in E2. apply key_equal_false. rewrite E2. congruence.
Qed.
Lemma held_set c k v k' : held (aset key_equal k v c) k' = if key_equal k' k then Some v else held c k'.
Proof. unfold aset, held. cbn [aget]. destruct (key_equal k' k) eqn:E; [reflexivity|]. fold (held (adel key_equal k c) k'). rewrite held_del, E. reflexivity. Qed.
Lemma del_size (c : cache) k : zlen (adel key_equal k c) <= zlen c.
Proof. induction c as [|[j v] c IH]; cbn [adel]; [lia|]. destruct (key_equal k j); rewrite ?zlen_cons; lia. Qed.
Lemma del_size_held c k it : held c k = Some it -> zlen (adel key_equal k c) < zlen c.
Proof.
  unfold held. induction c as [|[j v] c IH]; cbn [adel aget]; [discriminate|]. destruct (key_equal k j); rewrite !zlen_cons; intros E; [pose proof (del_size c k); lia|]. specialize (IH E). lia.
Qed.
Lemma set_size (c : cache) k v : zlen (aset key_equal k v c) <= zlen c + 1.
Proof. unfold aset. rewrite zlen_cons. pose proof (del_size c k). lia. Qed.

(** One operation: a lookup returns what is held, unless it is six hours old, and that is
    then dropped; an insertion keeps what is held and younger, and otherwise stores its
    data, making room by dropping everything when the cache is full. *)
Theorem lookup_exact c now name type k : key_set name type = Ok (Some k) -> exists o c', get_data c now name type = Ok (o, c') /\
  (forall w, o = Some w <-> exists it, held c k = Some it /\ i_msg it = w /\ now < i_time it + 21600) /\
  (forall k', held c' k' = if match held c k with Some it => (i_time it + 21600 <=? now) && key_equal k' k | None => false end then None else held c k') /\ zlen c' <= zlen c.
Proof.
  intros E. unfold get_data. rewrite E. cbn [obind]. fold (held c k). change cache_ttl with 21600. destruct (held c k) as [it|] eqn:Eh.
  - destruct (Z.leb_spec (i_time it + 21600) now) as [G|G]; (eexists; eexists; split; [reflexivity|]).
    + split; [|split; [intros k'; apply held_del|apply del_size]]. intros w. split; [discriminate|]. intros (it' & X & _ & L). apply some_inj in X. subst it'. lia.
    + split; [|split; [reflexivity|lia]]. intros w. split; [intros X; apply some_inj in X; eauto|]. intros (it' & X & <- & _). apply some_inj in X. now subst it'.
  - eexists. eexists. split; [reflexivity|]. split; [|split; [reflexivity|lia]]. intros w. split; [discriminate|]. intros (it & X & _). discriminate.
Qed.
Theorem insertion_exact c mem now1 now2 name type wire k : key_set name type = Ok (Some k) -> exists ok c', insert_data c mem now1 now2 name type wire = Ok (ok, c') /\
  ((exists it, held c k = Some it /\ now1 < i_time it + 21600) -> ok = true /\ c' = c) /\
  (~ (exists it, held c k = Some it /\ now1 < i_time it + 21600) -> ok = mem /\ held c' k = (if mem then Some {| i_msg := wire; i_time := now2 |} else None) /\
     ((forall k', place k' <> place k -> held c' k' = held c k') \/ (2000 <= zlen c /\ forall k', place k' <> place k -> held c' k' = None)) /\
     (zlen c < 2000 -> forall k', place k' <> place k -> held c' k' = held c k')) /\
  (zlen c <= 2000 -> zlen c' <= 2000).
Proof.
  intros E. unfold insert_data. rewrite E. cbn [obind]. fold (held c k). change cache_ttl with 21600.
  assert (St : forall c0, held c0 k = None -> zlen c0 <= zlen c -> (forall k', place k' <> place k -> held c0 k' = held c k') -> exists c', store c0 mem now2 k wire = Ok (mem, c') /\ held c' k = (if mem then Some {| i_msg := wire; i_time := now2 |} else None) /\
     ((forall k', place k' <> place k -> held c' k' = held c k') \/ (2000 <= zlen c /\ forall k', place k' <> place k -> held c' k' = None)) /\
     (zlen c < 2000 -> forall k', place k' <> place k -> held c' k' = held c k') /\ (zlen c <= 2000 -> zlen c' <= 2000)).
  { intros c0 H0 L Hk. unfold store. change cache_limit with 2000. set (c1 := if 2000 <=? zlen c0 then [] else c0). assert (H1 : held c1 k = None) by (unfold c1; destruct (2000 <=? zlen c0); [reflexivity|exact H0]).
    assert (L1 : zlen c1 <= 1999) by (unfold c1; destruct (Z.leb_spec 2000 (zlen c0)); [unfold zlen; cbn; lia|lia]).
    assert (K1 : (forall k', place k' <> place k -> held c1 k' = held c k') \/ (2000 <= zlen c /\ forall k', place k' <> place k -> held c1 k' = None)).
    { unfold c1. destruct (Z.leb_spec 2000 (zlen c0)); [right; split; [lia|reflexivity]|left; exact Hk]. }
    assert (K2 : zlen c < 2000 -> forall k', place k' <> place k -> held c1 k' = held c k') by (intros G; destruct K1 as [K1|[K1 _]]; [exact K1|lia]).
    assert (Sp : forall v k', place k' <> place k -> held (aset key_equal k v c1) k' = held c1 k') by (intros v k' N; apply key_equal_false in N; now rewrite held_set, N).
    destruct mem; (eexists; split; [reflexivity|]).
    - split; [rewrite held_set; assert (X : key_equal k k = true) by (now apply key_equal_iff); now rewrite X|]. split; [destruct K1 as [K1|[K0 K1]]; [left|right; split; [exact K0|]]; intros k' N; rewrite Sp by auto; auto|]. split; [intros G k' N; rewrite Sp by auto; auto|]. intros _. pose proof (set_size c1 k {| i_msg := wire; i_time := now2 |}). lia.
    - split; [exact H1|]. split; [exact K1|]. split; [exact K2|]. lia. }
  destruct (held c k) as [it|] eqn:Eh.
  - destruct (Z.ltb_spec now1 (i_time it + 21600)) as [G|G].
    + exists true, c. split; [reflexivity|]. split; [auto|]. split; [intros N; exfalso; apply N; eauto|auto].
    + destruct (St (adel key_equal k c)) as (c' & E1 & X1 & X2 & X3 & X4).
      { rewrite held_del. assert (X : key_equal k k = true) by (now apply key_equal_iff). now rewrite X. }
      { apply del_size. } { intros k' N. apply key_equal_false in N. now rewrite held_del, N. }
      exists mem, c'. split; [exact E1|]. split; [intros (it' & X & L); apply some_inj in X; subst it'; lia|]. split; [auto|auto].
  - destruct (St c Eh ltac:(lia) ltac:(auto)) as (c' & E1 & X1 & X2 & X3 & X4). exists mem, c'. split; [exact E1|]. split; [intros (it' & X & L); discriminate|]. split; [auto|auto].
Qed.
(** Names that have no place leave the cache as it is. *)
Theorem no_place c mem now1 now2 name type wire : key_set name type = Ok None ->
  get_data c now1 name type = Ok (None, c) /\ insert_data c mem now1 now2 name type wire = Ok (false, c).
Proof. intros E. unfold get_data, insert_data. rewrite E. auto. Qed.

(** Any history of operations; the readings of the clock are arbitrary. *)
Inductive op := Insert (mem : bool) (now1 now2 : Z) (name : list Z) (type : Z) (wire : list Z) | Lookup (now : Z) (name : list Z) (type : Z).
Definition act (c : cache) (o : op) : outcome cache :=
  match o with
  | Insert mem now1 now2 name type wire => obind (insert_data c mem now1 now2 name type wire) (fun x => Ok (snd x))
  | Lookup now name type => obind (get_data c now name type) (fun x => Ok (snd x))
  end.
Inductive history : list op -> cache -> Prop :=
| empty_history : history [] []
| later os c o c' : history os c -> act c o = Ok c' -> history (os ++ [o]) c'.

Lemma key_cases name type c : (exists o, key_set name type = Ok o) \/ (forall mem now1 now2 wire c', act c (Insert mem now1 now2 name type wire) <> Ok c') /\ (forall now c', act c (Lookup now name type) <> Ok c').
Proof. destruct (key_set name type) eqn:E; [left; eauto|right..]; split; intros; cbn [act]; unfold insert_data, get_data; rewrite E; discriminate. Qed.
Definition sound (os : list op) (c : cache) : Prop := forall k it, held c k = Some it ->
  exists now1 name type k', In (Insert true now1 (i_time it) name type (i_msg it)) os /\ key_set name type = Ok (Some k') /\ key_equal k k' = true.
Lemma sound_weaken os o c : sound os c -> sound (os ++ [o]) c.
Proof. intros H k it E. destruct (H k it E) as (n & name & t & k' & I & X). exists n, name, t, k'. split; [apply in_or_app; auto|exact X]. Qed.
Lemma history_sound os c : history os c -> sound os c /\ zlen c <= 2000.
Proof.
  induction 1 as [|os c o c' _ [S1 L1] A]; [split; [intros k it E; discriminate|unfold zlen; cbn; lia]|].
  destruct o as [mem now1 now2 name type wire|now name type].
  - destruct (key_cases name type c) as [[[k|] E]|[N _]]; [| |now apply N in A].
    + destruct (insertion_exact c mem now1 now2 name type wire k E) as (ok & c1 & E1 & X1 & X2 & X3). cbn [act] in A. rewrite E1 in A. cbn [obind snd] in A. apply Ok_inj in A. subst c1. split; [|auto].
      assert (D : (exists it, held c k = Some it /\ now1 < i_time it + 21600) \/ ~ (exists it, held c k = Some it /\ now1 < i_time it + 21600)).
      { destruct (held c k) as [it|]; [|right; intros (it & X & _); discriminate]. destruct (Z_lt_dec now1 (i_time it + 21600)) as [G|G]; [left; eauto|right; intros (it' & X & L); apply some_inj in X; subst; contradiction]. }
      destruct D as [D|D]; [destruct (X1 D) as [_ ->]; now apply sound_weaken|]. destruct (X2 D) as (_ & Hk & Hother & _).
      intros k' it Eh. destruct (key_equal k' k) eqn:Ek.
      * assert (Sm : held c' k' = held c' k). { apply key_equal_iff in Ek. unfold held. clear - Ek. induction c' as [|[j v] c' IH]; cbn [aget]; [reflexivity|]. assert (X : key_equal k' j = key_equal k j); [|now rewrite X, IH]. destruct (key_equal k j) eqn:E; [apply key_equal_iff in E; apply key_equal_iff; congruence|apply key_equal_false in E; apply key_equal_false; congruence]. }
        rewrite Sm, Hk in Eh. destruct mem; [|discriminate]. apply some_inj in Eh. subst it. cbn [i_msg i_time]. exists now1, name, type, k. split; [apply in_or_app; right; now left|]. auto.
      * assert (N := Ek). apply key_equal_false in N. destruct Hother as [Ho|[_ Ho]]; rewrite Ho in Eh by auto; [|discriminate]. exact (sound_weaken _ _ _ S1 _ _ Eh).
    + cbn [act] in A. destruct (no_place c mem now1 now2 name type wire E) as [_ R]. rewrite R in A. cbn [obind snd] in A. apply Ok_inj in A. subst c'. split; [now apply sound_weaken|exact L1].
  - destruct (key_cases name type c) as [[[k|] E]|[_ N]]; [| |now apply N in A].
    + destruct (lookup_exact c now name type k E) as (o & c1 & E1 & _ & X & L). cbn [act] in A. rewrite E1 in A. cbn [obind snd] in A. apply Ok_inj in A. subst c1. split; [|lia].
      intros k' it Eh. rewrite X in Eh. destruct (match held c k with Some it0 => _ | None => _ end); [discriminate|]. exact (sound_weaken _ _ _ S1 _ _ Eh).
    + cbn [act] in A. destruct (no_place c true now now name type [] E) as [R _]. rewrite R in A. cbn [obind snd] in A. apply Ok_inj in A. subst c'. split; [now apply sound_weaken|exact L1].
Qed.

(** Whatever happened before: what a lookup returns was inserted, for a question with the
    same place, less than six hours ago; and there are never more than 2000 entries. *)
Theorem never_stale os c now name type w c' : history os c -> get_data c now name type = Ok (Some w, c') ->
  exists now1 t name' type' k k', In (Insert true now1 t name' type' w) os /\ now < t + 21600 /\
    key_set name type = Ok (Some k) /\ key_set name' type' = Ok (Some k') /\ key_equal k k' = true.
Proof.
  intros H E. destruct (history_sound os c H) as [S1 _]. destruct (key_set name type) as [[k|]| | |] eqn:Ek; try (unfold get_data in E; rewrite Ek in E; cbn [obind] in E; discriminate).
  destruct (lookup_exact c now name type k Ek) as (o & c1 & E1 & X & _). rewrite E1 in E. apply Ok_inj in E. pose proof (f_equal fst E) as Eo. cbn in Eo. apply X in Eo as (it & Eh & <- & L). destruct (S1 k it Eh) as (now1 & name' & type' & k' & I & E2 & Kk).
  exists now1, (i_time it), name', type', k, k'. auto.
Qed.
Theorem never_full os c : history os c -> zlen c <= 2000.
Proof. intros H. now apply history_sound in H. Qed.
(** An answer just inserted is found by every question with its place, until it is six
    hours old. *)
Theorem fresh_answer_found c now1 now2 now name type name' type' wire k k' c' : key_set name type = Ok (Some k) -> key_set name' type' = Ok (Some k') -> key_equal k' k = true ->
  held c k = None -> insert_data c true now1 now2 name type wire = Ok (true, c') ->
  exists c'', get_data c' now name' type' = Ok (if now <? now2 + 21600 then Some wire else None, c'').
Proof.
  intros E E' Ek Eh I. destruct (insertion_exact c true now1 now2 name type wire k E) as (ok & c1 & E1 & _ & X & _). rewrite I in E1. apply Ok_inj in E1. pose proof (f_equal snd E1) as Ec. cbn in Ec. subst c1.
  destruct X as (_ & Hk & _); [intros (it & Y & _); congruence|]. destruct (lookup_exact c' now name' type' k' E') as (o & c2 & E2 & Y & _). exists c2. rewrite E2.
  assert (Hk' : held c' k' = Some {| i_msg := wire; i_time := now2 |}).
  { rewrite <- Hk. apply key_equal_iff in Ek. unfold held. clear - Ek. induction c' as [|[j v] c' IH]; cbn [aget]; [reflexivity|]. assert (X : key_equal k' j = key_equal k j); [|now rewrite X, IH]. destruct (key_equal k j) eqn:E; [apply key_equal_iff in E; apply key_equal_iff; congruence|apply key_equal_false in E; apply key_equal_false; congruence]. }
  f_equal. f_equal. destruct (Z.ltb_spec now (now2 + 21600)) as [G|G].
  - apply Y. exists {| i_msg := wire; i_time := now2 |}. auto.
  - destruct o as [w|]; [exfalso|reflexivity]. destruct (Y w) as [Z1 _]. destruct (Z1 eq_refl) as (it & Q & _ & L). rewrite Hk' in Q. apply some_inj in Q. subst it. cbn [i_time] in L. lia.
Qed.

(** ** Where the code falls short *)
(** Letters: the addresses of servers below the top label are left out when the question
    writes that label otherwise, and the answer is kept for both ways of writing. *)
Theorem letter_case_refuted : exists rs ls1 ls2 k m1 m2, Forall record_fine rs /\ pname ls1 /\ pname ls2 /\
  key_set (dotted ls1) 1 = Ok (Some k) /\ key_set (dotted ls2) 1 = Ok (Some k) /\
  to_dns toy_sec 1700000000 rs (dotted ls1) 1 = Ok (Some m1) /\ to_dns toy_sec 1700000000 rs (dotted ls2) 1 = Ok (Some m2) /\
  zlen (m_ar m2) < zlen (m_ar m1).
Proof.
  exists sample_records, [[97]; [120]], [[97]; [88]]. eexists. eexists. eexists.
  split; [exact (proj1 sample_fine)|]. split; [apply sample_label|].
  split; [split; [|discriminate]; repeat (constructor; [split; [change (1 <= 1 <= 63); lia|]; constructor; [unfold pchar; lia|constructor]|]); constructor|].
  split; [vm_compute; reflexivity|]. split; [vm_compute; reflexivity|]. split; [vm_compute; reflexivity|]. split; [vm_compute; reflexivity|]. reflexivity.
Qed.

(** ** Examples *)
Definition q_names : list (list (list Z) * Z) :=
  [([], 2); ([[120]], 1); ([[97]; [120]], 1); ([[95; 102; 115; 48; 48; 48; 48; 56]; [95; 115; 121; 110; 116; 104]], 1);
   ([[95; 97]; [95; 98]; [88]], 33); ([[95; 52; 52; 51]; [95; 116]; [120]], 52); ([[95; 55; 48; 48; 48; 48]; [95; 116]; [120]], 52); ([[97]; [98]; [99]; [120]], 1)].
Example places : map (fun '(ls, t) => match key_set (dotted ls) t with Ok (Some k) => Some (place k) | _ => None end) q_names =
  [Some ([], Some 2); Some ([120; 46], Some 1); Some ([120; 46], None); Some (dotted [[95; 102; 115; 48; 48; 48; 48; 56]; [95; 115; 121; 110; 116; 104]], Some 1);
   Some (dotted [[95; 97]; [95; 98]; [120]], Some 33); Some (dotted [[95; 52; 52; 51]; [95; 116]; [120]], Some 52); Some ([120; 46], None); Some ([120; 46], None)].
Proof. vm_compute. reflexivity. Qed.
(** A name that aborts, and a name with no place *)
Example no_places : key_set (dotted [[95; 97]; [120]]) 1 = Abort /\ aborts [[95; 97]; [120]] /\ key_set (dotted [[32]]) 1 = Ok None.
Proof. split; [vm_compute; reflexivity|]. split; [|vm_compute; reflexivity]. exists 97, 10, [120]. split; [reflexivity|]. constructor; [|constructor]. split; [lia|reflexivity]. Qed.
(** An answer for a.x. found for b.X., and gone after six hours *)
Example kept : exists c, history [Insert true 5 7 (dotted [[97]; [120]]) 1 [1; 2; 3]] c /\ get_data c 21606 (dotted [[98]; [88]]) 28 = Ok (Some [1; 2; 3], c) /\ get_data c 21607 (dotted [[98]; [88]]) 28 = Ok (None, []).
Proof.
  eexists. split; [|split].
  - rewrite <- (app_nil_l [Insert _ _ _ _ _ _]). econstructor; [constructor|]. vm_compute. reflexivity.
  - vm_compute. reflexivity.
  - vm_compute. reflexivity.
Qed.

Print Assumptions key_exact.
Print Assumptions shared_place.
Print Assumptions shared_answer_partial.
Print Assumptions lookup_exact.
Print Assumptions insertion_exact.
Print Assumptions no_place.
Print Assumptions never_stale.
Print Assumptions never_full.
Print Assumptions fresh_answer_found.
Print Assumptions letter_case_refuted.
