(** C61: the table of ICANN names (tld.h, ns.c:808-837). *)
From Coq Require Import String Sorted.
From Verif Require Import Common CommonFacts ProofFacts UtilTheorems DnsNameModel DnsNameFacts DnsMsgModel DnsMsgFacts ReqTheorems DnssecModel DnssecTheorems HesiodModel TldNames NsModel.

(** ** Specification *)
(** Alphabetical order, the case of letters aside *)
Inductive before : list Z -> list Z -> Prop :=
| b_end x b : before [] (x :: b)
| b_less x y a b : low x < low y -> before (x :: a) (y :: b)
| b_same x y a b : low x = low y -> before a b -> before (x :: a) (y :: b).
(** The server's table lists names in order, each with a resource: its length, least
    significant byte first, then its bytes. *)
Definition entry (e : list Z * list Z) (item : list Z) : Prop := exists more, item = [zlen (snd e) mod 256; zlen (snd e) / 256] ++ snd e ++ more /\ zlen (snd e) < 65536.
Definition table (v : server) (l : list (list Z * list Z)) : Prop := StronglySorted before (map fst l) /\ v_names v = map fst l /\ Forall2 entry l (v_items v).
Definition listed (l : list (list Z * list Z)) (name raw : list Z) : Prop := exists n, In (n, raw) l /\ map low n = map low name.

(** ** Lemmas *)
Lemma casecmp_exact a : forall b, (casecmp a b = 0 <-> map low a = map low b) /\ (casecmp a b < 0 <-> before a b) /\ (0 < casecmp a b <-> before b a).
Proof.
  induction a as [|x a IH]; intros [|y b]; cbn [casecmp].
  - split; [split; reflexivity|]. split; (split; [lia|intros X; inversion X]).
  - split; [split; discriminate|]. split; [split; [constructor|lia]|split; [lia|intros X; inversion X]].
  - split; [split; discriminate|]. split; [split; [lia|intros X; inversion X]|split; [constructor|lia]].
  - change (lower1 x) with (low x). change (lower1 y) with (low y). destruct (IH b) as (I1 & I2 & I3). cbn [map]. destruct (Z.ltb_spec (low x) (low y)) as [G|G].
    + split; [split; [discriminate|intros E; injection E; lia]|]. split; [split; [intros _; now apply b_less|reflexivity]|split; [lia|intros X; inversion X; subst; lia]].
    + destruct (Z.ltb_spec (low y) (low x)) as [G'|G'].
      * split; [split; [discriminate|intros E; injection E; lia]|]. split; [split; [lia|intros X; inversion X; subst; lia]|split; [intros _; now apply b_less|reflexivity]].
      * assert (E : low x = low y) by lia. split; [rewrite I1; split; [congruence|intros H; injection H; auto]|]. split; [rewrite I2; split; [now apply b_same|intros X; inversion X; subst; auto; lia]|rewrite I3; split; [apply b_same; auto|intros X; inversion X; subst; auto; lia]].
Qed.
Lemma before_trans a b c : before a b -> before b c -> before a c.
Proof.
  intros H. revert c. induction H as [x b|x y a b L|x y a b E H IH]; intros c H2; inversion H2; subst; try solve [constructor]; try (apply b_less; lia).
  apply b_same; [lia|]. now apply IH.
Qed.
Lemma before_same a b c : before a b -> map low b = map low c -> before a c.
Proof.
  intros H. revert c. induction H as [x b|x y a b L|x y a b E H IH]; intros [|z c] M; cbn [map] in M; try discriminate; injection M as M1 M2; [constructor|apply b_less; lia|apply b_same; [lia|auto]].
Qed.
Lemma before_not a b : before a b -> map low a <> map low b.
Proof. induction 1; cbn [map]; intros M; try discriminate; injection M; intros; try lia; auto. Qed.
Lemma same_before a b c : map low a = map low b -> before b c -> before a c.
Proof. intros M H. revert a M. induction H as [x c|x y b c L|x y b c E H IH]; intros [|z a] M; cbn [map] in M; try discriminate; try injection M as M1 M2; [constructor|apply b_less; lia|apply b_same; [lia|auto]]. Qed.
Lemma sorted_nth l : StronglySorted before l -> forall i j, (i < j < length l)%nat -> before (nth i l []) (nth j l []).
Proof.
  induction 1 as [|x l H IH F]; intros i j L; cbn [length] in L; [lia|]. destruct j as [|j]; [lia|]. destruct i as [|i]; cbn [nth]; [|apply IH; lia]. rewrite Forall_forall in F. apply F, nth_In. lia.
Qed.
Lemma search_exact l name : StronglySorted before l -> forall fuel s f, 0 <= s -> f < zlen l -> f - s + 1 < Z.of_nat fuel ->
  (forall i, 0 <= i < s -> before (nth (Z.to_nat i) l []) name) -> (forall i, f < i < zlen l -> before name (nth (Z.to_nat i) l [])) ->
  match tld_search fuel l name s f with
  | Some p => 0 <= p < zlen l /\ map low (nth (Z.to_nat p) l []) = map low name
  | None => forall i, 0 <= i < zlen l -> map low (nth (Z.to_nat i) l []) <> map low name
  end.
Proof.
  intros H. induction fuel as [|fuel IH]; intros s f Hs Hf Hfu Lo Hi; cbn [tld_search].
  { intros i Li M. destruct (Z.ltb_spec i s) as [G|G]; [apply (before_not _ _ (Lo i ltac:(lia))); auto|]. destruct (Z.ltb_spec f i) as [G'|G']; [apply (before_not _ _ (Hi i ltac:(lia))); auto|lia]. }
  destruct (Z.leb_spec s f) as [G|G].
  - cbv zeta. rewrite Z.shiftr_div_pow2 by lia. change (2 ^ 1) with 2. set (p := (s + f) / 2). assert (Hp : s <= p <= f) by (unfold p; lia). destruct (casecmp_exact (nth (Z.to_nat p) l []) name) as (C0 & C1 & C2).
    destruct (Z.eqb_spec (casecmp (nth (Z.to_nat p) l []) name) 0) as [E|E]; [split; [lia|now apply C0]|]. destruct (Z.ltb_spec (casecmp (nth (Z.to_nat p) l []) name) 0) as [L|L].
    + apply IH; try lia; [|auto]. intros i Li. destruct (Z.eq_dec i p) as [->|N]; [now apply C1|]. apply before_trans with (nth (Z.to_nat p) l []); [|now apply C1]. apply sorted_nth; [exact H|]. unfold zlen in *. lia.
    + assert (B : before name (nth (Z.to_nat p) l [])) by (apply C2; lia). apply IH; try lia; [auto|]. intros i Li. destruct (Z.eq_dec i p) as [->|N]; [exact B|]. apply before_trans with (nth (Z.to_nat p) l []); [exact B|]. apply sorted_nth; [exact H|]. unfold zlen in *. lia.
  - intros i Li M. destruct (Z.ltb_spec i s) as [X|X]; [apply (before_not _ _ (Lo i ltac:(lia))); auto|]. apply (before_not _ _ (Hi i ltac:(lia))); auto.
Qed.
Lemma entry_data e item : entry e item -> item_data item = Ok (snd e).
Proof.
  intros (more & -> & L). pose proof (zlen_nonneg (snd e)). unfold item_data. cbn [app nth]. assert (E : Z.lor (Z.shiftl (zlen (snd e) / 256) 8) (zlen (snd e) mod 256) = zlen (snd e)).
  { rewrite Z.shiftl_mul_pow2 by lia. rewrite (lor_add _ _ 8); [change (2 ^ 8) with 256; lia|lia|change (2 ^ 8) with 256; lia|apply Z.divide_factor_r]. }
  rewrite E, !zlen_cons, zlen_app. pose proof (zlen_nonneg more). replace (1 + (1 + (zlen (snd e) + zlen more)) <? 2 + zlen (snd e)) with false by lia. cbn [skipn]. unfold zlen. rewrite Nat2Z.id, firstn_app, firstn_all, Nat.sub_diag. cbn [firstn]. now rewrite app_nil_r.
Qed.
Lemma Forall2_pick {A B} (R : A -> B -> Prop) l m i d e : Forall2 R l m -> (i < length l)%nat -> R (nth i l d) (nth i m e).
Proof. intros H. revert i. induction H as [|a b l m Hab H IH]; intros i L; cbn [length] in L; [lia|]. destruct i; cbn [nth]; [exact Hab|apply IH; lia]. Qed.

(** ** Theorems *)
(** A name is found exactly when it is listed, whatever the case of its letters, and its
    own resource is taken. *)
Theorem table_searched v l name : table v l ->
  (forall raw, listed l name raw <-> exists item, icann_lookup v name = Some item /\ item_data item = Ok raw) /\ (icann_lookup v name = None <-> forall raw, ~ listed l name raw) /\ (forall item, icann_lookup v name = Some item -> exists raw, item_data item = Ok raw).
Proof.
  intros (St & Hn & Hi). pose proof (search_exact (v_names v) name) as S0. rewrite Hn in S0 at 1. specialize (S0 St (S (length (v_names v))) 0 (zlen (v_names v) - 1)). specialize (S0 ltac:(lia) ltac:(lia) ltac:(unfold zlen; lia) ltac:(intros; lia) ltac:(intros; lia)).
  assert (U : forall i j, (i < length l)%nat -> (j < length l)%nat -> map low (fst (nth i l ([], []))) = map low name -> map low (fst (nth j l ([], []))) = map low name -> i = j).
  { intros i j Li Lj Mi Mj. assert (Nx : forall k, nth k (map fst l) [] = fst (nth k l ([], []))) by (intros k; change (@nil Z) with (fst (@nil Z, @nil Z)) at 1; apply map_nth).
    destruct (Nat.lt_trichotomy i j) as [G|[G|G]]; [exfalso|exact G|exfalso].
    - apply (before_not (nth i (map fst l) []) (nth j (map fst l) [])); [apply sorted_nth; [exact St|rewrite map_length; lia]|rewrite !Nx; congruence].
    - apply (before_not (nth j (map fst l) []) (nth i (map fst l) [])); [apply sorted_nth; [exact St|rewrite map_length; lia]|rewrite !Nx; congruence]. }
  unfold icann_lookup. destruct (tld_search _ _ _ _ _) as [p|].
  - destruct S0 as [Hp M]. rewrite Hn in Hp, M. unfold zlen in Hp. rewrite map_length in Hp. change (@nil Z) with (fst (@nil Z, @nil Z)) in M at 1. rewrite map_nth in M.
    assert (Lp : (Z.to_nat p < length l)%nat) by lia. assert (En := Forall2_pick entry l (v_items v) (Z.to_nat p) ([], []) [] Hi Lp). apply entry_data in En.
    assert (Ls : listed l name (snd (nth (Z.to_nat p) l ([], [])))) by (exists (fst (nth (Z.to_nat p) l ([], []))); split; [rewrite <- surjective_pairing; now apply nth_In|exact M]).
    split; [|split; [split; [discriminate|intros X; exfalso; exact (X _ Ls)]|intros item E; apply some_inj in E; subst item; eauto]]. intros raw. split.
    + intros (n & I & Mn). apply (In_nth _ _ ([], [])) in I as (i & Li & Ei). assert (i = Z.to_nat p) by (apply U; auto; now rewrite Ei). subst i. eexists. split; [reflexivity|]. rewrite En, Ei. reflexivity.
    + intros (item & E & D). apply some_inj in E. subst item. rewrite En in D. apply Ok_inj in D. now subst raw.
  - assert (No : forall raw, ~ listed l name raw).
    { intros raw (n & I & Mn). apply (In_nth _ _ ([], [])) in I as (i & Li & Ei). apply (S0 (Z.of_nat i)); [rewrite Hn; unfold zlen; rewrite map_length; lia|]. rewrite Nat2Z.id, Hn. change (@nil Z) with (fst (@nil Z, @nil Z)). rewrite map_nth, Ei. exact Mn. }
    split; [|split; [split; [auto|reflexivity]|discriminate]]. intros raw. split; [intros X; exfalso; exact (No _ X)|intros (item & E & _); discriminate].
Qed.
(** The names of tld.h are in the order the search needs; no name is listed twice. *)
Fixpoint ordered (l : list (list Z)) : bool := match l with a :: (b :: _) as r => (casecmp a b <? 0) && ordered r | _ => true end.
Lemma ordered_sorted l : ordered l = true -> StronglySorted before l.
Proof.
  intros H. apply Sorted_StronglySorted; [intros a b c; apply before_trans|]. induction l as [|a l IH]; [constructor|]. destruct l as [|b l]; [repeat constructor|]. cbn [ordered] in H. apply andb_true_iff in H as [H1 H2]. constructor; [now apply IH|]. constructor. apply (proj1 (proj2 (casecmp_exact a b))). lia.
Qed.
Theorem names_in_order : StronglySorted before (map txt tld_names).
Proof. apply ordered_sorted. vm_compute. reflexivity. Qed.
Definition toy_server_names : list string := ["com"; "net"; "org"]%string.
Example toy_table sec : let v := {| v_sec := sec; v_sign := None; v_ip := None; v_names := map txt toy_server_names; v_items := [[1; 0; 7]; [2; 0; 8; 9]; [0; 0]] |} in
  table v [(txt "com", [7]); (txt "net", [8; 9]); (txt "org", [])] /\ icann_lookup v (txt "NeT") = Some [2; 0; 8; 9] /\ icann_lookup v (txt "nets") = None.
Proof.
  split; [|split; reflexivity]. split; [apply ordered_sorted; reflexivity|]. split; [reflexivity|]. repeat constructor; exists []; (split; [reflexivity|vm_compute; reflexivity]).
Qed.
Print Assumptions table_searched.
Print Assumptions names_in_order.
