(** The invariant of the pool, and that every operation keeps it and every lookup. *)
From Coq Require Import Permutation.
From Verif Require Import Common CommonFacts ProofFacts MapModel AddrModel AddrTheorems AddrmanModel AddrmanFacts AddrmanTheorems AddrmanPick PoolModel.

(* ---------- what is under way ---------- *)
Definition reqs_of (p : peer) : list req := flat_map snd (p_names p).
Definition under_way (pl : pool) : list req := flat_map reqs_of (pl_peers pl) ++ pl_pending pl.
Definition ids (l : list req) : list Z := map rq_id l.
Definition called (es : list ev) : list Z := flat_map (fun e => match e with Called i _ _ _ _ => [i] | _ => [] end) es.
Lemma called_app a b : called (a ++ b) = called a ++ called b.
Proof. apply flat_map_app. Qed.
Lemma called_map (f : req -> ev) l : (forall r, exists n s x d, f r = Called (rq_id r) n s x d) -> called (map f l) = ids l.
Proof.
  intros H. induction l as [|r l IH]; [reflexivity|]. cbn [map ids]. unfold called in *. cbn [flat_map]. rewrite IH. destruct (H r) as (n & s & x & d & ->). reflexivity.
Qed.

(* ---------- the table of names ---------- *)
Record names_ok (l : list (list Z * list req)) : Prop := {
  nk_keys : NoDup (map fst l);
  nk_reqs : forall k c, In (k, c) l -> c <> [] /\ forall r, In r c -> rq_hash r = k /\ forall s, In s c -> rq_time s = rq_time r }.
Lemma names_get_in l h c : names_get l h = Some c -> In (h, c) l.
Proof.
  induction l as [|[k v] l IH]; intros E; [discriminate E|]. cbn in E. destruct (beq k h) eqn:B.
  - injection E as <-. apply beq_true_iff in B as ->. left. reflexivity.
  - right. auto.
Qed.
Lemma names_in_get l h c : NoDup (map fst l) -> In (h, c) l -> names_get l h = Some c.
Proof.
  induction l as [|[k v] l IH]; intros ND I; [destruct I|]. cbn in *. apply NoDup_cons_iff in ND as [N ND]. destruct I as [I|I].
  - injection I as -> ->. rewrite beq_refl. reflexivity.
  - destruct (beq k h) eqn:B; [|auto]. apply beq_true_iff in B as ->. exfalso. apply N. apply (in_map fst) in I. exact I.
Qed.
Lemma names_get_none l h : names_get l h = None -> ~ In h (map fst l).
Proof.
  induction l as [|[k v] l IH]; intros E; [auto|]. cbn in *. destruct (beq k h) eqn:B; [discriminate E|]. apply beq_false_iff in B. intros [->|I]; [contradiction|exact (IH E I)].
Qed.
Lemma names_set_split l h c : NoDup (map fst l) -> names_get l h = Some c -> exists a b, l = a ++ (h, c) :: b /\ (forall v, names_set l h v = a ++ (h, v) :: b) /\ names_del l h = a ++ b.
Proof.
  induction l as [|[k v] l IH]; intros ND E; [discriminate E|]. cbn in *. destruct (beq k h) eqn:B.
  - injection E as <-. apply beq_true_iff in B as ->. exists [], l. auto.
  - apply NoDup_cons_iff in ND as [_ ND]. destruct (IH ND E) as (a & b & -> & S & D). exists ((k, v) :: a), b. split; [reflexivity|]. rewrite D. split; [|reflexivity]. intros w. rewrite S. reflexivity.
Qed.
Lemma names_set_none l h v : names_get l h = None -> names_set l h v = l ++ [(h, v)].
Proof.
  induction l as [|[k w] l IH]; intros E; [reflexivity|]. cbn in *. destruct (beq k h); [discriminate E|]. cbn. f_equal. auto.
Qed.
Lemma names_cons_ok l h c r : names_ok l -> names_get l h = Some c -> rq_hash r = h -> (forall q, In q c -> rq_time q = rq_time r) -> names_ok (names_set l h (r :: c)).
Proof.
  intros [K R] E H T. destruct (names_set_split l h c K E) as (a & b & Sl & S & _). rewrite S. constructor.
  - rewrite Sl in K. rewrite map_app in *. exact K.
  - intros k d I. apply in_app_or in I as [I|[I|I]].
    + apply R. rewrite Sl. apply in_or_app. left. exact I.
    + injection I as <- <-. split; [discriminate|]. intros q [<-|Q]; (split; [|intros s [<-|X]]); auto.
      * apply (proj2 (R h c (names_get_in _ _ _ E)) q Q).
      * symmetry. auto.
      * rewrite (T s X). symmetry. auto.
    + apply R. rewrite Sl. apply in_or_app. right. right. exact I.
Qed.
Lemma names_new_ok l h r : names_ok l -> names_get l h = None -> rq_hash r = h -> names_ok (names_set l h [r]).
Proof.
  intros [K R] E H. rewrite (names_set_none _ _ _ E). constructor.
  - rewrite map_app. cbn. apply (Permutation_NoDup (Permutation_cons_append _ _)). constructor; [apply names_get_none; exact E|exact K].
  - intros k d I. apply in_app_or in I as [I|[I|[]]]; [apply R; exact I|]. injection I as <- <-. split; [discriminate|]. intros q [<-|[]]. split; [exact H|]. intros s [<-|[]]. reflexivity.
Qed.
Lemma names_del_ok l h c : names_ok l -> names_get l h = Some c -> names_ok (names_del l h).
Proof.
  intros [K R] E. destruct (names_set_split l h c K E) as (a & b & Sl & _ & D). rewrite D. constructor.
  - rewrite Sl, map_app in K. cbn in K. rewrite map_app. apply NoDup_remove_1 in K. exact K.
  - intros k d I. apply R. rewrite Sl. apply in_app_or in I as [I|I]; apply in_or_app; [left|right; right]; exact I.
Qed.
Lemma flat_set_cons l h c r : NoDup (map fst l) -> names_get l h = Some c -> Permutation (flat_map snd (names_set l h (r :: c))) (r :: flat_map snd l).
Proof.
  intros K E. destruct (names_set_split l h c K E) as (a & b & Sl & S & _). rewrite S, Sl, !flat_map_app. cbn [flat_map snd]. cbn [app]. symmetry. apply Permutation_middle.
Qed.
Lemma flat_set_new l h r : names_get l h = None -> Permutation (flat_map snd (names_set l h [r])) (r :: flat_map snd l).
Proof. intros E. rewrite (names_set_none _ _ _ E), flat_map_app. cbn. symmetry. apply Permutation_cons_append. Qed.
Lemma flat_del l h c : NoDup (map fst l) -> names_get l h = Some c -> Permutation (flat_map snd l) (c ++ flat_map snd (names_del l h)).
Proof.
  intros K E. destruct (names_set_split l h c K E) as (a & b & Sl & _ & D). rewrite D, Sl, !flat_map_app. cbn [flat_map snd]. apply Permutation_app_swap_app.
Qed.

(* ---------- the invariant ---------- *)
Record pool_ok (n : Z) (pl : pool) : Prop := {
  pk_ids : NoDup (map p_id (pl_peers pl));
  pk_next : forall p, In p (pl_peers pl) -> p_id p < pl_next pl;
  pk_size : pl_size pl = zlen (pl_peers pl);
  pk_max : pl_size pl <= pl_max pl;
  pk_addrs : Permutation (pl_addrs pl) (map p_addr (pl_peers pl));
  pk_distinct : ForallOrdPairs (fun a b => ~ same a b) (pl_addrs pl);
  pk_names : forall p, In p (pl_peers pl) -> names_ok (p_names p);
  pk_am : am_ok (pl_am pl);
  pk_att : attempts_upto n (pl_am pl);
  pk_n : 0 <= n }.
Section Answers.
(** [Ans r st ex d]: the request may be answered so *)
Variable Ans : req -> Z -> bool -> list Z -> Prop.
Hypothesis HA : forall r, Ans r e_timeout false [].
Definition answers (pl : pool) (es : list ev) : Prop :=
  forall i nm st ex d, In (Called i nm st ex d) es -> exists r, In r (under_way pl) /\ rq_id r = i /\ rq_name r = nm /\ Ans r st ex d.
Definition keeps (n n' : Z) (pl : pool) (new : list req) (r : res) : Prop :=
  exists pl' es rc, r = Ok (pl', es, rc) /\ pool_ok n' pl' /\ Permutation (ids (under_way pl) ++ ids new) (called es ++ ids (under_way pl')) /\
    pl_max pl' = pl_max pl /\ (exists l, pl_pending pl' = l ++ pl_pending pl) /\ incl (under_way pl') (under_way pl ++ new) /\ answers pl es.

Lemma answers_nil pl : answers pl [].
Proof. intros i nm st ex d []. Qed.
Lemma keeps_bind n m k pl r f : keeps n m pl [] r -> (forall pl' rc, pool_ok m pl' -> pl_max pl' = pl_max pl -> keeps m k pl' [] (f pl' rc)) -> keeps n k pl [] (rbind r f).
Proof.
  intros (p1 & e1 & r1 & E1 & K1 & P1 & M1 & (l1 & Q1) & I1 & A1) H. destruct (H p1 r1 K1 M1) as (p2 & e2 & r2 & E2 & K2 & P2 & M2 & (l2 & Q2) & I2 & A2).
  rewrite app_nil_r in I1, I2.
  exists p2, (e1 ++ e2), r2. unfold rbind. rewrite E1. cbn [obind]. rewrite E2. cbn [obind]. split; [reflexivity|]. split; [exact K2|].
  split; [|split; [congruence|split; [exists (l2 ++ l1); rewrite Q2, Q1, app_assoc; reflexivity|split]]].
  - rewrite called_app, <- app_assoc. eapply Permutation_trans; [exact P1|]. apply Permutation_app_head. rewrite <- (app_nil_r (ids (under_way p1))). exact P2.
  - rewrite app_nil_r. intros x X. auto.
  - intros i nm st ex d I. apply in_app_or in I as [I|I]; [exact (A1 _ _ _ _ _ I)|]. destruct (A2 _ _ _ _ _ I) as (q & Iq & Hq). exists q. auto.
Qed.
Lemma keeps_ok n pl rc : pool_ok n pl -> keeps n n pl [] (Ok (pl, [], rc)).
Proof.
  intros K. exists pl, [], rc. cbn [ids map]. rewrite !app_nil_r. split; [reflexivity|]. split; [exact K|]. split; [reflexivity|]. split; [reflexivity|]. split; [exists []; reflexivity|]. split; [apply incl_refl|apply answers_nil].
Qed.

(* ---------- changing a peer ---------- *)
Lemma find_peer_in pl id p : find_peer pl id = Some p -> In p (pl_peers pl) /\ p_id p = id.
Proof. intros E. apply find_some in E as [I E]. split; [exact I|]. apply Z.eqb_eq. exact E. Qed.
Lemma find_peer_unique pl id p q : NoDup (map p_id (pl_peers pl)) -> find_peer pl id = Some p -> In q (pl_peers pl) -> p_id q = id -> q = p.
Proof.
  intros ND E I Q. apply find_peer_in in E as [Ip Ep]. apply In_nth_error in I as [i I]. apply In_nth_error in Ip as [j J].
  assert (X : i = j).
  { apply (proj1 (NoDup_nth_error (map p_id (pl_peers pl))) ND).
    - apply nth_error_Some. rewrite (map_nth_error p_id _ _ I). discriminate.
    - rewrite (map_nth_error p_id _ _ I), (map_nth_error p_id _ _ J). congruence. }
  subst j. congruence.
Qed.
Definition upd (id : Z) (f : peer -> peer) (p : peer) : peer := if p_id p =? id then f p else p.
Lemma upd_map_same {A} (g : peer -> A) id f l : (forall p, In p l -> p_id p = id -> g (f p) = g p) -> map g (map (upd id f) l) = map g l.
Proof.
  induction l as [|p l IH]; intros H; [reflexivity|]. cbn. f_equal.
  - unfold upd. destruct (Z.eqb_spec (p_id p) id); [apply H; [left; reflexivity|assumption]|reflexivity].
  - apply IH. intros q I. apply H. right. exact I.
Qed.
Lemma find_upd pl id f j : (forall p, p_id (f p) = p_id p) -> find_peer (upd_peer pl id f) j = if j =? id then option_map f (find_peer pl j) else find_peer pl j.
Proof.
  intros H. unfold find_peer, upd_peer. cbn [set_peers pl_peers]. induction (pl_peers pl) as [|p l IH]; [cbn; destruct (j =? id); reflexivity|]. cbn [map find].
  assert (I : p_id (if p_id p =? id then f p else p) = p_id p) by (destruct (p_id p =? id); auto). rewrite I.
  destruct (Z.eqb_spec (p_id p) j) as [<-|]; [|exact IH]. destruct (p_id p =? id); reflexivity.
Qed.
(** A change of one peer that keeps its identifier and address *)
Lemma upd_ok n pl id f : pool_ok n pl -> (forall p, p_id (f p) = p_id p /\ p_addr (f p) = p_addr p) ->
  (forall p, In p (pl_peers pl) -> p_id p = id -> names_ok (p_names (f p))) -> pool_ok n (upd_peer pl id f).
Proof.
  intros [K1 K2 K3 K4 K5 K6 K7 K8 K9 K10] H N. unfold upd_peer. change (fun p => if p_id p =? id then f p else p) with (upd id f).
  constructor; cbn [set_peers pl_peers pl_size pl_max pl_addrs pl_am pl_next]; auto.
  - rewrite upd_map_same; [exact K1|]. intros p _ _. apply H.
  - intros p I. apply in_map_iff in I as (q & <- & I). unfold upd. destruct (p_id q =? id); [rewrite (proj1 (H q))|]; auto.
  - unfold zlen in *. rewrite map_length. exact K3.
  - rewrite upd_map_same; [exact K5|]. intros p _ _. apply H.
  - intros p I. apply in_map_iff in I as (q & <- & I). unfold upd. destruct (Z.eqb_spec (p_id q) id); auto.
Qed.
Lemma upd_way pl id f p : NoDup (map p_id (pl_peers pl)) -> find_peer pl id = Some p -> exists a b, flat_map reqs_of (pl_peers pl) = a ++ reqs_of p ++ b /\
  flat_map reqs_of (pl_peers (upd_peer pl id f)) = a ++ reqs_of (f p) ++ b.
Proof.
  intros ND E. pose proof (fun q => find_peer_unique pl id p q ND E) as U. apply find_peer_in in E as [I Ep]. apply in_split in I as (x & y & S).
  unfold upd_peer. cbn [set_peers pl_peers]. rewrite S in *. assert (D : forall q, In q (x ++ y) -> p_id q <> id).
  { intros q Q X. assert (q = p) by (apply U; [apply in_app_or in Q as [Q|Q]; apply in_or_app; [left|right; right]; exact Q|exact X]). subst q.
    rewrite map_app in ND. cbn in ND. apply NoDup_remove_2 in ND. apply ND. rewrite <- map_app. apply in_map. exact Q. }
  exists (flat_map reqs_of x), (flat_map reqs_of y). rewrite map_app. cbn [map]. rewrite Ep, Z.eqb_refl. rewrite !flat_map_app. cbn [flat_map]. split; [reflexivity|].
  assert (G : forall l, (forall q, In q l -> p_id q <> id) -> map (fun q => if p_id q =? id then f q else q) l = l).
  { clear. induction l as [|q l IH]; intros H; [reflexivity|]. cbn. destruct (Z.eqb_spec (p_id q) id); [exfalso; apply (H q); [left; reflexivity|assumption]|]. f_equal. apply IH. intros r R. apply H. right. exact R. }
  rewrite !G; [reflexivity| |]; intros q Q; apply D; apply in_or_app; auto.
Qed.
Lemma upd_none pl id f : find_peer pl id = None -> upd_peer pl id f = pl.
Proof.
  intros E. unfold upd_peer. replace (map _ (pl_peers pl)) with (pl_peers pl); [destruct pl; reflexivity|].
  unfold find_peer in E. induction (pl_peers pl) as [|p l IH]; [reflexivity|]. cbn in *. destruct (p_id p =? id); [discriminate E|]. f_equal. auto.
Qed.
(** Changes that leave the names alone *)
Lemma quiet n pl id f rc : pool_ok n pl -> (forall p, p_id (f p) = p_id p /\ p_addr (f p) = p_addr p /\ p_names (f p) = p_names p) ->
  pool_ok n (upd_peer pl id f) /\ under_way (upd_peer pl id f) = under_way pl /\ keeps n n pl [] (Ok (upd_peer pl id f, [], rc)).
Proof.
  intros K H. assert (A : pool_ok n (upd_peer pl id f)).
  { apply upd_ok; auto; [intros p; split; apply H|]. intros p I _. rewrite (proj2 (proj2 (H p))). apply (pk_names _ _ K p I). }
  assert (B : under_way (upd_peer pl id f) = under_way pl).
  { unfold under_way. cbn [upd_peer set_peers pl_pending]. f_equal. destruct (find_peer pl id) as [p|] eqn:E.
    - destruct (upd_way pl id f p (pk_ids _ _ K) E) as (a & b & -> & ->). unfold reqs_of. rewrite (proj2 (proj2 (H p))). reflexivity.
    - rewrite (upd_none _ _ _ E). reflexivity. }
  split; [exact A|]. split; [exact B|]. exists (upd_peer pl id f), [], rc. split; [reflexivity|]. split; [exact A|]. cbn [ids map]. rewrite B, !app_nil_r. split; [reflexivity|]. split; [reflexivity|]. split; [exists []; reflexivity|]. split; [apply incl_refl|apply answers_nil].
Qed.
Lemma keeps_under n m pl pl' a r : under_way pl' = under_way pl -> pl_max pl' = pl_max pl -> pl_pending pl' = pl_pending pl -> keeps n m pl' a r -> keeps n m pl a r.
Proof. intros U M P (x & e & c & E & K & R & M' & P' & I & A). exists x, e, c. unfold answers in *. rewrite <- U, <- M, <- P. auto 8. Qed.

(* ---------- closing ---------- *)
Lemma fop_perm l l' : Permutation l l' -> ForallOrdPairs (fun a b : addr => ~ same a b) l -> ForallOrdPairs (fun a b => ~ same a b) l'.
Proof.
  induction 1 as [|x l l' P IH|x y l|l l' l'' P1 IH1 P2 IH2]; intros F; auto.
  - inversion F as [|? ? H1 H2]; subst. constructor; [eapply Permutation_Forall; eauto|auto].
  - inversion F as [|? ? H1 H2]; subst. inversion H2 as [|? ? H3 H4]; subst. inversion H1 as [|? ? H5 H6]; subst. constructor; [|constructor; auto].
    constructor; [intros S; apply H5; apply same_sym; exact S|exact H3].
Qed.
Lemma addrs_del_spec l a : ForallOrdPairs (fun a b => ~ same a b) l -> In a l -> exists l', addrs_del l a = Some l' /\ Permutation l (a :: l') /\ ForallOrdPairs (fun a b => ~ same a b) l'.
Proof.
  induction l as [|b l IH]; intros F I; [destruct I|]. inversion F as [|? ? H1 H2]; subst. cbn [addrs_del]. destruct (addr_equal b a) eqn:E.
  - apply eq_same in E. destruct I as [->|I].
    + exists l. split; [reflexivity|]. split; [reflexivity|exact H2].
    + rewrite Forall_forall in H1. exfalso. exact (H1 a I E).
  - destruct I as [->|I]; [apply eq_not in E; exfalso; apply E; apply same_refl|]. destruct (IH H2 I) as (l' & -> & P & F'). exists (b :: l'). split; [reflexivity|]. split.
    + eapply Permutation_trans; [apply perm_skip; exact P|apply perm_swap].
    + constructor; [|exact F']. rewrite Forall_forall in *. intros x X. apply H1. apply (Permutation_in _ (Permutation_sym P)). right. exact X.
Qed.
Lemma filter_others l id p : NoDup (map p_id l) -> find (fun q => p_id q =? id) l = Some p -> Permutation l (p :: filter (fun q => negb (p_id q =? id)) l).
Proof.
  induction l as [|q l IH]; intros ND E; [discriminate E|]. cbn in *. apply NoDup_cons_iff in ND as [N ND]. destruct (Z.eqb_spec (p_id q) id) as [Q|Q]; cbn [negb].
  - injection E as <-. apply perm_skip. replace (filter _ l) with l; [reflexivity|]. symmetry. clear -N Q. induction l as [|r l IH]; [reflexivity|]. cbn in *.
    destruct (Z.eqb_spec (p_id r) id); [exfalso; apply N; left; congruence|]. cbn. f_equal. apply IH. tauto.
  - eapply Permutation_trans; [apply perm_skip; apply IH; auto|apply perm_swap].
Qed.
Lemma flat_perm {A B} (f : A -> list B) l l' : Permutation l l' -> Permutation (flat_map f l) (flat_map f l').
Proof.
  induction 1; cbn; auto.
  - apply Permutation_app_head. assumption.
  - rewrite !app_assoc. apply Permutation_app_tail. apply Permutation_app_comm.
  - eapply Permutation_trans; eauto.
Qed.
Definition closed_event (p : peer) : list ev := map (fun r => Called (rq_id r) (rq_name r) e_timeout false []) (reqs_of p).
(** Closing ends every lookup of the peer, in time out, and takes the peer off the list. *)
Lemma close_spec n pl id p : pool_ok n pl -> find_peer pl id = Some p ->
  exists pl', close pl id = Ok (pl', closed_event p, 0) /\ pool_ok n pl' /\ pl_peers pl' = filter (fun q => negb (p_id q =? id)) (pl_peers pl) /\
    pl_max pl' = pl_max pl /\ pl_pending pl' = pl_pending pl /\ pl_am pl' = pl_am pl /\ find_peer pl' id = None.
Proof.
  intros [K1 K2 K3 K4 K5 K6 K7 K8 K9 K10] E. unfold close. rewrite E. pose proof (filter_others _ _ _ K1 E) as P. apply find_peer_in in E as [I Ep].
  pose proof (Permutation_length P) as L. cbn [length] in L. replace (0 <? pl_size pl) with true by (unfold zlen in K3; lia). cbn [negb].
  destruct (addrs_del_spec (pl_addrs pl) (p_addr p) K6) as (l' & -> & Pl & Fl).
  { apply (Permutation_in _ (Permutation_sym K5)). apply in_map. exact I. }
  eexists. split; [reflexivity|]. split; [|cbn; repeat split; auto].
  - constructor; cbn [pl_peers pl_size pl_max pl_addrs pl_am pl_next]; auto.
    + apply (Permutation_map p_id) in P. apply (Permutation_NoDup P) in K1. cbn in K1. apply NoDup_cons_iff in K1 as [_ K1]. exact K1.
    + intros q Q. apply filter_In in Q as [Q _]. auto.
    + unfold zlen in *. lia.
    + lia.
    + apply (Permutation_cons_inv (a := p_addr p)). eapply Permutation_trans; [apply Permutation_sym; exact Pl|]. eapply Permutation_trans; [exact K5|]. apply (Permutation_map p_addr) in P. exact P.
    + intros q Q. apply filter_In in Q as [Q _]. auto.
  - unfold find_peer. cbn [pl_peers]. destruct (find _ (filter _ _)) as [q|] eqn:F; [|reflexivity]. apply find_some in F as [F1 F2]. apply filter_In in F1 as [_ F1]. rewrite F2 in F1. discriminate F1.
Qed.
Lemma close_keeps n pl id : pool_ok n pl -> keeps n n pl [] (close pl id).
Proof.
  intros K. destruct (find_peer pl id) as [p|] eqn:E; [|unfold close; rewrite E; apply keeps_ok; exact K].
  destruct (close_spec n pl id p K E) as (pl' & C & K' & P & M & Qe & _). exists pl', (closed_event p), 0. split; [exact C|]. split; [exact K'|].
  split; [|split; [exact M|split; [exists []; exact Qe|split]]].
  2:{ rewrite app_nil_r. unfold under_way. rewrite Qe, P. intros r I. apply in_app_or in I as [I|I]; apply in_or_app; [left|right; exact I]. apply in_flat_map in I as (q & Iq & I). apply filter_In in Iq as [Iq _]. apply in_flat_map. exists q. auto. }
  2:{ intros i nm st ex d I. apply in_map_iff in I as (r & E' & I). injection E' as <- <- <- <- <-. exists r. split; [|auto]. apply find_peer_in in E as [Ip _]. unfold under_way. apply in_or_app. left. apply in_flat_map. exists p. auto. }
  cbn [ids map]. rewrite app_nil_r. unfold closed_event. rewrite called_map by (intros r; eauto 6).
  unfold under_way, ids. rewrite Qe, P, !map_app, app_assoc. apply Permutation_app_tail. rewrite <- map_app. apply Permutation_map.
  apply (flat_perm reqs_of _ _ (filter_others _ _ _ (pk_ids _ _ K) E)).
Qed.

(* ---------- sending ---------- *)
Lemma send_keeps n s now m pl id : pool_ok n pl -> keeps n n pl [] (send s now m pl id).
Proof.
  intros K. unfold send. destruct s as [| |rc|]; [|apply keeps_ok; exact K|..]; (destruct (find_peer pl id) as [p|] eqn:E; [|apply keeps_ok; exact K]); (destruct (negb _); [apply keeps_ok; exact K|]).
  - destruct (quiet n pl id (with_clocks (set_send now)) 0 K) as (A & B & _); [intros q; repeat split|].
    exists (upd_peer pl id (with_clocks (set_send now))), [Wrote id m], 0. split; [reflexivity|]. split; [exact A|]. cbn [ids map]. rewrite B, !app_nil_r. split; [reflexivity|]. split; [reflexivity|]. split; [exists []; reflexivity|]. split; [apply incl_refl|]. intros i nm st ex d [I|[]]. discriminate I.
  - apply keeps_ok. exact K.
  - eapply keeps_bind; [apply close_keeps; exact K|]. intros pl' rc K' _. apply keeps_ok. exact K'.
Qed.
Lemma quiet_then n m pl id f a r : pool_ok n pl -> (forall p, p_id (f p) = p_id p /\ p_addr (f p) = p_addr p /\ p_names (f p) = p_names p) ->
  (pool_ok n (upd_peer pl id f) -> keeps n m (upd_peer pl id f) a r) -> keeps n m pl a r.
Proof.
  intros K H R. destruct (quiet n pl id f 0 K H) as (A & B & _). apply (keeps_under n m pl (upd_peer pl id f)); [exact B|reflexivity|reflexivity|]. apply R. exact A.
Qed.
End Answers.
