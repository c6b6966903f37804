(** The timer of the pool: which peers it closes, when lookups end; examples and
    refutations. *)
From Coq Require Import Permutation.
From Verif Require Import Common CommonFacts ProofFacts MapModel AddrModel AddrTheorems AddrmanModel AddrmanFacts AddrmanTheorems AddrmanPick PoolModel PoolFacts PoolTheorems PoolRun.

(** When the timer closes a peer: only a connected one, and if it is silent for twenty minutes
    or does not answer a ping for as long, one minute after the connection; if it owes headers
    for half a minute while the chain is not synced; if it owes a verack for ten seconds; if it
    owes a proof for five; if writing a ping fails. *)
Definition closes (now : Z) (synced : bool) (s : sent) (p : peer) : Prop :=
  let c := p_clocks p in p_state p = Handshake /\
  ((c_conn c + 60 < now /\ (c_send c = 0 \/ c_recv c = 0 \/ c_send c + 1200 < now \/ c_recv c + 1200 < now \/ (c_challenge c <> 0 /\ c_last_ping c + 1200 < now))) \/
   (synced = false /\ c_getheaders c <> 0 /\ c_getheaders c + 30 < now) \/
   (c_version c <> 0 /\ c_version c + 10 < now) \/
   (exists r, In r (reqs_of p) /\ rq_time r + 5 < now) \/
   (s = Broken /\ c_ping_timer c + 30 < now /\ c_challenge c = 0)).
Definition calls (es : list ev) : list ev := filter (fun e => match e with Called _ _ _ _ _ => true | _ => false end) es.
Lemma calls_app a b : calls (a ++ b) = calls a ++ calls b.
Proof. unfold calls. induction a as [|[i n s x d|q m] a IH]; cbn; [reflexivity|f_equal; exact IH|exact IH]. Qed.
Lemma calls_closed p : calls (closed_event p) = closed_event p.
Proof. unfold closed_event, calls. induction (reqs_of p) as [|r l IH]; cbn; [reflexivity|f_equal; exact IH]. Qed.
Lemma overdue_iff now p : names_ok (p_names p) -> (overdue now p = true <-> exists r, In r (reqs_of p) /\ rq_time r + 5 < now).
Proof.
  intros [_ K]. unfold overdue, reqs_of. rewrite existsb_exists. split.
  - intros ([k c] & I & E). destruct c as [|r c]; [discriminate E|]. exists r. split; [|lia]. apply in_flat_map. exists (k, r :: c). split; [exact I|left; reflexivity].
  - intros (r & I & L). apply in_flat_map in I as ([k c] & I & J). exists (k, c). split; [exact I|]. cbn [snd] in J. destruct c as [|h c]; [destruct J|].
    destruct (proj2 (K k _ I) r J) as [_ T]. specialize (T h (or_introl eq_refl)). lia.
Qed.
Lemma state_iff p : pstate_eqb (p_state p) Handshake = true <-> p_state p = Handshake.
Proof. destruct (p_state p); cbn; split; congruence. Qed.
Definition like (p p' : peer) : Prop :=
  p_id p' = p_id p /\ p_addr p' = p_addr p /\ p_state p' = p_state p /\ p_names p' = p_names p /\ p_proofs p' = p_proofs p /\
  c_conn (p_clocks p') = c_conn (p_clocks p) /\ c_recv (p_clocks p') = c_recv (p_clocks p) /\ c_getheaders (p_clocks p') = c_getheaders (p_clocks p) /\ c_version (p_clocks p') = c_version (p_clocks p).
Lemma like_refl p : like p p. Proof. repeat split. Qed.
Lemma find_close pl id k (pl' : pool) : pl_peers pl' = filter (fun q => negb (p_id q =? id)) (pl_peers pl) -> k <> id -> find_peer pl' k = find_peer pl k.
Proof.
  intros P D. unfold find_peer. rewrite P. clear -D. induction (pl_peers pl) as [|q l IH]; [reflexivity|]. cbn. destruct (Z.eqb_spec (p_id q) id) as [E|E]; cbn.
  - replace (p_id q =? k) with false by lia. exact IH.
  - destruct (p_id q =? k); auto.
Qed.
Lemma find_upd_other pl id f k : (forall p, p_id (f p) = p_id p) -> k <> id -> find_peer (upd_peer pl id f) k = find_peer pl k.
Proof. intros H D. rewrite find_upd by exact H. replace (k =? id) with false by lia. reflexivity. Qed.
Lemma find_upd_self pl id f p : (forall p, p_id (f p) = p_id p) -> find_peer pl id = Some p -> find_peer (upd_peer pl id f) id = Some (f p).
Proof. intros H E. rewrite find_upd by exact H. rewrite Z.eqb_refl, E. reflexivity. Qed.

(** C70. The timer and one peer. *)
Theorem timer_closes_exactly : forall n now synced nonce s pl id p, pool_ok n pl -> find_peer pl id = Some p ->
  exists pl' es rc, timer_peer now synced nonce s pl id = Ok (pl', es, rc) /\ pool_ok n pl' /\ (forall k, k <> id -> find_peer pl' k = find_peer pl k) /\
  ((closes now synced s p /\ find_peer pl' id = None /\ calls es = closed_event p) \/
   (~ closes now synced s p /\ calls es = [] /\ exists p', find_peer pl' id = Some p' /\ like p p')).
Proof.
  intros n now synced nonce s pl id p K F. pose proof (pk_names _ _ K p (proj1 (find_peer_in _ _ _ F))) as Kn. unfold timer_peer. rewrite F.
  destruct (pstate_eqb (p_state p) Handshake) eqn:St; cbn [negb].
  2:{ exists pl, [], 0. split; [reflexivity|]. split; [exact K|]. split; [auto|]. right. split; [|split; [reflexivity|exists p; split; [exact F|apply like_refl]]]. intros [X _]. apply state_iff in X. congruence. }
  assert (St' := St). apply state_iff in St'.
  (* closing a pool whose peer is like p *)
  assert (Cl : forall pl1 es1 p1, pool_ok n pl1 -> find_peer pl1 id = Some p1 -> reqs_of p1 = reqs_of p -> (forall k, k <> id -> find_peer pl1 k = find_peer pl k) -> calls es1 = [] -> closes now synced s p ->
    exists pl' es rc, obind (close pl1 id) (fun '(pl0, es', rc) => Ok (pl0, es1 ++ es', rc)) = Ok (pl', es, rc) /\ pool_ok n pl' /\ (forall k, k <> id -> find_peer pl' k = find_peer pl k) /\
      ((closes now synced s p /\ find_peer pl' id = None /\ calls es = closed_event p) \/ (~ closes now synced s p /\ calls es = [] /\ exists p', find_peer pl' id = Some p' /\ like p p'))).
  { intros pl1 es1 p1 K1 F1 R1 O1 E1 C. destruct (close_spec n pl1 id p1 K1 F1) as (pl' & X & K' & P & _ & _ & _ & Fn). rewrite X. cbn [obind]. eexists _, _, _. split; [reflexivity|]. split; [exact K'|].
    split; [intros k D; rewrite (find_close pl1 id k pl' P D); auto|]. left. split; [exact C|]. split; [exact Fn|]. rewrite calls_app, E1, calls_closed. unfold closed_event. rewrite R1. reflexivity. }
  destruct (stalling now (p_clocks p)) eqn:Sl.
  { destruct (Cl pl [] p K F eq_refl (fun _ _ => eq_refl) eq_refl) as (pl' & es & rc & E & R).
    - split; [exact St'|]. left. unfold stalling in Sl. rewrite andb_true_iff, !orb_true_iff, andb_true_iff, negb_true_iff in Sl. lia.
    - destruct (close pl id) as [[[a b] c]| | |]; cbn [obind app] in E; try discriminate E. exists pl', es, rc. split; [exact E|exact R]. }
  assert (NS : ~ (c_conn (p_clocks p) + 60 < now /\ (c_send (p_clocks p) = 0 \/ c_recv (p_clocks p) = 0 \/ c_send (p_clocks p) + 1200 < now \/ c_recv (p_clocks p) + 1200 < now \/ (c_challenge (p_clocks p) <> 0 /\ c_last_ping (p_clocks p) + 1200 < now)))).
  { intros H. assert (stalling now (p_clocks p) = true); [|congruence]. unfold stalling. rewrite andb_true_iff, !orb_true_iff, andb_true_iff, negb_true_iff. lia. }
  (* the second half *)
  assert (Rest : forall pl1 es1 p1, pool_ok n pl1 -> find_peer pl1 id = Some p1 -> like p p1 -> (forall k, k <> id -> find_peer pl1 k = find_peer pl k) -> calls es1 = [] ->
     ~ (s = Broken /\ c_ping_timer (p_clocks p) + 30 < now /\ c_challenge (p_clocks p) = 0) ->
    exists pl' es rc, obind (if negb synced && negb (c_getheaders (p_clocks p) =? 0) && (c_getheaders (p_clocks p) + 30 <? now) then close pl1 id
        else if negb (c_version (p_clocks p) =? 0) && (c_version (p_clocks p) + 10 <? now) then close pl1 id
        else if overdue now p then close pl1 id else Ok (pl1, [], 0)) (fun '(pl0, es', rc) => Ok (pl0, es1 ++ es', rc)) = Ok (pl', es, rc) /\ pool_ok n pl' /\ (forall k, k <> id -> find_peer pl' k = find_peer pl k) /\
      ((closes now synced s p /\ find_peer pl' id = None /\ calls es = closed_event p) \/ (~ closes now synced s p /\ calls es = [] /\ exists p', find_peer pl' id = Some p' /\ like p p'))).
  { intros pl1 es1 p1 K1 F1 Lk O1 E1 NB. assert (R1 : reqs_of p1 = reqs_of p) by (unfold reqs_of; replace (p_names p1) with (p_names p) by (symmetry; apply Lk); reflexivity).
    destruct (negb synced && _ && _) eqn:B1.
    { apply (Cl pl1 es1 p1); auto. split; [exact St'|]. right. left. rewrite !andb_true_iff, !negb_true_iff in B1. destruct B1 as [[-> B1] B2]. split; [reflexivity|]. lia. }
    destruct (negb (c_version (p_clocks p) =? 0) && _) eqn:B2.
    { apply (Cl pl1 es1 p1); auto. split; [exact St'|]. right. right. left. rewrite !andb_true_iff, !negb_true_iff in B2. lia. }
    destruct (overdue now p) eqn:B3.
    { apply (Cl pl1 es1 p1); auto. split; [exact St'|]. right. right. right. left. apply overdue_iff; auto. }
    cbn [obind]. exists pl1, (es1 ++ []), 0. split; [reflexivity|]. split; [exact K1|]. split; [exact O1|]. right. split; [|split; [rewrite app_nil_r; exact E1|exists p1; auto]].
    intros [_ [H|[(-> & H1 & H2)|[H|[H|H]]]]]; [tauto| | | |tauto].
    - cbn [negb andb] in B1. assert (negb (c_getheaders (p_clocks p) =? 0) && (c_getheaders (p_clocks p) + 30 <? now) = true); [|congruence]. rewrite andb_true_iff, negb_true_iff. lia.
    - assert (negb (c_version (p_clocks p) =? 0) && (c_version (p_clocks p) + 10 <? now) = true); [|congruence]. rewrite andb_true_iff, negb_true_iff. lia.
    - apply overdue_iff in H; [congruence|exact Kn]. }
  unfold rbind. destruct (Z.ltb_spec (c_ping_timer (p_clocks p) + 30) now) as [T|T].
  2:{ cbn [obind]. apply (Rest pl [] p); auto; [apply like_refl|]. intros (_ & H & _). lia. }
  destruct (Z.eqb_spec (c_challenge (p_clocks p)) 0) as [Ch|Ch].
  2:{ cbn [obind]. destruct (quiet (fun _ _ _ _ => True) n pl id (with_clocks (set_ping_timer now)) 0 K) as (K1 & _ & _); [intros q; repeat split|].
      apply (Rest (upd_peer pl id (with_clocks (set_ping_timer now))) [] (with_clocks (set_ping_timer now) p)); auto; [apply find_upd_self; auto|repeat split|intros k D; apply find_upd_other; auto|]. intros (_ & _ & H). contradiction. }
  set (g := fun c => set_last_ping now (set_challenge nonce (set_ping_timer now c))).
  destruct (quiet (fun _ _ _ _ => True) n pl id (with_clocks g) 0 K) as (K1 & _ & _); [intros q; repeat split|]. set (pl1 := upd_peer pl id (with_clocks g)) in *.
  assert (F1 : find_peer pl1 id = Some (with_clocks g p)) by (apply find_upd_self; auto). assert (O1 : forall k, k <> id -> find_peer pl1 k = find_peer pl k) by (intros k D; apply find_upd_other; auto).
  unfold send. rewrite F1. cbn [with_clocks p_state]. rewrite St. cbn [negb].
  destruct s as [| |rc|].
  - cbn [obind]. destruct (quiet (fun _ _ _ _ => True) n pl1 id (with_clocks (set_send now)) 0 K1) as (K2 & _ & _); [intros q; repeat split|].
    apply (Rest (upd_peer pl1 id (with_clocks (set_send now))) [Wrote id (MPing nonce)] (with_clocks (set_send now) (with_clocks g p))); auto; [apply find_upd_self; auto|repeat split|intros k D; rewrite find_upd_other; auto|]. intros (H & _). discriminate H.
  - cbn [obind]. apply (Rest pl1 [] (with_clocks g p)); auto; [repeat split|]. intros (H & _). discriminate H.
  - cbn [obind]. apply (Rest pl1 [] (with_clocks g p)); auto; [repeat split|]. intros (H & _). discriminate H.
  - destruct (close_spec n pl1 id _ K1 F1) as (pl2 & X & K2 & P & _ & _ & _ & Fn). unfold rbind. rewrite X. cbn [obind].
    assert (Cn : close pl2 id = Ok (pl2, [], 0)) by (unfold close; rewrite Fn; reflexivity).
    assert (Y : (if negb synced && negb (c_getheaders (p_clocks p) =? 0) && (c_getheaders (p_clocks p) + 30 <? now) then close pl2 id else if negb (c_version (p_clocks p) =? 0) && (c_version (p_clocks p) + 10 <? now) then close pl2 id
       else if overdue now p then close pl2 id else Ok (pl2, [], 0)) = Ok (pl2, [], 0)) by (rewrite Cn; destruct (_ && _ && _); [reflexivity|]; destruct (_ && _); [reflexivity|]; destruct (overdue now p); reflexivity).
    rewrite Y. cbn [obind]. eexists _, _, _. split; [reflexivity|]. split; [exact K2|]. split; [intros k D; rewrite (find_close pl1 id k pl2 P D); auto|]. left.
    split; [split; [exact St'|]; right; right; right; right; auto|]. split; [exact Fn|]. rewrite !app_nil_r, calls_closed. reflexivity.
Qed.

(* ---------- all peers ---------- *)
Lemma timer_peers_spec n now synced nonce s : forall l pl, NoDup l -> pool_ok n pl ->
  exists pl' es rc, timer_peers now synced nonce s pl l = Ok (pl', es, rc) /\ pool_ok n pl' /\ (forall k, ~ In k l -> find_peer pl' k = find_peer pl k) /\
    (forall k, In k l -> find_peer pl k = None -> find_peer pl' k = None) /\
    (forall k p, In k l -> find_peer pl k = Some p -> (closes now synced (s k) p /\ find_peer pl' k = None /\ incl (closed_event p) es) \/ (~ closes now synced (s k) p /\ exists p', find_peer pl' k = Some p' /\ like p p')).
Proof.
  induction l as [|id l IH]; intros pl ND K; cbn [timer_peers].
  - exists pl, [], 0. split; [reflexivity|]. split; [exact K|]. split; [auto|]. split; [intros k []|]. intros k p [].
  - apply NoDup_cons_iff in ND as [N ND]. unfold rbind.
    assert (St : exists p1 e1 r1, timer_peer now synced (nonce id) (s id) pl id = Ok (p1, e1, r1) /\ pool_ok n p1 /\ (forall k, k <> id -> find_peer p1 k = find_peer pl k) /\
      (find_peer pl id = None -> find_peer p1 id = None) /\
      (forall p, find_peer pl id = Some p -> (closes now synced (s id) p /\ find_peer p1 id = None /\ incl (closed_event p) e1) \/ (~ closes now synced (s id) p /\ exists p', find_peer p1 id = Some p' /\ like p p'))).
    { destruct (find_peer pl id) as [p|] eqn:F.
      - destruct (timer_closes_exactly n now synced (nonce id) (s id) pl id p K F) as (p1 & e1 & r1 & E & K1 & O & H). exists p1, e1, r1. split; [exact E|]. split; [exact K1|]. split; [exact O|]. split; [discriminate|].
        intros q X. injection X as <-. destruct H as [(C & Fn & Ev)|(C & _ & H)]; [left|right; auto]. split; [exact C|]. split; [exact Fn|]. rewrite <- Ev. intros x X. apply filter_In in X as [X _]. exact X.
      - unfold timer_peer. rewrite F. exists pl, [], 0. split; [reflexivity|]. split; [exact K|]. split; [auto|]. split; [auto|discriminate]. }
    destruct St as (p1 & e1 & r1 & E1 & K1 & O1 & N1 & S1). rewrite E1. cbn [obind]. destruct (IH p1 ND K1) as (p2 & e2 & r2 & E2 & K2 & O2 & N2 & S2). rewrite E2. cbn [obind].
    exists p2, (e1 ++ e2), r2. split; [reflexivity|]. split; [exact K2|]. split; [|split].
    + intros k D. rewrite O2 by (intros X; apply D; right; exact X). apply O1. intros ->. apply D. left. reflexivity.
    + intros k [<-|I] Fk; [rewrite O2 by exact N; auto|]. apply N2; [exact I|]. rewrite O1; [exact Fk|]. intros ->. contradiction.
    + intros k p [<-|I] Fk.
      * destruct (S1 p Fk) as [(C & Fn & Ev)|(C & p' & Fp & Lk)]; [left|right]; (split; [exact C|]); [split; [rewrite O2 by exact N; exact Fn|intros x X; apply in_or_app; left; auto]|exists p'; rewrite O2 by exact N; auto].
      * assert (Dk : k <> id) by (intros ->; contradiction). rewrite <- (O1 k Dk) in Fk. destruct (S2 k p I Fk) as [(C & Fn & Ev)|H]; [left; split; [exact C|split; [exact Fn|intros x X; apply in_or_app; right; auto]]|right; exact H].
Qed.
(** Each peer after was there before, with the same lookups, or has none *)
Definition stays (pl pl' : pool) : Prop := forall k p', find_peer pl' k = Some p' ->
  p_names p' = [] \/ exists p, find_peer pl k = Some p /\ p_names p' = p_names p /\ p_state p' = p_state p.
Lemma stays_refl pl : stays pl pl. Proof. intros k p F. right. exists p. auto. Qed.
Lemma stays_trans a b c : stays a b -> stays b c -> stays a c.
Proof. intros H1 H2 k p F. destruct (H2 k p F) as [N|(q & Fq & Nq & Sq)]; [left; exact N|]. destruct (H1 k q Fq) as [N|(r & Fr & Nr & Sr)]; [left; congruence|right; exists r; split; [exact Fr|split; congruence]]. Qed.
Lemma stays_upd pl id f : (forall p, p_id (f p) = p_id p /\ p_names (f p) = p_names p /\ p_state (f p) = p_state p) -> stays pl (upd_peer pl id f).
Proof.
  intros H k p' F. right. rewrite find_upd in F by (intros p; apply H). destruct (k =? id); [|exists p'; auto]. destruct (find_peer pl k) as [p|]; [|discriminate F]. injection F as <-. exists p. split; [reflexivity|apply H].
Qed.
Lemma stays_close n pl id : pool_ok n pl -> exists pl' es rc, close pl id = Ok (pl', es, rc) /\ pool_ok n pl' /\ stays pl pl'.
Proof.
  intros K. destruct (find_peer pl id) as [p|] eqn:F.
  - destruct (close_spec n pl id p K F) as (pl' & E & K' & P & _ & _ & _ & Fn). exists pl', (closed_event p), 0. split; [exact E|]. split; [exact K'|]. intros k q Fq. right. exists q. split; [|auto].
    rewrite <- (find_close pl id k pl' P); [exact Fq|]. intros ->. congruence.
  - exists pl, [], 0. unfold close. rewrite F. split; [reflexivity|]. split; [exact K|apply stays_refl].
Qed.
Lemma stays_send n s now m pl id : pool_ok n pl -> exists pl' es rc, send s now m pl id = Ok (pl', es, rc) /\ pool_ok n pl' /\ stays pl pl' /\ (s <> Broken -> forall k p, find_peer pl k = Some p -> exists p', find_peer pl' k = Some p' /\ p_names p' = p_names p /\ p_state p' = p_state p).
Proof.
  intros K. assert (Same : forall rc : Z, exists pl' es rc', Ok (pl, @nil ev, rc) = Ok (pl', es, rc') /\ pool_ok n pl' /\ stays pl pl' /\ (s <> Broken -> forall k p, find_peer pl k = Some p -> exists p', find_peer pl' k = Some p' /\ p_names p' = p_names p /\ p_state p' = p_state p)).
  { intros rc. exists pl, [], rc. split; [reflexivity|]. split; [exact K|]. split; [apply stays_refl|]. intros _ k p F. exists p. auto. }
  unfold send. destruct s as [| |rc|]; try apply Same; (destruct (find_peer pl id) as [q|] eqn:F; [|apply Same]); (destruct (negb _); [apply Same|]); try apply Same.
  - eexists _, _, _. split; [reflexivity|]. split; [apply (quiet (fun _ _ _ _ => True) n pl id (with_clocks (set_send now)) 0 K); intros q'; repeat split|]. split; [apply stays_upd; intros p; repeat split|].
    intros _ k p Fk. rewrite find_upd by reflexivity. rewrite Fk. destruct (k =? id); cbn; eexists; split; try reflexivity; auto.
  - destruct (stays_close n pl id K) as (pl' & es & rc & E & K' & S). unfold rbind. rewrite E. cbn [obind]. eexists _, _, _. split; [reflexivity|]. split; [exact K'|]. split; [exact S|]. intros X. contradiction.
Qed.
Lemma stays_getheaders n now s : forall l pl, pool_ok n pl -> exists pl' es rc, getheaders_all now s pl l = Ok (pl', es, rc) /\ pool_ok n pl' /\ stays pl pl' /\
  ((forall k, s k <> Broken) -> forall k p, find_peer pl k = Some p -> exists p', find_peer pl' k = Some p' /\ p_names p' = p_names p /\ p_state p' = p_state p).
Proof.
  induction l as [|id l IH]; intros pl K; cbn [getheaders_all].
  - exists pl, [], 0. split; [reflexivity|]. split; [exact K|]. split; [apply stays_refl|]. intros _ k p F. exists p. auto.
  - destruct (find_peer pl id) as [p|] eqn:F; [|apply IH; exact K]. destruct (negb _); [apply IH; exact K|]. unfold send_getheaders, rbind.
    set (p0 := upd_peer pl id (with_clocks (set_getheaders now))). assert (K0 : pool_ok n p0) by (apply (quiet (fun _ _ _ _ => True) n pl id (with_clocks (set_getheaders now)) 0 K); intros q'; repeat split).
    assert (S0 : stays pl p0) by (apply stays_upd; intros q; repeat split).
    assert (T0 : forall k p, find_peer pl k = Some p -> exists p', find_peer p0 k = Some p' /\ p_names p' = p_names p /\ p_state p' = p_state p).
    { intros k q Fk. unfold p0. rewrite find_upd by reflexivity. rewrite Fk. destruct (k =? id); cbn; eexists; split; try reflexivity; auto. }
    destruct (stays_send n (s id) now MGetheaders p0 id K0) as (p1 & e1 & r1 & E1 & K1 & S1 & T1). rewrite E1. cbn [obind].
    assert (G : exists pl' es rc, getheaders_all now s p1 l = Ok (pl', es, rc) /\ pool_ok n pl' /\ stays pl pl' /\
       ((forall k, s k <> Broken) -> forall k p, find_peer pl k = Some p -> exists p', find_peer pl' k = Some p' /\ p_names p' = p_names p /\ p_state p' = p_state p)).
    { destruct (IH p1 K1) as (p2 & e2 & r2 & E2 & K2 & S2 & T2). exists p2, e2, r2. split; [exact E2|]. split; [exact K2|]. split; [eapply stays_trans; [exact S0|eapply stays_trans; eauto]|].
      intros NB k q Fk. destruct (T0 k q Fk) as (q0 & F0 & N0 & A0). destruct (T1 (NB id) k q0 F0) as (q1 & F1 & N1 & A1). destruct (T2 NB k q1 F1) as (q2 & F2 & N2 & A2). exists q2. split; [exact F2|]. split; congruence. }
    destruct (find_peer p1 id) as [q|] eqn:Fq.
    + destruct G as (p2 & e2 & r2 & E2 & R). rewrite E2. cbn [obind]. eexists _, _, _. split; [reflexivity|]. exact R.
    + destruct (match pl_peers pl with [] => false | q :: _ => p_id q =? id end).
      * cbn [obind]. eexists _, _, _. split; [reflexivity|]. split; [exact K1|]. split; [eapply stays_trans; eauto|]. intros NB k q Fk. destruct (T0 k q Fk) as (q0 & F0 & N0 & A0). destruct (T1 (NB id) k q0 F0) as (q1 & F1 & N1 & A1). exists q1. split; [exact F1|]. split; congruence.
      * destruct G as (p2 & e2 & r2 & E2 & R). rewrite E2. cbn [obind]. eexists _, _, _. split; [reflexivity|]. exact R.
Qed.
Lemma refill_peers port R pl pl' es rc : refill port R pl = Ok (pl', es, rc) -> exists l, pl_peers pl' = pl_peers pl ++ l /\ forall p, In p l -> p_names p = [] /\ p_state p = Connecting.
Proof.
  unfold refill. destruct (_ <=? _); [intros E; injection E as <- <- <-; exists []; rewrite app_nil_r; split; [reflexivity|intros p []]|].
  destruct (pick _ _ _ _ _ _) as [[am o]| | |]; cbn [obind]; try discriminate. 
  assert (Same : forall am', exists l, pl_peers (set_am pl am') = pl_peers pl ++ l /\ forall p, In p l -> p_names p = [] /\ p_state p = Connecting) by (intros am'; exists []; rewrite app_nil_r; split; [reflexivity|intros p []]).
  destruct o as [j|]; [|intros E; injection E as <- <- <-; apply Same]. destruct (nth_error _ j) as [e|]; [|discriminate]. destruct (_ && _).
  { destruct (remove_addr _ _) as [[am' x]| | |]; cbn [obind]; try discriminate. intros E. injection E as <- <- <-. apply (Same am'). }
  destruct (negb _); [intros E; injection E as <- <- <-; apply Same|]. destruct (mark_attempt _ _ _) as [[am' x]| | |]; cbn [obind]; try discriminate. destruct (is_onion _); [discriminate|].
  destruct (negb _); [intros E; injection E as <- <- <-; apply (Same am')|]. unfold push. destruct (existsb _ _); [discriminate|]. intros E. injection E as <- <- <-. cbn [set_am pl_peers].
  eexists [_]. split; [reflexivity|]. intros p [<-|[]]. auto.
Qed.
Lemma find_app pl pl' l k : pl_peers pl' = pl_peers pl ++ l -> find_peer pl' k = match find_peer pl k with Some p => Some p | None => find (fun p => p_id p =? k) l end.
Proof. intros E. unfold find_peer. rewrite E. clear. induction (pl_peers pl) as [|q r IH]; [reflexivity|]. cbn. destruct (p_id q =? k); auto. Qed.

(** C41. After the timer no connected peer owes a proof for more than five seconds; a lookup
    that such a peer owed was told a time out; and nothing else was told. *)
Theorem timer_ends_lookups : forall n port now synced nonce s s2 R pl, pool_ok n pl -> rf_map R = true -> n < 2147483647 ->
  exists pl' es rc, timer port now synced nonce s s2 R pl = Ok (pl', es, rc) /\ pool_ok (n + 1) pl' /\
    (forall p r, In p (pl_peers pl') -> p_state p = Handshake -> In r (reqs_of p) -> now <= rq_time r + 5) /\
    (forall p r, In p (pl_peers pl) -> p_state p = Handshake -> In r (reqs_of p) -> rq_time r + 5 < now -> forall q, In q (reqs_of p) -> In (Called (rq_id q) (rq_name q) 2 false []) es) /\
    (forall i nm st ex d, In (Called i nm st ex d) es -> st = 2 /\ ex = false /\ d = []).
Proof.
  intros n port now synced nonce s s2 R pl K Hm L.
  destruct (timer_keeps (fun _ st ex d => st = 2 /\ ex = false /\ d = []) (fun _ => conj eq_refl (conj eq_refl eq_refl)) n port now synced nonce s s2 R pl K Hm L) as (pl' & es & rc & E & K' & _ & _ & _ & _ & A). exists pl', es, rc. split; [exact E|]. split; [exact K'|].
  destruct (timer_peers_spec n now synced nonce s (map p_id (pl_peers pl)) pl (pk_ids _ _ K) K) as (p1 & e1 & r1 & E1 & K1 & O1 & N1 & S1).
  unfold timer in E. unfold rbind in E at 1. rewrite E1 in E. cbn [obind] in E.
  match type of E with context [rbind ?x _] => set (G := x) in E end.
  assert (HG : exists p2 e2 r2, G = Ok (p2, e2, r2) /\ stays p1 p2).
  { subst G. destruct (_ && _); [|exists p1, [], 0; split; [reflexivity|apply stays_refl]]. destruct (stays_getheaders n now s2 (map p_id (pl_peers p1)) p1 K1) as (p2 & e2 & r2 & E2 & K2 & S2 & _). unfold rbind. rewrite E2. cbn [obind]. eexists _, _, _. split; [reflexivity|]. intros k p F. apply (S2 k p F). }
  destruct HG as (p2 & e2 & r2 & EG & S2). rewrite EG in E. unfold rbind in E. cbn [obind] in E. destruct (refill port R p2) as [[[p3 e3] r3]| | |] eqn:ER; cbn [obind] in E; try discriminate E. injection E as E3 E4 _. subst p3.
  destruct (refill_peers _ _ _ _ _ _ ER) as (l & P3 & Pl). split; [|split].
  - intros p r I Hs Ir. destruct (Z.le_gt_cases now (rq_time r + 5)) as [|G']; [assumption|exfalso]. pose proof (find_self _ _ _ K' I) as F. rewrite (find_app p2 pl' l _ P3) in F.
    assert (Nn : p_names p <> []) by (intros X; unfold reqs_of in Ir; rewrite X in Ir; exact Ir).
    destruct (find_peer p2 (p_id p)) as [q|] eqn:F2; [injection F as ->|apply find_some in F as [F _]; apply Pl in F as [F _]; contradiction].
    destruct (S2 _ _ F2) as [X|(q1 & F1 & Nq & Sq)]; [contradiction|]. destruct (in_dec Z.eq_dec (p_id p) (map p_id (pl_peers pl))) as [Ik|Ik].
    + destruct (find_peer pl (p_id p)) as [q0|] eqn:F0; [|rewrite (N1 _ Ik F0) in F1; discriminate F1]. destruct (S1 _ _ Ik F0) as [(_ & X & _)|(C & q' & X & Lk)]; [congruence|]. rewrite F1 in X. injection X as <-.
      destruct Lk as (_ & _ & Ls & Ln & _). apply C. split; [congruence|]. right. right. right. left. exists r. split; [|lia]. unfold reqs_of in *. rewrite <- Ln, <- Nq. exact Ir.
    + rewrite (O1 _ Ik) in F1. apply find_peer_in in F1 as [F1 Eq1]. apply Ik. rewrite <- Eq1. apply in_map. exact F1.
  - intros p r I Hs Ir Lr q Iq. pose proof (find_self _ _ _ K I) as F. destruct (S1 (p_id p) p (in_map p_id _ _ I) F) as [(_ & _ & X)|(C & _)].
    + rewrite <- E4. apply in_or_app. left. apply X. unfold closed_event. apply in_map_iff. exists q. auto.
    + exfalso. apply C. split; [exact Hs|]. right. right. right. left. exists r. auto.
  - intros i nm st ex d I. destruct (A _ _ _ _ _ I) as (r & _ & _ & _ & H). exact H.
Qed.
(** C70. The timer and the whole pool: if writes of getheaders do not fail, the peers left are
    those it does not close, and at most one new peer. *)
Theorem timer_keeps_the_rest : forall n port now synced nonce s s2 R pl p, pool_ok n pl -> rf_map R = true -> n < 2147483647 -> In p (pl_peers pl) ->
  (forall k, s2 k <> Broken) ->
  exists pl' es rc, timer port now synced nonce s s2 R pl = Ok (pl', es, rc) /\
    ((closes now synced (s (p_id p)) p /\ forall p', In p' (pl_peers pl') -> p_id p' = p_id p -> p_names p' = [] /\ p_state p' = Connecting) \/
     (~ closes now synced (s (p_id p)) p /\ exists p', In p' (pl_peers pl') /\ p_id p' = p_id p /\ p_names p' = p_names p /\ p_state p' = p_state p)).
Proof.
  intros n port now synced nonce s s2 R pl p K Hm L Ip NB.
  destruct (timer_keeps (fun _ _ _ _ => True) (fun _ => I) n port now synced nonce s s2 R pl K Hm L) as (pl' & es & rc & E & K' & _). exists pl', es, rc. split; [exact E|].
  destruct (timer_peers_spec n now synced nonce s (map p_id (pl_peers pl)) pl (pk_ids _ _ K) K) as (p1 & e1 & r1 & E1 & K1 & O1 & N1 & S1).
  unfold timer in E. unfold rbind in E at 1. rewrite E1 in E. cbn [obind] in E.
  match type of E with context [rbind ?x _] => set (G := x) in E end.
  assert (HG : exists p2 e2 r2, G = Ok (p2, e2, r2) /\ (forall k, find_peer p1 k = None -> find_peer p2 k = None) /\ forall k p, find_peer p1 k = Some p -> exists p', find_peer p2 k = Some p' /\ p_names p' = p_names p /\ p_state p' = p_state p).
  { subst G. destruct (_ && _); [|exists p1, [], 0; split; [reflexivity|split; [auto|intros k q F; exists q; auto]]]. destruct (stays_getheaders n now s2 (map p_id (pl_peers p1)) p1 K1) as (p2 & e2 & r2 & E2 & K2 & S2 & T2). unfold rbind. rewrite E2. cbn [obind]. eexists _, _, _. split; [reflexivity|].
    split; [|intros k q F; apply (T2 NB k q F)]. intros k F. match goal with |- find_peer ?x k = None => change (find_peer x k) with (find_peer p2 k) end.
    assert (Sub : forall l pl0, pool_ok n pl0 -> forall a b c, getheaders_all now s2 pl0 l = Ok (a, b, c) -> find_peer pl0 k = None -> find_peer a k = None).
    { clear -K. induction l as [|id l IH]; intros pl0 K0 a b c X F; cbn [getheaders_all] in X; [injection X as <- <- <-; exact F|]. destruct (find_peer pl0 id) as [q|] eqn:Fq; [|exact (IH _ K0 _ _ _ X F)]. destruct (negb _); [exact (IH _ K0 _ _ _ X F)|].
      assert (Dk : k <> id) by (intros ->; congruence). unfold send_getheaders, rbind in X. set (q0 := upd_peer pl0 id (with_clocks (set_getheaders now))) in X. assert (Kq : pool_ok n q0) by (apply (quiet (fun _ _ _ _ => True) n pl0 id (with_clocks (set_getheaders now)) 0 K0); intros q'; repeat split).
      assert (F0 : find_peer q0 k = None) by (unfold q0; rewrite find_upd_other; auto).
      assert (Sn : forall a b c, send (s2 id) now MGetheaders q0 id = Ok (a, b, c) -> pool_ok n a /\ find_peer a k = None).
      { intros x y z Y. destruct (stays_send n (s2 id) now MGetheaders q0 id Kq) as (x' & y' & z' & Y' & Kx & _). rewrite Y in Y'. injection Y' as <- <- <-. split; [exact Kx|]. unfold send in Y.
        destruct (s2 id) as [| |rc|]; try (injection Y as <- <- <-; exact F0); (destruct (find_peer q0 id) as [w|] eqn:Fw; [|injection Y as <- <- <-; exact F0]); (destruct (negb _); [injection Y as <- <- <-; exact F0|]).
        - injection Y as <- <- <-. rewrite find_upd_other; auto.
        - injection Y as <- <- <-. exact F0.
        - destruct (close_spec n q0 id w Kq Fw) as (x' & Cx & _ & P & _). unfold rbind in Y. rewrite Cx in Y. cbn [obind] in Y. injection Y as <- <- <-. rewrite (find_close q0 id k x' P Dk). exact F0. }
      destruct (send (s2 id) now MGetheaders q0 id) as [[[x y] z]| | |] eqn:Y; cbn [obind] in X; try discriminate X. destruct (Sn _ _ _ eq_refl) as [Kx Fx].
      assert (Fin : forall a b c, obind (getheaders_all now s2 x l) (fun '(pl, es', rc) => Ok (pl, y ++ es', rc)) = Ok (a, b, c) -> find_peer a k = None).
      { intros a' b' c' W. destruct (getheaders_all now s2 x l) as [[[u v] w]| | |] eqn:V; cbn [obind] in W; try discriminate W. injection W as <- <- <-. exact (IH _ Kx _ _ _ V Fx). }
      destruct (find_peer x id); [exact (Fin _ _ _ X)|]. destruct (match pl_peers pl0 with [] => false | q :: _ => p_id q =? id end); [cbn [obind] in X; injection X as <- <- <-; exact Fx|exact (Fin _ _ _ X)]. }
    exact (Sub _ _ K1 _ _ _ E2 F). }
  destruct HG as (p2 & e2 & r2 & EG & S2 & T2). rewrite EG in E. unfold rbind in E. cbn [obind] in E. destruct (refill port R p2) as [[[p3 e3] r3]| | |] eqn:ER; cbn [obind] in E; try discriminate E. injection E as E3 E4 _. subst p3.
  destruct (refill_peers _ _ _ _ _ _ ER) as (l & P3 & Pl). pose proof (find_self _ _ _ K Ip) as F. destruct (S1 (p_id p) p (in_map p_id _ _ Ip) F) as [(C & X & _)|(C & p' & X & Lk)].
  - left. split; [exact C|]. intros q Iq Eq. pose proof (find_self _ _ _ K' Iq) as Fq. rewrite (find_app p2 pl' l _ P3), Eq, (S2 _ X) in Fq. apply find_some in Fq as [Fq _]. apply Pl. exact Fq.
  - right. split; [exact C|]. destruct (T2 _ _ X) as (q & Fq & Nq & Sq). exists q. destruct Lk as (_ & _ & Ls & Ln & _). assert (F3 : find_peer pl' (p_id p) = Some q) by (rewrite (find_app p2 pl' l _ P3), Fq; reflexivity).
    apply find_peer_in in F3 as [F3 F4]. split; [exact F3|]. split; [exact F4|]. split; congruence.
Qed.

Print Assumptions timer_closes_exactly.
Print Assumptions timer_ends_lookups.
Print Assumptions timer_keeps_the_rest.
