(** The pool: which peer is asked for a name, and when all are asked for headers. *)
From Verif Require Import Common CommonFacts AddrModel AddrmanModel PoolModel PoolFacts PoolTheorems.

(* ---------- the peer that is asked ---------- *)
Definition connected (pl : pool) : list peer := filter (fun p => match p_state p with Handshake => true | _ => false end) (pl_peers pl).
Lemma connected_ready pl : ready (pl_peers pl) = connected pl.
Proof. unfold ready, connected. apply filter_ext. intros p. destruct (p_state p); reflexivity. Qed.
(** C41. In one case of five the peer is a random one of those connected, in most of the
    others the one that the name determines. *)
Theorem prover_by_name : forall rnd pl h, connected pl <> [] ->
  (rnd 1%nat mod 5 = 0 -> pick_prover rnd pl h = nth_error (connected pl) (Z.to_nat (rnd 0%nat mod zlen (connected pl)))) /\
  (rnd 1%nat mod 5 <> 0 -> rnd 2%nat mod 10 <> 0 -> rnd 3%nat mod 10 <> 0 ->
     pick_prover rnd pl h = nth_error (connected pl) (Z.to_nat (nth 0 h 0 mod zlen (connected pl)))).
Proof.
  intros rnd pl h N. unfold pick_prover. rewrite connected_ready.
  destruct (pl_peers pl) as [|hd l] eqn:E; [unfold connected in N; rewrite E in N; contradiction|].
  destruct (best_loop hd None (hd :: l)) as [f o].
  destruct (Z.eqb_spec (zlen (connected pl)) 0) as [Z0|_]; [destruct (connected pl); [contradiction|unfold zlen in Z0; cbn in Z0; lia]|].
  split.
  - intros R. rewrite R. reflexivity.
  - intros R1 R2 R3. destruct (Z.eqb_spec (rnd 1%nat mod 5) 0); [contradiction|].
    destruct (Z.eqb_spec (rnd 2%nat mod 10) 0); [contradiction|]. destruct (Z.eqb_spec (rnd 3%nat mod 10) 0); [contradiction|]. destruct o; reflexivity.
Qed.
Print Assumptions prover_by_name.
(** The best peer is connected, has given more proofs than any other and has no more lookups
    waiting. When it is the first of the list it is chosen in one case of ten, otherwise in
    nine of a hundred, besides the cases above. *)
Lemma best_kept p : forall l s, (forall q, In q l -> p_proofs q <= p_proofs p) -> best_loop p s l = (p, s).
Proof.
  induction l as [|q l IH]; intros s H; cbn [best_loop]; [reflexivity|].
  assert (H' : forall x, In x l -> p_proofs x <= p_proofs p) by (intros; apply H; right; assumption).
  destruct (negb _); [apply IH; exact H'|]. specialize (H q (or_introl eq_refl)). destruct (Z.ltb_spec (p_proofs p) (p_proofs q)); [lia|cbn [andb]; apply IH; exact H'].
Qed.
Definition better (p q : peer) : Prop := p_proofs q < p_proofs p /\ zlen (p_names p) <= zlen (p_names q).
Lemma best_found p b : p_state p = Handshake -> Forall (better p) b -> forall a f s, better p f -> Forall (better p) a -> exists x, best_loop f s (a ++ p :: b) = (p, Some x).
Proof.
  intros S B. induction a as [|q a IH]; intros f s F A; cbn [app best_loop].
  - rewrite S. cbn [pstate_eqb negb]. destruct F as [F1 F2]. replace (p_proofs f <? p_proofs p) with true by lia. replace (zlen (p_names p) <=? zlen (p_names f)) with true by lia. cbn [andb].
    exists f. apply best_kept. intros x X. rewrite Forall_forall in B. apply B in X. destruct X. lia.
  - apply Forall_cons_iff in A. destruct A as [Q A]. destruct (negb _); [apply IH; assumption|]. destruct (_ && _); apply IH; assumption.
Qed.
Theorem prover_best : forall rnd pl h a p b, pl_peers pl = a ++ p :: b -> p_state p = Handshake ->
  Forall (fun q => p_proofs q < p_proofs p /\ zlen (p_names p) <= zlen (p_names q)) (a ++ b) -> rnd 1%nat mod 5 <> 0 ->
  (a = [] -> rnd 2%nat mod 10 = 0 -> pick_prover rnd pl h = Some p) /\
  (a <> [] -> rnd 2%nat mod 10 <> 0 -> rnd 3%nat mod 10 = 0 -> pick_prover rnd pl h = Some p).
Proof.
  intros rnd pl h a p b E S B R1. apply Forall_app in B. destruct B as [A B]. unfold pick_prover. rewrite connected_ready, E.
  assert (NZ : (zlen (connected pl) =? 0) = false).
  { assert (I : In p (connected pl)) by (unfold connected; rewrite E; apply filter_In; split; [apply in_or_app; right; left; reflexivity|rewrite S; reflexivity]).
    destruct (connected pl); [destruct I|]. unfold zlen. cbn [length]. lia. }
  destruct (Z.eqb_spec (rnd 1%nat mod 5) 0) as [|_]; [contradiction|]. destruct a as [|hd a]; cbn [app].
  - split; [|congruence]. intros _ R2. rewrite (best_kept p (p :: b) None), NZ, R2; [reflexivity|].
    intros q [<-|Q]; [lia|]. rewrite Forall_forall in B. apply B in Q. lia.
  - split; [discriminate|]. intros _ R2 R3. apply Forall_cons_iff in A. destruct A as [Hh A].
    destruct (best_found p b S B (hd :: a) hd None Hh (Forall_cons _ Hh A)) as [x X]. cbn [app] in X. rewrite X, NZ, R3.
    destruct (Z.eqb_spec (rnd 2%nat mod 10) 0); [contradiction|]. reflexivity.
Qed.
Print Assumptions prover_best.

(* ---------- asking all for headers ---------- *)
Definition same_clock (pl pl' : pool) : Prop := pl_block_time pl' = pl_block_time pl /\ pl_getheaders pl' = pl_getheaders pl.
Definition no_ask (es : list ev) : Prop := forall i, ~ In (Wrote i MGetheaders) es.
Definition keeps (ask : bool) (pl : pool) (r : res) : Prop := forall pl' es rc, r = Ok (pl', es, rc) -> same_clock pl pl' /\ (ask = false -> no_ask es).
Lemma keeps_ok ask pl pl' es rc : same_clock pl pl' -> no_ask es -> keeps ask pl (Ok (pl', es, rc)).
Proof. intros S N x y z [= <- <- <-]. auto. Qed.
Lemma same_refl pl : same_clock pl pl. Proof. split; reflexivity. Qed.
Lemma no_nil : no_ask []. Proof. intros i []. Qed.
Lemma keeps_bind ask pl r f : keeps ask pl r -> (forall pl1 rc, same_clock pl pl1 -> keeps ask pl1 (f pl1 rc)) -> keeps ask pl (rbind r f).
Proof.
  intros R F pl' es rc E. unfold rbind in E. destruct r as [[[pl1 es1] rc1]| | |]; try discriminate E. cbn [obind] in E.
  destruct (R pl1 es1 rc1 eq_refl) as [S N]. destruct (f pl1 rc1) as [[[pl2 es2] rc2]| | |] eqn:G; try discriminate E. cbn [obind] in E. injection E as <- <- <-.
  destruct (F pl1 rc1 S pl2 es2 rc2 G) as [S' N']. split; [destruct S, S'; split; congruence|].
  intros A i I. apply in_app_or in I. destruct I as [I|I]; [exact (N A i I)|exact (N' A i I)].
Qed.
Lemma keeps_upd ask pl id f r : keeps ask (upd_peer pl id f) r -> keeps ask pl r.
Proof. intros H pl' es rc E. apply (H pl' es rc E). Qed.
Lemma keeps_am ask pl am r : keeps ask (set_am pl am) r -> keeps ask pl r.
Proof. intros H pl' es rc E. apply (H pl' es rc E). Qed.
Lemma close_keeps ask pl id : keeps ask pl (close pl id).
Proof.
  unfold close. destruct (find_peer pl id) as [p|]; [|apply keeps_ok; [apply same_refl|apply no_nil]]. destruct (negb _); [intros ? ? ?; discriminate|].
  destruct (addrs_del _ _); [|intros ? ? ?; discriminate]. apply keeps_ok; [split; reflexivity|]. intros i I. unfold timeout_reqs in I. apply in_map_iff in I. destruct I as (r & E & _). discriminate.
Qed.
Lemma send_keeps ask s now m pl id : (ask = true \/ m <> MGetheaders) -> keeps ask pl (send s now m pl id).
Proof.
  intros A. unfold send. assert (K : forall rc, keeps ask pl (Ok (pl, [], rc))) by (intros; apply keeps_ok; [apply same_refl|apply no_nil]).
  destruct s; try apply K; (destruct (find_peer pl id) as [p|]; [|apply K]); (destruct (negb _); [apply K|]); try apply K.
  - intros x y z [= <- <- <-]. split; [split; reflexivity|]. intros F i [I|[]]. destruct A as [A|A]; [congruence|]. injection I as _ I. contradiction.
  - apply keeps_bind; [apply close_keeps|]. intros. apply keeps_ok; [apply same_refl|apply no_nil].
Qed.
Lemma timer_peers_keep now synced nonce s : forall ids pl, keeps false pl (timer_peers now synced nonce s pl ids).
Proof.
  assert (K : forall pl rc, keeps false pl (Ok (pl, [], rc))) by (intros; apply keeps_ok; [apply same_refl|apply no_nil]).
  induction ids as [|id ids IH]; intros pl; cbn [timer_peers]; [apply K|]. apply keeps_bind; [|intros; apply IH].
  unfold timer_peer. destruct (find_peer pl id) as [p|]; [|apply K]. destruct (negb _); [apply K|]. destruct (stalling _ _); [apply close_keeps|].
  apply keeps_bind.
  - destruct (_ <? now); [|apply K]. destruct (_ =? 0).
    + eapply keeps_upd. apply send_keeps. right. discriminate.
    + eapply keeps_upd. apply K.
  - intros pl1 rc _. repeat match goal with |- keeps _ _ (if ?c then _ else _) => destruct c end; first [apply close_keeps|apply K].
Qed.
Lemma getheaders_keep now s : forall ids pl, keeps true pl (getheaders_all now s pl ids).
Proof.
  induction ids as [|id ids IH]; intros pl; cbn [getheaders_all]; [apply keeps_ok; [apply same_refl|apply no_nil]|].
  destruct (find_peer pl id) as [p|]; [|apply IH]. destruct (negb _); [apply IH|]. cbv zeta. apply keeps_bind.
  - unfold send_getheaders. eapply keeps_upd. apply send_keeps. left. reflexivity.
  - intros pl1 rc _. destruct (find_peer pl1 id); [apply IH|]. destruct (match pl_peers pl with [] => _ | _ => _ end); [apply keeps_ok; [apply same_refl|apply no_nil]|apply IH].
Qed.
Lemma refill_keeps port R pl : keeps false pl (refill port R pl).
Proof.
  assert (K : forall pl rc, keeps false pl (Ok (pl, [], rc))) by (intros; apply keeps_ok; [apply same_refl|apply no_nil]).
  assert (B : forall X (o : outcome X) f pl, (forall x, keeps false pl (f x)) -> keeps false pl (obind o f)) by (intros X o f q H; destruct o; cbn [obind]; [apply H|intros ? ? ?; discriminate..]).
  unfold refill. destruct (_ <=? _); [apply K|]. apply B. intros [am o]. cbv zeta. destruct o as [j|]; [|eapply keeps_am; apply K].
  destruct (nth_error _ j) as [e|]; [|intros ? ? ?; discriminate]. destruct (_ && _); [apply B; intros [am' b]; eapply keeps_am; eapply keeps_am; apply K|].
  destruct (negb _); [eapply keeps_am; apply K|]. apply B. intros [am' b]. destruct (is_onion _); [intros ? ? ?; discriminate|].
  destruct (negb _); [eapply keeps_am; eapply keeps_am; apply K|]. unfold push. destruct (existsb _ _); [intros ? ? ?; discriminate|].
  apply keeps_ok; [split; reflexivity|apply no_nil].
Qed.
(** C70. All are asked for headers when ten minutes passed since the last block and five since
    they were asked last, and then the time is noted; otherwise nobody is asked. *)
Theorem headers_asked_when_due : forall port now synced nonce s s2 R pl pl' es rc,
  timer port now synced nonce s s2 R pl = Ok (pl', es, rc) ->
  pl_block_time pl' = pl_block_time pl /\
  (pl_block_time pl <> 0 /\ pl_block_time pl + 600 < now /\ (pl_getheaders pl = 0 \/ pl_getheaders pl + 300 < now) ->
     pl_getheaders pl' = now) /\
  (~ (pl_block_time pl <> 0 /\ pl_block_time pl + 600 < now /\ (pl_getheaders pl = 0 \/ pl_getheaders pl + 300 < now)) ->
     pl_getheaders pl' = pl_getheaders pl /\ forall i, ~ In (Wrote i MGetheaders) es).
Proof.
  intros port now synced nonce s s2 R pl pl' es rc E. unfold timer in E.
  pose proof (timer_peers_keep now synced nonce s (map p_id (pl_peers pl)) pl) as K1.
  destruct (timer_peers now synced nonce s pl (map p_id (pl_peers pl))) as [[[pl1 e1] r1]| | |]; try discriminate E. unfold rbind at 1 in E. cbn [obind] in E.
  destruct (K1 pl1 e1 r1 eq_refl) as [[S1 S2] N1]. specialize (N1 eq_refl).
  rewrite <- S1, <- S2 in *. set (due := negb (pl_block_time pl1 =? 0) && (pl_block_time pl1 + 600 <? now) && ((pl_getheaders pl1 =? 0) || (pl_getheaders pl1 + 300 <? now))) in *.
  assert (D : due = true <-> pl_block_time pl1 <> 0 /\ pl_block_time pl1 + 600 < now /\ (pl_getheaders pl1 = 0 \/ pl_getheaders pl1 + 300 < now)).
  { unfold due. rewrite !andb_true_iff, orb_true_iff, negb_true_iff. lia. }
  destruct due eqn:Du.
  - pose proof (getheaders_keep now s2 (map p_id (pl_peers pl1)) pl1) as K2.
    destruct (getheaders_all now s2 pl1 (map p_id (pl_peers pl1))) as [[[pl2 e2] r2]| | |]; try discriminate E. destruct (K2 _ _ _ eq_refl) as [[T1 T2] _].
    unfold rbind in E. cbn [obind] in E.
    match type of E with context [refill port R ?q] => pose proof (refill_keeps port R q) as K3; destruct (refill port R q) as [[[pl3 e3] r3]| | |]; try discriminate E end.
    destruct (K3 _ _ _ eq_refl) as [[U1 U2] _]. cbn [obind] in E. injection E as <- <- <-. cbn [pl_block_time pl_getheaders] in U1, U2.
    split; [congruence|]. split; [intros _; exact U2|]. intros X. exfalso. apply X. apply D. reflexivity.
  - unfold rbind in E. cbn [obind] in E. pose proof (refill_keeps port R pl1) as K3. destruct (refill port R pl1) as [[[pl3 e3] r3]| | |]; try discriminate E.
    destruct (K3 _ _ _ eq_refl) as [[U1 U2] N3]. specialize (N3 eq_refl). cbn [obind] in E. injection E as <- <- <-.
    split; [congruence|]. split; [intros X; apply D in X; discriminate X|]. intros _. split; [congruence|].
    intros i I. rewrite app_nil_r in I. cbn [app] in I. apply in_app_or in I. destruct I as [I|I]; [exact (N1 i I)|exact (N3 i I)].
Qed.
Print Assumptions headers_asked_when_due.

(* ---------- concrete cases ---------- *)
Definition some_peer (i proofs : Z) (st : pstate) : peer :=
  {| p_id := i; p_addr := addr_init; p_brontide := false; p_state := st; p_names := []; p_proofs := proofs; p_clocks := set_conn 4990 zero_clocks |}.
Definition some_pool (bt gh : Z) : pool :=
  {| pl_peers := [some_peer 1 4 Handshake; some_peer 2 3 Connecting; some_peer 3 9 Handshake; some_peer 4 8 Handshake]; pl_size := 4; pl_addrs := [addr_init; addr_init; addr_init; addr_init];
     pl_max := 4; pl_next := 5; pl_pending := []; pl_block_time := bt; pl_getheaders := gh; pl_am := {| am_slots := []; am_map := []; am_bans := [] |} |}.
Example ex_best : let rnd := fun i => match i with 3%nat => 10 | _ => 1 end in
  pick_prover rnd (some_pool 0 0) [7] = Some (some_peer 3 9 Handshake) /\ connected (some_pool 0 0) <> [] /\
  pick_prover (fun _ => 1) (some_pool 0 0) [7] = Some (some_peer 3 9 Handshake) /\ pick_prover (fun _ => 1) (some_pool 0 0) [8] = Some (some_peer 4 8 Handshake).
Proof. cbv zeta. split; [reflexivity|]. split; [discriminate|]. split; reflexivity. Qed.
Example ex_due : forall R, exists pl es,
  timer 12038 5000 true (fun i => i) (fun _ => Sent) (fun _ => Sent) R (some_pool 4000 4600) = Ok (pl, es, 0) /\ pl_getheaders pl = 5000 /\ In (Wrote 4 MGetheaders) es /\
  exists pl' es', timer 12038 5001 true (fun i => i) (fun _ => Sent) (fun _ => Sent) R pl = Ok (pl', es', 0) /\ pl_getheaders pl' = 5000.
Proof. intros R. eexists _, _. split; [vm_compute; reflexivity|]. split; [reflexivity|]. split; [vm_compute; tauto|]. eexists _, _. split; [vm_compute; reflexivity|reflexivity]. Qed.
