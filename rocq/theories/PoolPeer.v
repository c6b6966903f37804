(** The pool: what each message and each step of a connection does to a peer. *)
From Coq Require Import Permutation.
From Verif Require Import Common CommonFacts ProofFacts AddrModel AddrTheorems AddrmanModel AddrmanFacts AddrmanTheorems AddrmanPick PoolModel PoolFacts PoolTheorems PoolRun PoolTimer PoolExamples.

Lemma send_sent pl id p now m : find_peer pl id = Some p -> p_state p = Handshake -> send Sent now m pl id = Ok (upd_peer pl id (with_clocks (set_send now)), [Wrote id m], 0).
Proof. intros F S. unfold send. rewrite F, S. reflexivity. Qed.
Ltac self F := rewrite find_upd by reflexivity; rewrite Z.eqb_refl; rewrite F; reflexivity.
(** The state of the peer after, and that nothing else changed *)
Definition only (pl pl' : pool) (id : Z) (p' : peer) : Prop :=
  find_peer pl' id = Some p' /\ (forall k, k <> id -> find_peer pl' k = find_peer pl k) /\ pl_pending pl' = pl_pending pl /\ pl_size pl' = pl_size pl /\ pl_addrs pl' = pl_addrs pl.
Lemma only_upd pl id f p : (forall p, p_id (f p) = p_id p) -> find_peer pl id = Some p -> only pl (upd_peer pl id f) id (f p).
Proof. intros H F. split; [apply find_upd_self; auto|]. split; [intros k D; apply find_upd_other; auto|]. repeat split. Qed.
Lemma only_trans a b c id p q : only a b id p -> only b c id q -> only a c id q.
Proof. intros (A1 & A2 & A3 & A4 & A5) (B1 & B2 & B3 & B4 & B5). split; [exact B1|]. split; [intros k D; rewrite B2, A2 by exact D; reflexivity|]. repeat split; congruence. Qed.
Lemma only_state a b id p q : only a b id p -> p_state p = q -> exists p', find_peer b id = Some p' /\ p_state p' = q.
Proof. intros (A & _) S. exists p. auto. Qed.
Definition rest_same (p p' : peer) : Prop := p_id p' = p_id p /\ p_addr p' = p_addr p /\ p_brontide p' = p_brontide p /\ p_names p' = p_names p /\ p_proofs p' = p_proofs p.
Lemma msg_unfold now f pl id p : find_peer pl id = Some p -> p_state p = Handshake ->
  on_msg now f pl id = obind (checked (f (upd_peer pl id (with_clocks (set_recv now))) id) id) (fun '(pl, es, rc) => Ok (pl, es, rc)).
Proof. intros F S. unfold on_msg. rewrite F, S. reflexivity. Qed.
Lemma ok_done (r : res) : (exists a b c, r = Ok (a, b, c)) -> obind r (fun '(pl, es, rc) => Ok (pl, es, rc)) = r.
Proof. intros (a & b & c & ->). reflexivity. Qed.

(** C71. A version message is answered by a verack, then headers and addresses are asked for;
    the address is marked as one that answered. *)
Theorem version_answered : forall n now v pl id p, pool_ok n pl -> n < 2147483647 -> find_peer pl id = Some p -> p_state p = Handshake ->
  exists pl' p' am r, on_msg now (handle_version v Sent Sent Sent Sent now) pl id = Ok (pl', [Wrote id MVerack; Wrote id MSendheaders; Wrote id MGetaddr; Wrote id MGetheaders], 0) /\
    only pl pl' id p' /\ rest_same p p' /\ p_state p' = Handshake /\ c_getheaders (p_clocks p') = now /\ c_send (p_clocks p') = now /\ c_recv (p_clocks p') = now /\ c_version (p_clocks p') = c_version (p_clocks p) /\
    mark_ack now (pl_am pl) (p_addr p) v = Ok (am, r) /\ pl_am pl' = am.
Proof.
  intros n now v pl id p K L F S. rewrite (msg_unfold now _ pl id p F S). set (p1 := with_clocks (set_recv now) p). set (pl1 := upd_peer pl id (with_clocks (set_recv now))).
  pose proof (pk_n _ _ K) as N0. destruct (mark_run (Acked v) now (pl_am pl) (p_addr p) n (pk_am _ _ K) (pk_att _ _ K)) as (am & r & E & _ & _); [lia|]. cbn [do_mark] in E.
  assert (O1 : only pl (set_am pl1 am) id p1) by (destruct (only_upd pl id (with_clocks (set_recv now)) p (fun _ => eq_refl) F) as (A & B & C & D & G); repeat split; auto).
  assert (F1 : find_peer pl1 id = Some p1) by (apply find_upd_self; auto). unfold handle_version, checked. rewrite F1. change (pl_am pl1) with (pl_am pl). change (p_addr p1) with (p_addr p). rewrite E. cbn [obind].
  set (g := with_clocks (set_send now)). set (pl2 := set_am pl1 am) in *.
  assert (St : forall pl0 q, find_peer pl0 id = Some q -> p_state q = Handshake -> only pl0 (upd_peer pl0 id g) id (g q)) by (intros pl0 q Fq _; apply only_upd; auto).
  assert (O2 := St pl2 p1 (proj1 O1) S). assert (O3 := St _ (g p1) (proj1 O2) S). assert (O4 := St _ (g (g p1)) (proj1 O3) S).
  assert (O5 := only_upd _ id (with_clocks (set_getheaders now)) _ (fun _ => eq_refl) (proj1 O4)). assert (O6 := St _ _ (proj1 O5) S).
  unfold rbind, send_getheaders. rewrite (send_sent pl2 id p1 now _ (proj1 O1) S). cbn [obind]. rewrite (send_sent _ id _ now _ (proj1 O2) S). cbn [obind]. change (0 =? 0) with true. cbn [negb].
  rewrite (send_sent _ id _ now _ (proj1 O3) S). cbn [obind]. change (0 =? 0) with true. cbn [negb]. rewrite (send_sent _ id _ now _ (proj1 O5) S). cbn [obind app]. change (0 =? 0) with true. cbn [negb obind app].
  eexists _, _, am, r. split; [reflexivity|]. split; [eapply only_trans; [exact O1|]; eapply only_trans; [exact O2|]; eapply only_trans; [exact O3|]; eapply only_trans; [exact O4|]; eapply only_trans; [exact O5|exact O6]|].
  split; [repeat split|]. split; [exact S|]. do 4 (split; [reflexivity|]). split; reflexivity.
Qed.
(** C71. A verack ends the wait for it; a ping is answered by a pong with its nonce; both change
    nothing else but the times of the last reading and writing. *)
Theorem verack_and_ping_answered : forall now nonce pl id p, find_peer pl id = Some p -> p_state p = Handshake ->
  (exists pl', on_msg now handle_verack pl id = Ok (pl', [], 0) /\ only pl pl' id (with_clocks (set_version 0) (with_clocks (set_recv now) p)) /\ pl_am pl' = pl_am pl) /\
  (exists pl', on_msg now (handle_ping Sent now nonce) pl id = Ok (pl', [Wrote id (MPong nonce)], 0) /\ only pl pl' id (with_clocks (set_send now) (with_clocks (set_recv now) p)) /\ pl_am pl' = pl_am pl).
Proof.
  intros now nonce pl id p F S. assert (O1 := only_upd pl id (with_clocks (set_recv now)) p (fun _ => eq_refl) F). split; rewrite (msg_unfold now _ pl id p F S); unfold checked, rbind.
  - unfold handle_verack. cbn [obind]. change (0 =? 0) with true. cbn [obind app]. eexists. split; [reflexivity|]. split; [|reflexivity]. eapply only_trans; [exact O1|]. apply only_upd; [reflexivity|apply O1].
  - unfold handle_ping. rewrite (send_sent _ id _ now _ (proj1 O1) S). cbn [obind]. change (0 =? 0) with true. cbn [obind app]. eexists. split; [reflexivity|]. split; [|reflexivity]. eapply only_trans; [exact O1|]. apply only_upd; [reflexivity|apply O1].
Qed.
(** C71. Headers: a peer is banned and closed for bad ones; others that fail close it; orphans
    and a full message make the client ask for more; good ones end the wait for headers and are
    noted as progress. *)
Theorem headers_outcomes : forall n now pl id p, pool_ok n pl -> find_peer pl id = Some p -> p_state p = Handshake ->
  (forall rc, rc <> 0 -> exists pl', on_msg now (peer_headers (BFail rc) Sent now) pl id = Ok (pl', closed_event p, 0) /\ find_peer pl' id = None /\ pl_am pl' = pl_am pl) /\
  (forall rc, rc <> 0 -> exists pl', on_msg now (peer_headers (BBan true rc) Sent now) pl id = Ok (pl', closed_event p, 0) /\ find_peer pl' id = None /\ ban_find (am_bans (pl_am pl')) (p_addr p) = Some now /\ am_slots (pl_am pl') = am_slots (pl_am pl)) /\
  (exists pl' p', on_msg now (peer_headers BOrphan Sent now) pl id = Ok (pl', [Wrote id MGetheaders], 0) /\ only pl pl' id p' /\ rest_same p p' /\ c_getheaders (p_clocks p') = now /\ pl_block_time pl' = pl_block_time pl) /\
  (exists pl' p', on_msg now (peer_headers (BDone true) Sent now) pl id = Ok (pl', [Wrote id MGetheaders], 0) /\ only pl pl' id p' /\ rest_same p p' /\ c_getheaders (p_clocks p') = now /\ pl_block_time pl' = now) /\
  (exists pl' p', on_msg now (peer_headers (BDone false) Sent now) pl id = Ok (pl', [], 0) /\ only pl pl' id p' /\ rest_same p p' /\ c_getheaders (p_clocks p') = 0 /\ pl_block_time pl' = now).
Proof.
  intros n now pl id p K F S. assert (O1 := only_upd pl id (with_clocks (set_recv now)) p (fun _ => eq_refl) F). set (pl1 := upd_peer pl id (with_clocks (set_recv now))) in *. set (p1 := with_clocks (set_recv now) p) in *.
  destruct (quiet (fun _ _ _ _ => True) n pl id (with_clocks (set_recv now)) 0 K) as (K1 & _ & _); [intros q; repeat split|]. fold pl1 in K1. assert (F1 := proj1 O1).
  rewrite !(msg_unfold now _ pl id p F S). fold pl1. unfold checked, rbind. repeat split.
  - intros rc N. rewrite (msg_unfold now _ pl id p F S). fold pl1. unfold checked, rbind. cbn [peer_headers obind]. replace (rc =? 0) with false by lia. destruct (close_spec n pl1 id p1 K1 F1) as (x & C & _ & _ & _ & _ & A & Fn). rewrite C. cbn [obind app]. exists x. split; [reflexivity|]. split; [exact Fn|exact A].
  - intros rc N. rewrite (msg_unfold now _ pl id p F S). fold pl1. unfold checked, rbind. cbn [peer_headers]. rewrite F1. change (p_addr p1) with (p_addr p). change (pl_am pl1) with (pl_am pl).
    destruct (ban_slots true now (pl_am pl) (p_addr p)) as [A B].
    assert (Bn : snd (add_ban true now (pl_am pl) (p_addr p)) = true /\ ban_find (am_bans (fst (add_ban true now (pl_am pl) (p_addr p)))) (p_addr p) = Some now).
    { clear. assert (G : forall l a t, ban_find (ban_put l a t) a = Some t).
      { induction l as [|[b u] l IH]; intros a t; cbn; [replace (addr_equal a a) with true by (symmetry; apply eq_same; apply same_refl); reflexivity|]. destruct (addr_equal b a) eqn:E; cbn; rewrite ?E; auto. }
      unfold add_ban. destruct (ban_find _ _); cbn; split; auto; apply G. }
    destruct (add_ban true now (pl_am pl) (p_addr p)) as [am ok]. cbn [fst snd] in *. destruct Bn as [-> Bn]. cbn [obind]. replace (rc =? 0) with false by lia.
    assert (K2 : pool_ok n (set_am pl1 am)).
    { apply (set_am_ok n n); auto; [apply (same_table_ok (pl_am pl)); auto; apply (pk_am _ _ K)| |apply (pk_n _ _ K)]. intros e I. rewrite A in I. apply (pk_att _ _ K e I). }
    destruct (close_spec n (set_am pl1 am) id p1 K2 F1) as (x & C & _ & _ & _ & _ & Am & Fn). rewrite C. cbn [obind app]. exists x. split; [reflexivity|]. split; [exact Fn|]. rewrite Am. split; [exact Bn|exact A].
  - cbn [peer_headers]. unfold send_getheaders. assert (O2 := only_upd pl1 id (with_clocks (set_getheaders now)) p1 (fun _ => eq_refl) F1). unfold rbind. rewrite (send_sent _ id _ now _ (proj1 O2) S). cbn [obind]. change (0 =? 0) with true. cbn [obind app].
    eexists _, _. split; [reflexivity|]. split; [eapply only_trans; [exact O1|]; eapply only_trans; [exact O2|apply only_upd; [reflexivity|apply O2]]|]. repeat split.
  - cbn [peer_headers]. unfold send_getheaders. set (pl2 := set_block_time pl1 now). assert (O2 := only_upd pl2 id (with_clocks (set_getheaders 0)) p1 (fun _ => eq_refl) F1). assert (O3 := only_upd _ id (with_clocks (set_getheaders now)) _ (fun _ => eq_refl) (proj1 O2)).
    rewrite (send_sent _ id _ now _ (proj1 O3) S). cbn [obind]. change (0 =? 0) with true. cbn [obind app].
    eexists _, _. split; [reflexivity|]. split; [eapply only_trans; [exact O1|]; eapply only_trans; [exact O2|]; eapply only_trans; [exact O3|apply only_upd; [reflexivity|apply O3]]|]. repeat split.
  - cbn [peer_headers obind]. change (0 =? 0) with true. cbn [obind app]. set (pl2 := set_block_time pl1 now). assert (O2 := only_upd pl2 id (with_clocks (set_getheaders 0)) p1 (fun _ => eq_refl) F1).
    eexists _, _. split; [reflexivity|]. split; [eapply only_trans; [exact O1|exact O2]|]. repeat split.
Qed.
(** C72. A connection: one that fails closes the peer; one to an address without a key sends
    the version at once; one with a key waits for the handshake, and sends it after. *)
Theorem connection_steps : forall n now pl id p, pool_ok n pl -> n < 2147483647 -> find_peer pl id = Some p ->
  (p_state p = Connecting -> forall status rs bc s, (status <> 0 \/ rs <> 0) \/ (p_brontide p = true /\ bc <> 0) -> exists pl', on_connect status rs bc s now pl id = Ok (pl', closed_event p, 0) /\ find_peer pl' id = None) /\
  (p_state p = Connecting -> p_brontide p = false -> forall bc, exists pl' p', on_connect 0 0 bc Sent now pl id = Ok (pl', [Wrote id MVersion], 0) /\ only pl pl' id p' /\ rest_same p p' /\ p_state p' = Handshake /\
     c_conn (p_clocks p') = now /\ c_version (p_clocks p') = now /\ c_send (p_clocks p') = now) /\
  (p_state p = Connecting -> p_brontide p = true -> forall s, exists pl' p', on_connect 0 0 0 s now pl id = Ok (pl', [], 0) /\ only pl pl' id p' /\ rest_same p p' /\ p_state p' = Reading /\ c_conn (p_clocks p') = now) /\
  (p_state p = Reading -> exists pl' p' r, on_brontide Sent now pl id = Ok (pl', [Wrote id MVersion], 0) /\ only pl pl' id p' /\ rest_same p p' /\ p_state p' = Handshake /\ c_version (p_clocks p') = now /\
     mark_success now (pl_am pl) (p_addr p) = Ok (pl_am pl', r)) /\
  (p_state p <> Connecting -> forall status rs bc s, on_connect status rs bc s now pl id = Ok (pl, [], 0)) /\ (p_state p <> Reading -> forall s, on_brontide s now pl id = Ok (pl, [], 0)).
Proof.
  intros n now pl id p K L F. unfold on_connect, on_brontide. rewrite F.
  set (g := fun p0 => with_clocks (set_conn now) (with_state Reading p0)). assert (O1 := only_upd pl id g p (fun _ => eq_refl) F).
  destruct (quiet (fun _ _ _ _ => True) n pl id g 0 K) as (K1 & _ & _); [intros q; repeat split|]. set (pl1 := upd_peer pl id g) in *.
  split; [|split; [|split; [|split; [|split]]]].
  - intros -> status rs bc s H. cbn [pstate_eqb negb]. destruct (Z.eqb_spec status 0); cbn [negb].
    2:{ destruct (close_spec n pl id p K F) as (x & C & _ & _ & _ & _ & _ & Fn). exists x. auto. }
    destruct (Z.eqb_spec rs 0); cbn [negb].
    2:{ destruct (close_spec n pl id p K F) as (x & C & _ & _ & _ & _ & _ & Fn). exists x. auto. }
    destruct H as [[H|H]|[Hb H]]; try contradiction. rewrite Hb. replace (bc =? 0) with false by lia. cbn [negb].
    destruct (close_spec n pl1 id (g p) K1 (proj1 O1)) as (x & C & _ & _ & _ & _ & _ & Fn). exists x. auto.
  - intros -> -> bc. cbn [pstate_eqb negb]. change (0 =? 0) with true. cbn [negb]. assert (O2 := only_upd pl1 id (with_state Handshake) (g p) (fun _ => eq_refl) (proj1 O1)). unfold send_version.
    assert (O3 := only_upd _ id (with_clocks (set_version now)) _ (fun _ => eq_refl) (proj1 O2)). rewrite (send_sent _ id _ now _ (proj1 O3) eq_refl). eexists _, _. split; [reflexivity|].
    split; [eapply only_trans; [exact O1|]; eapply only_trans; [exact O2|]; eapply only_trans; [exact O3|apply only_upd; [reflexivity|apply O3]]|]. repeat split.
  - intros -> -> s. cbn [pstate_eqb negb]. change (0 =? 0) with true. cbn [negb]. eexists _, _. split; [reflexivity|]. split; [exact O1|]. repeat split.
  - intros ->. cbn [pstate_eqb negb]. pose proof (pk_n _ _ K) as N0. destruct (mark_run Succeeded now (pl_am pl) (p_addr p) n (pk_am _ _ K) (pk_att _ _ K)) as (am & r & E & _ & _); [lia|]. cbn [do_mark] in E. rewrite E. cbn [obind].
    assert (Fa : find_peer (set_am pl am) id = Some p) by exact F. assert (O2 := only_upd (set_am pl am) id (with_state Handshake) p (fun _ => eq_refl) Fa). unfold send_version.
    assert (O3 := only_upd _ id (with_clocks (set_version now)) _ (fun _ => eq_refl) (proj1 O2)). rewrite (send_sent _ id _ now _ (proj1 O3) eq_refl). eexists _, (with_clocks (set_send now) (with_clocks (set_version now) (with_state Handshake p))), r. split; [reflexivity|].
    split; [|repeat split]. assert (O : only (set_am pl am) (upd_peer (upd_peer (upd_peer (set_am pl am) id (with_state Handshake)) id (with_clocks (set_version now))) id (with_clocks (set_send now))) id (with_clocks (set_send now) (with_clocks (set_version now) (with_state Handshake p)))) by (eapply only_trans; [exact O2|]; eapply only_trans; [exact O3|apply only_upd; [reflexivity|apply O3]]).
    destruct O as (A & B & C & D & G). repeat split; auto.
  - intros N status rs bc s. destruct (p_state p); [contradiction| |]; reflexivity.
  - intros N s. destruct (p_state p); [|contradiction|]; reflexivity.
Qed.
(** C50. A new peer is dialled only while there are fewer than the most; its address is one of
    the table that no peer has, valid, of full service, not removed, no onion; the attempt is
    counted; and an address whose key is bad is removed instead. *)
Theorem dialled_peer_eligible : forall n port R pl, pool_ok n pl -> rf_map R = true -> n < 2147483647 ->
  exists pl' es rc, refill port R pl = Ok (pl', es, rc) /\ es = [] /\ (pl_max pl <= pl_size pl -> pl' = pl) /\
  (pl_peers pl' = pl_peers pl \/
   (pl_size pl < pl_max pl /\ exists p e, pl_peers pl' = pl_peers pl ++ [p] /\ p_id p = pl_next pl /\ p_state p = Connecting /\ p_names p = [] /\ p_proofs p = 0 /\
     In e (am_slots (pl_am pl)) /\ candidate (map p_addr (pl_peers pl)) e /\ p_addr p = e_addr e /\ p_brontide p = has_key (p_addr p) /\ (p_brontide p = true -> rf_key R = true) /\
     rf_open R = 0 /\ exists am r, am_slots am = am_slots (pl_am pl) /\ mark_attempt (rf_now R) am (p_addr p) = Ok (pl_am pl', r))).
Proof.
  intros n port R pl K Hm L. destruct (refill_keeps (fun _ _ _ _ => True) n port R pl K Hm L) as (pl' & es & rc & E & K' & _). exists pl', es, rc. split; [exact E|].
  unfold refill in E. destruct (Z.leb_spec (pl_max pl) (pl_size pl)) as [G|G]; [injection E as <- <- <-; split; [reflexivity|]; split; [auto|left; reflexivity]|].
  destruct (picked_address_eligible port (rf_rnd R) (rf_clock R) (rf_now R) (pl_am pl) (pl_addrs pl) (pk_am _ _ K)) as (am & o & Ep & Ka & Sl & C). rewrite Ep in E. cbn [obind] in E.
  assert (Cd : forall e, candidate (pl_addrs pl) e -> candidate (map p_addr (pl_peers pl)) e).
  { intros e [A B D X Y]. constructor; auto. intros a I. apply B. apply (Permutation_in _ (Permutation_sym (pk_addrs _ _ K))). exact I. }
  assert (Nf : pl_max pl <= pl_size pl -> pl' = pl) by lia.
  destruct o as [j|]; [|injection E as <- <- <-; auto]. destruct (C j eq_refl) as (e & N & Ce). rewrite Sl, N in E. destruct (has_key (e_addr e) && negb (rf_key R)) eqn:Hk.
  { destruct (remove_addr am (e_addr e)) as [[am' x]| | |]; cbn [obind] in E; try discriminate E. injection E as <- <- <-. auto. }
  destruct (rf_alloc R); cbn [negb] in E; [|injection E as <- <- <-; auto]. destruct (mark_attempt (rf_now R) am (e_addr e)) as [[am' x]| | |] eqn:Ma; cbn [obind] in E; try discriminate E.
  destruct (is_onion (e_addr e)); [discriminate E|]. destruct (Z.eqb_spec (rf_open R) 0) as [Ro|Ro]; cbn [negb] in E; [|injection E as <- <- <-; auto].
  unfold push in E. destruct (existsb _ _); [discriminate E|]. injection E as <- <- <-. split; [reflexivity|]. split; [exact Nf|]. right. split; [exact G|].
  eexists _, e. split; [reflexivity|]. cbn [p_id p_state p_names p_proofs p_addr p_brontide set_am pl_next pl_am]. do 4 (split; [reflexivity|]). split; [eapply nth_error_In; eauto|]. split; [auto|]. split; [reflexivity|]. split; [reflexivity|].
  split; [intros X; rewrite X in Hk; cbn [andb] in Hk; destruct (rf_key R); [reflexivity|discriminate Hk]|]. split; [exact Ro|]. exists am, x. split; [exact Sl|exact Ma].
Qed.
(** C72. Nothing a peer says is heard before it is connected, or after it is closed. *)
Theorem unconnected_peer_not_heard : forall now f pl id, (forall p, find_peer pl id = Some p -> p_state p <> Handshake) -> on_msg now f pl id = Ok (pl, [], 0).
Proof.
  intros now f pl id H. unfold on_msg. destruct (find_peer pl id) as [p|]; [|reflexivity]. specialize (H p eq_refl). destruct (p_state p); [reflexivity|reflexivity|contradiction].
Qed.
Example steps_met : exists pl es acc p q, prun (pool_init two) [tick 1 1600000100; tick 0 1600000101; OConnect 0 0 0 0 Sent 1600000102] = Ok (pl, es, acc) /\
  find_peer pl 0 = Some p /\ p_state p = Handshake /\ find_peer pl 1 = Some q /\ p_state q = Connecting /\ p_brontide q = false /\ pl_size pl < pl_max pl.
Proof. eexists _, _, _, _, _. split; [vm_compute; reflexivity|]. repeat split; vm_compute; reflexivity. Qed.

Print Assumptions version_answered.
Print Assumptions verack_and_ping_answered.
Print Assumptions headers_outcomes.
Print Assumptions connection_steps.
Print Assumptions dialled_peer_eligible.
Print Assumptions unconnected_peer_not_heard.
