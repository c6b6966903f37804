(** The pool: concrete runs, and what does not hold. *)
From Coq Require Import Permutation.
From Verif Require Import Common CommonFacts ProofFacts AddrModel AddrTheorems AddrmanModel AddrmanFacts AddrmanTheorems AddrmanPick PoolModel PoolFacts PoolTheorems PoolRun PoolTimer.

Definition told (k : Z) : netaddr := {| na_time := 1600000000; na_services := 1; na_addr := nth_addr k |}.
Definition two : addrman := {| am_slots := [fresh (told 1); fresh (told 2)]; am_map := [0%nat; 1%nat]; am_bans := [] |}.
Lemma two_ok : am_ok two /\ attempts_upto 0 two.
Proof.
  split.
  - constructor.
    + vm_compute. discriminate.
    + reflexivity.
    + intros [|[|[|i]]] [|[|[|j]]] e f E F S; try discriminate; try reflexivity; injection E as <-; injection F as <-; exfalso; destruct S as (_ & S & _); vm_compute in S; discriminate S.
    + repeat constructor; try (vm_compute; discriminate); cbn [two am_slots fresh e_addr na_addr]; apply (wf_zero _ 12038); lia.
  - intros e [<-|[<-|[]]]; vm_compute; discriminate.
Qed.
Definition rf (r now : Z) : refilling := {| rf_rnd := fun _ => r; rf_clock := fun _ => now; rf_now := now; rf_key := true; rf_alloc := true; rf_open := 0; rf_map := true |}.
Definition tick (r now : Z) : pop := OTimer 12038 now true (fun i => i + 77) (fun _ => Sent) (fun _ => Sent) (rf r now).
Definition look (id : Z) (hash root : list Z) (rnd : nat -> Z) (now : Z) : pop := OResolve true root hash [] id now true true rnd.
Definition peers_seen (pl : pool) := map (fun p => (p_id p, p_state p, p_proofs p, map rq_id (reqs_of p))) (pl_peers pl).
Definition seen (o : outcome (pool * list ev * list Z)) := match o with Ok (pl, es, acc) => Some (peers_seen pl, map rq_id (pl_pending pl), es, acc) | _ => None end.
(** The events and states of a run of two peers, three lookups, a proof and a time out: every
    hypothesis of the theorems on runs is met. *)
Definition day : list pop :=
  [tick 1 1600000100; tick 0 1600000101; OConnect 0 0 0 0 Sent 1600000102; look 5 [3] [9] (fun _ => 1) 1600000103; look 6 [3] [9] (fun _ => 1) 1600000104;
   OProof 1600000104 0 [3] [9] (0, true, [1; 2]); look 7 [4] [9] (fun _ => 1) 1600000104; tick 0 1600000109; tick 0 1600000110].
Example day_ok : Forall pop_ok day /\ ticks day < 2147483647.
Proof. split; [repeat constructor|reflexivity]. Qed.
Example day_runs : seen (prun (pool_init two) day) =
  Some ([(1, Connecting, 0, [])], [],
    [Wrote 0 MVersion; Wrote 0 (MGetproof [3] [9]); Called 6 [] 0 true [1; 2]; Called 5 [] 0 true [1; 2]; Wrote 0 (MGetproof [4] [9]); Wrote 0 (MPing 77); Called 7 [] 2 false []], [5; 6; 7]).
Proof. vm_compute. reflexivity. Qed.
(** Any state of a run *)
Lemma reached ops : Forall pop_ok ops -> ticks ops < 2147483647 -> forall pl es acc, prun (pool_init two) ops = Ok (pl, es, acc) -> pool_ok (ticks ops) pl.
Proof.
  intros F L pl es acc E. destruct two_ok as [K A]. destruct (run_keeps ops ops 0 (pool_init two) (incl_refl _) F (init_ok two K A) ltac:(lia)) as (pl' & es' & acc' & E' & K' & _); [intros r []|].
  rewrite E in E'. injection E' as <- <- <-. exact K'.
Qed.

(* ---------- what does not hold ---------- *)
(** C41. The end once does not hold when writing the request of the proof fails: the lookup
    fails and its callback is called too. *)
Theorem failed_lookup_not_called_refuted : exists ops pl es acc pl' rnd now hash root, Forall pop_ok ops /\ prun (pool_init two) ops = Ok (pl, es, acc) /\
  resolve true root hash [] 5 now true true rnd Broken pl = Ok (pl', [Called 5 [] 2 false []], 3).
Proof.
  exists [tick 1 1600000100; OConnect 0 0 0 0 Sent 1600000102]. eexists _, _, _, _, (fun _ => 1), 1600000103, [3], [9]. split; [repeat constructor|]. split; [vm_compute; reflexivity|vm_compute; reflexivity].
Qed.
(** C41. A lookup may be given to a peer that is not connected, although another is: nothing is
    written, and no timer ends it. *)
Theorem lookup_on_connected_peer_refuted : exists ops rnd, Forall pop_ok ops /\
  seen (prun (pool_init two) ops) = Some ([(0, Connecting, 0, []); (1, Handshake, 0, [])], [], [Wrote 1 MVersion], []) /\
  seen (prun (pool_init two) (ops ++ [look 5 [3] [9] rnd 1600000103; tick 0 1600001000])) = Some ([(0, Connecting, 0, [5]); (1, Handshake, 0, [])], [], [Wrote 1 MVersion; Wrote 1 (MPing 78)], [5]).
Proof.
  exists [tick 1 1600000100; tick 0 1600000101; OConnect 1 0 0 0 Sent 1600000990; OVerack 1600000990 1], (fun n => if Nat.eqb n 2 then 0 else 1).
  split; [repeat constructor|]. split; vm_compute; reflexivity.
Qed.
(** C41. A lookup that is accepted while no peer is connected waits for ever: whatever happens
    it is not called back, and the end of the pool drops it. *)
Theorem pending_lookup_never_answered : forall n pl ops r, pool_ok n pl -> Forall pop_ok ops -> n + ticks ops < 2147483647 -> In r (pl_pending pl) ->
  exists pl' es acc, prun pl ops = Ok (pl', es, acc) /\ In r (pl_pending pl') /\ (NoDup (ids (under_way pl) ++ acc) -> ~ In (rq_id r) (called es)) /\
    exists pl'' es' rc, pool_uninit pl' = Ok (pl'', es', rc) /\ under_way pl'' = [] /\ (NoDup (ids (under_way pl) ++ acc) -> ~ In (rq_id r) (called es')).
Proof.
  intros n pl ops r K F L I.
  set (all := ops ++ map (fun q => OResolve true (rq_root q) (rq_hash q) (rq_name q) (rq_id q) 0 true true (fun _ => 0)) (under_way pl)).
  destruct (run_keeps all ops n pl) as (pl' & es & acc & E & K' & P & _ & (l & Q) & _); auto.
  { intros x X. apply in_or_app. left. exact X. }
  { intros q Iq. exists 0, true, true, (fun _ => 0). apply in_or_app. right. apply in_map_iff. exists q. auto. }
  assert (I' : In r (pl_pending pl')) by (rewrite Q; apply in_or_app; right; exact I).
  assert (U : In (rq_id r) (ids (under_way pl'))) by (unfold ids, under_way; apply in_map; apply in_or_app; right; exact I').
  assert (Disj : forall (a b : list Z) x, NoDup (a ++ b) -> In x a -> In x b -> False).
  { clear. induction a as [|y a IH]; intros b x ND Ia Ib; [destruct Ia|]. cbn in ND. apply NoDup_cons_iff in ND as [N ND]. destruct Ia as [->|Ia]; [apply N; apply in_or_app; right; exact Ib|exact (IH b x ND Ia Ib)]. }
  exists pl', es, acc. split; [exact E|]. split; [exact I'|]. split; [intros ND X; apply (Permutation_NoDup P) in ND; exact (Disj _ _ _ ND X U)|].
  destruct (close_all_keeps (fun _ _ _ _ => True) (fun _ => Logic.I) (n + ticks ops) (map p_id (pl_peers pl')) pl' K') as (p1 & e1 & r1 & E1 & K1 & P1 & _ & (l1 & Q1) & _).
  assert (Em : pl_peers p1 = []).
  { assert (G : forall ks pl0 a b c, pool_ok (n + ticks ops) pl0 -> close_all pl0 ks = Ok (a, b, c) -> forall p, In p (pl_peers a) -> In p (pl_peers pl0) /\ ~ In (p_id p) ks).
    { clear. induction ks as [|k ks IH]; intros pl0 a b c K0 X p Ip; cbn [close_all] in X; [injection X as <- <- <-; auto|]. unfold rbind in X. destruct (find_peer pl0 k) as [q|] eqn:Fq.
      - destruct (close_spec _ pl0 k q K0 Fq) as (x & Cx & Kx & Px & _). rewrite Cx in X. cbn [obind] in X. destruct (close_all x ks) as [[[a' b'] c']| | |] eqn:Y; cbn [obind] in X; try discriminate X. injection X as <- <- <-.
        destruct (IH x _ _ _ Kx Y p Ip) as [J1 J2]. rewrite Px in J1. apply filter_In in J1 as [J1 J3]. split; [exact J1|]. intros [->|J]; [rewrite Z.eqb_refl in J3; discriminate J3|contradiction].
      - unfold close in X. rewrite Fq in X. cbn [obind] in X. destruct (close_all pl0 ks) as [[[a' b'] c']| | |] eqn:Y; cbn [obind] in X; try discriminate X. injection X as <- <- <-.
        destruct (IH pl0 _ _ _ K0 Y p Ip) as [J1 J2]. split; [exact J1|]. intros [->|J]; [|contradiction]. rewrite (find_self _ _ _ K0 J1) in Fq. discriminate Fq. }
    destruct (pl_peers p1) as [|p ps] eqn:Ep; [reflexivity|]. exfalso. destruct (G _ _ _ _ _ K' E1 p) as [J1 J2]; [rewrite Ep; left; reflexivity|]. apply J2. apply in_map. exact J1. }
  unfold pool_uninit, rbind. rewrite E1. cbn [obind]. eexists _, _, _. split; [reflexivity|]. split; [unfold under_way; cbn [pl_peers pl_pending]; rewrite Em; reflexivity|].
  intros ND X. apply (Permutation_NoDup P) in ND. rewrite called_app in X. cbn [called flat_map] in X. rewrite app_nil_r in X.
  assert (ND2 : NoDup (ids (under_way pl'))) by (clear -ND; induction (called es) as [|y a IH]; [exact ND|cbn in ND; apply NoDup_cons_iff in ND as [_ ND]; auto]).
  cbn [ids map] in P1. rewrite app_nil_r in P1. apply (Permutation_NoDup P1) in ND2. apply (Disj _ _ _ ND2 X). unfold ids, under_way. apply in_map. apply in_or_app. right. rewrite Q1. apply in_or_app. right. exact I'.
Qed.
Example pending_reached : seen (prun (pool_init two) [look 5 [3] [9] (fun _ => 1) 1600000103; tick 1 1600000104; OConnect 0 0 0 0 Sent 1600000105; look 6 [3] [9] (fun _ => 1) 1600000106; OProof 1600000107 0 [3] [9] (0, true, [1])]) =
  Some ([(0, Handshake, 1, [])], [5], [Wrote 0 MVersion; Wrote 0 (MGetproof [3] [9]); Called 6 [] 0 true [1]], [5; 6]).
Proof. vm_compute. reflexivity. Qed.
(** C41. An honest proof is refused, and the peer closed, when the root of the chain changed
    between two lookups of the same name: the peer was asked for the first root only. *)
Theorem asked_proof_accepted_refuted : exists ops, Forall pop_ok ops /\
  seen (prun (pool_init two) ops) = Some ([(0, Handshake, 0, [6; 5])], [], [Wrote 0 MVersion; Wrote 0 (MGetproof [3] [9])], [5; 6]) /\
  seen (prun (pool_init two) (ops ++ [OProof 1600000105 0 [3] [9] (0, true, [1; 2])])) =
    Some ([], [], [Wrote 0 MVersion; Wrote 0 (MGetproof [3] [9]); Called 6 [] 2 false []; Called 5 [] 2 false []], [5; 6]).
Proof.
  exists [tick 1 1600000100; OConnect 0 0 0 0 Sent 1600000102; look 5 [3] [9] (fun _ => 1) 1600000103; look 6 [3] [8] (fun _ => 1) 1600000104].
  split; [repeat constructor|]. split; vm_compute; reflexivity.
Qed.
(** C69. Without memory for the map of the peers the end of the peer fails an assertion. *)
Theorem peer_removed_without_map_refuted : exists pl, prun (pool_init two) [OTimer 12038 1600000100 true (fun i => i) (fun _ => Sent) (fun _ => Sent)
    {| rf_rnd := fun _ => 1; rf_clock := fun _ => 1600000100; rf_now := 1600000100; rf_key := true; rf_alloc := true; rf_open := 0; rf_map := false |}] = Ok (pl, [], []) /\
  pl_size pl = 1 /\ close pl 0 = Abort.
Proof. eexists. split; [vm_compute; reflexivity|]. split; vm_compute; reflexivity. Qed.
(** C70. A peer whose handshake stalls is never closed by the timer, at any time. *)
Theorem half_open_peer_kept : forall n port now synced nonce s s2 R pl p, pool_ok n pl -> rf_map R = true -> n < 2147483647 -> (forall k, s2 k <> Broken) -> In p (pl_peers pl) -> p_state p <> Handshake ->
  exists pl' es rc p', timer port now synced nonce s s2 R pl = Ok (pl', es, rc) /\ In p' (pl_peers pl') /\ p_id p' = p_id p /\ p_names p' = p_names p /\ p_state p' = p_state p.
Proof.
  intros n port now synced nonce s s2 R pl p K Hm L NB I H. destruct (timer_keeps_the_rest n port now synced nonce s s2 R pl p K Hm L I NB) as (pl' & es & rc & E & [([X _] & _)|(_ & p' & I' & J)]); [contradiction|].
  exists pl', es, rc, p'. auto.
Qed.
(** C71. A pong ends the wait of a ping exactly when its nonce is that of the ping, or zero. *)
Theorem pong_ends_wait : forall now nonce c, c_challenge c <> 0 ->
  (c_challenge (pong_clocks now nonce c) = 0 <-> nonce = c_challenge c \/ nonce = 0) /\ (c_challenge (pong_clocks now nonce c) <> 0 -> pong_clocks now nonce c = c) /\
  (nonce = c_challenge c -> c_last_ping c <= now -> c_last_pong (pong_clocks now nonce c) = now /\
     c_min_ping (pong_clocks now nonce c) = if c_min_ping c =? 0 then now - c_last_ping c else Z.min (c_min_ping c) (now - c_last_ping c)).
Proof.
  intros now nonce c N. unfold pong_clocks. replace (c_challenge c =? 0) with false by lia. split; [|split].
  - destruct (Z.eqb_spec nonce (c_challenge c)) as [E|E]; cbn [negb]; [split; [auto|intros _; reflexivity]|]. destruct (Z.eqb_spec nonce 0); [split; [auto|reflexivity]|]. split; [contradiction|tauto].
  - destruct (negb _); [destruct (nonce =? 0); [intros X; exfalso; apply X; reflexivity|reflexivity]|]. intros X. exfalso. apply X. reflexivity.
  - intros -> L. rewrite Z.eqb_refl. cbn [negb]. replace (c_last_ping c <=? now) with true by lia. cbn [set_challenge set_pong c_last_pong c_min_ping]. split; [reflexivity|].
    destruct (Z.eqb_spec (c_min_ping c) 0); [rewrite Z.ltb_irrefl; reflexivity|]. destruct (Z.ltb_spec (c_min_ping c) (now - c_last_ping c)); lia.
Qed.
(** C71. When the chain stands still every connected peer is asked for headers, unless writing
    to the first fails: then the others are not asked. *)
Theorem all_asked_for_headers_refuted : exists ops pl es acc, Forall pop_ok ops /\ prun (pool_init two) ops = Ok (pl, es, acc) /\
  peers_seen pl = [(0, Handshake, 0, []); (1, Handshake, 0, [])] /\
  exists pl' es' rc, timer 12038 1600000800 true (fun i => i + 77) (fun _ => Sent) (fun k => if k =? 0 then Broken else Sent) (rf 0 1600000800) pl = Ok (pl', es', rc) /\
  ~ In (Wrote 1 MGetheaders) es' /\ peers_seen pl' = [(1, Handshake, 0, [])].
Proof.
  exists [tick 1 1600000100; tick 0 1600000101; OConnect 0 0 0 0 Sent 1600000102; OConnect 1 0 0 0 Sent 1600000102; OVerack 1600000103 0; OVerack 1600000103 1; OHeaders 1600000104 1 (BDone false) Sent].
  eexists _, _, _. split; [repeat constructor|]. split; [vm_compute; reflexivity|]. split; [vm_compute; reflexivity|]. eexists _, _, _. split; [vm_compute; reflexivity|]. split; [|vm_compute; reflexivity].
  intros I. repeat (destruct I as [I|I]; [discriminate I|]). exact I.
Qed.

Print Assumptions failed_lookup_not_called_refuted.
Print Assumptions lookup_on_connected_peer_refuted.
Print Assumptions pending_lookup_never_answered.
Print Assumptions asked_proof_accepted_refuted.
Print Assumptions peer_removed_without_map_refuted.
Print Assumptions half_open_peer_kept.
Print Assumptions pong_ends_wait.
Print Assumptions all_asked_for_headers_refuted.
