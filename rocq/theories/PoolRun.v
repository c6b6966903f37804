(** The pool: every sequence of events. *)
From Coq Require Import Permutation.
From Verif Require Import Common CommonFacts ProofFacts MapModel AddrModel AddrTheorems AddrmanModel AddrmanFacts AddrmanTheorems AddrmanPick PoolModel PoolFacts PoolTheorems.

(* ---------- the operations keep the invariant ---------- *)
Ltac same_peer := intros q; repeat split.
Section Run.
Variable Ans : req -> Z -> bool -> list Z -> Prop.
Hypothesis HA : forall r, Ans r e_timeout false [].
Local Notation keeps := (keeps Ans).
Lemma resolve_keeps n synced root hash name id now mem mem2 rnd pl : pool_ok n pl ->
  exists new, keeps n n pl new (resolve synced root hash name id now mem mem2 rnd Sent pl) /\
    forall pl' es rc, resolve synced root hash name id now mem mem2 rnd Sent pl = Ok (pl', es, rc) -> (rc = 0 /\ exists t, new = [request id name hash root t]) \/ (rc <> 0 /\ new = []).
Proof.
  intros K. destruct (resolve_exact n synced root hash name id now mem mem2 rnd pl K) as (pl' & es & rc & E & K' & M & C & H).
  assert (A : answers Ans pl es).
  { intros i nm st ex d I. exfalso. assert (X : In i (called es)) by (unfold called; apply in_flat_map; eexists; split; [exact I|left; reflexivity]). rewrite C in X. exact X. }
  assert (G : forall new, Permutation (under_way pl ++ new) (under_way pl') -> (exists l, pl_pending pl' = l ++ pl_pending pl) -> keeps n n pl new (Ok (pl', es, rc))).
  { intros new P Q. exists pl', es, rc. split; [reflexivity|]. split; [exact K'|]. split; [rewrite C; cbn [app]; unfold ids; rewrite <- map_app; apply Permutation_map; exact P|].
    split; [exact M|]. split; [exact Q|]. split; [|exact A]. intros x X. apply (Permutation_in _ (Permutation_sym P)). exact X. }
  rewrite E. destruct H as [(_ & -> & -> & _)|[(_ & -> & -> & _)|(_ & _ & -> & (t & P) & H)]].
  - exists []. split; [apply G; [rewrite app_nil_r; reflexivity|exists []; reflexivity]|]. intros a b c X. injection X as <- <- <-. right. split; [lia|reflexivity].
  - exists []. split; [apply G; [rewrite app_nil_r; reflexivity|exists []; reflexivity]|]. intros a b c X. injection X as <- <- <-. right. split; [lia|reflexivity].
  - eexists. split; [apply G; [exact P|]|]; [destruct H as [(_ & _ & _ & ->)|(p & p' & _ & _ & -> & _)]; [eexists [_]; reflexivity|exists []; reflexivity]|].
    intros a b c X. injection X as <- <- <-. left. split; [reflexivity|]. exists t. reflexivity.
Qed.
Lemma proof_keeps n key root v pl id : pool_ok n pl ->
  (forall r h ex d, In r (under_way pl) -> In h (under_way pl) -> v = (0, ex, d) -> rq_hash r = key -> rq_hash h = key -> rq_root h = root -> Ans r 0 ex d) ->
  keeps n n pl [] (handle_proof key root v pl id).
Proof.
  intros K Good. destruct (find_peer pl id) as [p|] eqn:F; [|unfold handle_proof; rewrite F; apply keeps_ok; exact K].
  destruct (names_get (p_names p) key) as [[|h c]|] eqn:G; try (unfold handle_proof; rewrite F, G; apply keeps_ok; exact K).
  destruct (beq root (rq_root h)) eqn:B; [|unfold handle_proof; rewrite F, G, B; apply keeps_ok; exact K]. apply beq_true_iff in B. destruct v as [[rc ex] data].
  destruct (Z.eqb_spec rc 0) as [->|N].
  - destruct (proof_answers_all n pl id p key root ex data h c K F G B) as (pl' & p' & E & K' & _ & _ & _ & _ & _ & _ & Q & P). eexists pl', _, 0. split; [exact E|]. split; [exact K'|].
    unfold handle_proof in E. rewrite F, G, B, beq_refl in E. cbn [negb] in E. change (0 =? 0) with true in E. cbn [negb] in E. apply find_peer_in in F as F'. destruct F' as [Ip _].
    pose proof (pk_names _ _ K p Ip) as Kn. destruct (nk_reqs _ Kn key _ (names_get_in _ _ _ G)) as [_ Hk].
    assert (U : forall r, In r (h :: c) -> In r (under_way pl)).
    { intros r I. unfold under_way. apply in_or_app. left. apply in_flat_map. exists p. split; [exact Ip|]. unfold reqs_of. apply in_flat_map. exists (key, h :: c). split; [apply names_get_in; exact G|exact I]. }
    cbn [ids map]. rewrite app_nil_r. change (Called (rq_id h) (rq_name h) 0 ex data :: map (fun r => Called (rq_id r) (rq_name r) 0 ex data) c) with (map (fun r => Called (rq_id r) (rq_name r) 0 ex data) (h :: c)).
    split; [rewrite called_map by (intros r; eauto 6); exact P|]. injection E as E. split; [rewrite <- E; reflexivity|]. split; [exists []; exact Q|]. split.
    + rewrite app_nil_r. unfold under_way. rewrite Q, <- E. intros r I. apply in_app_or in I as [I|I]; apply in_or_app; [left|right; exact I]. apply in_flat_map in I as (q & Iq & I). cbn [upd_peer set_peers pl_peers] in Iq.
      apply in_map_iff in Iq as (q' & Eq & Iq). apply in_flat_map. exists q'. split; [exact Iq|]. destruct (p_id q' =? id); [|subst q; exact I]. subst q. unfold reqs_of in *. cbn [p_names] in I.
      apply in_flat_map in I as (kc & Ik & I). apply in_flat_map. exists kc. split; [|exact I]. clear -Ik. induction (p_names q') as [|[k v] l IH]; [exact Ik|]. cbn in Ik. destruct (beq k key); [right; exact Ik|]. destruct Ik as [->|Ik]; [left; reflexivity|right; auto].
    + intros i nm st ex' d I. apply in_map_iff in I as (r & E' & I). injection E' as <- <- <- <- <-. exists r. split; [auto|]. split; [reflexivity|]. split; [reflexivity|].
      apply (Good r h ex data); [auto|apply U; left; reflexivity|reflexivity|apply Hk; exact I|apply Hk; left; reflexivity|auto].
  - unfold handle_proof. rewrite F, G, B, beq_refl. cbn [negb]. replace (rc =? 0) with false by lia. apply keeps_ok. exact K.
Qed.
Lemma checked_keeps n pl r id : keeps n n pl [] r -> keeps n n pl [] (checked r id).
Proof. intros H. eapply keeps_bind; [exact H|]. intros pl' rc K _. destruct (rc =? 0); [apply keeps_ok|apply (close_keeps Ans HA)]; exact K. Qed.
Lemma on_msg_keeps n now f pl id : pool_ok n pl -> (forall pl', pool_ok n pl' -> under_way pl' = under_way pl -> keeps n n pl' [] (f pl' id)) -> keeps n n pl [] (on_msg now f pl id).
Proof.
  intros K H. unfold on_msg. destruct (find_peer pl id); [|apply keeps_ok; exact K]. destruct (negb _); [apply keeps_ok; exact K|].
  unfold on_recv, rbind. cbn [obind]. set (pl' := upd_peer pl id (with_clocks (set_recv now))). destruct (quiet Ans n pl id (with_clocks (set_recv now)) 0 K) as (K' & U & _); [same_peer|]. fold pl' in K', U.
  destruct (checked_keeps n pl' (f pl' id) id (H pl' K' U)) as (a & b & c & E & R). rewrite E. cbn [obind app].
  apply (keeps_under Ans n n pl pl' [] _ U eq_refl eq_refl). exists a, b, c. auto.
Qed.
Lemma send_version_keeps n s now pl id : pool_ok n pl -> keeps n n pl [] (send_version s now pl id).
Proof. intros K. unfold send_version. apply (quiet_then Ans n n pl id (with_clocks (set_version now)) [] _ K); [same_peer|]. intros K'. apply (send_keeps Ans HA). exact K'. Qed.
Lemma send_getheaders_keeps n s now pl id : pool_ok n pl -> keeps n n pl [] (send_getheaders s now pl id).
Proof. intros K. unfold send_getheaders. apply (quiet_then Ans n n pl id (with_clocks (set_getheaders now)) [] _ K); [same_peer|]. intros K'. apply (send_keeps Ans HA). exact K'. Qed.
Lemma set_am_ok n m pl am : pool_ok n pl -> am_ok am -> attempts_upto m am -> 0 <= m -> pool_ok m (set_am pl am).
Proof. intros [K1 K2 K3 K4 K5 K6 K7 K8 K9 K10] Ka A H. constructor; auto. Qed.
Lemma version_keeps n v s1 s2 s3 s4 now pl id : n < 2147483647 -> pool_ok n pl -> keeps n n pl [] (handle_version v s1 s2 s3 s4 now pl id).
Proof.
  intros L K. unfold handle_version. destruct (find_peer pl id) as [p|]; [|apply keeps_ok; exact K].
  pose proof (pk_n _ _ K) as N0. destruct (mark_run (Acked v) now (pl_am pl) (p_addr p) n (pk_am _ _ K) (pk_att _ _ K)) as (am' & r & E & Ka & At); [lia|]. cbn [do_mark] in E. rewrite E. cbn [obind].
  rewrite Z.add_0_r in At. pose proof (set_am_ok n n pl am' K Ka At N0) as K0. apply (keeps_under Ans n n pl (set_am pl am')); [reflexivity..|].
  eapply keeps_bind; [apply (send_keeps Ans HA); exact K0|]. intros p1 _ K1 _. eapply keeps_bind; [apply (send_keeps Ans HA); exact K1|]. intros p2 rc2 K2 _.
  destruct (negb _); [apply keeps_ok; exact K2|]. eapply keeps_bind; [apply (send_keeps Ans HA); exact K2|]. intros p3 rc3 K3 _. destruct (negb _); [apply keeps_ok; exact K3|]. apply send_getheaders_keeps. exact K3.
Qed.
Lemma ban_slots mem now am a : am_slots (fst (add_ban mem now am a)) = am_slots am /\ am_map (fst (add_ban mem now am a)) = am_map am.
Proof. unfold add_ban. destruct (ban_find _ a); [cbn; auto|]. destruct mem; cbn; auto. Qed.
Lemma headers_keeps n b s now pl id : pool_ok n pl -> keeps n n pl [] (peer_headers b s now pl id).
Proof.
  intros K. destruct b as [|rc|mem rc| |full]; cbn [peer_headers]; try (apply keeps_ok; exact K).
  - destruct (find_peer pl id) as [p|]; [|apply keeps_ok; exact K]. destruct (ban_slots mem now (pl_am pl) (p_addr p)) as [A B]. destruct (add_ban _ _ _ _) as [am ok]. cbn [fst] in *.
    assert (K1 : pool_ok n (set_am pl am)).
    { apply (set_am_ok n n); auto; [apply (same_table_ok (pl_am pl)); auto; apply (pk_am _ _ K)| |apply (pk_n _ _ K)]. intros e I. rewrite A in I. apply (pk_att _ _ K e I). }
    apply (keeps_under Ans n n pl (set_am pl am)); [reflexivity..|]. apply keeps_ok. exact K1.
  - eapply keeps_bind; [apply send_getheaders_keeps; exact K|]. intros p1 rc K1 _. apply keeps_ok. exact K1.
  - assert (K0 : pool_ok n (set_block_time pl now)) by (destruct K; constructor; auto). apply (keeps_under Ans n n pl (set_block_time pl now)); [reflexivity..|].
    eapply (quiet_then Ans n n _ id (with_clocks (set_getheaders 0)) [] _ K0); [same_peer|]. intros K1. destruct full; [apply send_getheaders_keeps|apply keeps_ok]; exact K1.
Qed.
Lemma addrs_keeps n fb rnd now l pl id : 0 <= fb < 65536 -> Forall (fun na => addr_wf (na_addr na)) l -> pool_ok n pl -> keeps n n pl [] (peer_addrs fb rnd now l pl id).
Proof.
  intros Hf F K. pose proof (pk_n _ _ K) as N0. unfold peer_addrs, handle_addr.
  assert (G : forall am rc, am_ok am -> attempts_upto n am -> keeps n n pl [] (Ok (set_am pl am, [], rc))).
  { intros am rc Ka A. apply (keeps_under Ans n n pl (set_am pl am)); [reflexivity..|]. apply keeps_ok. apply (set_am_ok n n); auto. }
  destruct (1000 <? zlen l); cbn [obind]; [apply G; [apply (pk_am _ _ K)|apply (pk_att _ _ K)]|].
  destruct (add_all_run fb rnd now l n Hf F N0 0 (pl_am pl) (pk_am _ _ K) (pk_att _ _ K)) as (am' & E & Ka & A). rewrite E. cbn [obind]. apply G; auto.
Qed.
Lemma connect_keeps n status rs bc s now pl id : pool_ok n pl -> keeps n n pl [] (on_connect status rs bc s now pl id).
Proof.
  intros K. unfold on_connect. destruct (find_peer pl id) as [p|]; [|apply keeps_ok; exact K]. destruct (negb _); [apply keeps_ok; exact K|].
  destruct (negb _); [apply (close_keeps Ans HA); exact K|]. destruct (negb _); [apply (close_keeps Ans HA); exact K|].
  apply (quiet_then Ans n n pl id (fun p0 => with_clocks (set_conn now) (with_state Reading p0)) [] _ K); [same_peer|]. intros K1.
  destruct (p_brontide p).
  - destruct (negb _); [apply (close_keeps Ans HA)|apply keeps_ok]; exact K1.
  - eapply (quiet_then Ans n n _ id (with_state Handshake) [] _ K1); [same_peer|]. intros K2. apply send_version_keeps. exact K2.
Qed.
Lemma brontide_keeps n s now pl id : pool_ok n pl -> n < 2147483647 -> keeps n n pl [] (on_brontide s now pl id).
Proof.
  intros K L. unfold on_brontide. destruct (find_peer pl id) as [p|]; [|apply keeps_ok; exact K]. destruct (negb _); [apply keeps_ok; exact K|].
  pose proof (pk_n _ _ K) as N0. destruct (mark_run Succeeded now (pl_am pl) (p_addr p) n (pk_am _ _ K) (pk_att _ _ K)) as (am' & r & E & Ka & At); [lia|]. cbn [do_mark] in E. rewrite E. cbn [obind].
  rewrite Z.add_0_r in At. pose proof (set_am_ok n n pl am' K Ka At N0) as K1. apply (keeps_under Ans n n pl (set_am pl am')); [reflexivity..|].
  eapply (quiet_then Ans n n _ id (with_state Handshake) [] _ K1); [same_peer|]. intros K2. apply send_version_keeps. exact K2.
Qed.
Lemma refill_keeps n port R pl : pool_ok n pl -> rf_map R = true -> n < 2147483647 -> keeps n (n + 1) pl [] (refill port R pl).
Proof.
  intros K Hm L. pose proof (pk_n _ _ K) as N0.
  assert (Up : forall am, am_ok am -> attempts_upto n am -> attempts_upto (n + 1) am) by (intros am _ A e I; specialize (A e I); lia).
  assert (Kn : pool_ok (n + 1) pl) by (destruct K as [K1 K2 K3 K4 K5 K6 K7 K8 K9 K10]; constructor; auto; lia).
  unfold refill. destruct (Z.leb_spec (pl_max pl) (pl_size pl)) as [G|G]; [destruct (keeps_ok Ans (n + 1) pl 0 Kn) as (x & y & z & H); exists x, y, z; exact H|].
  destruct (picked_address_eligible port (rf_rnd R) (rf_clock R) (rf_now R) (pl_am pl) (pl_addrs pl) (pk_am _ _ K)) as (am & o & E & Ka & Sl & C). rewrite E. cbn [obind].
  assert (A : attempts_upto n am) by (intros e I; rewrite Sl in I; apply (pk_att _ _ K e I)).
  assert (Same : forall rc am', am_ok am' -> attempts_upto (n + 1) am' -> keeps n (n + 1) pl [] (Ok (set_am pl am', [], rc))).
  { intros rc am' Ka' A'. assert (K1 : pool_ok (n + 1) (set_am pl am')) by (apply (set_am_ok n (n + 1)); auto; lia). exists (set_am pl am'), [], rc. split; [reflexivity|]. split; [exact K1|].
    cbn [ids map]. rewrite !app_nil_r. split; [reflexivity|]. split; [reflexivity|]. split; [exists []; reflexivity|]. split; [apply incl_refl|apply answers_nil]. }
  destruct o as [j|]; [|apply Same; auto]. destruct (C j eq_refl) as (e & N & Cd). rewrite Sl, N. destruct Cd as [C1 C2 C3 C4 C5].
  destruct (has_key (e_addr e) && negb (rf_key R)).
  { destruct (mark_run Removed (rf_now R) am (e_addr e) n Ka A) as (am' & r & E' & Ka' & A'); [lia|]. cbn [do_mark] in E'. rewrite E'. cbn [obind]. rewrite Z.add_0_r in A'. apply (Same 0 am'); auto. }
  destruct (rf_alloc R); cbn [negb]; [|apply Same; auto].
  destruct (mark_run Attempted (rf_now R) am (e_addr e) n Ka A) as (am' & r & E' & Ka' & A'); [lia|]. cbn [do_mark] in E'. rewrite E'. cbn [obind].
  replace (is_onion (e_addr e)) with false by (destruct (is_onion (e_addr e)) eqn:O; [apply onion_iff in O; contradiction|reflexivity]).
  destruct (negb (rf_open R =? 0)); [apply (Same (rf_open R) am'); auto|]. unfold push. cbn [set_am pl_addrs pl_peers pl_size pl_max pl_next pl_pending pl_block_time pl_getheaders pl_am p_addr].
  assert (X : existsb (fun a => addr_equal a (e_addr e)) (pl_addrs pl) = false).
  { destruct (existsb _ _) eqn:X; [|reflexivity]. apply existsb_exists in X as (a & I & S). apply eq_same in S. exfalso. apply (C2 a I). apply same_sym. exact S. }
  rewrite X, Hm. eexists _, [], 0. split; [reflexivity|]. destruct K as [K1 K2 K3 K4 K5 K6 K7 K8 K9 K10]. split.
  - constructor; cbn [pl_peers pl_size pl_max pl_addrs pl_am pl_next]; auto; try lia.
    + rewrite map_app. cbn [map p_id]. apply (Permutation_NoDup (Permutation_cons_append _ _)). constructor; [|exact K1]. intros I. apply in_map_iff in I as (q & Eq & I). specialize (K2 q I). lia.
    + intros q I. apply in_app_or in I as [I|[<-|[]]]; [specialize (K2 q I); lia|cbn; lia].
    + unfold zlen in *. rewrite app_length. cbn [length]. lia.
    + rewrite map_app. cbn [map p_addr]. eapply Permutation_trans; [apply perm_skip; exact K5|apply Permutation_cons_append].
    + constructor; [|exact K6]. rewrite Forall_forall. intros a I S. exact (C2 a I S).
    + intros q I. apply in_app_or in I as [I|[<-|[]]]; [auto|]. cbn [p_names]. constructor; [constructor|intros h c []].
  - unfold under_way. cbn [pl_peers pl_pending]. rewrite flat_map_app. cbn [flat_map reqs_of p_names ids map]. rewrite !app_nil_r. cbn [called flat_map app]. split; [reflexivity|]. split; [reflexivity|]. split; [exists []; reflexivity|]. split; [apply incl_refl|apply answers_nil].
Qed.
Lemma timer_peer_keeps n now synced nonce s pl id : pool_ok n pl -> keeps n n pl [] (timer_peer now synced nonce s pl id).
Proof.
  intros K. unfold timer_peer. destruct (find_peer pl id) as [p|]; [|apply keeps_ok; exact K]. destruct (negb _); [apply keeps_ok; exact K|].
  destruct (stalling _ _); [apply (close_keeps Ans HA); exact K|]. eapply keeps_bind.
  - destruct (_ <? now); [|apply keeps_ok; exact K]. destruct (_ =? 0).
    + eapply (quiet_then Ans n n pl id (with_clocks (fun c => set_last_ping now (set_challenge nonce (set_ping_timer now c)))) [] _ K); [same_peer|]. intros K1. apply (send_keeps Ans HA). exact K1.
    + apply (quiet Ans n pl id (with_clocks (set_ping_timer now)) 0 K). same_peer.
  - intros pl' _ K' _. destruct (_ && _); [apply (close_keeps Ans HA); exact K'|]. destruct (_ && _); [apply (close_keeps Ans HA); exact K'|]. destruct (overdue now p); [apply (close_keeps Ans HA)|apply keeps_ok]; exact K'.
Qed.
Lemma timer_peers_keeps n now synced nonce s l : forall pl, pool_ok n pl -> keeps n n pl [] (timer_peers now synced nonce s pl l).
Proof.
  induction l as [|id l IH]; intros pl K; cbn [timer_peers]; [apply keeps_ok; exact K|]. eapply keeps_bind; [apply timer_peer_keeps; exact K|]. intros pl' _ K' _. apply IH. exact K'.
Qed.
Lemma getheaders_all_keeps n now s l : forall pl, pool_ok n pl -> keeps n n pl [] (getheaders_all now s pl l).
Proof.
  induction l as [|id l IH]; intros pl K; cbn [getheaders_all]; [apply keeps_ok; exact K|]. destruct (find_peer pl id); [|apply IH; exact K]. destruct (negb _); [apply IH; exact K|].
  eapply keeps_bind; [apply send_getheaders_keeps; exact K|]. intros pl' _ K' _. destruct (find_peer pl' id); [apply IH; exact K'|]. destruct (match pl_peers pl with [] => false | q :: _ => p_id q =? id end); [apply keeps_ok; exact K'|apply IH; exact K'].
Qed.
Lemma timer_keeps n port now synced nonce s s2 R pl : pool_ok n pl -> rf_map R = true -> n < 2147483647 -> keeps n (n + 1) pl [] (timer port now synced nonce s s2 R pl).
Proof.
  intros K Hm L. unfold timer. eapply keeps_bind; [apply timer_peers_keeps; exact K|]. intros p1 _ K1 _. eapply (keeps_bind Ans n n (n + 1)).
  - destruct (_ && _); [|apply keeps_ok; exact K1]. eapply keeps_bind; [apply getheaders_all_keeps; exact K1|]. intros p2 _ K2 _.
    match goal with |- keeps _ _ _ _ (Ok (?x, _, _)) => apply (keeps_under Ans n n p2 x); [reflexivity..|] end. apply keeps_ok. destruct K2; constructor; auto.
  - intros p2 _ K2 _. eapply keeps_bind; [apply refill_keeps; auto|]. intros p3 _ K3 _. apply keeps_ok. exact K3.
Qed.
Lemma close_all_keeps n l : forall pl, pool_ok n pl -> keeps n n pl [] (close_all pl l).
Proof. induction l as [|id l IH]; intros pl K; cbn [close_all]; [apply keeps_ok; exact K|]. eapply keeps_bind; [apply (close_keeps Ans HA); exact K|]. intros pl' _ K' _. apply IH. exact K'. Qed.
End Run.

(* ---------- every sequence of events ---------- *)
(** What can happen to a pool: a lookup; a message of each kind from a peer, that cannot be
    read or is refused ([OBad]); a connection; a handshake; a peer closed because of the
    network; the timer. Writes and connections fail as they please, but for the request of a
    proof in a lookup (refuted below). *)
Inductive pop :=
| OResolve (synced : bool) (root hash name : list Z) (id now : Z) (mem mem2 : bool) (rnd : nat -> Z)
| OProof (now peer : Z) (key root : list Z) (v : Z * bool * list Z)
| OVersion (now peer services : Z) (s1 s2 s3 s4 : sent)
| OVerack (now peer : Z)
| OPing (now peer nonce : Z) (s : sent)
| OPong (now peer nonce : Z)
| OAddrs (now peer fb : Z) (rnd : nat -> nat -> Z) (l : list netaddr)
| OHeaders (now peer : Z) (b : batch) (s : sent)
| OBad (now peer rc : Z)
| OConnect (peer status rs bc : Z) (s : sent) (now : Z)
| OBrontide (peer : Z) (s : sent) (now : Z)
| OClose (peer : Z)
| OTimer (port now : Z) (synced : bool) (nonce : Z -> Z) (s s2 : Z -> sent) (R : refilling).
Definition pstep (o : pop) (pl : pool) : res :=
  match o with
  | OResolve synced root hash name id now mem mem2 rnd => resolve synced root hash name id now mem mem2 rnd Sent pl
  | OProof now peer key root v => on_msg now (handle_proof key root v) pl peer
  | OVersion now peer v s1 s2 s3 s4 => on_msg now (handle_version v s1 s2 s3 s4 now) pl peer
  | OVerack now peer => on_msg now handle_verack pl peer
  | OPing now peer nonce s => on_msg now (handle_ping s now nonce) pl peer
  | OPong now peer nonce => on_msg now (handle_pong now nonce) pl peer
  | OAddrs now peer fb rnd l => on_msg now (peer_addrs fb rnd now l) pl peer
  | OHeaders now peer b s => on_msg now (peer_headers b s now) pl peer
  | OBad now peer rc => on_msg now (fun pl _ => Ok (pl, [], rc)) pl peer
  | OConnect peer status rs bc s now => on_connect status rs bc s now pl peer
  | OBrontide peer s now => on_brontide s now pl peer
  | OClose peer => close pl peer
  | OTimer port now synced nonce s s2 R => timer port now synced nonce s s2 R pl
  end.
(** There is memory for the map of the peers (refuted below without); the addresses told are
    well-formed *)
Definition pop_ok (o : pop) : Prop :=
  match o with
  | OTimer _ _ _ _ _ _ R => rf_map R = true
  | OAddrs _ _ fb _ l => 0 <= fb < 65536 /\ Forall (fun na => addr_wf (na_addr na)) l
  | _ => True
  end.
Definition ticks (ops : list pop) : Z := zlen (filter (fun o => match o with OTimer _ _ _ _ _ _ _ => true | _ => false end) ops).
(** The lookups that were accepted: hsk_pool_resolve returned HSK_SUCCESS *)
Definition accepted (o : pop) (rc : Z) : list Z :=
  match o with OResolve _ _ _ _ id _ _ _ _ => if rc =? 0 then [id] else [] | _ => [] end.
Fixpoint prun (pl : pool) (ops : list pop) : outcome (pool * list ev * list Z) :=
  match ops with
  | [] => Ok (pl, [], [])
  | o :: r => obind (pstep o pl) (fun '(pl, es, rc) => obind (prun pl r) (fun '(pl, es', acc) => Ok (pl, es ++ es', accepted o rc ++ acc)))
  end.
(** The request was made by one of the lookups *)
Definition asked (ops : list pop) (r : req) : Prop :=
  exists now mem mem2 rnd, In (OResolve true (rq_root r) (rq_hash r) (rq_name r) (rq_id r) now mem mem2 rnd) ops.
(** What a lookup may be told: time out, or what an accepted proof of its name says. The proof
    is for the root that the chain gave to a lookup of that name. *)
Definition truthful (ops : list pop) (r : req) (st : Z) (ex : bool) (d : list Z) : Prop :=
  (st = 2 /\ ex = false /\ d = []) \/
  (st = 0 /\ exists now peer root h, In (OProof now peer (rq_hash r) root (0, ex, d)) ops /\ asked ops h /\ rq_hash h = rq_hash r /\ rq_root h = root).
Lemma pool_ok_le n m pl : n <= m -> pool_ok n pl -> pool_ok m pl.
Proof. intros L [K1 K2 K3 K4 K5 K6 K7 K8 K9 K10]. constructor; auto; [|lia]. intros e I. specialize (K9 e I). lia. Qed.
Lemma step_keeps ops o n pl : In o ops -> pop_ok o -> pool_ok n pl -> n < 2147483647 -> (forall r, In r (under_way pl) -> asked ops r) ->
  exists new, keeps (truthful ops) n (n + match o with OTimer _ _ _ _ _ _ _ => 1 | _ => 0 end) pl new (pstep o pl) /\ (forall r, In r new -> asked ops r) /\
    forall pl' es rc, pstep o pl = Ok (pl', es, rc) -> ids new = accepted o rc.
Proof.
  intros Io Op K L H. assert (HT : forall r, truthful ops r e_timeout false []) by (intros r; left; repeat split).
  assert (N : forall m, keeps (truthful ops) n m pl [] (pstep o pl) -> (forall rc, accepted o rc = []) ->
    exists new, keeps (truthful ops) n m pl new (pstep o pl) /\ (forall r, In r new -> asked ops r) /\ forall pl' es rc, pstep o pl = Ok (pl', es, rc) -> ids new = accepted o rc).
  { intros m X Y. exists []. split; [exact X|]. split; [intros r []|]. intros pl' es rc _. rewrite Y. reflexivity. }
  destruct o as [synced root hash name id now mem mem2 rnd|now peer key root v|now peer v s1 s2 s3 s4|now peer|now peer nonce s|now peer nonce|now peer fb rnd l|now peer b s|now peer rc|peer status rs bc s now|peer s now|peer|port now synced nonce s s2 R];
    rewrite ?Z.add_0_r; try (apply N; [|reflexivity]; cbn [pstep]).
  - cbn [pstep]. destruct (resolve_keeps (truthful ops) n synced root hash name id now mem mem2 rnd pl K) as (new & Kp & X). exists new. split; [exact Kp|].
    destruct Kp as (a & b & c & E & _). destruct (X a b c E) as [(C & t & ->)|(C & ->)].
    + split; [|intros a' b' c' E'; rewrite E in E'; injection E' as <- <- <-; subst c; reflexivity]. intros r [<-|[]]. assert (synced = true) by (unfold resolve in E; destruct synced; [reflexivity|injection E as _ _ E; cbv in E; lia]). subst synced.
      exists now, mem, mem2, rnd. exact Io.
    + split; [intros r []|]. intros a' b' c' E'. rewrite E in E'. injection E' as <- <- <-. cbn. replace (c =? 0) with false by lia. reflexivity.
  - apply on_msg_keeps; auto. intros pl' K' U. apply proof_keeps; auto. rewrite U. intros r h ex d Ir Ih -> Er Eh <-. right. split; [reflexivity|]. exists now, peer, (rq_root h), h. rewrite Er. auto.
  - apply on_msg_keeps; auto. intros pl' K' U. apply version_keeps; auto.
  - apply on_msg_keeps; auto. intros pl' K' U. apply (quiet _ n pl' peer (with_clocks (set_version 0)) 0 K'). same_peer.
  - apply on_msg_keeps; auto. intros pl' K' U. apply send_keeps; auto.
  - apply on_msg_keeps; auto. intros pl' K' U. apply (quiet _ n pl' peer (with_clocks (pong_clocks now nonce)) 0 K'). same_peer.
  - apply on_msg_keeps; auto. intros pl' K' U. destruct Op as [Op1 Op2]. apply addrs_keeps; auto.
  - apply on_msg_keeps; auto. intros pl' K' U. apply headers_keeps; auto.
  - apply on_msg_keeps; auto. intros pl' K' U. apply keeps_ok; auto.
  - apply connect_keeps; auto.
  - apply brontide_keeps; auto.
  - apply close_keeps; auto.
  - apply timer_keeps; auto.
Qed.
Lemma run_keeps all : forall ops n pl, incl ops all -> Forall pop_ok ops -> pool_ok n pl -> n + ticks ops < 2147483647 -> (forall r, In r (under_way pl) -> asked all r) ->
  exists pl' es acc, prun pl ops = Ok (pl', es, acc) /\ pool_ok (n + ticks ops) pl' /\ Permutation (ids (under_way pl) ++ acc) (called es ++ ids (under_way pl')) /\
    pl_max pl' = pl_max pl /\ (exists l, pl_pending pl' = l ++ pl_pending pl) /\ (forall r, In r (under_way pl') -> asked all r) /\
    forall i nm st ex d, In (Called i nm st ex d) es -> exists r, asked all r /\ rq_id r = i /\ rq_name r = nm /\ truthful all r st ex d.
Proof.
  induction ops as [|o ops IH]; intros n pl Inc F K L H.
  - exists pl, [], []. change (ticks []) with 0. rewrite Z.add_0_r, app_nil_r. split; [reflexivity|]. split; [exact K|]. split; [reflexivity|]. split; [reflexivity|]. split; [exists []; reflexivity|]. split; [exact H|]. intros i nm st ex d [].
  - apply Forall_cons_iff in F as [Fo F]. assert (T : ticks (o :: ops) = match o with OTimer _ _ _ _ _ _ _ => 1 | _ => 0 end + ticks ops) by (destruct o; unfold ticks; cbn [filter]; rewrite ?zlen_cons; lia).
    assert (T0 : 0 <= ticks ops) by apply zlen_nonneg. assert (T1 : 0 <= match o with OTimer _ _ _ _ _ _ _ => 1 | _ => 0 end <= 1) by (destruct o; lia).
    destruct (step_keeps all o n pl (Inc o (or_introl eq_refl)) Fo K ltac:(lia) H) as (new & (p1 & e1 & rc & E1 & K1 & P1 & M1 & (l1 & Q1) & I1 & A1) & Hn & Hacc). specialize (Hacc _ _ _ E1).
    destruct (IH _ p1 (fun x X => Inc x (or_intror X)) F K1 ltac:(lia)) as (p2 & e2 & acc & E2 & K2 & P2 & M2 & (l2 & Q2) & I2 & A2).
    { intros r Ir. apply I1 in Ir. apply in_app_or in Ir as [Ir|Ir]; auto. }
    exists p2, (e1 ++ e2), (accepted o rc ++ acc). cbn [prun]. rewrite E1. cbn [obind]. rewrite E2. cbn [obind]. split; [reflexivity|]. split; [rewrite T; replace (n + _) with (n + match o with OTimer _ _ _ _ _ _ _ => 1 | _ => 0 end + ticks ops) by lia; exact K2|].
    split; [|split; [congruence|split; [exists (l2 ++ l1); rewrite Q2, Q1, app_assoc; reflexivity|split; [exact I2|]]]].
    + rewrite called_app, <- Hacc, app_assoc, <- app_assoc. rewrite <- (app_assoc (called e1)). eapply Permutation_trans; [rewrite app_assoc; apply Permutation_app_tail; exact P1|]. rewrite <- app_assoc. apply Permutation_app_head. exact P2.
    + intros i nm st ex d I. apply in_app_or in I as [I|I]; [|exact (A2 _ _ _ _ _ I)]. destruct (A1 _ _ _ _ _ I) as (r & Ir & X). exists r. auto.
Qed.
Lemma init_ok am : am_ok am -> attempts_upto 0 am -> pool_ok 0 (pool_init am).
Proof. intros K A. constructor; cbn; auto; try lia; try constructor; intros p []. Qed.

(** C41. Whatever happens to a pool, in any order: no assertion fails, and the lookups that
    were accepted are those that were called back and those that wait, each once. *)
Theorem lookups_end_once_partial : forall am ops, am_ok am -> attempts_upto 0 am -> Forall pop_ok ops -> ticks ops < 2147483647 ->
  exists pl es acc, prun (pool_init am) ops = Ok (pl, es, acc) /\ Permutation acc (called es ++ ids (under_way pl)) /\
    (NoDup acc -> NoDup (called es) /\ forall i, In i (called es) -> In i acc /\ ~ In i (ids (under_way pl))).
Proof.
  intros am ops K A F L. destruct (run_keeps ops ops 0 (pool_init am) (incl_refl _) F (init_ok am K A) ltac:(lia)) as (pl & es & acc & E & _ & P & _); [intros r []|].
  cbn [pool_init under_way flat_map pl_peers pl_pending app ids map] in P. exists pl, es, acc. split; [exact E|]. split; [exact P|]. intros ND. apply (Permutation_NoDup P) in ND. split.
  - clear -ND. induction (called es) as [|x l IH]; [constructor|]. cbn in ND. apply NoDup_cons_iff in ND as [N ND]. constructor; [|auto]. intros I. apply N. apply in_or_app. left. exact I.
  - intros i I. split; [apply (Permutation_in _ (Permutation_sym P)); apply in_or_app; left; exact I|]. intros J. clear -ND I J. induction (called es) as [|x l IH]; [destruct I|]. cbn in ND. apply NoDup_cons_iff in ND as [N ND].
    destruct I as [->|I]; [apply N; apply in_or_app; right; exact J|auto].
Qed.
(** C68. What the callback of a lookup is told is a time out, or what a proof says that was
    accepted for the hash of its name, under a root that the chain had for such a lookup. *)
Theorem answers_are_proved : forall am ops pl es acc i nm st ex d, am_ok am -> attempts_upto 0 am -> Forall pop_ok ops -> ticks ops < 2147483647 ->
  prun (pool_init am) ops = Ok (pl, es, acc) -> In (Called i nm st ex d) es ->
  exists root hash now mem mem2 rnd, In (OResolve true root hash nm i now mem mem2 rnd) ops /\
   ((st = 2 /\ ex = false /\ d = []) \/
    (st = 0 /\ exists now' peer root', In (OProof now' peer hash root' (0, ex, d)) ops /\
       exists nm' i' now'' m m2 rnd', In (OResolve true root' hash nm' i' now'' m m2 rnd') ops)).
Proof.
  intros am ops pl es acc i nm st ex d K A F L E I. destruct (run_keeps ops ops 0 (pool_init am) (incl_refl _) F (init_ok am K A) ltac:(lia)) as (pl' & es' & acc' & E' & _ & _ & _ & _ & _ & X); [intros r []|].
  rewrite E in E'. injection E' as <- <- <-. destruct (X _ _ _ _ _ I) as (r & (now & mem & mem2 & rnd & Ir) & <- & <- & T). exists (rq_root r), (rq_hash r), now, mem, mem2, rnd. split; [exact Ir|].
  destruct T as [T|(T & now' & peer & root & h & Ip & (n2 & m & m2 & rnd' & Ih) & Eh & <-)]; [left; exact T|]. right. split; [exact T|]. exists now', peer, (rq_root h). split; [exact Ip|].
  rewrite Eh in Ih. exists (rq_name h), (rq_id h), n2, m, m2, rnd'. exact Ih.
Qed.
(** C69. At every moment there are at most eight peers, the count is that of the list, and no
    two peers have the same address or identifier. *)
Theorem peers_always_consistent_partial : forall am ops pl es acc, am_ok am -> attempts_upto 0 am -> Forall pop_ok ops -> ticks ops < 2147483647 ->
  prun (pool_init am) ops = Ok (pl, es, acc) ->
  zlen (pl_peers pl) <= 8 /\ pl_size pl = zlen (pl_peers pl) /\
  (forall i j p q, nth_error (pl_peers pl) i = Some p -> nth_error (pl_peers pl) j = Some q -> p_id p = p_id q \/ same (p_addr p) (p_addr q) -> i = j).
Proof.
  intros am ops pl es acc K A F L E. destruct (run_keeps ops ops 0 (pool_init am) (incl_refl _) F (init_ok am K A) ltac:(lia)) as (pl' & es' & acc' & E' & K' & _ & M & _); [intros r []|].
  rewrite E in E'. injection E' as <- <- <-. cbn [pool_init pl_max] in M. destruct K' as [K1 K2 K3 K4 K5 K6 K7 K8 K9 K10]. split; [lia|]. split; [exact K3|].
  intros i j p q Ni Nj [H|H].
  - apply (proj1 (NoDup_nth_error (map p_id (pl_peers pl))) K1); [rewrite map_length; apply nth_error_Some; congruence|]. rewrite (map_nth_error p_id _ _ Ni), (map_nth_error p_id _ _ Nj), H. reflexivity.
  - apply (fop_perm _ _ K5) in K6. clear -Ni Nj H K6. revert i j Ni Nj. induction (pl_peers pl) as [|x l IH]; intros [|i] [|j] Ni Nj; try discriminate; [reflexivity| | |]; cbn in *; inversion K6 as [|? ? Fa Fo]; subst; rewrite Forall_forall in Fa.
    + injection Ni as ->. exfalso. apply (Fa (p_addr q)); [apply in_map; eapply nth_error_In; eauto|exact H].
    + injection Nj as ->. exfalso. apply (Fa (p_addr p)); [apply in_map; eapply nth_error_In; eauto|apply same_sym; exact H].
    + f_equal. apply IH; auto.
Qed.

Print Assumptions lookups_end_once_partial.
Print Assumptions answers_are_proved.
Print Assumptions peers_always_consistent_partial.
