(** The pool: lookups of names end once, the peers, the timer. *)
From Coq Require Import Permutation.
From Verif Require Import Common CommonFacts ProofFacts MapModel AddrModel AddrTheorems AddrmanModel AddrmanFacts AddrmanTheorems AddrmanPick PoolModel PoolFacts.

(* ---------- the choice of a peer ---------- *)
Lemma best_in first second l f s : best_loop first second l = (f, s) ->
  (f = first \/ In f (ready l)) /\ (forall x, s = Some x -> second = Some x \/ x = first \/ In x (ready l)).
Proof.
  revert first second. induction l as [|p l IH]; intros first second E; cbn [best_loop] in E.
  - injection E as <- <-. split; auto.
  - unfold ready in *. cbn [filter]. destruct (pstate_eqb (p_state p) Handshake); cbn [negb] in E; [|exact (IH _ _ E)].
    destruct (_ && _).
    + destruct (IH _ _ E) as [A B]. split; [right; destruct A as [->|A]; [left; reflexivity|right; exact A]|].
      intros x X. destruct (B x X) as [H|[->|H]]; [injection H as ->; auto|right; right; left; reflexivity|right; right; right; exact H].
    + destruct (IH _ _ E) as [A B]. split; [destruct A as [->|A]; [left; reflexivity|right; right; exact A]|].
      intros x X. destruct (B x X) as [H|[H|H]]; auto. right. right. right. exact H.
Qed.
(** C41. A peer is chosen exactly when one is connected; it is a connected one or the first
    of the list. *)
Theorem prover_chosen : forall rnd pl h,
  (pick_prover rnd pl h = None <-> forall p, In p (pl_peers pl) -> p_state p <> Handshake) /\
  (forall p, pick_prover rnd pl h = Some p -> In p (pl_peers pl) /\ (p_state p = Handshake \/ exists l, pl_peers pl = p :: l)).
Proof.
  intros rnd pl h. unfold pick_prover. destruct (pl_peers pl) as [|head l] eqn:E.
  { split; [split; [intros _ p []|reflexivity]|discriminate]. }
  destruct (best_loop head None (head :: l)) as [first second] eqn:B. apply best_in in B as [Bf Bs].
  set (L := head :: l) in *. assert (R : forall p, In p (ready L) <-> In p L /\ p_state p = Handshake).
  { intros p. unfold ready. rewrite filter_In. split; intros [I S]; (split; [exact I|]); destruct (p_state p); try discriminate; reflexivity. }
  destruct (Z.eqb_spec (zlen (ready L)) 0) as [Z0|Z0].
  { split; [split; [|reflexivity]|discriminate]. intros _ p I S. assert (X : In p (ready L)) by (apply R; auto). unfold zlen in Z0. destruct (ready L); [destruct X|cbn in Z0; lia]. }
  assert (Ne : ready L <> []) by (intros X; rewrite X in Z0; apply Z0; reflexivity).
  destruct (draw_in (ready L) (nth 0 h 0) Ne) as [d D]. destruct (draw_in (ready L) (rnd 0%nat) Ne) as [r Hr]. rewrite D, Hr.
  assert (Good : forall p, In p (ready L) -> In p L /\ (p_state p = Handshake \/ exists l, L = p :: l)) by (intros p I; apply R in I as [I S]; auto).
  assert (Fst : In first L /\ (p_state first = Handshake \/ exists l, L = first :: l)) by (destruct Bf as [->|Bf]; [split; [left; reflexivity|right; exists l; reflexivity]|auto]).
  assert (Dd : In d (ready L)) by (eapply nth_error_In; eauto). assert (Dr : In r (ready L)) by (eapply nth_error_In; eauto).
  split.
  - split; [|intros H; exfalso; apply R in Dd as [I S]; exact (H d I S)]. intros X. exfalso.
    destruct (rnd 1%nat mod 5 =? 0); [discriminate X|]. destruct second; repeat match type of X with (if ?b then _ else _) = _ => destruct b end; discriminate X.
  - intros p P. destruct (rnd 1%nat mod 5 =? 0); [injection P as <-; auto|]. destruct second as [s|].
    + destruct (rnd 2%nat mod 10 =? 0); [injection P as <-|destruct (rnd 3%nat mod 10 =? 0); injection P as <-; auto].
      destruct (Bs s eq_refl) as [H|[->|H]]; [discriminate H|split; [left; reflexivity|right; exists l; reflexivity]|auto].
    + destruct (rnd 2%nat mod 10 =? 0); injection P as <-; auto.
Qed.

(* ---------- one lookup ---------- *)
Lemma find_self n pl p : pool_ok n pl -> In p (pl_peers pl) -> find_peer pl (p_id p) = Some p.
Proof.
  intros K I. destruct (find_peer pl (p_id p)) as [q|] eqn:E.
  - f_equal. symmetry. apply (find_peer_unique pl (p_id p) q p (pk_ids _ _ K) E I eq_refl).
  - exfalso. unfold find_peer in E. apply (find_none _ _ E) in I. rewrite Z.eqb_refl in I. discriminate I.
Qed.
Definition request (id : Z) (name hash root : list Z) (t : Z) : req := {| rq_id := id; rq_name := name; rq_hash := hash; rq_root := root; rq_time := t |}.
Lemma add_request n pl p hash r v : pool_ok n pl -> In p (pl_peers pl) -> rq_hash r = hash ->
  ((names_get (p_names p) hash = Some v /\ forall q, In q v -> rq_time q = rq_time r) \/ (names_get (p_names p) hash = None /\ v = [])) ->
  let pl' := upd_peer pl (p_id p) (fun p => with_names (names_set (p_names p) hash (r :: v)) p) in
  pool_ok n pl' /\ Permutation (under_way pl ++ [r]) (under_way pl').
Proof.
  intros K I H V pl'. pose proof (find_self n pl p K I) as F. pose proof (pk_names _ _ K p I) as Kn. split.
  - apply upd_ok; auto. intros q Iq Eq. assert (q = p) by (apply (find_peer_unique pl (p_id p) p q (pk_ids _ _ K) F Iq Eq)). subst q. cbn [with_names p_names].
    destruct V as [[V T]|[V ->]]; [apply (names_cons_ok _ _ _ _ Kn V H T)|apply (names_new_ok _ _ _ Kn V H)].
  - unfold pl'. destruct (upd_way pl (p_id p) (fun p => with_names (names_set (p_names p) hash (r :: v)) p) p (pk_ids _ _ K) F) as (a & b & E1 & E2).
    unfold under_way. rewrite E1, E2. cbn [upd_peer set_peers pl_pending].
    assert (P : Permutation (reqs_of (with_names (names_set (p_names p) hash (r :: v)) p)) (r :: reqs_of p)).
    { unfold reqs_of. cbn [with_names p_names]. destruct V as [[V T]|[V ->]]; [apply flat_set_cons; [apply (nk_keys _ Kn)|exact V]|apply flat_set_new; exact V]. }
    apply Permutation_sym. eapply Permutation_trans; [apply Permutation_app_tail; apply Permutation_app_head; apply Permutation_app_tail; exact P|].
    cbn [app]. apply Permutation_sym. eapply Permutation_trans; [apply Permutation_sym; apply Permutation_cons_append|]. rewrite <- !app_assoc. cbn [app]. rewrite <- !app_assoc. apply Permutation_middle.
Qed.
(** C41. What a lookup does, in every state. *)
Theorem resolve_exact : forall n synced root hash name id now mem mem2 rnd pl, pool_ok n pl ->
  exists pl' es rc, resolve synced root hash name id now mem mem2 rnd Sent pl = Ok (pl', es, rc) /\ pool_ok n pl' /\ pl_max pl' = pl_max pl /\ called es = [] /\
  ((synced = false /\ rc = 2 /\ pl' = pl /\ es = []) \/
   (synced = true /\ rc = 1 /\ pl' = pl /\ es = [] /\ (mem = false \/ mem2 = false)) \/
   (synced = true /\ mem = true /\ rc = 0 /\ (exists t, Permutation (under_way pl ++ [request id name hash root t]) (under_way pl')) /\
    ((pick_prover rnd pl hash = None /\ es = [] /\ pl_peers pl' = pl_peers pl /\ pl_pending pl' = request id name hash root now :: pl_pending pl) \/
     (exists p p', pick_prover rnd pl hash = Some p /\ find_peer pl' (p_id p) = Some p' /\ pl_pending pl' = pl_pending pl /\
        (forall k, k <> p_id p -> find_peer pl' k = find_peer pl k) /\ (forall k, k <> hash -> names_get (p_names p') k = names_get (p_names p) k) /\
        ((names_get (p_names p) hash = None /\ names_get (p_names p') hash = Some [request id name hash root now] /\
          es = (if pstate_eqb (p_state p) Handshake then [Wrote (p_id p) (MGetproof hash root)] else [])) \/
         (exists h c, names_get (p_names p) hash = Some (h :: c) /\ names_get (p_names p') hash = Some (request id name hash root (rq_time h) :: h :: c) /\ es = [])))))).
Proof.
  intros n synced root hash name id now mem mem2 rnd pl K. unfold resolve.
  destruct synced; cbn [negb]; [|exists pl, [], 2; repeat (split; [auto|]); left; auto].
  destruct mem; cbn [negb]; [|exists pl, [], 1; repeat (split; [auto|]); right; left; auto 6].
  destruct (pick_prover rnd pl hash) as [p|] eqn:P.
  - apply (proj2 (prover_chosen rnd pl hash)) in P as [I Hp]. destruct mem2; cbn [negb]; [|exists pl, [], 1; repeat (split; [auto|]); right; left; auto 6].
    pose proof (pk_names _ _ K p I) as Kn. pose proof (find_self n pl p K I) as F.
    assert (Nset : forall v k, names_get (names_set (p_names p) hash v) k = if beq hash k then Some v else names_get (p_names p) k).
    { intros v k. clear. induction (p_names p) as [|[x w] l IH]; cbn; [reflexivity|]. destruct (beq x hash) eqn:B; cbn.
      - apply beq_true_iff in B as ->. destruct (beq hash k); reflexivity.
      - rewrite IH. destruct (beq x k) eqn:B2; [|reflexivity]. apply beq_true_iff in B2 as ->. replace (beq hash k) with false; [reflexivity|]. symmetry. apply beq_false_iff. apply beq_false_iff in B. congruence. }
    assert (Other : forall v k, k <> hash -> names_get (names_set (p_names p) hash v) k = names_get (p_names p) k).
    { intros v k D. rewrite Nset. replace (beq hash k) with false; [reflexivity|]. symmetry. apply beq_false_iff. congruence. }
    destruct (names_get (p_names p) hash) as [[|h c]|] eqn:G.
    + exfalso. apply (proj1 (nk_reqs _ Kn hash [] (names_get_in _ _ _ G))). reflexivity.
    + set (r := request id name hash root (rq_time h)). destruct (add_request n pl p hash r (h :: c) K I eq_refl) as [K' Pm].
      { left. split; [exact G|]. intros q Hq. apply (proj2 (proj2 (nk_reqs _ Kn hash _ (names_get_in _ _ _ G)) h (or_introl eq_refl)) q Hq). }
      eexists _, [], 0. split; [reflexivity|]. split; [exact K'|]. split; [reflexivity|]. split; [reflexivity|]. right. right. split; [reflexivity|]. split; [reflexivity|]. split; [reflexivity|]. split; [eexists; exact Pm|].
      right. eexists p, _. split; [reflexivity|]. split; [rewrite find_upd by reflexivity; rewrite Z.eqb_refl, F; reflexivity|]. split; [reflexivity|].
      split; [intros k D; rewrite find_upd by reflexivity; replace (k =? p_id p) with false by lia; reflexivity|]. cbn [with_names p_names]. split; [apply Other|].
      right. exists h, c. split; [exact G|]. split; [|reflexivity]. rewrite Nset, beq_refl. reflexivity.
    + set (r := request id name hash root now). destruct (add_request n pl p hash r [] K I eq_refl (or_intror (conj G eq_refl))) as [K' Pm].
      set (pl1 := upd_peer pl (p_id p) (fun p0 => with_names (names_set (p_names p0) hash [r]) p0)) in *. unfold send.
      assert (F1 : find_peer pl1 (p_id p) = Some (with_names (names_set (p_names p) hash [r]) p)) by (unfold pl1; rewrite find_upd by reflexivity; rewrite Z.eqb_refl, F; reflexivity).
      change (upd_peer pl (p_id p) (fun p0 : peer => with_names (names_set (p_names p0) hash [{| rq_id := id; rq_name := name; rq_hash := hash; rq_root := root; rq_time := now |}]) p0)) with pl1.
      rewrite F1. cbn [with_names p_state].
      assert (Fo : forall k, k <> p_id p -> find_peer pl1 k = find_peer pl k) by (intros k D; unfold pl1; rewrite find_upd by reflexivity; replace (k =? p_id p) with false by lia; reflexivity).
      destruct (pstate_eqb (p_state p) Handshake) eqn:St; cbn [negb].
      * destruct (quiet (fun _ _ _ _ => True) n pl1 (p_id p) (with_clocks (set_send now)) 0 K') as (Kq & U & _); [intros q; repeat split|].
        eexists _, _, 0. split; [reflexivity|]. split; [exact Kq|]. split; [reflexivity|]. split; [reflexivity|]. right. right. split; [reflexivity|]. split; [reflexivity|]. split; [reflexivity|]. split; [rewrite U; eexists; exact Pm|].
        right. eexists p, _. split; [reflexivity|]. split; [rewrite find_upd by reflexivity; rewrite Z.eqb_refl, F1; reflexivity|]. split; [reflexivity|].
        split; [intros k D; rewrite find_upd by reflexivity; replace (k =? p_id p) with false by lia; apply Fo; exact D|]. cbn [with_names with_clocks p_names]. split; [apply Other|].
        left. split; [exact G|]. split; [|rewrite St; reflexivity]. rewrite Nset, beq_refl. reflexivity.
      * eexists _, _, 0. split; [reflexivity|]. split; [exact K'|]. split; [reflexivity|]. split; [reflexivity|]. right. right. split; [reflexivity|]. split; [reflexivity|]. split; [reflexivity|]. split; [eexists; exact Pm|].
        right. eexists p, _. split; [reflexivity|]. split; [exact F1|]. split; [reflexivity|]. split; [exact Fo|]. cbn [with_names p_names]. split; [apply Other|].
        left. split; [exact G|]. split; [|rewrite St; reflexivity]. rewrite Nset, beq_refl. reflexivity.
  - eexists _, [], 0. split; [reflexivity|]. assert (K' := K). destruct K' as [K1 K2 K3 K4 K5 K6 K7 K8 K9 K10]. split; [constructor; auto|]. split; [reflexivity|]. split; [reflexivity|]. right. right.
    split; [reflexivity|]. split; [reflexivity|]. split; [reflexivity|]. split; [|left; repeat split; reflexivity].
    exists now. unfold under_way. cbn [pl_peers pl_pending]. eapply Permutation_trans; [apply Permutation_sym; apply Permutation_cons_append|]. apply Permutation_middle.
Qed.

(** C41. A proof that is accepted ends all the lookups of its name at that peer, in order, the
    newest first, with what the proof says; nothing else changes but the count of proofs. *)
Theorem proof_answers_all : forall n pl id p key root ex data h c, pool_ok n pl -> find_peer pl id = Some p ->
  names_get (p_names p) key = Some (h :: c) -> root = rq_root h ->
  exists pl' p', handle_proof key root (0, ex, data) pl id = Ok (pl', map (fun r => Called (rq_id r) (rq_name r) 0 ex data) (h :: c), 0) /\ pool_ok n pl' /\
    find_peer pl' id = Some p' /\ names_get (p_names p') key = None /\ (forall k, k <> key -> names_get (p_names p') k = names_get (p_names p) k) /\
    p_proofs p' = p_proofs p + 1 /\ p_state p' = p_state p /\ (forall k, k <> id -> find_peer pl' k = find_peer pl k) /\
    pl_pending pl' = pl_pending pl /\ Permutation (ids (under_way pl)) (ids (h :: c) ++ ids (under_way pl')).
Proof.
  intros n pl id p key root ex data h c K F G ->. unfold handle_proof. rewrite F, G, beq_refl. cbn [negb]. change (0 =? 0) with true. cbn [negb].
  pose proof (find_peer_in _ _ _ F) as [I Ep]. pose proof (pk_names _ _ K p I) as Kn.
  set (f := fun p0 : peer => {| p_id := p_id p0; p_addr := p_addr p0; p_brontide := p_brontide p0; p_state := p_state p0; p_names := names_del (p_names p0) key; p_proofs := p_proofs p0 + 1; p_clocks := p_clocks p0 |}).
  exists (upd_peer pl id f), (f p). split; [reflexivity|]. split.
  { apply upd_ok; auto. intros q Iq Eq. assert (q = p) by (apply (find_peer_unique pl id p q (pk_ids _ _ K) F Iq Eq)). subst q. apply (names_del_ok _ _ _ Kn G). }
  split; [rewrite find_upd by reflexivity; rewrite Z.eqb_refl, F; reflexivity|]. destruct (names_set_split _ _ _ (nk_keys _ Kn) G) as (a & b & E & _ & D).
  assert (ND := nk_keys _ Kn). split.
  { cbn [f p_names]. rewrite D. rewrite E, map_app in ND. cbn in ND. apply NoDup_remove_2 in ND. destruct (names_get (a ++ b) key) as [v|] eqn:X; [|reflexivity].
    exfalso. apply ND. rewrite <- map_app. apply names_get_in in X. apply (in_map fst) in X. exact X. }
  split.
  { intros k Dk. cbn [f p_names]. rewrite D, E. clear -Dk. induction a as [|[x v] a IH]; cbn; [|rewrite IH; reflexivity]. replace (beq key k) with false; [reflexivity|]. symmetry. apply beq_false_iff. congruence. }
  split; [reflexivity|]. split; [reflexivity|]. split; [intros k Dk; rewrite find_upd by reflexivity; replace (k =? id) with false by lia; reflexivity|]. split; [reflexivity|].
  destruct (upd_way pl id f p (pk_ids _ _ K) F) as (x & y & E1 & E2). unfold under_way, ids. rewrite E1, E2. cbn [upd_peer set_peers pl_pending]. rewrite <- map_app. apply Permutation_map.
  assert (P : Permutation (reqs_of p) ((h :: c) ++ reqs_of (f p))) by (apply flat_del; [exact ND|exact G]).
  rewrite <- !app_assoc. eapply Permutation_trans; [apply Permutation_app_head; apply Permutation_app_tail; exact P|]. rewrite <- app_assoc. apply Permutation_app_swap_app.
Qed.
(** C41. Any other proof ends the peer: unasked, for another root, or not valid. All its
    lookups time out and none is answered. *)
Theorem bad_proof_ends_peer : forall n now pl id p key root v, pool_ok n pl -> find_peer pl id = Some p -> p_state p = Handshake ->
  (forall h c, names_get (p_names p) key = Some (h :: c) -> root = rq_root h -> fst (fst v) <> 0) ->
  exists pl', on_msg now (handle_proof key root v) pl id = Ok (pl', closed_event p, 0) /\ pool_ok n pl' /\ find_peer pl' id = None /\
    (forall k, k <> id -> find_peer pl' k = find_peer pl k) /\ pl_pending pl' = pl_pending pl.
Proof.
  intros n now pl id p key root v K F S B. unfold on_msg. rewrite F, S. cbn [pstate_eqb negb]. unfold on_recv.
  set (pl1 := upd_peer pl id (with_clocks (set_recv now))). destruct (quiet (fun _ _ _ _ => True) n pl id (with_clocks (set_recv now)) 0 K) as (K1 & _ & _); [intros q; repeat split|]. change (upd_peer pl id (with_clocks (set_recv now))) with pl1 in K1.
  set (p1 := with_clocks (set_recv now) p). assert (F1 : find_peer pl1 id = Some p1) by (unfold pl1; rewrite find_upd by reflexivity; rewrite Z.eqb_refl, F; reflexivity).
  assert (H : exists rc, handle_proof key root v pl1 id = Ok (pl1, [], rc) /\ rc <> 0).
  { unfold handle_proof. rewrite F1. change (p_names p1) with (p_names p). destruct (names_get (p_names p) key) as [[|h c]|] eqn:G; try (exists e_badargs; split; [reflexivity|discriminate]).
    destruct (beq root (rq_root h)) eqn:R; cbn [negb]; [|exists e_hashmismatch; split; [reflexivity|discriminate]]. apply beq_true_iff in R. specialize (B h c eq_refl R). destruct v as [[rc ex] data]. cbn in B.
    replace (rc =? 0) with false by lia. exists rc. auto. }
  destruct H as (rc & H & N). unfold checked, rbind. cbn [obind]. rewrite H. cbn [obind]. replace (rc =? 0) with false by lia.
  destruct (close_spec n pl1 id p1 K1 F1) as (pl' & C & K' & P & M & Q & A & Fn). rewrite C. cbn [obind app]. exists pl'. split; [reflexivity|]. split; [exact K'|]. split; [exact Fn|]. split; [|exact Q].
  intros k Dk. transitivity (find_peer pl1 k); [|unfold pl1; rewrite find_upd by reflexivity; replace (k =? id) with false by lia; reflexivity].
  unfold find_peer. rewrite P. clear -Dk. induction (pl_peers pl1) as [|q l IH]; [reflexivity|]. cbn. destruct (Z.eqb_spec (p_id q) id) as [E|E]; cbn.
  - replace (p_id q =? k) with false by lia. exact IH.
  - destruct (p_id q =? k); auto.
Qed.

Print Assumptions prover_chosen.
Print Assumptions resolve_exact.
Print Assumptions proof_answers_all.
Print Assumptions bad_proof_ends_peer.
