(** Recursive lookups through the resolver thread: nothing fails, each accepted request is
    answered once and in order, and nothing is left behind. *)
From Verif Require Import Common CommonFacts WorkerModel WorkerFacts WorkerRun.
From Coq Require Import Permutation Lia.

(** A run from the start: the steps [ls] could be taken and the program kept the contract *)
Definition runs (ls : list label) (r : outcome (state * list event)) : Prop := all_polite ls worker_init /\ wrun ls worker_init = Some r.
Lemma runs_inv ls r : runs ls r -> exists s es p q, r = Ok (s, es) /\ Inv s es p q.
Proof. intros [P R]. destruct (run_inv ls _ _ _ _ _ init_inv P R) as (s & es & p & q & -> & I). eauto 6. Qed.

(** No assertion fails, no freed or unallocated node is touched, in any interleaving *)
Theorem worker_never_fails ls r : runs ls r -> exists s es, r = Ok (s, es).
Proof. intro R. destruct (runs_inv _ _ R) as (s & es & p & q & -> & _). eauto. Qed.

(** The callbacks run in the order in which libunbound completed the requests, each with the
    status and result of its own completion; what is accepted is exactly what is completed,
    plus what libunbound still has *)
Theorem callbacks_in_completion_order ls s es : runs ls (Ok (s, es)) ->
  exists rest, completed es = called es ++ rest.
Proof. intro R. destruct (runs_inv _ _ R) as (s' & es' & p & q & [= <- <-] & I). rewrite (i_comp _ _ _ _ I). eauto. Qed.
Theorem callbacks_at_most_once ls s es : runs ls (Ok (s, es)) ->
  exists waiting, Permutation (accepted es) (map id_of (called es) ++ waiting).
Proof.
  intro R. destruct (runs_inv _ _ R) as (s' & es' & p & q & [= <- <-] & I).
  pose proof (i_acc _ _ _ _ I) as A. rewrite (i_comp _ _ _ _ I), map_app, <- app_assoc in A. eauto.
Qed.
(** An open worker that is not closed is the only one that accepts *)
Theorem resolve_refused_exactly ls s es a i : runs ls (Ok (s, es)) -> s_main s = MIdle -> s_heap s a = None ->
  (wstep (LResolve (Some a) i) s = Some (Ok (s, [Refused i])) <-> s_ub s = false \/ s_exit s = true)
  /\ (s_ub s = true /\ s_exit s = false -> exists s', wstep (LResolve (Some a) i) s = Some (Ok (s', [])) /\
        (exists s2, wstep (LSent 0) s' = Some (Ok (s2, [Accepted i]))) /\ forall rc, rc <> 0 -> exists s2, wstep (LSent rc) s' = Some (Ok (s2, [Refused i]))).
Proof.
  intros R M F. destruct (runs_inv _ _ R) as (s' & es' & p & q & [= <- <-] & I).
  assert (W : wstep (LResolve (Some a) i) s = Some (resolve_start (Some a) i s)) by (cbn [wstep fresh]; rewrite M, F; reflexivity).
  split.
  - rewrite W. unfold resolve_start. destruct (s_exit s), (s_ub s); cbn [orb negb]; (split; [intro H|intros [H|H]]); auto; try discriminate.
    exfalso. apply (f_equal (fun o => match o with Some (Ok (_, [Refused _])) => true | _ => false end)) in H. revert H.
    cbn [new_node obind]. destruct (enqueue _ _ _) as [[h' q']| | |]; cbn; discriminate.
  - intros [U X]. rewrite W.
    destruct (step_inv (LResolve (Some a) i) _ _ _ _ _ I Logic.I W) as (s1 & f1 & p1 & q1 & E & I1).
    rewrite E. revert E. unfold resolve_start. rewrite U, X. cbn [orb negb new_node obind].
    destruct (enqueue _ _ _) as [[h' q']| | |] eqn:EQ; cbn [obind]; try discriminate.
    intros [= <- <-]. eexists. split; [reflexivity|].
    assert (HA : exists n, h' a = Some n /\ n_cb n = i).
    { destruct (dll_alloc _ _ _ a (i_pend _ _ _ _ I1)) as (n & N).
      { apply (Permutation_in _ (Permutation_sym (i_perm _ _ _ _ I1))). cbn. rewrite in_app_iff. right. left. reflexivity. }
      cbn in N. exists n. split; [exact N|].
      assert (AP : ~ In a p). { intro A. destruct (dll_alloc _ _ _ _ (i_pend _ _ _ _ I) A) as (k & K). congruence. }
      destruct (enqueue_ok (hset (s_heap s) a (Some {| n_prev := None; n_next := None; n_cb := i; n_status := 0; n_result := 0 |})) (s_pend s) p a) as (h2 & q2 & E2 & _ & _ & Nf).
      { apply (dll_frame (s_heap s)); [exact (i_pend _ _ _ _ I)|]. intros x Hx. apply hset_other. intros ->. contradiction. }
      { exact AP. } { eexists. rewrite hset_same. split; [reflexivity|auto]. }
      rewrite EQ in E2. injection E2 as <- <-. specialize (Nf a). unfold inf in Nf. rewrite N, hset_same in Nf. unfold facts in Nf. cbn in Nf. congruence. }
    destruct HA as (n & HA & CB).
    split.
    + cbn [wstep s_main with_main]. unfold resolve_end. cbn [s_heap with_main signal count with_pend]. rewrite HA, CB. change (0 =? 0) with true. eexists. reflexivity.
    + intros rc RC. pose proof (taken_inv _ _ _ _ a rc I1 eq_refl) as (s2 & f2 & p2 & q2 & E2 & _).
      cbn [wstep s_main with_main]. exists s2. revert E2. unfold resolve_end. cbn [s_heap s_pend with_main signal count with_pend]. rewrite HA.
      destruct (Z.eqb_spec rc 0); [contradiction|]. destruct (remove _ _ _) as [[h3 q3]| | |]; cbn [obind]; try discriminate. intros [= <- <-]. rewrite CB. reflexivity.
Qed.
(** When the worker has stopped libunbound has nothing left; once it is destroyed every
    accepted request was called exactly once *)
Theorem stopped_has_none_outstanding ls s es : runs ls (Ok (s, es)) -> s_ub s = false ->
  Permutation (accepted es) (map id_of (completed es)) /\ s_out s = [].
Proof.
  intros R U. destruct (runs_inv _ _ R) as (s' & es' & p & q & [= <- <-] & I).
  assert (W : s_work s = WNone). { pose proof (i_ub _ _ _ _ I) as E. rewrite U in E. destruct (s_work s); congruence. }
  pose proof (i_perm _ _ _ _ I) as P. rewrite (i_none _ _ _ _ I W) in P. apply Permutation_nil in P. apply app_eq_nil in P as [O _].
  split; [|exact O]. pose proof (i_acc _ _ _ _ I) as A. rewrite O in A. cbn in A. rewrite app_nil_r in A. exact A.
Qed.
Theorem destroyed_has_called_all ls s es : runs ls (Ok (s, es)) -> s_main s = MGone ->
  called es = completed es /\ Permutation (accepted es) (map id_of (called es)).
Proof.
  intros R G. destruct (runs_inv _ _ R) as (s' & es' & p & q & [= <- <-] & I).
  destruct (i_gone _ _ _ _ I G) as [W ->].
  assert (U : s_ub s = false) by (rewrite (i_ub _ _ _ _ I), W; reflexivity).
  pose proof (i_comp _ _ _ _ I) as C. unfold moving, removing in C. rewrite W in C. cbn in C. rewrite app_nil_r in C.
  split; [auto|]. rewrite <- C. apply (stopped_has_none_outstanding _ _ _ R U).
Qed.

(** ** Nothing is lost: the loop and the thread, left to themselves, always finish *)
(** Steps that need no new call of the program: the end of a call in progress, the events of
    the loop, the thread; libunbound answers. Not counted: waking up without a signal. *)
Definition own (l : label) : bool :=
  match l with LSent _ | LAsync | LDrain | LStop | TCheck | TWake false | TDeliver _ _ _ | TReturn | TRemove | TEnqueue | TSignal | TQuit => true | _ => false end.
(** When none of them can be taken, every accepted request was called back, and a worker that
    was told to stop has stopped *)
Theorem at_rest_all_called ls s es : runs ls (Ok (s, es)) -> (forall l, own l = true -> wstep l s = None) ->
  called es = completed es /\ Permutation (accepted es) (map id_of (called es)) /\ s_exit s = false.
Proof.
  intros R N. destruct (runs_inv _ _ R) as (s' & es' & p & q & [= <- <-] & I).
  destruct I as [Ip Iq Ind Im Ipm Iu Ix Ie Iqt Inn Is Isg Ia Ig Iacc Icmp Isz]. unfold moving, removing, sending in *.
  assert (MS : forall a, s_main s <> MSend a). { intros a M. specialize (N (LSent 0) eq_refl). cbn in N. rewrite M in N. discriminate. }
  assert (MD : s_main s <> MDrain). { intros M. specialize (N LDrain eq_refl). cbn in N. rewrite M in N. discriminate. }
  assert (W : s_work s = WNone \/ s_work s = WBlocked).
  { pose proof (N TCheck eq_refl) as N1. pose proof (N TRemove eq_refl) as N2. pose proof (N TEnqueue eq_refl) as N3. pose proof (N TSignal eq_refl) as N4.
    pose proof (N TQuit eq_refl) as N5. pose proof (N TReturn eq_refl) as N6. pose proof (N LStop eq_refl) as N7. cbn in *.
    destruct (s_work s) eqn:K; try discriminate; auto.
    - exfalso. destruct (s_out s) as [|a o] eqn:O; [discriminate|]. specialize (N (TDeliver a 0 0) eq_refl). cbn in N. rewrite K, O in N. cbn in N. rewrite Z.eqb_refl in N. discriminate.
    - exfalso. rewrite Iqt in N7. destruct (s_main s) eqn:M; try discriminate; [apply (MS a); reflexivity|apply MD; reflexivity|]. destruct (Ig eq_refl). discriminate. }
  assert (S0 : s_work s = WBlocked -> s_sig s = false). { intro K. specialize (N (TWake false) eq_refl). cbn in N. rewrite K in N. destruct (s_sig s); [discriminate|reflexivity]. }
  assert (P0 : p = []).
  { destruct W as [K|K]; [auto|]. destruct p; [reflexivity|]. rewrite (S0 K) in Isg. discriminate Isg; [exact K|left; discriminate]. }
  assert (X0 : s_exit s = false).
  { destruct (s_exit s) eqn:X; [|reflexivity]. destruct W as [K|K]; [rewrite (Ix eq_refl), K in Iu; discriminate|]. rewrite (S0 K) in Isg. discriminate Isg; [exact K|right; reflexivity]. }
  subst p. apply Permutation_nil in Ipm. apply app_eq_nil in Ipm as [O _]. rewrite O in Iacc. cbn in Iacc. rewrite app_nil_r in Iacc.
  assert (Q0 : q = []).
  { destruct q as [|x q]; [reflexivity|]. destruct Ia as [A|[A|A]]; [discriminate| |destruct W; congruence|contradiction].
    specialize (N LAsync eq_refl). cbn in N. rewrite A in N. destruct (s_main s) eqn:M; try discriminate. destruct (MS a); reflexivity. destruct MD; reflexivity. }
  subst q. assert (C : completed es = called es). { rewrite Icmp. destruct W as [-> | ->]; cbn; apply app_nil_r. }
  split; [auto|]. split; [|exact X0]. rewrite <- C. exact Iacc.
Qed.

(** How much is left to do *)
Definition work_left (s : state) (es : list event) : nat :=
  10 * length (s_out s)
  + match s_work s with
    | WNone => 0 | WEnd => 1 | WQuit => 2 | WBlocked => if s_sig s then 6 else 0 | WCheck => match s_out s with [] => 3 | _ => 5 end | WWait => 4
    | WSignal => 7 | WEnqueue _ => 9 | WRemove _ => 10
    end
  + (length (completed es) - length (called es)) + (if s_async s then 2 else 0) + match s_main s with MDrain => 1 | _ => 0 end.
Definition busy (s : state) : bool := match s_main s with MSend _ => true | _ => false end.

Lemma own_step_less l s es p q s' fs :
  Inv s es p q -> busy s = false -> own l = true -> wstep l s = Some (Ok (s', fs)) ->
  busy s' = false /\ (work_left s' (es ++ fs) < work_left s es)%nat.
Proof.
  intros I B O W.
  assert (P : polite l s) by (destruct l; try exact Logic.I; try discriminate O).
  destruct (step_inv _ _ _ _ _ _ I P W) as (s1 & f1 & p1 & q1 & E & I1). injection E as <- <-.
  pose proof (i_comp _ _ _ _ I) as C. pose proof (i_comp _ _ _ _ I1) as C1. pose proof (i_perm _ _ _ _ I) as PM. pose proof (i_pend _ _ _ _ I) as D.
  unfold moving, removing, sending in *.
  assert (L1 : (length (called (es ++ fs)) <= length (completed (es ++ fs)))%nat) by (rewrite C1, app_length; lia).
  assert (L0 : (length (called es) <= length (completed es))%nat) by (rewrite C, app_length; lia).
  assert (SND : match s_main s with MSend a => [a] | _ => [] end = []) by (unfold busy in B; destruct (s_main s); congruence).
  rewrite SND in PM. unfold work_left.
  destruct l; try discriminate O; cbn [wstep] in W.
  - exfalso. unfold busy in B. destruct (s_main s); discriminate.
  - destruct (s_async s); [|discriminate W]. destruct (s_main s) eqn:M; try discriminate W; injection W as <- <-; cbn -[Nat.mul Nat.add]; rewrite ?M, app_nil_r; split; cbn; auto; try lia.
  - destruct (s_main s) eqn:M; try discriminate W. injection W as W. unfold drain in W.
    destruct q as [|x q].
    + rewrite (dequeue_nil _ _ (i_queue _ _ _ _ I)) in W. cbn [obind] in W. injection W as <- <-. cbn -[Nat.mul Nat.add]. rewrite app_nil_r. split; [reflexivity|]. lia.
    + destruct (dequeue_ok _ _ _ _ (i_queue _ _ _ _ I)) as (h' & q' & E & _ & _ & _ & n & Hn). rewrite E in W. cbn [obind] in W. rewrite Hn in W. injection W as <- <-.
      rewrite called_app, completed_app, !app_length in *. cbn -[Nat.mul Nat.add] in *. rewrite M. unfold busy. cbn. rewrite M. split; [reflexivity|]. lia.
  - destruct (s_main s) eqn:M; try discriminate W. destruct (s_work s) eqn:K; try discriminate W. destruct (s_quit s); [|discriminate W]. injection W as W. unfold stop in W.
    destruct (q_head (s_pend s)), (q_tail (s_pend s)); try discriminate W. injection W as <- <-. rewrite called_app, completed_app. cbn -[Nat.mul Nat.add]. rewrite !app_nil_r, M. unfold busy. cbn. rewrite M. split; [reflexivity|]. lia.
  - destruct (s_work s) eqn:K; try discriminate W. injection W as W. unfold check in W. cbn [app] in PM. rewrite app_nil_r in PM.
    destruct D as (Dh & _). rewrite Dh in W. destruct p as [|x p]; cbn [hd_error] in W.
    + apply Permutation_nil in PM. destruct (s_exit s); injection W as <- <-; cbn -[Nat.mul Nat.add]; rewrite app_nil_r, PM; (split; [exact B|]); lia.
    + destruct (s_ub s); [|discriminate W]. injection W as <- <-. cbn -[Nat.mul Nat.add]. rewrite app_nil_r. split; [exact B|].
      destruct (s_out s); [symmetry in PM; apply Permutation_nil in PM; discriminate|]. lia.
  - destruct (s_work s) eqn:K; try discriminate W. destruct spurious; [discriminate O|]. rewrite Bool.orb_false_r in W. destruct (s_sig s); [|discriminate W]. injection W as <- <-.
    cbn -[Nat.mul Nat.add]. rewrite app_nil_r. split; [exact B|]. destruct (s_out s); lia.
  - destruct (s_work s) eqn:K; try discriminate W. destruct (in_list (s_out s) a) eqn:L; [|discriminate W]. injection W as W. unfold deliver in W.
    destruct (s_heap s a) as [n|]; [|discriminate W]. injection W as <- <-.
    apply existsb_exists in L as (a' & L & E). apply Z.eqb_eq in E. subst a'.
    assert (NO : NoDup (s_out s)).
    { destruct D as (_ & _ & N & _). apply (Permutation_NoDup PM) in N. rewrite !app_nil_r in N. exact N. }
    pose proof (Permutation_length (drop_perm _ _ NO L)) as LN. cbn [length] in LN.
    rewrite called_app, completed_app, !app_length in *. cbn -[Nat.mul Nat.add drop] in *. split; [exact B|]. lia.
  - destruct (s_work s) eqn:K; try discriminate W. destruct (s_out s) eqn:SO; [|discriminate W]. injection W as <- <-. cbn -[Nat.mul Nat.add]. rewrite app_nil_r, SO. cbn -[Nat.mul Nat.add]. split; [exact B|]. lia.
  - destruct (s_work s) eqn:K; try discriminate W. injection W as W. destruct (remove _ _ _) as [[h' q']| | |]; try discriminate W. cbn [obind] in W. injection W as <- <-. cbn -[Nat.mul Nat.add]. rewrite app_nil_r. split; [exact B|]. lia.
  - destruct (s_work s) eqn:K; try discriminate W. injection W as W. destruct (enqueue _ _ _) as [[h' q']| | |]; try discriminate W. cbn [obind] in W. injection W as <- <-. cbn -[Nat.mul Nat.add]. rewrite app_nil_r. split; [exact B|]. lia.
  - destruct (s_work s) eqn:K; try discriminate W. injection W as <- <-. cbn -[Nat.mul Nat.add]. rewrite app_nil_r. split; [exact B|]. destruct (s_async s); lia.
  - destruct (s_work s) eqn:K; try discriminate W. injection W as <- <-. cbn -[Nat.mul Nat.add]. rewrite app_nil_r. split; [exact B|]. lia.
Qed.
Lemma own_run_short more : forall s es p q s' fs,
  Inv s es p q -> busy s = false -> forallb own more = true -> wrun more s = Some (Ok (s', fs)) ->
  (length more + work_left s' (es ++ fs) <= work_left s es)%nat.
Proof.
  induction more as [|l more IH]; intros s es p q s' fs I B O R; cbn -[work_left] in *.
  - injection R as <- <-. rewrite app_nil_r. lia.
  - apply andb_prop in O as [O O']. destruct (wstep l s) as [o|] eqn:W; [|discriminate].
    assert (P : polite l s) by (destruct l; try exact Logic.I; try discriminate O).
    destruct (step_inv _ _ _ _ _ _ I P W) as (s1 & f1 & p1 & q1 & -> & I1).
    destruct (own_step_less _ _ _ _ _ _ _ I B O W) as [B1 L1].
    destruct (wrun more s1) as [o|] eqn:R1; [|discriminate]. injection R as R.
    destruct o as [[s2 f2]| | |]; try discriminate R. cbn [obind] in R. injection R as <- <-.
    pose proof (IH _ _ _ _ _ _ I1 B1 O' R1) as L2. rewrite app_assoc. lia.
Qed.
(** After the last call of the program has returned, only finitely many steps can follow: at
    most ten for each request that libunbound has, and a few more *)
Theorem own_steps_end ls s es more s' fs : runs ls (Ok (s, es)) -> busy s = false -> forallb own more = true -> wrun more s = Some (Ok (s', fs)) ->
  (length more <= 10 * length (s_out s) + (length (completed es) - length (called es)) + 13)%nat.
Proof.
  intros R B O W. destruct (runs_inv _ _ R) as (s0 & es' & p & q & [= <- <-] & I).
  pose proof (own_run_short _ _ _ _ _ _ _ I B O W) as L. unfold work_left in L at 2.
  assert ((match s_work s with WNone => 0 | WEnd => 1 | WQuit => 2 | WBlocked => if s_sig s then 6 else 0 | WCheck => match s_out s with [] => 3 | _ => 5 end | WWait => 4
    | WSignal => 7 | WEnqueue _ => 9 | WRemove _ => 10 end <= 10)%nat) by (destruct (s_work s), (s_sig s), (s_out s); lia).
  destruct (s_async s), (s_main s); lia.
Qed.

(** ** Concrete runs and what is wrong *)
Definition tour : list label :=
  [LOpen true; TCheck; LResolve (Some 100) 1; TWake false; LSent 0; TCheck; LResolve (Some 200) 2; LSent 0; LResolve (Some 300) 3; LSent 7;
   TDeliver 200 0 55; TRemove; LClose; TEnqueue; TSignal; LAsync; LDrain; TDeliver 100 (-1) 66; TRemove; TEnqueue; LDrain; LDrain; TSignal; TReturn; TCheck; TQuit; LStop;
   LOpen true; LResolve (Some 100) 4; LSent 0; TCheck; TDeliver 100 0 77; TRemove; TEnqueue; TSignal; TReturn; LClose; TCheck; TQuit; LStop; LUninit].
Example tour_runs : exists s, runs tour (Ok (s, [Accepted 1; Accepted 2; Refused 3; Completed 2 0 55; Called 2 0 55; Completed 1 (-1) 66; Called 1 (-1) 66; Stopped;
    Accepted 4; Completed 4 0 77; Stopped; Called 4 0 77])) /\ s_main s = MGone.
Proof. eexists. split; [split; [vm_compute; tauto|vm_compute; reflexivity]|reflexivity]. Qed.
(** Two requests in flight, the thread waits for libunbound *)
Definition halfway : list label := [LOpen true; LResolve (Some 100) 1; LSent 0; LResolve (Some 200) 2; LSent 0; TCheck].
Example halfway_open : exists s es, runs halfway (Ok (s, es)) /\ s_main s = MIdle /\ s_ub s = true /\ s_exit s = false /\ s_heap s 300 = None /\ s_out s = [100; 200]
  /\ exists s' fs, wrun [TDeliver 200 0 5; TRemove; TEnqueue; TSignal; LAsync; TDeliver 100 0 6; TRemove; TEnqueue; TSignal; LDrain; LDrain; LDrain; LAsync; LDrain; TReturn; TCheck] s = Some (Ok (s', fs)).
Proof. do 2 eexists. split; [split; [vm_compute; tauto|vm_compute; reflexivity]|]. do 5 (split; [reflexivity|]). do 2 eexists. vm_compute. reflexivity. Qed.

(** hsk_rs_worker_resolve does not test malloc: without memory it writes through NULL *)
Theorem resolve_without_memory_refuted : exists s es, runs halfway (Ok (s, es)) /\ wstep (LResolve None 3) s = Some Ub.
Proof. do 2 eexists. split; [split; [vm_compute; tauto|vm_compute; reflexivity]|]. reflexivity. Qed.
(** hsk_rs_worker_init: when the first, second or third object cannot be made, the cleanup
    frees a pointer that was never written *)
Theorem init_failure_frees_garbage_refuted q p a z : q && p && a = false -> init_worker q p a z = Ub.
Proof. destruct q, p, a; cbn; intro; try discriminate; reflexivity. Qed.
(** A request that libunbound refuses stays allocated although nothing refers to it *)
Theorem refused_request_leaks : exists s es, runs [LOpen true; LResolve (Some 100) 1; LSent 1; LClose; TCheck; TQuit; LStop; LUninit] (Ok (s, es))
  /\ accepted es = [] /\ s_main s = MGone /\ s_heap s 100 <> None.
Proof. do 2 eexists. split; [split; [vm_compute; tauto|vm_compute; reflexivity]|]. split; [reflexivity|]. split; [reflexivity|]. vm_compute. discriminate. Qed.

Print Assumptions worker_never_fails.
Print Assumptions callbacks_in_completion_order.
Print Assumptions callbacks_at_most_once.
Print Assumptions resolve_refused_exactly.
Print Assumptions stopped_has_none_outstanding.
Print Assumptions destroyed_has_called_all.
Print Assumptions at_rest_all_called.
Print Assumptions own_steps_end.
Print Assumptions resolve_without_memory_refuted.
Print Assumptions init_failure_frees_garbage_refuted.
Print Assumptions refused_request_leaks.
