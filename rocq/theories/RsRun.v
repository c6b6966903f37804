(** C74: the recursive server with its resolver thread, in every interleaving. *)
From Verif Require Import Common CommonFacts ProofFacts WorkerModel WorkerFacts WorkerRun WorkerTheorems DnsNameModel DnsNameSpec DnsMsgModel DnsMsgSpec ReqModel ReqTheorems DnsMsgTotal AnswerModel RsModel RsTheorems.
From Coq Require Import Permutation Lia.

(** ** Specification *)
(** What is seen of one request *)
Definition number (e : sight) : Z := match e with Got n _ _ | Asked n _ _ _ | Resolved n _ _ | Reply n _ _ | Freed n => n | Closed => -1 end.
Definition history (n : Z) (es : list sight) : list sight := filter (fun e => number e =? n) es.
Definition sent (n : Z) (cl : list Z) (o : option (list Z)) : list sight := match o with Some w => [Reply n w cl] | None => [] end.
Section Life.
Variables (sign : option (list Z -> option (list Z))) (result : Z -> option answer).
(** The life of a request, as far as it has come; [true]: it is over. *)
Inductive life (n : Z) (q : req) (cl : list Z) : bool -> list sight -> Prop :=
| l_got : q_type q <> 255 -> life n q cl false [Got n q cl]
| l_asked : q_type q <> 255 -> life n q cl false [Got n q cl; Asked n (q_name q) (q_type q) (q_class q)]
| l_resolved st r : q_type q <> 255 -> life n q cl false [Got n q cl; Asked n (q_name q) (q_type q) (q_class q); Resolved n st r]
| l_any m o : q_type q = 255 -> only_code 4 m -> msg_finalize sign m q = Ok o -> life n q cl true (Got n q cl :: sent n cl o ++ [Freed n])
| l_refused o : q_type q <> 255 -> refusal sign q o -> life n q cl true (Got n q cl :: sent n cl o ++ [Freed n])
| l_over st r o : q_type q <> 255 -> (result r = None -> o = None) -> (forall a, result r = Some a -> answered sign q a st o) ->
    life n q cl true (Got n q cl :: Asked n (q_name q) (q_type q) (q_class q) :: Resolved n st r :: sent n cl o ++ [Freed n]).
End Life.

(** ** What a step of the worker does to the requests *)
Definition cb (h : heap) (a : Z) : Z := id_of (inf h a).
Definition flight (w : state) : list Z := map (cb (s_heap w)) (sending w).
Definition outs (w : state) : list Z := map (cb (s_heap w)) (s_out w).
Definition backlog (w : state) (q : list Z) : list triple := map (inf (s_heap w)) (q ++ moving w ++ removing w).

Lemma inv_lists l w wes p q w' fs : Inv w wes p q -> polite l w -> wstep l w = Some (Ok (w', fs)) ->
  exists p' q', Inv w' (wes ++ fs) p' q' /\ Permutation (outs w ++ accepted fs) (map id_of (completed fs) ++ outs w') /\ backlog w q ++ completed fs = called fs ++ backlog w' q'.
Proof.
  intros I P W. destruct (step_inv _ _ _ _ _ _ I P W) as (s1 & f1 & p' & q' & E & I'). injection E as <- <-. exists p', q'. split; [exact I'|].
  pose proof (i_acc _ _ _ _ I) as A. pose proof (i_acc _ _ _ _ I') as A'. pose proof (i_comp _ _ _ _ I) as C. pose proof (i_comp _ _ _ _ I') as C'.
  rewrite accepted_app, completed_app, map_app in A'. rewrite completed_app, called_app in C'. split.
  - apply (Permutation_app_inv_l (map id_of (completed wes))). rewrite !app_assoc. rewrite <- A' . apply Permutation_app_tail. symmetry. exact A.
  - apply (app_inv_head (called wes)). rewrite app_assoc. unfold backlog at 1. rewrite <- C, C', <- app_assoc. reflexivity.
Qed.
Lemma poke_cb h a f h' x : poke h a f = Ok h' -> (forall n, n_cb (f n) = n_cb n) -> cb h' x = cb h x.
Proof.
  unfold poke. destruct (h a) as [n|] eqn:E; [|discriminate]. intros [= <-] F. unfold cb, inf. destruct (Z.eq_dec x a) as [->|N]; [rewrite hset_same, E; apply F|now rewrite hset_other].
Qed.
Lemma enqueue_cb h q a h' q' x : enqueue h q a = Ok (h', q') -> cb h' x = cb h x.
Proof.
  unfold enqueue. destruct (q_tail q) as [t|]; [|destruct (q_head q); [discriminate|intros [= <- _]; reflexivity]].
  destruct (poke h t _) as [h1| | |] eqn:E1; cbn [obind]; try discriminate. destruct (poke h1 a _) as [h2| | |] eqn:E2; cbn [obind]; try discriminate. intros [= <- _].
  rewrite (poke_cb _ _ _ _ x E2), (poke_cb _ _ _ _ x E1); reflexivity.
Qed.
Lemma remove_cb h q a h' q' x : remove h q a = Ok (h', q') -> cb h' x = cb h x.
Proof.
  unfold remove. destruct (q_head q); [|discriminate]. destruct (q_tail q); [|discriminate]. destruct (h a) as [n|]; [|discriminate].
  set (o1 := match n_prev n with Some p => _ | None => _ end). assert (K1 : forall h1 y, o1 = Ok (h1, y) -> forall x, cb h1 x = cb h x).
  { intros h1 y E yy. unfold o1 in E. destruct (n_prev n) as [p|]; [destruct (poke h p _) eqn:Ep; cbn in E; try discriminate E; injection E as <- _; now apply (poke_cb _ _ _ _ yy Ep)|destruct (is_at _ a); [injection E as <- _; reflexivity|discriminate E]]. }
  destruct o1 as [[h1 hd]| | |]; cbn [obind]; try discriminate. specialize (K1 h1 hd eq_refl).
  set (o2 := match n_next n with Some p => _ | None => _ end). assert (K2 : forall h2 y, o2 = Ok (h2, y) -> forall x, cb h2 x = cb h1 x).
  { intros h2 y E yy. unfold o2 in E. destruct (n_next n) as [p|]; [destruct (poke h1 p _) eqn:Ep; cbn in E; try discriminate E; injection E as <- _; now apply (poke_cb _ _ _ _ yy Ep)|destruct (is_at _ a); [injection E as <- _; reflexivity|discriminate E]]. }
  destruct o2 as [[h2 tl]| | |]; cbn [obind]; try discriminate. specialize (K2 h2 tl eq_refl).
  destruct (poke h2 a _) as [h3| | |] eqn:E3; cbn [obind]; try discriminate. intros [= <- _]. rewrite (poke_cb _ _ _ _ x E3), K2, K1 by reflexivity. reflexivity.
Qed.
Lemma flush_called fuel : forall h cur h' es, flush fuel h cur = Ok (h', es) -> exists l, es = map called_of l.
Proof.
  induction fuel as [|k IH]; intros h [a|] h' es; cbn [flush]; try discriminate; try (intros [= <- <-]; exists []; reflexivity).
  destruct (h a) as [n|]; [|discriminate]. destruct (flush k _ _) as [[h1 es1]| | |] eqn:E; cbn [obind]; try discriminate. intros [= <- <-]. destruct (IH _ _ _ _ E) as [l ->].
  exists ((n_cb n, n_status n, n_result n) :: l). reflexivity.
Qed.
(** Which events a step has, and which request is being passed to libunbound *)
Inductive shape (w w' : state) : label -> list event -> Prop :=
| sh_open ok : flight w = [] -> flight w' = [] -> s_main w' <> MGone -> shape w w' (LOpen ok) []
| sh_refused a i : flight w = [] -> w' = w -> shape w w' (LResolve a i) [Refused i]
| sh_started a i : flight w = [] -> flight w' = [i] -> s_main w' <> MGone -> shape w w' (LResolve a i) []
| sh_close : flight w = [] -> flight w' = [] -> s_main w' <> MGone -> shape w w' LClose []
| sh_uninit l : flight w = [] -> flight w' = [] -> s_main w' = MGone -> shape w w' LUninit (map called_of l)
| sh_accepted rc i : rc = 0 -> flight w = [i] -> flight w' = [] -> s_main w' <> MGone -> shape w w' (LSent rc) [Accepted i]
| sh_taken rc i : rc <> 0 -> flight w = [i] -> flight w' = [] -> s_main w' <> MGone -> shape w w' (LSent rc) [Refused i]
| sh_quiet l : inner l = true -> flight w' = flight w -> (s_main w' = MGone <-> s_main w = MGone) -> shape w w' l []
| sh_called l t : inner l = true -> flight w' = flight w -> (s_main w' = MGone <-> s_main w = MGone) -> shape w w' l [called_of t]
| sh_completed l i st r : inner l = true -> flight w' = flight w -> (s_main w' = MGone <-> s_main w = MGone) -> shape w w' l [Completed i st r]
| sh_stopped : s_main w = MIdle -> s_main w' = MIdle -> s_ub w' = false -> shape w w' LStop [Stopped].
Ltac shp := cbn [s_main s_heap s_out with_main with_work with_pend with_queue with_out with_flags with_run with_heap count signal]; try reflexivity; try discriminate; try tauto.
Lemma step_shape l w w' fs : wstep l w = Some (Ok (w', fs)) -> shape w w' l fs.
Proof.
  unfold flight, sending. destruct l; cbn [wstep]; intros W.
  - destruct (s_main w) eqn:M; try discriminate W. injection W as W. unfold open in W. destruct (s_exit w || s_ub w); [discriminate W|]. destruct ok; injection W as <- <-; apply sh_open; unfold flight, sending; shp; rewrite ?M; shp.
  - destruct (s_main w) eqn:M; try discriminate W. destruct (fresh w a); [|discriminate W]. injection W as W. unfold resolve_start in W. destruct (s_exit w || negb (s_ub w)).
    + injection W as <- <-. apply sh_refused; [unfold flight, sending; rewrite M; reflexivity|reflexivity].
    + destruct a as [a|]; [|discriminate W]. cbn [new_node obind] in W. destruct (enqueue _ _ a) as [[h q]| | |] eqn:E; cbn [obind] in W; try discriminate W. injection W as <- <-.
      apply sh_started; unfold flight, sending; shp; [rewrite M; reflexivity|]. cbn [map]. f_equal. rewrite (enqueue_cb _ _ _ _ _ a E). unfold cb, inf. rewrite hset_same. reflexivity.
  - destruct (s_main w) eqn:M; try discriminate W. injection W as W. unfold close in W. destruct (s_exit w); [|destruct (negb (s_ub w)); [discriminate W|]]; injection W as <- <-; apply sh_close; unfold flight, sending; shp; rewrite ?M; shp.
  - destruct (s_main w) eqn:M; try discriminate W. injection W as W. unfold uninit in W. destruct (s_exit w); [discriminate W|]. destruct (s_ub w); [discriminate W|]. destruct (q_head (s_pend w)); [discriminate W|].
    destruct (flush _ _ _) as [[h es]| | |] eqn:E; cbn [obind] in W; try discriminate W. injection W as <- <-. destruct (flush_called _ _ _ _ _ E) as [l ->]. apply sh_uninit; unfold flight, sending; shp; rewrite ?M; shp.
  - destruct (s_main w) eqn:M; try discriminate W. injection W as W. unfold resolve_end in W. destruct (s_heap w a) as [n|] eqn:N; [|discriminate W].
    assert (F : flight w = [n_cb n]) by (unfold flight, sending; rewrite M; cbn [map]; unfold cb, inf; rewrite N; reflexivity).
    destruct (Z.eqb_spec rc 0).
    + injection W as <- <-. apply sh_accepted; auto; unfold flight, sending; shp.
    + destruct (remove _ _ a) as [[h q]| | |]; cbn [obind] in W; try discriminate W. injection W as <- <-. apply sh_taken; auto; unfold flight, sending; shp.
  - destruct (s_async w); [|discriminate W]. destruct (s_main w) eqn:M; try discriminate W; injection W as <- <-; apply sh_quiet; unfold flight, sending; shp; rewrite ?M; shp. split; discriminate.
  - destruct (s_main w) eqn:M; try discriminate W. injection W as W. unfold drain in W. destruct (dequeue _ _) as [[[h q] [a|]]| | |]; cbn [obind] in W; try discriminate W.
    + destruct (h a) as [n|]; [|discriminate W]. injection W as <- <-. apply (sh_called _ _ LDrain (n_cb n, n_status n, n_result n)); unfold flight, sending; shp; rewrite ?M; shp.
    + injection W as <- <-. apply sh_quiet; unfold flight, sending; shp; rewrite ?M; shp. split; discriminate.
  - destruct (s_main w) eqn:M; try discriminate W. destruct (s_work w); try discriminate W. destruct (s_quit w); [|discriminate W]. injection W as W. unfold stop in W. destruct (q_head (s_pend w)); try discriminate W. destruct (q_tail (s_pend w)); try discriminate W. injection W as <- <-. apply sh_stopped; shp; rewrite ?M; shp.
  - destruct (s_work w); try discriminate W. injection W as W. unfold check in W. destruct (q_head _); [destruct (s_ub w); [|discriminate W]|destruct (s_exit w)]; injection W as <- <-; apply sh_quiet; unfold flight, sending; shp.
  - destruct (s_work w); try discriminate W. destruct (s_sig w || spurious); [|discriminate W]. injection W as <- <-. apply sh_quiet; unfold flight, sending; shp.
  - destruct (s_work w); try discriminate W. destruct (in_list _ a); [|discriminate W]. injection W as W. unfold deliver in W. destruct (s_heap w a) as [n|] eqn:N; [|discriminate W]. injection W as <- <-. apply sh_completed; unfold flight, sending; shp.
    apply map_ext. intros x. unfold cb, inf. destruct (Z.eq_dec x a) as [->|X]; [rewrite hset_same, N; reflexivity|now rewrite hset_other].
  - destruct (s_work w); try discriminate W. destruct (s_out w); [|discriminate W]. injection W as <- <-. apply sh_quiet; unfold flight, sending; shp.
  - destruct (s_work w); try discriminate W. injection W as W. destruct (remove _ _ a) as [[h q]| | |] eqn:E; cbn [obind] in W; try discriminate W. injection W as <- <-. apply sh_quiet; unfold flight, sending; shp. apply map_ext. intros x. exact (remove_cb _ _ _ _ _ x E).
  - destruct (s_work w); try discriminate W. injection W as W. destruct (enqueue _ _ a) as [[h q]| | |] eqn:E; cbn [obind] in W; try discriminate W. injection W as <- <-. apply sh_quiet; unfold flight, sending; shp. apply map_ext. intros x. exact (enqueue_cb _ _ _ _ _ x E).
  - destruct (s_work w); try discriminate W. injection W as <- <-. apply sh_quiet; unfold flight, sending; shp.
  - destruct (s_work w); try discriminate W. injection W as <- <-. apply sh_quiet; unfold flight, sending; shp.
Qed.

Lemma history_app n a b : history n (a ++ b) = history n a ++ history n b.
Proof. apply filter_app. Qed.
Lemma history_other n es : (forall e, In e es -> number e <> n) -> history n es = [].
Proof. induction es as [|e es IH]; intros H; [reflexivity|]. cbn. destruct (Z.eqb_spec (number e) n) as [E|E]; [destruct (H e); [left; reflexivity|exact E]|apply IH; intros; apply H; now right]. Qed.
Lemma history_own n es : (forall e, In e es -> number e = n) -> history n es = es.
Proof. induction es as [|e es IH]; intros H; [reflexivity|]. cbn. rewrite H by (left; reflexivity). rewrite Z.eqb_refl. f_equal. apply IH. intros; apply H; now right. Qed.
Lemma sent_number n cl o e : In e (sent n cl o ++ [Freed n]) -> number e = n.
Proof. destruct o; cbn; intuition (subst; reflexivity). Qed.

Section Run.
Variables (sign : option (list Z -> option (list Z))) (result : Z -> option answer).
Hypothesis Hres : forall r a, result r = Some a -> answer_made a.
Notation Life := (life sign result).
Notation Reacts := (reacts sign result).

(** The requests in memory are those being passed on, those that libunbound has, and those it
    has completed *)
Record Live (reqs : Z -> option entry) (next : Z) (es : list sight) (A B : list Z) (C : list triple) : Prop := {
  v_nodup : NoDup (A ++ B ++ map id_of C);
  v_reqs : forall i, In i (A ++ B ++ map id_of C) <-> reqs i <> None;
  v_ok : forall i x, reqs i = Some x -> 0 <= x_no x < next /\ req_ok (x_req x) /\ q_type (x_req x) <> 255;
  v_inj : forall i j x y, reqs i = Some x -> reqs j = Some y -> x_no x = x_no y -> i = j;
  v_a : forall i x, In i A -> reqs i = Some x -> history (x_no x) es = [Got (x_no x) (x_req x) (x_client x)];
  v_b : forall i x, In i B -> reqs i = Some x -> history (x_no x) es = [Got (x_no x) (x_req x) (x_client x); Asked (x_no x) (q_name (x_req x)) (q_type (x_req x)) (q_class (x_req x))];
  v_c : forall i st r x, In (i, st, r) C -> reqs i = Some x ->
    history (x_no x) es = [Got (x_no x) (x_req x) (x_client x); Asked (x_no x) (q_name (x_req x)) (q_type (x_req x)) (q_class (x_req x)); Resolved (x_no x) st r];
  v_over : forall n, 0 <= n < next -> (forall i x, reqs i = Some x -> x_no x <> n) -> exists q cl, Life n q cl true (history n es);
  v_next : 0 <= next;
  v_new : forall n, next <= n -> history n es = [] }.

Lemma live_ext reqs reqs' next es A B B' C : (forall i, reqs' i = reqs i) -> Permutation B B' -> Live reqs next es A B C -> Live reqs' next es A B' C.
Proof.
  intros E P [V1 V2 V3 V4 V5 V6 V7 V8 V9 V0].
  assert (PP : Permutation (A ++ B ++ map id_of C) (A ++ B' ++ map id_of C)) by (apply Permutation_app_head, Permutation_app_tail, P).
  constructor; auto.
  - exact (Permutation_NoDup PP V1).
  - intros i. rewrite E, <- V2. split; apply Permutation_in; [symmetry|]; exact PP.
  - intros i x. rewrite E. apply V3.
  - intros i j x y. rewrite !E. apply V4.
  - intros i x I. rewrite E. now apply V5.
  - intros i x I. rewrite E. apply V6. exact (Permutation_in _ (Permutation_sym P) I).
  - intros i st r x I. rewrite E. now apply V7.
  - intros n Hn H. apply V8; [exact Hn|]. intros i x X. apply (H i). now rewrite E.
Qed.
(** A request is freed *)
Lemma live_freed reqs next es A B C A' B' C' i x o : Live reqs next es A B C -> reqs i = Some x ->
  Permutation (A ++ B ++ map id_of C) (i :: A' ++ B' ++ map id_of C') -> incl A' A -> incl B' B -> incl C' C ->
  Life (x_no x) (x_req x) (x_client x) true (history (x_no x) es ++ sent (x_no x) (x_client x) o ++ [Freed (x_no x)]) ->
  Live (fun j => if j =? i then None else reqs j) next (es ++ sent (x_no x) (x_client x) o ++ [Freed (x_no x)]) A' B' C'.
Proof.
  intros [V1 V2 V3 V4 V5 V6 V7 V8 V9 V0] X P IA IB IC L.
  pose proof (Permutation_NoDup P V1) as N. apply NoDup_cons_iff in N as [Ni N].
  assert (Ho : forall n, n <> x_no x -> history n (es ++ sent (x_no x) (x_client x) o ++ [Freed (x_no x)]) = history n es).
  { intros n Hn. rewrite history_app. rewrite (history_other n (sent _ _ _ ++ _)); [apply app_nil_r|]. intros e He. apply sent_number in He. congruence. }
  assert (Hx : history (x_no x) (es ++ sent (x_no x) (x_client x) o ++ [Freed (x_no x)]) = history (x_no x) es ++ sent (x_no x) (x_client x) o ++ [Freed (x_no x)]).
  { rewrite history_app. f_equal. apply history_own. intros e. apply sent_number. }
  assert (Hr : forall j y, (if j =? i then None else reqs j) = Some y -> j <> i /\ reqs j = Some y /\ x_no y <> x_no x).
  { intros j y. destruct (Z.eqb_spec j i) as [|Nj]; [discriminate|]. intros Y. split; [exact Nj|]. split; [exact Y|]. intros E. apply Nj. exact (V4 _ _ _ _ Y X E). }
  constructor; auto.
  - intros j. destruct (Z.eqb_spec j i) as [->|Nj]; [split; [intros I; contradiction|congruence]|]. rewrite <- V2. split; intros I.
    + apply (Permutation_in _ (Permutation_sym P)). now right.
    + apply (Permutation_in _ P) in I as [I|I]; [congruence|exact I].
  - intros j y Y. apply Hr in Y as (_ & Y & _). exact (V3 _ _ Y).
  - intros j k y z Y Z. apply Hr in Y as (_ & Y & _). apply Hr in Z as (_ & Z & _). exact (V4 _ _ _ _ Y Z).
  - intros j y I Y. apply Hr in Y as (_ & Y & D). rewrite Ho by exact D. apply (V5 j); auto.
  - intros j y I Y. apply Hr in Y as (_ & Y & D). rewrite Ho by exact D. apply (V6 j); auto.
  - intros j st r y I Y. apply Hr in Y as (_ & Y & D). rewrite Ho by exact D. apply (V7 j); auto.
  - intros n Hn H. destruct (Z.eq_dec n (x_no x)) as [->|D].
    + rewrite Hx. eauto.
    + rewrite Ho by exact D. apply V8; [exact Hn|]. intros j y Y E. destruct (Z.eq_dec j i) as [->|Nj]; [congruence|]. apply (H j y); [|exact E]. destruct (Z.eqb_spec j i); [contradiction|exact Y].
  - intros n Hn. rewrite Ho; [now apply V0|]. destruct (V3 _ _ X). lia.
Qed.
(** Something is seen of a request in memory, which moves on *)
Lemma live_moved reqs next es A B C A' B' C' i x e : Live reqs next es A B C -> reqs i = Some x -> number e = x_no x ->
  Permutation (A ++ B ++ map id_of C) (A' ++ B' ++ map id_of C') ->
  (forall j, In j A' -> j <> i /\ In j A) -> (forall j, In j B' -> (j <> i /\ In j B) \/ (j = i /\ history (x_no x) es ++ [e] = [Got (x_no x) (x_req x) (x_client x); Asked (x_no x) (q_name (x_req x)) (q_type (x_req x)) (q_class (x_req x))])) ->
  (forall j st r, In (j, st, r) C' -> (j <> i /\ In (j, st, r) C) \/ (j = i /\ history (x_no x) es ++ [e] = [Got (x_no x) (x_req x) (x_client x); Asked (x_no x) (q_name (x_req x)) (q_type (x_req x)) (q_class (x_req x)); Resolved (x_no x) st r])) ->
  Live reqs next (es ++ [e]) A' B' C'.
Proof.
  intros [V1 V2 V3 V4 V5 V6 V7 V8 V9 V0] X Ne P IA IB IC.
  assert (Ho : forall n, n <> x_no x -> history n (es ++ [e]) = history n es).
  { intros n Hn. rewrite history_app. rewrite (history_other n [e]); [apply app_nil_r|]. intros e' [<-|[]]. congruence. }
  assert (Hx : history (x_no x) (es ++ [e]) = history (x_no x) es ++ [e]).
  { rewrite history_app. f_equal. apply history_own. intros e' [<-|[]]. exact Ne. }
  assert (Hd : forall j y, j <> i -> reqs j = Some y -> x_no y <> x_no x) by (intros j y Nj Y E; apply Nj; exact (V4 _ _ _ _ Y X E)).
  constructor; auto.
  - exact (Permutation_NoDup P V1).
  - intros j. rewrite <- V2. split; apply Permutation_in; [symmetry|]; exact P.
  - intros j y I Y. destruct (IA j I) as [Nj I']. rewrite Ho by (eapply Hd; eauto). now apply (V5 j).
  - intros j y I Y. destruct (IB j I) as [[Nj I']|[-> E]]; [rewrite Ho by (eapply Hd; eauto); now apply (V6 j)|]. rewrite X in Y. injection Y as <-. rewrite Hx. exact E.
  - intros j st r y I Y. destruct (IC j st r I) as [[Nj I']|[-> E]]; [rewrite Ho by (eapply Hd; eauto); now apply (V7 j)|]. rewrite X in Y. injection Y as <-. rewrite Hx. exact E.
  - intros n Hn H. rewrite Ho; [now apply V8|]. intros ->. exact (H i x X eq_refl).
  - intros n Hn. rewrite Ho; [now apply V0|]. destruct (V3 _ _ X). lia.
Qed.
(** A request is recorded *)
Lemma live_got reqs next es B C i q cl : Live reqs next es [] B C -> reqs i = None -> req_ok q -> q_type q <> 255 ->
  Live (fun j => if j =? i then Some {| x_no := next; x_req := q; x_client := cl |} else reqs j) (next + 1) (es ++ [Got next q cl]) [i] B C.
Proof.
  intros [V1 V2 V3 V4 V5 V6 V7 V8 V9 V0] X Rq Ty.
  assert (Ho : forall n, n <> next -> history n (es ++ [Got next q cl]) = history n es).
  { intros n Hn. rewrite history_app. rewrite (history_other n [_]); [apply app_nil_r|]. intros e' [<-|[]]. cbn. congruence. }
  assert (Hx : history next (es ++ [Got next q cl]) = [Got next q cl]).
  { rewrite history_app, V0 by lia. apply history_own. intros e' [<-|[]]. reflexivity. }
  assert (Hi : forall j y, reqs j = Some y -> j <> i) by (intros j y Y ->; congruence).
  constructor.
  - cbn [app]. constructor; [|exact V1]. intros I. apply (V2 i) in I. contradiction.
  - intros j. cbn [app In]. specialize (V2 j). cbn [app] in V2. destruct (Z.eqb_spec j i) as [->|Nj]; [split; [discriminate|auto]|]. rewrite <- V2. intuition congruence.
  - intros j y. destruct (Z.eqb_spec j i); [intros [= <-]; cbn; split; [lia|auto]|]. intros Y. destruct (V3 _ _ Y). split; [lia|auto].
  - intros j k y z. destruct (Z.eqb_spec j i) as [->|Nj], (Z.eqb_spec k i) as [->|Nk]; auto.
    + intros [= <-] Z. cbn. destruct (V3 _ _ Z). lia.
    + intros Y [= <-]. cbn. destruct (V3 _ _ Y). lia.
    + apply V4.
  - intros j y [<-|[]]. rewrite Z.eqb_refl. intros [= <-]. cbn [x_no x_req x_client]. exact Hx.
  - intros j y I. destruct (Z.eqb_spec j i) as [->|Nj]; [destruct (proj1 (V2 i)); [cbn [app]; apply in_or_app; now left|exact X]|]. intros Y. rewrite Ho; [now apply (V6 j)|]. destruct (V3 _ _ Y). lia.
  - intros j st r y I. destruct (Z.eqb_spec j i) as [->|Nj]; [destruct (proj1 (V2 i)); [cbn [app]; apply in_or_app; right; apply in_map_iff; now exists (i, st, r)|exact X]|]. intros Y. rewrite Ho; [now apply (V7 j)|]. destruct (V3 _ _ Y). lia.
  - intros n Hn H. destruct (Z.eq_dec n next) as [->|D].
    + exfalso. apply (H i {| x_no := next; x_req := q; x_client := cl |}); [now rewrite Z.eqb_refl|reflexivity].
    + rewrite Ho by exact D. apply V8; [lia|]. intros j y Y. apply (H j). destruct (Z.eqb_spec j i) as [->|]; [congruence|exact Y].
  - lia.
  - intros n Hn. rewrite Ho by lia. apply V0. lia.
Qed.
(** A request that is answered at once *)
Lemma live_any reqs next es A B C q cl o m : Live reqs next es A B C -> q_type q = 255 -> only_code 4 m -> msg_finalize sign m q = Ok o ->
  Live reqs (next + 1) (es ++ Got next q cl :: sent next cl o ++ [Freed next]) A B C.
Proof.
  intros [V1 V2 V3 V4 V5 V6 V7 V8 V9 V0] Ty Hm E.
  assert (K : forall e, In e (Got next q cl :: sent next cl o ++ [Freed next]) -> number e = next) by (intros e [<-|I]; [reflexivity|exact (sent_number _ _ _ _ I)]).
  assert (Ho : forall n, n <> next -> history n (es ++ Got next q cl :: sent next cl o ++ [Freed next]) = history n es).
  { intros n Hn. rewrite history_app. rewrite (history_other n (_ :: _)); [apply app_nil_r|]. intros e' I. rewrite (K _ I). congruence. }
  assert (Hx : history next (es ++ Got next q cl :: sent next cl o ++ [Freed next]) = Got next q cl :: sent next cl o ++ [Freed next]).
  { rewrite history_app, V0 by lia. apply history_own. exact K. }
  constructor; auto.
  - intros j y Y. destruct (V3 _ _ Y). split; [lia|auto].
  - intros j y I Y. rewrite Ho; [now apply (V5 j)|]. destruct (V3 _ _ Y). lia.
  - intros j y I Y. rewrite Ho; [now apply (V6 j)|]. destruct (V3 _ _ Y). lia.
  - intros j st r y I Y. rewrite Ho; [now apply (V7 j)|]. destruct (V3 _ _ Y). lia.
  - intros n Hn H. destruct (Z.eq_dec n next) as [->|D]; [rewrite Hx; exists q, cl; now apply (l_any _ _ _ _ _ m)|]. rewrite Ho by exact D. apply V8; [lia|exact H].
  - lia.
  - intros n Hn. rewrite Ho by lia. apply V0. lia.
Qed.
Lemma live_closed reqs next es A B C : Live reqs next es A B C -> Live reqs next (es ++ [Closed]) A B C.
Proof.
  intros [V1 V2 V3 V4 V5 V6 V7 V8 V9 V0].
  assert (Ho : forall n, 0 <= n -> history n (es ++ [Closed]) = history n es).
  { intros n Hn. rewrite history_app. rewrite (history_other n [_]); [apply app_nil_r|]. intros e' [<-|[]]. cbn. lia. }
  constructor; auto.
  - intros j y I Y. rewrite Ho; [now apply (V5 j)|]. destruct (V3 _ _ Y). lia.
  - intros j y I Y. rewrite Ho; [now apply (V6 j)|]. destruct (V3 _ _ Y). lia.
  - intros j st r y I Y. rewrite Ho; [now apply (V7 j)|]. destruct (V3 _ _ Y). lia.
  - intros n Hn H. rewrite Ho by lia. now apply V8.
  - intros n Hn. rewrite Ho by lia. now apply V0.
Qed.

Lemma finish_serving s i x f o : r_phase s = Serving -> r_reqs s i = Some x -> f (x_req x) = Ok o ->
  finish s i f = Ok (put s i None, sent (x_no x) (x_client x) o ++ [Freed (x_no x)]).
Proof. intros P X E. unfold finish, send. rewrite X, E, P. cbn [obind]. destruct o; reflexivity. Qed.
Lemma in_live reqs next es A B C i : Live reqs next es A B C -> In i (A ++ B ++ map id_of C) -> exists x, reqs i = Some x.
Proof. intros V I. apply (v_reqs _ _ _ _ _ _ V) in I. destruct (reqs i) as [x|]; [eauto|contradiction]. Qed.
Lemma refuse_live s es B C i : Live (r_reqs s) (r_next s) es [i] B C -> r_phase s = Serving ->
  exists sg, Reacts s [Refused i] = Ok (put s i None, sg) /\ Live (r_reqs (put s i None)) (r_next s) (es ++ sg) [] B C.
Proof.
  intros V P. destruct (in_live _ _ _ _ _ _ i V) as [x X]; [now left|]. destruct (v_ok _ _ _ _ _ _ V _ _ X) as (_ & Rq & Ty). destruct (servfail_done sign (x_req x) Rq) as (o & E & R).
  exists (sent (x_no x) (x_client x) o ++ [Freed (x_no x)]). split.
  - cbn [reacts react]. rewrite (finish_serving s i x _ o P X E). cbn [obind]. now rewrite app_nil_r.
  - apply (live_freed _ _ _ [i] B C [] B C i x o V X); [reflexivity|easy|apply incl_refl|apply incl_refl|].
    rewrite (v_a _ _ _ _ _ _ V i x) by (auto; now left). cbn [app]. now apply l_refused.
Qed.
Lemma call_live l : forall s es A B C, Live (r_reqs s) (r_next s) es A B (l ++ C) -> r_phase s = Serving ->
  exists s' sg, Reacts s (map called_of l) = Ok (s', sg) /\ Live (r_reqs s') (r_next s') (es ++ sg) A B C /\ r_worker s' = r_worker s /\ r_phase s' = Serving.
Proof.
  induction l as [|[[i st] r] l IH]; intros s es A B C V P; [exists s, []; cbn; rewrite app_nil_r; auto|].
  destruct (in_live _ _ _ _ _ _ i V) as [x X]; [cbn; rewrite !in_app_iff; right; right; now left|]. destruct (v_ok _ _ _ _ _ _ V _ _ X) as (_ & Rq & Ty).
  assert (F : exists o, (match result r with None => Ok None | Some a => respond sign (x_req x) st a end) = Ok o /\ (result r = None -> o = None) /\ forall a, result r = Some a -> answered sign (x_req x) a st o).
  { destruct (result r) as [a|] eqn:Ea; [destruct (respond_exact sign (x_req x) st a (Hres _ _ Ea) Rq) as (o & E & H); exists o; split; [exact E|]; split; [discriminate|]; intros a' [= <-]; exact H|exists None; split; [reflexivity|]; split; [reflexivity|discriminate]]. }
  destruct F as (o & F & F1 & F2).
  destruct (IH (put s i None) (es ++ sent (x_no x) (x_client x) o ++ [Freed (x_no x)]) A B C) as (s' & sg & E & V' & W & P').
  - cbn [put r_reqs r_next]. apply (live_freed _ _ _ A B (((i, st, r) :: l) ++ C) A B (l ++ C) i x o V X); try apply incl_refl; [|intros t I; now right|].
    + cbn [app map]. rewrite app_assoc. change (id_of (i, st, r)) with i. rewrite <- Permutation_middle. now rewrite app_assoc.
    + rewrite (v_c _ _ _ _ _ _ V i st r x) by (auto; now left). cbn [app]. now apply l_over.
  - exact P.
  - exists s', ((sent (x_no x) (x_client x) o ++ [Freed (x_no x)]) ++ sg). split; [|rewrite app_assoc; auto].
    cbn [map called_of reacts react]. rewrite (finish_serving s i x (fun q => match result r with None => Ok None | Some a => respond sign q st a end) o P X F). cbn [obind]. rewrite E. reflexivity.
Qed.

(** ** Running *)
Definition rpolite (l : rlabel) : Prop := match l with RRecv _ a _ data => a <> None /\ bytes_ok data | _ => True end.
Fixpoint rrun (ls : list rlabel) (s : rs) : rres :=
  match ls with
  | [] => Some (Ok (s, []))
  | l :: ls =>
      match rstep sign result l s with
      | None => None
      | Some (Ok (s, es)) => match rrun ls s with None => None | Some o => Some (obind o (fun '(s, fs) => Ok (s, es ++ fs))) end
      | Some (Err e) => Some (Err e) | Some Abort => Some Abort | Some Ub => Some Ub
      end
  end.
Definition rs_runs (ls : list rlabel) (o : outcome (rs * list sight)) : Prop := Forall rpolite ls /\ rrun ls rs_init = Some o.

Lemma run_snoc ls l : forall w0 w es w' fs, all_polite ls w0 -> wrun ls w0 = Some (Ok (w, es)) -> polite l w -> wstep l w = Some (Ok (w', fs)) ->
  all_polite (ls ++ [l]) w0 /\ wrun (ls ++ [l]) w0 = Some (Ok (w', es ++ fs)).
Proof.
  induction ls as [|k ls IH]; intros w0 w es w' fs; cbn [all_polite wrun app].
  - intros _ [= <- <-] P W. rewrite W. cbn. rewrite app_nil_r. auto.
  - intros [P0 Ps]. destruct (wstep k w0) as [[[w1 e1]| | |]|]; try discriminate. destruct (wrun ls w1) as [[[w2 e2]| | |]|] eqn:R; cbn [obind]; try discriminate. intros [= <- <-] P W.
    destruct (IH _ _ _ _ _ Ps R P W) as [A B]. split; [auto|]. rewrite B. cbn [obind]. now rewrite app_assoc.
Qed.
Definition Whole (s : rs) (es : list sight) : Prop := exists ls wes p q, runs ls (Ok (r_worker s, wes)) /\ Inv (r_worker s) wes p q /\
  Live (r_reqs s) (r_next s) es (flight (r_worker s)) (outs (r_worker s)) (backlog (r_worker s) q) /\
  match r_phase s with Before => r_worker s = worker_init | Serving => s_main (r_worker s) <> MGone | Finished => s_main (r_worker s) = MGone \/ r_worker s = worker_init end.
Lemma whole_init : Whole rs_init [].
Proof.
  exists [], [], [], []. split; [split; [exact I|reflexivity]|]. split; [exact init_inv|]. split; [|reflexivity].
  constructor; cbn; try easy; try lia. constructor.
Qed.
(** A step of the worker, and what it does to the requests *)
Lemma worker_step l s es o : Whole s es -> polite l (r_worker s) -> wstep l (r_worker s) = Some o -> exists w' fs ls wes p q q0,
  o = Ok (w', fs) /\ runs ls (Ok (w', wes)) /\ Inv w' wes p q /\ shape (r_worker s) w' l fs /\
  Live (r_reqs s) (r_next s) es (flight (r_worker s)) (outs (r_worker s)) q0 /\
  Permutation (outs (r_worker s) ++ accepted fs) (map id_of (completed fs) ++ outs w') /\ q0 ++ completed fs = called fs ++ backlog w' q.
Proof.
  intros (ls & wes & p & q & R & I & V & Ph) P W. destruct (step_inv _ _ _ _ _ _ I P W) as (w' & fs & _ & _ & -> & _).
  destruct (inv_lists _ _ _ _ _ _ _ I P W) as (p' & q' & I' & B & C). destruct R as [R1 R2]. destruct (run_snoc _ _ _ _ _ _ _ R1 R2 P W) as [R1' R2'].
  exists w', fs, (ls ++ [l]), (wes ++ fs), p', q', (backlog (r_worker s) q). split; [reflexivity|]. split; [split; assumption|]. split; [exact I'|]. split; [now apply step_shape|]. split; [exact V|]. split; [exact B|exact C].
Qed.
Lemma idle_flight w : s_main w = MIdle -> flight w = [].
Proof. unfold flight, sending. now intros ->. Qed.
Lemma reacts_one s e s' sg : react sign result s e = Ok (s', sg) -> Reacts s [e] = Ok (s', sg).
Proof. intros E. cbn [reacts]. rewrite E. cbn [obind]. now rewrite app_nil_r. Qed.

Lemma stop_whole s es : Whole s es -> r_phase s = Serving -> s_main (r_worker s) = MIdle -> s_ub (r_worker s) = false ->
  exists s' sg, worker_stop sign result s = Ok (s', sg) /\ Whole s' (es ++ sg).
Proof.
  intros H Ph M U. unfold worker_stop. destruct (wstep LUninit (r_worker s)) as [o|] eqn:W; [|cbn in W; rewrite M in W; discriminate W].
  destruct (worker_step LUninit _ _ _ H U W) as (w' & fs & ls & wes & p & q & q0 & -> & R & I & Sh & V & B & C). cbn [obind].
  inversion Sh as [| | | |l F1 F2 G| | |? In|? ? In|? ? ? ? In|]; subst; try discriminate In.
  rewrite accepted_map, completed_map, called_map, !app_nil_r in *. cbn [map app] in B. subst q0. rewrite F1 in V.
  destruct (call_live l (with_worker s w') es [] (outs (r_worker s)) (backlog w' q) V Ph) as (s' & sg & E & V' & W' & P'). rewrite E. cbn [obind].
  eexists _, _. split; [reflexivity|]. cbn in W'. exists ls, wes, p, q. cbn [with_phase r_worker r_phase r_reqs r_next]. rewrite W'. split; [exact R|]. split; [exact I|]. split; [|now left].
  rewrite F2, app_assoc. apply live_closed. eapply live_ext; [|exact B|exact V']. reflexivity.
Qed.
Lemma step_whole l s es o : Whole s es -> rpolite l -> rstep sign result l s = Some o -> exists s' sg, o = Ok (s', sg) /\ Whole s' (es ++ sg).
Proof.
  intros H Po S. destruct l as [ok|i a cl data|rc| |l]; cbn [rstep] in S.
  - (* open *)
    destruct (r_phase s) eqn:Ph; try discriminate S. unfold by_worker in S. destruct (wstep (LOpen ok) (r_worker s)) as [o'|] eqn:W; [|discriminate S]. injection S as <-.
    assert (U : polite (LOpen ok) (r_worker s)). { destruct H as (? & ? & ? & ? & _ & _ & _ & X). rewrite Ph in X. rewrite X. reflexivity. }
    destruct (worker_step _ _ _ _ H U W) as (w' & fs & ls & wes & p & q & q0 & -> & R & I & Sh & V & B & C). cbn [obind].
    inversion Sh as [ok' F1 F2 G| | | | | | |? In|? ? In|? ? ? ? In|]; subst; try discriminate In. cbn [reacts]. eexists _, []. split; [reflexivity|]. cbn [accepted completed called map app] in *. rewrite !app_nil_r in *. subst q0.
    exists ls, wes, p, q. cbn [with_worker with_phase r_worker r_phase r_reqs r_next]. split; [exact R|]. split; [exact I|]. split; [|exact G]. rewrite F2. rewrite F1 in V. eapply live_ext; [|exact B|exact V]. reflexivity.
  - (* a datagram *)
    destruct Po as [Ha Bd]. destruct (r_phase s) eqn:Ph; try discriminate S. destruct (s_main (r_worker s)) eqn:M; try discriminate S. destruct (r_reqs s i) eqn:X; [discriminate S|].
    unfold onrecv in S. destruct (req_exact data Bd) as (oq & E & _). rewrite E in S. destruct oq as [rq|]; [|injection S as <-; exists s, []; rewrite app_nil_r; auto].
    destruct (recorded_ok data rq Bd E) as [Rq _]. destruct (Z.eqb_spec (q_type rq) 255) as [Ty|Ty].
    + injection S as <-. destruct (finalize_bits sign to_notimp rq (only_code_sound 4 _ notimp_code ltac:(lia)) Rq) as (o1 & E1 & _).
      unfold finish. cbn [tick put r_reqs]. rewrite Z.eqb_refl. cbn [x_req]. rewrite E1. cbn [obind x_no x_client]. set (o := match o1 with None => None | Some _ => _ end) in *. clearbody o.
      eexists _, _. split; [reflexivity|]. destruct H as (ls & wes & p & q & R & I & V & _). exists ls, wes, p, q. cbn [tick put r_worker r_phase r_reqs r_next]. split; [exact R|]. split; [exact I|]. split; [|rewrite Ph, M; discriminate].
      replace (send _ _ o) with (sent (r_next s) cl o) by (unfold send, sent; cbn [r_phase tick put x_no x_client]; rewrite Ph; destruct o; reflexivity).
      eapply live_ext; [|reflexivity|exact (live_any _ _ _ _ _ _ rq cl o _ V Ty notimp_code E1)]. intros j. cbn. destruct (Z.eqb_spec j i) as [->|]; [now rewrite X|reflexivity].
    + cbn [tick put r_worker] in S. unfold by_worker in S. destruct (wstep (LResolve a i) (r_worker s)) as [o'|] eqn:W; [|discriminate S]. injection S as <-.
      assert (U : polite (LResolve a i) (r_worker s)) by (destruct a; [exact Logic.I|contradiction]).
      destruct (worker_step _ _ _ _ H U W) as (w' & fs & ls & wes & p & q & q0 & -> & R & I & Sh & V & B & C). cbn [obind].
      set (s1 := with_worker _ w'). rewrite (idle_flight _ M) in V. pose proof (live_got _ _ _ _ _ i rq cl V X Rq Ty) as V1.
      assert (P1 : r_phase s1 = Serving) by exact Ph.
      inversion Sh as [|a' i' F1 F2|a' i' F1 F2 G| | | | |? In|? ? In|? ? ? ? In|]; subst; try discriminate In; cbn [accepted completed called map app] in B, C; rewrite !app_nil_r in *; subst q0.
      * destruct (refuse_live s1 _ _ _ i V1 P1) as (sg & Er & V2). rewrite Er. cbn [obind]. eexists _, _. split; [reflexivity|].
        exists ls, wes, p, q. cbn [put s1 with_worker tick r_worker r_phase r_reqs r_next]. split; [exact R|]. split; [exact I|]. split; [|rewrite Ph, M; discriminate].
        rewrite (idle_flight _ M). change (Got (r_next s) rq cl :: sg) with ([Got (r_next s) rq cl] ++ sg). rewrite app_assoc. exact V2.
      * cbn [reacts obind]. eexists _, _. split; [reflexivity|]. exists ls, wes, p, q. cbn [s1 with_worker tick put r_worker r_phase r_reqs r_next]. split; [exact R|]. split; [exact I|]. split; [|rewrite Ph; exact G].
        rewrite F2. eapply live_ext; [|exact B|exact V1]. reflexivity.
  - (* libunbound was asked *)
    unfold by_worker in S. destruct (wstep (LSent rc) (r_worker s)) as [o'|] eqn:W; [|discriminate S]. injection S as <-.
    destruct (worker_step (LSent rc) _ _ _ H Logic.I W) as (w' & fs & ls & wes & p & q & q0 & -> & R & I & Sh & V & B & C). cbn [obind].
    assert (Ph : r_phase s = Serving).
    { destruct H as (? & ? & ? & ? & _ & _ & _ & Ph). cbn in W. destruct (r_phase s); [rewrite Ph in W; discriminate W|reflexivity|]. destruct Ph as [Ph|Ph]; rewrite Ph in W; discriminate W. }
    inversion Sh as [| | | | |rc' i Z0 F1 F2 G|rc' i Z0 F1 F2 G|? In|? ? In|? ? ? ? In|]; subst; try discriminate In; cbn [accepted completed called map app] in B, C; rewrite !app_nil_r in *; subst q0; rewrite F1 in V.
    + destruct (in_live _ _ _ _ _ _ i V) as [x X]; [now left|]. eexists _, _. split; [apply reacts_one; cbn [react with_worker r_reqs]; rewrite X; reflexivity|].
      exists ls, wes, p, q. cbn [with_worker r_worker r_phase r_reqs r_next]. split; [exact R|]. split; [exact I|]. split; [|rewrite Ph; exact G]. rewrite F2.
      pose proof (v_nodup _ _ _ _ _ _ V) as N. cbn [app] in N. apply NoDup_cons_iff in N as [Ni N].
      apply (live_moved _ _ _ [i] (outs (r_worker s)) (backlog w' q) [] _ _ i x (Asked (x_no x) (q_name (x_req x)) (q_type (x_req x)) (q_class (x_req x))) V X eq_refl).
      * cbn [app]. rewrite <- B, <- app_assoc. apply Permutation_middle.
      * easy.
      * intros j J. apply (Permutation_in _ (Permutation_sym B)) in J. apply in_app_iff in J as [J|[<-|[]]].
        { left. split; [|exact J]. intros ->. apply Ni, in_or_app. now left. }
        { right. split; [reflexivity|]. rewrite (v_a _ _ _ _ _ _ V i x) by (auto; now left). reflexivity. }
      * intros j st r J. left. split; [|exact J]. intros ->. apply Ni, in_or_app. right. apply in_map_iff. now exists (i, st, r).
    + destruct (refuse_live (with_worker s w') es _ _ i V Ph) as (sg & Er & V2). rewrite Er. eexists _, _. split; [reflexivity|].
      exists ls, wes, p, q. cbn [put with_worker r_worker r_phase r_reqs r_next]. split; [exact R|]. split; [exact I|]. split; [|rewrite Ph; exact G]. rewrite F2. eapply live_ext; [|exact B|exact V2]. reflexivity.
  - (* close *)
    destruct (r_phase s) eqn:Ph.
    + destruct (s_main (r_worker s)) eqn:M; injection S as <-; eexists _, _; (split; [reflexivity|]); destruct H as (ls & wes & p & q & R & I & V & X); exists ls, wes, p, q; cbn [with_phase r_worker r_phase r_reqs r_next];
        rewrite Ph in X; (split; [exact R|]); (split; [exact I|]); (split; [now apply live_closed|now right]).
    + destruct (s_main (r_worker s)) eqn:M; try discriminate S. destruct (s_ub (r_worker s)) eqn:U; [|injection S as <-; exact (stop_whole s es H Ph M U)].
      unfold by_worker in S. destruct (wstep LClose (r_worker s)) as [o'|] eqn:W; [|discriminate S]. injection S as <-.
      destruct (worker_step LClose _ _ _ H U W) as (w' & fs & ls & wes & p & q & q0 & -> & R & I & Sh & V & B & C). cbn [obind].
      inversion Sh as [| | |F1 F2 G| | | |? In|? ? In|? ? ? ? In|]; subst; try discriminate In. cbn [reacts]. eexists _, []. split; [reflexivity|]. cbn [accepted completed called map app] in *. rewrite !app_nil_r in *. subst q0.
      exists ls, wes, p, q. cbn [with_worker r_worker r_phase r_reqs r_next]. split; [exact R|]. split; [exact I|]. split; [|rewrite Ph; exact G]. rewrite F2. rewrite F1 in V. eapply live_ext; [|exact B|exact V]. reflexivity.
    + destruct (s_main (r_worker s)) eqn:M; injection S as <-; eexists _, _; (split; [reflexivity|]); destruct H as (ls & wes & p & q & R & I & V & X); exists ls, wes, p, q; cbn [with_phase r_worker r_phase r_reqs r_next];
        rewrite Ph in X; (split; [exact R|]); (split; [exact I|]); (split; [now apply live_closed|exact X]).
  - (* the worker *)
    assert (Ls : l = LStop \/ l <> LStop) by (destruct l; auto; right; discriminate). destruct Ls as [->|Ls].
    + destruct (wstep LStop (r_worker s)) as [o'|] eqn:W; [|discriminate S]. injection S as <-.
      assert (Ph : r_phase s = Serving).
      { destruct H as (? & ? & ? & ? & _ & _ & _ & Ph). cbn in W. destruct (r_phase s); [rewrite Ph in W; discriminate W|reflexivity|]. destruct Ph as [Ph|Ph]; rewrite Ph in W; discriminate W. }
      destruct (worker_step LStop _ _ _ H Logic.I W) as (w' & fs & ls & wes & p & q & q0 & -> & R & I & Sh & V & B & C). cbn [obind].
      inversion Sh as [| | | | | | |? In|? ? In|? ? ? ? In|M M' U]; subst; try discriminate In. cbn [reacts react obind]. cbn [accepted completed called map app] in *. rewrite !app_nil_r in *. subst q0.
      assert (H' : Whole (with_worker s w') es).
      { exists ls, wes, p, q. cbn [with_worker r_worker r_phase r_reqs r_next]. split; [exact R|]. split; [exact I|]. split; [|rewrite Ph, M'; discriminate]. rewrite (idle_flight _ M'). rewrite (idle_flight _ M) in V. eapply live_ext; [|exact B|exact V]. reflexivity. }
      destruct (stop_whole _ _ H' Ph M' U) as (s' & sg & E & Hw). rewrite E. cbn [obind]. eexists _, _. split; [reflexivity|exact Hw].
    + assert (S' : (if inner l then by_worker sign result s (wstep l (r_worker s)) else None) = Some o) by (destruct l; congruence). clear S. destruct (inner l) eqn:In; [|discriminate S'].
      unfold by_worker in S'. destruct (wstep l (r_worker s)) as [o'|] eqn:W; [|discriminate S']. injection S' as <-.
      assert (U : polite l (r_worker s)) by (destruct l; try exact Logic.I; discriminate In).
      destruct (worker_step _ _ _ _ H U W) as (w' & fs & ls & wes & p & q & q0 & -> & R & I & Sh & V & B & C). cbn [obind].
      assert (Ph : match r_phase s with Before => False | Serving => s_main w' <> MGone | Finished => s_main w' = MGone /\ fs = [] end).
      { pose proof H as (ls0 & wes0 & p0 & q1 & _ & I0 & _ & Ph). assert (Gn : s_main w' = MGone <-> s_main (r_worker s) = MGone) by (inversion Sh; subst; try discriminate In; assumption).
        assert (Wi : r_worker s = worker_init -> False) by (intros X; rewrite X in W; destruct l; try discriminate In; discriminate W).
        destruct (r_phase s); [now apply Wi|tauto|]. destruct Ph as [Ph|Ph]; [|contradiction]. split; [tauto|].
        destruct (i_gone _ _ _ _ I0 Ph) as [Wn _]. destruct l; try discriminate In; cbn [wstep] in W; rewrite ?Wn, ?Ph in W; try discriminate W. destruct (s_async (r_worker s)); [injection W as _ <-; reflexivity|discriminate W]. }
      assert (Done : forall s' sg, r_worker s' = w' -> r_phase s' = r_phase s -> Live (r_reqs s') (r_next s') (es ++ sg) (flight w') (outs w') (backlog w' q) -> exists s2 sg2, Ok (s', sg) = Ok (s2, sg2) /\ Whole s2 (es ++ sg2)).
      { intros s' sg E1 E2 L. exists s', sg. split; [reflexivity|]. exists ls, wes, p, q. rewrite E1, E2. split; [exact R|]. split; [exact I|]. split; [exact L|]. destruct (r_phase s); [contradiction|exact Ph|now left]. }
      inversion Sh as [| | | | | | |? In' F G|? t In' F G|? i st r In' F G|]; subst; try discriminate In; cbn [accepted completed called map app] in B, C; rewrite ?app_nil_r in *.
      * subst q0. cbn [reacts]. apply Done; [reflexivity|reflexivity|]. cbn [with_worker r_reqs r_next]. rewrite app_nil_r, F. eapply live_ext; [|exact B|exact V]. reflexivity.
      * destruct (r_phase s) eqn:Pp; [contradiction| |destruct Ph; discriminate]. destruct t as [[i st] r]. cbn [called_of accepted completed called map app] in B, C. rewrite ?app_nil_r in *. subst q0. rewrite <- F in V.
        destruct (call_live [(i, st, r)] (with_worker s w') es (flight w') (outs (r_worker s)) (backlog w' q) V Pp) as (s' & sg & E & V' & W' & P'). cbn [map] in E. rewrite E. apply Done; [exact W'|rewrite P'; reflexivity|]. eapply live_ext; [|exact B|exact V']. reflexivity.
      * change (id_of (i, st, r)) with i in B. assert (Ib : List.In i (outs (r_worker s))) by (apply (Permutation_in _ (Permutation_sym B)); now left).
        destruct (in_live _ _ _ _ _ _ i V) as [x X]; [rewrite !in_app_iff; auto|]. cbn [reacts react with_worker r_reqs]. rewrite X. cbn [obind app]. apply Done; [reflexivity|reflexivity|]. cbn [r_reqs r_next]. rewrite F.
        pose proof (v_nodup _ _ _ _ _ _ V) as N. assert (N' : NoDup (i :: flight (r_worker s) ++ outs w' ++ map id_of q0)).
        { eapply Permutation_NoDup; [|exact N]. rewrite B. cbn [app]. symmetry. apply Permutation_middle. }
        apply NoDup_cons_iff in N' as [Ni _]. rewrite !in_app_iff in Ni. rewrite <- C.
        apply (live_moved _ _ _ _ _ _ _ _ _ i x (Resolved (x_no x) st r) V X eq_refl).
        { rewrite map_app. cbn [map]. change (id_of (i, st, r)) with i. rewrite B. cbn [app]. apply Permutation_app_head. rewrite app_assoc. apply Permutation_cons_append. }
        { intros j J. split; [intros ->; tauto|exact J]. }
        { intros j J. left. split; [intros ->; tauto|]. apply (Permutation_in _ (Permutation_sym B)). now right. }
        { intros j st' r' J. apply in_app_iff in J as [J|[[= <- <- <-]|[]]].
          - left. split; [|exact J]. intros ->. apply Ni. right. right. apply in_map_iff. now exists (i, st', r').
          - right. split; [reflexivity|]. rewrite (v_b _ _ _ _ _ _ V i x Ib X). reflexivity. }
Qed.

Lemma run_whole ls : forall s es o, Whole s es -> Forall rpolite ls -> rrun ls s = Some o -> exists s' sg, o = Ok (s', sg) /\ Whole s' (es ++ sg).
Proof.
  induction ls as [|l ls IH]; intros s es o H P R; cbn [rrun] in R.
  - injection R as <-. exists s, []. rewrite app_nil_r. auto.
  - apply Forall_cons_iff in P as [P1 P2]. destruct (rstep sign result l s) as [o1|] eqn:S; [|discriminate R]. destruct (step_whole _ _ _ _ H P1 S) as (s1 & sg1 & -> & H1).
    destruct (rrun ls s1) as [o2|] eqn:R2; [|discriminate R]. destruct (IH _ _ _ H1 P2 R2) as (s2 & sg2 & -> & H2). injection R as <-. exists s2, (sg1 ++ sg2). rewrite app_assoc. auto.
Qed.
Lemma runs_whole ls o : rs_runs ls o -> exists s es, o = Ok (s, es) /\ Whole s es.
Proof. intros [P R]. exact (run_whole _ _ _ _ whole_init P R). Qed.

(** ** C74 *)
(** No run of the server touches a request that is freed or fails an assertion *)
Theorem rs_never_fails ls o : rs_runs ls o -> exists s es, o = Ok (s, es).
Proof. intros R. destruct (runs_whole _ _ R) as (s & es & -> & _). eauto. Qed.
(** Every admitted request has one life, and is in memory exactly while it is not over *)
Theorem every_request_lives ls s es n : rs_runs ls (Ok (s, es)) ->
  (0 <= n < r_next s -> exists q cl b, Life n q cl b (history n es) /\ (b = false <-> exists i x, r_reqs s i = Some x /\ x_no x = n /\ x_req x = q /\ x_client x = cl))
  /\ (r_next s <= n -> history n es = []).
Proof.
  intros R. destruct (runs_whole _ _ R) as (s' & es' & [= <- <-] & (ls' & wes & p & q & _ & I & V & _)). split; [|apply (v_new _ _ _ _ _ _ V)]. intros Hn.
  assert (D : (exists i x, r_reqs s i = Some x /\ x_no x = n) \/ forall i x, r_reqs s i = Some x -> x_no x <> n).
  { destruct (existsb (fun i => match r_reqs s i with Some x => x_no x =? n | None => false end) (flight (r_worker s) ++ outs (r_worker s) ++ map id_of (backlog (r_worker s) q))) eqn:E.
    - left. apply existsb_exists in E as (i & _ & E). destruct (r_reqs s i) as [x|] eqn:X; [|discriminate E]. exists i, x. split; [exact X|lia].
    - right. intros i x X En. assert (J : In i (flight (r_worker s) ++ outs (r_worker s) ++ map id_of (backlog (r_worker s) q))) by (apply (v_reqs _ _ _ _ _ _ V); congruence).
      enough (existsb (fun i => match r_reqs s i with Some x => x_no x =? n | None => false end) (flight (r_worker s) ++ outs (r_worker s) ++ map id_of (backlog (r_worker s) q)) = true) by congruence.
      apply existsb_exists. exists i. rewrite X. split; [exact J|lia]. }
  destruct D as [(i & x & X & <-)|D].
  - exists (x_req x), (x_client x), false. split; [|split; [intros _; exists i, x; auto|reflexivity]]. destruct (v_ok _ _ _ _ _ _ V _ _ X) as (_ & _ & Ty).
    assert (J : In i (flight (r_worker s) ++ outs (r_worker s) ++ map id_of (backlog (r_worker s) q))) by (apply (v_reqs _ _ _ _ _ _ V); congruence).
    apply in_app_iff in J as [J|J]; [rewrite (v_a _ _ _ _ _ _ V i x J X); now constructor|]. apply in_app_iff in J as [J|J]; [rewrite (v_b _ _ _ _ _ _ V i x J X); now constructor|].
    apply in_map_iff in J as ([[j st] r] & E & J). change (j = i) in E. subst j. rewrite (v_c _ _ _ _ _ _ V i st r x J X). now constructor.
  - destruct (v_over _ _ _ _ _ _ V n Hn D) as (rq & cl & L). exists rq, cl, true. split; [exact L|]. split; [discriminate|]. intros (i & x & X & N & _). now destruct (D i x X).
Qed.
Lemma none_left s es : Whole s es -> (forall i, r_reqs s i = None) -> forall n, 0 <= n < r_next s -> exists q cl, Life n q cl true (history n es).
Proof. intros (ls' & wes & p & q & _ & I & V & _) N n Hn. apply (v_over _ _ _ _ _ _ V n Hn). intros i x X. rewrite N in X. discriminate X. Qed.
Lemma empty_lists s es p q wes : Inv (r_worker s) wes p q -> Live (r_reqs s) (r_next s) es (flight (r_worker s)) (outs (r_worker s)) (backlog (r_worker s) q) ->
  flight (r_worker s) = [] -> called wes = completed wes -> Permutation (accepted wes) (map id_of (called wes)) -> forall i, r_reqs s i = None.
Proof.
  intros I V F Cc Pc i. pose proof (i_acc _ _ _ _ I) as A. pose proof (i_comp _ _ _ _ I) as C. fold (backlog (r_worker s) q) in C.
  assert (B0 : backlog (r_worker s) q = []) by (apply (app_inv_head (called wes)); rewrite app_nil_r, <- C; symmetry; exact Cc).
  assert (O0 : outs (r_worker s) = []). { apply Permutation_nil. apply (Permutation_app_inv_l (map id_of (completed wes))). rewrite app_nil_r. unfold outs, cb. rewrite <- A, Pc, Cc. reflexivity. }
  rewrite F, B0, O0 in V. destruct (r_reqs s i) eqn:X; [|reflexivity]. exfalso. apply (v_reqs _ _ _ _ _ _ V i). congruence.
Qed.
(** When the server is closed, every request was answered and freed *)
Theorem closed_all_over ls s es : rs_runs ls (Ok (s, es)) -> r_phase s = Finished ->
  (forall i, r_reqs s i = None) /\ forall n, 0 <= n < r_next s -> exists q cl, Life n q cl true (history n es).
Proof.
  intros R Ph. destruct (runs_whole _ _ R) as (s' & es' & [= <- <-] & H). enough (N : forall i, r_reqs s i = None) by (split; [exact N|now apply none_left]).
  destruct H as (ls' & wes & p & q & Rw & I & V & X). rewrite Ph in X. destruct X as [X|X].
  - destruct (destroyed_has_called_all _ _ _ Rw X) as [Cc Pc]. apply (empty_lists s es p q wes I V); auto. unfold flight, sending. now rewrite X.
  - assert (P0 : p = []) by (apply (i_none _ _ _ _ I); rewrite X; reflexivity). intros i. pose proof (i_size _ _ _ _ I) as Q. rewrite X in Q. cbn in Q.
    assert (q = []) by (destruct q; [reflexivity|cbn in Q; lia]).
    subst q. rewrite X in V. cbn in V. destruct (r_reqs s i) eqn:Y; [|reflexivity]. exfalso. apply (v_reqs _ _ _ _ _ _ V i). congruence.
Qed.

(** The steps that the server takes by itself *)
Definition rown (l : rlabel) : bool := match l with RSent _ => true | RLoop l => own l | _ => false end.
(** When none of them can be taken, every request that came is answered and freed *)
Theorem at_rest_all_over ls s es : rs_runs ls (Ok (s, es)) -> (forall l, rown l = true -> rstep sign result l s = None) ->
  (forall i, r_reqs s i = None) /\ forall n, 0 <= n < r_next s -> exists q cl, Life n q cl true (history n es).
Proof.
  intros R N. destruct (runs_whole _ _ R) as (s' & es' & [= <- <-] & H). enough (M : forall i, r_reqs s i = None) by (split; [exact M|now apply none_left]).
  destruct H as (ls' & wes & p & q & Rw & I & V & X).
  assert (Nw : forall l, own l = true -> wstep l (r_worker s) = None).
  { intros l O. destruct (wstep l (r_worker s)) as [o|] eqn:W; [|reflexivity]. exfalso.
    destruct l; try discriminate O; try (pose proof (N (RLoop _) O) as C; cbn [rstep inner] in C; unfold by_worker in C; rewrite W in C; discriminate C).
    pose proof (N (RSent rc) eq_refl) as C. cbn [rstep] in C. unfold by_worker in C. rewrite W in C. discriminate C. }
  destruct (at_rest_all_called _ _ _ Rw Nw) as (Cc & Pc & _). apply (empty_lists s es p q wes I V); auto. unfold flight, sending. destruct (s_main (r_worker s)) eqn:M; try reflexivity. specialize (Nw (LSent 0) eq_refl). cbn in Nw. rewrite M in Nw. discriminate Nw.
Qed.
(** Which datagrams are admitted, and as what *)
Definition asks (data : list Z) (q : req) : Prop := exists m ls type class, msg_decode data = Ok (Some m) /\ query m ls type class /\ q = recorded m ls type class.
Lemma react_next s e s' sg : react sign result s e = Ok (s', sg) -> r_next s' = r_next s.
Proof.
  assert (F : forall i f, finish s i f = Ok (s', sg) -> r_next s' = r_next s).
  { intros i f. unfold finish. destruct (r_reqs s i) as [x|]; [|discriminate]. destruct (f (x_req x)); cbn [obind]; try discriminate. intros [= <- _]. reflexivity. }
  destruct e; cbn [react]; try apply F; try (intros [= <- _]; reflexivity); destruct (r_reqs s _); try discriminate; intros [= <- _]; reflexivity.
Qed.
Lemma reacts_next es : forall s s' sg, Reacts s es = Ok (s', sg) -> r_next s' = r_next s.
Proof.
  induction es as [|e es IH]; intros s s' sg; cbn [reacts]; [intros [= <- _]; reflexivity|]. destruct (react sign result s e) as [[s1 a]| | |] eqn:E; cbn [obind]; try discriminate.
  destruct (Reacts s1 es) as [[s2 b]| | |] eqn:E2; cbn [obind]; try discriminate. intros [= <- _]. rewrite (IH _ _ _ E2). exact (react_next _ _ _ _ E).
Qed.
Theorem recv_exact ls s es i a cl data : rs_runs ls (Ok (s, es)) -> r_phase s = Serving -> s_main (r_worker s) = MIdle ->
  r_reqs s i = None -> a <> None -> fresh (r_worker s) a = true -> bytes_ok data ->
  exists s' sg, rstep sign result (RRecv i a cl data) s = Some (Ok (s', sg))
  /\ ((exists q rest, asks data q /\ sg = Got (r_next s) q cl :: rest /\ r_next s' = r_next s + 1) \/ ((forall q, ~ asks data q) /\ s' = s /\ sg = [])).
Proof.
  intros R Ph M X Ha Fr B. destruct (runs_whole _ _ R) as (s0 & es' & [= <- <-] & H).
  destruct (req_exact data B) as (oq & E & Eq). assert (S : exists o, rstep sign result (RRecv i a cl data) s = Some o).
  { cbn [rstep]. rewrite Ph, M, X. unfold onrecv. rewrite E. destruct oq as [rq|]; [|eauto]. destruct (q_type rq =? 255); [eauto|]. cbn [tick put r_worker by_worker wstep]. rewrite M, Fr. unfold by_worker. eauto. }
  destruct S as [o S]. destruct (step_whole (RRecv i a cl data) _ _ _ H (conj Ha B) S) as (s' & sg & -> & _). exists s', sg. split; [exact S|].
  cbn [rstep] in S. rewrite Ph, M, X in S. unfold onrecv in S. rewrite E in S. destruct oq as [rq|].
  - left. assert (Q : asks data rq) by (now apply Eq). destruct (q_type rq =? 255).
    + injection S as S. unfold finish in S. cbn [tick put r_reqs] in S. rewrite Z.eqb_refl in S. cbn [x_req] in S. destruct (msg_finalize sign to_notimp rq); cbn [obind] in S; try discriminate S.
      injection S as <- <-. eexists rq, _. split; [exact Q|]. split; reflexivity.
    + destruct (by_worker _ _ _ _) as [o1|] eqn:Bw; [|discriminate S]. injection S as S. unfold by_worker in Bw. destruct (wstep _ _) as [o2|]; [|discriminate Bw]. injection Bw as <-.
      destruct o2 as [[w fs]| | |]; cbn [obind] in S; try discriminate S. destruct (Reacts _ fs) as [[s2 b]| | |] eqn:Rc; cbn [obind] in S; try discriminate S. injection S as <- <-.
      exists rq, b. split; [exact Q|]. split; [reflexivity|]. rewrite (reacts_next _ _ _ _ Rc). reflexivity.
  - right. injection S as <- <-. split; [|auto]. intros q Q. apply Eq in Q. discriminate Q.
Qed.
(** A server whose worker does not run, or is told to stop, refuses at once *)
Theorem not_running_refuses ls s es i a cl data q : rs_runs ls (Ok (s, es)) -> r_phase s = Serving -> s_main (r_worker s) = MIdle -> r_reqs s i = None -> fresh (r_worker s) (Some a) = true ->
  bytes_ok data -> asks data q -> q_type q <> 255 -> s_ub (r_worker s) = false \/ s_exit (r_worker s) = true ->
  exists s' o, rstep sign result (RRecv i (Some a) cl data) s = Some (Ok (s', Got (r_next s) q cl :: sent (r_next s) cl o ++ [Freed (r_next s)])) /\ refusal sign q o /\ forall j, r_reqs s' j = r_reqs s j.
Proof.
  intros R Ph M X Fr B Q Ty U. destruct (req_exact data B) as (oq & E & Eq). apply Eq in Q. subst oq. destruct (recorded_ok data q B E) as [Rq _]. destruct (servfail_done sign q Rq) as (o & Es & Rf).
  assert (W : wstep (LResolve (Some a) i) (r_worker s) = Some (Ok (r_worker s, [Refused i]))).
  { cbn [wstep]. rewrite M, Fr. unfold resolve_start. replace (s_exit (r_worker s) || negb (s_ub (r_worker s))) with true by (destruct U as [-> | ->]; [now rewrite orb_true_r|reflexivity]). reflexivity. }
  eexists _, o. split; [|split; [exact Rf|]].
  - cbn [rstep]. rewrite Ph, M, X. unfold onrecv. rewrite E. apply Z.eqb_neq in Ty. rewrite Ty. cbn [tick put r_worker]. unfold by_worker. rewrite W. cbn [obind reacts react].
    erewrite (finish_serving _ i _ _ o); [|exact Ph|cbn; rewrite Z.eqb_refl; reflexivity|exact Es]. cbn [obind x_no x_client]. rewrite app_nil_r. reflexivity.
  - intros j. cbn. destruct (Z.eqb_spec j i) as [->|]; [now rewrite X|reflexivity].
Qed.
(** A completion is recorded with the status and result that libunbound gave *)
Theorem delivery_recorded ls s es a st r s' sg : rs_runs ls (Ok (s, es)) -> rstep sign result (RLoop (TDeliver a st r)) s = Some (Ok (s', sg)) -> exists n, sg = [Resolved n st r].
Proof.
  intros R S. cbn [rstep inner wstep] in S. unfold by_worker in S. destruct (s_work (r_worker s)); try discriminate S. destruct (in_list _ _); [|discriminate S]. injection S as S. unfold deliver in S.
  destruct (s_heap (r_worker s) a) as [n|]; [|discriminate S]. cbn [obind reacts react] in S. destruct (r_reqs _ _) as [x|]; [|discriminate S]. injection S as <- <-. eauto.
Qed.
End Run.

(** ** Concrete runs *)
Definition ex_result (r : Z) : option answer := if r =? 1 then Some ex_answer else None.
Lemma ex_result_made r a : ex_result r = Some a -> answer_made a.
Proof. unfold ex_result. destruct (r =? 1); [|discriminate]. intros [= <-]. apply ex_req_ok. Qed.
Definition ex_any : list Z := [18; 52; 1; 32; 0; 1; 0; 0; 0; 0; 0; 0; 1; 97; 1; 98; 0; 0; 255; 0; 1].
(** Two requests overtake each other, one is of the type ANY, one is refused by libunbound, one
    comes after the close, two datagrams are not queries; then the server is closed *)
Definition ex_run : list rlabel := [
  ROpen true; RRecv 1 (Some 100) [7] ex_query; RSent 0; RRecv 2 (Some 101) [8] ex_query; RSent 0; RRecv 3 (Some 102) [9] ex_any; RRecv 3 (Some 102) [9] [1; 2; 3]; RRecv 3 (Some 102) [9] ex_query; RSent (-3);
  RLoop TCheck; RLoop (TDeliver 101 0 1); RLoop TRemove; RLoop TEnqueue; RLoop TSignal; RLoop (TDeliver 100 (-4) 1); RClose; RRecv 4 (Some 103) [10] ex_query; RLoop LAsync; RLoop TRemove; RLoop LDrain; RLoop LDrain;
  RLoop TEnqueue; RLoop TSignal; RLoop TReturn; RLoop TCheck; RLoop TQuit; RLoop LStop].
Definition brief (e : sight) : Z * Z := match e with Got n _ _ => (1, n) | Asked n _ _ _ => (2, n) | Resolved n _ r => (3, n) | Reply n w _ => (4, n) | Freed n => (5, n) | Closed => (6, 0) end.
Ltac all_ok := repeat (apply Forall_cons; [first [exact I|split; [discriminate|apply bytes_ok_check; reflexivity]]|]); apply Forall_nil.
Example ex_run_ends : exists s es, rs_runs None ex_result ex_run (Ok (s, es)) /\ r_phase s = Finished /\ r_next s = 5 /\
  map brief es = [(1, 0); (2, 0); (1, 1); (2, 1); (1, 2); (4, 2); (5, 2); (1, 3); (4, 3); (5, 3); (3, 1); (3, 0); (1, 4); (4, 4); (5, 4); (4, 1); (5, 1); (4, 0); (5, 0); (6, 0)].
Proof.
  do 2 eexists. split; [split; [all_ok|vm_compute; reflexivity]|]. vm_compute. auto.
Qed.
(** The same server before the close, at rest, with nothing left to do; and in the middle *)
Example ex_rest : exists s es, rs_runs None ex_result [ROpen true; RRecv 1 (Some 100) [7] ex_any] (Ok (s, es)) /\ r_phase s = Serving /\ s_main (r_worker s) = MIdle /\ s_ub (r_worker s) = true /\ r_next s = 1.
Proof. do 2 eexists. split; [split; [all_ok|vm_compute; reflexivity]|]. vm_compute. auto. Qed.
Example ex_blocked : exists s es, rs_runs None ex_result [ROpen true; RLoop TCheck; RRecv 1 (Some 100) [7] ex_any] (Ok (s, es)) /\ (forall l, rown l = true -> rstep None ex_result l s = None) /\ r_next s = 1.
Proof.
  do 2 eexists. split; [split; [all_ok|vm_compute; reflexivity]|]. split; [|reflexivity].
  intros [ok|i a cl data|rc| |l] O; try discriminate O; [reflexivity|]. destruct l as [ | | | | | | | | |[|]| | | | | | ]; try discriminate O; reflexivity.
Qed.
Example ex_waiting : exists s es, rs_runs None ex_result [ROpen true; RRecv 1 (Some 100) [7] ex_query; RSent 0] (Ok (s, es)) /\ history 0 es = [Got 0 ex_req [7]; Asked 0 [97; 46; 98; 46] 1 1] /\ r_reqs s 1 <> None.
Proof. do 2 eexists. split; [split; [all_ok|vm_compute; reflexivity]|]. split; [vm_compute; reflexivity|vm_compute; discriminate]. Qed.

Print Assumptions rs_never_fails.
Print Assumptions every_request_lives.
Print Assumptions closed_all_over.
Print Assumptions at_rest_all_over.
Print Assumptions recv_exact.
Print Assumptions not_running_refuses.
Print Assumptions delivery_recorded.
Print Assumptions ex_run_ends.
