(** Every interleaving of the event loop and the resolver thread keeps the queues whole. *)
From Verif Require Import Common CommonFacts WorkerModel WorkerFacts.
From Coq Require Import Permutation Lia.

(** ** What was seen, read off the events *)
Fixpoint accepted (es : list event) : list Z := match es with [] => [] | Accepted i :: es => i :: accepted es | _ :: es => accepted es end.
Fixpoint completed (es : list event) : list triple := match es with [] => [] | Completed i s r :: es => (i, s, r) :: completed es | _ :: es => completed es end.
Fixpoint called (es : list event) : list triple := match es with [] => [] | Called i s r :: es => (i, s, r) :: called es | _ :: es => called es end.
Definition id_of (t : triple) : Z := fst (fst t).
Lemma accepted_app a b : accepted (a ++ b) = accepted a ++ accepted b.
Proof. induction a as [|[] a IH]; cbn; rewrite ?IH; reflexivity. Qed.
Lemma completed_app a b : completed (a ++ b) = completed a ++ completed b.
Proof. induction a as [|[] a IH]; cbn; rewrite ?IH; reflexivity. Qed.
Lemma called_app a b : called (a ++ b) = called a ++ called b.
Proof. induction a as [|[] a IH]; cbn; rewrite ?IH; reflexivity. Qed.
Lemma called_map l : called (map called_of l) = l.
Proof. induction l as [|[[i s] r] l IH]; cbn; [|rewrite IH]; reflexivity. Qed.
Lemma completed_map l : completed (map called_of l) = [].
Proof. induction l as [|[[i s] r] l IH]; cbn; auto. Qed.
Lemma accepted_map l : accepted (map called_of l) = [].
Proof. induction l as [|[[i s] r] l IH]; cbn; auto. Qed.

(** ** Running. The program that uses the worker keeps the contract of rs_worker.h:112-151:
    it opens and destroys the worker only when it is not open, closes it only when it is
    open, and memory does not run out. *)
Definition polite (l : label) (s : state) : Prop :=
  match l with
  | LOpen _ | LUninit => s_ub s = false
  | LClose => s_ub s = true
  | LResolve None _ => s_exit s = true \/ s_ub s = false
  | _ => True
  end.
Fixpoint wrun (ls : list label) (s : state) : sres :=
  match ls with
  | [] => Some (Ok (s, []))
  | l :: ls =>
      match wstep l s with
      | None => None
      | Some (Ok (s, es)) => match wrun ls s with None => None | Some o => Some (obind o (fun '(s, fs) => Ok (s, es ++ fs))) end
      | Some (Err e) => Some (Err e) | Some Abort => Some Abort | Some Ub => Some Ub
      end
  end.
Fixpoint all_polite (ls : list label) (s : state) : Prop :=
  match ls with
  | [] => True
  | l :: ls => polite l s /\ match wstep l s with Some (Ok (s, _)) => all_polite ls s | _ => True end
  end.

(** ** The invariant *)
Definition sending (s : state) : list Z := match s_main s with MSend a => [a] | _ => [] end.
Definition removing (s : state) : list Z := match s_work s with WRemove a => [a] | _ => [] end.
Definition moving (s : state) : list Z := match s_work s with WEnqueue a => [a] | _ => [] end.
Record Inv (s : state) (es : list event) (p q : list Z) : Prop := {
  i_pend : dll (s_heap s) (s_pend s) p;
  i_queue : dll (s_heap s) (s_queue s) q;
  i_nodup : NoDup (p ++ q ++ moving s);
  i_moving : forall a, s_work s = WEnqueue a -> alone (s_heap s) a;
  i_perm : Permutation p (s_out s ++ sending s ++ removing s);
  i_ub : s_ub s = match s_work s with WNone => false | _ => true end;
  i_exit : s_exit s = true -> s_ub s = true;
  i_end : (s_work s = WQuit \/ s_work s = WEnd) -> s_exit s = true /\ p = [];
  i_quit : s_quit s = match s_work s with WEnd => true | _ => false end;
  i_none : s_work s = WNone -> p = [];
  i_send : forall a, s_main s = MSend a -> s_exit s = false;
  i_sig : s_work s = WBlocked -> p <> [] \/ s_exit s = true -> s_sig s = true;
  i_async : q <> [] -> s_async s = true \/ s_work s = WSignal \/ s_main s = MDrain;
  i_gone : s_main s = MGone -> s_work s = WNone /\ q = [];
  i_acc : Permutation (accepted es) (map id_of (completed es) ++ map (fun a => id_of (inf (s_heap s) a)) (s_out s));
  i_comp : completed es = called es ++ map (inf (s_heap s)) (q ++ moving s ++ removing s);
  i_size : (length p + length q + length (moving s) <= s_allocs s)%nat }.

Ltac inv_auto := cbn [app]; rewrite ?app_nil_r; auto; try discriminate; try (intros; discriminate); try (intros [|]; discriminate); try congruence; try (intros; congruence).
Lemma dll_nil h q : q = empty_que -> dll h q [].
Proof. intros ->. repeat split; [constructor|]. intros a x b E. destruct a; discriminate E. Qed.
Lemma init_inv : Inv worker_init [] [] [].
Proof.
  constructor; cbn; try (apply dll_nil; reflexivity); inv_auto. constructor.
Qed.

(** ** Each step *)
Ltac simp := cbn [s_heap s_pend s_exit s_queue s_ub s_out s_main s_work s_sig s_async s_quit s_allocs with_main with_work with_pend with_queue with_out with_flags with_run with_heap count signal app].
Ltac evs := rewrite ?accepted_app, ?completed_app, ?called_app; cbn [accepted completed called app]; rewrite ?app_nil_r.
Ltac unf := unfold moving, sending, removing, blocked in *.
Ltac norm := cbn [app] in *; rewrite ?app_nil_r in *.
Ltac work I := destruct I as [Ip Iq Ind Im Ipm Iu Ix Ie Iqt Inn Is Isg Ia Ig Iacc Icmp Isz]; unf.
Ltac asy Ia := let Q := fresh in intro Q; destruct (Ia Q) as [|[|]]; auto; try discriminate; try congruence.
Ltac inv := constructor; unf; simp; unf; simp; evs.

Definition good (es : list event) (r : outcome (state * list event)) : Prop :=
  exists s' fs p' q', r = Ok (s', fs) /\ Inv s' (es ++ fs) p' q'.

Lemma open_inv s es p q (ok : bool) : Inv s es p q -> s_main s = MIdle -> s_ub s = false ->
  good es (if s_exit s || s_ub s then Abort else if ok then Ok (with_work (with_run s true false) WCheck, []) else Ok (s, [])).
Proof.
  intros I M U. pose proof I as I0. work I. rewrite U, M in *.
  assert (X : s_exit s = false) by (destruct (s_exit s); [discriminate Ix; reflexivity|reflexivity]).
  assert (WN : s_work s = WNone) by (destruct (s_work s); congruence). rewrite X, WN in *. norm. cbn [orb].
  destruct ok; eexists _, _, p, q; (split; [reflexivity|]); [|rewrite app_nil_r; exact I0].
  inv; rewrite ?M; inv_auto.
  asy Ia.
Qed.
Lemma close_inv s es p q : Inv s es p q -> s_main s = MIdle -> s_ub s = true -> good es (close s).
Proof.
  intros I M U. pose proof I as I0. work I. unfold close. rewrite M in *. norm.
  destruct (s_exit s) eqn:X; [eexists _, _, p, q; split; [reflexivity|]; rewrite app_nil_r; exact I0|].
  rewrite U. cbn [negb]. eexists _, _, p, q. split; [reflexivity|]. inv; rewrite ?M; inv_auto.
  - intros E. destruct (Ie E). discriminate.
  - intros -> _. apply Bool.orb_true_r.
Qed.
Lemma uninit_inv s es p q : Inv s es p q -> s_main s = MIdle -> s_ub s = false -> good es (uninit s).
Proof.
  intros I M U. work I. unfold uninit. rewrite U, M in *.
  assert (X : s_exit s = false) by (destruct (s_exit s); [discriminate Ix; reflexivity|reflexivity]).
  assert (WN : s_work s = WNone) by (destruct (s_work s); congruence). rewrite X, WN in *. norm.
  pose proof (Inn eq_refl) as ->. destruct Ip as (Ih & It & _). rewrite Ih. cbn [hd_error].
  destruct Iq as (Qh & Qt & Qn & Qd).
  destruct (flush_ok q (S (s_allocs s)) (s_heap s) (q_head (s_queue s))) as (h' & F);
    [cbn in Isz; lia|exact Qn|exact Qh|intros a x b E; destruct (Qd _ _ _ E) as (n & N & _ & N'); eauto|].
  rewrite F. cbn [obind]. eexists _, _, [], []. split; [reflexivity|].
  assert (EP : s_pend s = empty_que). { destruct (s_pend s). cbn in *. subst. reflexivity. }
  assert (O : s_out s = []). { apply Permutation_nil in Ipm. exact Ipm. }
  rewrite <- (map_map (inf (s_heap s)) called_of).
  inv; rewrite ?M, ?WN, ?O, ?X, ?U; inv_auto.
  all: try (apply dll_nil; auto).
  - constructor.
  - rewrite O in Iacc. rewrite accepted_map, completed_map, !app_nil_r in *. exact Iacc.
  - rewrite completed_map, called_map, !app_nil_r in *. exact Icmp.
  - cbn. lia.
Qed.

Lemma quiet_inv s es p q fs : Inv s es p q -> accepted fs = [] -> completed fs = [] -> called fs = [] -> Inv s (es ++ fs) p q.
Proof. intros I A B C. work I. constructor; unf; auto; rewrite ?accepted_app, ?completed_app, ?called_app, ?A, ?B, ?C, ?app_nil_r; auto. Qed.
Lemma map_inf h h' l : (forall x, In x l -> inf h' x = inf h x) -> map (inf h') l = map (inf h) l.
Proof. intro H. apply map_ext_in. exact H. Qed.
Lemma map_id_inf h h' l : (forall x, In x l -> inf h' x = inf h x) -> map (fun a => id_of (inf h' a)) l = map (fun a => id_of (inf h a)) l.
Proof. intro H. apply map_ext_in. intros x X. rewrite H by exact X. reflexivity. Qed.
Lemma nodup_apart (a b : list Z) x : NoDup (a ++ b) -> In x a -> In x b -> False.
Proof. intros N A B. apply in_split in A as (u & v & ->). rewrite <- app_assoc in N. cbn in N. apply NoDup_remove_2 in N. apply N. rewrite !in_app_iff. auto. Qed.
Lemma alone_frame h h' x : alone h x -> h' x = h x -> alone h' x.
Proof. intros (n & N) E. exists n. rewrite E. exact N. Qed.

Lemma resolve_inv s es p q a i : Inv s es p q -> s_main s = MIdle -> (a = None -> s_exit s = true \/ s_ub s = false) -> fresh s a = true -> good es (resolve_start a i s).
Proof.
  intros I M P F. unfold resolve_start.
  destruct (s_exit s || negb (s_ub s)) eqn:C.
  { exists s, [Refused i], p, q. split; [reflexivity|]. apply quiet_inv; auto. }
  apply Bool.orb_false_iff in C as [X U]. apply Bool.negb_false_iff in U.
  destruct a as [a|]; [|destruct (P eq_refl); congruence]. cbn [new_node obind].
  unfold fresh in F. destruct (s_heap s a) eqn:HA; [discriminate|]. clear F P.
  work I. rewrite M, X, U in *. norm.
  set (n := {| n_prev := None; n_next := None; n_cb := i; n_status := 0; n_result := 0 |}).
  assert (AP : ~ In a p). { intro A. destruct (dll_alloc _ _ _ _ Ip A) as (k & K). congruence. }
  assert (AQ : ~ In a q). { intro A. destruct (dll_alloc _ _ _ _ Iq A) as (k & K). congruence. }
  assert (AM : forall b, s_work s = WEnqueue b -> b <> a). { intros b B ->. destruct (Im _ B) as (k & K & _). congruence. }
  destruct (enqueue_ok (hset (s_heap s) a (Some n)) (s_pend s) p a) as (h' & q' & E & D & Fr & Nf).
  { apply (dll_frame (s_heap s)); [exact Ip|]. intros x Hx. apply hset_other. intros ->. contradiction. }
  { exact AP. } { exists n. rewrite hset_same. auto. }
  rewrite E. cbn [obind]. eexists _, _, (p ++ [a]), q. split; [reflexivity|].
  assert (SI : forall x, x <> a -> inf h' x = inf (s_heap s) x). { intros x Hx. rewrite Nf. unfold inf. rewrite hset_other by exact Hx. reflexivity. }
  assert (SH : forall x, ~ In x p -> x <> a -> h' x = s_heap s x). { intros x Hx Hy. rewrite Fr by assumption. apply hset_other. exact Hy. }
  assert (QF : forall x, In x q -> ~ In x p /\ x <> a). { intros x Hx. split; [|intros ->; contradiction]. intro Hp. apply (nodup_apart _ _ x Ind Hp). apply in_app_iff. auto. }
  assert (MF : forall b, s_work s = WEnqueue b -> ~ In b p). { intros b B Hp. apply (nodup_apart _ _ b Ind Hp). rewrite B. apply in_app_iff. right. left. reflexivity. }
  assert (OP : forall x, In x (s_out s ++ match s_work s with WRemove a => [a] | _ => [] end) -> In x p). { intros x Hx. apply (Permutation_in _ (Permutation_sym Ipm)). exact Hx. }
  inv; rewrite ?M, ?X, ?U; inv_auto.
  - apply (dll_frame (s_heap s)); [exact Iq|]. intros x Hx. apply QF in Hx as [? ?]. auto.
  - apply (Permutation_NoDup (l := a :: (p ++ q ++ match s_work s with WEnqueue a => [a] | _ => [] end))).
    + rewrite <- app_assoc. cbn. apply Permutation_middle.
    + constructor; [|exact Ind]. rewrite !in_app_iff. intros [|[|B]]; try contradiction. destruct (s_work s) eqn:WK; cbn in B; try contradiction; destruct B as [B|[]]. eapply AM; [reflexivity|eassumption].
  - intros b B. apply (alone_frame (s_heap s)); auto.
  - rewrite <- Permutation_cons_append. apply (Permutation_cons_app _ _ a). exact Ipm.
  - intros E'. destruct (Ie E') as [? _]. discriminate.
  - intros E'. rewrite E' in Iu. discriminate.
  - intros -> _. apply Bool.orb_true_r.
  - asy Ia.
  - rewrite (map_id_inf (s_heap s)); [exact Iacc|]. intros x Hx. apply SI. intros ->. apply AP, OP, in_app_iff. auto.
  - rewrite (map_inf (s_heap s)); [exact Icmp|]. intros x Hx. apply SI. intros ->. rewrite !in_app_iff in Hx. destruct Hx as [|[B|B]]; [contradiction| |].
    + destruct (s_work s) eqn:WK; cbn in B; try contradiction; destruct B as [B|[]]. eapply AM; [reflexivity|eassumption].
    + apply AP, OP, in_app_iff. auto.
  - rewrite app_length. cbn. lia.
Qed.

Lemma taken_inv s es p q a rc : Inv s es p q -> s_main s = MSend a -> good es (resolve_end rc s a).
Proof.
  intros I M. unfold resolve_end. work I. rewrite M in *. norm.
  pose proof (Is a eq_refl) as X.
  assert (AP : In a p). { apply (Permutation_in _ (Permutation_sym Ipm)). apply in_app_iff. right. left. reflexivity. }
  destruct (dll_alloc _ _ _ _ Ip AP) as (n & HA). rewrite HA.
  destruct (rc =? 0).
  - eexists _, _, p, q. split; [reflexivity|]. inv; rewrite ?M; inv_auto.
    + rewrite <- app_assoc. exact Ipm.
    + asy Ia.
    + rewrite map_app, app_assoc. cbn [map]. apply Permutation_app; [exact Iacc|]. unfold inf at 1. rewrite HA. reflexivity.
  - apply in_split in AP as (u & v & ->).
    destruct (remove_ok (s_heap s) (s_pend s) u a v Ip) as (h' & q' & E & D & Al & Fr & Nf).
    rewrite E. cbn [obind]. eexists _, _, (u ++ v), q. split; [reflexivity|].
    assert (AP' : forall x, In x (q ++ match s_work s with WEnqueue a => [a] | _ => [] end) -> h' x = s_heap s x).
    { intros x Hx. apply Fr. intro Hp. apply (nodup_apart _ _ x Ind Hp Hx). }
    inv; rewrite ?M, ?X; inv_auto.
    + apply (dll_frame (s_heap s)); [exact Iq|]. intros x Hx. apply AP', in_app_iff. auto.
    + rewrite <- app_assoc in Ind. cbn in Ind. apply NoDup_remove_1 in Ind. rewrite <- app_assoc. exact Ind.
    + intros b B. apply (alone_frame (s_heap s)); [auto|]. apply AP'. rewrite B. apply in_app_iff. right. left. reflexivity.
    + apply Permutation_app_inv in Ipm. exact Ipm.
    + intros E'. destruct (Ie E'). congruence.
    + intros E'. apply Inn in E'. destruct u; discriminate.
    + intros E' [H|H]; [|discriminate]. apply Isg; [exact E'|]. left. destruct u; discriminate.
    + asy Ia.
    + rewrite (map_id_inf (s_heap s)); auto.
    + rewrite (map_inf (s_heap s)); auto.
    + rewrite !app_length in *. cbn in *. lia.
Qed.

Lemma drain_inv s es p q : Inv s es p q -> s_main s = MDrain -> good es (drain s).
Proof.
  intros I M. unfold drain. work I. rewrite M in *. norm.
  destruct q as [|x l].
  - rewrite (dequeue_nil _ _ Iq). cbn [obind]. eexists _, _, p, []. split; [reflexivity|]. inv; rewrite ?M; inv_auto.
  - destruct (dequeue_ok _ _ _ _ Iq) as (h' & q' & E & D & Fr & Nf & n & Hn). rewrite E. cbn [obind]. rewrite Hn.
    eexists _, _, p, l. split; [reflexivity|].
    assert (XL : ~ In x l). { destruct Iq as (_ & _ & N & _). inversion N; auto. }
    assert (OUT : forall y, In y (p ++ match s_work s with WEnqueue a => [a] | _ => [] end) -> ~ In y (x :: l)).
    { intros y Y Z. apply in_app_iff in Y as [Y|Y]; [apply (nodup_apart _ _ y Ind Y), in_app_iff; auto|].
      rewrite app_assoc in Ind. apply (nodup_apart _ _ y Ind); [apply in_app_iff; auto|exact Y]. }
    assert (SH : forall y, In y (p ++ match s_work s with WEnqueue a => [a] | _ => [] end) -> hset h' x None y = s_heap s y).
    { intros y Y. apply OUT in Y. rewrite hset_other; [auto|]. intros ->. apply Y. left. reflexivity. }
    assert (SI : forall y, y <> x -> inf (hset h' x None) y = inf (s_heap s) y). { intros y Y. unfold inf at 1. rewrite hset_other by exact Y. apply Nf. }
    assert (OP : forall y, In y (s_out s ++ match s_work s with WRemove a => [a] | _ => [] end) -> y <> x).
    { intros y Hy ->. apply (OUT x); [|left; reflexivity]. apply in_app_iff. left. apply (Permutation_in _ (Permutation_sym Ipm)). exact Hy. }
    assert (MX : forall b, s_work s = WEnqueue b -> b <> x). { intros b B ->. apply (OUT x); [|left; reflexivity]. rewrite B. apply in_app_iff. right. left. reflexivity. }
    inv; rewrite ?M; inv_auto.
    + apply (dll_frame (s_heap s)); [exact Ip|]. intros y Y. apply SH, in_app_iff. auto.
    + apply (dll_frame h'); [exact D|]. intros y Y. apply hset_other. intros ->. contradiction.
    + cbn in Ind. apply NoDup_remove_1 in Ind. exact Ind.
    + intros b B. apply (alone_frame (s_heap s)); [auto|]. apply SH. rewrite B. apply in_app_iff. right. left. reflexivity.
    + rewrite (map_id_inf (s_heap s)); [exact Iacc|]. intros y Y. apply SI, OP, in_app_iff. auto.
    + rewrite (map_inf (s_heap s)).
      * rewrite <- app_assoc. cbn [app]. rewrite Icmp. cbn [app map]. f_equal. f_equal. rewrite <- Nf. unfold inf. rewrite Hn. reflexivity.
      * intros y Y. apply SI. rewrite !in_app_iff in Y. destruct Y as [Y|[Y|Y]]; [intros ->; contradiction| |apply OP, in_app_iff; auto].
        destruct (s_work s); cbn in Y; try contradiction; destruct Y as [Y|[]]. subst. auto.
    + cbn in Isz. lia.
Qed.

Lemma stop_inv s es p q : Inv s es p q -> s_main s = MIdle -> s_work s = WEnd -> good es (stop s).
Proof.
  intros I M K. unfold stop. work I. rewrite M, K in *. norm.
  destruct (Ie (or_intror eq_refl)) as [X ->]. pose proof Ip as (A & B & _). rewrite A, B. cbn.
  eexists _, _, [], q. split; [reflexivity|]. inv; rewrite ?M, ?K; inv_auto. asy Ia.
Qed.
Lemma check_inv s es p q : Inv s es p q -> s_work s = WCheck -> good es (check s).
Proof.
  intros I K. unfold check. work I. rewrite K in *. norm.
  pose proof Ip as (A & _). rewrite A. destruct p as [|x p]; cbn [hd_error].
  - destruct (s_exit s) eqn:X; eexists _, _, [], q; (split; [reflexivity|]); inv; rewrite ?K, ?X; inv_auto; try (asy Ia).
    + intros H. destruct (Ig H). discriminate.
    + intros _ [H|H]; congruence.
    + intros H. destruct (Ig H). discriminate.
  - rewrite Iu. eexists _, _, (x :: p), q. split; [reflexivity|]. inv; rewrite ?K; inv_auto; try (asy Ia).
    intros H. destruct (Ig H). discriminate.
Qed.
Lemma drop_perm l a : NoDup l -> In a l -> Permutation l (a :: drop l a).
Proof.
  intros N I. apply in_split in I as (u & v & ->). apply NoDup_remove_2 in N as N2.
  assert (D : forall w, ~ In a w -> drop w a = w).
  { induction w as [|y w IH]; intro H; [reflexivity|]. unfold drop in *. cbn. destruct (Z.eqb_spec y a); [subst; destruct H; left; reflexivity|]. cbn. rewrite IH; [reflexivity|]. intro. apply H. right. assumption. }
  unfold drop in *. rewrite filter_app. cbn. rewrite Z.eqb_refl. cbn. rewrite !D by (intro; apply N2, in_app_iff; auto).
  symmetry. apply Permutation_middle.
Qed.
Lemma deliver_inv s es p q a st r : Inv s es p q -> s_work s = WWait -> in_list (s_out s) a = true -> good es (deliver s a st r).
Proof.
  intros I K L. unfold deliver. work I. rewrite K in *. norm.
  apply existsb_exists in L as (a' & L & E). apply Z.eqb_eq in E. subst a'.
  assert (AP : In a p). { apply (Permutation_in _ (Permutation_sym Ipm)). apply in_app_iff. auto. }
  assert (NO : NoDup (s_out s)).
  { assert (NoDup p) by (destruct Ip as (_ & _ & N & _); exact N). apply (Permutation_NoDup Ipm) in H. clear - H. induction (s_out s) as [|x l IH]; [constructor|]. inversion H; subst. constructor; [|auto]. intro. apply H2, in_app_iff. auto. }
  pose proof (drop_perm _ _ NO L) as DP.
  destruct (dll_alloc _ _ _ _ Ip AP) as (n & HA). rewrite HA.
  eexists _, _, p, q. split; [reflexivity|].
  assert (SI : forall x, x <> a -> inf (hset (s_heap s) a (Some (set_answer st r n))) x = inf (s_heap s) x) by (intros; unfold inf; rewrite hset_other by assumption; reflexivity).
  assert (AQ : forall x, In x q -> x <> a) by (intros x Hx ->; apply (nodup_apart _ _ a Ind AP Hx)).
  assert (ND : ~ In a (drop (s_out s) a)). { pose proof (Permutation_NoDup DP NO) as H. inversion H; auto. }
  inv; rewrite ?K; inv_auto.
  - apply (dll_links (s_heap s)); [exact Ip|]. intros x m _ Hm. destruct (Z.eq_dec x a) as [->|N].
    + rewrite hset_same. rewrite HA in Hm. injection Hm as <-. eexists. split; [reflexivity|]. auto.
    + rewrite hset_other by exact N. eauto.
  - apply (dll_frame (s_heap s)); [exact Iq|]. intros x Hx. apply hset_other. auto.
  - rewrite Ipm, DP at 1. cbn [app]. rewrite app_assoc. apply Permutation_cons_append.
  - asy Ia.
  - intros H. destruct (Ig H). discriminate.
  - rewrite Iacc. rewrite map_app, <- app_assoc. apply Permutation_app_head. cbn [map app id_of fst].
    rewrite (map_id_inf (s_heap s) (hset (s_heap s) a (Some (set_answer st r n)))) by (intros x Hx; apply SI; intros ->; contradiction).
    rewrite (Permutation_map (fun a => id_of (inf (s_heap s) a)) DP). cbn [map]. unfold inf at 1. rewrite HA. reflexivity.
  - rewrite Icmp, map_app, app_assoc. f_equal; [f_equal|].
    + symmetry. apply map_inf. intros x Hx. apply SI. auto.
    + cbn [map]. unfold inf. rewrite hset_same. reflexivity.
Qed.
Lemma remove_inv s es p q a : Inv s es p q -> s_work s = WRemove a ->
  good es (obind (remove (s_heap s) (s_pend s) a) (fun '(h, q) => Ok (with_work (with_pend s h q) (WEnqueue a), []))).
Proof.
  intros I K. work I. rewrite K in *. norm.
  assert (AP : In a p). { apply (Permutation_in _ (Permutation_sym Ipm)). rewrite !in_app_iff. right. right. left. reflexivity. }
  apply in_split in AP as (u & v & ->).
  destruct (remove_ok (s_heap s) (s_pend s) u a v Ip) as (h' & q' & E & D & Al & Fr & Nf).
  rewrite E. cbn [obind]. eexists _, _, (u ++ v), q. split; [reflexivity|].
  inv; rewrite ?K; inv_auto.
  - apply (dll_frame (s_heap s)); [exact Iq|]. intros x Hx. apply Fr. intro Hp. apply (nodup_apart _ _ x Ind Hp Hx).
  - apply (Permutation_NoDup (l := (u ++ a :: v) ++ q)); [|exact Ind]. rewrite app_assoc, <- Permutation_cons_append, <- !app_assoc. cbn. symmetry. apply Permutation_middle.
  - rewrite app_assoc in Ipm. apply (Permutation_app_inv u v _ [] a) in Ipm. rewrite Ipm, app_nil_r. reflexivity.
  - asy Ia.
  - intros H. destruct (Ig H). discriminate.
  - rewrite (map_id_inf (s_heap s)); auto.
  - rewrite (map_inf (s_heap s)); auto.
  - rewrite !app_length in *. cbn in *. lia.
Qed.
Lemma enqueue_inv s es p q a : Inv s es p q -> s_work s = WEnqueue a ->
  good es (obind (enqueue (s_heap s) (s_queue s) a) (fun '(h, q) => Ok (with_work (with_queue s h q) WSignal, []))).
Proof.
  intros I K. work I. rewrite K in *. norm.
  assert (AQ : ~ In a q /\ ~ In a p).
  { rewrite app_assoc in Ind. split; intro H; apply (nodup_apart _ _ a Ind); try (left; reflexivity); apply in_app_iff; auto. }
  destruct AQ as [AQ AP].
  destruct (enqueue_ok _ _ _ _ Iq AQ (Im _ eq_refl)) as (h' & q' & E & D & Fr & Nf).
  rewrite E. cbn [obind]. eexists _, _, p, (q ++ [a]). split; [reflexivity|].
  inv; rewrite ?K; inv_auto.
  - apply (dll_frame (s_heap s)); [exact Ip|]. intros x Hx. apply Fr; [|intros ->; contradiction]. intro Hq. apply (nodup_apart _ _ x Ind Hx), in_app_iff. auto.
  - intros H. destruct (Ig H). discriminate.
  - rewrite (map_id_inf (s_heap s)); auto.
  - rewrite (map_inf (s_heap s)); auto.
  - rewrite !app_length in *. cbn in *. lia.
Qed.

Lemma step_inv l s es p q r : Inv s es p q -> polite l s -> wstep l s = Some r -> good es r.
Proof.
  intros I P W. destruct l; cbn [wstep polite] in *.
  - destruct (s_main s) eqn:M; try discriminate W. unfold open in W. injection W as <-. eapply open_inv; eauto.
  - destruct (s_main s) eqn:M; try discriminate W. destruct (fresh s a) eqn:F; [|discriminate W]. injection W as <-. eapply resolve_inv; eauto. intros ->. exact P.
  - destruct (s_main s) eqn:M; try discriminate W. injection W as <-. eapply close_inv; eauto.
  - destruct (s_main s) eqn:M; try discriminate W. injection W as <-. eapply uninit_inv; eauto.
  - destruct (s_main s) eqn:M; try discriminate W. injection W as <-. eapply taken_inv; eauto.
  - destruct (s_async s) eqn:A; [|discriminate W]. destruct (s_main s) eqn:M; try discriminate W; injection W as <-; exists (match s_main s with MIdle => with_main (with_flags s (s_sig s) false (s_quit s)) MDrain | _ => with_flags s (s_sig s) false (s_quit s) end), [], p, q; rewrite M; (split; [reflexivity|]); work I; rewrite M in *; norm; inv; rewrite ?M; inv_auto.
    intros Q. destruct (Ig eq_refl). contradiction.
  - destruct (s_main s) eqn:M; try discriminate W. injection W as <-. eapply drain_inv; eauto.
  - destruct (s_main s) eqn:M; try discriminate W. destruct (s_work s) eqn:K; try discriminate W. destruct (s_quit s); [|discriminate W]. injection W as <-. eapply stop_inv; eauto.
  - destruct (s_work s) eqn:K; try discriminate W. injection W as <-. eapply check_inv; eauto.
  - destruct (s_work s) eqn:K; try discriminate W. destruct (s_sig s || spurious); [|discriminate W]. injection W as <-. eexists _, _, p, q. split; [reflexivity|].
    work I. rewrite K in *. norm. inv; rewrite ?K; inv_auto. { asy Ia. } intros H. destruct (Ig H). discriminate.
  - destruct (s_work s) eqn:K; try discriminate W. destruct (in_list (s_out s) a) eqn:L; [|discriminate W]. injection W as <-. eapply deliver_inv; eauto.
  - destruct (s_work s) eqn:K; try discriminate W. destruct (s_out s) eqn:O; [|discriminate W]. injection W as <-. eexists _, _, p, q. split; [reflexivity|].
    work I. rewrite K, O in *. norm. inv; rewrite ?K, ?O; inv_auto. { asy Ia. } intros H. destruct (Ig H). discriminate.
  - destruct (s_work s) eqn:K; try discriminate W. injection W as <-. eapply remove_inv; eauto.
  - destruct (s_work s) eqn:K; try discriminate W. injection W as <-. eapply enqueue_inv; eauto.
  - destruct (s_work s) eqn:K; try discriminate W. injection W as <-. eexists _, _, p, q. split; [reflexivity|].
    work I. rewrite K in *. norm. inv; rewrite ?K; inv_auto. intros H. destruct (Ig H). discriminate.
  - destruct (s_work s) eqn:K; try discriminate W. injection W as <-. eexists _, _, p, q. split; [reflexivity|].
    work I. rewrite K in *. norm. inv; rewrite ?K; inv_auto. { asy Ia. } intros H. destruct (Ig H). discriminate.
Qed.
Lemma run_inv ls : forall s es p q r, Inv s es p q -> all_polite ls s -> wrun ls s = Some r -> good es r.
Proof.
  induction ls as [|l ls IH]; intros s es p q r I P R; cbn in *.
  - injection R as <-. exists s, [], p, q. rewrite app_nil_r. auto.
  - destruct P as [P P']. destruct (wstep l s) as [o|] eqn:W; [|discriminate].
    destruct (step_inv _ _ _ _ _ _ I P W) as (s1 & e1 & p1 & q1 & -> & I1).
    destruct (wrun ls s1) as [o|] eqn:R1; [|discriminate]. injection R as <-.
    destruct (IH _ _ _ _ _ I1 P' R1) as (s2 & e2 & p2 & q2 & -> & I2). cbn [obind].
    exists s2, (e1 ++ e2), p2, q2. rewrite app_assoc. auto.
Qed.
