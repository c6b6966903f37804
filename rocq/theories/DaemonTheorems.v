(** The daemon frees what it made, and which failures break it. *)
From Verif Require Import Common CommonFacts DaemonModel DaemonSpec.

Definition stops_work (ok : call -> bool) : Prop := ok CNsStop = true /\ ok CTimerStop = true.

(** ** The loop after the parts were closed *)
Definition quiet (w : world) : Prop :=
  (forall o, In o handles -> w_st w o <> Active) /\ w_data w OInt = false /\ w_data w OTerm = false /\ w_exit w = false /\ w_wait w = false.
Definition reap (w : world) : world := fold_left (fun w o => match w_st w o with Closing => set_st o Gone w | _ => w end) handles w.
Lemma quiet_step ok e w : quiet w -> step ok e w = Ok (match e with EReap => reap w | _ => w end).
Proof.
  intros (A & I & T & X & W). destruct e; cbn [step]; try rewrite X; try rewrite W; try reflexivity.
  - destruct int; rewrite ?I, ?T; now destruct (is_open_handle _).
  - assert (N := A ONsSock ltac:(cbn; tauto)). now destruct (w_st w ONsSock).
  - assert (N := A ORsSock ltac:(cbn; tauto)). now destruct (w_st w ORsSock).
  - assert (N := A OTimer ltac:(cbn; tauto)). now destruct (w_st w OTimer).
Qed.
Lemma run_over ok es w : over w = true -> run ok es w = Ok (true, w).
Proof. intros H. destruct es; cbn [run]; now rewrite H. Qed.
Lemma run_quiet ok es w : quiet w -> over w = false -> over (reap w) = true ->
  (In EReap es -> run ok es w = Ok (true, reap w)) /\ (~ In EReap es -> run ok es w = Ok (false, w)).
Proof.
  intros Q O R. induction es as [|e es [IH1 IH2]]; cbn [run]; rewrite O; [split; [intros []|reflexivity]|].
  rewrite (quiet_step ok e w Q). cbn [obind]. split.
  - intros [->|I]; [now apply run_over|]. destruct e; auto. now apply run_over.
  - intros N. destruct e; try (apply IH2; intros I; apply N; now right). exfalso. apply N. now left.
Qed.
Lemma reap_dec es : {In EReap es} + {~ In EReap es}.
Proof. apply in_dec. repeat decide equality. Qed.

(** ** Failures of the start *)
Definition after_failure (c : call) (es : list event) (r : outcome ending) : Prop :=
  match fate_of c with
  | Undefined => r = Ub
  | Stops code kept => exists w, r = Ok (Exited code w) /\ left_closed kept w
  | Unwinds code =>
      (In EReap es -> exists w, r = Ok (Exited code w) /\ all_freed w) /\
      (~ In EReap es -> exists w, r = Ok (Running w) /\ forall o, freed w o \/ w_st w o = Closing)
  end.
Lemma run_unwound ok es w code : quiet w -> over w = false -> over (reap w) = true -> all_freed (reap w) -> (forall o, freed w o \/ w_st w o = Closing) ->
  (In EReap es -> exists w', obind (run ok es w) (fun '(b, w) => Ok (if b : bool then Exited code w else Running w)) = Ok (Exited code w') /\ all_freed w') /\
  (~ In EReap es -> exists w', obind (run ok es w) (fun '(b, w) => Ok (if b : bool then Exited code w else Running w)) = Ok (Running w') /\ forall o, freed w' o \/ w_st w' o = Closing).
Proof. intros Q O R A F. destruct (run_quiet ok es w Q O R) as [H1 H2]. split; intros H; [rewrite (H1 H)|rewrite (H2 H)]; cbn [obind]; eauto. Qed.
(** ** The stages of a start *)
Lemma first_failure_app ok a b : first_failure ok (a ++ b) = match first_failure ok a with Some c => Some c | None => first_failure ok b end.
Proof. unfold first_failure. induction a as [|c a IH]; [reflexivity|]. cbn. now destruct (ok c). Qed.
Lemma first_failure_only ok b c : first_failure ok (only b [c]) = if b && negb (ok c) then Some c else None.
Proof. destruct b; [|reflexivity]. unfold first_failure. cbn. now destruct (ok c). Qed.
Ltac by_calls_ok :=
  lazymatch goal with
  | |- (if negb (?ok ?c) then _ else _) = None -> _ => destruct (ok c) eqn:?; cbn [negb]; [by_calls_ok|discriminate]
  | |- None = None -> _ => intros _
  end.
(** A stage of hsk_daemon_init that fails *)
Definition stopped (c : call) (x : outcome (option Z * world)) : Prop :=
  match fate_of c with
  | Undefined => x = Ub
  | Stops code kept => exists w w', x = Ok (Some code, w) /\ daemon_uninit w = Ok w' /\ w_ptr w' OSig = Null /\ left_closed kept w'
  | Unwinds _ => False
  end.
Ltac find_stopped :=
  unfold stopped; cbv beta iota delta [fate_of];
  lazymatch goal with
  | |- _ = Ub => vm_compute; reflexivity
  | |- exists w w', ?x = Ok (Some _, w) /\ _ =>
      let x' := eval vm_compute in x in
      lazymatch x' with Ok (Some _, ?w) =>
        let y := eval vm_compute in (daemon_uninit w) in
        lazymatch y with Ok ?w' => exists w, w'; split; [vm_compute; reflexivity|]; split; [vm_compute; reflexivity|]; split; [reflexivity|];
          intros o; destruct o; cbv; (split; intros; [tauto || reflexivity || (exfalso; intuition discriminate)|intuition auto]) end end
  end.
Ltac by_calls tac :=
  lazymatch goal with
  | |- (if negb (?ok ?c) then _ else _) = Some _ -> _ => destruct (ok c) eqn:?; cbn [negb]; [by_calls tac|intros E; injection E as <-; tac]
  | |- None = Some _ -> _ => discriminate
  end.
Definition yes : call -> bool := fun _ => true.
Definition result {A : Type} (x : outcome (A * world)) : world := match x with Ok (_, w) => w | _ => world0 end.
Definition w0 : world := Eval vm_compute in set_ptr OSig Null (set_ptr OPool Null (set_ptr ONs Null (set_ptr ORs Null world0))).
Definition w1 : world := Eval vm_compute in result (part OSig (signals_alloc yes) 3 w0).
Definition w2 : world := Eval vm_compute in result (part OPool (pool_alloc yes) 1 w1).
Definition w3 : world := Eval vm_compute in result (part ONs (ns_alloc yes) 1 w2).
Definition ready : world := Eval vm_compute in result (part ORs (rs_alloc yes) 1 w3).
Definition sig_calls : list call := [CSig; CInt; CIntInit; CIntStart; CTerm; CTermInit; CTermStart].
Definition pool_calls : list call := [CPool; CPoolEc; CPoolPriv; CPoolPub; CAgentMem].
Definition ns_calls : list call := [CNs; CNsEc].
Definition rs_calls : list call := [CRs; CUb; CUbAsync; CRsEc; CStub].
Lemma sig_ok ok : first_failure ok sig_calls = None -> part OSig (signals_alloc ok) 3 w0 = Ok (None, w1).
Proof. unfold part, signals_alloc, alloc_signal, first_failure, sig_calls, find. by_calls_ok. vm_compute. reflexivity. Qed.
Lemma sig_bad ok c : first_failure ok sig_calls = Some c -> stopped c (part OSig (signals_alloc ok) 3 w0).
Proof. unfold part, signals_alloc, alloc_signal, first_failure, sig_calls, find. by_calls find_stopped. Qed.
Lemma pool_ok ok : first_failure ok pool_calls = None -> part OPool (pool_alloc ok) 1 w1 = Ok (None, w2).
Proof. unfold part, pool_alloc, first_failure, pool_calls, find. by_calls_ok. vm_compute. reflexivity. Qed.
Lemma pool_bad ok c : first_failure ok pool_calls = Some c -> stopped c (part OPool (pool_alloc ok) 1 w1).
Proof. unfold part, pool_alloc, first_failure, pool_calls, find. by_calls find_stopped. Qed.
Lemma ns_ok ok : first_failure ok ns_calls = None -> part ONs (ns_alloc ok) 1 w2 = Ok (None, w3).
Proof. unfold part, ns_alloc, first_failure, ns_calls, find. by_calls_ok. vm_compute. reflexivity. Qed.
Lemma ns_bad ok c : first_failure ok ns_calls = Some c -> stopped c (part ONs (ns_alloc ok) 1 w2).
Proof. unfold part, ns_alloc, first_failure, ns_calls, find. by_calls find_stopped. Qed.
Lemma rs_ok ok : first_failure ok rs_calls = None -> part ORs (rs_alloc ok) 1 w3 = Ok (None, ready).
Proof. unfold part, rs_alloc, first_failure, rs_calls, find. by_calls_ok. vm_compute. reflexivity. Qed.
Lemma rs_bad ok c : first_failure ok rs_calls = Some c -> stopped c (part ORs (rs_alloc ok) 1 w3).
Proof. unfold part, rs_alloc, first_failure, rs_calls, find. by_calls find_stopped. Qed.
Lemma setter_ok ok o b c w : use o w = Ok w -> first_failure ok (only b [c]) = None -> setter ok o b c w = Ok (None, w).
Proof. intros U. rewrite first_failure_only. unfold setter. destruct b; [|reflexivity]. rewrite U. cbn. now destruct (ok c). Qed.
Lemma setter_bad ok o b c c' w : use o w = Ok w -> first_failure ok (only b [c]) = Some c' -> c' = c /\ setter ok o b c w = Ok (Some 3, w).
Proof. intros U. rewrite first_failure_only. unfold setter. destruct b; [|discriminate]. rewrite U. cbn. destruct (ok c); [discriminate|]. intros E. injection E as <-. auto. Qed.
Lemma steps_ok f l w w' : f w = Ok (None, w') -> steps (f :: l) w = steps l w'.
Proof. intros E. cbn [steps]. now rewrite E. Qed.
Lemma steps_bad c f l w : stopped c (f w) -> stopped c (steps (f :: l) w).
Proof. unfold stopped. cbn [steps]. destruct (fate_of c); [intros ->; reflexivity| |auto]. intros (a & b & E & H). exists a, b. rewrite E. cbn [obind]. auto. Qed.
Definition made (cfg : config) : list call :=
  sig_calls ++ pool_calls ++ only (c_key cfg) [CPoolKey] ++ only true [CSize] ++ only true [CAgent] ++ ns_calls ++ only true [CNsIp] ++ only (c_key cfg) [CNsKey] ++
  rs_calls ++ only (c_rsconf cfg) [CRsConfig] ++ only (c_key cfg) [CRsKey].
Definition init_steps (ok : call -> bool) (cfg : config) : outcome (option Z * world) := steps
    [ part OSig (signals_alloc ok) 3; part OPool (pool_alloc ok) 1; setter ok OPool (c_key cfg) CPoolKey; setter ok OPool true CSize; setter ok OPool true CAgent;
      part ONs (ns_alloc ok) 1; setter ok ONs true CNsIp; setter ok ONs (c_key cfg) CNsKey;
      part ORs (rs_alloc ok) 1; setter ok ORs (c_rsconf cfg) CRsConfig; setter ok ORs (c_key cfg) CRsKey ] w0.
Lemma init_steps_exact ok cfg : match first_failure ok (made cfg) with None => init_steps ok cfg = Ok (None, ready) | Some c => stopped c (init_steps ok cfg) end.
Proof.
  unfold made, init_steps. rewrite first_failure_app. destruct (first_failure ok sig_calls) as [c|] eqn:E; [apply steps_bad, sig_bad, E|]. rewrite (steps_ok _ _ _ _ (sig_ok ok E)). clear E.
  rewrite first_failure_app. destruct (first_failure ok pool_calls) as [c|] eqn:E; [apply steps_bad, pool_bad, E|]. rewrite (steps_ok _ _ _ _ (pool_ok ok E)). clear E.
  do 3 (rewrite first_failure_app; match goal with |- context [first_failure ok (only ?b [?c])] => destruct (first_failure ok (only b [c])) as [c'|] eqn:E;
    [apply setter_bad with (o := OPool) (w := w2) in E; [|reflexivity]; destruct E as [-> E]; apply steps_bad; rewrite E; find_stopped|rewrite (steps_ok _ _ _ _ (setter_ok ok OPool b c w2 eq_refl E)); clear E] end).
  rewrite first_failure_app. destruct (first_failure ok ns_calls) as [c|] eqn:E; [apply steps_bad, ns_bad, E|]. rewrite (steps_ok _ _ _ _ (ns_ok ok E)). clear E.
  do 2 (rewrite first_failure_app; match goal with |- context [first_failure ok (only ?b [?c])] => destruct (first_failure ok (only b [c])) as [c'|] eqn:E;
    [apply setter_bad with (o := ONs) (w := w3) in E; [|reflexivity]; destruct E as [-> E]; apply steps_bad; rewrite E; find_stopped|rewrite (steps_ok _ _ _ _ (setter_ok ok ONs b c w3 eq_refl E)); clear E] end).
  rewrite first_failure_app. destruct (first_failure ok rs_calls) as [c|] eqn:E; [apply steps_bad, rs_bad, E|]. rewrite (steps_ok _ _ _ _ (rs_ok ok E)). clear E.
  rewrite first_failure_app. destruct (first_failure ok (only (c_rsconf cfg) [CRsConfig])) as [c|] eqn:E;
    [apply setter_bad with (o := ORs) (w := ready) in E; [|reflexivity]; destruct E as [-> E]; apply steps_bad; rewrite E; find_stopped|rewrite (steps_ok _ _ _ _ (setter_ok ok ORs _ _ ready eq_refl E)); clear E].
  destruct (first_failure ok (only (c_key cfg) [CRsKey])) as [c|] eqn:E;
    [apply setter_bad with (o := ORs) (w := ready) in E; [|reflexivity]; destruct E as [-> E]; apply steps_bad; rewrite E; find_stopped|rewrite (steps_ok _ _ _ _ (setter_ok ok ORs _ _ ready eq_refl E)); clear E].
  reflexivity.
Qed.

(** ** hsk_daemon_open *)
Definition no_options : config := {| c_key := false; c_rsconf := false; c_check := false; c_prefix := false |}.
Definition w4 : world := Eval vm_compute in result (pool_open yes ready).
Definition w5 : world := Eval vm_compute in result (ns_open yes w4).
Definition up : world := Eval vm_compute in result (rs_open yes w5).
Definition timer_calls : list call := [CTimer; CTimerInit; CTimerStart].
Definition nsock_calls : list call := [CNsMem; CNsInit; CNsBind; CNsSend; CNsRecv; CNsStart].
Definition rsock_calls : list call := [CRsOptions; CRsMem; CRsInit; CRsBind; CRsSend; CRsRecv; CRsStart; CWork; CWorkQueue; CWorkPending; CWorkAsync; CWorkQuit; CThread].
(** A stage of hsk_daemon_open that fails: the close that follows *)
Definition unwound (ok : call -> bool) (c : call) (x : outcome (Z * world)) : Prop :=
  match fate_of c with
  | Undefined => x = Ub \/ exists rc w, x = Ok (rc, w) /\ rc <> 0 /\ w_ptr w OSig = To /\ daemon_close ok w = Ub
  | Unwinds code => code <> 0 /\ exists w w', x = Ok (code, w) /\ w_ptr w OSig = To /\ daemon_close ok w = Ok w' /\
      quiet w' /\ over w' = false /\ over (reap w') = true /\ all_freed (reap w') /\ (forall o, freed w' o \/ w_st w' o = Closing)
  | Stops _ _ => False
  end.
Lemma close_ext ok ok' w : ok CNsStop = ok' CNsStop -> ok CTimerStop = ok' CTimerStop -> daemon_close ok w = daemon_close ok' w.
Proof. intros A B. unfold daemon_close, after_worker_stop, after_close, ns_close, pool_close. rewrite A, B. reflexivity. Qed.
Lemma close_yes ok w : stops_work ok -> daemon_close ok w = daemon_close yes w.
Proof. intros [A B]. now apply close_ext. Qed.
Ltac find_unwound S :=
  unfold unwound; cbv beta iota delta [fate_of];
  lazymatch goal with
  | |- ?x = Ub \/ _ =>
      let x' := eval vm_compute in x in
      lazymatch x' with
      | Ub => left; vm_compute; reflexivity
      | Ok (?rc, ?w) => right; exists rc, w; split; [vm_compute; reflexivity|]; split; [discriminate|]; split; [reflexivity|]; rewrite (close_yes _ _ S); vm_compute; reflexivity
      end
  | |- _ <> 0 /\ exists w w', ?x = _ /\ _ =>
      split; [discriminate|]; let x' := eval vm_compute in x in
      lazymatch x' with
      | Ok (_, ?w) => let y := eval vm_compute in (daemon_close yes w) in
          lazymatch y with Ok ?w' => exists w, w'; split; [vm_compute; reflexivity|]; split; [reflexivity|]; split; [rewrite (close_yes _ _ S); vm_compute; reflexivity|];
            split; [repeat split; try reflexivity; cbn; intros o H; repeat (destruct H as [<-|H]; [discriminate|]); destruct H|]; split; [reflexivity|]; split; [reflexivity|];
            split; intros o; destruct o; cbv; auto end
      end
  end.
Lemma timer_ok ok : first_failure ok timer_calls = None -> pool_open ok ready = Ok (0, w4).
Proof. unfold pool_open, first_failure, timer_calls, find. by_calls_ok. vm_compute. reflexivity. Qed.
Lemma timer_bad ok c : stops_work ok -> first_failure ok timer_calls = Some c -> unwound ok c (pool_open ok ready).
Proof. intros S. unfold pool_open, first_failure, timer_calls, find. by_calls ltac:(find_unwound S). Qed.
Lemma nsock_ok ok : first_failure ok nsock_calls = None -> ns_open ok w4 = Ok (0, w5).
Proof. unfold ns_open, first_failure, nsock_calls, find. by_calls_ok. vm_compute. reflexivity. Qed.
Lemma nsock_bad ok c : stops_work ok -> first_failure ok nsock_calls = Some c -> unwound ok c (ns_open ok w4).
Proof. intros S. unfold ns_open, first_failure, nsock_calls, find. by_calls ltac:(find_unwound S). Qed.
Lemma rsock_ok ok : first_failure ok rsock_calls = None -> rs_open ok w5 = Ok (0, up).
Proof. unfold rs_open, WorkerModel.init_worker, first_failure, rsock_calls, find. by_calls_ok. vm_compute. reflexivity. Qed.
Lemma rsock_bad ok c : stops_work ok -> first_failure ok rsock_calls = Some c -> unwound ok c (rs_open ok w5).
Proof. intros S. unfold rs_open, WorkerModel.init_worker, first_failure, rsock_calls, find. by_calls ltac:(find_unwound S). Qed.
Definition checked (cfg : config) (stored : bool) : list call :=
  only (c_check cfg) [CInject] ++ only (c_prefix cfg) [CExists; CLength] ++ only (c_prefix cfg && stored) [CFile].
Definition open_parts (ok : call -> bool) (w : world) : outcome (Z * world) :=
  obind (pool_open ok w) (fun '(rc, w) => if negb (rc =? 0) then Ok (rc, w)
  else obind (use ONs w) (fun w => obind (ns_open ok w) (fun '(rc, w) => if negb (rc =? 0) then Ok (rc, w)
  else obind (use ORs w) (fun w => rs_open ok w)))).
Lemma unwound_bind ok c x f : unwound ok c x -> unwound ok c (obind x (fun '(rc, w) => if negb (rc =? 0) then Ok (rc, w) else f w)).
Proof.
  unfold unwound. destruct (fate_of c) as [|code kept|code]; [|auto|].
  - intros [->|(rc & w & -> & N & H)]; [now left|]. right. exists rc, w. cbn [obind]. rewrite (proj2 (Z.eqb_neq rc 0) N). cbn [negb]. auto.
  - intros (N & w & w' & -> & H). split; [exact N|]. exists w, w'. cbn [obind]. rewrite (proj2 (Z.eqb_neq code 0) N). cbn [negb]. auto.
Qed.
Lemma open_parts_exact ok : stops_work ok ->
  match first_failure ok (timer_calls ++ nsock_calls ++ rsock_calls) with None => open_parts ok ready = Ok (0, up) | Some c => unwound ok c (open_parts ok ready) end.
Proof.
  intros S. unfold open_parts. rewrite first_failure_app. destruct (first_failure ok timer_calls) as [c|] eqn:E; [apply unwound_bind, timer_bad; assumption|]. rewrite (timer_ok ok E). cbn [obind]. change (negb (0 =? 0)) with false. cbv iota.
  rewrite first_failure_app. change (use ONs w4) with (Ok w4). cbn [obind]. destruct (first_failure ok nsock_calls) as [c|] eqn:E2; [apply unwound_bind, nsock_bad; assumption|]. rewrite (nsock_ok ok E2). cbn [obind]. change (negb (0 =? 0)) with false. cbv iota.
  change (use ORs w5) with (Ok w5). cbn [obind]. destruct (first_failure ok rsock_calls) as [c|] eqn:E3; [now apply rsock_bad|]. exact (rsock_ok ok E3).
Qed.
Lemma open_exact ok cfg : stops_work ok ->
  match first_failure ok (checked cfg (ok CRead) ++ timer_calls ++ nsock_calls ++ rsock_calls) with None => daemon_open ok cfg ready = Ok (0, up) | Some c => unwound ok c (daemon_open ok cfg ready) end.
Proof.
  intros S. rewrite first_failure_app. pose proof (open_parts_exact ok S) as P. destruct cfg as [k r t x]. unfold checked, daemon_open. cbn [c_check c_prefix]. change (use OPool ready) with (Ok ready). cbn [obind]. fold (open_parts ok ready).
  unfold first_failure at 1. destruct t, x, (ok CRead); cbn [only app find andb]; repeat (match goal with |- context [if negb (ok ?c) then _ else _] => destruct (ok c) eqn:?; cbn [negb] end; [|find_unwound S]); exact P.
Qed.
Lemma sequence_stages cfg stored : sequence cfg stored = only (c_key cfg) [CIdentity] ++ only true [CLoop] ++ made cfg ++ checked cfg stored ++ timer_calls ++ nsock_calls ++ rsock_calls.
Proof. unfold sequence, made, checked. rewrite <- !app_assoc. reflexivity. Qed.

(** Whatever fails first decides: the program stops with the code of the table and frees what
    it made, or the behaviour is undefined. *)
Theorem failed_start_exact cfg ok es c : stops_work ok -> first_failure ok (sequence cfg (ok CRead)) = Some c -> after_failure c es (main ok cfg es).
Proof.
  intros S. rewrite sequence_stages, first_failure_app, first_failure_only. unfold main. cbv zeta. destruct (c_key cfg && negb (ok CIdentity)).
  { intros E. injection E as <-. exists world0. split; [reflexivity|]. intros o. split; [intros []|intros _; left; destruct o; reflexivity]. }
  rewrite first_failure_app, first_failure_only. cbn [andb]. destruct (negb (ok CLoop)).
  { intros E. injection E as <-. exists world0. split; [reflexivity|]. intros o. split; [intros []|intros _; left; destruct o; reflexivity]. }
  rewrite first_failure_app. pose proof (init_steps_exact ok cfg) as I. unfold daemon_init. cbv zeta. change (set_ptr OSig Null (set_ptr OPool Null (set_ptr ONs Null (set_ptr ORs Null world0)))) with w0. fold (init_steps ok cfg).
  destruct (first_failure ok (made cfg)) as [c'|] eqn:E.
  - intros H. injection H as ->. unfold after_failure, stopped in *. destruct (fate_of c) as [|code kept|code] eqn:Fc; [now rewrite I| |destruct I].
    destruct I as (w & w' & -> & U & P & L). cbn [obind]. rewrite U. cbn [obind]. assert (N : code <> 0) by (destruct c; try discriminate Fc; injection Fc as <- _; discriminate).
    rewrite (proj2 (Z.eqb_neq code 0) N). cbn [negb]. unfold finish, test. rewrite P. cbn [obind negb]. eauto.
  - intros H. rewrite I. cbn [obind]. change (negb (0 =? 0)) with false. cbv iota. pose proof (open_exact ok cfg S) as O. rewrite H in O. unfold after_failure, unwound in *. destruct (fate_of c) as [|code kept|code] eqn:Fc; [|destruct O|].
    + destruct O as [->|(rc & w & -> & N & P & D)]; [reflexivity|]. cbn [obind]. rewrite (proj2 (Z.eqb_neq rc 0) N). cbn [negb]. unfold finish, test. rewrite P. cbn [obind negb]. now rewrite D.
    + destruct O as (N & w & w' & -> & P & D & Q & Ov & R & A & F). cbn [obind]. rewrite (proj2 (Z.eqb_neq code 0) N). cbn [negb]. unfold finish, test. rewrite P. cbn [obind negb]. rewrite D. cbn [obind]. now apply run_unwound.
Qed.

(** ** A daemon that started *)
Definition serve (b : bool) : world := set_wait b up.
Definition asked (b : bool) : world := set_exit true (serve b).
Definition down : world := Eval vm_compute in match after_worker_stop yes (set_open false (set_exit false (asked false))) with Ok w => w | _ => world0 end.
Definition lookups (b : bool) (e : event) : bool := match e with ENs true => true | EAnswer => false | _ => b end.
Lemma stop_ext ok w : stops_work ok -> after_worker_stop ok w = after_worker_stop yes w.
Proof. intros [A B]. unfold after_worker_stop, after_close, ns_close, pool_close. rewrite A, B. reflexivity. Qed.
Lemma serve_step ok b e : stops_work ok -> step ok e (serve b) = Ok (match e with ESignal _ => asked b | EReap => serve b | _ => serve (lookups b e) end).
Proof. intros S. destruct e as [[]| |[]| | | |]; try reflexivity; destruct b; reflexivity. Qed.
Lemma asked_step ok b e : stops_work ok -> step ok e (asked b) = Ok (match e with EQuit => down | _ => asked (lookups b e) end).
Proof. intros S. destruct e as [[]| |[]| | | |]; try reflexivity; try (destruct b; reflexivity). cbn [step]. change (w_exit (asked b)) with true. cbv iota. rewrite (stop_ext ok _ S). destruct b; vm_compute; reflexivity. Qed.
Lemma down_quiet : quiet down /\ over down = false /\ over (reap down) = true /\ all_freed (reap down).
Proof. split; [repeat split; try reflexivity; cbn; intros o H; repeat (destruct H as [<-|H]; [discriminate|]); destruct H|]. repeat split; try reflexivity. intros o; destruct o; cbv; auto. Qed.
Lemma run_asked ok b es : stops_work ok ->
  (forall c d, es = c ++ EQuit :: d -> ~ In EQuit c -> run ok es (asked b) = run ok d down) /\ (~ In EQuit es -> exists b', run ok es (asked b) = Ok (false, asked b')).
Proof.
  intros S. revert b. induction es as [|e es IH]; intros b; (split; [intros c d E N|intros N]).
  - destruct c; discriminate E.
  - exists b. destruct b; reflexivity.
  - assert (O : over (asked b) = false) by (destruct b; reflexivity). cbn [run]. rewrite O, (asked_step ok b e S). cbn [obind]. destruct c as [|e' c]; [injection E as -> ->; reflexivity|]. injection E as -> ->.
    destruct e'; try (apply (proj1 (IH _)) with (c := c); [reflexivity|intros X; apply N; now right]). exfalso. apply N. now left.
  - assert (O : over (asked b) = false) by (destruct b; reflexivity). cbn [run]. rewrite O, (asked_step ok b e S). cbn [obind]. destruct e; try (apply (proj2 (IH _)); intros X; apply N; now right). exfalso. apply N. now left.
Qed.
Lemma run_serve ok b es : stops_work ok ->
  (forall c i d, es = c ++ ESignal i :: d -> ~ (exists j, In (ESignal j) c) -> exists b', run ok es (serve b) = run ok d (asked b')) /\
  (~ (exists j, In (ESignal j) es) -> exists b', run ok es (serve b) = Ok (false, serve b')).
Proof.
  intros S. revert b. induction es as [|e es IH]; intros b; (split; [intros c i d E N|intros N]).
  - destruct c; discriminate E.
  - exists b. destruct b; reflexivity.
  - assert (O : over (serve b) = false) by (destruct b; reflexivity). cbn [run]. rewrite O, (serve_step ok b e S). cbn [obind]. destruct c as [|e' c]; [injection E as -> ->; eauto|]. injection E as -> ->.
    destruct e'; try (apply (proj1 (IH _)) with (c := c) (i := i); [reflexivity|intros [j X]; apply N; exists j; now right]). exfalso. apply N. exists int. now left.
  - assert (O : over (serve b) = false) by (destruct b; reflexivity). cbn [run]. rewrite O, (serve_step ok b e S). cbn [obind]. destruct e; try (apply (proj2 (IH _)); intros [j X]; apply N; exists j; now right). exfalso. apply N. exists int. now left.
Qed.
Lemma first_such (P : event -> Prop) (dec : forall e, {P e} + {~ P e}) es : (exists a e b, es = a ++ e :: b /\ P e /\ forall x, In x a -> ~ P x) \/ (forall x, In x es -> ~ P x).
Proof.
  induction es as [|e es IH]; [right; intros x []|]. destruct (dec e) as [p|n]; [left; exists [], e, es; repeat split; auto|].
  destruct IH as [(a & e' & b & -> & p & N)|N]; [left; exists (e :: a), e', b; repeat split; auto; intros x [->|X]; auto|right; intros x [->|X]; auto].
Qed.
Lemma signal_dec e : {is_signal e} + {~ is_signal e}.
Proof. destruct e; try (right; intros [j E]; discriminate E). left. now exists int. Qed.
Lemma quit_dec e : {e = EQuit} + {e <> EQuit}.
Proof. repeat decide equality. Qed.
Lemma started ok cfg es : stops_work ok -> first_failure ok (sequence cfg (ok CRead)) = None ->
  main ok cfg es = obind (run ok es (serve false)) (fun '(b, w) => if negb b then Ok (Running w) else finish ok [] 0 w).
Proof.
  intros S. rewrite sequence_stages, first_failure_app, first_failure_only. unfold main. cbv zeta. destruct (c_key cfg && negb (ok CIdentity)); [discriminate|].
  rewrite first_failure_app, first_failure_only. cbn [andb]. destruct (negb (ok CLoop)); [discriminate|].
  rewrite first_failure_app. pose proof (init_steps_exact ok cfg) as I. unfold daemon_init. cbv zeta. change (set_ptr OSig Null (set_ptr OPool Null (set_ptr ONs Null (set_ptr ORs Null world0)))) with w0. fold (init_steps ok cfg).
  destruct (first_failure ok (made cfg)); [discriminate|]. intros H. rewrite I. cbn [obind]. change (negb (0 =? 0)) with false. cbv iota. pose proof (open_exact ok cfg S) as O. rewrite H in O. rewrite O. cbn [obind]. change (negb (0 =? 0)) with false. reflexivity.
Qed.
Lemma suffix (P : event -> Prop) a e r a1 e1 b1 : a ++ e :: r = a1 ++ e1 :: b1 -> (forall x, In x a -> ~ P x) -> P e1 -> exists k, r = k ++ b1.
Proof.
  revert a1. induction a as [|y a IH]; intros a1 E N p; destruct a1 as [|z a1]; cbn in E.
  - injection E as -> ->. now exists [].
  - injection E as -> ->. exists (a1 ++ [e1]). now rewrite <- app_assoc.
  - injection E as -> E. exfalso. now apply (N e1); [left|].
  - injection E as -> E. apply (IH a1 E); [intros x X; apply N; now right|exact p].
Qed.
(** It serves until a signal comes; then, when the worker and the loop are through, it exits
    with code 0 and everything is freed; nothing else ends it, and no sequence of events uses
    what is not there. *)
Theorem served_exact cfg ok es : stops_work ok -> first_failure ok (sequence cfg (ok CRead)) = None ->
  (ended es -> exists w, main ok cfg es = Ok (Exited 0 w) /\ all_freed w) /\
  (~ ended es -> exists w, main ok cfg es = Ok (Running w) /\ ((forall e, In e es -> ~ is_signal e) -> serving w)).
Proof.
  intros S F. rewrite (started ok cfg es S F). clear F. destruct (first_such is_signal signal_dec es) as [(a & e & r & -> & [i ->] & Na)|N].
  - assert (N1 : ~ exists j, In (ESignal j) a) by (intros [j X]; apply (Na _ X); now exists j).
    assert (Sg : forall w, (forall e, In e (a ++ ESignal i :: r) -> ~ is_signal e) -> serving w) by (intros w H; exfalso; apply (H (ESignal i)); [apply in_or_app; right; now left|now exists i]).
    destruct (proj1 (run_serve ok false _ S) a i r eq_refl N1) as [b' ->]. destruct (first_such (fun e => e = EQuit) quit_dec r) as [(p & e & q & -> & -> & Np)|N].
    + assert (N2 : ~ In EQuit p) by (intros X; now apply (Np _ X)). rewrite (proj1 (run_asked ok b' _ S) p q eq_refl N2). destruct down_quiet as (Q & O & R & A). destruct (run_quiet ok q down Q O R) as [R1 R2]. split.
      * intros (a1 & i1 & b1 & c1 & d1 & E). apply (suffix is_signal) in E; [|exact Na|now exists i1]. destruct E as [k E]. rewrite app_assoc in E. apply (suffix (fun e => e = EQuit)) in E; [|exact Np|reflexivity]. destruct E as [k' ->].
        exists (reap down). rewrite R1 by (apply in_or_app; right; apply in_or_app; right; now left). split; [reflexivity|exact A].
      * intros E. exists down. rewrite R2; [split; [reflexivity|apply Sg]|]. intros X. apply E. apply in_split in X as (c & d & ->). now exists a, i, p, c, d.
    + destruct (proj2 (run_asked ok b' r S) ltac:(intros X; now apply (N _ X))) as [b2 ->]. split.
      * intros (a1 & i1 & b1 & c1 & d1 & E). exfalso. apply (suffix is_signal) in E; [|exact Na|now exists i1]. destruct E as [k ->]. apply (N EQuit); [apply in_or_app; right; apply in_or_app; right; now left|reflexivity].
      * intros _. exists (asked b2). split; [reflexivity|apply Sg].
  - destruct (proj2 (run_serve ok false es S) ltac:(intros [j X]; apply (N _ X); now exists j)) as [b' ->]. split.
    + intros (a1 & i1 & b1 & c1 & d1 & ->). exfalso. apply (N (ESignal i1)); [apply in_or_app; right; now left|now exists i1].
    + intros _. exists (serve b'). split; [reflexivity|]. intros _. split; intros o H; cbn in H; repeat (destruct H as [<-|H]; [destruct b'; reflexivity|]); destruct H.
Qed.
(** Signals may come as often as they like, also while the daemon goes down. *)
Corollary no_events_harm cfg ok es : stops_work ok -> first_failure ok (sequence cfg (ok CRead)) = None -> main ok cfg es <> Ub /\ main ok cfg es <> Abort.
Proof.
  intros S F. destruct (served_exact cfg ok es S F) as [A B].
  assert (G : forall x, (forall e, x <> Ok e) -> main ok cfg es <> x).
  { intros x X E. assert (N : ~ ended es) by (intros D; destruct (A D) as (w & Q & _); rewrite E in Q; exact (X _ Q)). destruct (B N) as (w & Q & _). rewrite E in Q. exact (X _ Q). }
  split; apply G; discriminate.
Qed.

(** ** Findings: failures that are undefined behaviour *)
Definition only_fails (c : call) : call -> bool := fun x => match c, x with
  | CExists, CExists | CTimer, CTimer | CInt, CInt | CIntStart, CIntStart | CPoolEc, CPoolEc | CAgentMem, CAgentMem | CNsInit, CNsInit | CInject, CInject | CNsStop, CNsStop | CNsBind, CNsBind | CTimerStop, CTimerStop => false
  | _, _ => true end.
Definition with_prefix : config := {| c_key := false; c_rsconf := false; c_check := false; c_prefix := true |}.
(** A prefix directory that does not exist is a plain mistake of the user *)
Theorem missing_prefix_refuted : exists ok es, stops_work ok /\ (forall c, c <> CExists -> ok c = true) /\ main ok with_prefix es = Ub.
Proof. exists (only_fails CExists), []. split; [split; reflexivity|]. split; [intros []; intros N; try reflexivity; now destruct N|]. vm_compute. reflexivity. Qed.
(** No memory for the first handle of a signal, for the curve of the pool or for its agent *)
Theorem failed_part_refuted : Forall (fun c => main (only_fails c) no_options [] = Ub) [CInt; CIntStart; CPoolEc; CAgentMem; CTimer; CNsInit].
Proof. repeat (apply Forall_cons; [vm_compute; reflexivity|]). apply Forall_nil. Qed.
(** A handle that cannot be stopped is used after its owner is freed *)
Theorem failed_stop_refuted : main (only_fails CNsStop) no_options [ESignal true; EQuit; ENs false] = Ub /\ main (only_fails CTimerStop) no_options [ESignal true; EQuit; ETick] = Ub.
Proof. split; vm_compute; reflexivity. Qed.

(** ** Examples *)
Example ex_serves : stops_work yes /\ first_failure yes (sequence with_prefix (yes CRead)) = None /\ ended [ENs true; ESignal true; ESignal false; ETick; EQuit; ESignal true; EReap].
Proof. split; [split; reflexivity|]. split; [reflexivity|]. now exists [ENs true], true, [ESignal false; ETick], [ESignal true], []. Qed.
Example ex_bind : stops_work (only_fails CNsBind) /\ first_failure (only_fails CNsBind) (sequence no_options true) = Some CNsBind /\ fate_of CNsBind = Unwinds 3 /\
  exists w, main (only_fails CNsBind) no_options [ESignal true; EReap] = Ok (Exited 3 w).
Proof. split; [split; reflexivity|]. split; [reflexivity|]. split; [reflexivity|]. eexists. vm_compute. reflexivity. Qed.

Print Assumptions failed_start_exact.
Print Assumptions served_exact.
Print Assumptions no_events_harm.
Print Assumptions missing_prefix_refuted.
Print Assumptions failed_part_refuted.
Print Assumptions failed_stop_refuted.
