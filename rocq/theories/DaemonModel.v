(** Model of the life of the daemon: src/daemon.c:435-806 with src/signals.c and the functions
    of pool.c, ns.c and rs.c that make, open, close and free the parts.

    Every call that can fail asks an oracle [ok]. Memory: each object is made at most once in
    a run, so an object is known by its name; using one that is not initialised or that is
    freed, reading a pointer that was never written and freeing twice are [Ub].
    Simplifications: the elliptic curve contexts, the user agent, the configuration text, the
    cache, the chain and the peers are parts of their owners; the two events of the worker are
    part of the worker, whose own steps are those of WorkerModel (here: it runs until it is
    asked to exit, and then ends at some time). *)
From Verif Require Import Common.
From Verif Require WorkerModel.

(** The structures and libuv handles *)
Inductive obj := OSig | OInt | OTerm | OPool | OTimer | ONs | ONsSock | ORs | ORsSock | OWorker | OUb.
(** A table with one entry for each *)
Record tab (A : Type) := Tab { t0 : A; t1 : A; t2 : A; t3 : A; t4 : A; t5 : A; t6 : A; t7 : A; t8 : A; t9 : A; t10 : A }.
Arguments Tab {A}.
Arguments t0 {A}.
Arguments t1 {A}.
Arguments t2 {A}.
Arguments t3 {A}.
Arguments t4 {A}.
Arguments t5 {A}.
Arguments t6 {A}.
Arguments t7 {A}.
Arguments t8 {A}.
Arguments t9 {A}.
Arguments t10 {A}.
Definition at_ {A : Type} (t : tab A) (o : obj) : A :=
  match o with OSig => t0 t | OInt => t1 t | OTerm => t2 t | OPool => t3 t | OTimer => t4 t | ONs => t5 t | ONsSock => t6 t | ORs => t7 t | ORsSock => t8 t | OWorker => t9 t | OUb => t10 t end.
Definition upd {A : Type} (t : tab A) (o : obj) (v : A) : tab A :=
  match o with
  | OSig => Tab v (t1 t) (t2 t) (t3 t) (t4 t) (t5 t) (t6 t) (t7 t) (t8 t) (t9 t) (t10 t)
  | OInt => Tab (t0 t) v (t2 t) (t3 t) (t4 t) (t5 t) (t6 t) (t7 t) (t8 t) (t9 t) (t10 t)
  | OTerm => Tab (t0 t) (t1 t) v (t3 t) (t4 t) (t5 t) (t6 t) (t7 t) (t8 t) (t9 t) (t10 t)
  | OPool => Tab (t0 t) (t1 t) (t2 t) v (t4 t) (t5 t) (t6 t) (t7 t) (t8 t) (t9 t) (t10 t)
  | OTimer => Tab (t0 t) (t1 t) (t2 t) (t3 t) v (t5 t) (t6 t) (t7 t) (t8 t) (t9 t) (t10 t)
  | ONs => Tab (t0 t) (t1 t) (t2 t) (t3 t) (t4 t) v (t6 t) (t7 t) (t8 t) (t9 t) (t10 t)
  | ONsSock => Tab (t0 t) (t1 t) (t2 t) (t3 t) (t4 t) (t5 t) v (t7 t) (t8 t) (t9 t) (t10 t)
  | ORs => Tab (t0 t) (t1 t) (t2 t) (t3 t) (t4 t) (t5 t) (t6 t) v (t8 t) (t9 t) (t10 t)
  | ORsSock => Tab (t0 t) (t1 t) (t2 t) (t3 t) (t4 t) (t5 t) (t6 t) (t7 t) v (t9 t) (t10 t)
  | OWorker => Tab (t0 t) (t1 t) (t2 t) (t3 t) (t4 t) (t5 t) (t6 t) (t7 t) (t8 t) v (t10 t)
  | OUb => Tab (t0 t) (t1 t) (t2 t) (t3 t) (t4 t) (t5 t) (t6 t) (t7 t) (t8 t) (t9 t) v
  end.
Definition same {A : Type} (v : A) : tab A := Tab v v v v v v v v v v v.
(** Never made; from malloc; initialised; a handle that is started; uv_close was called; freed *)
Inductive ost := Absent | Raw | Live | Active | Closing | Gone.
(** What a pointer variable holds. The pointers are named by what they point to: signals,
    pool, ns and rs in hsk_daemon_t, sigint and sigterm in hsk_signals_t, timer in
    hsk_pool_t, socket in hsk_ns_t; socket, rs_worker and ub in hsk_rs_t *)
Inductive ptr := Garbage | Null | To.
(** [w_data]: handle->data is not NULL; [w_nsr], [w_rsr]: the receiving flags; [w_exit]: the
    worker was asked to exit; [w_open]: its ub is not NULL; [w_wait]: a lookup of the root
    server waits in the pool *)
Record world := { w_sts : tab ost; w_ptrs : tab ptr; w_datas : tab bool; w_nsr : bool; w_rsr : bool; w_exit : bool; w_open : bool; w_wait : bool }.
Definition w_st (w : world) : obj -> ost := at_ (w_sts w).
Definition w_ptr (w : world) : obj -> ptr := at_ (w_ptrs w).
Definition w_data (w : world) : obj -> bool := at_ (w_datas w).
Definition set_st (o : obj) (s : ost) (w : world) : world :=
  {| w_sts := upd (w_sts w) o s; w_ptrs := w_ptrs w; w_datas := w_datas w; w_nsr := w_nsr w; w_rsr := w_rsr w; w_exit := w_exit w; w_open := w_open w; w_wait := w_wait w |}.
Definition set_ptr (o : obj) (p : ptr) (w : world) : world :=
  {| w_sts := w_sts w; w_ptrs := upd (w_ptrs w) o p; w_datas := w_datas w; w_nsr := w_nsr w; w_rsr := w_rsr w; w_exit := w_exit w; w_open := w_open w; w_wait := w_wait w |}.
Definition put_data (o : obj) (b : bool) (w : world) : world :=
  {| w_sts := w_sts w; w_ptrs := w_ptrs w; w_datas := upd (w_datas w) o b; w_nsr := w_nsr w; w_rsr := w_rsr w; w_exit := w_exit w; w_open := w_open w; w_wait := w_wait w |}.
Definition set_flags (nsr rsr x op wt : bool) (w : world) : world :=
  {| w_sts := w_sts w; w_ptrs := w_ptrs w; w_datas := w_datas w; w_nsr := nsr; w_rsr := rsr; w_exit := x; w_open := op; w_wait := wt |}.
Definition set_nsr (b : bool) (w : world) : world := set_flags b (w_rsr w) (w_exit w) (w_open w) (w_wait w) w.
Definition set_rsr (b : bool) (w : world) : world := set_flags (w_nsr w) b (w_exit w) (w_open w) (w_wait w) w.
Definition set_exit (b : bool) (w : world) : world := set_flags (w_nsr w) (w_rsr w) b (w_open w) (w_wait w) w.
Definition set_open (b : bool) (w : world) : world := set_flags (w_nsr w) (w_rsr w) (w_exit w) b (w_wait w) w.
Definition set_wait (b : bool) (w : world) : world := set_flags (w_nsr w) (w_rsr w) (w_exit w) (w_open w) b w.
(** The variables of main are not initialised: daemon.c:756 *)
Definition world0 : world :=
  {| w_sts := same Absent; w_ptrs := same Garbage; w_datas := same false; w_nsr := false; w_rsr := false; w_exit := false; w_open := false; w_wait := false |}.

(** ** Memory and libuv *)
(** Reading or writing an object that must be initialised *)
Definition use (o : obj) (w : world) : outcome world :=
  match w_st w o with Live | Active | Closing => Ok w | _ => Ub end.
(** Reading a pointer: NULL or not *)
Definition test (o : obj) (w : world) : outcome bool :=
  match w_ptr w o with Garbage => Ub | Null => Ok false | To => Ok true end.
(** Following a pointer *)
Definition follow (o : obj) (w : world) : outcome world := match w_ptr w o with To => Ok w | _ => Ub end.
(** free *)
Definition release (o : obj) (w : world) : outcome world :=
  match w_st w o with Raw | Live => Ok (set_st o Gone w) | _ => Ub end.
(** utils.c:239-243 hsk_uv_close_free: the memory is freed when the loop runs next *)
Definition close_free (o : obj) (w : world) : outcome world :=
  match w_st w o with Live | Active => Ok (set_st o Closing w) | _ => Ub end.
(** uv_signal_stop, uv_timer_stop, uv_udp_recv_stop *)
Definition stop (o : obj) (w : world) : outcome world :=
  match w_st w o with Live | Active => Ok (set_st o Live w) | _ => Ub end.

(** ** The calls that can fail, in the order of their first use *)
Inductive call :=
| CIdentity | CLoop                                                   (* daemon.c:758-772 *)
| CSig | CInt | CIntInit | CIntStart | CTerm | CTermInit | CTermStart (* signals.c *)
| CPool | CPoolEc | CPoolPriv | CPoolPub | CAgentMem                  (* pool.c:323-334, 144-180 *)
| CPoolKey | CSize | CAgent                                           (* pool.c:219-318 *)
| CNs | CNsEc | CNsIp | CNsKey                                        (* ns.c:104-182, 245-257 *)
| CRs | CUb | CUbAsync | CRsEc | CStub | CRsConfig | CRsKey           (* rs.c:78-195, 318-330 *)
| CInject | CExists | CLength | CRead | CFile                         (* daemon.c:593-637 *)
| CTimer | CTimerInit | CTimerStart                                   (* pool.c:347-368 *)
| CNsMem | CNsInit | CNsBind | CNsSend | CNsRecv | CNsStart           (* ns.c:184-222 *)
| CRsOptions | CRsMem | CRsInit | CRsBind | CRsSend | CRsRecv | CRsStart (* rs.c:198-297 *)
| CWork | CWorkQueue | CWorkPending | CWorkAsync | CWorkQuit | CThread
| CNsStop | CTimerStop.                                               (* ns.c:225-241, pool.c:371-382 *)
(** The options that decide which calls are made *)
Record config := { c_key : bool; c_rsconf : bool; c_check : bool; c_prefix : bool }.

Section Daemon.
Variable ok : call -> bool.
Variable cfg : config.
Notation "'do' w <- x ; f" := (obind x (fun w => f)) (at level 200, w pattern, x at level 100, right associativity).

(** signals.c:80-102 alloc_signal; the pointer [o] gets the result *)
Definition alloc_signal (o : obj) (m i s : call) (w : world) : outcome (bool * world) :=
  if negb (ok m) then Ok (false, set_ptr o Null w)
  else let w := put_data o false (set_st o Raw w) in
  if negb (ok i) then do w <- release o w; Ok (false, set_ptr o Null w)
  else let w := set_st o Live w in
  if negb (ok s) then do w <- close_free o w; Ok (false, set_ptr o Null w)
  else Ok (true, set_ptr o To (put_data o true (set_st o Active w))).
(** signals.c:104-111 free_signal *)
Definition free_signal (o : obj) (w : world) : outcome world :=
  do p <- test o w;
  if p then do w <- use o w; do w <- stop o (put_data o false w); close_free o w else Ok w.
(** signals.c:47-53 hsk_signals_uninit: sigterm is set to NULL twice *)
Definition signals_uninit (w : world) : outcome world :=
  do w <- free_signal OTerm w;
  do w <- free_signal OInt (set_ptr OTerm Null w);
  Ok (set_ptr OTerm Null w).
(** signals.c:55-69 hsk_signals_alloc with 22-45 hsk_signals_init *)
Definition signals_alloc (w : world) : outcome (bool * world) :=
  if negb (ok CSig) then Ok (false, w)
  else let w := set_st OSig Raw w in
  let fail := fun w => do w <- signals_uninit w; do w <- release OSig w; Ok (false, w) in
  do (a, w) <- alloc_signal OInt CInt CIntInit CIntStart w;
  if negb a then fail w
  else do (a, w) <- alloc_signal OTerm CTerm CTermInit CTermStart w;
  if negb a then fail w
  else Ok (true, set_st OSig Live w).
(** signals.c:71-77 hsk_signals_free *)
Definition signals_free (w : world) : outcome world := do w <- signals_uninit w; release OSig w.

(** pool.c:182-216 hsk_pool_uninit: closing the peers calls back the lookups that wait, and
    their answers use the root server; 337-344 hsk_pool_free *)
Definition pool_free (w : world) : outcome world :=
  do w <- use OPool w;
  do w <- (if w_wait w then use ONs (set_wait false w) else Ok w);
  release OPool w.
(** pool.c:322-335 hsk_pool_alloc with 143-180 hsk_pool_init: a pool that could not be
    initialised is freed as if it were; strcpy into memory that was not given is undefined *)
Definition pool_alloc (w : world) : outcome (bool * world) :=
  if negb (ok CPool) then Ok (false, w)
  else let w := set_st OPool Raw w in
  let fail := fun w => do w <- pool_free w; Ok (false, w) in
  if negb (ok CPoolEc) then fail w
  else if negb (ok CPoolPriv) then fail w
  else if negb (ok CPoolPub) then fail w
  else if negb (ok CAgentMem) then Ub
  else Ok (true, set_ptr OTimer Null (set_st OPool Live w)).
(** ns.c:244-257 hsk_ns_alloc with 103-127 hsk_ns_init *)
Definition ns_alloc (w : world) : outcome (bool * world) :=
  if negb (ok CNs) then Ok (false, w)
  else let w := set_st ONs Raw w in
  if negb (ok CNsEc) then do w <- release ONs w; Ok (false, w)
  else Ok (true, set_nsr false (set_ptr ONsSock Null (set_st ONs Live w))).
(** ns.c:129-140 hsk_ns_uninit, 259-266 hsk_ns_free *)
Definition ns_free (w : world) : outcome world := do w <- use ONs w; release ONs w.
(** rs.c:317-330 hsk_rs_alloc with 77-134 hsk_rs_init *)
Definition rs_alloc (w : world) : outcome (bool * world) :=
  if negb (ok CRs) then Ok (false, w)
  else let w := set_st ORs Raw w in
  if negb (ok CUb) then do w <- release ORs w; Ok (false, w)
  else let w := set_st OUb Live w in
  let fail := fun w => do w <- release OUb w; do w <- release ORs w; Ok (false, w) in
  if negb (ok CUbAsync) then fail w
  else if negb (ok CRsEc) then fail w
  else if negb (ok CStub) then fail w
  else Ok (true, set_rsr false (set_ptr OUb To (set_ptr OWorker Null (set_ptr ORsSock Null (set_st ORs Live w))))).
(** rs.c:136-155 hsk_rs_uninit, 332-339 hsk_rs_free *)
Definition rs_free (w : world) : outcome world :=
  do w <- use ORs w;
  do u <- test OUb w;
  do w <- (if u then do w <- release OUb w; Ok (set_ptr OUb Null w) else Ok w);
  release ORs w.

(** daemon.c:565-589 hsk_daemon_uninit *)
Definition free_part (o : obj) (f : world -> outcome world) (w : world) : outcome world :=
  do p <- test o w; if p then do w <- f w; Ok (set_ptr o Null w) else Ok w.
Definition daemon_uninit (w : world) : outcome world :=
  do w <- free_part OSig signals_free w;
  do w <- free_part ORs rs_free w;
  do w <- free_part OPool pool_free w;
  free_part ONs ns_free w.

(** daemon.c:476-563 hsk_daemon_init. The setters change only what is inside the parts. *)
Definition part (o : obj) (f : world -> outcome (bool * world)) (code : Z) (w : world) : outcome (option Z * world) :=
  do (a, w) <- f w; if a then Ok (None, set_ptr o To w) else Ok (Some code, set_ptr o Null w).
Definition setter (o : obj) (made : bool) (c : call) (w : world) : outcome (option Z * world) :=
  if made then do w <- use o w; Ok ((if ok c then None else Some 3), w) else Ok (None, w).
(** Go on while nothing failed *)
Fixpoint steps (l : list (world -> outcome (option Z * world))) (w : world) : outcome (option Z * world) :=
  match l with
  | [] => Ok (None, w)
  | f :: l => do (r, w) <- f w; match r with None => steps l w | Some c => Ok (Some c, w) end
  end.
Definition daemon_init (w : world) : outcome (Z * world) :=
  let w := set_ptr OSig Null (set_ptr OPool Null (set_ptr ONs Null (set_ptr ORs Null w))) in
  do (r, w) <- steps
    [ part OSig signals_alloc 3; part OPool pool_alloc 1; setter OPool (c_key cfg) CPoolKey; setter OPool true CSize; setter OPool true CAgent;
      part ONs ns_alloc 1; setter ONs true CNsIp; setter ONs (c_key cfg) CNsKey;
      part ORs rs_alloc 1; setter ORs (c_rsconf cfg) CRsConfig; setter ORs (c_key cfg) CRsKey ] w;
  match r with None => Ok (0, w) | Some c => do w <- daemon_uninit w; Ok (c, w) end.

(** pool.c:346-368 hsk_pool_open; the peers of hsk_pool_refill are not part of this model *)
Definition pool_open (w : world) : outcome (Z * world) :=
  if negb (ok CTimer) then Ok (1, set_ptr OTimer Null w)
  else let w := put_data OTimer true (set_st OTimer Raw (set_ptr OTimer To w)) in
  if negb (ok CTimerInit) then Ok (3, w)
  else let w := set_st OTimer Live w in
  if negb (ok CTimerStart) then Ok (3, w)
  else Ok (0, set_st OTimer Active w).
(** ns.c:183-222 hsk_ns_open. hsk_sa_to_string of an address that was accepted is taken to
    succeed. *)
Definition ns_open (w : world) : outcome (Z * world) :=
  if negb (ok CNsMem) then Ok (1, set_ptr ONsSock Null w)
  else let w := set_st ONsSock Raw (set_ptr ONsSock To w) in
  if negb (ok CNsInit) then Ok (3, w)
  else let w := put_data ONsSock true (set_st ONsSock Live w) in
  if negb (ok CNsBind && ok CNsSend && ok CNsRecv && ok CNsStart) then Ok (3, w)
  else Ok (0, set_nsr true (set_st ONsSock Active w)).
(** rs.c:251-297 hsk_rs_open with 197-248 hsk_rs_inject_options (one call here); rs_worker.c:
    378-396, 423-436 *)
Definition rs_open (w : world) : outcome (Z * world) :=
  if negb (ok CRsOptions) then Ok (3, w)
  else if negb (ok CRsMem) then Ok (1, set_ptr ORsSock Null w)
  else let w := set_st ORsSock Raw (set_ptr ORsSock To w) in
  if negb (ok CRsInit) then Ok (3, w)
  else let w := put_data ORsSock true (set_st ORsSock Live w) in
  if negb (ok CRsBind && ok CRsSend && ok CRsRecv && ok CRsStart) then Ok (3, w)
  else let w := set_rsr true (set_st ORsSock Active w) in
  if negb (ok CWork) then Ok (3, set_ptr OWorker Null w)
  else match WorkerModel.init_worker (ok CWorkQueue) (ok CWorkPending) (ok CWorkAsync) (ok CWorkQuit) with
  | Ok _ =>
      let w := set_ptr OWorker To (set_st OWorker Live w) in
      if negb (ok CThread) then Ok (3, w) else Ok (0, set_open true w)
  | Err _ => Ok (3, set_ptr OWorker Null w)
  | Abort => Abort
  | Ub => Ub
  end.
(** daemon.c:591-663 hsk_daemon_open; 4 is HSK_EBADARGS *)
Definition daemon_open (w : world) : outcome (Z * world) :=
  do w <- use OPool w;
  if c_check cfg && negb (ok CInject) then Ok (4, w)
  else if c_prefix cfg && negb (ok CExists) then Ok (4, w)
  else if c_prefix cfg && negb (ok CLength) then Ok (4, w)
  else if c_prefix cfg && ok CRead && negb (ok CFile) then Ok (4, w)
  else do (rc, w) <- pool_open w;
  if negb (rc =? 0) then Ok (rc, w)
  else do w <- use ONs w; do (rc, w) <- ns_open w;
  if negb (rc =? 0) then Ok (rc, w)
  else do w <- use ORs w; rs_open w.

(** ns.c:224-241 hsk_ns_close *)
Definition ns_close (w : world) : outcome world :=
  do w <- use ONs w;
  do (go, w) <- (if w_nsr w then do w <- follow ONsSock w; do w' <- stop ONsSock w; (if ok CNsStop then Ok (true, set_nsr false w') else Ok (false, w))
            else Ok (true, w));
  if negb go then Ok w
  else do p <- test ONsSock w;
  if p then do w <- close_free ONsSock w; do w <- use ONsSock w; Ok (set_ptr ONsSock Null (put_data ONsSock false w)) else Ok w.
(** pool.c:370-382 hsk_pool_close *)
Definition pool_close (w : world) : outcome world :=
  do w <- use OPool w;
  do w <- follow OTimer w;
  do w' <- stop OTimer w;
  if negb (ok CTimerStop) then Ok w else do w <- close_free OTimer w'; Ok (set_ptr OTimer Null w).
(** daemon.c:695-712 hsk_daemon_after_close *)
Definition after_close (w : world) : outcome world :=
  do n <- test ONs w;
  do w <- (if n then ns_close w else Ok w);
  do p <- test OPool w;
  do w <- (if p then pool_close w else Ok w);
  daemon_uninit w.
(** rs.c:586-617 after_worker_stop; the stop callback is hsk_daemon_after_close. The worker
    has ended when it is freed, otherwise an assertion fails: rs_worker.c:352-360. *)
Definition after_worker_stop (w : world) : outcome world :=
  do w <- use ORs w;
  do k <- test OWorker w;
  do w <- (if k then do w <- use OWorker w; (if w_open w || w_exit w then Abort else do w <- release OWorker w; Ok (set_ptr OWorker Null w)) else Ok w);
  do w <- (if w_rsr w then do w <- follow ORsSock w; do w <- stop ORsSock w; Ok (set_rsr false w) else Ok w);
  do s <- test ORsSock w;
  do w <- (if s then do w <- close_free ORsSock w; do w <- use ORsSock w; Ok (set_ptr ORsSock Null (put_data ORsSock false w)) else Ok w);
  do u <- test OUb w;
  do w <- (if u then do w <- release OUb w; Ok (set_ptr OUb Null w) else Ok w);
  after_close w.
(** daemon.c:674-693 hsk_daemon_close with rs.c:299-315 hsk_rs_close and rs_worker.c:398-421 *)
Definition daemon_close (w : world) : outcome world :=
  do s <- test OSig w;
  if negb s then Ok w
  else do r <- test ORs w;
  if negb r then after_close w
  else do w <- use ORs w;
  do k <- test OWorker w;
  if k then do w <- use OWorker w; (if w_open w then Ok (set_exit true w) else after_worker_stop w)
  else after_worker_stop w.

(** ** The event loop *)
(** A signal (true: SIGINT); the worker ended (after_quit_async: rs_worker.c); a datagram for
    the root server, which may start a lookup; a lookup is answered; a datagram for the
    recursive server; the timer of the pool; the loop frees the closed handles *)
Inductive event := ESignal (int : bool) | EQuit | ENs (lookup : bool) | EAnswer | ERs | ETick | EReap.
Definition handles : list obj := [OInt; OTerm; OTimer; ONsSock; ORsSock].
Definition is_active (s : ost) : bool := match s with Active => true | _ => false end.
Definition is_open_handle (s : ost) : bool := match s with Active | Closing => true | _ => false end.
(** Events that cannot happen change nothing *)
Definition step (e : event) (w : world) : outcome world :=
  match e with
  | ESignal int =>                               (* signals.c:113-124 signal_handler *)
      let h := if int : bool then OInt else OTerm in
      if is_open_handle (w_st w h) then if w_data w h then do w <- use OSig w; daemon_close w else Ok w else Ok w
  | EQuit => if w_exit w then after_worker_stop (set_open false (set_exit false w)) else Ok w
  | ENs lookup =>                                (* ns.c:694-760, 294-540 *)
      if is_active (w_st w ONsSock) && w_data w ONsSock then
        do w <- use ONs w; if lookup then do w <- use OPool w; Ok (set_wait true w) else Ok w
      else Ok w
  | EAnswer => if w_wait w then do w <- use OPool w; do w <- use ONs w; Ok (set_wait false w) else Ok w
  | ERs => if is_active (w_st w ORsSock) && w_data w ORsSock then do w <- use ORs w; do w <- follow OWorker w; use OWorker w else Ok w
  | ETick => if is_active (w_st w OTimer) then use OPool w else Ok w
  | EReap => Ok (fold_left (fun w o => match w_st w o with Closing => set_st o Gone w | _ => w end) handles w)
  end.
(** uv_run returns when no handle is left; [true]: it returned *)
Definition over (w : world) : bool := negb (existsb (fun o => is_open_handle (w_st w o)) handles).
Fixpoint run (es : list event) (w : world) : outcome (bool * world) :=
  if over w then Ok (true, w)
  else match es with [] => Ok (false, w) | e :: es => do w <- step e w; run es w end.

(** ** main *)
(** The exit code and what is left; or the loop still runs *)
Inductive ending := Exited (code : Z) (w : world) | Running (w : world).
(** daemon.c:790-805 from the label done, with a loop *)
Definition finish (es : list event) (code : Z) (w : world) : outcome ending :=
  do s <- test OSig w;
  if negb s then Ok (Exited code w)
  else do w <- daemon_close w;
  do (b, w) <- run es w;
  Ok (if b then Exited code w else Running w).
(** daemon.c:751-806 main after the options; [es]: what happens while the loop runs *)
Definition main (es : list event) : outcome ending :=
  let w := world0 in
  if c_key cfg && negb (ok CIdentity) then Ok (Exited 3 w)
  else if negb (ok CLoop) then Ok (Exited 3 w)
  else do (rc, w) <- daemon_init w;
  if negb (rc =? 0) then finish es rc w
  else do (rc, w) <- daemon_open w;
  if negb (rc =? 0) then finish es rc w
  else do (b, w) <- run es w;
  if negb b then Ok (Running w) else finish [] 0 w.
End Daemon.
