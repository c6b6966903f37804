(** Model of src/rs_worker.c: the thread that waits for libunbound and hands its results to
    the event loop.

    Two threads share the two queues. Each critical section of a mutex is one step; the steps
    of the two threads interleave in any order. The nodes of the queues are a heap: reading
    or writing one that is not allocated is undefined behaviour. libunbound is the list of
    the requests that it was given and has not answered; with a thread of its own it calls
    back only inside ub_wait. *)
From Verif Require Import Common.

(** rs_worker.h:76-90; [n_cb] stands for cb_func and cb_data, [n_result] for the result *)
Record node := { n_prev : option Z; n_next : option Z; n_cb : Z; n_status : Z; n_result : Z }.
Definition heap := Z -> option node.
Definition hset (h : heap) (a : Z) (n : option node) : heap := fun x => if x =? a then n else h x.
Definition set_prev (p : option Z) (n : node) : node := {| n_prev := p; n_next := n_next n; n_cb := n_cb n; n_status := n_status n; n_result := n_result n |}.
Definition set_next (p : option Z) (n : node) : node := {| n_prev := n_prev n; n_next := p; n_cb := n_cb n; n_status := n_status n; n_result := n_result n |}.
Definition set_answer (s r : Z) (n : node) : node := {| n_prev := n_prev n; n_next := n_next n; n_cb := n_cb n; n_status := s; n_result := r |}.
(** Writing a field of a node *)
Definition poke (h : heap) (a : Z) (f : node -> node) : outcome heap :=
  match h a with None => Ub | Some n => Ok (hset h a (Some (f n))) end.
Record que := { q_head : option Z; q_tail : option Z }.

(** rs_worker.c:120-138 hsk_rs_queue_enqueue, and the list part of 191-207
    hsk_rs_pending_enqueue *)
Definition enqueue (h : heap) (q : que) (a : Z) : outcome (heap * que) :=
  match q_tail q with
  | None => match q_head q with Some _ => Abort | None => Ok (h, {| q_head := Some a; q_tail := Some a |}) end
  | Some t =>
      obind (poke h t (set_next (Some a))) (fun h =>
      obind (poke h a (set_prev (Some t))) (fun h => Ok (h, {| q_head := q_head q; q_tail := Some a |})))
  end.
(** rs_worker.c:97-116 hsk_rs_queue_dequeue *)
Definition dequeue (h : heap) (q : que) : outcome (heap * que * option Z) :=
  match q_head q with
  | None => Ok (h, q, None)
  | Some a =>
      match h a with
      | None => Ub
      | Some n =>
          obind (poke h a (set_next None)) (fun h =>
          match n_next n with
          | Some b => obind (poke h b (set_prev None)) (fun h => Ok (h, {| q_head := Some b; q_tail := q_tail q |}, Some a))
          | None => match q_tail q with Some t => if t =? a then Ok (h, {| q_head := None; q_tail := None |}, Some a) else Abort | None => Abort end
          end)
      end
  end.
Definition is_at (o : option Z) (a : Z) : bool := match o with Some b => b =? a | None => false end.
(** rs_worker.c:211-239 hsk_rs_pending_remove *)
Definition remove (h : heap) (q : que) (a : Z) : outcome (heap * que) :=
  match q_head q, q_tail q with
  | Some _, Some _ =>
      match h a with
      | None => Ub
      | Some n =>
          obind (match n_prev n with
                 | Some p => obind (poke h p (set_next (n_next n))) (fun h => Ok (h, q_head q))
                 | None => if is_at (q_head q) a then Ok (h, n_next n) else Abort
                 end) (fun '(h, hd) =>
          obind (match n_next n with
                 | Some x => obind (poke h x (set_prev (n_prev n))) (fun h => Ok (h, q_tail q))
                 | None => if is_at (q_tail q) a then Ok (h, n_prev n) else Abort
                 end) (fun '(h, tl) =>
          obind (poke h a (fun n => set_next None (set_prev None n))) (fun h => Ok (h, {| q_head := hd; q_tail := tl |}))))
      end
  | _, _ => Abort
  end.

(** What the event loop does: nothing; inside hsk_rs_worker_resolve, between the queue and
    libunbound; inside after_resolve_async; the worker is destroyed *)
Inductive mstate := MIdle | MSend (a : Z) | MDrain | MGone.
(** What the thread does: there is none; about to look at the queue; in uv_cond_wait; in
    ub_wait; in after_resolve_onthread before each of its three calls; about to send the quit
    event; finished *)
Inductive wstate := WNone | WCheck | WBlocked | WWait | WRemove (a : Z) | WEnqueue (a : Z) | WSignal | WQuit | WEnd.
(** [s_sig]: the condition variable was signalled while the thread waits; [s_async], [s_quit]:
    the events of the loop; [s_out]: the requests that libunbound has; [s_allocs]: how many
    nodes were allocated, for the fuel of [flush] *)
Record state := { s_heap : heap; s_pend : que; s_exit : bool; s_queue : que; s_ub : bool; s_out : list Z; s_main : mstate; s_work : wstate;
  s_sig : bool; s_async : bool; s_quit : bool; s_allocs : nat }.
(** What can be seen: a request is accepted or refused, libunbound completes it, its callback
    is called, the worker stopped *)
Inductive event := Accepted (i : Z) | Refused (i : Z) | Completed (i s r : Z) | Called (i s r : Z) | Stopped.

Definition empty_que : que := {| q_head := None; q_tail := None |}.
(** rs_worker.c:311-350 hsk_rs_worker_init when nothing fails *)
Definition worker_init : state :=
  {| s_heap := fun _ => None; s_pend := empty_que; s_exit := false; s_queue := empty_que; s_ub := false; s_out := []; s_main := MIdle; s_work := WNone;
     s_sig := false; s_async := false; s_quit := false; s_allocs := 0 |}.

(** rs_worker.c:55-70 hsk_rs_queue_uninit: the responses left are called *)
Fixpoint flush (fuel : nat) (h : heap) (cur : option Z) : outcome (heap * list event) :=
  match cur with
  | None => Ok (h, [])
  | Some a =>
      match fuel with
      | O => Err 0
      | S k => match h a with
        | None => Ub
        | Some n => obind (flush k (hset h a None) (n_next n)) (fun '(h, es) => Ok (h, Called (n_cb n) (n_status n) (n_result n) :: es))
        end
      end
  end.

(** The steps. Those of the program that uses the worker: *)
Inductive label :=
| LOpen (ok : bool)                (* hsk_rs_worker_open; [ok]: the thread was created *)
| LResolve (a : option Z) (i : Z)  (* hsk_rs_worker_resolve up to the queue; malloc gives [a] *)
| LClose                           (* hsk_rs_worker_close *)
| LUninit                          (* hsk_rs_worker_uninit *)
(** those of the event loop: *)
| LSent (rc : Z)                   (* hsk_rs_worker_resolve from ub_resolve_async on *)
| LAsync                           (* after_resolve_async starts *)
| LDrain                           (* one hsk_rs_queue_dequeue of after_resolve_async *)
| LStop                            (* after_quit_async *)
(** those of the thread: *)
| TCheck | TWake (spurious : bool) | TDeliver (a s r : Z) | TReturn | TRemove | TEnqueue | TSignal | TQuit.

Definition in_list (l : list Z) (a : Z) : bool := existsb (Z.eqb a) l.
Definition drop (l : list Z) (a : Z) : list Z := filter (fun x => negb (x =? a)) l.
Definition with_main (s : state) (m : mstate) : state :=
  {| s_heap := s_heap s; s_pend := s_pend s; s_exit := s_exit s; s_queue := s_queue s; s_ub := s_ub s; s_out := s_out s; s_main := m; s_work := s_work s;
     s_sig := s_sig s; s_async := s_async s; s_quit := s_quit s; s_allocs := s_allocs s |}.
Definition with_work (s : state) (w : wstate) : state :=
  {| s_heap := s_heap s; s_pend := s_pend s; s_exit := s_exit s; s_queue := s_queue s; s_ub := s_ub s; s_out := s_out s; s_main := s_main s; s_work := w;
     s_sig := s_sig s; s_async := s_async s; s_quit := s_quit s; s_allocs := s_allocs s |}.
Definition with_pend (s : state) (h : heap) (q : que) : state :=
  {| s_heap := h; s_pend := q; s_exit := s_exit s; s_queue := s_queue s; s_ub := s_ub s; s_out := s_out s; s_main := s_main s; s_work := s_work s;
     s_sig := s_sig s; s_async := s_async s; s_quit := s_quit s; s_allocs := s_allocs s |}.
Definition with_queue (s : state) (h : heap) (q : que) : state :=
  {| s_heap := h; s_pend := s_pend s; s_exit := s_exit s; s_queue := q; s_ub := s_ub s; s_out := s_out s; s_main := s_main s; s_work := s_work s;
     s_sig := s_sig s; s_async := s_async s; s_quit := s_quit s; s_allocs := s_allocs s |}.
Definition with_out (s : state) (l : list Z) : state :=
  {| s_heap := s_heap s; s_pend := s_pend s; s_exit := s_exit s; s_queue := s_queue s; s_ub := s_ub s; s_out := l; s_main := s_main s; s_work := s_work s;
     s_sig := s_sig s; s_async := s_async s; s_quit := s_quit s; s_allocs := s_allocs s |}.
(** uv_cond_signal wakes the thread if it waits *)
Definition blocked (s : state) : bool := match s_work s with WBlocked => true | _ => false end.
Definition signal (s : state) : state :=
  {| s_heap := s_heap s; s_pend := s_pend s; s_exit := s_exit s; s_queue := s_queue s; s_ub := s_ub s; s_out := s_out s; s_main := s_main s; s_work := s_work s;
     s_sig := s_sig s || blocked s; s_async := s_async s; s_quit := s_quit s; s_allocs := s_allocs s |}.
Definition with_flags (s : state) (sg a q : bool) : state :=
  {| s_heap := s_heap s; s_pend := s_pend s; s_exit := s_exit s; s_queue := s_queue s; s_ub := s_ub s; s_out := s_out s; s_main := s_main s; s_work := s_work s;
     s_sig := sg; s_async := a; s_quit := q; s_allocs := s_allocs s |}.
Definition with_run (s : state) (u x : bool) : state :=
  {| s_heap := s_heap s; s_pend := s_pend s; s_exit := x; s_queue := s_queue s; s_ub := u; s_out := s_out s; s_main := s_main s; s_work := s_work s;
     s_sig := s_sig s; s_async := s_async s; s_quit := s_quit s; s_allocs := s_allocs s |}.
(** rs_worker.c:456-463: the node is written without a test of malloc *)
Definition new_node (a : option Z) (i : Z) (h : heap) : outcome heap :=
  match a with
  | None => Ub
  | Some a => Ok (hset h a (Some {| n_prev := None; n_next := None; n_cb := i; n_status := 0; n_result := 0 |}))
  end.
Definition with_heap (s : state) (h : heap) : state :=
  {| s_heap := h; s_pend := s_pend s; s_exit := s_exit s; s_queue := s_queue s; s_ub := s_ub s; s_out := s_out s; s_main := s_main s; s_work := s_work s;
     s_sig := s_sig s; s_async := s_async s; s_quit := s_quit s; s_allocs := s_allocs s |}.
Definition count (s : state) : state :=
  {| s_heap := s_heap s; s_pend := s_pend s; s_exit := s_exit s; s_queue := s_queue s; s_ub := s_ub s; s_out := s_out s; s_main := s_main s; s_work := s_work s;
     s_sig := s_sig s; s_async := s_async s; s_quit := s_quit s; s_allocs := S (s_allocs s) |}.

Definition sres := option (outcome (state * list event)).
(** rs_worker.c:378-396 hsk_rs_worker_open *)
Definition open (ok : bool) (s : state) : sres :=
  Some (if s_exit s || s_ub s then Abort else if ok then Ok (with_work (with_run s true false) WCheck, []) else Ok (s, [])).
(** rs_worker.c:446-470 hsk_rs_worker_resolve up to hsk_rs_pending_enqueue; malloc gives [a] *)
Definition resolve_start (a : option Z) (i : Z) (s : state) : outcome (state * list event) :=
  if s_exit s || negb (s_ub s) then Ok (s, [Refused i])
  else obind (new_node a i (s_heap s)) (fun h =>
    match a with
    | None => Ub
    | Some a => obind (enqueue h (s_pend s) a) (fun '(h, q) => Ok (with_main (signal (count (with_pend s h q))) (MSend a), []))
    end).
(** malloc gives an address that is not in use *)
Definition fresh (s : state) (a : option Z) : bool := match a with None => true | Some a => match s_heap s a with None => true | Some _ => false end end.
(** rs_worker.c:472-482, the rest: ub_resolve_async; when it fails the node is taken out again and leaks *)
Definition resolve_end (rc : Z) (s : state) (a : Z) : outcome (state * list event) :=
  match s_heap s a with
  | None => Ub
  | Some n =>
      if rc =? 0 then Ok (with_main (with_out s (s_out s ++ [a])) MIdle, [Accepted (n_cb n)])
      else obind (remove (s_heap s) (s_pend s) a) (fun '(h, q) => Ok (with_main (with_pend s h q) MIdle, [Refused (n_cb n)]))
  end.
(** rs_worker.c:403-421 hsk_rs_worker_close, 243-264 hsk_rs_pending_exit *)
Definition close (s : state) : outcome (state * list event) :=
  if s_exit s then Ok (s, []) else if negb (s_ub s) then Abort else Ok (signal (with_run s (s_ub s) true), []).
(** rs_worker.c:352-376 hsk_rs_worker_uninit *)
Definition uninit (s : state) : outcome (state * list event) :=
  if s_exit s then Abort else if s_ub s then Abort
  else match q_head (s_pend s) with
  | Some _ => Abort
  | None => obind (flush (S (s_allocs s)) (s_heap s) (q_head (s_queue s))) (fun '(h, es) => Ok (with_main (with_queue s h empty_que) MGone, es))
  end.
(** rs_worker.c:577-598 after_resolve_async: one turn of the loop *)
Definition drain (s : state) : outcome (state * list event) :=
  obind (dequeue (s_heap s) (s_queue s)) (fun '(h, q, o) =>
  match o with
  | None => Ok (with_main (with_queue s h q) MIdle, [])
  | Some a => match h a with None => Ub | Some n => Ok (with_queue s (hset h a None) q, [Called (n_cb n) (n_status n) (n_result n)]) end
  end).
(** rs_worker.c:600-618 after_quit_async, 276-288 hsk_rs_pending_reset *)
Definition stop (s : state) : outcome (state * list event) :=
  match q_head (s_pend s), q_tail (s_pend s) with
  | None, None => Ok (with_work (with_run (with_flags s (s_sig s) (s_async s) false) false false) WNone, [Stopped])
  | _, _ => Abort
  end.
(** rs_worker.c:291-306 hsk_rs_pending_wait: one look at the queue; 533-550 run_unbound_worker *)
Definition check (s : state) : outcome (state * list event) :=
  match q_head (s_pend s) with
  | Some _ => if s_ub s then Ok (with_work s WWait, []) else Abort
  | None => if s_exit s then Ok (with_work s WQuit, []) else Ok (with_work (with_flags s false (s_async s) (s_quit s)) WBlocked, [])
  end.
(** rs_worker.c:554-575 after_resolve_onthread: the start *)
Definition deliver (s : state) (a st r : Z) : outcome (state * list event) :=
  match s_heap s a with
  | None => Ub
  | Some n =>
      Ok (with_work (with_out (with_heap s (hset (s_heap s) a (Some (set_answer st r n)))) (drop (s_out s) a)) (WRemove a),
          [Completed (n_cb n) st r])
  end.
(** [None]: the step cannot be taken now *)
Definition wstep (l : label) (s : state) : sres :=
  match l with
  | LOpen ok => match s_main s with MIdle => open ok s | _ => None end
  | LResolve a i => match s_main s with MIdle => if fresh s a then Some (resolve_start a i s) else None | _ => None end
  | LClose => match s_main s with MIdle => Some (close s) | _ => None end
  | LUninit => match s_main s with MIdle => Some (uninit s) | _ => None end
  | LSent rc => match s_main s with MSend a => Some (resolve_end rc s a) | _ => None end
  | LAsync =>
      if s_async s then
        match s_main s with
        | MIdle => Some (Ok (with_main (with_flags s (s_sig s) false (s_quit s)) MDrain, []))
        | MGone => Some (Ok (with_flags s (s_sig s) false (s_quit s), []))
        | _ => None
        end
      else None
  | LDrain => match s_main s with MDrain => Some (drain s) | _ => None end
  | LStop => match s_main s, s_work s with MIdle, WEnd => if s_quit s then Some (stop s) else None | _, _ => None end
  | TCheck => match s_work s with WCheck => Some (check s) | _ => None end
  | TWake sp => match s_work s with WBlocked => if s_sig s || sp then Some (Ok (with_work (with_flags s false (s_async s) (s_quit s)) WCheck, [])) else None | _ => None end
  | TDeliver a st r => match s_work s with WWait => if in_list (s_out s) a then Some (deliver s a st r) else None | _ => None end
  | TReturn => match s_work s, s_out s with WWait, [] => Some (Ok (with_work s WCheck, [])) | _, _ => None end
  | TRemove => match s_work s with WRemove a => Some (obind (remove (s_heap s) (s_pend s) a) (fun '(h, q) => Ok (with_work (with_pend s h q) (WEnqueue a), []))) | _ => None end
  | TEnqueue => match s_work s with WEnqueue a => Some (obind (enqueue (s_heap s) (s_queue s) a) (fun '(h, q) => Ok (with_work (with_queue s h q) WSignal, []))) | _ => None end
  | TSignal => match s_work s with WSignal => Some (Ok (with_work (with_flags s (s_sig s) true (s_quit s)) WWait, [])) | _ => None end
  | TQuit => match s_work s with WQuit => Some (Ok (with_work (with_flags s (s_sig s) (s_async s) true) WEnd, [])) | _ => None end
  end.

(** A pointer of the worker while it is set up: never written, NULL, or an object *)
Inductive field := Unset | Null | Set_.
(** rs_worker.c:514-531 free_async, and the tests of the others in 364-375 *)
Definition free_field (f : field) : outcome unit := match f with Unset => Ub | _ => Ok tt end.
(** rs_worker.c:352-376 hsk_rs_worker_uninit on a worker that is not complete *)
Definition uninit_fields (quit async pending queue : field) : outcome unit :=
  obind (free_field quit) (fun _ => obind (free_field async) (fun _ => obind (free_field pending) (fun _ => free_field queue))).
(** rs_worker.c:311-350 hsk_rs_worker_init: which of the four objects can be made. The struct
    comes from malloc, so a field not yet written is [Unset]. *)
Definition init_worker (queue pending async quit : bool) : outcome Z :=
  let fail q a p r := obind (uninit_fields q a p r) (fun _ => Err 3) in
  if negb queue then fail Unset Null Null Null
  else if negb pending then fail Unset Null Null Set_
  else if negb async then fail Unset Null Set_ Set_
  else if negb quit then fail Null Set_ Set_ Set_
  else Ok 0.
