(** Model of src/rs.c: the recursive server, which answers from libunbound through the
    resolver thread of [WorkerModel]. *)
From Verif Require Import Common WorkerModel DnsNameModel DnsMsgModel ReqModel AnswerModel.

(** struct ub_result of libunbound, the fields that are used: rcode, secure, bogus,
    answer_packet *)
Record answer := { u_rcode : Z; u_secure : bool; u_bogus : bool; u_packet : list Z }.

(** rs.c:452-475. [code] of a message is a uint16_t (dns.h:27). *)
Definition tidy (q : req) (a : answer) (m : msg) : msg :=
  let flags := Z.shiftl 1 7 in
  let flags := if u_secure a && negb (u_bogus a) then Z.lor flags (Z.shiftl 1 5) else flags in
  let strip := 0 <? zlen (m_an m) in
  let flags := if negb (q_dnssec q) && negb (q_ad q) then Z.land flags (65535 - Z.shiftl 1 5) else flags in
  {| m_id := m_id m; m_opcode := 0; m_code := u_rcode a mod 65536; m_flags := flags; m_qd := m_qd m; m_an := m_an m;
     m_ns := if strip then [] else m_ns m; m_ar := if strip then [] else m_ar m; m_edns := m_edns m |}.

Section Server.
(** [sign]: SIG(0) signing when there is a key; [result]: what the result pointers of
    libunbound point to, or NULL *)
Variables (sign : option (list Z -> option (list Z))) (result : Z -> option answer).

(** rs.c:394-411, after a refusal of the worker, and 485-501 *)
Definition servfail (q : req) : outcome (option (list Z)) := msg_finalize sign to_servfail q.
(** rs.c:413-502: the bytes given to hsk_rs_send *)
Definition respond (q : req) (status : Z) (a : answer) : outcome (option (list Z)) :=
  if negb (status =? 0) then servfail q
  else obind (msg_decode (u_packet a)) (fun o =>
    match o with
    | None => servfail q
    | Some m => obind (msg_finalize sign (tidy q a m) q) (fun o => match o with None => servfail q | Some w => Ok (Some w) end)
    end).

(** A request in memory and the address of its client; [x_no] numbers the requests, so that
    they can be told apart in what is seen *)
Record entry := { x_no : Z; x_req : req; x_client : list Z }.
(** Before hsk_rs_open, with a socket, and after after_worker_stop *)
Inductive phase := Before | Serving | Finished.
Record rs := { r_worker : state; r_reqs : Z -> option entry; r_phase : phase; r_next : Z }.
Definition rs_init : rs := {| r_worker := worker_init; r_reqs := fun _ => None; r_phase := Before; r_next := 0 |}.
Definition with_worker (s : rs) (w : state) : rs := {| r_worker := w; r_reqs := r_reqs s; r_phase := r_phase s; r_next := r_next s |}.
Definition with_phase (s : rs) (p : phase) : rs := {| r_worker := r_worker s; r_reqs := r_reqs s; r_phase := p; r_next := r_next s |}.
Definition put (s : rs) (i : Z) (x : option entry) : rs :=
  {| r_worker := r_worker s; r_reqs := fun j => if j =? i then x else r_reqs s j; r_phase := r_phase s; r_next := r_next s |}.
Definition tick (s : rs) : rs := {| r_worker := r_worker s; r_reqs := r_reqs s; r_phase := r_phase s; r_next := r_next s + 1 |}.

(** What is seen: a request is recorded, libunbound is asked, libunbound completes it, bytes
    are handed to the socket, the request is freed; the callback of hsk_rs_close *)
Inductive sight := Got (n : Z) (q : req) (client : list Z) | Asked (n : Z) (name : list Z) (type class : Z) | Resolved (n status r : Z)
  | Reply (n : Z) (wire client : list Z) | Freed (n : Z) | Closed.
(** rs.c:504-566: without a socket nothing is sent *)
Definition send (s : rs) (x : entry) (o : option (list Z)) : list sight :=
  match o, r_phase s with Some w, Serving => [Reply (x_no x) w (x_client x)] | _, _ => [] end.
(** A request is answered and freed: rs.c:396-411 and 675-689 *)
Definition finish (s : rs) (i : Z) (f : req -> outcome (option (list Z))) : outcome (rs * list sight) :=
  match r_reqs s i with
  | None => Ub
  | Some x => obind (f (x_req x)) (fun o => Ok (put s i None, send s x o ++ [Freed (x_no x)]))
  end.
(** What the server does for each event of the worker: rs.c:380-390, where the name, type and
    class of the request are passed to libunbound; 675-689 after_resolve. The completion is
    not seen by the server, only recorded here. *)
Definition react (s : rs) (e : event) : outcome (rs * list sight) :=
  match e with
  | Accepted i => match r_reqs s i with None => Ub | Some x => Ok (s, [Asked (x_no x) (q_name (x_req x)) (q_type (x_req x)) (q_class (x_req x))]) end
  | Refused i => finish s i servfail
  | Completed i st r => match r_reqs s i with None => Ub | Some x => Ok (s, [Resolved (x_no x) st r]) end
  | Called i st r => finish s i (fun q => match result r with None => Ok None | Some a => respond q st a end)
  | Stopped => Ok (s, [])
  end.
Fixpoint reacts (s : rs) (es : list event) : outcome (rs * list sight) :=
  match es with
  | [] => Ok (s, [])
  | e :: es => obind (react s e) (fun '(s, a) => obind (reacts s es) (fun '(s, b) => Ok (s, a ++ b)))
  end.

Inductive rlabel :=
| ROpen (ok : bool)                              (* hsk_rs_open; [ok]: the thread was created *)
| RRecv (i : Z) (a : option Z) (client data : list Z) (* a datagram; malloc gives [i] for the request, [a] for the worker *)
| RSent (rc : Z)                                 (* the rest of hsk_rs_worker_resolve, where libunbound returns [rc] *)
| RClose                                         (* hsk_rs_close *)
| RLoop (l : label).                             (* an event of the worker on the loop, or a step of its thread *)
Definition rres := option (outcome (rs * list sight)).
Definition by_worker (s : rs) (r : sres) : rres :=
  match r with None => None | Some o => Some (obind o (fun '(w, es) => reacts (with_worker s w) es)) end.
(** rs.c:586-617 after_worker_stop: the worker is freed, which calls back what is left, and
    then the socket is closed *)
Definition worker_stop (s : rs) : outcome (rs * list sight) :=
  match wstep LUninit (r_worker s) with
  | None => Ub
  | Some o => obind o (fun '(w, es) => obind (reacts (with_worker s w) es) (fun '(s, a) => Ok (with_phase s Finished, a ++ [Closed])))
  end.
(** rs.c:351-411 hsk_rs_onrecv *)
Definition onrecv (s : rs) (i : Z) (a : option Z) (client data : list Z) : rres :=
  match req_create data with
  | Ok None => Some (Ok (s, []))
  | Ok (Some q) =>
      let got := fun o : outcome (rs * list sight) => obind o (fun '(s', es) => Ok (s', Got (r_next s) q client :: es)) in
      let s := tick (put s i (Some {| x_no := r_next s; x_req := q; x_client := client |})) in
      if q_type q =? 255 then Some (got (finish s i (msg_finalize sign to_notimp)))
      else match by_worker s (wstep (LResolve a i) (r_worker s)) with None => None | Some o => Some (got o) end
  | Err e => Some (Err e) | Abort => Some Abort | Ub => Some Ub
  end.
(** The steps that the worker takes by itself *)
Definition inner (l : label) : bool := match l with LOpen _ | LResolve _ _ | LClose | LUninit | LSent _ | LStop => false | _ => true end.
(** [None]: the step cannot be taken now. rs.c:251-297 hsk_rs_open when the socket can be made;
    299-315 hsk_rs_close. *)
Definition rstep (l : rlabel) (s : rs) : rres :=
  match l with
  | ROpen ok => match r_phase s with Before => by_worker (with_phase s Serving) (wstep (LOpen ok) (r_worker s)) | _ => None end
  | RRecv i a client data =>
      match r_phase s, s_main (r_worker s), r_reqs s i with Serving, MIdle, None => onrecv s i a client data | _, _, _ => None end
  | RSent rc => by_worker s (wstep (LSent rc) (r_worker s))
  | RClose =>
      match r_phase s, s_main (r_worker s) with
      | Serving, MIdle => if s_ub (r_worker s) then by_worker s (wstep LClose (r_worker s)) else Some (worker_stop s)
      | Serving, _ => None
      | _, _ => Some (Ok (with_phase s Finished, [Closed]))
      end
  | RLoop LStop =>
      match wstep LStop (r_worker s) with
      | None => None
      | Some o => Some (obind o (fun '(w, es) => obind (reacts (with_worker s w) es) (fun '(s, a) => obind (worker_stop s) (fun '(s, b) => Ok (s, a ++ b)))))
      end
  | RLoop l => if inner l then by_worker s (wstep l (r_worker s)) else None
  end.
End Server.
