(** Model of src/pool.c: the peers of the pool, the lookups of names that are under way, the
    timer. Addresses of peers come from the model of addrmgr.c.

    The parts that talk to the network are inputs: what came of a write, of opening a
    connection, of reading. A peer that is closing (HSK_STATE_DISCONNECTING) is not in the
    list any more and has no lookups: operations on an identifier that is not in the list
    are those on such a peer, until libuv calls after_close. The messages are those of
    MsgModel, the stream of bytes is in FrameModel and BrontideModel, headers in
    BatchModel and ChainModel. *)
From Verif Require Import Common AddrModel AddrmanModel.

(** error.h *)
Definition e_success : Z := 0.
Definition e_nomem : Z := 1.
Definition e_timeout : Z := 2.
Definition e_failure : Z := 3.
Definition e_badargs : Z := 4.
Definition e_hashmismatch : Z := 6.

(** pool.h:23-29 *)
Inductive pstate := Connecting | Reading | Handshake.
Definition pstate_eqb (a b : pstate) : bool :=
  match a, b with Connecting, Connecting | Reading, Reading | Handshake, Handshake => true | _, _ => false end.

(** pool.h:45-53; [rq_id] stands for the callback and its argument *)
Record req := { rq_id : Z; rq_name : list Z; rq_hash : list Z; rq_root : list Z; rq_time : Z }.
(** pool.h:55-90, the times *)
Record clocks := { c_getheaders : Z; c_version : Z; c_last_ping : Z; c_last_pong : Z; c_min_ping : Z; c_ping_timer : Z;
  c_challenge : Z; c_conn : Z; c_send : Z; c_recv : Z }.
(** pool.h:55-90. The hash table [names] is a list of pairs: a key and the requests chained
    at it, the newest first. That it is a map is C25; the order of its iteration is that of
    the list. *)
Record peer := { p_id : Z; p_addr : addr; p_brontide : bool; p_state : pstate; p_names : list (list Z * list req);
  p_proofs : Z; p_clocks : clocks }.
(** pool.h:92-113; [pl_addrs]: the keys of the map [peers] *)
Record pool := { pl_peers : list peer; pl_size : Z; pl_addrs : list addr; pl_max : Z; pl_next : Z; pl_pending : list req;
  pl_block_time : Z; pl_getheaders : Z; pl_am : addrman }.

(** What can be seen from outside: a callback, a message that was written *)
Inductive pmsg := MVersion | MVerack | MPing (n : Z) | MPong (n : Z) | MSendheaders | MGetaddr | MGetheaders | MGetproof (key root : list Z).
Inductive ev :=
| Called (id : Z) (name : list Z) (status : Z) (exist : bool) (data : list Z)
| Wrote (peer : Z) (m : pmsg).

(** A result, the events before it, a return code *)
Definition res := outcome (pool * list ev * Z).
Definition rbind (r : res) (f : pool -> Z -> res) : res :=
  obind r (fun '(pl, es, rc) => obind (f pl rc) (fun '(pl, es', rc) => Ok (pl, es ++ es', rc))).

(* ---------- records ---------- *)
Definition set_peers (pl : pool) (l : list peer) : pool :=
  {| pl_peers := l; pl_size := pl_size pl; pl_addrs := pl_addrs pl; pl_max := pl_max pl; pl_next := pl_next pl; pl_pending := pl_pending pl;
     pl_block_time := pl_block_time pl; pl_getheaders := pl_getheaders pl; pl_am := pl_am pl |}.
Definition set_am (pl : pool) (am : addrman) : pool :=
  {| pl_peers := pl_peers pl; pl_size := pl_size pl; pl_addrs := pl_addrs pl; pl_max := pl_max pl; pl_next := pl_next pl; pl_pending := pl_pending pl;
     pl_block_time := pl_block_time pl; pl_getheaders := pl_getheaders pl; pl_am := am |}.
Definition find_peer (pl : pool) (id : Z) : option peer := find (fun p => p_id p =? id) (pl_peers pl).
Definition upd_peer (pl : pool) (id : Z) (f : peer -> peer) : pool :=
  set_peers pl (map (fun p => if p_id p =? id then f p else p) (pl_peers pl)).
Definition with_names (n : list (list Z * list req)) (p : peer) : peer :=
  {| p_id := p_id p; p_addr := p_addr p; p_brontide := p_brontide p; p_state := p_state p; p_names := n; p_proofs := p_proofs p; p_clocks := p_clocks p |}.
Definition with_state (s : pstate) (p : peer) : peer :=
  {| p_id := p_id p; p_addr := p_addr p; p_brontide := p_brontide p; p_state := s; p_names := p_names p; p_proofs := p_proofs p; p_clocks := p_clocks p |}.
Definition with_clocks (f : clocks -> clocks) (p : peer) : peer :=
  {| p_id := p_id p; p_addr := p_addr p; p_brontide := p_brontide p; p_state := p_state p; p_names := p_names p; p_proofs := p_proofs p; p_clocks := f (p_clocks p) |}.
Definition set_send (t : Z) (c : clocks) : clocks :=
  {| c_getheaders := c_getheaders c; c_version := c_version c; c_last_ping := c_last_ping c; c_last_pong := c_last_pong c; c_min_ping := c_min_ping c;
     c_ping_timer := c_ping_timer c; c_challenge := c_challenge c; c_conn := c_conn c; c_send := t; c_recv := c_recv c |}.
Definition set_recv (t : Z) (c : clocks) : clocks :=
  {| c_getheaders := c_getheaders c; c_version := c_version c; c_last_ping := c_last_ping c; c_last_pong := c_last_pong c; c_min_ping := c_min_ping c;
     c_ping_timer := c_ping_timer c; c_challenge := c_challenge c; c_conn := c_conn c; c_send := c_send c; c_recv := t |}.
Definition set_conn (t : Z) (c : clocks) : clocks :=
  {| c_getheaders := c_getheaders c; c_version := c_version c; c_last_ping := c_last_ping c; c_last_pong := c_last_pong c; c_min_ping := c_min_ping c;
     c_ping_timer := c_ping_timer c; c_challenge := c_challenge c; c_conn := t; c_send := c_send c; c_recv := c_recv c |}.
Definition set_version (t : Z) (c : clocks) : clocks :=
  {| c_getheaders := c_getheaders c; c_version := t; c_last_ping := c_last_ping c; c_last_pong := c_last_pong c; c_min_ping := c_min_ping c;
     c_ping_timer := c_ping_timer c; c_challenge := c_challenge c; c_conn := c_conn c; c_send := c_send c; c_recv := c_recv c |}.
Definition set_getheaders (t : Z) (c : clocks) : clocks :=
  {| c_getheaders := t; c_version := c_version c; c_last_ping := c_last_ping c; c_last_pong := c_last_pong c; c_min_ping := c_min_ping c;
     c_ping_timer := c_ping_timer c; c_challenge := c_challenge c; c_conn := c_conn c; c_send := c_send c; c_recv := c_recv c |}.
Definition set_challenge (n : Z) (c : clocks) : clocks :=
  {| c_getheaders := c_getheaders c; c_version := c_version c; c_last_ping := c_last_ping c; c_last_pong := c_last_pong c; c_min_ping := c_min_ping c;
     c_ping_timer := c_ping_timer c; c_challenge := n; c_conn := c_conn c; c_send := c_send c; c_recv := c_recv c |}.
Definition set_ping_timer (t : Z) (c : clocks) : clocks :=
  {| c_getheaders := c_getheaders c; c_version := c_version c; c_last_ping := c_last_ping c; c_last_pong := c_last_pong c; c_min_ping := c_min_ping c;
     c_ping_timer := t; c_challenge := c_challenge c; c_conn := c_conn c; c_send := c_send c; c_recv := c_recv c |}.
Definition set_last_ping (t : Z) (c : clocks) : clocks :=
  {| c_getheaders := c_getheaders c; c_version := c_version c; c_last_ping := t; c_last_pong := c_last_pong c; c_min_ping := c_min_ping c;
     c_ping_timer := c_ping_timer c; c_challenge := c_challenge c; c_conn := c_conn c; c_send := c_send c; c_recv := c_recv c |}.
Definition set_pong (t m : Z) (c : clocks) : clocks :=
  {| c_getheaders := c_getheaders c; c_version := c_version c; c_last_ping := c_last_ping c; c_last_pong := t; c_min_ping := m;
     c_ping_timer := c_ping_timer c; c_challenge := c_challenge c; c_conn := c_conn c; c_send := c_send c; c_recv := c_recv c |}.

(* ---------- the table of names of a peer ---------- *)
Fixpoint names_get (l : list (list Z * list req)) (h : list Z) : option (list req) :=
  match l with [] => None | (k, v) :: r => if beq k h then Some v else names_get r h end.
Fixpoint names_set (l : list (list Z * list req)) (h : list Z) (v : list req) : list (list Z * list req) :=
  match l with [] => [(h, v)] | (k, w) :: r => if beq k h then (k, v) :: r else (k, w) :: names_set r h v end.
Fixpoint names_del (l : list (list Z * list req)) (h : list Z) : list (list Z * list req) :=
  match l with [] => [] | (k, w) :: r => if beq k h then r else (k, w) :: names_del r h end.

(* ---------- closing ---------- *)
(** pool.c:681-714 hsk_peer_timeout_reqs *)
Definition timeout_reqs (names : list (list Z * list req)) : list ev :=
  map (fun r => Called (rq_id r) (rq_name r) e_timeout false []) (flat_map snd names).
(** hsk_map_del on the peers by address *)
Fixpoint addrs_del (l : list addr) (a : addr) : option (list addr) :=
  match l with [] => None | b :: r => if addr_equal b a then Some r else option_map (cons b) (addrs_del r a) end.
(** pool.c:990-1021 hsk_peer_close with 1060-1101 hsk_peer_remove, on a peer of the list *)
Definition close (pl : pool) (id : Z) : res :=
  match find_peer pl id with
  | None => Ok (pl, [], 0)
  | Some p =>
      if negb (0 <? pl_size pl) then Abort
      else match addrs_del (pl_addrs pl) (p_addr p) with
      | None => Abort
      | Some l =>
          Ok ({| pl_peers := filter (fun q => negb (p_id q =? id)) (pl_peers pl); pl_size := pl_size pl - 1; pl_addrs := l; pl_max := pl_max pl;
                 pl_next := pl_next pl; pl_pending := pl_pending pl; pl_block_time := pl_block_time pl; pl_getheaders := pl_getheaders pl; pl_am := pl_am pl |},
              timeout_reqs (p_names p), 0)
      end
  end.

(* ---------- sending ---------- *)
(** What comes of sending: it is written; there is no memory; the cipher fails with a code;
    the write fails and the peer is closed. *)
Inductive sent := Sent | NoMem | NoWrite (rc : Z) | Broken.
(** pool.c:1103-1188, 1190-1216 hsk_peer_send. [now]: the clock at the write *)
Definition send (s : sent) (now : Z) (m : pmsg) (pl : pool) (id : Z) : res :=
  match s with
  | NoMem => Ok (pl, [], e_nomem)
  | _ =>
      match find_peer pl id with
      | None => Ok (pl, [], 0)
      | Some p =>
          if negb (pstate_eqb (p_state p) Handshake) then Ok (pl, [], 0)
          else match s with
          | Sent => Ok (upd_peer pl id (with_clocks (set_send now)), [Wrote id m], 0)
          | NoWrite rc => Ok (pl, [], rc)
          | _ => rbind (close pl id) (fun pl _ => Ok (pl, [], e_failure))
          end
      end
  end.

(* ---------- the choice of a peer for a name ---------- *)
(** pool.c:454-473: the best peers; the first peer of the list is the start *)
Fixpoint best_loop (first : peer) (second : option peer) (l : list peer) : peer * option peer :=
  match l with
  | [] => (first, second)
  | p :: r =>
      if negb (pstate_eqb (p_state p) Handshake) then best_loop first second r
      else if (p_proofs first <? p_proofs p) && (zlen (p_names p) <=? zlen (p_names first)) then best_loop p (Some first) r
      else best_loop first second r
  end.
Definition ready (l : list peer) : list peer := filter (fun p => pstate_eqb (p_state p) Handshake) l.
(** pool.c:452-505 hsk_pool_pick_prover; [rnd]: its random numbers *)
Definition pick_prover (rnd : nat -> Z) (pl : pool) (h : list Z) : option peer :=
  match pl_peers pl with
  | [] => None
  | head :: _ =>
      let '(first, second) := best_loop head None (pl_peers pl) in
      let total := zlen (ready (pl_peers pl)) in
      if total =? 0 then None
      else
        let det := nth_error (ready (pl_peers pl)) (Z.to_nat (nth 0 h 0 mod total)) in
        let rand := nth_error (ready (pl_peers pl)) (Z.to_nat (rnd 0%nat mod total)) in
        if rnd 1%nat mod 5 =? 0 then rand
        else match second with
        | Some s => if rnd 2%nat mod 10 =? 0 then Some s else if rnd 3%nat mod 10 =? 0 then Some first else det
        | None => if rnd 2%nat mod 10 =? 0 then Some first else det
        end
  end.

(* ---------- lookups ---------- *)
(** pool.c:507-566 hsk_pool_resolve. [synced], [root]: what the chain says; [mem]: memory for
    the request, [mem2]: for the table; [hash]: hsk_hash_name of the name. *)
Definition resolve (synced : bool) (root hash name : list Z) (id now : Z) (mem mem2 : bool) (rnd : nat -> Z) (s : sent) (pl : pool) : res :=
  if negb synced then Ok (pl, [], e_timeout)
  else if negb mem then Ok (pl, [], e_nomem)
  else
    let r := {| rq_id := id; rq_name := name; rq_hash := hash; rq_root := root; rq_time := now |} in
    match pick_prover rnd pl hash with
    | None =>
        Ok ({| pl_peers := pl_peers pl; pl_size := pl_size pl; pl_addrs := pl_addrs pl; pl_max := pl_max pl; pl_next := pl_next pl;
               pl_pending := r :: pl_pending pl; pl_block_time := pl_block_time pl; pl_getheaders := pl_getheaders pl; pl_am := pl_am pl |}, [], 0)
    | Some p =>
        if negb mem2 then Ok (pl, [], e_nomem)
        else match names_get (p_names p) hash with
        | Some (h :: chain) =>
            let r := {| rq_id := id; rq_name := name; rq_hash := hash; rq_root := root; rq_time := rq_time h |} in
            Ok (upd_peer pl (p_id p) (fun p => with_names (names_set (p_names p) hash (r :: h :: chain)) p), [], 0)
        | _ =>
            send s now (MGetproof hash root) (upd_peer pl (p_id p) (fun p => with_names (names_set (p_names p) hash [r]) p)) (p_id p)
        end
    end.

(** pool.c:1527-1589 hsk_peer_handle_proof. [v]: what hsk_proof_verify says of the root and
    key of the message: a code, and whether the name exists with which data *)
Definition handle_proof (key root : list Z) (v : Z * bool * list Z) (pl : pool) (id : Z) : res :=
  match find_peer pl id with
  | None => Ok (pl, [], e_badargs)
  | Some p =>
      match names_get (p_names p) key with
      | None | Some [] => Ok (pl, [], e_badargs)
      | Some (h :: chain) =>
          if negb (beq root (rq_root h)) then Ok (pl, [], e_hashmismatch)
          else
            let '(rc, ex, data) := v in
            if negb (rc =? 0) then Ok (pl, [], rc)
            else
              Ok (upd_peer pl id (fun p => {| p_id := p_id p; p_addr := p_addr p; p_brontide := p_brontide p; p_state := p_state p;
                                              p_names := names_del (p_names p) key; p_proofs := p_proofs p + 1; p_clocks := p_clocks p |}),
                  map (fun r => Called (rq_id r) (rq_name r) e_success ex data) (h :: chain), 0)
      end
  end.
(** pool.c:1653-1656: a handler that fails closes the peer *)
Definition checked (r : res) (id : Z) : res := rbind r (fun pl rc => if rc =? 0 then Ok (pl, [], 0) else close pl id).

(* ---------- other messages ---------- *)
(** pool.c:1640-1646 *)
Definition on_recv (now : Z) (pl : pool) (id : Z) : res := Ok (upd_peer pl id (with_clocks (set_recv now)), [], 0).
(** pool.c:1218-1246: the version message *)
Definition send_version (s : sent) (now : Z) (pl : pool) (id : Z) : res := send s now MVersion (upd_peer pl id (with_clocks (set_version now))) id.
(** pool.c:1287-1302 *)
Definition send_getheaders (s : sent) (now : Z) (pl : pool) (id : Z) : res := send s now MGetheaders (upd_peer pl id (with_clocks (set_getheaders now))) id.
(** pool.c:1319-1348. [services]: of the message. The time it carries goes to timedata.c
    (TimeModel); the agent and the height of the peer are kept for the log only. *)
Definition handle_version (services : Z) (s1 s2 s3 s4 : sent) (now : Z) (pl : pool) (id : Z) : res :=
  match find_peer pl id with
  | None => Ok (pl, [], 0)
  | Some p =>
      obind (mark_ack now (pl_am pl) (p_addr p) services) (fun '(am, _) =>
      rbind (send s1 now MVerack (set_am pl am) id) (fun pl _ =>
      rbind (send s2 now MSendheaders pl id) (fun pl rc =>
      if negb (rc =? 0) then Ok (pl, [], rc) else
      rbind (send s3 now MGetaddr pl id) (fun pl rc =>
      if negb (rc =? 0) then Ok (pl, [], rc) else send_getheaders s4 now pl id))))
  end.
(** pool.c:1350-1358 *)
Definition handle_verack (pl : pool) (id : Z) : res := Ok (upd_peer pl id (with_clocks (set_version 0)), [], 0).
(** pool.c:1360-1363 *)
Definition handle_ping (s : sent) (now nonce : Z) (pl : pool) (id : Z) : res := send s now (MPong nonce) pl id.
(** pool.c:1365-1399 *)
Definition pong_clocks (now nonce : Z) (c : clocks) : clocks :=
  if c_challenge c =? 0 then c
  else if negb (nonce =? c_challenge c) then (if nonce =? 0 then set_challenge 0 c else c)
  else
    let c := if c_last_ping c <=? now then
        let d := now - c_last_ping c in
        let m := if c_min_ping c =? 0 then d else c_min_ping c in
        set_pong now (if m <? d then m else d) c
      else c in
    set_challenge 0 c.
Definition handle_pong (now nonce : Z) (pl : pool) (id : Z) : res := Ok (upd_peer pl id (with_clocks (pong_clocks now nonce)), [], 0).

(** What the headers of a message come to (BatchModel): there are none; a code is returned,
    the peer perhaps destroyed already; the peer is banned and destroyed; some are orphans;
    all are in the chain, 2000 of them or fewer *)
Inductive batch := BEmpty | BFail (rc : Z) | BBan (mem : bool) (rc : Z) | BOrphan | BDone (full : bool).
Definition set_block_time (pl : pool) (t : Z) : pool :=
  {| pl_peers := pl_peers pl; pl_size := pl_size pl; pl_addrs := pl_addrs pl; pl_max := pl_max pl; pl_next := pl_next pl; pl_pending := pl_pending pl;
     pl_block_time := t; pl_getheaders := pl_getheaders pl; pl_am := pl_am pl |}.
(** pool.c:1437-1525, what it does to the pool. A code other than success makes the caller
    close the peer ([checked]), so hsk_peer_destroy is not repeated here. *)
Definition peer_headers (b : batch) (s : sent) (now : Z) (pl : pool) (id : Z) : res :=
  match b with
  | BEmpty => Ok (pl, [], 0)
  | BFail rc => Ok (pl, [], rc)
  | BBan mem rc =>
      match find_peer pl id with
      | None => Ok (pl, [], rc)
      | Some p => let '(am, ok) := add_ban mem now (pl_am pl) (p_addr p) in Ok (set_am pl am, [], if ok then rc else e_nomem)
      end
  | BOrphan => rbind (send_getheaders s now pl id) (fun pl _ => Ok (pl, [], 0))
  | BDone full =>
      let pl := upd_peer (set_block_time pl now) id (with_clocks (set_getheaders 0)) in
      if full then send_getheaders s now pl id else Ok (pl, [], 0)
  end.
(** pool.c:1401-1435, with the loop of AddrmanModel *)
Definition peer_addrs (fb : Z) (rnd : nat -> nat -> Z) (now : Z) (l : list netaddr) (pl : pool) (id : Z) : res :=
  obind (handle_addr fb (fun _ => true) rnd now (pl_am pl) l) (fun '(am, ok) => Ok (set_am pl am, [], if ok then 0 else e_failure)).

(** pool.c:1640-1661 hsk_peer_on_read and 1714-1759 hsk_peer_parse for one message: [f] is the
    handler *)
Definition on_msg (now : Z) (f : pool -> Z -> res) (pl : pool) (id : Z) : res :=
  match find_peer pl id with
  | None => Ok (pl, [], 0)
  | Some p =>
      if negb (pstate_eqb (p_state p) Handshake) then Ok (pl, [], 0)
      else rbind (on_recv now pl id) (fun pl _ => checked (f pl id) id)
  end.

(* ---------- connections ---------- *)
(** pool.c:1765-1808 on_connect. [status], [rs]: of the connection and of uv_read_start; [bc]:
    of hsk_brontide_on_connect *)
Definition on_connect (status rs bc : Z) (s : sent) (now : Z) (pl : pool) (id : Z) : res :=
  match find_peer pl id with
  | None => Ok (pl, [], 0)
  | Some p =>
      if negb (pstate_eqb (p_state p) Connecting) then Ok (pl, [], 0)
      else if negb (status =? 0) then close pl id
      else if negb (rs =? 0) then close pl id
      else
        let pl := upd_peer pl id (fun p => with_clocks (set_conn now) (with_state Reading p)) in
        if p_brontide p then (if negb (bc =? 0) then close pl id else Ok (pl, [], 0))
        else send_version s now (upd_peer pl id (with_state Handshake)) id
  end.
(** pool.c:1897-1910 after_brontide_connect *)
Definition on_brontide (s : sent) (now : Z) (pl : pool) (id : Z) : res :=
  match find_peer pl id with
  | None => Ok (pl, [], 0)
  | Some p =>
      if negb (pstate_eqb (p_state p) Reading) then Ok (pl, [], 0)
      else obind (mark_success now (pl_am pl) (p_addr p)) (fun '(am, _) => send_version s now (upd_peer (set_am pl am) id (with_state Handshake)) id)
  end.

(** pool.c:415-450 hsk_pool_refill, 1038-1058 hsk_peer_push. [rf_key]: the key of the address
    is valid; [rf_alloc]: memory for the peer; [rf_open]: what hsk_peer_open returns;
    [rf_map]: memory for the map of the peers. *)
Record refilling := { rf_rnd : nat -> Z; rf_clock : Z -> Z; rf_now : Z; rf_key : bool; rf_alloc : bool; rf_open : Z; rf_map : bool }.
Definition zero_clocks : clocks :=
  {| c_getheaders := 0; c_version := 0; c_last_ping := 0; c_last_pong := 0; c_min_ping := 0; c_ping_timer := 0; c_challenge := 0; c_conn := 0; c_send := 0; c_recv := 0 |}.
Definition push (mem : bool) (p : peer) (pl : pool) : res :=
  if existsb (fun a => addr_equal a (p_addr p)) (pl_addrs pl) then Abort
  else Ok ({| pl_peers := pl_peers pl ++ [p]; pl_size := pl_size pl + 1; pl_addrs := if mem then p_addr p :: pl_addrs pl else pl_addrs pl; pl_max := pl_max pl;
              pl_next := pl_next pl + 1; pl_pending := pl_pending pl; pl_block_time := pl_block_time pl; pl_getheaders := pl_getheaders pl; pl_am := pl_am pl |}, [], 0).
Definition refill (port : Z) (R : refilling) (pl : pool) : res :=
  if pl_max pl <=? pl_size pl then Ok (pl, [], 0)
  else obind (pick port (rf_rnd R) (rf_clock R) (rf_now R) (pl_am pl) (pl_addrs pl)) (fun '(am, o) =>
    let pl := set_am pl am in
    match o with
    | None => Ok (pl, [], 0)
    | Some j =>
        match nth_error (am_slots am) j with
        | None => Ub
        | Some e =>
            let a := e_addr e in
            if has_key a && negb (rf_key R) then obind (remove_addr am a) (fun '(am, _) => Ok (set_am pl am, [], 0))
            else if negb (rf_alloc R) then Ok (pl, [], e_nomem)
            else obind (mark_attempt (rf_now R) am a) (fun '(am, _) =>
              let pl := set_am pl am in
              if is_onion a then Abort
              else if negb (rf_open R =? 0) then Ok (pl, [], rf_open R)
              else push (rf_map R) {| p_id := pl_next pl; p_addr := a; p_brontide := has_key a; p_state := Connecting; p_names := []; p_proofs := 0; p_clocks := zero_clocks |} pl)
        end
    end).

(* ---------- the timer ---------- *)
(** pool.c:716-735 hsk_peer_is_overdue; the clock is read again there, here it is the same *)
Definition overdue (now : Z) (p : peer) : bool :=
  existsb (fun '(_, c) => match c with r :: _ => rq_time r + 5 <? now | [] => false end) (p_names p).
(** pool.c:748-772 *)
Definition stalling (now : Z) (c : clocks) : bool :=
  (c_conn c + 60 <? now) &&
  ((c_send c =? 0) || (c_recv c =? 0) || (c_send c + 1200 <? now) || (c_recv c + 1200 <? now) || (negb (c_challenge c =? 0) && (c_last_ping c + 1200 <? now))).
(** pool.c:741-805: the timer and one peer. [nonce], [s]: for the ping *)
Definition timer_peer (now : Z) (synced : bool) (nonce : Z) (s : sent) (pl : pool) (id : Z) : res :=
  match find_peer pl id with
  | None => Ok (pl, [], 0)
  | Some p =>
      if negb (pstate_eqb (p_state p) Handshake) then Ok (pl, [], 0)
      else if stalling now (p_clocks p) then close pl id
      else
        rbind (if c_ping_timer (p_clocks p) + 30 <? now then
                 if c_challenge (p_clocks p) =? 0 then
                   send s now (MPing nonce) (upd_peer pl id (with_clocks (fun c => set_last_ping now (set_challenge nonce (set_ping_timer now c))))) id
                 else Ok (upd_peer pl id (with_clocks (set_ping_timer now)), [], 0)
               else Ok (pl, [], 0)) (fun pl _ =>
        if negb synced && negb (c_getheaders (p_clocks p) =? 0) && (c_getheaders (p_clocks p) + 30 <? now) then close pl id
        else if negb (c_version (p_clocks p) =? 0) && (c_version (p_clocks p) + 10 <? now) then close pl id
        else if overdue now p then close pl id
        else Ok (pl, [], 0))
  end.
Fixpoint timer_peers (now : Z) (synced : bool) (nonce : Z -> Z) (s : Z -> sent) (pl : pool) (ids : list Z) : res :=
  match ids with
  | [] => Ok (pl, [], 0)
  | id :: r => rbind (timer_peer now synced (nonce id) (s id) pl id) (fun pl _ => timer_peers now synced nonce s pl r)
  end.
(** pool.c:616-628. When the write to the first peer of the list fails its [next] is cleared
    and the loop ends. *)
Fixpoint getheaders_all (now : Z) (s : Z -> sent) (pl : pool) (ids : list Z) : res :=
  match ids with
  | [] => Ok (pl, [], 0)
  | id :: r =>
      match find_peer pl id with
      | None => getheaders_all now s pl r
      | Some p =>
          if negb (pstate_eqb (p_state p) Handshake) then getheaders_all now s pl r
          else
            let first := match pl_peers pl with q :: _ => p_id q =? id | [] => false end in
            rbind (send_getheaders (s id) now pl id) (fun pl _ =>
            match find_peer pl id with
            | None => if first then Ok (pl, [], 0) else getheaders_all now s pl r
            | Some _ => getheaders_all now s pl r
            end)
      end
  end.
(** pool.c:737-815 hsk_pool_timer *)
Definition timer (port now : Z) (synced : bool) (nonce : Z -> Z) (s s2 : Z -> sent) (R : refilling) (pl : pool) : res :=
  rbind (timer_peers now synced nonce s pl (map p_id (pl_peers pl))) (fun pl _ =>
  rbind (if negb (pl_block_time pl =? 0) && (pl_block_time pl + 600 <? now) && ((pl_getheaders pl =? 0) || (pl_getheaders pl + 300 <? now)) then
           rbind (getheaders_all now s2 pl (map p_id (pl_peers pl))) (fun pl _ =>
           Ok ({| pl_peers := pl_peers pl; pl_size := pl_size pl; pl_addrs := pl_addrs pl; pl_max := pl_max pl; pl_next := pl_next pl; pl_pending := pl_pending pl;
                  pl_block_time := pl_block_time pl; pl_getheaders := now; pl_am := pl_am pl |}, [], 0))
         else Ok (pl, [], 0)) (fun pl _ =>
  rbind (refill port R pl) (fun pl _ => Ok (pl, [], 0)))).

(* ---------- start and end ---------- *)
(** pool.c:143-180 *)
Definition pool_init (am : addrman) : pool :=
  {| pl_peers := []; pl_size := 0; pl_addrs := []; pl_max := 8; pl_next := 0; pl_pending := []; pl_block_time := 0; pl_getheaders := 0; pl_am := am |}.
(** pool.c:182-216 hsk_pool_uninit: the peers are closed, the pending requests freed *)
Fixpoint close_all (pl : pool) (ids : list Z) : res :=
  match ids with [] => Ok (pl, [], 0) | id :: r => rbind (close pl id) (fun pl _ => close_all pl r) end.
Definition pool_uninit (pl : pool) : res :=
  rbind (close_all pl (map p_id (pl_peers pl))) (fun pl _ =>
  Ok ({| pl_peers := pl_peers pl; pl_size := pl_size pl; pl_addrs := pl_addrs pl; pl_max := pl_max pl; pl_next := pl_next pl; pl_pending := [];
         pl_block_time := pl_block_time pl; pl_getheaders := pl_getheaders pl; pl_am := pl_am pl |}, [], 0)).
