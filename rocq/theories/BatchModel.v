(** Model of src/pool.c:1436-1525: a peer's "headers" message (C19). *)
From Verif Require Import Common HeaderModel ChainModel.

(** What a handler does besides changing the chain: ban the peer's address, destroy
    the peer, ask for more headers. *)
Inductive peer_event := EvBan | EvDestroy | EvGetHeaders.

Section Hash.
  Variable blake256 blake512 sha3 : list Z -> list Z.
  Local Notation hash := (hdr_hash blake256 blake512 sha3).
  Local Notation pow := (verify_pow blake256 blake512 sha3).

  (** pool.c:1452-1466: the first loop; [last] is the hash of the header before. *)
  Fixpoint check_batch (last : option (list Z)) (hs : list hdr) : Z :=
    match hs with
    | [] => 0
    | h :: r =>
        if match last with Some p => negb (beq (h_prev h) p) | None => false end then 6
        else if negb (pow h =? 0) then pow h
        else check_batch (Some (hash h)) r
    end.

  (** pool.c:1470-1506: the second loop. [clock i] is the time of the i-th call of
      hsk_chain_add. The result is: [None] if all headers were offered, or the code
      returned early; whether an orphan was seen; the chain; the events. Banning
      (hsk_addrman_add_ban) is assumed not to run out of memory. *)
  Fixpoint add_batch (N : net) (clock : nat -> Z) (i : nat) (st : chain) (orphan : bool) (hs : list hdr)
    : outcome (option Z * bool * chain * list peer_event) :=
    match hs with
    | [] => Ok (None, orphan, st, [])
    | h :: r =>
        match chain_add blake256 blake512 sha3 N (clock i) st h with
        | Ok (rc, st') =>
            if (rc =? 24) || (rc =? 25) then Ok (Some rc, orphan, st', [EvBan; EvDestroy])
            else if rc =? 21 then Ok (Some rc, orphan, st', [EvDestroy])
            else if (rc =? 26) || (rc =? 23) then add_batch N clock (S i) st' true r
            else if negb (rc =? 0) then
              (if rc =? 22 then add_batch N clock (S i) st' orphan r else Ok (Some rc, orphan, st', []))
            else add_batch N clock (S i) st' orphan r
        | Err e => Err e
        | Abort => Abort
        | Ub => Ub
        end
    end.

  (** pool.c:1436-1525 hsk_peer_handle_headers: return code, chain and events.
      The headers are those hsk_headers_msg_read decoded, so header_count is their
      number. Sending getheaders is assumed to succeed; the counters
      peer->headers, block_time and getheaders_time are not modelled. *)
  Definition handle_headers (N : net) (clock : nat -> Z) (st : chain) (hs : list hdr)
    : outcome (Z * chain * list peer_event) :=
    if zlen hs =? 0 then Ok (0, st, [])
    else if 2000 <? zlen hs then Ok (3, st, [])
    else
      let rc := check_batch None hs in
      if negb (rc =? 0) then Ok (rc, st, [])
      else match add_batch N clock 0 st false hs with
      | Ok (Some rc, _, st', ev) => Ok (rc, st', ev)
      | Ok (None, orphan, st', ev) =>
          Ok (0, st', ev ++ if orphan || (zlen hs =? 2000) then [EvGetHeaders] else [])
      | Err e => Err e
      | Abort => Abort
      | Ub => Ub
      end.
End Hash.
