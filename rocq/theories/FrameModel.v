(** Model of the message framing of a peer connection, src/pool.c:1640-1759.

    The rest of the peer is a parameter: its state [St], whether the peer is still in
    the state HSK_STATE_HANDSHAKE, closing it, and handling one decoded message
    (hsk_peer_handle_msg, which returns an error code). Not modelled: last_recv, log
    output and failing allocations. *)
From Verif Require Import Common BioModel ProofModel MsgModel.

(** pool.h: msg_hdr, msg (its first msg_pos bytes), msg_len and msg_cmd of hsk_peer_t *)
Record fr := mk_fr { f_hdr : bool; f_buf : list Z; f_len : Z; f_cmd : Z }.
(** pool.c:869-873 *)
Definition fr_init : fr := mk_fr false [] 9 0.

Definition HSK_SUCCESS : Z := 0.             (* error.h *)
Definition HSK_MAX_MESSAGE : Z := 8000000.   (* constants.h:17, 8 * 1000 * 1000 *)

(** msg.c:359-400 hsk_msg_str: the string is not "unknown" *)
Definition msg_known (cmd : Z) : bool :=
  existsb (Z.eqb cmd) [0; 1; 2; 3; 4; 5; 10; 11; 12; 26; 27].

Section Peer.
Variable magic : Z.     (* constants.h HSK_MAGIC *)
Variable St : Type.
Variable alive : St -> bool.                          (* peer->state == HSK_STATE_HANDSHAKE *)
Variable destroy : St -> St.                          (* hsk_peer_destroy *)
Variable handle : St -> msg -> outcome (Z * St).      (* hsk_peer_handle_msg *)

(** pool.c:1663-1714. On failure the framing state is unchanged. *)
Definition parse_hdr (f : fr) (d : list Z) : Z * fr :=
  match read_u32 d with None => (HSK_EENCODING, f) | Some (mg, d) =>
  if negb (mg =? magic) then (HSK_EENCODING, f) else
  match read_u8 d with None => (HSK_EENCODING, f) | Some (cmd, d) =>
  match read_u32 d with None => (HSK_EENCODING, f) | Some (size, d) =>
  if HSK_MAX_MESSAGE <? size then (HSK_EENCODING, f) else
  (HSK_SUCCESS, mk_fr true [] size cmd) end end end.

(** pool.c:1716-1759 *)
Definition parse (f : fr) (s : St) (d : list Z) : outcome (Z * fr * St) :=
  if negb (f_hdr f) then Ok (parse_hdr f d, s)
  else if negb (msg_known (f_cmd f)) then Ok (HSK_SUCCESS, fr_init, s)
  else obind (msg_decode (f_cmd f) d) (fun om =>
    match om with
    | None => Ok (HSK_EENCODING, fr_init, s)
    | Some m => obind (handle s m) (fun '(rc, s) => Ok (rc, fr_init, s))
    end).

(** pool.c:1647-1660. [None]: out of fuel (FrameTheorems: never happens in [on_read]). *)
Fixpoint read_loop (fuel : nat) (f : fr) (s : St) (data : list Z) : option (outcome (fr * St)) :=
  match fuel with
  | O => None
  | S fuel =>
      if f_len f <=? zlen (f_buf f) + zlen data then
        if f_len f <? zlen (f_buf f) then Some Abort      (* assert(msg_pos <= msg_len) *)
        else
          let need := Z.to_nat (f_len f - zlen (f_buf f)) in
          match parse f s (f_buf f ++ firstn need data) with
          | Ok (rc, f, s) =>
              if rc =? 0 then read_loop fuel f s (skipn need data) else Some (Ok (f, destroy s))
          | Err e => Some (Err e) | Abort => Some Abort | Ub => Some Ub
          end
      else Some (Ok (mk_fr (f_hdr f) (f_buf f ++ data) (f_len f) (f_cmd f), s))
  end.

(** pool.c:1640-1661 *)
Definition on_read (f : fr) (s : St) (data : list Z) : option (outcome (fr * St)) :=
  if negb (alive s) then Some (Ok (f, s))
  else read_loop (2 * length data + 3) f s data.

(** Successive reads of one connection (after_read, pool.c:1846-1878, without
    encryption). *)
Fixpoint reads (f : fr) (s : St) (chunks : list (list Z)) : option (outcome (fr * St)) :=
  match chunks with
  | [] => Some (Ok (f, s))
  | c :: cs => match on_read f s c with
               | Some (Ok (f, s)) => reads f s cs
               | r => r
               end
  end.
End Peer.
