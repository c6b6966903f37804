(** Model of src/sig0.c: message signatures SIG(0). *)
From Verif Require Import Common BioModel.

(** bytes [k], ..., [k + n - 1]; the callers have checked the length (get_u8, get_u16be,
    get_u32be of bio.h on an offset) *)
Definition sub_bytes (k n : nat) (w : list Z) : list Z := firstn n (skipn k w).
Definition be_at (k n : nat) (w : list Z) : Z := be_val (sub_bytes k n w).

(** sig0.c:16-60; [rr] is the last 94 bytes *)
Definition sig_rr (w : list Z) : list Z := skipn (length w - 94) w.
Definition has_sig (w : list Z) : bool :=
  if zlen w <? 106 then false
  else if be_at 10 2 w <? 1 then false
  else
    let rr := sig_rr w in
    if negb (be_at 0 1 rr =? 0) then false
    else if negb (be_at 1 2 rr =? 24) then false
    else if negb (be_at 3 2 rr =? 255) then false
    else if negb (be_at 5 4 rr =? 0) then false
    else if negb (be_at 9 2 rr =? 83) then false
    else be_at 11 2 rr =? 0.

(** sig0.c:62-117; [now] is hsk_now() *)
Definition get_sig (now : Z) (w : list Z) : option (list Z * Z) :=
  if negb (has_sig w) then None else
  let rd := skipn 11 (sig_rr w) in
  if negb (be_at 0 2 rd =? 0) then None
  else if negb (be_at 2 1 rd =? 253) then None
  else if negb (be_at 3 1 rd =? 0) || negb (be_at 4 4 rd =? 0) then None
  else if negb (be_at 18 1 rd =? 0) then None
  else
    let t := now mod 4294967296 in
    if t <? be_at 12 4 rd then None
    else if be_at 8 4 rd <? t then None
    else Some (sub_bytes 19 64 rd, be_at 16 2 rd).

(** sig0.c:119-151: what is hashed *)
Definition sig_input (w : list Z) : option (list Z) :=
  if negb (has_sig w) then None else
  let rd := skipn 11 (sig_rr w) in
  let arcount := be_at 10 2 w in
  Some (sub_bytes 0 19 rd ++ sub_bytes 0 10 w ++ write_u16be (arcount - 1) ++ sub_bytes 12 (length w - 12 - 94) w).

(** sig0.c:153-250. [hash] is BLAKE2b with 32 bytes, [ec_sign] is hsk_ec_sign_msg with
    the key (ec.c:91-120), giving 64 bytes. The allocation succeeds. *)
Section Sign.
Variable hash : list Z -> list Z.
Variable ec_sign : list Z -> option (list Z).
Definition sig_fields (now : Z) (sig : list Z) : list Z :=
  write_u8 0 ++ write_u16be 24 ++ write_u16be 255 ++ write_u32be 0 ++ write_u16be 83 ++
  write_u16be 0 ++ write_u8 253 ++ write_u8 0 ++ write_u32be 0 ++ write_u32be (now + 21600) ++ write_u32be (now - 21600) ++ write_u16be 0 ++ write_u8 0 ++ sig.
Definition sig0_sign (now : Z) (w : list Z) : option (list Z) :=
  if zlen w <? 12 then None else
  let arcount := (be_at 10 2 w + 1) mod 65536 in
  let '(w, arcount) := if has_sig w then (firstn (length w - 94) w, (arcount - 1) mod 65536) else (w, arcount) in
  let o := firstn 10 w ++ write_u16be arcount ++ skipn 12 w in
  match sig_input (o ++ sig_fields now (repeat 0 64)) with
  | None => None
  | Some i => match ec_sign (hash i) with None => None | Some sig => Some (o ++ sig_fields now sig) end
  end.
End Sign.
(** sig0.c:252-269; [ec_verify] is hsk_ec_verify_msg with the public key *)
Section Verify.
Variable hash : list Z -> list Z.
Variable ec_verify : list Z -> list Z -> bool.
Definition sig0_verify (now : Z) (w : list Z) : outcome bool :=
  match get_sig now w with
  | None => Ok false
  | Some (sig, _) => match sig_input w with None => Abort | Some i => Ok (ec_verify (hash i) sig) end
  end.
End Verify.
