(** Random numbers (random.c, utils.c), private and ephemeral keys (ec.c, brontide.c) and the names
    of errors (error.c). *)
From Coq Require Import String.
From Verif Require Import Common BrontideModel.
Open Scope list_scope.
Open Scope Z_scope.

(** ** random.c *)
(** A buffer after the system wrote [data] at its start *)
Definition overwrite (buf data : list Z) : list Z := data ++ skipn (length data) buf.
(** random.c:44-50 (Linux). The size asked for is that of [buf]. [ret]: the result of getrandom, a
    64-bit number; [data]: the bytes it wrote. *)
Definition rand_getrandom (buf : list Z) (ret : Z) (data : list Z) : bool * list Z :=
  (if (ret <? 0) || negb (ret mod 2 ^ 64 =? zlen buf) then false else true, overwrite buf data).
(** random.c:67-78 (old Linux, macOS). [file]: None if /dev/urandom cannot be opened, else the bytes
    fread delivers. *)
Definition rand_fread (buf : list Z) (file : option (list Z)) : bool * list Z :=
  match file with
  | None => (false, buf)
  | Some data => (zlen data =? zlen buf, overwrite buf data)
  end.
(** random.c:118-128: the loop of reads. Each member of [reads] is the result of one read: [None] an
    error, else the bytes read. [done]: what is in the buffer so far. If the list ends, the outcome
    is [Err 0]: the program goes on reading. *)
Fixpoint read_loop (reads : list (option (list Z))) (left : Z) (done : list Z) : outcome (bool * list Z) :=
  if 0 <? left then
    match reads with
    | [] => Err 0
    | None :: _ => Ok (false, done)
    | Some d :: rest => if zlen d <=? 0 then Ok (false, done) else read_loop rest (left - zlen d) (done ++ d)
    end
  else Ok (true, done).
(** random.c:107-131 (other systems). [urandom], [random]: can the file be opened. The third result is
    the number of files opened and not closed. *)
Definition rand_read (buf : list Z) (urandom random : bool) (reads : list (option (list Z))) : outcome (bool * list Z * Z) :=
  if negb urandom && negb random then Ok (false, buf, 0)
  else obind (read_loop reads (zlen buf) []) (fun '(ok, done) => Ok (ok, overwrite buf done, 1 - 1)).

(** ** utils.c *)
(** utils.c:89-96. [n], [m]: the two numbers from the C library, in the order of the calls *)
Definition hsk_random (n m : Z) : Z := Z.lxor (Z.shiftl (n mod 2 ^ 32) 16 mod 2 ^ 32) (m mod 2 ^ 32).
(** utils.c:98-101. [a], [b]: the two results of hsk_random *)
Definition hsk_nonce (a b : Z) : Z := (Z.shiftl a 32 + b) mod 2 ^ 64.

(** ** ec.c *)
Section Ec.
Variable valid : list Z -> bool.                      (* hsk_secp256k1_ec_seckey_verify *)
(** ec.c:56-69: the loop. [draw i]: success and buffer of the i-th call of hsk_randombytes. *)
Fixpoint priv_loop (fuel : nat) (draw : nat -> bool * list Z) (i : Z) (key : list Z) : outcome (option (list Z)) :=
  match fuel with
  | O => Err 0
  | S fuel' =>
      if valid key then Ok (Some key)
      else if 1000 <? i then Ok None
      else let '(ok, k) := draw (Z.to_nat i) in
           if ok then priv_loop fuel' draw (i + 1) k else Ok None
  end.
(** ec.c:49-72 *)
Definition create_privkey (draw : nat -> bool * list Z) : outcome (option (list Z)) :=
  priv_loop (Z.to_nat 1003) draw 0 (repeat 0 32).

(** ** brontide.c with failing random numbers *)
Variable chacha : list Z -> list Z -> nat -> Z.
Variable poly : list Z -> list Z -> list Z.
Variable sha256 : list Z -> list Z.
Variable hmac : list Z -> list Z -> list Z.
Variable pub : list Z -> option (list Z).
Variable ecdh : list Z -> list Z -> option (list Z).
Variable to_hash : list Z -> list Z -> list Z.
(** brontide.c:343-351 and 392-400, ec.c:226-242. [entropy]: the draw in hsk_ec_pubkey_to_hash, whose
    failure is ignored; the array is then sent uninitialised: [Ub]. (Parsing the key just made and
    the search for a preimage are taken not to fail.) *)
Definition new_ephemeral (b : br) (draw : nat -> bool * list Z) (entropy : bool * list Z) : outcome (list Z * br) :=
  obind (create_privkey draw) (fun o =>
  must o (fun priv =>
  must (pub priv) (fun e =>
  if negb (fst entropy) then Ub else
  let b := mk_br (b_cs b) (b_ck b) (b_temp b) (b_digest b) (b_init b) (b_ls b) priv (b_rs b) (b_re b) (b_send b) (b_recv b)
             (b_state b) (b_has_size b) (b_buf b) (b_len b) (b_rand b) in
  Ok (to_hash e (snd entropy), br_mix_hash sha256 b e)))).
(** brontide.c:340-362 *)
Definition act_one (b : br) (draw : nat -> bool * list Z) (entropy : bool * list Z) : outcome (list Z * br) :=
  obind (new_ephemeral b draw entropy) (fun '(uniform, b) =>
  obind (br_mix_dh hmac ecdh b (b_rs b) (b_le b)) (fun b =>
  let '(_, b) := br_encrypt chacha poly sha256 hmac b [] in
  Ok (uniform ++ c_tag (b_cs b), b))).
End Ec.

(** ** error.c *)

(** error.c:8-42 *)
Definition errstrs : list string :=
  ["ESUCCESS"; "ENOMEM"; "ETIMEOUT"; "EFAILURE"; "EBADARGS"; "EENCODING"; "EHASHMISMATCH"; "ESAMEKEY"; "ESAMEPATH";
   "ENEGDEPTH"; "EPATHMISMATCH"; "ETOODEEP"; "EUNKNOWNERROR"; "EMALFORMEDNODE"; "EINVALIDNODE"; "EEARLYEND"; "ENORESULT";
   "EUNEXPECTEDNODE"; "ERECORDMISMATCH"; "ENEGTARGET"; "EHIGHHASH"; "ETIMETOONEW"; "EDUPLICATE"; "EDIPLICATEORPHAN";
   "ETIMETOOOLD"; "EBADDDIFFBITS"; "EORPHAN"; "EACTONE"; "EACTTWO"; "EACTTHREE"; "EBADSIZE"; "EBADTAG"; "EUNKNOWN"]%string.
(** an access to the table: outside of it, [Ub] *)
Definition errstr_at (i : Z) : outcome string :=
  if (i <? 0) then Ub else match nth_error errstrs (Z.to_nat i) with Some s => Ok s | None => Ub end.
(** error.c:44-49 *)
Definition hsk_strerror (code : Z) : outcome string :=
  if (code <? 0) || (32 <? code) then errstr_at 32 else errstr_at code.
