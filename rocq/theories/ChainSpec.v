(** Specification for the header chain (C11-C18, C22, C23): ancestors, median
    time, the difficulty rule and the consensus rules, stated over a lookup
    function "connected header with this hash" and without reference to the
    code's loops. The model is imported for its record types, accessors
    ([chain_get], ...) and for [pow_to_target]/[pow_to_bits], which C07
    characterises. *)
From Coq Require Import Permutation Sorted.
From Verif Require Import Common HeaderModel HeaderSpec ChainModel.

(** What the constants of every network satisfy. *)
Definition net_ok (N : net) : Prop :=
  hash_ok (n_limit N) /\ hash_ok (n_chainwork N) /\
  (exists t, pow_to_target (n_bits N) = Some t) /\
  151 <= n_window N < 2 ^ 31 /\ 0 < n_interval N < 2 ^ 31 /\
  length (n_genesis N) = 236%nat /\ bytes_ok (n_genesis N) /\
  (exists h t, hdr_decode (n_genesis N) = Some h /\ h_time h < 2 ^ 63 /\ pow_to_target (h_bits h) = Some t).

Definition work_val (e : entry) : Z := be_val (e_work e).

Section Rules.
  Variable get : list Z -> option entry.

  (** [back n e a]: [a] is the ancestor of [e] that is [n] headers earlier. *)
  Inductive back : nat -> entry -> entry -> Prop :=
  | back_0 e : back 0 e e
  | back_S n e p a : get (e_prev e) = Some p -> back n p a -> back (S n) e a.

  Definition ancestor (e a : entry) : Prop := exists n, back n e a.

  (** Times of the last up to [n] headers of the branch ending in [e]. *)
  Inductive last_times : nat -> entry -> list Z -> Prop :=
  | lt_0 e : last_times 0 e []
  | lt_base n e : get (e_prev e) = None -> last_times (S n) e [e_time e]
  | lt_S n e p l : get (e_prev e) = Some p -> last_times n p l -> last_times (S n) e (e_time e :: l).

  (** The middle element after sorting (the upper one for even lengths). *)
  Definition median (l : list Z) (m : Z) : Prop :=
    exists s, Permutation l s /\ Sorted Z.le s /\ nth_error s (Nat.div (length l) 2) = Some m.

  (** Of three consecutive headers x, y, z the one with the median time: y if its
      time is between the others; else, if y is the latest, the later of x and z
      (z if equal); if y is the earliest, the earlier of x and z (x if equal). *)
  Definition middle_of_3 (x y z r : entry) : Prop :=
    let (tx, ty) := (e_time x, e_time y) in let tz := e_time z in
    ((tx <= ty <= tz \/ tz <= ty <= tx) /\ r = y) \/
    (tx < ty /\ tz < ty /\ (tx <= tz /\ r = z \/ tz < tx /\ r = x)) \/
    (ty < tx /\ ty < tz /\ (tx <= tz /\ r = x \/ tz < tx /\ r = z)).

  Definition suitable (z r : entry) : Prop :=
    exists y x, get (e_prev z) = Some y /\ get (e_prev y) = Some x /\ middle_of_3 x y z r.
End Rules.

(** The retarget rule on integers: [w1], [w2] total work and [span] seconds
    between the first and last header. *)
Definition clamp_span (span : Z) : Z := Z.max 21600 (Z.min 345600 span).
Definition retarget_rule (N : net) (w1 w2 span : Z) : Z :=
  let q := (((w2 - w1) mod 2 ^ 512) * 600) mod 2 ^ 512 / clamp_span span in
  let t := 2 ^ 256 / q - 1 in
  if (q =? 0) || (t <? 0) || (be_val (n_limit N) <? t) then n_bits N
  else pow_to_bits (be_bytes 32 t).

(** Required compact difficulty of a header with time [time] on top of [p]. *)
Definition bits_rule (N : net) (get : list Z -> option entry) (time : Z) (p : entry) (b : Z) : Prop :=
  if n_noretarget N then b = n_bits N
  else if n_reset N && (e_time p + 1200 <? time) then b = n_bits N
  else if e_height p <? 146 then b = n_bits N
  else exists last a first,
    suitable get p last /\ back get 144 p a /\ suitable get a first /\
    b = retarget_rule N (work_val first) (work_val last) (e_time last - e_time first).

Section Hash.
  Variable hash : hdr -> list Z.

  (** The consensus rules for a connected header. *)
  Definition rules (N : net) (get : list Z -> option entry) (e : entry) : Prop :=
    exists p times m t,
      get (e_prev e) = Some p /\ e_height e = e_height p + 1 /\
      last_times get 11 p times /\ median times m /\ m < e_time e /\
      bits_rule N get (e_time e) p (h_bits (e_hdr e)) /\
      pow_to_target (h_bits (e_hdr e)) = Some t /\ be_val (hash (e_hdr e)) <= be_val t /\
      work_val e = (work_val p + work_of (be_val t)) mod 2 ^ 256.

  (** The headers of a checkpoint: each names the one before it ([p] is the hash the
      first must name). *)
  Fixpoint chained (p : list Z) (hs : list hdr) : Prop :=
    match hs with
    | [] => True
    | h :: r => h_prev h = p /\ chained (hash h) r
    end.

  (** The entries restored from the headers [hs], the first at height [i] on top of
      a header with total work [w]. *)
  Inductive restored : Z -> Z -> list hdr -> list entry -> Prop :=
  | re_nil w i : restored w i [] []
  | re_cons w i h hs e es t : e_hdr e = h -> e_hash e = hash h -> e_height e = i -> hash_ok (e_work e) ->
      pow_to_target (h_bits h) = Some t -> work_val e = (w + work_of (be_val t)) mod 2 ^ 256 ->
      restored (work_val e) (i + 1) hs es -> restored w i (h :: hs) (e :: es).

  Definition own_work (h : hdr) : Z :=
    match pow_to_target (h_bits h) with Some t => work_of (be_val t) | None => 0 end.
  Definition sum_work (hs : list hdr) : Z := fold_right (fun h a => own_work h + a) 0 hs.

  Definition conn (st : chain) (e : entry) : Prop := chain_get st (e_hash e) = Some e.
  (** A connected header whose parent is not: genesis or the first of a checkpoint. *)
  Definition base (st : chain) (e : entry) : Prop := conn st e /\ chain_get st (e_prev e) = None.

  (** A checkpoint (first height, total work before it, headers) that continues a
      chain somewhere above its tip, without collisions with the headers there. *)
  Record fits (st : chain) (height : Z) (work : list Z) (hs : list hdr) : Prop := {
    f_len : length hs = 150%nat;
    f_work : hash_ok work;
    f_hdrs : Forall (fun h => hdr_ok h /\ h_time h < 2 ^ 63 /\ exists t, pow_to_target (h_bits h) = Some t) hs;
    f_height : c_height st < height /\ height + 150 <= 2 ^ 32;
    f_link : match hs with [] => True | h :: _ => chained (h_prev h) hs end;
    f_nodup : NoDup (map hash hs);
    f_fresh : forall h, In h hs -> chain_get st (hash h) = None;
    f_first : forall h r, hs = h :: r -> chain_get st (h_prev h) = None /\ ~ In (h_prev h) (map hash hs);
    f_base : forall e h, base st e -> In h hs -> hash h <> e_prev e;
    f_total : work_val (c_tip st) <= be_val work /\ be_val work + sum_work hs < 2 ^ 256 }.

  (** The body of a checkpoint file. *)
  Definition checkpoint_body (height : Z) (work : list Z) (hs : list hdr) : list Z :=
    be_bytes 4 height ++ work ++ concat (map hdr_write hs).
End Hash.

Section Runs.
  Variable blake256 blake512 sha3 : list Z -> list Z.
  Local Notation hash := (hdr_hash blake256 blake512 sha3).
  Variable N : net.

  Definition with_prefix (st : chain) (p : bool) : chain :=
    mk_chain (c_height st) (c_init st) (c_tip st) (c_genesis st) (c_synced st) (c_hashes st) (c_heights st)
      (c_orphans st) (c_prevs st) p (c_file st).

  (** How a chain can start: from genesis, then any number of checkpoints
      (hard-coded, from file). Genesis must not name itself as parent. *)
  Inductive started : chain -> Prop :=
  | st_genesis now pre st : chain_init blake256 blake512 sha3 N now pre = Ok st ->
      chain_get st (e_prev (c_tip st)) = None -> started st
  | st_checkpoint st0 pre height work hs rest now st : started st0 -> fits hash st0 height work hs ->
      inject_checkpoint blake256 blake512 sha3 N now (with_prefix st0 pre)
        (checkpoint_body height work hs ++ rest) = Ok st -> started st.

  (** Any sequence of hsk_chain_add calls, each with its clock. *)
  Inductive run (st0 : chain) : list (Z * hdr) -> chain -> Prop :=
  | run_nil : run st0 [] st0
  | run_add ops st now h rc st' : run st0 ops st ->
      chain_add blake256 blake512 sha3 N now st h = Ok (rc, st') -> run st0 (ops ++ [(now, h)]) st'.

  (** Decoded headers; a sane clock; no header hashes to the (unknown) parent of a
      base header; fewer than 2^32 headers in all. *)
  Definition offer_ok (st0 : chain) (op : Z * hdr) : Prop :=
    hdr_ok (snd op) /\ 0 <= fst op + 7200 < 2 ^ 63 /\ forall e, base st0 e -> hash (snd op) <> e_prev e.
  Definition admissible (st0 : chain) (ops : list (Z * hdr)) : Prop :=
    Forall (offer_ok st0) ops /\ c_height st0 + zlen (c_hashes st0) + zlen ops < 2 ^ 32.
End Runs.
