(** Model of src/chain.c (header chain) and of hsk_store_write's serialisation,
    hsk_store_inject_checkpoint and hsk_store_read (src/store.c).

    Memory exhaustion is not modelled: allocation and map insertion succeed.
    Headers are immutable once connected, so the pointers shared by the maps and
    by [tip] are modelled as copies of the same value. Logging is left out. *)
From Verif Require Import Common Assoc BioModel BnModel HeaderModel.

(** constants.h:44-247: what differs between networks. *)
Record net := mk_net {
  n_magic : Z; n_bits : Z; n_limit : list Z; n_chainwork : list Z;
  n_interval : Z; n_reset : bool; n_noretarget : bool; n_window : Z; n_age : Z;
  n_genesis : list Z }.

(** constants.h:74-77: HSK_TARGET_SPACING, HSK_MIN_ACTUAL, HSK_MAX_ACTUAL
    (the same on all networks). *)
Definition target_spacing : Z := 600.
Definition min_actual : Z := 144 * 600 / 4.
Definition max_actual : Z := 144 * 600 * 4.

(** genesis.h:10-29 *)
Definition genesis_main : list Z :=
  [0;0;0;0;118;65;56;94;0;0;0;0;0;0;0;0;0;0;0;0;0;0;0;0;0;0;0;0;0;0;0;0;0;0;0;0;0;0;0;0;0;0;0;0;0;0;0;0;0;0;0;0;0;0;0;0;0;0;0;0;0;0;0;0;0;0;0;0;0;0;0;0;0;0;0;0;0;0;0;0;0;0;0;0;0;0;0;0;0;0;0;0;0;0;0;0;0;0;0;0;0;0;0;0;0;0;0;0;0;0;0;0;0;0;0;0;0;0;0;0;0;0;0;0;0;0;0;0;0;0;0;0;26;44;96;185;67;146;6;147;143;141;120;35;120;42;189;184;178;17;165;116;49;233;201;182;166;54;93;141;66;137;51;81;142;76;151;86;254;242;173;16;55;95;54;14;5;96;252;199;88;126;181;34;61;223;140;215;199;224;110;96;161;20;11;21;0;0;0;0;255;255;0;28;0;0;0;0;0;0;0;0;0;0;0;0;0;0;0;0;0;0;0;0;0;0;0;0;0;0;0;0;0;0;0;0].
(** genesis.h:35-54 *)
Definition genesis_testnet : list Z :=
  [0;0;0;0;119;65;56;94;0;0;0;0;0;0;0;0;0;0;0;0;0;0;0;0;0;0;0;0;0;0;0;0;0;0;0;0;0;0;0;0;0;0;0;0;0;0;0;0;0;0;0;0;0;0;0;0;0;0;0;0;0;0;0;0;0;0;0;0;0;0;0;0;0;0;0;0;0;0;0;0;0;0;0;0;0;0;0;0;0;0;0;0;0;0;0;0;0;0;0;0;0;0;0;0;0;0;0;0;0;0;0;0;0;0;0;0;0;0;0;0;0;0;0;0;0;0;0;0;0;0;0;0;26;44;96;185;67;146;6;147;143;141;120;35;120;42;189;184;178;17;165;116;49;233;201;182;166;54;93;141;66;137;51;81;142;76;151;86;254;242;173;16;55;95;54;14;5;96;252;199;88;126;181;34;61;223;140;215;199;224;110;96;161;20;11;21;0;0;0;0;255;255;0;29;0;0;0;0;0;0;0;0;0;0;0;0;0;0;0;0;0;0;0;0;0;0;0;0;0;0;0;0;0;0;0;0].
(** genesis.h:60-79 *)
Definition genesis_regtest : list Z :=
  [0;0;0;0;120;65;56;94;0;0;0;0;0;0;0;0;0;0;0;0;0;0;0;0;0;0;0;0;0;0;0;0;0;0;0;0;0;0;0;0;0;0;0;0;0;0;0;0;0;0;0;0;0;0;0;0;0;0;0;0;0;0;0;0;0;0;0;0;0;0;0;0;0;0;0;0;0;0;0;0;0;0;0;0;0;0;0;0;0;0;0;0;0;0;0;0;0;0;0;0;0;0;0;0;0;0;0;0;0;0;0;0;0;0;0;0;0;0;0;0;0;0;0;0;0;0;0;0;0;0;0;0;26;44;96;185;67;146;6;147;143;141;120;35;120;42;189;184;178;17;165;116;49;233;201;182;166;54;93;141;66;137;51;81;142;76;151;86;254;242;173;16;55;95;54;14;5;96;252;199;88;126;181;34;61;223;140;215;199;224;110;96;161;20;11;21;0;0;0;0;255;255;127;32;0;0;0;0;0;0;0;0;0;0;0;0;0;0;0;0;0;0;0;0;0;0;0;0;0;0;0;0;0;0;0;0].
(** genesis.h:85-104 *)
Definition genesis_simnet : list Z :=
  [0;0;0;0;121;65;56;94;0;0;0;0;0;0;0;0;0;0;0;0;0;0;0;0;0;0;0;0;0;0;0;0;0;0;0;0;0;0;0;0;0;0;0;0;0;0;0;0;0;0;0;0;0;0;0;0;0;0;0;0;0;0;0;0;0;0;0;0;0;0;0;0;0;0;0;0;0;0;0;0;0;0;0;0;0;0;0;0;0;0;0;0;0;0;0;0;0;0;0;0;0;0;0;0;0;0;0;0;0;0;0;0;0;0;0;0;0;0;0;0;0;0;0;0;0;0;0;0;0;0;0;0;26;44;96;185;67;146;6;147;143;141;120;35;120;42;189;184;178;17;165;116;49;233;201;182;166;54;93;141;66;137;51;81;142;76;151;86;254;242;173;16;55;95;54;14;5;96;252;199;88;126;181;34;61;223;140;215;199;224;110;96;161;20;11;21;0;0;0;0;255;255;127;32;0;0;0;0;0;0;0;0;0;0;0;0;0;0;0;0;0;0;0;0;0;0;0;0;0;0;0;0;0;0;0;0].
(** constants.h:50-86 (main). *)
Definition net_main : net :=
  mk_net 0x5b6ef2d3 0x1c00ffff ([0;0;0;0;0;255;255] ++ repeat 0 25)
    (repeat 0 24 ++ [0x75; 0xb5; 0xa2; 0xb7; 0xbf; 0x52; 0x2d; 0x45])
    36 false false 2000 86400 genesis_main.
(** constants.h:94-141 (testnet). *)
Definition net_testnet : net :=
  mk_net 0xb1520dd2 0x1d00ffff ([0;0;0;0;255;255] ++ repeat 0 26) (repeat 0 32)
    36 true false 2000 1209600 genesis_testnet.
(** constants.h:149-190 (regtest). *)
Definition net_regtest : net :=
  mk_net 0xae3895cf 0x207fffff ([0x7f;255;255] ++ repeat 0 29) (repeat 0 32)
    5 true true 200 1209600 genesis_regtest.
(** constants.h:198-239 (simnet). *)
Definition net_simnet : net :=
  mk_net 0xe648edc 0x207fffff ([0x7f;255;255] ++ repeat 0 29) (repeat 0 32)
    2 false false 200 1209600 genesis_simnet.

(** header.h:11-30: a connected header with its cached hash, height and work. *)
Record entry := mk_entry { e_hdr : hdr; e_hash : list Z; e_height : Z; e_work : list Z }.
Definition e_prev (e : entry) : list Z := h_prev (e_hdr e).
Definition e_time (e : entry) : Z := h_time (e_hdr e).

(** chain.h:16-28: hsk_chain_t without the clock ([now] is an argument of the
    operations). [c_prefix] tells whether a prefix directory is set. [c_file] is
    not a C field: it is the content last handed to the checkpoint file. *)
Record chain := mk_chain {
  c_height : Z; c_init : Z; c_tip : entry; c_genesis : entry; c_synced : bool;
  c_hashes : list (list Z * entry); c_heights : list (Z * entry);
  c_orphans : list (list Z * hdr); c_prevs : list (list Z * hdr);
  c_prefix : bool; c_file : option (list Z) }.

(** chain.c:154-167 hsk_chain_has, hsk_chain_get, hsk_chain_get_by_height (the
    argument is a uint32_t). *)
Definition chain_has (st : chain) (h : list Z) : bool := ahas beq h (c_hashes st).
Definition chain_get (st : chain) (h : list Z) : option entry := aget beq h (c_hashes st).
Definition chain_get_by_height (st : chain) (height : Z) : option entry :=
  aget Z.eqb (height mod 4294967296) (c_heights st).
(** chain.c:169-177 *)
Definition chain_has_orphan (st : chain) (h : list Z) : bool := ahas beq h (c_orphans st).
Definition chain_get_orphan (st : chain) (h : list Z) : option hdr := aget beq h (c_orphans st).

(** Conversion of an integer to int64_t (two's complement, as gcc and clang do). *)
Definition to_i64 (z : Z) : Z :=
  let m := z mod 2 ^ 64 in if m <? 2 ^ 63 then m else m - 2 ^ 64.

(** chain.c:179-210 hsk_chain_safe_root; [Abort] is the assertion at line 203. *)
Definition safe_root (N : net) (st : chain) : outcome (list Z) :=
  let h := c_height st mod 4294967296 in
  let m := h mod n_interval N in
  let m' := if 12 <=? m then 0 else m in
  match chain_get_by_height st (h - m') with
  | None => Abort
  | Some e => Ok (h_root (e_hdr e))
  end.

(** chain.c:236-239: the loop of hsk_chain_get_ancestor. [Ub] is "does not stop
    within the given number of rounds". *)
Fixpoint ancestor_loop (fuel : nat) (hashes : list (list Z * entry)) (e : entry) (height : Z)
  : outcome entry :=
  if e_height e =? height then Ok e
  else match fuel with
  | O => Ub
  | S k =>
      match aget beq (e_prev e) hashes with
      | None => Abort
      | Some p => ancestor_loop k hashes p height
      end
  end.

(** chain.c:225-242 hsk_chain_get_ancestor; heights fall by one per round, which
    gives the bound on the rounds. *)
Definition get_ancestor (hashes : list (list Z * entry)) (e : entry) (height : Z) : outcome entry :=
  if e_height e <? height then Abort
  else ancestor_loop (Z.to_nat (e_height e - height)) hashes e height.

(** chain.c:244-264 hsk_chain_has_work, hsk_chain_maybe_sync. *)
Definition has_work (N : net) (tip : entry) : bool := negb (memcmp_gt (n_chainwork N) (e_work tip)).
Definition maybe_sync (N : net) (now : Z) (synced : bool) (tip : entry) : bool :=
  if synced then true
  else if to_i64 (e_time tip) <? now - n_age N then false
  else has_work N tip.

(** chain.c:310-329: the loop of hsk_chain_get_locator; [i] is the number of hashes
    written so far. [Ub] is a write past the 64 slots of msg->hashes or, with
    [fuel] used up, "does not stop". [get] is hsk_chain_get_by_height. *)
Fixpoint locator_loop (fuel : nat) (get : Z -> option entry) (height step i : Z) (acc : list (list Z))
  : outcome (list (list Z)) :=
  if height <=? 0 then Ok (rev acc)
  else match fuel with
  | O => Ub
  | S k =>
      let h1 := height - step in
      let h2 := if h1 <? 0 then 0 else h1 in
      let step' := if 10 <? i then step * 2 else step in
      let h3 := if i =? 64 * 32 - 1 then 0 else h2 in
      match get h3 with
      | None => locator_loop k get h3 step' i acc
      | Some e => if 64 <=? i then Ub else locator_loop k get h3 step' (i + 1) (e_hash e :: acc)
      end
  end.

(** chain.c:297-332 hsk_chain_get_locator: the hashes written to the message. *)
Definition get_locator (st : chain) : outcome (list (list Z)) :=
  locator_loop (Z.to_nat (c_height st)) (chain_get_by_height st) (c_height st) 1 1 [e_hash (c_tip st)].

(** chain.c:345-349: times of up to [n] headers going back from [prev]. *)
Fixpoint mtp_times (n : nat) (hashes : list (list Z * entry)) (prev : option entry) : list Z :=
  match n, prev with
  | S k, Some p => to_i64 (e_time p) :: mtp_times k hashes (aget beq (e_prev p) hashes)
  | _, _ => []
  end.

(** chain.c:351 qsort with qsort_cmp (chain.c:39-50): ascending order. *)
Fixpoint insert_sorted (x : Z) (l : list Z) : list Z :=
  match l with
  | [] => [x]
  | y :: r => if x <=? y then x :: l else y :: insert_sorted x r
  end.
Definition sort_times (l : list Z) : list Z := fold_right insert_sorted [] l.

(** chain.c:334-354 hsk_chain_get_mtp for a given previous header. *)
Definition get_mtp (hashes : list (list Z * entry)) (prev : entry) : Z :=
  let t := mtp_times 11 hashes (Some prev) in
  nth (Nat.div2 (length t)) (sort_times t) 0.

(** chain.c:364-385 hsk_chain_suitable_block. *)
Definition suitable_block (hashes : list (list Z * entry)) (prev : entry) : outcome entry :=
  match aget beq (e_prev prev) hashes with
  | None => Abort
  | Some y =>
      match aget beq (e_prev y) hashes with
      | None => Abort
      | Some x =>
          let z := prev in
          let (x, z) := if e_time z <? e_time x then (z, x) else (x, z) in
          let (x, y) := if e_time y <? e_time x then (y, x) else (x, y) in
          let (y, z) := if e_time z <? e_time y then (z, y) else (y, z) in
          Ok y
      end
  end.

(** chain.c:387-448 hsk_chain_retarget. [Ub] stands for a division that does not
    terminate or a work array that does not fit (neither can happen). *)
Definition retarget (N : net) (first last : entry) : outcome Z :=
  if e_height last <? e_height first then Abort
  else match bn_from_array (e_work first), bn_from_array (e_work last), bn_from_array (n_limit N) with
  | Some first_bn, Some last_bn, Some limit_bn =>
      let diff := bn_mul (bn_sub last_bn first_bn) (bn_from_int target_spacing) in
      let actual := to_i64 (e_time last - e_time first) in
      let actual := if actual <? min_actual then min_actual else actual in
      let actual := if max_actual <? actual then max_actual else actual in
      match bn_div diff (bn_from_int actual) with
      | None => Ub
      | Some q =>
          if bn_is_zero q then Ok (n_bits N)
          else
            match bn_div (bn_lshift (bn_from_int 1) 256) q with
            | None => Ub
            | Some m =>
                let t := bn_sub m (bn_from_int 1) in
                if 0 <? bn_cmp t limit_bn then Ok (n_bits N)
                else Ok (pow_to_bits (bn_to_array t 8))
            end
      end
  | _, _, _ => Ub
  end.

(** chain.c:450-483 hsk_chain_get_target for a given previous header. *)
Definition get_target (N : net) (hashes : list (list Z * entry)) (time : Z) (prev : entry) : outcome Z :=
  if n_noretarget N then Ok (n_bits N)
  else if n_reset N && (to_i64 (e_time prev) + target_spacing * 2 <? to_i64 time) then Ok (n_bits N)
  else if e_height prev <? 144 + 2 then Ok (n_bits N)
  else obind (suitable_block hashes prev) (fun last =>
       obind (get_ancestor hashes prev (e_height prev - 144)) (fun ancestor =>
       obind (suitable_block hashes ancestor) (fun first =>
       retarget N first last))).

(** chain.c:494-498: the inner loop of hsk_chain_find_fork. *)
Fixpoint fork_lower (fuel : nat) (hashes : list (list Z * entry)) (longer : entry) (height : Z)
  : outcome entry :=
  if e_height longer <=? height then Ok longer
  else match fuel with
  | O => Ub
  | S k =>
      match aget beq (e_prev longer) hashes with
      | None => Abort
      | Some p => fork_lower k hashes p height
      end
  end.

(** chain.c:485-510 hsk_chain_find_fork. The result NULL makes the assertion at
    line 519 of hsk_chain_reorganize fail, so it is [Abort] here. *)
Fixpoint find_fork (fuel : nat) (hashes : list (list Z * entry)) (fork longer : entry) : outcome entry :=
  if beq (e_hash fork) (e_hash longer) then Ok fork
  else match fuel with
  | O => Ub
  | S k =>
      obind (fork_lower (Z.to_nat (e_height longer - e_height fork)) hashes longer (e_height fork))
        (fun longer' =>
           if beq (e_hash fork) (e_hash longer') then Ok fork
           else match aget beq (e_prev fork) hashes with
                | None => Abort
                | Some f => find_fork k hashes f longer'
                end)
  end.

(** chain.c:521-540 and 542-556: the entries from [e] back to [fork] (exclusive),
    newest first. The assertions on the [next] links are not modelled: every link
    set here is cleared again at lines 559-573. *)
Fixpoint path_to (fuel : nat) (hashes : list (list Z * entry)) (e fork : entry) : outcome (list entry) :=
  if beq (e_hash e) (e_hash fork) then Ok []
  else match fuel with
  | O => Ub
  | S k =>
      match aget beq (e_prev e) hashes with
      | None => Abort
      | Some p => obind (path_to k hashes p fork) (fun l => Ok (e :: l))
      end
  end.

(** chain.c:512-574 hsk_chain_reorganize: the new height index. The competitor
    itself (head of its path) is left for hsk_chain_save. *)
Definition reorganize (st : chain) (competitor : entry) : outcome (list (Z * entry)) :=
  let hashes := c_hashes st in
  let tip := c_tip st in
  obind (find_fork (S (Z.to_nat (e_height tip))) hashes tip competitor) (fun fork =>
  obind (path_to (S (Z.to_nat (e_height tip - e_height fork))) hashes tip fork) (fun disconnect =>
  obind (path_to (S (Z.to_nat (e_height competitor - e_height fork))) hashes competitor fork) (fun connect =>
  let h1 := fold_left (fun m e => adel Z.eqb (e_height e) m) disconnect (c_heights st) in
  Ok (fold_left (fun m e => aset Z.eqb (e_height e) e m) (rev (tl connect)) h1)))).

(** constants of store.h:17-19. *)
Definition store_headers_count : nat := 150.
Definition store_version : Z := 0.

(** store.c:83-88: the header loop of hsk_store_write; a missing header is a NULL
    dereference in hsk_header_write. *)
Fixpoint store_headers (n : nat) (st : chain) (height : Z) : outcome (list Z) :=
  match n with
  | O => Ok []
  | S k =>
      match chain_get_by_height st height with
      | None => Ub
      | Some e => obind (store_headers k st (height + 1)) (fun r => Ok (hdr_write (e_hdr e) ++ r))
      end
  end.

(** store.c:62-88: the bytes hsk_store_write puts into the file. *)
Definition store_content (N : net) (st : chain) : outcome (list Z) :=
  if negb (c_height st mod n_window N =? 0) then Abort
  else
    let height := (c_height st - n_window N) mod 4294967296 in
    match chain_get_by_height st (height - 1) with
    | None => Ub
    | Some prev =>
        obind (store_headers store_headers_count st height) (fun hs =>
        Ok (write_u32be (n_magic N) ++ [store_version] ++ write_u32be height ++ e_work prev ++ hs))
    end.

(** chain.c:284-295 hsk_chain_checkpoint_flush. *)
Definition checkpoint_flush (N : net) (st : chain) : outcome chain :=
  if negb (c_prefix st) then Ok st
  else if c_height st - c_init st <=? n_window N then Ok st
  else obind (store_content N st) (fun d =>
       Ok (mk_chain (c_height st) (c_init st) (c_tip st) (c_genesis st) (c_synced st) (c_hashes st)
             (c_heights st) (c_orphans st) (c_prevs st) (c_prefix st) (Some d))).

(** chain.c:726-754 hsk_chain_save. The clock is read once per operation. *)
Definition chain_save (N : net) (now : Z) (st : chain) (e : entry) : outcome chain :=
  let st' := mk_chain (e_height e) (c_init st) e (c_genesis st)
               (maybe_sync N now (c_synced st) e)
               (aset beq (e_hash e) e (c_hashes st)) (aset Z.eqb (e_height e) e (c_heights st))
               (c_orphans st) (c_prevs st) (c_prefix st) (c_file st) in
  if c_height st' mod n_window N =? 0 then checkpoint_flush N st' else Ok st'.

(** Replace the height index resp. the set of connected headers. *)
Definition with_heights (st : chain) (hs : list (Z * entry)) : chain :=
  mk_chain (c_height st) (c_init st) (c_tip st) (c_genesis st) (c_synced st) (c_hashes st) hs
    (c_orphans st) (c_prevs st) (c_prefix st) (c_file st).
Definition with_hashes (st : chain) (hs : list (list Z * entry)) : chain :=
  mk_chain (c_height st) (c_init st) (c_tip st) (c_genesis st) (c_synced st) hs (c_heights st)
    (c_orphans st) (c_prevs st) (c_prefix st) (c_file st).
Definition with_orphans (st : chain) (os ps : list (list Z * hdr)) : chain :=
  mk_chain (c_height st) (c_init st) (c_tip st) (c_genesis st) (c_synced st) (c_hashes st) (c_heights st)
    os ps (c_prefix st) (c_file st).

(** chain.c:680-724 hsk_chain_insert of a header with hash [hs] after [prev].
    [Err e] is a returned error code (ETIMETOOOLD 24, EBADDIFFBITS 25). *)
Definition chain_insert (N : net) (now : Z) (st : chain) (h : hdr) (hs : list Z) (prev : entry)
  : outcome chain :=
  let mtp := get_mtp (c_hashes st) prev in
  if to_i64 (h_time h) <=? mtp then Err 24
  else obind (get_target N (c_hashes st) (h_time h) prev) (fun bits =>
    if negb (h_bits h =? bits) then Err 25
    else match calc_work (h_bits h) (Some (e_work prev)) with
    | None => Abort
    | Some work =>
        let e := mk_entry h hs ((e_height prev + 1) mod 4294967296) work in
        if negb (memcmp_gt work (e_work (c_tip st))) then
          Ok (with_hashes st (aset beq hs e (c_hashes st)))
        else if negb (beq (h_prev h) (e_hash (c_tip st))) then
          obind (reorganize st e) (fun heights => chain_save N now (with_heights st heights) e)
        else chain_save N now st e
    end).

Section Hash.
  (** The hash functions of src/hash.c, src/sha3.c. *)
  Variable blake256 blake512 sha3 : list Z -> list Z.
  Local Notation hash := (hdr_hash blake256 blake512 sha3).
  Local Notation pow := (verify_pow blake256 blake512 sha3).

  (** chain.c:212-223 hsk_chain_resolve_orphan. *)
  Definition resolve_orphan (st : chain) (hs : list Z) : option (hdr * chain) :=
    match aget beq hs (c_prevs st) with
    | None => None
    | Some o =>
        Some (o, with_orphans st (adel beq (hash o) (c_orphans st)) (adel beq (h_prev o) (c_prevs st)))
    end.

  (** chain.c:651-667: connecting the orphans waiting for the header just
      inserted. Every round removes an orphan, which bounds the rounds. The result
      is the return code and the new state. *)
  Fixpoint resolve_loop (fuel : nat) (N : net) (now : Z) (st : chain) (hs : list Z) : outcome (Z * chain) :=
    match resolve_orphan st hs with
    | None => Ok (0, st)
    | Some (o, st1) =>
        match fuel with
        | O => Ub
        | S k =>
            match chain_get st1 hs with
            | None => Ub
            | Some prev =>
                match chain_insert N now st1 o (hash o) prev with
                | Ok st2 => resolve_loop k N now st2 (hash o)
                | Err e => Ok (e, st1)
                | Abort => Abort
                | Ub => Ub
                end
            end
        end
    end.

  (** chain.c:576-678 hsk_chain_add: return code and new state. Line 597 compares a
      uint64_t with an int64_t, so the right side is converted to unsigned.
      In line 652 [prev] is the header inserted last; the model looks it up by its
      hash, under which hsk_chain_insert has just stored it. *)
  Definition chain_add (N : net) (now : Z) (st : chain) (h : hdr) : outcome (Z * chain) :=
    let hs := hash h in
    if (now + 7200) mod 2 ^ 64 <? h_time h then Ok (21, st)
    else if ahas beq hs (c_hashes st) then Ok (22, st)
    else if ahas beq hs (c_orphans st) then Ok (23, st)
    else if negb (pow h =? 0) then Ok (pow h, st)
    else match chain_get st (h_prev h) with
    | None =>
        let st1 := if 10000 <? zlen (c_orphans st) then with_orphans st [] [] else st in
        Ok (26, with_orphans st1 (aset beq hs h (c_orphans st1)) (aset beq (h_prev h) h (c_prevs st1)))
    | Some prev =>
        match chain_insert N now st h hs prev with
        | Ok st1 => resolve_loop (S (length (c_orphans st1))) N now st1 hs
        | Err e => Ok (e, st)
        | Abort => Abort
        | Ub => Ub
        end
    end.

  (** chain.c:75-129 hsk_chain_init, hsk_chain_init_genesis; [prefix] is set later
      by daemon.c:637. *)
  Definition chain_init (N : net) (now : Z) (prefix : bool) : outcome chain :=
    match hdr_decode (n_genesis N) with
    | None => Abort
    | Some h =>
        match calc_work (h_bits h) None with
        | None => Abort
        | Some w =>
            let e := mk_entry h (hash h) 0 w in
            Ok (mk_chain 0 0 e e (maybe_sync N now false e) [(hash h, e)] [(0, e)] [] [] prefix None)
        end
    end.

  (** store.c:166-194: the header loop of hsk_store_inject_checkpoint; [prev] is
      the hash (none for the first header) and work of the header before. A result
      of false ends the program (daemon.c:619-651): [Err 4]. *)
  Fixpoint inject_loop (n : nat) (N : net) (now : Z) (st : chain) (d : list Z) (height : Z)
      (prev_hash : option (list Z)) (prev_work : list Z) : outcome chain :=
    match n with
    | O => Ok st
    | S k =>
        match hdr_read d with
        | None => Err 4
        | Some (h, d') =>
            if match prev_hash with Some p => negb (beq (h_prev h) p) | None => false end then Abort
            else match calc_work (h_bits h) (Some prev_work) with
            | None => Abort
            | Some w =>
                let e := mk_entry h (hash h) (height mod 4294967296) w in
                obind (chain_save N now st e) (fun st' =>
                inject_loop k N now st' d' (height + 1) (Some (hash h)) w)
            end
        end
    end.

  (** store.c:132-197 hsk_store_inject_checkpoint. *)
  Definition inject_checkpoint (N : net) (now : Z) (st : chain) (d : list Z) : outcome chain :=
    match read_u32be d with
    | None => Err 4
    | Some (height, d1) =>
        if height <=? c_init st then Ok st
        else match read_bytes 32 d1 with
        | None => Err 4
        | Some (work, d2) =>
            inject_loop store_headers_count N now
              (mk_chain (c_height st) height (c_tip st) (c_genesis st) (c_synced st) (c_hashes st)
                 (c_heights st) (c_orphans st) (c_prevs st) (c_prefix st) (c_file st))
              d2 height None work
        end
    end.
End Hash.

(** store.c:199-249 hsk_store_read of a file with content [f] ([None]: the file
    cannot be opened): what is left for hsk_store_inject_checkpoint. *)
Definition store_size : nat := Z.to_nat 35441.
Definition store_read (N : net) (f : option (list Z)) : option (list Z) :=
  match f with
  | None => None
  | Some d =>
      match read_bytes store_size d with
      | None => None
      | Some (d0, _) =>
          match read_u32be d0 with
          | None => None
          | Some (magic, d1) =>
              if negb (magic =? n_magic N) then None
              else match read_u8 d1 with
              | None => None
              | Some (version, d2) => if negb (version =? store_version) then None else Some d2
              end
          end
      end
  end.
