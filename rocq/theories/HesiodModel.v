(** Model of src/hesiod.c: the state of the node as TXT records of class HS. *)
From Coq Require Import String Ascii.
From Verif Require Import Common DnsNameModel DnsMsgModel AnswerModel.

(** String literals *)
Definition txt (s : string) : list Z := map (fun c => Z.of_N (N_of_ascii c)) (list_ascii_of_string s).
(** "%llu" and "%d" of a number that is not negative; 20 digits are enough for 64 bits *)
Fixpoint dec_loop (fuel : nat) (n : Z) (acc : list Z) : list Z :=
  match fuel with
  | O => acc
  | S fuel => let acc := 48 + n mod 10 :: acc in if n / 10 =? 0 then acc else dec_loop fuel (n / 10) acc
  end.
Definition dec (n : Z) : list Z := dec_loop 20 n [].
(** "%02x" of each byte (hesiod.c:46-48) *)
Definition hex_char (d : Z) : Z := if d <? 10 then 48 + d else 87 + d.
Definition hex (data : list Z) : list Z := concat (map (fun b => [hex_char (b / 16); hex_char (b mod 16)]) data).

(** What is read of the chain and the pool (chain.h, pool.h:55-110). [n_progress] is the
    text "%f" gives for hsk_chain_progress (its value: ProgressModel.v). *)
Record peer_info := { p_host : list Z; p_agent : list Z; p_headers : Z; p_proofs : Z; p_state : Z }.
Record node := { n_hash : list Z; n_height : Z; n_root : list Z; n_time : Z; n_synced : bool; n_progress : list Z; n_size : Z; n_peers : list peer_info }.

(** hesiod.c:11-35. [text] is copied to 256 characters. *)
Definition txt_push (name text : list Z) (an : list rr) : outcome (list rr) :=
  if 255 <? zlen text then Ub
  else Ok (rrs_push an (named {| r_name := [46]; r_type := 16; r_class := 4; r_ttl := 0; r_rd := Some [VList [text]] |} name)).
(** hesiod.c:75-101 *)
Definition state_text (s : Z) : option (list Z) :=
  if s =? 0 then Some (txt "HSK_STATE_DISCONNECTED")
  else if s =? 2 then Some (txt "HSK_STATE_CONNECTING")
  else if s =? 3 then Some (txt "HSK_STATE_CONNECTED")
  else if s =? 4 then Some (txt "HSK_STATE_READING")
  else if s =? 5 then Some (txt "HSK_STATE_HANDSHAKE")
  else if s =? 6 then Some (txt "HSK_STATE_DISCONNECTING")
  else None.
(** hesiod.c:59-110 *)
Definition peer_push (p : peer_info) (an : list rr) (count : Z) : outcome (list rr) :=
  let label s := txt s ++ dec count ++ txt ".peers.pool.hnsd." in
  obind (txt_push (label "host."%string) (p_host p) an) (fun an =>
  obind (txt_push (label "agent."%string) (p_agent p) an) (fun an =>
  obind (txt_push (label "headers."%string) (dec (p_headers p)) an) (fun an =>
  obind (txt_push (label "proofs."%string) (dec (p_proofs p)) an) (fun an =>
  match state_text (p_state p) with
  | None => Ok an
  | Some t => txt_push (label "state."%string) t an
  end)))).
(** hesiod.c:176-184; the counter has 16 bits *)
Fixpoint peers_push (ps : list peer_info) (an : list rr) (count : Z) : outcome (list rr) :=
  match ps with
  | [] => Ok an
  | p :: ps => obind (peer_push p an count) (fun an => peers_push ps an ((count + 1) mod 65536))
  end.
(** hesiod.c:123-172: one fact *)
Definition fact (q name text : list Z) (an : list rr) : outcome (list rr) :=
  obind (is_subdomain q name) (fun b => if b : bool then txt_push name text an else Ok an).
(** hesiod.c:112-194 *)
Definition hesiod (n : node) (q : list Z) : outcome msg :=
  obind (fact q (txt "hash.tip.chain.hnsd.") (hex (n_hash n)) []) (fun an =>
  obind (fact q (txt "height.tip.chain.hnsd.") (dec (n_height n)) an) (fun an =>
  obind (fact q (txt "name_root.tip.chain.hnsd.") (hex (n_root n)) an) (fun an =>
  obind (fact q (txt "time.tip.chain.hnsd.") (dec (n_time n)) an) (fun an =>
  obind (fact q (txt "synced.chain.hnsd.") (if n_synced n then txt "true" else txt "false") an) (fun an =>
  obind (fact q (txt "progress.chain.hnsd.") (n_progress n) an) (fun an =>
  obind (fact q (txt "size.pool.hnsd.") (dec (n_size n)) an) (fun an =>
  obind (is_subdomain q (txt "peers.pool.hnsd.")) (fun b =>
  obind (if b : bool then peers_push (n_peers n) an 0 else Ok an) (fun an => Ok (build 0 (Z.shiftl 1 10) an [] [])))))))))).
