(** Model of the command line of src/daemon.c: the options, their checks and their end.
    Strings are the lists of their bytes before the 0. The allocations of strdup are taken to
    succeed (daemon.c does not check them). *)
From Verif Require Import Common Base32Model AddrModel.

(** struct sockaddr_storage as far as it is used: family, address, port and the scope of an
    IPv6 address. [None]: memory that was never written. *)
Record sa := { sa_v4 : bool; sa_ip : list Z; sa_port : Z; sa_scope : option Z }.
(** addr.c:238-261 hsk_addr_to_sa over [s]: the scope is not written *)
Definition to_sa (a : addr) (s : option Z) : sa :=
  if is_mapped a then {| sa_v4 := true; sa_ip := firstn 4 (skipn 12 (a_ip a)); sa_port := a_port a; sa_scope := s |}
  else {| sa_v4 := false; sa_ip := firstn 16 (a_ip a); sa_port := a_port a; sa_scope := s |}.
(** addr.c:545-555 hsk_sa_from_string *)
Definition sa_from_string (P : ports) (s : option Z) (src : list Z) (port : Z) : outcome (option sa) :=
  obind (from_string P src port) (fun o => Ok (option_map (fun a => to_sa a s) o)).
(** addr.c:597-615 hsk_sa_copy: an IPv4 address is copied without what follows it *)
Definition sa_copy (dst src : sa) : sa :=
  {| sa_v4 := sa_v4 src; sa_ip := sa_ip src; sa_port := sa_port src; sa_scope := if sa_v4 src then sa_scope dst else sa_scope src |}.

(** daemon.c:26-41 hsk_options_t. [o_keybuf]: identity_key_; [o_key]: identity_key is not
    NULL, and then points to identity_key_. *)
Record opts := { o_config : option (list Z); o_ns : sa; o_rs : sa; o_ip : sa; o_rsconf : option (list Z); o_keybuf : list Z; o_key : bool;
  o_seeds : option (list Z); o_size : Z; o_agent : option (list Z); o_check : bool; o_prefix : option (list Z) }.
(** The fields of parse_arg: daemon.c:248-252 *)
Record locals := { l_ip : bool; l_log : option (list Z); l_back : bool }.
(** constants.h:31-33 and the ports of a network *)
Record names := { n_ports : ports; n_ns : Z; n_rs : Z }.
Definition home : list Z := [49; 50; 55; 46; 48; 46; 48; 46; 49].

(** isspace of the C locale *)
Definition space (c : Z) : bool := (c =? 32) || ((9 <=? c) && (c <=? 13)).
Fixpoint skip_space (s : list Z) : list Z := match s with c :: r => if space c then skip_space r else s | [] => [] end.
Fixpoint digits (v : Z) (s : list Z) : Z :=
  match s with c :: r => if (48 <=? c) && (c <=? 57) then digits (10 * v + (c - 48)) r else v | [] => v end.
(** atoi of the C standard: a value that is no int is undefined *)
Definition atoi (s : list Z) : outcome Z :=
  let s := skip_space s in
  let v := match s with
           | c :: r => if c =? 45 then - digits 0 r else if c =? 43 then digits 0 r else digits 0 s
           | [] => 0
           end in
  if (-2147483648 <=? v) && (v <=? 2147483647) then Ok v else Ub.

(** daemon.c:43-61 hsk_options_init *)
Definition opts_init (N : names) : outcome opts :=
  let sa0 := fun port => obind (sa_from_string (n_ports N) None home port) (fun o => match o with Some s => Ok s | None => Abort end) in
  obind (sa0 (n_ns N)) (fun ns => obind (sa0 (n_rs N)) (fun rs => obind (sa0 0) (fun ip =>
  Ok {| o_config := None; o_ns := ns; o_rs := rs; o_ip := ip; o_rsconf := None; o_keybuf := repeat 0 32; o_key := false;
        o_seeds := None; o_size := 8; o_agent := None; o_check := false; o_prefix := None |}))).
Definition locals_init : locals := {| l_ip := false; l_log := None; l_back := false |}.

(** What getopt_long returns: the letter and its argument *)
Definition event := (Z * option (list Z))%type.
(** The process exits, or goes on *)
Inductive act := Leave (code : Z) | Go (o : opts) (l : locals).
(** daemon.c:262-416: one case of the switch *)
Definition handle (N : names) (e : event) (o : opts) (l : locals) : outcome act :=
  let '(c, arg) := e in
  let text := match arg with Some (b :: r) => Some (b :: r) | _ => None end in
  let with_text := fun f : list Z -> outcome act => match text with None => Ok (Leave 1) | Some s => f s end in
  let addr := fun (old : sa) (port : Z) (f : sa -> act) => with_text (fun s => obind (sa_from_string (n_ports N) (sa_scope old) s port) (fun r => Ok (match r with None => Leave 1 | Some a => f a end))) in
  if c =? 118 then Ok (Leave 0)                  (* v *)
  else if c =? 104 then Ok (Leave 0)             (* h *)
  else if c =? 99 then with_text (fun s => Ok (Go {| o_config := Some s; o_ns := o_ns o; o_rs := o_rs o; o_ip := o_ip o; o_rsconf := o_rsconf o; o_keybuf := o_keybuf o; o_key := o_key o; o_seeds := o_seeds o; o_size := o_size o; o_agent := o_agent o; o_check := o_check o; o_prefix := o_prefix o |} l))
  else if c =? 110 then addr (o_ns o) (n_ns N) (fun a => Go {| o_config := o_config o; o_ns := a; o_rs := o_rs o; o_ip := o_ip o; o_rsconf := o_rsconf o; o_keybuf := o_keybuf o; o_key := o_key o; o_seeds := o_seeds o; o_size := o_size o; o_agent := o_agent o; o_check := o_check o; o_prefix := o_prefix o |} l)
  else if c =? 114 then addr (o_rs o) (n_rs N) (fun a => Go {| o_config := o_config o; o_ns := o_ns o; o_rs := a; o_ip := o_ip o; o_rsconf := o_rsconf o; o_keybuf := o_keybuf o; o_key := o_key o; o_seeds := o_seeds o; o_size := o_size o; o_agent := o_agent o; o_check := o_check o; o_prefix := o_prefix o |} l)
  else if c =? 105 then addr (o_ip o) 0 (fun a => Go {| o_config := o_config o; o_ns := o_ns o; o_rs := o_rs o; o_ip := a; o_rsconf := o_rsconf o; o_keybuf := o_keybuf o; o_key := o_key o; o_seeds := o_seeds o; o_size := o_size o; o_agent := o_agent o; o_check := o_check o; o_prefix := o_prefix o |} {| l_ip := true; l_log := l_log l; l_back := l_back l |})
  else if c =? 117 then with_text (fun s => Ok (Go {| o_config := o_config o; o_ns := o_ns o; o_rs := o_rs o; o_ip := o_ip o; o_rsconf := Some s; o_keybuf := o_keybuf o; o_key := o_key o; o_seeds := o_seeds o; o_size := o_size o; o_agent := o_agent o; o_check := o_check o; o_prefix := o_prefix o |} l))
  else if c =? 112 then with_text (fun s => obind (atoi s) (fun size =>
    if (size <=? 0) || (1000 <? size) then Ok (Leave 1)
    else Ok (Go {| o_config := o_config o; o_ns := o_ns o; o_rs := o_rs o; o_ip := o_ip o; o_rsconf := o_rsconf o; o_keybuf := o_keybuf o; o_key := o_key o; o_seeds := o_seeds o; o_size := size; o_agent := o_agent o; o_check := o_check o; o_prefix := o_prefix o |} l)))
  else if c =? 107 then with_text (fun s =>
    if negb (hex_decode_size s =? 32) then Ok (Leave 1)
    else let '(ok, b) := hex_decode s in
    if negb ok then Ok (Leave 1)
    else if 32 <? zlen b then Ub
    else Ok (Go {| o_config := o_config o; o_ns := o_ns o; o_rs := o_rs o; o_ip := o_ip o; o_rsconf := o_rsconf o; o_keybuf := b ++ skipn (length b) (o_keybuf o); o_key := true; o_seeds := o_seeds o; o_size := o_size o; o_agent := o_agent o; o_check := o_check o; o_prefix := o_prefix o |} l))
  else if c =? 115 then with_text (fun s => Ok (Go {| o_config := o_config o; o_ns := o_ns o; o_rs := o_rs o; o_ip := o_ip o; o_rsconf := o_rsconf o; o_keybuf := o_keybuf o; o_key := o_key o; o_seeds := Some s; o_size := o_size o; o_agent := o_agent o; o_check := o_check o; o_prefix := o_prefix o |} l))
  else if c =? 108 then with_text (fun s => Ok (Go o {| l_ip := l_ip l; l_log := Some s; l_back := l_back l |}))
  else if c =? 97 then with_text (fun s => Ok (Go {| o_config := o_config o; o_ns := o_ns o; o_rs := o_rs o; o_ip := o_ip o; o_rsconf := o_rsconf o; o_keybuf := o_keybuf o; o_key := o_key o; o_seeds := o_seeds o; o_size := o_size o; o_agent := Some s; o_check := o_check o; o_prefix := o_prefix o |} l))
  else if c =? 120 then with_text (fun s => Ok (Go {| o_config := o_config o; o_ns := o_ns o; o_rs := o_rs o; o_ip := o_ip o; o_rsconf := o_rsconf o; o_keybuf := o_keybuf o; o_key := o_key o; o_seeds := o_seeds o; o_size := o_size o; o_agent := o_agent o; o_check := o_check o; o_prefix := Some s |} l))
  else if c =? 116 then Ok (Go {| o_config := o_config o; o_ns := o_ns o; o_rs := o_rs o; o_ip := o_ip o; o_rsconf := o_rsconf o; o_keybuf := o_keybuf o; o_key := o_key o; o_seeds := o_seeds o; o_size := o_size o; o_agent := o_agent o; o_check := true; o_prefix := o_prefix o |} l)
  else if c =? 100 then Ok (Go o {| l_ip := l_ip l; l_log := l_log l; l_back := true |})
  else if c =? 63 then Ok (Leave 1)              (* unknown, or an argument is missing *)
  else Ok (Go o l).
(** daemon.c:254-417: the loop, the words that are no options ([extra]) and the address of
    the records; 422-430: what is opened then is [l_log] and [l_back] *)
Fixpoint parse_loop (N : names) (es : list event) (o : opts) (l : locals) : outcome act :=
  match es with
  | [] => Ok (Go o l)
  | e :: es => obind (handle N e o l) (fun a => match a with Leave c => Ok (Leave c) | Go o l => parse_loop N es o l end)
  end.
Definition parse_arg (N : names) (es : list event) (extra : bool) (o : opts) : outcome act :=
  obind (parse_loop N es o locals_init) (fun a =>
  match a with
  | Leave c => Ok (Leave c)
  | Go o l =>
      if extra then Ok (Leave 1)
      else if l_ip l then Ok (Go o l)
      else Ok (Go {| o_config := o_config o; o_ns := o_ns o; o_rs := o_rs o; o_ip := sa_copy (o_ip o) (o_ns o); o_rsconf := o_rsconf o; o_keybuf := o_keybuf o; o_key := o_key o; o_seeds := o_seeds o; o_size := o_size o; o_agent := o_agent o; o_check := o_check o; o_prefix := o_prefix o |} l)
  end).
(** daemon.c:775-777: both calls of main *)
Definition command_line (N : names) (es : list event) (extra : bool) : outcome act := obind (opts_init N) (parse_arg N es extra).

(** daemon.c:63-94 hsk_options_uninit: [Ub] is the free of a pointer into the structure *)
Definition opts_uninit (o : opts) : outcome unit := if o_key o then Ub else Ok tt.

(** daemon.c:228-246 longopts, with the bytes of the names; the array has no last entry of
    zeros *)
Definition longopts : list (list Z * Z) :=
  [ ([118; 101; 114; 115; 105; 111; 110], 118); ([99; 111; 110; 102; 105; 103], 99); ([110; 115; 45; 104; 111; 115; 116], 110);
    ([114; 115; 45; 104; 111; 115; 116], 114); ([110; 115; 45; 105; 112], 105); ([114; 115; 45; 99; 111; 110; 102; 105; 103], 117);
    ([112; 111; 111; 108; 45; 115; 105; 122; 101], 112); ([105; 100; 101; 110; 116; 105; 116; 121; 45; 107; 101; 121], 107);
    ([115; 101; 101; 100; 115], 115); ([108; 111; 103; 45; 102; 105; 108; 101], 108); ([117; 115; 101; 114; 45; 97; 103; 101; 110; 116], 97);
    ([99; 104; 101; 99; 107; 112; 111; 105; 110; 116], 116); ([112; 114; 101; 102; 105; 120], 120); ([100; 97; 101; 109; 111; 110], 100);
    ([104; 101; 108; 112], 104) ].
(** The search of getopt_long for a name that is written in full: the entries are read one
    after the other up to the name, or up to an entry of zeros; [Ub]: past the array *)
Fixpoint long_find (t : list (list Z * Z)) (name : list Z) : outcome Z :=
  match t with [] => Ub | (n, c) :: t => if beq n name then Ok c else long_find t name end.
