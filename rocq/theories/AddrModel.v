(** Model of src/addr.c: addresses, their classes and their text, and of the functions of
    libuv that read and write the text of an IP (uv/src/inet.c, part of the repository).
    A C string is the list of its bytes before the 0. *)
From Verif Require Import Common Base32Model MapModel.

(** addr.h:17-22. [a_ip]: 36 bytes; [a_key]: 33 bytes *)
Record addr := { a_type : Z; a_ip : list Z; a_port : Z; a_key : list Z }.
Definition zeros (n : nat) : list Z := repeat 0 n.
(** addr.c:74-78 *)
Definition addr_init : addr := {| a_type := 0; a_ip := zeros 36; a_port := 0; a_key := zeros 33 |}.

(** The bytes of the IP, and memcmp with a constant (addr.c:18-64) *)
Definition ipb (a : addr) (i : nat) : Z := nth i (a_ip a) 0.
Definition starts (a : addr) (p : list Z) : bool := beq (firstn (length p) (a_ip a)) p.
Definition ip4_mapped : list Z := zeros 10 ++ [255; 255].
Definition tor_onion : list Z := [253; 135; 216; 126; 235; 67].
Definition rfc4862 : list Z := [254; 128; 0; 0; 0; 0; 0; 0].
Definition shifted : list Z := zeros 7 ++ [255; 255].
Definition local_ip : list Z := zeros 15 ++ [1].

(** addr.c:108-112, 114-118 *)
Definition is_mapped (a : addr) : bool := starts a ip4_mapped.
Definition is_ip4 : addr -> bool := is_mapped.
(** addr.c:126-130 *)
Definition is_onion (a : addr) : bool := starts a tor_onion.
(** addr.c:120-124 *)
Definition is_ip6 (a : addr) : bool := negb (is_mapped a) && negb (is_onion a).
(** addr.c:132-136 *)
Definition has_key (a : addr) : bool := negb (beq (a_key a) (zeros 33)).
(** addr.c:659-673 *)
Definition is_null (a : addr) : bool :=
  if is_ip4 a then (ipb a 12 =? 0) && (ipb a 13 =? 0) && (ipb a 14 =? 0) && (ipb a 15 =? 0) else starts a (zeros 16).
(** addr.c:675-687 *)
Definition is_broadcast (a : addr) : bool :=
  is_ip4 a && ((ipb a 12 =? 255) && (ipb a 13 =? 255) && (ipb a 14 =? 255) && (ipb a 15 =? 255)).
(** addr.c:689-706 *)
Definition is_rfc1918 (a : addr) : bool :=
  is_ip4 a && ((ipb a 12 =? 10) || ((ipb a 12 =? 192) && (ipb a 13 =? 168)) ||
               ((ipb a 12 =? 172) && ((16 <=? ipb a 13) && (ipb a 13 <=? 31)))).
(** addr.c:708-722 *)
Definition is_rfc2544 (a : addr) : bool :=
  is_ip4 a && (((ipb a 12 =? 198) && ((ipb a 13 =? 18) || (ipb a 13 =? 19))) || ((ipb a 12 =? 169) && (ipb a 13 =? 254))).
(** addr.c:724-735 *)
Definition is_rfc3927 (a : addr) : bool := is_ip4 a && ((ipb a 12 =? 169) && (ipb a 13 =? 254)).
(** addr.c:737-750 *)
Definition is_rfc6598 (a : addr) : bool := is_ip4 a && ((ipb a 12 =? 100) && ((64 <=? ipb a 13) && (ipb a 13 <=? 127))).
(** addr.c:752-771 *)
Definition is_rfc5737 (a : addr) : bool :=
  is_ip4 a && (((ipb a 12 =? 192) && ((ipb a 13 =? 0) && (ipb a 14 =? 2))) ||
               ((ipb a 12 =? 198) && (ipb a 13 =? 51) && (ipb a 14 =? 100)) ||
               ((ipb a 12 =? 203) && (ipb a 13 =? 0) && (ipb a 14 =? 113))).
(** addr.c:773-783 *)
Definition is_rfc3849 (a : addr) : bool := (ipb a 0 =? 32) && (ipb a 1 =? 1) && (ipb a 2 =? 13) && (ipb a 3 =? 184).
(** addr.c:813-817 *)
Definition is_rfc4862 (a : addr) : bool := starts a rfc4862.
(** addr.c:819-827 *)
Definition is_rfc4193 (a : addr) : bool := Z.land (ipb a 0) 254 =? 252.
(** addr.c:835-845 *)
Definition is_rfc4843 (a : addr) : bool := (ipb a 0 =? 32) && (ipb a 1 =? 1) && (ipb a 2 =? 0) && (Z.land (ipb a 3) 240 =? 16).
(** addr.c:847-861 *)
Definition is_local (a : addr) : bool :=
  if is_ip4 a then (ipb a 12 =? 127) && (ipb a 13 =? 0) else starts a local_ip.
(** addr.c:876-896 *)
Definition is_valid (a : addr) : bool :=
  if negb (a_type a =? 0) then false
  else if starts a shifted then false
  else if is_null a then false
  else if is_broadcast a then false
  else negb (is_rfc3849 a).
(** addr.c:898-933 *)
Definition is_routable (a : addr) : bool :=
  if negb (is_valid a) then false
  else if is_rfc1918 a then false
  else if is_rfc2544 a then false
  else if is_rfc3927 a then false
  else if is_rfc4862 a then false
  else if is_rfc6598 a then false
  else if is_rfc5737 a then false
  else if is_rfc4193 a && negb (is_onion a) then false
  else if is_rfc4843 a then false
  else negb (is_local a).

(** addr.c:633-638 *)
Definition addr_hash (a : addr) : Z := tweak3 (a_ip a) (a_type a + 1) (a_port a).
(** addr.c:640-657 *)
Definition addr_equal (x y : addr) : bool :=
  (a_type x =? a_type y) && beq (a_ip x) (a_ip y) && (a_port x =? a_port y).

(** addr.c:165-184: AF_INET is true. *)
Definition set_ip (a : addr) (af4 : bool) (ip : list Z) : addr :=
  {| a_type := a_type a; a_port := a_port a; a_key := a_key a;
     a_ip := (if af4 then zeros 10 ++ [255; 255] ++ firstn 4 ip else firstn 16 ip) ++ zeros 20 |}.
(** addr.c:157-163 *)
Definition get_ip (a : addr) : list Z := if is_ip6 a then a_ip a else skipn 12 (a_ip a).

(** strchr: the text before and after the first [c] *)
Fixpoint split_at (c : Z) (s : list Z) : option (list Z * list Z) :=
  match s with
  | [] => None
  | x :: r => if x =? c then Some ([], r) else match split_at c r with Some (p, q) => Some (x :: p, q) | None => None end
  end.

(** uv/src/inet.c:184-222 inet_pton4. [done]: the bytes before tp; [cur] = *tp *)
Fixpoint pton4_loop (done : list Z) (cur octets : Z) (saw : bool) (s : list Z) : option (list Z) :=
  match s with
  | [] => if octets <? 4 then None else Some (done ++ [cur])
  | ch :: r =>
      if (48 <=? ch) && (ch <=? 57) then
        let nw := cur * 10 + (ch - 48) in
        if saw && (cur =? 0) then None
        else if 255 <? nw then None
        else if negb saw then (if 4 <? octets + 1 then None else pton4_loop done nw (octets + 1) true r)
        else pton4_loop done nw octets true r
      else if (ch =? 46) && saw then
        if octets =? 4 then None else pton4_loop (done ++ [cur]) 0 octets false r
      else None
  end.
Definition pton4 (s : list Z) : option (list Z) := pton4_loop [] 0 0 false s.

(** The value of a hexadecimal digit (inet.c:226-227, 246-250) *)
Definition xdigit (ch : Z) : option Z :=
  if (48 <=? ch) && (ch <=? 57) then Some (ch - 48)
  else if (97 <=? ch) && (ch <=? 102) then Some (ch - 87)
  else if (65 <=? ch) && (ch <=? 70) then Some (ch - 55)
  else None.
Definition word_bytes (v : Z) : list Z := [v / 256 mod 256; v mod 256].
(** inet.c:283-309. [out]: the bytes before tp; [colonp]: the bytes before it *)
Definition pton6_end (out : list Z) (colonp : option Z) (seen val : Z) : option (list Z) :=
  let out' := if 0 <? seen then (if 16 <? zlen out + 2 then None else Some (out ++ word_bytes val)) else Some out in
  match out' with
  | None => None
  | Some out =>
      match colonp with
      | Some c =>
          if zlen out =? 16 then None
          else Some (firstn (Z.to_nat c) out ++ zeros (16 - length out) ++ skipn (Z.to_nat c) out)
      | None => if zlen out =? 16 then Some out else None
      end
  end.
(** inet.c:241-282. [tok]: the text at curtok *)
Fixpoint pton6_loop (out : list Z) (colonp : option Z) (seen val : Z) (tok s : list Z) : option (list Z) :=
  match s with
  | [] => pton6_end out colonp seen val
  | ch :: r =>
      match xdigit ch with
      | Some d => if 4 <? seen + 1 then None else pton6_loop out colonp (seen + 1) (val * 16 + d) tok r
      | None =>
          if ch =? 58 then
            if seen =? 0 then
              match colonp with Some _ => None | None => pton6_loop out (Some (zlen out)) 0 val r r end
            else if match r with [] => true | _ => false end then None
            else if 16 <? zlen out + 2 then None
            else pton6_loop (out ++ word_bytes val) colonp 0 0 r r
          else if (ch =? 46) && (zlen out + 4 <=? 16) then
            match pton4 tok with
            | Some ip => pton6_end (out ++ ip) colonp 0 val
            | None => None
            end
          else None
      end
  end.
(** inet.c:225-240 inet_pton6 *)
Definition pton6 (s : list Z) : option (list Z) :=
  match s with
  | [] => pton6_loop [] None 0 0 s s
  | c :: r =>
      if c =? 58 then match r with [] => None | d :: _ => if d =? 58 then pton6_loop [] None 0 0 r r else None end
      else pton6_loop [] None 0 0 s s
  end.
(** inet.c:157-181 for AF_INET6 *)
Definition uv_pton6 (s : list Z) : option (list Z) :=
  match split_at 37 s with
  | None => pton6 s
  | Some (p, _) => if 45 <? zlen p then None else pton6 p
  end.

(** addr.c:379-398: at most five digits, cut to 16 bits *)
Fixpoint port_loop (i word : Z) (s : list Z) : option Z :=
  match s with
  | [] => Some (word mod 65536)
  | c :: s =>
      let ch := c - 48 in
      if (ch <? 0) || (9 <? ch) then None
      else if i =? 5 then None
      else port_loop (i + 1) (word * 10 + ch) s
  end.

(** The ports of a network (constants.h:52-53, 96-97, 151-152, 195-196) *)
Record ports := { pt_plain : Z; pt_brontide : Z }.

(** addr.c:337-368: host and port of "host", "host:port", "[host]" and "[host]:port" *)
Definition split_host (s : list Z) : option (list Z * option (list Z)) :=
  if match s with [] => false | c :: _ => c =? 91 end then
    match split_at 93 (skipn 1 s) with
    | None => None
    | Some (host, []) => Some (host, None)
    | Some (host, c :: port) => if c =? 58 then Some (host, Some port) else None
    end
  else
    match split_at 58 s with
    | None => Some (s, None)
    | Some (host, port) => match split_at 58 port with Some _ => Some (s, None) | None => Some (host, Some port) end
    end.
(** addr.c:370-422. [a]: the address with its key; [at_] tells whether a key was given *)
Definition host_addr (P : ports) (a : addr) (at_ : bool) (port : Z) (host : list Z) (port_s : option (list Z)) : option addr :=
  if 46 <? zlen host then None
  else
    let sin_port :=
      match port_s with
      | Some s => port_loop 0 0 s
      | None => Some (if port =? 0 then (if at_ then pt_brontide P else pt_plain P) else port)
      end in
    match sin_port with
    | None => None
    | Some p =>
        let set af4 ip := Some {| a_type := 0; a_ip := a_ip (set_ip a af4 ip); a_port := p; a_key := a_key a |} in
        match pton4 host with
        | Some ip => set true ip
        | None => match uv_pton6 host with Some ip => set false ip | None => None end
        end
    end.
(** addr.c:305-423 hsk_addr_from_string. [Ok None] is the result false. [Ub]: a key longer
    than its 33 bytes. *)
Definition from_string (P : ports) (src : list Z) (port : Z) : outcome (option addr) :=
  let host a at_ s :=
    match split_host s with None => Ok None | Some (h, p) => Ok (host_addr P a at_ port h p) end in
  match split_at 64 src with
  | None => host addr_init false src
  | Some (pub, rest) =>
      if 53 <? zlen pub then Ok None
      else if negb (decode_size Base32Model.table pub =? 33) then Ok None
      else
        let '(rc, key) := decode2 Base32Model.table pub false in
        if 33 <? zlen key then Ub
        else if rc =? -1 then Ok None
        else host {| a_type := 0; a_ip := zeros 36; a_port := 0; a_key := key ++ zeros (33 - length key) |} true rest
  end.

(** sprintf of a number that is not negative: "%u" (base 10) and "%x" (base 16) *)
Definition digit_char (d : Z) : Z := if d <? 10 then 48 + d else 87 + d.
Fixpoint show_loop (fuel : nat) (base n : Z) (acc : list Z) : list Z :=
  match fuel with
  | O => acc
  | S fuel => let acc := digit_char (n mod base) :: acc in if n / base =? 0 then acc else show_loop fuel base (n / base) acc
  end.
Definition show (base n : Z) : list Z := show_loop 10 base n [].

(** inet.c:53-66 inet_ntop4: the text, without the test of the size *)
Definition ntop4_text (ip : list Z) : list Z :=
  show 10 (nth 0 ip 0) ++ [46] ++ show 10 (nth 1 ip 0) ++ [46] ++ show 10 (nth 2 ip 0) ++ [46] ++ show 10 (nth 3 ip 0).
(** inet.c:84-106: the longest run of zero words, the first of them *)
Record zrun := { z_base : Z; z_len : Z }.
Definition better (best cur : zrun) : zrun :=
  if z_base cur =? -1 then best else if (z_base best =? -1) || (z_len best <? z_len cur) then cur else best.
Fixpoint run_loop (i : Z) (best cur : zrun) (ws : list Z) : zrun :=
  match ws with
  | [] => better best cur
  | w :: r =>
      if w =? 0 then
        run_loop (i + 1) best (if z_base cur =? -1 then {| z_base := i; z_len := 1 |} else {| z_base := z_base cur; z_len := z_len cur + 1 |}) r
      else run_loop (i + 1) (better best cur) {| z_base := -1; z_len := z_len cur |} r
  end.
Definition best_run (ws : list Z) : zrun :=
  let b := run_loop 0 {| z_base := -1; z_len := 0 |} {| z_base := -1; z_len := 0 |} ws in
  if negb (z_base b =? -1) && (z_len b <? 2) then {| z_base := -1; z_len := z_len b |} else b.
(** inet.c:111-133: the loop from word [i] on; [ws] are the words from there, [ip] the 16
    bytes *)
Fixpoint ntop6_loop (i : Z) (b : zrun) (w5 w7 : Z) (ip : list Z) (ws : list Z) : list Z :=
  match ws with
  | [] => []
  | w :: r =>
      if negb (z_base b =? -1) && (z_base b <=? i) && (i <? z_base b + z_len b) then
        (if i =? z_base b then [58] else []) ++ ntop6_loop (i + 1) b w5 w7 ip r
      else
        (if i =? 0 then [] else [58]) ++
        (if (i =? 6) && (z_base b =? 0) && ((z_len b =? 6) || ((z_len b =? 7) && negb (w7 =? 1)) || ((z_len b =? 5) && (w5 =? 65535)))
         then ntop4_text (skipn 12 ip)
         else show 16 w ++ ntop6_loop (i + 1) b w5 w7 ip r)
  end.
(** inet.c:82-83 *)
Fixpoint words (ip : list Z) : list Z :=
  match ip with a :: b :: r => a * 256 + b :: words r | _ => [] end.
(** inet.c:68-148 inet_ntop6: the text, without the test of the size *)
Definition ntop6_text (ip : list Z) : list Z :=
  let ip := firstn 16 ip in
  let ws := words ip in
  let b := best_run ws in
  ntop6_loop 0 b (nth 5 ws 0) (nth 7 ws 0) ip ws ++
  (if negb (z_base b =? -1) && (z_base b + z_len b =? 8) then [58] else []).

(** addr.c:425-464 hsk_addr_to_string into [len] bytes; [Ok None] is the result false.
    [Ub]: more than the 128 bytes of tmp, or more than the 46 resp. 16 bytes in inet.c. *)
Definition to_string (a : addr) (len fb : Z) : outcome (option (list Z)) :=
  let v4 := is_mapped a in
  let text := if v4 then ntop4_text (get_ip a) else ntop6_text (get_ip a) in
  if (if v4 then 16 else 46) <=? zlen text then Ub
  else if len <=? zlen text then Ok None
  else if fb =? 0 then Ok (Some text)
  else if len - zlen text <? (if v4 then 7 else 9) then Ok None
  else
    let port := if a_port a =? 0 then fb else a_port a in
    if v4 then
      let tmp := text ++ [58] ++ show 10 port in
      if 128 <=? zlen tmp then Ub else Ok (Some tmp)
    else if 128 <=? zlen text + 9 then Abort
    else Ok (Some ([91] ++ text ++ [93; 58] ++ show 10 port)).

(** addr.c:466-496 hsk_addr_to_full *)
Definition to_full (a : addr) (len fb : Z) : outcome (option (list Z)) :=
  obind (to_string a len fb) (fun o =>
  match o with
  | None => Ok None
  | Some dst =>
      if negb (has_key a) then Ok (Some dst)
      else
        let size := encode_size (a_key a) false in
        if len - zlen dst <? size + 1 then Ok None
        else if (54 <? size) || (128 <=? zlen dst + (size - 1) + 1) then Abort
        else obind (encode2 charset (a_key a) false) (fun b32 => Ok (Some (b32 ++ [64] ++ dst)))
  end).
