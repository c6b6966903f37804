(** Model of src/base32.c and of the hexadecimal functions of src/utils.c.

    C strings are lists of bytes without the terminating 0. [char] is signed (as on
    x86); on platforms where it is unsigned the comparison [v == -1] is always
    false. Lengths are assumed to fit into [int]. *)
From Verif Require Import Common.

(** base32.c:13 "abcdefghijklmnopqrstuvwxyz234567" *)
Definition charset : list Z := [97;98;99;100;101;102;103;104;105;106;107;108;109;110;111;112;113;114;115;116;117;118;119;120;121;122;50;51;52;53;54;55].
(** base32.c:15-24 *)
Definition table : list Z := [
  -1; -1; -1; -1; -1; -1; -1; -1; -1; -1; -1; -1; -1; -1; -1; -1;
  -1; -1; -1; -1; -1; -1; -1; -1; -1; -1; -1; -1; -1; -1; -1; -1;
  -1; -1; -1; -1; -1; -1; -1; -1; -1; -1; -1; -1; -1; -1; -1; -1;
  -1; -1; 26; 27; 28; 29; 30; 31; -1; -1; -1; -1; -1; -1; -1; -1;
  -1;  0;  1;  2;  3;  4;  5;  6;  7;  8;  9; 10; 11; 12; 13; 14;
  15; 16; 17; 18; 19; 20; 21; 22; 23; 24; 25; -1; -1; -1; -1; -1;
  -1;  0;  1;  2;  3;  4;  5;  6;  7;  8;  9; 10; 11; 12; 13; 14;
  15; 16; 17; 18; 19; 20; 21; 22; 23; 24; 25; -1; -1; -1; -1; -1].
(** base32.c:26 "0123456789abcdefghijklmnopqrstuv" *)
Definition charset_hex : list Z := [48;49;50;51;52;53;54;55;56;57;97;98;99;100;101;102;103;104;105;106;107;108;109;110;111;112;113;114;115;116;117;118].
(** base32.c:28-37 *)
Definition table_hex : list Z := [
  -1; -1; -1; -1; -1; -1; -1; -1; -1; -1; -1; -1; -1; -1; -1; -1;
  -1; -1; -1; -1; -1; -1; -1; -1; -1; -1; -1; -1; -1; -1; -1; -1;
  -1; -1; -1; -1; -1; -1; -1; -1; -1; -1; -1; -1; -1; -1; -1; -1;
   0;  1;  2;  3;  4;  5;  6;  7;  8;  9; -1; -1; -1; -1; -1; -1;
  -1; 10; 11; 12; 13; 14; 15; 16; 17; 18; 19; 20; 21; 22; 23; 24;
  25; 26; 27; 28; 29; 30; 31; -1; -1; -1; -1; -1; -1; -1; -1; -1;
  -1; 10; 11; 12; 13; 14; 15; 16; 17; 18; 19; 20; 21; 22; 23; 24;
  25; 26; 27; 28; 29; 30; 31; -1; -1; -1; -1; -1; -1; -1; -1; -1].
(** base32.c:39 *)
Definition padding : list Z := [0; 6; 4; 3; 1].

Local Notation "a >> b" := (Z.shiftr a b) (at level 50).
Local Notation "a << b" := (Z.shiftl a b) (at level 50).
Local Notation "a & b" := (Z.land a b) (at level 51).
Local Notation "a 'OR' b" := (Z.lor a b) (at level 52).

(** base32.c:56-101: the loop of hsk_base32_encode2; the indices into the charset
    that are written, and the final mode and left. *)
Fixpoint enc_loop (data : list Z) (mode left : Z) : list Z * Z * Z :=
  match data with
  | [] => ([], mode, left)
  | ch :: r =>
      let '(out, left', mode') :=
        if mode =? 0 then ([ch >> 3], (ch & 7) << 2, 1)
        else if mode =? 1 then ([left OR (ch >> 6); (ch >> 1) & 31], (ch & 1) << 4, 2)
        else if mode =? 2 then ([left OR (ch >> 4)], (ch & 15) << 1, 3)
        else if mode =? 3 then ([left OR (ch >> 7); (ch >> 2) & 31], (ch & 3) << 3, 4)
        else ([left OR (ch >> 5); ch & 31], left, 0) in
      let '(out', m, l) := enc_loop r mode' left' in
      (out ++ out', m, l)
  end.

(** base32.c:41-124 hsk_base32_encode2: the characters written before the
    terminating 0. An index outside the charset is undefined behaviour. *)
Fixpoint chars_of (cs : list Z) (ix : list Z) : outcome (list Z) :=
  match ix with
  | [] => Ok []
  | i :: r =>
      match (if i <? 0 then None else nth_error cs (Z.to_nat i)) with
      | None => Ub
      | Some c => obind (chars_of cs r) (fun l => Ok (c :: l))
      end
  end.
Definition encode2 (cs : list Z) (data : list Z) (pad : bool) : outcome (list Z) :=
  let '(ix, mode, lf) := enc_loop data 0 0 in
  let ix' := if 0 <? mode then ix ++ [lf] else ix in
  obind (chars_of cs ix') (fun out =>
  Ok (out ++ if (0 <? mode) && pad then repeat 61 (Z.to_nat (nth (Z.to_nat mode) padding 0)) else [])).

(** base32.c:275-283: the value returned by the size functions (no charset access,
    including the terminating 0). *)
Definition encode_size (data : list Z) (pad : bool) : Z :=
  let '(ix, mode, lf) := enc_loop data 0 0 in
  zlen ix + (if 0 <? mode then 1 + (if pad then nth (Z.to_nat mode) padding 0 else 0) else 0) + 1.

(** base32.c:143-144: the value of a character, -1 if it is none. *)
Definition digit (tb : list Z) (ch : Z) : Z :=
  if negb (ch & 128 =? 0) then -1 else nth (Z.to_nat ch) tb (-1).

(** base32.c:142-200: the loop of hsk_base32_decode2. Result: whether it returned
    -1, the bytes written, mode, left and the rest of the string at str + i. *)
Fixpoint dec_loop (tb : list Z) (str : list Z) (unpad : bool) (mode left : Z)
  : bool * list Z * Z * Z * list Z :=
  match str with
  | [] => (false, [], mode, left, [])
  | ch :: r =>
      let v := digit tb ch in
      if v =? -1 then (negb (unpad && (0 <? mode)), [], mode, left, str)
      else
        let '(out, left', mode') :=
          if mode =? 0 then ([], v, 1)
          else if mode =? 1 then ([(left << 3) OR (v >> 2)], v & 3, 2)
          else if mode =? 2 then ([], (left << 5) OR v, 3)
          else if mode =? 3 then ([(left << 1) OR (v >> 4)], v & 15, 4)
          else if mode =? 4 then ([(left << 4) OR (v >> 1)], v & 1, 5)
          else if mode =? 5 then ([], (left << 5) OR v, 6)
          else if mode =? 6 then ([(left << 2) OR (v >> 3)], v & 7, 7)
          else ([(left << 5) OR v], left, 0) in
        let '(bad, out', m, l, s) := dec_loop tb r unpad mode' left' in
        (bad, map (fun x => x mod 256) out ++ out', m, l, s)
  end.

(** base32.c:126-258 hsk_base32_decode2: return value and the bytes written to out
    (if it is not NULL). *)
Definition decode2 (tb : list Z) (str : list Z) (unpad : bool) : Z * list Z :=
  let '(bad, out, mode, lf, rest) := dec_loop tb str unpad 0 0 in
  if bad then (-1, out)
  else
    let ok :=
      if negb unpad then true
      else if mode =? 0 then true
      else if (mode =? 1) || (mode =? 3) || (mode =? 6) then false
      else
        let n := if mode =? 2 then 6%nat else if mode =? 4 then 4%nat else if mode =? 5 then 3%nat else 1%nat in
        negb (0 <? lf) && beq rest (repeat 61 n) in
    (if ok then zlen out else -1, out).

(** base32.c:295-313 hsk_base32_decode_size *)
Definition decode_size (tb : list Z) (str : list Z) : Z :=
  let size := fst (decode2 tb str false) in
  if size =? -1 then zlen str * 5 / 8 else size.

(** utils.c:103-126 to_nibble, to_char *)
Definition to_nibble (s : Z) : Z :=
  if (48 <=? s) && (s <=? 57) then s - 48
  else if (65 <=? s) && (s <=? 70) then s - 65 + 10
  else if (97 <=? s) && (s <=? 102) then s - 97 + 10
  else -1.
Definition to_char (n : Z) : Z :=
  if (0 <=? n) && (n <=? 9) then n + 48
  else if (10 <=? n) && (n <=? 15) then n - 10 + 97
  else -1.

(** utils.c:133-165 hsk_hex_encode of non-NULL buffers: the characters before the
    terminating 0, or [None] for a result of false. *)
Fixpoint hex_encode (data : list Z) : option (list Z) :=
  match data with
  | [] => Some []
  | b :: r =>
      if (to_char (b >> 4) =? -1) || (to_char (b & 15) =? -1) then None
      else option_map (fun l => to_char (b >> 4) :: to_char (b & 15) :: l) (hex_encode r)
  end.

(** utils.c:199-213: the loop of hsk_hex_decode from an even position; the result
    and the bytes written. Characters above 127 are negative [char]s and no
    digits. *)
Fixpoint hex_decode (str : list Z) : bool * list Z :=
  match str with
  | [] => (true, [])
  | [c] => (false, [])
  | c :: d :: r =>
      if to_nibble c =? -1 then (false, [])
      else if to_nibble d =? -1 then (false, [])
      else
        let w := (((to_nibble c << 4) mod 256) OR to_nibble d) mod 256 in
        let (ok, l) := hex_decode r in (ok, w :: l)
  end.
(** utils.c:181-186 hsk_hex_decode_size *)
Definition hex_decode_size (str : list Z) : Z := zlen str >> 1.
