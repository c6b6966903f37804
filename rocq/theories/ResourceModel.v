(** Model of src/resource.c: on-chain resource data. *)
From Verif Require Import Common BioModel DnsNameModel.

(** One string of a TXT record after hsk_txt_record_read: a string, a pointer to a string
    that has been freed, or NULL. *)
Inductive txt := Good (b : list Z) | Freed | Null.
(** resource.h:19-48. Fixed-size arrays: addresses have 4 and 16 bytes, the digest is its
    first digest_len bytes; the name is the characters before the terminator. *)
Inductive record :=
| RDs (tag alg dtype : Z) (digest : list Z)
| RNs (name : list Z)
| RGlue4 (name ip : list Z)
| RGlue6 (name ip : list Z)
| RSynth4 (ip : list Z)
| RSynth6 (ip : list Z)
| RTxt (items : list txt).
(** resource.h:4-10 *)
Definition record_type (r : record) : Z :=
  match r with RDs _ _ _ _ => 0 | RNs _ => 1 | RGlue4 _ _ => 2 | RGlue6 _ _ => 3 | RSynth4 _ => 4 | RSynth6 _ => 5 | RTxt _ => 6 end.

(** dns.c:2096-2210: the characters hsk_dns_name_parse has stored when it fails, with the
    tests of [parse_loop] *)
Fixpoint left_loop (fuel : nat) (dmp d : list Z) (off : Z) (out : list Z) (ptr : Z) : list Z :=
  match fuel with
  | O => out
  | S fuel =>
      match at_ d off with
      | None => out
      | Some c =>
          let off := off + 1 in
          if c =? 0 then out
          else if Z.land c 192 =? 0 then
            if (zlen d <? off + c) || (255 <? zlen out + c + 1) then out
            else match obind (parse_copy d off (Z.to_nat c) out) (fun out => put out 46) with
                 | Ok out => left_loop fuel dmp d (off + c) out ptr
                 | _ => out
                 end
          else if Z.land c 192 =? 192 then
            match at_ d off with
            | None => out
            | Some c1 =>
                if 10 <? ptr + 1 then out
                else left_loop fuel dmp dmp (Z.lor (Z.shiftl (Z.lxor c 192) 8) c1) out (ptr + 1)
            end
          else out
      end
  end.
(** hsk_dns_name_read into a zeroed buffer whose result may be ignored: the name left in
    the buffer, the rest of the data, the result. A failure moves no pointer. *)
Definition name_into (dmp d : list Z) : outcome (list Z * list Z * bool) :=
  obind (name_read (Some dmp) d) (fun o =>
  match o with
  | Some (n, rest) => Ok (n, rest, true)
  | None => Ok (left_loop 300 dmp d 0 [] 0, d, false)
  end).

(** read_bytes into a zeroed array of [n] bytes, result ignored *)
Definition bytes_into (n : nat) (d : list Z) : list Z * list Z :=
  match read_bytes n d with Some (b, rest) => (b, rest) | None => (repeat 0 n, d) end.

(** resource.c:38-62. After the length test the four reads succeed. *)
Definition ds_read (d : list Z) : record * list Z :=
  if zlen d <? 5 then (RDs 0 0 0 [], d) else
  match d with
  | a :: b :: alg :: dt :: size :: rest =>
      let tag := be_val [a; b] in
      if 64 <? size then (RDs tag alg dt [], rest)
      else match read_bytes (Z.to_nat size) rest with
           | Some (g, rest') => (RDs tag alg dt g, rest')
           | None => (RDs tag alg dt [], rest)
           end
  | _ => (RDs 0 0 0 [], d)
  end.

(** resource.c:132-156: [n] strings are left; a failure leaves the string just allocated,
    which is freed, and NULL for the others *)
Fixpoint txt_loop (n : nat) (d : list Z) (acc : list txt) : list txt * list Z :=
  match n with
  | O => (acc, d)
  | S k =>
      match read_u8 d with
      | None => (acc ++ Freed :: repeat Null k, d)
      | Some (size, d1) =>
          match read_bytes (Z.to_nat size) d1 with
          | None => (acc ++ Freed :: repeat Null k, d1)
          | Some (b, d2) => txt_loop k d2 (acc ++ [Good b])
          end
      end
  end.
(** resource.c:118-159 *)
Definition txt_read (d : list Z) : record * list Z :=
  match read_u8 d with
  | None => (RTxt [], d)
  | Some (n, d) => let '(l, d) := txt_loop (Z.to_nat n) d [] in (RTxt l, d)
  end.

(** resource.c:325-384 with the readers 64-116: their results are ignored. [None]:
    unknown type. Memory is available. *)
Definition record_read (dmp : list Z) (type : Z) (d : list Z) : outcome (option (record * list Z)) :=
  if type =? 0 then Ok (Some (ds_read d))
  else if type =? 1 then obind (name_into dmp d) (fun '(n, d, _) => Ok (Some (RNs n, d)))
  else if type =? 2 then
    obind (name_into dmp d) (fun '(n, d, ok) =>
    if ok : bool then let '(ip, d) := bytes_into 4 d in Ok (Some (RGlue4 n ip, d)) else Ok (Some (RGlue4 n (repeat 0 4), d)))
  else if type =? 3 then
    obind (name_into dmp d) (fun '(n, d, ok) =>
    if ok : bool then let '(ip, d) := bytes_into 16 d in Ok (Some (RGlue6 n ip, d)) else Ok (Some (RGlue6 n (repeat 0 16), d)))
  else if type =? 4 then let '(ip, d) := bytes_into 4 d in Ok (Some (RSynth4 ip, d))
  else if type =? 5 then let '(ip, d) := bytes_into 16 d in Ok (Some (RSynth6 ip, d))
  else if type =? 6 then Ok (Some (txt_read d))
  else Ok None.

(** resource.c:421-437: [records] has 255 places. Running out of fuel is [None]. *)
Fixpoint decode_loop (fuel : nat) (dmp d : list Z) (acc : list record) : option (outcome (option (list record))) :=
  match d with
  | [] => Some (Ok (Some acc))
  | type :: d =>
      match fuel with
      | O => None
      | S fuel =>
          match record_read dmp type d with
          | Ok None => Some (Ok None)
          | Ok (Some (r, d)) => if zlen acc <? 255 then decode_loop fuel dmp d (acc ++ [r]) else Some Ub
          | Err e => Some (Err e) | Abort => Some Abort | Ub => Some Ub
          end
      end
  end.
(** resource.c:386-447. The version and the time to live of a decoded resource are always
    0 and 21600. What was read before a failure is not freed (record_count is 0). *)
Definition decode (data : list Z) : outcome (option (list record)) :=
  match read_u8 data with
  | None => Ok None
  | Some (version, d) =>
      if negb (version =? 0) then Ok None
      else match decode_loop (length data) data d [] with Some r => r | None => Ub end
  end.

(** resource.c:258-308: hsk_dns_txt_free on a freed string, and on NULL (dns.c:2087) *)
Fixpoint txts_free (l : list txt) : outcome unit :=
  match l with
  | [] => Ok tt
  | Good _ :: l => txts_free l
  | Freed :: _ => Ub
  | Null :: _ => Abort
  end.
Definition record_free (r : record) : outcome unit := match r with RTxt l => txts_free l | _ => Ok tt end.
(** resource.c:310-323 *)
Fixpoint resource_free (l : list record) : outcome unit :=
  match l with [] => Ok tt | r :: l => obind (record_free r) (fun _ => resource_free l) end.

(** resource.c:449-474 *)
Definition has (type : Z) (l : list record) : bool := existsb (fun r => record_type r =? type) l.
Definition has_ns (l : list record) : bool := existsb (fun r => (1 <=? record_type r) && (record_type r <=? 5)) l.
