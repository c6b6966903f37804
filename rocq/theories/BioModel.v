(** Model of src/bio.h: byte-level readers and writers.

    A reader takes the remaining bytes (the pair [*data],[*len] of the C code)
    and returns the value together with the bytes that are left; [None] is the
    C result [false].  Writers return the bytes they append.  The host is
    little-endian (HSK_BIG_ENDIAN not defined). *)
From Verif Require Import Common.

(* bio.h:10-18 *)
Definition read_u8 (d : list Z) : option (Z * list Z) :=
  match d with [] => None | b :: r => Some (b, r) end.

(* common shape of bio.h:20-74 (memcpy of [n] little-endian bytes) *)
Definition read_le (n : nat) (d : list Z) : option (Z * list Z) :=
  match take n d with None => None | Some (b, r) => Some (le_val b, r) end.

(* common shape of bio.h:96-150 *)
Definition read_be (n : nat) (d : list Z) : option (Z * list Z) :=
  match take n d with None => None | Some (b, r) => Some (be_val b, r) end.

Definition read_u16 := read_le 2.   (* bio.h:20-34 *)
Definition read_u32 := read_le 4.   (* bio.h:36-52 *)
Definition read_u64 := read_le 8.   (* bio.h:54-74 *)
Definition read_u16be := read_be 2. (* bio.h:96-110 *)
Definition read_u32be := read_be 4. (* bio.h:112-128 *)

(* bio.h:167-205: slice_bytes, read_bytes, alloc_bytes (allocation succeeds) *)
Definition read_bytes (n : nat) (d : list Z) : option (list Z * list Z) := take n d.

(* writers: bio.h:270-397; the value is truncated to the C type first *)
Definition write_u8 (v : Z) : list Z := le_bytes 1 v.      (* bio.h:270-277 *)
Definition write_u16 (v : Z) : list Z := le_bytes 2 v.     (* bio.h:279-291 *)
Definition write_u32 (v : Z) : list Z := le_bytes 4 v.     (* bio.h:293-307 *)
Definition write_u64 (v : Z) : list Z := le_bytes 8 v.     (* bio.h:309-327 *)
Definition write_u16be (v : Z) : list Z := be_bytes 2 v.   (* bio.h:349-361 *)
Definition write_u32be (v : Z) : list Z := be_bytes 4 v.   (* bio.h:363-377 *)

(* bio.h:207-235: slice_ascii.  The loop counter is a uint8_t, so for sizes of
   256 and more the loop condition never fails: the model reports that as the
   distinct result [Abort] (non-termination); all callers pass sizes < 256. *)
Definition ascii_ok (ch : Z) : bool :=
  negb (128 <=? ch) && negb (ch =? 127)
  && negb ((ch <? 32) && negb (ch =? 9) && negb (ch =? 10) && negb (ch =? 13)).

Definition slice_ascii (n : nat) (d : list Z) : outcome (option (list Z * list Z)) :=
  match take n d with
  | None => Ok None
  | Some (b, r) =>
      if forallb ascii_ok (firstn 256 b)
      then if 256 <=? Z.of_nat n then Abort else Ok (Some (b, r))
      else Ok None
  end.

(* bio.h:423-477.  The guard of the C code tests the pointer [data_len == 0]
   (never true) instead of [*data_len == 0]; on an empty buffer the code reads
   one byte past the end: [Ub]. *)
Definition read_varint (d : list Z) : outcome (option (Z * list Z)) :=
  match d with
  | [] => Ub
  | prefix :: r =>
      if prefix =? 255 then
        match read_u64 r with
        | None => Ok None
        | Some (v, r') => if v <=? 4294967295 then Ok None else Ok (Some (v, r'))
        end
      else if prefix =? 254 then
        match read_u32 r with
        | None => Ok None
        | Some (v, r') => if v <=? 65535 then Ok None else Ok (Some (v, r'))
        end
      else if prefix =? 253 then
        match read_u16 r with
        | None => Ok None
        | Some (v, r') => if v <? 253 then Ok None else Ok (Some (v, r'))
        end
      else Ok (Some (prefix, r))
  end.

(* bio.h:479-492: the cast to int32_t keeps the low 32 bits *)
Definition read_varsize (d : list Z) : outcome (option (Z * list Z)) :=
  obind (read_varint d) (fun o =>
    match o with
    | None => Ok None
    | Some (v, r) => if 2147483648 <=? v mod 4294967296 then Ok None else Ok (Some (v, r))
    end).

(* bio.h:494-506: the declared return type is bool, so every non-zero size
   is converted to 1. *)
Definition size_varint (v : Z) : Z := 1.

(* bio.h:508-511 *)
Definition size_varsize (v : Z) : Z := size_varint v.

(* bio.h:513-538 *)
Definition write_varint (v : Z) : list Z :=
  if v <? 253 then write_u8 v
  else if v <=? 65535 then write_u8 253 ++ write_u16 v
  else if v <=? 4294967295 then write_u8 254 ++ write_u32 v
  else write_u8 255 ++ write_u64 v.
