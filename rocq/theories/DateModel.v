(** Model of hsk_date (src/utils.c) and of the serial number computed in
    hsk_resource_root_to_soa (src/resource.c). *)
From Verif Require Import Common.

(** Conversion to unsigned int / uint32_t, and to int (implementation-defined for
    values out of range: modulo 2^32, as all the supported compilers do). *)
Definition u32 (x : Z) : Z := x mod 2 ^ 32.
Definition int32 (x : Z) : Z := (x + 2 ^ 31) mod 2 ^ 32 - 2 ^ 31.

(** utils.c:36-77 hsk_date: (year, month, day, hour, min, sec). Signed arithmetic
    stays within int for every value of s, so only conversions and unsigned
    operations wrap. *)
Definition hsk_date (now : Z) : Z * Z * Z * Z * Z * Z :=
  let s := int32 now in
  let z := Z.quot s 86400 + 719468 in
  let era := Z.quot (if 0 <=? z then z else z - 146096) 146097 in
  let doe := u32 (z - era * 146097) in
  let yoe := u32 (u32 (u32 (doe - doe / 1460) + doe / 36524) - doe / 146096) / 365 in
  let y := yoe + era * 400 in
  let doy := u32 (doe - u32 (u32 (365 * yoe + yoe / 4) - yoe / 100)) in
  let mp := u32 (5 * doy + 2) / 153 in
  let d := u32 (u32 (doy - u32 (153 * mp + 2) / 5) + 1) in
  let m := u32 (mp + (if mp <? 10 then 3 else -9)) in
  let y' := y + (if m <=? 2 then 1 else 0) in
  (u32 y', m, d, u32 (Z.rem (Z.quot s 3600) 24), u32 (Z.rem (Z.quot s 60) 60), u32 (Z.rem s 60)).

(** resource.c:744-756: the serial of the SOA record at a time. The products are
    taken in double, exactly, before the conversion to uint32_t. *)
Definition soa_serial (now : Z) : Z :=
  let '(year, month, day, hour, _, _) := hsk_date now in
  u32 (u32 (u32 (year * 1000000 + month * 10000) + day * 100) + hour).
