(** Model of src/timedata.c. *)
From Verif Require Import Common.

(** Range of int64_t; leaving it is undefined behaviour. *)
Definition i64b (z : Z) : bool := (- 2 ^ 63 <=? z) && (z <? 2 ^ 63).

(** timedata.h:13-19: hsk_timedata_t. The known addresses are identified by what
    hsk_addr_equal compares; memory exhaustion is not modelled. *)
Record timedata := mk_td {
  td_samples : list Z; td_len : Z; td_known : list (list Z); td_offset : Z; td_checked : bool }.

(** timedata.h:11 HSK_TIMEDATA_LIMIT *)
Definition td_limit : Z := 200.

(** timedata.c:16-28 hsk_timedata_init *)
Definition td_init : timedata := mk_td (repeat 0 (Z.to_nat td_limit)) 0 [] 0 false.

(** Array access; outside the array is undefined behaviour. *)
Definition arr_get (l : list Z) (i : Z) : outcome Z :=
  if i <? 0 then Ub else match nth_error l (Z.to_nat i) with Some x => Ok x | None => Ub end.
Definition arr_set (l : list Z) (i : Z) (x : Z) : outcome (list Z) :=
  if (0 <=? i) && (i <? zlen l) then Ok (firstn (Z.to_nat i) l ++ x :: skipn (S (Z.to_nat i)) l) else Ub.

(** timedata.c:70-86: binary search. [fuel] bounds the rounds ([Ub] if used up). *)
Fixpoint td_search (fuel : nat) (l : list Z) (sample start finish : Z) : outcome Z :=
  if finish <? start then Ok start
  else match fuel with
  | O => Ub
  | S k =>
      let pos := (start + finish) / 2 in
      obind (arr_get l pos) (fun v =>
        let cmp := v - sample in
        if negb (i64b cmp) then Ub
        else if cmp =? 0 then Ok pos
        else if cmp <? 0 then td_search k l sample (pos + 1) finish
        else td_search k l sample start (pos - 1))
  end.

(** timedata.c:90-92: the shifting loop, upwards from [j], [n] rounds. *)
Fixpoint td_shift (n : nat) (l : list Z) (j : Z) : outcome (list Z) :=
  match n with
  | O => Ok l
  | S k => obind (arr_get l (j - 1)) (fun v => obind (arr_set l j v) (fun l' => td_shift k l' (j + 1)))
  end.

(** timedata.c:64-96 hsk_timedata_insert: new samples and length. *)
Definition td_insert (l : list Z) (len sample : Z) : outcome (list Z * Z) :=
  obind (td_search (Z.to_nat len) l sample 0 (len - 1)) (fun i =>
    if td_limit <? len + 1 then Abort
    else obind (td_shift (Z.to_nat (len - i)) l (i + 1)) (fun l' =>
         obind (arr_set l' i sample) (fun l'' => Ok (l'', len + 1)))).

(** timedata.c:131-141: is any of the first [n] samples non-zero and within five minutes? *)
Fixpoint td_match (n : nat) (l : list Z) : outcome bool :=
  match n, l with
  | S k, x :: r =>
      if x =? - 2 ^ 63 then Ub
      else if negb (x =? 0) && (Z.abs x <? 300) then Ok true else td_match k r
  | S _, [] => Ub
  | O, _ => Ok false
  end.

(** timedata.c:98-161 hsk_timedata_add of a sample from address [a] at local time
    [now] (the return value is always 0). *)
Definition td_add (td : timedata) (a : list Z) (time now : Z) : outcome timedata :=
  if td_limit <=? td_len td then Ok td
  else if existsb (beq a) (td_known td) then Ok td
  else
    let known := a :: td_known td in
    let sample := time - now in
    if negb (i64b sample) then Ub
    else obind (td_insert (td_samples td) (td_len td) sample) (fun '(l, len) =>
      if (5 <=? len) && (len mod 2 =? 1) then
        obind (arr_get l (len / 2)) (fun m =>
          if m =? - 2 ^ 63 then Ub
          else
            let m := Z.abs m in
            if 4200 <=? m then
              (if td_checked td then Ok (mk_td l len known 0 true)
               else obind (td_match (Z.to_nat len) l) (fun b => Ok (mk_td l len known 0 (negb b))))
            else Ok (mk_td l len known m (td_checked td)))
      else Ok (mk_td l len known (td_offset td) (td_checked td))).

(** timedata.c:163-176 hsk_timedata_now, hsk_timedata_adjust, hsk_timedata_local (overflow
    is excluded by the callers' clocks and not modelled). *)
Definition td_now (td : timedata) (now : Z) : Z := now + td_offset td.
Definition td_local (td : timedata) (time : Z) : Z := time - td_offset td.
