(** Model of src/store.c:44-130: the file operations of hsk_store_write (C21). *)
From Verif Require Import Common Assoc.

(** store.c:44-60 hsk_store_filename: the checkpoint file of the prefix, or the
    temporary file of a height. (The C code passes the same buffer as source and
    target of sprintf, which is undefined; the model has the intended result.) *)
Inductive fname := Checkpoint | Temp (height : Z).
Definition filename (height : Z) : fname := if 0 <? height then Temp height else Checkpoint.

Definition fname_eqb (a b : fname) : bool :=
  match a, b with
  | Checkpoint, Checkpoint => true
  | Temp x, Temp y => x =? y
  | _, _ => false
  end.

(** The prefix directory: file names and contents. *)
Definition dir := list (fname * list Z).
Definition file (d : dir) (f : fname) : option (list Z) := aget fname_eqb f d.

(** What can happen on the way: fopen may fail; fwrite may store fewer bytes;
    rename may fail; and the process may be killed: [w_stop] is the number of file
    operations (open, write, remove, rename) that happen. *)
Record weather := mk_weather { w_open : bool; w_written : nat; w_rename : bool; w_stop : nat }.

(** store.c:90-126: the state of the directory afterwards. [win] selects the
    Windows code (line 113-116: the checkpoint is removed before renaming).
    A file system call is assumed atomic except that a write may stop half-way;
    what a power failure does to data not yet on disk is not modelled (the code
    never calls fsync). *)
Definition store_write (win : bool) (w : weather) (height : Z) (data : list Z) (d : dir) : dir :=
  let tmp := filename height in
  let path := filename 0 in
  if (w_stop w =? 0)%nat || negb (w_open w) then d
  else
    let d1 := aset fname_eqb tmp [] d in
    if (w_stop w =? 1)%nat then d1
    else
      let n := Nat.min (w_written w) (length data) in
      let d2 := aset fname_eqb tmp (firstn n data) d1 in
      if (w_stop w =? 2)%nat || negb (n =? length data)%nat then d2
      else
        let d3 := if win then adel fname_eqb path d2 else d2 in
        if (w_stop w =? 3)%nat || negb (w_rename w) then d3
        else match aget fname_eqb tmp d3 with
        | None => d3
        | Some c => aset fname_eqb path c (adel fname_eqb tmp d3)
        end.
