(** Model of src/sha3.c and of its callers in src/hash.c, on a little endian machine.
    [uint64_t] is a number below 2^64. *)
From Verif Require Import Common.

Definition w64 (x : Z) : Z := x mod 2 ^ 64.
(** sha3.c:46 ROTL64 *)
Definition rotl64 (x n : Z) : Z := Z.lxor (w64 (Z.shiftl x n)) (Z.shiftr x (64 - n)).
(** sha3.c:123-136 hsk_keccak_round_constants *)
Definition round_constants : list Z := [
  0x0000000000000001; 0x0000000000008082; 0x800000000000808A; 0x8000000080008000;
  0x000000000000808B; 0x0000000080000001; 0x8000000080008081; 0x8000000000008009;
  0x000000000000008A; 0x0000000000000088; 0x0000000080008009; 0x000000008000000A;
  0x000000008000808B; 0x800000000000008B; 0x8000000000008089; 0x8000000000008003;
  0x8000000000008002; 0x8000000000000080; 0x000000000000800A; 0x800000008000000A;
  0x8000000080008081; 0x8000000000008080; 0x0000000080000001; 0x8000000080008008].
(** Assignment to an element of an array *)
Definition set_nth (l : list Z) (i : nat) (x : Z) : list Z := firstn i l ++ x :: skipn (S i) l.
(** ~ of a uint64_t *)
Definition not64 (x : Z) : Z := Z.lxor x (2 ^ 64 - 1).

(** sha3.c:167-188 hsk_keccak_theta *)
Definition theta (A : list Z) : list Z :=
  let a := fun i => nth i A 0 in
  let C := fun x => Z.lxor (Z.lxor (Z.lxor (Z.lxor (a x) (a (x + 5)%nat)) (a (x + 10)%nat)) (a (x + 15)%nat)) (a (x + 20)%nat) in
  let D := [Z.lxor (rotl64 (C 1%nat) 1) (C 4%nat); Z.lxor (rotl64 (C 2%nat) 1) (C 0%nat); Z.lxor (rotl64 (C 3%nat) 1) (C 1%nat);
            Z.lxor (rotl64 (C 4%nat) 1) (C 2%nat); Z.lxor (rotl64 (C 0%nat) 1) (C 3%nat)] in
  fold_left (fun A x => fold_left (fun A i => set_nth A i (Z.lxor (nth i A 0) (nth x D 0))) [x; x + 5; x + 10; x + 15; x + 20]%nat A) [0; 1; 2; 3; 4]%nat A.
(** sha3.c:239-262, in hsk_sha3_permutation *)
Definition rho (A : list Z) : list Z :=
  fold_left (fun A '(i, n) => set_nth A i (rotl64 (nth i A 0) n))
    [(1%nat, 1); (2%nat, 62); (3%nat, 28); (4%nat, 27); (5%nat, 36); (6%nat, 44); (7%nat, 6); (8%nat, 55); (9%nat, 20); (10%nat, 3); (11%nat, 10); (12%nat, 43);
     (13%nat, 25); (14%nat, 39); (15%nat, 41); (16%nat, 45); (17%nat, 15); (18%nat, 21); (19%nat, 8); (20%nat, 18); (21%nat, 2); (22%nat, 61); (23%nat, 56); (24%nat, 14)] A.
(** sha3.c:190-218 hsk_keccak_pi *)
Definition pi (A : list Z) : list Z :=
  let A1 := nth 1 A 0 in
  let A := fold_left (fun A '(i, j) => set_nth A i (nth j A 0))
    [(1, 6); (6, 9); (9, 22); (22, 14); (14, 20); (20, 2); (2, 12); (12, 13); (13, 19); (19, 23); (23, 15); (15, 4);
     (4, 24); (24, 21); (21, 8); (8, 16); (16, 5); (5, 3); (3, 18); (18, 17); (17, 11); (11, 7); (7, 10)]%nat A in
  set_nth A 10 A1.
(** sha3.c:220-231 hsk_keccak_chi *)
Definition chi (A : list Z) : list Z :=
  fold_left (fun A i =>
    let A0 := nth i A 0 in
    let A1 := nth (i + 1) A 0 in
    let A := set_nth A i (Z.lxor (nth i A 0) (Z.land (not64 A1) (nth (i + 2) A 0))) in
    let A := set_nth A (i + 1) (Z.lxor (nth (i + 1) A 0) (Z.land (not64 (nth (i + 2) A 0)) (nth (i + 3) A 0))) in
    let A := set_nth A (i + 2) (Z.lxor (nth (i + 2) A 0) (Z.land (not64 (nth (i + 3) A 0)) (nth (i + 4) A 0))) in
    let A := set_nth A (i + 3) (Z.lxor (nth (i + 3) A 0) (Z.land (not64 (nth (i + 4) A 0)) A0)) in
    set_nth A (i + 4) (Z.lxor (nth (i + 4) A 0) (Z.land (not64 A0) A1))) [0; 5; 10; 15; 20]%nat A.
(** sha3.c:233-269 hsk_sha3_permutation *)
Definition permutation (A : list Z) : list Z :=
  fold_left (fun A r => let A := chi (pi (rho (theta A))) in set_nth A 0 (Z.lxor (nth 0 A 0) r)) round_constants A.
(** sha3.c:271-316 hsk_sha3_process_block: [n] is how many words are used *)
Definition process (hash block : list Z) (bs : Z) : list Z :=
  let word := fun i => le_val (firstn 8 (skipn (8 * i) block)) in
  let n := (if (72 <? bs)%Z then if (104 <? bs)%Z then if (136 <? bs)%Z then if (144 <? bs)%Z then 25 else 18 else 17 else 13 else 9)%nat in
  permutation (fold_left (fun h i => set_nth h i (Z.lxor (nth i h 0) (word i))) (seq 0 n) hash).

(** sha3.h hsk_sha3_ctx: [k_msg] are the 192 bytes of the array message *)
Record k3 := { k_hash : list Z; k_msg : list Z; k_rest : Z; k_bs : Z }.
(** sha3.c:138-145 hsk_keccak_init, 147-165 for 224, 256, 384 and 512 bits *)
Definition keccak_init (bits : Z) : outcome k3 :=
  let rate := (1600 - bits * 2) mod 2 ^ 32 in
  if (rate <=? 1600) && (rate mod 64 =? 0) then Ok {| k_hash := repeat 0 25; k_msg := repeat 0 192; k_rest := 0; k_bs := rate / 8 |} else Abort.
Definition finalized : Z := 0x80000000.
(** memcpy and memset into an array *)
Definition put (buf : list Z) (i : nat) (d : list Z) : list Z := firstn i buf ++ d ++ skipn (i + length d) buf.
(** sha3.c:340-356; [al]: the input is aligned, and is not copied first *)
Fixpoint k3_loop (fuel : nat) (al : bool) (bs : Z) (hash msg m : list Z) : list Z * list Z :=
  match fuel with
  | O => (hash, put msg 0 m)
  | S k =>
      if bs <=? zlen m then
        let b := firstn (Z.to_nat bs) m in
        k3_loop k al bs (process hash b bs) (if al then msg else put msg 0 b) (skipn (Z.to_nat bs) m)
      else (hash, put msg 0 m)
  end.
(** sha3.c:318-357 hsk_sha3_update *)
Definition update (c : k3) (al : bool) (m : list Z) : k3 :=
  let index := k_rest c in
  let bs := k_bs c in
  if negb (Z.land (k_rest c) finalized =? 0) then c else
  let rest := (k_rest c + zlen m) mod bs in
  if negb (index =? 0) then
    let left := bs - index in
    let msg := put (k_msg c) (Z.to_nat index) (if zlen m <? left then m else firstn (Z.to_nat left) m) in
    if zlen m <? left then {| k_hash := k_hash c; k_msg := msg; k_rest := rest; k_bs := bs |}
    else
      let hash := process (k_hash c) msg bs in
      let m := skipn (Z.to_nat left) m in
      let '(hash, msg) := k3_loop (length m) al bs hash msg m in
      {| k_hash := hash; k_msg := msg; k_rest := rest; k_bs := bs |}
  else
    let '(hash, msg) := k3_loop (length m) al bs (k_hash c) (k_msg c) m in
    {| k_hash := hash; k_msg := msg; k_rest := rest; k_bs := bs |}.
(** [a |= b] on an element *)
Definition or_at (l : list Z) (i : Z) (b : Z) : list Z := set_nth l (Z.to_nat i) (Z.lor (nth (Z.to_nat i) l 0) b).
(** sha3.c:359-377 hsk_sha3_final, 379-397 hsk_keccak_final, 399-417 hsk_cshake_final: they
    differ in the byte [d], which is 6, 1 and 4 *)
Definition final_with (d : Z) (c : k3) : outcome (k3 * list Z) :=
  let n := 100 - k_bs c / 2 in
  let bs := k_bs c in
  let c :=
    if Z.land (k_rest c) finalized =? 0 then
      let msg := put (k_msg c) (Z.to_nat (k_rest c)) (repeat 0 (Z.to_nat (bs - k_rest c))) in
      let msg := or_at msg (k_rest c) d in
      let msg := or_at msg (bs - 1) 0x80 in
      {| k_hash := process (k_hash c) msg bs; k_msg := msg; k_rest := finalized; k_bs := bs |}
    else c in
  if n <? bs then Ok (c, firstn (Z.to_nat n) (concat (map (le_bytes 8) (k_hash c)))) else Abort.
Definition sha3_final : k3 -> outcome (k3 * list Z) := final_with 6.
Definition keccak_final : k3 -> outcome (k3 * list Z) := final_with 1.
Definition cshake_final : k3 -> outcome (k3 * list Z) := final_with 4.

(** hash.c:66-73 hsk_hash_sha3 *)
Definition hash_sha3 (al : bool) (data : list Z) : outcome (list Z) :=
  obind (keccak_init 256) (fun c => obind (sha3_final (update c al data)) (fun '(_, d) => Ok d)).
(** hash.c:75-141 hsk_hash_sha3_key: [junk] is what the array mac holds at first *)
Definition hash_sha3_key (junk : list Z) (al : bool) (data key : list Z) : outcome (list Z) :=
  if negb (zlen data =? 208) then Abort else
  if negb (zlen key =? 32) then Abort else
  obind (keccak_init 256) (fun c =>
  let mac := put junk 0 [0x01; 0x88] in
  let mac := put mac 2 [0x01; 0x20] in
  let mac := put mac 4 [0x4b; 0x4d; 0x41; 0x43] in
  let mac := put mac 8 [0x01; 0x00] in
  let mac := put mac 10 (repeat 0 126) in
  let mac := put mac 136 [0x01; 0x88] in
  let mac := put mac 138 [0x02; 0x01; 0x00] in
  let mac := put mac 141 (firstn 32 key) in
  let mac := put mac 173 (repeat 0 99) in
  let mac := put mac 272 (firstn 208 data) in
  let mac := put mac 480 [0x01; 0x00; 0x02] in
  obind (cshake_final (update c al mac)) (fun '(_, d) => Ok d)).
(** hash.c:143-147 hsk_hash_name: [name] without the zero at its end *)
Definition hash_name (al : bool) (name : list Z) : outcome (list Z) := hash_sha3 al name.
