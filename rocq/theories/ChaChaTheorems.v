(** C78: ChaCha20 computes the published cipher. *)
From Verif Require Import Common CommonFacts ProofFacts StreamFacts ChaChaModel ChaChaSpec ChaChaFacts.
From Coq Require Import Lia.
#[local] Opaque chacha_block block.

(** ** Specification of a run: the pieces of a message one after the other *)
Fixpoint run (c : chacha) (l : list (list Z)) : chacha * list (list Z) :=
  match l with [] => (c, []) | m :: l => let '(c, o) := encrypt c m in let '(c, os) := run c l in (c, o :: os) end.

(** ** Lemmas *)
Lemma run_pos key nonce n0 : length key = 32%nat -> bytes_ok key -> good_nonce nonce -> forall l c pos, at_pos key nonce n0 c pos ->
  exists c' os, run c l = (c', os) /\ concat os = xs key nonce n0 pos (concat l) /\ Forall2 (fun m o => length o = length m) l os /\ at_pos key nonce n0 c' (pos + length (concat l)).
Proof.
  intros Lk Bk G. induction l as [|m l IH]; intros c pos P; cbn [run concat].
  - exists c, []. split; [reflexivity|]. split; [reflexivity|]. split; [constructor|]. cbn [length]. now rewrite Nat.add_0_r.
  - destruct (encrypt_pos key nonce n0 Lk Bk G c m pos P) as (c1 & -> & P1). destruct (IH c1 _ P1) as (c2 & os & -> & E & F & P2). exists c2, (xs key nonce n0 pos m :: os). split; [reflexivity|]. split; [cbn [concat]; rewrite E, (xs_app key nonce n0 Lk); reflexivity|]. split; [constructor; [apply xs_length|exact F]|]. rewrite app_length, Nat.add_assoc. exact P2.
Qed.

(** ** Theorems *)
(** Whatever was in the context before: after setting up a key of 32 bytes, a nonce of 12
    (or 8) bytes and a counter, every way of passing a message in pieces gives, piece for
    piece, the cipher of RFC 8439 2.4 from that counter on. *)
Theorem chacha20_exact c key nonce n l : length key = 32%nat -> bytes_ok key -> good_nonce nonce -> 0 <= n < 2 ^ 64 ->
  exists c' os, run (counter_set (setup c key 32 nonce (zlen nonce)) n) l = (c', os) /\ concat os = chacha20 key n nonce (concat l) /\ Forall2 (fun m o => length o = length m) l os.
Proof.
  intros Lk Bk G Hn. destruct (setup_ok c key nonce Lk Bk G) as [R _]. destruct (counter_set_ok _ _ _ n _ Lk G R Hn) as [R2 A2].
  destruct (run_pos key nonce n Lk Bk G l _ 0 (at_start _ _ _ Lk _ R2 A2)) as (c' & os & E1 & E2 & E3 & _). exists c', os. rewrite <- (xs_spec key nonce n Lk). auto.
Qed.
(** The counter that is read back is the number of the next block, in its 32 or 64 bits. *)
Theorem counter_exact c key nonce n l : length key = 32%nat -> bytes_ok key -> good_nonce nonce -> 0 <= n < 2 ^ 64 ->
  let s := counter_set (setup c key 32 nonce (zlen nonce)) n in
  counter_get (fst (run s l)) = (n + (zlen (concat l) + 63) / 64) mod 2 ^ (if (length nonce =? 8)%nat then 64 else 32).
Proof.
  intros Lk Bk G Hn s. destruct (setup_ok c key nonce Lk Bk G) as [R _]. destruct (counter_set_ok _ _ _ n _ Lk G R Hn) as [R2 A2].
  destruct (run_pos key nonce n Lk Bk G l s 0 (at_start _ _ _ Lk _ R2 A2)) as (c' & os & -> & _ & _ & (nb & R3 & A3 & P3 & _)). cbn [fst]. rewrite (counter_get_ok _ _ _ _ Lk G R3). do 2 f_equal. apply Z.div_unique with (r := 63 - h_avail c'); unfold zlen; lia.
Qed.
(** Deciphering is the same operation. *)
Theorem chacha20_involutive key n nonce m : bytes_ok m -> chacha20 key n nonce (chacha20 key n nonce m) = m.
Proof.
  intros _. unfold chacha20 at 1. assert (L : length (chacha20 key n nonce m) = length m) by (unfold chacha20; rewrite map_length, seq_length; reflexivity). rewrite L.
  apply nth_ext with (d := Z.lxor (nth 0 (chacha20 key n nonce m) 0) (key_stream key n nonce 0)) (d' := 0); [now rewrite map_length, seq_length|]. rewrite map_length, seq_length. intros i Hi.
  rewrite (map_nth (fun i => Z.lxor (nth i (chacha20 key n nonce m) 0) (key_stream key n nonce i)) (seq 0 (length m)) 0%nat), seq_nth by exact Hi. cbn [Nat.add]. unfold chacha20.
  rewrite (nth_indep _ 0 (Z.lxor (nth 0 m 0) (key_stream key n nonce 0))) by (now rewrite map_length, seq_length). rewrite (map_nth (fun i => Z.lxor (nth i m 0) (key_stream key n nonce i)) (seq 0 (length m)) 0%nat), seq_nth by exact Hi. cbn [Nat.add]. rewrite Z.lxor_assoc, Z.lxor_nilpotent. apply Z.lxor_0_r.
Qed.

(** ** Examples *)
#[local] Transparent chacha_block block.
(** RFC 8439, 2.1.1, 2.3.2 and 2.4.2 *)
Example ex_qround : qround (0x11111111, 0x01020304, 0x9b8d6f43, 0x01234567) = (0xea2a92f4, 0xcb1cf8ce, 0x4581472e, 0x5881c4bb).
Proof. vm_compute. reflexivity. Qed.
Definition ex_key : list Z := map Z.of_nat (seq 0 32).
Example ex_block : be_val (chacha_block ex_key 1 [0; 0; 0; 9; 0; 0; 0; 0x4a; 0; 0; 0; 0]) =
  0x10f1e7e4d13b5915500fdd1fa32071c4c7d1f4c733c068030422aa9ac3d46c4ed2826446079faa0914c2d705d98b02a2b5129cd1de164eb9cbd083e8a2503c4e.
Proof. vm_compute. reflexivity. Qed.
(** The first form, all zero *)
Example ex_first : be_val (firstn 32 (chacha_block (repeat 0 32) 0 (repeat 0 8))) = 0x76b8e0ada0f13d90405d6ae55386bd28bdd219b8a08ded1aa836efcc8b770dc7.
Proof. vm_compute. reflexivity. Qed.
(** The hypotheses, with pieces across blocks and a counter that wraps *)
Example ex_hyps : length ex_key = 32%nat /\ bytes_ok ex_key /\ good_nonce (repeat 7 12) /\ good_nonce (repeat 7 8) /\
  concat (snd (run (counter_set (setup {| h_sched := repeat 5 16; h_stream := repeat 1 64; h_avail := 9; h_nonce := 3 |} ex_key 32 (repeat 7 8) 8) (2 ^ 32 - 1)) [repeat 1 63; []; [2]; repeat 3 70])) =
  chacha20 ex_key (2 ^ 32 - 1) (repeat 7 8) (repeat 1 63 ++ [2] ++ repeat 3 70).
Proof.
  split; [reflexivity|]. split; [apply bytes_ok_check; vm_compute; reflexivity|]. split; [split; [apply bytes_ok_check; vm_compute; reflexivity|right; reflexivity]|]. split; [split; [apply bytes_ok_check; vm_compute; reflexivity|left; reflexivity]|]. vm_compute. reflexivity.
Qed.

Print Assumptions chacha20_exact.
Print Assumptions counter_exact.
Print Assumptions chacha20_involutive.
