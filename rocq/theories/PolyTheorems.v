(** C79: Poly1305 computes the published function. *)
From Verif Require Import Common CommonFacts ProofFacts PolyModel PolySpec PolyFacts.
From Coq Require Import Lia.

(** ** Theorems *)
(** Whatever was in the context before: for every key of 32 bytes, every message and every way
    of cutting it into pieces, the tag is that of RFC 8439 2.5; key and state are wiped. *)
Theorem poly1305_exact c key l : length (p_buf c) = 16%nat -> length key = 32%nat -> bytes_ok key -> Forall bytes_ok l ->
  let e := poly_finish (fold_left poly_update l (poly_init c key)) in
  snd e = poly1305 key (concat l) /\ p_r (fst e) = (0, 0, 0) /\ p_h (fst e) = (0, 0, 0) /\ p_pad (fst e) = (0, 0).
Proof.
  intros Lc Lk Bk Bl e. split; [|repeat split; reflexivity]. destruct (key_ok key Bk Lk) as [_ K]. fold (key_r key) in K. apply rep_finish; auto; [now apply bytes_ok_concat|].
  assert (H : forall l c data, Forall bytes_ok l -> bytes_ok data -> rep (key_r key) (key_pad key) c data -> rep (key_r key) (key_pad key) (fold_left poly_update l c) (data ++ concat l)).
  { clear - K. induction l as [|m l IH]; intros c data B Bd R; cbn [fold_left concat]; [now rewrite app_nil_r|]. inversion B as [|? ? Bm Bl]. subst. rewrite app_assoc. apply IH; [exact Bl|apply bytes_ok_app; now split|now apply rep_update]. }
  apply (H l (poly_init c key) []); [exact Bl|constructor|now apply rep_init].
Qed.
(** The function that does it in one go *)
Theorem poly_auth_exact c key m : length (p_buf c) = 16%nat -> length key = 32%nat -> bytes_ok key -> bytes_ok m -> poly_auth c m key = poly1305 key m.
Proof. intros Lc Lk Bk Bm. destruct (poly1305_exact c key [m] Lc Lk Bk ltac:(now constructor)) as [E _]. cbn [fold_left concat] in E. rewrite app_nil_r in E. exact E. Qed.
(** The comparison gives 1 for equal tags and 0 for others. *)
Theorem poly_verify_exact a b : bytes_ok a -> bytes_ok b -> length a = 16%nat -> length b = 16%nat -> poly_verify a b = if list_eq_dec Z.eq_dec a b then 1 else 0.
Proof. intros Ba Bb La Lb. destruct (poly_verify_ok a b Ba Bb La Lb) as [[-> E]|[-> E]]; destruct (list_eq_dec Z.eq_dec a b); congruence. Qed.
(** A tag has 16 bytes. *)
Theorem poly1305_tag key m : length (poly1305 key m) = 16%nat /\ bytes_ok (poly1305 key m).
Proof. split; [apply le_bytes_length|apply le_bytes_ok]. Qed.

(** ** Examples *)
Definition ex_junk : poly := {| p_r := (1, 2, 3); p_h := (4, 5, 6); p_pad := (7, 8); p_left := 5; p_buf := repeat 9 16; p_final := true |}.
(** RFC 8439, 2.5.2 *)
Definition ex_key : list Z := be_bytes 32 0x85d6be7857556d337f4452fe42d506a80103808afb0db2fd4abff6af4149f51b.
Definition ex_msg : list Z := be_bytes 34 0x43727970746f6772617068696320466f72756d2052657365617263682047726f7570.
Example ex_tag : be_val (poly1305 ex_key ex_msg) = 0xa8061dc1305136c6c22b8baf0c0127a9.
Proof. vm_compute. reflexivity. Qed.
(** Its appendix A.3, where sums reach 2^130 - 5 and carries go all the way: vectors 7 and 9 *)
Example ex_carry : be_val (poly1305 (1 :: repeat 0 31) (repeat 255 16 ++ [0xf0] ++ repeat 255 15 ++ [0x11] ++ repeat 0 15)) = 0x05000000000000000000000000000000 /\
  be_val (poly1305 (2 :: repeat 0 31) (0xfd :: repeat 255 15)) = 0xfaffffffffffffffffffffffffffffff.
Proof. split; vm_compute; reflexivity. Qed.
(** The hypotheses *)
Example ex_hyps : length (p_buf ex_junk) = 16%nat /\ length ex_key = 32%nat /\ bytes_ok ex_key /\ Forall bytes_ok [firstn 5 ex_msg; []; skipn 5 ex_msg] /\
  snd (poly_finish (fold_left poly_update [firstn 5 ex_msg; []; skipn 5 ex_msg] (poly_init ex_junk ex_key))) = poly1305 ex_key ex_msg /\
  poly_verify (poly1305 ex_key ex_msg) (poly1305 ex_key (ex_msg ++ [0])) = 0.
Proof.
  split; [reflexivity|]. split; [reflexivity|]. split; [apply be_bytes_ok|]. split; [|split; vm_compute; reflexivity]. apply Forall_cons; [|apply Forall_cons; [|apply Forall_cons; [|apply Forall_nil]]]; apply bytes_ok_check; vm_compute; reflexivity.
Qed.

Print Assumptions poly1305_exact.
Print Assumptions poly_auth_exact.
Print Assumptions poly_verify_exact.
Print Assumptions poly1305_tag.
