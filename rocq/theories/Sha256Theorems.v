(** C75: SHA-256, HMAC and HKDF compute the published functions. *)
From Verif Require Import Common CommonFacts ProofFacts StreamFacts Sha256Model Sha256Spec Sha256Facts.
From Coq Require Import Lia.
#[local] Opaque process compress.

(** The chunks of a message in the order in which they are given, each with whether its
    address is aligned *)
Definition feed (c : sha) (l : list (bool * list Z)) : sha := fold_left (fun c x => sha_update c (fst x) (snd x)) l c.
Lemma feed_ok l : Forall (fun x => bytes_ok (snd x)) l -> forall c data, rep c data -> bytes_ok data -> rep (feed c l) (data ++ concat (map snd l)) /\ bytes_ok (data ++ concat (map snd l)).
Proof.
  induction 1 as [|[al m] l B F IH]; intros c data R Bd; cbn [map concat snd]; [rewrite app_nil_r; now split|]. rewrite app_assoc. cbn [snd] in B. apply IH; [now apply rep_update|]. apply bytes_ok_app. now split.
Qed.
Lemma final_spec c data : rep c data -> bytes_ok data -> sha_final c = sha256 data.
Proof.
  intros R B. rewrite (final_ok c data R B). unfold sha256. do 2 f_equal. rewrite <- start_ok. apply chain_ok; [|exact start_good]. apply blocks_good. unfold padded. apply bytes_ok_app. split; [exact B|]. apply bytes_ok_cons. split; [split; [discriminate|reflexivity]|].
  apply bytes_ok_app. split; [apply bytes_ok_repeat|apply be_bytes_ok].
Qed.
(** However a message of any length is cut into chunks, whatever the memory of the context
    held before and wherever the chunks lie in memory, the digest is that of FIPS 180-4. *)
Theorem sha256_exact junk l : length junk = 64%nat -> bytes_ok junk -> Forall (fun x => bytes_ok (snd x)) l ->
  sha_final (feed (sha_init junk) l) = sha256 (concat (map snd l)).
Proof. intros L B F. destruct (feed_ok l F (sha_init junk) [] (rep_init junk L B)) as [R Bd]; [apply Forall_nil|]. now apply final_spec. Qed.
Lemma sha256_length m : bytes_ok m -> length (sha256 m) = 32%nat.
Proof.
  intros B. unfold sha256. rewrite <- start_ok. assert (G : good_hash (fold_left process (blocks 64 (padded m)) start) /\ fold_left process (blocks 64 (padded m)) start = fold_left compress (blocks 64 (padded m)) start).
  { destruct (chain_ok (blocks 64 (padded m))) with (h := start) as [E G]; [|exact start_good|now split]. apply blocks_good. unfold padded. apply bytes_ok_app. split; [exact B|]. apply bytes_ok_cons. split; [split; [discriminate|reflexivity]|]. apply bytes_ok_app. split; [apply bytes_ok_repeat|apply be_bytes_ok]. }
  destruct G as [[L _] E]. rewrite <- E. clear E. revert L. generalize (fold_left process (blocks 64 (padded m)) start). intros h L. do 8 (destruct h as [|? h]; [discriminate|]). destruct h; [|discriminate]. cbn [map concat]. rewrite !app_length, !be_bytes_length. reflexivity.
Qed.
Lemma sha256_bytes m : bytes_ok (sha256 m).
Proof. unfold sha256. generalize (fold_left compress (blocks 64 (padded m)) H0). intros h. induction h as [|x h IH]; [apply Forall_nil|]. cbn [map concat]. apply bytes_ok_app. split; [apply be_bytes_ok|exact IH]. Qed.

Section Whole.
Variable junk : list Z.
Variable al : bool.
Hypothesis Lj : length junk = 64%nat.
Hypothesis Bj : bytes_ok junk.
(** One call for the whole message, and twice *)
Theorem hash_sha256_exact m : bytes_ok m -> hash_sha256 junk al m = sha256 m.
Proof. intros B. pose proof (sha256_exact junk [(al, m)] Lj Bj) as E. cbn [map concat snd] in E. rewrite app_nil_r in E. apply E. apply Forall_cons; [exact B|apply Forall_nil]. Qed.
Theorem hash_hash256_exact m : bytes_ok m -> hash_hash256 junk al m = sha256 (sha256 m).
Proof. intros B. unfold hash_hash256. rewrite (hash_sha256_exact m B). apply hash_sha256_exact, sha256_bytes. Qed.
Lemma two a b : bytes_ok a -> bytes_ok b -> sha_final (sha_update (sha_update (sha_init junk) al a) al b) = sha256 (a ++ b).
Proof. intros A B. pose proof (sha256_exact junk [(al, a); (al, b)] Lj Bj) as E. cbn [map concat snd] in E. rewrite app_nil_r in E. apply E. repeat apply Forall_cons; auto. Qed.
Lemma pad_ok k x : (length k <= 64)%nat -> map (fun b => Z.lxor b x) k ++ repeat x (64 - length k) = xor_pad x k.
Proof.
  intros L. unfold xor_pad. replace 64%nat with (length k + (64 - length k))%nat at 2 by lia. rewrite seq_app, map_app. f_equal.
  - rewrite <- (map_map (fun i => nth i k 0) (fun b => Z.lxor b x)). f_equal. clear. induction k as [|y k IH]; [reflexivity|]. cbn [length seq map nth]. f_equal. rewrite <- seq_shift, map_map. exact IH.
  - cbn [Nat.add]. apply nth_ext with (d := x) (d' := Z.lxor (nth (length k) k 0) x); [now rewrite repeat_length, map_length, seq_length|]. rewrite repeat_length. intros n H.
    rewrite (map_nth (fun i => Z.lxor (nth i k 0) x)). rewrite seq_nth by exact H. rewrite nth_overflow with (l := k) by lia. rewrite Z.lxor_0_l. apply nth_repeat.
Qed.
Lemma byte_xor a b : is_byte a -> is_byte b -> is_byte (Z.lxor a b).
Proof.
  intros A B. unfold is_byte in *. assert (N : 0 <= Z.lxor a b) by (apply Z.lxor_nonneg; lia). split; [exact N|]. destruct (Z.eq_dec (Z.lxor a b) 0) as [->|Z0]; [lia|]. apply (Z.log2_lt_pow2 _ 8); [lia|].
  apply Z.le_lt_trans with (Z.max (Z.log2 a) (Z.log2 b)); [apply Z.log2_lxor; lia|]. apply Z.max_lub_lt.
  - destruct (Z.eq_dec a 0) as [->|]; [reflexivity|]. apply (Z.log2_lt_pow2 a 8); lia.
  - destruct (Z.eq_dec b 0) as [->|]; [reflexivity|]. apply (Z.log2_lt_pow2 b 8); lia.
Qed.
Lemma xor_pad_ok x k : is_byte x -> bytes_ok k -> bytes_ok (xor_pad x k).
Proof.
  intros X B. apply Forall_forall. intros y I. apply in_map_iff in I as (i & <- & _). apply byte_xor; [|exact X]. destruct (Nat.lt_ge_cases i (length k)); [apply (proj1 (Forall_forall _ _) B); now apply nth_In|]. rewrite nth_overflow by lia. split; [discriminate|reflexivity].
Qed.
(** HMAC of RFC 2104, for keys of any length *)
Theorem hmac_exact data key : bytes_ok data -> bytes_ok key -> hash_hmac junk al data key = hmac key data.
Proof.
  intros Bd Bk. unfold hash_hmac, hmac. rewrite (hash_sha256_exact key Bk). cbv zeta. set (k := if 64 <? zlen key then sha256 key else key).
  assert (Lk : (length k <= 64)%nat) by (unfold k, zlen; destruct (64 <? Z.of_nat (length key)) eqn:E; [rewrite sha256_length by exact Bk; lia|lia]).
  assert (Bk' : bytes_ok k) by (unfold k; destruct (64 <? zlen key); [apply sha256_bytes|exact Bk]).
  rewrite !pad_ok by exact Lk. assert (B1 : bytes_ok (xor_pad 0x36 k)) by (apply xor_pad_ok; [split; [discriminate|reflexivity]|exact Bk']). assert (B2 : bytes_ok (xor_pad 0x5c k)) by (apply xor_pad_ok; [split; [discriminate|reflexivity]|exact Bk']).
  rewrite (two _ data B1 Bd). apply two; [exact B2|apply sha256_bytes].
Qed.
(** HKDF of RFC 5869 with 64 bytes of output, in two halves; an info of more than 512 bytes
    aborts *)
Theorem hkdf_exact secret salt info : bytes_ok secret -> bytes_ok salt -> bytes_ok info ->
  hash_hkdf junk al secret salt info =
    (if zlen info <=? 512 then let prk := hkdf_extract salt secret in Ok (hkdf_t1 prk info, hkdf_t2 prk info) else Abort).
Proof.
  intros Bs Ba Bi. unfold hash_hkdf. rewrite Z.ltb_antisym. destruct (zlen info <=? 512); [|reflexivity]. cbn [negb]. rewrite (hmac_exact secret salt Bs Ba). fold (hkdf_extract salt secret). cbv zeta. set (prk := hkdf_extract salt secret).
  assert (Bp : bytes_ok prk) by apply sha256_bytes. assert (O : forall b, is_byte b -> bytes_ok [b]) by (intros b H; apply bytes_ok_cons; split; [exact H|apply Forall_nil]).
  assert (E1 : hash_hmac junk al (info ++ [1]) prk = hkdf_t1 prk info) by (apply hmac_exact; [apply bytes_ok_app; split; [exact Bi|apply O; split; [discriminate|reflexivity]]|exact Bp]).
  rewrite E1. do 2 f_equal. apply hmac_exact; [|exact Bp]. apply bytes_ok_app. split; [apply sha256_bytes|]. apply bytes_ok_app. split; [exact Bi|apply O; split; [discriminate|reflexivity]].
Qed.
End Whole.

(** ** Examples: the published test vectors, in the specification *)
(** abc *)
Example ex_abc : be_val (sha256 [97; 98; 99]) = 0xba7816bf8f01cfea414140de5dae2223b00361a396177a9cb410ff61f20015ad.
Proof. vm_compute. reflexivity. Qed.
Example ex_empty : be_val (sha256 []) = 0xe3b0c44298fc1c149afbf4c8996fb92427ae41e4649b934ca495991b7852b855.
Proof. vm_compute. reflexivity. Qed.
(** 56 bytes: the length does not fit any more *)
Definition alphabet : list Z := concat (map (fun i => [97 + i; 98 + i; 99 + i; 100 + i]) [0; 1; 2; 3; 4; 5; 6; 7; 8; 9; 10; 11; 12; 13]).
Example ex_two_blocks : be_val (sha256 alphabet) = 0x248d6a61d20638b8e5c026930c3e6039a33ce45964ff2167f6ecedd419db06c1.
Proof. vm_compute. reflexivity. Qed.
(** The hypotheses of sha256_exact: a context full of 255, and chunks of which one is empty
    and one longer than a block *)
Example ex_chunks : length (repeat 255 64) = 64%nat /\ bytes_ok (repeat 255 64) /\ Forall (fun x => bytes_ok (snd x)) [(true, [97]); (false, []); (true, repeat 7 130); (false, [99])] /\
  sha_final (feed (sha_init (repeat 255 64)) [(true, [97]); (false, []); (true, repeat 7 130); (false, [99])]) = sha256 (97 :: repeat 7 130 ++ [99]).
Proof. split; [reflexivity|]. split; [apply bytes_ok_check; vm_compute; reflexivity|]. split; [do 4 (apply Forall_cons; [apply bytes_ok_check; vm_compute; reflexivity|]); apply Forall_nil|]. vm_compute. reflexivity. Qed.
(** RFC 4231, the second case: key Jefe; RFC 5869, the third case has 42 bytes of output *)
Example ex_hmac : be_val (hmac [74; 101; 102; 101] [119; 104; 97; 116; 32; 100; 111; 32; 121; 97; 32; 119; 97; 110; 116; 32; 102; 111; 114; 32; 110; 111; 116; 104; 105; 110; 103; 63]) = 0x5bdcc146bf60754e6a042426089575c75a003f089d2739839dec58b964ec3843.
Proof. vm_compute. reflexivity. Qed.
Example ex_hkdf : let prk := hkdf_extract [] (repeat 11 22) in be_val (hkdf_t1 prk []) = 0x8da4e775a563c18f715f802a063c5a31b8a11f5c5ee1879ec3454e5f3c738d2d /\ firstn 10 (hkdf_t2 prk []) = [0x9d; 0x20; 0x13; 0x95; 0xfa; 0xa4; 0xb6; 0x1a; 0x96; 0xc8].
Proof. vm_compute. split; reflexivity. Qed.

Print Assumptions sha256_exact.
Print Assumptions hash_sha256_exact.
Print Assumptions hash_hash256_exact.
Print Assumptions hmac_exact.
Print Assumptions hkdf_exact.
