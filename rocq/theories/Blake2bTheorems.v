(** C76: BLAKE2b computes the published function. *)
From Verif Require Import Common CommonFacts ProofFacts StreamFacts Sha256Spec Sha256Facts Blake2bModel Blake2bSpec Blake2bFacts.
From Coq Require Import Lia.
#[local] Opaque compress F.

(** ** Lemmas *)
Definition h_start (n k : Z) : list Z := Z.lxor (nth 0 IV 0) (0x01010000 + k * 2 ^ 8 + n) :: skipn 1 IV.
Lemma init_h n k : 1 <= n <= 64 -> 0 <= k <= 64 -> x_h (init_param (param n k)) = h_start n k /\ x_outlen (init_param (param n k)) = n.
Proof.
  intros N K. unfold h_start. rewrite <- iv_ok. unfold init_param, param, load64. cbn [x_h x_outlen]. rewrite !(Z.mod_small _ 256) by lia. cbn [seq map Nat.mul Nat.add app repeat skipn firstn le_val nth iv]. split; [|reflexivity]. rewrite !Z.mul_0_r, !Z.add_0_r, !Z.lxor_0_r. do 2 f_equal. lia.
Qed.
Lemma start_words n k : 1 <= n <= 64 -> 0 <= k <= 64 -> good_h (h_start n k).
Proof.
  intros N K. unfold h_start. rewrite <- iv_ok. split; [reflexivity|]. pose proof iv_words as W. apply Forall_cons; [|unfold iv in *; cbn [skipn]; now inversion W].
  apply lxor_word; [unfold iv in *; cbn [nth]; now inversion W|]. unfold word64. lia.
Qed.
Lemma brep_init n k : 1 <= n <= 64 -> 0 <= k <= 64 -> brep (init_param (param n k)) (h_start n k) n [].
Proof. intros N K. destruct (init_h n k N K) as [E1 E2]. split; [exact E1|]. split; [split; reflexivity|]. split; [reflexivity|]. split; [exact E2|]. split; [reflexivity|]. split; reflexivity. Qed.
Definition feed (c : ctx) (l : list (list Z)) : ctx := fold_left update l c.
Lemma feed_ok h0 n l : good_h h0 -> Forall bytes_ok l -> forall c data, brep c h0 n data -> bytes_ok data -> brep (feed c l) h0 n (data ++ concat l) /\ bytes_ok (data ++ concat l).
Proof.
  intros G. induction 1 as [|m l B F IH]; intros c data R Bd; cbn [concat]; [rewrite app_nil_r; now split|]. rewrite app_assoc. apply IH; [now apply brep_update|]. apply bytes_ok_app. now split.
Qed.
Lemma run_fold m n : forall s h, fold_left (fun h i => F h (block 128 m i) (128 * (Z.of_nat i + 1)) false) (seq s n) h = run h (128 * Z.of_nat s) (map (block 128 m) (seq s n)).
Proof. induction n as [|n IH]; intros s h; [reflexivity|]. cbn [seq map fold_left run]. rewrite IH. replace (128 * (Z.of_nat s + 1)) with (128 * Z.of_nat s + 128) by ring. f_equal. lia. Qed.
Lemma skipn_repeat0 k n : skipn k (repeat 0 n) = repeat 0 (n - k).
Proof. revert n. induction k as [|k IH]; intros [|n]; try reflexivity. cbn [repeat skipn Nat.sub]. apply IH. Qed.
Definition begin (n : Z) (key : list Z) : outcome ctx := if zlen key =? 0 then init n else init_key n key.
Definition with_key (key data : list Z) : list Z := (if zlen key =? 0 then [] else key ++ repeat 0 (128 - length key)) ++ data.
Lemma begin_ok n key : 1 <= n <= 64 -> zlen key <= 64 -> bytes_ok key -> exists c, begin n key = Ok c /\ brep c (h_start n (zlen key)) n (with_key key []).
Proof.
  intros N K B. pose proof (zlen_nonneg key) as P. unfold begin, with_key, init, init_key. rewrite app_nil_r. replace ((n =? 0) || (64 <? n)) with false by lia. destruct (zlen key =? 0) eqn:E.
  - eexists. split; [reflexivity|]. replace (zlen key) with 0 by lia. apply brep_init; lia.
  - replace (false || (64 <? zlen key)) with false by (cbn [orb]; lia). eexists. split; [reflexivity|]. 
    assert (Ep : put (repeat 0 128) 0 key = key ++ repeat 0 (128 - length key)).
    { change (key ++ skipn (length key) (repeat 0 128) = key ++ repeat 0 (128 - length key)). f_equal. apply skipn_repeat0. }
    rewrite Ep. change (key ++ repeat 0 (128 - length key)) with ([] ++ (key ++ repeat 0 (128 - length key))) at 2.
    apply brep_update; [apply start_words; lia|apply brep_init; lia|apply Forall_nil|]. apply bytes_ok_app. split; [exact B|apply bytes_ok_repeat].
Qed.
Lemma with_key_bytes key : bytes_ok key -> bytes_ok (with_key key []).
Proof. intros B. unfold with_key. rewrite app_nil_r. destruct (zlen key =? 0); [apply Forall_nil|]. apply bytes_ok_app. split; [exact B|apply bytes_ok_repeat]. Qed.

Lemma spec_run n key data : blake2b_spec n key data = let m := with_key key [] ++ data in
  firstn (Z.to_nat n) (concat (map (le_bytes 8) (F (run (h_start n (zlen key)) 0 (lblocks 128 m)) (lrest 128 m ++ repeat 0 (128 - length (lrest 128 m))) (zlen m) true))).
Proof. unfold blake2b_spec, with_key. rewrite app_nil_r. cbv zeta. rewrite run_fold. reflexivity. Qed.

(** ** Theorems *)
(** For every digest length, key, message and way of cutting it into chunks, the digest is
    that of RFC 7693; a room for it that is larger does no harm, a smaller one is refused,
    and a context gives a digest once only. *)
Theorem blake2b_exact n key : 1 <= n <= 64 -> zlen key <= 64 -> bytes_ok key ->
  exists c, begin n key = Ok c /\
  forall chunks, Forall bytes_ok chunks ->
    (forall room, room < n -> final (feed c chunks) room = Err (-1)) /\
    (forall room, n <= room -> exists c', final (feed c chunks) room = Ok (c', blake2b_spec n key (concat chunks)) /\ forall room', final c' room' = Err (-1)).
Proof.
  intros N K B. destruct (begin_ok n key N K B) as (c & E & R). exists c. split; [exact E|]. intros chunks F. pose proof (zlen_nonneg key) as P. pose proof (start_words n (zlen key) N ltac:(lia)) as G.
  destruct (feed_ok _ n chunks G F c _ R (with_key_bytes key B)) as [R2 B2]. split.
  - intros room H. unfold final. destruct R2 as (_ & _ & _ & -> & _). replace (room <? n) with true by lia. reflexivity.
  - intros room H. destruct (brep_final _ _ _ _ G R2 B2 room H) as (c' & Ef & Ff). exists c'. split.
    + rewrite Ef, spec_run. reflexivity.
    + intros room'. unfold final. destruct (room' <? x_outlen c'); [reflexivity|]. replace (x_f0 c' =? 0) with false by lia. reflexivity.
Qed.
(** What can not be begun: a digest of no bytes or more than 64, a key of more than 64, and
    no key where one is wanted *)
Theorem begin_refused n key : n <= 0 \/ 64 < n \/ 64 < zlen key -> 0 <= n -> (exists e, begin n key = Err e).
Proof.
  intros H P. pose proof (zlen_nonneg key). unfold begin, init, init_key. destruct ((n =? 0) || (64 <? n)) eqn:E; [destruct (zlen key =? 0); eauto|]. replace (zlen key =? 0) with false by lia. replace (false || (64 <? zlen key)) with true by (cbn [orb]; lia). eauto.
Qed.
Theorem key_wanted n : init_key n [] = Err (-1).
Proof. unfold init_key. destruct ((n =? 0) || (64 <? n)); reflexivity. Qed.
Lemma whole n key data : 1 <= n <= 64 -> zlen key <= 64 -> bytes_ok key -> bytes_ok data -> exists c c', begin n key = Ok c /\ final (update c data) n = Ok (c', blake2b_spec n key data).
Proof.
  intros N K B D. destruct (blake2b_exact n key N K B) as (c & E & H). destruct (H [data]) as [_ H2]; [apply Forall_cons; [exact D|apply Forall_nil]|]. destruct (H2 n ltac:(lia)) as (c' & Ef & _). exists c, c'. split; [exact E|]. cbn [concat] in Ef. rewrite app_nil_r in Ef. exact Ef.
Qed.
(** The function that does all in one call *)
Theorem blake2b_call n data key : bytes_ok data -> bytes_ok key -> 0 <= n ->
  blake2b n data key = if (1 <=? n) && (n <=? 64) && (zlen key <=? 64) then Ok (blake2b_spec n key data) else Err (-1).
Proof.
  intros D B P. pose proof (zlen_nonneg key) as Pk. unfold blake2b. destruct ((n =? 0) || (64 <? n)) eqn:E; [replace ((1 <=? n) && (n <=? 64)) with false by lia; reflexivity|]. replace ((1 <=? n) && (n <=? 64)) with true by lia. cbn [andb].
  destruct (64 <? zlen key) eqn:Ek; [replace (zlen key <=? 64) with false by lia; reflexivity|]. replace (zlen key <=? 64) with true by lia.
  destruct (whole n key data) as (c & c' & E1 & E2); [lia|lia|exact B|exact D|]. assert (Eb : (if 0 <? zlen key then init_key n key else init n) = begin n key) by (unfold begin; destruct (0 <? zlen key) eqn:Q; [replace (zlen key =? 0) with false by lia|replace (zlen key =? 0) with true by lia]; reflexivity).
  rewrite Eb, E1. cbn [obind]. rewrite E2. reflexivity.
Qed.
(** The functions of hash.c never abort, except with an impossible key *)
Theorem hash_blake_exact data : bytes_ok data ->
  hash_blake2b data = Ok (blake2b_spec 32 [] data) /\ hash_blake256 data = Ok (blake2b_spec 32 [] data) /\ hash_blake160 data = Ok (blake2b_spec 20 [] data) /\ hash_blake512 data = Ok (blake2b_spec 64 [] data).
Proof.
  intros D. assert (H : forall n, 1 <= n <= 64 -> hash_blake n data = Ok (blake2b_spec n [] data)).
  { intros n N. destruct (whole n [] data N) as (c & c' & E1 & E2); [discriminate|apply Forall_nil|exact D|]. unfold hash_blake. change (init n) with (begin n []). rewrite E1. cbn [must obind]. rewrite E2. reflexivity. }
  repeat split; apply H; lia.
Qed.
Theorem hash_key_exact data key : bytes_ok data -> bytes_ok key ->
  hash_blake2b_key data key = if (1 <=? zlen key) && (zlen key <=? 64) then Ok (blake2b_spec 32 key data) else Abort.
Proof.
  intros D B. pose proof (zlen_nonneg key) as P. unfold hash_blake2b_key. destruct (zlen key =? 0) eqn:E0; [unfold init_key; rewrite E0; replace (1 <=? zlen key) with false by lia; reflexivity|]. replace (1 <=? zlen key) with true by lia. cbn [andb].
  destruct (zlen key <=? 64) eqn:E; [|unfold init_key; rewrite E0; replace (false || (64 <? zlen key)) with true by (cbn [orb]; lia); reflexivity].
  destruct (whole 32 key data) as (c & c' & E1 & E2); [lia|lia|exact B|exact D|]. unfold begin in E1. rewrite E0 in E1. rewrite E1. cbn [must obind]. rewrite E2. reflexivity.
Qed.

(** ** Examples *)
(** RFC 7693, appendix A: abc with 64 bytes *)
Example ex_abc : be_val (blake2b_spec 64 [] [97; 98; 99]) = 0xba80a53f981c4d0d6a2797b69f12f6e94c212f14685ac4b74b12bb6fdbffa2d17d87c5392aab792dc252d5de4533cc9518d38aa8dbf1925ab92386edd4009923.
Proof. vm_compute. reflexivity. Qed.
(** The empty message with 32 bytes *)
Example ex_empty : be_val (blake2b_spec 32 [] []) = 0x0e5751c026e543b2e8ab2eb06099daa1d1e5df47778f7787faab45cdf12fe3a8.
Proof. vm_compute. reflexivity. Qed.
(** The rows of the table are permutations *)
Example ex_rows : forallb (fun r => forallb (fun i => existsb (Nat.eqb i) r) (seq 0 16)) SIGMA = true.
Proof. vm_compute. reflexivity. Qed.
(** The hypotheses of blake2b_exact: a key, chunks of a whole block, none, and a block and a bit *)
Example ex_hyps : 1 <= 32 <= 64 /\ zlen (repeat 5 7) <= 64 /\ bytes_ok (repeat 5 7) /\ Forall bytes_ok [repeat 3 128; []; repeat 9 129] /\
  match begin 32 (repeat 5 7) with Ok c => match final (feed c [repeat 3 128; []; repeat 9 129]) 32 with Ok (_, d) => beq d (blake2b_spec 32 (repeat 5 7) (repeat 3 128 ++ repeat 9 129)) | _ => false end | _ => false end = true.
Proof.
  split; [split; discriminate|]. split; [discriminate|]. split; [apply bytes_ok_check; vm_compute; reflexivity|]. split; [do 3 (apply Forall_cons; [apply bytes_ok_check; vm_compute; reflexivity|]); apply Forall_nil|]. vm_compute. reflexivity.
Qed.

Print Assumptions blake2b_exact.
Print Assumptions begin_refused.
Print Assumptions key_wanted.
Print Assumptions blake2b_call.
Print Assumptions hash_blake_exact.
Print Assumptions hash_key_exact.
