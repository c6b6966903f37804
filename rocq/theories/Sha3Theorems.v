(** C77: SHA-3, Keccak and KMAC compute the published functions. *)
From Verif Require Import Common CommonFacts ProofFacts StreamFacts Sha256Facts Blake2bFacts Sha3Model Sha3Spec Sha3Facts.
From Coq Require Import Lia.
#[local] Opaque process absorb permutation keccak_f.

(** ** Lemmas *)
Definition feed (c : k3) (l : list (bool * list Z)) : k3 := fold_left (fun c '(al, m) => update c al m) l c.
Definition text (l : list (bool * list Z)) : list Z := concat (map snd l).
Definition size_ok (d : nat) : Prop := (d = 224 \/ d = 256 \/ d = 384 \/ d = 512)%nat.
Definition chunks_ok (l : list (bool * list Z)) : Prop := Forall (fun x => bytes_ok (snd x)) l.
Lemma feed_ok R l : rate_ok R -> chunks_ok l -> forall c data, rep R c data -> bytes_ok data -> rep R (feed c l) (data ++ text l) /\ bytes_ok (data ++ text l).
Proof.
  intros HR. induction 1 as [|[al m] l B F IH]; intros c data H Bd; [unfold text; cbn [map concat]; rewrite app_nil_r; now split|]. unfold text. cbn [map concat snd] in *. rewrite app_assoc. apply IH; [now apply rep_update|]. apply bytes_ok_app. now split.
Qed.
Definition start (R : nat) : k3 := {| k_hash := repeat 0 25; k_msg := repeat 0 192; k_rest := 0; k_bs := Z.of_nat R |}.
Lemma rep_start R : rate_ok R -> rep R (start R) [].
Proof.
  intros HR. destruct (rate_pos R HR) as (Hp & _). unfold rep. rewrite blocks_short, rest_short by (cbn [length]; lia). split; [reflexivity|]. split; [exact state_0|]. split; [reflexivity|]. split; [reflexivity|]. split; [reflexivity|]. split; [apply bytes_ok_repeat|reflexivity].
Qed.
Lemma size_rate d : size_ok d -> exists R, rate_ok R /\ keccak_init (Z.of_nat d) = Ok (start R) /\ (8 * R = 1600 - 2 * d)%nat /\ (800 - 4 * R = d)%nat.
Proof.
  intros [->|[->|[->| ->]]]; [exists 144%nat|exists 136%nat|exists 104%nat|exists 72%nat]; (split; [unfold rate_ok; auto|split; [reflexivity|split; reflexivity]]).
Qed.
Lemma exact_gen d dd chunks : size_ok d -> dom dd -> chunks_ok chunks ->
  exists c c', keccak_init (Z.of_nat d) = Ok c /\ final_with dd (feed c chunks) = Ok (c', sponge (1600 - 2 * d) (bits (text chunks) ++ suffix dd) d) /\
    (forall al m, update c' al m = c') /\ final_with dd c' = Ok (c', sponge (1600 - 2 * d) (bits (text chunks) ++ suffix dd) d).
Proof.
  intros Hd D Hc. destruct (size_rate d Hd) as (R & HR & Ei & E1 & E2). destruct (feed_ok R chunks HR Hc _ [] (rep_start R HR) (Forall_nil _)) as [Rp B]. cbn [app] in Rp, B.
  destruct (final_ok R _ _ dd HR Rp B D) as (c' & F1 & _ & F2 & F3). rewrite E1, E2 in *. exists (start R), c'. split; [exact Ei|]. split; [exact F1|]. split; [exact F2|exact F3].
Qed.

(** ** Theorems *)
(** For each of the four digest lengths, every message, every way of cutting it into chunks
    and wherever the chunks lie in memory, the digest is that of FIPS 202.  Once it has been
    given, more input changes nothing and asking again gives the same digest. *)
Theorem sha3_exact d chunks : size_ok d -> chunks_ok chunks ->
  exists c c', keccak_init (Z.of_nat d) = Ok c /\ sha3_final (feed c chunks) = Ok (c', sha3 d (text chunks)) /\
    (forall al m, update c' al m = c') /\ sha3_final c' = Ok (c', sha3 d (text chunks)).
Proof. intros Hd Hc. exact (exact_gen d 6 chunks Hd (or_introl eq_refl) Hc). Qed.
(** The same for the function that was first submitted *)
Theorem keccak_exact d chunks : size_ok d -> chunks_ok chunks ->
  exists c c', keccak_init (Z.of_nat d) = Ok c /\ keccak_final (feed c chunks) = Ok (c', keccak d (text chunks)) /\
    (forall al m, update c' al m = c') /\ keccak_final c' = Ok (c', keccak d (text chunks)).
Proof.
  intros Hd Hc. destruct (exact_gen d 1 chunks Hd (or_intror (or_introl eq_refl)) Hc) as (c & c' & H). exists c, c'. change (suffix 1) with (@nil Z) in H. rewrite app_nil_r in H. exact H.
Qed.
(** The one call for a whole message, and the hash of a name *)
Theorem hash_sha3_exact al data : bytes_ok data -> hash_sha3 al data = Ok (sha3 256 data).
Proof.
  intros B. destruct (sha3_exact 256 [(al, data)] ltac:(right; left; reflexivity) ltac:(apply Forall_cons; [exact B|apply Forall_nil])) as (c & c' & Ei & Ef & _). unfold hash_sha3. change 256 with (Z.of_nat 256). rewrite Ei. unfold obind. unfold feed, text in Ef. cbn [fold_left map snd concat] in Ef. rewrite app_nil_r in Ef. rewrite Ef. reflexivity.
Qed.
Theorem hash_name_exact al name : bytes_ok name -> hash_name al name = Ok (sha3 256 name).
Proof. exact (hash_sha3_exact al name). Qed.

Lemma put_next (a junk d : list Z) n : length a = n -> put (a ++ junk) n d = (a ++ d) ++ skipn (length d) junk.
Proof. intros <-. rewrite put_app, app_assoc. reflexivity. Qed.
Definition mac_text (key data : list Z) : list Z :=
  [0x01; 0x88; 0x01; 0x20; 0x4b; 0x4d; 0x41; 0x43; 0x01; 0x00] ++ repeat 0 126 ++ [0x01; 0x88; 0x02; 0x01; 0x00] ++ key ++ repeat 0 99 ++ data ++ [0x01; 0x00; 0x02].
Lemma kmac_text key data : zlen key = 32 -> kmac256 key data 256 [] = sponge 1088 (bits (mac_text key data) ++ [0; 0]) 256.
Proof.
  intros L. unfold kmac256, cshake256. do 3 f_equal. unfold encode_string at 3. rewrite L.
  assert (E : forall x, zlen x = 35 -> bytepad x 136 = [1; 0x88] ++ x ++ repeat 0 99).
  { intros x Hx. unfold bytepad. change (left_encode 136) with [1; 136]. rewrite <- app_assoc. do 2 f_equal. f_equal. rewrite zlen_app, Hx. reflexivity. }
  rewrite (E (left_encode (8 * 32) ++ key)) by (change (left_encode (8 * 32)) with [2; 1; 0]; rewrite zlen_app, L; reflexivity). unfold mac_text.
  change (bytepad (encode_string [75; 77; 65; 67] ++ encode_string []) 136) with ([0x01; 0x88; 0x01; 0x20; 0x4b; 0x4d; 0x41; 0x43; 0x01; 0x00] ++ repeat 0 126).
  change (left_encode (8 * 32)) with [2; 1; 0]. change (right_encode (Z.of_nat 256)) with [1; 0; 2]. rewrite <- !app_assoc. reflexivity.
Qed.
Lemma bytes_lit l : forallb (fun x => (0 <=? x) && (x <? 256)) l = true -> bytes_ok l.
Proof. intros H. apply Forall_forall. intros x I. rewrite forallb_forall in H. specialize (H x I). unfold is_byte. lia. Qed.
(** The keyed hash of a header: KMAC256 of NIST SP 800-185 with no customization, whatever
    the stack held; other lengths of the data or of the key stop the program. *)
Theorem hash_sha3_key_exact junk al data key : length junk = 483%nat -> bytes_ok data -> bytes_ok key ->
  hash_sha3_key junk al data key = if (zlen data =? 208) && (zlen key =? 32) then Ok (kmac256 key data 256 []) else Abort.
Proof.
  intros Lj Bd Bk. unfold hash_sha3_key. destruct (zlen data =? 208) eqn:Ed; [|reflexivity]. destruct (zlen key =? 32) eqn:Ek; [|reflexivity]. cbn [negb andb]. unfold zlen in Ed, Ek.
  assert (Ld : length data = 208%nat) by lia. assert (Lk : length key = 32%nat) by lia.
  rewrite (firstn_all2 key), (firstn_all2 data) by lia. change junk with ([] ++ junk). cbv zeta.
  rewrite (put_next [] junk) by reflexivity.
  rewrite put_next by reflexivity. rewrite put_next by reflexivity. rewrite put_next by reflexivity. rewrite put_next by reflexivity. rewrite put_next by reflexivity. rewrite put_next by reflexivity.
  rewrite put_next by (rewrite !app_length, !repeat_length; reflexivity).
  rewrite put_next by (rewrite !app_length, !repeat_length, Lk; reflexivity).
  rewrite put_next by (rewrite !app_length, !repeat_length, Lk; reflexivity).
  rewrite put_next by (rewrite !app_length, !repeat_length, Lk, Ld; reflexivity).
  rewrite !skipn_skipn'. rewrite (skipn_all2 junk) by (rewrite !repeat_length, Lk, Ld, Lj; apply Nat.leb_le; reflexivity). rewrite app_nil_r.
  assert (Em : forall a, a = mac_text key data -> obind (keccak_init 256) (fun c => obind (cshake_final (update c al a)) (fun '(_, d) => Ok d)) = Ok (kmac256 key data 256 [])).
  { intros a ->. rewrite kmac_text by (unfold zlen; lia).
    assert (Bm : bytes_ok (mac_text key data)). { unfold mac_text. apply bytes_ok_app; split; [apply bytes_lit; reflexivity|]. apply bytes_ok_app; split; [apply bytes_ok_repeat|]. apply bytes_ok_app; split; [apply bytes_lit; reflexivity|]. apply bytes_ok_app; split; [exact Bk|]. apply bytes_ok_app; split; [apply bytes_ok_repeat|]. apply bytes_ok_app; split; [exact Bd|apply bytes_lit; reflexivity]. }
    destruct (exact_gen 256 4 [(al, mac_text key data)] ltac:(right; left; reflexivity) ltac:(right; right; reflexivity) ltac:(apply Forall_cons; [exact Bm|apply Forall_nil])) as (c & c' & Ei & Ef & _).
    change 256 with (Z.of_nat 256) at 1. rewrite Ei. unfold obind. unfold feed, text in Ef. cbn [fold_left map snd concat] in Ef. rewrite app_nil_r in Ef. unfold cshake_final. rewrite Ef. reflexivity. }
  apply Em. unfold mac_text. rewrite <- !app_assoc. reflexivity.
Qed.

(** ** Examples *)
#[local] Transparent process absorb permutation keccak_f.
(** The values NIST gives for abc and for 200 bytes of 0xa3 *)
Example ex_sha3_224 : (be_val (sha3 224 [97; 98; 99]), be_val (sha3 224 (repeat 0xa3 200))) =
  (0xe642824c3f8cf24ad09234ee7d3c766fc9a3a5168d0c94ad73b46fdf,
   0x9376816aba503f72f96ce7eb65ac095deee3be4bf9bbc2a1cb7e11e0).
Proof. vm_compute. reflexivity. Qed.
Example ex_sha3_256 : (be_val (sha3 256 [97; 98; 99]), be_val (sha3 256 (repeat 0xa3 200))) =
  (0x3a985da74fe225b2045c172d6bd390bd855f086e3e9d525b46bfe24511431532,
   0x79f38adec5c20307a98ef76e8324afbfd46cfd81b22e3973c65fa1bd9de31787).
Proof. vm_compute. reflexivity. Qed.
Example ex_sha3_384 : (be_val (sha3 384 [97; 98; 99]), be_val (sha3 384 (repeat 0xa3 200))) =
  (0xec01498288516fc926459f58e2c6ad8df9b473cb0fc08c2596da7cf0e49be4b298d88cea927ac7f539f1edf228376d25,
   0x1881de2ca7e41ef95dc4732b8f5f002b189cc1e42b74168ed1732649ce1dbcdd76197a31fd55ee989f2d7050dd473e8f).
Proof. vm_compute. reflexivity. Qed.
Example ex_sha3_512 : (be_val (sha3 512 [97; 98; 99]), be_val (sha3 512 (repeat 0xa3 200))) =
  (0xb751850b1a57168a5693cd924b6b096e08f621827444f70d884f5d0240d2712e10e116e9192af3c91a7ec57647e3934057340b4cf408d5a56592f8274eec53f0,
   0xe76dfad22084a8b1467fcf2ffa58361bec7628edf5f3fdc0e4805dc48caeeca81b7c13c30adf52a3659584739a2df46be589c51ca1a4a8416df6545a1ce8ba00).
Proof. vm_compute. reflexivity. Qed.
(** The first submission, the empty message *)
Example ex_keccak : be_val (keccak 256 []) = 0xc5d2460186f7233c927e7db2dcc703c0e500b653ca82273b7bfad8045d85a470.
Proof. vm_compute. reflexivity. Qed.
(** NIST's fourth sample for KMAC: key 40 to 5f, data 00 01 02 03, My Tagged Application *)
Example ex_kmac : be_val (kmac256 (map Z.of_nat (seq 64 32)) [0; 1; 2; 3] 512 [77; 121; 32; 84; 97; 103; 103; 101; 100; 32; 65; 112; 112; 108; 105; 99; 97; 116; 105; 111; 110]) =
  0x20C570C31346F703C9AC36C61C03CB64C3970D0CFC787E9B79599D273A68D2F7F69D4CC3DE9D104A351689F27CF6F5951F0103F33F4F24871024D9C27773A8DD.
Proof. vm_compute. reflexivity. Qed.
(** The round constants of the standard's shift register are those of the table *)
Example ex_constants : map RC (seq 0 24) = round_constants.
Proof. vm_compute. reflexivity. Qed.
(** The hypotheses: chunks that end one byte before the end of a block, at it, and after it *)
Example ex_hyps : size_ok 256 /\ chunks_ok [(true, repeat 7 135); (false, [1]); (true, []); (false, repeat 2 271)] /\
  length (repeat 170 483) = 483%nat /\ bytes_ok (repeat 9 208) /\ bytes_ok (repeat 5 32) /\ hash_sha3_key (repeat 170 483) true (repeat 9 208) (repeat 5 32) = Ok (kmac256 (repeat 5 32) (repeat 9 208) 256 []).
Proof.
  split; [right; left; reflexivity|]. split; [do 4 (apply Forall_cons; [apply bytes_ok_check; vm_compute; reflexivity|]); apply Forall_nil|]. split; [reflexivity|]. split; [apply bytes_ok_check; vm_compute; reflexivity|]. split; [apply bytes_ok_check; vm_compute; reflexivity|]. vm_compute. reflexivity.
Qed.

Print Assumptions sha3_exact.
Print Assumptions keccak_exact.
Print Assumptions hash_sha3_exact.
Print Assumptions hash_name_exact.
Print Assumptions hash_sha3_key_exact.
