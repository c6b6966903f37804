(** Name proofs (C01-C03) and headers (C06, C10) with the real BLAKE2b (C76) and SHA-3 (C77) in
    place of the functions left open in ProofModel and HeaderModel. Nothing is assumed about
    these functions: a wrong answer contains two strings with the same digest. *)
From Verif Require Import Common CommonFacts ProofModel ProofSpec ProofFacts ProofTheorems HeaderModel HeaderSpec HeaderFacts HeaderTheorems.
From Verif Require Blake2bModel Blake2bSpec Blake2bTheorems Sha3Model Sha3Spec Sha3Theorems.
Import Blake2bSpec.

Definition digest (o : outcome (list Z)) : list Z := match o with Ok d => d | _ => [] end.
Definition octet (m : list Z) : list Z := map (fun b => b mod 256) m.
(** hash.c: hsk_hash_blake2b (the pieces of proof-radix.c and header.c give the same digest:
    blake2b_exact), hsk_hash_blake512, hsk_hash_sha3 and hsk_hash_name; messages are bytes *)
Definition real256 (m : list Z) : list Z := digest (Blake2bModel.hash_blake2b (octet m)).
Definition real512 (m : list Z) : list Z := digest (Blake2bModel.hash_blake512 (octet m)).
Definition real_sha3 (al : bool) (m : list Z) : list Z := digest (Sha3Model.hash_sha3 al (octet m)).
Definition real_key (al : bool) (name : list Z) : list Z := digest (Sha3Model.hash_name al (octet name)).

(** ** The digests *)
Lemma octet_ok m : bytes_ok (octet m).
Proof. apply Forall_forall. intros x I. apply in_map_iff in I as (b & <- & _). apply Z.mod_pos_bound. reflexivity. Qed.
Lemma octet_id m : bytes_ok m -> octet m = m.
Proof. intros B. unfold octet. induction B as [|b m H B IH]; [reflexivity|]. cbn [map]. rewrite IH. f_equal. apply Z.mod_small. exact H. Qed.
Lemma words_bytes l : length (concat (map (le_bytes 8) l)) = (8 * length l)%nat /\ bytes_ok (concat (map (le_bytes 8) l)).
Proof.
  induction l as [|x l [L B]]; [split; [reflexivity|apply Forall_nil]|]. cbn [map concat length]. rewrite app_length, le_bytes_length, L. split; [lia|]. apply bytes_ok_app. split; [apply le_bytes_ok|exact B].
Qed.
Lemma firstn_bytes n l : bytes_ok l -> bytes_ok (firstn n l).
Proof. intros B. apply Forall_forall. intros x I. unfold bytes_ok in B. rewrite Forall_forall in B. apply B. rewrite <- (firstn_skipn n l). apply in_or_app. left. exact I. Qed.
Lemma blake_digest n m : 0 <= n <= 64 -> length (blake2b_spec n [] m) = Z.to_nat n /\ bytes_ok (blake2b_spec n [] m).
Proof.
  intros N. unfold blake2b_spec. cbv zeta. match goal with |- context [map (le_bytes 8) ?h] => assert (L : length h = 8%nat) by (unfold F; cbv zeta; rewrite map_length; apply seq_length); destruct (words_bytes h) as [L2 B2] end.
  rewrite L in L2. split; [rewrite firstn_length; lia|apply firstn_bytes; exact B2].
Qed.
Lemma lanes_length f : length (Sha3Spec.lanes f) = 25%nat.
Proof. unfold Sha3Spec.lanes. rewrite map_length. apply seq_length. Qed.
Lemma absorb_length b : forall l, length l = 25%nat -> length (fold_left Sha3Spec.absorb b l) = 25%nat.
Proof.
  induction b as [|x b IH]; intros l L; [exact L|]. cbn [fold_left]. apply IH. unfold Sha3Spec.absorb, Sha3Spec.keccak_f.
  assert (G : forall s A, length A = 25%nat -> length (fold_left (fun A i => Sha3Spec.Iota i (Sha3Spec.Chi (Sha3Spec.Pi (Sha3Spec.Rho (Sha3Spec.Theta A))))) s A) = 25%nat) by (induction s as [|i s IHs]; intros A LA; [exact LA|]; cbn [fold_left]; apply IHs; unfold Sha3Spec.Iota; apply lanes_length).
  apply G. rewrite map_length. apply seq_length.
Qed.
Lemma sha3_digest m : length (Sha3Spec.sha3 256 m) = 32%nat /\ bytes_ok (Sha3Spec.sha3 256 m).
Proof.
  unfold Sha3Spec.sha3, Sha3Spec.sponge. match goal with |- context [map (le_bytes 8) ?h] => assert (L : length h = 25%nat) by (apply absorb_length; apply repeat_length); destruct (words_bytes h) as [L2 B2] end.
  rewrite L in L2. split; [rewrite firstn_length, L2; reflexivity|apply firstn_bytes; exact B2].
Qed.
Lemma real256_any m : real256 m = blake2b_spec 32 [] (octet m).
Proof. unfold real256. destruct (Blake2bTheorems.hash_blake_exact (octet m) (octet_ok m)) as (-> & _). reflexivity. Qed.
Lemma real512_any m : real512 m = blake2b_spec 64 [] (octet m).
Proof. unfold real512. destruct (Blake2bTheorems.hash_blake_exact (octet m) (octet_ok m)) as (_ & _ & _ & ->). reflexivity. Qed.
Lemma real_sha3_any al m : real_sha3 al m = Sha3Spec.sha3 256 (octet m).
Proof. unfold real_sha3. rewrite (Sha3Theorems.hash_sha3_exact al _ (octet_ok m)). reflexivity. Qed.
Lemma real_key_any al m : real_key al m = Sha3Spec.sha3 256 (octet m).
Proof. unfold real_key. rewrite (Sha3Theorems.hash_name_exact al _ (octet_ok m)). reflexivity. Qed.
Lemma real256_digest m : hash32 (real256 m).
Proof. rewrite real256_any. exact (blake_digest 32 _ ltac:(lia)). Qed.
Lemma real512_digest m : length (real512 m) = 64%nat /\ bytes_ok (real512 m).
Proof. rewrite real512_any. exact (blake_digest 64 _ ltac:(lia)). Qed.
#[local] Opaque real256 real512 real_sha3 real_key.

(** ** Collisions *)
(** Two different strings of bytes of the list [S] with the same digest of [n] bytes. (Some two
    strings with the same digest exist, as there are more strings than digests; so the theorems
    say in which short list of strings the two are.) *)
Definition collision (n : Z) (S : list (list Z)) : Prop := exists x y, In x S /\ In y S /\ bytes_ok x /\ bytes_ok y /\ x <> y /\ blake2b_spec n [] x = blake2b_spec n [] y.
(** A string of [S] whose digest is 0, which stands for the empty tree *)
Definition zero_digest (S : list (list Z)) : Prop := exists x, In x S /\ bytes_ok x /\ blake2b_spec 32 [] x = repeat 0 32.
(** The strings hashed for a name: those of the tree and those of the check of the proof *)
Definition name_strings (t : tree) (key : list Z) (p : proof) : list (list Z) := tree_strings real256 t ++ verify_pres real256 key p.
Lemma one_or (H : list Z -> list Z) S : forall x, (forall y, In y S -> H x = H y -> x = y) \/ exists y, In y S /\ x <> y /\ H x = H y.
Proof.
  induction S as [|z S IH]; intros x; [left; intros y []|].
  destruct (list_eq_dec Z.eq_dec (H x) (H z)) as [E|E].
  - destruct (list_eq_dec Z.eq_dec x z) as [->|N].
    + destruct (IH z) as [G|(y & I & N & Ey)]; [left; intros y [<-|I] Ey; [reflexivity|exact (G y I Ey)]|right; exists y; split; [right; exact I|auto]].
    + right. exists z. split; [left; reflexivity|auto].
  - destruct (IH x) as [G|(y & I & N & Ey)]; [left; intros y [<-|I] Ey; [contradiction|exact (G y I Ey)]|right; exists y; split; [right; exact I|auto]].
Qed.
Lemma free_or (H : list Z -> list Z) S T : (forall x y, In x T -> In y S -> H x = H y -> x = y) \/ exists x y, In x T /\ In y S /\ x <> y /\ H x = H y.
Proof.
  induction T as [|x T IH]; [left; intros x y []|]. destruct (one_or H S x) as [G|(y & I & N & E)]; [|right; exists x, y; split; [left; reflexivity|auto]].
  destruct IH as [K|(a & b & I & R)]; [|right; exists a, b; split; [right; exact I|exact R]]. left. intros a b [<-|I] J E; [exact (G b J E)|exact (K a b I J E)].
Qed.
Lemma zero_or (H : list Z -> list Z) S : (forall x, In x S -> H x <> repeat 0 32) \/ exists x, In x S /\ H x = repeat 0 32.
Proof.
  induction S as [|x S IH]; [left; intros x []|]. destruct (list_eq_dec Z.eq_dec (H x) (repeat 0 32)) as [E|N]; [right; exists x; split; [left; reflexivity|exact E]|].
  destruct IH as [G|(y & I & E)]; [left; intros y [<-|I]; [exact N|exact (G y I)]|right; exists y; split; [right; exact I|exact E]].
Qed.
Lemma collide (R : list Z -> list Z) n S : (forall m, R m = blake2b_spec n [] (octet m)) -> Forall bytes_ok S -> collision_free R S \/ collision n S.
Proof.
  intros E B. rewrite Forall_forall in B. destruct (free_or R S S) as [G|(x & y & I & J & N & Eq)]; [left; exact G|right]. exists x, y. split; [exact I|]. split; [exact J|]. split; [exact (B x I)|]. split; [exact (B y J)|]. split; [exact N|].
  rewrite !E, (octet_id x (B x I)), (octet_id y (B y J)) in Eq. exact Eq.
Qed.
Lemma good_or S : Forall bytes_ok S -> hash_good_on real256 S \/ collision 32 S \/ zero_digest S.
Proof.
  intros B. destruct (collide real256 32 S real256_any B) as [G|C]; [|right; left; exact C]. destruct (zero_or real256 S) as [Z0|(x & I & E)].
  - left. split; [exact real256_digest|]. split; [exact G|exact Z0].
  - right. right. rewrite Forall_forall in B. exists x. split; [exact I|]. split; [exact (B x I)|]. rewrite real256_any, (octet_id x (B x I)) in E. exact E.
Qed.

(** ** The strings are bytes *)
Lemma pack_bytes n : forall l, bytes_ok (pack_n n l).
Proof.
  induction n as [|n IH]; intros l; [apply Forall_nil|]. cbn [pack_n]. apply Forall_cons; [|apply IH].
  unfold pack_byte, is_byte. assert (G : forall i, 0 <= bit_at (firstn 8 l) i <= 1) by (intros i; unfold bit_at; destruct (nth i _ false); lia).
  pose proof (G 0%nat). pose proof (G 1%nat). pose proof (G 2%nat). pose proof (G 3%nat). pose proof (G 4%nat). pose proof (G 5%nat). pose proof (G 6%nat). pose proof (G 7%nat). lia.
Qed.
Lemma tree_hash_bytes t : bytes_ok (tree_hash real256 t).
Proof. destruct t; cbn [tree_hash]; [apply bytes_ok_repeat|apply real256_digest|apply real256_digest]. Qed.
Lemma one_byte b : 0 <= b < 256 -> bytes_ok [b].
Proof. intros H. apply Forall_cons; [exact H|apply Forall_nil]. Qed.
Lemma node_bytes p a b : bytes_ok a -> bytes_ok b -> bytes_ok (node_string p a b).
Proof.
  intros A B. unfold node_string. destruct p; [|apply bytes_ok_app; split; [apply one_byte; lia|]; apply bytes_ok_app; split; [apply le_bytes_ok|]; apply bytes_ok_app; split; [apply pack_bytes|]; apply bytes_ok_app; auto].
  apply bytes_ok_app; split; [apply one_byte; lia|]. apply bytes_ok_app; auto.
Qed.
Lemma tree_bytes t : forall path, wf_at path t -> Forall bytes_ok (tree_strings real256 t).
Proof.
  induction t as [|k v|p l IHl r IHr]; intros path W; cbn [tree_strings]; [apply Forall_nil| |].
  - destruct W as (_ & Bk & Bv & _). apply Forall_cons; [exact Bv|]. apply Forall_cons; [|apply Forall_nil]. unfold leaf_string. apply bytes_ok_app; split; [apply one_byte; lia|]. apply bytes_ok_app; split; [exact Bk|apply real256_digest].
  - destruct W as (_ & Wl & Wr). apply Forall_cons; [apply node_bytes; apply tree_hash_bytes|]. apply Forall_app. split; [exact (IHl _ Wl)|exact (IHr _ Wr)].
Qed.
Lemma internal_bytes pre n a b : bytes_ok pre -> bytes_ok a -> bytes_ok b -> bytes_ok (internal_pre pre n a b).
Proof.
  intros P A B. unfold internal_pre. destruct (n =? 0); [apply bytes_ok_app; split; [apply one_byte; lia|]; apply bytes_ok_app; auto|].
  apply bytes_ok_app; split; [apply one_byte; lia|]. apply bytes_ok_app; split; [apply le_bytes_ok|]. apply bytes_ok_app; split; [apply firstn_bytes; exact P|]. apply bytes_ok_app; auto.
Qed.
Lemma climb_bytes key ns : forall d next, Forall valid_node ns -> bytes_ok next -> Forall bytes_ok (climb_pre real256 key ns d next).
Proof.
  induction ns as [|n ns IH]; intros d next V B; [apply Forall_nil|]. cbn [climb_pre]. cbv zeta. destruct (has_bit key (d - 1)) as [b| | |]; try apply Forall_nil.
  pose proof (Forall_inv V) as (_ & Bp & _ & _ & Bn). apply Forall_inv_tail in V.
  apply Forall_cons; [destruct b; apply internal_bytes; assumption|]. apply IH; [exact V|apply real256_digest].
Qed.
Lemma leaf_pre_bytes k h : bytes_ok k -> bytes_ok h -> bytes_ok (leaf_pre k h).
Proof. intros K B. unfold leaf_pre. apply bytes_ok_app; split; [apply one_byte; lia|]. apply bytes_ok_app; auto. Qed.
Lemma verify_bytes key p : bytes_ok key -> valid_proof p -> Forall bytes_ok (verify_pres real256 key p).
Proof.
  intros K (_ & _ & V & T). unfold verify_pres. apply Forall_app. split.
  - unfold leaf_pres. destruct T as [(-> & _)|[(-> & _ & _ & b & l & r & -> & Bb & _ & -> & -> & [_ Bl] & [_ Br])|[(-> & _ & k & h & -> & -> & [_ Bk] & [_ Bh])|(-> & v & -> & Bv & _)]]]; cbn.
    + apply Forall_nil.
    + apply Forall_cons; [apply internal_bytes; assumption|apply Forall_nil].
    + apply Forall_cons; [apply leaf_pre_bytes; assumption|apply Forall_nil].
    + apply Forall_cons; [exact Bv|]. apply Forall_cons; [|apply Forall_nil]. apply leaf_pre_bytes; [exact K|apply real256_digest].
  - destruct (make_leaf real256 key p) as [leaf| | |] eqn:E; try apply Forall_nil. apply climb_bytes; [apply Forall_rev; exact V|].
    revert E. unfold make_leaf, hash_value, hash_leaf, hash_internal. repeat match goal with |- context [if ?c then _ else _] => destruct c | |- context [match ?o with Some _ => _ | None => _ end] => destruct o end;
      try discriminate; try (intros E; apply Ok_inj in E; subst leaf; first [apply bytes_ok_repeat|apply real256_digest]).
    destruct (proof_has _ _ _ _) as [[]| | |]; cbn [obind]; try discriminate. intros E. apply Ok_inj in E. subst leaf. apply real256_digest.
Qed.

(** ** Names *)
(** The key of a name is the SHA-3 of its bytes. Whatever a peer sends: when it is accepted
    against the root of a tree, the tree has that answer for the name, or two of the strings
    hashed for the tree and the proof have the same BLAKE2b (or one has the digest 0). *)
Theorem real_name_answer al t bytes rest name p : bytes_ok bytes -> bytes_ok name -> wf_tree t -> proof_read bytes = Ok (Some (p, rest)) ->
  let key := real_key al name in
  key = Sha3Spec.sha3 256 name /\
  ((forall data, proof_verify real256 (tree_hash real256 t) key p = Ok (Some data) ->
      (exists v, In (key, v) (leaves t) /\ value_has_data v data) \/ collision 32 (name_strings t key p) \/ zero_digest (name_strings t key p)) /\
   (proof_verify real256 (tree_hash real256 t) key p = Ok None ->
      (forall v, ~ In (key, v) (leaves t)) \/ collision 32 (name_strings t key p) \/ zero_digest (name_strings t key p))).
Proof.
  intros B Bn W R key. assert (Ek : key = Sha3Spec.sha3 256 name) by (unfold key; rewrite real_key_any, (octet_id name Bn); reflexivity).
  split; [exact Ek|]. assert (K : hash32 key) by (rewrite Ek; apply sha3_digest). destruct (proof_read_total bytes B) as [_ V]. destruct (V _ _ R) as [Vp _].
  assert (S : Forall bytes_ok (tree_strings real256 t ++ verify_pres real256 key p)) by (apply Forall_app; split; [exact (tree_bytes t [] W)|apply verify_bytes; [apply K|exact Vp]]).
  destruct (good_or _ S) as [G|C]; [|split; intros; right; exact C]. destruct (name_proof_sound real256 t bytes rest key p B R K W G) as [S1 S2]. split; [intros data E; left; exact (S1 data E)|intros E; left; exact (S2 E)].
Qed.
(** Two answers of any peers for one name and one root *)
Theorem real_answers_agree al root name b1 rest1 p1 r1 b2 rest2 p2 r2 : bytes_ok b1 -> bytes_ok b2 -> bytes_ok name ->
  proof_read b1 = Ok (Some (p1, rest1)) -> proof_read b2 = Ok (Some (p2, rest2)) ->
  proof_verify real256 root (real_key al name) p1 = Ok r1 -> proof_verify real256 root (real_key al name) p2 = Ok r2 ->
  let S := verify_pres real256 (real_key al name) p1 ++ verify_pres real256 (real_key al name) p2 in
  r1 = r2 \/ collision 32 S \/ zero_digest S.
Proof.
  intros B1 B2 Bn R1 R2 E1 E2 S. unfold S. clear S. assert (K : hash32 (real_key al name)) by (rewrite real_key_any; apply sha3_digest).
  destruct (proof_read_total b1 B1) as [_ V1]. destruct (V1 _ _ R1) as [P1 _]. destruct (proof_read_total b2 B2) as [_ V2]. destruct (V2 _ _ R2) as [P2 _].
  destruct (good_or (verify_pres real256 (real_key al name) p1 ++ verify_pres real256 (real_key al name) p2)) as [G|C]; [apply Forall_app; split; apply verify_bytes; [apply K|exact P1|apply K|exact P2]| |right; exact C].
  left. exact (accepted_name_proofs_agree real256 root _ b1 rest1 b2 rest2 p1 p2 r1 r2 B1 B2 R1 R2 K G E1 E2).
Qed.
(** The honest proof is accepted, with no condition on the hash *)
Theorem real_honest_accepted al t name rest : bytes_ok name -> wf_tree t -> (forall k v, In (k, v) (leaves t) -> exists data, value_has_data v data) ->
  let key := real_key al name in
  exists p, proof_read (honest_proof real256 t key ++ rest) = Ok (Some (p, rest)) /\
    (forall v data, In (key, v) (leaves t) -> value_has_data v data -> proof_verify real256 (tree_hash real256 t) key p = Ok (Some data)) /\
    ((forall v, ~ In (key, v) (leaves t)) -> proof_verify real256 (tree_hash real256 t) key p = Ok None).
Proof.
  intros Bn W D key. apply honest_name_proof_accepted; [exact real256_digest|exact W|unfold key; rewrite real_key_any; apply sha3_digest|exact D].
Qed.

(** ** Headers *)
Definition published_share : hdr -> list Z := spec_share (fun m => blake2b_spec 32 [] m) (fun m => blake2b_spec 64 [] m) (fun m => Sha3Spec.sha3 256 m).
Lemma xor_pairs_bytes a : forall b, bytes_ok a -> bytes_ok b -> bytes_ok (map (fun p => Z.lxor (fst p) (snd p)) (combine a b)).
Proof.
  induction a as [|x a IH]; intros b A B; [apply Forall_nil|]. destruct b as [|y b]; [apply Forall_nil|]. cbn [combine map fst snd]. apply bytes_ok_cons in A as [X A]. apply bytes_ok_cons in B as [Y B]. apply Forall_cons; [exact (lxor_byte x y X Y)|exact (IH b A B)].
Qed.
Lemma pad_bytes h n : hdr_ok h -> bytes_ok (spec_pad h n).
Proof. intros (_ & _ & [_ P] & [_ R] & _). apply firstn_bytes, xor_pairs_bytes; assumption. Qed.
Ltac parts := repeat first [apply le_bytes_ok | apply pad_bytes | apply real256_digest | apply real512_digest | assumption | apply bytes_ok_app; split].
Lemma header_bytes al h : hdr_ok h -> bytes_ok (spec_pre real256 h) /\ Forall bytes_ok (strings256 real256 real512 (real_sha3 al) h) /\ Forall bytes_ok (strings512 real256 h).
Proof.
  intros O. pose proof O as (_ & _ & [_ Bp] & [_ Br] & [_ Be] & [_ Bs] & [_ Bw] & [_ Bm] & _ & _ & [_ Bk]).
  assert (P : bytes_ok (spec_pre real256 h)) by (unfold spec_pre; parts). split; [exact P|].
  assert (S : forall m, bytes_ok (real_sha3 al m)) by (intros m; rewrite real_sha3_any; apply sha3_digest).
  split; [|apply Forall_cons; [exact P|apply Forall_nil]]. unfold strings256. repeat (apply Forall_cons; [|]); [unfold spec_sub; parts|parts|unfold spec_commit_string; parts| |apply Forall_nil].
  unfold spec_final. apply bytes_ok_app; split; [apply real512_digest|]. apply bytes_ok_app; split; [apply pad_bytes; exact O|apply S].
Qed.
Lemma share_published al h : hdr_ok h -> spec_share real256 real512 (real_sha3 al) h = published_share h.
Proof.
  intros O. destruct (header_bytes al h O) as (P & S & _). unfold strings256 in S. pose proof (Forall_inv S) as B1. pose proof (Forall_inv (Forall_inv_tail S)) as B2. pose proof (Forall_inv (Forall_inv_tail (Forall_inv_tail S))) as B3. pose proof (Forall_inv (Forall_inv_tail (Forall_inv_tail (Forall_inv_tail S)))) as B4.
  assert (R : forall m, bytes_ok m -> real256 m = blake2b_spec 32 [] m) by (intros m B; rewrite real256_any, octet_id by exact B; reflexivity).
  assert (C : spec_commit_string real256 h = spec_commit_string (fun m => blake2b_spec 32 [] m) h) by (unfold spec_commit_string; rewrite (R _ B1), (R _ B2); reflexivity).
  assert (Q : spec_pre real256 h = spec_pre (fun m => blake2b_spec 32 [] m) h) by (unfold spec_pre; rewrite (R _ B3), C; reflexivity).
  unfold published_share, spec_share. rewrite (R _ B4). unfold spec_final. rewrite real512_any, real_sha3_any, !octet_id by (first [exact P|apply bytes_ok_app; split; [exact P|apply pad_bytes; exact O]]). rewrite Q. reflexivity.
Qed.
(** The hash of a header is the published one: BLAKE2b-256 over BLAKE2b-512, the padding and
    SHA3-256, xor the mask; a header is accepted exactly if this number is not above its target *)
Theorem real_header_hash al h : hdr_ok h ->
  let hash := hdr_hash real256 real512 (real_sha3 al) h in
  xor_bytes hash (h_mask h) = published_share h /\
  (verify_pow real256 real512 (real_sha3 al) h = 0 <-> exists t, pow_to_target (h_bits h) = Some t /\ be_val hash <= be_val t).
Proof.
  intros O hash. destruct (header_share_hash_exact real256 real512 (real_sha3 al) h O (fun x => proj1 (real256_digest x))) as [E1 E2]. unfold hash. rewrite E2, E1, (share_published al h O). split; [reflexivity|].
  apply (proof_of_work_exact real256 real512 (real_sha3 al) h O real256_digest).
Qed.
(** Two headers with the same proof of work before the mask are the same, or two of the strings
    hashed for them collide *)
Theorem real_header_commits al h1 h2 : hdr_ok h1 -> hdr_ok h2 ->
  hdr_share_hash real256 real512 (real_sha3 al) h1 = hdr_share_hash real256 real512 (real_sha3 al) h2 -> 
  h1 = h2 \/ collision 32 (strings256 real256 real512 (real_sha3 al) h1 ++ strings256 real256 real512 (real_sha3 al) h2) \/ collision 64 (strings512 real256 h1 ++ strings512 real256 h2).
Proof.
  intros O1 O2 E. destruct (header_bytes al h1 O1) as (_ & S1 & T1). destruct (header_bytes al h2 O2) as (_ & S2 & T2).
  destruct (collide real256 32 (strings256 real256 real512 (real_sha3 al) h1 ++ strings256 real256 real512 (real_sha3 al) h2) real256_any) as [G|C]; [apply Forall_app; auto| |right; left; exact C].
  destruct (collide real512 64 (strings512 real256 h1 ++ strings512 real256 h2) real512_any) as [G2|C]; [apply Forall_app; auto| |right; right; exact C].
  left. exact (header_share_hash_commits real256 real512 (real_sha3 al) h1 h2 real256_digest (fun x => proj1 (real512_digest x)) O1 O2 G G2 E).
Qed.
