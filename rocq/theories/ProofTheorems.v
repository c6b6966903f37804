(** C01-C04: Urkel name proofs. *)
From Verif Require Import CommonFacts ProofModel ProofSpec ProofFacts.

(** C01.  Whatever bytes a peer sends: if they decode to a proof that verifies
    for [key] against the root of a tree, the answer is the tree's answer.  The
    hash hypothesis only speaks about strings hashed for this tree and by this
    verification. *)
Theorem name_proof_sound :
  forall (H : list Z -> list Z) (t : tree) (bytes rest key : list Z) (p : proof),
  bytes_ok bytes -> proof_read bytes = Ok (Some (p, rest)) ->
  hash32 key -> wf_tree t ->
  hash_good_on H (tree_strings H t ++ verify_pres H key p) ->
  (forall data, proof_verify H (tree_hash H t) key p = Ok (Some data) ->
     exists v, In (key, v) (leaves t) /\ value_has_data v data) /\
  (proof_verify H (tree_hash H t) key p = Ok None -> forall v, ~ In (key, v) (leaves t)).
Proof.
  intros H t bytes rest key p Hb Hr [Hk _] Hwf Hg.
  destruct (proof_read_total bytes Hb) as [_ V]. destruct (V _ _ Hr) as [Vp _].
  split; [intros data E; exact (verify_sound H t key p _ Hk Vp Hwf Hg E)
         |intro E; exact (verify_sound H t key p _ Hk Vp Hwf Hg E)].
Qed.

(** The strings listed in the hypothesis above are all the strings the
    verification hashes: a hash function that agrees on them gives the same
    result. *)
Theorem name_proof_strings_complete :
  forall H H' root key p,
  (forall x, In x (verify_pres H key p) -> H' x = H x) ->
  proof_verify H' root key p = proof_verify H root key p.
Proof. exact verify_ext. Qed.

(** A well-formed tree stores at most one value per key and a value carries at
    most one resource, so "the tree's answer" is well defined. *)
Theorem tree_answer_unique :
  forall t key v1 v2 d1 d2, wf_tree t ->
  In (key, v1) (leaves t) -> In (key, v2) (leaves t) ->
  value_has_data v1 d1 -> value_has_data v2 d2 -> v1 = v2 /\ d1 = d2.
Proof.
  intros t key v1 v2 d1 d2 Hwf I1 I2 D1 D2.
  pose proof (leaves_unique [] t Hwf key v1 v2 I1 I2) as E. subst v2. split; [reflexivity|].
  destruct (wf_leaves [] t key v1 Hwf I1) as (_ & Hv & _).
  exact (value_data_unique v1 d1 d2 Hv D1 D2).
Qed.

(** C02. *)
Theorem honest_name_proof_accepted :
  forall (H : list Z -> list Z) (t : tree) (key rest : list Z),
  (forall x, hash32 (H x)) -> wf_tree t -> hash32 key ->
  (forall k v, In (k, v) (leaves t) -> exists data, value_has_data v data) ->
  exists p, proof_read (honest_proof H t key ++ rest) = Ok (Some (p, rest)) /\
    (forall v data, In (key, v) (leaves t) -> value_has_data v data ->
       proof_verify H (tree_hash H t) key p = Ok (Some data)) /\
    ((forall v, ~ In (key, v) (leaves t)) -> proof_verify H (tree_hash H t) key p = Ok None).
Proof. exact honest_accepted. Qed.

(** C03. *)
Theorem accepted_name_proofs_agree :
  forall (H : list Z -> list Z) (root key b1 rest1 b2 rest2 : list Z) (p1 p2 : proof) r1 r2,
  bytes_ok b1 -> bytes_ok b2 ->
  proof_read b1 = Ok (Some (p1, rest1)) -> proof_read b2 = Ok (Some (p2, rest2)) ->
  hash32 key ->
  hash_good_on H (verify_pres H key p1 ++ verify_pres H key p2) ->
  proof_verify H root key p1 = Ok r1 -> proof_verify H root key p2 = Ok r2 ->
  r1 = r2.
Proof.
  intros H root key b1 rest1 b2 rest2 p1 p2 r1 r2 Hb1 Hb2 R1 R2 [Hk _] Hg V1 V2.
  destruct (proof_read_total b1 Hb1) as [_ W1]. destruct (W1 _ _ R1) as [U1 _].
  destruct (proof_read_total b2 Hb2) as [_ W2]. destruct (W2 _ _ R2) as [U2 _].
  exact (verify_agree H root key p1 p2 r1 r2 Hk U1 U2 Hg V1 V2).
Qed.

(** C04. *)
Theorem proof_decoding_total :
  forall bytes, bytes_ok bytes ->
  proof_read bytes = Ok None \/
  exists p consumed rest, proof_read bytes = Ok (Some (p, rest)) /\
    bytes = consumed ++ rest /\ within_limits p.
Proof.
  intros bytes Hb. destruct (proof_read_total bytes Hb) as [[o Eo] _].
  destruct o as [[p r]|]; [right|left; exact Eo].
  destruct (proof_read_suffix bytes p r Eo) as [c Ec].
  exists p, c, r. split; [exact Eo|]. split; [exact Ec|]. exact (proof_read_limits bytes p r Hb Eo).
Qed.

Theorem proof_decoding_lossless :
  forall depth ns e rest, 0 <= depth <= 256 -> path_ok ns -> ending_ok e ->
  proof_read (encode_proof depth ns e ++ rest) = Ok (Some (struct_of depth ns e, rest)).
Proof. exact proof_read_encode. Qed.

Theorem proof_verification_never_aborts :
  forall H bytes rest p root key, bytes_ok bytes -> length key = 32%nat ->
  proof_read bytes = Ok (Some (p, rest)) ->
  (exists r, proof_verify H root key p = Ok r) \/
  (exists e, proof_verify H root key p = Err e /\ 5 <= e <= 11).
Proof.
  intros H bytes rest p root key Hb Hk Hr.
  destruct (proof_read_total bytes Hb) as [_ V]. destruct (V _ _ Hr) as [Vp _].
  destruct (verify_total H root key p Hk Vp) as [A|(e & A & B)]; [left; exact A|right].
  exists e. split; [exact A|]. unfold verify_error, HSK_EENCODING, HSK_EHASHMISMATCH, HSK_ESAMEKEY,
    HSK_ESAMEPATH, HSK_ENEGDEPTH, HSK_EPATHMISMATCH, HSK_ETOODEEP in B. lia.
Qed.

(** The wire format is not canonical: two different byte strings can decode to
    the same proof (a two-byte length below 128, unused bitmap bits). *)
Theorem proof_encoding_unique_refuted :
  exists b1 b2 p, bytes_ok b1 /\ bytes_ok b2 /\ b1 <> b2 /\
    proof_read b1 = Ok (Some (p, [])) /\ proof_read b2 = Ok (Some (p, [])).
Proof.
  exists ([0; 64; 0; 0; 3; 160] ++ repeat 1 64), ([0; 64; 0; 0; 128; 3; 160] ++ repeat 1 64).
  eexists. split; [apply bytes_ok_check; reflexivity|]. split; [apply bytes_ok_check; reflexivity|].
  split; [discriminate|]. split; [vm_compute; reflexivity|]. vm_compute; reflexivity.
Qed.

(** ** The hypotheses are met *)

(** C02/C04 on a concrete tree: a stored key, and a key that is absent because it
    leaves the tree inside a skipped prefix. *)
Example ex_wf : wf_tree ex_tree.
Proof. exact ex_tree_wf. Qed.

Example ex_honest :
  exists p1 p4, proof_read (honest_proof ex_hash ex_tree ex_k1) = Ok (Some (p1, [])) /\
    proof_verify ex_hash (tree_hash ex_hash ex_tree) ex_k1 p1 = Ok (Some [1; 2; 3; 4]) /\
    proof_read (honest_proof ex_hash ex_tree ex_k4) = Ok (Some (p4, [])) /\
    proof_verify ex_hash (tree_hash ex_hash ex_tree) ex_k4 p4 = Ok None.
Proof.
  eexists. eexists. split; [vm_compute; reflexivity|]. split; [vm_compute; reflexivity|].
  split; [vm_compute; reflexivity|]. vm_compute; reflexivity.
Qed.

Example ex_values : forall k v, In (k, v) (leaves ex_tree) -> exists data, value_has_data v data.
Proof.
  intros k v [E|[E|[E|[]]]]; injection E as <- <-.
  - exists [1; 2; 3; 4]. split; [vm_compute; discriminate|]. exists [97; 98; 99], [250; 251]. repeat split; vm_compute; congruence.
  - exists [9; 9]. split; [vm_compute; discriminate|]. exists [97], []. repeat split; vm_compute; congruence.
  - exists []. split; [vm_compute; discriminate|]. exists [], []. repeat split; vm_compute; congruence.
Qed.

(** C01/C03: the hash hypothesis holds for the toy hash on this run. *)
Example ex_sound_hyp :
  exists p, proof_read (honest_proof ex_hash ex_tree ex_k1) = Ok (Some (p, [])) /\
    hash_good_on ex_hash (tree_strings ex_hash ex_tree ++ verify_pres ex_hash ex_k1 p).
Proof.
  eexists. split; [vm_compute; reflexivity|].
  apply hash_good_check; [exact ex_hash32|]. vm_compute. reflexivity.
Qed.

(** A proof claiming that the stored key is absent is rejected. *)
Example ex_lie_rejected :
  exists p, proof_read (encode_proof 1 [([], tree_hash ex_hash (Leaf ex_k3 ex_v3))] EDead) = Ok (Some (p, [])) /\
    proof_verify ex_hash (tree_hash ex_hash ex_tree) ex_k1 p = Err 6.
Proof. eexists. split; [vm_compute; reflexivity|]. vm_compute; reflexivity. Qed.

Print Assumptions name_proof_sound.
Print Assumptions name_proof_strings_complete.
Print Assumptions tree_answer_unique.
Print Assumptions honest_name_proof_accepted.
Print Assumptions accepted_name_proofs_agree.
Print Assumptions proof_decoding_total.
Print Assumptions proof_decoding_lossless.
Print Assumptions proof_verification_never_aborts.
Print Assumptions proof_encoding_unique_refuted.
