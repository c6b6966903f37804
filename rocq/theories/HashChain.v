(** The header chain (C11, C17) and the proofs of names (C01) together, with the real hash
    functions: what a name resolves to. *)
From Verif Require Import Common CommonFacts ProofModel ProofSpec ProofFacts ProofTheorems HeaderModel HeaderSpec HeaderFacts ChainModel ChainSpec ChainTheorems ChainExamples HashReal.
From Verif Require Blake2bSpec Sha3Spec.
#[local] Opaque real256 real512 real_sha3 real_key.

(** On any network and after any offered headers, the root that answers are checked against is
    in a header of the chain with the most work, at the height of the last update of the tree;
    every answer accepted for a name is that of the tree with this root, or two of the strings
    hashed for the tree and the proof have the same BLAKE2b (or one has the digest 0). *)
Theorem real_resolution al N st0 ops st : net_ok N -> started real256 real512 (real_sha3 al) N st0 -> run real256 real512 (real_sha3 al) N st0 ops st -> admissible real256 real512 (real_sha3 al) st0 ops ->
  c_init st = 0 \/ c_init st + 11 <= c_height st \/ (n_noretarget N = false /\ n_reset N = false /\ 146 <= c_init st0) ->
  exists e, safe_root N st = Ok (h_root (e_hdr e)) /\ ancestor (chain_get st) (c_tip st) e /\
    (forall e', conn st e' -> work_val e' <= work_val (c_tip st)) /\
    e_height e = (if c_height st mod n_interval N <? 12 then c_height st - c_height st mod n_interval N else c_height st) /\
    forall t bytes rest name p, tree_hash real256 t = h_root (e_hdr e) -> wf_tree t -> bytes_ok bytes -> bytes_ok name -> proof_read bytes = Ok (Some (p, rest)) ->
      (forall data, proof_verify real256 (h_root (e_hdr e)) (real_key al name) p = Ok (Some data) ->
         (exists v, In (Sha3Spec.sha3 256 name, v) (leaves t) /\ value_has_data v data) \/ collision 32 (name_strings t (real_key al name) p) \/ zero_digest (name_strings t (real_key al name) p)) /\
      (proof_verify real256 (h_root (e_hdr e)) (real_key al name) p = Ok None ->
         (forall v, ~ In (Sha3Spec.sha3 256 name, v) (leaves t)) \/ collision 32 (name_strings t (real_key al name) p) \/ zero_digest (name_strings t (real_key al name) p)).
Proof.
  intros NO S R A I. destruct (safe_root_on_best_chain _ _ _ real256_digest N NO st0 ops st S R A I) as (e & E1 & E2 & E3). destruct (tip_has_most_work _ _ _ real256_digest N NO st0 ops st S R A) as (_ & _ & W & _).
  exists e. split; [exact E1|]. split; [exact E2|]. split; [exact W|]. split; [exact E3|]. intros t bytes rest name p T Wf B Bn P. destruct (real_name_answer al t bytes rest name p B Bn Wf P) as [K [Q1 Q2]].
  rewrite <- T. rewrite <- K. split; assumption.
Qed.

(** ** Examples *)
(** The hash of the first block of the main network: 5b6ef2d3c1f3cdcadfd9a030ba1811efdd17740f14e1
    66489760741d075992e0. Its first four bytes are the magic number of the network. *)
Definition first_main : hdr := Eval vm_compute in match hdr_decode genesis_main with Some h => h | None => mk 0 0 [] 0 end.
Definition main_hash : list Z :=
  [0x5b; 0x6e; 0xf2; 0xd3; 0xc1; 0xf3; 0xcd; 0xca; 0xdf; 0xd9; 0xa0; 0x30; 0xba; 0x18; 0x11; 0xef; 0xdd; 0x17; 0x74; 0x0f; 0x14; 0xe1; 0x66; 0x48; 0x97; 0x60; 0x74; 0x1d; 0x07; 0x59; 0x92; 0xe0].
Example ex_main : hdr_decode genesis_main = Some first_main /\ hdr_hash real256 real512 (real_sha3 true) first_main = main_hash.
Proof. split; vm_compute; reflexivity. Qed.

(** A block on regtest, with enough work *)
Definition first_reg : hdr := Eval vm_compute in match hdr_decode genesis_regtest with Some h => h | None => mk 0 0 [] 0 end.
Definition reg_hash : list Z :=
  [0xae; 0x38; 0x95; 0xcf; 0x59; 0x7e; 0xff; 0x05; 0xb1; 0x9e; 0x02; 0xa7; 0x0c; 0xee; 0xee; 0xcb; 0x9d; 0xc7; 0x2d; 0xbf; 0xe6; 0x50; 0x4a; 0x50; 0xe9; 0x34; 0x3a; 0x72; 0xf0; 0x6a; 0x87; 0xc5].
Lemma reg_first : hdr_hash real256 real512 (real_sha3 true) first_reg = reg_hash.
Proof. vm_compute. reflexivity. Qed.
Definition next_reg : hdr := mk_hdr 0 1580745680 reg_hash (repeat 0 32) (repeat 0 24) (repeat 0 32) (repeat 0 32) (repeat 0 32) 0 0x207fffff (repeat 0 32).
Definition next_hash : list Z := Eval vm_compute in hdr_hash real256 real512 (real_sha3 true) next_reg.
Lemma reg_next : hdr_hash real256 real512 (real_sha3 true) next_reg = next_hash.
Proof. vm_compute. reflexivity. Qed.
Definition first_entry : entry := mk_entry first_reg reg_hash 0 (repeat 0 31 ++ [2]).
Definition r0 : chain := mk_chain 0 0 first_entry first_entry (maybe_sync net_regtest 1600000000 false first_entry) [(reg_hash, first_entry)] [(0, first_entry)] [] [] true None.
Lemma r0_init : chain_init real256 real512 (real_sha3 true) net_regtest 1600000000 true = Ok r0.
Proof.
  unfold chain_init. replace (hdr_decode (n_genesis net_regtest)) with (Some first_reg) by (vm_compute; reflexivity). cbv beta iota. replace (calc_work (h_bits first_reg) None) with (Some (repeat 0 31 ++ [2])) by (vm_compute; reflexivity). cbv beta iota zeta. rewrite reg_first. reflexivity.
Qed.
Definition r1 : chain := Eval vm_compute in match chain_add real256 real512 (real_sha3 true) net_regtest 1600000000 r0 next_reg with Ok (_, s) => s | _ => r0 end.
Lemma r1_add : chain_add real256 real512 (real_sha3 true) net_regtest 1600000000 r0 next_reg = Ok (0, r1).
Proof. unfold chain_add, verify_pow. rewrite reg_next. vm_compute. reflexivity. Qed.
Lemma r0_started : started real256 real512 (real_sha3 true) net_regtest r0.
Proof. eapply st_genesis; [exact r0_init|]. vm_compute. reflexivity. Qed.
Lemma r1_run : run real256 real512 (real_sha3 true) net_regtest r0 [(1600000000, next_reg)] r1.
Proof. exact (run_add _ _ _ _ _ [] r0 1600000000 next_reg 0 r1 (run_nil _ _ _ _ _) r1_add). Qed.
Lemma r1_admissible : admissible real256 real512 (real_sha3 true) r0 [(1600000000, next_reg)].
Proof.
  split; [|vm_compute; reflexivity]. apply Forall_cons; [|apply Forall_nil]. split; [apply hdr_okb_ok; vm_compute; reflexivity|]. split; [cbn [fst]; lia|]. intros e Be. cbn [snd]. rewrite reg_next. apply base_prevs_in in Be. intros E. rewrite <- E in Be.
  assert (X : existsb (beq next_hash) (base_prevs r0) = true) by (apply existsb_exists; exists next_hash; split; [exact Be|apply beq_true_iff; reflexivity]). vm_compute in X. discriminate X.
Qed.
Example ex_resolution : net_ok net_regtest /\ started real256 real512 (real_sha3 true) net_regtest r0 /\ run real256 real512 (real_sha3 true) net_regtest r0 [(1600000000, next_reg)] r1 /\
  admissible real256 real512 (real_sha3 true) r0 [(1600000000, next_reg)] /\ c_init r1 = 0 /\ c_height r1 = 1 /\ safe_root net_regtest r1 = Ok (tree_hash real256 Nil).
Proof.
  split; [apply networks_ok|]. split; [exact r0_started|]. split; [exact r1_run|]. split; [exact r1_admissible|]. split; [reflexivity|]. split; [reflexivity|]. vm_compute. reflexivity.
Qed.
(** A tree with two names: one is found, another one is not there *)
Definition key_a : list Z := Eval vm_compute in real_key true [97].
Definition two : tree := Node [] (Leaf (repeat 0 32) ex_v2) (Leaf key_a ex_v1).
Definition two_root : list Z := Eval vm_compute in tree_hash real256 two.
Example ex_two : real_key true [97] = key_a /\ wf_tree two /\ tree_hash real256 two = two_root /\
  exists p, proof_read (honest_proof real256 two key_a) = Ok (Some (p, [])) /\ proof_verify real256 two_root key_a p = Ok (Some [1; 2; 3; 4]) /\
    (exists q, proof_read (encode_proof 0 [] EDead) = Ok (Some (q, [])) /\ proof_verify real256 two_root key_a q = Err 6).
Proof.
  split; [vm_compute; reflexivity|]. split.
  - unfold two, wf_tree. cbn [wf_at]. split; [cbn; lia|]. split; (split; [reflexivity|]; split; [apply bytes_ok_check; vm_compute; reflexivity|]; split; [apply bytes_ok_check; vm_compute; reflexivity|]); eexists; vm_compute; reflexivity.
  - split; [vm_compute; reflexivity|]. eexists. split; [vm_compute; reflexivity|]. split; [vm_compute; reflexivity|]. eexists. split; [vm_compute; reflexivity|]. vm_compute. reflexivity.
Qed.

Print Assumptions real_name_answer.
Print Assumptions real_answers_agree.
Print Assumptions real_honest_accepted.
Print Assumptions real_header_hash.
Print Assumptions real_header_commits.
Print Assumptions real_resolution.
