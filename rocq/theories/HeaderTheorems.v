(** C05, C06, C07, C09, C10: headers, compact difficulty, work, proof of work. *)
From Verif Require Import Common CommonFacts BioModel BnModel BnSpec HeaderModel HeaderSpec HeaderFacts ProofSpec ProofFacts.

(** C05: the 236-byte encoding has the consensus layout, is lossless in both
    directions, and decoding fails exactly on inputs shorter than 236 bytes. *)
Theorem header_codec_lossless :
  (forall h rest, hdr_ok h ->
     wire_layout (hdr_write h) h /\ bytes_ok (hdr_write h) /\
     hdr_read (hdr_write h ++ rest) = Some (h, rest) /\ hdr_decode (hdr_write h ++ rest) = Some h) /\
  (forall d h rest, bytes_ok d -> hdr_read d = Some (h, rest) -> hdr_ok h /\ d = hdr_write h ++ rest) /\
  (forall d, bytes_ok d -> (hdr_decode d = None <-> (length d < 236)%nat)).
Proof.
  split; [|split].
  - intros h rest O. pose proof (hdr_read_write h rest O) as R.
    split; [exact (layout h O)|]. split; [exact (hdr_write_bytes h O)|]. split; [exact R|].
    unfold hdr_decode. rewrite R. reflexivity.
  - intros d h rest O E. destruct (hdr_read_inv d h rest O E) as (A & B & _). auto.
  - intros d O. rewrite <- (hdr_read_none d O). unfold hdr_decode. destruct (hdr_read d); split; intros; cbn in *; congruence.
Qed.

(** C06: the proof-of-work hash before masking is the specified function of the
    header, hashes exactly the listed strings, and fixes every consensus field
    unless a hash collides on those strings. The block hash is the share hash
    with the mask xored in. *)
Theorem header_share_hash_exact : forall B256 B512 S3 h, hdr_ok h ->
  (forall x, length (B256 x) = 32%nat) ->
  hdr_share_hash B256 B512 S3 h = spec_share B256 B512 S3 h /\
  xor_bytes (hdr_hash B256 B512 S3 h) (h_mask h) = hdr_share_hash B256 B512 S3 h.
Proof.
  intros B256 B512 S3 h O L. split; [apply share_spec; auto|].
  apply xor_bytes_invol. unfold hdr_share_hash. rewrite L. symmetry. apply O.
Qed.

Theorem header_share_hash_strings_complete : forall B256 B256' B512 B512' S3 h, hdr_ok h ->
  (forall x, In x (strings256 B256 B512 S3 h) -> B256' x = B256 x) ->
  (forall x, In x (strings512 B256 h) -> B512' x = B512 x) ->
  hdr_share_hash B256' B512' S3 h = hdr_share_hash B256 B512 S3 h.
Proof. intros. apply strings_complete; auto. Qed.

Theorem header_share_hash_commits : forall B256 B512 S3 h1 h2,
  (forall x, length (B256 x) = 32%nat /\ bytes_ok (B256 x)) -> (forall x, length (B512 x) = 64%nat) ->
  hdr_ok h1 -> hdr_ok h2 ->
  collision_free B256 (strings256 B256 B512 S3 h1 ++ strings256 B256 B512 S3 h2) ->
  collision_free B512 (strings512 B256 h1 ++ strings512 B256 h2) ->
  hdr_share_hash B256 B512 S3 h1 = hdr_share_hash B256 B512 S3 h2 -> h1 = h2.
Proof. intros B256 B512 S3 h1 h2 L1 L2. exact (share_commits B256 B512 S3 L1 L2 h1 h2). Qed.

(** C07: decoding. Every non-negative, non-zero compact value whose number fits
    256 bits decodes to that number; for exponents up to 34 nothing else decodes. *)
Theorem compact_decoding_exact : forall e m, 0 <= e < 256 -> 0 <= m < 2 ^ 24 ->
  (m < 2 ^ 23 -> compact e m <> 0 -> compact_value e m < 2 ^ 256 ->
     exists t, pow_to_target (compact e m) = Some t /\ hash_ok t /\ be_val t = compact_value e m) /\
  (e <= 34 -> (compact e m = 0 \/ 2 ^ 23 <= m \/ 2 ^ 256 <= compact_value e m) ->
     pow_to_target (compact e m) = None) /\
  (compact e m = 0 \/ 2 ^ 23 <= m -> pow_to_target (compact e m) = None).
Proof.
  intros e m He Hm. split; [|split].
  - intros. apply to_target_value; auto; lia.
  - intros. apply to_target_rejects; auto; lia.
  - intros X. destruct (to_target_exact e m He Hm) as [(t & _ & _ & _ & A & B & _)|(E & _)]; auto. lia.
Qed.

(** For exponents above 34 the number does not fit, but the code reduces the
    exponent modulo 32 and accepts. *)
Theorem compact_overflow_rejected_refuted : exists bits e m t,
  bits = compact e m /\ 0 <= e < 256 /\ 0 <= m < 2 ^ 23 /\ 2 ^ 256 <= compact_value e m /\
  pow_to_target bits = Some t /\ be_val t < compact_value e m.
Proof.
  exists 603979777, 36, 1, (repeat 0 30 ++ [1; 0]).
  split; [reflexivity|]. split; [lia|]. split; [lia|]. split; [vm_compute; discriminate|].
  split; [vm_compute; reflexivity|]. vm_compute; reflexivity.
Qed.

(** C07: encoding gives the canonical form of the greatest representable number
    not above the target. *)
Theorem compact_encoding_greatest : forall t, hash_ok t ->
  (be_val t = 0 /\ pow_to_bits t = 0) \/
  (exists e m, pow_to_bits t = compact e m /\ canonical e m /\ e <= 33 /\
     compact_value e m <= be_val t /\
     forall e' m', 0 <= e' -> 0 <= m' < 2 ^ 23 -> compact_value e' m' <= be_val t ->
       compact_value e' m' <= compact_value e m).
Proof. exact to_bits_spec. Qed.

(** C07: decoding then encoding a canonical compact value is the identity. *)
Theorem compact_canonical_roundtrip : forall e m, canonical e m -> e < 256 -> compact_value e m < 2 ^ 256 ->
  exists t, pow_to_target (compact e m) = Some t /\ be_val t = compact_value e m /\
    pow_to_bits t = compact e m.
Proof. exact canonical_roundtrip. Qed.

(** C09: work of one header. The genesis header gets its own proof (previous
    header absent), every other header the previous work plus its proof, both
    modulo 2^256; bits that do not decode give no work. *)
Theorem work_of_header_exact : forall bits, 0 <= bits < 2 ^ 32 ->
  match pow_to_target bits with
  | None => forall w, calc_work bits w = None
  | Some t =>
      (exists p, calc_work bits None = Some p /\ hash_ok p /\ be_val p = work_of (be_val t) mod 2 ^ 256) /\
      (forall w, hash_ok w -> exists p, calc_work bits (Some w) = Some p /\ hash_ok p /\
         be_val p = (be_val w + work_of (be_val t)) mod 2 ^ 256)
  end.
Proof.
  intros bits B. destruct (pow_to_target bits) as [t|] eqn:E.
  - pose proof (target_hash_ok bits t B E) as O. split.
    + apply (get_proof_spec bits t E O).
    + intros w Hw. apply (calc_work_spec bits t w E O Hw).
  - intros w. apply calc_work_none. exact E.
Qed.

(** C09: along a chain the work is the starting work plus the sum of the proofs. *)
Theorem work_along_chain_is_sum : forall bits ts w, hash_ok w ->
  Forall (fun b => 0 <= b < 2 ^ 32) bits -> Forall2 (fun b t => pow_to_target b = Some t) bits ts ->
  exists w', work_along calc_work bits w = Some w' /\ hash_ok w' /\
    be_val w' = (be_val w + fold_right Z.add 0 (map (fun t => work_of (be_val t)) ts)) mod 2 ^ 256.
Proof. intros bits ts w. apply work_along_spec. Qed.

(** C09: each header strictly increases the work while the sum stays below 2^256. *)
Theorem work_strictly_increases : forall bits t w p, 0 <= bits < 2 ^ 32 -> hash_ok w ->
  pow_to_target bits = Some t -> calc_work bits (Some w) = Some p ->
  be_val w + work_of (be_val t) < 2 ^ 256 -> be_val w < be_val p.
Proof.
  intros bits t w p B Ow E Ep Hlt. pose proof (target_hash_ok bits t B E) as O.
  destruct (calc_work_spec bits t w E O Ow) as (p' & E' & _ & V).
  assert (p' = p) by congruence. subst p'. destruct Ow as [_ Ow], O as [LO OO].
  pose proof (be_val_bounds _ Ow) as B1. pose proof (be_val_bounds _ OO) as B2.
  assert (Z2 : zlen t = 32) by (unfold zlen; lia). rewrite Z2, <- p256 in B2.
  pose proof (work_pos (be_val t) B2). rewrite V, Z.mod_small; lia.
Qed.

(** C10: the proof-of-work verdict, for every header and every hash function. *)
Theorem proof_of_work_exact : forall B256 B512 S3 h, hdr_ok h ->
  (forall x, length (B256 x) = 32%nat /\ bytes_ok (B256 x)) ->
  (verify_pow B256 B512 S3 h = 0 <->
     exists t, pow_to_target (h_bits h) = Some t /\ be_val (hdr_hash B256 B512 S3 h) <= be_val t) /\
  (verify_pow B256 B512 S3 h = 19 <-> pow_to_target (h_bits h) = None) /\
  (verify_pow B256 B512 S3 h = 20 <->
     exists t, pow_to_target (h_bits h) = Some t /\ be_val t < be_val (hdr_hash B256 B512 S3 h)).
Proof.
  intros B256 B512 S3 h O L. rewrite (verify_pow_spec B256 B512 S3 L h O).
  destruct (pow_to_target (h_bits h)) as [t|].
  - destruct (Z.ltb_spec (be_val t) (be_val (hdr_hash B256 B512 S3 h))); repeat split; try discriminate; try lia;
      try (intros (t' & E & ?); injection E as <-; lia); intros _; exists t; split; auto; lia.
  - repeat split; try discriminate; intros (t' & E & _); discriminate.
Qed.

(* ---------- concrete cases ---------- *)

Definition ex_hdr : hdr := mk_hdr 305419896 1580745078 (repeat 17 32) (repeat 34 32) (repeat 51 24)
  (repeat 68 32) (repeat 85 32) (repeat 102 32) 0 486604799 (repeat 119 32).
Definition ex_hdr2 : hdr := mk_hdr 305419896 1580745078 (repeat 17 32) (repeat 34 32) (repeat 51 24)
  (repeat 68 32) (repeat 85 32) (repeat 103 32) 0 486604799 (repeat 119 32).
(** A cheap toy hash: a checksum followed by constant bytes. *)
Definition ex_hash32b (x : list Z) : list Z :=
  be_bytes 2 (fold_left (fun a b => (a * 31 + b + 1) mod 65521) x 7) ++ repeat 1 30.
Definition ex_hash64 (x : list Z) : list Z := ex_hash32b x ++ repeat 2 32.

Example ex_hdr_ok : hdr_ok ex_hdr /\ hdr_ok ex_hdr2.
Proof.
  split; unfold hdr_ok, hash_ok; cbn -[Z.pow repeat]; repeat split; try lia;
    apply bytes_ok_check; vm_compute; reflexivity.
Qed.

(** The collision hypotheses hold for the toy hash on two different headers. *)
Example ex_no_collision :
  (forall x, length (ex_hash32b x) = 32%nat /\ bytes_ok (ex_hash32b x)) /\
  collision_free ex_hash32b (strings256 ex_hash32b ex_hash64 ex_hash32b ex_hdr
                             ++ strings256 ex_hash32b ex_hash64 ex_hash32b ex_hdr2) /\
  collision_free ex_hash64 (strings512 ex_hash32b ex_hdr ++ strings512 ex_hash32b ex_hdr2).
Proof.
  split; [|split].
  - intros x. unfold ex_hash32b. split; [rewrite app_length, be_bytes_length; reflexivity|].
    apply bytes_ok_app. split; [apply be_bytes_ok|]. apply bytes_ok_check. reflexivity.
  - unfold collision_free. apply no_collision_sound. vm_compute. reflexivity.
  - unfold collision_free. apply no_collision_sound. vm_compute. reflexivity.
Qed.

(** Mainnet's initial difficulty 0x1c00ffff is canonical: its mantissa 0x00ffff is
    at least 2^15. *)
Example ex_canonical : canonical 28 65535 /\ compact 28 65535 = 469827583 /\ compact_value 28 65535 < 2 ^ 256.
Proof. repeat split; try lia; try (vm_compute; congruence). Qed.

Example ex_work : exists t p, pow_to_target 469827583 = Some t /\ calc_work 469827583 (Some (repeat 0 31 ++ [5])) = Some p
  /\ be_val p = 5 + 2 ^ 256 / (be_val t + 1) /\ be_val p = 1099528405253.
Proof.
  eexists. eexists. split; [vm_compute; reflexivity|]. split; [vm_compute; reflexivity|].
  split; [vm_compute; reflexivity|]. vm_compute; reflexivity.
Qed.

Print Assumptions header_codec_lossless.
Print Assumptions header_share_hash_exact.
Print Assumptions header_share_hash_strings_complete.
Print Assumptions header_share_hash_commits.
Print Assumptions compact_decoding_exact.
Print Assumptions compact_overflow_rejected_refuted.
Print Assumptions compact_encoding_greatest.
Print Assumptions compact_canonical_roundtrip.
Print Assumptions work_of_header_exact.
Print Assumptions work_along_chain_is_sum.
Print Assumptions work_strictly_increases.
Print Assumptions proof_of_work_exact.
