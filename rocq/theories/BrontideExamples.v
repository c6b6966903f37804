(** Concrete runs of the encrypted transport with toy primitives: the hypotheses of the
    theorems are met, and two inputs on which the handshake code goes wrong. *)
From Verif Require Import Common CommonFacts BioModel BrontideModel BrontideSpec BrontideFacts BrontideTheorems.

(** Toy primitives. They have the shapes of the real ones, not their strength. *)
Definition sum (l : list Z) : Z := fold_left (fun a x => (31 * a + x + 7) mod 65521) l 1.
Definition spread (n : nat) (v : Z) : list Z := map (fun i => (v / (1 + Z.of_nat i) + 13 * Z.of_nat i) mod 256) (seq 0 n).
Definition t_chacha (k iv : list Z) (n : nat) : Z := (sum k + 3 * sum iv + 5 * Z.of_nat n) mod 256.
Definition t_poly (k d : list Z) : list Z := spread 16 (sum k + sum d).
Definition t_sha (d : list Z) : list Z := spread 32 (sum d).
Definition t_hmac (d k : list Z) : list Z := spread 32 (sum (k ++ d)).
Definition t_pub (k : list Z) : option (list Z) := if zlen k =? 32 then Some (2 :: k) else None.
Definition t_ecdh (P k : list Z) : option (list Z) := if zlen P =? 33 then Some (map (fun '(a, b) => (a + b) mod 256) (combine (tl P) k)) else None.
Definition t_to (P r : list Z) : list Z := P ++ repeat 9 31.
Definition t_from (u : list Z) : option (list Z) := if nth 0 u 0 =? 2 then Some (firstn 33 u) else None.
Definition t_verify (P : list Z) : bool := zlen P =? 33.
Definition t_connect (w : list Z) (c : cs) : list Z * cs * bool := (w, c, false).
(** The application appends what it reads to the environment. *)
Definition t_read (w : list Z) (c : cs) (m : list Z) : list Z * cs * bool := (w ++ m, c, false).

Lemma is_byte_mod v : is_byte (v mod 256).
Proof. unfold is_byte. apply Z.mod_pos_bound. reflexivity. Qed.
Lemma toy_bytes a b n : is_byte (t_chacha a b n).
Proof. apply is_byte_mod. Qed.
Lemma toy_tag a b : length (t_poly a b) = 16%nat /\ bytes_ok (t_poly a b).
Proof. split; [reflexivity|]. unfold t_poly, spread, bytes_ok. apply Forall_forall. intros x H. apply in_map_iff in H as (i & <- & _). apply is_byte_mod. Qed.
Lemma toy_dh a b A B : t_pub a = Some A -> t_pub b = Some B -> exists x, t_ecdh A b = Some x /\ t_ecdh B a = Some x.
Proof.
  unfold t_pub, t_ecdh. destruct (Z.eqb_spec (zlen a) 32) as [La|]; [|discriminate]. destruct (Z.eqb_spec (zlen b) 32) as [Lb|]; [|discriminate].
  intros E F. injection E as <-. injection F as <-. rewrite !zlen_cons, La, Lb. change (1 + 32 =? 33) with true. cbv iota. cbn [tl]. eexists. split; [reflexivity|].
  f_equal. unfold zlen in *. assert (L : length a = length b) by lia. clear - L. revert b L. induction a as [|x a IH]; intros [|y b] L; try discriminate; [reflexivity|].
  cbn [combine map]. rewrite IH by (injection L; auto). now rewrite Z.add_comm.
Qed.
Lemma toy_keys a A r : t_pub a = Some A -> length A = 33%nat /\ t_verify A = true /\ length (t_to A r) = 64%nat /\ t_from (t_to A r) = Some A.
Proof.
  unfold t_pub. destruct (Z.eqb_spec (zlen a) 32) as [La|]; [|discriminate]. intros E. injection E as <-. unfold zlen in La.
  assert (L : length (2 :: a) = 33%nat) by (cbn; lia). split; [exact L|]. split; [unfold t_verify, zlen; rewrite L; reflexivity|].
  split; [unfold t_to; rewrite app_length, L; reflexivity|]. unfold t_from, t_to. cbn [app nth]. change (2 =? 2) with true. cbv iota.
  f_equal. change (2 :: a ++ repeat 9 31) with ((2 :: a) ++ repeat 9 31). rewrite firstn_app, L. change (firstn (33 - 33) (repeat 9 31)) with (@nil Z). rewrite app_nil_r. apply firstn_all2. lia.
Qed.

Notation connect := (br_on_connect t_chacha t_poly t_sha t_hmac t_pub t_ecdh t_to (list Z) log_cb).
Notation on_read := (br_on_read t_chacha t_poly t_sha t_hmac t_pub t_ecdh t_to t_from t_verify (list Z) log_cb t_connect t_read).
Notation reads := (br_reads t_chacha t_poly t_sha t_hmac t_pub t_ecdh t_to t_from t_verify (list Z) log_cb t_connect t_read).
Definition key (n : Z) : list Z := spread 32 n.

(** Hypotheses of [handshake_agrees] hold for the toys: two ends with keys 100 and 200
    and ephemeral keys 300 and 400. *)
Example handshake_example :
  exists i2 r3 kir kri salt, established i2 kir kri salt /\ established r3 kri kir salt /\ b_rs i2 = 2 :: key 200 /\ b_rs r3 = 2 :: key 100 /\ kir <> kri.
Proof.
  destruct (handshake_agrees t_chacha t_poly t_hmac t_sha t_pub t_ecdh t_to t_from t_verify t_connect t_read
    (fun a b => proj1 (toy_tag a b)) toy_dh toy_keys (fun _ _ => eq_refl) (key 100) (key 200) (key 300) (key 400) [] []
    (2 :: key 100) (2 :: key 200) (2 :: key 300) (2 :: key 400) eq_refl eq_refl eq_refl eq_refl)
    as (es & ee & se & E1 & E2 & E3 & _ & _ & _ & i0 & r0 & i1 & r1 & r2 & i2 & r3 & _ & _ & _ & _ & _ & _ & _ & H1 & H2 & H3 & H4).
  exists i2, r3. do 3 eexists. split; [exact H1|]. split; [exact H2|]. split; [exact H3|]. split; [exact H4|].
  vm_compute in E1, E2, E3. injection E1 as <-. injection E2 as <-. injection E3 as <-. vm_compute. discriminate.
Qed.

(** The same run computed: the handshake, then two messages in either direction, the
    bytes arriving one by one. *)
Definition play : option (list Z * list Z) :=
  match br_init_brontide t_sha t_pub (br_init (key 300, [])) true (key 100) (Some (2 :: key 200)),
        br_init_brontide t_sha t_pub (br_init (key 400, [])) false (key 200) None with
  | Ok i0, Ok r0 =>
    match connect [] i0, connect [] r0 with
    | Ok (_, w1, i1), Ok (_, _, r1) =>
      match on_read [] r1 w1 with
      | Some (Ok (_, w2, r2)) =>
        match on_read [] i1 w2 with
        | Some (Ok (_, w3, i2)) =>
          match on_read [] r2 w3 with
          | Some (Ok (_, [], r3)) =>
            let '(_, wi, _) := write_all t_chacha t_poly t_hmac i2 [[1; 2; 3]; []; [4]] in
            let '(_, wr, _) := write_all t_chacha t_poly t_hmac r3 [[5]; [6; 7]] in
            match reads [] r3 (map (fun b => [b]) wi), reads [] i2 (map (fun b => [b]) wr) with
            | Some (Ok (0, got, _)), Some (Ok (0, got', _)) => Some (got, got')
            | _, _ => None
            end
          | _ => None
          end
        | _ => None
        end
      | _ => None
      end
    | _, _ => None
    end
  | _, _ => None
  end.
Example play_ok : play = Some ([1; 2; 3; 4], [5; 6; 7]).
Proof. vm_compute. reflexivity. Qed.

(** Two established ends: the hypotheses of delivery and tampering. *)
Definition end_a : br := set_io (br_init ([], [])) (cs_init_saltkey cs_init (key 1) (key 2)) (cs_init_saltkey cs_init (key 1) (key 3)) 4 false [] 20.
Definition end_b : br := set_io (br_init ([], [])) (cs_init_saltkey cs_init (key 1) (key 3)) (cs_init_saltkey cs_init (key 1) (key 2)) 4 false [] 20.
Example ends_established : established end_a (key 2) (key 3) (key 1) /\ established end_b (key 3) (key 2) (key 1).
Proof. split; repeat split; reflexivity. Qed.
Example delivery_example ms chunks : Forall (fun m => bytes_ok m /\ zlen m <= 8000009) ms ->
  concat chunks = snd (fst (write_all t_chacha t_poly t_hmac end_a ms)) ->
  exists b', reads [] end_b chunks = Some (Ok (0, concat ms, b')) /\ b_state b' = 4.
Proof.
  intros H E. destruct ends_established as [Ha Hb].
  destruct (transport_delivers_all t_chacha t_poly t_hmac t_sha t_pub t_ecdh t_to t_from t_verify (list Z) log_cb t_connect t_read
    toy_bytes toy_tag end_a end_b _ _ _ _ [] ms chunks Ha Hb H (fun _ _ _ => eq_refl) E) as (b' & R & _ & St).
  exists b'. split; [|exact St]. rewrite R. do 4 f_equal.
  assert (G : forall l w c, fst (pass (list Z * cs) (xdeliver (list Z) t_read) (w, c) l) = w ++ concat l).
  { induction l as [|m l IH]; intros w c; cbn; [now rewrite app_nil_r|]. unfold pass in IH. rewrite IH. now rewrite app_assoc. }
  apply (G ms []).
Qed.
(** A flipped bit closes the connection with code 31 and delivers nothing. *)
Example tamper_example :
  let wire := snd (fst (write_all t_chacha t_poly t_hmac end_a [[1; 2; 3]])) in
  match reads [] end_b [firstn 5 wire; Z.lxor (nth 5 wire 0) 1 :: skipn 6 wire] with
  | Some (Ok (31, [], b')) => b_state b' = 0
  | _ => False
  end.
Proof. vm_compute. reflexivity. Qed.
(** The wrong static key: the responder holds key 201, the initiator dialled key 200. *)
Example wrong_key_example :
  match br_init_brontide t_sha t_pub (br_init (key 300, [])) true (key 100) (Some (2 :: key 200)),
        br_init_brontide t_sha t_pub (br_init (key 400, [])) false (key 201) None with
  | Ok i0, Ok r0 =>
    match connect [] i0, connect [] r0 with
    | Ok (_, w1, _), Ok (_, _, r1) => match on_read [] r1 w1 with Some (Ok (27, [], d)) => b_state d = 0 | _ => False end
    | _, _ => False
    end
  | _, _ => False
  end.
Proof. vm_compute. reflexivity. Qed.
(** The nonces of 2001 uses: three epochs. *)
Example nonce_example : nth_error (trace t_chacha t_poly t_hmac (cs_init_saltkey cs_init (key 1) (key 2)) (repeat (Enc [] [7]) 2001)) 1001
  = Some (fst (epoch t_hmac (key 2) (key 1) 1), iv_of 1).
Proof.
  destruct (nonces_unique t_chacha t_poly t_hmac cs_init (key 1) (key 2) (repeat (Enc [] [7]) 2001)) as (_ & N & _); [exists 0; reflexivity|].
  rewrite N by (rewrite repeat_length; lia). reflexivity.
Qed.

(** * Findings *)
(** An act whose key encoding is invalid: hsk_ec_pubkey_from_hash leaves its output
    unset and brontide.c:369-374 (act one) and 418-426 (act two) go on with it. *)
Theorem invalid_encoding_refuted : exists i0 w i1 act,
  br_init_brontide t_sha t_pub (br_init (key 300, [])) true (key 100) (Some (2 :: key 200)) = Ok i0 /\
  connect [] i0 = Ok (0, w, i1) /\ length act = 80%nat /\ on_read w i1 act = Some Ub.
Proof.
  destruct (br_init_brontide t_sha t_pub (br_init (key 300, [])) true (key 100) (Some (2 :: key 200))) as [i0|?| |] eqn:E0; vm_compute in E0; try discriminate E0.
  destruct (connect [] i0) as [[[r w] i1]|?| |] eqn:E1; apply Ok_inj in E0; subst i0; vm_compute in E1; try discriminate E1.
  apply Ok_inj in E1. injection E1 as <- <- <-.
  do 2 eexists. exists (match connect [] (match br_init_brontide t_sha t_pub (br_init (key 300, [])) true (key 100) (Some (2 :: key 200)) with Ok i => i | _ => end_a end) with Ok (_, _, i) => i | _ => end_a end), (repeat 0 80).
  split; [reflexivity|]. split; [vm_compute; reflexivity|]. split; [reflexivity|]. vm_compute. reflexivity.
Qed.
(** A responder asserts that the key exchange with whatever key act one names succeeds:
    with a key that is not on the curve the process aborts (brontide.c:376-377; hnsd
    itself only dials, and the initiator checks the key first, 421-422). *)
Theorem responder_key_abort_refuted : exists from_hash r0 r1 act,
  br_init_brontide t_sha t_pub (br_init (key 400, [])) false (key 200) None = Ok r0 /\ connect [] r0 = Ok (0, [], r1) /\
  length act = 80%nat /\ (forall u, from_hash u <> None) /\
  br_on_read t_chacha t_poly t_sha t_hmac t_pub t_ecdh t_to from_hash t_verify (list Z) log_cb t_connect t_read [] r1 act = Some Abort.
Proof.
  exists (fun u => Some (firstn 5 u)).
  exists (match br_init_brontide t_sha t_pub (br_init (key 400, [])) false (key 200) None with Ok i => i | _ => end_a end).
  exists (match connect [] (match br_init_brontide t_sha t_pub (br_init (key 400, [])) false (key 200) None with Ok i => i | _ => end_a end) with Ok (_, _, i) => i | _ => end_a end).
  exists (repeat 0 80). split; [vm_compute; reflexivity|]. split; [vm_compute; reflexivity|]. split; [reflexivity|]. split; [discriminate|]. vm_compute. reflexivity.
Qed.
(** Nothing is sent before the handshake is complete or after it failed, with any curve,
    cipher and transport: no plain text and no bytes under a key not yet agreed. *)
Theorem early_write_silent chacha poly hmac Env cb (e : Env) b d : b_state b <> 4 -> br_write chacha poly hmac Env cb e b d = (0, e, b).
Proof. intros H. unfold br_write. destruct (Z.eqb_spec (b_state b) 4) as [E|_]; [contradiction|reflexivity]. Qed.
(** Writing before the handshake is complete reports success and sends nothing. *)
Theorem early_write_refuted : exists b d, d <> [] /\ b_state b <> 4 /\ br_write t_chacha t_poly t_hmac (list Z) log_cb [] b d = (0, [], b).
Proof. exists (set_state end_a 2), [1]. split; [discriminate|]. split; [discriminate|reflexivity]. Qed.

Print Assumptions aead_rfc8439.
Print Assumptions mac_input_injective.
Print Assumptions nonces_unique.
Print Assumptions nonces_unique_handshake.
Print Assumptions transport_chunking.
Print Assumptions transport_delivery.
Print Assumptions transport_delivers_all.
Print Assumptions transport_tampering.
Print Assumptions handshake_agrees.
Print Assumptions initiator_completes_only.
Print Assumptions wrong_static_key_refused.
Print Assumptions invalid_encoding_refuted.
Print Assumptions responder_key_abort_refuted.
Print Assumptions early_write_silent.
Print Assumptions early_write_refuted.
