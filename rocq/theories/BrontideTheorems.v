(** The encrypted transport: delivery, nonces, tampering, handshake (C45-C48), chunking
    and the AEAD construction. *)
From Verif Require Import Common CommonFacts BioModel BioFacts BrontideModel BrontideSpec BrontideFacts.

(** * The AEAD construction *)
(** Encryption, decryption and the tag are those of RFC 8439; decryption inverts
    encryption and lengths are kept. *)
Theorem aead_rfc8439 chacha poly k iv ad p :
  aead_encrypt chacha k iv p = crypt chacha k iv p /\
  aead_decrypt chacha k iv (aead_encrypt chacha k iv p) = p /\
  length (aead_encrypt chacha k iv p) = length p /\
  aead_tag chacha poly k iv ad p = mac chacha poly k iv ad p.
Proof.
  split; [apply crypt_xor|]. split; [apply xor_invol|]. split; [apply xor_length|apply aead_tag_mac].
Qed.

(** What the tag authenticates determines additional data and ciphertext. *)
Lemma zpad_length l : zlen (zpad l) = (zlen l + 15) / 16 * 16.
Proof.
  unfold zpad. rewrite zlen_app. unfold zlen at 2. rewrite repeat_length.
  pose proof (Nat.mod_upper_bound (length l) 16 ltac:(discriminate)) as U.
  assert (M : zlen l mod 16 = Z.of_nat (length l mod 16)) by (unfold zlen; rewrite Nat2Z.inj_mod; reflexivity).
  set (m := (length l mod 16)%nat) in *. clearbody m.
  assert (E : Z.of_nat ((16 - m) mod 16) = (16 - zlen l mod 16) mod 16).
  { rewrite M. destruct m as [|m]; [reflexivity|]. rewrite Nat.mod_small by lia. rewrite Z.mod_small by lia. lia. }
  rewrite E. clear. lia.
Qed.
Theorem mac_input_injective ad ct ad' ct' : zlen ad < 2 ^ 64 -> zlen ct < 2 ^ 64 -> zlen ad' < 2 ^ 64 -> zlen ct' < 2 ^ 64 ->
  zpad ad ++ zpad ct ++ le_bytes 8 (zlen ad) ++ le_bytes 8 (zlen ct) =
  zpad ad' ++ zpad ct' ++ le_bytes 8 (zlen ad') ++ le_bytes 8 (zlen ct') -> ad = ad' /\ ct = ct'.
Proof.
  intros H1 H2 H3 H4 E.
  assert (L : forall a b : list Z, zlen a < 2 ^ 64 -> zlen b < 2 ^ 64 -> le_bytes 8 (zlen a) = le_bytes 8 (zlen b) -> zlen a = zlen b).
  { intros a b Ha Hb X. pose proof (zlen_nonneg a). pose proof (zlen_nonneg b).
    rewrite <- (le_val_le_bytes 8 (zlen a)), <- (le_val_le_bytes 8 (zlen b)) by (cbn; lia). now rewrite X. }
  rewrite !app_assoc in E. apply (f_equal (@rev Z)) in E. rewrite !rev_app_distr in E.
  apply app_inj_len in E as [E2 E]; [|now rewrite !rev_length, !le_bytes_length].
  apply app_inj_len in E as [E1 E]; [|now rewrite !rev_length, !le_bytes_length].
  apply (f_equal (@rev Z)) in E1, E2. rewrite !rev_involutive in E1, E2. apply L in E1; auto. apply L in E2; auto.
  rewrite <- !rev_app_distr in E. apply (f_equal (@rev Z)) in E. rewrite !rev_involutive in E.
  assert (P : forall a b : list Z, zlen a = zlen b -> length (zpad a) = length (zpad b)).
  { intros a b X. pose proof (zpad_length a). pose proof (zpad_length b). rewrite X in *. unfold zlen in *. lia. }
  apply app_inj_len in E as [Ea Ec]; [|now apply P]. unfold zpad in Ea, Ec. unfold zlen in E1, E2.
  apply app_inj_len in Ea as [-> _]; [|lia]. apply app_inj_len in Ec as [-> _]; [|lia]. auto.
Qed.

(** * C46: nonces *)
Inductive use := Enc (ad d : list Z) | Dec (ad d : list Z).
(** The key and nonce of each use of a cipher, as handed to the AEAD. *)
Fixpoint trace chacha poly hmac (c : cs) (us : list use) : list (list Z * list Z) :=
  match us with
  | [] => []
  | u :: us => (c_key c, c_iv c) :: trace chacha poly hmac
      (snd (match u with Enc ad d => cs_encrypt chacha poly hmac c ad d | Dec ad d => cs_decrypt chacha poly hmac c ad d end)) us
  end.

Lemma trace_at chacha poly hmac k s : forall us i c, cs_at hmac k s i c -> forall n u, nth_error us n = Some u ->
  nth_error (trace chacha poly hmac c us) n = Some (key_at hmac k s (i + Z.of_nat n), iv_of ((i + Z.of_nat n) mod 1000)).
Proof.
  induction us as [|v us IH]; intros i c H [|n] u E; try discriminate; cbn [trace nth_error].
  - rewrite Z.add_0_r. destruct H as (_ & _ & V & K & _). now rewrite V, K.
  - replace (i + Z.of_nat (S n)) with (i + 1 + Z.of_nat n) by lia. eapply IH; [|exact E].
    destruct v; cbn [snd cs_encrypt cs_decrypt]; now apply cs_advance_at.
Qed.
Lemma iv_of_inj a b : 0 <= a < 2 ^ 32 -> 0 <= b < 2 ^ 32 -> iv_of a = iv_of b -> a = b.
Proof.
  unfold iv_of. intros Ha Hb E. apply app_inv_head in E. apply app_inj_len in E as [E _]; [|now rewrite !le_bytes_length].
  rewrite <- (le_val_le_bytes 4 a), <- (le_val_le_bytes 4 b) by (cbn; lia). now rewrite E.
Qed.

(** C46: from the moment a key is installed, use number i has nonce i mod 1000 under the
    key of epoch i / 1000, however long the sequence. So two uses in the same epoch have
    different nonces, an epoch has at most 1000 uses, and a pair of key and nonce can
    repeat only if the key derivation chain produces the same key twice. *)
Theorem nonces_unique chacha poly hmac c s k (us : list use) : (exists n, c_iv c = iv_of n) ->
  let tr := trace chacha poly hmac (cs_init_saltkey c s k) us in
  length tr = length us /\
  (forall i, (i < length us)%nat -> nth_error tr i =
     Some (fst (epoch hmac k s (Z.to_nat (Z.of_nat i / 1000))), repeat 0 4 ++ le_bytes 4 (Z.of_nat i mod 1000) ++ repeat 0 4)) /\
  (forall i j x, (i < j)%nat -> nth_error tr i = Some x -> nth_error tr j = Some x ->
     Z.of_nat i / 1000 < Z.of_nat j / 1000 /\
     fst (epoch hmac k s (Z.to_nat (Z.of_nat i / 1000))) = fst (epoch hmac k s (Z.to_nat (Z.of_nat j / 1000)))).
Proof.
  intros V. assert (H : cs_at hmac k s 0 (cs_init_saltkey c s k)) by (apply cs_at_start; auto).
  assert (L : length (trace chacha poly hmac (cs_init_saltkey c s k) us) = length us).
  { generalize (cs_init_saltkey c s k). induction us as [|u us IH]; intros c0; cbn; auto. }
  assert (N : forall i, (i < length us)%nat -> nth_error (trace chacha poly hmac (cs_init_saltkey c s k) us) i =
     Some (fst (epoch hmac k s (Z.to_nat (Z.of_nat i / 1000))), repeat 0 4 ++ le_bytes 4 (Z.of_nat i mod 1000) ++ repeat 0 4)).
  { intros i Hi. destruct (nth_error us i) as [u|] eqn:E; [|apply nth_error_None in E; lia].
    rewrite (trace_at _ _ _ k s us 0 _ H i u E). reflexivity. }
  cbn zeta. split; [exact L|]. split; [exact N|]. intros i j x Hij Ei Ej.
  assert (Li : (i < length us)%nat) by (rewrite <- L; apply nth_error_Some; congruence).
  assert (Lj : (j < length us)%nat) by (rewrite <- L; apply nth_error_Some; congruence).
  rewrite N in Ei, Ej by auto. rewrite <- Ej in Ei. apply (f_equal (fun o => match o with Some y => y | None => ([], []) end)) in Ei.
  pose proof (f_equal fst Ei) as EK. pose proof (f_equal snd Ei) as EV. cbn [fst snd] in EK, EV. clear Ei.
  assert (EM : Z.of_nat i mod 1000 = Z.of_nat j mod 1000) by (apply iv_of_inj; try lia; exact EV).
  split; [|exact EK]. clear - EM Hij. lia.
Qed.
(** The same for a key installed without a salt (the handshake cipher). *)
Theorem nonces_unique_handshake chacha poly hmac c k (us : list use) : (exists n, c_iv c = iv_of n) ->
  forall i, (i < length us)%nat -> Z.of_nat i < 1000 ->
  nth_error (trace chacha poly hmac (cs_init_key c k) us) i = Some (k, repeat 0 4 ++ le_bytes 4 (Z.of_nat i) ++ repeat 0 4).
Proof.
  intros V i Hi H1. assert (E : cs_init_key c k = cs_init_saltkey c (c_salt c) k) by (destruct c; reflexivity). rewrite E.
  destruct (nonces_unique chacha poly hmac c (c_salt c) k us V) as (_ & N & _). rewrite N by auto.
  rewrite Z.div_small, Z.mod_small by lia. reflexivity.
Qed.

(** * Chunking, for every connection state *)
Section Chunk.
Variable chacha : list Z -> list Z -> nat -> Z.
Variable poly hmac : list Z -> list Z -> list Z.
Variable sha256 : list Z -> list Z.
Variable pub : list Z -> option (list Z).
Variable ecdh : list Z -> list Z -> option (list Z).
Variable to_hash : list Z -> list Z -> list Z.
Variable from_hash : list Z -> option (list Z).
Variable verify_pub : list Z -> bool.
Variable Env : Type.
Variable write_cb : Env -> list Z -> Z * Env.
Variable connect_cb : Env -> cs -> Env * cs * bool.
Variable read_cb : Env -> cs -> list Z -> Env * cs * bool.
Notation parse := (br_parse chacha poly sha256 hmac pub ecdh to_hash from_hash verify_pub Env write_cb connect_cb read_cb).
Notation loop := (br_loop chacha poly sha256 hmac pub ecdh to_hash from_hash verify_pub Env write_cb connect_cb read_cb).
Notation on_read := (br_on_read chacha poly sha256 hmac pub ecdh to_hash from_hash verify_pub Env write_cb connect_cb read_cb).
Notation reads := (br_reads chacha poly sha256 hmac pub ecdh to_hash from_hash verify_pub Env write_cb connect_cb read_cb).

Lemma parse_len e b d r ml e' b' : zlen d = b_len b -> parse e b d = Ok (r, ml, e', b') -> r = 0 -> b_state b' <> 0 -> 0 < ml.
Proof.
  intros L E -> S. unfold br_parse in E.
  repeat first
    [ discriminate E
    | match type of E with obind ?x _ = _ => destruct x as [[? ?]|?| |]; cbn [obind] in E end
    | match type of E with (match ?x with _ => _ end) = _ => destruct x eqn:? end
    | apply Ok_inj in E; pose proof (f_equal (fun t => fst (fst (fst t))) E) as E1; pose proof (f_equal (fun t => snd (fst (fst t))) E) as E2;
      cbn [fst snd] in E1, E2; clear E ]; try lia.
  all: try (match goal with H : negb (_ =? 0) = true |- _ => subst; discriminate H end).
  all: match goal with H : _ || _ = false |- _ => apply orb_false_iff in H as [H ?]; apply Z.ltb_ge in H; lia end.
Qed.
Lemma set_io_id b : set_io b (b_send b) (b_recv b) (b_state b) (b_has_size b) (b_buf b) (b_len b) = b.
Proof. destruct b; reflexivity. Qed.

Definition emptied (b : br) : br := set_io b (b_send b) (b_recv b) (b_state b) (b_has_size b) [] (b_len b).
Lemma loop_S fuel e b d : loop (S fuel) e b d =
  if b_len b <=? zlen (b_buf b) + zlen d then
    if negb (zlen (b_buf b) <? b_len b) then Some Abort else
    let need := Z.to_nat (b_len b - zlen (b_buf b)) in
    match parse e (emptied b) (b_buf b ++ firstn need d) with
    | Ok (r, ml, e, b) =>
        if negb (r =? 0) then Some (Ok (r, e, br_destroy b))
        else if b_state b =? 0 then Some (Ok (0, e, b))
        else if ml =? 0 then Some Abort
        else loop fuel e (set_io b (b_send b) (b_recv b) (b_state b) (b_has_size b) [] ml) (skipn need d)
    | Err x => Some (Err x) | Abort => Some Abort | Ub => Some Ub
    end
  else Some (Ok (0, e, set_io b (b_send b) (b_recv b) (b_state b) (b_has_size b) (b_buf b ++ d) (b_len b))).
Proof. reflexivity. Qed.
Lemma fill_length (b : br) d : zlen (b_buf b) < b_len b -> b_len b <= zlen (b_buf b) + zlen d ->
  zlen (b_buf b ++ firstn (Z.to_nat (b_len b - zlen (b_buf b))) d) = b_len b.
Proof. intros. rewrite zlen_app. unfold zlen in *. rewrite firstn_length_le; lia. Qed.

Lemma loop_fuel : forall f1 f2 e b d, zlen (b_buf b) < b_len b -> (length d < f1)%nat -> (length d < f2)%nat -> loop f1 e b d = loop f2 e b d.
Proof.
  induction f1 as [|f1 IH]; intros f2 e b d L H1 H2; [lia|]. destruct f2 as [|f2]; [lia|]. rewrite !loop_S.
  destruct (Z.leb_spec (b_len b) (zlen (b_buf b) + zlen d)) as [Le|Gt]; auto. destruct (Z.ltb_spec (zlen (b_buf b)) (b_len b)); auto. cbn [negb].
  cbv zeta. set (need := Z.to_nat (b_len b - zlen (b_buf b))).
  destruct (parse e (emptied b) (b_buf b ++ firstn need d)) as [[[[r ml] e'] b']|?| |] eqn:E; auto.
  destruct (Z.eqb_spec r 0) as [R0|R0]; auto. cbn [negb]. destruct (Z.eqb_spec (b_state b') 0); auto. destruct (Z.eqb_spec ml 0); auto.
  assert (0 < ml) by (eapply parse_len; [|eassumption|first [reflexivity|assumption]|assumption]; apply (fill_length b); assumption).
  apply IH; cbn [b_buf b_len set_io]; [change (zlen (@nil Z)) with 0; lia|..]; rewrite skipn_length; unfold need, zlen in *; lia.
Qed.

Lemma loop_live : forall fuel e b d e' b', zlen (b_buf b) < b_len b -> loop fuel e b d = Some (Ok (0, e', b')) -> b_state b' <> 0 ->
  zlen (b_buf b') < b_len b'.
Proof.
  induction fuel as [|fuel IH]; intros e b d e' b' L E S; [discriminate|]. rewrite loop_S in E.
  destruct (Z.leb_spec (b_len b) (zlen (b_buf b) + zlen d)) as [Le|Gt].
  2:{ injection E as _ <-. cbn. rewrite zlen_app. lia. }
  destruct (Z.ltb_spec (zlen (b_buf b)) (b_len b)); [|discriminate]. cbn [negb] in E. cbv zeta in E.
  destruct (parse e (emptied b) _) as [[[[r ml] e1] b1]|?| |] eqn:P; try discriminate.
  destruct (Z.eqb_spec r 0) as [R0|R0]; cbn [negb] in E; [|injection E as ? ? ?; congruence].
  destruct (Z.eqb_spec (b_state b1) 0) as [S0|S0]; [injection E as _ <-; congruence|]. destruct (Z.eqb_spec ml 0); [discriminate|].
  eapply IH; [|exact E|exact S]. cbn. change (zlen (@nil Z)) with 0.
  enough (0 < ml) by lia. eapply parse_len; [|eassumption|first [reflexivity|assumption]|assumption]; apply (fill_length b); assumption.
Qed.

Lemma loop_app : forall fuel e b c d, zlen (b_buf b) < b_len b -> b_state b <> 0 -> (length (c ++ d) < fuel)%nat ->
  loop fuel e b (c ++ d) =
  match loop fuel e b c with
  | Some (Ok (r, e', b')) => if (r =? 0) && negb (b_state b' =? 0) then loop fuel e' b' d else Some (Ok (r, e', b'))
  | r => r
  end.
Proof.
  induction fuel as [|fuel IH]; intros e b c d L S Hf; [lia|]. rewrite app_length in Hf.
  destruct (Z_lt_le_dec (zlen (b_buf b) + zlen c) (b_len b)) as [Lt|Ge].
  - (* the first chunk is incomplete *)
    rewrite (loop_S fuel e b c). destruct (Z.leb_spec (b_len b) (zlen (b_buf b) + zlen c)); [lia|].
    cbn [b_state set_io]. zred. destruct (Z.eqb_spec (b_state b) 0); [congruence|]. cbn [negb andb]. rewrite !loop_S. cbn [b_buf b_len b_send b_recv b_state b_has_size set_io]. rewrite !zlen_app, !Z.add_assoc.
    change (emptied (set_io b (b_send b) (b_recv b) (b_state b) (b_has_size b) (b_buf b ++ c) (b_len b))) with (emptied b).
    destruct (Z.leb_spec (b_len b) (zlen (b_buf b) + zlen c + zlen d)) as [Le|Gt].
    + destruct (Z.ltb_spec (zlen (b_buf b)) (b_len b)); [|lia]. destruct (Z.ltb_spec (zlen (b_buf b) + zlen c) (b_len b)); [|lia]. cbn [negb]. cbv zeta.
      set (n1 := Z.to_nat (b_len b - zlen (b_buf b))). set (n2 := Z.to_nat (b_len b - (zlen (b_buf b) + zlen c))).
      assert (N : n1 = (length c + n2)%nat) by (unfold n1, n2, zlen in *; lia). rewrite N, firstn_app_2, skipn_app.
      replace (length c + n2 - length c)%nat with n2 by lia. rewrite (skipn_all2 c) by lia. cbn [app].
      rewrite <- app_assoc. reflexivity.
    + rewrite <- app_assoc. reflexivity.
  - rewrite !loop_S. rewrite zlen_app. destruct (Z.leb_spec (b_len b) (zlen (b_buf b) + zlen c)); [|lia].
    pose proof (zlen_nonneg d). destruct (Z.leb_spec (b_len b) (zlen (b_buf b) + (zlen c + zlen d))); [|lia].
    destruct (Z.ltb_spec (zlen (b_buf b)) (b_len b)); [|lia]. cbn [negb]. cbv zeta.
    set (n := Z.to_nat (b_len b - zlen (b_buf b))). assert (Hn : (0 < n <= length c)%nat) by (unfold n, zlen in *; lia).
    rewrite firstn_app, skipn_app. replace (n - length c)%nat with 0%nat by lia. cbn [firstn skipn]. rewrite app_nil_r.
    destruct (parse e (emptied b) (b_buf b ++ firstn n c)) as [[[[r ml] e'] b']|?| |] eqn:E; auto.
    destruct (Z.eqb_spec r 0) as [->|R0]; cbn [negb].
    2:{ destruct (Z.eqb_spec r 0); [congruence|]. reflexivity. }
    destruct (Z.eqb_spec (b_state b') 0) as [S0|S0]; cbn [negb]; [zred; rewrite S0; reflexivity|].
    destruct (Z.eqb_spec ml 0); auto.
    assert (0 < ml) by (eapply parse_len; [|eassumption|first [reflexivity|assumption]|assumption]; apply (fill_length b); assumption).
    set (b2 := set_io b' (b_send b') (b_recv b') (b_state b') (b_has_size b') [] ml).
    assert (L2 : zlen (b_buf b2) < b_len b2) by (cbn; change (zlen (@nil Z)) with 0; lia).
    rewrite (IH e' b2 (skipn n c) d L2 S0) by (rewrite app_length, skipn_length; lia).
    destruct (loop fuel e' b2 (skipn n c)) as [[[[r3 e3] b3]|?| |]|] eqn:E3; auto.
    destruct (Z.eqb_spec r3 0) as [->|]; auto. destruct (Z.eqb_spec (b_state b3) 0) as [S3|S3]; auto. cbn [negb andb].
    apply loop_fuel; try lia. eapply loop_live; eauto.
Qed.

(** However a byte stream is cut into reads, in any state of the connection (handshake
    included), the result is that of one read of the whole. *)
Theorem transport_chunking e b (chunks : list (list Z)) : (b_state b <> 0 -> zlen (b_buf b) < b_len b) ->
  reads e b chunks = on_read e b (concat chunks).
Proof.
  revert e b. induction chunks as [|c chunks IH]; intros e b L; cbn [br_reads concat].
  - unfold br_on_read. destruct (Z.eqb_spec (b_state b) 0) as [|S]; auto. specialize (L S). cbn [length plus]. rewrite loop_S.
    change (zlen (@nil Z)) with 0. destruct (Z.leb_spec (b_len b) (zlen (b_buf b) + 0)); [lia|]. now rewrite app_nil_r, set_io_id.
  - unfold br_on_read at 2. unfold br_on_read. destruct (Z.eqb_spec (b_state b) 0) as [S|S].
    + rewrite IH by (intros; congruence). unfold br_on_read. rewrite S. reflexivity.
    + specialize (L S). rewrite (loop_app _ e b c (concat chunks) L S) by lia.
      rewrite (loop_fuel (length c + 2) (length (c ++ concat chunks) + 2) e b c L) by (rewrite ?app_length; lia).
      destruct (loop (length (c ++ concat chunks) + 2) e b c) as [[[[r e'] b']|?| |]|] eqn:E; auto.
      destruct (Z.eqb_spec r 0) as [->|R0]; [|destruct r; [congruence|reflexivity|reflexivity]].
      destruct (Z.eqb_spec (b_state b') 0) as [S'|S']; cbn [negb andb].
      * rewrite IH by (intros; congruence). unfold br_on_read. rewrite S'. reflexivity.
      * assert (L' : zlen (b_buf b') < b_len b') by (eapply loop_live; eauto). rewrite IH by auto. unfold br_on_read.
        destruct (Z.eqb_spec (b_state b') 0); [congruence|]. apply loop_fuel; auto; rewrite ?app_length; lia.
Qed.
End Chunk.

(** * C45: delivery *)
(** One end writing [ms] in order: what reaches the socket, as one byte string. *)
Definition log_cb (w d : list Z) : Z * list Z := (0, w ++ d).
Definition write_all chacha poly hmac (b : br) (ms : list (list Z)) : Z * list Z * br :=
  fold_left (fun '(r, w, b) m => if r =? 0 then br_write chacha poly hmac (list Z) log_cb w b m else (r, w, b)) ms (0, [], b).

Section Frames.
Variable chacha : list Z -> list Z -> nat -> Z.
Variable poly hmac : list Z -> list Z -> list Z.
Variables k s : list Z.
Notation frame := (frame chacha poly hmac k s).
Notation frames := (frames chacha poly hmac k s).
Notation cipher := (cipher chacha hmac k s).
Notation tag_at := (tag_at chacha poly hmac k s).

Lemma frames_app i a b : frames i (a ++ b) = frames i a ++ frames (i + 2 * zlen a) b.
Proof.
  revert i. induction a as [|m a IH]; intros i; cbn [app BrontideSpec.frames].
  - change (zlen (@nil (list Z))) with 0. now rewrite Z.add_0_r.
  - rewrite IH, <- app_assoc, zlen_cons. do 3 f_equal. lia.
Qed.
Lemma write_all_frames : forall ms i w b, b_state b = 4 -> cs_at hmac k s i (b_send b) ->
  exists b', fold_left (fun '(r, w, b) m => if r =? 0 then br_write chacha poly hmac (list Z) log_cb w b m else (r, w, b)) ms (0, w, b)
    = (0, w ++ frames i ms, b') /\ b_state b' = 4.
Proof.
  induction ms as [|m ms IH]; intros i w b St C; cbn [fold_left].
  - exists b. cbn. now rewrite app_nil_r.
  - zred. destruct (br_write_at chacha poly hmac (list Z) log_cb k s i w b m St C) as (r & w' & b' & -> & O & _ & _ & _ & _ & R).
    cbn [offer pieces log_cb] in O. zred. pose proof (f_equal fst O) as O1; pose proof (f_equal snd O) as O2; cbn [fst snd] in O1, O2; clear O; subst r w'. zred. destruct R as [St' C'].
    destruct (IH (i + 2) ((((w ++ cipher i (le_bytes 4 (zlen m))) ++ tag_at i (cipher i (le_bytes 4 (zlen m)))) ++ cipher (i + 1) m) ++ tag_at (i + 1) (cipher (i + 1) m)) b' St' C') as (b2 & -> & S2).
    exists b2. split; auto. f_equal. f_equal. cbn [BrontideSpec.frames]. unfold BrontideSpec.frame, seal. now rewrite <- !app_assoc.
Qed.
Hypothesis tag_len : forall i ct, length (tag_at i ct) = 16%nat.
Lemma frame_zlen i m : zlen (frame i m) = 36 + zlen m.
Proof.
  unfold BrontideSpec.frame, seal. rewrite !zlen_app. unfold zlen. rewrite !tag_len, !cipher_length, le_bytes_length. lia.
Qed.

Variable X : Type.
Variable deliver : X -> list Z -> X * bool.
Notation recv := (recv chacha poly hmac k s X deliver).
Notation header := (header chacha poly hmac k s).
Definition pass (x : X) (ms : list (list Z)) : X := fold_left (fun x m => fst (deliver x m)) ms x.
Definition sendable (ms : list (list Z)) : Prop := Forall (fun m => zlen m <= 8000009) ms.

Lemma honest_header i m ct tag r y n : zlen m <= 8000009 -> header i ct tag n -> ct ++ tag ++ r = frame i m ++ y ->
  n = zlen m /\ r = seal chacha poly hmac k s (i + 1) m ++ y.
Proof.
  intros L (Lc & Et & Lt & ->) E. unfold BrontideSpec.frame, seal in E. rewrite <- !app_assoc in E.
  apply app_inj_len in E as [-> E]; [|now rewrite cipher_length, le_bytes_length].
  apply app_inj_len in E as [_ ->]; [|now rewrite tag_len]. rewrite cipher_invol. pose proof (zlen_nonneg m).
  rewrite le_val_le_bytes by (cbn; lia). split; auto. unfold seal. now rewrite <- app_assoc.
Qed.

Lemma recv_inv i x d ms f : recv i x d ms f ->
  (zlen d < 20 /\ ms = [] /\ f = Open x d) \/
  (exists ct tag r, d = ct ++ tag ++ r /\ length ct = 4%nat /\ length tag = 16%nat /\
    ((tag <> tag_at i ct /\ ms = [] /\ f = Shut 31 x) \/
     exists n, header i ct tag n /\
      ((~ 0 <= n <= 8000009 /\ ms = [] /\ f = Shut 30 x) \/
       (0 <= n <= 8000009 /\ zlen r < n + 16 /\ ms = [] /\ f = Open x d) \/
       (0 <= n <= 8000009 /\ exists c t r', r = c ++ t ++ r' /\ zlen c = n /\ length t = 16%nat /\
          ((t <> tag_at (i + 1) c /\ ms = [] /\ f = Shut 31 x) \/
           (t = tag_at (i + 1) c /\ exists x' closed, deliver x (cipher (i + 1) c) = (x', closed) /\
             ((closed = false /\ exists ms', ms = cipher (i + 1) c :: ms' /\ recv (i + 2) x' r' ms' f) \/
              (closed = true /\ ms = [cipher (i + 1) c] /\ f = Shut 0 x')))))))).
Proof.
  destruct 1 as [| |? ? ? ? ? ? Hh|? ? ? ? ? ? Hh|? ? ? ? ? ? ? ? Hh|? ? ? ? ? ? ? ? ? ? ? Hh|? ? ? ? ? ? ? ? ? Hh]; [left; auto|right..];
    do 3 eexists; (split; [reflexivity|]); try (pose proof Hh as (? & ? & ? & ?)); (split; [assumption|]); (split; [assumption|]); eauto 10; right; eexists; (split; [eassumption|]);
    eauto 6; right; right; (split; [assumption|]); do 3 eexists; (split; [reflexivity|]); (split; [assumption|]); (split; [assumption|]); auto; right; (split; [assumption|]); eauto 8.
Qed.

(** The header of a stream that carries at least 20 bytes of an honest frame. *)
Lemma honest_prefix i m (y d : list Z) z : d ++ z = frame i m ++ y -> forall a b : list Z, d = a ++ b -> length a = 20%nat ->
  a = seal chacha poly hmac k s i (le_bytes 4 (zlen m)) /\ b ++ z = seal chacha poly hmac k s (i + 1) m ++ y.
Proof.
  intros E a b -> La. unfold BrontideSpec.frame in E. rewrite <- !app_assoc in E.
  apply app_inj_len in E; [exact E|]. unfold seal. rewrite app_length, cipher_length, le_bytes_length, tag_len. lia.
Qed.

Lemma recv_honest : forall ms i x d z dl f, sendable ms -> (forall x m, snd (deliver x m) = false) -> d ++ z = frames i ms -> recv i x d dl f ->
  exists j rest, (j <= length ms)%nat /\ dl = firstn j ms /\ f = Open (pass x (firstn j ms)) rest /\
    zlen (frames i (firstn j ms)) <= zlen d /\ ((j < length ms)%nat -> zlen d < zlen (frames i (firstn (S j) ms))).
Proof.
  induction ms as [|m ms IH]; intros i x d z dl f Sd Nc E R.
  - cbn in E. apply app_eq_nil in E as [-> ->]. apply recv_inv in R as [(_ & -> & ->)|(ct & tag & r & E & L & _)].
    + exists 0%nat, []. cbn. repeat split; lia.
    + destruct ct; discriminate.
  - inversion Sd as [|? ? Lm Sd']; subst. cbn [BrontideSpec.frames] in E. pose proof (zlen_nonneg m) as Pm.
    assert (Stop : zlen d < 36 + zlen m -> dl = [] -> f = Open x d -> exists j rest, (j <= length (m :: ms))%nat /\ dl = firstn j (m :: ms) /\ f = Open (pass x (firstn j (m :: ms))) rest /\
      zlen (frames i (firstn j (m :: ms))) <= zlen d /\ ((j < length (m :: ms))%nat -> zlen d < zlen (frames i (firstn (S j) (m :: ms))))).
    { intros L -> ->. exists 0%nat, d. cbn [firstn BrontideSpec.frames pass fold_left length]. rewrite app_nil_r, frame_zlen. repeat split; auto; try lia. apply zlen_nonneg. }
    apply recv_inv in R as [(L & -> & ->)|(ct & tag & r & Ed & L4 & L16 & R)]; [apply Stop; auto; lia|].
    destruct (honest_prefix i m _ d z E (ct ++ tag) r) as [Eh Er]; [now rewrite <- app_assoc|rewrite app_length; lia|].
    unfold seal in Eh. apply app_inj_len in Eh as [Ec Et]; [|now rewrite cipher_length, le_bytes_length].
    destruct R as [(Nt & _)|(n & Hh & R)]; [rewrite Ec in Nt; congruence|].
    assert (n = zlen m) as ->.
    { destruct Hh as (_ & _ & _ & ->). rewrite Ec, cipher_invol. apply le_val_le_bytes. cbn. lia. }
    destruct R as [(Nn & _)|[(_ & Lr & -> & ->)|(_ & c & t & r' & -> & Lc & Lt & R)]]; [lia| |].
    + apply Stop; auto. rewrite Ed, !zlen_app. unfold zlen in *. lia.
    + unfold seal in Er. rewrite <- !app_assoc in Er. apply app_inj_len in Er as [-> Er]; [|rewrite cipher_length; unfold zlen in *; lia].
      apply app_inj_len in Er as [-> Er]; [|now rewrite tag_len].
      destruct R as [(Nt & _)|(_ & x' & closed & Ex & R)]; [congruence|]. rewrite cipher_invol in *.
      pose proof (Nc x m) as F. rewrite Ex in F. cbn in F. subst closed. destruct R as [(_ & dl' & -> & R)|(F & _)]; [|discriminate].
      destruct (IH (i + 2) x' r' z dl' f Sd' Nc Er R) as (j & rest & Hj & -> & -> & H1 & H2). exists (S j), rest.
      cbn [firstn length BrontideSpec.frames]. unfold pass. cbn [fold_left]. rewrite Ex. cbn [fst].
      assert (Ld : zlen d = 36 + zlen m + zlen r').
      { rewrite Ed, !zlen_app. unfold zlen. rewrite L4, L16, cipher_length, tag_len. lia. }
      rewrite zlen_app, frame_zlen, Ld. repeat split; auto; try lia. intros Hj2. specialize (H2 ltac:(lia)).
      change (firstn (S j) ms) with (firstn (S j) ms) in H2. destruct ms as [|m2 ms2]; [cbn in Hj2; lia|].
      cbn [firstn BrontideSpec.frames] in H2 |- *. rewrite zlen_app, frame_zlen. lia.
Qed.

(** * C47: tampering *)
Notation sealed := (sealed chacha hmac k s).
Notation forged := (forged chacha poly hmac k s).
Lemma forged_later i m ms d y : forged (i + 2) ms y -> (exists a, d = a ++ y) -> forged i (m :: ms) d.
Proof.
  intros (a & ct & r & j & -> & Hj & N) [a0 ->]. exists (a0 ++ a), ct, r, j. rewrite <- app_assoc. split; auto. split; [lia|].
  cbn [BrontideSpec.sealed]. destruct (Z.eqb_spec j i); [lia|]. destruct (Z.eqb_spec j (i + 1)); [lia|exact N].
Qed.
Lemma list_dec (a b : list Z) : {a = b} + {a <> b}.
Proof. apply list_eq_dec, Z.eq_dec. Qed.

Lemma recv_tamper : forall ms i x d dl f, sendable ms -> recv i x d dl f ->
  forged i ms d \/
  ((exists j, dl = firstn j ms) /\
   forall n, (n <= length ms)%nat -> zlen (frames i (firstn n ms)) <= zlen d -> (forall y, d <> frames i (firstn n ms) ++ y) -> exists code x', f = Shut code x').
Proof.
  induction ms as [|m ms IH]; intros i x d dl f Sd R.
  - apply recv_inv in R as [(L & -> & ->)|(ct & tag & r & Ed & L4 & L16 & R)].
    + right. split; [exists 0%nat; auto|]. intros n Hn _ N. exfalso. rewrite firstn_nil in N. apply (N d). reflexivity.
    + destruct R as [(Nt & -> & ->)|(n & Hh & _)].
      * right. split; [exists 0%nat; auto|eauto].
      * left. destruct Hh as (_ & -> & _). exists [], ct, r, i. cbn. split; auto. split; [lia|discriminate].
  - inversion Sd as [|? ? Lm Sd']; subst. pose proof (zlen_nonneg m) as Pm.
    assert (Stop : forall c x', dl = [] -> f = Shut c x' -> (exists j, dl = firstn j (m :: ms)) /\
      forall n, (n <= length (m :: ms))%nat -> zlen (frames i (firstn n (m :: ms))) <= zlen d -> (forall y, d <> frames i (firstn n (m :: ms)) ++ y) -> exists code x', f = Shut code x').
    { intros c x' -> ->. split; [exists 0%nat; auto|eauto]. }
    assert (Short : zlen d < 36 + zlen m -> dl = [] -> (exists j, dl = firstn j (m :: ms)) /\
      forall n, (n <= length (m :: ms))%nat -> zlen (frames i (firstn n (m :: ms))) <= zlen d -> (forall y, d <> frames i (firstn n (m :: ms)) ++ y) -> exists code x', f = Shut code x').
    { intros L ->. split; [exists 0%nat; auto|]. intros [|n] _ Ln N; exfalso.
      - apply (N d). reflexivity.
      - cbn [firstn BrontideSpec.frames] in Ln. rewrite zlen_app, frame_zlen in Ln. pose proof (zlen_nonneg (frames (i + 2) (firstn n ms))). lia. }
    apply recv_inv in R as [(L & -> & ->)|(ct & tag & r & Ed & L4 & L16 & R)]; [right; apply Short; auto; lia|].
    destruct R as [(Nt & -> & ->)|(n & Hh & R)]; [right; eapply Stop; eauto|]. pose proof Hh as (_ & Et & _ & En).
    destruct (list_dec ct (cipher i (le_bytes 4 (zlen m)))) as [Ec|Nc].
    2:{ left. exists [], ct, r, i. rewrite <- Et. split; [exact Ed|]. split; [lia|]. cbn [BrontideSpec.sealed]. rewrite Z.eqb_refl. congruence. }
    assert (n = zlen m) as -> by (rewrite En, Ec, cipher_invol; apply le_val_le_bytes; cbn; lia).
    destruct R as [(Nn & _)|[(_ & Lr & -> & ->)|(_ & c & t & r' & -> & Lc & Lt & R)]]; [lia| |].
    + right. apply Short; auto. rewrite Ed, !zlen_app. unfold zlen in *. lia.
    + destruct R as [(Nt & -> & ->)|(Et2 & x' & closed & Ex & R)]; [right; eapply Stop; eauto|].
      destruct (list_dec c (cipher (i + 1) m)) as [Ec2|Nc2].
      2:{ left. exists (ct ++ tag), c, r', (i + 1). rewrite <- Et2. split; [now rewrite <- app_assoc|]. split; [lia|]. cbn [BrontideSpec.sealed].
          destruct (Z.eqb_spec (i + 1) i); [lia|]. rewrite Z.eqb_refl. congruence. }
      assert (Edf : d = frame i m ++ r') by (rewrite Ed; unfold BrontideSpec.frame, seal; rewrite Et, Et2, Ec, Ec2, <- !app_assoc; reflexivity).
      rewrite Ec2, cipher_invol in *. destruct R as [(_ & dl' & -> & R)|(_ & -> & ->)].
      * destruct (IH (i + 2) x' r' dl' f Sd' R) as [F|[(j & ->) Cl]].
        -- left. eapply forged_later; eauto.
        -- right. split; [exists (S j); reflexivity|]. intros [|n] Hn Ln N.
           ++ exfalso. apply (N d). reflexivity.
           ++ cbn [firstn BrontideSpec.frames] in Ln, N. rewrite zlen_app, Edf, zlen_app in Ln. apply (Cl n); [cbn in Hn; lia|lia|].
              intros y E. apply (N y). rewrite Edf, E, <- app_assoc. reflexivity.
      * right. split; [exists 1%nat; reflexivity|eauto].
Qed.
Lemma recv_pass i x d dl f : recv i x d dl f -> match f with Open x' _ => x' | Shut _ x' => x' end = pass x dl.
Proof.
  induction 1 as [| | | | |i x ct tag n c t r x' ms f Hh Hn Lc Lt Et Ex R IH|i x ct tag n c t r x' Hh Hn Lc Lt Et Ex]; try reflexivity.
  - unfold pass. cbn [fold_left]. rewrite Ex. exact IH.
  - unfold pass. cbn [fold_left]. rewrite Ex. reflexivity.
Qed.
Lemma frames_bytes : (forall a b n, is_byte (chacha a b n)) -> (forall a b, bytes_ok (poly a b)) ->
  forall ms i, Forall bytes_ok ms -> bytes_ok (frames i ms).
Proof.
  intros Cb Pb. induction ms as [|m ms IH]; intros i B; cbn [BrontideSpec.frames]; [constructor|]. inversion B; subst. apply bytes_ok_app. split; [|now apply IH].
  assert (T : forall j c, bytes_ok (tag_at j c)) by (intros; apply Pb).
  unfold BrontideSpec.frame, seal. rewrite !bytes_ok_app. repeat split; try apply T; apply cipher_bytes; auto. apply le_bytes_ok.
Qed.
End Frames.

(** Number of bytes on the wire for [ms]. *)
Definition wire_size (ms : list (list Z)) : Z := fold_right (fun m n => 36 + zlen m + n) 0 ms.
(** An end whose handshake is complete: keys for both directions, and nothing received yet. *)
Definition established (b : br) (send_key recv_key salt : list Z) : Prop :=
  b_state b = 4 /\ b_has_size b = false /\ b_buf b = [] /\ b_len b = 20 /\
  b_send b = cs_init_saltkey cs_init salt send_key /\ b_recv b = cs_init_saltkey cs_init salt recv_key.

Section Ends.
Variable chacha : list Z -> list Z -> nat -> Z.
Variable poly hmac : list Z -> list Z -> list Z.
Variable sha256 : list Z -> list Z.
Variable pub : list Z -> option (list Z).
Variable ecdh : list Z -> list Z -> option (list Z).
Variable to_hash : list Z -> list Z -> list Z.
Variable from_hash : list Z -> option (list Z).
Variable verify_pub : list Z -> bool.
Variable Env : Type.
Variable write_cb : Env -> list Z -> Z * Env.
Variable connect_cb : Env -> cs -> Env * cs * bool.
Variable read_cb : Env -> cs -> list Z -> Env * cs * bool.
Hypothesis chacha_byte : forall a b n, is_byte (chacha a b n).
Hypothesis poly_tag : forall a b, length (poly a b) = 16%nat /\ bytes_ok (poly a b).
Notation reads := (br_reads chacha poly sha256 hmac pub ecdh to_hash from_hash verify_pub Env write_cb connect_cb read_cb).
Notation write_all := (write_all chacha poly hmac).

Lemma frames_size k s : forall ms i, zlen (frames chacha poly hmac k s i ms) = wire_size ms.
Proof.
  induction ms as [|m ms IH]; intros i; cbn [frames wire_size fold_right]; [reflexivity|]. fold (wire_size ms). rewrite zlen_app, frame_zlen, IH; [lia|]. intros; apply poly_tag.
Qed.
Lemma start_at k s : cs_at hmac k s 0 (cs_init_saltkey cs_init s k).
Proof. apply cs_at_start. left. reflexivity. Qed.
Lemma write_all_wire b ms sk rk s : established b sk rk s -> exists b', write_all b ms = (0, frames chacha poly hmac sk s 0 ms, b') /\ b_state b' = 4.
Proof.
  intros (St & _ & _ & _ & Es & _). unfold BrontideTheorems.write_all.
  destruct (write_all_frames chacha poly hmac sk s ms 0 [] b St) as (b' & E & S'); [rewrite Es; apply start_at|]. eauto.
Qed.

(** C45: an established end that writes [ms] puts one frame per message on the wire;
    whatever prefix of these bytes arrives, in whatever pieces, the other end delivers
    exactly the messages whose frames are complete, in order, and stays open. *)
Theorem transport_delivery (a b : br) k k' k'' s (e : Env) (ms : list (list Z)) :
  established a k k' s -> established b k'' k s ->
  Forall (fun m => bytes_ok m /\ zlen m <= 8000009) ms ->
  (forall e c m, snd (read_cb e c m) = false) ->
  exists wire a', write_all a ms = (0, wire, a') /\ zlen wire = wire_size ms /\
    forall chunks rest, concat chunks ++ rest = wire ->
      exists j b', let x := pass (Env * cs) (xdeliver Env read_cb) (e, b_send b) (firstn j ms) in
        reads e b chunks = Some (Ok (0, fst x, b')) /\ b_send b' = snd x /\ b_state b' = 4 /\
        (j <= length ms)%nat /\ wire_size (firstn j ms) <= zlen (concat chunks) /\
        ((j < length ms)%nat -> zlen (concat chunks) < wire_size (firstn (S j) ms)).
Proof.
  intros Ha Hb Hm Nc. destruct (write_all_wire a ms _ _ _ Ha) as (a' & Ew & _). exists (frames chacha poly hmac k s 0 ms), a'.
  split; [exact Ew|]. split; [apply frames_size|]. intros chunks rest E.
  assert (Bw : bytes_ok (frames chacha poly hmac k s 0 ms)).
  { apply frames_bytes; auto; [intros; apply poly_tag|]. eapply Forall_impl; [|exact Hm]. tauto. }
  rewrite <- E in Bw. apply bytes_ok_app in Bw as [Bc _].
  assert (Bcs : Forall bytes_ok chunks).
  { clear - Bc. induction chunks as [|c l IH]; constructor; cbn in Bc; apply bytes_ok_app in Bc; [tauto|apply IH; tauto]. }
  destruct Hb as (St & Hs & Bb & Lb & Es & Er).
  destruct (reads_recv chacha poly hmac sha256 pub ecdh to_hash from_hash verify_pub Env write_cb connect_cb read_cb k s chacha_byte chunks 0 b e []) as (dl & f & R & G).
  - split; auto. rewrite Hs. rewrite Er, Bb. split; [exact Lb|]. split; [apply start_at|reflexivity].
  - rewrite Bb, Lb. reflexivity.
  - rewrite Bb. constructor.
  - exact Bcs.
  - cbn [app] in R. destruct (recv_honest chacha poly hmac k s (fun i ct => proj1 (poly_tag _ _)) (Env * cs) (xdeliver Env read_cb) ms 0 (e, b_send b) (concat chunks) rest dl f) as (j & p & Hj & -> & -> & H1 & H2); auto.
    + unfold sendable. eapply Forall_impl; [|exact Hm]. cbn. tauto.
    + intros [e0 c0] m. unfold xdeliver. cbn [fst snd]. specialize (Nc e0 c0 m). destruct (read_cb e0 c0 m) as [[? ?] ?]. exact Nc.
    + cbn [settles] in G. destruct G as (b' & E' & Es' & (St' & _) & _). exists j, b'. rewrite !frames_size in *. cbv zeta. auto 10.
Qed.
(** In particular the whole stream delivers every message. *)
Corollary transport_delivers_all (a b : br) k k' k'' s (e : Env) (ms chunks : list (list Z)) :
  established a k k' s -> established b k'' k s -> Forall (fun m => bytes_ok m /\ zlen m <= 8000009) ms ->
  (forall e c m, snd (read_cb e c m) = false) -> concat chunks = snd (fst (write_all a ms)) ->
  let x := pass (Env * cs) (xdeliver Env read_cb) (e, b_send b) ms in
  exists b', reads e b chunks = Some (Ok (0, fst x, b')) /\ b_send b' = snd x /\ b_state b' = 4.
Proof.
  intros Ha Hb Hm Nc E. destruct (transport_delivery a b k k' k'' s e ms Ha Hb Hm Nc) as (w & a' & Ew & Lw & T). rewrite Ew in E. cbn in E.
  destruct (T chunks []) as (j & b' & R & Es & St & Hj & H1 & H2); [now rewrite app_nil_r|].
  assert (j = length ms).
  { destruct (Nat.eq_dec j (length ms)); auto. exfalso. specialize (H2 ltac:(lia)). rewrite E, Lw in H2.
    assert (P : forall l, 0 <= wire_size l) by (clear; induction l as [|m l IH]; [reflexivity|]; cbn [wire_size fold_right]; fold (wire_size l); pose proof (zlen_nonneg m); lia).
    assert (M : forall n l, wire_size (firstn n l) <= wire_size l).
    { intros q. induction q as [|q IH]; intros l; [apply P|]. destruct l as [|m l]; [reflexivity|]. cbn [firstn wire_size fold_right]. fold (wire_size l). fold (wire_size (firstn q l)). specialize (IH l). lia. }
    specialize (M (S j) ms). lia. }
  subst j. rewrite firstn_all in *. eauto.
Qed.

(** C47: whatever bytes reach an established end, the reader neither crashes nor stalls,
    and either the bytes contain a valid tag for something the sender did not seal at
    that point, or what was delivered is an initial segment of what was sent and, as
    soon as the bytes of the first n frames have arrived in full and differ from what
    was sent, the connection is closed. *)
Theorem transport_tampering (a b : br) k k' k'' s (e : Env) (ms chunks : list (list Z)) :
  established a k k' s -> established b k'' k s -> Forall (fun m => zlen m <= 8000009) ms -> Forall bytes_ok chunks ->
  exists code e' b', reads e b chunks = Some (Ok (code, e', b')) /\
    (forged chacha poly hmac k s 0 ms (concat chunks) \/
     (exists j, (e', b_send b') = pass (Env * cs) (xdeliver Env read_cb) (e, b_send b) (firstn j ms)) /\
     forall n, (n <= length ms)%nat -> wire_size (firstn n ms) <= zlen (concat chunks) ->
       (forall y, concat chunks <> snd (fst (write_all a (firstn n ms))) ++ y) -> b_state b' = 0).
Proof.
  intros Ha Hb Hm Bc. pose proof Hb as (St & Hs & Bb & Lb & Es & Er).
  destruct (reads_recv chacha poly hmac sha256 pub ecdh to_hash from_hash verify_pub Env write_cb connect_cb read_cb k s chacha_byte chunks 0 b e []) as (dl & f & R & G).
  - split; auto. rewrite Hs. rewrite Er, Bb. split; [exact Lb|]. split; [apply start_at|reflexivity].
  - rewrite Bb, Lb. reflexivity.
  - rewrite Bb. constructor.
  - exact Bc.
  - cbn [app] in R. pose proof (recv_pass _ _ _ _ _ _ _ _ _ _ _ _ R) as Ps.
    pose proof (recv_tamper chacha poly hmac k s (fun i ct => proj1 (poly_tag _ _)) (Env * cs) (xdeliver Env read_cb) ms 0 (e, b_send b) (concat chunks) dl f Hm R) as T.
    assert (W : forall n, snd (fst (write_all a (firstn n ms))) = frames chacha poly hmac k s 0 (firstn n ms)).
    { intros n. destruct (write_all_wire a (firstn n ms) _ _ _ Ha) as (a' & -> & _). reflexivity. }
    destruct f as [[e1 s1] p|code [e1 s1]]; cbn [settles fst snd] in G.
    + destruct G as (b' & E & Es' & (St' & _) & _). exists 0, e1, b'. split; [exact E|]. destruct T as [T|[(j & ->) T]]; [left; exact T|right].
      split; [exists j; now rewrite Es'|]. intros n Hn Ln N. rewrite W in N. rewrite <- (frames_size k s _ 0) in Ln.
      destruct (T n Hn Ln N) as (c & x' & F). discriminate.
    + destruct G as (b' & E & Es' & St'). exists code, e1, b'. split; [exact E|]. destruct T as [T|[(j & ->) T]]; [left; exact T|right].
      split; [exists j; now rewrite Es'|]. auto.
Qed.
End Ends.

(** * C48: the handshake *)
Definition cs_ok (c : cs) (tk : list Z) (n : Z) : Prop := c_key c = tk /\ c_iv c = iv_of n /\ c_nonce c = n.
Lemma cs_ok_key c k n : c_iv c = iv_of n -> cs_ok (cs_init_key c k) k 0.
Proof. intros E. unfold cs_ok, cs_init_key. cbn. rewrite E. auto. Qed.
Lemma cs_ok_encrypt chacha poly hmac c tk n ad p : cs_ok c tk n -> 0 <= n < 900 ->
  exists c', cs_encrypt chacha poly hmac c ad p = (crypt chacha tk (iv_of n) p, c') /\ cs_ok c' tk (n + 1) /\
    c_tag c' = mac chacha poly tk (iv_of n) ad (crypt chacha tk (iv_of n) p).
Proof.
  intros (K & V & N) Hn. unfold cs_encrypt, aead_encrypt. rewrite K, V, crypt_xor, aead_tag_mac. eexists. split; [reflexivity|].
  unfold cs_advance. cbn [cs_update c_nonce c_iv c_key c_tag]. rewrite N, (Z.mod_small (n + 1)) by lia. destruct (Z.eqb_spec (n + 1) 1000); [lia|].
  unfold cs_ok. cbn. rewrite V. auto.
Qed.
Lemma cs_ok_decrypt chacha poly hmac c tk n ad p : cs_ok c tk n -> 0 <= n < 900 ->
  exists c', cs_decrypt chacha poly hmac c ad p = (crypt chacha tk (iv_of n) p, c') /\ cs_ok c' tk (n + 1) /\
    c_tag c' = mac chacha poly tk (iv_of n) ad p.
Proof.
  intros (K & V & N) Hn. unfold cs_decrypt, aead_decrypt. rewrite K, V, crypt_xor, aead_tag_mac. eexists. split; [reflexivity|].
  unfold cs_advance. cbn [cs_update c_nonce c_iv c_key c_tag]. rewrite N, (Z.mod_small (n + 1)) by lia. destruct (Z.eqb_spec (n + 1) 1000); [lia|].
  unfold cs_ok. cbn. rewrite V. auto.
Qed.

Section Handshake.
Variable chacha : list Z -> list Z -> nat -> Z.
Variable poly hmac : list Z -> list Z -> list Z.
Variable sha256 : list Z -> list Z.
Variable pub : list Z -> option (list Z).
Variable ecdh : list Z -> list Z -> option (list Z).
Variable to_hash : list Z -> list Z -> list Z.
Variable from_hash : list Z -> option (list Z).
Variable verify_pub : list Z -> bool.
Notation mac := (mac chacha poly).
Notation crypt := (crypt chacha).
Notation kdf1 := (kdf1 hmac).
Notation kdf2 := (kdf2 hmac).

Lemma mix_dh_ok b P priv x n : ecdh P priv = Some x -> c_iv (b_cs b) = iv_of n ->
  exists c, br_mix_dh hmac ecdh b P priv = Ok (set_sym b c (kdf1 x (b_ck b)) (kdf2 x (b_ck b)) (b_digest b)) /\ cs_ok c (kdf2 x (b_ck b)) 0.
Proof.
  intros E V. unfold br_mix_dh. rewrite E. cbn [must]. unfold br_mix_key. rewrite hkdf_kdf. eexists. split; [reflexivity|]. eapply cs_ok_key; eauto.
Qed.

(** Acts one and two: an ephemeral key, and a tag. *)
Lemma gen_act_ok (gen : br -> outcome (list Z * br)) (remote : br -> list Z) b priv ent E x n :
  (forall b, gen b = obind (br_new_ephemeral sha256 pub to_hash b) (fun '(u, b) => obind (br_mix_dh hmac ecdh b (remote b) (b_le b)) (fun b =>
     let '(_, b) := br_encrypt chacha poly sha256 hmac b [] in Ok (u ++ c_tag (b_cs b), b)))) ->
  (forall b b', b_rs b = b_rs b' -> b_re b = b_re b' -> remote b = remote b') ->
  b_rand b = (priv, ent) -> pub priv = Some E -> ecdh (remote b) priv = Some x -> c_iv (b_cs b) = iv_of n ->
  let h := sha256 (b_digest b ++ E) in let t := mac (kdf2 x (b_ck b)) (iv_of 0) h [] in
  exists c, gen b = Ok (to_hash E ent ++ t,
    mk_br c (kdf1 x (b_ck b)) (kdf2 x (b_ck b)) (sha256 (h ++ t)) (b_init b) (b_ls b) priv (b_rs b) (b_re b) (b_send b) (b_recv b)
      (b_state b) (b_has_size b) (b_buf b) (b_len b) (b_rand b)) /\ cs_ok c (kdf2 x (b_ck b)) 1.
Proof.
  intros G Rm Er Ep Ed V. cbv zeta. rewrite G. unfold br_new_ephemeral. rewrite Er, Ep. cbn [must obind].
  match goal with |- context [br_mix_hash sha256 ?b0 E] => set (b1 := br_mix_hash sha256 b0 E) end.
  destruct (mix_dh_ok b1 (remote b1) (b_le b1) x n) as (c1 & E1 & C1).
  { rewrite (Rm b1 b) by reflexivity. exact Ed. } { exact V. }
  rewrite E1. cbn [obind]. unfold br_encrypt. cbn [b_cs b_digest set_sym].
  destruct (cs_ok_encrypt chacha poly hmac c1 _ 0 (b_digest b1) [] C1 ltac:(lia)) as (c2 & -> & C2 & T2).
  change (crypt (kdf2 x (b_ck b1)) (iv_of 0) []) with (@nil Z) in *. cbn [b_cs set_sym b_ck b_temp b_digest app]. rewrite T2. exists c2. split; [reflexivity|exact C2].
Qed.

Notation decrypt := (br_decrypt chacha poly sha256 hmac).
Lemma decrypt_ok b tk n ct tag : cs_ok (b_cs b) tk n -> 0 <= n < 900 ->
  exists c, decrypt b ct tag = (crypt tk (iv_of n) ct, set_sym b c (b_ck b) (b_temp b) (sha256 (b_digest b ++ ct ++ tag))) /\
    cs_ok c tk (n + 1) /\ c_tag c = mac tk (iv_of n) (b_digest b) ct.
Proof.
  intros C Hn. unfold br_decrypt. destruct (cs_ok_decrypt chacha poly hmac _ _ _ (b_digest b) ct C Hn) as (c & -> & C' & T). eauto.
Qed.

(** Receiving acts one and two: after the ephemeral key has been accepted. *)
Lemma recv_tail_ok b e priv x n p : ecdh e priv = Some x -> c_iv (b_cs b) = iv_of n ->
  let h := sha256 (b_digest b ++ e) in let t := mac (kdf2 x (b_ck b)) (iv_of 0) h [] in
  exists c, obind (br_mix_dh hmac ecdh (br_remote_ephemeral sha256 b e) e priv) (fun b =>
      let '(_, b) := decrypt b [] p in Ok (cs_verify (b_cs b) p, b)) =
    Ok (beq t p,
      mk_br c (kdf1 x (b_ck b)) (kdf2 x (b_ck b)) (sha256 (h ++ p)) (b_init b) (b_ls b) (b_le b) (b_rs b) e (b_send b) (b_recv b)
        (b_state b) (b_has_size b) (b_buf b) (b_len b) (b_rand b)) /\ cs_ok c (kdf2 x (b_ck b)) 1.
Proof.
  intros Ed V. cbv zeta. unfold br_remote_ephemeral.
  match goal with |- context [br_mix_hash sha256 ?b0 e] => set (b1 := br_mix_hash sha256 b0 e) end.
  destruct (mix_dh_ok b1 e priv x n Ed V) as (c1 & -> & C1). cbn [obind].
  match goal with |- context [decrypt ?b2 _ _] => destruct (decrypt_ok b2 (kdf2 x (b_ck b1)) 0 [] p C1 ltac:(lia)) as (c2 & -> & C2 & T2) end.
  unfold cs_verify. cbn [b_cs set_sym]. rewrite T2. exists c2. split; [reflexivity|exact C2].
Qed.

Lemma encrypt_ok b tk n p : cs_ok (b_cs b) tk n -> 0 <= n < 900 ->
  let ct := crypt tk (iv_of n) p in let t := mac tk (iv_of n) (b_digest b) ct in
  exists c, br_encrypt chacha poly sha256 hmac b p = (ct, set_sym b c (b_ck b) (b_temp b) (sha256 (b_digest b ++ ct ++ t))) /\ cs_ok c tk (n + 1) /\ c_tag c = t.
Proof.
  intros C Hn. cbv zeta. unfold br_encrypt. destruct (cs_ok_encrypt chacha poly hmac _ _ _ (b_digest b) p C Hn) as (c & -> & C' & T).
  rewrite T. eauto.
Qed.

Section Act3.
Variable b : br.
Variables tk x : list Z.
Hypothesis C : cs_ok (b_cs b) tk 1.
(** Act three, seen from a state: [P] is the initiator's static key. *)
Definition act3_c (P : list Z) := crypt tk (iv_of 1) P.
Definition act3_t (ct : list Z) := mac tk (iv_of 1) (b_digest b) ct.
Definition act3_h (ct : list Z) := sha256 (b_digest b ++ ct ++ act3_t ct).
Definition act3_u (ct : list Z) := mac (kdf2 x (b_ck b)) (iv_of 0) (act3_h ct) [].

Lemma gen_act_three_ok P : pub (b_ls b) = Some P -> ecdh (b_re b) (b_ls b) = Some x ->
  exists b', gen_act_three chacha poly sha256 hmac pub ecdh b = Ok (act3_c P ++ act3_t (act3_c P) ++ act3_u (act3_c P), b') /\
    b_ck b' = kdf1 x (b_ck b) /\ b_init b' = b_init b /\ b_state b' = b_state b /\ b_has_size b' = b_has_size b /\ b_buf b' = b_buf b /\ b_len b' = b_len b /\ b_rs b' = b_rs b /\
    let k := if b_init b then kdf1 [] (b_ck b') else kdf2 [] (b_ck b') in let k' := if b_init b then kdf2 [] (b_ck b') else kdf1 [] (b_ck b') in
    b_send b' = cs_init_saltkey (b_send b) (b_ck b') k /\ b_recv b' = cs_init_saltkey (b_recv b) (b_ck b') k'.
Proof.
  intros Ep Ed. unfold gen_act_three. rewrite Ep. cbn [must].
  destruct (encrypt_ok b tk 1 P C ltac:(lia)) as (c1 & -> & C1 & T1).
  match goal with |- context [br_mix_dh hmac ecdh ?b0 _ _] => destruct (mix_dh_ok b0 (b_re b) (b_ls b) x 2 Ed (proj1 (proj2 C1))) as (c2 & E2 & C2) end.
  cbn [b_re b_ls set_sym] in E2 |- *. rewrite E2. cbn [obind]. clear E2.
  match goal with |- context [br_encrypt chacha poly sha256 hmac ?b2 []] => destruct (encrypt_ok b2 _ 0 [] C2 ltac:(lia)) as (c3 & -> & C3 & T3) end.
  cbn [b_cs set_sym b_digest b_ck b_temp]. change (crypt (kdf2 x (b_ck b)) (iv_of 0) []) with (@nil Z) in *.
  cbn [b_digest set_sym b_ck] in T3. rewrite T1, T3. eexists. split; [unfold act3_u, act3_h, act3_t, act3_c; reflexivity|].
  unfold br_split. rewrite hkdf_kdf. cbn [b_init set_sym b_ck]. destruct (b_init b); cbn; repeat split.
Qed.
Lemma recv_act_three_ok s1 p1 p2 : length s1 = 33%nat -> length p1 = 16%nat -> length p2 = 16%nat -> ecdh (act3_c s1) (b_le b) = Some x ->
  exists b', recv_act_three chacha poly sha256 hmac ecdh b (s1 ++ p1 ++ p2) = Ok (beq (act3_t s1) p1 && beq (act3_u s1) p2, b') /\
    (p1 = act3_t s1 -> p2 = act3_u s1 ->
    b_ck b' = kdf1 x (b_ck b) /\ b_init b' = b_init b /\ b_state b' = b_state b /\ b_has_size b' = b_has_size b /\ b_buf b' = b_buf b /\ b_len b' = b_len b /\ b_rs b' = act3_c s1 /\
    let k := if b_init b then kdf1 [] (b_ck b') else kdf2 [] (b_ck b') in let k' := if b_init b then kdf2 [] (b_ck b') else kdf1 [] (b_ck b') in
    b_send b' = cs_init_saltkey (b_send b) (b_ck b') k /\ b_recv b' = cs_init_saltkey (b_recv b) (b_ck b') k').
Proof.
  intros L1 L2 L3 Ed. unfold recv_act_three.
  assert (F1 : firstn 33 (s1 ++ p1 ++ p2) = s1) by (rewrite firstn_app, L1; change (33 - 33)%nat with 0%nat; rewrite firstn_all2 by lia; apply app_nil_r).
  assert (F2 : firstn 16 (skipn 33 (s1 ++ p1 ++ p2)) = p1).
  { rewrite skipn_app, L1. change (33 - 33)%nat with 0%nat. rewrite (skipn_all2 s1) by lia. cbn [app skipn].
    rewrite firstn_app, L2. change (16 - 16)%nat with 0%nat. rewrite firstn_all2 by lia. apply app_nil_r. }
  assert (F3 : firstn 16 (skipn 49 (s1 ++ p1 ++ p2)) = p2).
  { rewrite app_assoc, skipn_app. rewrite (skipn_all2 (s1 ++ p1)) by (rewrite app_length; lia). rewrite app_length, L1, L2. change (49 - (33 + 16))%nat with 0%nat.
    cbn [app skipn]. apply firstn_all2. lia. }
  rewrite F1, F2, F3. clear F1 F2 F3.
  destruct (decrypt_ok b tk 1 s1 p1 C ltac:(lia)) as (c1 & -> & C1 & T1). cbn [b_cs set_sym]. unfold cs_verify at 1. rewrite T1. fold (act3_t s1).
  destruct (beq (act3_t s1) p1) eqn:E1; cbn [negb andb].
  2:{ eexists. split; [reflexivity|]. intros ->. rewrite beq_refl in E1. discriminate. }
  apply beq_true_iff in E1. subst p1. cbn [b_le set_sym b_rs b_ck b_temp b_digest b_init b_ls b_re b_send b_recv b_state b_has_size b_buf b_len b_rand].
  match goal with |- context [br_mix_dh hmac ecdh ?b0 ?k _] => destruct (mix_dh_ok b0 k (b_le b) x 2 Ed (proj1 (proj2 C1))) as (c2 & -> & C2) end.
  cbn [obind]. match goal with |- context [decrypt ?b2 _ _] => destruct (decrypt_ok b2 _ 0 [] p2 C2 ltac:(lia)) as (c3 & -> & C3 & T3) end.
  cbn [b_cs set_sym b_digest b_ck b_temp] in T3 |- *. unfold cs_verify. rewrite T3.
  change (mac (kdf2 x (b_ck b)) (iv_of 0) (sha256 (b_digest b ++ s1 ++ act3_t s1)) []) with (act3_u s1).
  destruct (beq (act3_u s1) p2) eqn:E2; cbn [negb].
  2:{ eexists. split; [reflexivity|]. intros _ ->. rewrite beq_refl in E2. discriminate. }
  eexists. split; [reflexivity|]. intros _ _. unfold br_split. rewrite hkdf_kdf. cbn [b_init set_sym b_ck]. destruct (b_init b); cbn; repeat split.
Qed.
End Act3.

(** * The two ends of the handshake *)
Variable Env : Type.
Variable write_cb : Env -> list Z -> Z * Env.
Variable connect_cb : Env -> cs -> Env * cs * bool.
Variable read_cb : Env -> cs -> list Z -> Env * cs * bool.
Notation on_connect := (br_on_connect chacha poly sha256 hmac pub ecdh to_hash Env write_cb).
Notation on_read := (br_on_read chacha poly sha256 hmac pub ecdh to_hash from_hash verify_pub Env write_cb connect_cb read_cb).
Notation init := (br_init_brontide sha256 pub).

Lemma on_read_one e b d : b_buf b = [] -> b_len b = zlen d -> b_state b <> 0 -> d <> [] ->
  on_read e b d = match br_parse chacha poly sha256 hmac pub ecdh to_hash from_hash verify_pub Env write_cb connect_cb read_cb e b d with
  | Ok (r, ml, e, b) => if negb (r =? 0) then Some (Ok (r, e, br_destroy b)) else if b_state b =? 0 then Some (Ok (0, e, b))
      else if ml =? 0 then Some Abort else if 0 <? ml then Some (Ok (0, e, set_io b (b_send b) (b_recv b) (b_state b) (b_has_size b) [] ml)) else Some Abort
  | Err x => Some (Err x) | Abort => Some Abort | Ub => Some Ub
  end.
Proof.
  intros Eb El St Nd. unfold br_on_read. destruct (Z.eqb_spec (b_state b) 0); [congruence|]. destruct (length d + 2)%nat as [|[|n0]] eqn:En; [lia|lia|].
  rewrite loop_S. rewrite Eb, El. change (zlen (@nil Z)) with 0. rewrite Z.add_0_l, Z.leb_refl, Z.sub_0_r. 
  assert (P : 0 < zlen d) by (destruct d; [congruence|rewrite zlen_cons; pose proof (zlen_nonneg d); lia]).
  destruct (Z.ltb_spec 0 (zlen d)); [|lia]. cbn [negb]. cbv zeta. unfold zlen at 1 2. rewrite Nat2Z.id, firstn_all, skipn_all. cbn [app].
  assert (Em : emptied b = b) by (unfold emptied; rewrite <- Eb; apply set_io_id). rewrite Em.
  destruct (br_parse _ _ _ _ _ _ _ _ _ _ _ _ _ e b d) as [[[[r ml] e'] b']|?| |]; auto. destruct (negb (r =? 0)); auto. destruct (b_state b' =? 0); auto.
  destruct (Z.eqb_spec ml 0); auto. rewrite loop_S. cbn [b_len b_buf set_io]. change (zlen (@nil Z)) with 0. rewrite Z.add_0_l.
  destruct (Z.leb_spec ml 0); destruct (Z.ltb_spec 0 ml); try lia; [|reflexivity]. reflexivity.
Qed.

Notation T1 rs ei es := (n_t1 chacha poly hmac sha256 protocol_name prologue rs ei es).
Notation T2 rs ei er es ee := (n_t2 chacha poly hmac sha256 protocol_name prologue rs ei er es ee).
Notation C3 is es ee := (n_c3 chacha hmac sha256 protocol_name is es ee).
Notation T3 rs ei er is es ee := (n_t3 chacha poly hmac sha256 protocol_name prologue rs ei er is es ee).
Notation T4 rs ei er is es ee se := (n_t4 chacha poly hmac sha256 protocol_name prologue rs ei er is es ee se).
Notation CK3 es ee se := (n_ck3 hmac sha256 protocol_name es ee se).
Notation KIR es ee se := (n_key_ir hmac sha256 protocol_name es ee se).
Notation KRI es ee se := (n_key_ri hmac sha256 protocol_name es ee se).

(** Waiting for act two, act one and act three. *)
Definition awaits_two (b : br) our priv rs ei es : Prop :=
  b_state b = 2 /\ b_init b = true /\ b_ls b = our /\ b_le b = priv /\ b_rs b = rs /\ b_has_size b = false /\ b_buf b = [] /\ b_len b = 80 /\
  b_ck b = n_ck1 hmac sha256 protocol_name es /\ b_digest b = sha256 (n_h3 sha256 protocol_name prologue rs ei ++ T1 rs ei es) /\
  b_send b = cs_init /\ b_recv b = cs_init /\ c_iv (b_cs b) = iv_of 1.
Definition awaits_one (b : br) our rs rand : Prop :=
  b_state b = 1 /\ b_init b = false /\ b_ls b = our /\ b_has_size b = false /\ b_buf b = [] /\ b_len b = 80 /\ b_rand b = rand /\
  b_ck b = sha256 protocol_name /\ b_digest b = n_h2 sha256 protocol_name prologue rs /\
  b_send b = cs_init /\ b_recv b = cs_init /\ c_iv (b_cs b) = iv_of 0.
Definition awaits_three (b : br) priv rs ei er es ee : Prop :=
  b_state b = 3 /\ b_init b = false /\ b_le b = priv /\ b_has_size b = false /\ b_buf b = [] /\ b_len b = 65 /\
  b_ck b = n_ck2 hmac sha256 protocol_name es ee /\ b_digest b = n_h6 chacha poly hmac sha256 protocol_name prologue rs ei er es ee /\
  b_send b = cs_init /\ b_recv b = cs_init /\ cs_ok (b_cs b) (n_tk2 hmac sha256 protocol_name es ee) 1.

Lemma init_ok rand (side : bool) our their (P : list Z) : (if side then their = Some P else pub our = Some P) ->
  exists b0, init (br_init rand) side our their = Ok b0 /\ b_init b0 = side /\ b_ls b0 = our /\ (side = true -> b_rs b0 = P) /\ b_rand b0 = rand /\
    b_ck b0 = sha256 protocol_name /\ b_digest b0 = n_h2 sha256 protocol_name prologue P /\ b_send b0 = cs_init /\ b_recv b0 = cs_init /\
    b_has_size b0 = false /\ c_iv (b_cs b0) = iv_of 0.
Proof.
  intros H. unfold br_init_brontide. destruct side; subst; cbn [must]; [|rewrite H; cbn [must]]; eexists; (split; [reflexivity|]); cbn; repeat split; auto. discriminate.
Qed.
Lemma initiator_start e our rs priv ent ei es : pub priv = Some ei -> ecdh rs priv = Some es ->
  exists b0 b1 d, init (br_init (priv, ent)) true our (Some rs) = Ok b0 /\ awaits_two b1 our priv rs ei es /\
    on_connect e b0 = let '(r, e') := write_cb e (to_hash ei ent ++ T1 rs ei es) in Ok (r, e', if r =? 0 then b1 else br_destroy d).
Proof.
  intros Ep Ed. destruct (init_ok (priv, ent) true our (Some rs) rs eq_refl) as (b0 & -> & Ei & El & Ers & Er & Eck & Eh & Es & Erv & Ehs & Ev). specialize (Ers eq_refl).
  destruct (gen_act_ok (gen_act_one chacha poly sha256 hmac pub ecdh to_hash) b_rs (set_state b0 2) priv ent ei es 0) as (c & G & C); auto.
  { cbn. now rewrite Ers. }
  cbn [b_rs b_ck b_digest b_init b_ls b_le b_re b_send b_recv b_state b_has_size b_buf b_len b_rand set_state set_io] in G, C.
  rewrite Eck, Eh, Ei in *. exists b0.
  match type of G with _ = Ok (_, ?bb) => exists (set_io bb (b_send bb) (b_recv bb) (b_state bb) (b_has_size bb) [] 80), bb end.
  split; [reflexivity|]. split.
  - unfold awaits_two. cbn. destruct C as (_ & C & _). repeat split; auto.
  - unfold br_on_connect. rewrite Ei, G. cbn [obind].
    match goal with |- context [write_cb e ?a] => change a with (to_hash ei ent ++ T1 rs ei es) end.
    destruct (write_cb e (to_hash ei ent ++ T1 rs ei es)) as [r e']. destruct (Z.eqb_spec r 0) as [->|]; cbn [negb]; reflexivity.
Qed.
Lemma responder_start e our rs priv ent : pub our = Some rs ->
  exists b0 b1, init (br_init (priv, ent)) false our None = Ok b0 /\ on_connect e b0 = Ok (0, e, b1) /\ awaits_one b1 our rs (priv, ent).
Proof.
  intros Ep. destruct (init_ok (priv, ent) false our None rs Ep) as (b0 & -> & Ei & El & _ & Er & Eck & Eh & Es & Erv & Ehs & Ev).
  exists b0. eexists. split; [reflexivity|]. unfold br_on_connect. rewrite Ei. split; [reflexivity|]. unfold awaits_one. cbn. repeat split; auto.
Qed.

Lemma act_split (u p : list Z) : length u = 64%nat -> length p = 16%nat ->
  firstn 64 (u ++ p) = u /\ firstn 16 (skipn 64 (u ++ p)) = p /\ zlen (u ++ p) = 80.
Proof.
  clear. intros L1 L2. rewrite firstn_app, skipn_app, L1. change (64 - 64)%nat with 0%nat. rewrite (firstn_all2 u), (skipn_all2 u) by lia. change (firstn 0 p) with (@nil Z). change (skipn 0 p) with p. change ([] ++ p) with p.
  rewrite app_nil_r, (firstn_all2 p) by lia. rewrite zlen_app. unfold zlen. rewrite L1, L2. auto.
Qed.

(** The initiator on act two: accepted exactly if the tag is that of the transcript. *)
Lemma initiator_step e b our priv rs ei es u p er ee : awaits_two b our priv rs ei es ->
  length u = 64%nat -> length p = 16%nat -> from_hash u = Some er -> verify_pub er = true -> ecdh er priv = Some ee ->
  if beq (T2 rs ei er es ee) p then
    forall se is e1 e2 c0, ecdh er our = Some se -> pub our = Some is ->
      write_cb e (C3 is es ee ++ T3 rs ei er is es ee ++ T4 rs ei er is es ee se) = (0, e1) ->
      c0 = cs_init_saltkey cs_init (CK3 es ee se) (KIR es ee se) -> connect_cb e1 c0 = (e2, c0, false) ->
      exists b2, on_read e b (u ++ p) = Some (Ok (0, e2, b2)) /\ established b2 (KIR es ee se) (KRI es ee se) (CK3 es ee se) /\ b_rs b2 = rs
  else exists d, on_read e b (u ++ p) = Some (Ok (28, e, d)) /\ b_state d = 0.
Proof.
  intros (St & In & Ls & Le & Rs & Hs & Bf & Ln & Ck & Dg & Sd & Rv & Iv) Lu Lp Ef Vf E1. destruct (act_split u p Lu Lp) as (S1 & S2 & Lz).
  assert (Nd : u ++ p <> []) by (intros X; rewrite X in Lz; discriminate).
  assert (Rd : on_read e b (u ++ p) = match br_parse chacha poly sha256 hmac pub ecdh to_hash from_hash verify_pub Env write_cb connect_cb read_cb e b (u ++ p) with
    | Ok (r, ml, e, b) => if negb (r =? 0) then Some (Ok (r, e, br_destroy b)) else if b_state b =? 0 then Some (Ok (0, e, b))
      else if ml =? 0 then Some Abort else if 0 <? ml then Some (Ok (0, e, set_io b (b_send b) (b_recv b) (b_state b) (b_has_size b) [] ml)) else Some Abort
    | Err x => Some (Err x) | Abort => Some Abort | Ub => Some Ub end).
  { apply on_read_one; rewrite ?St, ?Ln, ?Lz; auto; discriminate. }
  unfold br_parse in Rd. rewrite In, St, Lz in Rd. zred. cbn [andb negb] in Rd. unfold recv_act_two in Rd. rewrite S1, S2, Ef, Vf in Rd. cbn [negb] in Rd.
  change (b_re (br_remote_ephemeral sha256 b er)) with er in Rd. change (b_le (br_remote_ephemeral sha256 b er)) with (b_le b) in Rd. rewrite Le in Rd.
  destruct (recv_tail_ok b er priv ee 1 p E1 Iv) as (c & Et & C). rewrite Et in Rd. clear Et. cbn [obind] in Rd. rewrite Ck, Dg in *.
  match type of Rd with context [beq ?t p] => change t with (T2 rs ei er es ee) in Rd end.
  destruct (beq (T2 rs ei er es ee) p) eqn:Et; cbn [negb] in Rd.
  2:{ change (28 =? 0) with false in Rd. cbn [negb] in Rd. eexists. split; [exact Rd|reflexivity]. }
  apply beq_true_iff in Et. subst p. intros se is e1 e2 c0 E2 Ep Ew E0 Ec.
  match type of Rd with context [gen_act_three _ _ _ _ _ _ ?b1] => 
    destruct (gen_act_three_ok b1 (n_tk2 hmac sha256 protocol_name es ee) se C is) as (b2 & G & K1 & K2 & K3 & K4 & K5 & K6 & K7 & K8) end.
  { cbn. now rewrite Ls. } { cbn. now rewrite Ls. }
  rewrite G in Rd. cbn [obind] in Rd. clear G. unfold act3_u, act3_h, act3_t, act3_c in Rd. cbn [b_digest b_ck b_init] in Rd, K1, K2, K8.
  match type of Rd with context [write_cb e ?a] => change a with (C3 is es ee ++ T3 rs ei er is es ee ++ T4 rs ei er is es ee se) in Rd end.
  rewrite Ew in Rd. change (0 =? 0) with true in Rd. cbn [negb] in Rd. rewrite In in K8. destruct K8 as [K8 K9]. rewrite K1 in K8, K9. cbn [b_send b_recv] in K8, K9. rewrite Sd in K8. rewrite Rv in K9.
  assert (K8' : b_send b2 = c0) by (rewrite K8, E0; reflexivity). rewrite K8', Ec in Rd. cbn in Rd. zred.
  eexists. split; [exact Rd|]. split; [|cbn; rewrite K7; exact Rs]. unfold established. cbn. rewrite K4. cbn. rewrite K9. repeat split; auto.
Qed.

(** The responder on act one. *)
Lemma responder_step_one e b our rs priv ent u p ei es : awaits_one b our rs (priv, ent) ->
  length u = 64%nat -> length p = 16%nat -> from_hash u = Some ei -> ecdh ei our = Some es ->
  if beq (T1 rs ei es) p then
    forall er ee e1, pub priv = Some er -> ecdh ei priv = Some ee -> write_cb e (to_hash er ent ++ T2 rs ei er es ee) = (0, e1) ->
      exists b2, on_read e b (u ++ p) = Some (Ok (0, e1, b2)) /\ awaits_three b2 priv rs ei er es ee
  else exists d, on_read e b (u ++ p) = Some (Ok (27, e, d)) /\ b_state d = 0.
Proof.
  intros (St & In & Ls & Hs & Bf & Ln & Rn & Ck & Dg & Sd & Rv & Iv) Lu Lp Ef E1. destruct (act_split u p Lu Lp) as (S1 & S2 & Lz).
  assert (Nd : u ++ p <> []) by (intros X; rewrite X in Lz; discriminate).
  assert (Rd : on_read e b (u ++ p) = match br_parse chacha poly sha256 hmac pub ecdh to_hash from_hash verify_pub Env write_cb connect_cb read_cb e b (u ++ p) with
    | Ok (r, ml, e, b) => if negb (r =? 0) then Some (Ok (r, e, br_destroy b)) else if b_state b =? 0 then Some (Ok (0, e, b))
      else if ml =? 0 then Some Abort else if 0 <? ml then Some (Ok (0, e, set_io b (b_send b) (b_recv b) (b_state b) (b_has_size b) [] ml)) else Some Abort
    | Err x => Some (Err x) | Abort => Some Abort | Ub => Some Ub end).
  { apply on_read_one; rewrite ?St, ?Ln, ?Lz; auto; discriminate. }
  unfold br_parse in Rd. rewrite In, St, Lz in Rd. zred. cbn [andb negb] in Rd. unfold recv_act_one in Rd. rewrite S1, S2, Ef in Rd.
  change (b_re (br_remote_ephemeral sha256 b ei)) with ei in Rd. change (b_ls (br_remote_ephemeral sha256 b ei)) with (b_ls b) in Rd. rewrite Ls in Rd.
  destruct (recv_tail_ok b ei our es 0 p E1 Iv) as (c & Et & C). rewrite Et in Rd. clear Et. cbn [obind] in Rd. rewrite Ck, Dg in *.
  match type of Rd with context [beq ?t p] => change t with (T1 rs ei es) in Rd end.
  destruct (beq (T1 rs ei es) p) eqn:Et; cbn [negb] in Rd.
  2:{ change (27 =? 0) with false in Rd. cbn [negb] in Rd. eexists. split; [exact Rd|reflexivity]. }
  apply beq_true_iff in Et. subst p. intros er ee e1 Ep E2 Ew.
  match type of Rd with context [gen_act_two _ _ _ _ _ _ _ ?b1] => 
    destruct (gen_act_ok (gen_act_two chacha poly sha256 hmac pub ecdh to_hash) b_re b1 priv ent er ee 1) as (c2 & G & C2); auto end.
  { apply C. }
  rewrite G in Rd. cbn [obind] in Rd. clear G. cbn [b_digest b_ck b_init b_ls b_rs b_re b_send b_recv b_state b_has_size b_buf b_len b_rand] in Rd, C2.
  match type of Rd with context [write_cb e ?a] => change a with (to_hash er ent ++ T2 rs ei er es ee) in Rd end.
  rewrite Ew in Rd. change (0 =? 0) with true in Rd. cbn in Rd. zred. cbv iota in Rd.
  eexists. split; [exact Rd|]. unfold awaits_three. cbn. repeat split; auto; apply C2.
Qed.

(** The responder on act three. *)
Lemma responder_step_three e b priv rs ei er es ee s1 p1 p2 is se : awaits_three b priv rs ei er es ee ->
  length s1 = 33%nat -> length p1 = 16%nat -> length p2 = 16%nat -> is = crypt (n_tk2 hmac sha256 protocol_name es ee) (iv_of 1) s1 -> ecdh is priv = Some se ->
  if beq (T3 rs ei er is es ee) p1 && beq (T4 rs ei er is es ee se) p2 then
    forall e2 c0, c0 = cs_init_saltkey cs_init (CK3 es ee se) (KRI es ee se) -> connect_cb e c0 = (e2, c0, false) ->
      exists b2, on_read e b (s1 ++ p1 ++ p2) = Some (Ok (0, e2, b2)) /\ established b2 (KRI es ee se) (KIR es ee se) (CK3 es ee se) /\ b_rs b2 = is
  else exists d, on_read e b (s1 ++ p1 ++ p2) = Some (Ok (29, e, d)) /\ b_state d = 0.
Proof.
  intros (St & In & Le & Hs & Bf & Ln & Ck & Dg & Sd & Rv & C) L1 L2 L3 Eis E1.
  assert (Lz : zlen (s1 ++ p1 ++ p2) = 65) by (rewrite !zlen_app; unfold zlen; rewrite L1, L2, L3; reflexivity).
  assert (Nd : s1 ++ p1 ++ p2 <> []) by (intros X; rewrite X in Lz; discriminate).
  assert (Rd : on_read e b (s1 ++ p1 ++ p2) = match br_parse chacha poly sha256 hmac pub ecdh to_hash from_hash verify_pub Env write_cb connect_cb read_cb e b (s1 ++ p1 ++ p2) with
    | Ok (r, ml, e, b) => if negb (r =? 0) then Some (Ok (r, e, br_destroy b)) else if b_state b =? 0 then Some (Ok (0, e, b))
      else if ml =? 0 then Some Abort else if 0 <? ml then Some (Ok (0, e, set_io b (b_send b) (b_recv b) (b_state b) (b_has_size b) [] ml)) else Some Abort
    | Err x => Some (Err x) | Abort => Some Abort | Ub => Some Ub end).
  { apply on_read_one; rewrite ?St, ?Ln, ?Lz; auto; discriminate. }
  unfold br_parse in Rd. rewrite In, St, Lz in Rd. zred. cbn [andb negb] in Rd.
  destruct (recv_act_three_ok b (n_tk2 hmac sha256 protocol_name es ee) se C s1 p1 p2 L1 L2 L3) as (b2 & G & K).
  { unfold act3_c. rewrite <- Eis, Le. exact E1. }
  rewrite G in Rd. cbn [obind] in Rd. clear G.
  assert (Ec : s1 = C3 is es ee) by (unfold n_c3; rewrite Eis; symmetry; apply crypt_invol).
  unfold act3_u, act3_h, act3_t, act3_c in Rd, K. rewrite Ck, Dg in Rd, K. rewrite <- Eis in K.
  assert (X3 : mac (n_tk2 hmac sha256 protocol_name es ee) (iv_of 1) (n_h6 chacha poly hmac sha256 protocol_name prologue rs ei er es ee) s1 = T3 rs ei er is es ee) by (rewrite Ec; reflexivity).
  rewrite X3 in Rd, K.
  assert (X4 : mac (kdf2 se (n_ck2 hmac sha256 protocol_name es ee)) (iv_of 0) (sha256 (n_h6 chacha poly hmac sha256 protocol_name prologue rs ei er es ee ++ s1 ++ T3 rs ei er is es ee)) [] = T4 rs ei er is es ee se) by (rewrite Ec; reflexivity).
  rewrite X4 in Rd, K.
  destruct (beq (T3 rs ei er is es ee) p1 && beq (T4 rs ei er is es ee se) p2) eqn:Eb; cbn [negb] in Rd.
  2:{ change (29 =? 0) with false in Rd. cbn [negb] in Rd. eexists. split; [exact Rd|reflexivity]. }
  apply andb_true_iff in Eb as [Eb1 Eb2]. apply beq_true_iff in Eb1, Eb2. intros e2 c0 E0 Ecn.
  destruct (K (eq_sym Eb1) (eq_sym Eb2)) as (K1 & K2 & K3 & K4 & K5 & K6 & K7 & K8). rewrite In in K8. destruct K8 as [K8 K9]. rewrite K1, Sd in K8. rewrite K1, Rv in K9.
  assert (K8' : b_send b2 = c0) by (rewrite K8, E0; reflexivity). rewrite K8', Ecn in Rd. cbn in Rd. zred.
  eexists. split; [exact Rd|]. split; [|cbn; exact K7]. unfold established. cbn. rewrite K4. cbn. rewrite K9. repeat split; auto.
Qed.
End Handshake.

(** C48: an initiator that dials the static key of a responder and the responder
    itself, exchanging their acts over a working socket, both complete. The acts are
    those of the Noise XK transcript of 80, 80 and 65 bytes. Each end's sending key,
    salt and counter are the other's receiving ones, and each knows the other's static
    key. [connect_cb] is any callback that does not write or close at once. *)
Theorem handshake_agrees chacha poly hmac sha256 pub ecdh to_hash from_hash verify_pub connect_cb read_cb :
  (forall a b, length (poly a b) = 16%nat) ->
  (forall a b A B, pub a = Some A -> pub b = Some B -> exists x, ecdh A b = Some x /\ ecdh B a = Some x) ->
  (forall a A r, pub a = Some A -> length A = 33%nat /\ verify_pub A = true /\ length (to_hash A r) = 64%nat /\ from_hash (to_hash A r) = Some A) ->
  (forall w c, connect_cb w c = (w, c, false)) ->
  forall ki kr ei er enti entr Pi Pr Ei Er,
  pub ki = Some Pi -> pub kr = Some Pr -> pub ei = Some Ei -> pub er = Some Er ->
  let on_connect := br_on_connect chacha poly sha256 hmac pub ecdh to_hash (list Z) log_cb in
  let on_read := br_on_read chacha poly sha256 hmac pub ecdh to_hash from_hash verify_pub (list Z) log_cb connect_cb read_cb in
  exists es ee se, ecdh Pr ei = Some es /\ ecdh Er ei = Some ee /\ ecdh Er ki = Some se /\
  let name := protocol_name in
  let act1 := to_hash Ei enti ++ n_t1 chacha poly hmac sha256 name prologue Pr Ei es in
  let act2 := to_hash Er entr ++ n_t2 chacha poly hmac sha256 name prologue Pr Ei Er es ee in
  let act3 := n_c3 chacha hmac sha256 name Pi es ee ++ n_t3 chacha poly hmac sha256 name prologue Pr Ei Er Pi es ee ++
              n_t4 chacha poly hmac sha256 name prologue Pr Ei Er Pi es ee se in
  let kir := n_key_ir hmac sha256 name es ee se in let kri := n_key_ri hmac sha256 name es ee se in let salt := n_ck3 hmac sha256 name es ee se in
  zlen act1 = 80 /\ zlen act2 = 80 /\ zlen act3 = 65 /\
  exists i0 r0 i1 r1 r2 i2 r3,
    br_init_brontide sha256 pub (br_init (ei, enti)) true ki (Some Pr) = Ok i0 /\
    br_init_brontide sha256 pub (br_init (er, entr)) false kr None = Ok r0 /\
    on_connect [] i0 = Ok (0, act1, i1) /\ on_connect [] r0 = Ok (0, [], r1) /\
    on_read [] r1 act1 = Some (Ok (0, act2, r2)) /\
    on_read act1 i1 act2 = Some (Ok (0, act1 ++ act3, i2)) /\
    on_read act2 r2 act3 = Some (Ok (0, act2, r3)) /\
    established i2 kir kri salt /\ established r3 kri kir salt /\ b_rs i2 = Pr /\ b_rs r3 = Pi.
Proof.
  intros Lp Dh Ec Cc ki kr ei er enti entr Pi Pr Ei Er Hi Hr Hei Her on_connect on_read.
  destruct (Dh kr ei Pr Ei Hr Hei) as (es & D1 & D1'). destruct (Dh er ei Er Ei Her Hei) as (ee & D2 & D2'). destruct (Dh er ki Er Pi Her Hi) as (se & D3 & D3').
  exists es, ee, se. split; [exact D1|]. split; [exact D2|]. split; [exact D3|]. cbv zeta.
  destruct (Ec ei Ei enti Hei) as (L1 & V1 & U1 & F1). destruct (Ec er Er entr Her) as (L2 & V2 & U2 & F2). destruct (Ec ki Pi [] Hi) as (L3 & _).
  assert (Lm : forall a b c d, length (mac chacha poly a b c d) = 16%nat) by (intros; apply Lp).
  split; [rewrite zlen_app; unfold zlen; rewrite U1; unfold n_t1; rewrite Lm; reflexivity|].
  split; [rewrite zlen_app; unfold zlen; rewrite U2; unfold n_t2; rewrite Lm; reflexivity|].
  split; [rewrite !zlen_app; unfold zlen, n_t3, n_t4, n_c3; rewrite !Lm, crypt_length, L3; reflexivity|].
  destruct (initiator_start chacha poly hmac sha256 pub ecdh to_hash from_hash verify_pub (list Z) log_cb [] ki Pr ei enti Ei es Hei D1) as (i0 & i1 & d & I0 & I1 & I2).
  destruct (responder_start chacha poly hmac sha256 pub ecdh to_hash (list Z) log_cb [] kr Pr er entr Hr) as (r0 & r1 & R0 & R1 & R2).
  pose proof (responder_step_one chacha poly hmac sha256 pub ecdh to_hash from_hash verify_pub (list Z) log_cb connect_cb read_cb [] r1 kr Pr er entr
    (to_hash Ei enti) (n_t1 chacha poly hmac sha256 protocol_name prologue Pr Ei es) Ei es R2 U1 (Lm _ _ _ _) F1 D1') as S1.
  rewrite beq_refl in S1. destruct (S1 Er ee _ Her D2' eq_refl) as (r2 & S1a & S1b).
  pose proof (initiator_step chacha poly hmac sha256 pub ecdh to_hash from_hash verify_pub (list Z) log_cb connect_cb read_cb
    (to_hash Ei enti ++ n_t1 chacha poly hmac sha256 protocol_name prologue Pr Ei es) i1 ki ei Pr Ei es
    (to_hash Er entr) (n_t2 chacha poly hmac sha256 protocol_name prologue Pr Ei Er es ee) Er ee I1 U2 (Lm _ _ _ _) F2 V2 D2) as S2.
  rewrite beq_refl in S2. destruct (S2 se Pi _ _ _ D3 Hi eq_refl eq_refl (Cc _ _)) as (i2 & S2a & S2b & S2c).
  assert (Ecr : Pi = crypt chacha (n_tk2 hmac sha256 protocol_name es ee) (iv_of 1) (n_c3 chacha hmac sha256 protocol_name Pi es ee)) by (unfold n_c3; symmetry; apply crypt_invol).
  assert (Lc3 : length (n_c3 chacha hmac sha256 protocol_name Pi es ee) = 33%nat) by (unfold n_c3; rewrite crypt_length; exact L3).
  pose proof (responder_step_three chacha poly hmac sha256 pub ecdh to_hash from_hash verify_pub (list Z) log_cb connect_cb read_cb
    (to_hash Er entr ++ n_t2 chacha poly hmac sha256 protocol_name prologue Pr Ei Er es ee) r2 er Pr Ei Er es ee
    (n_c3 chacha hmac sha256 protocol_name Pi es ee) (n_t3 chacha poly hmac sha256 protocol_name prologue Pr Ei Er Pi es ee)
    (n_t4 chacha poly hmac sha256 protocol_name prologue Pr Ei Er Pi es ee se) Pi se S1b Lc3 (Lm _ _ _ _) (Lm _ _ _ _) Ecr D3') as S3.
  rewrite !beq_refl in S3. cbn [andb] in S3. destruct (S3 _ _ eq_refl (Cc _ _)) as (r3 & S3a & S3b & S3c).
  exists i0, r0, i1, r1, r2, i2, r3. split; [exact I0|]. split; [exact R0|]. split; [unfold on_connect; rewrite I2; reflexivity|]. split; [exact R1|].
  split; [exact S1a|]. split; [exact S2a|]. split; [exact S3a|]. auto.
Qed.

(** C48: the initiator completes against no other act two than one whose tag is the
    transcript tag for the static key [rs] it dialled: if the reader returns success on
    80 bytes, they are an encoding of some valid key [er] followed by that tag. Otherwise
    the connection is closed with code 28 (or the encoding is invalid: see the finding
    on hsk_ec_pubkey_from_hash). *)
Theorem initiator_completes_only chacha poly hmac sha256 pub ecdh to_hash from_hash verify_pub Env write_cb connect_cb read_cb
  (e : Env) our rs priv ent ei es e1 i0 i1 :
  (forall a b, length (poly a b) = 16%nat) ->
  (forall P k K, verify_pub P = true -> pub k = Some K -> exists x, ecdh P k = Some x) ->
  pub priv = Some ei -> ecdh rs priv = Some es -> (exists P, pub our = Some P) ->
  br_init_brontide sha256 pub (br_init (priv, ent)) true our (Some rs) = Ok i0 ->
  br_on_connect chacha poly sha256 hmac pub ecdh to_hash Env write_cb e i0 = Ok (0, e1, i1) ->
  forall u p r e2 i2, length u = 64%nat -> length p = 16%nat ->
  br_on_read chacha poly sha256 hmac pub ecdh to_hash from_hash verify_pub Env write_cb connect_cb read_cb e1 i1 (u ++ p) = Some (Ok (r, e2, i2)) ->
  (r = 28 /\ e2 = e1 /\ b_state i2 = 0) \/
  exists er ee, from_hash u = Some er /\ verify_pub er = true /\ ecdh er priv = Some ee /\
    p = n_t2 chacha poly hmac sha256 protocol_name prologue rs ei er es ee.
Proof.
  intros Lp Dv Ep Ed (P & Eo) E0 E1 u p r e2 i2 Lu Lpp R.
  destruct (initiator_start chacha poly hmac sha256 pub ecdh to_hash from_hash verify_pub Env write_cb e our rs priv ent ei es Ep Ed) as (b0 & b1 & d & I0 & I1 & I2).
  rewrite E0 in I0. apply Ok_inj in I0. subst b0. rewrite E1 in I2. destruct (write_cb e _) as [r0 e0]. apply Ok_inj in I2.
  destruct (Z.eqb_spec r0 0) as [->|N]; [|exfalso; injection I2 as ? ? ?; congruence]. injection I2 as -> ->.
  destruct (from_hash u) as [er|] eqn:Ef.
  - destruct (verify_pub er) eqn:Vf.
    + destruct (Dv er priv ei Vf Ep) as (ee & Ee).
      pose proof (initiator_step chacha poly hmac sha256 pub ecdh to_hash from_hash verify_pub Env write_cb connect_cb read_cb e0 b1 our priv rs ei es u p er ee I1 Lu Lpp Ef Vf Ee) as S.
      destruct (beq (n_t2 chacha poly hmac sha256 protocol_name prologue rs ei er es ee) p) eqn:Eb.
      * right. exists er, ee. apply beq_true_iff in Eb. auto.
      * left. destruct S as (x & X & Y). rewrite X in R. injection R as <- <- <-. auto.
    + left. destruct I1 as (St & In & _ & _ & _ & _ & Bf & Ln & _). destruct (act_split u p Lu Lpp) as (S1 & S2 & Lz).
      rewrite on_read_one in R; [|now rewrite ?St, ?Ln, ?Lz; auto; discriminate|now rewrite ?St, ?Ln, ?Lz; auto; discriminate|now rewrite ?St, ?Ln, ?Lz; auto; discriminate|intros X; rewrite X in Lz; discriminate].
      unfold br_parse in R. rewrite In, St, Lz in R. zred. cbn [andb negb] in R. unfold recv_act_two in R. rewrite S1, Ef, Vf in R. cbn [negb obind] in R.
      change (28 =? 0) with false in R. cbn [negb] in R. injection R as <- <- <-. auto.
  - exfalso. destruct I1 as (St & In & _ & _ & _ & _ & Bf & Ln & _). destruct (act_split u p Lu Lpp) as (S1 & S2 & Lz).
    rewrite on_read_one in R; [|now rewrite ?St, ?Ln, ?Lz; auto; discriminate|now rewrite ?St, ?Ln, ?Lz; auto; discriminate|now rewrite ?St, ?Ln, ?Lz; auto; discriminate|intros X; rewrite X in Lz; discriminate].
    unfold br_parse in R. rewrite In, St, Lz in R. zred. cbn [andb negb] in R. unfold recv_act_two in R. rewrite S1, Ef in R. cbn [obind] in R. discriminate.
Qed.

(** A responder with another static key than the one dialled answers act one only if
    two different inputs have the same SHA-256 or two different transcripts the same
    Poly1305 tag. *)
Theorem wrong_static_key_refused chacha poly hmac sha256 pub ecdh to_hash from_hash verify_pub connect_cb read_cb :
  (forall a b, length (poly a b) = 16%nat) ->
  forall kr Pr Pr' priv ent ei es es' r0 r1 enti,
  pub kr = Some Pr' -> Pr <> Pr' ->
  length (to_hash ei enti) = 64%nat -> from_hash (to_hash ei enti) = Some ei -> ecdh ei kr = Some es' ->
  (forall d, length (sha256 d) = 32%nat) ->
  br_init_brontide sha256 pub (br_init (priv, ent)) false kr None = Ok r0 ->
  br_on_connect chacha poly sha256 hmac pub ecdh to_hash (list Z) log_cb [] r0 = Ok (0, [], r1) ->
  (exists d, br_on_read chacha poly sha256 hmac pub ecdh to_hash from_hash verify_pub (list Z) log_cb connect_cb read_cb [] r1
     (to_hash ei enti ++ n_t1 chacha poly hmac sha256 protocol_name prologue Pr ei es) = Some (Ok (27, [], d)) /\ b_state d = 0) \/
  (exists x y, x <> y /\ sha256 x = sha256 y) \/
  (exists K K' h h', h <> h' /\ mac chacha poly K (iv_of 0) h [] = mac chacha poly K' (iv_of 0) h' []).
Proof.
  intros Lp kr Pr Pr' priv ent ei es es' r0 r1 enti Ek Np U F D Ls I0 I1.
  destruct (responder_start chacha poly hmac sha256 pub ecdh to_hash (list Z) log_cb [] kr Pr' priv ent Ek) as (b0 & b1 & J0 & J1 & A).
  rewrite I0 in J0. apply Ok_inj in J0. subst b0. rewrite I1 in J1. apply Ok_inj, (f_equal snd) in J1. cbn [snd] in J1. subst b1.
  pose proof (responder_step_one chacha poly hmac sha256 pub ecdh to_hash from_hash verify_pub (list Z) log_cb connect_cb read_cb [] r1 kr Pr' priv ent
    (to_hash ei enti) (n_t1 chacha poly hmac sha256 protocol_name prologue Pr ei es) ei es' A U (Lp _ _) F D) as S1.
  destruct (beq _ _) eqn:Eb in S1; [|left; exact S1]. right. apply beq_true_iff in Eb.
  destruct (list_dec (n_h3 sha256 protocol_name prologue Pr' ei) (n_h3 sha256 protocol_name prologue Pr ei)) as [Eh|Nh].
  2:{ right. unfold n_t1 in Eb. eauto 8. }
  left. unfold n_h3, n_h2 in Eh.
  destruct (list_dec (sha256 (sha256 (sha256 protocol_name ++ prologue) ++ Pr') ++ ei) (sha256 (sha256 (sha256 protocol_name ++ prologue) ++ Pr) ++ ei)) as [E2|N2]; [|eauto].
  apply app_inj_len in E2 as [E2 _]; [|now rewrite !Ls]. do 2 eexists. split; [|exact E2]. intros X. apply app_inv_head in X. congruence.
Qed.
