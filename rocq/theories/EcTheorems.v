(** Random numbers, private keys, ephemeral keys and names of errors (C89). *)
From Coq Require Import String Znumtheory.
From Verif Require Import Common CommonFacts BrontideModel EcModel.
Open Scope list_scope.
Open Scope Z_scope.

Lemma some_inj {A} (x y : A) : Some x = Some y -> x = y.
Proof. intros E. injection E as E. exact E. Qed.
Lemma ok_inj {A} (x y : A) : Ok x = Ok y -> x = y.
Proof. intros E. injection E as E. exact E. Qed.

(** ** Bytes from the system *)
Lemma overwrite_length buf data : (length data <= length buf)%nat -> length (overwrite buf data) = length buf.
Proof. intros L. unfold overwrite. rewrite app_length, skipn_length. lia. Qed.
Lemma overwrite_all buf data : length data = length buf -> overwrite buf data = data.
Proof. intros L. unfold overwrite. rewrite L, skipn_all. apply app_nil_r. Qed.
(** On Linux: whatever getrandom does within its contract (an error and nothing written, or the number
    of bytes it wrote), success means that every byte of the buffer comes from it. *)
Theorem getrandom_exact buf ret data : zlen buf < 2 ^ 63 -> (ret < 0 /\ data = []) \/ (ret = zlen data /\ zlen data <= zlen buf) ->
  let '(ok, out) := rand_getrandom buf ret data in
  (ok = true <-> ret = zlen buf) /\ (ok = true -> out = data /\ zlen data = zlen buf) /\ length out = length buf.
Proof.
  intros S C. unfold rand_getrandom. unfold zlen in *.
  assert (L : (length data <= length buf)%nat) by (destruct C as [[_ ->]|[_ C]]; cbn [length]; lia).
  assert (R : ret < 0 \/ 0 <= ret < 2 ^ 63) by lia.
  assert (E : ((ret <? 0) || negb (ret mod 2 ^ 64 =? Z.of_nat (length buf)) = false) <-> ret = Z.of_nat (length buf)).
  { destruct R as [R|R].
    - apply Z.ltb_lt in R as R'. rewrite R'. cbn [orb]. split; [discriminate|lia].
    - assert (R' : (ret <? 0) = false) by (apply Z.ltb_ge; lia). rewrite R'. cbn [orb]. rewrite Z.mod_small by lia. destruct (Z.eqb_spec ret (Z.of_nat (length buf))) as [E|E]; cbn [negb]; split; intros X; try reflexivity; try discriminate X; try exact E; contradiction. }
  destruct ((ret <? 0) || negb (ret mod 2 ^ 64 =? Z.of_nat (length buf))).
  - split; [split; [discriminate|intros X; apply E in X; discriminate X]|]. split; [discriminate|exact (overwrite_length _ _ L)].
  - destruct E as [E _]. specialize (E eq_refl). assert (D : length data = length buf) by lia.
    split; [split; [intros _; exact E|reflexivity]|]. split; [intros _; split; [exact (overwrite_all _ _ D)|lia]|exact (overwrite_length _ _ L)].
Qed.
(** With /dev/urandom read through the C library *)
Theorem fread_exact buf file : (forall data, file = Some data -> zlen data <= zlen buf) ->
  let '(ok, out) := rand_fread buf file in
  (ok = true <-> exists data, file = Some data /\ zlen data = zlen buf) /\ (ok = true -> file = Some out) /\ length out = length buf.
Proof.
  intros C. unfold rand_fread. destruct file as [data|].
  - specialize (C data eq_refl). unfold zlen in *. split; [split; [intros E; exists data; apply Z.eqb_eq in E; auto|intros (d & E & L); apply some_inj in E; subst d; apply Z.eqb_eq; exact L]|].
    split; [intros E; apply Z.eqb_eq in E; rewrite overwrite_all by lia; reflexivity|apply overwrite_length; lia].
  - split; [split; [discriminate|intros (d & E & _); discriminate E]|]. split; [discriminate|reflexivity].
Qed.
(** With a loop of reads: the buffer is full and made of what the device delivered, or one of the reads
    failed or was empty, or more reads follow; no file stays open. [asked]: no read delivers more than
    asked for. *)
Fixpoint asked (reads : list (option (list Z))) (left : Z) : Prop :=
  match reads with
  | Some d :: rest => zlen d <= left /\ asked rest (left - zlen d)
  | _ => True
  end.
Definition bad_read (r : option (list Z)) : Prop := r = None \/ r = Some [].
Lemma read_loop_exact reads : forall left done, 0 <= left -> asked reads left ->
  exists ds rest, reads = map Some ds ++ rest /\ zlen (concat ds) <= left /\ (forall d, In d ds -> d <> []) /\
    ((read_loop reads left done = Ok (true, done ++ concat ds) /\ zlen (concat ds) = left) \/
     (exists r rest', rest = r :: rest' /\ bad_read r /\ zlen (concat ds) < left /\ read_loop reads left done = Ok (false, done ++ concat ds)) \/
     (rest = [] /\ zlen (concat ds) < left /\ read_loop reads left done = Err 0)).
Proof.
  assert (Z0 : zlen (@nil Z) = 0) by reflexivity.
  induction reads as [|r reads IH]; intros left done L A; cbn [read_loop]; destruct (Z.ltb_spec 0 left) as [P|P].
  - exists [], []. cbn [map concat app]. rewrite Z0. split; [reflexivity|]. split; [lia|]. split; [intros d []|]. right. right. split; [reflexivity|]. split; [exact P|reflexivity].
  - exists [], []. cbn [map concat app]. rewrite Z0, app_nil_r. split; [reflexivity|]. split; [lia|]. split; [intros d []|]. left. split; [reflexivity|lia].
  - destruct r as [d|]; [|exists [], (None :: reads); cbn [map concat app]; rewrite app_nil_r; unfold zlen; cbn [length]; split; [reflexivity|]; split; [lia|]; split; [intros d []|]; right; left; exists None, reads; split; [reflexivity|]; split; [left; reflexivity|]; split; [lia|reflexivity]].
    destruct A as [A1 A2]. destruct (Z.leb_spec (zlen d) 0) as [Q|Q].
    + assert (D : d = []) by (destruct d; [reflexivity|unfold zlen in Q; cbn [length] in Q; lia]). subst d.
      exists [], (Some [] :: reads). cbn [map concat app]. rewrite app_nil_r. unfold zlen; cbn [length]. split; [reflexivity|]. split; [lia|]. split; [intros d []|]. right. left. exists (Some []), reads. split; [reflexivity|]. split; [right; reflexivity|]. split; [lia|reflexivity].
    + destruct (IH (left - zlen d) (done ++ d) ltac:(lia) A2) as (ds & rest & E & S & N & C). exists (d :: ds), rest. cbn [map concat app]. rewrite E. split; [reflexivity|].
      assert (Z1 : zlen (d ++ concat ds) = zlen d + zlen (concat ds)) by (unfold zlen; rewrite app_length; lia). rewrite Z1. split; [lia|].
      split; [intros x [<-|I]; [intros ->; unfold zlen in Q; cbn [length] in Q; lia|exact (N x I)]|]. rewrite <- E. rewrite <- app_assoc in C.
      destruct C as [[C1 C2]|[(r & rest' & C1 & C2 & C3 & C4)|(C1 & C2 & C3)]]; [left; split; [exact C1|lia]|right; left; exists r, rest'; split; [exact C1|]; split; [exact C2|]; split; [lia|exact C4]|right; right; split; [exact C1|]; split; [lia|exact C3]].
  - exists [], (r :: reads). cbn [map concat app]. rewrite app_nil_r. unfold zlen; cbn [length]. split; [reflexivity|]. split; [lia|]. split; [intros d []|]. left. split; [reflexivity|lia].
Qed.
Theorem read_exact buf urandom random reads : asked reads (zlen buf) ->
  (urandom = false -> random = false -> rand_read buf urandom random reads = Ok (false, buf, 0)) /\
  (urandom = true \/ random = true -> exists ds rest, reads = map Some ds ++ rest /\ (forall d, In d ds -> d <> []) /\
    ((rand_read buf urandom random reads = Ok (true, concat ds, 0) /\ zlen (concat ds) = zlen buf) \/
     (exists r rest', rest = r :: rest' /\ bad_read r /\ zlen (concat ds) < zlen buf /\ rand_read buf urandom random reads = Ok (false, overwrite buf (concat ds), 0)) \/
     (rest = [] /\ zlen (concat ds) < zlen buf /\ rand_read buf urandom random reads = Err 0))).
Proof.
  intros A. split; [intros -> ->; reflexivity|]. intros O. destruct (read_loop_exact reads (zlen buf) [] ltac:(unfold zlen; lia) A) as (ds & rest & E & _ & N & C). exists ds, rest. split; [exact E|]. split; [exact N|].
  unfold rand_read. assert (B : negb urandom && negb random = false) by (destruct O as [->| ->]; [reflexivity|apply Bool.andb_false_r]). rewrite B. cbn [app] in C.
  destruct C as [[C1 C2]|[(r & rest' & C1 & C2 & C3 & C4)|(C1 & C2 & C3)]].
  - left. rewrite C1. cbn [obind]. rewrite overwrite_all by (unfold zlen in C2; lia). split; [reflexivity|exact C2].
  - right. left. exists r, rest'. rewrite C4. split; [exact C1|]. split; [exact C2|]. split; [exact C3|reflexivity].
  - right. right. rewrite C3. split; [exact C1|]. split; [exact C2|reflexivity].
Qed.
Example ex_read : asked [Some [1; 2]; Some [3]; None] 3 /\ rand_read [0; 0; 0] false true [Some [1; 2]; Some [3]; None] = Ok (true, [1; 2; 3], 0) /\
  rand_read [0; 0; 0] true true [Some [1; 2]; None] = Ok (false, [1; 2; 0], 0) /\ rand_getrandom [0; 0; 0] (-1) [] = (false, [0; 0; 0]) /\ rand_getrandom [0; 0] 2 [7; 8] = (true, [7; 8]) /\
  rand_getrandom [0; 0] 1 [7] = (false, [7; 0]) /\ rand_fread [0; 0] (Some [7; 8]) = (true, [7; 8]).
Proof. split; [cbn [asked]; unfold zlen; cbn [length]; lia|]. repeat (split; [vm_compute; reflexivity|]). vm_compute. reflexivity. Qed.

(** ** Private keys *)
Section Keys.
Variable valid : list Z -> bool.
Variable draw : nat -> bool * list Z.
(** The first [n] draws succeed and give no valid key *)
Definition useless (n : Z) : Prop := forall j, 0 <= j < n -> fst (draw (Z.to_nat j)) = true /\ valid (snd (draw (Z.to_nat j))) = false.
Lemma loop_skip n : forall fuel i key, 0 <= i -> i + Z.of_nat n <= 1001 -> valid key = false -> (forall j, i <= j < i + Z.of_nat n -> fst (draw (Z.to_nat j)) = true /\ valid (snd (draw (Z.to_nat j))) = false) ->
  exists key', valid key' = false /\ priv_loop valid (n + fuel) draw i key = priv_loop valid fuel draw (i + Z.of_nat n) key'.
Proof.
  induction n as [|n IH]; intros fuel i key I L V U; [exists key; split; [exact V|]; cbn [plus]; f_equal; lia|].
  cbn [plus priv_loop]. rewrite V. destruct (Z.ltb_spec 1000 i) as [G|G]; [lia|]. destruct (U i ltac:(lia)) as [U1 U2]. destruct (draw (Z.to_nat i)) as [ok k] eqn:D. cbn [fst snd] in U1, U2. subst ok.
  destruct (IH fuel (i + 1) k ltac:(lia) ltac:(lia) U2 ltac:(intros j J; apply U; lia)) as (key' & V' & E). exists key'. split; [exact V'|]. rewrite E. f_equal. lia.
Qed.
Lemma skip_to n : 0 <= n <= 1001 -> valid (repeat 0 32) = false -> useless n ->
  exists fuel key', valid key' = false /\ create_privkey valid draw = priv_loop valid (S (S fuel)) draw n key'.
Proof.
  intros N V U. unfold create_privkey. destruct (loop_skip (Z.to_nat n) (S (S (Z.to_nat (1001 - n)))) 0 (repeat 0 32)) as (key' & V' & E); [lia|lia|exact V|intros j J; apply U; lia|].
  exists (Z.to_nat (1001 - n)), key'. split; [exact V'|]. replace (Z.to_nat 1003) with (Z.to_nat n + S (S (Z.to_nat (1001 - n))))%nat by lia. rewrite E. f_equal. lia.
Qed.
(** The key is the first valid one of at most 1001 draws. No key is given if a draw fails before, or if
    all 1001 are invalid; nothing else happens. That the key 0 is not valid is a rule of secp256k1. *)
Theorem privkey_exact : valid (repeat 0 32) = false ->
  (forall n k, 0 <= n <= 1000 -> useless n -> draw (Z.to_nat n) = (true, k) -> valid k = true -> create_privkey valid draw = Ok (Some k)) /\
  (forall n, 0 <= n <= 1000 -> useless n -> fst (draw (Z.to_nat n)) = false -> create_privkey valid draw = Ok None) /\
  (useless 1001 -> create_privkey valid draw = Ok None) /\
  ((exists n, 0 <= n <= 1000 /\ useless n /\ (fst (draw (Z.to_nat n)) = false \/ valid (snd (draw (Z.to_nat n))) = true)) \/ useless 1001).
Proof.
  intros V. repeat split.
  - intros n k N U D K. destruct (skip_to n ltac:(lia) V U) as (fuel & key' & V' & ->). cbn [priv_loop]. rewrite V'. destruct (Z.ltb_spec 1000 n) as [G|G]; [lia|]. rewrite D, K. reflexivity.
  - intros n N U D. destruct (skip_to n ltac:(lia) V U) as (fuel & key' & V' & ->). cbn [priv_loop]. rewrite V'. destruct (Z.ltb_spec 1000 n) as [G|G]; [lia|]. destruct (draw (Z.to_nat n)) as [ok k]. cbn [fst] in D. subst ok. reflexivity.
  - intros U. destruct (skip_to 1001 ltac:(lia) V U) as (fuel & key' & V' & ->). cbn [priv_loop]. rewrite V'. reflexivity.
  - assert (G : forall m, (exists n, 0 <= n < Z.of_nat m /\ useless n /\ (fst (draw (Z.to_nat n)) = false \/ valid (snd (draw (Z.to_nat n))) = true)) \/ useless (Z.of_nat m)).
    { induction m as [|m [(n & N & R)|U]]; [right; intros j J; lia|left; exists n; split; [lia|exact R]|].
      destruct (fst (draw (Z.to_nat (Z.of_nat m)))) eqn:D; [|left; exists (Z.of_nat m); split; [lia|]; split; [exact U|left; exact D]].
      destruct (valid (snd (draw (Z.to_nat (Z.of_nat m))))) eqn:K; [left; exists (Z.of_nat m); split; [lia|]; split; [exact U|right; exact K]|].
      right. intros j J. destruct (Z.eq_dec j (Z.of_nat m)) as [->|Nj]; [split; assumption|apply U; lia]. }
    destruct (G (Z.to_nat 1001)) as [(n & N & R)|U]; [left; exists n; split; [lia|exact R]|right; replace 1001 with (Z.of_nat (Z.to_nat 1001)) by lia; exact U].
Qed.
(** A key that is given is valid and was drawn *)
Theorem privkey_valid k : valid (repeat 0 32) = false -> create_privkey valid draw = Ok (Some k) -> valid k = true /\ exists n, 0 <= n <= 1000 /\ draw (Z.to_nat n) = (true, k).
Proof.
  intros V E. destruct (privkey_exact V) as (P1 & P2 & P3 & [(n & N & U & D)|U]); [|rewrite (P3 U) in E; discriminate E].
  destruct (draw (Z.to_nat n)) as [ok k'] eqn:Dn. cbn [fst snd] in D. destruct ok; [|rewrite (P2 n N U ltac:(rewrite Dn; reflexivity)) in E; discriminate E]. destruct D as [D|D]; [discriminate D|].
  rewrite (P1 n k' N U Dn D) in E. apply ok_inj in E. apply some_inj in E. subst k'. split; [exact D|exists n; split; [exact N|exact Dn]].
Qed.
End Keys.
Definition odd_key (k : list Z) : bool := Z.odd (hd 0 k).
Example ex_priv : odd_key (repeat 0 32) = false /\ create_privkey odd_key (fun n => (true, [Z.of_nat n + 4])) = Ok (Some [5]) /\
  create_privkey odd_key (fun n => (Nat.ltb n 1, [4])) = Ok None /\ create_privkey odd_key (fun n => (true, [if Nat.eqb n 1000 then 1 else 4])) = Ok (Some [1]) /\
  create_privkey odd_key (fun n => (true, [if Nat.eqb n 1001 then 1 else 4])) = Ok None.
Proof. repeat split. Qed.

(** ** The first message of the handshake *)
Section Act.
Variable valid : list Z -> bool.
Variable chacha : list Z -> list Z -> nat -> Z.
Variable poly : list Z -> list Z -> list Z.
Variable sha256 : list Z -> list Z.
Variable hmac : list Z -> list Z -> list Z.
Variable pub : list Z -> option (list Z).
Variable ecdh : list Z -> list Z -> option (list Z).
Variable to_hash : list Z -> list Z -> list Z.
Notation act := (act_one valid chacha poly sha256 hmac pub ecdh to_hash).
(** If all draws succeed, the message is that of the model of C45-C48. If no private key comes, the
    program aborts. If the later draw of 32 bytes fails, 64 uninitialised bytes are sent. *)
Theorem act_one_exact b draw entropy :
  (forall priv, create_privkey valid draw = Ok (Some priv) -> fst entropy = true -> b_rand b = (priv, snd entropy) -> act b draw entropy = gen_act_one chacha poly sha256 hmac pub ecdh to_hash b) /\
  (create_privkey valid draw = Ok None -> act b draw entropy = Abort) /\
  (forall priv e, create_privkey valid draw = Ok (Some priv) -> pub priv = Some e -> fst entropy = false -> act b draw entropy = Ub).
Proof.
  repeat split.
  - intros priv E F R. unfold act_one, new_ephemeral, gen_act_one, br_new_ephemeral. rewrite E, F, R. reflexivity.
  - intros E. unfold act_one, new_ephemeral. rewrite E. reflexivity.
  - intros priv e E P F. unfold act_one, new_ephemeral. rewrite E. cbn [obind must]. rewrite P. cbn [must]. rewrite F. reflexivity.
Qed.
End Act.
(** So a handshake started while the system has no random bytes ready is not always well defined *)
Theorem act_one_random_refuted : exists valid chacha poly sha256 hmac pub ecdh to_hash b draw entropy,
  valid (repeat 0 32) = false /\ act_one valid chacha poly sha256 hmac pub ecdh to_hash b draw (true, entropy) <> Abort /\
  act_one valid chacha poly sha256 hmac pub ecdh to_hash b draw (true, entropy) <> Ub /\
  act_one valid chacha poly sha256 hmac pub ecdh to_hash b draw (false, entropy) = Ub /\ act_one valid chacha poly sha256 hmac pub ecdh to_hash b (fun _ => (false, [])) (true, entropy) = Abort.
Proof.
  exists odd_key, (fun _ _ _ => 0), (fun _ _ => repeat 0 16), (fun _ => repeat 0 32), (fun _ _ => repeat 0 32), (fun k => Some (2 :: k)), (fun _ _ => Some (repeat 0 32)), (fun e _ => e ++ e), (br_init ([], [])), (fun _ => (true, repeat 1 32)), (repeat 9 32).
  repeat split; vm_compute; congruence.
Qed.

(** ** Numbers from the C library *)
Lemma lxor_small a b : 0 <= a < 2 ^ 16 -> 0 <= b < 2 ^ 16 -> 0 <= Z.lxor a b < 2 ^ 16.
Proof.
  intros A B. assert (N : 0 <= Z.lxor a b) by (apply Z.lxor_nonneg; lia). split; [exact N|]. assert (E : Z.shiftr (Z.lxor a b) 16 = 0) by (rewrite Z.shiftr_lxor, !Z.shiftr_div_pow2, !Z.div_small by lia; reflexivity).
  rewrite Z.shiftr_div_pow2 in E by lia. apply Z.div_small_iff in E; [|lia]. lia.
Qed.
Lemma random_split n m : 0 <= n -> 0 <= m < 2 ^ 32 -> hsk_random n m = Z.lxor (n mod 2 ^ 16) (m / 2 ^ 16) * 2 ^ 16 + m mod 2 ^ 16.
Proof.
  intros N M. unfold hsk_random. rewrite (Z.mod_small m) by exact M. rewrite Z.shiftl_mul_pow2 by lia.
  replace (n mod 2 ^ 32 * 2 ^ 16 mod 2 ^ 32) with (n mod 2 ^ 16 * 2 ^ 16).
  2:{ replace (2 ^ 32) with (2 ^ 16 * 2 ^ 16) at 2 by reflexivity. rewrite Z.mul_mod_distr_r by lia. f_equal. apply Znumtheory.Zmod_div_mod; [lia|lia|]. exists (2 ^ 16). reflexivity. }
  set (p := n mod 2 ^ 16). assert (P : 0 <= p < 2 ^ 16) by (apply Z.mod_pos_bound; lia). clearbody p.
  rewrite (Z.div_mod (Z.lxor (p * 2 ^ 16) m) (2 ^ 16)) by lia. rewrite Z.mul_comm. f_equal.
  - f_equal. rewrite <- !Z.shiftr_div_pow2 by lia. rewrite Z.shiftr_lxor. f_equal. rewrite Z.shiftr_div_pow2 by lia. apply Z.div_mul. lia.
  - apply Z.bits_inj'. intros i I. destruct (Z.lt_ge_cases i 16) as [L|L].
    + rewrite !Z.mod_pow2_bits_low by lia. rewrite Z.lxor_spec. rewrite Z.mul_pow2_bits_low by lia. apply Bool.xorb_false_l.
    + rewrite !Z.mod_pow2_bits_high by lia. reflexivity.
Qed.
(** On Linux, where random() gives each number below 2^31: for every result of 32 bits and every choice
    of the upper 15 bits of the two numbers drawn, exactly one pair of numbers gives that result; so all
    results are equally likely if all pairs are. *)
Theorem random_uniform x a b : 0 <= x < 2 ^ 32 -> 0 <= a < 2 ^ 15 -> 0 <= b < 2 ^ 15 ->
  exists n m, (0 <= n < 2 ^ 31 /\ 0 <= m < 2 ^ 31 /\ n / 2 ^ 16 = a /\ m / 2 ^ 16 = b /\ hsk_random n m = x) /\
    forall n' m', 0 <= n' < 2 ^ 31 -> 0 <= m' < 2 ^ 31 -> n' / 2 ^ 16 = a -> m' / 2 ^ 16 = b -> hsk_random n' m' = x -> n' = n /\ m' = m.
Proof.
  intros X A B. set (h := x / 2 ^ 16). set (l := x mod 2 ^ 16). assert (H : 0 <= h < 2 ^ 16) by (split; [apply Z.div_pos; lia|apply Z.div_lt_upper_bound; lia]). assert (L : 0 <= l < 2 ^ 16) by (apply Z.mod_pos_bound; lia).
  assert (Ex : x = h * 2 ^ 16 + l) by (unfold h, l; rewrite (Z.mul_comm (x / 2 ^ 16)); apply Z.div_mod; lia). clearbody h l.
  assert (D : forall q r, 0 <= r < 2 ^ 16 -> (q * 2 ^ 16 + r) / 2 ^ 16 = q /\ (q * 2 ^ 16 + r) mod 2 ^ 16 = r) by (intros q r R; split; [rewrite Z.div_add_l by lia; rewrite Z.div_small by lia; lia|rewrite Z.add_comm, Z.mod_add by lia; apply Z.mod_small; lia]).
  assert (Q : 0 <= Z.lxor h b < 2 ^ 16) by (apply lxor_small; lia).
  exists (a * 2 ^ 16 + Z.lxor h b), (b * 2 ^ 16 + l). destruct (D a (Z.lxor h b) Q) as [D1 D2]. destruct (D b l L) as [D3 D4]. split.
  - split; [lia|]. split; [lia|]. split; [exact D1|]. split; [exact D3|]. rewrite random_split by lia. rewrite D2, D3, D4, Z.lxor_assoc, Z.lxor_nilpotent, Z.lxor_0_r. symmetry. exact Ex.
  - intros n m N M En Em E. rewrite random_split in E by lia. rewrite Em in E. assert (R1 : 0 <= n mod 2 ^ 16 < 2 ^ 16) by (apply Z.mod_pos_bound; lia). assert (R2 : 0 <= m mod 2 ^ 16 < 2 ^ 16) by (apply Z.mod_pos_bound; lia).
    pose proof (lxor_small (n mod 2 ^ 16) b R1 ltac:(lia)) as R3. pose proof (Z.div_mod n (2 ^ 16) ltac:(lia)) as Dn. pose proof (Z.div_mod m (2 ^ 16) ltac:(lia)) as Dm. rewrite En in Dn. rewrite Em in Dm.
    remember (n mod 2 ^ 16) as u. remember (m mod 2 ^ 16) as w. clear Hequ Heqw En Em D1 D2 D3 D4 D.
    assert (F : Z.lxor u b = h /\ w = l) by lia. destruct F as [F1 F2]. rewrite <- F1, Z.lxor_assoc, Z.lxor_nilpotent, Z.lxor_0_r. lia.
Qed.
(** The 64-bit number: every pair of results gives another one, and all are reached *)
Theorem nonce_exact a b : 0 <= a < 2 ^ 32 -> 0 <= b < 2 ^ 32 -> hsk_nonce a b = a * 2 ^ 32 + b /\ hsk_nonce a b / 2 ^ 32 = a /\ hsk_nonce a b mod 2 ^ 32 = b.
Proof.
  intros A B. assert (E : hsk_nonce a b = a * 2 ^ 32 + b) by (unfold hsk_nonce; rewrite Z.shiftl_mul_pow2 by lia; apply Z.mod_small; lia). rewrite E. split; [reflexivity|]. split.
  - rewrite Z.div_add_l by lia. rewrite Z.div_small by lia. lia.
  - rewrite Z.add_comm, Z.mod_add by lia. apply Z.mod_small. lia.
Qed.
(** Where the numbers drawn have 15 bits (Windows), the bits 15 and 31 are never set: the comment in the
    source, that doubling up guarantees 32 bits, is wrong. *)
Theorem random_windows_partial n m : 0 <= n < 2 ^ 15 -> 0 <= m < 2 ^ 15 -> hsk_random n m = n * 2 ^ 16 + m.
Proof.
  intros N M. rewrite random_split by lia. rewrite (Z.div_small m) by lia. rewrite Z.lxor_0_r, !Z.mod_small by lia. reflexivity.
Qed.
Theorem random_windows_refuted : exists x, 0 <= x < 2 ^ 32 /\ forall n m, 0 <= n < 2 ^ 15 -> 0 <= m < 2 ^ 15 -> hsk_random n m <> x.
Proof. exists (2 ^ 15). split; [lia|]. intros n m N M. rewrite random_windows_partial by assumption. lia. Qed.
Example ex_random : hsk_random 0x12345678 0x7abcdef0 = Z.lxor 0x56780000 0x7abcdef0 /\ hsk_nonce 1 2 = 0x100000002.
Proof. split; reflexivity. Qed.

(** ** Names of errors *)
(** error.h:6-46: the names of the constants 0..31, without the prefix HSK_ *)
Definition error_names : list string :=
  ["EOK"; "ENOMEM"; "ETIMEOUT"; "EFAILURE"; "EBADARGS"; "EENCODING"; "EHASHMISMATCH"; "ESAMEKEY"; "ESAMEPATH"; "ENEGDEPTH";
   "EPATHMISMATCH"; "ETOODEEP"; "EUNKNOWNERROR"; "EMALFORMEDNODE"; "EINVALIDNODE"; "EEARLYEND"; "ENORESULT"; "EUNEXPECTEDNODE";
   "ERECORDMISMATCH"; "ENEGTARGET"; "EHIGHHASH"; "ETIMETOONEW"; "EDUPLICATE"; "EDUPLICATEORPHAN"; "ETIMETOOOLD"; "EBADDIFFBITS";
   "EORPHAN"; "EACTONE"; "EACTTWO"; "EACTTHREE"; "EBADSIZE"; "EBADTAG"]%string.
Lemma below (P : Z -> bool) n : forallb (fun i => P (Z.of_nat i)) (seq 0 n) = true -> forall i, 0 <= i < Z.of_nat n -> P i = true.
Proof. intros F i I. rewrite forallb_forall in F. specialize (F (Z.to_nat i) ltac:(apply in_seq; lia)). cbv beta in F. rewrite Z2Nat.id in F by lia. exact F. Qed.
Definition named (i : Z) (names : list string) : bool := match hsk_strerror i with Ok s => String.eqb s (nth (Z.to_nat i) names EmptyString) | _ => false end.
(** The text of every code but three is the name of its constant; every other number has the text
    EUNKNOWN; the table is never left; different codes have different texts. *)
Theorem strerror_partial : (forall code, 0 <= code < 32 -> code <> 0 -> code <> 23 -> code <> 25 -> hsk_strerror code = Ok (nth (Z.to_nat code) error_names EmptyString)) /\
  (forall code, code < 0 \/ 32 <= code -> hsk_strerror code = Ok "EUNKNOWN"%string) /\
  (forall code, exists s, hsk_strerror code = Ok s) /\
  (forall c d, 0 <= c < 32 -> 0 <= d < 32 -> hsk_strerror c = hsk_strerror d -> c = d).
Proof.
  assert (O : forall code, code < 0 \/ 32 <= code -> hsk_strerror code = Ok "EUNKNOWN"%string).
  { intros code [C|C]; unfold hsk_strerror; [apply Z.ltb_lt in C; rewrite C; reflexivity|]. destruct (Z.eq_dec code 32) as [->|N]; [reflexivity|]. assert (L : (32 <? code) = true) by (apply Z.ltb_lt; lia). rewrite L, Bool.orb_true_r. reflexivity. }
  assert (I : forall code, 0 <= code < 32 -> exists s, hsk_strerror code = Ok s).
  { intros code C. pose proof (below (fun i => match hsk_strerror i with Ok _ => true | _ => false end) 32 eq_refl code C) as B. cbv beta in B. destruct (hsk_strerror code) as [s| | |]; try discriminate B. exists s. reflexivity. }
  split; [|split; [exact O|split]].
  - intros code C N0 N23 N25. pose proof (below (fun i => (i =? 0) || (i =? 23) || (i =? 25) || named i error_names) 32 eq_refl code C) as B. cbv beta in B.
    rewrite (proj2 (Z.eqb_neq code 0) N0), (proj2 (Z.eqb_neq code 23) N23), (proj2 (Z.eqb_neq code 25) N25) in B. cbn [orb] in B. unfold named in B. destruct (hsk_strerror code) as [s| | |]; try discriminate B. apply String.eqb_eq in B. rewrite B. reflexivity.
  - intros code. destruct (Z_lt_dec code 0) as [L|L]; [eexists; apply O; left; exact L|]. destruct (Z_lt_dec code 32) as [L2|L2]; [apply I; lia|eexists; apply O; right; lia].
  - intros c d C D E. pose proof (below (fun i => forallb (fun j => (i =? Z.of_nat j) || negb (match hsk_strerror i, hsk_strerror (Z.of_nat j) with Ok s, Ok t => String.eqb s t | _, _ => false end)) (seq 0 32)) 32 ltac:(vm_compute; reflexivity) c C) as B. cbv beta in B.
    pose proof (below (fun j => (c =? j) || negb (match hsk_strerror c, hsk_strerror j with Ok s, Ok t => String.eqb s t | _, _ => false end)) 32 B d D) as B2. cbv beta in B2. rewrite <- E in B2. destruct (I c C) as [s Es]. rewrite Es in B2. rewrite String.eqb_refl in B2. cbn [negb] in B2. rewrite Bool.orb_false_r in B2. apply Z.eqb_eq. exact B2.
Qed.
(** Two of the three are misspelt *)
Theorem strerror_refuted : hsk_strerror 23 = Ok "EDIPLICATEORPHAN"%string /\ nth 23 error_names EmptyString = "EDUPLICATEORPHAN"%string /\
  hsk_strerror 25 = Ok "EBADDDIFFBITS"%string /\ nth 25 error_names EmptyString = "EBADDIFFBITS"%string /\ hsk_strerror 0 = Ok "ESUCCESS"%string.
Proof. repeat split. Qed.

Print Assumptions getrandom_exact.
Print Assumptions fread_exact.
Print Assumptions read_exact.
Print Assumptions privkey_exact.
Print Assumptions privkey_valid.
Print Assumptions act_one_exact.
Print Assumptions act_one_random_refuted.
Print Assumptions random_uniform.
Print Assumptions nonce_exact.
Print Assumptions random_windows_partial.
Print Assumptions random_windows_refuted.
Print Assumptions strerror_partial.
Print Assumptions strerror_refuted.
