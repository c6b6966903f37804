(** C43, C44: peer message payloads and variable-length integers. *)
From Verif Require Import Common CommonFacts BioModel BioFacts HeaderModel HeaderSpec HeaderFacts ProofModel ProofSpec ProofTheorems ProofFacts MsgModel.

(** * Variable-length integers *)
(** The canonical encoding: one byte below 253, else a marker and 2, 4 or 8
    little-endian bytes, whichever is the shortest that fits. *)
Inductive compact_int : Z -> list Z -> Prop :=
| ci_1 v : 0 <= v < 253 -> compact_int v [v]
| ci_3 v : 253 <= v < 2 ^ 16 -> compact_int v (253 :: le_bytes 2 v)
| ci_5 v : 2 ^ 16 <= v < 2 ^ 32 -> compact_int v (254 :: le_bytes 4 v)
| ci_9 v : 2 ^ 32 <= v < 2 ^ 64 -> compact_int v (255 :: le_bytes 8 v).

Lemma compact_int_write v w : compact_int v w -> w = write_varint v /\ 0 <= v < 2 ^ 64.
Proof.
  intros C. unfold write_varint. destruct C; destruct (Z.ltb_spec v 253); try lia; try destruct (Z.leb_spec v 65535); try lia;
    try destruct (Z.leb_spec v 4294967295); try lia; rewrite ?write_u8_byte by lia; split; auto; lia.
Qed.
Lemma write_compact_int v : 0 <= v < 2 ^ 64 -> compact_int v (write_varint v).
Proof.
  intros H. unfold write_varint. destruct (Z.ltb_spec v 253); [rewrite write_u8_byte by lia; constructor; lia|].
  destruct (Z.leb_spec v 65535); [rewrite write_u8_byte by lia; apply ci_3; lia|].
  destruct (Z.leb_spec v 4294967295); [rewrite write_u8_byte by lia; apply ci_5; lia|].
  rewrite write_u8_byte by lia; apply ci_9; lia.
Qed.

(** C44: writing produces the canonical encoding; on a non-empty buffer reading
    accepts exactly the canonical encodings, consumes exactly their bytes, and never
    looks beyond the end. Missing: the empty buffer (refuted below). *)
Theorem varint_exact_partial :
  (forall v, 0 <= v < 2 ^ 64 -> compact_int v (write_varint v)) /\
  (forall d, bytes_ok d -> d <> [] ->
     (exists o, read_varint d = Ok o) /\
     forall v r, read_varint d = Ok (Some (v, r)) <-> exists w, d = w ++ r /\ compact_int v w).
Proof.
  split; [exact write_compact_int|]. intros d B N. split.
  - destruct (read_varint d) as [o|e| |] eqn:E; [eauto| | |].
    + exfalso. destruct d as [|p d]; [congruence|]. cbn [read_varint] in E.
      repeat match type of E with
      | context [if ?c then _ else _] => destruct c
      | context [match read_u64 ?x with _ => _ end] => destruct (read_u64 x) as [[? ?]|]
      | context [match read_u32 ?x with _ => _ end] => destruct (read_u32 x) as [[? ?]|]
      | context [match read_u16 ?x with _ => _ end] => destruct (read_u16 x) as [[? ?]|]
      end; discriminate.
    + exfalso. destruct d as [|p d]; [congruence|]. cbn [read_varint] in E.
      repeat match type of E with
      | context [if ?c then _ else _] => destruct c
      | context [match read_u64 ?x with _ => _ end] => destruct (read_u64 x) as [[? ?]|]
      | context [match read_u32 ?x with _ => _ end] => destruct (read_u32 x) as [[? ?]|]
      | context [match read_u16 ?x with _ => _ end] => destruct (read_u16 x) as [[? ?]|]
      end; discriminate.
    + apply read_varint_ub in E. congruence.
  - intros v r. split.
    + intros E. apply read_varint_inv in E as [-> Hv]; auto. eexists. split; [reflexivity|]. now apply write_compact_int.
    + intros (w & -> & C). apply compact_int_write in C as [-> Hv]. now apply read_varint_write.
Qed.

(** Finding: on an empty buffer the marker byte is read past the end. *)
Theorem varint_empty_refuted : read_varint [] = Ub.
Proof. reflexivity. Qed.

(** Finding: the size function has type bool, so every value is announced as one
    byte, which is wrong from 253 on. *)
Theorem varint_size_refuted : forall v, 0 <= v < 2 ^ 64 -> (size_varint v = zlen (write_varint v) <-> v < 253).
Proof.
  intros v H. unfold size_varint, write_varint, zlen. destruct (Z.ltb_spec v 253); [unfold write_u8; rewrite le_bytes_length; lia|].
  split; [|lia]. destruct (Z.leb_spec v 65535); [|destruct (Z.leb_spec v 4294967295)];
    unfold write_u8, write_u16, write_u32, write_u64; rewrite app_length, !le_bytes_length; lia.
Qed.

(** * Wire formats, independent of the code *)
Definition na_ok (a : netaddr) : Prop :=
  0 <= na_time a < 2 ^ 64 /\ 0 <= na_services a < 2 ^ 64 /\ is_byte (na_type a) /\
  (length (na_ip a) = 36%nat /\ bytes_ok (na_ip a)) /\ (na_type a = 0 -> skipn 16 (na_ip a) = repeat 0 20) /\
  0 <= na_port a < 2 ^ 16 /\ (length (na_key a) = 33%nat /\ bytes_ok (na_key a)).
(** The 20 bytes after an IP address (type 0) are ignored. *)
Inductive na_wire : netaddr -> list Z -> Prop :=
| naw a ip : length ip = 36%nat -> bytes_ok ip -> firstn 16 ip = firstn 16 (na_ip a) ->
    (na_type a <> 0 -> ip = na_ip a) -> na_ok a ->
    na_wire a (le_bytes 8 (na_time a) ++ le_bytes 8 (na_services a) ++ [na_type a] ++ ip ++ le_bytes 2 (na_port a) ++ na_key a).
Inductive list_wire {A} (W : A -> list Z -> Prop) : list A -> list Z -> Prop :=
| lw_nil : list_wire W [] []
| lw_cons a w l ws : W a w -> list_wire W l ws -> list_wire W (a :: l) (w ++ ws).
Definition hash_wire (h w : list Z) : Prop := h = w /\ hash_ok h.
Definition hdr_wire (h : hdr) (w : list Z) : Prop := hdr_ok h /\ bytes_ok w /\ wire_layout w h.
(** Agents are at most 255 printable characters (tab, LF and CR count as printable). *)
Definition printable (c : Z) : Prop := 32 <= c <= 126 \/ c = 9 \/ c = 10 \/ c = 13.

Inductive wire : msg -> list Z -> Prop :=
| w_version v s t a aw n agent h (nr : Z) :
    0 <= v < 2 ^ 32 -> 0 <= s < 2 ^ 64 -> 0 <= t < 2 ^ 64 -> na_wire a aw -> 0 <= n < 2 ^ 64 ->
    zlen agent <= 255 -> Forall printable agent -> 0 <= h < 2 ^ 32 -> is_byte nr ->
    wire (Version v s t a n agent h (nr =? 1))
      (le_bytes 4 v ++ le_bytes 8 s ++ le_bytes 8 t ++ aw ++ le_bytes 8 n ++ [zlen agent] ++ agent ++ le_bytes 4 h ++ [nr])
| w_verack : wire Verack []
| w_ping n : 0 <= n < 2 ^ 64 -> wire (Ping n) (le_bytes 8 n)
| w_pong n : 0 <= n < 2 ^ 64 -> wire (Pong n) (le_bytes 8 n)
| w_getaddr : wire Getaddr []
| w_addr l c w : zlen l <= 1000 -> compact_int (zlen l) c -> list_wire na_wire l w -> wire (Addr l) (c ++ w)
| w_getheaders l c w stop : zlen l <= 64 -> compact_int (zlen l) c -> list_wire hash_wire l w -> hash_ok stop ->
    wire (Getheaders l stop) (c ++ w ++ stop)
| w_headers l c w : zlen l <= 2000 -> compact_int (zlen l) c -> list_wire hdr_wire l w -> wire (Headers l) (c ++ w)
| w_sendheaders : wire Sendheaders []
| w_getproof root key : hash_ok root -> hash_ok key -> wire (Getproof root key) (root ++ key)
| w_proof root key p w : hash_ok root -> hash_ok key -> bytes_ok w -> (forall r, proof_read (w ++ r) = Ok (Some (p, r))) ->
    wire (Proofm root key p) (root ++ key ++ w).

(** * Readers depend only on the bytes they consume *)
Definition local {A} (r : list Z -> option (A * list Z)) : Prop :=
  forall d a rest, r d = Some (a, rest) -> exists w, d = w ++ rest /\ forall x, r (w ++ x) = Some (a, x).
Lemma local_bytes n : local (read_bytes n).
Proof.
  intros d a rest E. unfold read_bytes in *. apply take_some in E as [-> L]. exists a. split; auto. intros x. now apply take_app.
Qed.
Lemma local_le n : local (read_le n).
Proof.
  intros d a rest E. unfold read_le in *. destruct (take n d) as [[b r]|] eqn:T; [|discriminate]. injection E as <- <-.
  apply take_some in T as [-> L]. exists b. split; auto. intros x. now rewrite take_app.
Qed.
Lemma local_u8 : local read_u8.
Proof. intros d a rest E. destruct d as [|b r]; [discriminate|]. injection E as <- <-. exists [b]. auto. Qed.
Lemma local_bitlen : local read_bitlen.
Proof.
  intros d a rest. unfold read_bitlen. destruct (read_u8 d) as [[b r]|] eqn:E1; [|discriminate]. apply local_u8 in E1 as (w1 & -> & L1).
  destruct (Z.land b 128 =? 0) eqn:C.
  - destruct ((b =? 0) || (256 <? b)) eqn:C2; [discriminate|]. intros E. injection E as <- <-. exists w1. split; auto. intros x.
    rewrite L1, C, C2. reflexivity.
  - destruct (read_u8 r) as [[b2 r2]|] eqn:E2; [|discriminate]. apply local_u8 in E2 as (w2 & -> & L2).
    set (z := Z.lor _ b2). destruct ((z =? 0) || (256 <? z)) eqn:C2; [discriminate|]. intros E. injection E as <- <-.
    exists (w1 ++ w2). split; [now rewrite app_assoc|]. intros x. rewrite <- app_assoc, L1, C, L2. fold z. rewrite C2. reflexivity.
Qed.
Lemma local_nodes n : forall i m d ns rest, read_nodes n i m d = Ok (Some (ns, rest)) ->
  exists w, d = w ++ rest /\ forall x, read_nodes n i m (w ++ x) = Ok (Some (ns, x)).
Proof.
  induction n as [|n IH]; intros i m d ns rest E; cbn [read_nodes] in *.
  - apply Ok_inj in E. injection E as <- <-. exists []. auto.
  - destruct (has_bit m i) as [hb|?| |]; try discriminate. cbn [obind] in *.
    assert (H : exists p s d2 w, (if hb then match read_bitlen d with None => None | Some ((size, bytes), d1) =>
        match read_bytes (Z.to_nat bytes) d1 with None => None | Some (p, d2) => Some (pad32 p, size, d2) end end else Some (repeat 0 32, 0, d)) = Some (p, s, d2) /\
      d = w ++ d2 /\ forall x, (if hb then match read_bitlen (w ++ x) with None => None | Some ((size, bytes), d1) =>
        match read_bytes (Z.to_nat bytes) d1 with None => None | Some (p, d2) => Some (pad32 p, size, d2) end end else Some (repeat 0 32, 0, w ++ x)) = Some (p, s, x)).
    { destruct hb.
      - destruct (read_bitlen d) as [[[s b] d1]|] eqn:E1; [|discriminate]. apply local_bitlen in E1 as (w1 & -> & L1).
        destruct (read_bytes (Z.to_nat b) d1) as [[p d2]|] eqn:E2; [|discriminate]. apply local_bytes in E2 as (w2 & -> & L2).
        exists (pad32 p), s, d2, (w1 ++ w2). split; auto. split; [now rewrite app_assoc|]. intros x. now rewrite <- app_assoc, L1, L2.
      - exists (repeat 0 32), 0, d, []. auto. }
    destruct H as (p & s & d2 & w & H1 & H2 & H3). rewrite H1 in E. destruct (read_bytes 32 d2) as [[nd d3]|] eqn:E3; [|discriminate].
    apply local_bytes in E3 as (w3 & -> & L3). destruct (read_nodes n (i + 1) m d3) as [[[ns' d4]|]|?| |] eqn:E4; try discriminate.
    cbn [obind] in E. apply Ok_inj in E. injection E as <- <-. apply IH in E4 as (w4 & -> & L4).
    exists (w ++ w3 ++ w4). split; [rewrite H2; now rewrite <- !app_assoc|]. intros x. rewrite <- !app_assoc, H3, L3, L4. reflexivity.
Qed.
Lemma local_proof d p rest : proof_read d = Ok (Some (p, rest)) ->
  exists w, d = w ++ rest /\ forall x, proof_read (w ++ x) = Ok (Some (p, x)).
Proof.
  unfold proof_read. destruct (read_u16 d) as [[f d1]|] eqn:E1; [|discriminate]. apply local_le in E1 as (w1 & -> & L1). cbn zeta.
  set (dep := Z.land f _). set (ty := Z.shiftr f 14). destruct (256 <? dep) eqn:C1; [discriminate|].
  destruct (read_u16 d1) as [[c d2]|] eqn:E2; [|discriminate]. apply local_le in E2 as (w2 & -> & L2).
  destruct (256 <? c) eqn:C2; [discriminate|]. destruct (read_bytes (Z.to_nat ((c + 7) / 8)) d2) as [[m d3]|] eqn:E3; [|discriminate].
  apply local_bytes in E3 as (w3 & -> & L3). destruct (read_nodes (Z.to_nat c) 0 m d3) as [[[ns d4]|]|?| |] eqn:E4; try discriminate.
  apply local_nodes in E4 as (w4 & -> & L4). cbn [obind]. intros E.
  assert (T : exists w, d4 = w ++ rest /\ forall x, read_tail ty dep ns (w ++ x) = Ok (Some (p, x))).
  { revert E. unfold read_tail. destruct (ty =? HSK_PROOF_DEADEND).
    { intros E. apply Ok_inj in E. injection E as <- <-. exists []. auto. }
    destruct (ty =? HSK_PROOF_SHORT).
    { destruct (read_bitlen d4) as [[[s b] d5]|] eqn:E5; [|discriminate]. apply local_bitlen in E5 as (w5 & -> & L5).
      destruct (read_bytes (Z.to_nat b) d5) as [[q d6]|] eqn:E6; [|discriminate]. apply local_bytes in E6 as (w6 & -> & L6).
      destruct (read_bytes 32 d6) as [[l d7]|] eqn:E7; [|discriminate]. apply local_bytes in E7 as (w7 & -> & L7).
      destruct (read_bytes 32 d7) as [[r d8]|] eqn:E8; [|discriminate]. apply local_bytes in E8 as (w8 & -> & L8).
      intros E. apply Ok_inj in E. injection E as <- <-. exists (w5 ++ w6 ++ w7 ++ w8). split; [now rewrite <- !app_assoc|].
      intros x. now rewrite <- !app_assoc, L5, L6, L7, L8. }
    destruct (ty =? HSK_PROOF_COLLISION).
    { destruct (read_bytes 32 d4) as [[l d7]|] eqn:E7; [|discriminate]. apply local_bytes in E7 as (w7 & -> & L7).
      destruct (read_bytes 32 d7) as [[r d8]|] eqn:E8; [|discriminate]. apply local_bytes in E8 as (w8 & -> & L8).
      intros E. apply Ok_inj in E. injection E as <- <-. exists (w7 ++ w8). split; [now rewrite <- !app_assoc|].
      intros x. now rewrite <- !app_assoc, L7, L8. }
    destruct (ty =? HSK_PROOF_EXISTS); [|discriminate].
    destruct (read_u16 d4) as [[vs d5]|] eqn:E5; [|discriminate]. apply local_le in E5 as (w5 & -> & L5).
    destruct (HSK_MAX_DATA_SIZE <? vs) eqn:C; [discriminate|].
    destruct (read_bytes (Z.to_nat vs) d5) as [[q d6]|] eqn:E6; [|discriminate]. apply local_bytes in E6 as (w6 & -> & L6).
    intros E. apply Ok_inj in E. injection E as <- <-. exists (w5 ++ w6). split; [now rewrite <- !app_assoc|].
    intros x. unfold read_u16 in *. rewrite <- !app_assoc, L5, C, L6. reflexivity. }
  destruct T as (w5 & -> & L5). exists (w1 ++ w2 ++ w3 ++ w4 ++ w5). split; [now rewrite <- !app_assoc|].
  intros x. unfold read_u16 in *. rewrite <- !app_assoc, L1. fold dep. fold ty. rewrite C1, L2, C2, L3, L4. cbn [obind]. apply L5.
Qed.

(** * Exactness of each reader *)
Lemma netaddr_exact d a r : bytes_ok d -> netaddr_read d = Some (a, r) <-> exists w, d = w ++ r /\ na_wire a w.
Proof.
  intros B. split.
  - unfold netaddr_read. destruct (read_u64 d) as [[t d1]|] eqn:E1; [|discriminate]. apply read_le_some in E1 as (-> & Ht & B1); auto.
    destruct (read_u64 d1) as [[s d2]|] eqn:E2; [|discriminate]. apply read_le_some in E2 as (-> & Hs & B2); auto.
    destruct (read_u8 d2) as [[ty d3]|] eqn:E3; [|discriminate]. destruct d2 as [|ty' d2]; [discriminate|]. injection E3 as -> ->.
    apply bytes_ok_cons in B2 as [Hty B3].
    destruct (read_bytes 36 d3) as [[ip d4]|] eqn:E4; [|discriminate]. apply take_some in E4 as [-> Li]. apply bytes_ok_app in B3 as [Bi B4].
    destruct (read_u16 d4) as [[po d5]|] eqn:E5; [|discriminate]. apply read_le_some in E5 as (-> & Hp & B5); auto.
    destruct (read_bytes 33 d5) as [[k d6]|] eqn:E6; [|discriminate]. apply take_some in E6 as [-> Lk]. apply bytes_ok_app in B5 as [Bk B6].
    intros E. injection E as <- <-.
    set (ip' := if ty =? 0 then firstn 16 ip ++ repeat 0 20 else ip).
    assert (Lf : length (firstn 16 ip) = 16%nat) by (rewrite firstn_length; lia).
    assert (Li' : length ip' = 36%nat).
    { unfold ip'. destruct (ty =? 0); auto. rewrite app_length, repeat_length. lia. }
    exists (le_bytes 8 t ++ le_bytes 8 s ++ [ty] ++ ip ++ le_bytes 2 po ++ k). split.
    + unfold write_u64. cbn [app]. rewrite <- !app_assoc. cbn [app]. now rewrite <- !app_assoc.
    + apply (naw (mk_na t s ty ip' po k) ip); auto; cbn [na_type na_ip].
      * unfold ip'. destruct (ty =? 0); auto. rewrite firstn_app, Lf, Nat.sub_diag, app_nil_r. rewrite firstn_firstn. reflexivity.
      * intros N. unfold ip'. destruct (Z.eqb_spec ty 0); [lia|auto].
      * unfold na_ok. cbn [na_type na_ip na_time na_services na_port na_key]. refine (conj Ht (conj Hs (conj Hty (conj (conj Li' _) (conj _ (conj Hp (conj Lk Bk))))))).
        -- unfold ip'. destruct (ty =? 0); auto. apply bytes_ok_app. split; [now apply bytes_ok_firstn|apply bytes_ok_repeat].
        -- intros ->. unfold ip'. zred. rewrite skipn_app, Lf. rewrite skipn_all2 by lia. reflexivity.
  - intros (w & -> & W). inversion W as [a' ip Li Bi F T Oa]; subst. destruct Oa as (Ot & Os & Oty & [Oi Obi] & O0 & Op & Ok' & Obk).
    unfold netaddr_read. rewrite <- !app_assoc. unfold read_u64. rewrite read_le_app by exact Ot. rewrite read_le_app by exact Os. cbn [app read_u8].
    unfold read_bytes at 1. rewrite take_app by auto. unfold read_u16. rewrite read_le_app by exact Op.
    unfold read_bytes. rewrite take_app by auto.
    assert (Ei : (if na_type a =? 0 then firstn 16 ip ++ repeat 0 20 else ip) = na_ip a).
    { destruct (Z.eqb_spec (na_type a) 0) as [E|N]; [|auto]. rewrite F, <- (O0 E). apply firstn_skipn. }
    rewrite Ei. destruct a; reflexivity.
Qed.

Lemma many_exact {A} (R : list Z -> option (A * list Z)) (W : A -> list Z -> Prop) :
  (forall d a r, bytes_ok d -> R d = Some (a, r) <-> exists w, d = w ++ r /\ W a w) ->
  forall n d l r, bytes_ok d -> read_many R n d = Some (l, r) <-> exists w, d = w ++ r /\ list_wire W l w /\ length l = n.
Proof.
  intros Ex n. induction n as [|n IH]; intros d l r B; cbn [read_many].
  - split.
    + intros E. injection E as <- <-. exists []. repeat split; constructor.
    + intros (w & -> & L & E). destruct l; [|discriminate]. inversion L; subst. reflexivity.
  - split.
    + destruct (R d) as [[a d1]|] eqn:E1; [|discriminate]. apply Ex in E1 as (w & -> & Wa); auto. apply bytes_ok_app in B as [_ B].
      destruct (read_many R n d1) as [[l' d2]|] eqn:E2; [|discriminate]. intros E. injection E as <- <-. apply IH in E2 as (w2 & -> & L & E2); auto.
      exists (w ++ w2). split; [now rewrite app_assoc|]. split; [now constructor|cbn; congruence].
    + intros (w & -> & L & E). destruct l as [|a l]; [discriminate|]. inversion L as [|a' w1 l' ws Wa Lw]; subst. rewrite <- app_assoc in *.
      rewrite (proj2 (Ex (w1 ++ ws ++ r) a (ws ++ r) B)) by eauto. apply bytes_ok_app in B as [_ B].
      rewrite (proj2 (IH (ws ++ r) l r B)); [reflexivity|]. exists ws. repeat split; auto.
Qed.

Lemma hash_exact d h r : bytes_ok d -> read_bytes 32 d = Some (h, r) <-> exists w, d = w ++ r /\ hash_wire h w.
Proof.
  intros B. split.
  - intros E. apply take_some in E as [-> L]. apply bytes_ok_app in B as [B _]. exists h. repeat split; auto.
  - intros (w & -> & -> & L & _). now apply take_app.
Qed.
Lemma hdr_exact d h r : bytes_ok d -> hdr_read d = Some (h, r) <-> exists w, d = w ++ r /\ hdr_wire h w.
Proof.
  intros B. split.
  - intros E. apply hdr_read_inv in E as (-> & O & _); auto. exists (hdr_write h). split; auto. split; auto. split; [now apply hdr_write_bytes|now apply layout].
  - intros (w & -> & O & Bw & Lw).
    assert (E : w = hdr_write h); [|subst w; now apply hdr_read_write].
    destruct (hdr_read w) as [[h' r']|] eqn:E.
    + apply hdr_read_inv in E as (-> & O' & _); auto. pose proof (layout h' O') as L'. destruct Lw as (L0 & Lw).
      rewrite app_length, hdr_write_length in L0 by auto. destruct r'; [|cbn in L0; lia]. rewrite app_nil_r in *.
      destruct L' as (_ & L'). f_equal. set (w := hdr_write h') in *. clearbody w.
      destruct Lw as (A1 & A2 & A3 & A4 & A5 & A6 & A7 & A8 & A9 & A10 & A11).
      destruct L' as (B1 & B2 & B3 & B4 & B5 & B6 & B7 & B8 & B9 & B10 & B11).
      destruct h as [x1 x2 x3 x4 x5 x6 x7 x8 x9 x10 x11], h' as [y1 y2 y3 y4 y5 y6 y7 y8 y9 y10 y11]; cbn [h_nonce h_time h_prev h_root h_extra h_reserved h_witness h_merkle h_version h_bits h_mask] in *. congruence.
    + exfalso. pose proof (proj1 (hdr_read_none w Bw) E) as Ls. destruct Lw as (L0 & _). lia.
Qed.

Lemma ascii_ok_iff c : is_byte c -> ascii_ok c = true <-> printable c.
Proof.
  intros H. unfold ascii_ok, printable, is_byte in *.
  destruct (Z.leb_spec 128 c), (Z.eqb_spec c 127), (Z.ltb_spec c 32), (Z.eqb_spec c 9), (Z.eqb_spec c 10), (Z.eqb_spec c 13); cbn; split; intros; try lia; congruence.
Qed.
Lemma ascii_all l : bytes_ok l -> forallb ascii_ok l = true <-> Forall printable l.
Proof.
  intros B. rewrite forallb_forall, Forall_forall. split; intros H x I; specialize (H x I); apply ascii_ok_iff in H; auto;
    unfold bytes_ok in B; rewrite Forall_forall in B; auto.
Qed.
Lemma printable_bytes l : Forall printable l -> bytes_ok l.
Proof. apply Forall_impl. unfold printable, is_byte. intros. lia. Qed.
Lemma slice_ascii_some n d a r : bytes_ok d -> (n < 256)%nat -> slice_ascii n d = Ok (Some (a, r)) <-> d = a ++ r /\ length a = n /\ Forall printable a.
Proof.
  intros B Hn. unfold slice_ascii. destruct (take n d) as [[b r']|] eqn:T.
  - apply take_some in T as [-> L]. apply bytes_ok_app in B as [Bb _]. rewrite (firstn_all2 b) by lia. rewrite (proj2 (Z.leb_gt 256 (Z.of_nat n))) by lia.
    pose proof (ascii_all b Bb) as A. destruct (forallb ascii_ok b).
    + split.
      * intros E. apply Ok_inj in E. injection E as <- <-. repeat split; auto. now apply A.
      * intros (E & La & P). apply app_inj_len in E as [-> ->]; [reflexivity|lia].
    + split; [discriminate|]. intros (E & La & P). apply app_inj_len in E as [-> ->]; [|lia]. apply A in P. discriminate.
  - split; [discriminate|]. intros (-> & La & P). rewrite take_app in T by auto. discriminate.
Qed.
Lemma slice_ascii_total n d : (n < 256)%nat -> exists o, slice_ascii n d = Ok o.
Proof.
  intros H. unfold slice_ascii. destruct (take n d) as [[b r]|]; [|eauto]. destruct (forallb _ _); [|eauto].
  rewrite (proj2 (Z.leb_gt 256 (Z.of_nat n))) by lia. eauto.
Qed.
Lemma varsize_some d v r : bytes_ok d -> v < 2 ^ 31 -> read_varsize d = Ok (Some (v, r)) <-> exists w, d = w ++ r /\ compact_int v w.
Proof.
  intros B Hv. unfold read_varsize. destruct d as [|b d'].
  { cbn. split; [discriminate|]. intros (w & E & C). symmetry in E. apply app_eq_nil in E as [-> ->]. inversion C. }
  destruct (proj2 varint_exact_partial (b :: d') B ltac:(discriminate)) as [[o Eo] X]. rewrite <- X. rewrite Eo. cbn [obind]. destruct o as [[v' r']|].
  - assert (Hv' : 0 <= v' < 2 ^ 64) by (apply X in Eo as (w & _ & C); now apply compact_int_write in C).
    destruct (Z.leb_spec 2147483648 (v' mod 4294967296)) as [L|L].
    + split; [discriminate|]. intros E. apply Ok_inj in E. injection E as -> ->. rewrite Z.mod_small in L; lia.
    + reflexivity.
  - reflexivity.
Qed.
Lemma varsize_total d : bytes_ok d -> d <> [] -> exists o, read_varsize d = Ok o.
Proof.
  intros B N. unfold read_varsize. destruct (proj2 varint_exact_partial d B N) as [[o ->] _]. cbn [obind]. destruct o as [[v r]|]; [|eauto].
  destruct (_ <=? _); eauto.
Qed.
Lemma varsize_range d v r : bytes_ok d -> read_varsize d = Ok (Some (v, r)) -> 0 <= v /\ bytes_ok r.
Proof.
  intros B. unfold read_varsize. destruct (read_varint d) as [[[v' r']|]|?| |] eqn:E; try discriminate. cbn [obind].
  destruct (_ <=? _); [discriminate|]. intros E'. apply Ok_inj in E'. injection E' as <- <-.
  apply read_varint_inv in E as [-> H]; auto. apply bytes_ok_app in B. split; [lia|tauto].
Qed.

Lemma rd_inv {A B} (o : option (A * list Z)) (k : A -> list Z -> outcome (option B)) x :
  rd o k = Ok (Some x) -> exists a d, o = Some (a, d) /\ k a d = Ok (Some x).
Proof. unfold rd. destruct o as [[a d]|]; [eauto|discriminate]. Qed.
Lemma rdo_inv {A B} (o : outcome (option (A * list Z))) (k : A -> list Z -> outcome (option B)) x :
  rdo o k = Ok (Some x) -> exists a d, o = Ok (Some (a, d)) /\ k a d = Ok (Some x).
Proof. unfold rdo. destruct o as [o|?| |]; try discriminate. cbn [obind]. intros H. apply rd_inv in H as (a & d & -> & H). eauto. Qed.

Lemma list_wire_bytes {A} (W : A -> list Z -> Prop) l w : (forall a w, W a w -> bytes_ok w) -> list_wire W l w -> bytes_ok w.
Proof. intros H L. induction L; [constructor|]. apply bytes_ok_app. split; eauto. Qed.

Lemma version_exact d m r : bytes_ok d ->
  version_read d = Ok (Some (m, r)) <-> exists w, d = w ++ r /\ wire m w /\ msg_cmd m = 0.
Proof.
  intros B. split.
  - unfold version_read. intros E.
    apply rd_inv in E as (v & d1 & E1 & E). apply read_le_some in E1 as (-> & Hv & B1); auto. clear B.
    apply rd_inv in E as (s & d2 & E2 & E). apply read_le_some in E2 as (-> & Hs & B2); auto. clear B1.
    apply rd_inv in E as (t & d3 & E3 & E). apply read_le_some in E3 as (-> & Ht & B3); auto. clear B2.
    apply rd_inv in E as (a & d4 & E4 & E). apply netaddr_exact in E4 as (aw & -> & Wa); auto. apply bytes_ok_app in B3 as [_ B4].
    apply rd_inv in E as (n & d5 & E5 & E). apply read_le_some in E5 as (-> & Hn & B5); auto. clear B4.
    apply rd_inv in E as (sz & d6 & E6 & E). destruct d5 as [|b d5]; [discriminate|]. injection E6 as -> ->. apply bytes_ok_cons in B5 as [Hsz B6].
    apply rdo_inv in E as (ag & d7 & E7 & E). unfold is_byte in Hsz. apply slice_ascii_some in E7 as (-> & Lag & Pag); [|auto|lia]. apply bytes_ok_app in B6 as [_ B7].
    apply rd_inv in E as (h & d8 & E8 & E). apply read_le_some in E8 as (-> & Hh & B8); auto. clear B7.
    apply rd_inv in E as (nr & d9 & E9 & E). destruct d8 as [|b' d8]; [discriminate|]. injection E9 as -> ->. apply bytes_ok_cons in B8 as [Hnr _].
    apply Ok_inj in E. injection E as <- <-.
    assert (Hz : sz = zlen ag) by (unfold zlen; lia).
    exists (le_bytes 4 v ++ le_bytes 8 s ++ le_bytes 8 t ++ aw ++ le_bytes 8 n ++ [zlen ag] ++ ag ++ le_bytes 4 h ++ [nr]).
    split; [|split; [|reflexivity]].
    + rewrite <- Hz. repeat (rewrite <- !app_assoc; cbn [app]). reflexivity.
    + constructor; auto. lia.
  - intros (w & -> & W & C). inversion W as [v s t a aw n ag h nr Hv Hs Ht Wa Hn La Pa Hh Hnr| | | | | | | | | |]; subst; cbn in C; try discriminate.
    repeat (rewrite <- !app_assoc in *; cbn [app] in * ). unfold version_read.
    unfold read_u32, read_u64. rewrite read_le_app by exact Hv. cbn [rd]. rewrite read_le_app by exact Hs. cbn [rd]. rewrite read_le_app by exact Ht. cbn [rd].
    apply bytes_ok_app in B as [_ B]. apply bytes_ok_app in B as [_ B]. apply bytes_ok_app in B as [_ B].
    rewrite (proj2 (netaddr_exact _ a _ B)) by eauto. cbn [rd].
    apply bytes_ok_app in B as [_ B]. apply bytes_ok_app in B as [_ B]. apply bytes_ok_cons in B as [_ B].
    rewrite read_le_app by exact Hn. cbn [rd read_u8].
    rewrite (proj2 (slice_ascii_some (Z.to_nat (zlen ag)) _ ag (le_bytes 4 h ++ nr :: r) B ltac:(unfold zlen in *; lia))) by (unfold zlen; rewrite Nat2Z.id; auto).
    cbn [rdo obind rd]. rewrite read_le_app by exact Hh. cbn [rd read_u8]. reflexivity.
Qed.

Lemma counted_exact {A} (R : list Z -> option (A * list Z)) (W : A -> list Z -> Prop) (M : list A -> msg) lim d m r :
  (forall d a r, bytes_ok d -> R d = Some (a, r) <-> exists w, d = w ++ r /\ W a w) -> 0 <= lim < 2 ^ 31 -> bytes_ok d ->
  rdo (read_varsize d) (fun count d => if lim <? count then Ok None else
    rd (read_many R (Z.to_nat count) d) (fun l d => Ok (Some (M l, d)))) = Ok (Some (m, r)) <->
  exists l c w, d = c ++ w ++ r /\ m = M l /\ zlen l <= lim /\ compact_int (zlen l) c /\ list_wire W l w.
Proof.
  intros Ex Hl B. split.
  - intros E. apply rdo_inv in E as (c & d1 & E1 & E). destruct (Z.ltb_spec lim c) as [L|L]; [discriminate|].
    destruct (varsize_range _ _ _ B E1) as [Hc B1].
    apply varsize_some in E1 as (cw & -> & C); [|auto|lia]. apply rd_inv in E as (l & d2 & E2 & E). apply Ok_inj in E. injection E as <- <-.
    apply (many_exact R W Ex) in E2 as (w & -> & Lw & Ln); auto. assert (c = zlen l) by (unfold zlen; lia). subst c.
    exists l, cw, w. auto 6.
  - intros (l & c & w & -> & -> & L & C & Lw). rewrite (proj2 (varsize_some (c ++ w ++ r) (zlen l) (w ++ r) B ltac:(lia))) by eauto.
    unfold rdo. cbn [obind rd]. destruct (Z.ltb_spec lim (zlen l)); [lia|]. apply bytes_ok_app in B as [_ B].
    rewrite (proj2 (many_exact R W Ex (Z.to_nat (zlen l)) (w ++ r) l r B)); [reflexivity|].
    exists w. repeat split; auto. unfold zlen. lia.
Qed.

Lemma msg_read_exact cmd d m r : bytes_ok d ->
  msg_read cmd d = Ok (Some (m, r)) <-> exists w, d = w ++ r /\ wire m w /\ msg_cmd m = cmd.
Proof.
  intros B. unfold msg_read.
  destruct (Z.eqb_spec cmd 0) as [->|N0]; [now apply version_exact|].
  destruct (Z.eqb_spec cmd 1) as [->|N1].
  { split.
    - intros E. apply Ok_inj in E. injection E as <- <-. exists []. repeat split; constructor.
    - intros (w & -> & W & C). inversion W; subst; try discriminate. reflexivity. }
  destruct (Z.eqb_spec cmd 2) as [->|N2].
  { split.
    - intros E. apply rd_inv in E as (n & d1 & E1 & E). apply read_le_some in E1 as (-> & Hn & _); auto. apply Ok_inj in E. injection E as <- <-.
      exists (le_bytes 8 n). repeat split. now constructor.
    - intros (w & -> & W & C). inversion W; subst; try discriminate. unfold read_u64. now rewrite read_le_app by assumption. }
  destruct (Z.eqb_spec cmd 3) as [->|N3].
  { split.
    - intros E. apply rd_inv in E as (n & d1 & E1 & E). apply read_le_some in E1 as (-> & Hn & _); auto. apply Ok_inj in E. injection E as <- <-.
      exists (le_bytes 8 n). repeat split. now constructor.
    - intros (w & -> & W & C). inversion W; subst; try discriminate. unfold read_u64. now rewrite read_le_app by assumption. }
  destruct (Z.eqb_spec cmd 4) as [->|N4].
  { split.
    - intros E. apply Ok_inj in E. injection E as <- <-. exists []. repeat split; constructor.
    - intros (w & -> & W & C). inversion W; subst; try discriminate. reflexivity. }
  destruct (Z.eqb_spec cmd 5) as [->|N5].
  { unfold addr_read. rewrite (counted_exact netaddr_read na_wire Addr 1000 d m r netaddr_exact ltac:(lia) B). split.
    - intros (l & c & w & -> & -> & L & C & Lw). exists (c ++ w). rewrite <- app_assoc. repeat split. now constructor.
    - intros (w & -> & W & C). inversion W; subst; try discriminate. do 3 eexists. rewrite <- app_assoc. eauto 8. }
  destruct (Z.eqb_spec cmd 10) as [->|N10].
  { unfold getheaders_read. split.
    - intros E. apply rdo_inv in E as (c & d1 & E1 & E). destruct (Z.ltb_spec 64 c) as [L|L]; [discriminate|].
      destruct (varsize_range _ _ _ B E1) as [Hc B1]. apply varsize_some in E1 as (cw & -> & C); [|auto|lia].
      apply rd_inv in E as (l & d2 & E2 & E). apply (many_exact (read_bytes 32) hash_wire hash_exact) in E2 as (w & -> & Lw & Ln); auto.
      apply bytes_ok_app in B1 as [_ B2]. apply rd_inv in E as (st & d3 & E3 & E). apply hash_exact in E3 as (sw & -> & -> & Hst); auto.
      apply Ok_inj in E. injection E as <- <-. assert (c = zlen l) by (unfold zlen; lia). subst c.
      exists (cw ++ w ++ sw). rewrite <- !app_assoc. repeat split. now constructor.
    - intros (w & -> & W & C). inversion W as [| | | | | |l c lw stop L Ci Lw Hs| | | |]; subst; try discriminate. rewrite <- !app_assoc in *.
      rewrite (proj2 (varsize_some (c ++ lw ++ stop ++ r) (zlen l) (lw ++ stop ++ r) B ltac:(lia))) by eauto. unfold rdo. cbn [obind rd].
      destruct (Z.ltb_spec 64 (zlen l)); [lia|]. apply bytes_ok_app in B as [_ B].
      rewrite (proj2 (many_exact _ hash_wire hash_exact (Z.to_nat (zlen l)) (lw ++ stop ++ r) l (stop ++ r) B)).
      2:{ exists lw. repeat split; auto. unfold zlen. lia. }
      cbn [rd]. apply bytes_ok_app in B as [_ B]. rewrite (proj2 (hash_exact (stop ++ r) stop r B)); [reflexivity|]. exists stop. repeat split; apply Hs. }
  destruct (Z.eqb_spec cmd 11) as [->|N11].
  { unfold headers_read. rewrite (counted_exact hdr_read hdr_wire Headers 2000 d m r hdr_exact ltac:(lia) B). split.
    - intros (l & c & w & -> & -> & L & C & Lw). exists (c ++ w). rewrite <- app_assoc. repeat split. now constructor.
    - intros (w & -> & W & C). inversion W; subst; try discriminate. do 3 eexists. rewrite <- app_assoc. eauto 8. }
  destruct (Z.eqb_spec cmd 12) as [->|N12].
  { split.
    - intros E. apply Ok_inj in E. injection E as <- <-. exists []. repeat split; constructor.
    - intros (w & -> & W & C). inversion W; subst; try discriminate. reflexivity. }
  destruct (Z.eqb_spec cmd 26) as [->|N26].
  { unfold getproof_read. split.
    - intros E. apply rd_inv in E as (root & d1 & E1 & E). apply hash_exact in E1 as (rw & -> & -> & Hr); auto. apply bytes_ok_app in B as [_ B1].
      apply rd_inv in E as (key & d2 & E2 & E). apply hash_exact in E2 as (kw & -> & -> & Hk); auto. apply Ok_inj in E. injection E as <- <-.
      exists (rw ++ kw). rewrite <- app_assoc. repeat split. now constructor.
    - intros (w & -> & W & C). inversion W as [| | | | | | | | |root key Hr Hk|]; subst; try discriminate. rewrite <- app_assoc in *.
      rewrite (proj2 (hash_exact _ root _ B)) by (exists root; repeat split; apply Hr). cbn [rd]. apply bytes_ok_app in B as [_ B].
      rewrite (proj2 (hash_exact _ key _ B)) by (exists key; repeat split; apply Hk). reflexivity. }
  destruct (Z.eqb_spec cmd 27) as [->|N27].
  { unfold proofm_read. split.
    - intros E. apply rd_inv in E as (root & d1 & E1 & E). apply hash_exact in E1 as (rw & -> & -> & Hr); auto. apply bytes_ok_app in B as [_ B1].
      apply rd_inv in E as (key & d2 & E2 & E). apply hash_exact in E2 as (kw & -> & -> & Hk); auto. apply bytes_ok_app in B1 as [_ B2].
      apply rdo_inv in E as (p & d3 & E3 & E). apply local_proof in E3 as (pw & -> & L). apply Ok_inj in E. injection E as <- <-.
      exists (rw ++ kw ++ pw). rewrite <- !app_assoc. repeat split. apply bytes_ok_app in B2. constructor; tauto.
    - intros (w & -> & W & C). inversion W as [| | | | | | | | | |root key p pw Hr Hk Bp L]; subst; try discriminate. rewrite <- !app_assoc in *.
      rewrite (proj2 (hash_exact _ root _ B)) by (exists root; repeat split; apply Hr). cbn [rd]. apply bytes_ok_app in B as [_ B].
      rewrite (proj2 (hash_exact _ key _ B)) by (exists key; repeat split; apply Hk). cbn [rd]. unfold rdo. rewrite L. reflexivity. }
  split; [discriminate|]. intros (w & -> & W & <-). destruct m; cbn in *; congruence.
Qed.

(** C43, decoding: a payload is accepted exactly when it starts with the wire form of
    a message of that type, and the result and the rest are those; every other
    non-empty payload, and every other command, is refused. The decoder never
    crashes on a non-empty payload. Missing: the empty payload (refuted below). *)
Theorem message_decoding_exact_partial cmd d : bytes_ok d ->
  (forall m r, msg_read cmd d = Ok (Some (m, r)) <-> exists w, d = w ++ r /\ wire m w /\ msg_cmd m = cmd) /\
  (forall m, msg_decode cmd d = Ok (Some m) <-> exists w r, d = w ++ r /\ wire m w /\ msg_cmd m = cmd) /\
  ((d <> [] \/ ~ In cmd [5; 10; 11]) -> exists o, msg_read cmd d = Ok o).
Proof.
  intros B. split; [|split].
  - intros m r. now apply msg_read_exact.
  - intros m. unfold msg_decode. split.
    + destruct (msg_read cmd d) as [[[m' r]|]|?| |] eqn:E; try discriminate. cbn. intros H. apply Ok_inj in H. injection H as <-.
      apply msg_read_exact in E as (w & H); auto. eauto.
    + intros (w & r & H). rewrite (proj2 (msg_read_exact cmd d m r B)) by eauto. reflexivity.
  - intros N.
    assert (RD : forall {A X} (o : option (A * list Z)) (k : A -> list Z -> outcome (option X)),
      (forall a d, o = Some (a, d) -> exists x, k a d = Ok x) -> exists x, rd o k = Ok x).
    { intros A X o k H. destruct o as [[a d']|]; cbn; eauto. }
    assert (VS : forall {A} lim (R : list Z -> option (A * list Z)) (k : list A -> list Z -> outcome (option (msg * list Z))),
      d <> [] -> (forall l d, exists x, k l d = Ok x) ->
      exists o, rdo (read_varsize d) (fun c d => if lim <? c then Ok None else rd (read_many R (Z.to_nat c) d) k) = Ok o).
    { intros A lim R k Nd Hk. destruct (varsize_total d B Nd) as [o ->]. unfold rdo. cbn [obind]. apply RD. intros c d' _.
      destruct (lim <? c); [eauto|]. apply RD. intros; apply Hk. }
    assert (In5 : In cmd [5; 10; 11] -> d <> []) by tauto.
    unfold msg_read.
    destruct (Z.eqb_spec cmd 0).
    { unfold version_read. apply RD; intros v d1 E1. apply read_le_some in E1 as (_ & _ & B1); auto.
      apply RD; intros s d2 E2. apply read_le_some in E2 as (_ & _ & B2); auto.
      apply RD; intros t d3 E3. apply read_le_some in E3 as (_ & _ & B3); auto.
      apply RD; intros a d4 E4. apply netaddr_exact in E4 as (w & -> & _); auto. apply bytes_ok_app in B3 as [_ B4].
      apply RD; intros n d5 E5. apply read_le_some in E5 as (_ & _ & B5); auto.
      apply RD; intros sz d6 E6. destruct d5 as [|b d5]; [discriminate|]. injection E6 as -> ->. apply bytes_ok_cons in B5 as [Hsz B6].
      unfold is_byte in Hsz. destruct (slice_ascii_total (Z.to_nat sz) d6 ltac:(lia)) as [o ->]. unfold rdo. cbn [obind].
      apply RD; intros ag d7 _. apply RD; intros h d8 _. apply RD; intros nr d9 _. eauto. }
    destruct (cmd =? 1); [eauto|]. destruct (cmd =? 2); [apply RD; eauto|]. destruct (cmd =? 3); [apply RD; eauto|]. destruct (cmd =? 4); [eauto|].
    destruct (Z.eqb_spec cmd 5); [apply VS; [apply In5; subst; cbn; auto|eauto]|].
    destruct (Z.eqb_spec cmd 10); [apply VS; [apply In5; subst; cbn; auto|intros l d'; apply RD; eauto]|].
    destruct (Z.eqb_spec cmd 11); [apply VS; [apply In5; subst; cbn; auto|eauto]|].
    destruct (cmd =? 12); [eauto|]. destruct (cmd =? 26). { apply RD; intros ? ? _; apply RD; eauto. }
    destruct (cmd =? 27); [|eauto]. apply RD; intros root d1 E1. apply hash_exact in E1 as (w1 & -> & _); auto. apply bytes_ok_app in B as [_ B1].
    apply RD; intros key d2 E2. apply hash_exact in E2 as (w2 & -> & _); auto. apply bytes_ok_app in B1 as [_ B2].
    destruct (proj1 (proof_read_total d2 B2)) as [o ->]. unfold rdo. cbn [obind]. apply RD. eauto.
Qed.

(** Finding: an empty addr, getheaders or headers payload makes the decoder read
    before the start of its (null) buffer. *)
Theorem empty_payload_refuted cmd : In cmd [5; 10; 11] -> msg_read cmd [] = Ub.
Proof. intros [<-|[<-|[<-|[]]]]; reflexivity. Qed.

(** * Encoding *)
(** Messages the C structures can hold. *)
Definition msg_ok (m : msg) : Prop :=
  match m with
  | Version v s t a n agent h _ => 0 <= v < 2 ^ 32 /\ 0 <= s < 2 ^ 64 /\ 0 <= t < 2 ^ 64 /\ na_ok a /\ 0 <= n < 2 ^ 64 /\
      zlen agent <= 255 /\ Forall printable agent /\ 0 <= h < 2 ^ 32
  | Ping n | Pong n => 0 <= n < 2 ^ 64
  | Addr l => zlen l <= 1000 /\ Forall na_ok l
  | Getheaders l stop => zlen l <= 64 /\ Forall hash_ok l /\ hash_ok stop
  | Headers l => zlen l <= 2000 /\ Forall hdr_ok l
  | Getproof root key => hash_ok root /\ hash_ok key
  | Proofm root key p => hash_ok root /\ hash_ok key
  | Verack | Getaddr | Sendheaders => True
  end.

Lemma na_write_wire a : na_ok a -> na_wire a (netaddr_write a).
Proof.
  intros O. assert (O' := O). destruct O as (H1 & H2 & H3 & [H4 H5] & H6 & H7 & H8). unfold netaddr_write. rewrite write_u8_byte by (unfold is_byte in *; lia).
  now constructor.
Qed.
Lemma flat_wire {A} (W : A -> list Z -> Prop) (f : A -> list Z) (P : A -> Prop) l : (forall a, P a -> W a (f a)) -> Forall P l -> list_wire W l (flat_map f l).
Proof. intros H F. induction F; cbn; constructor; auto. Qed.
Lemma concat_wire l : Forall hash_ok l -> list_wire hash_wire l (concat l).
Proof. intros F. induction F; cbn; constructor; auto. now split. Qed.

Lemma msg_write_wire m : msg_ok m -> (forall root key p, m <> Proofm root key p) -> wire m (msg_write m).
Proof.
  intros O N. destruct m; cbn [msg_write msg_ok] in *.
  - destruct O as (H1 & H2 & H3 & H4 & H5 & H6 & H7 & H8). pose proof (Zle_0_nat (length agent)).
    rewrite (write_u8_byte (zlen agent)) by (unfold zlen in *; lia).
    replace no_relay with ((if no_relay then 1 else 0) =? 1) at 1 by (destruct no_relay; reflexivity).
    rewrite (write_u8_byte (if no_relay then 1 else 0)) by (destruct no_relay; lia).
    constructor; auto. { now apply na_write_wire. } destruct no_relay; unfold is_byte; lia.
  - constructor.
  - now constructor.
  - now constructor.
  - constructor.
  - destruct O as [L F]. constructor; auto. { apply write_compact_int. unfold zlen in *; lia. } now apply (flat_wire _ _ na_ok); [apply na_write_wire|].
  - destruct O as (L & F & S). constructor; auto. { apply write_compact_int. unfold zlen in *; lia. } now apply concat_wire.
  - destruct O as [L F]. constructor; auto. { apply write_compact_int. unfold zlen in *; lia. }
    apply (flat_wire _ _ hdr_ok); auto. intros h Oh. split; auto. split; [now apply hdr_write_bytes|now apply layout].
  - constructor.
  - destruct O. now constructor.
  - exfalso. eapply N. reflexivity.
Qed.
Lemma na_wire_bytes a w : na_wire a w -> bytes_ok w.
Proof.
  intros W. destruct W as [a ip L B F T (O1 & O2 & O3 & O4 & O5 & O6 & O7 & O8)].
  repeat (apply bytes_ok_app; split); auto using le_bytes_ok. constructor; auto; constructor.
Qed.
Lemma wire_bytes m w : wire m w -> bytes_ok w.
Proof.
  intros W.
  assert (CI : forall v c, compact_int v c -> bytes_ok c).
  { intros v c C. destruct C; repeat constructor; unfold is_byte; try lia; apply le_bytes_ok. }
  destruct W; repeat (apply bytes_ok_app; split); auto using le_bytes_ok.
  all: try (now constructor).
  all: try (eapply na_wire_bytes; eassumption).
  all: try (now eapply CI; eassumption).
  all: try (eapply list_wire_bytes; [|eassumption]; intros a w'; try apply na_wire_bytes; try (intros [<- [_ Hh]]; exact Hh); try (intros (_ & Hh & _); exact Hh)).
  all: try match goal with H : hash_ok ?x |- bytes_ok ?x => apply H end.
  all: try (now apply printable_bytes).
  all: try (constructor; [|constructor]; auto; unfold is_byte, zlen in *; lia).
Qed.

(** C43, encoding: what is written for a message the structures can hold is its wire
    form, and decoding it (followed by anything) gives the message back. Missing:
    proof messages, which are written without their proof (refuted below). *)
Theorem message_round_trip_partial m : msg_ok m -> (forall root key p, m <> Proofm root key p) ->
  wire m (msg_write m) /\ bytes_ok (msg_write m) /\
  (forall r, bytes_ok r -> msg_read (msg_cmd m) (msg_write m ++ r) = Ok (Some (m, r))) /\
  msg_decode (msg_cmd m) (msg_write m) = Ok (Some m).
Proof.
  intros O N. pose proof (msg_write_wire m O N) as W. pose proof (wire_bytes _ _ W) as B. split; auto. split; auto.
  assert (R : forall r, bytes_ok r -> msg_read (msg_cmd m) (msg_write m ++ r) = Ok (Some (m, r))).
  { intros r Br. apply msg_read_exact; [now apply bytes_ok_app|]. eauto. }
  split; auto. unfold msg_decode. specialize (R [] (Forall_nil _)). rewrite app_nil_r in R. now rewrite R.
Qed.
Theorem proof_message_written_without_proof_refuted root key p r : hash_ok root -> hash_ok key ->
  msg_write (Proofm root key p) = root ++ key /\ msg_decode 27 (msg_write (Proofm root key p)) <> Ok (Some r).
Proof.
  intros [Lr Br] [Lk Bk]. split; [reflexivity|]. cbn [msg_write]. unfold msg_decode, msg_read. zred. unfold proofm_read.
  unfold read_bytes. rewrite take_app by auto. cbn [rd]. rewrite <- (app_nil_r key) at 1. rewrite take_app by auto. cbn [rd]. discriminate.
Qed.

(** C43, framing: a message with fewer than 253 list entries is sent as network magic,
    command, payload length and payload, and the buffer is exactly filled. The
    client sends no other messages: its locators have at most 64 entries and it sends
    no addresses, headers or proofs. *)
Lemma flat_len {A} (f : A -> list Z) (P : A -> Prop) k l : (forall a, P a -> length (f a) = k) -> Forall P l -> zlen (flat_map f l) = zlen l * Z.of_nat k.
Proof.
  intros H F. unfold zlen. induction F as [|a l Pa F IH]; [reflexivity|]. cbn [flat_map]. rewrite app_length, Nat2Z.inj_add, IH, (H a Pa).
  cbn [length]. lia.
Qed.
Lemma msg_size_len m : msg_ok m ->
  match m with Addr l => zlen l | Headers l => zlen l | Getheaders l _ => zlen l | _ => 0 end < 253 <-> zlen (msg_write m) = msg_size m.
Proof.
  intros O.
  assert (V : forall n, 0 <= n < 2 ^ 64 -> (n < 253 <-> zlen (write_varint n) = 1)).
  { intros n Hn. pose proof (varint_size_refuted n Hn) as H. unfold size_varint in H. split; intros; [symmetry|]; apply H; auto. }
  destruct m; cbn [msg_write msg_size msg_ok] in *; unfold write_u8, write_u32, write_u64; rewrite ?zlen_app; try (unfold zlen; rewrite ?le_bytes_length; cbn; lia).
  - destruct O as (_ & _ & _ & (_ & _ & _ & [Li _] & _ & _ & [Lk _]) & _). unfold netaddr_write, write_u8, write_u16, write_u64.
    rewrite ?zlen_app. unfold zlen. rewrite ?le_bytes_length, Li, Lk. lia.
  - destruct O as [L F]. rewrite (flat_len netaddr_write na_ok 88%nat) by (auto; intros a (_ & _ & _ & [Li _] & _ & _ & [Lk _]); unfold netaddr_write, write_u8, write_u16, write_u64; rewrite !app_length, !le_bytes_length, Li, Lk; reflexivity).
    unfold size_varsize, size_varint. pose proof (V (zlen addrs) ltac:(unfold zlen in *; lia)) as V'. unfold zlen in *. lia.
  - destruct O as (L & F & S). assert (E : zlen (concat hashes) = zlen hashes * 32).
    { pose proof (flat_len (fun x => x) hash_ok 32%nat hashes (fun a Ha => proj1 Ha) F) as E. rewrite flat_map_concat_map, map_id in E. exact E. }
    rewrite E. destruct S as [Ls _]. unfold size_varsize, size_varint. pose proof (V (zlen hashes) ltac:(unfold zlen in *; lia)) as V'. unfold zlen in *. rewrite Ls. lia.
  - destruct O as [L F]. rewrite (flat_len hdr_write hdr_ok 236%nat) by (auto; apply hdr_write_length).
    unfold size_varsize, size_varint. pose proof (V (zlen hs) ltac:(unfold zlen in *; lia)) as V'. unfold zlen in *. lia.
  - destruct O as [[Lr _] [Lk _]]. unfold zlen. rewrite Lr, Lk. lia.
  - destruct O as [[Lr _] [Lk _]]. unfold zlen. rewrite Lr, Lk. lia.
Qed.
Definition entries (m : msg) : Z := match m with Addr l => zlen l | Headers l => zlen l | Getheaders l _ => zlen l | _ => 0 end.
Theorem frame_exact_partial magic m : msg_ok m -> entries m < 253 ->
  frame magic m = Ok (le_bytes 4 magic ++ [msg_cmd m] ++ le_bytes 4 (zlen (msg_write m)) ++ msg_write m).
Proof.
  intros O E. unfold frame. rewrite (proj1 (msg_size_len m O) E) at 1. apply (msg_size_len m O) in E. cbn zeta. rewrite <- E.
  unfold write_u32. rewrite (write_u8_byte (msg_cmd m)) by (destruct m; cbn; lia).
  rewrite (proj2 (Z.eqb_eq _ _)); [reflexivity|]. rewrite !zlen_app. unfold zlen at 1 2 3. rewrite !le_bytes_length. cbn [length]. lia.
Qed.
(** Finding: with 253 or more entries the announced size is too small and the writer
    runs past the end of the buffer. *)
Theorem frame_large_refuted magic m : msg_ok m -> 253 <= entries m -> frame magic m = Ub.
Proof.
  intros O E. unfold frame. cbn zeta. destruct (Z.eqb_spec (zlen (write_u32 magic ++ write_u8 (msg_cmd m) ++ write_u32 (msg_size m) ++ msg_write m)) (9 + msg_size m)) as [H|H]; auto.
  exfalso. revert H. unfold write_u32, write_u8. rewrite !zlen_app. unfold zlen at 1 2 3. rewrite !le_bytes_length. intros H.
  assert (L : entries m < 253); [|lia]. apply (msg_size_len m O). lia.
Qed.

(** * Examples *)
Definition ex_na : netaddr := mk_na 1600000000 1 0 (map Z.of_nat (seq 1 16) ++ repeat 0 20) 12038 (repeat 7 33).
Definition ex_version : msg := Version 1 0 1600000000 ex_na 42 [47; 104; 110; 115; 100; 47] 1000 true.
Definition ex_hash (n : Z) : list Z := n :: repeat 0 31.
Lemma ex_na_ok : na_ok ex_na.
Proof.
  unfold na_ok, ex_na, is_byte. cbn [na_time na_services na_type na_ip na_port na_key].
  refine (conj _ (conj _ (conj _ (conj (conj _ _) (conj _ (conj _ (conj _ _))))))); try lia; try reflexivity; apply bytes_ok_check; reflexivity.
Qed.
Lemma ex_hash_ok n : is_byte n -> hash_ok (ex_hash n).
Proof. intros H. split; [reflexivity|]. constructor; auto. apply bytes_ok_repeat. Qed.
Example ex_version_round_trip : msg_ok ex_version /\ msg_decode 0 (msg_write ex_version ++ [1; 2; 3]) = Ok (Some ex_version).
Proof.
  split; [|vm_compute; reflexivity]. unfold ex_version, msg_ok. refine (conj _ (conj _ (conj _ (conj ex_na_ok (conj _ (conj _ (conj _ _))))))); try lia.
  - vm_compute. discriminate.
  - repeat constructor; unfold printable; lia.
Qed.
Definition ex_getheaders : msg := Getheaders [ex_hash 1; ex_hash 2; ex_hash 3] (ex_hash 0).
Example ex_getheaders_ok : msg_ok ex_getheaders /\ entries ex_getheaders = 3 /\
  msg_decode 10 (msg_write ex_getheaders) = Ok (Some ex_getheaders) /\ (exists d, frame 1534997203 ex_getheaders = Ok d /\ zlen d = 138).
Proof.
  split; [|split; [reflexivity|split; [vm_compute; reflexivity|]]].
  - unfold ex_getheaders, msg_ok. split; [vm_compute; discriminate|]. split; [repeat (apply Forall_cons; [apply ex_hash_ok; unfold is_byte; lia|]); apply Forall_nil|].
    apply ex_hash_ok; unfold is_byte; lia.
  - rewrite frame_exact_partial; [eexists; split; [reflexivity|reflexivity]| |reflexivity].
    unfold ex_getheaders, msg_ok. split; [vm_compute; discriminate|]. split; [repeat (apply Forall_cons; [apply ex_hash_ok; unfold is_byte; lia|]); apply Forall_nil|].
    apply ex_hash_ok; unfold is_byte; lia.
Qed.
Example ex_addr_refused : msg_decode 5 (write_varint 1001) = Ok None /\ msg_decode 5 [3; 1] = Ok None /\ msg_decode 99 [] = Ok None.
Proof. repeat split. Qed.
Example ex_large_addr : msg_ok (Addr (repeat ex_na 253)) /\ entries (Addr (repeat ex_na 253)) = 253.
Proof.
  split; [|reflexivity]. split; [vm_compute; discriminate|]. apply Forall_forall. intros x I. apply repeat_spec in I. subst. apply ex_na_ok.
Qed.
Example ex_varint : read_varint (write_varint 70000 ++ [9]) = Ok (Some (70000, [9])) /\ read_varint [253; 252; 0] = Ok None.
Proof. split; reflexivity. Qed.

Print Assumptions varint_exact_partial.
Print Assumptions varint_empty_refuted.
Print Assumptions varint_size_refuted.
Print Assumptions message_decoding_exact_partial.
Print Assumptions empty_payload_refuted.
Print Assumptions message_round_trip_partial.
Print Assumptions proof_message_written_without_proof_refuted.
Print Assumptions frame_exact_partial.
Print Assumptions frame_large_refuted.
