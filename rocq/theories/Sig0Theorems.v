(** SIG(0) message signatures: layout, coverage, acceptance. *)
From Verif Require Import Common CommonFacts BioModel Sig0Model.
From Coq Require Import Lia.

(** ** Specification: the layout of a signed message (RFC 2931) *)
(** Header up to the additional count, that count, the other records, then the SIG
    record: root name, type 24, class ANY, TTL 0, 83 bytes of data that begin with type
    covered 0; [x] is the rest. *)
Definition sig_start : list Z := [0; 0; 24; 0; 255; 0; 0; 0; 0; 0; 83; 0; 0].
Definition has_layout (w h body x : list Z) (count : Z) : Prop :=
  w = h ++ be_bytes 2 count ++ body ++ sig_start ++ x /\ length h = 10%nat /\ 1 <= count < 65536 /\ length x = 81%nat.
(** The rest: algorithm 253, labels 0, original TTL 0, expiration, inception, key tag,
    signer "." and signature. *)
Definition sig_rest (expiration inception : Z) (tag sig : list Z) : list Z :=
  [253; 0; 0; 0; 0; 0] ++ be_bytes 4 expiration ++ be_bytes 4 inception ++ tag ++ [0] ++ sig.
(** What is hashed: the data of the SIG record without the signature, then the message
    as it was without the SIG record. *)
Definition digest_input (h body x : list Z) (count : Z) : list Z := [0; 0] ++ firstn 17 x ++ h ++ be_bytes 2 (count - 1) ++ body.

(** ** Lemmas *)
Lemma carve {A} k (w : list A) : (k <= length w)%nat -> exists a b, w = a ++ b /\ length a = k.
Proof. intros H. exists (firstn k w), (skipn k w). now rewrite firstn_skipn, firstn_length_le. Qed.
Lemma sub_at k n a b c : length a = k -> length b = n -> sub_bytes k n (a ++ b ++ c) = b.
Proof.
  intros <- <-. unfold sub_bytes. rewrite skipn_app, skipn_all, Nat.sub_diag. cbn [skipn app]. rewrite firstn_app, firstn_all, Nat.sub_diag. cbn [firstn]. apply app_nil_r.
Qed.
Lemma be_at_at k n a b c : length a = k -> length b = n -> be_at k n (a ++ b ++ c) = be_val b.
Proof. intros. unfold be_at. now rewrite sub_at. Qed.
Lemma skip_at {A} k (a b : list A) : length a = k -> skipn k (a ++ b) = b.
Proof. intros <-. rewrite skipn_app, skipn_all, Nat.sub_diag. reflexivity. Qed.
Lemma first_at {A} k (a b : list A) : length a = k -> firstn k (a ++ b) = a.
Proof. intros <-. rewrite firstn_app, firstn_all, Nat.sub_diag. cbn [firstn]. apply app_nil_r. Qed.
Lemma val_is n b v : bytes_ok b -> length b = n -> be_val b = v -> b = be_bytes n v.
Proof. intros B <- <-. now rewrite be_bytes_be_val. Qed.
Lemma sig_rr_at a rr : length rr = 94%nat -> sig_rr (a ++ rr) = rr.
Proof. intros L. unfold sig_rr. apply skip_at. rewrite app_length. lia. Qed.

Lemma layout_parts w h body x count : has_layout w h body x count ->
  sig_rr w = sig_start ++ x /\ be_at 10 2 w = count /\ has_sig w = true /\ zlen w = 106 + zlen body /\ firstn (length w - 94) w = h ++ be_bytes 2 count ++ body.
Proof.
  intros (-> & Lh & Hc & Lx). assert (Lr : length (sig_start ++ x) = 94%nat) by (rewrite app_length, Lx; reflexivity).
  assert (E1 : sig_rr (h ++ be_bytes 2 count ++ body ++ sig_start ++ x) = sig_start ++ x) by (rewrite !app_assoc, <- (app_assoc _ sig_start x); now apply sig_rr_at).
  assert (E2 : be_at 10 2 (h ++ be_bytes 2 count ++ body ++ sig_start ++ x) = count) by (rewrite be_at_at; auto using be_bytes_length; apply be_val_be_bytes; change (256 ^ Z.of_nat 2) with 65536; lia).
  assert (E3 : zlen (h ++ be_bytes 2 count ++ body ++ sig_start ++ x) = 106 + zlen body) by (unfold zlen; rewrite !app_length, Lx, Lh, be_bytes_length; change (length sig_start) with 13%nat; lia).
  split; [exact E1|]. split; [exact E2|]. split; [|split; [exact E3|]].
  - unfold has_sig. rewrite E1, E2, E3. pose proof (zlen_nonneg body).
    destruct (Z.ltb_spec (106 + zlen body) 106); [lia|]. destruct (Z.ltb_spec count 1); [lia|]. reflexivity.
  - rewrite !app_assoc, <- (app_assoc _ sig_start x). apply first_at. rewrite (app_length _ (sig_start ++ x)), Lr. lia.
Qed.
Lemma has_sig_layout w : bytes_ok w -> has_sig w = true -> exists h body x count, has_layout w h body x count.
Proof.
  intros B H. unfold has_sig in H. destruct (Z.ltb_spec (zlen w) 106) as [|L]; [discriminate|]. unfold zlen in L.
  destruct (carve 10 w) as (h & w1 & -> & Lh); [lia|]. rewrite app_length in L. destruct (carve 2 w1) as (c & w2 & -> & Lc); [lia|]. rewrite app_length in L.
  destruct (carve (length w2 - 94) w2) as (body & rr & -> & Lb); [lia|]. rewrite app_length in *. assert (Lr : length rr = 94%nat) by lia. clear L Lb.
  destruct (carve 1 rr) as (f0 & r1 & -> & L0); [lia|]. rewrite app_length in Lr. destruct (carve 2 r1) as (f1 & r2 & -> & L1); [lia|]. rewrite app_length in Lr.
  destruct (carve 2 r2) as (f2 & r3 & -> & L2); [lia|]. rewrite app_length in Lr. destruct (carve 4 r3) as (f3 & r4 & -> & L3); [lia|]. rewrite app_length in Lr.
  destruct (carve 2 r4) as (f4 & r5 & -> & L4); [lia|]. rewrite app_length in Lr. destruct (carve 2 r5) as (f5 & x & -> & L5); [lia|]. rewrite app_length in Lr.
  assert (Lx : length x = 81%nat) by lia. clear Lr.
  repeat match goal with X : bytes_ok (_ ++ _) |- _ => apply bytes_ok_app in X as [? X] end.
  rewrite be_at_at in H by auto. destruct (Z.ltb_spec (be_val c) 1) as [|Hc]; [discriminate|].
  rewrite (app_assoc c body), (app_assoc h (c ++ body)), sig_rr_at in H by (rewrite !app_length; lia).
  cbv zeta in H.
  assert (A0 : be_at 0 1 (f0 ++ f1 ++ f2 ++ f3 ++ f4 ++ f5 ++ x) = be_val f0) by (apply (be_at_at 0 1 []); auto).
  assert (A1 : be_at 1 2 (f0 ++ f1 ++ f2 ++ f3 ++ f4 ++ f5 ++ x) = be_val f1) by (apply (be_at_at 1 2 f0); auto).
  assert (A2 : be_at 3 2 (f0 ++ f1 ++ f2 ++ f3 ++ f4 ++ f5 ++ x) = be_val f2) by (rewrite (app_assoc f0); apply be_at_at; rewrite ?app_length; lia).
  assert (A3 : be_at 5 4 (f0 ++ f1 ++ f2 ++ f3 ++ f4 ++ f5 ++ x) = be_val f3) by (rewrite (app_assoc f0), (app_assoc (f0 ++ f1)); apply be_at_at; rewrite ?app_length; lia).
  assert (A4 : be_at 9 2 (f0 ++ f1 ++ f2 ++ f3 ++ f4 ++ f5 ++ x) = be_val f4) by (rewrite (app_assoc f0), (app_assoc (f0 ++ f1)), (app_assoc _ f3); apply be_at_at; rewrite ?app_length; lia).
  assert (A5 : be_at 11 2 (f0 ++ f1 ++ f2 ++ f3 ++ f4 ++ f5 ++ x) = be_val f5) by (rewrite (app_assoc f0), (app_assoc (f0 ++ f1)), (app_assoc _ f3), (app_assoc _ f4); apply be_at_at; rewrite ?app_length; lia).
  rewrite A0, A1, A2, A3, A4, A5 in H. clear A0 A1 A2 A3 A4 A5.
  repeat match type of H with (if negb (?a =? ?b) then _ else _) = _ => destruct (Z.eqb_spec a b); cbn [negb] in H; [|discriminate] end. apply Z.eqb_eq in H.
  exists h, body, x, (be_val c). split; [|split; [exact Lh|split; [|exact Lx]]].
  - rewrite (val_is 1 f0 0), (val_is 2 f1 24), (val_is 2 f2 255), (val_is 4 f3 0), (val_is 2 f4 83), (val_is 2 f5 0) by auto. rewrite <- (val_is 2 c (be_val c)) by auto. reflexivity.
  - pose proof (be_val_bound c) as X. rewrite Lc in X. change (256 ^ Z.of_nat 2) with 65536 in X. intuition lia.
Qed.
Lemma layout_input w h body x count : has_layout w h body x count -> sig_input w = Some (digest_input h body x count).
Proof.
  intros H. destruct (layout_parts _ _ _ _ _ H) as (E1 & E2 & E3 & E4 & _). unfold sig_input. rewrite E3, E1, E2. cbn [negb]. cbv zeta. f_equal. unfold digest_input.
  assert (Lw : (length w - 12 - 94 = length body)%nat) by (unfold zlen in E4; lia). rewrite Lw. clear E1 E2 E3 E4 Lw. destruct H as (-> & Lh & Hc & Lx).
  change (skipn 11 (sig_start ++ x)) with ([0; 0] ++ x). unfold sub_bytes at 1. change (firstn 19 (skipn 0 ([0; 0] ++ x))) with ([0; 0] ++ firstn 17 x). rewrite <- !app_assoc. f_equal. f_equal.
  assert (S1 : sub_bytes 0 10 (h ++ be_bytes 2 count ++ body ++ sig_start ++ x) = h) by (apply (sub_at 0 10 []); auto).
  assert (S2 : sub_bytes 12 (length body) (h ++ be_bytes 2 count ++ body ++ sig_start ++ x) = body) by (rewrite (app_assoc h); apply sub_at; [rewrite app_length, be_bytes_length; lia|reflexivity]).
  rewrite S1, S2. reflexivity.
Qed.

(** ** Theorems *)
(** A signature is recognised exactly in messages of this layout. *)
Theorem has_sig_exact w : bytes_ok w -> has_sig w = true <-> exists h body x count, has_layout w h body x count.
Proof.
  intros B. split; [now apply has_sig_layout|]. intros (h & body & x & count & H). now apply layout_parts in H as (_ & _ & H & _).
Qed.
(** The hash covers everything but the 64 bytes of the signature. *)
Theorem digest_covers w w' i : bytes_ok w -> bytes_ok w' -> sig_input w = Some i -> sig_input w' = Some i ->
  length w = length w' /\ firstn (length w - 64) w = firstn (length w' - 64) w'.
Proof.
  intros B B' E E'. assert (S : has_sig w = true) by (unfold sig_input in E; destruct (has_sig w); [reflexivity|discriminate]).
  assert (S' : has_sig w' = true) by (unfold sig_input in E'; destruct (has_sig w'); [reflexivity|discriminate]).
  apply has_sig_layout in S as (h & body & x & c & H); [|exact B]. apply has_sig_layout in S' as (h' & body' & x' & c' & H'); [|exact B'].
  rewrite (layout_input _ _ _ _ _ H) in E. rewrite (layout_input _ _ _ _ _ H') in E'. assert (D : digest_input h body x c = digest_input h' body' x' c') by congruence. clear E E' B B' i.
  destruct H as (-> & Lh & Hc & Lx). destruct H' as (-> & Lh' & Hc' & Lx'). unfold digest_input in D.
  apply app_inj_len in D as [_ D]; [|reflexivity]. apply app_inj_len in D as [Dx D]; [|rewrite !firstn_length; lia]. apply app_inj_len in D as [-> D]; [|lia]. apply app_inj_len in D as [Dc ->]; [|now rewrite !be_bytes_length].
  apply (f_equal be_val) in Dc. rewrite !be_val_be_bytes in Dc by (change (256 ^ Z.of_nat 2) with 65536; lia). replace c' with c by lia.
  rewrite <- (firstn_skipn 17 x), <- (firstn_skipn 17 x'), Dx.
  assert (R : forall y : list Z, length y = 81%nat -> length (skipn 17 y) = 64%nat) by (intros y Ly; rewrite skipn_length; lia).
  assert (L : forall z, length z = 64%nat -> firstn (length (h' ++ be_bytes 2 c ++ body' ++ sig_start ++ firstn 17 x' ++ z) - 64) (h' ++ be_bytes 2 c ++ body' ++ sig_start ++ firstn 17 x' ++ z) = h' ++ be_bytes 2 c ++ body' ++ sig_start ++ firstn 17 x').
  { intros z Lz. rewrite !app_assoc. apply first_at. rewrite (app_length _ z), Lz. lia. }
  split; [rewrite !app_length, !R by assumption; reflexivity|]. rewrite !L by auto. reflexivity.
Qed.

Section Keys.
Variable hash : list Z -> list Z.
Variable ec_sign : list Z -> option (list Z).

Definition signed_as (now : Z) (h body sig : list Z) (count : Z) : list Z :=
  h ++ be_bytes 2 count ++ body ++ sig_start ++ sig_rest (now + 21600) (now - 21600) [0; 0] sig.
Definition signed_digest (now : Z) (h body : list Z) (count : Z) : list Z :=
  hash ([0; 0] ++ [253; 0; 0; 0; 0; 0] ++ be_bytes 4 (now + 21600) ++ be_bytes 4 (now - 21600) ++ [0; 0; 0] ++ h ++ be_bytes 2 (count - 1) ++ body).
Lemma rest_len e i t s : length t = 2%nat -> length s = 64%nat -> length (sig_rest e i t s) = 81%nat.
Proof. clear. intros Lt Ls. unfold sig_rest. rewrite !app_length, !be_bytes_length, Lt, Ls. reflexivity. Qed.
Lemma rest_first e i t s : length t = 2%nat -> firstn 17 (sig_rest e i t s) = [253; 0; 0; 0; 0; 0] ++ be_bytes 4 e ++ be_bytes 4 i ++ t ++ [0].
Proof. clear. intros Lt. unfold sig_rest. rewrite (app_assoc t), (app_assoc (be_bytes 4 i)), (app_assoc (be_bytes 4 e)), (app_assoc [253; 0; 0; 0; 0; 0]). apply first_at. rewrite !app_length, !be_bytes_length, Lt. reflexivity. Qed.
Lemma sign_layout now h body count : length h = 10%nat -> 1 <= count < 65536 -> forall s, length s = 64%nat ->
  has_layout (signed_as now h body s count) h body (sig_rest (now + 21600) (now - 21600) [0; 0] s) count.
Proof. clear. intros. unfold signed_as. split; [reflexivity|]. repeat split; auto; try lia. now apply rest_len. Qed.
Lemma fields_rest now s : sig_fields now s = sig_start ++ sig_rest (now + 21600) (now - 21600) [0; 0] s.
Proof. clear. unfold sig_fields, sig_rest, write_u32be. reflexivity. Qed.
Lemma sign_body now h body count : length h = 10%nat -> 1 <= count < 65536 ->
  match sig_input ((h ++ be_bytes 2 count ++ body) ++ sig_fields now (repeat 0 64)) with
  | None => None
  | Some i => match ec_sign (hash i) with None => None | Some sig => Some ((h ++ be_bytes 2 count ++ body) ++ sig_fields now sig) end
  end = match ec_sign (signed_digest now h body count) with None => None | Some sig => Some (signed_as now h body sig count) end.
Proof.
  intros Lh Hc. rewrite fields_rest, <- !app_assoc. fold (signed_as now h body (repeat 0 64) count).
  rewrite (layout_input _ _ _ _ _ (sign_layout now h body count Lh Hc (repeat 0 64) eq_refl)). unfold digest_input. rewrite rest_first by reflexivity.
  unfold signed_digest. rewrite <- !app_assoc. cbn [app]. destruct (ec_sign _); [|reflexivity]. rewrite fields_rest. unfold signed_as. rewrite <- !app_assoc. reflexivity.
Qed.

(** Signing a message without a signature appends the record and adds one to the
    additional count; with 65535 additional records there is no room. *)
Theorem sign_exact now w h body count : bytes_ok w -> w = h ++ be_bytes 2 count ++ body -> length h = 10%nat -> 0 <= count < 65536 -> has_sig w = false ->
  sig0_sign hash ec_sign now w =
  if count =? 65535 then None
  else match ec_sign (signed_digest now h body (count + 1)) with None => None | Some sig => Some (signed_as now h body sig (count + 1)) end.
Proof.
  intros B -> Lh Hc Ns. unfold sig0_sign. rewrite Ns.
  destruct (Z.ltb_spec (zlen (h ++ be_bytes 2 count ++ body)) 12) as [C|_]; [unfold zlen in C; rewrite !app_length, be_bytes_length in C; lia|].
  rewrite be_at_at by auto using be_bytes_length. rewrite be_val_be_bytes by (change (256 ^ Z.of_nat 2) with 65536; lia). cbv zeta.
  rewrite first_at by auto. replace (skipn 12 (h ++ be_bytes 2 count ++ body)) with body by (rewrite app_assoc, skip_at; [reflexivity|rewrite app_length, be_bytes_length; lia]).
  unfold write_u16be at 1 2. destruct (Z.eqb_spec count 65535) as [->|N].
  - change ((65535 + 1) mod 65536) with 0. assert (S : has_sig ((h ++ be_bytes 2 0 ++ body) ++ sig_fields now (repeat 0 64)) = false); [|unfold sig_input; rewrite S; reflexivity].
    unfold has_sig. rewrite <- !app_assoc, be_at_at by auto using be_bytes_length. change (be_val (be_bytes 2 0)) with 0. destruct (_ <? 106); reflexivity.
  - rewrite Z.mod_small by lia. apply sign_body; [exact Lh|lia].
Qed.
(** A signed message is signed anew: record replaced, count kept. *)
Theorem resign_exact now w h body x count : has_layout w h body x count ->
  sig0_sign hash ec_sign now w = match ec_sign (signed_digest now h body count) with None => None | Some sig => Some (signed_as now h body sig count) end.
Proof.
  intros H. destruct (layout_parts _ _ _ _ _ H) as (E1 & E2 & E3 & E4 & E5). unfold sig0_sign. rewrite E3, E2, E5. pose proof (zlen_nonneg body). destruct (Z.ltb_spec (zlen w) 12); [lia|]. clear E1 E2 E3 E4 E5.
  destruct H as (-> & Lh & Hc & Lx). cbv zeta. rewrite first_at by auto. replace (skipn 12 (h ++ be_bytes 2 count ++ body)) with body by (rewrite app_assoc, skip_at; [reflexivity|rewrite app_length, be_bytes_length; lia]).
  replace (((count + 1) mod 65536 - 1) mod 65536) with count by (rewrite Zminus_mod_idemp_l; replace (count + 1 - 1) with count by lia; rewrite Z.mod_small; lia).
  unfold write_u16be at 1 2. now apply sign_body.
Qed.

Variable ec_verify : list Z -> list Z -> bool.
(** Verification: exactly the messages with such a record, algorithm 253, in its validity
    period and with a valid signature of the hash. *)
Theorem verify_exact now w : bytes_ok w -> exists r, sig0_verify hash ec_verify now w = Ok r /\
  (r = true <-> exists h body count expiration inception tag sig,
     has_layout w h body (sig_rest expiration inception tag sig) count /\ length tag = 2%nat /\ length sig = 64%nat /\
     0 <= inception < 4294967296 /\ 0 <= expiration < 4294967296 /\ inception <= now mod 4294967296 <= expiration /\
     ec_verify (hash (digest_input h body (sig_rest expiration inception tag sig) count)) sig = true).
Proof.
  clear ec_sign. intros B. unfold sig0_verify.
  (* the fields of a record of this layout *)
  assert (F : forall h body count e i tag sig, has_layout w h body (sig_rest e i tag sig) count -> length tag = 2%nat -> length sig = 64%nat -> 0 <= e < 4294967296 -> 0 <= i < 4294967296 ->
    get_sig now w = if now mod 4294967296 <? i then None else if e <? now mod 4294967296 then None else Some (sig, be_val tag)).
  { intros h body count e i tag sig H Lt Ls He Hi. destruct (layout_parts _ _ _ _ _ H) as (E1 & _ & E3 & _). unfold get_sig. rewrite E3, E1. cbn [negb]. cbv zeta.
    change (skipn 11 (sig_start ++ sig_rest e i tag sig)) with ([0; 0; 253; 0; 0; 0; 0; 0] ++ be_bytes 4 e ++ be_bytes 4 i ++ tag ++ [0] ++ sig).
    set (rd := [0; 0; 253; 0; 0; 0; 0; 0] ++ be_bytes 4 e ++ be_bytes 4 i ++ tag ++ [0] ++ sig).
    assert (A0 : be_at 0 2 rd = 0) by reflexivity. assert (A2 : be_at 2 1 rd = 253) by reflexivity. assert (A3 : be_at 3 1 rd = 0) by reflexivity. assert (A4 : be_at 4 4 rd = 0) by reflexivity.
    assert (A8 : be_at 8 4 rd = e) by (unfold rd; rewrite be_at_at by auto using be_bytes_length; apply be_val_be_bytes; change (256 ^ Z.of_nat 4) with 4294967296; lia).
    assert (A12 : be_at 12 4 rd = i) by (unfold rd; rewrite app_assoc, be_at_at by (rewrite ?app_length, ?be_bytes_length; reflexivity); apply be_val_be_bytes; change (256 ^ Z.of_nat 4) with 4294967296; lia).
    assert (A16 : be_at 16 2 rd = be_val tag) by (unfold rd; rewrite app_assoc, (app_assoc _ (be_bytes 4 i)), be_at_at by (rewrite ?app_length, ?be_bytes_length; auto); reflexivity).
    assert (A18 : be_at 18 1 rd = 0) by (unfold rd; rewrite app_assoc, (app_assoc _ (be_bytes 4 i)), (app_assoc _ tag), be_at_at by (rewrite ?app_length, ?be_bytes_length, ?Lt; reflexivity); reflexivity).
    assert (A19 : sub_bytes 19 64 rd = sig) by (unfold rd; rewrite app_assoc, (app_assoc _ (be_bytes 4 i)), (app_assoc _ tag), (app_assoc _ [0]); rewrite <- (app_nil_r sig) at 1; apply sub_at; rewrite ?app_length, ?be_bytes_length, ?Lt, ?Ls; reflexivity).
    rewrite A0, A2, A3, A4, A8, A12, A16, A18, A19. reflexivity. }
  destruct (get_sig now w) as [[sig tag]|] eqn:G.
  - assert (S : has_sig w = true) by (unfold get_sig in G; destruct (has_sig w); [reflexivity|discriminate]).
    destruct (has_sig_layout w B S) as (h & body & x & count & H). rewrite (layout_input _ _ _ _ _ H). exists (ec_verify (hash (digest_input h body x count)) sig). split; [reflexivity|].
    destruct (layout_parts _ _ _ _ _ H) as (E1 & _). unfold get_sig in G. rewrite S, E1 in G. cbn [negb] in G. cbv zeta in G.
    assert (Bx : bytes_ok x /\ length x = 81%nat) by (destruct H as (-> & _ & _ & Lx); repeat (apply bytes_ok_app in B as [_ B]); auto). destruct Bx as [Bx Lx].
    change (skipn 11 (sig_start ++ x)) with ([0; 0] ++ x) in G.
    destruct (carve 1 x) as (f0 & x1 & -> & L0); [lia|]. rewrite app_length in Lx. destruct (carve 1 x1) as (f1 & x2 & -> & L1); [lia|]. rewrite app_length in Lx. destruct (carve 4 x2) as (f2 & x3 & -> & L2); [lia|]. rewrite app_length in Lx.
    destruct (carve 4 x3) as (f3 & x4 & -> & L3); [lia|]. rewrite app_length in Lx. destruct (carve 4 x4) as (f4 & x5 & -> & L4); [lia|]. rewrite app_length in Lx. destruct (carve 2 x5) as (f5 & x6 & -> & L5); [lia|]. rewrite app_length in Lx.
    destruct (carve 1 x6) as (f6 & s & -> & L6); [lia|]. rewrite app_length in Lx. assert (Ls : length s = 64%nat) by lia. clear Lx.
    repeat match goal with X : bytes_ok (_ ++ _) |- _ => apply bytes_ok_app in X as [? X] end.
    set (rd := [0; 0] ++ f0 ++ f1 ++ f2 ++ f3 ++ f4 ++ f5 ++ f6 ++ s) in G.
    assert (A0 : be_at 0 2 rd = 0) by reflexivity.
    assert (A2 : be_at 2 1 rd = be_val f0) by (apply be_at_at; auto).
    assert (A3 : be_at 3 1 rd = be_val f1) by (unfold rd; rewrite app_assoc; apply be_at_at; rewrite ?app_length; cbn [length]; lia).
    assert (A4 : be_at 4 4 rd = be_val f2) by (unfold rd; rewrite app_assoc, (app_assoc _ f1); apply be_at_at; rewrite ?app_length; cbn [length]; lia).
    assert (A8 : be_at 8 4 rd = be_val f3) by (unfold rd; rewrite app_assoc, (app_assoc _ f1), (app_assoc _ f2); apply be_at_at; rewrite ?app_length; cbn [length]; lia).
    assert (A12 : be_at 12 4 rd = be_val f4) by (unfold rd; rewrite app_assoc, (app_assoc _ f1), (app_assoc _ f2), (app_assoc _ f3); apply be_at_at; rewrite ?app_length; cbn [length]; lia).
    assert (A18 : be_at 18 1 rd = be_val f6) by (unfold rd; rewrite app_assoc, (app_assoc _ f1), (app_assoc _ f2), (app_assoc _ f3), (app_assoc _ f4), (app_assoc _ f5); apply be_at_at; rewrite ?app_length; cbn [length]; lia).
    rewrite A0, A2, A3, A4, A8, A12, A18 in G. clear A0 A2 A3 A4 A8 A12 A18. change (negb (0 =? 0)) with false in G. cbv iota in G.
    destruct (Z.eqb_spec (be_val f0) 253) as [V0|]; [|discriminate]. destruct (Z.eqb_spec (be_val f1) 0) as [V1|]; [|discriminate]. destruct (Z.eqb_spec (be_val f2) 0) as [V2|]; [|discriminate]. destruct (Z.eqb_spec (be_val f6) 0) as [V6|]; [|discriminate].
    cbn [negb orb] in G.
    assert (X : f0 ++ f1 ++ f2 ++ f3 ++ f4 ++ f5 ++ f6 ++ s = sig_rest (be_val f3) (be_val f4) f5 s).
    { rewrite (val_is 1 f0 253), (val_is 1 f1 0), (val_is 4 f2 0), (val_is 1 f6 0) by auto. unfold sig_rest. rewrite <- (val_is 4 f3 (be_val f3)), <- (val_is 4 f4 (be_val f4)) by auto. reflexivity. }
    rewrite X in *.
    pose proof (be_val_bound f3 ltac:(auto)) as B3. pose proof (be_val_bound f4 ltac:(auto)) as B4. rewrite L3 in B3. rewrite L4 in B4. change (256 ^ Z.of_nat 4) with 4294967296 in *.
    assert (G' := F h body count (be_val f3) (be_val f4) f5 s H L5 Ls B3 B4).
    destruct (Z.ltb_spec (now mod 4294967296) (be_val f4)); [discriminate|]. destruct (Z.ltb_spec (be_val f3) (now mod 4294967296)); [discriminate|]. apply f_equal with (f := fun o => match o with Some p => fst p | None => [] end) in G'. cbn [fst] in G'. subst sig.
    split.
    + intros V. exists h, body, count, (be_val f3), (be_val f4), f5, s. repeat (split; [auto; lia|]). exact V.
    + intros (h' & body' & count' & e & i & t & sg & H' & Lt & Lsg & Hi & He & Hn & V).
      assert (G2 := F _ _ _ _ _ _ _ H' Lt Lsg He Hi). destruct (Z.ltb_spec (now mod 4294967296) i); [lia|]. destruct (Z.ltb_spec e (now mod 4294967296)); [lia|].
      apply (f_equal (fun o => match o with Some p => fst p | None => [] end)) in G2. cbn [fst] in G2. subst sg.
      assert (D : digest_input h body (sig_rest (be_val f3) (be_val f4) f5 s) count = digest_input h' body' (sig_rest e i t s) count') by (apply layout_input in H, H'; congruence). now rewrite D.
  - exists false. split; [reflexivity|]. split; [discriminate|]. intros (h & body & count & e & i & t & sg & H & Lt & Lsg & Hi & He & Hn & V).
    assert (G2 := F _ _ _ _ _ _ _ H Lt Lsg He Hi). destruct (Z.ltb_spec (now mod 4294967296) i); [lia|]. destruct (Z.ltb_spec e (now mod 4294967296)); [lia|]. discriminate.
Qed.
Hypothesis sig_len : forall d s, ec_sign d = Some s -> length s = 64%nat.
Hypothesis sign_verify : forall d s, ec_sign d = Some s -> ec_verify d s = true.
(** What was signed is accepted for six hours before and after. *)
Theorem signed_accepted now now' w out : bytes_ok w -> sig0_sign hash ec_sign now w = Some out ->
  21600 <= now < 4294967296 - 21600 -> now - 21600 <= now' <= now + 21600 -> (forall d s, ec_sign d = Some s -> bytes_ok s) ->
  sig0_verify hash ec_verify now' out = Ok true.
Proof.
  intros B E Hn Hn' Bs.
  assert (Form : exists h body s count, out = signed_as now h body s count /\ length h = 10%nat /\ 1 <= count < 65536 /\ ec_sign (signed_digest now h body count) = Some s /\ bytes_ok h /\ bytes_ok body).
  { destruct (has_sig w) eqn:S.
    - destruct (has_sig_layout w B S) as (h & body & x & count & H). rewrite (resign_exact now w h body x count H) in E. destruct (ec_sign (signed_digest now h body count)) as [s|] eqn:Es; [|discriminate].
      exists h, body, s, count. assert (out = signed_as now h body s count) by congruence. destruct H as (-> & Lh & Hc & Lx). apply bytes_ok_app in B as [B1 B]. apply bytes_ok_app in B as [_ B]. apply bytes_ok_app in B as [B2 _]. auto 10.
    - unfold sig0_sign in E. destruct (Z.ltb_spec (zlen w) 12) as [|L]; [discriminate|]. fold (sig0_sign hash ec_sign now w) in E. unfold zlen in L.
      destruct (carve 10 w) as (h & w1 & -> & Lh); [lia|]. rewrite app_length in L. destruct (carve 2 w1) as (c & body & -> & Lc); [lia|].
      apply bytes_ok_app in B as [B1 B]. apply bytes_ok_app in B as [B2 B3]. pose proof (be_val_bound c B2) as Hc. rewrite Lc in Hc. change (256 ^ Z.of_nat 2) with 65536 in Hc.
      assert (X := sign_exact now (h ++ c ++ body) h body (be_val c)). rewrite <- (val_is 2 c _ B2 Lc eq_refl) in X.
      assert (E' : sig0_sign hash ec_sign now (h ++ c ++ body) = Some out) by (unfold sig0_sign; destruct (Z.ltb_spec (zlen (h ++ c ++ body)) 12) as [C|_]; [unfold zlen in C; rewrite !app_length in C; lia|exact E]).
      rewrite X in E'; auto; [|apply bytes_ok_app; split; [auto|apply bytes_ok_app; auto]]. destruct (Z.eqb_spec (be_val c) 65535); [discriminate|]. destruct (ec_sign (signed_digest now h body (be_val c + 1))) as [s|] eqn:Es; [|discriminate].
      exists h, body, s, (be_val c + 1). assert (out = signed_as now h body s (be_val c + 1)) by congruence. repeat (split; [auto; lia|]). auto. }
  destruct Form as (h & body & s & count & -> & Lh & Hc & Es & Bh & Bb). assert (Ls := sig_len _ _ Es). assert (H := sign_layout now h body count Lh Hc s Ls).
  assert (Bo : bytes_ok (signed_as now h body s count)).
  { unfold signed_as, sig_rest. repeat (match goal with |- bytes_ok (_ ++ _) => apply bytes_ok_app; split end); auto using be_bytes_ok; try (repeat constructor; unfold is_byte; lia). eauto. }
  destruct (verify_exact now' _ Bo) as (r & -> & R). f_equal. apply R. exists h, body, count, (now + 21600), (now - 21600), [0; 0], s. split; [exact H|]. rewrite Z.mod_small by lia. repeat (split; [auto; lia|]).
  apply sign_verify. unfold digest_input. rewrite rest_first by reflexivity. rewrite <- Es. unfold signed_digest. rewrite <- !app_assoc. reflexivity.
Qed.
End Keys.

(** ** Examples: a toy hash and signature scheme; a message with one question *)
Definition toy_hash (l : list Z) : list Z := [zlen l mod 256].
Definition toy_sign (d : list Z) : option (list Z) := Some (repeat (hd 0 d) 64).
Definition toy_verify (d s : list Z) : bool := beq s (repeat (hd 0 d) 64).
Definition ex_wire : list Z := [1; 2; 132; 0; 0; 1; 0; 0; 0; 0; 0; 0; 1; 97; 0; 0; 1; 0; 1].
Definition ex_now : Z := 1600000000.
Example ex_signed : exists out, sig0_sign toy_hash toy_sign ex_now ex_wire = Some out /\ zlen out = zlen ex_wire + 94 /\ be_at 10 2 out = 1 /\ has_sig out = true /\
  sig0_verify toy_hash toy_verify (ex_now + 3600) out = Ok true /\ sig0_verify toy_hash toy_verify (ex_now + 21601) out = Ok false.
Proof. eexists. split; [vm_compute; reflexivity|]. vm_compute. auto. Qed.
Example toy_len d s : toy_sign d = Some s -> length s = 64%nat.
Proof. intros E. apply (f_equal (fun o => match o with Some x => length x | None => O end)) in E. rewrite <- E. apply repeat_length. Qed.
Example toy_ok d s : toy_sign d = Some s -> toy_verify d s = true.
Proof. intros E. unfold toy_sign in E. unfold toy_verify. apply beq_true_iff. congruence. Qed.
Example ex_resigned : exists o1 o2, sig0_sign toy_hash toy_sign ex_now ex_wire = Some o1 /\ sig0_sign toy_hash toy_sign (ex_now + 5) o1 = Some o2 /\ zlen o2 = zlen o1 /\ be_at 10 2 o2 = 1.
Proof. eexists. eexists. split; [vm_compute; reflexivity|]. split; [vm_compute; reflexivity|]. vm_compute. auto. Qed.

Print Assumptions has_sig_exact.
Print Assumptions digest_covers.
Print Assumptions sign_exact.
Print Assumptions resign_exact.
Print Assumptions verify_exact.
Print Assumptions signed_accepted.
