(** The text of addresses: what is written reads back, what is read is well formed. *)
From Verif Require Import Common CommonFacts Base32Model UtilTheorems MapModel AddrModel ProofFacts AddrFacts AddrText.

Lemma some_inj {A} (x y : A) : Some x = Some y -> x = y.
Proof. congruence. Qed.

(* ---------- strchr ---------- *)
Lemma split_none c s : ~ In c s -> split_at c s = None.
Proof.
  induction s as [|x s IH]; intros N; [reflexivity|]. cbn [split_at]. destruct (Z.eqb_spec x c) as [->|].
  - exfalso. apply N. left. reflexivity.
  - rewrite IH; [reflexivity|]. intros X. apply N. right. exact X.
Qed.
Lemma split_app c p q : ~ In c p -> split_at c (p ++ c :: q) = Some (p, q).
Proof.
  induction p as [|x p IH]; intros N; cbn [app split_at].
  - rewrite Z.eqb_refl. reflexivity.
  - destruct (Z.eqb_spec x c) as [->|]; [exfalso; apply N; left; reflexivity|]. rewrite IH; [reflexivity|]. intros X. apply N. right. exact X.
Qed.
Lemma split_cnt c s : match split_at c s with None => cnt c s = 0 | Some (_, q) => cnt c s = 1 + cnt c q end.
Proof.
  induction s as [|x s IH]; [reflexivity|]. cbn [split_at]. rewrite cnt_cons, (Z.eqb_sym c x). destruct (x =? c); [reflexivity|].
  destruct (split_at c s) as [[p q]|]; lia.
Qed.
Lemma split_inv c s p q : split_at c s = Some (p, q) -> s = p ++ c :: q /\ ~ In c p.
Proof.
  revert p q. induction s as [|x s IH]; intros p q E; [discriminate E|]. cbn [split_at] in E. destruct (Z.eqb_spec x c) as [->|Hn].
  - injection E as <- <-. split; [reflexivity|intros []].
  - destruct (split_at c s) as [[p' q']|]; [|discriminate E]. injection E as <- <-. destruct (IH p' q' eq_refl) as [-> N].
    split; [reflexivity|]. intros [X|X]; [congruence|contradiction].
Qed.

(* ---------- well formed addresses ---------- *)
(** What hsk_addr_t holds for an address of type 0: the 16 bytes of the IP, 20 bytes of 0,
    a port and a key. *)
Definition addr_ok (a : addr) : Prop :=
  a_type a = 0 /\ bytes_ok (a_key a) /\ length (a_key a) = 33%nat /\ 0 <= a_port a < 65536 /\
  exists ip, a_ip a = ip ++ zeros 20 /\ bytes_ok ip /\ length ip = 16%nat.
Definition with_port (a : addr) (p : Z) : addr := {| a_type := a_type a; a_ip := a_ip a; a_port := p; a_key := a_key a |}.
(** A Tor address: the IP begins with these six bytes. *)
Definition tor (a : addr) : Prop := exists r, a_ip a = [253; 135; 216; 126; 235; 67] ++ r.

Lemma starts_iff a p : starts a p = true <-> exists r, a_ip a = p ++ r.
Proof.
  unfold starts. rewrite beq_true_iff. split.
  - intros E. exists (skipn (length p) (a_ip a)). rewrite <- E at 1. symmetry. apply firstn_skipn.
  - intros [r ->]. rewrite firstn_app, Nat.sub_diag, firstn_all. cbn. apply app_nil_r.
Qed.
Lemma not_onion a : ~ tor a -> is_onion a = false.
Proof. intros N. destruct (is_onion a) eqn:E; [|reflexivity]. exfalso. apply N. apply (proj1 (starts_iff a tor_onion)) in E. exact E. Qed.
Lemma mapped_ip a : addr_ok a -> is_mapped a = true -> exists b c d e, bytes_ok [b; c; d; e] /\
  a_ip a = (zeros 10 ++ [255; 255] ++ [b; c; d; e]) ++ zeros 20.
Proof.
  intros (_ & _ & _ & _ & ip & E & B & L) M. apply starts_iff in M as [r R]. rewrite E in R.
  assert (X : ip = ip4_mapped ++ skipn 12 ip).
  { assert (Y : firstn 12 ip = ip4_mapped).
    { assert (Z1 : firstn 12 (ip ++ zeros 20) = firstn 12 (ip4_mapped ++ r)) by (rewrite R; reflexivity).
      rewrite firstn_app in Z1. replace (12 - length ip)%nat with 0%nat in Z1 by lia. rewrite firstn_O, app_nil_r in Z1.
      rewrite Z1. reflexivity. }
    rewrite <- Y. symmetry. apply firstn_skipn. }
  destruct (skipn 12 ip) as [|b [|c [|d [|e [|? s]]]]] eqn:S; try (exfalso; apply (f_equal (@length Z)) in X; rewrite L in X; cbn in X; lia).
  exists b, c, d, e. split.
  - rewrite X in B. apply bytes_ok_app in B as [_ B]. exact B.
  - rewrite E, X. reflexivity.
Qed.
Lemma ip_char_other c x : ip_char c -> x = 64 \/ x = 91 \/ x = 93 \/ x = 37 -> c <> x.
Proof.
  intros H X. assert (C : 48 <= c <= 58 \/ 97 <= c <= 102 \/ c = 46).
  { destruct H as [(d & D & ->)|[->| ->]]; try lia. unfold digit_char. destruct (Z.ltb_spec d 10); lia. }
  lia.
Qed.
Lemma ip_chars_not s x : Forall ip_char s -> x = 64 \/ x = 91 \/ x = 93 \/ x = 37 -> ~ In x s.
Proof. intros F X I. rewrite Forall_forall in F. exact (ip_char_other x x (F x I) X eq_refl). Qed.
Lemma dec_not s x : Forall dec_char s -> ~ dec_char x -> ~ In x s.
Proof. intros F N I. rewrite Forall_forall in F. exact (N (F x I)). Qed.

(* ---------- the text of the IP ---------- *)
(** The text, and that hsk_addr_from_string reads it *)
Definition ip_text (a : addr) (t : list Z) : Prop :=
  zlen t <= 39 /\ Forall ip_char t /\
  (if is_mapped a then cnt 58 t = 0 else 2 <= cnt 58 t) /\
  exists af4 ip,
    (if af4 : bool then pton4 t = Some ip else pton4 t = None /\ uv_pton6 t = Some ip) /\
    (forall k p, a_ip (set_ip {| a_type := 0; a_ip := zeros 36; a_port := p; a_key := k |} af4 ip) = a_ip a).
Lemma read_text a : addr_ok a -> ~ tor a -> exists t, ip_text a t /\
  (if is_mapped a then t = ntop4_text (get_ip a) /\ zlen t < 16 else t = ntop6_text (get_ip a)).
Proof.
  intros A N. destruct (is_mapped a) eqn:M.
  - destruct (mapped_ip a A M) as (b & c & d & e & B & E).
    assert (G : ntop4_text (get_ip a) = ntop4_text [b; c; d; e]).
    { unfold get_ip, is_ip6. rewrite M, E. reflexivity. }
    destruct (text4_chars b c d e B) as [F L]. exists (ntop4_text [b; c; d; e]). split; [|split; [auto|lia]].
    repeat split.
    + lia.
    + eapply Forall_impl; [|exact F]. intros x [D|D]; [apply dec_is_ip; exact D|right; right; exact D].
    + rewrite M. apply cnt_none. intros I. rewrite Forall_forall in F. specialize (F 58 I). unfold dec_char in F. lia.
    + exists true, [b; c; d; e]. split; [apply pton4_text; exact B|]. intros k p. rewrite E. reflexivity.
  - pose proof A as (_ & _ & _ & _ & ip & E & B & L).
    assert (G : ntop6_text (get_ip a) = ntop6_text ip).
    { unfold get_ip, is_ip6. rewrite M, (not_onion a N). cbn [negb andb]. rewrite E. unfold ntop6_text.
      rewrite firstn_app. replace (16 - length ip)%nat with 0%nat by lia. rewrite firstn_O, app_nil_r. reflexivity. }
    destruct (text6_shape ip B L) as (F & Lt & C). exists (ntop6_text ip). split; [|auto].
    repeat split; auto.
    + rewrite M. exact C.
    + exists false, ip. split.
      * split.
        -- apply (pton4_other _ _ _ _ _ 58); [|unfold dec_char; lia|lia].
           destruct (in_dec Z.eq_dec 58 (ntop6_text ip)) as [I|I]; [exact I|]. rewrite (cnt_none _ _ I) in C. lia.
        -- unfold uv_pton6. rewrite (split_none 37) by (apply (ip_chars_not _ 37 F); lia). apply pton6_text; auto.
      * intros k p. cbn [set_ip a_ip]. rewrite firstn_all2 by lia. rewrite E. reflexivity.
Qed.
Lemma host_reads P a t k at_ p ps port : addr_ok a -> ip_text a t ->
  match ps with Some s => port_loop 0 0 s = Some port | None => port = (if p =? 0 then (if at_ : bool then pt_brontide P else pt_plain P) else p) end ->
  host_addr P {| a_type := 0; a_ip := zeros 36; a_port := 0; a_key := k |} at_ p t ps =
  Some {| a_type := 0; a_ip := a_ip a; a_port := port; a_key := k |}.
Proof.
  intros A (L & F & C & af4 & ip & R & S) Hp. unfold host_addr. replace (46 <? zlen t) with false by lia.
  replace (match ps with Some s => port_loop 0 0 s | None => Some (if p =? 0 then if at_ then pt_brontide P else pt_plain P else p) end) with (Some port)
    by (destruct ps; congruence).
  destruct af4.
  - rewrite R, S. reflexivity.
  - destruct R as [-> ->]. rewrite S. reflexivity.
Qed.

(** The two forms: with the port behind, and the IP alone *)
Lemma split_host_port a t p : ip_text a t -> 0 <= p < 65536 ->
  split_host (if is_mapped a then t ++ [58] ++ show 10 p else [91] ++ t ++ [93; 58] ++ show 10 p) = Some (t, Some (show 10 p)).
Proof.
  intros (L & F & C & _) Hp. destruct (show_dec p ltac:(lia)) as [D _]. unfold split_host.
  pose proof (dec_not (show 10 p) 58 D ltac:(unfold dec_char; lia)) as N58.
  destruct (is_mapped a).
  - replace (match t ++ [58] ++ show 10 p with [] => false | c :: _ => c =? 91 end) with false.
    2:{ destruct t as [|c t]; [reflexivity|]. cbn [app]. apply Forall_inv in F. pose proof (ip_char_other c 91 F ltac:(lia)). lia. }
    cbn [app]. rewrite split_app.
    + rewrite split_none by exact N58. reflexivity.
    + intros I. assert (X : 0 < cnt 58 t).
      { clear - I. induction t as [|x t IH]; [destruct I|]. rewrite cnt_cons. destruct I as [->|I].
        - rewrite Z.eqb_refl. pose proof (cnt_nonneg 58 t). lia.
        - specialize (IH I). destruct (58 =? x); lia. }
      lia.
  - cbn [app]. change (91 =? 91) with true. cbv iota. cbn [skipn]. rewrite split_app by (apply (ip_chars_not _ 93 F); lia). reflexivity.
Qed.
Lemma split_host_plain a t : ip_text a t -> split_host t = Some (t, None).
Proof.
  intros (L & F & C & _). unfold split_host.
  replace (match t with [] => false | c :: _ => c =? 91 end) with false.
  2:{ destruct t as [|c t]; [reflexivity|]. apply Forall_inv in F. pose proof (ip_char_other c 91 F ltac:(lia)). lia. }
  pose proof (split_cnt 58 t) as S. destruct (split_at 58 t) as [[h q]|]; [|reflexivity].
  pose proof (split_cnt 58 q) as S'. destruct (split_at 58 q) as [[h' q']|]; [reflexivity|].
  destruct (is_mapped a); lia.
Qed.

(* ---------- the key ---------- *)
Lemma charset_not_at : ~ In 64 charset.
Proof. intros I. assert (X : existsb (Z.eqb 64) charset = true) by (apply existsb_exists; exists 64; split; [exact I|reflexivity]). vm_compute in X. discriminate X. Qed.
Lemma key_text k : bytes_ok k -> length k = 33%nat -> exists s, encode2 charset k false = Ok s /\ encode_size k false = 54 /\ zlen s = 53 /\
  decode2 Base32Model.table s false = (33, k) /\ ~ In 64 s.
Proof.
  intros B L. destruct alphabets_ok as [Al _].
  destruct (base32_encoding_exact charset Base32Model.table k false Al B) as (s & (ds & F & Ls & V) & E1 & E2).
  rewrite app_nil_r in E1, E2. assert (Lk : zlen k = 33) by (unfold zlen; lia).
  assert (L53 : zlen s = 53) by (rewrite Ls, Lk; reflexivity).
  destruct (base32_round_trip charset Base32Model.table k false Al B) as (s' & E1' & _ & D). rewrite E1 in E1'. apply Ok_inj in E1'. subst s'.
  exists s. repeat split; auto.
  - rewrite E2, L53. reflexivity.
  - rewrite D, Lk. reflexivity.
  - intros I. apply charset_not_at. clear - F I. induction F as [|c d s ds [_ Hc] F IH]; [destruct I|].
    destruct I as [->|I]; [apply nth_error_In in Hc; exact Hc|auto].
Qed.
Lemma no_key a : has_key a = false -> a_key a = zeros 33.
Proof. unfold has_key. intros H. apply beq_true_iff. destruct (beq (a_key a) (zeros 33)); [reflexivity|discriminate H]. Qed.

(** C63. Every address that is not a Tor address is written by hsk_addr_to_full into the
    128 bytes of HSK_MAX_HOST, and reads back: with a fallback port (fb <> 0) the text
    carries the port, without one the reader chooses it. *)
Theorem address_text_round_trip : forall P a fb p, addr_ok a -> ~ tor a -> 0 <= fb < 65536 ->
  let port := if fb =? 0 then (if p =? 0 then (if has_key a then pt_brontide P else pt_plain P) else p)
              else if a_port a =? 0 then fb else a_port a in
  exists t, to_full a 128 fb = Ok (Some t) /\ zlen t < 128 /\ from_string P t p = Ok (Some (with_port a port)).
Proof.
  intros P a fb p A N Hfb port. pose proof A as (T & Bk & Lk & Hp & _).
  destruct (read_text a A N) as (t & IT & Et). pose proof IT as (L & F & C & _).
  set (q := if a_port a =? 0 then fb else a_port a) in *.
  assert (Hq : 0 <= q < 65536) by (unfold q; destruct (a_port a =? 0); lia).
  destruct (show_dec q ltac:(lia)) as [Dq Lq].
  (* the text of hsk_addr_to_string *)
  set (h := if fb =? 0 then t else if is_mapped a then t ++ [58] ++ show 10 q else [91] ++ t ++ [93; 58] ++ show 10 q).
  assert (Lh : zlen h <= 48).
  { unfold h. destruct (fb =? 0); [lia|]. destruct (is_mapped a); rewrite ?zlen_app; [change (zlen [58]) with 1|change (zlen [91]) with 1; change (zlen [93; 58]) with 2]; lia. }
  assert (TS : to_string a 128 fb = Ok (Some h)).
  { unfold to_string. replace (if is_mapped a then ntop4_text (get_ip a) else ntop6_text (get_ip a)) with t
      by (destruct (is_mapped a); [destruct Et as [Et _]|]; exact Et).
    replace ((if is_mapped a then 16 else 46) <=? zlen t) with false by (destruct (is_mapped a); [destruct Et|]; lia).
    replace (128 <=? zlen t) with false by lia. fold q. unfold h.
    replace (128 - zlen t <? (if is_mapped a then 7 else 9)) with false by (destruct (is_mapped a); lia).
    destruct (fb =? 0); [reflexivity|]. destruct (is_mapped a).
    - rewrite !zlen_app. change (zlen [58]) with 1. replace (128 <=? zlen t + (1 + zlen (show 10 q))) with false by lia. reflexivity.
    - replace (128 <=? zlen t + 9) with false by lia. reflexivity. }
  assert (SH : split_host h = Some (t, if fb =? 0 then None else Some (show 10 q))).
  { unfold h. destruct (fb =? 0); [apply (split_host_plain a t IT)|apply split_host_port; auto]. }
  assert (NAt : ~ In 64 h).
  { pose proof (ip_chars_not t 64 F ltac:(lia)) as N1. pose proof (dec_not (show 10 q) 64 Dq ltac:(unfold dec_char; lia)) as N2.
    unfold h. destruct (fb =? 0); auto. destruct (is_mapped a); rewrite ?in_app_iff; cbn [In];
    intros I; repeat match goal with H : _ \/ _ |- _ => destruct H end; try contradiction; try discriminate. }
  unfold to_full. rewrite TS. cbn [obind]. unfold from_string, with_port. rewrite T.
  destruct (has_key a) eqn:K; cbn [negb].
  - destruct (key_text (a_key a) Bk Lk) as (s & E1 & E2 & Ls & D & Ns). rewrite E2, E1. cbn [obind].
    replace (128 - zlen h <? 54 + 1) with false by lia. change (54 <? 54) with false.
    replace (128 <=? zlen h + (54 - 1) + 1) with false by lia. cbn [orb].
    eexists. split; [reflexivity|]. split; [rewrite !zlen_app; change (zlen [64]) with 1; lia|].
    cbn [app]. rewrite (split_app 64 s h Ns), Ls. change (53 <? 53) with false. cbv iota.
    assert (DS : decode_size Base32Model.table s = 33) by (unfold decode_size; rewrite D; reflexivity).
    rewrite DS, D. change (negb (33 =? 33)) with false. cbv iota.
    replace (33 <? zlen (a_key a)) with false by (unfold zlen; lia). change (33 =? -1) with false. cbv iota.
    replace (33 - length (a_key a))%nat with 0%nat by lia. cbn [zeros repeat]. rewrite app_nil_r, SH.
    f_equal. apply (host_reads P a t _ true p _ port A IT).
    unfold port. destruct (fb =? 0); [reflexivity|]. apply port_show. exact Hq.
  - exists h. split; [reflexivity|]. split; [lia|]. rewrite (split_none 64 h NAt), SH.
    f_equal. rewrite (no_key a K). apply (host_reads P a t _ false p _ port A IT).
    unfold port. destruct (fb =? 0); [reflexivity|]. apply port_show. exact Hq.
Qed.

(** The text of a Tor address is the text of something else: bytes 12 to 27 of the field. *)
Definition an_onion : addr :=
  {| a_type := 0; a_ip := [253; 135; 216; 126; 235; 67; 1; 2; 3; 4; 5; 6; 7; 8; 9; 10] ++ zeros 20; a_port := 12038; a_key := zeros 33 |}.
Theorem onion_text_round_trip_refuted : exists a t b, addr_ok a /\ tor a /\
  to_full a 128 12038 = Ok (Some t) /\ from_string {| pt_plain := 12038; pt_brontide := 44806 |} t 0 = Ok (Some b) /\ b <> a.
Proof.
  exists an_onion. eexists. eexists. split; [|split; [exists ([1; 2; 3; 4; 5; 6; 7; 8; 9; 10] ++ zeros 20); reflexivity|]].
  - split; [reflexivity|]. split; [apply bytes_ok_check; vm_compute; reflexivity|]. split; [reflexivity|]. split; [cbn; lia|].
    exists [253; 135; 216; 126; 235; 67; 1; 2; 3; 4; 5; 6; 7; 8; 9; 10]. split; [reflexivity|]. split; [apply bytes_ok_check; vm_compute; reflexivity|reflexivity].
  - split; [vm_compute; reflexivity|]. split; [vm_compute; reflexivity|]. vm_compute. discriminate.
Qed.

(* ---------- what is read ---------- *)
(** C63. An IPv4 host is accepted exactly in the form in which it is written: four numbers
    from 0 to 255 in decimal, without leading zeros, between dots. *)
Lemma show_more cur d : 0 < cur -> 0 <= d < 10 -> cur * 10 + d <= 255 -> show 10 (cur * 10 + d) = show 10 cur ++ [digit_char d].
Proof.
  intros Hc Hd Hb. replace d with ((cur * 10 + d) mod 10) at 2 by lia. replace (show 10 cur) with (show 10 ((cur * 10 + d) / 10)) by (f_equal; lia).
  set (n := cur * 10 + d) in *. destruct (Z_lt_ge_dec n 100).
  - rewrite show2, (show1 10 (n / 10)) by lia. reflexivity.
  - rewrite show3, (show2 10 (n / 10)) by lia. reflexivity.
Qed.
Definition dotted (done : list Z) : list Z := flat_map (fun b => show 10 b ++ [46]) done.
Lemma pton4_inv s : forall done cur o saw ip pre, bytes_ok done -> is_byte cur -> zlen done + Z.b2z saw = o -> o <= 4 -> (saw = false -> o < 4 /\ cur = 0) ->
  pre = dotted done ++ (if saw then show 10 cur else []) ->
  pton4_loop done cur o saw s = Some ip -> exists d x, ip = d ++ [x] /\ bytes_ok d /\ is_byte x /\ zlen d = 3 /\ pre ++ s = dotted d ++ show 10 x.
Proof.
  induction s as [|c s IH]; intros done cur o saw ip pre B Bc Lo Ho Hs Hp E; cbn [pton4_loop] in E.
  - destruct (Z.ltb_spec o 4); [discriminate E|]. apply some_inj in E. destruct saw; [|specialize (Hs eq_refl); lia].
    exists done, cur. rewrite app_nil_r. repeat split; auto; try apply Bc. cbn [Z.b2z] in Lo. lia.
  - unfold is_byte in Bc. destruct ((48 <=? c) && (c <=? 57)) eqn:D.
    + assert (Hc : c = digit_char (c - 48)) by (rewrite digit_dec; lia).
      destruct (saw && (cur =? 0)) eqn:Z0; [discriminate E|]. destruct (Z.ltb_spec 255 (cur * 10 + (c - 48))); [discriminate E|].
      replace (pre ++ c :: s) with ((pre ++ [c]) ++ s) by (rewrite <- app_assoc; reflexivity).
      destruct saw; cbn [negb] in E.
      * eapply IH; [exact B| |exact Lo|exact Ho| |  |exact E]; [unfold is_byte; lia|discriminate|].
        subst pre. rewrite <- app_assoc. f_equal. rewrite show_more by (cbn [andb] in Z0; lia). rewrite <- Hc. reflexivity.
      * destruct (Z.ltb_spec 4 (o + 1)); [discriminate E|]. destruct (Hs eq_refl) as [Ho' ->].
        eapply IH; [exact B| | | | |  |exact E]; [unfold is_byte; lia|cbn [Z.b2z] in *; lia|lia|discriminate|].
        subst pre. rewrite app_nil_r. f_equal. change (0 * 10) with 0. rewrite Z.add_0_l, show1 by lia. rewrite <- Hc. reflexivity.
    + destruct ((c =? 46) && saw) eqn:P; [|discriminate E]. destruct (Z.eqb_spec o 4); [discriminate E|].
      apply Bool.andb_true_iff in P as [P ->]. apply Z.eqb_eq in P. subst c.
      replace (pre ++ 46 :: s) with ((pre ++ [46]) ++ s) by (rewrite <- app_assoc; reflexivity).
      eapply IH; [ | | | | | |exact E].
      * apply bytes_ok_app. split; [exact B|]. constructor; [exact Bc|constructor].
      * unfold is_byte. lia.
      * rewrite zlen_app. change (zlen [cur]) with 1. cbn [Z.b2z] in *. lia.
      * lia.
      * intros _. split; [lia|reflexivity].
      * subst pre. unfold dotted. rewrite flat_map_app. cbn [flat_map]. rewrite !app_nil_r, <- app_assoc. reflexivity.
Qed.
Theorem ip4_accepted_exactly : forall s ip,
  pton4 s = Some ip <-> exists a b c d, ip = [a; b; c; d] /\ bytes_ok ip /\ s = show 10 a ++ [46] ++ show 10 b ++ [46] ++ show 10 c ++ [46] ++ show 10 d.
Proof.
  intros s ip. split.
  - intros E. destruct (pton4_inv s [] 0 0 false ip [] ltac:(constructor) ltac:(unfold is_byte; lia) eq_refl ltac:(lia) ltac:(split; [lia|reflexivity]) eq_refl E)
      as (d & x & -> & Bd & Bx & Ld & Et).
    destruct d as [|a [|b [|c [|? d]]]]; try (exfalso; unfold zlen in Ld; cbn in Ld; lia).
    exists a, b, c, x. split; [reflexivity|]. split; [apply bytes_ok_app; split; [exact Bd|constructor; [exact Bx|constructor]]|].
    cbn [app] in Et. rewrite Et. unfold dotted. cbn [flat_map]. rewrite <- !app_assoc. cbn [app]. rewrite ?app_nil_r. repeat (rewrite <- ?app_assoc; cbn [app]). reflexivity.
  - intros (a & b & c & d & -> & B & ->). exact (pton4_text a b c d B).
Qed.

(** C63. Whatever the string: no overflow, no failed assertion; what is accepted is well
    formed and its text is again accepted as the same address. *)
Lemma pton6_end_ok out c seen val ip : bytes_ok out -> zlen out <= 16 -> 0 <= val -> (match c with Some k => 0 <= k <= zlen out | None => True end) ->
  pton6_end out c seen val = Some ip -> bytes_ok ip /\ length ip = 16%nat.
Proof.
  intros B L V C E. unfold pton6_end in E.
  assert (W : bytes_ok (word_bytes val)) by (repeat (apply Forall_cons; [unfold is_byte; lia|]); apply Forall_nil).
  assert (R : forall out, bytes_ok out -> zlen out <= 16 -> (match c with Some k => 0 <= k <= zlen out | None => True end) ->
    match c with
    | Some c => if zlen out =? 16 then None else Some (firstn (Z.to_nat c) out ++ zeros (16 - length out) ++ skipn (Z.to_nat c) out)
    | None => if zlen out =? 16 then Some out else None
    end = Some ip -> bytes_ok ip /\ length ip = 16%nat).
  { clear. intros out' B L C E. destruct c as [k|].
    - destruct (Z.eqb_spec (zlen out') 16); [discriminate E|]. apply some_inj in E. subst ip. split.
      + rewrite <- (firstn_skipn (Z.to_nat k) out') in B. apply bytes_ok_app in B as [B1 B2].
        apply bytes_ok_app. split; [exact B1|]. apply bytes_ok_app. split; [|exact B2].
        unfold zeros. apply Forall_forall. intros x X. apply repeat_spec in X. subst x. unfold is_byte. lia.
      + rewrite !app_length, firstn_length, skipn_length. unfold zeros. rewrite repeat_length. unfold zlen in *. lia.
    - destruct (Z.eqb_spec (zlen out') 16) as [E16|]; [|discriminate E]. apply some_inj in E. subst ip. split; [exact B|unfold zlen in E16; lia]. }
  destruct (0 <? seen).
  - destruct (Z.ltb_spec 16 (zlen out + 2)); [discriminate E|]. apply (R (out ++ word_bytes val)); auto.
    + apply bytes_ok_app. split; auto.
    + rewrite zlen_app. change (zlen (word_bytes val)) with 2. lia.
    + destruct c; auto. rewrite zlen_app. change (zlen (word_bytes val)) with 2. lia.
  - apply (R out); auto.
Qed.
Lemma xdigit_range c d : xdigit c = Some d -> 0 <= d < 16.
Proof.
  unfold xdigit. destruct (Z.leb_spec 48 c), (Z.leb_spec c 57); cbn [andb]; try (intros E; apply some_inj in E; lia);
  (destruct (Z.leb_spec 97 c), (Z.leb_spec c 102); cbn [andb]; try (intros E; apply some_inj in E; lia));
  (destruct (Z.leb_spec 65 c), (Z.leb_spec c 70); cbn [andb]; try (intros E; apply some_inj in E; lia)); discriminate.
Qed.
Lemma pton6_loop_ok s : forall out c seen val tok ip, bytes_ok out -> zlen out <= 16 -> 0 <= val ->
  (match c with Some k => 0 <= k <= zlen out | None => True end) ->
  pton6_loop out c seen val tok s = Some ip -> bytes_ok ip /\ length ip = 16%nat.
Proof.
  induction s as [|ch s IH]; intros out c seen val tok ip B L V C E; cbn [pton6_loop] in E.
  - eapply pton6_end_ok; eauto.
  - destruct (xdigit ch) as [d|] eqn:X.
    + apply xdigit_range in X. destruct (4 <? seen + 1); [discriminate E|]. eapply IH; [exact B|exact L| |exact C|exact E]. lia.
    + destruct (ch =? 58).
      * destruct (seen =? 0).
        -- destruct c; [discriminate E|]. eapply IH; [exact B|exact L|exact V| |exact E]. cbv beta iota. unfold zlen. lia.
        -- destruct s as [|x s]; [discriminate E|]. destruct (Z.ltb_spec 16 (zlen out + 2)); [discriminate E|].
           eapply IH; [| | | |exact E].
           ++ apply bytes_ok_app. split; [exact B|]. repeat (apply Forall_cons; [unfold is_byte; lia|]); apply Forall_nil.
           ++ rewrite zlen_app. change (zlen (word_bytes val)) with 2. lia.
           ++ lia.
           ++ destruct c; auto. rewrite zlen_app. change (zlen (word_bytes val)) with 2. lia.
      * destruct (Z.leb_spec (zlen out + 4) 16); [|rewrite Bool.andb_false_r in E; discriminate E].
        destruct (ch =? 46); [|discriminate E]. cbn [andb] in E. destruct (pton4 tok) as [q|] eqn:Q; [|discriminate E].
        apply ip4_accepted_exactly in Q as (a & b & c' & d & -> & Bq & _). eapply pton6_end_ok; [| | | |exact E].
        -- apply bytes_ok_app. split; auto.
        -- rewrite zlen_app. change (zlen [a; b; c'; d]) with 4. lia.
        -- exact V.
        -- destruct c; auto. rewrite zlen_app. change (zlen [a; b; c'; d]) with 4. lia.
Qed.
Lemma uv_pton6_ok s ip : uv_pton6 s = Some ip -> bytes_ok ip /\ length ip = 16%nat.
Proof.
  assert (P : forall s, pton6 s = Some ip -> bytes_ok ip /\ length ip = 16%nat).
  { clear s. intros s E. assert (G : forall t, pton6_loop [] None 0 0 t t = Some ip -> bytes_ok ip /\ length ip = 16%nat).
    { intros t. apply pton6_loop_ok; [constructor|vm_compute; discriminate|lia|exact I]. }
    destruct s as [|c s]; cbn [pton6] in E; [exact (G [] E)|]. destruct (c =? 58); [|exact (G _ E)].
    destruct s as [|d s]; [discriminate E|]. destruct (d =? 58); [exact (G _ E)|discriminate E]. }
  unfold uv_pton6. destruct (split_at 37 s) as [[p q]|]; [|apply P]. destruct (45 <? zlen p); [discriminate|apply P].
Qed.
Lemma port_loop_range s : forall i w p, port_loop i w s = Some p -> 0 <= p < 65536.
Proof.
  induction s as [|c s IH]; intros i w p E; cbn [port_loop] in E.
  - apply some_inj in E. subst p. lia.
  - destruct ((c - 48 <? 0) || (9 <? c - 48)); [discriminate E|]. destruct (i =? 5); [discriminate E|]. eapply IH; eauto.
Qed.
Definition ports_ok (P : ports) : Prop := 0 < pt_plain P < 65536 /\ 0 < pt_brontide P < 65536.
Theorem reading_an_address_is_safe : forall P s p, ports_ok P -> bytes_ok s -> 0 <= p < 65536 ->
  exists r, from_string P s p = Ok r /\ forall a, r = Some a -> addr_ok a.
Proof.
  intros P s p HP B Hp.
  assert (Bz : forall n, bytes_ok (zeros n)).
  { intros n. unfold zeros. apply Forall_forall. intros x X. apply repeat_spec in X. subst x. unfold is_byte. lia. }
  assert (Host : forall k at_ t, bytes_ok k -> length k = 33%nat ->
    exists r, match split_host t with None => Ok None | Some (h, ps) => Ok (host_addr P {| a_type := 0; a_ip := zeros 36; a_port := 0; a_key := k |} at_ p h ps) end = Ok r /\
      forall a, r = Some a -> addr_ok a).
  { intros k at_ t Bk Lk. destruct (split_host t) as [[h ps]|]; [|exists None; split; [reflexivity|discriminate]].
    eexists. split; [reflexivity|]. intros a E. unfold host_addr in E. destruct (46 <? zlen h); [discriminate E|].
    destruct (match ps with Some s => port_loop 0 0 s | None => Some (if p =? 0 then if at_ then pt_brontide P else pt_plain P else p) end) as [q|] eqn:Q; [|discriminate E].
    assert (Hq : 0 <= q < 65536).
    { destruct ps as [ps|]; [exact (port_loop_range _ _ _ _ Q)|]. apply some_inj in Q. subst q. destruct HP. destruct (p =? 0); [destruct at_; lia|lia]. }
    destruct (pton4 h) as [ip|] eqn:E4.
    - apply some_inj in E. subst a. apply ip4_accepted_exactly in E4 as (a & b & c & d & -> & Bi & _). repeat split; auto; cbn; try lia.
      exists (zeros 10 ++ [255; 255] ++ [a; b; c; d]). split; [reflexivity|]. split; [|reflexivity].
      apply bytes_ok_app. split; [apply Bz|]. apply bytes_ok_app. split; [|exact Bi]. apply bytes_ok_check. reflexivity.
    - destruct (uv_pton6 h) as [ip|] eqn:E6; [|discriminate E]. apply uv_pton6_ok in E6 as [Bi Li]. apply some_inj in E. subst a.
      repeat split; auto; cbn [a_port a_ip set_ip]; try lia. exists ip. split; [|auto]. rewrite firstn_all2 by lia. reflexivity. }
  unfold from_string. destruct (split_at 64 s) as [[pub rest]|] eqn:Sp; [|apply Host; [apply Bz|reflexivity]].
  destruct (53 <? zlen pub); [exists None; split; [reflexivity|discriminate]|].
  destruct (decode_size Base32Model.table pub =? 33) eqn:D33; cbn [negb]; [|exists None; split; [reflexivity|discriminate]].
  apply split_inv in Sp as [-> _]. apply bytes_ok_app in B as [Bp _].
  destruct alphabets_ok as [Al _]. destruct (base32_decoding_within_size charset Base32Model.table pub false Al Bp) as (_ & Dl & Db).
  destruct (decode2 Base32Model.table pub false) as [rc key]. cbn [snd] in *.
  apply Z.eqb_eq in D33. replace (33 <? zlen key) with false by lia. destruct (rc =? -1); [exists None; split; [reflexivity|discriminate]|].
  apply Host.
  - apply bytes_ok_app. split; [exact Db|apply Bz].
  - rewrite app_length. unfold zeros. rewrite repeat_length. unfold zlen in Dl. lia.
Qed.

(** C63. Writing is safe for whatever bytes an address holds, Tor addresses and other types
    included, and for every size of the buffer; the result fits the buffer. *)
Definition addr_wf (a : addr) : Prop :=
  bytes_ok (a_ip a) /\ length (a_ip a) = 36%nat /\ 0 <= a_port a < 65536 /\ bytes_ok (a_key a) /\ length (a_key a) = 33%nat.
Lemma ntop6_first ip : ntop6_text ip = ntop6_text (firstn 16 ip).
Proof. unfold ntop6_text. rewrite firstn_firstn. reflexivity. Qed.
Lemma host_text_safe a len fb : addr_wf a -> 0 <= fb < 65536 ->
  exists o, to_string a len fb = Ok o /\ forall t, o = Some t -> zlen t < len /\ zlen t <= 48.
Proof.
  intros (B & L & Hp & _) Hfb. unfold to_string.
  set (text := if is_mapped a then ntop4_text (get_ip a) else ntop6_text (get_ip a)).
  assert (Bd : (if is_mapped a then 16 else 46) > zlen text /\ zlen text <= 39).
  { unfold text. unfold get_ip, is_ip6. destruct (is_mapped a); cbn [negb andb].
    - destruct (a_ip a) as [|x ip]; [discriminate L|]. do 15 (destruct ip as [|? ip]; [discriminate L|]).
      do 12 (apply bytes_ok_cons in B as [_ B]). cbn [skipn].
      match goal with |- context [ntop4_text (?p :: ?q :: ?r :: ?s :: _)] => change (ntop4_text (p :: q :: r :: s :: ip)) with (ntop4_text [p; q; r; s]);
        assert (B4 : bytes_ok [p; q; r; s]) end.
      { apply bytes_ok_cons in B as [B1 B]. apply bytes_ok_cons in B as [B2 B]. apply bytes_ok_cons in B as [B3 B]. apply bytes_ok_cons in B as [B4 _]. apply bytes4; assumption. }
      destruct (text4_chars _ _ _ _ B4) as [_ X]. lia.
    - assert (G : forall ip, bytes_ok ip -> (16 <= length ip)%nat -> zlen (ntop6_text ip) <= 39).
      { intros ip Bi Li. rewrite ntop6_first.
        assert (Bf : bytes_ok (firstn 16 ip)) by (rewrite <- (firstn_skipn 16 ip) in Bi; apply bytes_ok_app in Bi as [Bi _]; exact Bi).
        assert (Lf : length (firstn 16 ip) = 16%nat) by (rewrite firstn_length; lia). exact (proj1 (proj2 (text6_shape _ Bf Lf))). }
      destruct (negb (is_onion a)).
      + pose proof (G (a_ip a) B ltac:(lia)). lia.
      + assert (Bs : bytes_ok (skipn 12 (a_ip a))) by (rewrite <- (firstn_skipn 12 (a_ip a)) in B; apply bytes_ok_app in B as [_ B]; exact B).
        pose proof (G (skipn 12 (a_ip a)) Bs ltac:(rewrite skipn_length; lia)). lia. }
  destruct Bd as [Bd1 Bd2]. replace ((if is_mapped a then 16 else 46) <=? zlen text) with false by lia.
  destruct (Z.leb_spec len (zlen text)); [eexists; split; [reflexivity|discriminate]|].
  destruct (Z.eqb_spec fb 0). { eexists. split; [reflexivity|]. intros t E. apply some_inj in E. subst t. lia. }
  destruct (Z.ltb_spec (len - zlen text) (if is_mapped a then 7 else 9)); [eexists; split; [reflexivity|discriminate]|].
  set (q := if a_port a =? 0 then fb else a_port a).
  assert (Hq : 0 <= q < 65536) by (unfold q; destruct (a_port a =? 0); lia). destruct (show_dec q ltac:(lia)) as [_ Lq].
  destruct (is_mapped a).
  - rewrite !zlen_app. change (zlen [58]) with 1. replace (128 <=? zlen text + (1 + zlen (show 10 q))) with false by lia.
    eexists. split; [reflexivity|]. intros t E. apply some_inj in E. subst t. rewrite !zlen_app. change (zlen [58]) with 1. lia.
  - replace (128 <=? zlen text + 9) with false by lia. eexists. split; [reflexivity|]. intros t E. apply some_inj in E. subst t.
    rewrite !zlen_app. change (zlen [91]) with 1. change (zlen [93; 58]) with 2. lia.
Qed.
Theorem writing_an_address_is_safe : forall a len fb, addr_wf a -> 0 <= fb < 65536 ->
  (exists o, to_string a len fb = Ok o /\ forall t, o = Some t -> zlen t < len) /\
  (exists o, to_full a len fb = Ok o /\ forall t, o = Some t -> zlen t < len).
Proof.
  intros a len fb W Hfb. destruct (host_text_safe a len fb W Hfb) as (o & E & F). pose proof W as (_ & _ & _ & Bk & Lk). split.
  - exists o. split; [exact E|]. intros t Ht. apply F. exact Ht.
  - unfold to_full. rewrite E. cbn [obind]. destruct o as [dst|]; [|exists None; split; [reflexivity|discriminate]].
    destruct (F dst eq_refl) as [F1 F2]. destruct (has_key a); cbn [negb].
    2:{ eexists. split; [reflexivity|]. intros t Et. apply some_inj in Et. subst t. exact F1. }
    destruct (key_text (a_key a) Bk Lk) as (s & E1 & E2 & Ls & _ & _). rewrite E2, E1. cbn [obind].
    destruct (Z.ltb_spec (len - zlen dst) (54 + 1)); [exists None; split; [reflexivity|discriminate]|].
    change (54 <? 54) with false. replace (128 <=? zlen dst + (54 - 1) + 1) with false by lia. cbn [orb].
    eexists. split; [reflexivity|]. intros t Et. apply some_inj in Et. subst t. rewrite !zlen_app. change (zlen [64]) with 1. lia.
Qed.

(* ---------- classes of addresses ---------- *)
(** A block of addresses as usual: the first [len] bits are those of [net], that is the
    first [len / 8] bytes and the upper bits of the next. *)
Definition in_block (ip net : list Z) (len : Z) : Prop :=
  let n := Z.to_nat (len / 8) in
  firstn n ip = firstn n net /\ nth n ip 0 / 2 ^ (8 - len mod 8) = nth n net 0 / 2 ^ (8 - len mod 8).
Definition v4 (a b c d : Z) : list Z := zeros 10 ++ [255; 255; a; b; c; d].
(** The blocks that are not dialled: for IPv4 the unspecified and the broadcast address,
    RFC 1918, RFC 2544, RFC 3927, RFC 6598, RFC 5737 and 127.0.0.0/16; for IPv6 the
    unspecified and the loopback address, RFC 3849, RFC 4862, RFC 4843 and the garbled
    addresses of old clients. *)
Definition blocks4 : list (list Z * Z) := [
  (v4 0 0 0 0, 128); (v4 255 255 255 255, 128); (v4 10 0 0 0, 104); (v4 192 168 0 0, 112); (v4 172 16 0 0, 108);
  (v4 198 18 0 0, 111); (v4 169 254 0 0, 112); (v4 100 64 0 0, 106); (v4 192 0 2 0, 120); (v4 198 51 100 0, 120);
  (v4 203 0 113 0, 120); (v4 127 0 0 0, 112)].
Definition blocks6 : list (list Z * Z) := [
  (zeros 16, 128); (zeros 15 ++ [1], 128); ([32; 1; 13; 184] ++ zeros 12, 32); ([254; 128] ++ zeros 14, 64);
  ([32; 1; 0; 16] ++ zeros 12, 28); (zeros 7 ++ [255; 255] ++ zeros 7, 72)].
(** RFC 4193: fc00::/7 *)
Definition unique_local : list Z * Z := ([252] ++ zeros 15, 7).

Definition blockb (ip : list Z) (b : list Z * Z) : bool :=
  let n := Z.to_nat (snd b / 8) in
  beq (firstn n ip) (firstn n (fst b)) && (nth n ip 0 / 2 ^ (8 - snd b mod 8) =? nth n (fst b) 0 / 2 ^ (8 - snd b mod 8)).
Lemma blockb_iff ip b : blockb ip b = true <-> in_block ip (fst b) (snd b).
Proof. unfold blockb, in_block. cbv zeta. rewrite Bool.andb_true_iff, beq_true_iff, Z.eqb_eq. reflexivity. Qed.
Lemma outside_iff ip l : existsb (blockb ip) l = false <-> forall b, In b l -> ~ in_block ip (fst b) (snd b).
Proof.
  split.
  - intros E b I X. apply blockb_iff in X. assert (Y : existsb (blockb ip) l = true) by (apply existsb_exists; eauto). congruence.
  - intros H. destruct (existsb (blockb ip) l) eqn:E; [|reflexivity]. apply existsb_exists in E as (b & I & X). apply blockb_iff in X.
    exfalso. exact (H b I X).
Qed.
Lemma land_fe b : is_byte b -> (Z.land b 254 =? 252) = (b / 2 =? 126).
Proof. intros H. apply Bool.eqb_prop. revert b H. apply (byte_all (fun c => Bool.eqb (Z.land c 254 =? 252) (c / 2 =? 126))). vm_compute. reflexivity. Qed.
Lemma land_f0 b : is_byte b -> (Z.land b 240 =? 16) = (b / 16 =? 1).
Proof. intros H. apply Bool.eqb_prop. revert b H. apply (byte_all (fun c => Bool.eqb (Z.land c 240 =? 16) (c / 16 =? 1))). vm_compute. reflexivity. Qed.

Ltac bits :=
  repeat match goal with
  | |- context [2 ^ (8 - ?x mod 8)] => let v := eval vm_compute in (2 ^ (8 - x mod 8)) in change (2 ^ (8 - x mod 8)) with v
  | |- context [Z.to_nat (?x / 8)] => let v := eval vm_compute in (Z.to_nat (x / 8)) in change (Z.to_nat (x / 8)) with v
  end.
(** IPv4 *)
Lemma routable4 t port k a b c d : is_byte a -> is_byte b -> is_byte c -> is_byte d ->
  is_routable {| a_type := t; a_ip := v4 a b c d ++ zeros 20; a_port := port; a_key := k |} =
  (t =? 0) && negb (existsb (blockb (v4 a b c d)) blocks4).
Proof.
  intros A B C D. unfold is_byte in *.
  unfold is_routable, is_valid. cbn [a_type]. destruct (t =? 0); [|reflexivity]. cbn [negb andb].
  set (x := {| a_type := t; a_ip := v4 a b c d ++ zeros 20; a_port := port; a_key := k |}).
  assert (M : is_ip4 x = true) by reflexivity.
  assert (S : starts x shifted = false) by reflexivity.
  assert (R1 : is_rfc3849 x = false) by reflexivity.
  assert (R2 : is_rfc4862 x = false) by reflexivity.
  assert (R3 : is_rfc4193 x = false) by reflexivity.
  assert (R4 : is_rfc4843 x = false) by reflexivity.
  unfold is_null, is_broadcast, is_rfc1918, is_rfc2544, is_rfc3927, is_rfc6598, is_rfc5737, is_local.
  rewrite M, S, R1, R2, R3, R4.
  change (ipb x 12) with a. change (ipb x 13) with b. change (ipb x 14) with c. change (ipb x 15) with d.
  cbn [andb negb]. clearbody x. clear M S R1 R2 R3 R4 x.
  unfold blocks4, existsb, blockb. cbn [fst snd]. bits. unfold v4, zeros. cbn [repeat app firstn nth beq].
  change (0 =? 0) with true. change (255 =? 255) with true. cbn [andb].
  replace ((16 <=? b) && (b <=? 31)) with (b / 16 =? 16 / 16) by lia. replace ((64 <=? b) && (b <=? 127)) with (b / 64 =? 64 / 64) by lia.
  replace ((b =? 18) || (b =? 19)) with (b / 2 =? 18 / 2) by lia.
  replace (b / 256 =? 0 / 256) with true by lia. replace (c / 256 =? 0 / 256) with true by lia. replace (d / 256 =? 0 / 256) with true by lia.
  change (0 / 256 =? 0 / 256) with true.
  rewrite ?Bool.andb_true_r, ?Bool.orb_false_r, ?Bool.andb_assoc.
  repeat match goal with |- _ = negb (?p || _) => destruct p; cbn [orb negb]; [reflexivity|] end.
  destruct ((a =? 127) && (b =? 0)); reflexivity.
Qed.
(** IPv6 *)
Lemma routable6 t port k ip : bytes_ok ip -> length ip = 16%nat ->
  let a := {| a_type := t; a_ip := ip ++ zeros 20; a_port := port; a_key := k |} in
  is_mapped a = false ->
  is_routable a = (t =? 0) && negb (existsb (blockb ip) blocks6) && negb (blockb ip unique_local && negb (is_onion a)).
Proof.
  intros B L a M. unfold is_routable, is_valid. change (a_type a) with t. destruct (t =? 0); [|reflexivity]. cbn [negb andb].
  unfold is_null, is_broadcast, is_rfc1918, is_rfc2544, is_rfc3927, is_rfc6598, is_rfc5737, is_local, is_ip4. rewrite M. cbn [andb].
  clear M. assert (O : is_onion a = is_onion a) by reflexivity. revert O. generalize (is_onion a) at 1 3 4. intros o _. subst a.
  do 16 (destruct ip as [|? ip]; [discriminate L|]). destruct ip; [|discriminate L]. clear L.
  do 16 (apply bytes_ok_cons in B as [? B]). clear B.
  unfold is_rfc3849, is_rfc4862, is_rfc4193, is_rfc4843, starts, ipb, shifted, rfc4862, local_ip. cbn [a_ip app nth]. rewrite land_fe, land_f0 by assumption.
  unfold blocks6, unique_local, existsb, blockb. cbn [fst snd]. bits. unfold zeros. cbn [repeat app firstn nth beq length].
  unfold is_byte in *.
  repeat match goal with |- context [?x / 256 =? ?y / 256] => replace (x / 256 =? y / 256) with true by lia end.
  rewrite ?Bool.andb_true_r, ?Bool.orb_false_r, ?Bool.andb_assoc.
  change (16 / 16) with 1. change (252 / 2) with 126. cbn [andb].
  match goal with |- _ = negb (_ || (_ || (_ || (_ || (_ || ?p))))) && _ => generalize p; intros ? end.
  match goal with |- _ = negb (_ || (_ || (_ || (_ || (?q || ?p))))) && _ => generalize q; intros ? end.
  match goal with |- _ = negb (_ || (_ || (_ || (?r || _)))) && _ => generalize r; intros ? end.
  match goal with |- _ = negb (_ || (_ || (?r || _))) && _ => generalize r; intros ? end.
  match goal with |- _ = negb (_ || (?r || _)) && _ => generalize r; intros ? end.
  match goal with |- _ = negb (?r || _) && _ => generalize r; intros ? end.
  generalize (z / 2 =? 126); intros ?.
  repeat match goal with x : bool |- _ => destruct x end; reflexivity.
Qed.
Lemma not_v4 ip a b c d len : 96 <= len -> beq (firstn 12 ip) ip4_mapped = false -> blockb ip (v4 a b c d, len) = false.
Proof.
  intros L M. destruct (blockb ip (v4 a b c d, len)) eqn:E; [|reflexivity]. apply blockb_iff in E as [E _]. cbn [fst snd] in E.
  assert (X : firstn 12 ip = ip4_mapped); [|rewrite X in M; discriminate M].
  set (n := Z.to_nat (len / 8)) in *. assert (N : (12 <= n)%nat) by (unfold n; lia).
  replace (firstn 12 ip) with (firstn 12 (firstn n ip)) by (rewrite firstn_firstn; f_equal; lia).
  rewrite E, firstn_firstn. replace (Nat.min 12 n) with 12%nat by lia. reflexivity.
Qed.

(** C64. An address is routable exactly if it lies in none of the blocks, and in RFC 4193's
    only if it is a Tor address. *)
Theorem routable_exactly : forall a ip, addr_ok a -> a_ip a = ip ++ zeros 20 -> length ip = 16%nat ->
  (is_routable a = true <->
   (forall b, In b (blocks4 ++ blocks6) -> ~ in_block ip (fst b) (snd b)) /\
   (in_block ip (fst unique_local) (snd unique_local) -> tor a)).
Proof.
  intros a ip A E L. pose proof A as (T & _ & _ & _ & ip' & E' & B & L').
  assert (ip' = ip). { rewrite E' in E. apply app_inj_len in E as [E _]; [exact E|unfold zlen; lia]. } subst ip'. clear E' L'.
  assert (Tor : is_onion a = true <-> tor a) by (apply starts_iff).
  assert (M12 : is_mapped a = beq (firstn 12 ip) ip4_mapped).
  { unfold is_mapped, starts. rewrite E. change (length ip4_mapped) with 12%nat. rewrite firstn_app.
    replace (12 - length ip)%nat with 0%nat by lia. rewrite firstn_O, app_nil_r. reflexivity. }
  assert (R : is_routable a = negb (existsb (blockb ip) (blocks4 ++ blocks6)) && negb (blockb ip unique_local && negb (is_onion a))).
  { rewrite existsb_app, Bool.negb_orb. destruct (is_mapped a) eqn:M.
    - destruct (mapped_ip a A M) as (b & c & d & e & Bb & Em). rewrite Em in E. apply app_inj_len in E as [E _]; [|unfold zlen; rewrite L; reflexivity].
      destruct a as [t i p k]. cbn [a_ip a_type] in *. subst i t ip.
      apply bytes_ok_cons in Bb as [X1 Bb]. apply bytes_ok_cons in Bb as [X2 Bb]. apply bytes_ok_cons in Bb as [X3 Bb]. apply bytes_ok_cons in Bb as [X4 _].
      pose proof (routable4 0 p k b c d e X1 X2 X3 X4) as R. change (zeros 10 ++ [255; 255] ++ [b; c; d; e]) with (v4 b c d e). rewrite R.
      change (0 =? 0) with true. cbn [andb].
      assert (N6 : existsb (blockb (v4 b c d e)) blocks6 = false) by reflexivity.
      assert (Nu : blockb (v4 b c d e) unique_local = false) by reflexivity.
      rewrite N6, Nu. cbn [negb andb]. rewrite !Bool.andb_true_r. reflexivity.
    - destruct a as [t i p k]. cbn [a_ip a_type] in *. subst i t.
      rewrite (routable6 0 p k ip B L M). change (0 =? 0) with true. cbn [andb].
      assert (N4 : existsb (blockb ip) blocks4 = false).
      { symmetry in M12. unfold blocks4, existsb. rewrite !(fun a b c d => not_v4 ip a b c d 128 ltac:(lia) M12), !(fun a b c d => not_v4 ip a b c d 104 ltac:(lia) M12),
          !(fun a b c d => not_v4 ip a b c d 112 ltac:(lia) M12), !(fun a b c d => not_v4 ip a b c d 108 ltac:(lia) M12), !(fun a b c d => not_v4 ip a b c d 111 ltac:(lia) M12),
          !(fun a b c d => not_v4 ip a b c d 106 ltac:(lia) M12), !(fun a b c d => not_v4 ip a b c d 120 ltac:(lia) M12). reflexivity. }
      rewrite N4. cbn [negb andb]. reflexivity. }
  rewrite R, Bool.andb_true_iff, !Bool.negb_true_iff, outside_iff. split; intros [H1 H2]; (split; [exact H1|]).
  - intros U. apply (proj2 (blockb_iff ip unique_local)) in U. rewrite U in H2. apply Tor. destruct (is_onion a); [reflexivity|discriminate H2].
  - destruct (blockb ip unique_local) eqn:U; [|reflexivity]. apply blockb_iff in U. rewrite (proj2 Tor (H2 U)). reflexivity.
Qed.
(** Most of the loopback block 127.0.0.0/8 counts as routable. *)
Theorem loopback_not_routable_refuted : exists a, addr_ok a /\ in_block (firstn 16 (a_ip a)) (v4 127 0 0 0) 104 /\ is_routable a = true.
Proof.
  exists {| a_type := 0; a_ip := v4 127 1 0 1 ++ zeros 20; a_port := 12038; a_key := zeros 33 |}. split; [|split; [split; reflexivity|reflexivity]].
  split; [reflexivity|]. split; [apply bytes_ok_check; reflexivity|]. split; [reflexivity|]. split; [cbn; lia|].
  exists (v4 127 1 0 1). split; [reflexivity|]. split; [apply bytes_ok_check; reflexivity|reflexivity].
Qed.

(* ---------- equality ---------- *)
(** C64. Two addresses count as the same exactly if type, IP and port agree; the same
    addresses have the same hash, so they may be keys of a hash table. *)
Theorem same_address_exactly : forall x y, addr_equal x y = true <-> a_type x = a_type y /\ a_ip x = a_ip y /\ a_port x = a_port y.
Proof. intros x y. unfold addr_equal. rewrite !Bool.andb_true_iff, !Z.eqb_eq, beq_true_iff. tauto. Qed.
Theorem same_address_same_hash : forall x y, addr_equal x y = true -> addr_hash x = addr_hash y.
Proof. intros x y E. apply same_address_exactly in E as (E1 & E2 & E3). unfold addr_hash. congruence. Qed.

(* ---------- examples ---------- *)
Definition net : ports := {| pt_plain := 12038; pt_brontide := 44806 |}.
Definition a_key33 : list Z := [2] ++ map Z.of_nat (seq 1 32).
Definition ex_addr : addr := {| a_type := 0; a_ip := [32; 1; 13; 185; 0; 0; 0; 0; 0; 0; 0; 1; 0; 0; 171; 205] ++ zeros 20; a_port := 44806; a_key := a_key33 |}.
Lemma ex_addr_ok : addr_ok ex_addr /\ ~ tor ex_addr.
Proof.
  split.
  - split; [reflexivity|]. split; [apply bytes_ok_check; vm_compute; reflexivity|]. split; [reflexivity|]. split; [cbn; lia|].
    eexists. split; [reflexivity|]. split; [apply bytes_ok_check; vm_compute; reflexivity|reflexivity].
  - intros [r E]. discriminate E.
Qed.
(** aibagbafaydqqcikbmga2dqpcaireeyuculbogazdinryhi6d4qca@[2001:db9::1:0:abcd]:44806 *)
Example ex_text : exists t, to_full ex_addr 128 12038 = Ok (Some t) /\ from_string net t 0 = Ok (Some ex_addr) /\
  skipn 53 t = [64; 91; 50; 48; 48; 49; 58; 100; 98; 57; 58; 58; 49; 58; 48; 58; 97; 98; 99; 100; 93; 58; 52; 52; 56; 48; 54].
Proof. eexists. split; [vm_compute; reflexivity|]. split; vm_compute; reflexivity. Qed.
(** "1.2.3.4" and "01.2.3.4" *)
Example ex_ip4 : from_string net [49; 46; 50; 46; 51; 46; 52] 0 =
    Ok (Some {| a_type := 0; a_ip := v4 1 2 3 4 ++ zeros 20; a_port := 12038; a_key := zeros 33 |}) /\
  from_string net [48; 49; 46; 50; 46; 51; 46; 52] 0 = Ok None.
Proof. split; vm_compute; reflexivity. Qed.
Example ex_routable : is_routable ex_addr = true /\ bytes_ok [49; 46; 50; 46; 51; 46; 52] /\ ports_ok net.
Proof. split; [reflexivity|]. split; [apply bytes_ok_check; reflexivity|split; cbn; lia]. Qed.

Print Assumptions address_text_round_trip.
Print Assumptions onion_text_round_trip_refuted.
Print Assumptions ip4_accepted_exactly.
Print Assumptions reading_an_address_is_safe.
Print Assumptions writing_an_address_is_safe.
Print Assumptions routable_exactly.
Print Assumptions loopback_not_routable_refuted.
Print Assumptions same_address_exactly.
Print Assumptions same_address_same_hash.
