(** C60: what the node tells of itself. *)
From Coq Require Import String.
From Verif Require Import Common CommonFacts ProofFacts BioModel BioFacts UtilTheorems DnsNameModel DnsNameSpec DnsNameFacts DnsNameTheorems DnsMsgModel DnsMsgSpec DnsMsgFacts DnsMsgDecode DnsMsgTheorems ReqModel ReqTheorems ResourceModel DnssecModel AnswerModel AnswerTheorems CacheTheorems HesiodModel.

(** ** Specification *)
(** A number in decimal digits, without leading zeros *)
Definition written (n : Z) (s : list Z) : Prop := Forall (fun c => 48 <= c <= 57) s /\ decimal s = n /\ (n = 0 -> s = [48]) /\ (n <> 0 -> forall c r, s = c :: r -> c <> 48) /\ s <> [].
(** Bytes in lower-case hexadecimal digits *)
Definition hexed (data s : list Z) : Prop := exists pairs, s = concat pairs /\ Forall2 (fun b p => exists x y, p = [x; y] /\ In x hex_lower /\ In y hex_lower /\ exists d e, hex_digit x d /\ hex_digit y e /\ b = 16 * d + e) data pairs.
Definition hnsd (path : list (list Z)) : list (list Z) := path ++ [txt "hnsd"].
(** Names and texts of the facts about the chain and the pool *)
Definition facts (n : node) (l : list (list (list Z) * list Z)) : Prop := exists h1 h2 d1 d2 d3,
  hexed (n_hash n) h1 /\ written (n_height n) d1 /\ hexed (n_root n) h2 /\ written (n_time n) d2 /\ written (n_size n) d3 /\
  l = [(hnsd [txt "hash"; txt "tip"; txt "chain"], h1); (hnsd [txt "height"; txt "tip"; txt "chain"], d1);
       (hnsd [txt "name_root"; txt "tip"; txt "chain"], h2); (hnsd [txt "time"; txt "tip"; txt "chain"], d2);
       (hnsd [txt "synced"; txt "chain"], if n_synced n then txt "true" else txt "false");
       (hnsd [txt "progress"; txt "chain"], n_progress n); (hnsd [txt "size"; txt "pool"], d3)].
Definition states : list (Z * list Z) :=
  [(0, txt "HSK_STATE_DISCONNECTED"); (2, txt "HSK_STATE_CONNECTING"); (3, txt "HSK_STATE_CONNECTED"); (4, txt "HSK_STATE_READING"); (5, txt "HSK_STATE_HANDSHAKE"); (6, txt "HSK_STATE_DISCONNECTING")].
(** The facts about the peers, numbered from [k] *)
Inductive peer_facts : Z -> list peer_info -> list (list (list Z) * list Z) -> Prop :=
| pf_nil k : peer_facts k [] []
| pf_cons k p ps i h f st l : written k i -> written (p_headers p) h -> written (p_proofs p) f -> In (p_state p, st) states -> peer_facts (k + 1) ps l ->
    let at_peer x := hnsd [x; i; txt "peers"; txt "pool"] in
    peer_facts k (p :: ps) ((at_peer (txt "host"), p_host p) :: (at_peer (txt "agent"), p_agent p) :: (at_peer (txt "headers"), h) :: (at_peer (txt "proofs"), f) :: (at_peer (txt "state"), st) :: l).
Definition below (q ls : list (list Z)) : Prop := exists a, ls = a ++ q.
(** The answer for [q]: each fact at or below it, the peers all or none *)
Inductive told (q : list (list Z)) : list (list (list Z) * list Z) -> list (list (list Z) * list Z) -> Prop :=
| t_nil : told q [] []
| t_yes f l l' : below q (fst f) -> told q l l' -> told q (f :: l) (f :: l')
| t_no f l l' : ~ below q (fst f) -> told q l l' -> told q (f :: l) l'.
Definition fact_record (f : list (list Z) * list Z) : rr := {| r_name := dotted (fst f); r_type := 16; r_class := 4; r_ttl := 0; r_rd := Some [VList [snd f]] |}.
(** What the chain and the pool hold *)
Definition text_ok (t : list Z) : Prop := bytes_ok t /\ zlen t <= 255.
Definition node_ok (n : node) : Prop :=
  (bytes_ok (n_hash n) /\ length (n_hash n) = 32%nat) /\ (bytes_ok (n_root n) /\ length (n_root n) = 32%nat) /\
  0 <= n_height n < 2 ^ 32 /\ 0 <= n_time n < 2 ^ 64 /\ 0 <= n_size n < 2 ^ 31 /\ text_ok (n_progress n) /\ zlen (n_peers n) <= 49 /\
  Forall (fun p => text_ok (p_host p) /\ text_ok (p_agent p) /\ 0 <= p_headers p < 2 ^ 31 /\ 0 <= p_proofs p < 2 ^ 31 /\ In (p_state p) [0; 2; 3; 4; 5; 6]) (n_peers n).

(** ** Lemmas *)
Lemma dec_loop_written fuel : forall n acc, 0 <= n < 10 ^ Z.of_nat fuel -> (1 <= fuel)%nat -> exists s, dec_loop fuel n acc = s ++ acc /\ written n s /\ zlen s <= Z.of_nat fuel.
Proof.
  induction fuel as [|fuel IH]; intros n acc Hn Hf; [lia|]. cbn [dec_loop]. replace (Z.of_nat (S fuel)) with (Z.of_nat fuel + 1) in * by lia. rewrite Z.pow_add_r in Hn by lia. change (10 ^ 1) with 10 in Hn.
  destruct (Z.eqb_spec (n / 10) 0) as [E|E].
  - exists [48 + n mod 10]. split; [reflexivity|]. split; [|change (zlen [_]) with 1; lia].
    split; [constructor; [lia|constructor]|]. split; [unfold decimal; cbn [fold_left]; lia|]. split; [intros ->; reflexivity|]. split; [intros N c r Er; assert (c = 48 + n mod 10) by congruence; lia|discriminate].
  - assert (F : (1 <= fuel)%nat) by (destruct fuel; [change (10 ^ Z.of_nat 0) with 1 in Hn; lia|lia]).
    destruct (IH (n / 10) (48 + n mod 10 :: acc)) as (s & -> & (W1 & W2 & W3 & W4 & W5) & L); [lia|exact F|]. exists (s ++ [48 + n mod 10]). split; [now rewrite <- app_assoc|]. split.
    + split; [apply Forall_app; split; [exact W1|constructor; [lia|constructor]]|]. split; [unfold decimal in *; rewrite fold_left_app; cbn [fold_left]; lia|]. split; [lia|]. split; [|destruct s; discriminate].
      intros N c r Er. destruct s as [|x s]; [congruence|]. assert (c = x) by (cbn in Er; congruence). subst c. now apply (W4 E x s).
    + rewrite zlen_app. change (zlen [_]) with 1. lia.
Qed.
Lemma dec_written n : 0 <= n < 2 ^ 64 -> written n (dec n) /\ zlen (dec n) <= 20.
Proof.
  intros H. destruct (dec_loop_written 20 n []) as (s & E & W & L); [|lia|]; [change (10 ^ Z.of_nat 20) with 100000000000000000000; lia|]. unfold dec. rewrite E, app_nil_r. split; [exact W|lia].
Qed.
Lemma hex_char_digit d : 0 <= d < 16 -> hex_digit (hex_char d) d /\ In (hex_char d) hex_lower.
Proof.
  intros H. assert (C : d = 0 \/ d = 1 \/ d = 2 \/ d = 3 \/ d = 4 \/ d = 5 \/ d = 6 \/ d = 7 \/ d = 8 \/ d = 9 \/ d = 10 \/ d = 11 \/ d = 12 \/ d = 13 \/ d = 14 \/ d = 15) by lia.
  unfold hex_digit. repeat (destruct C as [->|C]; [split; [split; [lia|reflexivity]|vm_compute; tauto]|]). subst d. split; [split; [lia|reflexivity]|vm_compute; tauto].
Qed.
Lemma hex_hexed data : bytes_ok data -> hexed data (hex data) /\ zlen (hex data) = 2 * zlen data /\ bytes_ok (hex data).
Proof.
  intros B. split; [|split].
  - exists (map (fun b => [hex_char (b / 16); hex_char (b mod 16)]) data). split; [reflexivity|]. induction B as [|b data Hb B IH]; cbn [map]; constructor; auto.
    unfold is_byte in Hb. destruct (hex_char_digit (b / 16)) as [D1 I1]; [lia|]. destruct (hex_char_digit (b mod 16)) as [D2 I2]; [lia|].
    exists (hex_char (b / 16)), (hex_char (b mod 16)). repeat (split; [assumption || reflexivity|]). exists (b / 16), (b mod 16). split; [exact D1|]. split; [exact D2|lia].
  - clear B. unfold hex. induction data as [|b data IH]; [reflexivity|]. cbn [map concat]. rewrite zlen_app, IH, !zlen_cons. change (zlen (@nil Z)) with 0. lia.
  - unfold hex. induction B as [|b data Hb B IH]; cbn [map concat]; [constructor|]. unfold is_byte in Hb. apply bytes_ok_app. split; [|exact IH].
    assert (K : forall d, 0 <= d < 16 -> is_byte (hex_char d)) by (intros d Hd; unfold hex_char, is_byte; destruct (Z.ltb_spec d 10); lia). constructor; [apply K; lia|]. constructor; [apply K; lia|constructor].
Qed.
Lemma below_exact q ls : pname q -> pname ls -> zlen (dotted ls) < 255 -> exists b, is_subdomain (dotted q) (dotted ls) = Ok b /\ (b = true <-> below q ls).
Proof.
  intros Hq H L. unfold is_subdomain. rewrite !label_count_dotted by auto. pose proof (zlen_nonneg q). destruct (Z.eqb_spec (zlen q) 0) as [E|E].
  - exists true. split; [reflexivity|]. split; [intros _|auto]. assert (q = []) by (destruct q; [reflexivity|rewrite zlen_cons in E; pose proof (zlen_nonneg q); lia]). subst q. exists ls. now rewrite app_nil_r.
  - destruct (Z.ltb_spec (zlen ls) (zlen q)) as [G|G].
    + exists false. split; [reflexivity|]. split; [discriminate|]. intros (a & ->). rewrite zlen_app in G. pose proof (zlen_nonneg a). lia.
    + set (a := firstn (length ls - length q) ls). set (t := skipn (length ls - length q) ls). assert (Es : ls = a ++ t) by (symmetry; apply firstn_skipn). assert (Lt : zlen t = zlen q) by (unfold t, zlen in *; rewrite skipn_length; lia).
      destruct t as [|l b] eqn:Et; [change (zlen (@nil (list Z))) with 0 in Lt; lia|]. rewrite zlen_cons in Lt.
      assert (Le : zlen (dotted (l :: b)) < 255).
      { assert (D : dotted ls = cat_dots a ++ dotted (l :: b)). { rewrite !cat_dots_dotted by (try discriminate; rewrite Es; destruct a; discriminate). rewrite Es at 1. now rewrite cat_dots_app. } rewrite D, zlen_app in L. pose proof (zlen_nonneg (cat_dots a)). lia. }
      rewrite (label_from_dotted 255 ls (- zlen q) a l b); auto.
      2:{ unfold idx. destruct (Z.ltb_spec (- zlen q) 0); [|lia]. rewrite Es, zlen_app, zlen_cons. lia. }
      cbn [obind]. eexists. split; [reflexivity|]. rewrite beq_true_iff.
      assert (Fb : Forall plabel (l :: b)) by (destruct H as [H _]; rewrite Es in H; apply Forall_app in H; tauto). split.
      * intros E2. apply dotted_inj in E2; [|exact Fb|apply Hq]. exists a. rewrite Es. now rewrite E2.
      * intros (a' & E2). f_equal. rewrite Es in E2. assert (X := f_equal (@rev _) E2). rewrite !rev_app_distr in X.
        assert (Lr : length (rev (l :: b)) = length (rev q)) by (rewrite !rev_length; unfold zlen in Lt; cbn [length]; lia). apply app_inj_len in X as [X _]; [|exact Lr]. apply (f_equal (@rev _)) in X. now rewrite !rev_involutive in X.
Qed.
(** Labels that need no care *)
Definition plainb (l : list Z) : bool := forallb (fun c => ((48 <=? c) && (c <=? 57)) || ((97 <=? c) && (c <=? 122)) || (c =? 95)) l && (1 <=? zlen l) && (zlen l <=? 20).
Lemma plainb_ok l : plainb l = true -> plabel l /\ Forall clean_char l /\ zlen l <= 20.
Proof.
  unfold plainb. rewrite !andb_true_iff, forallb_forall. intros ((F & L1) & L2). split; [split; [lia|]|split; [|lia]]; apply Forall_forall; intros c Hc; specialize (F c Hc).
  - unfold pchar. lia.
  - unfold clean_char. cbn [In]. lia.
Qed.
Lemma plain_name ls : Forall (fun l => plainb l = true) ls -> zlen ls <= 6 -> pname ls /\ clean_name (dotted ls) /\ zlen (dotted ls) < 255.
Proof.
  intros F L. assert (Fp : Forall plabel ls) by (eapply Forall_impl; [|exact F]; intros l H; now apply plainb_ok).
  assert (Cd : Forall (fun c => clean_char c \/ c = 46) (cat_dots ls) /\ zlen (cat_dots ls) <= 21 * zlen ls).
  { clear L Fp. induction F as [|l ls H F IH]; [split; [constructor|unfold cat_dots, zlen; cbn; lia]|]. destruct (plainb_ok l H) as (_ & C & Ll). destruct IH as [I1 I2]. unfold cat_dots in *. cbn [map concat]. rewrite <- app_assoc. split.
    - apply Forall_app. split; [eapply Forall_impl; [|exact C]; auto|]. constructor; auto.
    - rewrite zlen_app, zlen_app, (zlen_cons l). change (zlen [46]) with 1. lia. }
  destruct ls as [|l ls]; [split; [split; [constructor|vm_compute; discriminate]|split; [apply root_clean|reflexivity]]|]. rewrite cat_dots_dotted by discriminate. destruct Cd as [C1 C2].
  split; [split; [exact Fp|rewrite cat_dots_dotted by discriminate; lia]|]. split; [exact C1|lia].
Qed.
Lemma digits_plain n s : written n s -> zlen s <= 20 -> plainb s = true.
Proof.
  intros (F & _ & _ & _ & N) L. unfold plainb. rewrite !andb_true_iff, forallb_forall. destruct s as [|c s]; [congruence|]. rewrite zlen_cons in *. pose proof (zlen_nonneg s). split; [split; [|lia]|lia]. rewrite Forall_forall in F. intros x Hx. specialize (F x Hx). lia.
Qed.
Lemma fact_pushed ls text an : Forall (fun l => plainb l = true) ls -> zlen ls <= 6 -> zlen text <= 255 -> zlen an < 255 -> txt_push (dotted ls) text an = Ok (an ++ [fact_record (ls, text)]).
Proof.
  intros F L Lt La. destruct (plain_name ls F L) as (P & C & _). unfold txt_push. replace (255 <? zlen text) with false by lia. f_equal.
  assert (V : valid_name (dotted ls)) by (exists ls; auto). destruct (named_shown {| r_name := [46]; r_type := 16; r_class := 4; r_ttl := 0; r_rd := Some [VList [text]] |} (dotted ls) V) as (n' & Sh & _ & S2 & S3 & S4 & S5 & S6). specialize (S2 eq_refl).
  destruct Sh as [[_ ->]|[N _]]; [|contradiction]. rewrite push_app by auto. f_equal. f_equal. unfold fact_record. cbn [fst snd]. destruct (named _ (dotted ls)). cbn in *. now subst.
Qed.
Lemma fact_exact q ls text an : pname q -> Forall (fun l => plainb l = true) ls -> zlen ls <= 6 -> zlen text <= 255 -> zlen an < 255 ->
  exists l, told q [(ls, text)] l /\ fact (dotted q) (dotted ls) text an = Ok (an ++ map fact_record l).
Proof.
  intros Hq F L Lt La. destruct (plain_name ls F L) as (P & _ & Ls). destruct (below_exact q ls Hq P Ls) as (b & E & X). unfold fact. rewrite E. cbn [obind]. destruct b.
  - exists [(ls, text)]. split; [apply t_yes; [now apply X|constructor]|]. now rewrite fact_pushed.
  - exists []. split; [apply t_no; [intros C; apply X in C; discriminate|constructor]|]. cbn [map]. now rewrite app_nil_r.
Qed.
Lemma told_app q a : forall a' b b', told q a a' -> told q b b' -> told q (a ++ b) (a' ++ b').
Proof. intros a' b b' H. induction H; cbn [app]; intros; [auto|apply t_yes; auto|apply t_no; auto]. Qed.
Lemma told_size q a a' : told q a a' -> zlen a' <= zlen a.
Proof. induction 1; rewrite ?zlen_cons; lia. Qed.
Lemma told_in q a a' : told q a a' -> forall f, In f a' <-> In f a /\ below q (fst f).
Proof.
  induction 1 as [|f l l' B T IH|f l l' B T IH]; intros x; cbn [In].
  - tauto.
  - rewrite IH. split; [intros [->|[? ?]]; auto|intros [[->|?] ?]; auto].
  - rewrite IH. split; [intros [? ?]; auto|intros [[->|?] ?]; [contradiction|auto]].
Qed.

Lemma state_exact s : In s [0; 2; 3; 4; 5; 6] -> exists t, state_text s = Some t /\ In (s, t) states /\ zlen t <= 255 /\ bytes_ok t.
Proof.
  cbn [In]. intros [<-|[<-|[<-|[<-|[<-|[<-|[]]]]]]]; eexists; (split; [reflexivity|]); (split; [unfold states; cbn [In]; tauto|]); (split; [vm_compute; discriminate|]); apply bytes_ok_check; vm_compute; reflexivity.
Qed.
Lemma peers_exact ps : forall k an, Forall (fun p => text_ok (p_host p) /\ text_ok (p_agent p) /\ 0 <= p_headers p < 2 ^ 31 /\ 0 <= p_proofs p < 2 ^ 31 /\ In (p_state p) [0; 2; 3; 4; 5; 6]) ps ->
  0 <= k -> k + zlen ps <= 65535 -> zlen an + 5 * zlen ps <= 255 -> exists l, peer_facts k ps l /\ zlen l = 5 * zlen ps /\ peers_push ps an k = Ok (an ++ map fact_record l) /\
  Forall (fun f => pname (fst f) /\ text_ok (snd f)) l.
Proof.
  induction ps as [|p ps IH]; intros k an F Hk Hn Ha; [exists []; cbn [peers_push map]; rewrite app_nil_r; repeat split; constructor|].
  apply Forall_cons_iff in F as [(Hh & Hg & H1 & H2 & Hs) F]. rewrite zlen_cons in *. pose proof (zlen_nonneg ps). pose proof (zlen_nonneg an).
  change (2 ^ 31) with 2147483648 in *. destruct (dec_written k) as [Wk Lk]; [lia|]. destruct (dec_written (p_headers p)) as [W1 L1]; [lia|]. destruct (dec_written (p_proofs p)) as [W2 L2]; [lia|].
  destruct (state_exact _ Hs) as (st & Es & Is & Ls & Bs). assert (Pk := digits_plain k (dec k) Wk Lk).
  set (at_peer x := hnsd [x; dec k; txt "peers"; txt "pool"]).
  assert (Pl : forall x, plainb x = true -> Forall (fun l => plainb l = true) (at_peer x)) by (intros x Hx; unfold at_peer, hnsd; cbn [app]; repeat (constructor; [first [exact Hx | exact Pk | vm_compute; reflexivity]|]); constructor).
  assert (Lp : forall x, zlen (at_peer x) <= 6) by (intros x; unfold at_peer, hnsd; vm_compute; discriminate).
  assert (Nm : forall x y, txt y = x ++ [46] -> txt y ++ dec k ++ txt ".peers.pool.hnsd." = dotted (at_peer x)).
  { intros x y ->. unfold at_peer, hnsd, dotted. cbn [app map concat]. rewrite <- !app_assoc. reflexivity. }
  assert (Dg : forall n, written n (dec n) -> bytes_ok (dec n)) by (intros n (D & _); eapply Forall_impl; [|exact D]; cbn; unfold is_byte; lia).
  set (five := [(at_peer (txt "host"), p_host p); (at_peer (txt "agent"), p_agent p); (at_peer (txt "headers"), dec (p_headers p)); (at_peer (txt "proofs"), dec (p_proofs p)); (at_peer (txt "state"), st)]).
  assert (E5 : peer_push p an k = Ok (an ++ map fact_record five)).
  { unfold peer_push. rewrite (Nm (txt "host") "host."%string eq_refl), (Nm (txt "agent") "agent."%string eq_refl), (Nm (txt "headers") "headers."%string eq_refl), (Nm (txt "proofs") "proofs."%string eq_refl), (Nm (txt "state") "state."%string eq_refl), Es.
    destruct Hh as [_ Hh], Hg as [_ Hg].
    rewrite fact_pushed by (first [apply Pl; vm_compute; reflexivity | apply Lp | lia]). cbn [obind]. rewrite fact_pushed by (first [apply Pl; vm_compute; reflexivity | apply Lp | rewrite ?zlen_app; change (zlen [_]) with 1; lia]). cbn [obind].
    rewrite fact_pushed by (first [apply Pl; vm_compute; reflexivity | apply Lp | rewrite ?zlen_app; change (zlen [_]) with 1; lia]). cbn [obind]. rewrite fact_pushed by (first [apply Pl; vm_compute; reflexivity | apply Lp | rewrite ?zlen_app; change (zlen [_]) with 1; lia]). cbn [obind].
    rewrite fact_pushed by (first [apply Pl; vm_compute; reflexivity | apply Lp | rewrite ?zlen_app; change (zlen [_]) with 1; lia]). rewrite <- !app_assoc. reflexivity. }
  assert (L5 : zlen (map fact_record five) = 5) by reflexivity.
  destruct (IH (k + 1) (an ++ map fact_record five) F) as (l & Pf & Ll & El & Fl); [lia|lia|rewrite zlen_app, L5; lia|].
  exists (five ++ l). split; [exact (pf_cons k p ps (dec k) (dec (p_headers p)) (dec (p_proofs p)) st l Wk W1 W2 Is Pf)|]. split; [rewrite zlen_app, Ll; change (zlen five) with 5; lia|]. split.
  - cbn [peers_push]. rewrite E5. cbn [obind]. rewrite Z.mod_small by lia. rewrite El. rewrite map_app, app_assoc. reflexivity.
  - apply Forall_app. split; [|exact Fl]. assert (Pn : forall x, plainb x = true -> pname (at_peer x)) by (intros x Hx; now apply plain_name; [apply Pl|apply Lp]).
    unfold five. repeat (constructor; [cbn [fst snd]; split; [apply Pn; vm_compute; reflexivity|]|]); auto; split; auto; lia.
Qed.

(** ** Theorems *)
(** A question for a name is answered with the facts at or below it, in this order. *)
Theorem node_told n q : node_ok n -> pname q -> exists l1 l2 t1 m, facts n l1 /\ peer_facts 0 (n_peers n) l2 /\ told q l1 t1 /\
  hesiod n (dotted q) = Ok m /\ (below q (hnsd [txt "peers"; txt "pool"]) -> m_an m = map fact_record (t1 ++ l2)) /\ (~ below q (hnsd [txt "peers"; txt "pool"]) -> m_an m = map fact_record t1) /\
  m_code m = 0 /\ m_flags m = 1024 /\ m_ns m = [] /\ m_ar m = [] /\ answer_ok m.
Proof.
  intros ((Bh & Lh) & (Br & Lr) & Hh & Ht & Hz & (Bp & Lp) & Ln & Fp) Hq. change (2 ^ 32) with 4294967296 in *. change (2 ^ 31) with 2147483648 in *. change (2 ^ 64) with 18446744073709551616 in *.
  destruct (hex_hexed _ Bh) as (X1 & E1 & B1). destruct (hex_hexed _ Br) as (X2 & E2 & B2). destruct (dec_written (n_height n)) as [D1 M1]; [lia|]. destruct (dec_written (n_time n)) as [D2 M2]; [exact Ht|]. destruct (dec_written (n_size n)) as [D3 M3]; [lia|].
  assert (L1 : zlen (hex (n_hash n)) = 64) by (rewrite E1; unfold zlen; rewrite Lh; reflexivity). assert (L2 : zlen (hex (n_root n)) = 64) by (rewrite E2; unfold zlen; rewrite Lr; reflexivity).
  set (syn := if n_synced n then txt "true" else txt "false"). assert (Lsyn : zlen syn <= 255) by (unfold syn; destruct (n_synced n); vm_compute; discriminate).
  assert (Bsyn : bytes_ok syn) by (unfold syn; destruct (n_synced n); apply bytes_ok_check; vm_compute; reflexivity).
  pose (l1 := [(hnsd [txt "hash"; txt "tip"; txt "chain"], hex (n_hash n)); (hnsd [txt "height"; txt "tip"; txt "chain"], dec (n_height n));
       (hnsd [txt "name_root"; txt "tip"; txt "chain"], hex (n_root n)); (hnsd [txt "time"; txt "tip"; txt "chain"], dec (n_time n));
       (hnsd [txt "synced"; txt "chain"], syn); (hnsd [txt "progress"; txt "chain"], n_progress n); (hnsd [txt "size"; txt "pool"], dec (n_size n))]).
  assert (Fa : facts n l1) by (exists (hex (n_hash n)), (hex (n_root n)), (dec (n_height n)), (dec (n_time n)), (dec (n_size n)); auto 10).
  assert (One : forall path text an, forallb plainb (hnsd path) = true -> zlen (hnsd path) <= 6 -> zlen text <= 255 -> zlen an < 255 -> exists l, told q [(hnsd path, text)] l /\ fact (dotted q) (dotted (hnsd path)) text an = Ok (an ++ map fact_record l) /\ zlen (an ++ map fact_record l) <= zlen an + 1).
  { intros path text an Fo Le Lt La. destruct (fact_exact q (hnsd path) text an Hq) as (l & T & E); auto; [apply Forall_forall; now apply forallb_forall|]. exists l. split; [exact T|]. split; [exact E|]. apply told_size in T. rewrite zlen_app, zlen_map. change (zlen [_]) with 1 in T. lia. }
  unfold hesiod. change (txt "hash.tip.chain.hnsd.") with (dotted (hnsd [txt "hash"; txt "tip"; txt "chain"])). change (txt "height.tip.chain.hnsd.") with (dotted (hnsd [txt "height"; txt "tip"; txt "chain"])).
  change (txt "name_root.tip.chain.hnsd.") with (dotted (hnsd [txt "name_root"; txt "tip"; txt "chain"])). change (txt "time.tip.chain.hnsd.") with (dotted (hnsd [txt "time"; txt "tip"; txt "chain"])).
  change (txt "synced.chain.hnsd.") with (dotted (hnsd [txt "synced"; txt "chain"])). change (txt "progress.chain.hnsd.") with (dotted (hnsd [txt "progress"; txt "chain"])). change (txt "size.pool.hnsd.") with (dotted (hnsd [txt "size"; txt "pool"])).
  change (txt "peers.pool.hnsd.") with (dotted (hnsd [txt "peers"; txt "pool"])). fold syn.
  assert (Ltz : zlen (@nil rr) = 0) by reflexivity.
  Ltac one One path text an l T E L := destruct (One path text an) as (l & T & E & L); [vm_compute; reflexivity|vm_compute; discriminate|lia|lia|]; rewrite E; cbn [obind].
  one One [txt "hash"; txt "tip"; txt "chain"] (hex (n_hash n)) (@nil rr) k1 T1 Q1 G1.
  one One [txt "height"; txt "tip"; txt "chain"] (dec (n_height n)) ([] ++ map fact_record k1) k2 T2 Q2 G2.
  one One [txt "name_root"; txt "tip"; txt "chain"] (hex (n_root n)) (([] ++ map fact_record k1) ++ map fact_record k2) k3 T3 Q3 G3.
  one One [txt "time"; txt "tip"; txt "chain"] (dec (n_time n)) ((([] ++ map fact_record k1) ++ map fact_record k2) ++ map fact_record k3) k4 T4 Q4 G4.
  one One [txt "synced"; txt "chain"] syn (((([] ++ map fact_record k1) ++ map fact_record k2) ++ map fact_record k3) ++ map fact_record k4) k5 T5 Q5 G5.
  one One [txt "progress"; txt "chain"] (n_progress n) ((((([] ++ map fact_record k1) ++ map fact_record k2) ++ map fact_record k3) ++ map fact_record k4) ++ map fact_record k5) k6 T6 Q6 G6.
  one One [txt "size"; txt "pool"] (dec (n_size n)) (((((([] ++ map fact_record k1) ++ map fact_record k2) ++ map fact_record k3) ++ map fact_record k4) ++ map fact_record k5) ++ map fact_record k6) k7 T7 Q7 G7.
  set (an := (((((([] ++ map fact_record k1) ++ map fact_record k2) ++ map fact_record k3) ++ map fact_record k4) ++ map fact_record k5) ++ map fact_record k6) ++ map fact_record k7) in *.
  pose (t1 := k1 ++ k2 ++ k3 ++ k4 ++ k5 ++ k6 ++ k7). assert (Ean : an = map fact_record t1) by (unfold an, t1; rewrite !map_app, <- !app_assoc; reflexivity). assert (Lan : zlen an <= 7) by lia. clearbody an.
  assert (To : told q l1 t1).
  { unfold l1, t1. change (?a :: ?b :: ?c :: ?d :: ?e :: ?f :: [?g]) with ([a] ++ [b] ++ [c] ++ [d] ++ [e] ++ [f] ++ [g]). repeat (apply told_app; [assumption|]). exact T7. }
  destruct (plain_name (hnsd [txt "peers"; txt "pool"])) as (Pp & _ & Lpp); [apply Forall_forall, forallb_forall; vm_compute; reflexivity|vm_compute; discriminate|].
  destruct (below_exact q _ Hq Pp Lpp) as (b & Eb & Xb). rewrite Eb. cbn [obind]. destruct (peers_exact (n_peers n) 0 an Fp) as (l2 & Pf & Ll2 & El2 & Fl2); [lia|pose proof (zlen_nonneg (n_peers n)); lia|lia|].
  assert (Dg : forall z, written z (dec z) -> bytes_ok (dec z)) by (intros z (D & _); eapply Forall_impl; [|exact D]; cbn; unfold is_byte; lia).
  assert (F1 : Forall (fun f => pname (fst f) /\ text_ok (snd f)) l1).
  { unfold l1. repeat (constructor; [cbn [fst snd]; split; [apply plain_name; [apply Forall_forall, forallb_forall; vm_compute; reflexivity|vm_compute; discriminate]|split; [auto|lia]]|]). constructor. }
  assert (Ft : Forall (fun f => pname (fst f) /\ text_ok (snd f)) t1) by (apply Forall_forall; intros f Hf; apply (told_in q l1 t1 To) in Hf as [Hf _]; rewrite Forall_forall in F1; auto).
  assert (Rk : forall l, Forall (fun f => pname (fst f) /\ text_ok (snd f)) l -> Forall record_ok (map fact_record l)).
  { clear. induction 1 as [|f l [Pn [Bt Lt]] F IH]; cbn [map]; constructor; auto. split; [split; [exists (fst f); auto|cbn; lia]|]. exists [VList [snd f]]. split; [reflexivity|]. cbn [r_type fact_record]. change (layout 16) with [KTxts].
    split; [constructor; [|constructor]; cbn [field_ok]; split; [constructor; auto|discriminate]|]. cbn [fields_size field_size map fold_right]. lia. }
  assert (Ak : forall l, zlen l <= 255 -> Forall record_ok l -> answer_ok (build 0 (Z.shiftl 1 10) l [] [])).
  { intros l Ll Fl. split; [cbn; lia|]. split; [cbn; lia|]. split; [cbn; lia|]. cbn [m_an m_ns m_ar build]. split; [split; [exact Ll|split; discriminate]|]. split; [exact Fl|]. split; constructor. }
  assert (Lt1 : zlen t1 <= 7) by (rewrite Ean, zlen_map in Lan; exact Lan).
  exists l1, l2, t1. destruct b.
  - rewrite El2. cbn [obind]. eexists. split; [exact Fa|]. split; [exact Pf|]. split; [exact To|]. split; [reflexivity|]. cbn [m_an m_code m_flags m_ns m_ar build]. rewrite Ean, <- map_app.
    split; [reflexivity|]. split; [intros C; exfalso; apply C; now apply Xb|]. repeat (split; [reflexivity|]). apply Ak; [rewrite zlen_map, zlen_app; lia|]. rewrite map_app. apply Forall_app. auto.
  - cbn [obind]. eexists. split; [exact Fa|]. split; [exact Pf|]. split; [exact To|]. split; [reflexivity|]. cbn [m_an m_code m_flags m_ns m_ar build]. rewrite Ean.
    split; [intros C; apply Xb in C; discriminate|]. split; [reflexivity|]. repeat (split; [reflexivity|]). apply Ak; [rewrite zlen_map; lia|auto].
Qed.
(** A single fact of a peer cannot be asked for: its own name is told nothing. *)
Theorem peer_alone_refuted : exists n q l, node_ok n /\ pname q /\ peer_facts 0 (n_peers n) l /\ (exists f, In f l /\ fst f = q) /\ exists m, hesiod n (dotted q) = Ok m /\ m_an m = [].
Proof.
  pose (p := {| p_host := txt "1.2.3.4"; p_agent := txt "/hsd/"; p_headers := 3; p_proofs := 40; p_state := 5 |}).
  pose (n := {| n_hash := repeat 0 32; n_height := 120; n_root := repeat 0 32; n_time := 0; n_synced := true; n_progress := txt "1.0"; n_size := 1; n_peers := [p] |}).
  assert (Op : text_ok (p_host p) /\ text_ok (p_agent p) /\ 0 <= p_headers p < 2 ^ 31 /\ 0 <= p_proofs p < 2 ^ 31 /\ In (p_state p) [0; 2; 3; 4; 5; 6]).
  { split; [split; [apply bytes_ok_check; vm_compute; reflexivity|vm_compute; discriminate]|]. split; [split; [apply bytes_ok_check; vm_compute; reflexivity|vm_compute; discriminate]|]. cbn; lia. }
  assert (On : node_ok n).
  { split; [split; [apply bytes_ok_check; vm_compute; reflexivity|reflexivity]|]. split; [split; [apply bytes_ok_check; vm_compute; reflexivity|reflexivity]|]. cbn [n_height n_time n_size n_progress n_peers n].
    repeat (split; [lia|]). split; [split; [apply bytes_ok_check; vm_compute; reflexivity|vm_compute; discriminate]|]. split; [vm_compute; discriminate|]. constructor; [exact Op|constructor]. }
  destruct (peers_exact [p] 0 []) as (l & Pf & _); [constructor; [exact Op|constructor]|lia|vm_compute; discriminate|vm_compute; discriminate|].
  exists n, (hnsd [txt "host"; [48]; txt "peers"; txt "pool"]), l. split; [exact On|]. split; [apply plain_name; [apply Forall_forall, forallb_forall; vm_compute; reflexivity|vm_compute; discriminate]|]. split; [exact Pf|]. split.
  - inversion Pf as [|k p' ps i h f st l' Wi]; subst. assert (i = [48]) by (destruct Wi as (_ & _ & W & _); now apply W). subst i. eexists. split; [left; reflexivity|reflexivity].
  - eexists. split; [vm_compute; reflexivity|reflexivity].
Qed.
(** The root is told everything. *)
Example ex_all : forall n, node_ok n -> exists l1 l2 m, facts n l1 /\ peer_facts 0 (n_peers n) l2 /\ hesiod n (dotted []) = Ok m /\ m_an m = map fact_record (l1 ++ l2).
Proof.
  intros n On. assert (Bl : forall ls, below [] ls) by (intros ls; exists ls; now rewrite app_nil_r). destruct (node_told n [] On) as (l1 & l2 & t1 & m & F1 & F2 & T & E & M & _); [split; [constructor|vm_compute; discriminate]|].
  assert (Et : t1 = l1) by (clear - T Bl; induction T; auto; [congruence|exfalso; auto]). subst t1. exists l1, l2, m. auto.
Qed.
Print Assumptions node_told.
Print Assumptions peer_alone_refuted.
