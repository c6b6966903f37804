(** C38, C39, C40: the name server. *)
From Coq Require Import String.
From Verif Require Import Common CommonFacts ProofFacts Assoc BioModel BioFacts UtilTheorems Base32Model DateModel DnsNameModel DnsNameSpec DnsNameFacts DnsNameTheorems DnsMsgModel DnsMsgSpec DnsMsgFacts DnsMsgDecode DnsMsgTheorems ReqModel ReqTheorems DnsMsgTotal ResourceModel ResourceTheorems DnssecModel DnssecTheorems AnswerModel AnswerTheorems CacheModel CacheTheorems HesiodModel HesiodTheorems NsModel.

(** ** Specification *)
(** A question about the node itself: class HS, type TXT *)
Definition node_question (q : req) : Prop := q_class q = 4 /\ q_type q = 16.
(** The same machine: 127.0.0.0/16 or ::1 *)
Definition local (ip : list Z) : Prop := (exists x y, ip = repeat 0 10 ++ [255; 255; 127; 0; x; y]) \/ ip = repeat 0 15 ++ [1].
(** Top-level labels of other naming systems *)
Definition closed (top : list Z) : Prop := In top [txt "bit"; txt "eth"; txt "exit"; txt "gnu"; txt "i2p"; txt "onion"; txt "tor"; txt "zkey"].
(** _synth and the names directly below it *)
Definition synth_name (ls : list (list Z)) : Prop := zlen ls <= 2 /\ map low (last ls []) = txt "_synth".
(** The first label stands for an address of a family, A or AAAA *)
Definition stands (a : list Z) (family : Z) (ip : list Z) : Prop := exists b ds, a = 95 :: b /\ digits b ds /\
  ((zlen b = 7 /\ family = 1 /\ zlen ip = 4) \/ (In (zlen b) [26; 27] /\ family = 28 /\ zlen ip = 16)) /\ bytes_ok ip /\ be_val ip = val32 ds / 2 ^ (5 * zlen b - 8 * zlen ip).
Definition synthesized (s : sec) (now : Z) (ls : list (list Z)) (type : Z) (m : msg) : Prop :=
  m_code m = 0 /\ m_opcode m = 0 /\ m_qd m = [] /\
  (zlen ls = 1 -> m_flags m = 0 /\ m_an m = [] /\ m_ar m = [] /\ no_data s now [nsec (dotted [txt "_synth"]) []] (m_ns m)) /\
  forall a top, ls = [a; top] ->
    ((forall f ip, ~ stands a f ip) -> m_flags m = 0 /\ m_an m = [] /\ m_ns m = [] /\ m_ar m = []) /\
    (forall f ip, stands a f ip ->
       (type = 255 \/ type = f -> m_flags m = 1024 /\ m_an m = [on_chain (dotted ls) f [VBytes ip]] /\ m_ns m = [] /\ m_ar m = []) /\
       (type <> 255 -> type <> f -> m_flags m = 0 /\ m_an m = [] /\ m_ar m = [] /\ exists types, no_data s now [nsec (dotted ls) (0 :: zlen types :: types)] (m_ns m) /\
          forall t, bitmap 0 types t <-> In t (if f =? 1 then [1; 46; 47] else [24; 46; 47]))).
(** A name below the root that does not exist *)
Definition denied (s : sec) (now : Z) (m : msg) : Prop := m_code m = 3 /\ m_opcode m = 0 /\ m_flags m = 1024 /\ m_qd m = [] /\ m_an m = [] /\ m_ar m = [] /\
  exists types, no_data s now [nsec [46] (0 :: zlen types :: types); nsec [46] (0 :: zlen types :: types)] (m_ns m) /\ forall t, bitmap 0 types t <-> In t [2; 6; 46; 47; 48].
(** A name given to the node with an address of 56 characters or more, or 28 digits *)
Definition overflows (ls : list (list Z)) : Prop := exists a top, ls = [a; top] /\ map low top = txt "_synth" /\ (56 <= zlen a \/ exists b ds, a = 95 :: b /\ digits b ds /\ zlen b = 28).

(** The answer in the cache *)
Definition hit (c : cache) (now : Z) (q : req) (m : msg) : Prop := exists k it, key_set (q_name q) (q_type q) = Ok (Some k) /\ held c k = Some it /\ now < i_time it + 21600 /\ msg_decode (i_msg it) = Ok (Some m).
Definition missed (c : cache) (now : Z) (q : req) : Prop := forall m, ~ hit c now q m.
Definition looked (c : cache) (t : clock) (q : req) (c1 : cache) : Prop := exists o, get_data c (t_get t) (q_name q) (q_type q) = Ok (o, c1).
Definition kept (c1 : cache) (mem : bool) (t : clock) (q : req) (m : msg) (c' : cache) : Prop := m_qd m = [] /\ m_edns m = edns_init /\ exists w ok, msg_encode m = Ok w /\ insert_data c1 mem (t_old t) (t_new t) (q_name q) (q_type q) w = Ok (ok, c').
(** The reply sent for a message; when it cannot be made, SERVFAIL, or else nothing *)
Definition refused (v : server) (q : req) (fx : list effect) : Prop := exists o, msg_finalize (v_sign v) to_servfail q = Ok o /\ fx = match o with Some w => [Send w] | None => [] end.
Definition replied (v : server) (q : req) (m : msg) (fx : list effect) : Prop := exists o, msg_finalize (v_sign v) m q = Ok o /\ match o with Some w => fx = [Send w] | None => refused v q fx end.
(** What is done for the request [q] for the name with labels [ls]: the cache and the
    effects it leaves *)
Inductive handled (v : server) (n : node) (mem : bool) (t : clock) (client : list Z) (rc : Z) (q : req) (ls : list (list Z)) (c : cache) : cache -> list effect -> Prop :=
| h_cached c' m fx : hit c (t_get t) q m -> looked c t q c' -> replied v q m fx -> handled v n mem t client rc q ls c c' fx
| h_away c' : missed c (t_get t) q -> node_question q -> ~ local client -> looked c t q c' -> handled v n mem t client rc q ls c c' []
| h_node c' m fx : missed c (t_get t) q -> node_question q -> local client -> hesiod n (dotted ls) = Ok m -> answer_ok m -> looked c t q c' -> replied v q m fx -> handled v n mem t client rc q ls c c' fx
| h_synth c' m fx : missed c (t_get t) q -> ~ node_question q -> synth_name ls -> synthesized (v_sec v) (t_make t) ls (q_type q) m -> answer_ok m -> looked c t q c' -> replied v q m fx -> handled v n mem t client rc q ls c c' fx
| h_root c1 c' m fx : missed c (t_get t) q -> ~ node_question q -> ls = [] -> (forall ip, v_ip v = Some ip -> root_answered (v_sec v) (t_make t) (q_type q) ip m) -> (v_ip v = None -> root (v_sec v) (t_make t) (q_type q) None = Ok m) -> answer_ok m ->
    looked c t q c1 -> kept c1 mem t q m c' -> replied v q m fx -> handled v n mem t client rc q ls c c' fx
| h_closed c1 c' m fx : missed c (t_get t) q -> ~ node_question q -> ls <> [] -> ~ synth_name ls -> closed (map low (last ls [])) -> denied (v_sec v) (t_make t) m -> answer_ok m ->
    looked c t q c1 -> kept c1 mem t q m c' -> replied v q m fx -> handled v n mem t client rc q ls c c' fx
| h_asked c' fx : missed c (t_get t) q -> ~ node_question q -> ls <> [] -> ~ synth_name ls -> ~ closed (map low (last ls [])) -> looked c t q c' -> (rc = 0 -> fx = []) -> (rc <> 0 -> refused v q fx) ->
    handled v n mem t client rc q ls c c' (Ask (map low (last ls [])) q :: fx).

Definition server_ok (v : server) : Prop := sec_ok (v_sec v) /\ forall ip, v_ip v = Some ip -> bytes_ok ip /\ length ip = 16%nat.
Definition cache_ok (c : cache) : Prop := forall k it, held c k = Some it -> bytes_ok (i_msg it).
(** The datagram is a query for [ls], recorded as [q] *)
Definition asks (data : list Z) (q : req) (ls : list (list Z)) : Prop := exists m type class, msg_decode data = Ok (Some m) /\ query m ls type class /\ q = recorded m ls type class.
(** Requests that end the process *)
Definition crashes (v : server) (c : cache) (now : Z) (q : req) (ls : list (list Z)) : Prop :=
  aborts ls \/ (missed c now q /\ ~ node_question q /\ (overflows ls \/ (ls = [] /\ v_ip v = None /\ In (q_type q) [2; 255; 6]))).

(** ** Lemmas *)
Lemma answer_exact v q m : msg_sound m -> req_ok q -> exists fx, answer v q m = Ok fx /\ replied v q m fx.
Proof.
  intros Hm Hq. assert (R : exists fx, refuse v q = Ok fx /\ refused v q fx).
  { destruct (finalize_total (v_sign v) to_servfail q) as (o & E & _); [apply answer_sound, failures_exact|exact Hq|]. unfold refuse. rewrite E. eexists. split; [reflexivity|]. eexists. split; [exact E|reflexivity]. }
  destruct (finalize_total (v_sign v) m q Hm Hq) as (o & E & _). unfold answer. rewrite E. cbn [obind]. destruct (match o with None => None | Some out => _ end) as [w|] eqn:Eo.
  - exists [Send w]. split; [reflexivity|]. eexists. split; [exact E|]. reflexivity.
  - destruct R as (fx & -> & R). exists fx. split; [reflexivity|]. eexists. split; [exact E|exact R].
Qed.
Lemma refuse_exact v q : req_ok q -> exists fx, refuse v q = Ok fx /\ refused v q fx.
Proof. intros Hq. destruct (finalize_total (v_sign v) to_servfail q) as (o & E & _); [apply answer_sound, failures_exact|exact Hq|]. unfold refuse. rewrite E. eexists. split; [reflexivity|]. eexists. split; [exact E|reflexivity]. Qed.
Lemma aborts_clean ls : pname ls -> Forall clean_char (last ls []) -> aborts ls -> clean_name (dotted ls).
Proof.
  intros _ C (x & d & top & -> & D). cbn [last] in C. unfold dotted. cbn [map concat]. rewrite app_nil_r.
  assert (Cx : clean_char x). { inversion D as [|? ? ? ? [_ H] _]; subst. apply nth_error_In in H. assert (T : forallb (fun c => negb (existsb (Z.eqb (lower c)) charset_hex) || ((48 <=? c) && (c <=? 57)) || ((65 <=? c) && (c <=? 90)) || ((97 <=? c) && (c <=? 122))) (map Z.of_nat (seq 0 256)) = true) by (vm_compute; reflexivity).
    rewrite forallb_forall in T. assert (Hx : 0 <= x < 256 \/ lower x = x) by (unfold lower; destruct ((65 <=? x) && (x <=? 90)) eqn:E; [left; lia|right; reflexivity]).
    assert (R : 48 <= x <= 57 \/ 65 <= x <= 90 \/ 97 <= x <= 122).
    { destruct Hx as [Hx|Hx].
      - specialize (T x). assert (I : In x (map Z.of_nat (seq 0 256))) by (apply in_map_iff; exists (Z.to_nat x); split; [lia|apply in_seq; lia]). specialize (T I). assert (Y : existsb (Z.eqb (lower x)) charset_hex = true) by (apply existsb_exists; exists (lower x); split; [exact H|apply Z.eqb_refl]). rewrite Y in T. cbn [negb orb] in T. lia.
      - rewrite Hx in H. apply charset_clean in H as Y. destruct Y as [Y _]. unfold charset_hex in H. cbn [In] in H. lia. }
    unfold clean_char. cbn [In]. lia. }
  apply Forall_app. split; [|apply Forall_app; split; [eapply Forall_impl; [|exact C]; auto|constructor; auto]].
  constructor; [left; unfold clean_char; cbn [In]; lia|]. constructor; [left; exact Cx|]. constructor; auto.
Qed.
Lemma get_total c now ls type : pname ls -> Forall clean_char (last ls []) -> (aborts ls -> get_data c now (dotted ls) type = Abort) /\ (~ aborts ls -> exists o c', get_data c now (dotted ls) type = Ok (o, c') /\
  (forall w, o = Some w <-> exists k it, key_set (dotted ls) type = Ok (Some k) /\ held c k = Some it /\ i_msg it = w /\ now < i_time it + 21600) /\ (forall k it, held c' k = Some it -> held c k = Some it)).
Proof.
  intros P C. destruct (key_exact ls type P) as (K0 & K1 & K2 & K3). split.
  - intros A. unfold get_data. now rewrite K1 by (auto; now apply aborts_clean).
  - intros A. assert (Ck : exists o, key_set (dotted ls) type = Ok o).
    { assert (V : valid_name (dotted ls)) by (exists ls; auto). pose proof (dirty_name (dotted ls) (valid_bytes _ V)) as Dn. destruct (name_dirty (dotted ls)); [exists None; apply K0; intros X; apply Dn in X; discriminate|].
      assert (Cn : clean_name (dotted ls)) by now apply Dn. destruct (key_set (dotted ls) type) as [o| | |] eqn:E; [eauto|exfalso..]; specialize (K2 Cn A); specialize (K3 Cn A).
      all: assert (N : ~ own_answer ls type) by (intros O; specialize (K2 O); discriminate); specialize (K3 N); discriminate. }
    destruct Ck as [[k|] Ek].
    + destruct (lookup_exact c now (dotted ls) type k Ek) as (o & c' & E & X & Y & _). exists o, c'. split; [exact E|]. split.
      * intros w. rewrite X. split; [intros (it & H); exists k, it; tauto|]. intros (k' & it & E' & H). rewrite Ek in E'. apply Ok_inj, some_inj in E'. subst k'. exists it. tauto.
      * intros k' it. rewrite Y. destruct (match held c k with Some _ => _ | None => _ end); [discriminate|auto].
    + exists None, c. unfold get_data. rewrite Ek. split; [reflexivity|]. split; [|auto]. intros w. split; [discriminate|]. intros (k & it & E & _). discriminate.
Qed.
Lemma insert_total c mem now1 now2 ls type w : pname ls -> Forall clean_char (last ls []) -> ~ aborts ls -> exists ok c', insert_data c mem now1 now2 (dotted ls) type w = Ok (ok, c').
Proof.
  intros P C A. destruct (get_total c now1 ls type P C) as [_ G]. destruct (G A) as (o & c' & E & _). unfold get_data in E. destruct (key_set (dotted ls) type) as [[k|]| | |] eqn:Ek; try discriminate.
  - destruct (insertion_exact c mem now1 now2 (dotted ls) type w k Ek) as (ok & c1 & E1 & _). exists ok, c1. exact E1.
  - unfold insert_data. rewrite Ek. eexists. eexists. reflexivity.
Qed.
Lemma encode_answer m : answer_ok m -> Forall question_ok (m_qd m) -> edns_sound (m_edns m) -> exists w, msg_encode m = Ok w /\ bytes_ok w.
Proof. intros A Q E. destruct (encode_total m (answer_sound _ A) E Q) as (w & E1 & B & _). eauto. Qed.
Lemma local_exact ip : bytes_ok ip -> length ip = 16%nat -> is_local ip = true <-> local ip.
Proof.
  intros B L. unfold is_local, is_ip4, is_mapped, local. do 16 (destruct ip as [|? ip]; [discriminate|]). destruct ip; [|discriminate]. cbn [firstn nth]. clear L.
  destruct (beq [_; _; _; _; _; _; _; _; _; _; _; _] _) eqn:E.
  - apply beq_true_iff in E. injection E as -> -> -> -> -> -> -> -> -> -> -> ->. cbn [repeat app]. split.
    + intros H. apply andb_true_iff in H as [H1 H2]. assert (z11 = 127) by lia. assert (z12 = 0) by lia. subst. left. eauto.
    + intros [(x & y & H)|H]; [injection H as -> -> -> ->; reflexivity|discriminate].
  - split.
    + intros H. apply beq_true_iff in H. right. exact H.
    + intros [(x & y & H)|H]; [|now apply beq_true_iff]. exfalso. cbn [repeat app] in H. injection H as -> -> -> -> -> -> -> -> -> -> -> -> _ _ _ _. cbn in E. discriminate.
Qed.
Lemma label_from_over cap ls k a l b : pname ls -> ls = a ++ l :: b -> idx (zlen ls) k = zlen a -> cap <= zlen (dotted (l :: b)) -> label_from cap (dotted ls) k = Ub.
Proof.
  intros H E Hk Hcap. unfold label_from. rewrite label_count_dotted by exact H. assert (Hpos : zlen ls = zlen a + 1 + zlen b) by (subst ls; rewrite zlen_app, zlen_cons; lia).
  pose proof (zlen_nonneg a). pose proof (zlen_nonneg b). destruct (Z.eqb_spec (zlen ls) 0); [lia|]. cbv zeta.
  rewrite split_dotted by (auto; lia). fold (idx (zlen ls) k). rewrite Hk. destruct (Z.leb_spec (zlen ls) (zlen a)); [lia|]. destruct (Z.ltb_spec (zlen a) 0); [lia|].
  replace (Z.to_nat (zlen a)) with (length a) by (unfold zlen; lia).
  assert (S0 : nth (length a) (starts 0 ls) 0 = zlen (cat_dots a)) by (subst ls; now rewrite starts_nth). rewrite S0.
  assert (D : dotted ls = cat_dots a ++ dotted (l :: b)).
  { rewrite !cat_dots_dotted by (try discriminate; subst ls; destruct a; discriminate). subst ls. now rewrite cat_dots_app. }
  destruct H as [H L]. rewrite D in *. rewrite zlen_app in *. pose proof (zlen_nonneg (cat_dots a)).
  replace (zlen (cat_dots a) + zlen (dotted (l :: b)) - zlen (cat_dots a)) with (zlen (dotted (l :: b))) by lia.
  assert (0 < zlen (dotted (l :: b))). { rewrite cat_dots_dotted by discriminate. rewrite cat_dots_len. pose proof (zlen_nonneg l). pose proof (zlen_nonneg (cat_dots b)). lia. }
  destruct (Z.eqb_spec (zlen (dotted (l :: b))) 0); [lia|]. destruct (Z.ltb_spec 255 (zlen (dotted (l :: b)))); [lia|]. cbn [orb].
  destruct (Z.ltb_spec (zlen (dotted (l :: b))) 0); [lia|]. destruct (Z.leb_spec cap (zlen (dotted (l :: b)))); [reflexivity|lia].
Qed.
Lemma stands_iff a : ((exists b ds, a = 95 :: b /\ b <> [] /\ digits b ds) \/ forall b ds, a = 95 :: b -> b <> [] -> ~ digits b ds).
Proof.
  destruct a as [|x b]; [right; discriminate|]. destruct (Z.eq_dec x 95) as [->|Nx]; [|right; intros b' ds E; injection E as E _; contradiction].
  destruct b as [|y b]; [right; intros b' ds E; injection E as <-; contradiction|]. destruct (digits_dec (y :: b)) as [[ds D]|D]; [left; exists (y :: b), ds; repeat split; auto; discriminate|right; intros b' ds E _; injection E as <-; apply D].
Qed.
Lemma digits_det b ds ds' : digits b ds -> digits b ds' -> ds = ds'.
Proof.
  intros H. revert ds'. induction H as [|c d b ds [G H] F IH]; intros ds' X; inversion X as [|c' d' b' ds2 [G2 H2] F2]; subst; [reflexivity|]. f_equal; [|now apply IH].
  assert (Nd : NoDup charset_hex) by (apply (proj1 (NoDup_count_occ' Z.eq_dec charset_hex)) || (unfold charset_hex; repeat (constructor; [cbn [In]; lia|]); constructor)).
  assert (E : Z.to_nat d = Z.to_nat d'); [|lia]. apply (proj1 (NoDup_nth_error charset_hex) Nd); [apply nth_error_Some; congruence|congruence].
Qed.
Lemma stands_det a f ip f' ip' : stands a f ip -> stands a f' ip' -> f = f' /\ ip = ip'.
Proof.
  intros (b & ds & -> & D & C & B & E) (b' & ds' & X & D' & C' & B' & E'). injection X as <-. rewrite (digits_det b ds ds' D D') in E. cbn [In] in *.
  assert (K : f = f' /\ zlen ip = zlen ip') by lia. destruct K as [K L]. split; [exact K|]. rewrite <- (be_bytes_be_val ip B), <- (be_bytes_be_val ip' B'). rewrite E, E', L. unfold zlen in L. f_equal. lia.
Qed.
Lemma digits_clean b ds : digits b ds -> Forall clean_char b.
Proof.
  induction 1 as [|c d b ds [_ H] F IH]; constructor; auto. apply nth_error_In in H. assert (Hx : 65 <= c <= 90 \/ lower c = c) by (unfold lower; destruct ((65 <=? c) && (c <=? 90)) eqn:E; [left; lia|right; reflexivity]).
  destruct Hx as [Hx|Hx]; [unfold clean_char; cbn [In]; lia|]. rewrite Hx in H. now apply charset_clean in H.
Qed.
Lemma types_map l : forallb (fun t => Bool.eqb (existsb (Z.eqb t) l) ((t <? 48) && Z.testbit (nth (Z.to_nat (t / 8)) (match l with 1 :: _ => skipn 2 type_map_a | _ => skipn 2 type_map_aaaa end) 0) (7 - t mod 8))) (map Z.of_nat (seq 0 48)) = true -> Forall (fun t => 0 <= t < 48) l ->
  forall t, bitmap 0 (match l with 1 :: _ => skipn 2 type_map_a | _ => skipn 2 type_map_aaaa end) t <-> In t l.
Proof.
  set (m := match l with 1 :: _ => skipn 2 type_map_a | _ => skipn 2 type_map_aaaa end). intros H F t. assert (Lm : zlen m = 6) by (unfold m; destruct l as [|[|[]|] l]; reflexivity). rewrite forallb_forall in H. rewrite Forall_forall in F.
  assert (K : forall t, 0 <= t < 48 -> (In t l <-> Z.testbit (nth (Z.to_nat (t / 8)) m 0) (7 - t mod 8) = true)).
  { intros x Hx. specialize (H x). assert (I : In x (map Z.of_nat (seq 0 48))) by (apply in_map_iff; exists (Z.to_nat x); split; [lia|apply in_seq; lia]). specialize (H I). apply Bool.eqb_prop in H. replace (x <? 48) with true in H by lia. cbn [andb] in H. rewrite <- H. rewrite existsb_exists. split; [intros J; exists x; split; [exact J|apply Z.eqb_refl]|]. intros (y & J & E). assert (x = y) by lia. now subst y. }
  unfold bitmap. rewrite Lm. split.
  - intros (k & -> & Hk & T). replace (256 * 0 + k) with k by lia. apply K; [lia|exact T].
  - intros I. exists t. specialize (F t I). split; [lia|]. split; [lia|]. now apply K.
Qed.
Lemma soa_exact s now owner types : sec_ok s -> valid_name owner -> bytes_ok types -> zlen types <= 1000 ->
  exists ns, with_soa s now [nsec owner types] = Ok (build 0 0 [] ns []) /\ no_data s now [nsec owner types] ns /\ answer_ok (build 0 0 [] ns []).
Proof.
  intros HS V B L. destruct (no_data_ok s now owner [nsec owner types] HS) as (l1 & l2 & E1 & E2 & N & K); [discriminate|reflexivity|constructor; [|constructor]; split; [now apply nsec_ok|auto]|].
  exists l2. unfold with_soa. rewrite E1. cbn [obind]. rewrite E2. cbn [obind]. split; [reflexivity|]. split; [exact N|].
  split; [cbn; lia|]. split; [cbn; lia|]. split; [cbn; lia|]. cbn [m_an m_ns m_ar build]. split; [split; [discriminate|split; [apply K|discriminate]]|]. split; [constructor|]. split; [now apply section_records|constructor].
Qed.
Lemma synth_exact s now q ls : sec_ok s -> pname ls -> q_name q = dotted ls -> q_labels q = zlen ls -> q_tld q = map low (last ls []) -> Forall clean_char (last ls []) -> synth_name ls -> ~ aborts ls ->
  (overflows ls -> synth_msg s now q = Ub) /\ (~ overflows ls -> exists m, synth_msg s now q = Ok m /\ synthesized s now ls (q_type q) m /\ answer_ok m /\ m_qd m = [] /\ m_edns m = edns_init).
Proof.
  intros HS P En El Et Cl [Lz Sy] Na. unfold synth_msg. rewrite El.
  assert (Blank : answer_ok (build 0 0 [] [] [])) by (split; [cbn; lia|]; split; [cbn; lia|]; split; [cbn; lia|]; split; [repeat split; discriminate|]; split; [constructor|]; split; constructor).
  destruct ls as [|a [|top [|x ls]]].
  - discriminate Sy.
  - change (zlen [a] =? 1) with true. cbv iota. split; [intros (? & ? & E & _); discriminate|]. intros _. cbn [last] in *. rewrite Et, Sy. change (to_empty (txt "_synth") [] []) with [nsec (dotted [txt "_synth"]) []].
    destruct (soa_exact s now (dotted [txt "_synth"]) [] HS) as (ns & E & N & A); [exists [txt "_synth"]; split; [apply plain_name; [repeat constructor|vm_compute; discriminate]|reflexivity]|constructor|vm_compute; discriminate|].
    rewrite E. eexists. split; [reflexivity|]. split; [|auto]. repeat (split; [reflexivity|]). split; [intros _; auto|]. intros ? ? X. discriminate.
  - change (zlen [a; top] =? 1) with false. cbv iota. cbn [last] in *. rewrite En. assert (Lt : zlen top = 6) by (apply (f_equal zlen) in Sy; rewrite zlen_map in Sy; exact Sy).
    assert (Ld : zlen (dotted [a; top]) = zlen a + 8) by (unfold dotted; cbn [map concat]; rewrite !zlen_app, Lt; change (zlen [46]) with 1; change (zlen (@nil Z)) with 0; lia).
    destruct (Z.leb_spec 56 (zlen a)) as [G|G].
    { rewrite (label_from_over 64 [a; top] (-2) [] a [top] P eq_refl eq_refl) by lia. split; [reflexivity|]. intros N. exfalso. apply N. exists a, top. auto. }
    rewrite (label_from_dotted 64 [a; top] (-2) [] a [top] P eq_refl eq_refl) by lia. cbn [obind].
    pose proof (synth_name_exact true a [top] P) as X. cbv zeta in X. destruct X as [X1 X2].
    assert (St : forall b ds, a = 95 :: b -> digits b ds -> forall f ip, stands a f ip -> In (zlen b) [7; 26; 27]).
    { intros b ds -> _ f ip (b' & ds' & E & _ & C & _). injection E as <-. cbn [In] in *. intuition lia. }
    destruct (stands_iff a) as [(b & ds & Ea & Nb & D)|C].
    + destruct (X1 b ds Ea D) as (data & Bd & Ld2 & Vd & R). assert (Lb1 : zlen b <> 1).
      { intros E1. apply Na. destruct b as [|c [|c' b]]; [contradiction| |rewrite !zlen_cons in E1; pose proof (zlen_nonneg b); lia]. inversion D as [|? y ? ? Dy Dr]; subst. inversion Dr; subst. exists c, y, top. split; [reflexivity|]. constructor; [exact Dy|constructor]. }
      replace (zlen b =? 1) with false in R by lia.
      assert (Ov : overflows [a; top] <-> zlen b = 28).
      { split; [intros (a' & t' & E & _ & [C|(b' & ds' & E2 & _ & C)])|intros C; exists a, top; split; [reflexivity|]; split; [exact Sy|]; right; exists b, ds; auto]; injection E as <- <-; [lia|]. rewrite Ea in E2. injection E2 as <-. exact C. }
      assert (Good : forall f, ((zlen b = 7 /\ f = 1) \/ ((zlen b = 26 \/ zlen b = 27) /\ f = 28)) -> stands a f data).
      { intros f Hf. exists b, ds. split; [exact Ea|]. split; [exact D|]. split; [cbn [In]; lia|]. split; [exact Bd|exact Vd]. }
      assert (Vn : valid_name (dotted [a; top])) by (exists [a; top]; auto).
      assert (Cn : clean_name (dotted [a; top])).
      { unfold dotted. cbn [map concat]. rewrite app_nil_r, Ea. apply Forall_app. split; [|apply Forall_app; split; [eapply Forall_impl; [|exact Cl]; auto|constructor; auto]]. apply Forall_app. split; [|constructor; auto].
        constructor; [left; unfold clean_char; cbn [In]; lia|]. apply digits_clean in D. eapply Forall_impl; [|exact D]. auto. }
      assert (Fin : forall f, stands a f data -> f = 1 \/ f = 28 -> pointer_to_ip true (dotted [a; top]) = Ok (Some (f, data)) -> exists m, obind (pointer_to_ip true (dotted [a; top])) (fun o => match o with
          | None => Ok (build 0 0 [] [] [])
          | Some (family, ip) => let matches := if q_type q =? 255 then true else if q_type q =? 1 then family =? 1 else if q_type q =? 28 then family =? 28 else false in
             if negb matches then with_soa s now (to_empty (dotted [a; top]) (if family =? 1 then type_map_a else type_map_aaaa) [])
             else obind (sign_zsk s now [] family) (fun ar => Ok (build 0 (Z.shiftl 1 10) (rrs_push [] (named (new_rr family 21600 [VBytes ip]) (dotted [a; top]))) [] ar)) end) = Ok m /\ synthesized s now [a; top] (q_type q) m /\ answer_ok m /\ m_qd m = [] /\ m_edns m = edns_init).
      { intros f Sf Hf ->. cbn [obind]. cbv zeta. set (mt := if q_type q =? 255 then true else _). assert (Hm : mt = true <-> q_type q = 255 \/ q_type q = f).
        { unfold mt. destruct (Z.eqb_spec (q_type q) 255); [tauto|]. destruct (Z.eqb_spec (q_type q) 1); [destruct (Z.eqb_spec f 1); intuition lia|]. destruct (Z.eqb_spec (q_type q) 28); [destruct (Z.eqb_spec f 28); intuition lia|]. split; [discriminate|]. lia. }
        destruct mt; cbn [negb].
        - destruct (signs_nothing s now f [] HS (or_introl eq_refl)) as [E _]. rewrite E. cbn [obind]. rewrite named_clean by auto. eexists. split; [reflexivity|]. split; [|split; [|auto]].
          + repeat (split; [reflexivity|]). split; [discriminate|]. intros a' t' Ex. injection Ex as <- <-. split; [intros N; exfalso; eapply N; exact Sf|]. intros f' ip' S'. destruct (stands_det _ _ _ _ _ Sf S') as [<- <-]. split; [intros _; auto|]. intros N1 N2. exfalso. destruct (proj1 Hm eq_refl); contradiction.
          + split; [cbn; lia|]. split; [cbn; lia|]. split; [cbn; lia|]. cbn [m_an m_ns m_ar build]. change (rrs_push [] ?x) with [x]. split; [split; [discriminate|split; discriminate]|]. split; [|split; constructor]. constructor; [|constructor].
            destruct Sf as (b' & ds' & _ & _ & Cf & _). apply rr_ok; [exact Vn|lia|lia| |].
            * destruct Hf as [-> | ->]; [change (layout 1) with [KFix 4]|change (layout 28) with [KFix 16]]; (constructor; [|constructor]); cbn [field_ok]; unfold zlen in Cf; (split; [exact Bd|lia]).
            * destruct Hf as [-> | ->]; [change (layout 1) with [KFix 4]|change (layout 28) with [KFix 16]]; cbn [fields_size field_size]; lia.
        - set (tm := if f =? 1 then type_map_a else type_map_aaaa). assert (Etm : to_empty (dotted [a; top]) tm [] = [nsec (dotted [a; top]) tm]) by (unfold to_empty; now rewrite named_clean by auto). rewrite Etm.
          destruct (soa_exact s now (dotted [a; top]) tm HS Vn) as (ns & E & N & A); [unfold tm; destruct (f =? 1); apply bytes_ok_check; vm_compute; reflexivity|unfold tm; destruct (f =? 1); vm_compute; discriminate|]. rewrite E. eexists. split; [reflexivity|]. split; [|auto].
          repeat (split; [reflexivity|]). split; [discriminate|]. intros a' t' Ex. injection Ex as <- <-. split; [intros No; exfalso; eapply No; exact Sf|]. intros f' ip' S'. destruct (stands_det _ _ _ _ _ Sf S') as [<- <-].
          split; [intros Ht; apply Hm in Ht; discriminate|]. intros _ _. repeat (split; [reflexivity|]). exists (skipn 2 tm). split; [replace (0 :: zlen (skipn 2 tm) :: skipn 2 tm) with tm by (unfold tm; destruct (f =? 1); reflexivity); exact N|].
          unfold tm. destruct Hf as [-> | ->]; [change (1 =? 1) with true|change (28 =? 1) with false]; cbv iota; [apply (types_map [1; 46; 47])|apply (types_map [24; 46; 47])]; try (vm_compute; reflexivity); repeat (constructor; [lia|]); constructor. }
      destruct (Z.eqb_spec (zlen b) 7) as [E7|E7]; [split; [intros O; apply Ov in O; lia|]; intros _; apply (Fin 1); auto|].
      destruct ((zlen b =? 26) || (zlen b =? 27)) eqn:E26; [split; [intros O; apply Ov in O; lia|]; intros _; apply (Fin 28); auto; apply Good; lia|]. rewrite andb_true_r in R.
      destruct (Z.eqb_spec (zlen b) 28) as [E28|E28]; rewrite R; cbn [obind]; [split; [reflexivity|]; intros N; exfalso; apply N; now apply Ov|]. split; [intros O; apply Ov in O; lia|]. intros _. eexists. split; [reflexivity|]. split; [|auto].
      repeat (split; [reflexivity|]). split; [discriminate|]. intros a' t' Ex. injection Ex as <- <-. split; [auto|]. intros f ip Sf. specialize (St b ds Ea D f ip Sf). cbn [In] in St. exfalso. lia.
    + rewrite (X2 C). cbn [obind]. assert (Ns : forall f ip, ~ stands a f ip). { intros f ip (b & ds & E & D & Cc & _). eapply C; eauto. intros ->. change (zlen (@nil Z)) with 0 in Cc. cbn [In] in Cc. lia. }
      split; [intros (a' & t' & E & _ & [O|(b & ds & E2 & D & O)]); injection E as <- <-; [lia|]; exfalso; eapply C; eauto; intros ->; discriminate O|]. intros _. eexists. split; [reflexivity|]. split; [|auto].
      repeat (split; [reflexivity|]). split; [discriminate|]. intros a' t' Ex. injection Ex as <- <-. split; [auto|]. intros f ip Sf. exfalso. eapply Ns; exact Sf.
  - exfalso. rewrite !zlen_cons in Lz. pose proof (zlen_nonneg ls). lia.
Qed.

Lemma asks_exact data : bytes_ok data -> exists o, req_create data = Ok o /\ (o = None -> forall q ls, ~ asks data q ls) /\
  forall q, o = Some q -> (exists ls, asks data q ls) /\ forall ls, asks data q ls -> pname ls /\ q_name q = dotted ls /\ q_labels q = zlen ls /\ q_tld q = map low (last ls []) /\ Forall clean_char (last ls []) /\ req_ok q.
Proof.
  intros B. destruct (req_exact data B) as (o & E & X). exists o. split; [exact E|]. split.
  - intros -> q ls (m & ty & cl & D & Q & Er). assert (Y : None = Some q) by (apply X; eauto 10). discriminate.
  - intros q ->. split; [destruct (proj1 (X q) eq_refl) as (m & ls & ty & cl & D & Q & Er); exists ls, m, ty, cl; auto|].
    intros ls (m & ty & cl & D & Q & Er). destruct (recorded_ok data q B E) as [Rq _]. subst q. destruct Q as (_ & _ & _ & _ & P & _ & Cl). cbn. auto 10.
Qed.
Lemma asks_one data q q' ls ls' : asks data q ls -> asks data q' ls' -> q = q' /\ ls = ls'.
Proof.
  intros (m & ty & cl & D & Q & ->) (m' & ty' & cl' & D' & Q' & ->). rewrite D in D'. apply Ok_inj, some_inj in D'. subst m'. destruct Q as (_ & _ & _ & _ & P & Q & _), Q' as (_ & _ & _ & _ & P' & Q' & _). rewrite Q in Q'. injection Q' as E -> ->.
  apply dotted_inj in E; [|apply P|apply P']. subst ls'. auto.
Qed.
Lemma get_exact c t q ls : cache_ok c -> pname ls -> q_name q = dotted ls -> Forall clean_char (last ls []) -> ~ aborts ls ->
  exists o c', cache_get c (t_get t) q = Ok (o, c') /\ looked c t q c' /\ cache_ok c' /\ (forall m, o = Some m <-> hit c (t_get t) q m) /\ (forall m, o = Some m -> msg_sound m).
Proof.
  intros Ck P En Cl A. destruct (get_total c (t_get t) ls (q_type q) P Cl) as [_ G]. destruct (G A) as (ow & c' & E & X & Y). unfold cache_get, looked, hit. rewrite En, E. cbn [obind].
  assert (Ck' : cache_ok c') by (intros k it H; apply (Ck k); now apply Y). destruct ow as [w|].
  - destruct (proj1 (X w) eq_refl) as (k & it & Ek & Eh & Ew & Lt). assert (B : bytes_ok w) by (rewrite <- Ew; now apply (Ck k)). destruct (decode_total w B) as (om & Dm & _ & Dw). rewrite Dm. cbn [obind]. exists om, c'. split; [reflexivity|]. split; [eauto|]. split; [exact Ck'|]. split.
    + intros m. split; [intros ->; exists k, it; rewrite Ew; auto|]. intros (k' & it' & Ek' & Eh' & _ & D'). rewrite Ek in Ek'. apply Ok_inj, some_inj in Ek'. subst k'. rewrite Eh in Eh'. apply some_inj in Eh'. subst it'. rewrite Ew, Dm in D'. now apply Ok_inj in D'.
    + intros m ->. eapply decoded_sound. now apply Dw.
  - exists None, c'. split; [reflexivity|]. split; [eauto|]. split; [exact Ck'|]. split; [|discriminate]. intros m. split; [discriminate|]. intros (k & it & Ek & Eh & Lt & _). assert (Z0 : None = Some (i_msg it)) by (apply X; eauto 10). discriminate.
Qed.
Lemma keep_exact v c mem t q ls m : req_ok q -> pname ls -> q_name q = dotted ls -> Forall clean_char (last ls []) -> ~ aborts ls -> answer_ok m -> m_qd m = [] -> m_edns m = edns_init ->
  exists c' fx, keep v c mem t q m = Ok (c', fx) /\ kept c mem t q m c' /\ replied v q m fx.
Proof.
  intros Rq P En Cl A Ok_ Qd Ed. destruct (encode_answer m Ok_) as (w & Ew & Bw); [rewrite Qd; constructor|rewrite Ed; unfold edns_sound, edns_init; cbn; repeat split; try lia; constructor|].
  destruct (insert_total c mem (t_old t) (t_new t) ls (q_type q) w P Cl A) as (ok & c' & Ei). destruct (answer_exact v q m (answer_sound _ Ok_) Rq) as (fx & Ef & R). exists c', fx. unfold keep, cache_insert, kept. rewrite En, Ew. cbn [obind]. rewrite Ei. cbn [obind]. rewrite Ef. cbn [obind]. split; [reflexivity|]. split; [|exact R]. split; [exact Qd|]. split; [exact Ed|]. exists w, ok. auto.
Qed.
Lemma reserved_exact top : existsb (beq top) reserved = true <-> closed top.
Proof.
  unfold closed. change [txt "bit"; txt "eth"; txt "exit"; txt "gnu"; txt "i2p"; txt "onion"; txt "tor"; txt "zkey"] with reserved. rewrite existsb_exists. split; [intros (x & I & E); apply beq_true_iff in E; now subst x|]. intros I. exists top. split; [exact I|apply beq_refl].
Qed.
Lemma nx_made s now : sec_ok s -> exists m, to_nx s now = Ok m /\ denied s now m /\ answer_ok m /\ m_qd m = [] /\ m_edns m = edns_init.
Proof.
  intros HS. destruct (nx_exact s now HS) as (m & types & E & C & Op & Fl & Qd & An & Ar & N & T & A). exists m. split; [exact E|]. split; [unfold denied; repeat (split; [assumption|]); exists types; auto|]. split; [exact A|]. split; [exact Qd|].
  unfold to_nx in E. destruct (sign_zsk s now _ 47) as [l1| | |]; cbn [obind] in E; try discriminate. destruct (sign_zsk s now _ 6) as [l2| | |]; cbn [obind] in E; try discriminate. apply Ok_inj in E. now subst m.
Qed.
Lemma root_edns s now type ip m : root s now type ip = Ok m -> m_qd m = [] /\ m_edns m = edns_init.
Proof.
  unfold root. intros E. repeat match type of E with
  | (if ?b then _ else _) = _ => destruct b
  | obind ?x _ = Ok _ => destruct x; cbn [obind] in E; try discriminate E
  | match ?x with _ => _ end = _ => destruct x; try discriminate E
  end; apply Ok_inj in E; subst m; auto.
Qed.

(** ** C39: which datagrams end the process; C38: what is done for the others *)
Theorem query_handled v n c mem t client rc data : server_ok v -> node_ok n -> cache_ok c -> bytes_ok data -> bytes_ok client -> length client = 16%nat ->
  let r := recv v n c mem t client rc data in
  ((forall q ls, ~ asks data q ls) -> r = Ok (c, [])) /\
  forall q ls, asks data q ls -> (crashes v c (t_get t) q ls -> r = Abort \/ r = Ub) /\ (~ crashes v c (t_get t) q ls -> exists c' fx, r = Ok (c', fx) /\ handled v n mem t client rc q ls c c' fx).
Proof.
  intros [HS Hip] Hn Ck B Bc Lc r. unfold r, recv. clear r. destruct (asks_exact data B) as (o & E & E0 & E1). rewrite E. cbn [obind]. destruct o as [q|].
  2:{ split; [reflexivity|]. intros q ls A. exfalso. exact (E0 eq_refl q ls A). }
  destruct (E1 q eq_refl) as [(ls0 & A0) E2]. split; [intros N; exfalso; exact (N q ls0 A0)|]. intros q' ls A. destruct (asks_one _ _ _ _ _ A0 A) as [<- <-]. clear A.
  rename ls0 into ls. destruct (E2 ls A0) as (P & En & El & Et & Cl & Rq). clear E E0 E1 E2.
  assert (Da : aborts ls \/ ~ aborts ls).
  { destruct ls as [|[|x [|y [|z l]]] [|top [|w ls]]]; try (right; intros (c0 & d0 & t0 & X & _); discriminate X). destruct (Z.eq_dec x 95) as [->|Nx]; [|right; intros (c0 & d0 & t0 & X & _); injection X as X _ _; contradiction].
    destruct (digits_dec [y]) as [[ds D]|D]; [left; inversion D as [|? d ? ? Dd Dr]; subst; inversion Dr; subst; exists y, d, top; split; [reflexivity|exact D]|right; intros (c0 & d0 & t0 & X & Y); injection X as <- _; eapply D; exact Y]. }
  destruct Da as [Da|Da].
  { split; [intros _; left|intros N; exfalso; apply N; now left]. destruct (get_total c (t_get t) ls (q_type q) P Cl) as [G _]. unfold cache_get. rewrite En, (G Da). reflexivity. }
  destruct (get_exact c t q ls Ck P En Cl Da) as (o & c1 & Eg & Lk & Ck1 & Ho & Hs). rewrite Eg. cbn [obind]. destruct o as [m|].
  { assert (H : hit c (t_get t) q m) by now apply Ho. split; [intros [X|[X _]]; [contradiction|exfalso; exact (X m H)]|]. intros _. destruct (answer_exact v q m (Hs m eq_refl) Rq) as (fx & Ef & R). rewrite Ef. cbn [obind]. exists c1, fx. split; [reflexivity|]. now apply h_cached with (m := m). }
  assert (Ms : missed c (t_get t) q) by (intros m H; apply Ho in H; discriminate). clear Ho Hs Eg.
  destruct ((q_class q =? 4) && (q_type q =? 16)) eqn:Eq.
  { assert (Nq : node_question q) by (split; lia). split; [intros [X|[_ [X _]]]; contradiction|]. intros _. pose proof (local_exact client Bc Lc) as Lo. destruct (is_local client); cbn [negb].
    - rewrite En. destruct (node_told n ls Hn P) as (l1 & l2 & t1 & m & _ & _ & _ & Eh & _ & _ & _ & _ & _ & _ & Am). rewrite Eh. cbn [obind]. destruct (answer_exact v q m (answer_sound _ Am) Rq) as (fx & Ef & R). rewrite Ef. cbn [obind]. exists c1, fx. split; [reflexivity|]. apply h_node with (m := m); auto. now apply Lo.
    - exists c1, []. split; [reflexivity|]. apply h_away; auto. intros X. apply Lo in X. discriminate. }
  assert (Nq : ~ node_question q) by (intros [X Y]; rewrite X, Y in Eq; discriminate). clear Eq.
  rewrite Et, El. assert (Cr : crashes v c (t_get t) q ls <-> overflows ls \/ (ls = [] /\ v_ip v = None /\ In (q_type q) [2; 255; 6])) by (unfold crashes; tauto).
  destruct (beq (map low (last ls [])) (txt "_synth") && (zlen ls <=? 2)) eqn:Es.
  { apply andb_true_iff in Es as [Es Lz]. apply beq_true_iff in Es. assert (Sy : synth_name ls) by (split; [lia|exact Es]). destruct (synth_exact (v_sec v) (t_make t) q ls HS P En El Et Cl Sy Da) as [S1 S2].
    assert (Nn : ls <> []) by (intros ->; discriminate Es). split.
    - intros C. apply Cr in C as [C|[C _]]; [|contradiction]. rewrite (S1 C). right. reflexivity.
    - intros C. assert (No : ~ overflows ls) by (intros X; apply C, Cr; now left). destruct (S2 No) as (m & Em & Sm & Am & _). rewrite Em. cbn [obind]. destruct (answer_exact v q m (answer_sound _ Am) Rq) as (fx & Ef & R). rewrite Ef. cbn [obind]. exists c1, fx. split; [reflexivity|]. now apply h_synth with (m := m). }
  assert (Ns : ~ synth_name ls) by (intros [X Y]; apply (beq_true_iff (map low (last ls []))) in Y; rewrite Y in Es; cbn [andb] in Es; lia).
  assert (No : ~ overflows ls) by (intros (a & top & -> & Y & _); apply Ns; split; [unfold zlen; cbn; lia|exact Y]). clear Es.
  destruct (Z.ltb_spec 0 (zlen ls)) as [L0|L0].
  - assert (Nn : ls <> []) by (intros ->; change (zlen (@nil (list Z))) with 0 in L0; lia). assert (C : ~ crashes v c (t_get t) q ls) by (intros X; apply Cr in X as [X|[X _]]; contradiction). split; [contradiction|]. intros _.
    pose proof (reserved_exact (map low (last ls []))) as Re. destruct (existsb (beq (map low (last ls []))) reserved).
    + destruct (nx_made (v_sec v) (t_make t) HS) as (m & Em & Dm & Am & Qd & Ed). rewrite Em. cbn [obind]. destruct (keep_exact v c1 mem t q ls m Rq P En Cl Da Am Qd Ed) as (c' & fx & Ek & K & R). rewrite Ek. exists c', fx. split; [reflexivity|]. apply h_closed with (c1 := c1) (m := m); auto. now apply Re.
    + assert (Nc : ~ closed (map low (last ls []))) by (intros X; apply Re in X; discriminate). destruct (Z.eqb_spec rc 0) as [R0|R0].
      * exists c1, [Ask (map low (last ls [])) q]. split; [reflexivity|]. apply h_asked; auto. contradiction.
      * destruct (refuse_exact v q Rq) as (fx & Ef & R). rewrite Ef. cbn [obind]. exists c1, (Ask (map low (last ls [])) q :: fx). split; [reflexivity|]. apply h_asked; auto. contradiction.
  - assert (Nn : ls = []) by (destruct ls as [|l ls]; [reflexivity|rewrite zlen_cons in L0; pose proof (zlen_nonneg ls); lia]).
    assert (Fin : forall m, root (v_sec v) (t_make t) (q_type q) (v_ip v) = Ok m -> answer_ok m -> (forall ip, v_ip v = Some ip -> root_answered (v_sec v) (t_make t) (q_type q) ip m) ->
       exists c' fx, obind (root (v_sec v) (t_make t) (q_type q) (v_ip v)) (keep v c1 mem t q) = Ok (c', fx) /\ handled v n mem t client rc q ls c c' fx).
    { intros m Em Am Rm. destruct (root_edns _ _ _ _ _ Em) as [Qd Ed]. destruct (keep_exact v c1 mem t q ls m Rq P En Cl Da Am Qd Ed) as (c' & fx & Ek & K & R). rewrite Em. cbn [obind]. rewrite Ek. exists c', fx. split; [reflexivity|]. apply h_root with (c1 := c1) (m := m); auto. intros Hv. rewrite Hv in Em. exact Em. }
    destruct (v_ip v) as [ip|] eqn:Ev.
    + split; [intros C; apply Cr in C as [C|(_ & C & _)]; [contradiction|discriminate]|]. intros _. destruct (Hip ip eq_refl) as [Bi Li]. destruct (root_is_answered (v_sec v) (t_make t) (q_type q) ip HS Bi Li) as (m & Em & Rm & Am). apply (Fin m); auto. intros ip' X. apply some_inj in X. now subst ip'.
    + pose proof (root_without_address (v_sec v) (t_make t) (q_type q) HS) as Rw. split.
      * intros C. apply Cr in C as [C|(_ & _ & C)]; [contradiction|]. apply Rw in C. rewrite C. left. reflexivity.
      * intros C. assert (Nt : ~ In (q_type q) [2; 255; 6]) by (intros X; apply C, Cr; right; auto). assert (Em : exists m, root (v_sec v) (t_make t) (q_type q) None = Ok m /\ answer_ok m).
        { destruct (root_is_answered (v_sec v) (t_make t) (q_type q) (repeat 0 16) HS) as (m & Em & _ & Am); [apply Forall_repeat; unfold is_byte; lia|reflexivity|]. exists m. split; [|exact Am]. cbn [In] in Nt. revert Em. unfold root. replace (q_type q =? 255) with false by lia. replace (q_type q =? 2) with false by lia. replace (q_type q =? 6) with false by lia. auto. }
        destruct Em as (m & Em & Am). apply (Fin m); auto. discriminate.
Qed.
Print Assumptions query_handled.
