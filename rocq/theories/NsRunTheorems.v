(** C27, C38, C39, C40: results of lookups, and runs of the name server. *)
From Coq Require Import String Sorted.
From Verif Require Import Common CommonFacts ProofFacts Assoc BioModel BioFacts UtilTheorems Base32Model DateModel DnsNameModel DnsNameSpec DnsNameFacts DnsNameTheorems DnsMsgModel DnsMsgSpec DnsMsgFacts DnsMsgDecode DnsMsgTheorems ReqModel ReqTheorems DnsMsgTotal Sig0Model Sig0Theorems ResourceModel ResourceTheorems DnssecModel DnssecTheorems AnswerModel AnswerTheorems AnswerTotal CacheModel CacheTheorems HesiodModel HesiodTheorems TldNames NsModel NsTable NsTheorems.

(** ** Specification: results *)
(** The resource used: the one proved, or else the one of the table *)
Inductive source (l : list (list Z * list Z)) (name : list Z) (found : bool) (data : list Z) : option (list Z) -> Prop :=
| so_proved : found = true -> data <> [] -> source l name found data (Some data)
| so_listed raw : found = false \/ data = [] -> listed l name raw -> source l name found data (Some raw)
| so_none : found = false \/ data = [] -> (forall raw, ~ listed l name raw) -> source l name found data None.
(** What is done with a result for the request [q] for [ls] *)
Inductive resolved (v : server) (mem : bool) (t : clock) (q : req) (ls : list (list Z)) (c : cache) : Z -> option (list Z) -> cache -> list effect -> Prop :=
| r_failed status o fx : status <> 0 -> refused v q fx -> resolved v mem t q ls c status o c fx
| r_bad raw fx : decode raw = Ok None -> refused v q fx -> resolved v mem t q ls c 0 (Some raw) c fx
| r_missing m c' fx : denied (v_sec v) (t_make t) m -> answer_ok m -> kept c mem t q m c' -> replied v q m fx -> resolved v mem t q ls c 0 None c' fx
| r_found raw rs m c' fx : decode raw = Ok (Some rs) -> answered (v_sec v) (t_make t) rs ls (q_type q) m -> answer_ok m -> kept c mem t q m c' -> replied v q m fx -> resolved v mem t q ls c 0 (Some raw) c' fx.
(** Resources that end the process *)
Definition breaks (raw : list Z) (ls : list (list Z)) (type : Z) : Prop :=
  decode raw = Ub \/ exists rs, decode raw = Ok (Some rs) /\ ((exists r, In r rs /\ unread r) \/ ((exists r, In r rs /\ nameless r) /\ ~ strings_only rs ls type /\ ~ keys_only rs ls type)).

(** ** Results *)
Lemma dns_edns s now rs name type m : to_dns s now rs name type = Ok (Some m) -> m_qd m = [] /\ m_edns m = edns_init.
Proof.
  unfold to_dns. intros E. repeat (try discriminate E; match type of E with
  | (if ?b then _ else _) = _ => destruct b
  | obind ?x _ = Ok _ => let p := fresh "p" in destruct x as [p| | |]; cbn [obind] in E; try discriminate E; try (destruct p as [[? ?] ?]); try (destruct p as [? ?])
  | Ok (Some _) = Ok (Some _) => apply Ok_inj, some_inj in E; subst m; split; reflexivity
  | (let x := _ in _) = _ => cbv zeta in E
  end).
Qed.
Lemma free_breaks rs : (exists r, In r rs /\ unread r) -> resource_free rs = Ub \/ resource_free rs = Abort.
Proof.
  intros (r & I & l & t & -> & It & N). assert (X : resource_free rs <> Ok tt) by (intros E; destruct (proj1 (free_exact rs) E l I t It) as [b Eb]; exact (N b Eb)).
  assert (K : forall l, txts_free l = Ok tt \/ txts_free l = Ub \/ txts_free l = Abort) by (clear; induction l as [|[b| |] l IH]; cbn [txts_free]; auto).
  clear I It N. revert X. induction rs as [|r rs IH]; cbn [resource_free]; [contradiction|]. destruct r as [tag alg dt g|n|n ip|n ip|ip|ip|l']; cbn [record_free obind]; auto. destruct (K l') as [-> | [-> | ->]]; cbn [obind]; auto.
Qed.
Lemma aborts_dec ls : aborts ls \/ ~ aborts ls.
Proof.
  destruct ls as [|[|x [|y [|z l]]] [|top [|w ls]]]; try (right; intros (c0 & d0 & t0 & X & _); discriminate X). destruct (Z.eq_dec x 95) as [->|Nx]; [|right; intros (c0 & d0 & t0 & X & _); injection X as X _ _; contradiction].
  destruct (digits_dec [y]) as [[ds D]|D]; [left; inversion D as [|? d ? ? Dd Dr]; subst; inversion Dr; subst; exists y, d, top; split; [reflexivity|exact D]|right; intros (c0 & d0 & t0 & X & Y); injection X as <- _; eapply D; exact Y].
Qed.
(** Every result of a lookup that was asked for is treated so; it ends the process
    exactly when the resource does. *)
Theorem result_handled v l c mem t q ls data0 name status found data raw : server_ok v -> table v l -> Forall (fun e => bytes_ok (snd e)) l -> bytes_ok data0 -> asks data0 q ls -> ls <> [] -> ~ aborts ls -> bytes_ok data -> source l name found data raw ->
  let r := after_resolve v c mem t q name status found data in
  let bad := status = 0 /\ exists b, raw = Some b /\ breaks b ls (q_type q) in
  (bad -> r = Abort \/ r = Ub) /\ (~ bad -> exists c' fx, r = Ok (c', fx) /\ resolved v mem t q ls c status raw c' fx).
Proof.
  intros [HS _] Tb Bl B0 As Nn Na Bd So r bad. unfold r, bad. clear r bad. destruct (asks_exact data0 B0) as (o & E & E0 & E1). destruct o as [q'|]; [|exfalso; exact (E0 eq_refl q ls As)]. destruct (E1 q' eq_refl) as [(ls0 & A0) E2]. destruct (asks_one _ _ _ _ _ A0 As) as [-> ->]. destruct (E2 ls As) as (P & En & El & Et & Cl & Rq). clear E E0 E1 E2 A0.
  unfold after_resolve. destruct (Z.eqb_spec status 0) as [->|Ns]; cbn [negb].
  2:{ split; [intros [X _]; contradiction|]. intros _. cbn [obind]. unfold respond. replace (status =? 0) with false by lia. cbn [negb obind]. destruct (refuse_exact v q Rq) as (fx & Ef & R). rewrite Ef. cbn [obind]. exists c, fx. split; [reflexivity|]. now apply r_failed. }
  destruct (table_searched v l name Tb) as (T1 & T2 & _).
  assert (Src : (if negb found || (zlen data =? 0) then match icann_lookup v name with None => Ok (0, None) | Some item => obind (item_data item) (fun raw => obind (decode raw) (fun o => Ok (match o with None => (3, None) | Some rs => (0, Some rs) end))) end
      else obind (decode data) (fun o => Ok (match o with None => (3, None) | Some rs => (0, Some rs) end))) =
    match raw with None => Ok (0, None) | Some b => obind (decode b) (fun o => Ok (match o with None => (3, None) | Some rs => (0, Some rs) end)) end).
  { assert (F : found = false \/ data = [] -> negb found || (zlen data =? 0) = true) by (intros [->| ->]; [reflexivity|apply orb_true_r]). inversion So as [Hf Hd|b Hn Hl|Hn Hl]; subst.
    - destruct data as [|x data]; [contradiction|]. rewrite zlen_cons. pose proof (zlen_nonneg data). replace (1 + zlen data =? 0) with false by lia. reflexivity.
    - rewrite F by exact Hn. apply T1 in Hl as (item & -> & D). rewrite D. reflexivity.
    - rewrite F by exact Hn. apply T2 in Hl. rewrite Hl. reflexivity. }
  rewrite Src. clear Src T1 T2. assert (Br : forall b, raw = Some b -> bytes_ok b).
  { intros b ->. inversion So as [Hf Hd|b' Hn Hl|]; subst; [exact Bd|]. destruct Hl as (n & I & _). rewrite Forall_forall in Bl. exact (Bl _ I). }
  destruct raw as [b|].
  2:{ split; [intros (_ & b & X & _); discriminate|]. intros _. cbn [obind]. unfold respond. change (0 =? 0) with true. cbn [negb]. destruct (nx_made (v_sec v) (t_make t) HS) as (m & Em & Dm & Am & Qd & Ed). rewrite Em. cbn [obind]. destruct (keep_exact v c mem t q ls m Rq P En Cl Na Am Qd Ed) as (c' & fx & Ek & K & R). rewrite Ek. exists c', fx. split; [reflexivity|]. now apply r_missing with m. }
  specialize (Br b eq_refl). destruct (decode_safe_partial b Br) as [(o & D & Dr)|[D _]].
  2:{ rewrite D. cbn [obind]. split; [auto|]. intros X. exfalso. apply X. split; [reflexivity|]. exists b. split; [reflexivity|]. now left. }
  rewrite D. cbn [obind]. destruct o as [rs|].
  2:{ split; [intros (_ & b' & X & [Y|(rs & Y & _)]); apply some_inj in X; subst b'; congruence|]. intros _. unfold respond. change (3 =? 0) with false. cbn [negb obind]. destruct (refuse_exact v q Rq) as (fx & Ef & R). rewrite Ef. cbn [obind]. exists c, fx. split; [reflexivity|]. now apply r_bad. }
  destruct (Dr rs eq_refl) as (F & L & _). clear Dr. destruct (any_resource_answered (v_sec v) (t_make t) rs ls (q_type q) HS F L P Nn) as (A1 & A2 & A3). unfold respond. change (0 =? 0) with true. cbn [negb]. rewrite En.
  assert (Bk : breaks b ls (q_type q) <-> (exists r, In r rs /\ unread r) \/ ((exists r, In r rs /\ nameless r) /\ ~ strings_only rs ls (q_type q) /\ ~ keys_only rs ls (q_type q))).
  { split; [intros [X|(rs' & X & Y)]; [congruence|]; rewrite D in X; apply Ok_inj, some_inj in X; now subst rs'|]. intros X. right. eauto. }
  assert (Stop : ((exists r, In r rs /\ unread r) \/ ((exists r, In r rs /\ nameless r) /\ ~ strings_only rs ls (q_type q) /\ ~ keys_only rs ls (q_type q))) \/ ~ ((exists r, In r rs /\ unread r) \/ ((exists r, In r rs /\ nameless r) /\ ~ strings_only rs ls (q_type q) /\ ~ keys_only rs ls (q_type q)))).
  { destruct (some_dec unread unread_dec rs) as [U|U]; [left; now left|]. destruct (cases_covered rs ls (q_type q)) as [[X Y]|[(X & Y & Z)|X]]; cbv zeta in *.
    - destruct Y as (r & I & Y). exfalso. exact (U r I Y).
    - left. right. tauto.
    - right. intros [(r & I & Y)|((r & I & Y) & Y1 & Y2)]; [exact (U r I Y)|]. destruct X as [[X _]|[X|[_ X]]]; [contradiction|contradiction|]. exact (X r I Y). }
  destruct Stop as [St|St].
  - split; [|intros X; exfalso; apply X; split; [reflexivity|]; exists b; split; [reflexivity|now apply Bk]]. intros _.
    assert (G : forall o, (exists r, In r rs /\ unread r) -> (exists m, o = Ok (Some m) /\ answer_ok m /\ m_qd m = [] /\ m_edns m = edns_init) \/ o = Abort \/ o = Ub ->
      let x := obind (obind o (fun o => match o with Some m => keep v c mem t q m | None => obind (refuse v q) (fun fx => Ok (c, fx)) end)) (fun r => obind (resource_free rs) (fun _ => Ok r)) in x = Abort \/ x = Ub).
    { intros o U [(m & -> & Am & Qd & Ed)|[->| ->]]; cbn [obind]; auto. destruct (keep_exact v c mem t q ls m Rq P En Cl Na Am Qd Ed) as (c' & fx & Ek & K & R). rewrite Ek. cbn [obind]. destruct (free_breaks rs U) as [->| ->]; cbn [obind]; auto. }
    destruct St as [U|(N & Y1 & Y2)].
    + apply G; [exact U|]. destruct (cases_covered rs ls (q_type q)) as [[X Y]|[(X & Y & Z)|X]]; cbv zeta in *; [right; right; auto|right; left; auto|]. destruct (A3 X) as (m & Em & _ & Am). rewrite Em. left. exists m. split; [reflexivity|]. split; [exact Am|]. now apply dns_edns in Em.
    + rewrite (A2 Y1 Y2 N). cbn [obind]. auto.
  - split; [intros (_ & b' & X & Y); exfalso; apply some_inj in X; subst b'; now apply St, Bk|]. intros _. destruct (cases_covered rs ls (q_type q)) as [[X Y]|[(X & Y & Z)|X]]; cbv zeta in *; [exfalso; apply St; now left|exfalso; apply St; right; tauto|].
    destruct (A3 X) as (m & Em & An & Am). rewrite Em. cbn [obind]. destruct (dns_edns _ _ _ _ _ _ Em) as [Qd Ed]. destruct (keep_exact v c mem t q ls m Rq P En Cl Na Am Qd Ed) as (c' & fx & Ek & K & R). rewrite Ek. cbn [obind].
    assert (Fr : resource_free rs = Ok tt). { apply free_exact. intros l0 I t0 It. destruct t0 as [x| |]; [eauto| |]; exfalso; apply St; left; eexists; (split; [exact I|]); eexists; eexists; (split; [reflexivity|]); (split; [exact It|discriminate]). }
    rewrite Fr. cbn [obind]. exists c', fx. split; [reflexivity|]. now apply r_found with rs m.
Qed.

(** ** Specification: replies and runs *)
(** A reply to the request [q]: its ID, the QR bit, one of the codes, within the size the
    client allows. Without a SIG(0) key one is always sent. *)
Definition reply_sent (v : server) (q : req) (codes : list Z) (fx : list effect) : Prop := (fx = [] /\ v_sign v <> None) \/
  exists w flags, fx = [Send w] /\ firstn 4 w = be_bytes 2 (q_id q) ++ be_bytes 2 flags /\ 0 <= flags < 65536 /\ Z.testbit flags 15 = true /\ In (flags mod 16) codes /\ zlen w <= q_max q.
(** SIG(0) signing keeps the beginning and adds at most 94 bytes *)
Definition sign_ok (v : server) : Prop := forall f w w', v_sign v = Some f -> bytes_ok w -> f w = Some w' -> firstn 4 w' = firstn 4 w /\ zlen w' <= zlen w + 94.

(** What happens to the server: a datagram arrives, a lookup ends. [n]: the state of the
    node, [rc]: whether the lookup could be started. *)
Inductive event := Query (n : node) (mem : bool) (t : clock) (client : list Z) (rc : Z) (data : list Z) | Result (mem : bool) (t : clock) (q : req) (status : Z) (found : bool) (data : list Z).
Definition event_ok (e : event) : Prop :=
  match e with Query n _ _ client _ data => node_ok n /\ bytes_ok data /\ bytes_ok client /\ length client = 16%nat | Result _ _ _ _ _ data => bytes_ok data end.
Definition started (rc : Z) (fx : list effect) : list req := if rc =? 0 then concat (map (fun f => match f with Ask _ q => [q] | Send _ => [] end) fx) else [].
(** The state: the cache and the requests that wait for a lookup. Each lookup ends once. *)
Inductive step (v : server) : cache * list req -> event -> cache * list req -> list effect -> Prop :=
| s_query n mem t client rc data c p c' fx : recv v n c mem t client rc data = Ok (c', fx) -> step v (c, p) (Query n mem t client rc data) (c', started rc fx ++ p) fx
| s_result mem t q status found data c a b c' fx : after_resolve v c mem t q (q_tld q) status found data = Ok (c', fx) -> step v (c, a ++ q :: b) (Result mem t q status found data) (c', a ++ b) fx.
Inductive runs (v : server) : cache * list req -> list (event * list effect) -> cache * list req -> Prop :=
| run_nil s : runs v s [] s
| run_snoc s l s1 e s2 fx : runs v s l s1 -> event_ok e -> step v s1 e s2 fx -> runs v s (l ++ [(e, fx)]) s2.
Definition sends (fx : list effect) : Z := zlen (filter (fun f => match f with Send _ => true | Ask _ _ => false end) fx).
Definition queries (l : list (event * list effect)) : Z := zlen (filter (fun x => match fst x with Query _ _ _ _ _ _ => true | Result _ _ _ _ _ _ => false end) l).

(** ** Replies *)
Lemma refused_sent v q fx : sign_ok v -> req_ok q -> refused v q fx -> reply_sent v q [2] fx.
Proof.
  intros Hs Rq (o & E & ->). destruct (finalize_total (v_sign v) to_servfail q) as (o' & E' & X); [apply answer_sound, failures_exact|exact Rq|].
  destruct (reply_exact_partial (v_sign v) to_servfail q) as (full & n & out & _ & _ & _ & Ef & _); [apply failures_exact|exact Rq|left; reflexivity|exact I|]. rewrite E in E', Ef. apply Ok_inj in E', Ef.
  destruct (v_sign v) as [f|] eqn:Ev.
  - destruct o' as [out'|]; [|rewrite E'; left; split; [reflexivity|congruence]]. destruct (X out' eq_refl) as (B & L & flags & F & R & T & C). rewrite E'. destruct (f out') as [w|] eqn:Efw; [|left; split; [reflexivity|congruence]]. destruct (Hs f out' w Ev B Efw) as [F4 Lw]. right. exists w, flags. split; [reflexivity|]. split; [congruence|]. split; [exact R|]. split; [exact T|]. split; [|lia]. left. rewrite C. reflexivity.
  - rewrite Ef in E' |- *. destruct o' as [out'|]; [|discriminate]. apply some_inj in E'. subst out'. destruct (X out eq_refl) as (B & L & flags & F & R & T & C). right. exists out, flags. split; [reflexivity|]. split; [exact F|]. split; [exact R|]. split; [exact T|]. split; [|lia]. left. rewrite C. reflexivity.
Qed.
Lemma sent_more v q codes codes' fx : reply_sent v q codes fx -> incl codes codes' -> reply_sent v q codes' fx.
Proof. intros [X|(w & f & A & B & C & D & I & L)] Hi; [now left|]. right. exists w, f. auto 10. Qed.
Theorem replied_sent v q m fx : sign_ok v -> req_ok q -> msg_sound m -> replied v q m fx -> reply_sent v q [m_code m mod 16; 2] fx.
Proof.
  intros Hs Rq Hm (o & E & H). destruct (finalize_total (v_sign v) m q Hm Rq) as (o' & E' & X). rewrite E in E'. apply Ok_inj in E'. destruct o as [w|]; [|eapply sent_more; [apply refused_sent; eauto|intros y [<-|[]]; right; now left]]. subst fx. destruct o' as [out|]; [|discriminate].
  destruct (X out eq_refl) as (B & L & flags & F & R & T & C). right. exists w, flags. split; [reflexivity|]. destruct (v_sign v) as [f|] eqn:Ev.
  - symmetry in E'. destruct (Hs f out w Ev B E') as [F4 Lw]. split; [congruence|]. split; [exact R|]. split; [exact T|]. split; [left; congruence|lia].
  - apply some_inj in E'. subst out. split; [exact F|]. split; [exact R|]. split; [exact T|]. split; [left; congruence|lia].
Qed.
Theorem sig0_meets hash ec_sign now v : (forall d s, ec_sign d = Some s -> length s = 64%nat) -> v_sign v = Some (sig0_sign hash ec_sign now) -> sign_ok v.
Proof.
  intros Sl Ev f w w' E B H. rewrite Ev in E. apply some_inj in E. subst f. destruct (has_sig w) eqn:S.
  - destruct (has_sig_layout w B S) as (h & body & x & count & HL). rewrite (resign_exact hash ec_sign now w h body x count HL) in H. destruct (ec_sign (signed_digest hash now h body count)) as [s|] eqn:Es; [|discriminate]. apply some_inj in H. subst w'. destruct HL as (-> & Lh & Hc & Lx). unfold signed_as.
    split; [rewrite !firstn_app, Lh; reflexivity|]. unfold zlen. rewrite !app_length, (rest_len (now + 21600) (now - 21600) [0; 0] s eq_refl (Sl _ _ Es)), Lx. lia.
  - unfold sig0_sign in H. destruct (Z.ltb_spec (zlen w) 12) as [|L]; [discriminate|]. assert (H' : sig0_sign hash ec_sign now w = Some w') by (unfold sig0_sign; destruct (Z.ltb_spec (zlen w) 12); [lia|exact H]). clear H. unfold zlen in L.
    destruct (carve 10 w) as (h & w1 & -> & Lh); [lia|]. rewrite app_length in L. destruct (carve 2 w1) as (c & body & -> & Lc); [lia|]. assert (B2 : bytes_ok c) by (apply bytes_ok_app in B as [_ B]; now apply bytes_ok_app in B as [B _]). pose proof (be_val_bound c B2) as Hc. rewrite Lc in Hc. change (256 ^ Z.of_nat 2) with 65536 in Hc.
    rewrite (sign_exact hash ec_sign now (h ++ c ++ body) h body (be_val c)) in H'; auto; [|rewrite <- (val_is 2 c _ B2 Lc eq_refl); reflexivity]. destruct (be_val c =? 65535); [discriminate|]. destruct (ec_sign _) as [s|] eqn:Es; [|discriminate]. apply some_inj in H'. subst w'. unfold signed_as.
    split; [rewrite !firstn_app, Lh; reflexivity|]. unfold zlen. rewrite !app_length, (rest_len (now + 21600) (now - 21600) [0; 0] s eq_refl (Sl _ _ Es)), Lc, be_bytes_length. unfold sig_start. cbn [length]. lia.
Qed.

(** ** Runs *)
(** What is stored comes from an answer with code 0 or 3; 3 for the names of [closed]. *)
Definition stored (c : cache) : Prop := forall k it, held c k = Some it -> exists ls0 type0 k0 m, pname ls0 /\ key_set (dotted ls0) type0 = Ok (Some k0) /\ key_equal k k0 = true /\
  msg_encode m = Ok (i_msg it) /\ answer_ok m /\ m_qd m = [] /\ m_edns m = edns_init /\ (m_code m = 0 \/ m_code m = 3) /\ (closed (map low (last ls0 [])) -> m_code m = 3).
(** A request that waits *)
Definition waits (q : req) : Prop := exists data ls, bytes_ok data /\ asks data q ls /\ ls <> [] /\ ~ aborts ls /\ ~ closed (map low (last ls [])).
Lemma stored_ok c : stored c -> cache_ok c.
Proof.
  intros H k it E. destruct (H k it E) as (ls0 & t0 & k0 & m & _ & _ & _ & Em & Am & Qd & Ed & _). destruct (encode_answer m Am) as (w & Ew & B); [rewrite Qd; constructor|rewrite Ed; unfold edns_sound, edns_init; cbn; repeat split; try lia; constructor|]. rewrite Em in Ew. apply Ok_inj in Ew. now rewrite Ew.
Qed.
Lemma looked_held c t q c' k it : looked c t q c' -> held c' k = Some it -> held c k = Some it.
Proof.
  intros (o & E) H. unfold get_data in E. destruct (key_set (q_name q) (q_type q)) as [[k0|]| | |] eqn:Ek; cbn [obind] in E; try discriminate; [|apply Ok_inj in E; pose proof (f_equal snd E) as X; cbn in X; now subst c'].
  destruct (lookup_exact c (t_get t) (q_name q) (q_type q) k0 Ek) as (o' & c2 & E2 & _ & X & _). unfold get_data in E2. rewrite Ek in E2. cbn [obind] in E2. rewrite E in E2. apply Ok_inj in E2. pose proof (f_equal snd E2) as Y. cbn in Y. subst c2. rewrite X in H. match type of H with (if ?b then _ else _) = _ => destruct b end; [discriminate|exact H].
Qed.
Lemma held_place c k k' : place k = place k' -> held c k = held c k'.
Proof.
  intros H. unfold held. induction c as [|[j x] c IH]; [reflexivity|]. cbn [aget]. replace (key_equal k j) with (key_equal k' j); [destruct (key_equal k' j); auto|]. destruct (key_equal k j) eqn:E.
  - apply key_equal_iff. apply key_equal_iff in E. congruence.
  - apply key_equal_false. apply key_equal_false in E. congruence.
Qed.
Lemma kept_held c mem t q m c' k it : kept c mem t q m c' -> held c' k = Some it -> held c k = Some it \/ exists k0, key_set (q_name q) (q_type q) = Ok (Some k0) /\ key_equal k k0 = true /\ msg_encode m = Ok (i_msg it).
Proof.
  intros (_ & _ & w & ok & Ew & Ei) H. destruct (key_set (q_name q) (q_type q)) as [[k0|]| | |] eqn:Ek; try (unfold insert_data in Ei; rewrite Ek in Ei; cbn [obind] in Ei; discriminate).
  2:{ unfold insert_data in Ei. rewrite Ek in Ei. cbn [obind] in Ei. apply Ok_inj in Ei. pose proof (f_equal snd Ei) as X. cbn in X. subst c'. now left. }
  destruct (insertion_exact c mem (t_old t) (t_new t) (q_name q) (q_type q) w k0 Ek) as (ok2 & c2 & E2 & I1 & I2 & _). rewrite Ei in E2. apply Ok_inj in E2. pose proof (f_equal snd E2) as Y. cbn in Y. subst c2.
  assert (D : (exists i, held c k0 = Some i /\ t_old t < i_time i + 21600) \/ ~ exists i, held c k0 = Some i /\ t_old t < i_time i + 21600).
  { destruct (held c k0) as [i|]; [|right; intros (i & X & _); discriminate]. destruct (Z.ltb_spec (t_old t) (i_time i + 21600)); [left; eauto|right; intros (i' & X & Y); apply some_inj in X; subst i'; lia]. }
  destruct D as [D|D]; [destruct (I1 D) as [_ ->]; now left|]. destruct (I2 D) as (_ & I3 & I4 & _). destruct (key_equal k k0) eqn:Ke.
  - right. exists k0. split; [reflexivity|]. split; [exact Ke|]. apply key_equal_iff in Ke. rewrite (held_place c' k k0 Ke), I3 in H. destruct mem; [|discriminate]. apply some_inj in H. subst it. exact Ew.
  - left. apply key_equal_false in Ke. destruct I4 as [I4|[_ I4]]; rewrite (I4 k Ke) in H; [exact H|discriminate].
Qed.
Lemma stored_looked c t q c' : stored c -> looked c t q c' -> stored c'.
Proof. intros H L k it E. apply (H k it). eapply looked_held; eauto. Qed.
Lemma stored_kept c mem t q ls m c' : stored c -> pname ls -> q_name q = dotted ls -> answer_ok m -> m_code m = 0 \/ m_code m = 3 -> (closed (map low (last ls [])) -> m_code m = 3) -> kept c mem t q m c' -> stored c'.
Proof.
  intros H P En Am Hc Hcl K k it E. assert (Qd := proj1 K). assert (Ed := proj1 (proj2 K)). destruct (kept_held _ _ _ _ _ _ _ _ K E) as [X|(k0 & Ek & Ke & Ew)]; [exact (H k it X)|]. exists ls, (q_type q), k0, m. rewrite <- En. auto 12.
Qed.
(** The code of a stored answer is the code of the reply made from it. *)
Lemma ar_code dmp n : forall d m m', ar_read dmp n d m = Ok (Some m') -> m_code m' mod 16 = m_code m mod 16.
Proof.
  induction n as [|n IH]; intros d m m' E; cbn [ar_read] in E; [apply Ok_inj, some_inj in E; now subst m'|]. destruct d as [|x d]; [apply Ok_inj, some_inj in E; now subst m'|]. destruct (rr_read dmp (x :: d)) as [[[r d']|]| | |]; cbn [obind] in E; try discriminate. rewrite (IH _ _ _ E). destruct (r_type r =? 41); [|reflexivity]. unfold set_opt. cbn [m_code].
  change 16 with (2 ^ 4). apply Z.bits_inj'. intros i Hi. destruct (Z.ltb_spec i 4); [|now rewrite !Z.mod_pow2_bits_high by lia]. rewrite !Z.mod_pow2_bits_low, Z.lor_spec, Z.shiftl_spec_low by lia. apply orb_false_r.
Qed.
Lemma decoded_code m w m' : answer_ok m -> m_qd m = [] -> m_edns m = edns_init -> msg_encode m = Ok w -> msg_decode w = Ok (Some m') -> m_code m' mod 16 = m_code m mod 16.
Proof.
  intros Am Qd Ed E D. destruct (encode_total m (answer_sound _ Am)) as (b & Eb & B & L & F); [rewrite Ed; unfold edns_sound, edns_init; cbn; repeat split; try lia; constructor|rewrite Qd; constructor|]. rewrite E in Eb. apply Ok_inj in Eb. subst b.
  assert (W : exists r, w = be_bytes 2 (m_id m) ++ be_bytes 2 (msg_flags m) ++ r) by (exists (skipn 4 w); rewrite app_assoc, <- F; symmetry; apply firstn_skipn). destruct W as (r & ->). clear F.
  unfold msg_decode in D. destruct (read_u16be (be_bytes 2 (m_id m) ++ be_bytes 2 (msg_flags m) ++ r)) as [[id d]|] eqn:R1; [|discriminate]. apply read_u16be_start in R1 as (_ & -> & _ & B1 & _); [|exact B].
  assert (S2 : skipn 2 (be_bytes 2 (m_id m) ++ be_bytes 2 (msg_flags m) ++ r) = be_bytes 2 (msg_flags m) ++ r) by reflexivity. rewrite S2 in D, B1. destruct (read_u16be (be_bytes 2 (msg_flags m) ++ r)) as [[fl d]|] eqn:R2; [|discriminate]. apply read_u16be_start in R2 as (-> & _); [|exact B1].
  pose proof (flags_range m) as Fr. assert (S3 : be_val (firstn 2 (be_bytes 2 (msg_flags m) ++ r)) = msg_flags m) by (change (firstn 2 (be_bytes 2 (msg_flags m) ++ r)) with (be_bytes 2 (msg_flags m)); apply be_val_be_bytes; change (256 ^ Z.of_nat 2) with 65536; lia). rewrite S3 in D.
  repeat (try discriminate D; match type of D with
  | match ?x with _ => _ end = _ => destruct x as [[? ?]|]; try discriminate D
  | obind ?x _ = _ => destruct x as [[[? ?]|]| | |]; cbn [obind] in D; try discriminate D
  end). apply ar_code in D. rewrite D. cbn [m_code]. rewrite <- flags_code.
  change 15 with (Z.ones 4). rewrite Z.land_ones by lia. change (2 ^ 4) with 16. now rewrite Z.mod_mod by lia.
Qed.

Lemma root_code s now type ip m : root s now type ip = Ok m -> m_code m = 0.
Proof.
  unfold root. intros E. repeat (try discriminate E; match type of E with
  | (if ?b then _ else _) = _ => destruct b
  | obind ?x _ = Ok _ => destruct x; cbn [obind] in E; try discriminate E
  | match ?x with _ => _ end = _ => destruct x; try discriminate E
  | Ok _ = Ok _ => apply Ok_inj in E; subst m; reflexivity
  end).
Qed.
Lemma low_char c : pchar c -> pchar (low c).
Proof. unfold pchar, low. intros H. destruct ((65 <=? c) && (c <=? 90)) eqn:E; lia. Qed.
Lemma low_labels ls : Forall plabel ls -> Forall plabel (map (map low) ls).
Proof.
  intros H. apply Forall_forall. intros l I. apply in_map_iff in I as (l0 & <- & I). rewrite Forall_forall in H. destruct (H l0 I) as [L F]. split; [rewrite zlen_map; exact L|]. apply Forall_forall. intros c Ic. apply in_map_iff in Ic as (c0 & <- & Ic). rewrite Forall_forall in F. apply low_char; auto.
Qed.
Lemma low_dotted ls : map low (dotted ls) = dotted (map (map low) ls).
Proof.
  unfold dotted. destruct ls as [|l ls]; [reflexivity|]. change (map (map low) (l :: ls)) with (map low l :: map (map low) ls) at 1. cbv iota. change (map low l :: map (map low) ls) with (map (map low) (l :: ls)). generalize (l :: ls). clear. intros ls. induction ls as [|l ls IH]; [reflexivity|]. cbn [map concat]. rewrite !map_app, IH. reflexivity.
Qed.
Lemma last_low ls : last (map (map low) ls) [] = map low (last ls []).
Proof. induction ls as [|a [|b ls] IH]; [reflexivity|reflexivity|]. cbn [map last] in *. exact IH. Qed.
(** Names that share a place in the cache have the same top-level label. *)
Lemma same_top ls1 ls2 t1 t2 k1 k2 : pname ls1 -> pname ls2 -> key_set (dotted ls1) t1 = Ok (Some k1) -> key_set (dotted ls2) t2 = Ok (Some k2) -> key_equal k1 k2 = true -> map low (last ls1 []) = map low (last ls2 []).
Proof.
  intros P1 P2 E1 E2 K. apply (shared_place ls1 ls2 t1 t2 k1 k2 P1 P2 E1 E2) in K as [(_ & _ & _ & D)|(_ & _ & _ & _ & D)]; [|exact D].
  rewrite !low_dotted in D. apply dotted_inj in D; [|apply low_labels, P1|apply low_labels, P2]. rewrite <- !last_low. now rewrite D.
Qed.
Lemma hit_code c now q ls m : stored c -> pname ls -> q_name q = dotted ls -> hit c now q m -> (m_code m mod 16 = 0 \/ m_code m mod 16 = 3) /\ (closed (map low (last ls [])) -> m_code m mod 16 = 3).
Proof.
  intros H P En (k & it & Ek & Eh & _ & D). destruct (H k it Eh) as (ls0 & t0 & k0 & m0 & P0 & Ek0 & Ke & Em & Am & Qd & Ed & C & Cl). rewrite (decoded_code m0 _ m Am Qd Ed Em D). rewrite En in Ek. pose proof (same_top _ _ _ _ _ _ P P0 Ek Ek0 Ke) as T. split; [destruct C as [-> | ->]; auto|]. intros X. rewrite Cl by (rewrite <- T; exact X). reflexivity.
Qed.
(** What each event does *)
Definition event_done (v : server) (e : event) (fx : list effect) : Prop :=
  match e with
  | Query n mem t client rc data => ((forall q ls, ~ asks data q ls) -> fx = []) /\ forall q ls, asks data q ls ->
      (fx = [] /\ node_question q /\ ~ local client) \/
      (reply_sent v q [0; 2; 3] fx /\ (closed (map low (last ls [])) -> ~ node_question q -> reply_sent v q [2; 3] fx)) \/
      (exists fx', fx = Ask (map low (last ls [])) q :: fx' /\ ls <> [] /\ ~ closed (map low (last ls [])) /\ ~ synth_name ls /\ ~ node_question q /\ (rc = 0 -> fx' = []) /\ (rc <> 0 -> reply_sent v q [2] fx'))
  | Result mem t q status found data => reply_sent v q [0; 2; 3] fx /\ (status <> 0 -> reply_sent v q [2] fx)
  end.
Definition state_ok (s : cache * list req) : Prop := stored (fst s) /\ Forall waits (snd s).
Section Runs.
Variables (v : server) (l : list (list Z * list Z)).
Hypotheses (Hv : server_ok v) (Hsign : sign_ok v) (Ht : table v l) (Hl : Forall (fun e => bytes_ok (snd e)) l).
Lemma source_found name found data : exists raw, source l name found data raw.
Proof.
  assert (D : (found = true /\ data <> []) \/ (found = false \/ data = [])) by (destruct found, data; auto; left; split; [reflexivity|discriminate]). destruct D as [[-> D]|D]; [eexists; now apply so_proved|].
  destruct (table_searched v l name Ht) as (T1 & T2 & T3). destruct (icann_lookup v name) as [item|]; [|exists None; apply so_none; [exact D|now apply T2]]. destruct (T3 item eq_refl) as [raw R]. exists (Some raw). apply so_listed; [exact D|]. apply T1. eauto.
Qed.
Lemma query_done n mem t client rc data c c' fx : stored c -> event_ok (Query n mem t client rc data) -> recv v n c mem t client rc data = Ok (c', fx) ->
  event_done v (Query n mem t client rc data) fx /\ stored c' /\ Forall waits (started rc fx) /\ sends fx + zlen (started rc fx) <= 1.
Proof.
  intros St (Hn & Bd & Bc & Lc) E. destruct (query_handled v n c mem t client rc data Hv Hn (stored_ok c St) Bd Bc Lc) as [Q0 Q1]. cbv zeta in *. rewrite E in Q0, Q1. destruct (asks_exact data Bd) as (o & _ & E0 & E1).
  destruct o as [q|].
  2:{ specialize (E0 eq_refl). specialize (Q0 E0). apply Ok_inj in Q0. pose proof (f_equal fst Q0) as X. pose proof (f_equal snd Q0) as Y. cbn in X, Y. subst c' fx. split; [split; [auto|]; intros q ls A; exfalso; exact (E0 q ls A)|]. split; [exact St|]. unfold started, sends. cbn [map concat filter]. destruct (rc =? 0); split; try constructor; vm_compute; discriminate. }
  destruct (E1 q eq_refl) as [(ls & A) E2]. destruct (E2 ls A) as (P & En & El & Et & Cl & Rq). clear E0 E1 E2 Q0. destruct (Q1 q ls A) as [Qc Q2].
  assert (Nc : ~ crashes v c (t_get t) q ls) by (intros X; destruct (Qc X); discriminate). destruct (Q2 Nc) as (c2 & fx2 & E2 & H). apply Ok_inj in E2. pose proof (f_equal fst E2) as X. pose proof (f_equal snd E2) as Y. cbn in X, Y. subst c2 fx2. clear E2 Q1 Q2 Qc.
  assert (Na : ~ aborts ls) by (intros X; apply Nc; now left).
  assert (One : forall codes, reply_sent v q codes fx -> Forall waits (started rc fx) /\ sends fx + zlen (started rc fx) <= 1).
  { intros codes [[-> _]|(w & f & -> & _)]; unfold started, sends; cbn [map concat filter app]; destruct (rc =? 0); (split; [constructor|vm_compute; discriminate]). }
  assert (Alone : forall B : Prop, (forall q' ls', asks data q' ls' -> q' = q /\ ls' = ls) /\ ((forall q' ls', ~ asks data q' ls') -> B)) by (intros B; split; [intros q' ls' A'; destruct (asks_one _ _ _ _ _ A A'); auto|intros X; exfalso; exact (X q ls A)]).
  assert (Codes : forall m, msg_sound m -> replied v q m fx -> (m_code m mod 16 = 0 \/ m_code m mod 16 = 3) -> (closed (map low (last ls [])) -> ~ node_question q -> m_code m mod 16 = 3) -> stored c' ->
    event_done v (Query n mem t client rc data) fx /\ stored c' /\ Forall waits (started rc fx) /\ sends fx + zlen (started rc fx) <= 1).
  { intros m Sm R C1 C2 Sc. pose proof (replied_sent v q m fx Hsign Rq Sm R) as Rs. split; [|split; [exact Sc|eapply One; exact Rs]]. split; [apply Alone|]. intros q' ls' A'. destruct (asks_one _ _ _ _ _ A A') as [<- <-]. right. left. split.
    - eapply sent_more; [exact Rs|]. intros y [<-|[<-|[]]]; [destruct C1 as [-> | ->]|]; cbn; auto.
    - intros X Y. eapply sent_more; [exact Rs|]. intros y [<-|[<-|[]]]; [rewrite C2 by auto|]; cbn; auto. }
  destruct H as [c' m fx Hh L R|c' M Nq Lo L|c' m fx M Nq Lo Eh Am L R|c' m fx M Nq Sy Sm Am L R|c1 c' m fx M Nq Nn R1 R2 Am L K R|c1 c' m fx M Nq Nn Sy Hc Dm Am L K R|c' fx M Nq Nn Sy Hc L R0 R1].
  - destruct (hit_code c _ q ls m St P En Hh) as [C1 C2]. apply Codes with m; auto; [|eapply stored_looked; eauto].
    destruct (get_exact c t q ls (stored_ok c St) P En Cl Na) as (o & c1 & _ & _ & _ & Ho & Hs). apply (Hs m). apply Ho. exact Hh.
  - split; [split; [auto|]; intros q' ls' A'; destruct (asks_one _ _ _ _ _ A A') as [<- <-]; left; auto|]. split; [eapply stored_looked; eauto|]. unfold started, sends. cbn [map concat filter]. destruct (rc =? 0); split; try constructor; vm_compute; discriminate.
  - destruct (node_told n ls Hn P) as (l1 & l2 & t1 & m' & _ & _ & _ & Eh' & _ & _ & C & _). rewrite Eh in Eh'. apply Ok_inj in Eh'. subst m'. apply Codes with m; auto; [now apply answer_sound|rewrite C; now left|contradiction|eapply stored_looked; eauto].
  - assert (C := proj1 Sm). assert (Ncl : ~ closed (map low (last ls []))) by (destruct Sy as [_ ->]; intros X; cbn in X; repeat (destruct X as [X|X]; [discriminate X|]); exact X). apply Codes with m; auto; [now apply answer_sound|rewrite C; now left|intros X; contradiction|eapply stored_looked; eauto].
  - subst ls. assert (C : m_code m = 0). { destruct (v_ip v) as [ip|]; [exact (proj1 (R1 ip eq_refl))|]. exact (root_code _ _ _ _ _ (R2 eq_refl)). }
    assert (Ncl : ~ closed (map low (last (@nil (list Z)) []))) by (intros X; cbn in X; repeat (destruct X as [X|X]; [discriminate X|]); exact X).
    apply Codes with m; auto; [now apply answer_sound|rewrite C; now left|intros X; contradiction|]. apply (stored_kept c1 mem t q [] m c'); auto; [eapply stored_looked; eauto|intros X; contradiction].
  - assert (C := proj1 Dm). apply Codes with m; auto; [now apply answer_sound|rewrite C; now right|intros; rewrite C; reflexivity|]. apply (stored_kept c1 mem t q ls m c'); auto. eapply stored_looked; eauto.
  - split; [split; [apply Alone|]; intros q' ls' A'; destruct (asks_one _ _ _ _ _ A A') as [<- <-]; right; right; exists fx; repeat (split; [assumption || reflexivity|]); intros X; apply refused_sent; auto|].
    split; [eapply stored_looked; eauto|]. destruct (Z.eq_dec rc 0) as [->|Nr].
    + rewrite (R0 eq_refl). unfold started, sends. cbn [map concat filter app]. change (0 =? 0) with true. cbv iota. split; [|vm_compute; discriminate]. constructor; [|constructor]. exists data, ls. auto 10.
    + destruct (refused_sent v q fx Hsign Rq (R1 Nr)) as [[-> _]|(w & f & -> & _)]; unfold started, sends; cbn [map concat filter app]; replace (rc =? 0) with false by lia; (split; [constructor|vm_compute; discriminate]).
Qed.
Lemma result_done mem t q status found data c c' fx : stored c -> waits q -> bytes_ok data -> after_resolve v c mem t q (q_tld q) status found data = Ok (c', fx) ->
  event_done v (Result mem t q status found data) fx /\ stored c' /\ sends fx <= 1.
Proof.
  intros St (data0 & ls & B0 & A & Nn & Na & Ncl) Bd E. destruct (source_found (q_tld q) found data) as [raw So]. destruct (result_handled v l c mem t q ls data0 (q_tld q) status found data raw Hv Ht Hl B0 A Nn Na Bd So) as [Q1 Q2]. cbv zeta in *. rewrite E in Q1, Q2.
  assert (Nb : ~ (status = 0 /\ exists b, raw = Some b /\ breaks b ls (q_type q))) by (intros X; destruct (Q1 X); discriminate). destruct (Q2 Nb) as (c2 & fx2 & E2 & H). apply Ok_inj in E2. pose proof (f_equal fst E2) as X. pose proof (f_equal snd E2) as Y. cbn in X, Y. subst c2 fx2. clear E2 Q1 Q2.
  destruct (asks_exact data0 B0) as (o & _ & E0 & E1). destruct o as [q'|]; [|exfalso; exact (E0 eq_refl q ls A)]. destruct (E1 q' eq_refl) as [(ls0 & A0) E2]. destruct (asks_one _ _ _ _ _ A0 A) as [-> ->]. destruct (E2 ls A) as (P & En & El & Et & Cl & Rq). clear E0 E1 E2 A0.
  assert (One : forall codes, reply_sent v q codes fx -> sends fx <= 1) by (intros codes [[-> _]|(w & f & -> & _)]; vm_compute; discriminate).
  destruct H as [status o fx Ns R|raw fx D R|m c' fx Dm Am K R|raw rs m c' fx D An Am K R].
  - pose proof (refused_sent v q fx Hsign Rq R) as Rs. split; [split; [eapply sent_more; [exact Rs|]; intros y [<-|[]]; cbn; auto|auto]|]. split; [exact St|eauto].
  - pose proof (refused_sent v q fx Hsign Rq R) as Rs. split; [split; [eapply sent_more; [exact Rs|]; intros y [<-|[]]; cbn; auto|auto]|]. split; [exact St|eauto].
  - pose proof (replied_sent v q m fx Hsign Rq (answer_sound _ Am) R) as Rs. assert (C := proj1 Dm). split; [split; [eapply sent_more; [exact Rs|]; rewrite C; intros y [<-|[<-|[]]]; cbn; auto|contradiction]|]. split; [|eauto]. apply (stored_kept c mem t q ls m c'); auto.
  - pose proof (replied_sent v q m fx Hsign Rq (answer_sound _ Am) R) as Rs. assert (C : m_code m = 0) by (destruct An as (o & _ & X); apply X). split; [split; [eapply sent_more; [exact Rs|]; rewrite C; intros y [<-|[<-|[]]]; cbn; auto|contradiction]|]. split; [|eauto]. apply (stored_kept c mem t q ls m c'); auto. intros X. contradiction.
Qed.
Lemma sends_app (a b : list (event * list effect)) : zlen (a ++ b) = zlen a + zlen b.
Proof. apply zlen_app. Qed.
(** In every run: each event has the effects described; there are never more replies than
    queries, counting those that wait; no failure is stored. *)
Theorem every_run_answers tr s : runs v ([], []) tr s ->
  Forall (fun x => event_done v (fst x) (snd x)) tr /\ state_ok s /\ fold_right (fun x n => sends (snd x) + n) 0 tr + zlen (snd s) <= queries tr.
Proof.
  intros H. remember ([], []) as s0 eqn:E0. induction H as [s|s tr s1 e s2 fx R IH Ho St]; subst.
  - split; [constructor|]. split; [split; [intros k it X; discriminate|constructor]|]. vm_compute. discriminate.
  - destruct (IH eq_refl) as (D & [S1 S2] & N). clear IH. assert (Fr : fold_right (fun x n => sends (snd x) + n) 0 (tr ++ [(e, fx)]) = fold_right (fun x n => sends (snd x) + n) 0 tr + sends fx).
    { rewrite fold_right_app. cbn [fold_right snd]. clear. induction tr as [|x tr IH]; cbn [fold_right]; lia. }
    assert (Q : queries (tr ++ [(e, fx)]) = queries tr + match e with Query _ _ _ _ _ _ => 1 | Result _ _ _ _ _ _ => 0 end) by (unfold queries; rewrite filter_app, zlen_app; destruct e; reflexivity). rewrite Fr, Q. clear Fr Q.
    destruct St as [n mem t client rc data c p c' fx E|mem t q status found data c a b c' fx E]; cbn [fst snd] in *.
    + destruct (query_done n mem t client rc data c c' fx S1 Ho E) as (Dn & Sc & W & C). split; [apply Forall_app; split; [exact D|constructor; [exact Dn|constructor]]|]. split; [split; [exact Sc|]; apply Forall_app; auto|]. rewrite zlen_app. lia.
    + apply Forall_app in S2 as [Sa Sb]. inversion Sb as [|? ? Sq Sb']; subst. destruct (result_done mem t q status found data c c' fx S1 Sq Ho E) as (Dn & Sc & C). split; [apply Forall_app; split; [exact D|constructor; [exact Dn|constructor]]|]. split; [split; [exact Sc|]; apply Forall_app; auto|]. rewrite zlen_app in *. rewrite zlen_cons in N. lia.
Qed.
(** No event ends the process but those described, and those do. *)
Theorem no_other_crash_partial tr c p e : runs v ([], []) tr (c, p) -> event_ok e ->
  match e with
  | Query n mem t client rc data => (exists s' fx, step v (c, p) e s' fx) <-> forall q ls, asks data q ls -> ~ crashes v c (t_get t) q ls
  | Result mem t q status found data => In q p ->
      ((exists s' fx, step v (c, p) e s' fx) <-> ~ (status = 0 /\ exists raw ls data0, bytes_ok data0 /\ asks data0 q ls /\ source l (q_tld q) found data (Some raw) /\ breaks raw ls (q_type q)))
  end.
Proof.
  intros R Ho. destruct (every_run_answers tr _ R) as (_ & [S1 S2] & _). cbn [fst snd] in *. destruct e as [n mem t client rc data|mem t q status found data].
  - destruct Ho as (Hn & Bd & Bc & Lc). destruct (query_handled v n c mem t client rc data Hv Hn (stored_ok c S1) Bd Bc Lc) as [Q0 Q1]. cbv zeta in *. split.
    + intros (s' & fx & St) q ls A Cr. inversion St; subst. destruct (Q1 q ls A) as [Qc _]. destruct (Qc Cr); congruence.
    + intros N. destruct (asks_exact data Bd) as (o & _ & E0 & E1). destruct o as [q|]; [|eexists; eexists; apply s_query, Q0, E0; reflexivity]. destruct (E1 q eq_refl) as [(ls & A) _]. destruct (Q1 q ls A) as [_ Q2]. destruct (Q2 (N q ls A)) as (c' & fx & E & _). eexists. eexists. apply s_query. exact E.
  - intros I. rewrite Forall_forall in S2. destruct (S2 q I) as (data0 & ls & B0 & A & Nn & Na & Ncl). destruct (source_found (q_tld q) found data) as [raw So]. destruct (result_handled v l c mem t q ls data0 (q_tld q) status found data raw Hv Ht Hl B0 A Nn Na Ho So) as [Q1 Q2]. cbv zeta in *. split.
    + intros (s' & fx & St) (-> & b & ls' & data1 & B1 & A1 & So' & Bk). assert (Els : ls' = ls).
      { destruct (asks_exact data0 B0) as (o & _ & E0 & E1). destruct o as [q'|]; [|exfalso; exact (E0 eq_refl q ls A)]. destruct (E1 q' eq_refl) as [(ls0 & A0) E2]. destruct (asks_one _ _ _ _ _ A0 A) as [-> ->]. destruct (E2 ls A) as (P & En & _). clear E0 E1 E2 A0.
        destruct (asks_exact data1 B1) as (o & _ & E0 & E1). destruct o as [q'|]; [|exfalso; exact (E0 eq_refl q ls' A1)]. destruct (E1 q' eq_refl) as [(ls0 & A0) E2]. destruct (asks_one _ _ _ _ _ A0 A1) as [-> ->]. destruct (E2 ls' A1) as (P' & En' & _). apply dotted_inj; [apply P'|apply P|congruence]. }
      subst ls'. assert (Eb : raw = Some b).
      { destruct (table_searched v l (q_tld q) Ht) as (T1 & T2 & _). inversion So as [Hf Hd|r1 Hd L1|Hd L1]; inversion So' as [Hf' Hd'|r2 Hd' L2|Hd' L2]; subst; auto; try (exfalso; destruct Hd as [X|X]; congruence); try (exfalso; destruct Hd' as [X|X]; congruence).
        - apply T1 in L1 as (i1 & E1 & D1). apply T1 in L2 as (i2 & E2 & D2). rewrite E1 in E2. apply some_inj in E2. subst i2. rewrite D1 in D2. apply Ok_inj in D2. now subst.
        - exfalso. exact (L1 _ L2). }
      destruct (Q1 (conj eq_refl (ex_intro _ b (conj Eb Bk)))) as [X|X]; inversion St; subst; congruence.
    + intros N. assert (Nb : ~ (status = 0 /\ exists b, raw = Some b /\ breaks b ls (q_type q))) by (intros (-> & b & -> & Bk); apply N; split; [reflexivity|]; exists b, ls, data0; auto). destruct (Q2 Nb) as (c' & fx & E & _). apply in_split in I as (a & b & ->). eexists. eexists. apply s_result. exact E.
Qed.
End Runs.
(** Facts about the node never reach other machines, nor the cache. *)
Theorem node_facts_stay n n' v c mem t client rc data : node_ok n -> node_ok n' -> server_ok v -> cache_ok c -> bytes_ok data -> bytes_ok client -> length client = 16%nat ->
  (~ local client -> recv v n c mem t client rc data = recv v n' c mem t client rc data) /\
  (forall c1 fx1, recv v n c mem t client rc data = Ok (c1, fx1) -> exists fx2, recv v n' c mem t client rc data = Ok (c1, fx2)).
Proof.
  intros Hn Hn' Hv Ck Bd Bc Lc. pose proof (local_exact client Bc Lc) as Lo. unfold recv. destruct (asks_exact data Bd) as (o & E & _ & E1). rewrite E. cbn [obind]. destruct o as [q|]; [|split; [reflexivity|eauto]]. destruct (E1 q eq_refl) as [(ls & A) E2]. destruct (E2 ls A) as (P & En & El & Et & Cl & Rq).
  destruct (cache_get c (t_get t) q) as [[[m|] c1]| | |]; cbn [obind]; try (split; [reflexivity|eauto; fail]); try (split; [reflexivity|discriminate]). destruct ((q_class q =? 4) && (q_type q =? 16)); [|split; [reflexivity|eauto]].
  destruct (is_local client); cbn [negb]; [|split; [reflexivity|eauto]]. split; [intros X; exfalso; apply X; now apply Lo|]. rewrite En. intros c2 fx1 H.
  destruct (node_told n ls Hn P) as (l1 & l2 & t1 & m1 & _ & _ & _ & Eh & _ & _ & _ & _ & _ & _ & Am). destruct (node_told n' ls Hn' P) as (k1 & k2 & u1 & m2 & _ & _ & _ & Eh' & _ & _ & _ & _ & _ & _ & Am').
  rewrite Eh in H. rewrite Eh'. cbn [obind] in *. destruct (answer_exact v q m1 (answer_sound _ Am) Rq) as (fx & Ef & _). rewrite Ef in H. cbn [obind] in H. apply Ok_inj in H. pose proof (f_equal fst H) as X. cbn in X. subst c2. destruct (answer_exact v q m2 (answer_sound _ Am') Rq) as (fx' & Ef' & _). rewrite Ef'. cbn [obind]. eauto.
Qed.
Print Assumptions result_handled.
Print Assumptions replied_sent.
Print Assumptions sig0_meets.
Print Assumptions every_run_answers.
Print Assumptions no_other_crash_partial.
Print Assumptions node_facts_stay.
