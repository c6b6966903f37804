(** C73: what the recursive server replies. *)
From Verif Require Import Common CommonFacts BioModel BioFacts UtilTheorems WorkerModel DnsNameModel DnsNameSpec DnsNameFacts DnsNameTheorems DnsMsgModel DnsMsgSpec DnsMsgFacts DnsMsgDecode DnsMsgTheorems ReqModel ReqTheorems DnsMsgTotal AnswerModel AnswerTheorems ProofFacts RsModel.
From Coq Require Import Lia.

(** ** Specification *)
(** A message with a response code and nothing else *)
Definition only_code (c : Z) (m : msg) : Prop := m_code m = c /\ m_opcode m = 0 /\ m_flags m = 0 /\ m_an m = [] /\ m_ns m = [] /\ m_ar m = [].
(** The client may be told that the answer was authenticated *)
Definition authentic (q : req) (a : answer) : bool := u_secure a && negb (u_bogus a) && (q_dnssec q || q_ad q).
(** The answer of the resolver as it is passed on: recursion available, nothing else but
    authentic data; authority and additional records only without answers *)
Definition passed_on (q : req) (a : answer) (m m' : msg) : Prop :=
  m_code m' = u_rcode a /\ m_opcode m' = 0 /\ m_flags m' = 128 + (if authentic q a then 32 else 0) /\ m_an m' = m_an m /\
  (m_an m = [] -> m_ns m' = m_ns m /\ m_ar m' = m_ar m) /\ (m_an m <> [] -> m_ns m' = [] /\ m_ar m' = []).
Definition refusal (sign : option (list Z -> option (list Z))) (q : req) (o : option (list Z)) : Prop := exists m, only_code 2 m /\ msg_finalize sign m q = Ok o.
Inductive answered (sign : option (list Z -> option (list Z))) (q : req) (a : answer) : Z -> option (list Z) -> Prop :=
| a_error st o : st <> 0 -> refusal sign q o -> answered sign q a st o
| a_garbled o : msg_decode (u_packet a) = Ok None -> refusal sign q o -> answered sign q a 0 o
| a_sent m m' w : msg_decode (u_packet a) = Ok (Some m) -> passed_on q a m m' -> msg_finalize sign m' q = Ok (Some w) -> answered sign q a 0 (Some w)
| a_unsent m m' o : msg_decode (u_packet a) = Ok (Some m) -> passed_on q a m m' -> msg_finalize sign m' q = Ok None -> refusal sign q o -> answered sign q a 0 o.
(** libunbound gives bytes and a response code *)
Definition answer_made (a : answer) : Prop := bytes_ok (u_packet a) /\ 0 <= u_rcode a < 4096.
(** Signing keeps the header and adds at most 94 bytes *)
Definition signs (sign : option (list Z -> option (list Z))) : Prop := forall f w w', sign = Some f -> bytes_ok w -> f w = Some w' -> firstn 4 w' = firstn 4 w /\ zlen w' <= zlen w + 94.
(** The header and size of a reply; [b]: which of the flags it has, besides those of every
    reply to [q] *)
Definition headed (q : req) (code : Z) (b : Z -> bool) (w : list Z) : Prop := exists flags,
  firstn 4 w = be_bytes 2 (q_id q) ++ be_bytes 2 flags /\ 0 <= flags < 65536 /\ flags mod 16 = code /\ zlen w <= q_max q /\
  forall i, 4 <= i < 16 -> Z.testbit flags i = b i || (i =? 15) || ((i =? 8) && q_rd q) || ((i =? 4) && q_cd q).

(** ** Lemmas *)
Lemma tidy_passes q a m : 0 <= u_rcode a < 4096 -> passed_on q a m (tidy q a m).
Proof.
  intros Hr. unfold passed_on, tidy, authentic. cbn [m_code m_opcode m_flags m_an m_ns m_ar].
  split; [apply Z.mod_small; lia|]. split; [reflexivity|]. split; [destruct (u_secure a), (u_bogus a), (q_dnssec q), (q_ad q); reflexivity|]. split; [reflexivity|].
  split.
  - intros ->. cbn. auto.
  - intros N. destruct (m_an m) as [|r l]; [contradiction|]. rewrite zlen_cons. destruct (Z.ltb_spec 0 (1 + zlen l)); [auto|pose proof (zlen_nonneg l); lia].
Qed.
Lemma passed_sound q a m m' b : decoded b m -> 0 <= u_rcode a < 4096 -> passed_on q a m m' -> msg_sound m'.
Proof.
  intros D Hr (Hc & _ & _ & Ha & H0 & H1). apply decoded_sound in D as ((La & Ln & Lr) & _ & Fa & Fn & Fr).
  unfold msg_sound. destruct (m_an m) as [|r l] eqn:E.
  - destruct (H0 eq_refl) as [-> ->]. rewrite Ha, Hc. split; [split; [unfold zlen; cbn [length Z.of_nat]; lia|]; split; assumption|]. split; [lia|]. auto.
  - destruct H1 as [-> ->]; [discriminate|]. rewrite Ha, Hc. split; [split; [assumption|unfold zlen; cbn [length Z.of_nat]; lia]|]. split; [lia|]. split; [assumption|]. split; constructor.
Qed.
Lemma only_code_sound c m : only_code c m -> 0 <= c < 4096 -> msg_sound m.
Proof. intros (Hc & _ & _ & Ha & Hn & Hr) Hb. rewrite <- Hc in Hb. unfold msg_sound. rewrite Ha, Hn, Hr. split; [unfold zlen; cbn [length Z.of_nat]; lia|]. split; [exact Hb|]. repeat split; constructor. Qed.
Lemma servfail_code : only_code 2 to_servfail.
Proof. repeat split. Qed.
Lemma notimp_code : only_code 4 to_notimp.
Proof. repeat split. Qed.
Lemma servfail_done sign q : req_ok q -> exists o, servfail sign q = Ok o /\ refusal sign q o.
Proof.
  intros Rq. destruct (finalize_bits sign to_servfail q (only_code_sound 2 _ servfail_code ltac:(lia)) Rq) as (o & E & _).
  eexists. split; [exact E|]. exists to_servfail. split; [exact servfail_code|exact E].
Qed.
Lemma unsigned_made m c q : only_code c m -> 0 <= c < 16 -> req_ok q -> exists w, msg_finalize None m q = Ok (Some w).
Proof.
  intros (Hc & Ho & Hf & Ha & Hn & Hr) Hb Rq. destruct (reply_exact_partial None m q) as (full & n & out & _ & _ & _ & Ef & _); [| | | |eauto].
  - unfold answer_ok. rewrite Ha, Hn, Hr, Hc, Ho, Hf. split; [lia|]. split; [lia|]. split; [lia|]. split; [unfold zlen; cbn [length Z.of_nat]; lia|]. repeat split; constructor.
  - exact Rq.
  - left. lia.
  - rewrite Ha, Hn, Hr. exact I.
Qed.
Lemma within_prefix a b : forall k, within k (a ++ b) -> within k a.
Proof. induction a as [|s a IH]; intros k; [exact (fun _ => I)|]. cbn. intros [H W]. split; [exact H|now apply IH]. Qed.
(** A reply has the flags of its answer *)
Lemma sent_headed sign m q w b : signs sign -> msg_sound m -> req_ok q -> m_opcode m = 0 -> msg_finalize sign m q = Ok (Some w) ->
  (forall i, 4 <= i < 16 -> Z.testbit (m_flags m) i = b i) -> (forall i, 11 <= i < 15 -> b i = false) -> headed q (m_code m mod 16) b w.
Proof.
  intros Hs Hm Rq Ho E Hb Hz. destruct (finalize_bits sign m q Hm Rq) as (o & E' & X). rewrite E in E'. apply Ok_inj in E'. destruct o as [out|]; [|discriminate].
  destruct (X out eq_refl) as (B & L & flags & F & R & T). exists flags.
  assert (FL : firstn 4 w = firstn 4 out /\ zlen w <= q_max q).
  { destruct sign as [f|]; [|apply some_inj in E'; subst out; split; [reflexivity|lia]]. symmetry in E'. destruct (Hs f out w eq_refl B E') as [F4 Lw]. split; [exact F4|lia]. }
  destruct FL as [F4 Lw]. split; [congruence|]. split; [exact R|]. split.
  { apply bits_code. intros i Hi. rewrite T by lia. unfold reply_bit. destruct (Z.ltb_spec i 4); [reflexivity|lia]. }
  split; [exact Lw|]. intros i Hi. rewrite T by lia. unfold reply_bit. destruct (Z.ltb_spec i 4); [lia|]. destruct (Z.leb_spec 11 i), (Z.leb_spec i 14); cbn [andb]; try (rewrite Hb by lia; reflexivity).
  rewrite Ho, Z.bits_0, Hz by lia. destruct (Z.eqb_spec i 15), (Z.eqb_spec i 8), (Z.eqb_spec i 4); try lia.
Qed.

(** ** C73 *)
(** Every answer of libunbound to every request *)
Theorem respond_exact sign q st a : answer_made a -> req_ok q -> exists o, respond sign q st a = Ok o /\ answered sign q a st o.
Proof.
  intros [B Hr] Rq. destruct (servfail_done sign q Rq) as (o & E & R). unfold respond. rewrite E.
  destruct (Z.eqb_spec st 0) as [->|N]; cbn [negb]; [|eexists; split; [reflexivity|now apply a_error]].
  destruct (decode_total _ B) as (od & D & _ & W). rewrite D. cbn [obind]. destruct od as [m|]; [|eexists; split; [reflexivity|now apply a_garbled]].
  pose proof (tidy_passes q a m Hr) as P. destruct (finalize_bits sign (tidy q a m) q (passed_sound q a m _ _ (W m eq_refl) Hr P) Rq) as (o1 & E1 & _). rewrite E1. cbn [obind].
  destruct (match o1 with None => None | Some out => match sign with Some f => f out | None => Some out end end) as [w|] eqn:Ew; eexists; (split; [reflexivity|]).
  - exact (a_sent _ _ _ _ _ _ D P E1).
  - exact (a_unsent _ _ _ _ _ _ D P E1 R).
Qed.
(** An unsigned reply is always made *)
Theorem unsigned_replied q st a : answer_made a -> req_ok q -> exists w, respond None q st a = Ok (Some w).
Proof.
  intros Ha Rq. destruct (respond_exact None q st a Ha Rq) as (o & -> & A).
  assert (K : refusal None q o -> exists w, @Ok (option (list Z)) o = Ok (Some w)) by (intros (m & Hm & E); destruct (unsigned_made m 2 q Hm ltac:(lia) Rq) as [w Ew]; rewrite Ew in E; exists w; congruence).
  destruct A; eauto.
Qed.
Lemma refusal_headed sign q w : signs sign -> req_ok q -> refusal sign q (Some w) -> headed q 2 (fun _ => false) w.
Proof.
  intros Hs Rq (m & Hm & E). pose proof (only_code_sound 2 m Hm ltac:(lia)) as S. destruct Hm as (Hc & Ho & Hf & _). change 2 with (2 mod 16). rewrite <- Hc.
  apply (sent_headed sign m q w (fun _ => false)); auto. intros i _. rewrite Hf. apply Z.bits_0.
Qed.
Lemma flag_set (x : bool) i : 4 <= i < 16 -> Z.testbit (128 + (if x then 32 else 0)) i = (i =? 7) || ((i =? 5) && x).
Proof.
  intros Hi. assert (D : i = 4 \/ i = 5 \/ i = 6 \/ i = 7 \/ i = 8 \/ i = 9 \/ i = 10 \/ i = 11 \/ i = 12 \/ i = 13 \/ i = 14 \/ i = 15) by lia.
  repeat (destruct D as [->|D]; [destruct x; reflexivity|]). subst i. destruct x; reflexivity.
Qed.
(** What is on the wire: the id of the request; SERVFAIL, or the code of the answer with
    recursion available, and authentic data only where it may be told. *)
Theorem respond_wire sign q st a w : signs sign -> answer_made a -> req_ok q -> respond sign q st a = Ok (Some w) ->
  (headed q 2 (fun _ => false) w /\ (st <> 0 \/ msg_decode (u_packet a) = Ok None \/
     exists m m', msg_decode (u_packet a) = Ok (Some m) /\ passed_on q a m m' /\ msg_finalize sign m' q = Ok None)) \/
  (st = 0 /\ (exists m, msg_decode (u_packet a) = Ok (Some m)) /\ headed q (u_rcode a mod 16) (fun i => (i =? 7) || ((i =? 5) && authentic q a)) w).
Proof.
  intros Hs Ha Rq E. destruct (respond_exact sign q st a Ha Rq) as (o & E' & A). rewrite E in E'. apply Ok_inj in E'. subst o. destruct Ha as [B Hr].
  remember (Some w) as ow eqn:Eow. destruct A as [st o N R|o D R|m m' w' D P F|m m' o D P F R]; subst.
  - left. split; [now apply (refusal_headed sign)|auto].
  - left. split; [now apply (refusal_headed sign)|auto].
  - right. injection Eow as ->. split; [reflexivity|]. split; [eauto|]. destruct (decode_total _ B) as (od & D' & _ & W). rewrite D in D'. apply Ok_inj in D'. subst od.
    pose proof (passed_sound q a m m' _ (W m eq_refl) Hr P) as S. destruct P as (Hc & Ho & Hf & _). rewrite <- Hc.
    apply (sent_headed sign m' q w); auto.
    + intros i Hi. rewrite Hf. now apply flag_set.
    + intros i Hi. destruct (Z.eqb_spec i 7), (Z.eqb_spec i 5); try lia.
  - left. split; [now apply (refusal_headed sign)|]. right. right. eauto 6.
Qed.
(** Authentic data is never claimed of an answer that libunbound did not find secure, or
    found bogus, nor to a client that did not ask; no reply claims authority or truncation *)
Theorem authentic_only sign q st a w : signs sign -> answer_made a -> req_ok q -> respond sign q st a = Ok (Some w) ->
  exists flags, firstn 4 w = be_bytes 2 (q_id q) ++ be_bytes 2 flags /\ 0 <= flags < 65536 /\ Z.testbit flags 15 = true /\ Z.testbit flags 10 = false /\ Z.testbit flags 9 = false /\
    (Z.testbit flags 5 = true -> st = 0 /\ u_secure a = true /\ u_bogus a = false /\ (q_dnssec q = true \/ q_ad q = true)).
Proof.
  intros Hs Ha Rq E. destruct (respond_wire sign q st a w Hs Ha Rq E) as [[(f & F & R & _ & _ & T) _]|(S0 & _ & f & F & R & _ & _ & T)]; exists f; (split; [exact F|]); (split; [exact R|]); rewrite !T by lia;
    cbn [Z.eqb Pos.eqb andb orb]; rewrite ?orb_false_r; (split; [reflexivity|]); (split; [reflexivity|]); (split; [reflexivity|]); [discriminate|].
  unfold authentic. destruct (u_secure a), (u_bogus a), (q_dnssec q), (q_ad q); cbn; intros X; try discriminate X; auto 6.
Qed.
(** What a client that decodes the reply sees, where the answer is well-formed: the records
    of the answer, as many as fit, for the question it asked *)
Theorem respond_content_partial sign q a m : answer_made a -> req_ok q -> msg_decode (u_packet a) = Ok (Some m) ->
  Forall record_ok (m_an m) -> Forall record_ok (m_ns m) -> Forall (fun r => record_ok r /\ r_type r <> 41) (m_ar m) ->
  within 1 (concat (map rr_names (m_an m ++ m_ns m ++ m_ar m))) -> (u_rcode a < 16 \/ q_edns q = true) ->
  exists m' full n out, passed_on q a m m' /\ reply_to m' q full /\ 1 <= n <= items full /\ msg_decode out = Ok (Some (cut n full)) /\
    zlen out <= match sign with None => q_max q | Some _ => q_max q - 94 end /\
    msg_finalize sign m' q = Ok (match sign with None => Some out | Some f => f out end) /\ (sign = None -> respond sign q 0 a = Ok (Some out)).
Proof.
  intros [B Hr] Rq D Fa Fn Fr Wn Hc. pose proof (tidy_passes q a m Hr) as P. exists (tidy q a m).
  destruct (decode_total _ B) as (od & D' & _ & W). rewrite D in D'. apply Ok_inj in D'. subst od. destruct (decoded_sound _ _ (W m eq_refl)) as ((La & Ln & Lr) & _).
  assert (P' := P). destruct P' as (Ec & Eo & Ef & Ea & E0 & E1).
  destruct (reply_exact_partial sign (tidy q a m) q) as (full & n & out & R & _ & Hn & Em & _ & Ed & Ll & _).
  - unfold answer_ok. rewrite Ec, Eo, Ef, Ea. split; [destruct (authentic q a); lia|]. split; [lia|]. split; [lia|].
    destruct (m_an m) as [|r l]; [destruct (E0 eq_refl) as [-> ->]|destruct E1 as [-> ->]; [discriminate|]]; (split; [unfold zlen in *; cbn [length Z.of_nat] in *; lia|]); auto.
  - exact Rq.
  - rewrite Ec. exact Hc.
  - rewrite Ea. destruct (m_an m) as [|r l]; [destruct (E0 eq_refl) as [-> ->]; exact Wn|destruct E1 as [-> ->]; [discriminate|]].
    rewrite !app_nil_r. rewrite map_app, concat_app in Wn. exact (within_prefix _ _ _ Wn).
  - exists full, n, out. split; [exact P|]. split; [exact R|]. split; [exact Hn|]. split; [exact Ed|]. split; [exact Ll|]. split; [exact Em|].
    intros ->. unfold respond. change (0 =? 0) with true. cbn [negb]. rewrite D. cbn [obind]. rewrite Em. reflexivity.
Qed.

(** ** Examples: a query for an address that asks for authentic data, and the answer of
    libunbound with an address and a name server *)
Definition ex_query : list Z := [18; 52; 1; 32; 0; 1; 0; 0; 0; 0; 0; 0; 1; 97; 1; 98; 0; 0; 1; 0; 1].
Definition ex_packet : list Z := [0; 0; 129; 128; 0; 1; 0; 1; 0; 1; 0; 0; 1; 97; 1; 98; 0; 0; 1; 0; 1; 192; 12; 0; 1; 0; 1; 0; 0; 1; 44; 0; 4; 1; 2; 3; 4; 192; 12; 0; 2; 0; 1; 0; 0; 1; 44; 0; 2; 192; 12].
Definition ex_req : req := match req_create ex_query with Ok (Some q) => q | _ => {| q_id := 0; q_labels := 0; q_name := []; q_type := 0; q_class := 0; q_rd := false; q_cd := false; q_ad := false; q_edns := false; q_max := 0; q_dnssec := false; q_tld := [] |} end.
Definition ex_answer : answer := {| u_rcode := 0; u_secure := true; u_bogus := false; u_packet := ex_packet |}.
Example ex_req_ok : req_create ex_query = Ok (Some ex_req) /\ req_ok ex_req /\ answer_made ex_answer.
Proof.
  assert (E : req_create ex_query = Ok (Some ex_req)) by (vm_compute; reflexivity). split; [exact E|]. split.
  - apply (recorded_ok ex_query); [apply bytes_ok_check; vm_compute; reflexivity|exact E].
  - split; [apply bytes_ok_check; vm_compute; reflexivity|cbn; lia].
Qed.
(** Answered: authentic, and without the name server *)
Example ex_secure : respond None ex_req 0 ex_answer = Ok (Some ([18; 52; 129; 160; 0; 1; 0; 1; 0; 0; 0; 0; 1; 97; 1; 98; 0; 0; 1; 0; 1; 192; 12; 0; 1; 0; 1; 0; 0; 1; 44; 0; 4; 1; 2; 3; 4])).
Proof. vm_compute. reflexivity. Qed.
(** A bogus answer is not claimed to be authentic; an error or no message is SERVFAIL *)
Example ex_bogus : respond None ex_req 0 {| u_rcode := 0; u_secure := true; u_bogus := true; u_packet := ex_packet |} = Ok (Some ([18; 52; 129; 128; 0; 1; 0; 1; 0; 0; 0; 0; 1; 97; 1; 98; 0; 0; 1; 0; 1; 192; 12; 0; 1; 0; 1; 0; 0; 1; 44; 0; 4; 1; 2; 3; 4])).
Proof. vm_compute. reflexivity. Qed.
Example ex_error : respond None ex_req (-3) ex_answer = Ok (Some [18; 52; 129; 2; 0; 1; 0; 0; 0; 0; 0; 0; 1; 97; 1; 98; 0; 0; 1; 0; 1])
  /\ respond None ex_req 0 {| u_rcode := 0; u_secure := true; u_bogus := false; u_packet := [1; 2; 3] |} = Ok (Some [18; 52; 129; 2; 0; 1; 0; 0; 0; 0; 0; 0; 1; 97; 1; 98; 0; 0; 1; 0; 1]).
Proof. vm_compute. auto. Qed.
(** A referral without answers keeps its name server *)
Example ex_referral : respond None ex_req 0 {| u_rcode := 3; u_secure := false; u_bogus := false; u_packet := [0; 0; 129; 128; 0; 1; 0; 0; 0; 1; 0; 0; 1; 97; 1; 98; 0; 0; 1; 0; 1; 192; 12; 0; 2; 0; 1; 0; 0; 1; 44; 0; 2; 192; 12] |}
  = Ok (Some [18; 52; 129; 131; 0; 1; 0; 0; 0; 1; 0; 0; 1; 97; 1; 98; 0; 0; 1; 0; 1; 192; 12; 0; 2; 0; 1; 0; 0; 1; 44; 0; 2; 192; 12]).
Proof. vm_compute. reflexivity. Qed.
Example ex_content : exists m, msg_decode ex_packet = Ok (Some m) /\ Forall record_ok (m_an m) /\ Forall record_ok (m_ns m) /\ Forall (fun r => record_ok r /\ r_type r <> 41) (m_ar m) /\
  within 1 (concat (map rr_names (m_an m ++ m_ns m ++ m_ar m))) /\ zlen (m_an m) = 1 /\ zlen (m_ns m) = 1.
Proof.
  eexists. split; [vm_compute; reflexivity|]. cbn [m_an m_ns m_ar].
  assert (V : valid_name [97; 46; 98; 46]) by name_by [[97]; [98]].
  split; [constructor; [|constructor]|split; [constructor; [|constructor]|split; [constructor|]]].
  - apply rr_ok; [exact V|lia|lia|change (layout 1) with [KFix 4]; constructor; [split; [apply bytes_ok_check; reflexivity|reflexivity]|constructor]|vm_compute; discriminate].
  - apply rr_ok; [exact V|lia|lia|change (layout 2) with [KName]; constructor; [exact V|constructor]|vm_compute; discriminate].
  - split; [|split; reflexivity]. cbn. repeat (split; [left; lia|]). exact I.
Qed.
Print Assumptions respond_exact.
Print Assumptions unsigned_replied.
Print Assumptions respond_wire.
Print Assumptions authentic_only.
Print Assumptions respond_content_partial.
