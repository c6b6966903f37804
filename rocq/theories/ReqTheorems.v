(** Requests: what is served, what the reply is. *)
From Verif Require Import Common CommonFacts BioModel BioFacts UtilTheorems DnsNameModel DnsNameSpec DnsNameFacts DnsNameTheorems DnsMsgModel DnsMsgSpec DnsMsgFacts DnsMsgDecode DnsMsgTrunc DnsMsgWire DnsMsgTheorems ReqModel Sig0Model Sig0Theorems.
From Coq Require Import Lia.

(** ** Specification *)
(** Printable, and no double quote, parenthesis, semicolon, at sign or backslash *)
Definition clean_char (c : Z) : Prop := 33 <= c <= 126 /\ ~ In c [34; 40; 41; 59; 64; 92].
Definition low (c : Z) : Z := if (65 <=? c) && (c <=? 90) then c + 32 else c.
(** A query for the name with labels [ls]: QUERY, no error, one question, nothing
    answered, a clean top-level label. *)
Definition query (m : msg) (ls : list (list Z)) (type class : Z) : Prop :=
  m_opcode m = 0 /\ m_code m = 0 /\ m_an m = [] /\ m_ns m = [] /\ pname ls /\
  m_qd m = [{| r_name := dotted ls; r_type := type; r_class := class; r_ttl := 0; r_rd := None |}] /\ Forall clean_char (last ls []).
(** The request recorded for it *)
Definition recorded (m : msg) (ls : list (list Z)) (type class : Z) : req :=
  {| q_id := m_id m; q_labels := zlen ls; q_name := dotted ls; q_type := type; q_class := class;
     q_rd := Z.testbit (m_flags m) 8; q_cd := Z.testbit (m_flags m) 4; q_ad := Z.testbit (m_flags m) 5; q_edns := e_enabled (m_edns m);
     q_max := if e_enabled (m_edns m) then Z.max 512 (Z.min 4096 (e_size (m_edns m))) else 512;
     q_dnssec := Z.testbit (e_flags (m_edns m)) 15; q_tld := map low (last ls []) |}.
(** Any request that can be recorded *)
Definition req_ok (q : req) : Prop :=
  valid_name (q_name q) /\ 0 <= q_id q < 65536 /\ 0 <= q_type q < 65536 /\ 0 <= q_class q < 65536 /\ 512 <= q_max q <= 4096.
(** Any answer: header fields in range, well-formed records *)
Definition answer_ok (m : msg) : Prop :=
  0 <= m_flags m < 65536 /\ 0 <= m_opcode m < 16 /\ 0 <= m_code m < 4096 /\
  (zlen (m_an m) <= 255 /\ zlen (m_ns m) <= 255 /\ zlen (m_ar m) <= 255) /\
  Forall record_ok (m_an m) /\ Forall record_ok (m_ns m) /\ Forall (fun r => record_ok r /\ r_type r <> 41) (m_ar m).
(** A name that is not clean is not repeated in the reply: the question is the root. *)
Definition clean_name (s : list Z) : Prop := Forall (fun c => clean_char c \/ c = 46) s.
Definition asked (q : req) (s : list Z) : Prop := (clean_name (q_name q) /\ s = q_name q) \/ (~ clean_name (q_name q) /\ s = [46]).
(** The reply before truncation *)
Definition reply_to (m : msg) (q : req) (full : msg) : Prop :=
  m_id full = q_id q /\ m_opcode full = m_opcode m /\ m_code full = m_code m /\
  0 <= m_flags full < 65536 /\
  (forall i, 0 <= i < 16 -> Z.testbit (m_flags full) i =
     if i <? 4 then Z.testbit (m_code m) i
     else if (11 <=? i) && (i <=? 14) then Z.testbit (m_opcode m) (i - 11)
     else Z.testbit (m_flags m) i || (i =? 15) || ((i =? 8) && q_rd q) || ((i =? 4) && q_cd q)) /\
  (exists s, asked q s /\ m_qd full = [{| r_name := s; r_type := q_type q; r_class := q_class q; r_ttl := 0; r_rd := None |}]) /\
  m_edns full = (if q_edns q then {| e_enabled := true; e_version := 0; e_flags := if q_dnssec q then 32768 else 0; e_size := 4096; e_code := m_code m / 16; e_rd := [] |} else edns_init) /\
  (if q_dnssec q || (Z.testbit (m_flags m) 7 && (q_type q =? 255)) then m_an full = m_an m /\ m_ns full = m_ns m /\ m_ar full = m_ar m
   else sifted (stays (q_type q)) (m_an m) (m_an full) /\ sifted (stays (q_type q)) (m_ns m) (m_ns full) /\ sifted (stays (q_type q)) (m_ar m) (m_ar full)).

(** ** Lemmas *)
Lemma bit_test x k : 0 <= k -> negb (Z.land x (Z.shiftl 1 k) =? 0) = Z.testbit x k.
Proof.
  intros Hk. rewrite Z.shiftl_1_l. destruct (Z.testbit x k) eqn:E.
  - destruct (Z.eqb_spec (Z.land x (2 ^ k)) 0) as [C|]; [|reflexivity]. assert (X : Z.testbit (Z.land x (2 ^ k)) k = false) by (rewrite C; apply Z.bits_0). rewrite Z.land_spec, E, Z.pow2_bits_true in X by auto. discriminate.
  - assert (X : Z.land x (2 ^ k) = 0); [|rewrite X; reflexivity]. apply Z.bits_inj'. intros i Hi. rewrite Z.land_spec, Z.bits_0, Z.pow2_bits_eqb by auto. destruct (Z.eqb_spec k i) as [->|]; [rewrite E; reflexivity|apply andb_false_r].
Qed.
Lemma dirty_clean s : bytes_ok s -> name_dirty s = false <-> Forall clean_char s.
Proof.
  intros B. unfold name_dirty. induction B as [|c s Hc B IH]; cbn [existsb]; [split; [constructor|auto]|]. rewrite orb_false_iff, Forall_cons_iff, IH.
  assert (X : dirty_char c = false <-> clean_char c); [|tauto]. unfold dirty_char, clean_char. cbn [In]. rewrite !orb_false_iff, !Z.eqb_neq, !Z.ltb_ge. lia.
Qed.
Lemma plabel_bytes l : plabel l -> bytes_ok l.
Proof. intros [_ H]. eapply Forall_impl; [|exact H]. unfold pchar, is_byte. cbn. lia. Qed.
Lemma last_label ls : pname ls -> ls <> [] -> plabel (last ls []).
Proof.
  intros [H _] N. destruct (exists_last N) as (a & l & ->). rewrite last_last. apply Forall_app in H as [_ H]. now apply Forall_cons_iff in H as [H _].
Qed.
Lemma tld_label ls : pname ls -> label_get 64 (dotted ls) (-1) = Ok (last ls []).
Proof.
  intros H. destruct ls as [|l0 ls0] eqn:E; [reflexivity|]. rewrite <- E in *. assert (N : ls <> []) by (rewrite E; discriminate). clear E l0 ls0. destruct (exists_last N) as (a & l & ->). rewrite last_last.
  pose proof (zlen_nonneg a). assert (L : zlen (a ++ [l]) = zlen a + 1) by (rewrite zlen_app; reflexivity). apply label_at; [exact H|rewrite L; lia|]. change (-1 <? 0) with true. cbv iota. rewrite L. replace (Z.to_nat (-1 + (zlen a + 1))) with (length a) by (unfold zlen; lia).
  rewrite nth_error_app2, Nat.sub_diag by lia. reflexivity.
Qed.
Lemma labels_number ls : pname ls -> label_count (dotted ls) = zlen ls.
Proof. apply labels_counted. Qed.

Lemma dotted_end ls : name_is_fqdn (dotted ls) = true.
Proof.
  unfold name_is_fqdn. destruct ls as [|l ls]; [reflexivity|]. unfold dotted. rewrite <- (app_nil_l (concat _)). assert (N : l :: ls <> []) by discriminate. destruct (exists_last N) as (a & x & ->).
  rewrite map_app, concat_app. cbn [map concat app]. rewrite app_nil_r, app_assoc. rewrite last_last. destruct ((concat (map (fun l0 : list Z => l0 ++ [46]) a) ++ x) ++ [46]) eqn:E; [destruct (concat (map (fun l0 : list Z => l0 ++ [46]) a) ++ x); discriminate E|reflexivity].
Qed.
Lemma verify_valid s : valid_name s -> name_verify s = true.
Proof.
  intros (ls & H & ->). unfold name_verify. rewrite dotted_end. cbn [negb andb]. destruct H as [H L]. destruct (Z.ltb_spec 255 (zlen (dotted ls))); [lia|].
  unfold name_pack. rewrite serialize_plain by (split; auto). unfold plain. rewrite zlen_app. pose proof (zlen_nonneg (concat (map (fun l : list Z => zlen l :: map byte_of l) ls))). change (zlen [0]) with 1. destruct (Z.eqb_spec (zlen (concat (map (fun l : list Z => zlen l :: map byte_of l) ls)) + 1) 0); [lia|reflexivity].
Qed.
Lemma set_name_valid r s : valid_name s -> rr_set_name r s = if name_dirty s then None else Some {| r_name := s; r_type := r_type r; r_class := r_class r; r_ttl := r_ttl r; r_rd := r_rd r |}.
Proof. intros V. unfold rr_set_name. rewrite verify_valid by auto. cbn [negb]. destruct V as (ls & _ & ->). rewrite dotted_end. reflexivity. Qed.

Lemma flag_bits m i : 0 <= i < 16 -> Z.testbit (msg_flags m) i = if i <? 4 then Z.testbit (m_code m) i else if (11 <=? i) && (i <=? 14) then Z.testbit (m_opcode m) (i - 11) else Z.testbit (m_flags m) i.
Proof.
  intros Hi. unfold msg_flags. rewrite !Z.lor_spec, !Z.land_spec, Z.shiftl_spec, Z.land_spec by lia. generalize (Z.testbit (m_flags m) i), (Z.testbit (m_opcode m) (i - 11)), (Z.testbit (m_code m) i). intros x y z.
  assert (D : i = 0 \/ i = 1 \/ i = 2 \/ i = 3 \/ i = 4 \/ i = 5 \/ i = 6 \/ i = 7 \/ i = 8 \/ i = 9 \/ i = 10 \/ i = 11 \/ i = 12 \/ i = 13 \/ i = 14 \/ i = 15) by lia. clear Hi.
  repeat (destruct D as [->|D]; [destruct x, y, z; reflexivity|]). subst i. destruct x, y, z; reflexivity.
Qed.
Lemma bits_range x : (forall i, 16 <= i -> Z.testbit x i = false) -> 0 <= x < 65536.
Proof.
  intros H. change 65536 with (2 ^ 16). assert (E : x = x mod 2 ^ 16); [|rewrite E; apply Z.mod_pos_bound; lia]. rewrite <- Z.land_ones by lia. apply Z.bits_inj'. intros i Hi. rewrite Z.land_spec.
  destruct (Z.lt_ge_cases i 16); [rewrite Z.ones_spec_low by lia; now rewrite andb_true_r|rewrite H by auto; reflexivity].
Qed.
Lemma high_bit x n i : 0 <= x < 2 ^ n -> 0 <= n -> n <= i -> Z.testbit x i = false.
Proof. intros Hx Hn Hi. destruct (Z.eq_dec x 0) as [->|]; [apply Z.bits_0|]. apply Z.bits_above_log2; [lia|]. assert (Z.log2 x < n) by (apply Z.log2_lt_pow2; lia). lia. Qed.
Lemma flag_high m i : 16 <= i -> Z.testbit (msg_flags m) i = false.
Proof.
  intros Hi. unfold msg_flags. rewrite !Z.lor_spec, !Z.land_spec, Z.shiftl_spec, Z.land_spec by lia.
  rewrite (high_bit (65535 - 15) 16), (high_bit 15 4 (i - 11)), (high_bit 15 4 i) by (try lia; cbn; lia). rewrite !andb_false_r. reflexivity.
Qed.
Lemma flags_header m : 0 <= m_opcode m < 16 -> 0 <= msg_flags m < 65536 /\ msg_flags m / 2048 mod 16 = m_opcode m /\ msg_flags m mod 16 = m_code m mod 16.
Proof.
  intros Ho. split; [apply bits_range, flag_high|]. split.
  - change 2048 with (2 ^ 11). change 16 with (2 ^ 4). rewrite <- Z.shiftr_div_pow2, <- Z.land_ones by lia. apply Z.bits_inj'. intros i Hi. rewrite Z.land_spec, Z.shiftr_spec by lia.
    destruct (Z.lt_ge_cases i 4); [|rewrite Z.ones_spec_high, (high_bit (m_opcode m) 4) by (cbn; lia); apply andb_false_r].
    rewrite Z.ones_spec_low, flag_bits by lia. assert (E1 : i + 11 <? 4 = false) by lia. assert (E2 : (11 <=? i + 11) && (i + 11 <=? 14) = true) by lia. rewrite E1, E2, andb_true_r. f_equal. lia.
  - change 16 with (2 ^ 4). rewrite <- !Z.land_ones by lia. apply Z.bits_inj'. intros i Hi. rewrite !Z.land_spec. destruct (Z.lt_ge_cases i 4); [|rewrite Z.ones_spec_high by lia; now rewrite !andb_false_r].
    rewrite flag_bits by lia. assert (E1 : i <? 4 = true) by lia. now rewrite E1.
Qed.
Lemma reply_bits f q i : 0 <= i -> Z.testbit (reply_flags f q) i = Z.testbit f i || (i =? 15) || ((i =? 8) && q_rd q) || ((i =? 4) && q_cd q).
Proof.
  intros Hi. unfold reply_flags. cbv zeta. rewrite !Z.shiftl_1_l. assert (E : forall k, 0 <= k -> Z.testbit (2 ^ k) i = (i =? k)) by (intros; rewrite Z.pow2_bits_eqb by auto; apply Z.eqb_sym).
  destruct (q_rd q), (q_cd q); rewrite ?Z.lor_spec, ?E by lia; rewrite ?andb_true_r, ?andb_false_r, ?orb_false_r; reflexivity.
Qed.

Lemma valid_bytes s : valid_name s -> bytes_ok s.
Proof.
  intros (ls & [F _] & ->). unfold dotted. destruct ls as [|l ls]; [repeat constructor; unfold is_byte; lia|]. remember (l :: ls) as ll. clear Heqll l ls. induction F as [|l ll Hl F IH]; [constructor|]. cbn [map concat].
  apply bytes_ok_app. split; [apply bytes_ok_app; split; [now apply plabel_bytes|repeat constructor; unfold is_byte; lia]|exact IH].
Qed.
Lemma dirty_name s : bytes_ok s -> name_dirty s = false <-> clean_name s.
Proof.
  intros B. unfold name_dirty, clean_name. induction B as [|c s Hc B IH]; cbn [existsb]; [split; [constructor|auto]|]. rewrite orb_false_iff, Forall_cons_iff, IH.
  assert (X : dirty_char c = false <-> clean_char c \/ c = 46); [|tauto]. unfold dirty_char, clean_char. cbn [In]. rewrite !orb_false_iff, !Z.eqb_neq, !Z.ltb_ge. lia.
Qed.

(** The same message with the header fields agreeing *)
Definition norm (m : msg) : msg :=
  {| m_id := m_id m; m_opcode := m_opcode m; m_code := m_code m; m_flags := msg_flags m; m_qd := m_qd m; m_an := m_an m; m_ns := m_ns m; m_ar := m_ar m;
     m_edns := let e := m_edns m in if e_enabled e then {| e_enabled := true; e_version := e_version e; e_flags := e_flags e; e_size := e_size e; e_code := m_code m / 16; e_rd := e_rd e |} else edns_init |}.
Lemma norm_flags m : 0 <= m_id m < 65536 -> 0 <= m_opcode m < 16 -> 0 <= m_code m < 4096 -> msg_flags (norm m) = msg_flags m.
Proof.
  intros Hi Ho Hc. assert (H : header_ok (norm m)); [|exact (msg_flags_id _ H)]. destruct (flags_header m Ho) as (F1 & F2 & F3). split; [exact Hi|]. split; [exact F1|]. split; [symmetry; exact F2|]. split; [exact Hc|symmetry; exact F3].
Qed.
Lemma norm_opt m : 0 <= m_code m < 4096 -> (m_code m < 16 \/ e_enabled (m_edns m) = true) -> (e_enabled (m_edns m) = true -> m_code m < 16 -> e_code (m_edns m) = 0) -> opt_rr (norm m) = opt_rr m.
Proof.
  intros Hc H He. unfold opt_rr, norm. cbn [m_code m_edns]. destruct (e_enabled (m_edns m)) eqn:En; cbn [e_enabled e_code e_size e_version e_flags e_rd edns_init].
  - destruct (Z.ltb_spec 15 (m_code m)); [reflexivity|]. rewrite He by (auto; lia). rewrite Z.div_small by lia. reflexivity.
  - destruct H as [H|]; [|discriminate]. assert (E : 15 <? m_code m = false) by lia. rewrite E. reflexivity.
Qed.
Lemma norm_encode m : 0 <= m_id m < 65536 -> 0 <= m_opcode m < 16 -> 0 <= m_code m < 4096 -> (m_code m < 16 \/ e_enabled (m_edns m) = true) -> (e_enabled (m_edns m) = true -> m_code m < 16 -> e_code (m_edns m) = 0) ->
  msg_encode (norm m) = msg_encode m.
Proof.
  intros Hi Ho Hc H He. assert (W : forall data, msg_write data (norm m) = msg_write data m).
  { intros data. unfold msg_write. rewrite norm_flags, norm_opt by auto. assert (En : e_enabled (m_edns (norm m)) = e_enabled (m_edns m)) by (cbn [norm m_edns]; destruct (e_enabled (m_edns m)); reflexivity). rewrite En. reflexivity. }
  unfold msg_encode, msg_size. now rewrite !W.
Qed.

Lemma within_weaken l : forall k k', (k' <= k)%nat -> within k l -> within k' l.
Proof. induction l as [|s l IH]; intros k k' H W; cbn [within] in *; [exact I|]. destruct W as [W1 W2]. split; [destruct W1; [left; lia|auto]|]. eapply IH; [|exact W2]. lia. Qed.
Lemma within_drop a : forall b k, within k (a ++ b) -> within k b.
Proof. intros b k W. apply within_app in W as [_ W]. eapply within_weaken; [|exact W]. lia. Qed.
(** Dropping records keeps the bound. *)
Lemma within_sift (P : rr -> Prop) l l' : sifted P l l' -> forall k rest rest', (forall j, within j rest -> within j rest') -> within k (concat (map rr_names l) ++ rest) -> within k (concat (map rr_names l') ++ rest').
Proof.
  induction 1 as [|r l l' HP S IH|r l l' HP S IH]; intros k rest rest' Hr W; cbn [map concat app] in *; auto.
  - rewrite <- app_assoc in W |- *. apply within_app in W as [W1 W2]. apply within_app. split; [exact W1|]. eapply IH; eauto.
  - rewrite <- app_assoc in W. apply within_drop in W. eapply IH; eauto.
Qed.
Lemma sifted_Forall {A} (P Q : A -> Prop) l l' : sifted P l l' -> Forall Q l -> Forall Q l'.
Proof. induction 1; intros F; [constructor| |]; apply Forall_cons_iff in F as [F1 F2]; auto. Qed.
Lemma sifted_zlen {A} (P : A -> Prop) l l' : sifted P l l' -> zlen l' <= zlen l.
Proof. induction 1; rewrite ?zlen_cons; change (zlen (@nil A)) with 0 in *; lia. Qed.
Lemma sifted_all {A} (l : list A) : sifted (fun _ => True) l l.
Proof. induction l; constructor; auto. Qed.

(** ** C32: what is served *)
(** Every datagram: it is served exactly if it decodes to a query, and the request
    records that query. *)
Theorem req_exact b : bytes_ok b -> exists o, req_create b = Ok o /\
  forall q, o = Some q <-> exists m ls type class, msg_decode b = Ok (Some m) /\ query m ls type class /\ q = recorded m ls type class.
Proof.
  intros B. destruct (decode_total b B) as (od & D & _ & W). unfold req_create. rewrite D. cbn [obind]. destruct od as [m|].
  2:{ exists None. split; [reflexivity|]. intros q. split; [discriminate|]. intros (m & ls & t & c & E & _). discriminate. }
  specialize (W m eq_refl). destruct W as (_ & _ & _ & _ & _ & _ & _ & Fq & _).
  set (bad := negb (m_opcode m =? 0) || negb (m_code m =? 0) || negb (zlen (m_qd m) =? 1) || negb (zlen (m_an m) =? 0) || negb (zlen (m_ns m) =? 0)).
  assert (Z0 : forall l : list rr, zlen l = 0 -> l = []) by (intros [|? l] L; [reflexivity|rewrite zlen_cons in L; pose proof (zlen_nonneg l); lia]).
  assert (No : forall ls t c, query m ls t c -> bad = false).
  { intros ls t c (Q1 & Q2 & Q3 & Q4 & _ & Q5 & _). unfold bad. rewrite Q1, Q2, Q3, Q4, Q5. reflexivity. }
  destruct bad eqn:Eb.
  { exists None. split; [reflexivity|]. intros q. split; [discriminate|]. intros (m' & ls & t & c & E & Q & _). apply Ok_inj, some_inj in E. subst m'. discriminate (No _ _ _ Q). }
  unfold bad in Eb. rewrite !orb_false_iff, !negb_false_iff, !Z.eqb_eq in Eb. destruct Eb as ((((E1 & E2) & E3) & E4) & E5). apply Z0 in E4, E5.
  destruct (m_qd m) as [|qs rest] eqn:Eq; [discriminate|]. assert (Er : rest = []) by (apply Z0; rewrite zlen_cons in E3; lia). subst rest. clear No bad Z0.
  apply Forall_cons_iff in Fq as [((V & Ht & Hc & _) & Tq & Rq) _]. destruct V as (ls & P & Nm). rewrite Nm. rewrite tld_label by exact P. cbn [obind].
  assert (Bl : bytes_ok (last ls [])) by (destruct ls; [constructor|apply plabel_bytes, last_label; [exact P|discriminate]]).
  assert (Qs : qs = {| r_name := dotted ls; r_type := r_type qs; r_class := r_class qs; r_ttl := 0; r_rd := None |}) by (destruct qs; cbn in *; now subst).
  assert (Uq : forall m' ls' t c, Ok (Some m) = Ok (Some m') -> query m' ls' t c -> m' = m /\ ls' = ls /\ t = r_type qs /\ c = r_class qs).
  { intros m' ls' t c E (_ & _ & _ & _ & P' & Q & _). apply Ok_inj, some_inj in E. subst m'. split; [reflexivity|]. rewrite Eq in Q. assert (Q' := f_equal (hd qs) Q). cbn [hd] in Q'. rewrite Q' in Nm. cbn [r_name] in Nm.
    rewrite Q'. cbn [r_type r_class]. split; [|auto]. assert (Lb : label_count (dotted ls') = label_count (dotted ls)) by now rewrite Nm.
    assert (X : split_dots [] (if beq (dotted ls') [46] then [] else dotted ls') = split_dots [] (if beq (dotted ls) [46] then [] else dotted ls)) by now rewrite Nm.
    assert (Y : forall l, Forall plabel l -> split_dots [] (if beq (dotted l) [46] then [] else dotted l) = l).
    { intros l F. pose proof (pname_dotted_root l F) as R. destruct (beq (dotted l) [46]); [destruct R as [R _]; now rewrite R by auto|]. destruct l as [|x l]; [destruct R as [_ R]; discriminate (R eq_refl)|]. clear R.
      unfold dotted. remember (x :: l) as ll. clear Heqll x l. induction F as [|x l [_ Hx] F IH]; [reflexivity|]. cbn [map concat]. rewrite <- app_assoc. cbn [app]. rewrite split_label by auto. cbn [app]. now rewrite IH. }
    rewrite !Y in X by (apply P || apply P'). exact X. }
  destruct (name_dirty (last ls [])) eqn:Dr.
  { exists None. split; [reflexivity|]. intros q. split; [discriminate|]. intros (m' & ls' & t & c & E & Q & _). destruct (Uq _ _ _ _ E Q) as (-> & -> & _). destruct Q as (_ & _ & _ & _ & _ & _ & Q). apply dirty_clean in Q; [|exact Bl]. congruence. }
  apply dirty_clean in Dr; [|exact Bl]. destruct (Z.leb_spec 256 (zlen (dotted ls))) as [C|_]; [destruct P; lia|]. eexists. split; [reflexivity|].
  assert (R : {| q_id := m_id m; q_labels := label_count (dotted ls); q_name := dotted ls; q_type := r_type qs; q_class := r_class qs;
              q_rd := negb (Z.land (m_flags m) (Z.shiftl 1 8) =? 0); q_cd := negb (Z.land (m_flags m) (Z.shiftl 1 4) =? 0); q_ad := negb (Z.land (m_flags m) (Z.shiftl 1 5) =? 0); q_edns := e_enabled (m_edns m);
              q_max := if e_enabled (m_edns m) && (512 <=? e_size (m_edns m)) then if 4096 <? e_size (m_edns m) then 4096 else e_size (m_edns m) else 512;
              q_dnssec := negb (Z.land (e_flags (m_edns m)) (Z.shiftl 1 15) =? 0); q_tld := to_lower (last ls []) |} = recorded m ls (r_type qs) (r_class qs)).
  { unfold recorded. rewrite !bit_test by lia. rewrite labels_counted by exact P. f_equal.
    destruct (e_enabled (m_edns m)); [|reflexivity]. cbn [andb]. destruct (Z.leb_spec 512 (e_size (m_edns m))); [destruct (Z.ltb_spec 4096 (e_size (m_edns m)))|]; lia. }
  rewrite R. intros q. split.
  - intros E. apply some_inj in E. exists m, ls, (r_type qs), (r_class qs). split; [reflexivity|]. split; [|congruence]. split; [exact E1|]. split; [exact E2|]. repeat (split; [auto|]); [congruence|exact Dr].
  - intros (m' & ls' & t & c & E & Q & ->). destruct (Uq _ _ _ _ E Q) as (-> & -> & -> & ->). reflexivity.
Qed.
(** In particular the wire form of any query is served. *)
Theorem query_served m ls type class : msg_ok m -> query m ls type class -> req_create (message_wire m) = Ok (Some (recorded m ls type class)).
Proof.
  intros Hm Q. assert (D := decode_layout m Hm). assert (B : bytes_ok (message_wire m)).
  { rewrite message_wire_items by auto. apply bytes_ok_app. split; [apply hdr_ok|]. exact (chunked_bytes _ _ _ (wire_chunked _ [] (good_items m Hm))). }
  destruct (req_exact _ B) as (o & -> & H). f_equal. apply H. eauto 10.
Qed.
(** What is recorded is within range. *)
Theorem recorded_ok b q : bytes_ok b -> req_create b = Ok (Some q) -> req_ok q /\ exists ls, pname ls /\ q_name q = dotted ls /\ q_labels q = zlen ls /\ q_tld q = map low (last ls []) /\ Forall clean_char (last ls []).
Proof.
  intros B E. destruct (req_exact b B) as (o & E' & H). rewrite E in E'. apply Ok_inj in E'. subst o. destruct (proj1 (H q) eq_refl) as (m & ls & t & c & D & Q & ->). destruct Q as (_ & _ & _ & _ & P & Q & Cl).
  destruct (decode_total b B) as (od & D' & _ & W). rewrite D in D'. apply Ok_inj in D'. subst od. destruct (W m eq_refl) as (Hid & _ & _ & _ & _ & He & _ & Fq & _). rewrite Q in Fq. apply Forall_cons_iff in Fq as [((_ & Ht & Hc & _) & _) _]. cbn [r_type r_class] in Ht, Hc.
  split.
  - unfold req_ok, recorded. cbn [q_name q_id q_type q_class q_max]. split; [exists ls; auto|]. split; [|split; [exact Ht|split; [exact Hc|]]].
    + rewrite Hid. assert (Bf := bytes_ok_firstn 2 b B). pose proof (be_val_bound _ Bf) as X. assert (L : (length (firstn 2 b) <= 2)%nat) by (rewrite firstn_length; lia). assert (256 ^ Z.of_nat (length (firstn 2 b)) <= 65536); [|lia].
      change 65536 with (256 ^ 2). apply Z.pow_le_mono_r; lia.
    + destruct (e_enabled (m_edns m)); lia.
  - exists ls. auto.
Qed.

(** ** C33, C34: the reply *)
Lemma name_size s : valid_name s -> zlen (name_wire s) <= 256.
Proof. intros V. destruct (wname_wire false 0 s V) as (_ & -> & _). destruct V as (ls & [_ L] & ->). unfold nsize. destruct (beq _ _); lia. Qed.
Lemma clean_full m type : zlen (m_an m) <= 255 -> zlen (m_ns m) <= 255 -> zlen (m_ar m) <= 255 -> exists m', msg_clean m type = Ok m' /\ sifted (stays type) (m_an m) (m_an m') /\ sifted (stays type) (m_ns m) (m_ns m') /\ sifted (stays type) (m_ar m) (m_ar m') /\
  m' = {| m_id := m_id m; m_opcode := m_opcode m; m_code := m_code m; m_flags := m_flags m; m_qd := m_qd m; m_an := m_an m'; m_ns := m_ns m'; m_ar := m_ar m'; m_edns := m_edns m |}.
Proof.
  intros H1 H2 H3. destruct (clean_exact m type H1 H2 H3) as (m' & E & S1 & S2 & S3 & Q1 & Q2 & Q3 & Q4 & Q5 & Q6). exists m'. split; [exact E|]. repeat (split; [assumption|]). destruct m'; cbn in *; now subst.
Qed.
(** The reply to every request, with every answer: the first items of the message
    described by [reply_to], the question always among them, as many as fit the limit;
    a signature is computed over that. [n] counts the items kept. *)
Theorem reply_exact_partial sign m q : answer_ok m -> req_ok q -> (m_code m < 16 \/ q_edns q = true) ->
  within 1 (concat (map rr_names (m_an m ++ m_ns m ++ m_ar m))) ->
  exists full n out, reply_to m q full /\ msg_ok full /\ 1 <= n <= items full /\
    let limit := match sign with None => q_max q | Some _ => q_max q - 94 end in
    msg_finalize sign m q = Ok (match sign with None => Some out | Some f => f out end) /\
    msg_encode (cut n full) = Ok out /\ msg_decode out = Ok (Some (cut n full)) /\ zlen out <= limit /\
    (forall out', n < items full -> msg_encode (cut (n + 1) full) = Ok out' -> limit < zlen out').
Proof.
  intros (Hf & Ho & Hc & (La & Ln & Lr) & Fa & Fn & Fr) (Vn & Hid & Ht & Hcl & Hmx) Hcode Win.
  assert (Dn : exists s, asked q s /\ valid_name s /\ s = if name_dirty (q_name q) then [46] else q_name q).
  { pose proof (dirty_name (q_name q) (valid_bytes _ Vn)) as X. unfold asked. destruct (name_dirty (q_name q)).
    - exists [46]. split; [right; split; [intros C; apply X in C; discriminate|reflexivity]|]. split; [apply root_valid|reflexivity].
    - exists (q_name q). split; [left; split; [now apply X|reflexivity]|auto]. }
  destruct Dn as (s & As & Vs & Es).
  set (qs := {| r_name := s; r_type := q_type q; r_class := q_class q; r_ttl := 0; r_rd := None |}).
  assert (Eqs : rrs_push [] (reply_question q) = [qs]).
  { unfold reply_question. cbv zeta. rewrite set_name_valid by exact Vn. unfold qs. rewrite Es. destruct (name_dirty (q_name q)); reflexivity. }
  assert (E7 : forall x, Z.land (reply_flags (m_flags m) q) (Z.shiftl 1 7) =? 0 = x -> x = negb (Z.testbit (m_flags m) 7)).
  { intros x <-. pose proof (bit_test (reply_flags (m_flags m) q) 7 ltac:(lia)) as X. rewrite reply_bits in X by lia. change (7 =? 15) with false in X. change (7 =? 8) with false in X. change (7 =? 4) with false in X. cbn [andb] in X. rewrite !orb_false_r in X. rewrite <- X. now rewrite negb_involutive. }
  set (r0 := reply m q).
  (* the message that is encoded *)
  assert (C : exists r1, (if negb (q_dnssec q) && ((Z.land (m_flags r0) (Z.shiftl 1 7) =? 0) || negb (q_type q =? 255)) then msg_clean r0 (q_type q) else Ok r0) = Ok r1 /\
      r1 = {| m_id := q_id q; m_opcode := m_opcode m; m_code := m_code m; m_flags := reply_flags (m_flags m) q; m_qd := [qs]; m_an := m_an r1; m_ns := m_ns r1; m_ar := m_ar r1; m_edns := m_edns r0 |} /\
      (exists P, sifted P (m_an m) (m_an r1) /\ sifted P (m_ns m) (m_ns r1) /\ sifted P (m_ar m) (m_ar r1)) /\
      (if q_dnssec q || (Z.testbit (m_flags m) 7 && (q_type q =? 255)) then m_an r1 = m_an m /\ m_ns r1 = m_ns m /\ m_ar r1 = m_ar m
       else sifted (stays (q_type q)) (m_an m) (m_an r1) /\ sifted (stays (q_type q)) (m_ns m) (m_ns r1) /\ sifted (stays (q_type q)) (m_ar m) (m_ar r1))).
  { assert (Ec : negb (q_dnssec q) && ((Z.land (m_flags r0) (Z.shiftl 1 7) =? 0) || negb (q_type q =? 255)) = negb (q_dnssec q || (Z.testbit (m_flags m) 7 && (q_type q =? 255)))).
    { change (m_flags r0) with (reply_flags (m_flags m) q). rewrite (E7 _ eq_refl). destruct (q_dnssec q), (Z.testbit (m_flags m) 7), (q_type q =? 255); reflexivity. }
    rewrite Ec. clear Ec. destruct (q_dnssec q || (Z.testbit (m_flags m) 7 && (q_type q =? 255))); cbn [negb].
    - exists r0. split; [reflexivity|]. split; [unfold r0, reply; rewrite Eqs; reflexivity|]. split; [exists (fun _ => True); repeat split; apply sifted_all|auto].
    - destruct (clean_full r0 (q_type q)) as (r1 & R & S1 & S2 & S3 & Er); [exact La|exact Ln|exact Lr|]. exists r1. split; [exact R|]. split; [rewrite Er at 1; unfold r0, reply; rewrite Eqs; reflexivity|]. split; [eauto|auto]. }
  destruct C as (r1 & Er & Fm & (P & S1 & S2 & S3) & Sx).
  assert (Ee : m_edns r1 = {| e_enabled := q_edns q; e_version := 0; e_flags := if q_edns q && q_dnssec q then 32768 else 0; e_size := if q_edns q then 4096 else 512; e_code := 0; e_rd := [] |}) by (rewrite Fm; reflexivity).
  assert (Ei : m_id r1 = q_id q) by (rewrite Fm; reflexivity). assert (Eo : m_opcode r1 = m_opcode m) by (rewrite Fm; reflexivity). assert (Ec : m_code r1 = m_code m) by (rewrite Fm; reflexivity).
  assert (Ef : m_flags r1 = reply_flags (m_flags m) q) by (rewrite Fm; reflexivity). assert (Eq : m_qd r1 = [qs]) by (rewrite Fm; reflexivity). clear Fm.
  set (full := norm r1).
  assert (En : msg_encode full = msg_encode r1) by (apply norm_encode; rewrite ?Ei, ?Eo, ?Ec, ?Ee; auto).
  assert (Qok : question_ok qs) by (unfold question_ok, head_ok; cbn; repeat split; auto; lia).
  assert (Fe : m_edns full = (if q_edns q then {| e_enabled := true; e_version := 0; e_flags := if q_dnssec q then 32768 else 0; e_size := 4096; e_code := m_code m / 16; e_rd := [] |} else edns_init)).
  { unfold full, norm. cbn [m_edns]. rewrite Ee, Ec. cbn [e_enabled]. destruct (q_edns q); reflexivity. }
  assert (Mok : msg_ok full).
  { split; [|split; [|split; [|split; [|split; [|split; [|split]]]]]].
    - pose proof (flags_header r1) as FH. rewrite Eo in FH. destruct (FH Ho) as (F1 & F2 & F3). rewrite Ec in F3. unfold header_ok, full, norm. cbn [m_id m_flags m_opcode m_code]. rewrite Ei, Eo, Ec. repeat (split; [auto; lia|]). lia.
    - unfold edns_ok. rewrite Fe. destruct (q_edns q); cbn [e_enabled e_version e_flags e_size e_code e_rd edns_init].
      + change (m_code full) with (m_code r1). rewrite Ec. change (zlen (@nil Z)) with 0. repeat (split; [destruct (q_dnssec q); lia || reflexivity|]). split; [constructor|lia].
      + split; [reflexivity|]. change (m_code full) with (m_code r1). rewrite Ec. destruct Hcode; [auto|discriminate].
    - unfold full, norm. cbn [m_qd m_an m_ns m_ar]. rewrite Eq. apply sifted_zlen in S1, S2, S3. change (zlen [qs]) with 1. lia.
    - unfold full, norm. cbn [m_qd]. rewrite Eq. constructor; [exact Qok|constructor].
    - unfold full, norm. cbn [m_an]. eapply sifted_Forall; eauto.
    - unfold full, norm. cbn [m_ns]. eapply sifted_Forall; eauto.
    - unfold full, norm. cbn [m_ar]. eapply sifted_Forall; eauto.
    - unfold msg_names, full, norm. cbn [m_qd m_an m_ns m_ar]. rewrite Eq. cbn [app map concat]. change (rr_names qs) with [s]. cbn [app within]. split; [left; lia|]. rewrite !map_app, !concat_app in Win |- *.
      eapply within_sift; [exact S1| |exact Win]. intros j W. eapply within_sift; [exact S2| |exact W]. intros j' W'. rewrite <- (app_nil_r (concat (map rr_names (m_ar m)))) in W'. rewrite <- (app_nil_r (concat (map rr_names (m_ar r1)))). eapply within_sift; [exact S3|intros ? X; exact X|exact W']. }
  destruct (msg_roundtrip full Mok) as (M & EM & _). set (limit := match sign with None => q_max q | Some _ => q_max q - 94 end).
  assert (Hl : 418 <= limit <= 4096) by (unfold limit; destruct sign; lia).
  destruct (truncate_exact_partial full M limit Mok EM) as (n & out & Hn & Tr & Ecut & Dcut & Lo & _ & Nx); [lia|].
  exists full, n, out. split; [|split; [exact Mok|split; [|cbv zeta; fold limit; split; [|split; [exact Ecut|split; [exact Dcut|split; [exact Lo|exact Nx]]]]]]].
  - unfold reply_to. split; [exact Ei|]. split; [exact Eo|]. split; [exact Ec|]. split; [apply (flags_header r1); now rewrite Eo|]. split; [|split; [exists s; split; [exact As|exact Eq]|split; [exact Fe|exact Sx]]].
    intros i Hi. unfold full, norm. cbn [m_flags]. rewrite flag_bits by lia. rewrite Ec, Eo, Ef. destruct (i <? 4); [reflexivity|]. destruct ((11 <=? i) && (i <=? 14)); [reflexivity|]. apply reply_bits. lia.
  - split; [|lia]. destruct (Z.eq_dec n 0) as [->|]; [exfalso|lia].
    assert (Hit : 1 <= items full) by (unfold items, full, norm; cbn [m_qd m_an m_ns m_ar]; rewrite Eq; change (zlen [qs]) with 1; pose proof (zlen_nonneg (m_an r1)); pose proof (zlen_nonneg (m_ns r1)); pose proof (zlen_nonneg (m_ar r1)); destruct (e_enabled _); lia).
    destruct (msg_roundtrip (cut 1 full) (cut_ok full 1 Mok)) as (b & Eb & _ & _ & Lb). specialize (Nx b ltac:(lia) Eb).
    assert (Sz : zlen (message_wire (cut 1 full)) <= 272); [|lia].
    assert (Cq : m_qd (cut 1 full) = [qs] /\ m_an (cut 1 full) = [] /\ m_ns (cut 1 full) = [] /\ m_ar (cut 1 full) = [] /\ e_enabled (m_edns (cut 1 full)) = false).
    { unfold cut. cbn [m_qd m_an m_ns m_ar m_edns]. assert (Lq : zlen (m_qd full) = 1) by (unfold full, norm; cbn [m_qd]; rewrite Eq; reflexivity). rewrite Lq.
      pose proof (zlen_nonneg (m_an full)). pose proof (zlen_nonneg (m_ns full)). pose proof (zlen_nonneg (m_ar full)).
      replace (Z.to_nat (1 - 1)) with 0%nat by lia. replace (Z.to_nat (1 - 1 - zlen (m_an full))) with 0%nat by lia. replace (Z.to_nat (1 - 1 - zlen (m_an full) - zlen (m_ns full))) with 0%nat by lia.
      split; [unfold full, norm; cbn [m_qd]; rewrite Eq; reflexivity|]. split; [reflexivity|]. split; [reflexivity|]. split; [reflexivity|].
      destruct (Z.eqb_spec 1 (items full)) as [E1|]; [|reflexivity]. unfold items in E1. destruct (e_enabled (m_edns full)); [lia|reflexivity]. }
    destruct Cq as (C1 & C2 & C3 & C4 & C5). unfold message_wire, edns_wire. rewrite C1, C2, C3, C4, C5. cbn [map concat app]. rewrite !app_nil_r. rewrite !zlen_app. unfold question_wire. rewrite !zlen_app.
    rewrite !be_bytes_zlen. pose proof (name_size s Vs). change (r_name qs) with s. lia.
  - unfold msg_finalize. fold r0. rewrite Er. cbn [obind]. rewrite <- En, EM. cbn [obind].
    assert (El : match sign with None => q_max q | Some _ => (q_max q - 94) mod 18446744073709551616 end = limit) by (unfold limit; destruct sign; [apply Z.mod_small; lia|reflexivity]). rewrite El, Tr. cbn [obind]. destruct sign; reflexivity.
Qed.
(** In short: id, response bit, question and limit. *)
Corollary reply_matches_partial m q out : answer_ok m -> req_ok q -> clean_name (q_name q) -> (m_code m < 16 \/ q_edns q = true) ->
  within 1 (concat (map rr_names (m_an m ++ m_ns m ++ m_ar m))) -> msg_finalize None m q = Ok (Some out) ->
  zlen out <= q_max q /\ exists r, msg_decode out = Ok (Some r) /\ m_id r = q_id q /\ Z.testbit (m_flags r) 15 = true /\
    (q_rd q = true -> Z.testbit (m_flags r) 8 = true) /\ (q_cd q = true -> Z.testbit (m_flags r) 4 = true) /\
    m_qd r = [{| r_name := q_name q; r_type := q_type q; r_class := q_class q; r_ttl := 0; r_rd := None |}] /\
    (q_dnssec q = false -> Z.testbit (m_flags m) 7 = false \/ q_type q <> 255 -> Forall (stays (q_type q)) (m_an r ++ m_ns r ++ m_ar r)).
Proof.
  intros A Q C Hc W E. destruct (reply_exact_partial None m q A Q Hc W) as (full & n & out' & R & Mok & Hn & F & _ & D & L & _). rewrite E in F. apply Ok_inj, some_inj in F. subst out'. split; [exact L|]. exists (cut n full). split; [exact D|].
  destruct R as (R1 & R2 & R3 & R4 & R5 & R6 & R7 & R8). split; [exact R1|]. unfold cut at 1 2 3. cbn [m_flags]. rewrite !R5 by lia. cbv [Z.ltb Z.leb Z.eqb Z.compare Pos.compare Pos.compare_cont Pos.eqb andb].
  split; [now rewrite orb_true_r|]. split; [intros ->; now rewrite !orb_true_r|]. split; [intros ->; now rewrite !orb_true_r|].
  split; [unfold cut; cbn [m_qd]; destruct R6 as (s & [[_ ->]|[N _]] & R6); [|contradiction]; rewrite R6; destruct (Z.to_nat n) eqn:En; [lia|]; cbn [firstn]; now rewrite firstn_nil|].
  intros Hd Ha. assert (X : q_dnssec q || (Z.testbit (m_flags m) 7 && (q_type q =? 255)) = false) by (rewrite Hd; destruct Ha as [->|Ha]; [reflexivity|]; destruct (Z.eqb_spec (q_type q) 255); [contradiction|apply andb_false_r]). rewrite X in R8. destruct R8 as (S1 & S2 & S3).
  assert (K : forall a b : list rr, sifted (stays (q_type q)) a b -> Forall (stays (q_type q)) b) by (induction 1; auto).
  unfold cut. cbn [m_an m_ns m_ar]. repeat (apply Forall_app; split); apply firstn_Forall; eauto.
Qed.
(** With SIG(0) signatures the limit holds as well. *)
Corollary signed_reply_fits_partial hash ec_sign now m q out : (forall d s, ec_sign d = Some s -> length s = 64%nat /\ bytes_ok s) ->
  answer_ok m -> req_ok q -> (m_code m < 16 \/ q_edns q = true) ->
  within 1 (concat (map rr_names (m_an m ++ m_ns m ++ m_ar m))) -> msg_finalize (Some (sig0_sign hash ec_sign now)) m q = Ok (Some out) -> zlen out <= q_max q /\ has_sig out = true.
Proof.
  intros Hs A Q Hc W E. destruct (reply_exact_partial (Some (sig0_sign hash ec_sign now)) m q A Q Hc W) as (full & n & w & R & Mok & Hn & F & En & D & L & _). cbv zeta in *. rewrite E in F. apply Ok_inj in F.
  assert (Bw : bytes_ok w) by exact (proj2 (encode_header _ _ (cut_ok full n Mok) En)).
  assert (Lw : 12 <= zlen w) by (unfold sig0_sign in F; destruct (Z.ltb_spec (zlen w) 12); [discriminate|lia]).
  assert (Sz : forall h body s count, length h = 10%nat -> 1 <= count < 65536 -> length s = 64%nat -> has_sig (signed_as now h body s count) = true /\ zlen (signed_as now h body s count) = 106 + zlen body).
  { intros h body s count H1 H2 H3. destruct (layout_parts _ _ _ _ _ (sign_layout now h body count H1 H2 s H3)) as (_ & _ & X & Y & _). auto. }
  destruct (has_sig w) eqn:S.
  - destruct (has_sig_layout w Bw S) as (h & body & x & count & Hl). rewrite (resign_exact hash ec_sign now w h body x count Hl) in F. destruct (ec_sign _) as [s|] eqn:Es; [|discriminate]. apply some_inj in F. subst out.
    destruct (layout_parts _ _ _ _ _ Hl) as (_ & _ & _ & Y & _). destruct Hl as (_ & Lh & Hcn & _). destruct (Sz h body s count Lh Hcn (proj1 (Hs _ _ Es))) as [X1 X2]. rewrite X2. split; [lia|exact X1].
  - unfold zlen in Lw. destruct (carve 10 w) as (h & w1 & Ew & Lh); [lia|]. subst w. rewrite app_length in Lw. destruct (carve 2 w1) as (c & body & Ew & Lc); [lia|]. subst w1.
    assert (Bc : bytes_ok c) by (apply bytes_ok_app in Bw as [_ Bw]; apply bytes_ok_app in Bw; tauto). pose proof (be_val_bound c Bc) as Hcc. rewrite Lc in Hcc. change (256 ^ Z.of_nat 2) with 65536 in Hcc.
    rewrite (sign_exact hash ec_sign now (h ++ c ++ body) h body (be_val c)) in F; auto; [|now rewrite <- (val_is 2 c (be_val c)) by auto]. destruct (Z.eqb_spec (be_val c) 65535); [discriminate|]. destruct (ec_sign _) as [s|] eqn:Es; [|discriminate]. apply some_inj in F. subst out.
    destruct (Sz h body s (be_val c + 1) Lh ltac:(lia) (proj1 (Hs _ _ Es))) as [X1 X2]. rewrite X2. split; [|exact X1]. rewrite !zlen_app in L. unfold zlen at 1 2 in L. lia.
Qed.

(** ** Examples *)
(** A query for AAAA a.B. with id 258, RD, EDNS size 1232 and DO *)
Definition ex_query : msg :=
  {| m_id := 258; m_opcode := 0; m_code := 0; m_flags := 256; m_qd := [{| r_name := [97; 46; 66; 46]; r_type := 28; r_class := 1; r_ttl := 0; r_rd := None |}]; m_an := []; m_ns := []; m_ar := [];
     m_edns := {| e_enabled := true; e_version := 0; e_flags := 32768; e_size := 1232; e_code := 0; e_rd := [] |} |}.
Definition ex_datagram : list Z := [1; 2; 1; 0; 0; 1; 0; 0; 0; 0; 0; 1; 1; 97; 1; 66; 0; 0; 28; 0; 1; 0; 0; 41; 4; 208; 0; 0; 128; 0; 0; 0].
Definition ex_req : req :=
  {| q_id := 258; q_labels := 2; q_name := [97; 46; 66; 46]; q_type := 28; q_class := 1; q_rd := true; q_cd := false; q_ad := false; q_edns := true; q_max := 1232; q_dnssec := true; q_tld := [98] |}.
Example ex_query_is : query ex_query [[97]; [66]] 28 1 /\ recorded ex_query [[97]; [66]] 28 1 = ex_req /\ message_wire ex_query = ex_datagram.
Proof.
  split; [|split; reflexivity]. repeat (split; [reflexivity|]). split; [split; [repeat constructor; unfold zlen; cbn; lia|unfold zlen; cbn; lia]|]. split; [reflexivity|]. repeat constructor; unfold clean_char; cbn; lia.
Qed.
Example ex_created : req_create ex_datagram = Ok (Some ex_req).
Proof. vm_compute. reflexivity. Qed.
Example ex_req_ok : req_ok ex_req /\ clean_name (q_name ex_req).
Proof.
  split; [split; [exists [[97]; [66]]; split; [split; [repeat constructor; unfold zlen; cbn; lia|unfold zlen; cbn; lia]|reflexivity]|cbn; lia]|]. cbn. unfold clean_name. repeat constructor; unfold clean_char; cbn; lia.
Qed.
(** The answer of DnsMsgTheorems with error code 3 *)
Definition ex_answer : msg :=
  {| m_id := 0; m_opcode := 0; m_code := 3; m_flags := 1024; m_qd := []; m_an := m_an ex_msg; m_ns := m_ns ex_msg; m_ar := m_ar ex_msg; m_edns := edns_init |}.
Example ex_answer_ok : answer_ok ex_answer /\ within 1 (concat (map rr_names (m_an ex_answer ++ m_ns ex_answer ++ m_ar ex_answer))).
Proof.
  destruct ex_msg_ok as (_ & _ & (_ & L1 & L2 & L3) & _ & Fa & Fn & Fr & W). split.
  - repeat (split; [cbn [m_flags m_opcode m_code ex_answer]; lia|]). auto.
  - unfold msg_names in W. change (m_qd ex_msg) with [{| r_name := ab; r_type := 16; r_class := 1; r_ttl := 0; r_rd := None |}] in W. cbn [app map concat rr_names r_name r_rd within] in W. apply W.
Qed.
Definition ex_plain (q : req) : req :=
  {| q_id := q_id q; q_labels := q_labels q; q_name := q_name q; q_type := q_type q; q_class := q_class q; q_rd := q_rd q; q_cd := q_cd q; q_ad := q_ad q; q_edns := q_edns q; q_max := q_max q; q_dnssec := false; q_tld := q_tld q |}.
(** Without DO the RRSIG is removed. *)
Example ex_reply : exists out r, msg_finalize None ex_answer (ex_plain ex_req) = Ok (Some out) /\ msg_decode out = Ok (Some r) /\ m_id r = 258 /\ m_flags r = 34051 /\ map r_type (m_an r) = [16] /\ zlen out = 104.
Proof. eexists. eexists. split; [vm_compute; reflexivity|]. split; [vm_compute; reflexivity|]. vm_compute. repeat split; reflexivity. Qed.
(** A space in a name below a clean top-level name: the query is served, but the reply's
    question is the root. *)
Theorem dirty_question_refuted : exists b q m out r, bytes_ok b /\ req_create b = Ok (Some q) /\ answer_ok m /\ msg_finalize None m q = Ok (Some out) /\ msg_decode out = Ok (Some r) /\
  q_name q = [32; 46; 98; 46] /\ map r_name (m_qd r) = [[46]].
Proof.
  exists [1; 2; 1; 0; 0; 1; 0; 0; 0; 0; 0; 0; 1; 32; 1; 98; 0; 0; 28; 0; 1]. eexists. exists ex_answer. eexists. eexists.
  split; [repeat constructor; unfold is_byte; lia|]. split; [vm_compute; reflexivity|]. split; [apply ex_answer_ok|]. split; [vm_compute; reflexivity|]. split; [vm_compute; reflexivity|]. auto.
Qed.

Print Assumptions req_exact.
Print Assumptions query_served.
Print Assumptions recorded_ok.
Print Assumptions reply_exact_partial.
Print Assumptions reply_matches_partial.
Print Assumptions signed_reply_fits_partial.
Print Assumptions dirty_question_refuted.
