(** Encoding never fails for well-formed messages, however deep their pointers run. *)
From Verif Require Import Common CommonFacts BioModel BioFacts UtilTheorems DnsNameModel DnsNameSpec DnsNameFacts DnsNameTheorems DnsMsgModel DnsMsgSpec DnsMsgFacts DnsMsgDecode DnsMsgTheorems ReqModel ReqTheorems.
From Coq Require Import Lia.

Lemma wname_total k m c s : valid_name s -> cmap_ok k m c ->
  exists new c', wname true (zlen m) s (Some c) = (new, Some c') /\ cmap_ok (S k) (m ++ new) c' /\ zlen new <= nsize s /\ bytes_ok new.
Proof.
  intros (ls & H & ->) Hc. rewrite nsize_plain by apply H.
  destruct (compressed_name true k m c ls H Hc) as (new & c' & h & R & C & _ & _ & _ & L & Sh).
  exists new, c'. unfold wname. rewrite R. split; [reflexivity|]. split; [exact C|]. split; [exact L|]. eapply shape_bytes; [apply H|exact Sh].
Qed.
Lemma put_field_total k m c kd v : field_ok kd v -> cmap_ok k m c ->
  exists new c' k', put_field true (zlen m) kd v (Some c) = Ok (new, Some c') /\ cmap_ok k' (m ++ new) c' /\ zlen new <= field_size kd v /\ bytes_ok new.
Proof.
  intros F Hc. destruct (kname_dec kd) as [->|Nk].
  - destruct (field_ok_name _ F) as (s & -> & V). cbn [put_field field_size] in *. destruct (wname_total k m c s V Hc) as (new & c' & R & C & L & B).
    exists new, c', (S k). rewrite R. auto.
  - destruct (flat_put kd v true (zlen m) (Some c) F Nk) as (R & L & B & _). exists (flat kd v), c, k. split; [exact R|]. split; [apply (cmap_app k); [lia|exact Hc]|]. split; [lia|exact B].
Qed.
Lemma put_fields_total ks : forall vs k m c, Forall2 field_ok ks vs -> cmap_ok k m c ->
  exists new c' k', put_fields true (zlen m) ks vs (Some c) = Ok (new, Some c') /\ cmap_ok k' (m ++ new) c' /\ zlen new <= fields_size ks vs /\ bytes_ok new.
Proof.
  induction ks as [|kd ks IH]; intros vs k m c F Hc; inversion F as [|? v ? vs' F1 F2]; subst.
  - exists [], c, k. cbn [put_fields fields_size]. rewrite app_nil_r. split; [reflexivity|]. split; [exact Hc|]. split; [unfold zlen; cbn; lia|constructor].
  - cbn [fields_size put_fields]. destruct (put_field_total k m c kd v F1 Hc) as (o1 & c1 & k1 & R1 & C1 & L1 & B1). rewrite R1. cbn [obind].
    destruct (IH vs' k1 (m ++ o1) c1 F2 C1) as (o2 & c2 & k2 & R2 & C2 & L2 & B2). rewrite zlen_app in R2. rewrite R2. cbn [obind].
    exists (o1 ++ o2), c2, k2. split; [reflexivity|]. rewrite <- app_assoc in C2. split; [exact C2|]. split; [rewrite zlen_app; lia|apply bytes_ok_app; auto].
Qed.
(** A record that is well-formed but for the size of its data *)
Definition record_sound (r : rr) : Prop := head_ok r /\ exists vs, r_rd r = Some vs /\ Forall2 field_ok (layout (r_type r)) vs.
Lemma ok_sound r : record_ok r -> record_sound r.
Proof. intros (H & vs & E & F & _). split; [exact H|eauto]. Qed.
Lemma of_sound n r : record_of n r -> record_sound r.
Proof. intros (H & vs & E & F & _). split; [exact H|eauto]. Qed.
Definition wok (i : item) : Prop := (forall k m c, cmap_ok k m c ->
  exists new c' k', iw i true (zlen m) (snd i) (Some c) = Ok (new, Some c') /\ cmap_ok k' (m ++ new) c' /\ zlen new <= item_size (snd i) (fst i) /\ bytes_ok new) /\
  forall base, exists b, iw i false base (snd i) None = Ok (b, None) /\ zlen b = item_size (snd i) (fst i).
Lemma question_total r : question_ok r -> wok (true, r).
Proof.
  intros Q. split; [|exact (proj2 (question_codec r Q))]. destruct Q as ((V & Ht & Hc & _) & _). intros k m c Hm. cbn [fst snd]. unfold iw. cbn [fst]. destruct (wname_total k m c _ V Hm) as (new & c' & R & C & L & B).
  unfold qs_write. rewrite R. exists (new ++ write_u16be (r_type r) ++ write_u16be (r_class r)), c', (S k). split; [reflexivity|].
  split; [rewrite app_assoc; now apply (cmap_app (S k))|]. unfold item_size. rewrite !zlen_app, !zlen_u16be. split; [lia|bok].
Qed.
Lemma record_total r : record_sound r -> wok (false, r).
Proof.
  intros ((V & Ht & Hc & Httl) & vs & Hrd & F). split; [intros k m c Hm|intros base]; cbn [fst snd]; unfold iw; cbn [fst].
  - destruct (wname_total k m c _ V Hm) as (o & c1 & R & C & L & B).
    unfold rr_write. rewrite R, Hrd. cbv zeta. unfold rd_write. rewrite kinds_write.
    set (h := o ++ write_u16be (r_type r) ++ write_u16be (r_class r) ++ write_u32be (r_ttl r)).
    assert (Lh : zlen h = zlen o + 8) by (unfold h; rewrite !zlen_app, !zlen_u16be, zlen_u32be; lia).
    assert (Bh : bytes_ok h) by (unfold h; bok).
    assert (K : forall lb, zlen lb = 2 -> exists new c' k', put_fields true (zlen m + zlen h + 2) (layout (r_type r)) vs (Some c1) = Ok (new, Some c') /\
       cmap_ok k' (m ++ h ++ lb ++ new) c' /\ zlen new <= fields_size (layout (r_type r)) vs /\ bytes_ok new).
    { intros lb Llb. destruct (put_fields_total (layout (r_type r)) vs (S k) (m ++ h ++ lb) c1 F) as (new & c' & k' & R2 & C2 & L2 & B2).
      - unfold h. rewrite <- !app_assoc. rewrite app_assoc. now apply (cmap_app (S k)).
      - rewrite !zlen_app, Llb in R2. replace (zlen m + (zlen h + 2)) with (zlen m + zlen h + 2) in R2 by lia. exists new, c', k'. rewrite <- !app_assoc in C2. auto. }
    destruct (K [0; 0] eq_refl) as (new & c' & k' & R2 & _). destruct (K (write_u16be (zlen new)) eq_refl) as (new' & c'' & k'' & R2' & C2 & L2 & B2). rewrite R2 in R2'.
    apply Ok_inj in R2'. pose proof (f_equal fst R2') as E1. pose proof (f_equal snd R2') as E2. cbn [fst snd] in E1, E2. apply some_inj in E2. subst new' c''.
    rewrite R2. cbn [obind]. exists (h ++ write_u16be (zlen new) ++ new), c', k''. split; [reflexivity|]. split; [exact C2|].
    unfold item_size. rewrite Hrd, !zlen_app, zlen_u16be. split; [lia|bok].
  - unfold rr_write. destruct (wname_plain false base _ V) as (b & R & L & _). rewrite R, Hrd. unfold rd_write. rewrite kinds_write.
    destruct (put_fields_size (layout (r_type r)) vs (base + zlen (b ++ write_u16be (r_type r) ++ write_u16be (r_class r) ++ write_u32be (r_ttl r)) + 2) F) as (b2 & R2 & L2).
    rewrite R2. cbn [obind]. eexists. split; [reflexivity|]. unfold item_size. rewrite Hrd, !zlen_app, !zlen_u16be, zlen_u32be. lia.
Qed.
Lemma items_total l : Forall wok l -> forall k m c, cmap_ok k m c ->
  exists bs c', iwrite true (zlen m) l (Some c) = Ok (bs, Some c') /\ zlen (concat bs) <= sizes l /\ bytes_ok (concat bs).
Proof.
  induction 1 as [|i l [H _] F IH]; intros k m c Hm.
  - exists [], c. cbn [iwrite concat]. split; [reflexivity|]. split; [unfold zlen; cbn; lia|constructor].
  - cbn [iwrite]. destruct (H k m c Hm) as (b & c1 & k1 & R & C & L & B). rewrite R. cbn [obind].
    destruct (IH k1 (m ++ b) c1 C) as (bs & c2 & R2 & L2 & B2). rewrite zlen_app in R2. rewrite R2. cbn [obind].
    exists (b :: bs), c2. cbn [concat]. split; [reflexivity|]. rewrite zlen_app. unfold sizes in *. cbn [map fold_right]. split; [lia|apply bytes_ok_app; auto].
Qed.
Lemma items_measured l : Forall wok l -> forall base, exists bs, iwrite false base l None = Ok (bs, None) /\ zlen (concat bs) = sizes l.
Proof.
  induction 1 as [|i l [_ H] F IH]; intros base; [exists []; auto|]. cbn [iwrite]. destruct (H base) as (b & R & L). rewrite R. cbn [obind].
  destruct (IH (base + zlen b)) as (b2 & R2 & L2). rewrite R2. cbn [obind]. eexists. split; [reflexivity|]. cbn [concat]. rewrite zlen_app. unfold sizes in *. cbn [map fold_right]. lia.
Qed.
Lemma wok_q l : Forall question_ok l -> Forall wok (map (pair true) l).
Proof. induction 1; cbn [map]; constructor; auto using question_total. Qed.
Lemma wok_r l : Forall record_sound l -> Forall wok (map (pair false) l).
Proof. induction 1; cbn [map]; constructor; auto using record_total. Qed.

(** Well-formed but for the depth of the pointers and the size of the data *)
Definition msg_sound (m : msg) : Prop :=
  (zlen (m_an m) <= 255 /\ zlen (m_ns m) <= 255 /\ zlen (m_ar m) <= 255) /\ 0 <= m_code m < 4096 /\
  Forall record_sound (m_an m) /\ Forall record_sound (m_ns m) /\ Forall record_sound (m_ar m).
Lemma answer_sound m : answer_ok m -> msg_sound m.
Proof.
  intros (_ & _ & Hc & L & Fa & Fn & Fr). split; [exact L|]. split; [exact Hc|]. repeat split; (eapply Forall_impl; [|eassumption]); cbn; try apply ok_sound; intros r [H _]; now apply ok_sound.
Qed.
Lemma decoded_sound b m : decoded b m -> msg_sound m.
Proof.
  intros (_ & _ & _ & Hc & _ & _ & L & _ & Fa & Fn & Fr). split; [tauto|]. split; [exact Hc|]. repeat split; (eapply Forall_impl; [|eassumption]); cbn; try apply of_sound; intros r [H _]; eapply of_sound; exact H.
Qed.
(** The EDNS record of a message whose fields are in range *)
Definition edns_sound (e : edns) : Prop := 0 <= e_version e < 256 /\ 0 <= e_flags e < 65536 /\ 0 <= e_size e < 65536 /\ 0 <= e_code e < 256 /\ bytes_ok (e_rd e).
Lemma lor_bound a b n : 0 <= n -> 0 <= a < 2 ^ n -> 0 <= b < 2 ^ n -> 0 <= Z.lor a b < 2 ^ n.
Proof.
  intros Hn Ha Hb. assert (P : 0 <= Z.lor a b) by (apply Z.lor_nonneg; lia). split; [exact P|]. destruct (Z.eq_dec (Z.lor a b) 0) as [->|N]; [lia|].
  apply Z.log2_lt_pow2; [lia|]. rewrite Z.log2_lor by lia. apply Z.max_lub_lt.
  - destruct (Z.eq_dec a 0) as [->|]; [cbn; destruct (Z.eq_dec n 0) as [->|]; [|lia]; assert (b = 0) by lia; subst; now cbn in N|apply Z.log2_lt_pow2; lia].
  - destruct (Z.eq_dec b 0) as [->|]; [cbn; destruct (Z.eq_dec n 0) as [->|]; [|lia]; assert (a = 0) by lia; subst; now cbn in N|apply Z.log2_lt_pow2; lia].
Qed.
Lemma opt_sound m : edns_sound (m_edns m) -> 0 <= m_code m < 4096 -> Forall record_sound (opt_rr m).
Proof.
  intros (Hv & Hf & Hs & Hc & Hb) Hm.
  assert (K : forall c, 0 <= c < 256 -> record_sound {| r_name := [46]; r_type := 41; r_class := e_size (m_edns m); r_ttl := Z.lor (Z.lor (Z.shiftl c 24 mod 4294967296) (Z.shiftl (e_version (m_edns m)) 16)) (e_flags (m_edns m)); r_rd := Some [VBytes (e_rd (m_edns m))] |}).
  { intros c Hx. split.
    - unfold head_ok. cbn [r_name r_type r_class r_ttl]. split; [apply root_valid|]. split; [lia|]. split; [exact Hs|]. change 4294967296 with (2 ^ 32). rewrite !Z.shiftl_mul_pow2 by lia. change (2 ^ 24) with 16777216. change (2 ^ 16) with 65536.
      repeat apply lor_bound; try lia; change (2 ^ 32) with 4294967296; try lia.
    - exists [VBytes (e_rd (m_edns m))]. split; [reflexivity|]. change (layout (r_type _)) with [KRest]. constructor; [exact Hb|constructor]. }
  assert (Sh : 0 <= Z.shiftr (m_code m) 4 < 256) by (rewrite Z.shiftr_div_pow2 by lia; change (2 ^ 4) with 16; lia).
  unfold opt_rr. destruct (15 <? m_code m); cbv iota beta; [constructor; [now apply K|constructor]|]. destruct (e_enabled (m_edns m)); [constructor; [now apply K|constructor]|constructor].
Qed.
(** Such a message is always encoded; the room measured is enough. *)
Theorem encode_total m : msg_sound m -> edns_sound (m_edns m) -> Forall question_ok (m_qd m) ->
  exists b, msg_encode m = Ok b /\ bytes_ok b /\ 12 <= zlen b /\ firstn 4 b = be_bytes 2 (m_id m) ++ be_bytes 2 (msg_flags m).
Proof.
  intros (_ & Hc & Ha & Hn & Hr) He Hq. assert (Ho := opt_sound m He Hc).
  assert (Wo : Forall wok (msg_items m)) by (unfold msg_items; repeat (apply Forall_app; split); auto using wok_q, wok_r).
  unfold msg_encode, msg_size. rewrite !msg_write_items. cbv iota.
  destruct (items_measured _ Wo 12) as (bs & R & L). rewrite R. cbn [obind].
  destruct (items_total _ Wo 0%nat (hdr m) []) as (bs' & c' & R' & L' & B'); [constructor|]. rewrite hdr_len in R'. change (@Some (list (list Z * Z)) []) with (@Some cmap []). rewrite R'. cbn [obind].
  rewrite !zlen_app, L. destruct (Z.ltb_spec (zlen (hdr m) + sizes (msg_items m)) (zlen (hdr m) + zlen (concat bs'))); [lia|].
  eexists. split; [reflexivity|]. split; [apply bytes_ok_app; split; [apply hdr_ok|exact B']|]. split; [rewrite zlen_app, hdr_len; pose proof (zlen_nonneg (concat bs')); lia|reflexivity].
Qed.
Lemma flags_code m : msg_flags m mod 16 = m_code m mod 16.
Proof.
  change 16 with (2 ^ 4). apply Z.bits_inj'. intros i Hi. destruct (Z.ltb_spec i 4).
  - rewrite !Z.mod_pow2_bits_low by lia. rewrite flag_bits by lia. destruct (Z.ltb_spec i 4); [reflexivity|lia].
  - now rewrite !Z.mod_pow2_bits_high by lia.
Qed.
Lemma flags_range m : 0 <= msg_flags m < 65536.
Proof.
  assert (E : msg_flags m = msg_flags m mod 2 ^ 16).
  { apply Z.bits_inj'. intros i Hi. destruct (Z.ltb_spec i 16); [now rewrite Z.mod_pow2_bits_low by lia|]. rewrite Z.mod_pow2_bits_high by lia. now apply flag_high. }
  rewrite E. change 65536 with (2 ^ 16). apply Z.mod_pos_bound. lia.
Qed.
(** The flags of every reply *)
Definition reply_bit (m : msg) (q : req) (i : Z) : bool :=
  if i <? 4 then Z.testbit (m_code m) i
  else if (11 <=? i) && (i <=? 14) then Z.testbit (m_opcode m) (i - 11)
  else Z.testbit (m_flags m) i || (i =? 15) || ((i =? 8) && q_rd q) || ((i =? 4) && q_cd q).
(** So a reply is always made, or refused cleanly; its id is the request's, its flags and
    code the answer's and its size within the limit. *)
Theorem finalize_bits sign m q : msg_sound m -> req_ok q ->
  exists o, msg_finalize sign m q = Ok (match o with None => None | Some out => match sign with None => Some out | Some f => f out end end) /\
    forall out, o = Some out -> bytes_ok out /\ 12 <= zlen out <= (match sign with None => q_max q | Some _ => q_max q - 94 end) /\
      exists flags, firstn 4 out = be_bytes 2 (q_id q) ++ be_bytes 2 flags /\ 0 <= flags < 65536 /\ forall i, 0 <= i < 16 -> Z.testbit flags i = reply_bit m q i.
Proof.
  intros ((La & Ln & Lr) & Hc & Fa & Fn & Fr) (Vn & Hid & Ht & Hcl & Hmx).
  assert (Dn : exists s, valid_name s /\ rrs_push [] (reply_question q) = [{| r_name := s; r_type := q_type q; r_class := q_class q; r_ttl := 0; r_rd := None |}]).
  { unfold reply_question. cbv zeta. rewrite set_name_valid by exact Vn. destruct (name_dirty (q_name q)).
    - exists [46]. split; [apply root_valid|reflexivity].
    - exists (q_name q). split; [exact Vn|reflexivity]. }
  destruct Dn as (s & Vs & Eqs). unfold msg_finalize. set (r0 := reply m q).
  assert (C : exists r1, (if negb (q_dnssec q) && ((Z.land (m_flags r0) (Z.shiftl 1 7) =? 0) || negb (q_type q =? 255)) then msg_clean r0 (q_type q) else Ok r0) = Ok r1 /\
      m_id r1 = q_id q /\ m_code r1 = m_code m /\ m_opcode r1 = m_opcode m /\ m_flags r1 = m_flags r0 /\ m_qd r1 = m_qd r0 /\ m_edns r1 = m_edns r0 /\ msg_sound r1).
  { destruct (negb (q_dnssec q) && _).
    - destruct (clean_full r0 (q_type q)) as (r1 & R & S1 & S2 & S3 & Er); [exact La|exact Ln|exact Lr|]. exists r1. split; [exact R|].
      rewrite Er. cbn [m_id m_code m_opcode m_flags m_qd m_edns]. repeat (split; [reflexivity|]). split; [|split; [exact Hc|]]; cbn [m_an m_ns m_ar].
      + change (m_an r0) with (m_an m) in S1. change (m_ns r0) with (m_ns m) in S2. change (m_ar r0) with (m_ar m) in S3. apply sifted_zlen in S1, S2, S3. lia.
      + split; [eapply sifted_Forall; [exact S1|exact Fa]|]. split; [eapply sifted_Forall; [exact S2|exact Fn]|eapply sifted_Forall; [exact S3|exact Fr]].
    - exists r0. repeat (split; [reflexivity|]). split; [|split; [exact Hc|]]; auto. }
  destruct C as (r1 & -> & Ei & Ec & Eo & Ef & Eq & Ee & Snd). cbn [obind].
  destruct (encode_total r1 Snd) as (b & Eb & Bb & Lb & Hb).
  { rewrite Ee. unfold edns_sound, r0, reply. cbn [m_edns e_version e_flags e_size e_code e_rd]. split; [lia|]. split; [destruct (q_edns q && q_dnssec q); cbn; lia|]. split; [destruct (q_edns q); lia|]. split; [lia|constructor]. }
  { rewrite Eq. change (m_qd r0) with (rrs_push [] (reply_question q)). rewrite Eqs. constructor; [|constructor]. unfold question_ok, head_ok. cbn. repeat split; auto; lia. }
  rewrite Eb. cbn [obind]. set (limit := match sign with None => q_max q | Some _ => q_max q - 94 end).
  assert (El : match sign with None => q_max q | Some _ => (q_max q - 94) mod 18446744073709551616 end = limit) by (unfold limit; destruct sign; [apply Z.mod_small; lia|reflexivity]). rewrite El.
  destruct (truncate_total b limit Bb) as (o & T & X). rewrite T. cbn [obind]. exists o. split; [destruct o; [destruct sign|]; reflexivity|].
  intros out ->. destruct (X out eq_refl) as (L1 & L2 & B & F & _). split; [exact B|]. split; [exact L1|].
  exists (msg_flags r1). split; [rewrite F, Hb, Ei; reflexivity|]. split; [apply flags_range|].
  intros i Hi. unfold reply_bit. rewrite flag_bits by exact Hi. rewrite Ec, Eo, Ef. change (m_flags r0) with (reply_flags (m_flags m) q). rewrite reply_bits by lia. reflexivity.
Qed.
Lemma bits_code x y : (forall i, 0 <= i < 4 -> Z.testbit x i = Z.testbit y i) -> x mod 16 = y mod 16.
Proof.
  intros H. change 16 with (2 ^ 4). apply Z.bits_inj'. intros i Hi. destruct (Z.ltb_spec i 4); [rewrite !Z.mod_pow2_bits_low by lia; apply H; lia|now rewrite !Z.mod_pow2_bits_high by lia].
Qed.
Theorem finalize_total sign m q : msg_sound m -> req_ok q ->
  exists o, msg_finalize sign m q = Ok (match o with None => None | Some out => match sign with None => Some out | Some f => f out end end) /\
    forall out, o = Some out -> bytes_ok out /\ 12 <= zlen out <= (match sign with None => q_max q | Some _ => q_max q - 94 end) /\
      exists flags, firstn 4 out = be_bytes 2 (q_id q) ++ be_bytes 2 flags /\ 0 <= flags < 65536 /\ Z.testbit flags 15 = true /\ flags mod 16 = m_code m mod 16.
Proof.
  intros Hm Hq. destruct (finalize_bits sign m q Hm Hq) as (o & E & X). exists o. split; [exact E|]. intros out Eo. destruct (X out Eo) as (B & L & flags & F & R & T).
  split; [exact B|]. split; [exact L|]. exists flags. split; [exact F|]. split; [exact R|]. split.
  - rewrite T by lia. unfold reply_bit. cbn [Z.ltb Z.leb Z.eqb Z.compare Pos.compare Pos.compare_cont Pos.eqb andb]. rewrite orb_true_r. reflexivity.
  - apply bits_code. intros i Hi. rewrite T by lia. unfold reply_bit. destruct (Z.ltb_spec i 4); [reflexivity|lia].
Qed.
Print Assumptions encode_total.
Print Assumptions finalize_total.
Print Assumptions finalize_bits.
