(** The bytes written without compression. *)
From Verif Require Import Common CommonFacts BioModel BioFacts UtilTheorems DnsNameModel DnsNameSpec DnsNameFacts DnsNameTheorems DnsMsgModel DnsMsgSpec DnsMsgFacts.
From Coq Require Import Lia.

Lemma split_label l : forall cur s, Forall pchar l -> split_dots cur (l ++ 46 :: s) = (cur ++ l) :: split_dots [] s.
Proof.
  induction l as [|c l IH]; intros cur s H; cbn [app split_dots]; [rewrite app_nil_r; reflexivity|]. apply Forall_cons_iff in H as [[_ Hc] H]. destruct (Z.eqb_spec c 46); [contradiction|].
  rewrite IH by auto. now rewrite <- app_assoc.
Qed.
Lemma name_wire_plain ls : Forall plabel ls -> name_wire (dotted ls) = plain ls.
Proof.
  intros H. unfold name_wire, plain. f_equal. f_equal. f_equal. pose proof (pname_dotted_root ls H) as X. destruct (beq (dotted ls) [46]) eqn:E.
  - destruct X as [X _]. now rewrite X by auto.
  - destruct ls as [|l ls]; [destruct X as [_ X]; discriminate (X eq_refl)|]. clear E X. unfold dotted. remember (l :: ls) as ll eqn:El. clear El l ls. induction H as [|l ls [_ Hl] H IH]; [reflexivity|].
    cbn [map concat]. rewrite <- app_assoc. cbn [app]. rewrite split_label by auto. cbn [app]. f_equal. exact IH.
Qed.
Lemma wname_wire data base s : valid_name s -> wname data base s None = (name_wire s, None) /\ zlen (name_wire s) = nsize s /\ bytes_ok (name_wire s) /\
  forall dmp w, (forall m, dmp = Some m -> bytes_ok m) -> bytes_ok w -> name_read dmp (name_wire s ++ w) = Ok (Some (s, w)).
Proof.
  intros V. destruct (wname_plain data base s V) as (b & R & X). destruct V as (ls & H & ->). assert (E : b = name_wire (dotted ls)).
  { unfold wname, name_write in R. rewrite serialize_plain in R by auto. rewrite name_wire_plain by apply H. now inversion R. }
  subst b. auto.
Qed.
Lemma flat_wire k v : field_ok k v -> k <> KName -> flat k v = field_wire k v.
Proof.
  intros H N. destruct k as [|n|n| | |], v as [x|b|l]; cbn [field_ok] in H; try contradiction; try congruence; cbn [flat field_wire]; auto.
  - destruct H as [_ H]. pose proof (zlen_nonneg b). now rewrite write_u8_len by lia.
  - destruct H as [H _]. induction H as [|t l [_ Ht] H IH]; [reflexivity|]. rewrite txt_bytes_cons. pose proof (zlen_nonneg t). rewrite write_u8_len by lia. cbn [map concat app]. now rewrite IH.
Qed.
Lemma put_fields_wire data ks : forall vs base, Forall2 field_ok ks vs -> put_fields data base ks vs None = Ok (fields_wire ks vs, None) /\ zlen (fields_wire ks vs) = fields_size ks vs /\ bytes_ok (fields_wire ks vs) /\
  (greedy_last ks = true -> forall dmp, (forall m, dmp = Some m -> bytes_ok m) -> get_fields dmp ks (fields_wire ks vs) = Ok (Some vs)).
Proof.
  induction ks as [|k ks IH]; intros vs base F; inversion F as [|? v ? vs' F1 F2]; subst.
  - cbn [put_fields fields_wire fields_size get_fields]. split; [reflexivity|]. split; [reflexivity|]. split; [constructor|auto].
  - cbn [put_fields fields_wire fields_size get_fields].
    assert (P : put_field data base k v None = Ok (field_wire k v, None) /\ zlen (field_wire k v) = field_size k v /\ bytes_ok (field_wire k v) /\
      forall dmp w, (forall m, dmp = Some m -> bytes_ok m) -> bytes_ok w -> (greedy k = true -> w = []) -> get_field dmp k (field_wire k v ++ w) = Ok (Some (v, w))).
    { destruct (kname_dec k) as [->|Nk].
      - destruct (field_ok_name _ F1) as (s & -> & V). cbn [put_field field_wire field_size get_field]. destruct (wname_wire data base s V) as (R & L & B & X). rewrite R. repeat split; auto. intros dmp w Hd Hw _. rewrite X by auto. reflexivity.
      - rewrite <- flat_wire by auto. destruct (flat_put k v data base None F1 Nk) as (R & L & B & _). repeat split; auto. intros. now apply flat_get. }
    destruct P as (R & L & B & X). rewrite R. cbn [obind]. destruct (IH vs' (base + zlen (field_wire k v)) F2) as (R2 & L2 & B2 & X2). rewrite R2. cbn [obind]. rewrite zlen_app.
    split; [reflexivity|]. split; [lia|]. split; [apply bytes_ok_app; auto|]. intros G dmp Hd. rewrite X; auto.
    + cbn [obind]. rewrite X2; auto. destruct ks; [reflexivity|]. cbn [greedy_last] in G. apply andb_true_iff in G. tauto.
    + intros Gk. destruct ks as [|k2 ks]; [inversion F2; reflexivity|]. cbn [greedy_last] in G. rewrite Gk in G. discriminate.
Qed.
Lemma question_wire_ok data base q : question_ok q -> qs_write data base q None = Ok (question_wire q, None).
Proof. intros ((V & _) & _). unfold qs_write, question_wire. rewrite (proj1 (wname_wire data base _ V)). reflexivity. Qed.
Lemma record_wire_ok data base r : record_ok r -> rr_write data base r None = Ok (record_wire r, None) /\ zlen (record_wire r) = nsize (r_name r) + 10 + match r_rd r with Some vs => fields_size (layout (r_type r)) vs | None => 0 end /\
  forall dmp w, (forall m, dmp = Some m -> bytes_ok m) -> bytes_ok w -> rr_read dmp (record_wire r ++ w) = Ok (Some (r, w)).
Proof.
  intros ((V & Ht & Hc & Hl) & vs & E & F & Sz). unfold rr_write, record_wire. rewrite E. destruct (wname_wire data base _ V) as (R & L & B & X). rewrite R. unfold rd_write. rewrite kinds_write.
  destruct (put_fields_wire data (layout (r_type r)) vs (base + zlen (name_wire (r_name r) ++ write_u16be (r_type r) ++ write_u16be (r_class r) ++ write_u32be (r_ttl r)) + 2) F) as (R2 & L2 & B2 & X2). rewrite R2. cbn [obind].
  split; [unfold write_u16be, write_u32be; rewrite <- !app_assoc; reflexivity|]. split; [rewrite !zlen_app, !be_bytes_zlen; lia|]. intros dmp w Hd Hw. unfold rr_read. rewrite <- !app_assoc. rewrite X; auto.
  - cbn [obind]. pose proof (zlen_nonneg (fields_wire (layout (r_type r)) vs)). change (be_bytes 2) with write_u16be. change (be_bytes 4) with write_u32be. rewrite !read_u16be_app by auto. rewrite read_u32be_app by auto. rewrite read_u16be_app by lia.
    assert (Lx : zlen (fields_wire (layout (r_type r)) vs ++ w) <? zlen (fields_wire (layout (r_type r)) vs) = false) by (apply Z.ltb_ge; rewrite zlen_app; pose proof (zlen_nonneg w); lia). rewrite Lx.
    rewrite firstn_zlen, skipn_zlen. unfold rd_read. rewrite kinds_read, X2 by (auto using layout_greedy). cbn [obind]. f_equal. f_equal. f_equal. destruct r. cbn in *. now subst.
  - repeat (match goal with |- bytes_ok (_ ++ _) => apply bytes_ok_app; split end); auto using be_bytes_ok.
Qed.
Lemma sect_wire (w : writer) (f : rr -> list Z) data l : Forall (fun r => forall base, w data base r None = Ok (f r, None)) l -> forall base, sect_write w data base l None = Ok (concat (map f l), None).
Proof.
  induction 1 as [|r l H F IH]; intros base; cbn [sect_write map concat]; auto. rewrite H. cbn [obind]. rewrite IH. reflexivity.
Qed.

(** * The whole message without compression *)
Definition item_wire (i : item) : list Z := if fst i then question_wire (snd i) else record_wire (snd i).
Lemma question_read_wire q dmp w : question_ok q -> (forall m, dmp = Some m -> bytes_ok m) -> bytes_ok w -> qs_read dmp (question_wire q ++ w) = Ok (Some (q, w)) /\ 1 <= zlen (question_wire q) /\ bytes_ok (question_wire q).
Proof.
  intros ((V & Ht & Hc & _) & Hl & Hr) Hd Hw. destruct (wname_wire true 0 _ V) as (_ & L & B & X). unfold question_wire.
  assert (Bq : bytes_ok (name_wire (r_name q) ++ be_bytes 2 (r_type q) ++ be_bytes 2 (r_class q))) by (repeat (match goal with |- bytes_ok (_ ++ _) => apply bytes_ok_app; split end); auto using be_bytes_ok).
  split; [|split; [rewrite zlen_app, L; pose proof (nsize_pos (r_name q)); pose proof (zlen_nonneg (be_bytes 2 (r_type q) ++ be_bytes 2 (r_class q))); lia|exact Bq]].
  unfold qs_read. rewrite <- !app_assoc. rewrite X; auto; [|repeat (match goal with |- bytes_ok (_ ++ _) => apply bytes_ok_app; split end); auto using be_bytes_ok].
  cbn [obind]. change (be_bytes 2) with write_u16be. rewrite !read_u16be_app by auto. f_equal. f_equal. f_equal. destruct q. cbn in *. now subst.
Qed.
Lemma record_bytes r : record_ok r -> bytes_ok (record_wire r).
Proof.
  intros ((V & _) & vs & E & F & _). unfold record_wire. rewrite E. destruct (wname_wire true 0 _ V) as (_ & _ & B & _). destruct (put_fields_wire true (layout (r_type r)) vs 0 F) as (_ & _ & B2 & _).
  repeat (match goal with |- bytes_ok (_ ++ _) => apply bytes_ok_app; split end); auto using be_bytes_ok.
Qed.
Lemma wire_chunked l : forall m, Forall (fun i : item => if fst i then question_ok (snd i) else record_ok (snd i)) l -> chunked m l (map item_wire l).
Proof.
  induction l as [|[q r] l IH]; intros m F; [constructor|]. apply Forall_cons_iff in F as [F1 F2]. cbn [map]. cbn [fst snd] in F1. constructor; [| | |now apply IH]; unfold item_wire; cbn [fst snd]; destruct q.
  - apply (question_read_wire r None []); auto; [discriminate|constructor].
  - destruct (record_wire_ok true 0 r F1) as (_ & L & _). rewrite L. pose proof (nsize_pos (r_name r)). destruct F1 as (_ & vs & -> & F1 & _). pose proof (proj1 (proj2 (put_fields_wire true _ _ 0 F1))) as Q. pose proof (zlen_nonneg (fields_wire (layout (r_type r)) vs)). lia.
  - apply (question_read_wire r None []); auto; [discriminate|constructor].
  - now apply record_bytes.
  - intros after x Ba Bx. rewrite ird_qs. apply question_read_wire; auto. intros m' E. apply some_inj in E. now subst.
  - intros after x Ba Bx. rewrite ird_rr. apply (record_wire_ok true 0 r F1); auto. intros m' E. apply some_inj in E. now subst.
Qed.
Lemma be4 a b c : 0 <= a < 256 -> 0 <= b < 256 -> 0 <= c < 65536 -> be_bytes 4 (a * 16777216 + b * 65536 + c) = [a; b] ++ be_bytes 2 c.
Proof. intros Ha Hb Hc. unfold be_bytes. cbn [le_bytes rev app]. apply f_equal2; [lia|]. apply f_equal2; [lia|]. apply f_equal2; [lia|]. apply f_equal2; [lia|reflexivity]. Qed.
Lemma opt_wire m : edns_ok m -> 0 <= m_code m < 4096 -> concat (map record_wire (opt_rr m)) = edns_wire m.
Proof.
  intros He Hc. rewrite opt_shape by auto. unfold edns_wire. unfold edns_ok in He. destruct (e_enabled (m_edns m)); [|reflexivity]. destruct He as (Hv & Hf & Hs & Hx & Hb & Hl).
  cbn [map concat]. rewrite app_nil_r. unfold record_wire. cbn [r_name r_type r_class r_ttl r_rd]. change (layout 41) with [KRest]. cbn [fields_wire field_wire]. rewrite app_nil_r, be4 by lia. rewrite Hx.
  change (name_wire [46]) with [0]. change (be_bytes 2 41) with [0; 41]. cbn [app]. reflexivity.
Qed.
Definition item_good (i : item) : Prop := if fst i then question_ok (snd i) else record_ok (snd i).
Lemma good_items m : msg_ok m -> Forall item_good (msg_items m).
Proof.
  intros Hm. assert (Ha := ar_records m Hm). destruct Hm as ((H1 & H2 & H3 & H4 & H5) & He & _ & Hq & Hn & Hs & _ & _). unfold msg_items. assert (Ho := opt_record m He H4).
  repeat (apply Forall_app; split); apply Forall_map; assumption.
Qed.
Lemma message_wire_items m : msg_ok m -> message_wire m = hdr m ++ concat (map item_wire (msg_items m)).
Proof.
  intros (Hh & He & _). assert (Fl := msg_flags_id m Hh). destruct Hh as (_ & _ & _ & Hc & _). unfold message_wire, hdr, msg_items. rewrite Fl, !map_app, !concat_app, <- !app_assoc. rewrite !map_map. cbn [item_wire fst snd].
  rewrite <- opt_wire by auto. reflexivity.
Qed.
Lemma iwrite_wire data l : Forall item_good l -> forall base, iwrite data base l None = Ok (map item_wire l, None).
Proof.
  induction 1 as [|[q r] l H F IH]; intros base; [reflexivity|]. cbn [iwrite map]. assert (E : iw (q, r) data base r None = Ok (item_wire (q, r), None)).
  { unfold iw, item_wire, item_good in *. cbn [fst snd] in *. destruct q; [now apply question_wire_ok|now apply record_wire_ok]. }
  cbn [snd]. rewrite E. cbn [obind]. rewrite IH. reflexivity.
Qed.
