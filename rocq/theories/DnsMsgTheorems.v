(** DNS messages: round trip, memory safety, truncation, removal of DNSSEC records. *)
From Verif Require Import Common CommonFacts BioModel BioFacts UtilTheorems DnsNameModel DnsNameSpec DnsNameFacts DnsNameTheorems DnsMsgModel DnsMsgSpec DnsMsgFacts DnsMsgDecode DnsMsgTrunc DnsMsgWire.
From Coq Require Import Lia.


(** ** C30: messages *)
(** A message the library can hold is decoded as it was encoded; the encoder writes
    nothing past the size it measured, the sum of the uncompressed lengths. *)
Theorem msg_roundtrip m : msg_ok m -> exists b, msg_encode m = Ok b /\ msg_decode b = Ok (Some m) /\ msg_size m = Ok (zlen (message_wire m)) /\ zlen b <= zlen (message_wire m).
Proof.
  intros Hm. destruct (msg_encoded m Hm) as (bs & En & Lb & Sz & Ch & _). exists (hdr m ++ concat bs). split; [exact En|]. clear En. split.
  - destruct Hm as (Hh & He & L & _ & _ & _ & Fr & _). apply decode_chunks; auto using hdr_len. eapply Forall_impl; [|exact Fr]. cbn. tauto.
  - assert (E : zlen (message_wire m) = 12 + sizes (msg_items m)); [|rewrite E, zlen_app, hdr_len; split; [exact Sz|lia]].
    unfold msg_size in Sz. rewrite msg_write_items, iwrite_wire in Sz by now apply good_items. cbn [obind] in Sz. apply Ok_inj in Sz. rewrite <- Sz, message_wire_items by auto. reflexivity.
Qed.
(** The decoder reads the layout of the RFCs. *)
Theorem decode_layout m : msg_ok m -> msg_decode (message_wire m) = Ok (Some m).
Proof.
  intros Hm. rewrite message_wire_items by auto. assert (G := good_items m Hm). destruct Hm as (Hh & He & L & _ & _ & _ & Fr & _). apply decode_chunks; auto; [eapply Forall_impl; [|exact Fr]; cbn; tauto|now apply wire_chunked].
Qed.
(** The header in front of every encoded message *)
Theorem encode_header m b : msg_ok m -> msg_encode m = Ok b -> firstn 12 b = firstn 12 (message_wire m) /\ bytes_ok b.
Proof.
  intros Hm E. destruct (msg_encoded m Hm) as (bs & En & _ & _ & Ch & _). rewrite En in E. apply Ok_inj in E. subst b. rewrite message_wire_items by auto. split; [reflexivity|].
  apply bytes_ok_app. split; [apply hdr_ok|]. exact (chunked_bytes _ _ _ (Ch _ (hdr_len m))).
Qed.
(** Any bytes: the decoder answers, and what it accepts has the shape of a message. *)
Theorem decode_total b : bytes_ok b -> exists o, msg_decode b = Ok o /\ (zlen b < 12 -> o = None) /\ forall m, o = Some m -> decoded b m.
Proof.
  intros B. destruct (decode_wf b B) as (o & E & X). exists o. split; [exact E|]. split; [|exact X]. intros L. destruct o as [m|]; [exfalso|reflexivity].
  unfold msg_decode in E.
  assert (K : forall d v r, read_u16be d = Some (v, r) -> zlen d = 2 + zlen r) by (intros d v r R; apply read_be_shape in R as (a & -> & La); rewrite zlen_app; unfold zlen; rewrite La; reflexivity).
  do 6 (match type of E with match ?x with _ => _ end = _ => destruct x as [[? ?]|] eqn:?; [|discriminate E] end).
  repeat match goal with R : read_u16be _ = Some _ |- _ => apply K in R end. pose proof (zlen_nonneg l4). lia.
Qed.
(** What was decoded can be encoded and decoded again, unless pointers would run deeper
    than the decoder follows or several EDNS records disagree on the error code. *)
Theorem decode_encode b m : bytes_ok b -> zlen b <= 65000 -> msg_decode b = Ok (Some m) -> within 0 (msg_names m) -> (e_enabled (m_edns m) = true -> e_code (m_edns m) = m_code m / 16) ->
  exists b', msg_encode m = Ok b' /\ msg_decode b' = Ok (Some m).
Proof.
  intros B L E W Ec. destruct (decode_wf b B) as (o & R & X). rewrite E in R. apply Ok_inj in R. subst o. assert (Hm := decoded_msg_ok b m L (X m eq_refl) B W Ec).
  destruct (msg_roundtrip m Hm) as (b' & E1 & E2 & _). eauto.
Qed.
(** A record alone, and its copy *)
Theorem record_roundtrip r : record_ok r -> rr_encode r = Ok (record_wire r) /\ rr_decode (record_wire r) = Ok (Some r) /\ rr_clone r = Ok (Some r).
Proof.
  intros H. unfold rr_clone, rr_encode, rr_decode. destruct (record_wire_ok true 0 r H) as (R & _ & X). rewrite R. cbn [obind]. specialize (X None []). rewrite app_nil_r in X. rewrite X; [|discriminate|constructor]. auto.
Qed.
(** An extended error code is lost when EDNS is off: the OPT record is written but not
    counted. *)
Theorem extended_code_refuted : exists m b m', header_ok m /\ e_enabled (m_edns m) = false /\ msg_encode m = Ok b /\ msg_decode b = Ok (Some m') /\ m_code m = 16 /\ m_code m' = 0 /\ zlen b = 23.
Proof.
  exists {| m_id := 0; m_opcode := 0; m_code := 16; m_flags := 0; m_qd := []; m_an := []; m_ns := []; m_ar := []; m_edns := edns_init |}. eexists. eexists.
  split; [repeat split; cbn; lia|]. split; [reflexivity|]. split; [vm_compute; reflexivity|]. split; [vm_compute; reflexivity|]. repeat split; reflexivity.
Qed.

(** ** C31: truncation *)
(** Any bytes: the result never exceeds the limit or the message; only section counts
    and the tail change. *)
Theorem truncate_total msg max : bytes_ok msg -> exists o, msg_truncate msg max = Ok o /\
  forall out, o = Some out -> 12 <= zlen out <= max /\ zlen out <= zlen msg /\ bytes_ok out /\ firstn 4 out = firstn 4 msg /\ exists x, skipn 12 msg = skipn 12 out ++ x.
Proof. apply truncate_wf. Qed.
(** An encoded message: the result is the encoding of its first items, as many as fit,
    and decodes to them. *)
Theorem truncate_exact_partial m M max : msg_ok m -> msg_encode m = Ok M -> 12 <= max ->
  exists n M', 0 <= n <= items m /\ msg_truncate M max = Ok (Some M') /\ msg_encode (cut n m) = Ok M' /\ msg_decode M' = Ok (Some (cut n m)) /\ zlen M' <= max /\
    (zlen M <= max -> M' = M /\ cut n m = m) /\
    (forall M'', n < items m -> msg_encode (cut (n + 1) m) = Ok M'' -> max < zlen M'').
Proof.
  intros Hm E L. destruct (truncate_encoded m M max Hm E L) as (n & M' & Hn & R & En & Lm & Nx). exists n, M'. split; [exact Hn|]. split; [exact R|]. split; [exact En|]. split; [|split; [exact Lm|split; [|exact Nx]]].
  - destruct (msg_roundtrip _ (cut_ok m n Hm)) as (b & E1 & E2 & _). rewrite En in E1. apply Ok_inj in E1. now subst b.
  - intros Hs. assert (EM : M' = M).
    { unfold msg_truncate in R. destruct (Z.ltb_spec (zlen M) 12); [discriminate|]. destruct (Z.ltb_spec max 12); [discriminate|]. destruct (Z.leb_spec (zlen M) max); [|lia]. apply Ok_inj, some_inj in R. auto. }
    split; [exact EM|]. subst M'. destruct (msg_roundtrip _ (cut_ok m n Hm)) as (b & E1 & E2 & _). destruct (msg_roundtrip _ Hm) as (b' & E3 & E4 & _). rewrite En in E1. rewrite E in E3. apply Ok_inj in E1, E3. subst b b'. rewrite E4 in E2. apply Ok_inj, some_inj in E2. auto.
Qed.
(** The TC flag (bit 9) is not set when records are dropped. *)
Theorem truncate_flag_refuted : exists m M M', msg_ok m /\ msg_encode m = Ok M /\ msg_truncate M 12 = Ok (Some M') /\ zlen M' < zlen M /\ Z.testbit (be_val (firstn 2 (skipn 2 M'))) 9 = false.
Proof.
  exists {| m_id := 1; m_opcode := 0; m_code := 0; m_flags := 32768; m_qd := [{| r_name := [97; 46]; r_type := 1; r_class := 1; r_ttl := 0; r_rd := None |}]; m_an := []; m_ns := []; m_ar := []; m_edns := edns_init |}.
  eexists. eexists. split; [|split; [vm_compute; reflexivity|split; [vm_compute; reflexivity|split; reflexivity]]].
  split; [repeat split; cbn; lia|]. split; [split; [reflexivity|cbn; lia]|]. split; [unfold zlen; cbn; lia|]. split; [|split; [constructor|split; [constructor|split; [constructor|cbn; auto with arith]]]].
  constructor; [|constructor]. split; [|auto]. split; [|cbn; lia]. exists [[97]]. split; [|reflexivity]. split; [|unfold zlen; cbn; lia]. repeat constructor; unfold zlen; cbn; lia.
Qed.

(** ** C34: removal of DNSSEC records *)
Definition dnssec (t : Z) : Prop := In t [43; 46; 47; 48; 50; 51; 30; 32769].
Lemma sec_type_iff t : sec_type t = true <-> dnssec t.
Proof. unfold sec_type, dnssec. rewrite !orb_true_iff, !Z.eqb_eq. cbn [In]. lia. Qed.
Lemma clean_loop type l : forall tmp, zlen tmp + zlen l <= 255 -> rrs_clean_loop l type tmp = Ok (tmp ++ filter (fun r => negb (sec_type (r_type r)) || (r_type r =? type)) l).
Proof.
  induction l as [|r l IH]; intros tmp L; cbn [rrs_clean_loop filter]; [now rewrite app_nil_r|]. rewrite zlen_cons in L. pose proof (zlen_nonneg l). rewrite (Z.eqb_sym type).
  destruct (sec_type (r_type r)), (r_type r =? type); cbn [andb negb orb]; try (apply IH; lia);
    (destruct (Z.eqb_spec (zlen tmp) 255); [lia|]; rewrite IH by (rewrite zlen_app; change (zlen [r]) with 1; lia); now rewrite <- app_assoc).
Qed.
(** What may stay: records that are no DNSSEC records, or of the type asked for *)
Definition stays (type : Z) (r : rr) : Prop := ~ dnssec (r_type r) \/ r_type r = type.
(** [b] is [a] without the elements that fail [P], in order *)
Inductive sifted {A} (P : A -> Prop) : list A -> list A -> Prop :=
| sift_nil : sifted P [] []
| sift_keep x a b : P x -> sifted P a b -> sifted P (x :: a) (x :: b)
| sift_drop x a b : ~ P x -> sifted P a b -> sifted P (x :: a) b.
Lemma sifted_filter type l : sifted (stays type) l (filter (fun r => negb (sec_type (r_type r)) || (r_type r =? type)) l).
Proof.
  induction l as [|r l IH]; [constructor|]. cbn [filter]. pose proof (sec_type_iff (r_type r)) as S. destruct (Z.eqb_spec (r_type r) type) as [E|E].
  - rewrite orb_true_r. apply sift_keep; [now right|exact IH].
  - rewrite orb_false_r. destruct (sec_type (r_type r)); cbn [negb].
    + apply sift_drop; [|exact IH]. intros [H|H]; [apply H, S; reflexivity|contradiction].
    + apply sift_keep; [|exact IH]. left. intros H. apply S in H. discriminate.
Qed.
Theorem clean_exact m type : zlen (m_an m) <= 255 -> zlen (m_ns m) <= 255 -> zlen (m_ar m) <= 255 ->
  exists m', msg_clean m type = Ok m' /\ sifted (stays type) (m_an m) (m_an m') /\ sifted (stays type) (m_ns m) (m_ns m') /\ sifted (stays type) (m_ar m) (m_ar m') /\
    m_qd m' = m_qd m /\ m_edns m' = m_edns m /\ m_id m' = m_id m /\ m_flags m' = m_flags m /\ m_opcode m' = m_opcode m /\ m_code m' = m_code m.
Proof.
  intros H1 H2 H3. unfold msg_clean, rrs_clean. rewrite !clean_loop by (change (zlen (@nil rr)) with 0; lia). cbn [obind app]. eexists. split; [reflexivity|]. cbn [m_an m_ns m_ar m_qd m_edns m_id m_flags m_opcode m_code].
  repeat (split; [apply sifted_filter|]). auto 10.
Qed.
Corollary clean_none m type m' : msg_clean m type = Ok m' -> forall r, In r (m_an m' ++ m_ns m' ++ m_ar m') -> zlen (m_an m) <= 255 -> zlen (m_ns m) <= 255 -> zlen (m_ar m) <= 255 -> stays type r.
Proof.
  intros E r I H1 H2 H3. destruct (clean_exact m type H1 H2 H3) as (m2 & E2 & S1 & S2 & S3 & _). rewrite E in E2. apply Ok_inj in E2. subst m2.
  assert (K : forall a b : list rr, sifted (stays type) a b -> In r b -> stays type r) by (induction 1; cbn [In]; [tauto|intros [->|?]; auto|auto]).
  apply in_app_or in I as [I|I]; [exact (K _ _ S1 I)|]. apply in_app_or in I as [I|I]; [exact (K _ _ S2 I)|exact (K _ _ S3 I)].
Qed.

(** ** Examples: the hypotheses can be met *)
Ltac name_by ls := exists ls; split; [split; [repeat constructor; unfold zlen; cbn; lia|unfold zlen; cbn; lia]|reflexivity].
Definition ab : list Z := [97; 46; 98; 46].
(** A reply for a.b. with SOA, RRSIG, TXT and EDNS data, error code 19 *)
Definition ex_msg : msg :=
  {| m_id := 258; m_opcode := 0; m_code := 19; m_flags := 33923;
     m_qd := [{| r_name := ab; r_type := 16; r_class := 1; r_ttl := 0; r_rd := None |}];
     m_an := [{| r_name := ab; r_type := 16; r_class := 1; r_ttl := 300; r_rd := Some [VList [[104; 105]; []]] |};
              {| r_name := ab; r_type := 46; r_class := 1; r_ttl := 300; r_rd := Some [VNum 16; VNum 13; VNum 2; VNum 300; VNum 7; VNum 5; VNum 9; VBytes [98; 46]; VBytes [1; 2; 3]] |}];
     m_ns := [{| r_name := [98; 46]; r_type := 6; r_class := 1; r_ttl := 3600; r_rd := Some [VBytes [110; 46; 98; 46]; VBytes [46]; VNum 1; VNum 2; VNum 3; VNum 4; VNum 5] |}];
     m_ar := [{| r_name := [110; 46; 98; 46]; r_type := 1; r_class := 1; r_ttl := 60; r_rd := Some [VBytes [10; 0; 0; 1]] |}];
     m_edns := {| e_enabled := true; e_version := 0; e_flags := 32768; e_size := 4096; e_code := 1; e_rd := [] |} |}.
Example ex_msg_ok : msg_ok ex_msg.
Proof.
  assert (V1 : valid_name ab) by name_by [[97]; [98]]. assert (V2 : valid_name [98; 46]) by name_by [[98]]. assert (V3 : valid_name [110; 46; 98; 46]) by name_by [[110]; [98]]. assert (V4 := root_valid).
  assert (B : forall l, Forall is_byte l -> bytes_ok l) by auto.
  split; [repeat split; cbn; lia|]. split; [cbn; unfold zlen; cbn; repeat (split; [lia|]); split; [constructor|lia]|]. split; [unfold zlen; cbn; lia|].
  split; [repeat constructor; cbn; auto; lia|]. split; [|split; [|split]].
  - constructor; [|constructor; [|constructor]]; (split; [repeat split; cbn; auto; lia|]); eexists; (split; [reflexivity|]); cbn [r_type].
    + change (layout 16) with [KTxts]. split; [|vm_compute; discriminate]. constructor; [|constructor]. cbn. split; [|vm_compute; discriminate]. repeat constructor; unfold is_byte, zlen; cbn; lia.
    + change (layout 46) with [KNum 2; KNum 1; KNum 1; KNum 4; KNum 4; KNum 4; KNum 2; KName; KRest]. split; [|vm_compute; discriminate]. repeat (constructor; [cbn; auto; try lia; repeat constructor; unfold is_byte; lia|]). constructor.
  - constructor; [|constructor]. split; [repeat split; cbn; auto; lia|]. eexists. split; [reflexivity|]. cbn [r_type]. change (layout 6) with [KName; KName; KNum 4; KNum 4; KNum 4; KNum 4; KNum 4]. split; [|vm_compute; discriminate].
    repeat (constructor; [cbn; auto; lia|]). constructor.
  - constructor; [|constructor]. split; [|discriminate]. split; [repeat split; cbn; auto; lia|]. eexists. split; [reflexivity|]. cbn [r_type]. change (layout 1) with [KFix 4]. split; [|vm_compute; discriminate].
    constructor; [|constructor]. cbn. split; [repeat constructor; unfold is_byte; lia|reflexivity].
  - cbn [within msg_names ex_msg m_qd m_an m_ns m_ar app map concat rr_names r_name r_rd r_type]. unfold msg_names. cbn. repeat (split; [left; lia|]). exact I.
Qed.
Definition ex_bytes : list Z :=
  [1; 2; 132; 131; 0; 1; 0; 2; 0; 1; 0; 2;  1; 97; 1; 98; 0; 0; 16; 0; 1;
   192; 12; 0; 16; 0; 1; 0; 0; 1; 44; 0; 4; 2; 104; 105; 0;
   192; 12; 0; 46; 0; 1; 0; 0; 1; 44; 0; 23; 0; 16; 13; 2; 0; 0; 1; 44; 0; 0; 0; 7; 0; 0; 0; 5; 0; 9; 192; 14; 1; 2; 3;
   192; 14; 0; 6; 0; 1; 0; 0; 14; 16; 0; 25; 1; 110; 192; 14; 0; 0; 0; 0; 1; 0; 0; 0; 2; 0; 0; 0; 3; 0; 0; 0; 4; 0; 0; 0; 5;
   192; 84; 0; 1; 0; 1; 0; 0; 0; 60; 0; 4; 10; 0; 0; 1;  0; 0; 41; 16; 0; 1; 0; 128; 0; 0; 0].
Example ex_encode : msg_encode ex_msg = Ok ex_bytes.
Proof. vm_compute. reflexivity. Qed.
Example ex_decode : msg_decode ex_bytes = Ok (Some ex_msg).
Proof. vm_compute. reflexivity. Qed.
(** Cut within the authority section: the question and two answers stay. *)
Example ex_truncate : msg_truncate ex_bytes 100 = Ok (Some ([1; 2; 132; 131; 0; 1; 0; 2; 0; 0; 0; 0] ++ firstn 60 (skipn 12 ex_bytes))) /\ items (cut 3 ex_msg) = 3.
Proof. vm_compute. auto. Qed.
Example ex_clean : exists m', msg_clean ex_msg 16 = Ok m' /\ map r_type (m_an m') = [16] /\ map r_type (m_ns m') = [6].
Proof. eexists. split; [vm_compute; reflexivity|]. auto. Qed.
Example ex_clean_kept : exists m', msg_clean ex_msg 46 = Ok m' /\ map r_type (m_an m') = [16; 46].
Proof. eexists. split; [vm_compute; reflexivity|]. reflexivity. Qed.

Print Assumptions msg_roundtrip.
Print Assumptions decode_layout.
Print Assumptions encode_header.
Print Assumptions decode_total.
Print Assumptions decode_encode.
Print Assumptions record_roundtrip.
Print Assumptions extended_code_refuted.
Print Assumptions truncate_total.
Print Assumptions truncate_exact_partial.
Print Assumptions truncate_flag_refuted.
Print Assumptions clean_exact.
Print Assumptions clean_none.
