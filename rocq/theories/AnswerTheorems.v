(** C37: what is answered for a resource, for the root and for names that do not exist. *)
From Verif Require Import Common CommonFacts BioModel BioFacts UtilTheorems Base32Model DateModel DnsNameModel DnsNameSpec DnsNameFacts DnsNameTheorems DnsMsgModel DnsMsgSpec DnsMsgFacts DnsMsgDecode DnsMsgTrunc DnsMsgWire DnsMsgTheorems ReqModel Sig0Model Sig0Theorems ReqTheorems ResourceModel ResourceTheorems DnssecModel DnssecTheorems AnswerModel.
From Coq Require Import Lia.

(** ** Specification *)
(** The records a list of on-chain records gives, in order: [P r x] when [r] gives [x] *)
Inductive made (P : record -> rr -> Prop) : list record -> list rr -> Prop :=
| m_nil : made P [] []
| m_some r x rs out : P r x -> made P rs out -> made P (r :: rs) (x :: out)
| m_none r rs out : (forall x, ~ P r x) -> made P rs out -> made P (r :: rs) out.
Definition on_chain (owner : list Z) (type : Z) (rd : list val) : rr := {| r_name := owner; r_type := type; r_class := 1; r_ttl := 21600; r_rd := Some rd |}.
(** The name of the server at an address: its base32 form below _synth. *)
Definition synth (b : list Z) : list Z := dotted [95 :: b; [95; 115; 121; 110; 116; 104]].
Inductive server (owner : list Z) : record -> rr -> Prop :=
| sv_ns n : server owner (RNs n) (on_chain owner 2 [VBytes n])
| sv_glue4 n ip : server owner (RGlue4 n ip) (on_chain owner 2 [VBytes n])
| sv_glue6 n ip : server owner (RGlue6 n ip) (on_chain owner 2 [VBytes n])
| sv_synth4 ip b : base32 charset_hex ip b -> server owner (RSynth4 ip) (on_chain owner 2 [VBytes (synth b)])
| sv_synth6 ip b : base32 charset_hex ip b -> server owner (RSynth6 ip) (on_chain owner 2 [VBytes (synth b)]).
Inductive signer (owner : list Z) : record -> rr -> Prop :=
| sg_ds tag alg dt g : signer owner (RDs tag alg dt g) (on_chain owner 43 [VNum tag; VNum alg; VNum dt; VBytes g]).
Inductive strings (owner : list Z) : record -> rr -> Prop :=
| st_txt l : strings owner (RTxt (map Good l)) (on_chain owner 16 [VList l]).
(** A name in the zone of the top-level label [l]. A name that is not clean is not given
    as an owner: the root takes its place. *)
Definition in_zone (l n : list Z) : Prop := exists ls, pname ls /\ ls <> [] /\ n = dotted ls /\ last ls [] = l.
Definition shown (n n' : list Z) : Prop := (clean_name n /\ n' = n) \/ (~ clean_name n /\ n' = [46]).
Inductive address (l : list Z) : record -> rr -> Prop :=
| ad_glue4 n n' ip : in_zone l n -> shown n n' -> address l (RGlue4 n ip) (on_chain n' 1 [VBytes ip])
| ad_glue6 n n' ip : in_zone l n -> shown n n' -> address l (RGlue6 n ip) (on_chain n' 28 [VBytes ip])
| ad_synth4 ip b : base32 charset_hex ip b -> address l (RSynth4 ip) (on_chain (synth b) 1 [VBytes ip])
| ad_synth6 ip b : base32 charset_hex ip b -> address l (RSynth6 ip) (on_chain (synth b) 28 [VBytes ip]).

(** A section [l] after signing the records of a type: [l'] *)
Definition signed_by (s : sec) (flags : Z) (priv : list Z) (now type : Z) (l l' : list rr) : Prop :=
  (filter (of_type type) l = [] \/ 255 <= zlen l -> l' = l) /\
  (forall first rest, filter (of_type type) l = first :: rest -> zlen l < 255 -> exists pub D, s_pub s priv = Some pub /\
     signed_data (signature_head flags pub now first) (map low (r_name first)) type 1 (r_ttl first) (map rdata (first :: rest)) D /\
     l' = match s_sign s priv (s_sha256 s D) with Some sg => l ++ [signature flags pub now first sg] | None => l end).
Definition signed_section (s : sec) : Z -> Z -> list rr -> list rr -> Prop := signed_by s 256 (s_zsk s).
Definition soa (now : Z) : rr :=
  {| r_name := [46]; r_type := 6; r_class := 1; r_ttl := 86400; r_rd := Some [VBytes [46]; VBytes [46]; VNum (soa_serial now); VNum 1800; VNum 900; VNum 604800; VNum 86400] |}.
Definition nsec (owner types : list Z) : rr := {| r_name := owner; r_type := 47; r_class := 1; r_ttl := 86400; r_rd := Some [VBytes [46]; VBytes types] |}.
(** Proof that a name has no data: NSEC records and SOA, each signed *)
Definition no_data (s : sec) (now : Z) (proof l' : list rr) : Prop := exists l1, signed_section s now 47 proof l1 /\ signed_section s now 6 (l1 ++ [soa now]) l'.

(** The answers for the root itself; [ip] is the address the root is served at *)
Definition root_address (s : sec) (now : Z) (ip : list Z) (l : list rr) : Prop :=
  let at_root type rd := {| r_name := [46]; r_type := type; r_class := 1; r_ttl := 518400; r_rd := Some [VBytes rd] |} in
  (forall v4, ip = repeat 0 10 ++ [255; 255] ++ v4 -> signed_section s now 1 [at_root 1 v4] l) /\
  ((forall v4, ip <> repeat 0 10 ++ [255; 255] ++ v4) ->
     (forall onion, ip = [253; 135; 216; 126; 235; 67] ++ onion -> l = []) /\
     ((forall onion, ip <> [253; 135; 216; 126; 235; 67] ++ onion) -> signed_section s now 28 [at_root 28 ip] l)).
Definition root_server : rr := {| r_name := [46]; r_type := 2; r_class := 1; r_ttl := 518400; r_rd := Some [VBytes [46]] |}.
(** Types named by a block of an NSEC bitmap (RFC 4034 4.1.2) *)
Definition bitmap (window : Z) (bytes : list Z) (t : Z) : Prop := exists k, t = 256 * window + k /\ 0 <= k < 8 * zlen bytes /\ Z.testbit (nth (Z.to_nat (k / 8)) bytes 0) (7 - k mod 8) = true.
Definition root_answered (s : sec) (now type : Z) (ip : list Z) (m : msg) : Prop :=
  m_code m = 0 /\ m_opcode m = 0 /\ m_qd m = [] /\ m_flags m = 1024 /\
  (type = 2 \/ type = 255 -> signed_section s now 2 [root_server] (m_an m) /\ m_ns m = [] /\ root_address s now ip (m_ar m)) /\
  (type = 6 -> signed_section s now 6 [soa now] (m_an m) /\ signed_section s now 2 [root_server] (m_ns m) /\ root_address s now ip (m_ar m)) /\
  (type = 48 -> (exists pk pz, s_pub s (s_ksk s) = Some pk /\ s_pub s (s_zsk s) = Some pz /\ signed_by s 257 (s_ksk s) now 48 [root_key 257 pk; root_key 256 pz] (m_an m)) /\ m_ns m = [] /\ m_ar m = []) /\
  (type = 43 -> (exists pk, s_pub s (s_ksk s) = Some pk /\
      signed_section s now 43 [{| r_name := [46]; r_type := 43; r_class := 1; r_ttl := 10800; r_rd := Some [VNum (key_tag (key_data 257 pk)); VNum 13; VNum 2; VBytes (s_sha256 s (0 :: key_data 257 pk))] |}] (m_an m)) /\ m_ns m = [] /\ m_ar m = []) /\
  (~ In type [2; 255; 6; 48; 43] -> m_an m = [] /\ m_ar m = [] /\ exists types, no_data s now [nsec [46] (0 :: zlen types :: types)] (m_ns m) /\
      forall t, bitmap 0 types t <-> In t [2; 6; 46; 47; 48]).

(** The answer for the name with labels [ls] and a type, of the resource [rs] *)
Definition answered (s : sec) (now : Z) (rs : list record) (ls : list (list Z)) (type : Z) (m : msg) : Prop :=
  let top := last ls [] in exists owner, shown (dotted [top]) owner /\
  let direct t (P : record -> rr -> Prop) := zlen ls = 1 /\ type = t /\ exists r x, In r rs /\ P r x in
  m_code m = 0 /\ m_opcode m = 0 /\ m_qd m = [] /\
  (direct 43 (signer owner) -> m_flags m = 1024 /\ m_ns m = [] /\ m_ar m = [] /\ exists l, made (signer owner) rs l /\ signed_section s now 43 l (m_an m)) /\
  (direct 16 (strings owner) -> m_flags m = 1024 /\ m_ns m = [] /\ m_ar m = [] /\ exists l, made (strings owner) rs l /\ signed_section s now 16 l (m_an m)) /\
  (direct 2 (server owner) -> m_flags m = 0 /\ m_an m = [] /\ made (address top) rs (m_ar m) /\ exists l, made (server owner) rs l /\ signed_section s now 2 l (m_ns m)) /\
  (~ direct 43 (signer owner) -> ~ direct 16 (strings owner) -> ~ direct 2 (server owner) ->
     m_flags m = 0 /\ m_an m = [] /\
     ((exists r x, In r rs /\ server owner r x) -> made (address top) rs (m_ar m) /\ exists l1 l2, made (server owner) rs l1 /\ made (signer owner) rs l2 /\
        signed_section s now (match l2 with [] => 2 | _ => 43 end) (l1 ++ l2) (m_ns m)) /\
     (~ (exists r x, In r rs /\ server owner r x) -> m_ar m = [] /\ no_data s now [nsec owner []] (m_ns m))).

(** ** Names *)
Lemma hex_alphabet : alphabet_ok charset_hex table_hex.
Proof. apply alphabets_ok. Qed.
Lemma charset_clean c : In c charset_hex -> clean_char c /\ pchar c.
Proof. intros H. assert (X : forallb (fun c => (48 <=? c) && (c <=? 57) || (97 <=? c) && (c <=? 118)) charset_hex = true) by reflexivity. rewrite forallb_forall in X. apply X in H. unfold clean_char, pchar. cbn [In]. lia. Qed.
Lemma base32_chars data b : base32 charset_hex data b -> Forall (fun c => clean_char c /\ pchar c) b.
Proof. intros (ds & F & _). induction F as [|c d b ds [_ H] F IH]; constructor; auto. apply charset_clean. now apply nth_error_In in H. Qed.
Lemma synth_shape b : synth b = 95 :: b ++ [46; 95; 115; 121; 110; 116; 104; 46].
Proof. unfold synth, dotted. cbn [map concat app]. rewrite <- app_assoc. reflexivity. Qed.
Lemma synth_ok ip b n : base32 charset_hex ip b -> length ip = n -> (n <= 16)%nat -> valid_name (synth b) /\ clean_name (synth b).
Proof.
  intros H L Hn. assert (F := base32_chars _ _ H). destruct H as (_ & _ & Lb & _). unfold zlen in Lb at 2. rewrite L in Lb. assert (Lx : zlen b <= 26) by lia. pose proof (zlen_nonneg b). split.
  - exists [95 :: b; [95; 115; 121; 110; 116; 104]]. split; [|reflexivity]. split.
    + constructor; [|constructor; [|constructor]]; split; try (rewrite zlen_cons; lia); try (unfold zlen; cbn; lia).
      * constructor; [unfold pchar; lia|]. eapply Forall_impl; [|exact F]. cbn. tauto.
      * repeat constructor; unfold pchar; lia.
    + fold (synth b). rewrite synth_shape, zlen_cons, zlen_app. change (zlen [46; 95; 115; 121; 110; 116; 104; 46]) with 8. lia.
  - rewrite synth_shape. constructor; [left; unfold clean_char; cbn [In]; lia|]. apply Forall_app. split; [eapply Forall_impl; [|exact F]; cbn; tauto|].
    repeat (constructor; [first [right; reflexivity | left; unfold clean_char; cbn [In]; lia]|]). constructor.
Qed.
Lemma synth_text_ok ip n : bytes_ok ip -> length ip = n -> (n <= 16)%nat -> exists b, base32 charset_hex ip b /\ synth_text ip = Ok (synth b) /\ valid_name (synth b) /\ clean_name (synth b).
Proof.
  intros B L Hn. destruct (base32_encoding_exact charset_hex table_hex ip false hex_alphabet B) as (b & H & E & _). exists b. split; [exact H|]. unfold synth_text. rewrite E. cbn [obind]. rewrite app_nil_r, synth_shape. split; [reflexivity|].
  rewrite <- synth_shape. eapply synth_ok; eauto.
Qed.
Lemma named_shown r n : valid_name n -> exists n', shown n n' /\ r_name (named r n) = (if name_dirty n then r_name r else n) /\ (r_name r = [46] -> r_name (named r n) = n') /\
  r_type (named r n) = r_type r /\ r_class (named r n) = r_class r /\ r_ttl (named r n) = r_ttl r /\ r_rd (named r n) = r_rd r.
Proof.
  intros V. unfold named. rewrite set_name_valid by auto. pose proof (dirty_name n (valid_bytes n V)) as X. destruct (name_dirty n).
  - exists [46]. split; [right; split; [intros C; apply X in C; discriminate|reflexivity]|]. auto 10.
  - exists n. split; [left; split; [now apply X|reflexivity]|]. cbn. auto 10.
Qed.
Lemma named_exact type ttl rd n : valid_name n -> exists n', shown n n' /\ named (new_rr type ttl rd) n = {| r_name := n'; r_type := type; r_class := 1; r_ttl := ttl; r_rd := Some rd |}.
Proof.
  intros V. destruct (named_shown (new_rr type ttl rd) n V) as (n' & S1 & _ & S2 & S3 & S4 & S5 & S6). exists n'. split; [exact S1|]. specialize (S2 eq_refl). destruct (named (new_rr type ttl rd) n). cbn in *. now subst.
Qed.
Lemma named_clean type ttl rd n : valid_name n -> clean_name n -> named (new_rr type ttl rd) n = {| r_name := n; r_type := type; r_class := 1; r_ttl := ttl; r_rd := Some rd |}.
Proof. intros V C. destruct (named_exact type ttl rd n V) as (n' & [[_ ->]|[N _]] & ->); [reflexivity|contradiction]. Qed.
Lemma shown_unique n a b : shown n a -> shown n b -> a = b.
Proof. intros [[A ->]|[A ->]] [[B ->]|[B ->]]; auto; contradiction. Qed.
Lemma named_as type ttl rd n o : valid_name n -> shown n o -> named (new_rr type ttl rd) n = {| r_name := o; r_type := type; r_class := 1; r_ttl := ttl; r_rd := Some rd |}.
Proof. intros V C. destruct (named_exact type ttl rd n V) as (n' & Sh & ->). now rewrite (shown_unique _ _ _ Sh C). Qed.
Lemma shown_valid n n' : valid_name n -> shown n n' -> valid_name n'.
Proof. intros V [[_ ->]|[_ ->]]; [exact V|exact root_valid]. Qed.
Lemma root_clean : clean_name [46].
Proof. constructor; [now right|constructor]. Qed.

Lemma top_name ls : pname ls -> ls <> [] -> valid_name (dotted [last ls []]) /\ exists owner, shown (dotted [last ls []]) owner /\ zlen (dotted [last ls []]) <= 64.
Proof.
  intros H N. assert (P := last_label ls H N). set (l := last ls []) in *. assert (E : dotted [l] = l ++ [46]) by (unfold dotted; cbn; now rewrite app_nil_r).
  assert (L : zlen (dotted [l]) = zlen l + 1) by (rewrite E, zlen_app; reflexivity). destruct P as [P1 P2].
  assert (V : valid_name (dotted [l])) by (exists [l]; split; [|reflexivity]; split; [constructor; [split; auto|constructor]|lia]). split; [exact V|].
  destruct (named_exact 2 0 [] _ V) as (o & S1 & _). exists o. split; [exact S1|lia].
Qed.
Lemma top_from ls : pname ls -> ls <> [] -> label_from 255 (dotted ls) (-1) = Ok (dotted [last ls []]).
Proof.
  intros H N. assert (P := last_label ls H N). destruct (exists_last N) as (a & l & E). rewrite E in *. rewrite last_last in *.
  apply label_from_dotted with (a := a); [exact H|reflexivity| |].
  - unfold idx. change (-1 <? 0) with true. cbv iota. rewrite zlen_app. change (zlen [l]) with 1. lia.
  - unfold dotted. cbn [map concat app]. rewrite app_nil_r, zlen_app. change (zlen [46]) with 1. destruct P. lia.
Qed.
Lemma one_label ls : pname ls -> zlen ls = 1 -> dotted ls = dotted [last ls []].
Proof. intros _ L. destruct ls as [|l [|x ls]]; [discriminate|reflexivity|]. exfalso. unfold zlen in L. cbn [length] in L. lia. Qed.

(** ** The lists of records *)
Lemma made_len P rs out : made P rs out -> zlen out <= zlen rs.
Proof. induction 1; rewrite ?zlen_cons; try lia. discriminate. Qed.
Lemma made_two (P Q : record -> rr -> Prop) rs a b : (forall r x y, P r x -> Q r y -> False) -> made P rs a -> made Q rs b -> zlen a + zlen b <= zlen rs.
Proof.
  intros D Ha. revert b. induction Ha as [|r x rs out H Ha IH|r rs out H Ha IH]; intros b Hb; inversion Hb; subst; rewrite ?zlen_cons; try specialize (IH _ ltac:(eassumption)); try lia.
  - change (zlen (@nil rr)) with 0. change (zlen (@nil record)) with 0. lia.
  - exfalso. eauto.
Qed.
Lemma made_nil P rs out : made P rs out -> (out = [] <-> ~ exists r x, In r rs /\ P r x).
Proof.
  induction 1 as [|r x rs out H M IH|r rs out H M IH].
  - split; [|auto]. intros _ (r & x & [] & _).
  - split; [discriminate|]. intros N. exfalso. apply N. exists r, x. split; [now left|exact H].
  - rewrite IH. split.
    + intros N (r' & x & [->|I] & Px); [now apply (H x)|]. apply N. eauto.
    + intros N (r' & x & I & Px). apply N. exists r', x. split; [now right|exact Px].
Qed.
Lemma made_all (P : record -> rr -> Prop) (R : rr -> Prop) rs out : (forall r x, In r rs -> P r x -> R x) -> made P rs out -> Forall R out.
Proof.
  intros H M. induction M as [|r x rs out Px M IH|r rs out N M IH]; [constructor| |].
  - constructor; [apply (H r); [now left|exact Px]|]. apply IH. intros r' x' I. apply H. now right.
  - apply IH. intros r' x' I. apply H. now right.
Qed.

Lemma push_app an x : zlen an < 255 -> rrs_push an x = an ++ [x].
Proof. intros L. unfold rrs_push. assert (E : (zlen an =? 255) = false) by lia. now rewrite E. Qed.
Lemma name_fine n : name_left n -> n <> [] -> valid_name n.
Proof. intros [H|H] N; [contradiction|exact H]. Qed.

Ltac skips := eexists; split; [apply m_none; [intros ? X; inversion X|eassumption]|].
Lemma to_ns_made name owner rs : valid_name name -> shown name owner -> Forall record_fine rs -> exists out, made (server owner) rs out /\
  forall an, zlen an + zlen out <= 255 -> to_ns  rs name an = Ok (an ++ out).
Proof.
  intros V C F. induction F as [|r rs Hr F (out & M & IH)].
  - exists []. split; [constructor|]. intros an _. cbn [to_ns]. now rewrite app_nil_r.
  - assert (K : forall n x, x = on_chain owner 2 [VBytes n] -> forall an, zlen an + zlen (x :: out) <= 255 -> to_ns rs name (rrs_push an (named (new_rr 2 21600 [VBytes n]) name)) = Ok (an ++ x :: out)).
    { intros n x -> an L. rewrite zlen_cons in L. pose proof (zlen_nonneg out). rewrite push_app by lia. rewrite named_as with (o := owner) by auto. rewrite IH by (rewrite zlen_app, zlen_cons; change (zlen (@nil rr)) with 0; lia). rewrite <- app_assoc. reflexivity. }
    destruct Hr as [Hl Hf]. destruct r as [tag alg dt g|n|n ip|n ip|ip|ip|l]; cbn [record_left] in Hl.
    + skips. intros an L. cbn [to_ns]. now apply IH.
    + exists (on_chain owner 2 [VBytes n] :: out). split; [constructor; [constructor|exact M]|]. intros an L. cbn [to_ns]. destruct (name_fine n Hl Hf) as (ls & _ & ->). rewrite dotted_end. now apply (K (dotted ls)).
    + destruct Hl as [Hl _]. exists (on_chain owner 2 [VBytes n] :: out). split; [constructor; [constructor|exact M]|]. intros an L. cbn [to_ns]. destruct (name_fine n Hl Hf) as (ls & _ & ->). rewrite dotted_end. now apply (K (dotted ls)).
    + destruct Hl as [Hl _]. exists (on_chain owner 2 [VBytes n] :: out). split; [constructor; [constructor|exact M]|]. intros an L. cbn [to_ns]. destruct (name_fine n Hl Hf) as (ls & _ & ->). rewrite dotted_end. now apply (K (dotted ls)).
    + destruct Hl as [B1 L1]. destruct (synth_text_ok ip 4 B1 L1) as (b & H1 & E & _); [lia|]. exists (on_chain owner 2 [VBytes (synth b)] :: out). split; [constructor; [now constructor|exact M]|]. intros an L. cbn [to_ns]. rewrite E. cbn [obind]. now apply (K (synth b)).
    + destruct Hl as [B1 L1]. destruct (synth_text_ok ip 16 B1 L1) as (b & H1 & E & _); [lia|]. exists (on_chain owner 2 [VBytes (synth b)] :: out). split; [constructor; [now constructor|exact M]|]. intros an L. cbn [to_ns]. rewrite E. cbn [obind]. now apply (K (synth b)).
    + skips. intros an L. cbn [to_ns]. now apply IH.
Qed.
Lemma to_ds_made name owner rs : valid_name name -> shown name owner -> exists out, made (signer owner) rs out /\ forall an, zlen an + zlen out <= 255 -> to_ds  rs name an = an ++ out.
Proof.
  intros V C. induction rs as [|r rs (out & M & IH)].
  - exists []. split; [constructor|]. intros an _. cbn [to_ds]. now rewrite app_nil_r.
  - destruct r as [tag alg dt g|n|n ip|n ip|ip|ip|l]; try (skips; intros an L; cbn [to_ds]; now apply IH).
    exists (on_chain owner 43 [VNum tag; VNum alg; VNum dt; VBytes g] :: out). split; [constructor; [constructor|exact M]|]. intros an L. cbn [to_ds]. rewrite zlen_cons in L. pose proof (zlen_nonneg out). rewrite push_app by lia.
    rewrite named_as with (o := owner) by auto. rewrite IH by (rewrite zlen_app, zlen_cons; change (zlen (@nil rr)) with 0; lia). rewrite <- app_assoc. reflexivity.
Qed.
Lemma good_strings l : (forall t, In t l -> exists b, t = Good b) -> exists k, l = map Good k.
Proof.
  induction l as [|t l IH]; intros H; [now exists []|]. destruct (H t (or_introl eq_refl)) as [b ->]. destruct IH as [k ->]; [intros t I; apply H; now right|]. now exists (b :: k).
Qed.
Lemma copy_good k : Forall (fun b => zlen b <= 255) k -> copy_txts (map Good k) = Ok k.
Proof. induction 1 as [|b k H F IH]; [reflexivity|]. cbn [map copy_txts]. assert (E : (255 <? zlen b) = false) by lia. rewrite E, IH. reflexivity. Qed.
Lemma to_txt_made name owner rs : valid_name name -> shown name owner -> Forall record_fine rs -> exists out, made (strings owner) rs out /\ forall an, zlen an + zlen out <= 255 -> to_txt  rs name an = Ok (an ++ out).
Proof.
  intros V C F. induction F as [|r rs Hr F (out & M & IH)].
  - exists []. split; [constructor|]. intros an _. cbn [to_txt]. now rewrite app_nil_r.
  - destruct r as [tag alg dt g|n|n ip|n ip|ip|ip|l]; try (skips; intros an L; cbn [to_txt]; now apply IH).
    destruct Hr as [[_ Hl] Hf]. destruct (good_strings l Hf) as [k ->]. exists (on_chain owner 16 [VList k] :: out). split; [constructor; [constructor|exact M]|]. intros an L. cbn [to_txt]. rewrite zlen_cons in L. pose proof (zlen_nonneg out).
    rewrite copy_good; [|rewrite Forall_forall in *; intros b I; specialize (Hl (Good b) (in_map Good _ _ I)); cbn in Hl; tauto]. cbn [obind]. rewrite push_app by lia.
    rewrite named_as with (o := owner) by auto. rewrite IH by (rewrite zlen_app, zlen_cons; change (zlen (@nil rr)) with 0; lia). rewrite <- app_assoc. reflexivity.
Qed.
Lemma dotted_split ls : Forall plabel ls -> ls <> [] -> split_dots [] (dotted ls) = ls.
Proof.
  intros H N. destruct ls as [|l0 ls0]; [contradiction|]. clear N. unfold dotted. remember (l0 :: ls0) as ls eqn:E. clear E l0 ls0.
  induction H as [|l ls [_ Hl] H IH]; [reflexivity|]. cbn [map concat]. rewrite <- app_assoc. cbn [app]. rewrite split_label by auto. cbn [app]. f_equal. exact IH.
Qed.
Lemma dotted_inj a b : Forall plabel a -> Forall plabel b -> dotted a = dotted b -> a = b.
Proof.
  intros Ha Hb E. pose proof (pname_dotted_root a Ha). pose proof (pname_dotted_root b Hb). destruct a as [|x a], b as [|y b]; auto.
  - exfalso. assert (beq (dotted (y :: b)) [46] = true) by (rewrite <- E; reflexivity). intuition discriminate.
  - exfalso. assert (beq (dotted (x :: a)) [46] = true) by (rewrite E; reflexivity). intuition discriminate.
  - apply (f_equal (split_dots [])) in E. now rewrite !dotted_split in E by (auto; discriminate).
Qed.
Lemma dotted_one l : dotted [l] = l ++ [46].
Proof. unfold dotted. cbn. now rewrite app_nil_r. Qed.
Lemma subdomain_exact l n : plabel l -> valid_name n -> exists b, is_subdomain (dotted [l]) n = Ok b /\ (b = true <-> in_zone l n).
Proof.
  intros P (ls & H & ->). assert (Hl : pname [l]) by (split; [constructor; auto|rewrite dotted_one, zlen_app; change (zlen [46]) with 1; destruct P; lia]). unfold is_subdomain. rewrite !label_count_dotted by auto. change (zlen [l]) with 1. change (1 =? 0) with false. cbv iota.
  destruct (Z.ltb_spec (zlen ls) 1) as [L|L].
  - exists false. split; [reflexivity|]. split; [discriminate|]. intros (ls' & H' & N & E & _). exfalso. destruct ls as [|x ls]; [|rewrite zlen_cons in L; pose proof (zlen_nonneg ls); lia].
    apply N. assert (X := proj1 (pname_dotted_root ls' (proj1 H'))). apply X. rewrite <- E. reflexivity.
  - assert (N : ls <> []) by (intros ->; change (zlen (@nil (list Z))) with 0 in L; lia). change (- (1)) with (-1). rewrite top_from by auto. cbn [obind]. eexists. split; [reflexivity|]. rewrite beq_true_iff, !dotted_one. split.
    + intros E. apply app_inj_tail in E as [E _]. exists ls. auto.
    + intros (ls' & H' & N' & E & <-). apply dotted_inj in E; [now rewrite E|apply H|apply H'].
Qed.

Lemma address_other l r : match r with RGlue4 n _ | RGlue6 n _ => ~ in_zone l n | RSynth4 _ | RSynth6 _ => False | _ => True end -> forall x, ~ address l r x.
Proof. intros H x A. destruct A; auto. Qed.
Lemma to_glue_made l rs : plabel l -> Forall record_fine rs -> exists out, made (address l) rs out /\ forall an, zlen an + zlen out <= 255 -> to_glue rs (dotted [l]) an = Ok (an ++ out).
Proof.
  intros P F. induction F as [|r rs Hr F (out & M & IH)].
  - exists []. split; [constructor|]. intros an _. cbn [to_glue]. now rewrite app_nil_r.
  - assert (K : forall x an, zlen an + zlen (x :: out) <= 255 -> to_glue rs (dotted [l]) (rrs_push an x) = Ok (an ++ x :: out)).
    { intros x an L. rewrite zlen_cons in L. pose proof (zlen_nonneg out). rewrite push_app by lia. rewrite IH by (rewrite zlen_app, zlen_cons; change (zlen (@nil rr)) with 0; lia). rewrite <- app_assoc. reflexivity. }
    destruct Hr as [Hl Hf]. destruct r as [tag alg dt g|n|n ip|n ip|ip|ip|tx]; cbn [record_left] in Hl;
      try (exists out; split; [apply m_none; [now apply address_other|exact M]|]; intros an L; cbn [to_glue]; now apply IH).
    + destruct Hl as [Hn _]. assert (V := name_fine n Hn Hf). destruct (subdomain_exact l n P V) as (b & E & Hb). destruct (named_exact 1 21600 [VBytes ip] n V) as (n' & S1 & S2). destruct b.
      * exists (on_chain n' 1 [VBytes ip] :: out). split; [constructor; [constructor; [now apply Hb|exact S1]|exact M]|]. intros an L. cbn [to_glue]. rewrite E. cbn [obind]. rewrite S2. now apply K.
      * exists out. split; [apply m_none; [apply address_other; intros Z0; apply Hb in Z0; discriminate|exact M]|]. intros an L. cbn [to_glue]. rewrite E. cbn [obind]. now apply IH.
    + destruct Hl as [Hn _]. assert (V := name_fine n Hn Hf). destruct (subdomain_exact l n P V) as (b & E & Hb). destruct (named_exact 28 21600 [VBytes ip] n V) as (n' & S1 & S2). destruct b.
      * exists (on_chain n' 28 [VBytes ip] :: out). split; [constructor; [constructor; [now apply Hb|exact S1]|exact M]|]. intros an L. cbn [to_glue]. rewrite E. cbn [obind]. rewrite S2. now apply K.
      * exists out. split; [apply m_none; [apply address_other; intros Z0; apply Hb in Z0; discriminate|exact M]|]. intros an L. cbn [to_glue]. rewrite E. cbn [obind]. now apply IH.
    + destruct Hl as [B1 L1]. destruct (synth_text_ok ip 4 B1 L1) as (b & H1 & E & _); [lia|]. exists (on_chain (synth b) 1 [VBytes ip] :: out). split; [constructor; [now constructor|exact M]|]. intros an L. cbn [to_glue]. rewrite E. cbn [obind]. now apply K.
    + destruct Hl as [B1 L1]. destruct (synth_text_ok ip 16 B1 L1) as (b & H1 & E & _); [lia|]. exists (on_chain (synth b) 28 [VBytes ip] :: out). split; [constructor; [now constructor|exact M]|]. intros an L. cbn [to_glue]. rewrite E. cbn [obind]. now apply K.
Qed.

(** The records made are well formed. *)
Lemma rr_ok name type ttl rd : valid_name name -> 0 <= type < 65536 -> 0 <= ttl < 4294967296 -> Forall2 field_ok (layout type) rd -> fields_size (layout type) rd <= 65535 ->
  record_ok {| r_name := name; r_type := type; r_class := 1; r_ttl := ttl; r_rd := Some rd |}.
Proof. intros V Ht Hl F S1. split; [split; [exact V|split; [exact Ht|split; [cbn; lia|exact Hl]]]|]. exists rd. auto. Qed.
Lemma valid_nsize s : valid_name s -> 0 <= nsize s <= 300.
Proof. intros V. pose proof (nsize_bound s V). pose proof (nsize_pos s). lia. Qed.
Lemma server_ok owner rs r x : valid_name owner -> Forall record_fine rs -> In r rs -> server owner r x -> record_ok x /\ r_name x = owner /\ r_type x = 2 /\ r_class x = 1.
Proof.
  intros V F I H. rewrite Forall_forall in F. destruct (F r I) as [Hl Hf]. assert (K : forall n, valid_name n -> record_ok (on_chain owner 2 [VBytes n])).
  { intros n Vn. apply rr_ok; auto; try lia; change (layout 2) with [KName]; [constructor; [exact Vn|constructor]|]. cbn [fields_size field_size]. apply valid_nsize in Vn. lia. }
  destruct H; cbn [record_left] in Hl; (split; [|auto]); apply K.
  - now apply name_fine.
  - apply name_fine; tauto.
  - apply name_fine; tauto.
  - destruct Hl as [B L]. eapply synth_ok; eauto. lia.
  - destruct Hl as [B L]. eapply synth_ok; eauto.
Qed.
Lemma signer_ok owner rs r x : valid_name owner -> Forall record_fine rs -> In r rs -> signer owner r x -> record_ok x /\ r_name x = owner /\ r_type x = 43 /\ r_class x = 1.
Proof.
  intros V F I H. rewrite Forall_forall in F. destruct (F r I) as [Hl Hf]. destruct H; cbn [record_left] in Hl; (split; [|auto]). destruct Hl as (H1 & H2 & H3 & H4 & H5). unfold is_byte in *.
  apply rr_ok; auto; try lia; change (layout 43) with [KNum 2; KNum 1; KNum 1; KRest].
  - repeat (constructor; [cbn [field_ok]; first [assumption | change (256 ^ Z.of_nat 2) with 65536; lia | change (256 ^ Z.of_nat 1) with 256; lia]|]). constructor.
  - cbn [fields_size field_size]. lia.
Qed.
Lemma strings_ok owner rs r x : valid_name owner -> Forall record_fine rs -> In r rs -> strings owner r x -> record_ok x /\ r_name x = owner /\ r_type x = 16 /\ r_class x = 1.
Proof.
  intros V F I H. rewrite Forall_forall in F. destruct (F r I) as [Hl Hf]. destruct H; cbn [record_left] in Hl; (split; [|auto]). destruct Hl as (H1 & H2). rewrite zlen_map in H1.
  assert (G : Forall (fun t => bytes_ok t /\ zlen t <= 255) l) by (rewrite Forall_forall in *; intros b Ib; specialize (H2 (Good b) (in_map Good _ _ Ib)); exact H2).
  apply rr_ok; auto; try lia; change (layout 16) with [KTxts].
  - constructor; [cbn [field_ok]; auto|constructor].
  - cbn [fields_size field_size]. assert (Q : forall k, Forall (fun t => bytes_ok t /\ zlen t <= 255) k -> fold_right Z.add 0 (map (fun t => 1 + zlen t) k) <= 256 * zlen k).
    { intros k Fk. induction Fk as [|t k Hk Fk IH]; [discriminate|]. cbn [map fold_right]. rewrite zlen_cons. lia. }
    apply Q in G. lia.
Qed.
Lemma address_ok l rs r x : Forall record_fine rs -> In r rs -> address l r x -> record_ok x /\ (r_type x = 1 \/ r_type x = 28) /\ r_class x = 1.
Proof.
  intros F I H. rewrite Forall_forall in F. destruct (F r I) as [Hl Hf].
  assert (K4 : forall n ip, valid_name n -> bytes_n 4 ip -> record_ok (on_chain n 1 [VBytes ip])).
  { intros n ip V [B L]. apply rr_ok; auto; try lia; change (layout 1) with [KFix 4]; [constructor; [split; auto|constructor]|]. cbn [fields_size field_size]. unfold zlen. lia. }
  assert (K6 : forall n ip, valid_name n -> bytes_n 16 ip -> record_ok (on_chain n 28 [VBytes ip])).
  { intros n ip V [B L]. apply rr_ok; auto; try lia; change (layout 28) with [KFix 16]; [constructor; [split; auto|constructor]|]. cbn [fields_size field_size]. unfold zlen. lia. }
  destruct H as [n n' ip _ Sh|n n' ip _ Sh|ip b Sb|ip b Sb]; cbn [record_left] in Hl; (split; [|auto]).
  - apply K4; [|tauto]. eapply shown_valid; [|exact Sh]. apply name_fine; tauto.
  - apply K6; [|tauto]. eapply shown_valid; [|exact Sh]. apply name_fine; tauto.
  - apply K4; auto. destruct Hl. eapply synth_ok; eauto. lia.
  - apply K6; auto. destruct Hl. eapply synth_ok; eauto.
Qed.

(** ** Signing a section *)
Lemma section_signed s now owner type l : sec_ok s -> Forall record_ok l -> Forall (fun r => r_type r = type -> r_name r = owner /\ r_class r = 1) l -> type <> 17 -> type <> 24 ->
  exists l', sign_zsk s now l type = Ok l' /\ signed_section s now type l l' /\ (l' = l \/ (zlen l < 255 /\ exists g, l' = l ++ [g] /\ record_ok g /\ r_type g = 46)).
Proof.
  intros HS F G N1 N2. destruct (filter (of_type type) l) as [|first rest] eqn:Ef; [|destruct (Z.leb_spec 255 (zlen l)) as [L|L]].
  - exists l. destruct (signs_nothing s now type l HS (or_introl Ef)) as [E _]. split; [exact E|]. split; [|now left]. split; [auto|]. intros first rest E2. rewrite Ef in E2. discriminate.
  - exists l. destruct (signs_nothing s now type l HS (or_intror L)) as [E _]. split; [exact E|]. split; [|now left]. split; [auto|]. intros; lia.
  - assert (R : rrset_ok (map low owner) type 1 (first :: rest)).
    { split; [discriminate|]. rewrite <- Ef. apply Forall_forall. intros r I. apply filter_In in I as [I T]. unfold of_type in T. rewrite Forall_forall in F, G. assert (Tr : r_type r = type) by lia. destruct (G r I Tr) as [-> ?]. auto. }
    assert (O : map low owner = map low (r_name first)) by (destruct R as [_ R]; apply Forall_cons_iff in R as [(_ & R & _) _]; now symmetry).
    destruct (signs s now (map low owner) type 1 l first rest HS Ef R N1 N2 L) as (pk & pz & Dk & Dz & _ & Ez & _ & Sd & _ & E). eexists. split; [exact E|]. split.
    + split; [intros [X|X]; [rewrite Ef in X; discriminate|lia]|]. intros first' rest' E' _. rewrite Ef in E'. injection E' as <- <-. exists pz, Dz. rewrite <- O. auto.
    + destruct (s_sign s (s_zsk s) (s_sha256 s Dz)) as [sg|] eqn:Es; [|now left]. right. split; [exact L|]. eexists. split; [reflexivity|]. split; [|reflexivity]. destruct HS as (_ & HS & _). destruct (HS _ _ _ Es). apply signature_record; auto.
      destruct R as [_ R]. apply Forall_cons_iff in R. tauto.
Qed.
Definition section_ok (l : list rr) : Prop := zlen l <= 255 /\ Forall (fun r => record_ok r /\ r_type r <> 41) l.
Lemma signed_ok l l' : section_ok l -> (l' = l \/ (zlen l < 255 /\ exists g, l' = l ++ [g] /\ record_ok g /\ r_type g = 46)) -> section_ok l'.
Proof.
  intros [L F] [->|(L' & g & -> & G & T)]; [now split|]. split; [rewrite zlen_app; change (zlen [g]) with 1; lia|]. apply Forall_app. split; [exact F|]. constructor; [|constructor]. split; [exact G|lia].
Qed.
Lemma section_records l : section_ok l -> Forall record_ok l.
Proof. intros [_ F]. eapply Forall_impl; [|exact F]. cbn. tauto. Qed.

Lemma soa_serial_bound now : 0 <= soa_serial now < 4294967296.
Proof. unfold soa_serial. destruct (hsk_date now) as [[[[[y m] d] h] mi] sc]. unfold u32. apply Z.mod_pos_bound. lia. Qed.
Lemma soa_ok now : record_ok (soa now).
Proof.
  apply rr_ok; [exact root_valid|lia|lia| |]; change (layout 6) with [KName; KName; KNum 4; KNum 4; KNum 4; KNum 4; KNum 4].
  - assert (B := soa_serial_bound now). repeat (constructor; [cbn [field_ok]; first [exact root_valid | change (256 ^ Z.of_nat 4) with 4294967296; lia]|]). constructor.
  - vm_compute. discriminate.
Qed.

Lemma nsec_ok owner types : valid_name owner -> bytes_ok types -> zlen types <= 1000 -> record_ok (nsec owner types).
Proof.
  intros V B L. apply rr_ok; [exact V|lia|lia| |]; change (layout 47) with [KName; KRest].
  - constructor; [exact root_valid|]. constructor; [exact B|constructor].
  - cbn [fields_size field_size]. change (nsize [46]) with 1. lia.
Qed.
Lemma push_nsec name owner types an : valid_name name -> shown name owner -> zlen an < 255 -> to_empty name types an = an ++ [nsec owner types].
Proof. intros V C L. unfold to_empty. rewrite named_as with (o := owner) by auto. now apply push_app. Qed.
Lemma push_soa now an : zlen an < 255 -> root_to_soa now an = an ++ [soa now].
Proof. intros L. unfold root_to_soa. rewrite named_clean by (exact root_valid || exact root_clean). now apply push_app. Qed.
Lemma no_data_ok s now owner proof : sec_ok s -> proof <> [] -> zlen proof < 250 -> Forall (fun r => record_ok r /\ r_type r = 47 /\ r_name r = owner /\ r_class r = 1) proof ->
  exists l1 l2, sign_zsk s now proof 47 = Ok l1 /\ sign_zsk s now (root_to_soa now l1) 6 = Ok l2 /\ no_data s now proof l2 /\ section_ok l2.
Proof.
  intros HS N L F. destruct (section_signed s now owner 47 proof HS) as (l1 & E1 & S1 & X1); try lia.
  { eapply Forall_impl; [|exact F]. cbn. tauto. } { eapply Forall_impl; [|exact F]. cbn. tauto. }
  assert (K0 : section_ok proof) by (split; [lia|]; eapply Forall_impl; [|exact F]; cbn; intros r (? & -> & _); split; [auto|discriminate]).
  assert (L1 : zlen l1 < 252) by (destruct X1 as [->|(_ & g & -> & _)]; [lia|rewrite zlen_app; change (zlen [g]) with 1; lia]). assert (K1 := signed_ok _ _ K0 X1).
  assert (K2 : section_ok (l1 ++ [soa now])) by (split; [rewrite zlen_app; change (zlen [soa now]) with 1; lia|]; apply Forall_app; split; [apply K1|]; constructor; [split; [apply soa_ok|discriminate]|constructor]).
  destruct (section_signed s now [46] 6 (l1 ++ [soa now]) HS) as (l2 & E2 & S2 & X2); try lia; [now apply section_records| |].
  { apply Forall_app. split; [|constructor; [intros _; split; reflexivity|constructor]]. assert (T : Forall (fun r => r_type r <> 6) l1).
    { assert (Tp : Forall (fun r => r_type r <> 6) proof) by (eapply Forall_impl; [|exact F]; cbn; intros r (_ & -> & _); discriminate). destruct X1 as [->|(_ & g & -> & _ & Tg)]; [exact Tp|]. apply Forall_app. split; [exact Tp|]. constructor; [lia|constructor]. }
    eapply Forall_impl; [|exact T]. cbn. intros r Hr Hr2. contradiction. }
  exists l1, l2. split; [exact E1|]. rewrite push_soa by lia. split; [exact E2|]. split; [now exists l1|]. eapply signed_ok; eauto.
Qed.

Lemma has_ns_server owner rs : Forall record_fine rs -> has_ns rs = true <-> exists r x, In r rs /\ server owner r x.
Proof.
  intros F. unfold has_ns. rewrite existsb_exists. split.
  - intros (r & I & T). rewrite Forall_forall in F. destruct (F r I) as [Hl _]. destruct r as [tag alg dt g|n|n ip|n ip|ip|ip|l]; try discriminate.
    + eexists _, _. split; [exact I|constructor].
    + eexists _, _. split; [exact I|constructor].
    + eexists _, _. split; [exact I|constructor].
    + destruct Hl as [B1 L1]. destruct (synth_text_ok ip 4 B1 L1) as (b & H1 & _); [lia|]. eexists _, _. split; [exact I|]. constructor. exact H1.
    + destruct Hl as [B1 L1]. destruct (synth_text_ok ip 16 B1 L1) as (b & H1 & _); [lia|]. eexists _, _. split; [exact I|]. constructor. exact H1.
  - intros (r & x & I & Sv). exists r. split; [exact I|]. destruct Sv; reflexivity.
Qed.
Lemma has_signer owner rs : has 0 rs = true <-> exists r x, In r rs /\ signer owner r x.
Proof.
  unfold has. rewrite existsb_exists. split.
  - intros (r & I & T). destruct r as [tag alg dt g|n|n ip|n ip|ip|ip|l]; try discriminate. eexists _, _. split; [exact I|constructor].
  - intros (r & x & I & Sv). exists r. split; [exact I|]. destruct Sv; reflexivity.
Qed.
Lemma referral_exact s now rs top owner : sec_ok s -> Forall record_fine rs -> zlen rs <= 255 -> plabel top -> valid_name (dotted [top]) -> shown (dotted [top]) owner ->
  exists ns ar, referral s now rs (dotted [top]) [] [] = Ok (ns, ar) /\ section_ok ns /\ section_ok ar /\
    ((exists r x, In r rs /\ server owner r x) -> made (address top) rs ar /\ exists l1 l2, made (server owner) rs l1 /\ made (signer owner) rs l2 /\
        signed_section s now (match l2 with [] => 2 | _ => 43 end) (l1 ++ l2) ns) /\
    (~ (exists r x, In r rs /\ server owner r x) -> ar = [] /\ no_data s now [nsec owner []] ns).
Proof.
  intros HS F L P Vn C. set (name := dotted [top]) in *. assert (V := shown_valid _ _ Vn C). unfold referral. pose proof (has_ns_server owner rs F) as HN. destruct (has_ns rs).
  - destruct (to_ns_made name owner rs Vn C F) as (l1 & M1 & E1). destruct (to_ds_made name owner rs Vn C) as (l2 & M2 & E2). destruct (to_glue_made top rs P F) as (ar & M3 & E3).
    assert (L12 : zlen l1 + zlen l2 <= zlen rs) by (eapply made_two; eauto; intros r x y A B; destruct A; inversion B). pose proof (zlen_nonneg l1). pose proof (zlen_nonneg l2). pose proof (made_len _ _ _ M3).
    rewrite (E1 []) by (change (zlen (@nil rr)) with 0; lia). cbn [obind app]. rewrite E2 by lia. fold name in E3. rewrite (E3 []) by (change (zlen (@nil rr)) with 0; lia). cbn [obind app].
    assert (G1 := made_all _ (fun x => record_ok x /\ r_name x = owner /\ r_type x = 2 /\ r_class x = 1) _ _ (fun r x => server_ok owner rs r x V F) M1).
    assert (G2 := made_all _ (fun x => record_ok x /\ r_name x = owner /\ r_type x = 43 /\ r_class x = 1) _ _ (fun r x => signer_ok owner rs r x V F) M2).
    assert (G3 := made_all _ (fun x => record_ok x /\ (r_type x = 1 \/ r_type x = 28) /\ r_class x = 1) _ _ (fun r x => address_ok top rs r x F) M3).
    assert (K : section_ok (l1 ++ l2)).
    { split; [rewrite zlen_app; lia|]. apply Forall_app. split; [eapply Forall_impl; [|exact G1]|eapply Forall_impl; [|exact G2]]; cbn; intros r (? & _ & -> & _); (split; [auto|discriminate]). }
    assert (Ty : (if negb (has 0 rs) then 2 else 43) = match l2 with [] => 2 | _ => 43 end).
    { pose proof (has_signer owner rs) as HD. pose proof (made_nil _ _ _ M2) as MN. destruct (has 0 rs); cbn [negb]; destruct l2; auto; exfalso.
      - apply MN; [reflexivity|]. now apply HD.
      - assert (r :: l2 = []); [|discriminate]. apply MN. intros X. apply HD in X. discriminate. }
    rewrite Ty. destruct (section_signed s now owner (match l2 with [] => 2 | _ => 43 end) (l1 ++ l2) HS) as (ns & E & Sg & X); try (destruct l2; lia); [now apply section_records| |].
    { apply Forall_app. split; [eapply Forall_impl; [|exact G1]|eapply Forall_impl; [|exact G2]]; cbn; tauto. }
    exists ns, ar. rewrite E. cbn [obind]. split; [reflexivity|]. split; [eapply signed_ok; eauto|]. split.
    + split; [lia|]. eapply Forall_impl; [|exact G3]. cbn. intros r (? & T & _). split; [auto|lia].
    + split; [intros _; split; [exact M3|]; exists l1, l2; auto|]. intros N. exfalso. apply N. now apply HN.
  - rewrite push_nsec with (owner := owner) by (auto; change (zlen (@nil rr)) with 0; lia). cbn [app].
    destruct (no_data_ok s now owner [nsec owner []] HS) as (l1 & l2 & E1 & E2 & D & K); [discriminate|change (zlen [nsec owner []]) with 1; lia| |].
    { constructor; [|constructor]. split; [apply nsec_ok; [auto|constructor|discriminate]|auto]. }
    rewrite E1. cbn [obind]. rewrite E2. cbn [obind]. exists l2, []. split; [reflexivity|]. split; [exact K|]. split; [split; [discriminate|constructor]|]. split; [intros X; apply HN in X; discriminate|auto].
Qed.

Lemma not_nil {A} (l : list A) : (0 <? zlen l) = true <-> l <> [].
Proof. destruct l as [|x l]; [split; [discriminate|congruence]|]. rewrite zlen_cons. pose proof (zlen_nonneg l). split; [discriminate|intros _; lia]. Qed.
Lemma made_some P rs x l : made P rs (x :: l) -> exists r y, In r rs /\ P r y.
Proof.
  intros M. remember (x :: l) as out eqn:E. revert E. induction M as [|r y rs out H M IH|r rs out H M IH]; intros E; [discriminate| |].
  - exists r, y. split; [now left|exact H].
  - destruct (IH E) as (r' & y & I & Py). exists r', y. split; [now right|exact Py].
Qed.
Lemma made_section (P : record -> rr -> Prop) s now owner type rs l : sec_ok s -> made P rs l -> zlen rs <= 255 -> type <> 17 -> type <> 24 -> type <> 41 ->
  (forall r x, In r rs -> P r x -> record_ok x /\ r_name x = owner /\ r_type x = type /\ r_class x = 1) ->
  exists l', sign_zsk s now l type = Ok l' /\ signed_section s now type l l' /\ section_ok l' /\ (l = [] -> l' = []) /\ (l <> [] -> l' <> []).
Proof.
  intros HS M L N1 N2 N3 Hp. assert (G := made_all _ _ _ _ Hp M). pose proof (made_len _ _ _ M).
  assert (K : section_ok l) by (split; [lia|]; eapply Forall_impl; [|exact G]; cbn; intros r (? & _ & -> & _); auto).
  destruct (section_signed s now owner type l HS) as (l' & Es & Sg & X); auto; [now apply section_records|eapply Forall_impl; [|exact G]; cbn; tauto|].
  exists l'. split; [exact Es|]. split; [exact Sg|]. split; [eapply signed_ok; eauto|]. split.
  - intros ->. destruct Sg as [Sg _]. apply Sg. now left.
  - intros Nl. destruct X as [->|(_ & g & -> & _)]; [exact Nl|]. intros E. apply app_eq_nil in E. tauto.
Qed.

Ltac csplit := match goal with |- _ /\ _ => split end.
(** C37: the answer for a name of a resource. *)
Theorem resource_answered_partial s now rs ls type : sec_ok s -> Forall record_fine rs -> zlen rs <= 255 -> pname ls -> ls <> [] ->
  exists m, to_dns s now rs (dotted ls) type = Ok (Some m) /\ answered s now rs ls type m /\ answer_ok m.
Proof.
  intros HS F L H N. destruct (top_name ls H N) as (Vn & owner & Cl & L64). assert (V := shown_valid _ _ Vn Cl). assert (P := last_label ls H N). assert (TF := top_from ls H N). assert (OL := one_label ls H).
  destruct (referral_exact s now rs (last ls []) owner HS F L P Vn Cl) as (ns & ar & Er & Kn & Ka & R1 & R2).
  unfold to_dns. rewrite dotted_end. cbn [negb]. rewrite label_count_dotted by auto. pose proof (zlen_nonneg ls). assert (Z0 : (zlen ls =? 0) = false) by (destruct ls; [congruence|]; rewrite zlen_cons; pose proof (zlen_nonneg ls); lia).
  rewrite Z0, TF. cbn [obind]. assert (L6 : (64 <? zlen (dotted [last ls []])) = false) by lia. rewrite L6. clear L6. unfold answered. set (top := last ls []) in *. set (name := dotted [top]) in *.
  assert (K0 : section_ok []) by (split; [discriminate|constructor]).
  assert (Kb : forall fl an ns ar, 0 <= fl < 65536 -> section_ok an -> section_ok ns -> section_ok ar -> answer_ok (build 0 fl an ns ar)).
  { clear. intros fl an ns ar Hf Kan Kn Ka. split; [exact Hf|]. split; [cbn; lia|]. split; [cbn; lia|]. cbn [m_an m_ns m_ar build]. split; [split; [apply Kan|split; [apply Kn|apply Ka]]|]. split; [now apply section_records|]. split; [now apply section_records|apply Ka]. }
  destruct (Z.ltb_spec 1 (zlen ls)) as [L1|L1].
  - rewrite Er. cbn [obind]. eexists. split; [reflexivity|]. split; [|apply Kb; auto; lia]. cbv zeta. exists owner. split; [exact Cl|]. cbn [m_code m_opcode m_qd m_an m_ns m_ar m_flags build].
    repeat (csplit; [first [reflexivity | intros (X & _); lia]|]). intros _ _ _. auto.
  - assert (Ll : zlen ls = 1) by lia. rewrite (OL Ll). fold name. change (zlen (@nil rr)) with 0. change (0 <? 0) with false. change (0 =? 0) with true. change (Z.shiftl 1 10) with 1024.
    destruct (Z.eqb_spec type 43) as [->|T43]; [|destruct (Z.eqb_spec type 2) as [->|T2]; [|destruct (Z.eqb_spec type 16) as [->|T16]]].
    + destruct (to_ds_made name owner rs Vn Cl) as (l & M & E). pose proof (made_len _ _ _ M). rewrite E by (change (zlen (@nil rr)) with 0; lia). cbn [app].
      destruct (made_section (signer owner) s now owner 43 rs l HS M L) as (l' & Es & Sg & K & Ke & Kne); try lia; [intros; now apply (signer_ok owner rs r)|]. rewrite Es. cbn [obind].
      pose proof (made_nil _ _ _ M) as MN. destruct l as [|x l].
      * rewrite (Ke eq_refl). change (zlen (@nil rr)) with 0. change (0 <? 0) with false. change (0 =? 0) with true. cbn [andb]. rewrite Er. cbn [obind].
        eexists. split; [reflexivity|]. split; [|apply Kb; auto; lia]. cbv zeta. exists owner. split; [exact Cl|]. cbn [m_code m_opcode m_qd m_an m_ns m_ar m_flags build].
        repeat (csplit; [first [reflexivity | intros (_ & X0 & _); discriminate X0 | intros (_ & _ & X0); exfalso; now apply MN]|]). intros _ _ _. auto.
      * assert (Nl : (0 <? zlen l') = true) by (apply not_nil, Kne; discriminate). rewrite Nl. assert (Nz : (zlen l' =? 0) = false) by lia. rewrite Nz. cbn [andb].
        eexists. split; [reflexivity|]. split; [|apply Kb; auto; lia]. cbv zeta. exists owner. split; [exact Cl|]. cbn [m_code m_opcode m_qd m_an m_ns m_ar m_flags build]. split; [reflexivity|]. split; [reflexivity|]. split; [reflexivity|].
        split; [intros _; repeat (split; [reflexivity|]); now exists (x :: l)|]. split; [intros (_ & X0 & _); discriminate X0|]. split; [intros (_ & X0 & _); discriminate X0|].
        intros X0 _ _. exfalso. apply X0. split; [exact Ll|]. split; [reflexivity|]. eapply made_some; exact M.
    + destruct (to_ns_made name owner rs Vn Cl F) as (l & M & E). pose proof (made_len _ _ _ M). rewrite E by (change (zlen (@nil rr)) with 0; lia). cbn [app obind].
      destruct (to_glue_made top rs P F) as (gl & M3 & E3). pose proof (made_len _ _ _ M3). fold name in E3. rewrite (E3 []) by (change (zlen (@nil rr)) with 0; lia). cbn [app obind].
      destruct (made_section (server owner) s now owner 2 rs l HS M L) as (l' & Es & Sg & K & Ke & Kne); try lia; [intros; now apply (server_ok owner rs r)|]. rewrite Es. cbn [obind].
      assert (G3 := made_all _ (fun x => record_ok x /\ (r_type x = 1 \/ r_type x = 28) /\ r_class x = 1) _ _ (fun r x => address_ok top rs r x F) M3).
      assert (Kg : section_ok gl) by (split; [lia|]; eapply Forall_impl; [|exact G3]; cbn; intros r (? & T & _); split; [auto|lia]).
      change (0 <? zlen (@nil rr)) with false. change (zlen (@nil rr)) with 0. change (0 =? 0) with true. cbn [andb]. pose proof (made_nil _ _ _ M) as MN. destruct l as [|x l].
      * rewrite (Ke eq_refl). change (zlen (@nil rr)) with 0. change (0 =? 0) with true. cbv iota.
        assert (gl = []) as ->. { apply (made_nil _ _ _ M3). intros (r & x & I & A). apply MN; [reflexivity|]. destruct A; (eexists _, _; split; [exact I|constructor; eauto]). }
        rewrite Er. cbn [obind]. eexists. split; [reflexivity|]. split; [|apply Kb; auto; lia]. cbv zeta. exists owner. split; [exact Cl|]. cbn [m_code m_opcode m_qd m_an m_ns m_ar m_flags build].
        repeat (csplit; [first [reflexivity | intros (_ & X0 & _); discriminate X0 | intros (_ & _ & X0); exfalso; now apply MN]|]). intros _ _ _. auto.
      * assert (Nl : (0 <? zlen l') = true) by (apply not_nil, Kne; discriminate). assert (Nz : (zlen l' =? 0) = false) by lia. rewrite Nz.
        eexists. split; [reflexivity|]. split; [|apply Kb; auto; lia]. cbv zeta. exists owner. split; [exact Cl|]. cbn [m_code m_opcode m_qd m_an m_ns m_ar m_flags build]. split; [reflexivity|]. split; [reflexivity|]. split; [reflexivity|].
        split; [intros (_ & X0 & _); discriminate X0|]. split; [intros (_ & X0 & _); discriminate X0|]. split; [intros _; split; [reflexivity|]; split; [reflexivity|]; split; [exact M3|]; now exists (x :: l)|].
        intros _ _ X0. exfalso. apply X0. split; [exact Ll|]. split; [reflexivity|]. eapply made_some; exact M.
    + destruct (to_txt_made name owner rs Vn Cl F) as (l & M & E). pose proof (made_len _ _ _ M). rewrite E by (change (zlen (@nil rr)) with 0; lia). cbn [app obind].
      destruct (made_section (strings owner) s now owner 16 rs l HS M L) as (l' & Es & Sg & K & Ke & Kne); try lia; [intros; now apply (strings_ok owner rs r)|]. rewrite Es. cbn [obind].
      pose proof (made_nil _ _ _ M) as MN. destruct l as [|x l].
      * rewrite (Ke eq_refl). change (zlen (@nil rr)) with 0. change (0 <? 0) with false. change (0 =? 0) with true. cbn [andb]. rewrite Er. cbn [obind].
        eexists. split; [reflexivity|]. split; [|apply Kb; auto; lia]. cbv zeta. exists owner. split; [exact Cl|]. cbn [m_code m_opcode m_qd m_an m_ns m_ar m_flags build].
        repeat (csplit; [first [reflexivity | intros (_ & X0 & _); discriminate X0 | intros (_ & _ & X0); exfalso; now apply MN]|]). intros _ _ _. auto.
      * assert (Nl : (0 <? zlen l') = true) by (apply not_nil, Kne; discriminate). rewrite Nl. assert (Nz : (zlen l' =? 0) = false) by lia. rewrite Nz. cbn [andb].
        eexists. split; [reflexivity|]. split; [|apply Kb; auto; lia]. cbv zeta. exists owner. split; [exact Cl|]. cbn [m_code m_opcode m_qd m_an m_ns m_ar m_flags build]. split; [reflexivity|]. split; [reflexivity|]. split; [reflexivity|].
        split; [intros (_ & X0 & _); discriminate X0|]. split; [intros _; repeat (split; [reflexivity|]); now exists (x :: l)|]. split; [intros (_ & X0 & _); discriminate X0|].
        intros _ X0 _. exfalso. apply X0. split; [exact Ll|]. split; [reflexivity|]. eapply made_some; exact M.
    + cbn [obind andb]. change (zlen (@nil rr)) with 0. change (0 <? 0) with false. change (0 =? 0) with true. cbn [andb]. rewrite Er. cbn [obind].
      eexists. split; [reflexivity|]. split; [|apply Kb; auto; lia]. cbv zeta. exists owner. split; [exact Cl|]. cbn [m_code m_opcode m_qd m_an m_ns m_ar m_flags build].
      repeat (csplit; [first [reflexivity | intros (_ & X0 & _); contradiction]|]). intros _ _ _. auto.
Qed.

(** ** The root *)
Lemma ksk_signed s now type l : sec_ok s -> Forall (fun r => record_ok r /\ r_type r = type /\ r_name r = [46] /\ r_class r = 1) l -> l <> [] -> zlen l < 255 -> type <> 17 -> type <> 24 -> type <> 41 ->
  exists l', sign_ksk s now l type = Ok l' /\ signed_by s 257 (s_ksk s) now type l l' /\ section_ok l'.
Proof.
  intros HS F N L N1 N2 N3. assert (Ef : filter (of_type type) l = l).
  { clear - F. induction F as [|r l (_ & <- & _) F IH]; [reflexivity|]. cbn [filter]. unfold of_type at 1. rewrite Z.eqb_refl. now rewrite IH. }
  destruct l as [|first rest]; [congruence|]. assert (R : rrset_ok [46] type 1 (first :: rest)) by (split; [exact N|]; eapply Forall_impl; [|exact F]; cbn; intros r (? & -> & -> & ->); auto).
  assert (K : section_ok (first :: rest)) by (split; [lia|]; eapply Forall_impl; [|exact F]; cbn; intros r (? & -> & _); auto).
  destruct (signs s now [46] type 1 _ first rest HS Ef R N1 N2 L) as (pk & pz & Dk & Dz & Ek & _ & Sd & _ & E & _). eexists. split; [exact E|]. apply Forall_cons_iff in F as [(Of & _ & Nf & _) _]. split.
  - split; [intros [X|X]; [rewrite Ef in X; discriminate|lia]|]. intros f' r' E' _. rewrite Ef in E'. injection E' as <- <-. exists pk, Dk. rewrite Nf. auto.
  - eapply signed_ok; [exact K|]. destruct (s_sign s (s_ksk s) (s_sha256 s Dk)) as [sg|] eqn:Es; [|now left]. right. split; [exact L|]. eexists. split; [reflexivity|]. split; [|reflexivity]. destruct HS as (_ & HS & _). destruct (HS _ _ _ Es). apply signature_record; auto.
Qed.
Lemma one_signed s now type x : sec_ok s -> record_ok x -> r_type x = type -> r_class x = 1 -> type <> 17 -> type <> 24 -> type <> 41 ->
  exists l', sign_zsk s now [x] type = Ok l' /\ signed_section s now type [x] l' /\ section_ok l'.
Proof.
  intros HS Hx T C N1 N2 N3. destruct (section_signed s now (r_name x) type [x] HS) as (l' & E & S1 & X); auto; try (constructor; [|constructor]; auto).
  exists l'. split; [exact E|]. split; [exact S1|]. eapply signed_ok; [|exact X]. split; [discriminate|]. constructor; [|constructor]. split; [auto|lia].
Qed.
Lemma first_bytes (p ip : list Z) : beq (firstn (length p) ip) p = true <-> exists x, ip = p ++ x.
Proof.
  rewrite beq_true_iff. split.
  - intros E. exists (skipn (length p) ip). rewrite <- E at 1. symmetry. apply firstn_skipn.
  - intros [x ->]. rewrite firstn_app, Nat.sub_diag, firstn_all. cbn. apply app_nil_r.
Qed.
Lemma root_ar_exact s now ip : sec_ok s -> bytes_ok ip -> length ip = 16%nat -> exists ar, root_ar s now ip = Ok ar /\ root_address s now ip ar /\ section_ok ar.
Proof.
  intros HS B L. unfold root_ar, root_to_a, root_to_aaaa, is_ip6, is_ip4, root_address.
  pose proof (first_bytes [0; 0; 0; 0; 0; 0; 0; 0; 0; 0; 255; 255] ip) as HM. change (beq (firstn _ ip) _ = true) with (is_mapped ip = true) in HM.
  pose proof (first_bytes [253; 135; 216; 126; 235; 67] ip) as HO. change (beq (firstn _ ip) _ = true) with (is_onion ip = true) in HO.
  destruct (is_mapped ip) eqn:Em; cbn [negb andb].
  - destruct (proj1 HM eq_refl) as [v E]. assert (Lv : length v = 4%nat) by (rewrite E, app_length in L; cbn in L; lia). assert (Bv : bytes_ok v) by (rewrite E in B; apply bytes_ok_app in B; tauto).
    assert (Ev : firstn 4 (skipn 12 ip) = v) by (rewrite E; cbn [app skipn]; rewrite <- Lv; apply firstn_all). rewrite Ev. rewrite named_clean by (exact root_valid || exact root_clean). rewrite push_app by reflexivity. cbn [app].
    destruct (one_signed s now 1 {| r_name := [46]; r_type := 1; r_class := 1; r_ttl := 518400; r_rd := Some [VBytes v] |} HS) as (l' & Es & Sg & K); auto; try discriminate.
    { apply rr_ok; [exact root_valid|lia|lia| |]; change (layout 1) with [KFix 4]; [constructor; [split; auto|constructor]|]. cbn [fields_size field_size]. unfold zlen. lia. }
    rewrite Es. cbn [obind]. exists l'. split; [reflexivity|]. split; [|exact K]. split.
    + intros v4 E4. change (ip = [0; 0; 0; 0; 0; 0; 0; 0; 0; 0; 255; 255] ++ v4) in E4. rewrite E in E4. apply app_inv_head in E4. now subst v4.
    + intros N. exfalso. apply (N v). exact E.
  - cbn [obind]. assert (NM : forall v4, ip <> repeat 0 10 ++ [255; 255] ++ v4) by (intros v4 E; change (ip = [0; 0; 0; 0; 0; 0; 0; 0; 0; 0; 255; 255] ++ v4) in E; assert (false = true) by (apply HM; exact (ex_intro _ v4 E)); discriminate).
    destruct (is_onion ip) eqn:Eo; cbn [negb].
    + exists []. split; [reflexivity|]. split; [|split; [discriminate|constructor]]. split; [intros v4 E; exfalso; now apply (NM v4)|]. intros _. split; [reflexivity|]. destruct (proj1 HO eq_refl) as [x E]. intros N. exfalso. now apply (N x).
    + rewrite named_clean by (exact root_valid || exact root_clean). rewrite push_app by reflexivity. cbn [app].
      destruct (one_signed s now 28 {| r_name := [46]; r_type := 28; r_class := 1; r_ttl := 518400; r_rd := Some [VBytes ip] |} HS) as (l' & Es & Sg & K); auto; try discriminate.
      { apply rr_ok; [exact root_valid|lia|lia| |]; change (layout 28) with [KFix 16]; [constructor; [split; auto|constructor]|]. cbn [fields_size field_size]. unfold zlen. lia. }
      rewrite Es. exists l'. split; [reflexivity|]. split; [|exact K]. split; [intros v4 E; exfalso; now apply (NM v4)|]. intros _. split; [|auto]. intros x E. assert (false = true) by (apply HO; exact (ex_intro _ x E)). discriminate.
Qed.
Lemma root_server_ok : record_ok root_server.
Proof. apply rr_ok; [exact root_valid|lia|lia| |]; change (layout 2) with [KName]; [constructor; [exact root_valid|constructor]|vm_compute; discriminate]. Qed.
Lemma root_types t : bitmap 0 [34; 0; 0; 0; 0; 3; 128] t <-> In t [2; 6; 46; 47; 48].
Proof.
  assert (Q : forallb (fun k => Bool.eqb (Z.testbit (nth (Z.to_nat (k / 8)) [34; 0; 0; 0; 0; 3; 128] 0) (7 - k mod 8)) (existsb (Z.eqb k) [2; 6; 46; 47; 48])) (map Z.of_nat (seq 0 56)) = true) by (vm_compute; reflexivity).
  rewrite forallb_forall in Q. assert (E : forall k, 0 <= k < 56 -> Z.testbit (nth (Z.to_nat (k / 8)) [34; 0; 0; 0; 0; 3; 128] 0) (7 - k mod 8) = existsb (Z.eqb k) [2; 6; 46; 47; 48]).
  { intros k Hk. apply Bool.eqb_prop. apply Q. apply in_map_iff. exists (Z.to_nat k). split; [lia|]. apply in_seq. lia. }
  unfold bitmap. change (8 * zlen [34; 0; 0; 0; 0; 3; 128]) with 56. split.
  - intros (k & -> & Hk & T). rewrite E in T by auto. apply existsb_exists in T as (x & I & X). replace (256 * 0 + k) with x by lia. exact I.
  - intros I. assert (Ht : 0 <= t < 56) by (cbn [In] in I; lia). exists t. split; [lia|]. split; [exact Ht|]. rewrite E by auto. apply existsb_exists. exists t. split; [exact I|lia].
Qed.
Lemma ds_record_ok s pk : sec_ok s -> record_ok {| r_name := [46]; r_type := 43; r_class := 1; r_ttl := 10800; r_rd := Some [VNum (key_tag (key_data 257 pk)); VNum 13; VNum 2; VBytes (s_sha256 s (0 :: key_data 257 pk))] |}.
Proof.
  intros (HS & _). destruct (HS (0 :: key_data 257 pk)) as [L B]. assert (T : 0 <= key_tag (key_data 257 pk) < 65536) by (apply Z.mod_pos_bound; lia).
  apply rr_ok; [exact root_valid|lia|lia| |]; change (layout 43) with [KNum 2; KNum 1; KNum 1; KRest].
  - constructor; [exact T|]. constructor; [cbn; lia|]. constructor; [cbn; lia|]. constructor; [exact B|constructor].
  - cbn [fields_size field_size]. unfold zlen. lia.
Qed.
Lemma root_clone r : record_ok r -> rr_clone r = Ok (Some r).
Proof. intros H. apply (record_roundtrip r H). Qed.

(** C37 for the root: every type is answered, with authority. *)
Theorem root_is_answered s now type ip : sec_ok s -> bytes_ok ip -> length ip = 16%nat ->
  exists m, root s now type (Some ip) = Ok m /\ root_answered s now type ip m /\ answer_ok m.
Proof.
  intros HS B L. destruct (root_ar_exact s now ip HS B L) as (ar & Ea & Ra & Ka). assert (K0 : section_ok []) by (split; [discriminate|constructor]).
  assert (Kb : forall an ns ar, section_ok an -> section_ok ns -> section_ok ar -> answer_ok (build 0 1024 an ns ar)).
  { clear. intros an ns ar Kan Kn Ka. split; [cbn; lia|]. split; [cbn; lia|]. split; [cbn; lia|]. cbn [m_an m_ns m_ar build]. split; [split; [apply Kan|split; [apply Kn|apply Ka]]|]. split; [now apply section_records|]. split; [now apply section_records|apply Ka]. }
  destruct (one_signed s now 2 root_server HS root_server_ok) as (l2 & E2 & S2 & K2); auto; try discriminate.
  destruct (one_signed s now 6 (soa now) HS (soa_ok now)) as (l6 & E6 & S6 & K6); auto; try discriminate.
  assert (Er : root_to_ns [] = [root_server]) by (unfold root_to_ns; rewrite named_clean by (exact root_valid || exact root_clean); reflexivity).
  assert (Es : root_to_soa now [] = [soa now]) by now rewrite push_soa.
  unfold root, root_answered. rewrite Er, Es. change (Z.shiftl 1 10) with 1024.
  assert (Fin : forall an ns ar, m_code (build 0 1024 an ns ar) = 0 /\ m_opcode (build 0 1024 an ns ar) = 0 /\ m_qd (build 0 1024 an ns ar) = [] /\ m_flags (build 0 1024 an ns ar) = 1024) by auto.
  destruct (Z.eqb_spec type 255) as [->|T255]; [|destruct (Z.eqb_spec type 2) as [->|T2]; [|destruct (Z.eqb_spec type 6) as [->|T6]; [|destruct (Z.eqb_spec type 48) as [->|T48]; [|destruct (Z.eqb_spec type 43) as [->|T43]]]]]; cbn [orb].
  - rewrite E2. cbn [obind]. rewrite Ea. cbn [obind]. eexists. split; [reflexivity|]. split; [|now apply Kb]. cbn [m_code m_opcode m_qd m_an m_ns m_ar m_flags build].
    repeat (csplit; [first [reflexivity | intros _; now auto | intros X; exfalso; revert X; discriminate]|]). intros X. exfalso. apply X. cbn. auto.
  - rewrite E2. cbn [obind]. rewrite Ea. cbn [obind]. eexists. split; [reflexivity|]. split; [|now apply Kb]. cbn [m_code m_opcode m_qd m_an m_ns m_ar m_flags build].
    repeat (csplit; [first [reflexivity | intros _; now auto | intros X; exfalso; revert X; discriminate]|]). intros X. exfalso. apply X. cbn. auto.
  - rewrite E6. cbn [obind]. rewrite E2. cbn [obind]. rewrite Ea. cbn [obind]. eexists. split; [reflexivity|]. split; [|now apply Kb]. cbn [m_code m_opcode m_qd m_an m_ns m_ar m_flags build].
    repeat (csplit; [first [reflexivity | intros [X|X]; discriminate X | intros X; discriminate X | intros _; now auto]|]). intros X. exfalso. apply X. cbn. auto.
  - destruct (keys_exact s HS) as (pk & pz & P1 & P2 & G1 & G2 & O1 & O2). unfold root_to_dnskey. rewrite G1. cbn [obind]. rewrite root_clone by auto. cbn [obind]. rewrite G2. cbn [obind]. rewrite root_clone by auto. cbn [obind].
    change (rrs_push (rrs_push [] (root_key 257 pk)) (root_key 256 pz)) with [root_key 257 pk; root_key 256 pz].
    destruct (ksk_signed s now 48 [root_key 257 pk; root_key 256 pz] HS) as (lk & Ek & Sk & Kk); try discriminate; [|reflexivity|].
    { constructor; [auto|]. constructor; [auto|constructor]. }
    rewrite Ek. cbn [obind]. eexists. split; [reflexivity|]. split; [|now apply Kb]. cbn [m_code m_opcode m_qd m_an m_ns m_ar m_flags build].
    repeat (csplit; [first [reflexivity | intros [X|X]; discriminate X | intros X; discriminate X | intros _; split; [exists pk, pz; now auto|now auto]]|]). intros X. exfalso. apply X. cbn. auto.
  - destruct (keys_exact s HS) as (pk & pz & P1 & _). assert (G := ds_exact s pk HS P1). assert (O := ds_record_ok s pk HS). unfold root_to_ds. rewrite G. cbn [obind]. rewrite root_clone by auto. cbn [obind].
    match goal with |- context [rrs_push [] ?x] => change (rrs_push [] x) with [x]; set (d := x) in * end.
    destruct (one_signed s now 43 d HS O) as (ld & Ed & Sd & Kd); auto; try discriminate. rewrite Ed. cbn [obind]. eexists. split; [reflexivity|]. split; [|now apply Kb]. cbn [m_code m_opcode m_qd m_an m_ns m_ar m_flags build].
    repeat (csplit; [first [reflexivity | intros [X|X]; discriminate X | intros X; discriminate X | intros _; split; [exists pk; now auto|now auto]]|]). intros X. exfalso. apply X. cbn. tauto.
  - unfold root_to_nsec. rewrite named_clean by (exact root_valid || exact root_clean). change (rrs_push [] ?x) with [x]. fold (nsec [46] type_map).
    destruct (no_data_ok s now [46] [nsec [46] type_map] HS) as (n1 & n2 & N1 & N2 & D & K); [discriminate|reflexivity| |].
    { constructor; [|constructor]. split; [|auto]. apply nsec_ok; [exact root_valid| |discriminate]. unfold type_map. repeat (constructor; [unfold is_byte; lia|]). constructor. }
    rewrite N1. cbn [obind]. rewrite N2. cbn [obind]. eexists. split; [reflexivity|]. split; [|now apply Kb]. cbn [m_code m_opcode m_qd m_an m_ns m_ar m_flags build].
    repeat (csplit; [first [reflexivity | intros [X|X]; contradiction | intros X; contradiction ]|]). intros _. split; [reflexivity|]. split; [reflexivity|]. exists [34; 0; 0; 0; 0; 3; 128]. split; [exact D|exact root_types].
Qed.
(** Without an address the node aborts on NS, SOA and ANY queries for the root. *)
Theorem root_without_address s now type : sec_ok s -> (root s now type None = Abort <-> In type [2; 255; 6]).
Proof.
  intros HS. destruct (root_is_answered s now type (repeat 0 16) HS) as (m & E & _); [apply Forall_repeat; unfold is_byte; lia|reflexivity|]. revert E. unfold root.
  destruct (one_signed s now 2 root_server HS root_server_ok) as (l2 & E2 & S2 & K2); auto; try discriminate.
  destruct (one_signed s now 6 (soa now) HS (soa_ok now)) as (l6 & E6 & S6 & K6); auto; try discriminate.
  assert (Er : root_to_ns [] = [root_server]) by (unfold root_to_ns; rewrite named_clean by (exact root_valid || exact root_clean); reflexivity).
  assert (Es : root_to_soa now [] = [soa now]) by now rewrite push_soa. rewrite Er, Es, E2, E6. cbn [obind]. cbn [In].
  destruct (Z.eqb_spec type 255); [intros _; split; [intros _; lia|reflexivity]|]. destruct (Z.eqb_spec type 2); [intros _; split; [intros _; lia|reflexivity]|]. cbn [orb]. destruct (Z.eqb_spec type 6); [intros _; split; [intros _; lia|reflexivity]|]. destruct (type =? 48); [|destruct (type =? 43)]; intros ->; (split; [discriminate|lia]).
Qed.

(** Names that do not exist: NXDOMAIN, authoritative, with a proof; failures are empty. *)
Theorem nx_exact s now : sec_ok s -> exists m types, to_nx s now = Ok m /\ m_code m = 3 /\ m_opcode m = 0 /\ m_flags m = 1024 /\ m_qd m = [] /\ m_an m = [] /\ m_ar m = [] /\
  no_data s now [nsec [46] (0 :: zlen types :: types); nsec [46] (0 :: zlen types :: types)] (m_ns m) /\ (forall t, bitmap 0 types t <-> In t [2; 6; 46; 47; 48]) /\ answer_ok m.
Proof.
  intros HS. unfold to_nx, root_to_nsec. rewrite named_clean by (exact root_valid || exact root_clean). change (rrs_push (rrs_push [] ?x) ?x) with [x; x]. fold (nsec [46] type_map).
  destruct (no_data_ok s now [46] [nsec [46] type_map; nsec [46] type_map] HS) as (n1 & n2 & N1 & N2 & D & K); [discriminate|reflexivity| |].
  { assert (O : record_ok (nsec [46] type_map)) by (apply nsec_ok; [exact root_valid| |discriminate]; unfold type_map; repeat (constructor; [unfold is_byte; lia|]); constructor). constructor; [auto|]. constructor; [auto|constructor]. }
  rewrite N1. cbn [obind]. rewrite N2. cbn [obind]. exists (build 3 1024 [] n2 []), [34; 0; 0; 0; 0; 3; 128]. repeat (csplit; [first [reflexivity | exact D | exact root_types]|]).
  split; [cbn; lia|]. split; [cbn; lia|]. split; [cbn; lia|]. cbn [m_an m_ns m_ar build]. split; [split; [discriminate|split; [apply K|discriminate]]|]. split; [constructor|]. split; [now apply section_records|constructor].
Qed.
Theorem failures_exact : answer_ok to_servfail /\ m_code to_servfail = 2 /\ answer_ok to_notimp /\ m_code to_notimp = 4 /\
  Forall (fun m => m_flags m = 0 /\ m_qd m = [] /\ m_an m = [] /\ m_ns m = [] /\ m_ar m = []) [to_servfail; to_notimp].
Proof.
  assert (A : forall c, 0 <= c < 16 -> answer_ok (build c 0 [] [] [])) by (intros c Hc; split; [cbn; lia|]; split; [cbn; lia|]; split; [cbn; lia|]; split; [repeat split; discriminate|]; split; [constructor|]; split; constructor).
  split; [apply A; lia|]. split; [reflexivity|]. split; [apply A; lia|]. split; [reflexivity|]. constructor; [auto 10|]. constructor; [auto 10|constructor].
Qed.

(** ** Names below _synth: which address a name stands for *)
Definition digits (b ds : list Z) : Prop := Forall2 (digit_of charset_hex) b ds.
Lemma bad_short b : bytes_ok b -> fst (decode2 table_hex b false) = -1 -> 8 * zlen (snd (decode2 table_hex b false)) <= 5 * (zlen b - 1).
Proof.
  intros B. unfold decode2. pose proof (dec_loop_spec charset_hex table_hex hex_alphabet b false [] [] 0 0 B dec_start) as S1. destruct (dec_loop table_hex b false 0 0) as [[[[bad out] m] l] rest]. cbn [app] in S1.
  destruct S1 as (s1 & ds & -> & F & (_ & _ & _ & Ln & _) & R). destruct rest as [|c rest].
  - subst bad. cbn. pose proof (zlen_nonneg out). lia.
  - destruct R as [_ ->]. cbn [andb negb fst snd]. intros _. rewrite zlen_app, zlen_cons. assert (zlen s1 = zlen ds) by (eapply Forall2_zlen; eauto). pose proof (zlen_nonneg rest). lia.
Qed.
Lemma plabel_bytes l : plabel l -> bytes_ok l.
Proof. intros [_ F]. eapply Forall_impl; [|exact F]. intros c [H _]. unfold is_byte. lia. Qed.
(** What the first label of a name stands for: seven digits an IPv4 address, 26 or 27 an
    IPv6 address. A single digit aborts; 28 digits overrun the address, where there is one. *)
Theorem synth_name_exact out l rest : pname (l :: rest) -> let r := pointer_to_ip out (dotted (l :: rest)) in
  (forall b ds, l = 95 :: b -> digits b ds -> exists data, bytes_ok data /\ zlen data = 5 * zlen b / 8 /\ be_val data = val32 ds / 2 ^ (5 * zlen b - 8 * zlen data) /\
     r = if zlen b =? 1 then Abort else if zlen b =? 7 then Ok (Some (1, data)) else if (zlen b =? 26) || (zlen b =? 27) then Ok (Some (28, data)) else if (zlen b =? 28) && out then Ub else Ok None) /\
  ((forall b ds, l = 95 :: b -> b <> [] -> ~ digits b ds) -> r = Ok None).
Proof.
  intros H r. assert (Pl : plabel l) by (destruct H as [H _]; now apply Forall_cons_iff in H). assert (Bl := plabel_bytes l Pl). destruct Pl as [Ll _].
  assert (R : r = let len := zlen l in if (len <? 2) || (29 <? len) || negb (nth 0 l 0 =? 95) then Ok None else let '(j, b) := decode2 table_hex (skipn 1 l) false in
     if out && (16 <? zlen b) then Ub else if j =? 0 then Abort else if j =? 4 then Ok (Some (1, b)) else if j =? 16 then Ok (Some (28, b)) else Ok None).
  { unfold r, pointer_to_ip. rewrite (label_get_dotted 64 (l :: rest) 0 [] l rest) by (auto; try reflexivity; lia). reflexivity. }
  clearbody r. subst r. cbv zeta. split.
  - intros b ds -> D. rewrite zlen_cons in *. cbn [nth skipn]. change (95 =? 95) with true. cbn [negb]. rewrite Bool.orb_false_r. apply bytes_ok_cons in Bl as [_ Bb].
    destruct (base32_unpadded_decoding_exact charset_hex table_hex b hex_alphabet Bb) as [_ X]. destruct (X ds D) as (data & E & Bd & Ld & Vd). exists data. split; [exact Bd|]. split; [exact Ld|]. split; [exact Vd|]. rewrite E. pose proof (zlen_nonneg b).
    destruct (Z.eqb_spec (zlen b) 0) as [Z0|Z0].
    + rewrite Z0. reflexivity.
    + assert (E2 : (1 + zlen b <? 2) = false) by lia. rewrite E2. cbn [orb]. destruct (Z.ltb_spec 29 (1 + zlen b)) as [G|G].
      * assert (E3 : (zlen b =? 1) = false) by lia. assert (E4 : (zlen b =? 7) = false) by lia. assert (E5 : (zlen b =? 26) = false) by lia. assert (E6 : (zlen b =? 27) = false) by lia. assert (E7 : (zlen b =? 28) = false) by lia. now rewrite E3, E4, E5, E6, E7.
      * destruct (Z.eqb_spec (zlen b) 1) as [E3|E3]; [replace (16 <? zlen data) with false by lia; replace (zlen data =? 0) with true by lia; now rewrite Bool.andb_false_r|].
        destruct (Z.eqb_spec (zlen b) 7) as [E4|E4]; [replace (16 <? zlen data) with false by lia; replace (zlen data =? 0) with false by lia; replace (zlen data =? 4) with true by lia; now rewrite Bool.andb_false_r|].
        replace (zlen data =? 0) with false by lia. replace (zlen data =? 4) with false by lia. destruct ((zlen b =? 26) || (zlen b =? 27)) eqn:E5.
        -- replace (16 <? zlen data) with false by lia. replace (zlen data =? 16) with true by lia. now rewrite Bool.andb_false_r.
        -- replace (zlen data =? 16) with false by lia. rewrite (Bool.andb_comm out). replace (16 <? zlen data) with (zlen b =? 28) by lia. reflexivity.
  - intros N. destruct l as [|c b]; [reflexivity|]. rewrite zlen_cons in *. cbn [nth skipn]. destruct (Z.eqb_spec c 95) as [->|C]; cbn [negb]; [|now rewrite !Bool.orb_true_r]. rewrite Bool.orb_false_r.
    apply bytes_ok_cons in Bl as [_ Bb]. destruct (Z.ltb_spec (1 + zlen b) 2) as [G|G]; [reflexivity|]. destruct (Z.ltb_spec 29 (1 + zlen b)) as [G2|G2]; [reflexivity|]. cbn [orb].
    assert (Nb : b <> []) by (intros ->; change (zlen (@nil Z)) with 0 in G; lia).
    assert (E : fst (decode2 table_hex b false) = -1).
    { apply (base32_unpadded_decoding_exact charset_hex table_hex b hex_alphabet Bb). intros F. assert (exists ds, digits b ds) as [ds D]; [|now apply (N b ds)]. clear - F. induction F as [|c b [d D] F [ds IH]]; [exists []; constructor|]. exists (d :: ds). now constructor. }
    pose proof (bad_short b Bb E) as Sh. destruct (decode2 table_hex b false) as [j x]. cbn [fst snd] in *. subst j. replace (16 <? zlen x) with false by lia. now rewrite Bool.andb_false_r.
Qed.

(** ** Where the code falls short *)
(** Queries with no data are answered without authority, contrary to the claim. *)
Theorem empty_authoritative_refuted : exists m, to_dns toy_sec 1700000000 [] (dotted [[97]]) 1 = Ok (Some m) /\ m_an m = [] /\ m_flags m = 0 /\ map r_type (m_ns m) = [47; 46; 6; 46].
Proof. eexists. split; [vm_compute; reflexivity|]. auto. Qed.
(** A resource of two bytes, an NS record without its name, aborts the node. *)
Theorem empty_server_aborts_refuted : exists m rs, bytes_ok m /\ zlen m = 2 /\ decode m = Ok (Some rs) /\ forall s now ls type, pname ls -> zlen ls = 2 -> to_dns s now rs (dotted ls) type = Abort.
Proof.
  exists [0; 1], [RNs []]. split; [repeat (constructor; [unfold is_byte; lia|]); constructor|]. split; [reflexivity|]. split; [vm_compute; reflexivity|]. intros s now ls type H L. assert (N : ls <> []) by (intros ->; discriminate).
  unfold to_dns. rewrite dotted_end, label_count_dotted, L, top_from by auto. cbn [negb obind]. destruct (top_name ls H N) as (_ & o & _ & L6). replace (64 <? zlen (dotted [last ls []])) with false by lia. reflexivity.
Qed.
(** One of three bytes, a TXT record without its strings, makes a TXT query read freed memory. *)
Theorem freed_strings_refuted : exists m rs, bytes_ok m /\ zlen m = 3 /\ decode m = Ok (Some rs) /\ forall s now l, pname [l] -> to_dns s now rs (dotted [l]) 16 = Ub.
Proof.
  exists [0; 6; 1], [RTxt [Freed]]. split; [repeat (constructor; [unfold is_byte; lia|]); constructor|]. split; [reflexivity|]. split; [vm_compute; reflexivity|]. intros s now l H. assert (N : [l] <> []) by discriminate.
  unfold to_dns. rewrite dotted_end, label_count_dotted, top_from by auto. change (zlen [l]) with 1. cbn [negb obind]. destruct (top_name [l] H N) as (_ & o & _ & L6). replace (64 <? zlen (dotted [last [l] []])) with false by lia. reflexivity.
Qed.
(** The address of a name server whose name is not clean is given to the root. *)
Theorem glue_owner_refuted : exists rs m x, Forall record_fine rs /\ to_dns toy_sec 1700000000 rs (dotted [[97]; [120]]) 1 = Ok (Some m) /\ m_ar m = [x] /\ r_name x = [46] /\ r_type x = 1.
Proof.
  exists [RGlue4 (dotted [[32]; [120]]) [1; 2; 3; 4]]. eexists. eexists. split; [|split; [vm_compute; reflexivity|split; [reflexivity|split; reflexivity]]].
  constructor; [|constructor]. split; [|discriminate]. split.
  - right. exists [[32]; [120]]. split; [|reflexivity]. split; [|discriminate]. repeat (constructor; [split; [change (1 <= 1 <= 63); lia|]; constructor; [unfold pchar; lia|constructor]|]). constructor.
  - split; [repeat (constructor; [unfold is_byte; lia|]); constructor|reflexivity].
Qed.

(** ** Examples *)
(** All kinds of records, for x. and for a.x. *)
Lemma sample_label : pname [[120]] /\ pname [[97]; [120]].
Proof. split; (split; [|discriminate]); repeat (constructor; [split; [change (1 <= 1 <= 63); lia|]; constructor; [unfold pchar; lia|constructor]|]); constructor. Qed.
Example sample_answered type : exists m m', to_dns toy_sec 1700000000 sample_records (dotted [[120]]) type = Ok (Some m) /\ answered toy_sec 1700000000 sample_records [[120]] type m /\
  to_dns toy_sec 1700000000 sample_records (dotted [[97]; [120]]) type = Ok (Some m') /\ answered toy_sec 1700000000 sample_records [[97]; [120]] type m'.
Proof.
  destruct sample_label as [P1 P2]. destruct (resource_answered_partial toy_sec 1700000000 sample_records [[120]] type toy_ok (proj1 sample_fine)) as (m & E & A & _); [discriminate|exact P1|discriminate|].
  destruct (resource_answered_partial toy_sec 1700000000 sample_records [[97]; [120]] type toy_ok (proj1 sample_fine)) as (m' & E' & A' & _); [discriminate|exact P2|discriminate|]. exists m, m'. auto.
Qed.
Definition shape (m : msg) : Z * list Z * list Z * list Z := (m_flags m, map r_type (m_an m), map r_type (m_ns m), map r_type (m_ar m)).
Example sample_shapes :
  map (fun t => match to_dns toy_sec 1700000000 sample_records (dotted [[120]]) t with Ok (Some m) => Some (shape m) | _ => None end) [43; 16; 2; 1] =
    [Some (1024, [43; 46], [], []); Some (1024, [16; 46], [], []); Some (0, [], [2; 2; 2; 2; 46], [1; 1; 28]); Some (0, [], [2; 2; 2; 2; 43; 46], [1; 1; 28])] /\
  map (fun t => match to_dns toy_sec 1700000000 sample_records (dotted [[97]; [120]]) t with Ok (Some m) => Some (shape m) | _ => None end) [43; 16] =
    [Some (0, [], [2; 2; 2; 2; 43; 46], [1; 1; 28]); Some (0, [], [2; 2; 2; 2; 43; 46], [1; 1; 28])].
Proof. split; vm_compute; reflexivity. Qed.
(** _fs00008._synth. is the server at 127.0.0.1 *)
Example sample_synth : synth [102; 115; 48; 48; 48; 48; 56] = [95; 102; 115; 48; 48; 48; 48; 56; 46; 95; 115; 121; 110; 116; 104; 46] /\
  base32 charset_hex [127; 0; 0; 1] [102; 115; 48; 48; 48; 48; 56] /\ pointer_to_ip true (synth [102; 115; 48; 48; 48; 48; 56]) = Ok (Some (1, [127; 0; 0; 1])).
Proof.
  split; [reflexivity|]. split; [|vm_compute; reflexivity]. exists [15; 28; 0; 0; 0; 0; 8]. split; [repeat (constructor; [split; [lia|reflexivity]|]); constructor|]. split; [reflexivity|vm_compute; reflexivity].
Qed.
Example synth_aborts : pointer_to_ip false (dotted [[95; 97]; [95; 115; 121; 110; 116; 104]]) = Abort /\ pointer_to_ip true (dotted [95 :: repeat 97 28; [95; 115; 121; 110; 116; 104]]) = Ub.
Proof. split; vm_compute; reflexivity. Qed.
Example root_shapes : map (fun t => match root toy_sec 1700000000 t (Some (repeat 0 10 ++ [255; 255; 127; 0; 0; 1])) with Ok m => Some (shape m) | _ => None end) [2; 6; 48; 43; 1] =
  [Some (1024, [2; 46], [], [1; 46]); Some (1024, [6; 46], [2; 46], [1; 46]); Some (1024, [48; 48; 46], [], []); Some (1024, [43; 46], [], []); Some (1024, [], [47; 46; 6; 46], [])].
Proof. vm_compute. reflexivity. Qed.

Print Assumptions resource_answered_partial.
Print Assumptions root_is_answered.
Print Assumptions root_without_address.
Print Assumptions nx_exact.
Print Assumptions failures_exact.
Print Assumptions synth_name_exact.
Print Assumptions empty_authoritative_refuted.
Print Assumptions empty_server_aborts_refuted.
Print Assumptions freed_strings_refuted.
Print Assumptions glue_owner_refuted.
