From Verif Require Import Common CommonFacts BioModel BioFacts UtilTheorems DnsNameModel DnsNameSpec DnsNameFacts DnsNameTheorems DnsMsgModel DnsMsgSpec.

Lemma kinds_write t : write_kinds t = layout t.
Proof.
  unfold write_kinds, layout, layouts. cbn [find fst].
  repeat match goal with |- context [(t =? ?a)] => rewrite (Z.eqb_sym t a) end.
  destruct (6 =? t) eqn:E6; [apply Z.eqb_eq in E6 as <-; reflexivity|].
  repeat match goal with |- context [(?a =? t)] => destruct (a =? t) eqn:?; try reflexivity; try (exfalso; lia) end.
Qed.
Lemma kinds_read t : read_kinds t = layout t.
Proof. rewrite <- kinds_write. reflexivity. Qed.

(** * Names *)
Lemma pname_dotted_root ls : Forall plabel ls -> beq (dotted ls) [46] = true <-> ls = [].
Proof.
  intros H. rewrite beq_true_iff. split; [|now intros ->]. destruct ls as [|l ls]; auto. rewrite dotted_cons. intros E. exfalso.
  apply Forall_cons_iff in H as [[Hl Hp] _]. destruct l as [|c l]; [unfold zlen in Hl; cbn in Hl; lia|]. apply Forall_cons_iff in Hp as [[_ Hc] _]. injection E as -> _. contradiction.
Qed.
Lemma plain_len ls : zlen (plain ls) = zlen (cat_dots ls) + 1.
Proof.
  unfold plain. rewrite zlen_app. change (zlen [0]) with 1. f_equal. unfold cat_dots. induction ls as [|x k IH]; auto.
  cbn [map concat]. rewrite !zlen_app, !zlen_cons, zlen_map, IH. change (zlen (@nil Z)) with 0. lia.
Qed.
Lemma nsize_plain ls : Forall plabel ls -> nsize (dotted ls) = zlen (plain ls).
Proof.
  intros H. rewrite plain_len. unfold nsize. pose proof (pname_dotted_root ls H) as X. destruct (beq (dotted ls) [46]) eqn:E.
  - destruct X as [X _]. rewrite X by auto. reflexivity.
  - destruct ls; [destruct X as [_ X]; discriminate (X eq_refl)|]. now rewrite cat_dots_dotted.
Qed.
Lemma nsize_pos s : 1 <= nsize s.
Proof. unfold nsize. pose proof (zlen_nonneg s). destruct (beq s [46]); lia. Qed.
Lemma filter_none l : Forall pchar l -> filter (Z.eqb 46) l = [].
Proof. induction 1 as [|c l [_ N] H IH]; auto. cbn [filter]. destruct (Z.eqb_spec 46 c); [congruence|auto]. Qed.
Lemma nlabels_dotted ls : Forall plabel ls -> nlabels (dotted ls) = zlen ls.
Proof.
  intros H. unfold nlabels. pose proof (pname_dotted_root ls H) as X. destruct (beq (dotted ls) [46]) eqn:E.
  - destruct X as [X _]. rewrite X by auto. reflexivity.
  - destruct ls; [destruct X as [_ X]; discriminate (X eq_refl)|]. rewrite cat_dots_dotted by discriminate. clear E X. revert H. generalize (l :: ls). clear.
    induction 1 as [|l ls [Hl Hp] H IH]; auto. unfold cat_dots in *. cbn [map concat]. rewrite !filter_app, !zlen_app, IH, filter_none by auto. rewrite (zlen_cons l). reflexivity.
Qed.
Lemma wname_ok k m c s : valid_name s -> ((k <= 10)%nat \/ nlabels s <= 10) -> cmap_ok k m c ->
  exists new c', wname true (zlen m) s (Some c) = (new, Some c') /\ cmap_ok (S k) (m ++ new) c' /\ 1 <= zlen new <= nsize s /\ bytes_ok new /\
    forall after w, bytes_ok (m ++ new ++ after) -> bytes_ok w -> name_read (Some (m ++ new ++ after)) (new ++ w) = Ok (Some (s, w)).
Proof.
  intros (ls & H & ->) Hk Hc. assert (Hp := proj1 H). rewrite nlabels_dotted in Hk by auto. rewrite nsize_plain by auto.
  destruct (compressed_name true k m c ls H Hc) as (new0 & c0 & h & R0 & _ & _ & _ & _ & _ & Hsh).
  destruct (compressed_roundtrip_partial true k m c ls H) as (new & c' & R & C & L & B & X); [unfold zlen in Hk; lia|exact Hc|].
  rewrite R in R0. pose proof (f_equal fst R0) as R1. cbn [fst] in R1. subst new0. clear R0.
  exists new, c'. unfold wname. rewrite R. split; [reflexivity|]. split; [exact C|]. split; [split; [|exact L]|auto].
  destruct Hsh as [->|(a & b & p & _ & -> & _)]; rewrite zlen_app; pose proof (zlen_nonneg (lab_bytes ls)).
  - change (zlen [0]) with 1. lia.
  - pose proof (zlen_nonneg (lab_bytes a)). change (zlen [_; _]) with 2. lia.
Qed.
Lemma wname_plain data base s : valid_name s -> exists b, wname data base s None = (b, None) /\ zlen b = nsize s /\ bytes_ok b /\
  forall dmp w, (forall m, dmp = Some m -> bytes_ok m) -> bytes_ok w -> name_read dmp (b ++ w) = Ok (Some (s, w)).
Proof.
  intros (ls & H & ->). exists (plain ls). unfold wname, name_write. rewrite serialize_plain by auto. split; [reflexivity|].
  split; [symmetry; apply nsize_plain, H|]. split; [apply bytes_ok_plain, H|]. intros dmp w Hd Hw.
  destruct (plain_roundtrip data dmp ls w H Hw Hd) as (out & E & P). pose proof (serialize_plain data 0 ls H) as E2. rewrite E in E2.
  pose proof (f_equal (fun x => snd (fst x)) E2) as E3. cbn [fst snd] in E3. subst out. unfold name_read. rewrite P. f_equal. f_equal. f_equal. apply skipn_zlen.
Qed.

(** * Fields *)
Lemma within_app a b : forall k, within k (a ++ b) <-> within k a /\ within (k + length a) b.
Proof.
  induction a as [|s a IH]; intros k; cbn [app within length]; [rewrite Nat.add_0_r; tauto|]. rewrite IH. replace (k + S (length a))%nat with (S k + length a)%nat by lia. tauto.
Qed.
Definition greedy (k : kind) : bool := match k with KRest | KTxts => true | _ => false end.
Fixpoint greedy_last (ks : list kind) : bool :=
  match ks with [] => true | [_] => true | k :: ks => negb (greedy k) && greedy_last ks end.
Lemma layout_greedy t : greedy_last (layout t) = true.
Proof.
  unfold layout. destruct (find (fun e => fst e =? t) layouts) as [e|] eqn:E; [|reflexivity]. apply find_some in E as [E _]. 
  assert (F : forallb (fun e => greedy_last (snd e)) layouts = true) by reflexivity. rewrite forallb_forall in F. now apply F.
Qed.
Lemma write_u8_len n : 0 <= n <= 255 -> write_u8 n = [n].
Proof. intros. apply write_u8_byte. lia. Qed.
Lemma be_bytes_ok n v : bytes_ok (be_bytes n v).
Proof. unfold be_bytes. apply bytes_ok_rev, le_bytes_ok. Qed.
Lemma be_bytes_zlen n v : zlen (be_bytes n v) = Z.of_nat n.
Proof. unfold zlen. now rewrite be_bytes_length. Qed.
Lemma read_bytes_app n b w : length b = n -> read_bytes n (b ++ w) = Some (b, w).
Proof. apply take_app. Qed.
Definition txt_bytes (l : list (list Z)) : list Z := concat (map (fun t => write_u8 (zlen t) ++ t) l).
Lemma txt_bytes_cons t l : txt_bytes (t :: l) = write_u8 (zlen t) ++ t ++ txt_bytes l.
Proof. unfold txt_bytes. cbn [map concat]. now rewrite <- app_assoc. Qed.
Lemma get_txts_ok l : forall fuel acc, Forall (fun t => bytes_ok t /\ zlen t <= 255) l -> zlen acc + zlen l <= 255 -> (length (txt_bytes l) <= fuel)%nat ->
  get_txts fuel (txt_bytes l) acc = Some (acc ++ l).
Proof.
  induction l as [|t l IH]; intros fuel acc H L F.
  - cbn. destruct fuel; now rewrite app_nil_r.
  - apply Forall_cons_iff in H as [[Ht Lt] H]. rewrite txt_bytes_cons in *. pose proof (zlen_nonneg t). rewrite write_u8_len in * by lia. cbn [app] in *.
    rewrite zlen_cons in L. pose proof (zlen_nonneg l). cbn [length] in F. rewrite app_length in F. destruct fuel as [|fuel]; [lia|]. cbn [get_txts].
    rewrite read_bytes_app by (unfold zlen; lia). destruct (Z.eqb_spec (zlen acc) 255); [lia|]. rewrite IH; [|exact H|rewrite zlen_app; change (zlen [t]) with 1; lia|lia].
    now rewrite <- app_assoc.
Qed.
Lemma txt_size l : Forall (fun t => bytes_ok t /\ zlen t <= 255) l -> zlen (txt_bytes l) = fold_right Z.add 0 (map (fun t => 1 + zlen t) l) /\ bytes_ok (txt_bytes l).
Proof.
  induction 1 as [|t l [Ht Lt] H [IH1 IH2]]; [split; [reflexivity|constructor]|]. rewrite txt_bytes_cons. pose proof (zlen_nonneg t). rewrite write_u8_len by lia.
  cbn [app map fold_right]. rewrite zlen_cons, zlen_app, IH1. split; [lia|]. constructor; [unfold is_byte; lia|]. apply bytes_ok_app. auto.
Qed.

(** Fields other than names are written the same with and without compression. *)
Definition flat (k : kind) (v : val) : list Z :=
  match k, v with
  | KNum n, VNum x => be_bytes n x
  | KStr, VBytes b => write_u8 (zlen b) ++ b
  | KTxts, VList l => txt_bytes l
  | _, VBytes b => b
  | _, _ => []
  end.
Lemma flat_put k v data base cmp : field_ok k v -> k <> KName -> put_field data base k v cmp = Ok (flat k v, cmp) /\ zlen (flat k v) = field_size k v /\ bytes_ok (flat k v) /\ field_names k v = [].
Proof.
  intros H N. destruct k as [|n|n| | |], v as [x|b|l]; cbn [field_ok] in H; try contradiction; try congruence; cbn [put_field flat field_size field_names].
  - split; [reflexivity|]. rewrite be_bytes_zlen. split; [reflexivity|]. split; [apply be_bytes_ok|reflexivity].
  - destruct H as [H1 H2]. unfold zlen at 1. rewrite H2, Z.eqb_refl. auto.
  - destruct H as [H1 H2]. pose proof (zlen_nonneg b). destruct (Z.ltb_spec (zlen b) 256); [|lia]. split; [reflexivity|]. rewrite write_u8_len by lia.
    cbn [app]. split; [apply zlen_cons|]. split; [constructor; auto; unfold is_byte; lia|reflexivity].
  - auto.
  - destruct H as [H1 H2]. destruct (txt_size l H1). auto.
Qed.
Lemma flat_get k v dmp w : field_ok k v -> k <> KName -> (greedy k = true -> w = []) -> get_field dmp k (flat k v ++ w) = Ok (Some (v, w)).
Proof.
  intros H N G. destruct k as [|n|n| | |], v as [x|b|l]; cbn [field_ok] in H; try contradiction; try congruence; cbn [get_field flat].
  - now rewrite read_be_app.
  - destruct H as [H1 H2]. now rewrite read_bytes_app.
  - destruct H as [H1 H2]. pose proof (zlen_nonneg b). rewrite write_u8_len by lia. cbn [app read_u8]. rewrite read_bytes_app by (unfold zlen; lia). reflexivity.
  - rewrite G by reflexivity. now rewrite app_nil_r.
  - destruct H as [H1 H2]. rewrite G by reflexivity. rewrite app_nil_r. rewrite get_txts_ok; auto.
Qed.
Lemma kname_dec k : k = KName \/ k <> KName.
Proof. destruct k; auto; right; discriminate. Qed.
Lemma field_ok_name v : field_ok KName v -> exists s, v = VBytes s /\ valid_name s.
Proof. destruct v as [x|s|l]; cbn; try contradiction. eauto. Qed.

Lemma put_field_ok k m c kd v : field_ok kd v -> within k (field_names kd v) -> cmap_ok k m c ->
  exists new c', put_field true (zlen m) kd v (Some c) = Ok (new, Some c') /\ cmap_ok (k + length (field_names kd v)) (m ++ new) c' /\
    zlen new <= field_size kd v /\ bytes_ok new /\
    forall after w, bytes_ok (m ++ new ++ after) -> bytes_ok w -> (greedy kd = true -> w = []) ->
      get_field (Some (m ++ new ++ after)) kd (new ++ w) = Ok (Some (v, w)).
Proof.
  intros F N Hc. destruct (kname_dec kd) as [->|Nk].
  - destruct (field_ok_name _ F) as (s & -> & V). cbn [put_field field_names field_size length] in *. destruct N as [N _].
    destruct (wname_ok k m c s V N Hc) as (new & c' & R & C & L & B & X). exists new, c'. rewrite R. split; [reflexivity|]. rewrite Nat.add_1_r.
    split; [exact C|]. split; [lia|]. split; [exact B|]. intros after w Ba Bw _. cbn [get_field]. rewrite X by auto. reflexivity.
  - destruct (flat_put kd v true (zlen m) (Some c) F Nk) as (R & L & B & E). rewrite R, E. exists (flat kd v), c. split; [reflexivity|]. split.
    + apply (cmap_app k); [cbn; lia|exact Hc].
    + split; [lia|]. split; [exact B|]. intros. now apply flat_get.
Qed.
Lemma put_fields_ok ks : forall vs k m c, Forall2 field_ok ks vs -> greedy_last ks = true -> within k (fields_names ks vs) -> cmap_ok k m c ->
  exists new c', put_fields true (zlen m) ks vs (Some c) = Ok (new, Some c') /\ cmap_ok (k + length (fields_names ks vs)) (m ++ new) c' /\
    zlen new <= fields_size ks vs /\ bytes_ok new /\
    forall after, bytes_ok (m ++ new ++ after) -> get_fields (Some (m ++ new ++ after)) ks new = Ok (Some vs).
Proof.
  induction ks as [|kd ks IH]; intros vs k m c F G N Hc; inversion F as [|? v ? vs' F1 F2]; subst.
  - exists [], c. cbn [put_fields fields_names fields_size get_fields length]. rewrite app_nil_r, Nat.add_0_r. split; [reflexivity|]. split; [exact Hc|]. split; [unfold zlen; cbn; lia|]. split; [constructor|auto].
  - rename vs' into vs. cbn [fields_names fields_size put_fields] in *. apply within_app in N as [N1 N2].
    destruct (put_field_ok k m c kd v F1 N1 Hc) as (o1 & c1 & R1 & C1 & L1 & B1 & X1). rewrite R1. cbn [obind].
    assert (G2 : greedy_last ks = true) by (destruct ks; [reflexivity|apply andb_true_iff in G; apply G]).
    destruct (IH vs _ (m ++ o1) c1 F2 G2 N2 C1) as (o2 & c2 & R2 & C2 & L2 & B2 & X2).
    rewrite zlen_app in R2. rewrite R2. cbn [obind]. exists (o1 ++ o2), c2. split; [reflexivity|]. rewrite <- app_assoc in C2. rewrite app_length, Nat.add_assoc.
    split; [exact C2|]. split; [rewrite zlen_app; lia|]. split; [apply bytes_ok_app; auto|]. intros after Ba. rewrite <- app_assoc in Ba |- *. cbn [get_fields].
    rewrite X1; auto.
    + cbn [obind]. specialize (X2 after). rewrite <- app_assoc in X2. rewrite X2 by exact Ba. reflexivity.
    + intros Gk. destruct ks as [|k2 ks].
      * inversion F2; subst. cbn [put_fields] in R2. apply Ok_inj in R2. now inversion R2.
      * cbn [greedy_last] in G. rewrite Gk in G. discriminate.
Qed.
Lemma put_fields_size ks : forall vs base, Forall2 field_ok ks vs -> exists b, put_fields false base ks vs None = Ok (b, None) /\ zlen b = fields_size ks vs.
Proof.
  induction ks as [|kd ks IH]; intros vs base F; inversion F as [|? v ? vs' F1 F2]; subst; [exists []; auto|]. cbn [put_fields fields_size].
  destruct (kname_dec kd) as [->|Nk].
  - destruct (field_ok_name _ F1) as (s & -> & V). cbn [put_field field_size]. destruct (wname_plain false base s V) as (b & R & L & _). rewrite R. cbn [obind].
    destruct (IH vs' (base + zlen b) F2) as (b2 & R2 & L2). rewrite R2. cbn [obind]. eexists. split; [reflexivity|]. rewrite zlen_app. lia.
  - destruct (flat_put kd v false base None F1 Nk) as (R & L & _). rewrite R. cbn [obind]. destruct (IH vs' (base + zlen (flat kd v)) F2) as (b2 & R2 & L2). rewrite R2. cbn [obind].
    eexists. split; [reflexivity|]. rewrite zlen_app. lia.
Qed.

(** * Questions and records *)
Definition writer := bool -> Z -> rr -> option cmap -> outcome (list Z * option cmap).
Definition reader := option (list Z) -> list Z -> outcome (option (rr * list Z)).
Definition item_size (r : rr) (q : bool) : Z :=
  nsize (r_name r) + (if q then 4 else 10 + match r_rd r with Some vs => fields_size (layout (r_type r)) vs | None => 0 end).
(** Writing with [w] what [rd] reads *)
Definition codec (w : writer) (rd : reader) (q : bool) (r : rr) : Prop :=
  (forall k m c, within k (rr_names r) -> cmap_ok k m c ->
   exists new c', w true (zlen m) r (Some c) = Ok (new, Some c') /\ cmap_ok (k + length (rr_names r)) (m ++ new) c' /\
     1 <= zlen new <= item_size r q /\ bytes_ok new /\
     forall after x, bytes_ok (m ++ new ++ after) -> bytes_ok x -> rd (Some (m ++ new ++ after)) (new ++ x) = Ok (Some (r, x))) /\
  (forall base, exists b, w false base r None = Ok (b, None) /\ zlen b = item_size r q).
Lemma read_u16be_app v w : 0 <= v < 65536 -> read_u16be (write_u16be v ++ w) = Some (v, w).
Proof. intros. apply read_be_app. exact H. Qed.
Lemma read_u32be_app v w : 0 <= v < 4294967296 -> read_u32be (write_u32be v ++ w) = Some (v, w).
Proof. intros. apply read_be_app. exact H. Qed.
Lemma zlen_u16be v : zlen (write_u16be v) = 2. Proof. reflexivity. Qed.
Lemma zlen_u32be v : zlen (write_u32be v) = 4. Proof. reflexivity. Qed.
Lemma u16be_ok v : bytes_ok (write_u16be v). Proof. apply be_bytes_ok. Qed.
Lemma u32be_ok v : bytes_ok (write_u32be v). Proof. apply be_bytes_ok. Qed.

Ltac bok := repeat (match goal with |- bytes_ok (_ ++ _) => apply bytes_ok_app; split end); auto using u16be_ok, u32be_ok.

Lemma question_codec r : question_ok r -> codec qs_write qs_read true r.
Proof.
  intros ((V & Ht & Hc & _) & Httl & Hrd). split.
  - intros k m c N Hm. unfold rr_names in *. rewrite Hrd in *. cbn [within length] in *. destruct N as [N _].
    destruct (wname_ok k m c _ V N Hm) as (new & c' & R & C & L & B & X). unfold qs_write. rewrite R.
    exists (new ++ write_u16be (r_type r) ++ write_u16be (r_class r)), c'. split; [reflexivity|]. rewrite Nat.add_1_r.
    split; [rewrite app_assoc; now apply (cmap_app (S k))|]. unfold item_size. rewrite !zlen_app, !zlen_u16be. split; [lia|].
    split; [bok|]. intros after x Ba Bx. rewrite <- !app_assoc in *. unfold qs_read. rewrite X; auto.
    2:{ bok. }
    cbn [obind]. rewrite !read_u16be_app by auto. f_equal. f_equal. f_equal. destruct r. cbn in *. now subst.
  - intros base. unfold qs_write. destruct (wname_plain false base _ V) as (b & R & L & _). rewrite R. eexists. split; [reflexivity|].
    unfold item_size. rewrite !zlen_app, !zlen_u16be. lia.
Qed.
Lemma record_codec r : record_ok r -> codec rr_write rr_read false r.
Proof.
  intros ((V & Ht & Hc & Httl) & vs & Hrd & F & Sz). split.
  - intros k m c N Hm. unfold rr_names in *. rewrite Hrd in *. cbn [within length] in *. destruct N as [N N2].
    destruct (wname_ok k m c _ V N Hm) as (o & c1 & R & C & L & B & X). unfold rr_write. rewrite R, Hrd.
    set (h := o ++ write_u16be (r_type r) ++ write_u16be (r_class r) ++ write_u32be (r_ttl r)).
    assert (Lh : zlen h = zlen o + 8) by (unfold h; rewrite !zlen_app, !zlen_u16be, zlen_u32be; lia).
    assert (Bh : bytes_ok h) by (unfold h; bok).
    unfold rd_write. rewrite kinds_write.
    assert (W0 : exists new c', put_fields true (zlen m + zlen h + 2) (layout (r_type r)) vs (Some c1) = Ok (new, Some c') /\
       cmap_ok (S k + length (fields_names (layout (r_type r)) vs)) (m ++ h ++ write_u16be (zlen new) ++ new) c' /\
       zlen new <= fields_size (layout (r_type r)) vs /\ bytes_ok new /\
       forall after, bytes_ok (m ++ h ++ write_u16be (zlen new) ++ new ++ after) -> get_fields (Some (m ++ h ++ write_u16be (zlen new) ++ new ++ after)) (layout (r_type r)) new = Ok (Some vs)).
    { assert (K : forall lb, zlen lb = 2 -> exists new c', put_fields true (zlen m + zlen h + 2) (layout (r_type r)) vs (Some c1) = Ok (new, Some c') /\
         cmap_ok (S k + length (fields_names (layout (r_type r)) vs)) (m ++ h ++ lb ++ new) c' /\
         zlen new <= fields_size (layout (r_type r)) vs /\ bytes_ok new /\
         forall after, bytes_ok (m ++ h ++ lb ++ new ++ after) -> get_fields (Some (m ++ h ++ lb ++ new ++ after)) (layout (r_type r)) new = Ok (Some vs)).
      { intros lb Llb. destruct (put_fields_ok (layout (r_type r)) vs (S k) (m ++ h ++ lb) c1 F (layout_greedy _) N2) as (new & c' & R2 & C2 & L2 & B2 & X2).
        - unfold h. rewrite <- !app_assoc. rewrite app_assoc. now apply (cmap_app (S k)).
        - rewrite !zlen_app, Llb in R2. replace (zlen m + (zlen h + 2)) with (zlen m + zlen h + 2) in R2 by lia. exists new, c'. split; [exact R2|].
          rewrite <- !app_assoc in C2. split; [exact C2|]. split; [exact L2|]. split; [exact B2|]. intros after Ba. specialize (X2 after). rewrite <- !app_assoc in X2. apply X2. exact Ba. }
      destruct (K [0; 0] eq_refl) as (new & c' & R2 & _). destruct (K (write_u16be (zlen new)) eq_refl) as (new' & c'' & R2' & Y). rewrite R2 in R2'.
      apply Ok_inj in R2'. pose proof (f_equal fst R2') as E1. pose proof (f_equal snd R2') as E2. cbn [fst snd] in E1, E2. apply some_inj in E2. subst new' c''.
      exists new, c'. split; [exact R2|exact Y]. }
    destruct W0 as (b & c' & R2 & C2 & L2 & B2 & X2). rewrite R2. cbn [obind].
    exists (h ++ write_u16be (zlen b) ++ b), c'. split; [reflexivity|]. replace (k + S (length (fields_names (layout (r_type r)) vs)))%nat with (S k + length (fields_names (layout (r_type r)) vs))%nat by lia.
    split; [exact C2|]. unfold item_size. rewrite Hrd, !zlen_app, zlen_u16be. pose proof (zlen_nonneg b). split; [lia|].
    split; [bok|]. intros after x Ba Bx.
    rewrite <- !app_assoc. rewrite <- !app_assoc in Ba. unfold rr_read, h in *. rewrite <- !app_assoc. rewrite <- !app_assoc in Ba.
    rewrite X; auto.
    2:{ bok. }
    cbn [obind]. rewrite !read_u16be_app by auto. rewrite read_u32be_app by auto. rewrite read_u16be_app by lia.
    assert (Lx : zlen (b ++ x) <? zlen b = false) by (apply Z.ltb_ge; rewrite zlen_app; pose proof (zlen_nonneg x); lia). rewrite Lx.
    rewrite firstn_zlen, skipn_zlen. unfold rd_read. rewrite kinds_read. specialize (X2 after). rewrite <- !app_assoc in X2. rewrite X2 by exact Ba. cbn [obind].
    f_equal. f_equal. f_equal. destruct r. cbn in *. now subst.
  - intros base. unfold rr_write. destruct (wname_plain false base _ V) as (b & R & L & _). rewrite R, Hrd. unfold rd_write. rewrite kinds_write.
    destruct (put_fields_size (layout (r_type r)) vs (base + zlen (b ++ write_u16be (r_type r) ++ write_u16be (r_class r) ++ write_u32be (r_ttl r)) + 2) F) as (b2 & R2 & L2).
    rewrite R2. cbn [obind]. eexists. split; [reflexivity|]. unfold item_size. rewrite Hrd, !zlen_app, !zlen_u16be, zlen_u32be. lia.
Qed.

(** * Items: a question or a record *)
Definition edns_rr : rr := {| r_name := [46]; r_type := 41; r_class := 0; r_ttl := 0; r_rd := None |}.
Definition item := (bool * rr)%type.
Definition iw (i : item) : writer := if fst i then qs_write else rr_write.
Definition ird (i : item) : reader := if fst i then qs_read else rr_read.
Definition icodec (i : item) : Prop := codec (iw i) (ird i) (fst i) (snd i).
Definition names (l : list item) : list (list Z) := concat (map (fun i => rr_names (snd i)) l).
Definition sizes (l : list item) : Z := fold_right Z.add 0 (map (fun i => item_size (snd i) (fst i)) l).
Fixpoint iwrite (data : bool) (base : Z) (l : list item) (c : option cmap) : outcome (list (list Z) * option cmap) :=
  match l with
  | [] => Ok ([], c)
  | i :: l => obind (iw i data base (snd i) c) (fun '(o, c) => obind (iwrite data (base + zlen o) l c) (fun '(bs, c) => Ok (o :: bs, c)))
  end.
Lemma iwrite_app data l1 : forall base l2 c, iwrite data base (l1 ++ l2) c =
  obind (iwrite data base l1 c) (fun '(b1, c) => obind (iwrite data (base + zlen (concat b1)) l2 c) (fun '(b2, c) => Ok (b1 ++ b2, c))).
Proof.
  induction l1 as [|i l1 IH]; intros base l2 c; cbn [app iwrite].
  - cbn [obind concat]. change (zlen (@nil Z)) with 0. rewrite Z.add_0_r. destruct (iwrite data base l2 c) as [[? ?]| | |]; reflexivity.
  - destruct (iw i data base (snd i) c) as [[o c1]| | |]; cbn [obind]; auto. rewrite IH. destruct (iwrite data (base + zlen o) l1 c1) as [[b1 c2]| | |]; cbn [obind]; auto.
    cbn [concat]. rewrite zlen_app, Z.add_assoc. destruct (iwrite data (base + zlen o + zlen (concat b1)) l2 c2) as [[? ?]| | |]; reflexivity.
Qed.
Lemma sect_iwrite data q l : forall base c, sect_write (iw (q, edns_rr)) data base l c = obind (iwrite data base (map (pair q) l) c) (fun '(bs, c) => Ok (concat bs, c)).
Proof.
  induction l as [|r l IH]; intros base c; cbn [sect_write map iwrite]; auto. change (iw (q, r)) with (iw (q, edns_rr)). cbn [snd].
  destruct (iw (q, edns_rr) data base r c) as [[o c1]| | |]; cbn [obind]; auto. rewrite IH. destruct (iwrite _ _ _ _) as [[bs c2]| | |]; cbn [obind]; auto.
Qed.
(** The bytes of each item *)
Inductive chunked (m : list Z) : list item -> list (list Z) -> Prop :=
| ch_nil : chunked m [] []
| ch_cons i l b bs : 1 <= zlen b -> bytes_ok b ->
    (forall after x, bytes_ok (m ++ b ++ after) -> bytes_ok x -> ird i (Some (m ++ b ++ after)) (b ++ x) = Ok (Some (snd i, x))) ->
    chunked (m ++ b) l bs -> chunked m (i :: l) (b :: bs).
Lemma items_ok l : Forall icodec l -> forall k m c, within k (names l) -> cmap_ok k m c ->
  exists bs c', iwrite true (zlen m) l (Some c) = Ok (bs, Some c') /\ zlen (concat bs) <= sizes l /\ chunked m l bs /\
    forall n, exists c'', iwrite true (zlen m) (firstn n l) (Some c) = Ok (firstn n bs, Some c'').
Proof.
  induction 1 as [|i l [H _] F IH]; intros k m c N Hm.
  - exists [], c. cbn [iwrite concat]. split; [reflexivity|]. split; [unfold zlen; cbn; lia|]. split; [constructor|]. intros [|n]; exists c; reflexivity.
  - unfold names in N |- *. cbn [map concat] in *. apply within_app in N as [N1 N2]. cbn [iwrite].
    destruct (H k m c N1 Hm) as (b & c1 & R & C & L & B & X). rewrite R. cbn [obind].
    destruct (IH _ (m ++ b) c1 N2 C) as (bs & c2 & R2 & L2 & Ch & Fn). rewrite zlen_app in R2. rewrite R2. cbn [obind].
    exists (b :: bs), c2. cbn [concat]. split; [reflexivity|].
    rewrite zlen_app. unfold sizes in *. cbn [map fold_right]. split; [lia|]. split; [constructor; auto; lia|].
    intros [|n]; [exists c; reflexivity|]. cbn [firstn iwrite concat]. rewrite R. cbn [obind]. destruct (Fn n) as (c3 & R3). rewrite zlen_app in R3. rewrite R3. cbn [obind]. eauto.
Qed.
Lemma items_size l : Forall icodec l -> forall base, exists bs, iwrite false base l None = Ok (bs, None) /\ zlen (concat bs) = sizes l.
Proof.
  induction 1 as [|i l [_ H] F IH]; intros base; [exists []; auto|]. cbn [iwrite]. destruct (H base) as (b & R & L). rewrite R. cbn [obind].
  destruct (IH (base + zlen b)) as (b2 & R2 & L2). rewrite R2. cbn [obind]. eexists. split; [reflexivity|]. cbn [concat]. rewrite zlen_app. unfold sizes in *. cbn [map fold_right]. lia.
Qed.
Lemma chunked_bytes m l bs : chunked m l bs -> bytes_ok (concat bs).
Proof. induction 1; cbn [concat]; [constructor|]. apply bytes_ok_app. auto. Qed.
Lemma chunked_length m l bs : chunked m l bs -> length bs = length l.
Proof. induction 1; cbn; auto. Qed.
Lemma chunked_split l1 : forall m l2 bs, chunked m (l1 ++ l2) bs -> exists b1 b2, bs = b1 ++ b2 /\ chunked m l1 b1 /\ chunked (m ++ concat b1) l2 b2.
Proof.
  induction l1 as [|i l1 IH]; intros m l2 bs H; cbn [app] in H.
  - exists [], bs. cbn [concat app]. rewrite app_nil_r. split; [reflexivity|]. split; [constructor|exact H].
  - inversion H as [|? ? b bs' L B X Ch]; subst. destruct (IH _ _ _ Ch) as (b1 & b2 & -> & C1 & C2). exists (b :: b1), b2. split; [reflexivity|].
    split; [constructor; auto|]. cbn [concat]. rewrite app_assoc. exact C2.
Qed.
Lemma chunked_firstn l : forall m bs n, chunked m l bs -> chunked m (firstn n l) (firstn n bs).
Proof. induction l as [|i l IH]; intros m bs [|n] H; inversion H; subst; cbn [firstn]; constructor; auto. Qed.
Lemma sect_read_ok q l : forall m bs acc after x, chunked m (map (pair q) l) bs -> zlen acc + zlen l <= 255 -> bytes_ok (m ++ concat bs ++ after) -> bytes_ok x ->
  sect_read (ird (q, edns_rr)) (Some (m ++ concat bs ++ after)) (length l) (concat bs ++ x) acc = Ok (Some (acc ++ l, x)).
Proof.
  induction l as [|r l IH]; intros m bs acc after x Ch La Ba Bx; inversion Ch as [|? ? b bs' L B X Ch' ]; subst.
  - cbn [length sect_read concat app]. now rewrite app_nil_r.
  - cbn [length concat] in *. rewrite <- !app_assoc in *. cbn [sect_read]. destruct b as [|b0 b]; [change (zlen (@nil Z)) with 0 in L; lia|].
    rewrite <- app_comm_cons. cbv iota. rewrite app_comm_cons. assert (Bb := chunked_bytes _ _ _ Ch'). change (ird (q, r)) with (ird (q, edns_rr)) in X.
    rewrite X; auto.
    2:{ apply bytes_ok_app; auto. }
    cbn [obind snd]. rewrite zlen_cons in La. pose proof (zlen_nonneg l). unfold rrs_push. destruct (Z.eqb_spec (zlen acc) 255); [lia|].
    specialize (IH (m ++ b0 :: b) bs' (acc ++ [r]) after x Ch'). rewrite <- !app_assoc in IH. apply IH; auto.
    rewrite zlen_app. change (zlen [r]) with 1. lia.
Qed.

(** * Messages *)
Lemma flags_bits F : 0 <= F < 65536 ->
  Z.lor (Z.lor (Z.land (Z.land F (65535 - Z.shiftl 15 11)) (65535 - 15)) (Z.shiftl (Z.land (F / 2048 mod 16) 15) 11)) (F mod 16) = F.
Proof.
  intros H. change (F / 2048) with (F / 2 ^ 11). change 16 with (2 ^ 4). rewrite <- Z.shiftr_div_pow2 by lia. rewrite <- !Z.land_ones by lia.
  change (65535 - Z.shiftl 15 11) with 34815. change (65535 - 15) with 65520. change (Z.ones 4) with 15.
  apply Z.bits_inj'. intros n Hn. rewrite !Z.lor_spec, !Z.land_spec.
  assert (C : n < 16 \/ 16 <= n) by lia. destruct C as [C|C].
  - rewrite Z.shiftl_spec by lia. assert (D : n = 0 \/ n = 1 \/ n = 2 \/ n = 3 \/ n = 4 \/ n = 5 \/ n = 6 \/ n = 7 \/ n = 8 \/ n = 9 \/ n = 10 \/ n = 11 \/ n = 12 \/ n = 13 \/ n = 14 \/ n = 15) by lia.
    assert (P : forall b, 0 <= n - 11 -> Z.testbit (Z.land (Z.land (Z.shiftr F 11) 15) 15) (n - 11) = b -> b = Z.testbit F n && Z.testbit 15 (n - 11)).
    { intros b Hb <-. rewrite !Z.land_spec, Z.shiftr_spec by lia. replace (n - 11 + 11) with n by lia. destruct (Z.testbit F n), (Z.testbit 15 (n - 11)); reflexivity. }
    assert (Q : n - 11 < 0 -> Z.testbit (Z.land (Z.land (Z.shiftr F 11) 15) 15) (n - 11) = false) by (intros; now apply Z.testbit_neg_r).
    destruct (Z.testbit (Z.land (Z.land (Z.shiftr F 11) 15) 15) (n - 11)) eqn:E; destruct (Z.ltb_spec (n - 11) 0) as [Y|Y].
    + discriminate (Q Y).
    + specialize (P true Y eq_refl). destruct (Z.testbit F n); [|discriminate P]. rewrite orb_true_r. reflexivity.
    + destruct (Z.testbit F n); [|reflexivity]. clear E P Q. repeat (destruct D as [->|D]; [reflexivity || lia|]). subst n. reflexivity || lia.
    + specialize (P false Y eq_refl). destruct (Z.testbit F n); [|reflexivity]. clear E Q. repeat (destruct D as [->|D]; [reflexivity || lia || discriminate P|]). subst n. reflexivity.
  - assert (B : Z.testbit F n = false) by (destruct (Z.eq_dec F 0) as [->|]; [apply Z.bits_0|apply Z.bits_above_log2; [lia|]; assert (Z.log2 F < 16) by (apply Z.log2_lt_pow2; lia); lia]).
    rewrite B. rewrite Z.shiftl_spec by lia. rewrite !Z.land_spec. assert (B2 : Z.testbit 15 (n - 11) = false) by (apply Z.bits_above_log2; [lia|change (Z.log2 15) with 3; lia]). rewrite B2. rewrite !andb_false_r. reflexivity.
Qed.
Lemma land15 x : Z.land x 15 = x mod 16.
Proof. change 15 with (Z.ones 4). rewrite Z.land_ones by lia. reflexivity. Qed.
Lemma msg_flags_id m : header_ok m -> msg_flags m = m_flags m.
Proof.
  intros (H1 & H2 & H3 & H4 & H5). unfold msg_flags. rewrite H3, (land15 (m_code m)), H5. apply flags_bits, H2.
Qed.
Definition hdr (m : msg) : list Z :=
  write_u16be (m_id m) ++ write_u16be (msg_flags m) ++ write_u16be (zlen (m_qd m)) ++ write_u16be (zlen (m_an m)) ++
  write_u16be (zlen (m_ns m)) ++ write_u16be (zlen (m_ar m) + (if e_enabled (m_edns m) then 1 else 0)).
Definition msg_items (m : msg) : list item :=
  map (pair true) (m_qd m) ++ map (pair false) (m_an m) ++ map (pair false) (m_ns m) ++ map (pair false) (m_ar m) ++ map (pair false) (opt_rr m).
Lemma hdr_len m : zlen (hdr m) = 12. Proof. reflexivity. Qed.
Lemma hdr_ok m : bytes_ok (hdr m). Proof. unfold hdr. bok. Qed.
Lemma msg_write_items data m : msg_write data m = obind (iwrite data 12 (msg_items m) (if data then Some [] else None)) (fun '(bs, _) => Ok (hdr m ++ concat bs)).
Proof.
  unfold msg_write, msg_items. fold (hdr m). change qs_write with (iw (true, edns_rr)). change rr_write with (iw (false, edns_rr)).
  rewrite !iwrite_app, sect_iwrite, hdr_len. destruct (iwrite data 12 _ _) as [[b1 c1]| | |]; cbn [obind]; auto.
  rewrite !iwrite_app, sect_iwrite, zlen_app, hdr_len. destruct (iwrite _ _ (map (pair false) (m_an m)) _) as [[b2 c2]| | |]; cbn [obind]; auto.
  rewrite !iwrite_app, sect_iwrite, !zlen_app, hdr_len. destruct (iwrite _ _ (map (pair false) (m_ns m)) _) as [[b3 c3]| | |]; cbn [obind]; auto.
  rewrite !iwrite_app, sect_iwrite, !zlen_app, hdr_len. destruct (iwrite _ _ (map (pair false) (m_ar m)) _) as [[b4 c4]| | |]; cbn [obind]; auto.
  rewrite sect_iwrite, !zlen_app, hdr_len. destruct (iwrite _ _ (map (pair false) (opt_rr m)) _) as [[b5 c5]| | |]; cbn [obind]; auto.
  rewrite !concat_app, <- !app_assoc. reflexivity.
Qed.
Lemma opt_shape m : edns_ok m -> 0 <= m_code m < 4096 ->
  opt_rr m = if e_enabled (m_edns m) then
    [{| r_name := [46]; r_type := 41; r_class := e_size (m_edns m); r_ttl := m_code m / 16 * 16777216 + e_version (m_edns m) * 65536 + e_flags (m_edns m); r_rd := Some [VBytes (e_rd (m_edns m))] |}]
  else [].
Proof.
  unfold edns_ok, opt_rr. intros H Hc. destruct (e_enabled (m_edns m)).
  - destruct H as (Hv & Hf & Hs & He & Hb & Hl). assert (Hx : Z.shiftr (m_code m) 4 = m_code m / 16) by (rewrite Z.shiftr_div_pow2 by lia; reflexivity). rewrite Hx, He.
    assert (T : Z.lor (Z.lor (Z.shiftl (m_code m / 16) 24 mod 4294967296) (Z.shiftl (e_version (m_edns m)) 16)) (e_flags (m_edns m)) = m_code m / 16 * 16777216 + e_version (m_edns m) * 65536 + e_flags (m_edns m)).
    { rewrite !Z.shiftl_mul_pow2 by lia. change (2 ^ 24) with 16777216. change (2 ^ 16) with 65536. rewrite Z.mod_small by lia.
      rewrite (lor_add (m_code m / 16 * 16777216) _ 24); [| lia | change (2 ^ 24) with 16777216; lia | exists (m_code m / 16); reflexivity].
      rewrite (lor_add _ _ 16); [reflexivity| lia | change (2 ^ 16) with 65536; lia | exists (m_code m / 16 * 256 + e_version (m_edns m)); change (2 ^ 16) with 65536; ring]. }
    destruct (15 <? m_code m); cbv iota beta; rewrite T; reflexivity.
  - destruct H as [-> H]. assert (E : 15 <? m_code m = false) by lia. rewrite E. reflexivity.
Qed.
Lemma root_valid : valid_name [46].
Proof. exists []. split; [|reflexivity]. split; [constructor|unfold zlen; cbn; lia]. Qed.
Lemma opt_record m : edns_ok m -> 0 <= m_code m < 4096 -> Forall record_ok (opt_rr m).
Proof.
  intros H Hc. rewrite opt_shape by auto. unfold edns_ok in H. destruct (e_enabled (m_edns m)); [|constructor]. destruct H as (Hv & Hf & Hs & He & Hb & Hl).
  repeat constructor; cbn [r_name r_type r_class r_ttl r_rd]; auto using root_valid; try lia. exists [VBytes (e_rd (m_edns m))]. split; [reflexivity|].
  change (layout 41) with [KRest]. split; [repeat constructor; exact Hb|]. cbn [fields_size field_size]. lia.
Qed.
Lemma icodec_q l : Forall question_ok l -> Forall icodec (map (pair true) l).
Proof. induction 1; cbn [map]; constructor; auto. now apply question_codec. Qed.
Lemma icodec_r l : Forall record_ok l -> Forall icodec (map (pair false) l).
Proof. induction 1; cbn [map]; constructor; auto. now apply record_codec. Qed.
Lemma ar_records m : msg_ok m -> Forall record_ok (m_ar m).
Proof. intros (_ & _ & _ & _ & _ & _ & H & _). eapply Forall_impl; [|exact H]. cbn. tauto. Qed.
Lemma msg_icodec m : msg_ok m -> Forall icodec (msg_items m).
Proof.
  intros Hm. assert (Ha := ar_records m Hm). destruct Hm as ((H1 & H2 & H3 & H4 & H5) & He & _ & Hq & Hn & Hs & _ & _). unfold msg_items.
  repeat (apply Forall_app; split); auto using icodec_q, icodec_r, opt_record.
Qed.
Lemma within_root k : forall l, Forall (fun s => nlabels s = 0) l -> within k l.
Proof. intros l H. revert k. induction H; intros k; cbn [within]; auto. split; [lia|auto]. Qed.
Lemma map_names q l : map (fun i : item => rr_names (snd i)) (map (pair q) l) = map rr_names l.
Proof. rewrite map_map. apply map_ext. reflexivity. Qed.
Lemma msg_within m : msg_ok m -> within 0 (names (msg_items m)).
Proof.
  intros Hm. unfold names, msg_items. rewrite !map_app, !map_names, !app_assoc, concat_app. apply within_app.
  destruct Hm as ((H1 & H2 & H3 & H4 & H5) & He & _ & _ & _ & _ & _ & W). split.
  - unfold msg_names in W. rewrite !map_app in W. rewrite <- !app_assoc. exact W.
  - rewrite opt_shape by auto. apply within_root. destruct (e_enabled (m_edns m)); [|constructor]. cbn. repeat constructor.
Qed.

(** The encoder: the header, then the bytes of each item *)
Lemma msg_encoded m : msg_ok m -> exists bs, msg_encode m = Ok (hdr m ++ concat bs) /\ zlen (concat bs) <= sizes (msg_items m) /\
  msg_size m = Ok (12 + sizes (msg_items m)) /\
  (forall H, zlen H = 12 -> chunked H (msg_items m) bs) /\
  forall n, exists c'', iwrite true 12 (firstn n (msg_items m)) (Some []) = Ok (firstn n bs, Some c'').
Proof.
  intros Hm. assert (Hi := msg_icodec m Hm). assert (Hw := msg_within m Hm).
  destruct (items_size _ Hi 12) as (b0 & R0 & L0).
  assert (K : forall H, zlen H = 12 -> exists bs c', iwrite true 12 (msg_items m) (Some []) = Ok (bs, Some c') /\ zlen (concat bs) <= sizes (msg_items m) /\ chunked H (msg_items m) bs /\
    forall n, exists c'', iwrite true 12 (firstn n (msg_items m)) (Some []) = Ok (firstn n bs, Some c'')).
  { intros H HL. destruct (items_ok _ Hi 0%nat H [] Hw) as (bs & c' & R & L & Ch & Fn); [constructor|]. rewrite HL in R, Fn. eauto 8. }
  destruct (K (hdr m) (hdr_len m)) as (bs & c' & R & L & _ & Fn). exists bs.
  unfold msg_encode, msg_size. rewrite !msg_write_items. rewrite R0, R. cbn [obind]. rewrite !zlen_app, hdr_len, L0.
  assert (E : 12 + sizes (msg_items m) <? 12 + zlen (concat bs) = false) by (apply Z.ltb_ge; lia). rewrite E. split; [reflexivity|]. split; [exact L|]. split; [reflexivity|]. split; [|exact Fn].
  intros H HL. destruct (K H HL) as (bs' & c'' & R' & _ & Ch & _). rewrite R in R'. apply Ok_inj in R'. pose proof (f_equal fst R') as E1. cbn [fst] in E1. subst bs'. exact Ch.
Qed.

Definition with_ar (m : msg) (l : list rr) : msg :=
  {| m_id := m_id m; m_opcode := m_opcode m; m_code := m_code m; m_flags := m_flags m; m_qd := m_qd m; m_an := m_an m; m_ns := m_ns m; m_ar := l; m_edns := m_edns m |}.
Lemma ar_step dmp n d m r x : d <> [] -> rr_read dmp d = Ok (Some (r, x)) -> r_type r <> 41 -> zlen (m_ar m) < 255 -> ar_read dmp (S n) d m = ar_read dmp n x (with_ar m (m_ar m ++ [r])).
Proof.
  intros Hd R T L. cbn [ar_read]. destruct d; [contradiction|]. rewrite R. cbn [obind]. destruct (Z.eqb_spec (r_type r) 41); [contradiction|].
  unfold add_ar, rrs_push. destruct (Z.eqb_spec (zlen (m_ar m)) 255); [lia|reflexivity].
Qed.
Lemma ird_qs r : ird (true, r) = qs_read. Proof. reflexivity. Qed.
Lemma ird_rr r : ird (false, r) = rr_read. Proof. reflexivity. Qed.
Lemma ar_read_ok l : forall m bs msg after x n, chunked m (map (pair false) l) bs -> zlen (m_ar msg) + zlen l <= 255 -> Forall (fun r => r_type r <> 41) l ->
  bytes_ok (m ++ concat bs ++ after) -> bytes_ok x ->
  ar_read (Some (m ++ concat bs ++ after)) (length l + n) (concat bs ++ x) msg = ar_read (Some (m ++ concat bs ++ after)) n x (with_ar msg (m_ar msg ++ l)).
Proof.
  induction l as [|r l IH]; intros m bs msg after x n Ch La Ft Ba Bx; inversion Ch as [|? ? b bs' L B X Ch' ]; subst.
  - cbn [length concat app Nat.add]. rewrite app_nil_r. now destruct msg.
  - inversion Ft as [|? ? Ft1 Ft2]; subst. cbn [concat] in *. rewrite <- !app_assoc in *. assert (Bb := chunked_bytes _ _ _ Ch'). specialize (X (concat bs' ++ after) (concat bs' ++ x) Ba). rewrite ird_rr in X. cbn [snd] in X.
    rewrite zlen_cons in La. pose proof (zlen_nonneg l). replace (length (r :: l) + n)%nat with (S (length l + n)) by reflexivity.
    rewrite (ar_step _ _ _ _ r (concat bs' ++ x)); auto; [| |apply X; apply bytes_ok_app; auto|lia].
    + specialize (IH (m ++ b) bs' (with_ar msg (m_ar msg ++ [r])) after x n Ch'). rewrite <- !app_assoc in IH. rewrite IH; auto.
      * cbn [with_ar m_ar]. rewrite <- app_assoc. reflexivity.
      * cbn [with_ar m_ar]. rewrite zlen_app. change (zlen [r]) with 1. lia.
    + destruct b; [change (zlen (@nil Z)) with 0 in L; lia|discriminate].
Qed.

Lemma sect_read_at D q l m bs after x : D = m ++ concat bs ++ after -> chunked m (map (pair q) l) bs -> zlen l <= 255 -> bytes_ok D -> bytes_ok x ->
  sect_read (ird (q, edns_rr)) (Some D) (length l) (concat bs ++ x) [] = Ok (Some (l, x)).
Proof. intros -> H L B Bx. apply (sect_read_ok q l m bs [] after x); auto. Qed.
Lemma ar_read_at D l m bs msg after x n : D = m ++ concat bs ++ after -> chunked m (map (pair false) l) bs -> zlen (m_ar msg) + zlen l <= 255 -> Forall (fun r => r_type r <> 41) l ->
  bytes_ok D -> bytes_ok x -> ar_read (Some D) (length l + n) (concat bs ++ x) msg = ar_read (Some D) n x (with_ar msg (m_ar msg ++ l)).
Proof. intros -> H L T B Bx. now apply ar_read_ok. Qed.
Lemma opt_step dmp d m r x : d <> [] -> rr_read dmp d = Ok (Some (r, x)) -> r_type r = 41 -> ar_read dmp 1 d m = Ok (Some (set_opt m r)).
Proof. intros Hd R T. cbn [ar_read]. destruct d; [contradiction|]. rewrite R. cbn [obind]. rewrite T. reflexivity. Qed.
Lemma rr_eta m : with_ar m (m_ar m) = m. Proof. now destruct m. Qed.
(** Reading the OPT record back *)
Lemma opt_back m q a n r x : header_ok m -> edns_ok m -> e_enabled (m_edns m) = true ->
  r = {| r_name := [46]; r_type := 41; r_class := e_size (m_edns m); r_ttl := m_code m / 16 * 16777216 + e_version (m_edns m) * 65536 + e_flags (m_edns m); r_rd := Some [VBytes (e_rd (m_edns m))] |} ->
  set_opt {| m_id := m_id m; m_opcode := m_opcode m; m_code := m_code m mod 16; m_flags := m_flags m; m_qd := q; m_an := a; m_ns := n; m_ar := x; m_edns := edns_init |} r =
  {| m_id := m_id m; m_opcode := m_opcode m; m_code := m_code m; m_flags := m_flags m; m_qd := q; m_an := a; m_ns := n; m_ar := x; m_edns := m_edns m |}.
Proof.
  intros (_ & _ & _ & Hc & _) He En ->. unfold edns_ok in He. rewrite En in He. destruct He as (Hv & Hf & Hs & Hx & Hb & Hl). unfold set_opt. cbn [r_ttl r_class r_rd m_id m_opcode m_code m_flags m_qd m_an m_ns m_ar].
  set (t := _ + e_flags (m_edns m)).
  assert (T1 : Z.land (Z.shiftr t 24) 255 = m_code m / 16).
  { rewrite Z.shiftr_div_pow2 by lia. change (2 ^ 24) with 16777216. change 255 with (Z.ones 8). rewrite Z.land_ones by lia. change (2 ^ 8) with 256. unfold t. lia. }
  assert (T2 : Z.land (Z.shiftr t 16) 255 = e_version (m_edns m)).
  { rewrite Z.shiftr_div_pow2 by lia. change (2 ^ 16) with 65536. change 255 with (Z.ones 8). rewrite Z.land_ones by lia. change (2 ^ 8) with 256. unfold t. lia. }
  assert (T3 : Z.land t 65535 = e_flags (m_edns m)).
  { change 65535 with (Z.ones 16). rewrite Z.land_ones by lia. change (2 ^ 16) with 65536. unfold t. lia. }
  rewrite T1, T2, T3. f_equal.
  - rewrite Z.lor_comm, Z.shiftl_mul_pow2 by lia. rewrite (lor_add _ _ 4); [change (2 ^ 4) with 16; lia|lia|change (2 ^ 4) with 16; lia|]. exists (m_code m / 16). reflexivity.
  - destruct (m_edns m) as [en ve fl si co rd]. clear t T1 T2 T3. cbn in *. now subst.
Qed.
