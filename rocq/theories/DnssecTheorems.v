(** Signatures over record sets. *)
From Coq Require Import Sorted Permutation.
From Verif Require Import Common CommonFacts BioModel BioFacts UtilTheorems DnsNameModel DnsNameSpec DnsNameFacts DnsNameTheorems DnsMsgModel DnsMsgSpec DnsMsgFacts DnsMsgDecode DnsMsgTrunc DnsMsgWire DnsMsgTheorems ReqModel Sig0Model Sig0Theorems ReqTheorems DnssecModel.
From Coq Require Import Lia.

(** ** Specification *)
(** RFC 4034 section 6.2 (3) and RFC 6840 section 5.1: types whose names are in lower
    case in the canonical form, among those whose data the library takes apart *)
Definition canonical_types : list Z := [2; 5; 6; 12; 15; 17; 33; 39; 46].
Fixpoint low_names (ks : list kind) (vs : list val) : list val :=
  match ks, vs with
  | KName :: ks, VBytes s :: vs => VBytes (map low s) :: low_names ks vs
  | _ :: ks, v :: vs => v :: low_names ks vs
  | _, _ => []
  end.
(** The canonical data of a record *)
Definition rdata (r : rr) : list Z :=
  match r_rd r with
  | Some vs => fields_wire (layout (r_type r)) (if existsb (Z.eqb (r_type r)) canonical_types then low_names (layout (r_type r)) vs else vs)
  | None => []
  end.
(** RFC 4034 section 6.3: data as byte strings, left justified *)
Definition before (x y : list Z) : Prop :=
  exists p, (exists a b x' y', x = p ++ a :: x' /\ y = p ++ b :: y' /\ a < b) \/ (exists b y', x = p /\ y = p ++ b :: y').
(** One record of the signed data *)
Definition framed (owner : list Z) (type class ttl : Z) (d : list Z) : list Z :=
  name_wire owner ++ be_bytes 2 type ++ be_bytes 2 class ++ be_bytes 4 ttl ++ be_bytes 2 (zlen d) ++ d.
(** RFC 4034 section 3.1: the data of the signature record without the signature *)
Definition sig_head (type alg labels ttl exp inc tag : Z) (signer : list Z) : list Z :=
  be_bytes 2 type ++ be_bytes 1 alg ++ be_bytes 1 labels ++ be_bytes 4 ttl ++ be_bytes 4 exp ++ be_bytes 4 inc ++ be_bytes 2 tag ++ name_wire signer.
(** RFC 4034 section 3.1.8.1: head, then each record once, in canonical order *)
Definition signed_data (head owner : list Z) (type class ttl : Z) (rdatas : list (list Z)) (D : list Z) : Prop :=
  exists ds, StronglySorted before ds /\ (forall d, In d ds <-> In d rdatas) /\ D = head ++ concat (map (framed owner type class ttl) ds).
(** RFC 4034 appendix B *)
Fixpoint words (l : list Z) : Z :=
  match l with [] => 0 | [a] => a * 256 | a :: b :: l => a * 256 + b + words l end.
Definition key_tag (data : list Z) : Z := (words data + words data / 65536 mod 65536) mod 65536.

(** A set of records: one owner (names are equal but for case), type and class *)
Definition rrset_ok (owner : list Z) (type class : Z) (l : list rr) : Prop :=
  l <> [] /\ Forall (fun r => record_ok r /\ map low (r_name r) = owner /\ r_type r = type /\ r_class r = class) l.

(** What the code relies on: sizes of digests, keys and signatures, and qsort *)
Definition sorts (f : (list Z -> list Z -> Z) -> list (list Z) -> list (list Z)) : Prop :=
  forall cmp l, Permutation (f cmp l) l /\
    ((forall a b, In a l -> In b l -> cmp a b <= 0 \/ cmp b a <= 0) -> (forall a b c, In a l -> In b l -> In c l -> cmp a b <= 0 -> cmp b c <= 0 -> cmp a c <= 0) ->
     StronglySorted (fun a b => cmp a b <= 0) (f cmp l)).
Definition sec_ok (s : sec) : Prop :=
  (forall m, length (s_sha256 s m) = 32%nat /\ bytes_ok (s_sha256 s m)) /\
  (forall p h g, s_sign s p h = Some g -> length g = 64%nat /\ bytes_ok g) /\
  (exists pk, s_pub s (s_ksk s) = Some pk /\ length pk = 64%nat /\ bytes_ok pk) /\
  (exists pz, s_pub s (s_zsk s) = Some pz /\ length pz = 64%nat /\ bytes_ok pz) /\
  sorts (s_sort s).

(** ** Names in lower case *)
Lemma lower_low s : to_lower s = map low s.
Proof. reflexivity. Qed.
Lemma low_46 c : low c = 46 <-> c = 46.
Proof. unfold low. destruct ((65 <=? c) && (c <=? 90)) eqn:E; lia. Qed.
Lemma low_pchar c : pchar c -> pchar (low c).
Proof. unfold pchar, low. destruct ((65 <=? c) && (c <=? 90)) eqn:E; lia. Qed.
Lemma low_dotted ls : map low (dotted ls) = dotted (map (map low) ls).
Proof.
  destruct ls as [|l ls]; [reflexivity|]. unfold dotted. cbn [map concat]. rewrite !map_app. f_equal. rewrite concat_map. f_equal. rewrite !map_map. apply map_ext. intros a. now rewrite map_app.
Qed.
Lemma low_plabel l : plabel l -> plabel (map low l).
Proof. intros [H F]. split; [now rewrite zlen_map|]. apply Forall_map. eapply Forall_impl; [|exact F]. apply low_pchar. Qed.
Lemma low_valid s : valid_name s -> valid_name (map low s).
Proof.
  intros (ls & [F L] & ->). exists (map (map low) ls). split; [|apply low_dotted]. split; [apply Forall_map; eapply Forall_impl; [|exact F]; apply low_plabel|]. now rewrite <- low_dotted, zlen_map.
Qed.
Lemma low_nsize s : nsize (map low s) = nsize s.
Proof.
  unfold nsize. rewrite zlen_map. replace (beq (map low s) [46]) with (beq s [46]); [reflexivity|]. destruct s as [|c s]; [reflexivity|]. cbn [map beq].
  assert (E : (c =? 46) = (low c =? 46)) by (destruct (Z.eqb_spec c 46), (Z.eqb_spec (low c) 46); auto; exfalso; pose proof (low_46 c); tauto). rewrite E. f_equal. destruct s; reflexivity.
Qed.

(** ** Canonical records *)
Lemma low_names_ok ks : forall vs, Forall2 field_ok ks vs -> Forall2 field_ok ks (low_names ks vs) /\ fields_size ks (low_names ks vs) = fields_size ks vs.
Proof.
  induction ks as [|k ks IH]; intros vs F; inversion F as [|? v ? vs' F1 F2]; subst; [cbn; auto|]. destruct (IH vs' F2) as [I1 I2].
  destruct k as [|n|n| | |]; cbn [low_names fields_size]; try (split; [constructor; auto|lia]).
  destruct (field_ok_name _ F1) as (s & -> & V). cbn [fields_size field_size]. rewrite low_nsize. split; [constructor; auto; cbn; now apply low_valid|lia].
Qed.
Lemma f2_cons (A B : Type) (R : A -> B -> Prop) k ks l : Forall2 R (k :: ks) l -> exists v vs, l = v :: vs /\ R k v /\ Forall2 R ks vs.
Proof. intros H. inversion H. subst. eauto 6. Qed.
Lemma f2_nil (A B : Type) (R : A -> B -> Prop) l : Forall2 R [] l -> l = [].
Proof. intros H. now inversion H. Qed.
Ltac shape H := match type of H with
  | Forall2 _ [] _ => apply f2_nil in H; subst
  | Forall2 _ (_ :: _) _ => apply f2_cons in H as (? & ? & -> & ? & H); shape H end.
Lemma lower_rd_exact t vs : Forall2 field_ok (layout t) vs -> t <> 17 -> t <> 24 ->
  lower_rd t vs = Ok (if existsb (Z.eqb t) canonical_types then low_names (layout t) vs else vs).
Proof.
  intros F N1 N2.
  assert (D : (exists b, existsb (Z.eqb t) canonical_types = b) ) by eauto. destruct D as [b D].
  unfold lower_rd.
  destruct (Z.eqb_spec t 2) as [->|E2].
  { change (layout 2) with [KName] in *. shape F. destruct (field_ok_name _ H) as (s & -> & _). reflexivity. }
  destruct (Z.eqb_spec t 5) as [->|E5].
  { change (layout 5) with [KName] in *. shape F. destruct (field_ok_name _ H) as (s & -> & _). reflexivity. }
  destruct (Z.eqb_spec t 6) as [->|E6].
  { change (layout 6) with [KName; KName; KNum 4; KNum 4; KNum 4; KNum 4; KNum 4] in *. shape F. destruct (field_ok_name _ H) as (s & -> & _). destruct (field_ok_name _ H0) as (s2 & -> & _). reflexivity. }
  destruct (Z.eqb_spec t 12) as [->|E12].
  { change (layout 12) with [KName] in *. shape F. destruct (field_ok_name _ H) as (s & -> & _). reflexivity. }
  destruct (Z.eqb_spec t 15) as [->|E15].
  { change (layout 15) with [KNum 2; KName] in *. shape F. destruct (field_ok_name _ H0) as (s & -> & _). reflexivity. }
  destruct (Z.eqb_spec t 24) as [->|E24]; [congruence|].
  destruct (Z.eqb_spec t 46) as [->|E46].
  { change (layout 46) with [KNum 2; KNum 1; KNum 1; KNum 4; KNum 4; KNum 4; KNum 2; KName; KRest] in *. shape F.
    match goal with X : field_ok KName _ |- _ => destruct (field_ok_name _ X) as (s & -> & _) end. reflexivity. }
  destruct (Z.eqb_spec t 33) as [->|E33].
  { change (layout 33) with [KNum 2; KNum 2; KNum 2; KName] in *. shape F. match goal with X : field_ok KName _ |- _ => destruct (field_ok_name _ X) as (s & -> & _) end. reflexivity. }
  destruct (Z.eqb_spec t 39) as [->|E39].
  { change (layout 39) with [KName] in *. shape F. destruct (field_ok_name _ H) as (s & -> & _). reflexivity. }
  replace (existsb (Z.eqb t) canonical_types) with false; [reflexivity|]. unfold canonical_types. cbn [existsb].
  repeat match goal with N : t <> ?a |- context [t =? ?a] => rewrite (proj2 (Z.eqb_neq t a) N) end. reflexivity.
Qed.
Lemma raw_rr_exact ttl r : record_ok r -> r_type r <> 17 -> r_type r <> 24 -> 0 <= ttl < 4294967296 ->
  raw_rr ttl r = Ok (Some (framed (map low (r_name r)) (r_type r) (r_class r) ttl (rdata r))) /\ bytes_ok (rdata r) /\ zlen (rdata r) <= 65535.
Proof.
  intros H N1 N2 Ht. destruct (record_roundtrip r H) as (_ & _ & C). unfold raw_rr. rewrite C. cbn [obind]. destruct H as ((V & Hty & Hc & Hl) & vs & E & F & Sz). rewrite E. rewrite lower_rd_exact by auto. cbn [obind].
  set (vs' := if existsb (Z.eqb (r_type r)) canonical_types then low_names (layout (r_type r)) vs else vs).
  assert (X : Forall2 field_ok (layout (r_type r)) vs' /\ fields_size (layout (r_type r)) vs' = fields_size (layout (r_type r)) vs).
  { unfold vs'. destruct (existsb _ _); [now apply low_names_ok|auto]. }
  destruct X as [X1 X2]. assert (R : rdata r = fields_wire (layout (r_type r)) vs') by (unfold rdata; rewrite E; unfold vs'; destruct (existsb _ _); reflexivity).
  rewrite lower_low. set (r' := {| r_name := map low (r_name r); r_type := r_type r; r_class := r_class r; r_ttl := ttl; r_rd := Some vs' |}).
  assert (K : record_ok r') by (split; [repeat split; cbn; try tauto; now apply low_valid|exists vs'; cbn; repeat split; auto; lia]).
  destruct (record_roundtrip r' K) as (Q & _). rewrite Q. cbn [obind]. rewrite R. destruct (put_fields_wire true (layout (r_type r)) vs' 0 X1) as (_ & L & B & _). split; [reflexivity|]. split; [exact B|lia].
Qed.
Lemma raw_rrs_exact owner t c ttl l : Forall (fun r => record_ok r /\ map low (r_name r) = owner /\ r_type r = t /\ r_class r = c) l -> t <> 17 -> t <> 24 -> 0 <= ttl < 4294967296 ->
  raw_rrs ttl l = Ok (Some (map (framed owner t c ttl) (map rdata l))) /\ Forall (fun d => bytes_ok d /\ zlen d <= 65535) (map rdata l).
Proof.
  intros H N1 N2 Ht. induction H as [|r l (H1 & H2 & H3 & H4) F [I1 I2]]; [split; [reflexivity|constructor]|]. cbn [raw_rrs map]. subst.
  destruct (raw_rr_exact ttl r H1 N1 N2 Ht) as (E & B & L). rewrite E. cbn [obind]. rewrite I1. cbn [obind]. split; [reflexivity|]. constructor; auto.
Qed.

(** ** Order *)
Lemma mem_cmp_eq x : forall y, mem_cmp x y = 0 <-> x = y.
Proof.
  induction x as [|a x IH]; intros [|b y]; cbn; try (split; [lia|discriminate]); [tauto|]. destruct (Z.eqb_spec a b) as [->|N].
  - rewrite IH. split; [now intros ->|intros E; now inversion E].
  - split; [destruct (a <? b); lia|intros E; now inversion E].
Qed.
Lemma mem_cmp_lt x : forall y, mem_cmp x y < 0 <-> before x y.
Proof.
  induction x as [|a x IH]; intros [|b y]; cbn [mem_cmp].
  - split; [lia|]. intros [p [(? & ? & ? & ? & E & _)|(? & ? & _ & E)]]; destruct p; discriminate.
  - split; [|lia]. intros _. exists []. right. exists b, y. auto.
  - split; [lia|]. intros [p [(? & ? & ? & ? & _ & E & _)|(? & ? & _ & E)]]; destruct p; discriminate.
  - destruct (Z.eqb_spec a b) as [->|N].
    + rewrite IH. split.
      * intros [p [(a' & b' & x' & y' & -> & -> & L)|(b' & y' & -> & ->)]]; exists (b :: p); [left; exists a', b', x', y'; auto|right; exists b', y'; auto].
      * intros [p [(a' & b' & x' & y' & Ex & Ey & L)|(b' & y' & Ex & Ey)]].
        -- destruct p as [|q p]; cbn in Ex, Ey; [inversion Ex; inversion Ey; lia|]. inversion Ex. inversion Ey. subst. exists p. left. exists a', b', x', y'. auto.
        -- destruct p as [|q p]; [discriminate|]. inversion Ex. subst. inversion Ey. subst. exists p. right. exists b', y'. auto.
    + destruct (Z.ltb_spec a b); (split; [|try lia]).
      * intros _. exists []. left. exists a, b, x, y. auto.
      * lia.
      * intros [p [(a' & b' & x' & y' & Ex & Ey & L)|(b' & y' & Ex & Ey)]].
        -- destruct p as [|q p]; cbn in Ex, Ey; [inversion Ex; inversion Ey; lia|]. inversion Ex. inversion Ey. congruence.
        -- destruct p as [|q p]; [discriminate|]. inversion Ex. subst. inversion Ey. congruence.
Qed.
Lemma mem_cmp_anti x : forall y, mem_cmp y x = - mem_cmp x y.
Proof.
  induction x as [|a x IH]; intros [|b y]; cbn; auto. rewrite (Z.eqb_sym b a). destruct (Z.eqb_spec a b); [apply IH|]. destruct (Z.ltb_spec a b), (Z.ltb_spec b a); lia.
Qed.
Lemma mem_cmp_trans x : forall y z, mem_cmp x y <= 0 -> mem_cmp y z <= 0 -> mem_cmp x z <= 0.
Proof.
  induction x as [|a x IH]; intros [|b y] [|c z]; cbn [mem_cmp]; try lia. destruct (Z.eqb_spec a b) as [->|N1].
  - destruct (b =? c); [apply IH|]. destruct (b <? c); lia.
  - destruct (Z.ltb_spec a b); [|lia]. intros _. destruct (Z.eqb_spec b c) as [->|N2].
    + destruct (Z.eqb_spec a c); [lia|]. destruct (Z.ltb_spec a c); lia.
    + destruct (Z.ltb_spec b c); [|lia]. intros _. destruct (Z.eqb_spec a c); [lia|]. destruct (Z.ltb_spec a c); lia.
Qed.
Lemma before_irr x : ~ before x x.
Proof. rewrite <- mem_cmp_lt. assert (E := proj2 (mem_cmp_eq x x) eq_refl). lia. Qed.
Lemma before_le x y : mem_cmp x y <= 0 <-> x = y \/ before x y.
Proof. rewrite <- mem_cmp_eq, <- mem_cmp_lt. lia. Qed.
Lemma before_trans x y z : before x y -> before y z -> before x z.
Proof.
  rewrite <- !mem_cmp_lt. intros A B. assert (C := mem_cmp_trans x y z). destruct (Z.eq_dec (mem_cmp x z) 0) as [E|]; [|lia]. apply mem_cmp_eq in E. subst z. rewrite mem_cmp_anti in B. lia.
Qed.

Lemma framed_tail owner t c ttl d : valid_name owner -> bytes_ok d -> raw_tail (framed owner t c ttl d) = Ok d.
Proof.
  intros V B. unfold raw_tail, framed. destruct (wname_wire true 0 owner V) as (_ & _ & _ & X).
  rewrite X; [|discriminate|bok; apply be_bytes_ok]. cbn [obind].
  assert (L : zlen (be_bytes 2 t ++ be_bytes 2 c ++ be_bytes 4 ttl ++ be_bytes 2 (zlen d) ++ d) <? 10 = false) by (apply Z.ltb_ge; rewrite !zlen_app, !be_bytes_zlen; pose proof (zlen_nonneg d); lia).
  rewrite L. reflexivity.
Qed.
Lemma framed_inj owner t c ttl a b : framed owner t c ttl a = framed owner t c ttl b -> a = b.
Proof.
  unfold framed. intros E. do 4 apply app_inv_head in E. apply app_inj_len in E; [tauto|]. now rewrite !be_bytes_length.
Qed.

(** ** Sorting and dropping repeated records *)
Lemma hashed_set owner t c ttl ds : StronglySorted (fun a b => mem_cmp a b <= 0) ds ->
  forall last, (forall a, last = Some a -> Forall (fun d => mem_cmp a d <= 0) ds) ->
  exists ds', StronglySorted before ds' /\ (forall d, In d ds' <-> In d ds /\ last <> Some d) /\ hashed (option_map (framed owner t c ttl) last) (map (framed owner t c ttl) ds) = concat (map (framed owner t c ttl) ds').
Proof.
  induction 1 as [|d ds SS IH F]; intros last HL.
  - exists []. split; [constructor|]. split; [|destruct last; reflexivity]. intros d. cbn. tauto.
  - cbn [map hashed]. assert (dec : last = Some d \/ last <> Some d).
    { destruct last as [a|]; [|right; discriminate]. destruct (list_eq_dec Z.eq_dec a d) as [->|N]; [now left|right; congruence]. }
    destruct dec as [->|N].
    + cbn [option_map]. rewrite beq_refl. destruct (IH (Some d)) as (ds' & S1 & S2 & S3); [intros a E; apply some_inj in E; now subst a|]. exists ds'. split; [exact S1|]. split; [|exact S3].
      intros x. rewrite S2. cbn. split; [tauto|]. intros [[->|Hx] Nx]; [congruence|auto].
    + assert (Eb : match option_map (framed owner t c ttl) last with Some a => beq (framed owner t c ttl d) a | None => false end = false).
      { destruct last as [a|]; [|reflexivity]. cbn [option_map]. apply beq_false_iff. intros E. apply framed_inj in E. congruence. }
      rewrite Eb. change (Some (framed owner t c ttl d)) with (option_map (framed owner t c ttl) (Some d)).
      destruct (IH (Some d)) as (ds' & S1 & S2 & S3); [intros a E; apply some_inj in E; now subst a|]. exists (d :: ds'). split; [|split].
      * constructor; [exact S1|]. apply Forall_forall. intros x Hx. apply S2 in Hx as [Hx Nx]. rewrite Forall_forall in F. specialize (F x Hx). apply before_le in F as [->|F]; [congruence|exact F].
      * intros x. cbn. rewrite S2. split.
        -- intros [->|[Hx Nx]]; [auto|]. split; [auto|]. intros E. subst last. specialize (HL x eq_refl). apply Forall_cons_iff in HL as [H1 H2]. rewrite Forall_forall in F. specialize (F x Hx).
           apply before_le in F as [->|F]; [congruence|]. apply mem_cmp_lt in F. rewrite mem_cmp_anti in H1. lia.
        -- intros [[->|Hx] Nx]; [auto|]. destruct (list_eq_dec Z.eq_dec x d) as [->|Nd]; [auto|]. right. split; [auto|congruence].
      * cbn [map concat]. now rewrite S3.
Qed.
Lemma sort_framed s owner t c ttl ds : sorts (s_sort s) -> valid_name owner -> Forall (fun d => bytes_ok d /\ zlen d <= 65535) ds ->
  exists ds', Permutation ds' ds /\ StronglySorted (fun a b => mem_cmp a b <= 0) ds' /\ sort_rrs s (map (framed owner t c ttl) ds) = Ok (map (framed owner t c ttl) ds').
Proof.
  intros HS V B. unfold sort_rrs.
  assert (A : forall l, Forall (fun d => bytes_ok d /\ zlen d <= 65535) l -> all_tails (map (framed owner t c ttl) l) = Ok tt).
  { induction 1 as [|d l [Hd _] F IH]; [reflexivity|]. cbn [map all_tails]. rewrite framed_tail by auto. exact IH. }
  replace (if 2 <=? zlen (map (framed owner t c ttl) ds) then all_tails (map (framed owner t c ttl) ds) else Ok tt) with (Ok tt) by (destruct (2 <=? _); [now rewrite A|reflexivity]). cbn [obind].
  destruct (HS raw_cmp (map (framed owner t c ttl) ds)) as [P Q].
  assert (RC : forall x y, In x ds -> In y ds -> raw_cmp (framed owner t c ttl x) (framed owner t c ttl y) = mem_cmp x y).
  { intros x y Hx Hy. rewrite Forall_forall in B. unfold raw_cmp. rewrite !framed_tail; auto; apply B; auto. }
  destruct (Permutation_map_inv _ _ P) as (ds' & E & P2). exists ds'. split; [now apply Permutation_sym|]. split; [|now rewrite E].
  assert (SS : StronglySorted (fun a b => raw_cmp a b <= 0) (map (framed owner t c ttl) ds')).
  { rewrite <- E. apply Q.
    - intros a b Ha Hb. apply in_map_iff in Ha as (x & <- & Hx). apply in_map_iff in Hb as (y & <- & Hy). rewrite !RC by auto. rewrite (mem_cmp_anti x y). lia.
    - intros a b e Ha Hb He. apply in_map_iff in Ha as (x & <- & Hx). apply in_map_iff in Hb as (y & <- & Hy). apply in_map_iff in He as (z & <- & Hz). rewrite !RC by auto. apply mem_cmp_trans. }
  assert (In' : forall x, In x ds' -> In x ds) by (intros x Hx; eapply Permutation_in; [apply Permutation_sym, P2|exact Hx]).
  clear -SS RC In'. induction ds' as [|d ds' IH]; [constructor|]. cbn [map] in SS. apply StronglySorted_inv in SS as [SS F]. constructor.
  - apply IH; [exact SS|]. intros x Hx. apply In'. now right.
  - apply Forall_forall. intros x Hx. rewrite Forall_forall in F. specialize (F (framed owner t c ttl x) (in_map _ _ _ Hx)). rewrite RC in F; auto; apply In'; [now left|now right].
Qed.

(** ** C59: what is signed *)
Definition head_fields (g : sigrd) : Prop :=
  0 <= g_type g < 65536 /\ 0 <= g_alg g < 256 /\ 0 <= g_labels g < 256 /\ 0 <= g_ttl g < 4294967296 /\ 0 <= g_exp g < 4294967296 /\ 0 <= g_inc g < 4294967296 /\ 0 <= g_tag g < 65536 /\ valid_name (g_signer g).
Lemma sig_vals_ok g sg : head_fields g -> bytes_ok sg -> Forall2 field_ok (layout 46) (sig_vals g sg).
Proof. intros (H1 & H2 & H3 & H4 & H5 & H6 & H7 & H8) B. repeat (constructor; [solve [cbn; auto; lia]|]). constructor. Qed.
Lemma tbs_exact g : head_fields g -> rrsig_tbs g = Ok (sig_head (g_type g) (g_alg g) (g_labels g) (g_ttl g) (g_exp g) (g_inc g) (g_tag g) (map low (g_signer g))).
Proof.
  intros H. unfold rrsig_tbs, rd_encode, rd_write. rewrite kinds_write.
  match goal with |- context [sig_vals ?x []] => assert (K : head_fields x) by (destruct H as (H1 & H2 & H3 & H4 & H5 & H6 & H7 & H8); repeat (split; [assumption|]); now apply low_valid); destruct (put_fields_wire true (layout 46) (sig_vals x []) 0 (sig_vals_ok x [] K (Forall_nil _))) as (E & _) end.
  rewrite E. cbn [obind]. f_equal. unfold sig_head. change (layout 46) with [KNum 2; KNum 1; KNum 1; KNum 4; KNum 4; KNum 4; KNum 2; KName; KRest]. cbn [sig_vals g_type g_alg g_labels g_ttl g_exp g_inc g_tag g_signer fields_wire field_wire]. rewrite lower_low, !app_nil_r. reflexivity.
Qed.
Theorem signed_exact s owner type class l g : sec_ok s -> rrset_ok owner type class l -> type <> 17 -> type <> 24 -> head_fields g ->
  exists D, sig_data s l g = Ok (Some D) /\
    signed_data (sig_head (g_type g) (g_alg g) (g_labels g) (g_ttl g) (g_exp g) (g_inc g) (g_tag g) (map low (g_signer g))) owner type class (g_ttl g) (map rdata l) D.
Proof.
  intros (_ & _ & _ & _ & HS) [NE F] N1 N2 Hg. unfold sig_data. assert (Ht := Hg). destruct Ht as (_ & _ & _ & Ht & _). destruct (raw_rrs_exact owner type class (g_ttl g) l F N1 N2 Ht) as [E B]. rewrite E. cbn [obind].
  assert (V : valid_name owner) by (destruct l as [|r l]; [congruence|]; apply Forall_cons_iff in F as [(((V & _) & _) & <- & _) _]; now apply low_valid).
  destruct (sort_framed s owner type class (g_ttl g) (map rdata l) HS V B) as (ds & P & SS & E2). rewrite E2. cbn [obind]. rewrite tbs_exact by auto. cbn [obind].
  destruct (hashed_set owner type class (g_ttl g) ds SS None) as (ds' & S1 & S2 & S3); [discriminate|]. cbn [option_map] in S3. eexists. split; [reflexivity|]. exists ds'. split; [exact S1|]. split; [|now rewrite S3].
  intros d. rewrite S2. split; [intros [Hd _]; eapply Permutation_in; eauto|intros Hd; split; [eapply Permutation_in; [apply Permutation_sym; eauto|auto]|discriminate]].
Qed.
(** The signed data is determined by the set of records: their order and repetitions do
    not matter. *)
Lemma sorted_unique a : forall b, StronglySorted before a -> StronglySorted before b -> (forall d, In d a <-> In d b) -> a = b.
Proof.
  induction a as [|x a IH]; intros b Sa Sb E.
  - destruct b as [|y b]; [reflexivity|]. exfalso. apply (E y). now left.
  - destruct b as [|y b]; [exfalso; apply (E x); now left|]. apply StronglySorted_inv in Sa as [Sa Fa]. apply StronglySorted_inv in Sb as [Sb Fb]. rewrite Forall_forall in Fa, Fb.
    assert (x = y).
    { destruct (proj1 (E x) (or_introl eq_refl)) as [->|Hx]; [reflexivity|]. destruct (proj2 (E y) (or_introl eq_refl)) as [->|Hy]; [reflexivity|]. exfalso. apply (before_irr x). eapply before_trans; eauto. }
    subst y. f_equal. apply IH; auto. intros d. split; intros Hd.
    + destruct (proj1 (E d) (or_intror Hd)) as [->|]; auto. exfalso. apply (before_irr d). auto.
    + destruct (proj2 (E d) (or_intror Hd)) as [->|]; auto. exfalso. apply (before_irr d). auto.
Qed.
Theorem signed_unique head owner type class ttl rs1 rs2 D1 D2 : (forall d, In d rs1 <-> In d rs2) ->
  signed_data head owner type class ttl rs1 D1 -> signed_data head owner type class ttl rs2 D2 -> D1 = D2.
Proof.
  intros E (d1 & A1 & B1 & ->) (d2 & A2 & B2 & ->). f_equal. f_equal. f_equal. apply sorted_unique; auto. intros d. rewrite B1, B2. apply E.
Qed.

(** Key tags *)
Lemma words_bound l : bytes_ok l -> 0 <= words l <= zlen l * 65535.
Proof.
  revert l. fix IH 1. intros [|a [|b l]] B; [change (zlen (@nil Z)) with 0; cbn [words]; lia| |].
  - apply Forall_cons_iff in B as [B _]. unfold is_byte in B. change (zlen [a]) with 1. cbn [words]. lia.
  - apply Forall_cons_iff in B as [B1 B]. apply Forall_cons_iff in B as [B2 B]. unfold is_byte in B1, B2. specialize (IH l B). rewrite !zlen_cons. cbn [words]. lia.
Qed.
Lemma tag_loop_words l : bytes_ok l -> forall t, 0 <= t -> t + words l < 4294967296 -> tag_loop l false t = t + words l.
Proof.
  revert l. fix IH 1. intros [|a [|b l]] B t Ht L; [cbn [tag_loop words]; lia| |].
  - apply Forall_cons_iff in B as [B _]. unfold is_byte in B. cbn [tag_loop words] in *. rewrite Z.shiftl_mul_pow2 by lia. rewrite Z.mod_small; lia.
  - apply Forall_cons_iff in B as [B1 B]. apply Forall_cons_iff in B as [B2 B]. unfold is_byte in B1, B2. cbn [tag_loop words negb] in *. pose proof (words_bound l B). rewrite Z.shiftl_mul_pow2 by lia.
    rewrite (Z.mod_small (t + _)) by lia. rewrite Z.mod_small by lia. rewrite IH; auto; lia.
Qed.
Theorem keytag_exact rd : Forall2 field_ok (layout 48) rd -> fields_size (layout 48) rd <= 65535 -> keytag rd = Ok (key_tag (fields_wire (layout 48) rd)) /\ 0 <= key_tag (fields_wire (layout 48) rd) < 65536.
Proof.
  intros F L. unfold keytag, rd_encode, rd_write. rewrite kinds_write. destruct (put_fields_wire true (layout 48) rd 0 F) as (E & Lw & B & _). rewrite E. cbn [obind].
  assert (W := words_bound _ B). rewrite tag_loop_words by (auto; lia). unfold key_tag. set (w := words _) in *. clearbody w. split; [|apply Z.mod_pos_bound; lia]. f_equal.
  change 65535 with (Z.ones 16) at 1 2. rewrite !Z.land_ones, Z.shiftr_div_pow2 by lia. change (2 ^ 16) with 65536. change (0 + w) with w. lia.
Qed.

Definition root_key (flags : Z) (pub : list Z) : rr := {| r_name := [46]; r_type := 48; r_class := 1; r_ttl := 10800; r_rd := Some [VNum flags; VNum 3; VNum 13; VBytes pub] |}.
(** Data of a DNSKEY record: flags, protocol 3, algorithm 13 *)
Definition key_data (flags : Z) (pub : list Z) : list Z := be_bytes 2 flags ++ [3; 13] ++ pub.
Lemma key_fields flags pub : 0 <= flags < 65536 -> length pub = 64%nat -> bytes_ok pub ->
  Forall2 field_ok (layout 48) [VNum flags; VNum 3; VNum 13; VBytes pub] /\ fields_size (layout 48) [VNum flags; VNum 3; VNum 13; VBytes pub] = 68 /\
  fields_wire (layout 48) [VNum flags; VNum 3; VNum 13; VBytes pub] = key_data flags pub.
Proof.
  intros H L B. split; [repeat (constructor; [solve [cbn; auto; lia]|]); constructor|]. change (layout 48) with [KNum 2; KNum 1; KNum 1; KRest]. cbn [fields_size field_size fields_wire field_wire]. unfold zlen. rewrite L. split; [reflexivity|].
  unfold key_data. now rewrite app_nil_r.
Qed.
Theorem keys_exact s : sec_ok s -> exists pk pz, s_pub s (s_ksk s) = Some pk /\ s_pub s (s_zsk s) = Some pz /\
  get_ksk s = Ok (root_key 257 pk) /\ get_zsk s = Ok (root_key 256 pz) /\ record_ok (root_key 257 pk) /\ record_ok (root_key 256 pz).
Proof.
  intros (_ & _ & (pk & Ek & Lk & Bk) & (pz & Ez & Lz & Bz) & _). exists pk, pz. unfold get_ksk, get_zsk, dnskey_create. rewrite Ek, Ez. split; [reflexivity|]. split; [reflexivity|]. split; [reflexivity|]. split; [reflexivity|].
  assert (K : forall f p, 0 <= f < 65536 -> length p = 64%nat -> bytes_ok p -> record_ok (root_key f p)).
  { intros f p Hf Hl Hb. destruct (key_fields f p Hf Hl Hb) as (F & Sz & _). split; [repeat split; cbn; auto using root_valid; lia|]. eexists. split; [reflexivity|]. split; [exact F|]. cbn [root_key r_type]. lia. }
  split; apply K; auto; lia.
Qed.
(** The DS record is the digest of the key signing key *)
Theorem ds_exact s pk : sec_ok s -> s_pub s (s_ksk s) = Some pk ->
  get_ds s = Ok {| r_name := [46]; r_type := 43; r_class := 1; r_ttl := 10800; r_rd := Some [VNum (key_tag (key_data 257 pk)); VNum 13; VNum 2; VBytes (s_sha256 s (0 :: key_data 257 pk))] |}.
Proof.
  intros H Ep. destruct (keys_exact s H) as (pk' & pz & E1 & _ & E3 & _). rewrite Ep in E1. apply some_inj in E1. subst pk'. unfold get_ds. rewrite E3. cbn [obind]. unfold ds_create, root_key. cbn [r_type r_rd r_name r_class r_ttl].
  change (negb (48 =? 48)) with false. cbv iota. destruct H as (_ & _ & (pk' & Ek & Lk & Bk) & _). rewrite Ep in Ek. apply some_inj in Ek. subst pk'. destruct (key_fields 257 pk) as (F & Sz & W); auto; [lia|].
  destruct (keytag_exact _ F) as [K _]; [lia|]. rewrite K, W. cbn [obind]. unfold rd_encode, rd_write. rewrite kinds_write. destruct (put_fields_wire true (layout 48) _ 0 F) as (R & _). rewrite R, W. reflexivity.
Qed.

(** A section signed: one signature more, over the records of the type; it names the
    first of them and is valid four weeks around now. *)
Definition signature (flags : Z) (pub : list Z) (now : Z) (first : rr) (sg : list Z) : rr :=
  {| r_name := map low (r_name first); r_type := 46; r_class := 1; r_ttl := 10800;
     r_rd := Some [VNum (r_type first); VNum 13; VNum (nlabels (r_name first)); VNum (r_ttl first); VNum ((now + 1209600) mod 4294967296); VNum ((now - 1209600) mod 4294967296);
                   VNum (key_tag (key_data flags pub)); VBytes [46]; VBytes sg] |}.
Definition signature_head (flags : Z) (pub : list Z) (now : Z) (first : rr) : list Z :=
  sig_head (r_type first) 13 (nlabels (r_name first)) (r_ttl first) ((now + 1209600) mod 4294967296) ((now - 1209600) mod 4294967296) (key_tag (key_data flags pub)) [46].
Definition of_type (t : Z) (r : rr) : bool := r_type r =? t.
Lemma nlabels_count s : valid_name s -> label_count s = nlabels s /\ 0 <= nlabels s <= 127.
Proof.
  intros (ls & H & ->). rewrite label_count_dotted by auto. rewrite nlabels_dotted by apply H. split; [reflexivity|]. pose proof (zlen_nonneg ls). split; [auto|]. destruct H as [H L]. destruct ls as [|l ls]; [change (zlen (@nil (list Z))) with 0; lia|]. rewrite cat_dots_dotted in L by discriminate. apply labels_le_dots in H. lia.
Qed.
Lemma sign_with s priv flags pub now owner type class rrs first rest : sec_ok s -> length pub = 64%nat -> bytes_ok pub -> 0 <= flags < 65536 ->
  filter (of_type type) rrs = first :: rest -> rrset_ok owner type class (first :: rest) -> type <> 17 -> type <> 24 -> zlen rrs < 255 ->
  exists D, signed_data (signature_head flags pub now first) owner type class (r_ttl first) (map rdata (first :: rest)) D /\
    sign_type s now rrs type (root_key flags pub) priv = Ok (match s_sign s priv (s_sha256 s D) with Some sg => rrs ++ [signature flags pub now first sg] | None => rrs end).
Proof.
  intros HS Lp Bp Hf Ef Hr N1 N2 Hl. unfold sign_type. destruct (Z.leb_spec 255 (zlen rrs)); [lia|]. fold (of_type type). change (fun r : rr => r_type r =? type) with (of_type type). rewrite Ef. unfold sign_rrset, root_key. cbn [r_type r_rd r_name r_class r_ttl].
  change (negb (48 =? 48)) with false. cbv iota. destruct (key_fields flags pub Hf Lp Bp) as (F & Sz & W). destruct (keytag_exact _ F) as [K Kb]; [lia|]. rewrite K. rewrite W in *. cbn [obind].
  assert (Hfirst : record_ok first /\ r_type first = type) by (destruct Hr as [_ Hr]; apply Forall_cons_iff in Hr as [Hr _]; tauto). destruct Hfirst as [((V & Hty & Hc & Httl) & _) Et].
  destruct (nlabels_count _ V) as [Lc Lb]. rewrite Lc. rewrite (Z.mod_small (nlabels _) 256) by lia. change (14 * 24 * 60 * 60) with 1209600.
  match goal with |- context [sig_data s _ ?x] => set (g := x) end.
  assert (Hg : head_fields g).
  { unfold head_fields, g. cbn [g_type g_alg g_labels g_ttl g_exp g_inc g_tag g_signer]. repeat (split; [first [assumption | lia | apply Z.mod_pos_bound; lia]|]). exact root_valid. }
  destruct (signed_exact s owner type class (first :: rest) g HS Hr N1 N2 Hg) as (D & ED & SD). exists D. split; [exact SD|]. rewrite ED. cbn [obind]. destruct (s_sign s priv (s_sha256 s D)) as [sg|]; cbn [obind]; [|reflexivity].
  unfold rrs_push. destruct (Z.eqb_spec (zlen rrs) 255); [lia|]. reflexivity.
Qed.
Theorem signs s now owner type class rrs first rest : sec_ok s -> filter (of_type type) rrs = first :: rest -> rrset_ok owner type class (first :: rest) -> type <> 17 -> type <> 24 -> zlen rrs < 255 ->
  exists pk pz Dk Dz, s_pub s (s_ksk s) = Some pk /\ s_pub s (s_zsk s) = Some pz /\
    signed_data (signature_head 257 pk now first) owner type class (r_ttl first) (map rdata (first :: rest)) Dk /\
    signed_data (signature_head 256 pz now first) owner type class (r_ttl first) (map rdata (first :: rest)) Dz /\
    sign_ksk s now rrs type = Ok (match s_sign s (s_ksk s) (s_sha256 s Dk) with Some sg => rrs ++ [signature 257 pk now first sg] | None => rrs end) /\
    sign_zsk s now rrs type = Ok (match s_sign s (s_zsk s) (s_sha256 s Dz) with Some sg => rrs ++ [signature 256 pz now first sg] | None => rrs end).
Proof.
  intros HS Ef Hr N1 N2 Hl. destruct (keys_exact s HS) as (pk & pz & E1 & E2 & E3 & E4 & _). assert (HS' := HS). destruct HS' as (_ & _ & (pk' & Ek & Lk & Bk) & (pz' & Ez & Lz & Bz) & _).
  rewrite Ek in E1. rewrite Ez in E2. apply some_inj in E1, E2. subst pk' pz'. unfold sign_ksk, sign_zsk. rewrite E3, E4. cbn [obind].
  destruct (sign_with s (s_ksk s) 257 pk now owner type class rrs first rest) as (Dk & K1 & K2); auto; [lia|]. destruct (sign_with s (s_zsk s) 256 pz now owner type class rrs first rest) as (Dz & Z1 & Z2); auto; [lia|].
  exists pk, pz, Dk, Dz. repeat (split; [assumption|]). assumption.
Qed.
(** No record of the type, or no room: nothing happens. *)
Theorem signs_nothing s now type rrs : sec_ok s -> (filter (of_type type) rrs = [] \/ 255 <= zlen rrs) -> sign_zsk s now rrs type = Ok rrs /\ sign_ksk s now rrs type = Ok rrs.
Proof.
  intros HS H. destruct (keys_exact s HS) as (pk & pz & E1 & E2 & E3 & E4 & _). unfold sign_zsk, sign_ksk. rewrite E3, E4. cbn [obind]. unfold sign_type. destruct (Z.leb_spec 255 (zlen rrs)); [auto|].
  destruct H as [H|H]; [|lia]. change (fun r : rr => r_type r =? type) with (of_type type). rewrite H. auto.
Qed.
Lemma signature_record flags pub now first sg : record_ok first -> length sg = 64%nat -> bytes_ok sg -> record_ok (signature flags pub now first sg).
Proof.
  intros ((V & Hty & Hc & Httl) & _) L B. destruct (nlabels_count _ V) as [_ Lb]. split; [repeat split; cbn; try lia; now apply low_valid|]. eexists. split; [reflexivity|].
  assert (T : 0 <= key_tag (key_data flags pub) < 65536) by (apply Z.mod_pos_bound; lia).
  assert (P1 := Z.mod_pos_bound (now + 1209600) 4294967296 eq_refl). assert (P2 := Z.mod_pos_bound (now - 1209600) 4294967296 eq_refl).
  change (layout (r_type (signature flags pub now first sg))) with [KNum 2; KNum 1; KNum 1; KNum 4; KNum 4; KNum 4; KNum 2; KName; KRest]. split.
  - repeat (constructor; [solve [cbn; auto using root_valid; lia]|]). constructor.
  - cbn [fields_size field_size]. unfold zlen. rewrite L. change (nsize [46]) with 1. lia.
Qed.

(** Signing never fails, whatever the records. *)
Lemma raw_rr_total ttl r : record_ok r -> r_type r <> 24 -> 0 <= ttl < 4294967296 -> exists b d, raw_rr ttl r = Ok (Some b) /\ raw_tail b = Ok d.
Proof.
  intros H N Ht. destruct (Z.eq_dec (r_type r) 17) as [E|N1].
  - destruct (record_roundtrip r H) as (_ & _ & C). unfold raw_rr. rewrite C. cbn [obind]. destruct H as ((V & Hty & Hc & Hl) & vs & Er & F & Sz). rewrite Er. change (lower_rd (r_type r) vs) with (lower_rd (r_type r) vs). rewrite E in *. change (lower_rd 17 vs) with (Ok vs). cbn [obind].
    set (r' := {| r_name := to_lower (r_name r); r_type := 17; r_class := r_class r; r_ttl := ttl; r_rd := Some vs |}).
    assert (K : record_ok r') by (split; [repeat split; cbn; try tauto; try lia; rewrite lower_low; now apply low_valid|exists vs; cbn; repeat split; auto; lia]).
    destruct (record_roundtrip r' K) as (Q & _). rewrite Q. cbn [obind]. destruct (put_fields_wire true (layout 17) vs 0 F) as (_ & L & B & _).
    exists (framed (map low (r_name r)) 17 (r_class r) ttl (fields_wire (layout 17) vs)), (fields_wire (layout 17) vs). split; [reflexivity|]. apply framed_tail; [now apply low_valid|exact B].
  - destruct (raw_rr_exact ttl r H N1 N Ht) as (E & B & _). eexists. eexists. split; [exact E|]. apply framed_tail; [|exact B]. apply low_valid. apply H.
Qed.
Theorem sign_total s now type rrs : sec_ok s -> Forall record_ok rrs -> type <> 24 ->
  (sign_zsk s now rrs type = Ok rrs \/ exists g, sign_zsk s now rrs type = Ok (rrs ++ [g]) /\ r_type g = 46 /\ record_ok g /\ zlen rrs < 255) /\
  (sign_ksk s now rrs type = Ok rrs \/ exists g, sign_ksk s now rrs type = Ok (rrs ++ [g]) /\ r_type g = 46 /\ record_ok g /\ zlen rrs < 255).
Proof.
  intros HS F N. destruct (keys_exact s HS) as (pk & pz & E1 & E2 & E3 & E4 & _). unfold sign_zsk, sign_ksk. rewrite E3, E4. cbn [obind].
  assert (K : forall priv flags pub, length pub = 64%nat -> bytes_ok pub -> 0 <= flags < 65536 -> let r := sign_type s now rrs type (root_key flags pub) priv in r = Ok rrs \/ exists g, r = Ok (rrs ++ [g]) /\ r_type g = 46 /\ record_ok g /\ zlen rrs < 255).
  { intros priv flags pub Lp Bp Hf. cbv zeta. unfold sign_type. destruct (Z.leb_spec 255 (zlen rrs)); [now left|]. change (fun r : rr => r_type r =? type) with (of_type type).
    destruct (filter (of_type type) rrs) as [|first rest] eqn:Ef; [now left|]. unfold sign_rrset, root_key. cbn [r_type r_rd r_name r_class r_ttl]. change (negb (48 =? 48)) with false. cbv iota.
    destruct (key_fields flags pub Hf Lp Bp) as (Fk & Sz & W). destruct (keytag_exact _ Fk) as [Kt Kb]; [lia|]. rewrite Kt. rewrite W in *. cbn [obind].
    assert (Fr : Forall (fun r => record_ok r /\ r_type r = type) (first :: rest)).
    { rewrite <- Ef. apply Forall_forall. intros r Hr. apply filter_In in Hr as [Hr Ht]. rewrite Forall_forall in F. split; [auto|]. unfold of_type in Ht. lia. }
    assert (Hfirst := proj1 (proj1 (Forall_cons_iff _ _ _) Fr)). destruct Hfirst as [Hfirst Et]. assert (Hd := Hfirst). destruct Hd as ((V & Hty & Hc & Httl) & _). destruct (nlabels_count _ V) as [Lc Lb]. rewrite Lc. rewrite (Z.mod_small (nlabels _) 256) by lia. change (14 * 24 * 60 * 60) with 1209600.
    match goal with |- context [sig_data s _ ?x] => set (g := x) end.
    assert (Hg : head_fields g).
    { unfold head_fields, g. cbn [g_type g_alg g_labels g_ttl g_exp g_inc g_tag g_signer]. repeat (split; [first [assumption | lia | apply Z.mod_pos_bound; lia]|]). exact root_valid. }
    assert (R : exists bs, raw_rrs (g_ttl g) (first :: rest) = Ok (Some bs) /\ all_tails bs = Ok tt).
    { change (g_ttl g) with (r_ttl first). revert Fr Httl. generalize (r_ttl first) as ttl. clear - N. generalize (first :: rest). clear first rest. intros l ttl Fl Ht. induction Fl as [|r l [Hr Er] Fl (bs & I1 & I2)]; [exists []; auto|]. cbn [raw_rrs].
      destruct (raw_rr_total ttl r Hr) as (b & d & Q1 & Q2); [congruence|auto|]. rewrite Q1. cbn [obind]. rewrite I1. cbn [obind]. eexists. split; [reflexivity|]. cbn [all_tails]. now rewrite Q2. }
    destruct R as (bs & R1 & R2). unfold sig_data. rewrite R1. cbn [obind]. unfold sort_rrs. rewrite R2. replace (if 2 <=? zlen bs then Ok tt else Ok tt) with (Ok tt) by now destruct (2 <=? zlen bs). cbn [obind]. rewrite tbs_exact by auto. cbn [obind].
    match goal with |- context [s_sign s priv ?h] => destruct (s_sign s priv h) as [sg|] eqn:Eg end; cbn [obind]; [right|now left]. exists (signature flags pub now first sg).
    unfold rrs_push. destruct (Z.eqb_spec (zlen rrs) 255); [lia|]. split; [reflexivity|]. split; [reflexivity|]. split; [|lia]. destruct HS as (_ & HS2 & _). destruct (HS2 _ _ _ Eg). now apply signature_record. }
  assert (HS' := HS). destruct HS' as (_ & _ & (pk' & Ek & Lk & Bk) & (pz' & Ez & Lz & Bz) & _). rewrite Ek in E1. rewrite Ez in E2. apply some_inj in E1, E2. subst pk' pz'. split; apply K; auto; lia.
Qed.

(** Names in the data of RP records keep their case, so such a set is not in canonical
    form (RFC 4034 section 6.2). *)
Definition rp_record (name : list Z) : rr := {| r_name := [97; 46]; r_type := 17; r_class := 1; r_ttl := 60; r_rd := Some [VBytes name; VBytes [46]] |}.
Theorem rp_canonical_refuted : exists r g, record_ok r /\ head_fields g /\ r_type r = 17 /\ forall s, sec_ok s -> exists D,
  sig_data s [r] g = Ok (Some D) /\ ~ signed_data (sig_head (g_type g) (g_alg g) (g_labels g) (g_ttl g) (g_exp g) (g_inc g) (g_tag g) (map low (g_signer g))) [97; 46] 17 1 (g_ttl g) (map rdata [r]) D.
Proof.
  exists (rp_record [66; 46]). exists {| g_type := 17; g_alg := 13; g_labels := 1; g_ttl := 60; g_exp := 0; g_inc := 0; g_tag := 0; g_signer := [46] |}.
  assert (VL : forall c, pchar c -> valid_name [c; 46]).
  { intros c Hc. exists [[c]]. split; [|reflexivity]. split; [constructor; [|constructor]; split; [change (zlen [c]) with 1; lia|repeat constructor; apply Hc]|change (zlen (dotted [[c]])) with 2; lia]. }
  split; [|split; [|split; [reflexivity|]]].
  - split; [repeat split; cbn; try lia; apply VL; split; lia|]. eexists. split; [reflexivity|]. split; [|change (layout (r_type (rp_record [66; 46]))) with [KName; KName]; vm_compute; discriminate]. change (layout (r_type (rp_record [66; 46]))) with [KName; KName].
    constructor; [apply VL; split; lia|]. constructor; [apply root_valid|constructor].
  - repeat split; cbn; try lia. apply root_valid.
  - intros s (_ & _ & _ & _ & HS). eexists. split.
    + unfold sig_data. cbn [g_ttl]. match goal with |- context [raw_rrs ?a ?b] => let x := eval vm_compute in (raw_rrs a b) in replace (raw_rrs a b) with x by (vm_compute; reflexivity) end. cbn [obind]. unfold sort_rrs.
      match goal with |- context [s_sort s ?c ?l] => destruct (HS c l) as [P _] end. apply Permutation_sym, Permutation_length_1_inv in P.
      match goal with |- context [2 <=? ?x] => change (2 <=? x) with false end. cbv iota. cbn [obind]. rewrite P. match goal with |- context [rrsig_tbs ?a] => let x := eval vm_compute in (rrsig_tbs a) in change (rrsig_tbs a) with x end. cbn [obind]. reflexivity.
    + intros (ds & Ss & In' & E). assert (Eds : ds = map rdata [rp_record [66; 46]]).
      { destruct ds as [|d ds]; [exfalso; apply (In' (rdata (rp_record [66; 46]))); now left|]. assert (Hd := proj1 (In' d) (or_introl eq_refl)). destruct Hd as [Hd|[]]. subst d. destruct ds as [|d ds]; [reflexivity|]. exfalso.
        assert (Hd := proj1 (In' d) (or_intror (or_introl eq_refl))). destruct Hd as [Hd|[]]. subst d. apply StronglySorted_inv in Ss as [_ Ss]. apply Forall_cons_iff in Ss as [Ss _]. now apply before_irr in Ss. }
      rewrite Eds in E. vm_compute in E. discriminate E.
Qed.

(** ** The hypotheses can be met *)
Fixpoint insert (cmp : list Z -> list Z -> Z) (x : list Z) (l : list (list Z)) : list (list Z) :=
  match l with [] => [x] | y :: l' => if cmp x y <=? 0 then x :: l else y :: insert cmp x l' end.
Definition isort (cmp : list Z -> list Z -> Z) (l : list (list Z)) : list (list Z) := fold_right (insert cmp) [] l.
Lemma insert_perm cmp x l : Permutation (insert cmp x l) (x :: l).
Proof. induction l as [|y l IH]; cbn; [auto|]. destruct (cmp x y <=? 0); [auto|]. rewrite IH. apply perm_swap. Qed.
Lemma isort_sorts : sorts isort.
Proof.
  intros cmp l. assert (P : forall l, Permutation (isort cmp l) l) by (clear; induction l as [|x l IH]; cbn; [auto|]; rewrite insert_perm, IH; auto). split; [apply P|]. intros T R.
  induction l as [|x l IH]; [constructor|]. cbn [isort fold_right]. fold (isort cmp l).
  assert (SS : StronglySorted (fun a b => cmp a b <= 0) (isort cmp l)) by (apply IH; intros; [apply T|eapply R; [| | |eassumption|eassumption]]; now right).
  assert (Hin : forall y, In y (isort cmp l) -> In y l) by (intros y Hy; eapply Permutation_in; [apply P|exact Hy]). revert SS Hin. generalize (isort cmp l). intros m. induction m as [|y m IHm]; intros SS Hin; cbn [insert]; [repeat constructor|].
  assert (My : In y (x :: l)) by (right; apply Hin; now left). assert (Mx : In x (x :: l)) by now left. assert (SS2 := SS). apply StronglySorted_inv in SS2 as [S1 S2]. destruct (Z.leb_spec (cmp x y) 0) as [L|L].
  - constructor; [exact SS|]. constructor; [exact L|]. apply Forall_forall. intros z Hz. rewrite Forall_forall in S2. apply (R x y z); auto. right. apply Hin. now right.
  - constructor; [apply IHm; [exact S1|intros z Hz; apply Hin; now right]|]. apply Forall_forall. intros z Hz. apply (Permutation_in _ (insert_perm cmp x m)) in Hz as [<-|Hz].
    + destruct (T x y); auto; lia.
    + rewrite Forall_forall in S2. auto.
Qed.
Definition toy_sec : sec := {| s_sha256 := fun _ => repeat 7 32; s_sign := fun _ _ => Some (repeat 9 64); s_pub := fun _ => Some (repeat 5 64); s_sort := isort; s_ksk := [1]; s_zsk := [2] |}.
Lemma Forall_repeat (A : Type) (P : A -> Prop) x n : P x -> Forall P (repeat x n).
Proof. intros H. induction n; cbn; auto. Qed.
Lemma toy_ok : sec_ok toy_sec.
Proof.
  split; [intros m; split; [reflexivity|apply Forall_repeat; unfold is_byte; lia]|]. split; [intros p h g E; apply some_inj in E; subst g; split; [reflexivity|apply Forall_repeat; unfold is_byte; lia]|].
  split; [|split; [|exact isort_sorts]]; (eexists; split; [reflexivity|]; split; [reflexivity|apply Forall_repeat; unfold is_byte; lia]).
Qed.
(** Three NS records of Ab. out of order, one repeated in another case *)
Definition ns_of (n : list Z) : rr := {| r_name := [65; 98; 46]; r_type := 2; r_class := 1; r_ttl := 21600; r_rd := Some [VBytes n] |}.
Definition sample_set : list rr := [ns_of [99; 46]; ns_of [66; 46]; ns_of [98; 46]].
Example sample_set_ok : rrset_ok [97; 98; 46] 2 1 sample_set.
Proof.
  split; [discriminate|]. assert (VL : forall c, pchar c -> valid_name [c; 46]).
  { intros c Hc. exists [[c]]. split; [|reflexivity]. split; [constructor; [|constructor]; split; [change (zlen [c]) with 1; lia|repeat constructor; apply Hc]|change (zlen (dotted [[c]])) with 2; lia]. }
  assert (V2 : valid_name [65; 98; 46]) by (exists [[65; 98]]; split; [|reflexivity]; split; [constructor; [|constructor]; split; [change (zlen [65; 98]) with 2; lia|repeat constructor; unfold pchar; lia]|change (zlen (dotted [[65; 98]])) with 3; lia]).
  assert (K : forall c, pchar c -> record_ok (ns_of [c; 46]) /\ map low (r_name (ns_of [c; 46])) = [97; 98; 46] /\ r_type (ns_of [c; 46]) = 2 /\ r_class (ns_of [c; 46]) = 1).
  { intros c Hc. split; [|repeat split]. split; [repeat split; cbn; auto; lia|]. eexists. split; [reflexivity|]. change (layout (r_type (ns_of [c; 46]))) with [KName]. split; [constructor; [apply VL, Hc|constructor]|].
    cbn [fields_size field_size]. unfold nsize. destruct (beq [c; 46] [46]); [lia|change (zlen [c; 46]) with 2; lia]. }
  constructor; [apply K; split; lia|]. constructor; [apply K; split; lia|]. constructor; [apply K; split; lia|]. constructor.
Qed.
Example sample_signed : exists g, sign_zsk toy_sec 1700000000 sample_set 2 = Ok (sample_set ++ [g]) /\ r_type g = 46 /\ r_name g = [97; 98; 46].
Proof. eexists. split; [vm_compute; reflexivity|]. split; reflexivity. Qed.
Example sample_data : sig_data toy_sec sample_set {| g_type := 2; g_alg := 13; g_labels := 1; g_ttl := 21600; g_exp := 3; g_inc := 1; g_tag := 258; g_signer := [46] |} =
  Ok (Some ([0; 2; 13; 1; 0; 0; 84; 96; 0; 0; 0; 3; 0; 0; 0; 1; 1; 2; 0] ++
            [2; 97; 98; 0; 0; 2; 0; 1; 0; 0; 84; 96; 0; 3; 1; 98; 0] ++ [2; 97; 98; 0; 0; 2; 0; 1; 0; 0; 84; 96; 0; 3; 1; 99; 0])).
Proof. vm_compute. reflexivity. Qed.

Print Assumptions signed_exact.
Print Assumptions signed_unique.
Print Assumptions keytag_exact.
Print Assumptions keys_exact.
Print Assumptions ds_exact.
Print Assumptions signs.
Print Assumptions signs_nothing.
Print Assumptions sign_total.
Print Assumptions rp_canonical_refuted.
