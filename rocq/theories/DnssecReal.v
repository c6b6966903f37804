(** The signing of records with the real SHA-256 (C75), the real ECDSA (C84, C85) and the two
    keys of the daemon (dnssec.h:7-19) in place of the functions left open in DnssecModel. *)
From Verif Require Import Common CommonFacts BioModel DnsNameModel DnsMsgModel DnsMsgSpec DnsMsgFacts DnsMsgWire DnsMsgTheorems DnssecModel DnssecTheorems Sha256Model Sha256Spec Sha256Theorems EccModel EccSpec EccBytes EccSign EccTheorems KeyCert KeyTheorems.

(** What a call of hsk_ecc_sign gives when nothing undefined happens *)
Definition sign_result (o : option signed) : option (list Z) := match o with Some (Signed out) => Some out | _ => None end.
Definition pub_result (o : option (option (list Z))) : option (list Z) := match o with Some (Some out) => Some out | _ => None end.
(** The functions the daemon is linked with; messages are bytes. [rnd key hash] is what the
    source of random numbers gives during the call, [sort] is qsort. *)
Definition daemon (junk : list Z) (al : bool) (rnd : list Z -> list Z -> list (option (list Z))) (sort : (list Z -> list Z -> Z) -> list (list Z) -> list (list Z)) : sec :=
  {| s_sha256 := fun m => hash_sha256 junk al (map (fun b => b mod 256) m);
     s_sign := fun key hash => sign_result (ecc_sign (rnd key hash) key hash);
     s_pub := fun key => pub_result (make_pubkey key);
     s_sort := sort; s_ksk := ksk_bytes; s_zsk := zsk_bytes |}.

Lemma map_mod m : bytes_ok (map (fun b => b mod 256) m).
Proof. apply Forall_forall. intros x I. apply in_map_iff in I as (b & <- & _). apply Z.mod_pos_bound. reflexivity. Qed.
Lemma map_mod_id m : bytes_ok m -> map (fun b => b mod 256) m = m.
Proof. intros B. induction B as [|b m H B IH]; [reflexivity|]. cbn [map]. rewrite IH. f_equal. apply Z.mod_small. exact H. Qed.
Lemma native_bytes v : length (native2bytes v) = 32%nat /\ bytes_ok (native2bytes v).
Proof.
  unfold native2bytes. cbn [seq flat_map]. unfold bytes_of. cbn [map app]. split; [reflexivity|]. repeat (apply Forall_cons; [apply Z.mod_pos_bound; reflexivity|]). apply Forall_nil.
Qed.
Lemma sign_result_bytes rnd key hash g : sign_result (ecc_sign rnd key hash) = Some g -> length g = 64%nat /\ bytes_ok g.
Proof.
  unfold ecc_sign. destruct (sign_loop 16 rnd None) as [[|k px|]|]; cbn [bindo sign_result]; try discriminate.
  destruct (vli_mod_mult px (bytes2native key) curve_n) as [s|]; cbn [bindo sign_result]; [|discriminate]. destruct (vli_mod_inv k curve_n) as [i|]; cbn [bindo sign_result]; [|discriminate].
  match goal with |- sign_result (bindo ?x _) = _ -> _ => destruct x as [t|] end; cbn [bindo sign_result]; [|discriminate]. intros E. apply some_inj in E. subst g.
  destruct (native_bytes px) as [L1 B1]. destruct (native_bytes t) as [L2 B2]. rewrite app_length, L1, L2. split; [reflexivity|]. apply bytes_ok_app. split; assumption.
Qed.
Lemma big_bytes : forall n v, length (big n v) = n /\ bytes_ok (big n v).
Proof. induction n as [|n IH]; intros v; [split; [reflexivity|apply Forall_nil]|]. cbn [big length]. destruct (IH v) as [L B]. split; [now rewrite L|]. apply Forall_cons; [apply Z.mod_pos_bound; reflexivity|exact B]. Qed.
Definition ksk_public : list Z := big 32 (fst ksk_point) ++ big 32 (snd ksk_point).
Definition zsk_public : list Z := big 32 (fst zsk_point) ++ big 32 (snd zsk_point).
Lemma public_bytes q : length (big 32 (fst q) ++ big 32 (snd q)) = 64%nat /\ bytes_ok (big 32 (fst q) ++ big 32 (snd q)).
Proof. destruct (big_bytes 32 (fst q)) as [L1 B1]. destruct (big_bytes 32 (snd q)) as [L2 B2]. rewrite app_length, L1, L2. split; [reflexivity|]. apply bytes_ok_app. split; assumption. Qed.

Lemma ok_inj (A : Type) (x y : A) : Ok x = Ok y -> x = y.
Proof. intros E. injection E as E. exact E. Qed.
Lemma name_wire_bytes s : valid_name s -> bytes_ok (name_wire s).
Proof. intros V. destruct (wname_wire true 0 s V) as (_ & _ & B & _). exact B. Qed.

Lemma d_sha j a r o m : s_sha256 (daemon j a r o) m = hash_sha256 j a (map (fun b => b mod 256) m). Proof. reflexivity. Qed.
Lemma d_sign j a r o k h : s_sign (daemon j a r o) k h = sign_result (ecc_sign (r k h) k h). Proof. reflexivity. Qed.
Lemma d_pub j a r o k : s_pub (daemon j a r o) k = pub_result (make_pubkey k). Proof. reflexivity. Qed.
Lemma d_ksk j a r o : s_ksk (daemon j a r o) = ksk_bytes. Proof. reflexivity. Qed.
Lemma d_zsk j a r o : s_zsk (daemon j a r o) = zsk_bytes. Proof. reflexivity. Qed.
Lemma key_data_bytes q : bytes_ok (0 :: key_data 257 (big 32 (fst q) ++ big 32 (snd q))).
Proof.
  unfold key_data. apply Forall_cons; [split; [discriminate|reflexivity]|]. apply bytes_ok_app. split; [apply be_bytes_ok|].
  apply Forall_cons; [split; [discriminate|reflexivity]|]. apply Forall_cons; [split; [discriminate|reflexivity]|]. apply public_bytes.
Qed.
Lemma key_octets : octets ksk_bytes /\ octets zsk_bytes.
Proof. split; (split; [reflexivity|]; repeat (apply Forall_cons; [split; [discriminate|reflexivity]|]); apply Forall_nil). Qed.
#[local] Opaque daemon make_pubkey ecc_sign hash_sha256 sha256 big ksk_point zsk_point ksk_bytes zsk_bytes key_tag key_data.

Section Real.
Variable junk : list Z.
Variable al : bool.
Variable rnd : list Z -> list Z -> list (option (list Z)).
Variable sort : (list Z -> list Z -> Z) -> list (list Z) -> list (list Z).
Hypothesis Lj : length junk = 64%nat.
Hypothesis Bj : bytes_ok junk.
Hypothesis Hsort : sorts sort.
(** The functions and keys of the daemon meet every hypothesis of the theorems about signed
    answers (C37 to C39, C59), with no assumption about keys, digests or signatures left *)
Theorem daemon_meets_hypotheses : sec_ok (daemon junk al rnd sort).
Proof.
  destruct daemon_keys as (_ & _ & _ & _ & _ & _ & K & Z).
  split; [intros m; rewrite d_sha, (hash_sha256_exact junk al Lj Bj _ (map_mod m)); split; [apply sha256_length, map_mod|apply sha256_bytes]|].
  split; [intros p h g; rewrite d_sign; apply sign_result_bytes|].
  split; [exists ksk_public|split; [exists zsk_public|exact Hsort]]; rewrite d_pub, ?d_ksk, ?d_zsk; [rewrite K|rewrite Z]; cbn [pub_result]; (split; [reflexivity|apply public_bytes]).
Qed.
(** The records that the daemon publishes for its keys *)
Theorem daemon_published :
  get_ksk (daemon junk al rnd sort) = Ok (root_key 257 ksk_public) /\
  get_zsk (daemon junk al rnd sort) = Ok (root_key 256 zsk_public) /\
  get_ds (daemon junk al rnd sort) = Ok {| r_name := [46]; r_type := 43; r_class := 1; r_ttl := 10800;
    r_rd := Some [VNum (key_tag (key_data 257 ksk_public)); VNum 13; VNum 2; VBytes (sha256 (0 :: key_data 257 ksk_public))] |}.
Proof.
  pose proof daemon_meets_hypotheses as H. destruct (keys_exact _ H) as (pk & pz & E1 & E2 & E3 & E4 & _).
  destruct daemon_keys as (_ & _ & _ & _ & _ & _ & K & Z). assert (K1 := E1). rewrite d_pub, d_ksk in E1. rewrite d_pub, d_zsk in E2. rewrite K in E1. rewrite Z in E2. cbn [pub_result] in E1, E2. apply some_inj in E1. apply some_inj in E2. fold ksk_public in E1. fold zsk_public in E2. subst pk pz.
  split; [exact E3|]. split; [exact E4|]. rewrite (ds_exact _ ksk_public H K1), d_sha.
  pose proof (key_data_bytes ksk_point) as B. fold ksk_public in B.
  rewrite map_mod_id by exact B. rewrite (hash_sha256_exact junk al Lj Bj _ B). reflexivity.
Qed.
(** What the source of random numbers gives: numbers of four digits or failures, at first not
    0, and from 2 on modulo n, as all but a few numbers are *)
Definition fair (l : list (option (list Z))) : Prop :=
  Forall from_source l /\ starts l /\ forall v, In (Some v) l -> 2 <= val v mod n256.
Lemma real_signature priv h out l : octets priv -> octets h -> fair l -> sign_result (ecc_sign l priv h) = Some out ->
  exists k rr ss, ecdsa (number priv) (number h) k rr ss /\ 2 <= k < n256 /\ out = big 32 rr ++ big 32 ss.
Proof.
  intros OK OH (F & S & V). destruct (signature_partial l priv h F OK OH) as [G _].
  destruct (ecc_sign l priv h) as [[|o|]|] eqn:EG; cbn [sign_result]; try discriminate. intros X. apply some_inj in X. subst o.
  destruct (proj1 (G out) eq_refl) as (_ & a & v & b & _ & ER & _ & GV & (q & rr & ss & BM & Er & Hr0 & Hs & Eo & _ & Eq)).
  assert (K2 : 2 <= val v mod n256) by (apply V; rewrite ER; apply in_or_app; right; left; reflexivity).
  assert (KN : val v mod n256 < n256) by (apply Z.mod_pos_bound; reflexivity).
  destruct BM as (M & OC & RD & _). assert (U : used (val v mod n256) = val v mod n256) by (unfold used; destruct (Z.ltb_spec (val v mod n256) 2); [lia|reflexivity]). rewrite U in M.
  exists (val v mod n256), rr, ss. split; [|split; [split; assumption|exact Eo]].
  split; [exists q; auto|]. split; [split; [exact Hr0|rewrite Er; apply Z.mod_pos_bound; reflexivity]|]. split; [exact Hs|]. apply Eq. intros X. rewrite X in K2. apply K2. reflexivity.
Qed.
Lemma signed_bytes head owner type class first rest D : bytes_ok head -> rrset_ok owner type class (first :: rest) -> type <> 17 -> type <> 24 ->
  signed_data head owner type class (r_ttl first) (map rdata (first :: rest)) D -> bytes_ok D.
Proof.
  intros BH [_ Fr] N1 N2 (ds & _ & I & ->). assert (Rf : record_ok first) by (apply Forall_cons_iff in Fr as [(R1 & _) _]; assumption).
  destruct Rf as [(V1 & _ & _ & T1) _]. destruct (raw_rrs_exact owner type class (r_ttl first) (first :: rest) Fr N1 N2 T1) as [_ FB].
  assert (VO : valid_name owner) by (apply Forall_cons_iff in Fr as [(_ & <- & _) _]; apply low_valid; exact V1).
  apply bytes_ok_app. split; [exact BH|].
  assert (FD : Forall bytes_ok ds) by (apply Forall_forall; intros d Hd; apply I in Hd; rewrite Forall_forall in FB; apply FB; exact Hd). clear - FD VO.
  induction FD as [|d ds Hd FD IH]; [apply Forall_nil|]. cbn [map concat]. apply bytes_ok_app. split; [|exact IH]. unfold framed. rewrite !bytes_ok_app. split; [exact (name_wire_bytes _ VO)|]. repeat (split; [apply be_bytes_ok|]). exact Hd.
Qed.
Lemma head_bytes flags pub now first : bytes_ok (signature_head flags pub now first).
Proof. unfold signature_head, sig_head. rewrite ?bytes_ok_app. repeat (split; [apply be_bytes_ok|]). exact (name_wire_bytes _ root_valid). Qed.
(** A signature added to a section is the ECDSA signature, by the key whose public key is
    published, of the SHA-256 of the data that RFC 4034 says is signed *)
Definition signed_well (flags : Z) (priv pub : list Z) (now : Z) (owner : list Z) (type class : Z) (rrs : list rr) (first : rr) (rest r : list rr) : Prop :=
  exists D k rr ss, signed_data (signature_head flags pub now first) owner type class (r_ttl first) (map rdata (first :: rest)) D /\
    ecdsa (number priv) (number (sha256 D)) k rr ss /\ 2 <= k < n256 /\
    r = rrs ++ [signature flags pub now first (big 32 rr ++ big 32 ss)].
Theorem daemon_signature now owner type class rrs first rest :
  filter (of_type type) rrs = first :: rest -> rrset_ok owner type class (first :: rest) -> type <> 17 -> type <> 24 -> zlen rrs < 255 ->
  (forall key hash, fair (rnd key hash)) ->
  (exists r, sign_zsk (daemon junk al rnd sort) now rrs type = Ok r /\ (r = rrs \/ signed_well 256 zsk_bytes zsk_public now owner type class rrs first rest r)) /\
  (exists r, sign_ksk (daemon junk al rnd sort) now rrs type = Ok r /\ (r = rrs \/ signed_well 257 ksk_bytes ksk_public now owner type class rrs first rest r)).
Proof.
  intros Ef Hr N1 N2 L Hrnd. destruct (signs _ now owner type class rrs first rest daemon_meets_hypotheses Ef Hr N1 N2 L) as (pk & pz & Dk & Dz & E1 & E2 & SK & SZ & EK & EZ).
  destruct daemon_keys as (_ & _ & _ & _ & _ & _ & K & Z). rewrite d_pub, d_ksk, K in E1. rewrite d_pub, d_zsk, Z in E2. cbn [pub_result] in E1, E2. apply some_inj in E1. apply some_inj in E2. fold ksk_public in E1. fold zsk_public in E2. subst pk pz.
  destruct key_octets as [OK OZ].
  assert (G : forall flags priv pub D, octets priv -> signed_data (signature_head flags pub now first) owner type class (r_ttl first) (map rdata (first :: rest)) D ->
    exists r, Ok (match s_sign (daemon junk al rnd sort) priv (s_sha256 (daemon junk al rnd sort) D) with Some sg => rrs ++ [signature flags pub now first sg] | None => rrs end) = Ok r /\
      (r = rrs \/ signed_well flags priv pub now owner type class rrs first rest r)).
  { intros flags priv pub D OP SD. assert (BD : bytes_ok D) by exact (signed_bytes _ owner type class first rest D (head_bytes flags pub now first) Hr N1 N2 SD).
    eexists. split; [reflexivity|]. rewrite d_sign, d_sha, map_mod_id by exact BD. rewrite (hash_sha256_exact junk al Lj Bj D BD).
    destruct (sign_result (ecc_sign (rnd priv (sha256 D)) priv (sha256 D))) as [out|] eqn:EG; [|left; reflexivity]. right.
    assert (OH : octets (sha256 D)) by (split; [apply sha256_length; exact BD|apply sha256_bytes]).
    destruct (real_signature priv (sha256 D) out _ OP OH (Hrnd priv (sha256 D)) EG) as (k & rr & ss & X & KR & ->). exists D, k, rr, ss. auto. }
  split; [rewrite EZ, d_zsk; exact (G 256 zsk_bytes zsk_public Dz OZ SZ)|rewrite EK, d_ksk; exact (G 257 ksk_bytes ksk_public Dk OK SK)].
Qed.
End Real.
Print Assumptions daemon_meets_hypotheses.
Print Assumptions daemon_published.
Print Assumptions daemon_signature.
(** The hypotheses can be met: insertion sort, and 5 as the number drawn *)
Example ex_real : let s := daemon (repeat 255 64) false (fun _ _ => [Some (digits 4 5)]) isort in sec_ok s /\ fair [Some (digits 4 5)] /\ rrset_ok [97; 98; 46] 2 1 sample_set.
Proof.
  cbv zeta. split; [apply daemon_meets_hypotheses; [reflexivity|apply Forall_forall; intros x I; apply repeat_spec in I; subst x; split; [discriminate|reflexivity]|exact isort_sorts]|].
  split; [|exact sample_set_ok]. split; [|split].
  - apply Forall_cons; [|apply Forall_nil]. split; [|reflexivity]. repeat (apply Forall_cons; [split; [discriminate|reflexivity]|]). apply Forall_nil.
  - discriminate.
  - intros v [X|[]]. apply some_inj in X. subst v. discriminate.
Qed.
