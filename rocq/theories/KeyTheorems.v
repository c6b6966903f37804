(** The two keys of src/dnssec.h: the public keys that the daemon publishes are the multiples
    of the base point by them. *)
From Verif Require Import Common CommonFacts EccModel EccSpec EccAlgebra EccBytes EccSign EccTheorems KeySteps KeyCert.

Lemma times_p_ok q : times_p q = q * p256.
Proof. unfold times_p, p256. rewrite !Z.shiftl_mul_pow2 by discriminate. ring. Qed.
Lemma inside_ok c : inside c = true -> reduced c.
Proof. unfold inside, reduced. rewrite !andb_true_iff, !Z.leb_le, !Z.ltb_lt. tauto. Qed.
Lemma eqp_by a b q : a - b = times_p q -> eqp a b.
Proof. intros E. apply eqp_iff. exists q. rewrite E. apply times_p_ok. Qed.
Lemma small_nz v : v <> 0 -> - p256 < v < p256 -> unitp v.
Proof.
  intros N R. apply nz_unit. intros E. apply eqp_iff in E as [q E]. rewrite Z.sub_0_r in E. subst v. revert N R. assert (P : 0 < p256) by reflexivity. revert P. generalize p256. intros p P N [R1 R2]. assert (q < 1) by (apply Z.mul_lt_mono_pos_r with p; [exact P|lia]). assert (-1 < q) by (apply Z.mul_lt_mono_pos_r with p; [exact P|lia]). assert (q = 0) by lia. subst q. apply N. reflexivity.
Qed.
Lemma third_by s a b : third (let '(St l _ _ _) := s in l) a b (point_by s a b).
Proof.
  destruct s as [l q1 q2 q3]. unfold third, point_by. cbn [fst snd]. rewrite !times_p_ok. split; apply eqp_iff; [exists (- q2)|exists (- q3)]; generalize p256; intros p; ring.
Qed.
Lemma chord_step_ok s a b c : reduced a -> reduced b -> chord_step s a b = Some c -> chord a b c /\ reduced c.
Proof.
  intros [[A1 A2] _] [[B1 B2] _]. pose proof (third_by s a b) as T. unfold chord_step. destruct s as [l q1 q2 q3]. cbv zeta. destruct (negb (fst a =? fst b) && (l * (fst b - fst a) - (snd b - snd a) =? times_p q1) && inside (point_by (St l q1 q2 q3) a b)) eqn:E; [|discriminate].
  intros X. injection X as <-. apply andb_true_iff in E as [E I]. apply andb_true_iff in E as [N E]. apply negb_true_iff, Z.eqb_neq in N. apply Z.eqb_eq in E. split; [|apply inside_ok; exact I].
  split; [apply small_nz; lia|]. exists l. split; [exact (eqp_by _ _ q1 E)|exact T].
Qed.
Lemma tangent_step_ok s a c : reduced a -> tangent_step s a = Some c -> tangent a c /\ reduced c.
Proof.
  intros [_ [A1 A2]]. pose proof (third_by s a a) as T. unfold tangent_step. destruct s as [l q1 q2 q3]. cbv zeta. destruct (negb (snd a =? 0) && (l * (2 * snd a) - (3 * fst a * fst a - 3) =? times_p q1) && inside (point_by (St l q1 q2 q3) a a)) eqn:E; [|discriminate].
  intros X. injection X as <-. apply andb_true_iff in E as [E I]. apply andb_true_iff in E as [N E]. apply negb_true_iff, Z.eqb_neq in N. apply Z.eqb_eq in E. split; [|apply inside_ok; exact I].
  split; [apply unit_mul; [apply unit2|apply small_nz; lia]|]. exists l. split; [exact (eqp_by _ _ q1 E)|exact T].
Qed.
Lemma climb_ok : forall steps m a b k q, 1 <= m -> reduced a -> reduced b -> multiple g256 m a -> multiple g256 (m + 1) b ->
  climb steps m a b = Some (k, q) -> multiple g256 k q /\ reduced q /\ 1 <= k.
Proof.
  induction steps as [|[[up s] t] steps IH]; intros m a b k q M A B MA MB; cbn [climb]; [intros X; injection X as <- <-; auto|].
  destruct (chord_step s a b) as [c|] eqn:C; [|discriminate]. destruct (chord_step_ok s a b c A B C) as [CC RC].
  destruct (tangent_step t (if up then b else a)) as [d|] eqn:D; [|discriminate].
  assert (MC : multiple g256 (2 * m + 1) c) by exact (multiple_odd g256 m a b c M MA MB CC).
  destruct up; [destruct (tangent_step_ok t b d B D) as [DD RD]|destruct (tangent_step_ok t a d A D) as [DD RD]]; intros E.
  - apply (IH (2 * m + 1) c d k q ltac:(lia) RC RD MC) in E; [exact E|]. replace (2 * m + 1 + 1) with (2 * (m + 1)) by ring. exact (multiple_even g256 _ b d MB DD).
  - apply (IH (2 * m) d c k q ltac:(lia) RD RC) in E; [exact E|exact (multiple_even g256 m a d MA DD)|exact MC].
Qed.
Lemma multiple_by_ok first steps k q : multiple_by first steps = Some (k, q) -> multiple g256 k q /\ reduced q /\ 1 <= k.
Proof.
  unfold multiple_by. destruct (tangent_step first g256) as [b|] eqn:E; [|discriminate].
  assert (G : reduced g256) by (split; split; vm_compute; congruence). destruct (tangent_step_ok first g256 b G E) as [T R].
  apply climb_ok; [lia|exact G|exact R|apply multiple_one|]. exact (multiple_even g256 1 g256 b (multiple_one g256) T).
Qed.

(** dnssec.h:7-19 *)
Definition ksk_number : Z := 0x1c74c825c5b0f08cf6be846bfc93c423f03e3e1f6202fb2d96474b1520bbafad.
Definition zsk_number : Z := 0x54276ff8604a3494c5c76d6651f14b289c7253ba636be4bfd7969308f48da47d.
Lemma ksk_climb : multiple_by ksk_first ksk_steps = Some (ksk_number, ksk_point).
Proof. vm_compute. reflexivity. Qed.
Lemma zsk_climb : multiple_by zsk_first zsk_steps = Some (zsk_number, zsk_point).
Proof. vm_compute. reflexivity. Qed.
Lemma ksk_curve : on_curve ksk_point. Proof. vm_compute. reflexivity. Qed.
Lemma zsk_curve : on_curve zsk_point. Proof. vm_compute. reflexivity. Qed.
Lemma odd_base k q : 2 <= k -> k mod 2 = 1 -> multiple g256 k q -> on_curve q -> reduced q -> base_multiple k q.
Proof.
  intros K O M C R. assert (U : used k = k) by (unfold used; destruct (Z.ltb_spec k 2); [lia|reflexivity]). unfold base_multiple. rewrite U. split; [exact M|]. split; [exact C|]. split; [exact R|].
  exists q. assert (E : odd_up k = k) by (unfold odd_up; pose proof (Z.div_mod k 2 ltac:(discriminate)); lia). rewrite E. exact M.
Qed.
(** dnssec.h:9-11 hsk_dnssec_ksk *)
Definition ksk_bytes : list Z :=
  [0x1c; 0x74; 0xc8; 0x25; 0xc5; 0xb0; 0xf0; 0x8c; 0xf6; 0xbe; 0x84; 0x6b; 0xfc; 0x93; 0xc4; 0x23;
   0xf0; 0x3e; 0x3e; 0x1f; 0x62; 0x02; 0xfb; 0x2d; 0x96; 0x47; 0x4b; 0x15; 0x20; 0xbb; 0xaf; 0xad].
(** dnssec.h:15-17 hsk_dnssec_zsk *)
Definition zsk_bytes : list Z :=
  [0x54; 0x27; 0x6f; 0xf8; 0x60; 0x4a; 0x34; 0x94; 0xc5; 0xc7; 0x6d; 0x66; 0x51; 0xf1; 0x4b; 0x28;
   0x9c; 0x72; 0x53; 0xba; 0x63; 0x6b; 0xe4; 0xbf; 0xd7; 0x96; 0x93; 0x08; 0xf4; 0x8d; 0xa4; 0x7d].
Lemma small_key k : 2 <= k < n256 -> 0 <= k < 2 ^ 256 /\ k <> 0 /\ k mod n256 = k.
Proof. intros [A B]. pose proof n_small as [_ N]. split; [split; [lia|eapply Z.lt_trans; eassumption]|]. split; [intros ->; apply A; reflexivity|]. apply Z.mod_small. split; [lia|exact B]. Qed.
(** The keys that the daemon publishes *)
Theorem daemon_keys :
  multiple g256 (number ksk_bytes) ksk_point /\ on_curve ksk_point /\ reduced ksk_point /\
  multiple g256 (number zsk_bytes) zsk_point /\ on_curve zsk_point /\ reduced zsk_point /\
  make_pubkey ksk_bytes = Some (Some (big 32 (fst ksk_point) ++ big 32 (snd ksk_point))) /\
  make_pubkey zsk_bytes = Some (Some (big 32 (fst zsk_point) ++ big 32 (snd zsk_point))).
Proof.
  destruct (multiple_by_ok _ _ _ _ ksk_climb) as (MK & RK & _). destruct (multiple_by_ok _ _ _ _ zsk_climb) as (MZ & RZ & _).
  assert (NK : number ksk_bytes = ksk_number) by reflexivity. assert (NZ : number zsk_bytes = zsk_number) by reflexivity. rewrite NK, NZ.
  split; [exact MK|]. split; [exact ksk_curve|]. split; [exact RK|]. split; [exact MZ|]. split; [exact zsk_curve|]. split; [exact RZ|].
  assert (EK : big 32 ksk_number = ksk_bytes) by reflexivity. assert (EZ : big 32 zsk_number = zsk_bytes) by reflexivity.
  split; [rewrite <- EK|rewrite <- EZ].
  - destruct (small_key ksk_number) as (A & B & C); [split; [discriminate|reflexivity]|]. apply (key_of ksk_number ksk_number ksk_point A B C). apply odd_base; [discriminate|reflexivity|exact MK|exact ksk_curve|exact RK].
  - destruct (small_key zsk_number) as (A & B & C); [split; [discriminate|reflexivity]|]. apply (key_of zsk_number zsk_number zsk_point A B C). apply odd_base; [discriminate|reflexivity|exact MZ|exact zsk_curve|exact RZ].
Qed.
Print Assumptions daemon_keys.
(** The first coordinates are those in the comments of dnssec.h *)
Example key_comments : fst ksk_point = 0x4fd714449d8cfcccfdaba52c64d63e3aca72be3f94bfeb60aeb5a42ed3d0c205 /\
  fst zsk_point = 0x2399cfb3a72515ad609f09fd22954319d24b7c438dce00f535c7ee13010856e2 /\ Z.odd (snd ksk_point) = true /\ Z.odd (snd zsk_point) = true.
Proof. repeat split; reflexivity. Qed.
