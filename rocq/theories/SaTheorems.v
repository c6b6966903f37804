(** Socket addresses: conversion both ways, the loopback in place of the wildcard, and the text that
    names the root server to the resolver. *)
From Verif Require Import Common CommonFacts Base32Model MapModel AddrModel ProofFacts AddrFacts AddrText AddrTheorems OptModel SaModel.

(* ---------- specification ---------- *)
Definition sa_ok (s : sa) : Prop :=
  bytes_ok (sa_ip s) /\ length (sa_ip s) = (if sa_v4 s then 4 else 16)%nat /\ 0 <= sa_port s < 65536.
(** The host a socket address stands for: ::ffff:a.b.c.d is a.b.c.d *)
Definition host (s : sa) : bool * list Z :=
  if sa_v4 s then (true, sa_ip s)
  else if list_eq_dec Z.eq_dec (firstn 12 (sa_ip s)) [0; 0; 0; 0; 0; 0; 0; 0; 0; 0; 255; 255] then (true, skipn 12 (sa_ip s))
  else (false, sa_ip s).
(** 0.0.0.0 and :: become the loopback *)
Definition home_of (h : bool * list Z) : bool * list Z :=
  if list_eq_dec Z.eq_dec (snd h) (repeat 0 4) then (true, [127; 0; 0; 1])
  else if list_eq_dec Z.eq_dec (snd h) (repeat 0 16) then (false, repeat 0 15 ++ [1])
  else h.
(** fd87:d87e:eb43::/48 *)
Definition onion_host (h : bool * list Z) : Prop := fst h = false /\ firstn 6 (snd h) = [253; 135; 216; 126; 235; 67].
(** [t] is a text of the host [h] *)
Definition names_host (t : list Z) (h : bool * list Z) : Prop :=
  if fst h then pton4 t = Some (snd h) else pton4 t = None /\ uv_pton6 t = Some (snd h).

(* ---------- proofs ---------- *)
Lemma mapped_from_sa s : sa_ok s -> is_mapped (from_sa s) = fst (host s).
Proof.
  intros (B & L & _). unfold host, is_mapped, starts, from_sa, set_ip. cbn [a_ip]. destruct (sa_v4 s).
  - reflexivity.
  - rewrite (firstn_all2 (n := 16)) by lia. change (length ip4_mapped) with 12%nat.
    rewrite firstn_app. replace (12 - length (sa_ip s))%nat with 0%nat by lia. rewrite firstn_O, app_nil_r.
    destruct (list_eq_dec Z.eq_dec _ _) as [E|E]; cbn [fst].
    + rewrite E. reflexivity.
    + destruct (beq (firstn 12 (sa_ip s)) ip4_mapped) eqn:X; [|reflexivity]. apply beq_true_iff in X. exfalso. apply E. exact X.
Qed.
Lemma host_ok s : sa_ok s -> bytes_ok (snd (host s)) /\ length (snd (host s)) = (if fst (host s) then 4 else 16)%nat.
Proof.
  intros (B & L & _). unfold host. destruct (sa_v4 s); [split; [exact B|exact L]|].
  destruct (list_eq_dec Z.eq_dec _ _); cbn [fst snd]; [|split; [exact B|exact L]]. split.
  - rewrite <- (firstn_skipn 12 (sa_ip s)) in B. apply bytes_ok_app in B as [_ B]. exact B.
  - rewrite skipn_length. lia.
Qed.
Lemma ip_from_sa s : sa_ok s ->
  a_ip (from_sa s) = (if fst (host s) then ip4_mapped ++ snd (host s) else snd (host s)) ++ zeros 20.
Proof.
  intros (B & L & _). unfold host, from_sa, set_ip. cbn [a_ip]. destruct (sa_v4 s); cbn [fst snd].
  - rewrite firstn_all2 by lia. unfold ip4_mapped. rewrite <- !app_assoc. reflexivity.
  - rewrite firstn_all2 by lia. destruct (list_eq_dec Z.eq_dec _ _) as [E|E]; cbn [fst snd]; [|reflexivity].
    f_equal. rewrite <- (firstn_skipn 12 (sa_ip s)) at 1. rewrite E. reflexivity.
Qed.
Lemma zeros_ok n : bytes_ok (zeros n).
Proof. apply Forall_forall. intros x X. apply repeat_spec in X. subst x. unfold is_byte. lia. Qed.
Lemma from_sa_ok s : sa_ok s -> addr_ok (from_sa s).
Proof.
  intros S. pose proof (host_ok s S) as [B L]. pose proof (ip_from_sa s S) as E. destruct S as (_ & _ & P).
  split; [reflexivity|]. split; [apply zeros_ok|]. split; [reflexivity|]. split; [exact P|].
  rewrite E. eexists. split; [reflexivity|]. destruct (fst (host s)); [|split; [exact B|exact L]]. split.
  - apply bytes_ok_app. split; [apply bytes_ok_check; reflexivity|exact B].
  - rewrite app_length, L. reflexivity.
Qed.

(** C91. A socket address becomes an address and comes back as the same host and port; only
    ::ffff:a.b.c.d comes back as the IPv4 address it stands for. The other way around, an address loses
    its key and nothing else. *)
Theorem socket_address_round_trip : forall s sc, sa_ok s ->
  addr_ok (from_sa s) /\ has_key (from_sa s) = false /\
  to_sa (from_sa s) sc = {| sa_v4 := fst (host s); sa_ip := snd (host s); sa_port := sa_port s; sa_scope := sc |} /\
  to_ip (from_sa s) = (fst (host s), snd (host s), sa_port s).
Proof.
  intros s sc S. pose proof (host_ok s S) as [B L]. split; [apply from_sa_ok; exact S|]. split; [reflexivity|].
  unfold to_sa, to_ip. rewrite (mapped_from_sa s S), (ip_from_sa s S). change (a_port (from_sa s)) with (sa_port s).
  destruct (fst (host s)).
  - assert (X : firstn 4 (skipn 12 ((ip4_mapped ++ snd (host s)) ++ zeros 20)) = snd (host s)).
    { rewrite <- app_assoc. change (skipn 12 (ip4_mapped ++ snd (host s) ++ zeros 20)) with (snd (host s) ++ zeros 20).
      rewrite firstn_app, L, Nat.sub_diag, firstn_O, app_nil_r. apply firstn_all2. lia. }
    rewrite X. split; reflexivity.
  - assert (X : firstn 16 (snd (host s) ++ zeros 20) = snd (host s)).
    { rewrite firstn_app, L, Nat.sub_diag, firstn_O, app_nil_r. apply firstn_all2. lia. }
    rewrite X. split; reflexivity.
Qed.
Theorem address_round_trip : forall a sc, addr_ok a ->
  sa_ok (to_sa a sc) /\ from_sa (to_sa a sc) = {| a_type := 0; a_ip := a_ip a; a_port := a_port a; a_key := zeros 33 |}.
Proof.
  intros a sc A. pose proof A as (_ & _ & _ & P & ip & E & B & L). unfold to_sa. destruct (is_mapped a) eqn:M.
  - destruct (mapped_ip a A M) as (b & c & d & e & B' & E'). rewrite E'. split.
    + split; [exact B'|]. split; [reflexivity|exact P].
    + reflexivity.
  - rewrite E. assert (X : firstn 16 (ip ++ zeros 20) = ip).
    { rewrite firstn_app, L, Nat.sub_diag, firstn_O, app_nil_r. apply firstn_all2. lia. }
    rewrite X. split.
    + split; [exact B|]. split; [exact L|exact P].
    + unfold from_sa, set_ip. cbn [sa_v4 sa_ip sa_port a_ip a_key]. rewrite firstn_all2 by lia. reflexivity.
Qed.

Lemma list4 (l : list Z) : length l = 4%nat -> exists a b c d, l = [a; b; c; d].
Proof. destruct l as [|a [|b [|c [|d [|? ?]]]]]; try discriminate. intros _. exists a, b, c, d. reflexivity. Qed.
Lemma null_host s : sa_ok s -> is_null (from_sa s) = if list_eq_dec Z.eq_dec (snd (host s)) (repeat 0 (if fst (host s) then 4 else 16)%nat) then true else false.
Proof.
  intros S. pose proof (host_ok s S) as [_ L]. unfold is_null, is_ip4, starts, ipb. rewrite (mapped_from_sa s S), (ip_from_sa s S).
  destruct (fst (host s)).
  - destruct (list4 _ L) as (a & b & c & d & ->). cbn [ip4_mapped zeros repeat app nth].
    destruct (list_eq_dec Z.eq_dec _ _) as [E|E].
    + injection E as -> -> -> ->. reflexivity.
    + destruct (Z.eqb_spec a 0); [|reflexivity]. destruct (Z.eqb_spec b 0); [|reflexivity]. destruct (Z.eqb_spec c 0); [|reflexivity].
      destruct (Z.eqb_spec d 0); [|reflexivity]. exfalso. apply E. subst. reflexivity.
  - change (length (zeros 16)) with 16%nat. rewrite firstn_app, L, Nat.sub_diag, firstn_O, app_nil_r, firstn_all2 by lia.
    destruct (list_eq_dec Z.eq_dec _ _) as [E|E]; [rewrite E; reflexivity|].
    destruct (beq (snd (host s)) (zeros 16)) eqn:X; [|reflexivity]. apply beq_true_iff in X. exfalso. apply E. exact X.
Qed.
Lemma home_cases s : sa_ok s -> home_of (host s) =
  if list_eq_dec Z.eq_dec (snd (host s)) (repeat 0 (if fst (host s) then 4 else 16)%nat)
  then (if fst (host s) then (true, [127; 0; 0; 1]) else (false, repeat 0 15 ++ [1])) else host s.
Proof.
  intros S. pose proof (host_ok s S) as [_ L]. unfold home_of. destruct (fst (host s)).
  - destruct (list_eq_dec Z.eq_dec (snd (host s)) (repeat 0 4)); [reflexivity|].
    destruct (list_eq_dec Z.eq_dec (snd (host s)) (repeat 0 16)) as [E|]; [exfalso; rewrite E in L; discriminate L|reflexivity].
  - destruct (list_eq_dec Z.eq_dec (snd (host s)) (repeat 0 4)) as [E|]; [exfalso; rewrite E in L; discriminate L|reflexivity].
Qed.

(** C91. hsk_sa_localize puts the loopback in the place of the wildcard and leaves every other host
    alone; port and scope stay. The address the server answers with is the same one. *)
Theorem wildcard_to_loopback : forall s, sa_ok s ->
  exists s', sa_localize s = Some s' /\ sa_ok s' /\
    (sa_v4 s', sa_ip s') = home_of (host s) /\ sa_port s' = sa_port s /\ sa_scope s' = sa_scope s /\
    host s' = home_of (host s) /\ ns_ip s = Some (from_sa s').
Proof.
  intros s S. set (s' := {| sa_v4 := fst (home_of (host s)); sa_ip := snd (home_of (host s)); sa_port := sa_port s; sa_scope := sa_scope s |}).
  pose proof (host_ok s S) as [B L]. pose proof (home_cases s S) as HC.
  assert (NM : fst (host s) = false -> firstn 12 (snd (host s)) <> [0; 0; 0; 0; 0; 0; 0; 0; 0; 0; 255; 255]).
  { unfold host. destruct (sa_v4 s); [discriminate|]. destruct (list_eq_dec Z.eq_dec (firstn 12 (sa_ip s)) _) as [|N]; [discriminate|]. intros _. exact N. }
  assert (O : sa_ok s').
  { split; [|split; [|apply S]]; unfold s'; cbn [sa_v4 sa_ip]; rewrite HC; destruct (list_eq_dec Z.eq_dec _ _);
      destruct (fst (host s)) eqn:F; rewrite ?F; try exact B; try exact L; try reflexivity; apply bytes_ok_check; reflexivity. }
  assert (H' : host s' = home_of (host s)).
  { unfold host at 1, s'. cbn [sa_v4 sa_ip]. rewrite HC. destruct (list_eq_dec Z.eq_dec (snd (host s)) _) as [E|E].
    - destruct (fst (host s)); reflexivity.
    - destruct (fst (host s)) eqn:F.
      + rewrite <- F. symmetry. apply surjective_pairing.
      + destruct (list_eq_dec Z.eq_dec (firstn 12 (snd (host s))) _) as [X|]; [exfalso; exact (NM eq_refl X)|].
        rewrite <- F. symmetry. apply surjective_pairing. }
  assert (N : localize (from_sa s) = Some (from_sa s')).
  { unfold localize. change (a_type (from_sa s)) with 0. change (negb (0 =? 0)) with false. cbv iota. rewrite (null_host s S). unfold is_ip4. rewrite (mapped_from_sa s S).
    assert (Q : forall i, from_sa s' = {| a_type := 0; a_ip := i; a_port := sa_port s; a_key := zeros 33 |} <-> a_ip (from_sa s') = i).
    { intros i. split; [intros ->; reflexivity|]. intros <-. reflexivity. }
    pose proof (ip_from_sa s' O) as E'. rewrite H', HC in E'. pose proof (ip_from_sa s S) as E.
    destruct (list_eq_dec Z.eq_dec (snd (host s)) _) as [X|X].
    - f_equal. symmetry. apply Q. rewrite E', E. rewrite X. destruct (fst (host s)); reflexivity.
    - f_equal. symmetry. replace (from_sa s) with {| a_type := 0; a_ip := a_ip (from_sa s); a_port := sa_port s; a_key := zeros 33 |} by reflexivity.
      apply Q. rewrite E', E. reflexivity. }
  exists s'. split; [|split; [exact O|split; [|split; [reflexivity|split; [reflexivity|split; [exact H'|exact N]]]]]].
  - unfold sa_localize. rewrite N. destruct (socket_address_round_trip s' (sa_scope s) O) as (_ & _ & E & _). rewrite E, H'. reflexivity.
  - cbn [sa_v4 sa_ip s']. symmetry. apply surjective_pairing.
Qed.

Lemma host_text s : sa_ok s -> ~ onion_host (host s) -> exists t, zlen t <= 39 /\ ~ In 64 t /\ names_host t (host s) /\
  (if fst (host s) then ntop4_text (get_ip (from_sa s)) else ntop6_text (get_ip (from_sa s))) = t /\ zlen t < (if fst (host s) then 16 else 46).
Proof.
  intros S N. pose proof (host_ok s S) as [B L]. pose proof (ip_from_sa s S) as E. pose proof (mapped_from_sa s S) as M.
  unfold names_host, get_ip, is_ip6. rewrite M. destruct (fst (host s)) eqn:F; cbn [negb andb].
  - destruct (list4 _ L) as (a & b & c & d & H). rewrite E, H. rewrite H in B. destruct (text4_chars a b c d B) as [C T].
    exists (ntop4_text [a; b; c; d]). repeat split; try lia; [|apply pton4_text; exact B].
    intros I. rewrite Forall_forall in C. specialize (C 64 I). unfold dec_char in C. lia.
  - assert (NO : is_onion (from_sa s) = false).
    { destruct (is_onion (from_sa s)) eqn:O; [|reflexivity]. exfalso. apply N. split; [exact F|].
      unfold is_onion, starts in O. apply beq_true_iff in O. rewrite E in O. change (length tor_onion) with 6%nat in O.
      rewrite firstn_app in O. replace (6 - length (snd (host s)))%nat with 0%nat in O by lia. rewrite firstn_O, app_nil_r in O. exact O. }
    rewrite NO. cbn [negb]. destruct (text6_shape (snd (host s)) B L) as (C & T & K).
    exists (ntop6_text (snd (host s))). split; [lia|]. split; [apply (ip_chars_not _ 64 C); lia|]. split; [split|split; [|lia]].
    + apply (pton4_other _ _ _ _ _ 58); [|unfold dec_char; lia|lia].
      destruct (in_dec Z.eq_dec 58 (ntop6_text (snd (host s)))) as [I|I]; [exact I|]. rewrite (cnt_none _ _ I) in K. lia.
    + unfold uv_pton6. rewrite (split_none 37) by (apply (ip_chars_not _ 37 C); lia). apply pton6_text; auto.
    + rewrite E. unfold ntop6_text. rewrite firstn_app. replace (16 - length (snd (host s)))%nat with 0%nat by lia. rewrite firstn_O, app_nil_r. reflexivity.
Qed.

(** C91. The text of a socket address for the resolver is "ip@port": an IP that reads back as its host,
    and its port in decimal, the fallback in the place of port 0. *)
Theorem resolver_text_partial : forall s fb, sa_ok s -> ~ onion_host (host s) -> 0 < fb < 65536 ->
  exists t p, sa_to_at s 128 fb = Ok (Some (t ++ [64] ++ p)) /\ zlen (t ++ [64] ++ p) < 128 /\ ~ In 64 t /\
    names_host t (host s) /\ port_loop 0 0 p = Some (if sa_port s =? 0 then fb else sa_port s).
Proof.
  intros s fb S N Hfb. destruct (host_text s S N) as (t & L & A & R & T & Lt). unfold sa_to_at, to_at.
  rewrite (mapped_from_sa s S). rewrite T. change (a_port (from_sa s)) with (sa_port s).
  set (q := if sa_port s =? 0 then fb else sa_port s). assert (Hq : 0 <= q < 65536).
  { destruct S as (_ & _ & P). unfold q. destruct (sa_port s =? 0); lia. }
  destruct (show_dec q ltac:(lia)) as [_ Lq].
  assert (Lw : zlen (t ++ [64] ++ show 10 q) < 128) by (rewrite !zlen_app; change (zlen [64]) with 1; lia).
  exists t, (show 10 q). split; [|split; [exact Lw|split; [exact A|split; [exact R|apply port_show; exact Hq]]]].
  replace ((if fst (host s) then 16 else 46) <=? zlen t) with false by (symmetry; apply Z.leb_gt; exact Lt).
  replace (128 <=? zlen t) with false by lia. replace (fb =? 0) with false by lia. replace (128 - zlen t <? 7) with false by lia.
  cbv zeta. replace (128 <=? zlen (t ++ [64] ++ show 10 q)) with false by lia. reflexivity.
Qed.
(** C91. The recursive server names its root server to the resolver: the host and port of the address it
    was given, the loopback for a wildcard. *)
Theorem stub_names_root_server_partial : forall old s fb, sa_ok s -> ~ onion_host (host s) -> 0 < fb < 65536 ->
  exists t p, stub_text old s fb = Ok (Some (t ++ [64] ++ p)) /\ ~ In 64 t /\
    names_host t (home_of (host s)) /\ port_loop 0 0 p = Some (if sa_port s =? 0 then fb else sa_port s).
Proof.
  intros old s fb S N Hfb. set (c := sa_copy old s). assert (Sc : sa_ok c) by exact S.
  assert (Hc : host c = host s) by reflexivity. unfold stub_text. fold c.
  destruct (wildcard_to_loopback c Sc) as (s' & E & O & _ & P & _ & H & _). rewrite Hc in H.
  assert (N' : ~ onion_host (host s')).
  { rewrite H, (home_cases s S). destruct (list_eq_dec Z.eq_dec _ _); [|exact N]. destruct (fst (host s)); intros [F X]; [discriminate F|discriminate X]. }
  destruct (resolver_text_partial s' fb O N' Hfb) as (t & p & T & _ & A & R & Q). change (sa_port s) with (sa_port c). rewrite E, T, <- H, <- P.
  exists t, p. split; [reflexivity|]. split; [exact A|]. split; [exact R|]. exact Q.
Qed.
(** C91. The text of a socket address (host:port) reads back as the same host and port. *)
Theorem socket_text_round_trip_partial : forall P s sc fb p, sa_ok s -> ~ onion_host (host s) -> 0 < fb < 65536 ->
  exists t, sa_to_string s 128 fb = Ok (Some t) /\ zlen t < 128 /\
    sa_from_string P sc t p = Ok (Some {| sa_v4 := fst (host s); sa_ip := snd (host s); sa_port := if sa_port s =? 0 then fb else sa_port s; sa_scope := sc |}).
Proof.
  intros P s sc fb p S N Hfb. pose proof (from_sa_ok s S) as A. pose proof (host_ok s S) as [_ L].
  assert (NT : ~ tor (from_sa s)).
  { intros [r R]. apply N. rewrite (ip_from_sa s S) in R. destruct (fst (host s)) eqn:F; [discriminate R|]. split; [exact F|].
    apply (f_equal (firstn 6)) in R. rewrite firstn_app in R. replace (6 - length (snd (host s)))%nat with 0%nat in R by lia.
    rewrite firstn_O, app_nil_r in R. exact R. }
  destruct (address_text_round_trip P (from_sa s) fb p A NT ltac:(lia)) as (t & E & Lt & R).
  replace (fb =? 0) with false in R by lia. change (a_port (from_sa s)) with (sa_port s) in R.
  unfold to_full in E. change (has_key (from_sa s)) with false in E. cbn [negb] in E.
  exists t. split; [|split; [exact Lt|]].
  - unfold sa_to_string. destruct (to_string (from_sa s) 128 fb) as [[x|]| | |]; cbn [obind] in E; congruence.
  - unfold sa_from_string. rewrite R. cbn [obind option_map]. f_equal. f_equal.
    set (q := if sa_port s =? 0 then fb else sa_port s).
    set (s2 := {| sa_v4 := sa_v4 s; sa_ip := sa_ip s; sa_port := q; sa_scope := sc |}).
    assert (S2 : sa_ok s2).
    { destruct S as (B1 & L1 & P1). split; [exact B1|]. split; [exact L1|]. cbn [s2 sa_port]. unfold q. destruct (sa_port s =? 0); lia. }
    destruct (socket_address_round_trip s2 sc S2) as (_ & _ & X & _). exact X.
Qed.
(** Two addresses with the same text for the resolver are the same host and port. *)
Theorem resolver_text_injective_partial : forall s1 s2 fb t, sa_ok s1 -> sa_ok s2 -> ~ onion_host (host s1) -> ~ onion_host (host s2) -> 0 < fb < 65536 ->
  sa_to_at s1 128 fb = Ok (Some t) -> sa_to_at s2 128 fb = Ok (Some t) ->
  host s1 = host s2 /\ (if sa_port s1 =? 0 then fb else sa_port s1) = (if sa_port s2 =? 0 then fb else sa_port s2).
Proof.
  intros s1 s2 fb t S1 S2 N1 N2 Hfb E1 E2.
  destruct (resolver_text_partial s1 fb S1 N1 Hfb) as (t1 & p1 & X1 & _ & A1 & R1 & Q1). destruct (resolver_text_partial s2 fb S2 N2 Hfb) as (t2 & p2 & X2 & _ & A2 & R2 & Q2).
  rewrite X1 in E1. rewrite X2 in E2. apply Ok_inj in E1. apply Ok_inj in E2. apply some_inj in E1. apply some_inj in E2. rewrite <- E2 in E1. clear E2 X1 X2.
  assert (W : Some (t1, p1) = Some (t2, p2)).
  { rewrite <- (split_app 64 t1 p1 A1), <- (split_app 64 t2 p2 A2). cbn [app] in E1. rewrite E1. reflexivity. }
  injection W as -> ->. split; [|apply some_inj; congruence].
  unfold names_host in R1, R2. rewrite (surjective_pairing (host s1)), (surjective_pairing (host s2)).
  destruct (fst (host s1)), (fst (host s2)).
  - f_equal. apply some_inj. congruence.
  - destruct R2 as [R2 _]. congruence.
  - destruct R1 as [R1 _]. congruence.
  - destruct R1 as [_ R1], R2 as [_ R2]. f_equal. apply some_inj. congruence.
Qed.

(** C91, false for the addresses of Tor: the resolver is told to ask another host. *)
Definition onion_sa : sa := {| sa_v4 := false; sa_ip := [253; 135; 216; 126; 235; 67; 1; 2; 3; 4; 5; 6; 7; 8; 9; 10]; sa_port := 5349; sa_scope := None |}.
Theorem stub_onion_refuted : exists s t p h, sa_ok s /\ onion_host (host s) /\ stub_text s s 5349 = Ok (Some (t ++ [64] ++ p)) /\
  names_host t (false, h) /\ h <> sa_ip s.
Proof.
  exists onion_sa, [55; 48; 56; 58; 57; 48; 97; 58; 58], [53; 51; 52; 57], ([7; 8; 9; 10] ++ repeat 0 12).
  split; [split; [apply bytes_ok_check; reflexivity|split; [reflexivity|cbn; lia]]|]. split; [split; vm_compute; reflexivity|].
  split; [vm_compute; reflexivity|]. split; [split; vm_compute; reflexivity|]. discriminate.
Qed.
(** C91, false for hsk_addrman_add_ip: hsk_addr_from_ip writes the right address and reports failure, so
    nothing is ever added by IP; the same address as a socket address is. *)
Theorem add_by_ip_never : forall (A : Type) (add : A -> addr -> bool * A) am s, sa_ok s ->
  snd (from_ip (sa_v4 s) (sa_ip s) (sa_port s)) = from_sa s /\
  add_ip add am (sa_v4 s) (sa_ip s) (sa_port s) = (false, am) /\ add_sa add am s = add am (from_sa s).
Proof. intros A add am s _. split; [reflexivity|]. split; reflexivity. Qed.
Theorem add_by_ip_refuted : exists (add : list addr -> addr -> bool * list addr) am s, sa_ok s /\
  add_sa add am s = (true, from_sa s :: am) /\ add_ip add am (sa_v4 s) (sa_ip s) (sa_port s) = (false, am).
Proof.
  exists (fun am a => (true, a :: am)), [], {| sa_v4 := true; sa_ip := [8; 8; 8; 8]; sa_port := 12038; sa_scope := None |}.
  split; [split; [apply bytes_ok_check; reflexivity|split; [reflexivity|cbn; lia]]|]. split; reflexivity.
Qed.

(* ---------- cases ---------- *)
Definition wild4 : sa := {| sa_v4 := true; sa_ip := [0; 0; 0; 0]; sa_port := 0; sa_scope := None |}.
Definition mapped_wild : sa := {| sa_v4 := false; sa_ip := repeat 0 10 ++ [255; 255; 0; 0; 0; 0]; sa_port := 53; sa_scope := Some 4 |}.
Definition wild6 : sa := {| sa_v4 := false; sa_ip := repeat 0 16; sa_port := 53; sa_scope := Some 0 |}.
Example wild_ok : sa_ok wild4 /\ sa_ok mapped_wild /\ sa_ok wild6 /\ ~ onion_host (host wild4) /\ ~ onion_host (host wild6).
Proof.
  assert (X : forall s, forallb (fun b => (0 <=? b) && (b <? 256)) (sa_ip s) = true -> length (sa_ip s) = (if sa_v4 s then 4 else 16)%nat -> 0 <= sa_port s < 65536 -> sa_ok s).
  { intros s B L P. split; [|split; [exact L|exact P]]. apply Forall_forall. intros x I. rewrite forallb_forall in B. specialize (B x I). unfold is_byte. lia. }
  split; [apply X; [reflexivity|reflexivity|cbn; lia]|]. split; [apply X; [reflexivity|reflexivity|cbn; lia]|]. split; [apply X; [reflexivity|reflexivity|cbn; lia]|].
  split; [intros [F _]; discriminate F|intros [_ F]; discriminate F].
Qed.
(** "127.0.0.1@5349", "127.0.0.1@53" and "::1@53" *)
Example stub_cases : stub_text wild4 wild4 5349 = Ok (Some [49; 50; 55; 46; 48; 46; 48; 46; 49; 64; 53; 51; 52; 57]) /\
  stub_text wild4 mapped_wild 5349 = Ok (Some [49; 50; 55; 46; 48; 46; 48; 46; 49; 64; 53; 51]) /\
  stub_text wild4 wild6 5349 = Ok (Some [58; 58; 49; 64; 53; 51]).
Proof. split; [|split]; vm_compute; reflexivity. Qed.
Example addr_round_trip_case : addr_ok (from_sa wild6) /\ from_sa (to_sa (from_sa wild6) None) = from_sa wild6.
Proof. split; [apply from_sa_ok; apply wild_ok|reflexivity]. Qed.

Print Assumptions socket_address_round_trip.
Print Assumptions address_round_trip.
Print Assumptions wildcard_to_loopback.
Print Assumptions resolver_text_partial.
Print Assumptions stub_names_root_server_partial.
Print Assumptions socket_text_round_trip_partial.
Print Assumptions resolver_text_injective_partial.
Print Assumptions stub_onion_refuted.
Print Assumptions add_by_ip_never.
Print Assumptions add_by_ip_refuted.
