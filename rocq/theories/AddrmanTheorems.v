(** The table of addresses: bounded, consistent, exact; bans; the choice of an address. *)
From Coq Require Import Permutation.
From Verif Require Import Common CommonFacts ProofFacts MapModel AddrModel AddrTheorems AddrmanModel AddrmanFacts.

Lemma pow64 : 2 ^ 64 = 18446744073709551616. Proof. reflexivity. Qed.
Ltac u64s := unfold u64 in *; rewrite ?pow64 in *.

(* ---------- lookups ---------- *)
(** C49. A lookup finds the slot of the address, if there is one. *)
Theorem lookup_exact : forall am a, am_ok am ->
  (forall i, am_get am a = Some i <-> exists e, nth_error (am_slots am) i = Some e /\ same (e_addr e) a) /\
  (am_get am a = None <-> forall e, In e (am_slots am) -> ~ same (e_addr e) a).
Proof. intros am a K. split; [intros i; apply get_iff; exact K|apply get_none; exact K]. Qed.

(* ---------- adding ---------- *)
(** Seeing an address again: what may change is the time, the services and the number of
    references. *)
Theorem seen_again_exact : forall rnd now na src e, 1 <= e_ref e <= 8 -> 0 <= e_time e < 2 ^ 64 ->
  93600 <= na_time na < 2 ^ 63 -> 0 <= now < 2 ^ 63 ->
  let gap := (if na_time na <=? now then if now - na_time na <? 86400 then 3600 else 86400 else 86400) + (if src : bool then 7200 else 0) in
  exists e' r, see_again rnd now na src e = Ok (e', r) /\
    e_addr e' = e_addr e /\ e_attempts e' = e_attempts e /\ e_success e' = e_success e /\ e_attempt e' = e_attempt e /\
    e_used e' = e_used e /\ e_removed e' = e_removed e /\
    e_services e' = Z.lor (e_services e) (na_services na) /\
    e_time e' = (if e_time e + gap <? na_time na then na_time na else e_time e) /\
    e_ref e' = e_ref e + (if r then 1 else 0) /\
    (r = true <-> e_time e < na_time na <= e_time e + gap /\ e_used e = false /\ e_ref e < 8 /\ rnd 0%nat mod 2 ^ e_ref e = 0).
Proof.
  intros rnd now na src e Hr Ht Hn Hw gap. unfold see_again.
  assert (I : (if u64 (now - na_time na) <? 86400 then 3600 else 86400) = (if na_time na <=? now then if now - na_time na <? 86400 then 3600 else 86400 else 86400)).
  { u64s. change (2 ^ 63) with 9223372036854775808 in *. destruct (Z.leb_spec (na_time na) now).
    - rewrite Z.mod_small by lia. reflexivity.
    - replace ((now - na_time na) mod 18446744073709551616) with (now - na_time na + 18446744073709551616)
        by (apply (Z.mod_unique _ _ (-1)); lia).
      replace (now - na_time na + 18446744073709551616 <? 86400) with false by lia. reflexivity. }
  rewrite I. clear I. set (itv := if na_time na <=? now then _ else _) in *.
  assert (Hi : itv = 3600 \/ itv = 86400) by (unfold itv; destruct (na_time na <=? now); auto; destruct (now - na_time na <? 86400); auto).
  assert (U : u64 (na_time na - itv - (if src then 7200 else 0)) = na_time na - gap).
  { u64s. change (2 ^ 63) with 9223372036854775808 in *. unfold gap. rewrite Z.mod_small; destruct src; lia. }
  rewrite U. assert (Hg : 0 < gap <= 93600) by (unfold gap; destruct src; lia).
  replace (e_time e <? na_time na - gap) with (e_time e + gap <? na_time na) by lia.
  set (t := if e_time e + gap <? na_time na then na_time na else e_time e).
  assert (T : t = if e_time e + gap <? na_time na then na_time na else e_time e) by reflexivity.
  replace (0 <? e_ref e) with true by lia. cbn [negb].
  destruct (Z.ltb_spec (e_time e + gap) (na_time na)) as [Q|Q].
  - replace (negb (t =? 0) && (na_time na <=? t)) with true by lia. eexists _, false. split; [reflexivity|]. cbn.
    do 9 (split; [first [reflexivity|exact T|lia]|]). split; [discriminate|]. intros X. lia.
  - destruct (negb (t =? 0) && (na_time na <=? t)) eqn:C1.
    { eexists _, false. split; [reflexivity|]. cbn. do 9 (split; [first [reflexivity|exact T|lia]|]). split; [discriminate|]. intros X. lia. }
    assert (Lt : e_time e < na_time na) by lia.
    destruct (e_used e) eqn:U1.
    { eexists _, false. split; [reflexivity|]. cbn. do 9 (split; [first [reflexivity|exact T|lia|assumption]|]). split; [discriminate|]. intros (_ & X & _). discriminate X. }
    destruct (Z.eqb_spec (e_ref e) 8) as [R8|R8].
    { eexists _, false. split; [reflexivity|]. cbn. do 9 (split; [first [reflexivity|exact T|lia|assumption]|]). split; [discriminate|]. intros X. lia. }
    replace (e_ref e <? 8) with true by lia. cbn [negb].
    destruct (Z.eqb_spec (rnd 0%nat mod 2 ^ e_ref e) 0) as [R0|R0]; cbn [negb].
    + eexists _, true. split; [reflexivity|]. cbn. do 9 (split; [first [reflexivity|exact T|lia|assumption]|]). split; [|reflexivity]. intros _.
      repeat split; auto; lia.
    + eexists _, false. split; [reflexivity|]. cbn. do 9 (split; [first [reflexivity|exact T|lia|assumption]|]). split; [discriminate|]. intros X. lia.
Qed.
(** In any case only these fields change, and no assertion fails. *)
Lemma see_again_ok rnd now na src e : 1 <= e_ref e <= 8 ->
  exists e' r, see_again rnd now na src e = Ok (e', r) /\ e_addr e' = e_addr e /\ e_attempts e' = e_attempts e /\
    e_used e' = e_used e /\ e_removed e' = e_removed e /\ 1 <= e_ref e' <= 8.
Proof.
  intros Hr. unfold see_again. replace (0 <? e_ref e) with true by lia. cbn [negb].
  match goal with |- context [if negb (?t =? 0) && _ then _ else _] => set (tm := t) end.
  destruct (negb (tm =? 0) && (na_time na <=? tm)); [eexists _, _; split; [reflexivity|cbn; repeat split; lia]|].
  destruct (e_used e) eqn:U; [eexists _, _; split; [reflexivity|cbn; repeat split; auto; lia]|].
  destruct (Z.eqb_spec (e_ref e) 8); [eexists _, _; split; [reflexivity|cbn; repeat split; auto; lia]|].
  replace (e_ref e <? 8) with true by lia. cbn [negb].
  destruct (negb _); eexists _, _; (split; [reflexivity|cbn; repeat split; auto; lia]).
Qed.

(** C49. What adding does, for every state of the table and all random numbers: an address
    that is there is seen again; a new one gets a new slot as long as there are fewer than
    2000; then it takes the place of the first of ten random slots that is stale, if any. *)
Definition with_slots (am am' : addrman) (s : list entry) : Prop := am_slots am' = s /\ am_bans am' = am_bans am.
Theorem adding_exact : forall fb rnd now am na src, 0 <= fb < 65536 -> am_ok am -> addr_wf (na_addr na) ->
  exists am' r, add_entry fb true rnd now am na src = Ok (am', r) /\ am_ok am' /\
  ((exists i e e', nth_error (am_slots am) i = Some e /\ same (e_addr e) (na_addr na) /\
      see_again rnd now na src e = Ok (e', r) /\ with_slots am am' (set_slot (am_slots am) i e')) \/
   (forall e, In e (am_slots am) -> ~ same (e_addr e) (na_addr na)) /\
   ((am_size am < 2000 /\ r = true /\ with_slots am am' (am_slots am ++ [fresh na])) \/
    (am_size am = 2000 /\ r = false /\ am' = am /\
       forall j e, (j < 10)%nat -> nth_error (am_slots am) (Z.to_nat (rnd j mod 2000)) = Some e -> is_stale now e = false) \/
    (am_size am = 2000 /\ r = true /\ exists j e, (j < 10)%nat /\ nth_error (am_slots am) (Z.to_nat (rnd j mod 2000)) = Some e /\ is_stale now e = true /\
       (forall j' e', (j' < j)%nat -> nth_error (am_slots am) (Z.to_nat (rnd j' mod 2000)) = Some e' -> is_stale now e' = false) /\
       with_slots am am' (set_slot (am_slots am) (Z.to_nat (rnd j mod 2000)) (fresh na))))).
Proof.
  intros fb rnd now am na src Hfb K W. unfold add_entry.
  destruct (host_text_safe (na_addr na) 128 fb W Hfb) as (o & -> & _). cbn [obind].
  destruct (am_get am (na_addr na)) as [i|] eqn:G.
  - apply (get_iff am _ i K) in G as (e & N & S). rewrite N. pose proof (ok_entries _ K) as F. rewrite Forall_forall in F.
    destruct (F e (nth_error_In _ _ N)) as (We & Hr & Ha).
    destruct (see_again_ok rnd now na src e Hr) as (e' & r & E & A & At & _ & _ & Hr'). rewrite E. cbn [obind].
    eexists _, r. split; [reflexivity|]. split.
    + apply (put_slot_ok am i e e' K N A). split; [rewrite A; exact We|]. split; [exact Hr'|]. rewrite At. exact Ha.
    + left. exists i, e, e'. repeat split; auto. apply S. apply S. apply S.
  - pose proof (proj1 (get_none am (na_addr na) K) G) as Nn. unfold alloc_entry, addr_max. pose proof (ok_size _ K) as Sz.
    destruct (Z.eqb_spec (am_size am) 2000) as [E2|E2].
    + assert (Ne : am_slots am <> []) by (intros X; unfold am_size in E2; rewrite X in E2; vm_compute in E2; discriminate E2).
      change (zlen (am_slots am)) with (am_size am) in *. rewrite E2. change (Z.to_nat (Z.min 2000 10)) with 10%nat.
      pose proof (stale_slot_spec 10 rnd now (am_slots am) Ne 0%nat) as SS. change (zlen (am_slots am)) with (am_size am) in SS. rewrite E2 in SS.
      destruct (stale_slot 10 rnd 0 now (am_slots am)) as [i|].
      * destruct SS as (j & e & Hj & Ei & N & St & Bf). rewrite N. cbn [am_slots am_map am_bans negb]. eexists _, true. split; [reflexivity|]. split.
        -- apply (reuse_ok am na i e K W G N).
        -- right. split; [exact Nn|]. right. right. split; [first [reflexivity|exact E2]|]. split; [reflexivity|]. exists j, e. subst i. repeat split; auto; try lia.
           intros j' e' H N'. apply (Bf j' e'); auto. lia.
      * eexists _, false. split; [reflexivity|]. split; [exact K|]. right. split; [exact Nn|]. right. left. repeat split; auto.
        intros j e Hj N. apply (SS j e); auto. lia.
    + cbn [negb]. eexists _, true. split; [reflexivity|]. split.
      * apply push_ok; auto. lia.
      * right. split; [exact Nn|]. left. split; [lia|]. repeat split.
Qed.

(** Without memory for the hash table an address whose slot was taken over is not found any
    more: it can be added a second time. *)
Lemma wf_zero k p : 0 <= p < 65536 -> addr_wf {| a_type := 0; a_ip := v4 1 1 (k / 256 mod 256) (k mod 256) ++ zeros 20; a_port := p; a_key := zeros 33 |}.
Proof.
  intros Hp. assert (Z0 : forall n, bytes_ok (zeros n)).
  { intros n. apply Forall_forall. intros x X. apply repeat_spec in X. subst x. unfold is_byte. lia. }
  repeat split; cbn [a_ip a_key a_port]; auto; try lia. unfold v4. rewrite <- app_assoc. apply bytes_ok_app. split; [apply Z0|].
  cbn [app]. repeat (apply Forall_cons; [unfold is_byte; lia|]). first [apply Z0|apply Forall_nil].
Qed.
Definition nth_addr (k : Z) : addr := {| a_type := 0; a_ip := v4 1 1 (k / 256 mod 256) (k mod 256) ++ zeros 20; a_port := 12038; a_key := zeros 33 |}.
Definition full_table : addrman :=
  {| am_slots := map (fun k => fresh {| na_time := 1; na_services := 1; na_addr := nth_addr (Z.of_nat k) |}) (seq 0 2000);
     am_map := seq 0 2000; am_bans := [] |}.
Definition newcomer : netaddr := {| na_time := 1600000000; na_services := 1; na_addr := nth_addr 60000 |}.
Lemma full_table_ok : am_ok full_table.
Proof.
  assert (Addr : forall i e, nth_error (am_slots full_table) i = Some e -> (i < 2000)%nat /\ e = fresh {| na_time := 1; na_services := 1; na_addr := nth_addr (Z.of_nat i) |}).
  { intros i e E. cbn [full_table am_slots] in E. assert (L : (i < 2000)%nat).
    { assert (X : (i < length (map (fun k => fresh {| na_time := 1; na_services := 1; na_addr := nth_addr (Z.of_nat k) |}) (seq 0 2000)))%nat) by (apply nth_error_Some; congruence).
      rewrite map_length, seq_length in X. exact X. }
    split; [exact L|]. assert (S : nth_error (seq 0 2000) i = Some i).
    { rewrite (nth_error_nth' _ 0%nat) by (rewrite seq_length; exact L). rewrite seq_nth by exact L. reflexivity. }
    rewrite (map_nth_error _ _ _ S) in E. congruence. }
  constructor.
  - unfold am_size, full_table, zlen. cbn [am_slots]. rewrite map_length, seq_length. vm_compute. discriminate.
  - cbn [full_table am_slots am_map]. rewrite map_length, seq_length. reflexivity.
  - intros i j e f Ei Ej S. apply Addr in Ei as [Li ->]. apply Addr in Ej as [Lj ->]. destruct S as (_ & S & _). cbn [fresh e_addr na_addr nth_addr a_ip] in S.
    unfold v4 in S. rewrite <- !app_assoc in S. apply app_inv_head in S. cbn [app] in S. injection S as S1 S2. lia.
  - apply Forall_forall. intros e I. apply In_nth_error in I as [i I]. apply Addr in I as [Li ->]. apply entry_fresh. apply wf_zero. lia.
Qed.
(** The table keeps one slot per address; refuted when memory runs out. *)
Theorem one_slot_per_address_refuted : exists am1 am2,
  add_entry 44806 false (fun _ => 7) 1600000000 full_table newcomer true = Ok (am1, false) /\
  add_entry 44806 true (fun _ => 8) 1600000000 am1 newcomer true = Ok (am2, true) /\
  nth_error (am_slots am2) 7 = Some (fresh newcomer) /\ nth_error (am_slots am2) 8 = Some (fresh newcomer).
Proof. eexists. eexists. split; [vm_compute; reflexivity|]. split; [vm_compute; reflexivity|]. split; vm_compute; reflexivity. Qed.

(* ---------- marking ---------- *)
(** Only the entry of the address changes. *)
Lemma on_entry_spec am a f : am_ok am ->
  (forall e, In e (am_slots am) -> exists e' r, f e = Ok (e', r) /\ e_addr e' = e_addr e /\ entry_ok e') ->
  exists am' r, on_entry am a f = Ok (am', r) /\ am_ok am' /\ am_bans am' = am_bans am /\
    ((exists i e e', nth_error (am_slots am) i = Some e /\ same (e_addr e) a /\ f e = Ok (e', r) /\ am_slots am' = set_slot (am_slots am) i e') \/
     (forall e, In e (am_slots am) -> ~ same (e_addr e) a) /\ am' = am /\ r = false).
Proof.
  intros K F. unfold on_entry. destruct (am_get am a) as [i|] eqn:G.
  - apply (get_iff am a i K) in G as (e & N & S). rewrite N. destruct (F e (nth_error_In _ _ N)) as (e' & r & E & A & Ke). rewrite E. cbn [obind].
    eexists _, r. split; [reflexivity|]. split; [apply (put_slot_ok am i e e' K N A Ke)|]. split; [reflexivity|]. left. exists i, e, e'. auto.
  - exists am, false. split; [reflexivity|]. split; [exact K|]. split; [reflexivity|]. right. split; [apply (get_none am a K); exact G|auto].
Qed.
Inductive mark := Removed | Attempted | Succeeded | Acked (services : Z).
Definition do_mark (m : mark) (now : Z) (am : addrman) (a : addr) : outcome (addrman * bool) :=
  match m with
  | Removed => remove_addr am a
  | Attempted => mark_attempt now am a
  | Succeeded => mark_success now am a
  | Acked s => mark_ack now am a s
  end.
(** What each of the four writes in the entry *)
Definition marked (m : mark) (now : Z) (e e' : entry) (r : bool) : Prop :=
  e_addr e' = e_addr e /\ e_ref e' = e_ref e /\
  match m with
  | Removed => r = true /\ e_removed e' = true /\ e_time e' = e_time e /\ e_services e' = e_services e /\ e_attempts e' = e_attempts e /\
      e_success e' = e_success e /\ e_attempt e' = e_attempt e /\ e_used e' = e_used e
  | Attempted => r = true /\ e_attempts e' = e_attempts e + 1 /\ e_attempt e' = now /\ e_time e' = e_time e /\ e_services e' = e_services e /\
      e_success e' = e_success e /\ e_used e' = e_used e /\ e_removed e' = e_removed e
  | Succeeded => (r = true <-> e_time e < now - 1200 \/ now < e_time e) /\ e_time e' = (if r then now else e_time e) /\ e_services e' = e_services e /\
      e_attempts e' = e_attempts e /\ e_success e' = e_success e /\ e_attempt e' = e_attempt e /\ e_used e' = e_used e /\ e_removed e' = e_removed e
  | Acked s => r = true /\ e_services e' = Z.lor (e_services e) s /\ e_attempts e' = 0 /\ e_success e' = now /\ e_attempt e' = now /\ e_used e' = true /\
      e_time e' = e_time e /\ e_removed e' = e_removed e
  end.
(** C49. A mark changes the entry of its address, as said above, and nothing else. *)
Theorem marking_exact : forall m now am a, am_ok am -> 0 <= now < 2 ^ 63 ->
  Forall (fun e => e_attempts e < 2147483647 /\ 0 <= e_time e < 2 ^ 63) (am_slots am) ->
  exists am' r, do_mark m now am a = Ok (am', r) /\ am_ok am' /\ am_bans am' = am_bans am /\
    ((exists i e e', nth_error (am_slots am) i = Some e /\ same (e_addr e) a /\ marked m now e e' r /\ am_slots am' = set_slot (am_slots am) i e') \/
     (forall e, In e (am_slots am) -> ~ same (e_addr e) a) /\ am' = am /\ r = false).
Proof.
  intros m now am a K Hn F. pose proof (ok_entries _ K) as Ke. rewrite Forall_forall in F, Ke. change (2 ^ 63) with 9223372036854775808 in *.
  assert (G : forall f, do_mark m now am a = on_entry am a f ->
    (forall e, In e (am_slots am) -> exists e' r, f e = Ok (e', r) /\ entry_ok e' /\ marked m now e e' r) ->
    exists am' r, do_mark m now am a = Ok (am', r) /\ am_ok am' /\ am_bans am' = am_bans am /\
    ((exists i e e', nth_error (am_slots am) i = Some e /\ same (e_addr e) a /\ marked m now e e' r /\ am_slots am' = set_slot (am_slots am) i e') \/
     (forall e, In e (am_slots am) -> ~ same (e_addr e) a) /\ am' = am /\ r = false)).
  { intros f E H. rewrite E. destruct (on_entry_spec am a f K) as (am' & r & E1 & K1 & B & C).
    - intros e I. destruct (H e I) as (e' & r & E1 & Ke1 & M). exists e', r. split; [exact E1|]. split; [apply M|exact Ke1].
    - exists am', r. repeat (split; [assumption|]). destruct C as [(i & e & e' & N & S & Ef & Sl)|C]; [|right; exact C]. left. exists i, e, e'.
      destruct (H e (nth_error_In _ _ N)) as (e1 & r1 & Ef1 & _ & M). rewrite Ef in Ef1. injection Ef1 as <- <-. auto. }
  destruct m as [| | |s].
  - eapply G; [reflexivity|]. intros e I. destruct (Ke e I) as (W & R & A). eexists _, _. split; [reflexivity|]. split; [split; [exact W|cbn; auto]|]. repeat split.
  - eapply G; [reflexivity|]. intros e I. destruct (Ke e I) as (W & R & A), (F e I) as [Q _]. cbv beta. replace (e_attempts e =? 2147483647) with false by lia.
    eexists _, _. split; [reflexivity|]. split; [split; [exact W|cbn; split; [exact R|lia]]|]. repeat split.
  - eapply G; [reflexivity|]. intros e I. destruct (Ke e I) as (W & R & A), (F e I) as [_ T]. cbv beta.
    assert (X : 1200 <? u64 (now - e_time e) = ((e_time e <? now - 1200) || (now <? e_time e))).
    { u64s. destruct (Z.ltb_spec now (e_time e)).
      - replace ((now - e_time e) mod 18446744073709551616) with (now - e_time e + 18446744073709551616) by (apply (Z.mod_unique _ _ (-1)); lia). lia.
      - rewrite Z.mod_small by lia. lia. }
    rewrite X. destruct (_ || _) eqn:O.
    + eexists _, _. split; [reflexivity|]. split; [split; [exact W|cbn; auto]|]. split; [reflexivity|]. split; [reflexivity|]. cbn. split; [split; [lia|reflexivity]|].
      u64s. rewrite Z.mod_small by lia. repeat split.
    + eexists _, _. split; [reflexivity|]. split; [exact (Ke e I)|]. split; [reflexivity|]. split; [reflexivity|]. split; [split; [discriminate|lia]|]. repeat split.
  - eapply G; [reflexivity|]. intros e I. destruct (Ke e I) as (W & R & A). eexists _, _. split; [reflexivity|]. split; [split; [exact W|cbn; split; [exact R|lia]]|]. repeat split.
Qed.

(** C49. When a slot may be taken over: never within a minute of an attempt; else when not
    seen for thirty days, or three attempts failed and none ever worked, or ten since one
    worked a week ago or more. *)
Theorem stale_exactly : forall now e, 0 <= now < 2 ^ 63 -> 0 <= e_time e <= now ->
  is_stale now e = true <->
  (e_attempt e = 0 \/ e_attempt e < now - 60) /\
  (e_time e = 0 \/ e_time e < now - 2592000 \/ (e_success e = 0 /\ 3 <= e_attempts e) \/ (e_success e < now - 604800 /\ 10 <= e_attempts e)).
Proof.
  intros now e Hn Ht. unfold is_stale. change (2 ^ 63) with 9223372036854775808 in *. u64s. rewrite !Z.mod_small by lia.
  destruct (negb (e_attempt e =? 0) && (now - 60 <=? e_attempt e)) eqn:A; [split; [discriminate|lia]|].
  replace (now + 600 <? e_time e) with false by lia.
  destruct (Z.eqb_spec (e_time e) 0); [split; [lia|reflexivity]|].
  destruct (Z.ltb_spec 2592000 (now - e_time e)); [split; [lia|reflexivity]|].
  destruct ((e_success e =? 0) && (3 <=? e_attempts e)) eqn:B; [split; [lia|reflexivity]|].
  destruct (Z.ltb_spec 604800 (now - e_success e)); [split; lia|]. split; [discriminate|lia].
Qed.
(** An address seen a few minutes ahead of our clock is fresh: refuted. *)
Theorem fresh_not_stale_refuted : exists now e, now < e_time e <= now + 600 /\ e_attempts e = 0 /\ is_stale now e = true.
Proof.
  exists 1600000000, (fresh {| na_time := 1600000001; na_services := 1; na_addr := nth_addr 1 |}). split; [vm_compute; split; congruence|]. split; reflexivity.
Qed.

(* ---------- bans ---------- *)
Lemma ban_find_same l a b : same a b -> ban_find l a = ban_find l b.
Proof.
  intros S. induction l as [|[c t] l IH]; [reflexivity|]. cbn. replace (addr_equal c b) with (addr_equal c a).
  { destruct (addr_equal c a); auto. }
  destruct (addr_equal c a) eqn:E; symmetry.
  - apply eq_same. apply eq_same in E. eapply same_trans; eauto.
  - apply eq_not. apply eq_not in E. intros X. apply E. eapply same_trans; [exact X|apply same_sym; exact S].
Qed.
Lemma ban_find_put l a t b : ban_find (ban_put l a t) b = if addr_equal a b then Some t else ban_find l b.
Proof.
  induction l as [|[c u] l IH]; cbn [ban_put ban_find].
  - reflexivity.
  - destruct (addr_equal c a) eqn:Ca; cbn [ban_find].
    + apply eq_same in Ca. destruct (addr_equal c b) eqn:Cb.
      * apply eq_same in Cb. replace (addr_equal a b) with true; [reflexivity|]. symmetry. apply eq_same. eapply same_trans; [apply same_sym; exact Ca|exact Cb].
      * apply eq_not in Cb. replace (addr_equal a b) with false; [reflexivity|]. symmetry. apply eq_not. intros X. apply Cb. eapply same_trans; eauto.
    + rewrite IH. destruct (addr_equal c b) eqn:Cb; [|reflexivity]. apply eq_not in Ca. apply eq_same in Cb.
      replace (addr_equal a b) with false; [reflexivity|]. symmetry. apply eq_not. intros X. apply Ca. eapply same_trans; [exact Cb|apply same_sym; exact X].
Qed.
Definition bans_distinct (l : list (addr * Z)) : Prop := forall a, (length (filter (fun p => addr_equal (fst p) a) l) <= 1)%nat.
Lemma filter_none a l : ban_find l a = None <-> filter (fun p => addr_equal (fst p) a) l = [].
Proof.
  induction l as [|[c t] l IH]; cbn; [tauto|]. destruct (addr_equal c a); [split; discriminate|exact IH].
Qed.
Lemma ban_find_drop l a b : bans_distinct l -> ban_find (ban_drop l a) b = if addr_equal a b then None else ban_find l b.
Proof.
  induction l as [|[c u] l IH]; intros D; cbn [ban_drop ban_find].
  - destruct (addr_equal a b); reflexivity.
  - assert (Dl : bans_distinct l) by (intros x; specialize (D x); cbn in D; destruct (addr_equal c x); cbn in D; lia).
    destruct (addr_equal c a) eqn:Ca; cbn [ban_find].
    + apply eq_same in Ca. destruct (addr_equal a b) eqn:Ab.
      * apply eq_same in Ab. apply filter_none. specialize (D b). cbn in D.
        replace (addr_equal c b) with true in D by (symmetry; apply eq_same; eapply same_trans; eauto). cbn in D.
        destruct (filter (fun p => addr_equal (fst p) b) l); [reflexivity|cbn in D; lia].
      * apply eq_not in Ab. replace (addr_equal c b) with false; [reflexivity|]. symmetry. apply eq_not. intros X. apply Ab. eapply same_trans; [apply same_sym; exact Ca|exact X].
    + rewrite (IH Dl). destruct (addr_equal c b) eqn:Cb; [|reflexivity]. apply eq_not in Ca. apply eq_same in Cb.
      replace (addr_equal a b) with false; [reflexivity|]. symmetry. apply eq_not. intros X. apply Ca. eapply same_trans; [exact Cb|apply same_sym; exact X].
Qed.
Lemma filter_put l a t x : length (filter (fun p => addr_equal (fst p) x) (ban_put l a t)) =
  match ban_find l a with Some _ => length (filter (fun p => addr_equal (fst p) x) l) | None => (length (filter (fun p => addr_equal (fst p) x) l) + (if addr_equal a x then 1 else 0))%nat end.
Proof.
  induction l as [|[c u] l IH]; cbn.
  - destruct (addr_equal a x); reflexivity.
  - destruct (addr_equal c a) eqn:Ca; cbn.
    + destruct (addr_equal c x); reflexivity.
    + destruct (addr_equal c x); cbn; rewrite IH; destruct (ban_find l a); reflexivity.
Qed.
Lemma bans_put l a t : bans_distinct l -> bans_distinct (ban_put l a t).
Proof.
  intros D x. rewrite filter_put. destruct (ban_find l a) eqn:E; [apply D|]. destruct (addr_equal a x) eqn:Ax; [|specialize (D x); lia].
  apply eq_same in Ax. rewrite (ban_find_same _ _ _ Ax) in E. apply filter_none in E. rewrite E. cbn. lia.
Qed.
Lemma bans_drop l a : bans_distinct l -> bans_distinct (ban_drop l a).
Proof.
  intros D x. enough (length (filter (fun p => addr_equal (fst p) x) (ban_drop l a)) <= length (filter (fun p => addr_equal (fst p) x) l))%nat by (specialize (D x); lia).
  clear D. induction l as [|[c u] l IH]; [cbn; lia|]. cbn [ban_drop]. destruct (addr_equal c a); cbn; destruct (addr_equal c x); cbn; lia.
Qed.
(** The bans of a run, and when an address was banned last *)
Inductive ban_op := Ban (clock : Z) (a : addr) | Ask (clock : Z) (a : addr) | Clear.
Definition ban_step (am : addrman) (o : ban_op) : addrman :=
  match o with Ban c a => fst (add_ban true c am a) | Ask c a => fst (is_banned c am a) | Clear => clear_banned am end.
(** The time of the last ban since all were cleared; a ban that was found over by a question
    is gone. *)
Fixpoint last_ban (a : addr) (ops : list ban_op) (cur : option Z) : option Z :=
  match ops with
  | [] => cur
  | Ban c b :: r => last_ban a r (if addr_equal b a then Some c else cur)
  | Ask c b :: r => last_ban a r (if addr_equal b a then match cur with Some t => if c <=? t + 86400 then cur else None | None => None end else cur)
  | Clear :: r => last_ban a r None
  end.
(** C50. An address is banned for a day from the last time it was banned. *)
Theorem bans_last_a_day : forall ops am a clock, bans_distinct (am_bans am) ->
  let am' := fold_left ban_step ops am in
  am_slots am' = am_slots am /\ am_map am' = am_map am /\
  (snd (is_banned clock am' a) = true <-> exists t, last_ban a ops (ban_find (am_bans am) a) = Some t /\ clock <= t + 86400).
Proof.
  intros ops am a clock D. cbv zeta.
  assert (G : forall ops am, bans_distinct (am_bans am) ->
    am_slots (fold_left ban_step ops am) = am_slots am /\ am_map (fold_left ban_step ops am) = am_map am /\
    ban_find (am_bans (fold_left ban_step ops am)) a = last_ban a ops (ban_find (am_bans am) a)).
  { clear. induction ops as [|o ops IH]; intros am D; [auto|]. cbn [fold_left last_ban].
    assert (X : bans_distinct (am_bans (ban_step am o)) /\ am_slots (ban_step am o) = am_slots am /\ am_map (ban_step am o) = am_map am).
    { destruct o as [c b|c b|]; cbn [ban_step].
      - unfold add_ban. destruct (ban_find (am_bans am) b); cbn; split; auto using bans_put.
      - unfold is_banned. destruct (ban_find (am_bans am) b); [|cbn; auto]. destruct (_ <? c); cbn; auto using bans_drop.
      - cbn. split; [intros x; cbn; lia|auto]. }
    destruct X as (D' & S & M). destruct (IH _ D') as (S2 & M2 & B). rewrite S2, M2, S, M, B. repeat (split; [reflexivity|]).
    destruct o as [c b|c b|]; cbn [ban_step]; [f_equal..|reflexivity].
    - unfold add_ban. destruct (ban_find (am_bans am) b); cbn; rewrite ban_find_put; reflexivity.
    - unfold is_banned, ban_time. destruct (addr_equal b a) eqn:Ba.
      + apply eq_same in Ba. rewrite (ban_find_same _ _ _ Ba). destruct (ban_find (am_bans am) a) as [t|] eqn:E; [|cbn; exact E].
        destruct (Z.ltb_spec (t + 86400) c).
        * replace (c <=? t + 86400) with false by lia. cbn. rewrite (ban_find_drop _ _ _ D). apply eq_same in Ba. rewrite Ba. reflexivity.
        * replace (c <=? t + 86400) with true by lia. cbn. exact E.
      + destruct (ban_find (am_bans am) b); [|reflexivity]. destruct (_ <? c); [|reflexivity]. cbn. rewrite (ban_find_drop _ _ _ D), Ba. reflexivity. }
  destruct (G ops am D) as (S & M & B). split; [exact S|]. split; [exact M|]. unfold is_banned, ban_time. rewrite B.
  destruct (last_ban a ops (ban_find (am_bans am) a)) as [t|].
  - destruct (Z.ltb_spec (t + 86400) clock); cbn; split; try discriminate; auto.
    + intros (u & U & L). injection U as <-. lia.
    + intros _. exists t. auto.
  - cbn. split; [discriminate|]. intros (t & T & _). discriminate T.
Qed.

Print Assumptions lookup_exact.
Print Assumptions seen_again_exact.
Print Assumptions adding_exact.
Print Assumptions one_slot_per_address_refuted.
Print Assumptions marking_exact.
Print Assumptions stale_exactly.
Print Assumptions fresh_not_stale_refuted.
Print Assumptions bans_last_a_day.
