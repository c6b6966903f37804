(** Which names a record can be given (C29): exactly those that can be written. *)
From Verif Require Import Common CommonFacts BioModel ProofFacts UtilTheorems DnsNameModel DnsNameSpec DnsNameFacts DnsNameTheorems DnsMsgModel DnsMsgSpec ReqTheorems.

Lemma ser_longer data base : forall s i prev lab out, fst (fst (ser_loop data base s i prev lab out None)) = true ->
  zlen out + (if match s with [] => true | _ => false end then 0 else 1) <= zlen (snd (fst (ser_loop data base s i prev lab out None))).
Proof.
  induction s as [|c s IH]; intros i prev lab out E; cbn [ser_loop] in *.
  - destruct (255 <? i); [discriminate E|]. destruct prev as [z|]; [|discriminate E]. destruct (Z.eq_dec z 46) as [->|N].
    + destruct (i =? 1); [cbn [fst snd]; lia|]. destruct (data && (256 <=? zlen out)); [discriminate E|]. cbn [fst snd]. rewrite zlen_app. change (zlen [0]) with 1. lia.
    + exfalso. destruct z as [|p|p]; try discriminate E. do 6 (destruct p as [p|p|]; try discriminate E; try (apply N; reflexivity)).
  - destruct (c =? 46) eqn:C.
    + destruct (match prev with Some 46 => true | _ => false end); [discriminate E|]. destruct (63 <? zlen lab); [discriminate E|]. destruct (data && (256 <? zlen out + 1 + zlen lab)); [discriminate E|].
      cbv zeta in *. specialize (IH _ _ _ _ E). rewrite !zlen_app in IH. change (zlen [zlen lab]) with 1 in IH. pose proof (zlen_nonneg (map wire_char lab)). destruct s; lia.
    + specialize (IH _ _ _ _ E). destruct s as [|d s]; [|lia]. exfalso. cbn [ser_loop] in E. destruct (255 <? i + 1); [discriminate E|]. apply Z.eqb_neq in C.
      destruct c as [|p|p]; try discriminate E. do 6 (destruct p as [p|p|]; try discriminate E; try (apply C; reflexivity)).
Qed.
(** The text with its last dot *)
Definition full (s : list Z) : list Z := if match s with [] => false | _ => last s 0 =? 46 end then s else s ++ [46].
Lemma full_ne s : full s <> [].
Proof. unfold full. destruct s as [|c s]; [discriminate|]. destruct (last (c :: s) 0 =? 46); discriminate. Qed.
Theorem name_verified_exactly s : noz s ->
  name_verify s = true <-> exists ls, (full s = dotted ls \/ (ls <> [] /\ full s = 46 :: dotted ls)) /\ Forall plabel ls /\ zlen (full s) <= 255.
Proof.
  intros Hs. assert (NF : noz (full s)). { unfold full. destruct (match s with [] => false | _ => last s 0 =? 46 end); [exact Hs|]. apply Forall_app. split; [exact Hs|]. constructor; [lia|constructor]. }
  rewrite <- (serialize_accepts false 0 _ NF). unfold name_verify. change (if name_is_fqdn s then s else s ++ [46]) with (full s).
  assert (OK : fst (fst (name_serialize false 0 (full s) None)) = true -> zlen (full s) <= 255) by (intros E; apply (serialize_accepts false 0 _ NF) in E as (ls & _ & _ & L); exact L).
  assert (P : negb (name_pack false (full s) =? 0) = fst (fst (name_serialize false 0 (full s) None))).
  { unfold name_pack. pose proof (ser_longer false 0 (full s) 0 None [] []) as G. unfold name_serialize. pose proof (full_ne s) as NE.
    destruct (ser_loop false 0 (full s) 0 None [] [] None) as [[ok out] m]. cbn [fst snd] in *. destruct ok; [|reflexivity]. specialize (G eq_refl). destruct (full s); [congruence|].
    change (zlen (@nil Z)) with 0 in G. destruct (Z.eqb_spec (zlen out) 0); [lia|reflexivity]. }
  rewrite P. destruct (negb (name_is_fqdn s) && (255 <? zlen s + 1)) eqn:B.
  - apply andb_true_iff in B as [B1 B2]. apply negb_true_iff in B1. apply Z.ltb_lt in B2. split; [discriminate|]. intros E. specialize (OK E). exfalso. unfold full in OK. change (match s with [] => false | _ => last s 0 =? 46 end) with (name_is_fqdn s) in OK. rewrite B1, zlen_app in OK. change (zlen [46]) with 1 in OK. lia.
  - destruct (Z.ltb_spec 255 (zlen (full s))) as [L|L]; [|reflexivity]. split; [discriminate|]. intros E. specialize (OK E). lia.
Qed.
Print Assumptions name_verified_exactly.
(** A record takes a name exactly when it can be written and has none of the characters of
    zone files; it keeps the name with its last dot and nothing else changes *)
Theorem record_named r s r' : noz s ->
  rr_set_name r s = Some r' <->
  (exists ls, (full s = dotted ls \/ (ls <> [] /\ full s = 46 :: dotted ls)) /\ Forall plabel ls /\ zlen (full s) <= 255) /\
  Forall (fun c => 33 <= c <= 126 /\ ~ In c [34; 40; 41; 59; 64; 92]) s /\
  r' = {| r_name := full s; r_type := r_type r; r_class := r_class r; r_ttl := r_ttl r; r_rd := r_rd r |}.
Proof.
  intros Hs. rewrite <- name_verified_exactly by exact Hs. unfold rr_set_name. change (if name_is_fqdn s then s else s ++ [46]) with (full s).
  assert (D : name_dirty s = false <-> Forall (fun c => 33 <= c <= 126 /\ ~ In c [34; 40; 41; 59; 64; 92]) s).
  { unfold name_dirty. clear Hs. induction s as [|c s IH]; [split; [constructor|reflexivity]|]. cbn [existsb]. rewrite orb_false_iff, IH, Forall_cons_iff.
    assert (X : dirty_char c = false <-> 33 <= c <= 126 /\ ~ In c [34; 40; 41; 59; 64; 92]); [|tauto]. unfold dirty_char. cbn [In]. rewrite !orb_false_iff, !Z.eqb_neq, !Z.ltb_ge. lia. }
  destruct (name_verify s); cbn [negb]; [|split; [discriminate|intros (X & _); discriminate X]].
  destruct (name_dirty s).
  - split; [discriminate|]. intros (_ & X & _). apply D in X. discriminate X.
  - split; [intros X; injection X as <-; split; [reflexivity|split; [now apply D|reflexivity]]|]. intros (_ & _ & ->). reflexivity.
Qed.
Print Assumptions record_named.
Example ex_named r : exists r', rr_set_name r [97; 46; 98] = Some r' /\ r_name r' = [97; 46; 98; 46].
Proof. eexists. split; reflexivity. Qed.
(** [a.b] and [.a.b.] are taken, [a..b] is not *)
Example ex_verified : name_verify [97; 46; 98] = true /\ name_verify [46; 97; 46; 98; 46] = true /\ name_verify [97; 46; 46; 98] = false /\ name_verify [] = true /\ name_verify (repeat 97 64) = false.
Proof. repeat split; reflexivity. Qed.
