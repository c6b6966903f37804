(** Facts about the table of addresses. *)
From Coq Require Import Permutation.
From Verif Require Import Common CommonFacts MapModel AddrModel AddrTheorems AddrmanModel.

(* ---------- equality of addresses ---------- *)
Definition same (x y : addr) : Prop := a_type x = a_type y /\ a_ip x = a_ip y /\ a_port x = a_port y.
Lemma same_refl x : same x x.
Proof. repeat split. Qed.
Lemma same_sym x y : same x y -> same y x.
Proof. intros (A & B & C). repeat split; congruence. Qed.
Lemma same_trans x y z : same x y -> same y z -> same x z.
Proof. intros (A & B & C) (D & E & F). repeat split; congruence. Qed.
Lemma eq_same x y : addr_equal x y = true <-> same x y.
Proof. apply same_address_exactly. Qed.
Lemma eq_not x y : addr_equal x y = false <-> ~ same x y.
Proof. rewrite <- eq_same. destruct (addr_equal x y); split; try discriminate; try tauto. Qed.

(* ---------- slots ---------- *)
Lemma set_slot_len s i e : length (set_slot s i e) = length s.
Proof. revert i. induction s as [|x s IH]; intros [|i]; cbn; auto. Qed.
Lemma set_slot_nth s i e j : (i < length s)%nat -> nth_error (set_slot s i e) j = if Nat.eqb j i then Some e else nth_error s j.
Proof.
  revert i j. induction s as [|x s IH]; intros i j L; cbn in L; [lia|]. destruct i as [|i], j as [|j]; cbn; auto. apply IH. lia.
Qed.
Lemma slot_has_iff s a i : slot_has s a i = true <-> exists e, nth_error s i = Some e /\ same (e_addr e) a.
Proof.
  unfold slot_has. destruct (nth_error s i) as [e|].
  - rewrite eq_same. split; [eauto|]. intros (e' & E & S). injection E as <-. exact S.
  - split; [discriminate|]. intros (e & E & _). discriminate E.
Qed.

(** The slots hold different addresses. *)
Definition distinct (s : list entry) : Prop := forall i j e f, nth_error s i = Some e -> nth_error s j = Some f -> same (e_addr e) (e_addr f) -> i = j.
Definition entry_ok (e : entry) : Prop := addr_wf (e_addr e) /\ 1 <= e_ref e <= 8 /\ 0 <= e_attempts e <= 2147483647.
(** The table: at most 2000 slots, each in the hash table, the addresses different. *)
Record am_ok (am : addrman) : Prop := {
  ok_size : am_size am <= 2000;
  ok_map : Permutation (am_map am) (seq 0 (length (am_slots am)));
  ok_distinct : distinct (am_slots am);
  ok_entries : Forall entry_ok (am_slots am) }.

Lemma map_in am i : am_ok am -> In i (am_map am) <-> (i < length (am_slots am))%nat.
Proof.
  intros K. split; intros H.
  - apply (Permutation_in _ (ok_map _ K)) in H. apply in_seq in H. lia.
  - apply (Permutation_in _ (Permutation_sym (ok_map _ K))). apply in_seq. lia.
Qed.
Lemma get_iff am a i : am_ok am -> am_get am a = Some i <-> exists e, nth_error (am_slots am) i = Some e /\ same (e_addr e) a.
Proof.
  intros K. unfold am_get, map_find. split.
  - intros E. apply find_some in E as [_ E]. apply slot_has_iff. exact E.
  - intros (e & N & S). destruct (find (slot_has (am_slots am) a) (am_map am)) as [j|] eqn:F.
    + apply find_some in F as [_ F]. apply slot_has_iff in F as (f & Nf & Sf). f_equal.
      apply (ok_distinct _ K j i f e Nf N). eapply same_trans; [exact Sf|apply same_sym; exact S].
    + exfalso. assert (I : In i (am_map am)) by (apply map_in; auto; apply nth_error_Some; congruence).
      apply (find_none _ _ F) in I. assert (X : slot_has (am_slots am) a i = true) by (apply slot_has_iff; eauto). congruence.
Qed.
Lemma get_none am a : am_ok am -> am_get am a = None <-> forall e, In e (am_slots am) -> ~ same (e_addr e) a.
Proof.
  intros K. split.
  - intros E e I S. apply In_nth_error in I as [i N]. assert (X : am_get am a = Some i) by (apply get_iff; eauto). congruence.
  - intros H. destruct (am_get am a) as [i|] eqn:E; [|reflexivity]. apply get_iff in E as (e & N & S); auto. exfalso. exact (H e (nth_error_In _ _ N) S).
Qed.

(** One entry changes, its address does not. *)
Lemma put_slot_ok am i e e' : am_ok am -> nth_error (am_slots am) i = Some e -> e_addr e' = e_addr e -> entry_ok e' -> am_ok (put_slot am i e').
Proof.
  intros K N A Ke. assert (L : (i < length (am_slots am))%nat) by (apply nth_error_Some; congruence).
  constructor; cbn [put_slot am_slots am_map am_size].
  - unfold am_size, zlen. cbn. rewrite set_slot_len. apply (ok_size _ K).
  - rewrite set_slot_len. apply (ok_map _ K).
  - intros j k f g. rewrite !set_slot_nth by exact L. intros Hf Hg S.
    assert (X : forall j f, (if Nat.eqb j i then Some e' else nth_error (am_slots am) j) = Some f -> exists f', nth_error (am_slots am) j = Some f' /\ e_addr f' = e_addr f).
    { intros j' f' H. destruct (Nat.eqb_spec j' i) as [->|]; [injection H as <-; exists e; split; auto|exists f'; split; auto]. }
    destruct (X j f Hf) as (f' & Nf & Ef). destruct (X k g Hg) as (g' & Ng & Eg).
    apply (ok_distinct _ K j k f' g' Nf Ng). rewrite Ef, Eg. exact S.
  - apply Forall_forall. intros x I. apply In_nth_error in I as [j I]. rewrite set_slot_nth in I by exact L.
    destruct (Nat.eqb j i); [injection I as <-; exact Ke|]. pose proof (ok_entries _ K) as F. rewrite Forall_forall in F. apply F. eapply nth_error_In; eauto.
Qed.

(** A new slot *)
Lemma map_put_none s m a v : find (slot_has s a) m = None -> map_put s m a v = m ++ [v].
Proof.
  induction m as [|i m IH]; intros F; [reflexivity|]. cbn [map_put find] in *. destruct (slot_has s a i); [discriminate F|]. cbn. f_equal. auto.
Qed.
Lemma entry_fresh na : addr_wf (na_addr na) -> entry_ok (fresh na).
Proof. intros W. split; [exact W|]. cbn. lia. Qed.
Lemma push_ok am na : am_ok am -> addr_wf (na_addr na) -> am_get am (na_addr na) = None -> am_size am < 2000 ->
  am_ok {| am_slots := am_slots am ++ [fresh na]; am_map := map_put (am_slots am ++ [fresh na]) (am_map am) (na_addr na) (length (am_slots am)); am_bans := am_bans am |}.
Proof.
  intros K W G L. pose proof (proj1 (get_none am (na_addr na) K) G) as Nn.
  assert (P : map_put (am_slots am ++ [fresh na]) (am_map am) (na_addr na) (length (am_slots am)) = am_map am ++ [length (am_slots am)]).
  { apply map_put_none. destruct (find _ (am_map am)) as [i|] eqn:F; [|reflexivity]. apply find_some in F as [I F].
    apply (map_in am i K) in I. apply slot_has_iff in F as (e & N & S). rewrite nth_error_app1 in N by exact I.
    exfalso. exact (Nn e (nth_error_In _ _ N) S). }
  constructor; cbn [am_slots am_map]; rewrite ?P.
  - unfold am_size in *. cbn [am_slots]. rewrite zlen_app. change (zlen [fresh na]) with 1. lia.
  - rewrite app_length. cbn [length]. replace (length (am_slots am) + 1)%nat with (S (length (am_slots am))) by lia. rewrite seq_S. apply Permutation_app_tail. apply (ok_map _ K).
  - intros i j e f Ne Nf S. destruct (lt_dec i (length (am_slots am))) as [Li|Li], (lt_dec j (length (am_slots am))) as [Lj|Lj].
    + rewrite nth_error_app1 in Ne, Nf by assumption. exact (ok_distinct _ K i j e f Ne Nf S).
    + rewrite nth_error_app1 in Ne by assumption. rewrite nth_error_app2 in Nf by lia.
      assert (f = fresh na). { destruct (j - length (am_slots am))%nat as [|[|?]]; cbn in Nf; congruence. } subst f.
      exfalso. exact (Nn e (nth_error_In _ _ Ne) S).
    + rewrite nth_error_app1 in Nf by assumption. rewrite nth_error_app2 in Ne by lia.
      assert (e = fresh na). { destruct (i - length (am_slots am))%nat as [|[|?]]; cbn in Ne; congruence. } subst e.
      exfalso. exact (Nn f (nth_error_In _ _ Nf) (same_sym _ _ S)).
    + assert (i < length (am_slots am ++ [fresh na]))%nat by (apply nth_error_Some; congruence).
      assert (j < length (am_slots am ++ [fresh na]))%nat by (apply nth_error_Some; congruence). rewrite app_length in *. cbn in *. lia.
  - apply Forall_app. split; [apply (ok_entries _ K)|]. constructor; [apply entry_fresh; exact W|constructor].
Qed.

(** A slot taken over *)
Lemma map_drop_perm s m a i : NoDup m -> In i m -> slot_has s a i = true -> (forall j, In j m -> slot_has s a j = true -> j = i) ->
  Permutation m (i :: map_drop s m a) /\ ~ In i (map_drop s m a).
Proof.
  induction m as [|x m IH]; intros ND I H U; [destruct I|]. cbn [map_drop]. apply NoDup_cons_iff in ND as [Nx ND].
  destruct (slot_has s a x) eqn:Sx.
  - assert (x = i) by (apply U; [left; reflexivity|exact Sx]). subst x. split; [reflexivity|exact Nx].
  - destruct I as [->|I]; [congruence|]. destruct (IH ND I H (fun j J => U j (or_intror J))) as [P N]. split.
    + rewrite P at 1. apply perm_swap.
    + intros [X|X]; [subst x; congruence|contradiction].
Qed.
Lemma reuse_ok am na i e : am_ok am -> addr_wf (na_addr na) -> am_get am (na_addr na) = None -> nth_error (am_slots am) i = Some e ->
  let s := set_slot (am_slots am) i (fresh na) in
  am_ok {| am_slots := s; am_map := map_put s (map_drop (am_slots am) (am_map am) (e_addr e)) (na_addr na) i; am_bans := am_bans am |}.
Proof.
  intros K W G N s. assert (L : (i < length (am_slots am))%nat) by (apply nth_error_Some; congruence).
  pose proof (proj1 (get_none am (na_addr na) K) G) as Nn.
  assert (ND : NoDup (am_map am)) by (apply (Permutation_NoDup (Permutation_sym (ok_map _ K))); apply seq_NoDup).
  destruct (map_drop_perm (am_slots am) (am_map am) (e_addr e) i ND) as [Pm Ni].
  - apply map_in; auto.
  - apply slot_has_iff. exists e. split; [exact N|apply same_refl].
  - intros j _ H. apply slot_has_iff in H as (f & Nf & S). exact (ok_distinct _ K j i f e Nf N S).
  - assert (P : map_put s (map_drop (am_slots am) (am_map am) (e_addr e)) (na_addr na) i = map_drop (am_slots am) (am_map am) (e_addr e) ++ [i]).
    { apply map_put_none. destruct (find _ (map_drop _ _ _)) as [j|] eqn:F; [|reflexivity]. apply find_some in F as [I F].
      assert (j <> i) by congruence. apply slot_has_iff in F as (f & Nf & S). unfold s in Nf. rewrite set_slot_nth in Nf by exact L.
      replace (Nat.eqb j i) with false in Nf by (symmetry; apply Nat.eqb_neq; assumption). exfalso. exact (Nn f (nth_error_In _ _ Nf) S). }
    constructor; cbn [am_slots am_map]; rewrite ?P.
    + unfold am_size, zlen. cbn. unfold s. rewrite set_slot_len. apply (ok_size _ K).
    + unfold s. rewrite set_slot_len. rewrite <- (ok_map _ K). rewrite Pm at 2. symmetry. apply Permutation_cons_append.
    + intros j k f g. unfold s. rewrite !set_slot_nth by exact L. intros Hf Hg S.
      destruct (Nat.eqb_spec j i) as [->|Hj], (Nat.eqb_spec k i) as [->|Hk]; auto.
      * injection Hf as <-. exfalso. exact (Nn g (nth_error_In _ _ Hg) (same_sym _ _ S)).
      * injection Hg as <-. exfalso. exact (Nn f (nth_error_In _ _ Hf) S).
      * exact (ok_distinct _ K j k f g Hf Hg S).
    + apply Forall_forall. intros x I. apply In_nth_error in I as [j I]. unfold s in I. rewrite set_slot_nth in I by exact L.
      destruct (Nat.eqb j i); [injection I as <-; apply entry_fresh; exact W|]. pose proof (ok_entries _ K) as F. rewrite Forall_forall in F. apply F. eapply nth_error_In; eauto.
Qed.

(* ---------- the random slots ---------- *)
Lemma draw_in {A} (s : list A) r : s <> [] -> exists e, nth_error s (Z.to_nat (r mod zlen s)) = Some e.
Proof.
  intros N. assert (0 < zlen s) by (destruct s; [contradiction|unfold zlen; cbn; lia]).
  destruct (nth_error s (Z.to_nat (r mod zlen s))) as [e|] eqn:E; [eauto|]. apply nth_error_None in E. unfold zlen in *. lia.
Qed.
Lemma stale_slot_spec k rnd now s : s <> [] -> forall d,
  match stale_slot k rnd d now s with
  | Some i => exists j e, (d <= j < d + k)%nat /\ i = Z.to_nat (rnd j mod zlen s) /\ nth_error s i = Some e /\ is_stale now e = true /\
      (forall j' e', (d <= j' < j)%nat -> nth_error s (Z.to_nat (rnd j' mod zlen s)) = Some e' -> is_stale now e' = false)
  | None => forall j e, (d <= j < d + k)%nat -> nth_error s (Z.to_nat (rnd j mod zlen s)) = Some e -> is_stale now e = false
  end.
Proof.
  intros Ns. induction k as [|k IH]; intros d; cbn [stale_slot]; [intros; lia|].
  destruct (draw_in s (rnd d) Ns) as [e E]. rewrite E. destruct (is_stale now e) eqn:St.
  - exists d, e. repeat split; auto; try lia.
  - specialize (IH (S d)). destruct (stale_slot k rnd (S d) now s) as [i|].
    + destruct IH as (j & f & Hj & Ei & Ef & Sf & B). exists j, f. repeat split; auto; try lia. intros j' e' Hj' E'.
      destruct (Nat.eq_dec j' d) as [->|]; [congruence|]. apply (B j' e'); auto. lia.
    + intros j f Hj Ef. destruct (Nat.eq_dec j d) as [->|]; [congruence|]. apply (IH j f); auto. lia.
Qed.
