(** Lemmas about association lists. *)
From Verif Require Import Common CommonFacts Assoc.

Section Assoc.
  Context {K V : Type} (eqb : K -> K -> bool).
  Hypothesis eqb_iff : forall a b, eqb a b = true <-> a = b.
  Local Notation map := (list (K * V)).

  Lemma eqb_same k : eqb k k = true.
  Proof using eqb_iff. now apply eqb_iff. Qed.
  Lemma eqb_neq a b : a <> b -> eqb a b = false.
  Proof using eqb_iff. intros N. destruct (eqb a b) eqn:E; auto. apply eqb_iff in E. contradiction. Qed.

  Lemma aget_adel_same k (m : map) : aget eqb k (adel eqb k m) = None.
  Proof using eqb_iff.
    induction m as [|[k' v] m IH]; cbn; auto. destruct (eqb k k') eqn:E; auto. cbn. now rewrite E.
  Qed.
  Lemma aget_adel_other k k' (m : map) : k <> k' -> aget eqb k (adel eqb k' m) = aget eqb k m.
  Proof using eqb_iff.
    intros N. induction m as [|[j v] m IH]; cbn; auto.
    destruct (eqb k' j) eqn:E.
    - apply eqb_iff in E. subst. rewrite (eqb_neq k j) by auto. auto.
    - cbn. destruct (eqb k j); auto.
  Qed.
  Lemma aget_aset_same k v (m : map) : aget eqb k (aset eqb k v m) = Some v.
  Proof using eqb_iff. unfold aset. cbn. now rewrite eqb_same. Qed.
  Lemma aget_aset_other k k' v (m : map) : k <> k' -> aget eqb k (aset eqb k' v m) = aget eqb k m.
  Proof using eqb_iff. intros N. unfold aset. cbn. rewrite (eqb_neq k k') by auto. now apply aget_adel_other. Qed.

  Lemma ahas_true k (m : map) : ahas eqb k m = true <-> exists v, aget eqb k m = Some v.
  Proof using eqb_iff. unfold ahas. destruct (aget eqb k m); split; eauto; try discriminate. intros [v E]; discriminate. Qed.
  Lemma ahas_false k (m : map) : ahas eqb k m = false <-> aget eqb k m = None.
  Proof using eqb_iff. unfold ahas. destruct (aget eqb k m); split; auto; discriminate. Qed.

  Lemma adel_absent k (m : map) : aget eqb k m = None -> adel eqb k m = m.
  Proof using eqb_iff.
    induction m as [|[j v] m IH]; cbn; auto. destruct (eqb k j); intros E; [discriminate|]. now rewrite IH.
  Qed.
  Lemma adel_length k (m : map) : (length (adel eqb k m) <= length m)%nat.
  Proof using eqb_iff. induction m as [|[j v] m IH]; cbn; auto. destruct (eqb k j); cbn; lia. Qed.
  Lemma adel_length_present k (m : map) v : aget eqb k m = Some v -> (length (adel eqb k m) < length m)%nat.
  Proof using eqb_iff.
    induction m as [|[j w] m IH]; cbn; [discriminate|].
    destruct (eqb k j); cbn; intros E. pose proof (adel_length k m). lia. apply IH in E. lia.
  Qed.
  Lemma aset_length_fresh k v (m : map) : aget eqb k m = None -> length (aset eqb k v m) = S (length m).
  Proof using eqb_iff. intros E. unfold aset. cbn. now rewrite adel_absent. Qed.
  Lemma aset_length k v (m : map) : (length (aset eqb k v m) <= S (length m))%nat.
  Proof using eqb_iff. unfold aset. cbn. pose proof (adel_length k m). lia. Qed.
  Lemma aget_in k v (m : map) : aget eqb k m = Some v -> In (k, v) m.
  Proof using eqb_iff.
    induction m as [|[j w] m IH]; cbn; [discriminate|].
    destruct (eqb k j) eqn:E; intros H; auto. apply eqb_iff in E. subst. injection H as ->. auto.
  Qed.

  (** Keys stay distinct. *)
  Definition keys_nodup (m : map) : Prop := NoDup (List.map fst m).
  Lemma adel_keys k (m : map) x : In x (List.map fst (adel eqb k m)) -> In x (List.map fst m) /\ x <> k.
  Proof using eqb_iff.
    induction m as [|[j w] m IH]; cbn; [tauto|].
    destruct (eqb k j) eqn:E; cbn; intros H.
    - apply IH in H as [H1 H2]. auto.
    - destruct H as [<-|H]; [|apply IH in H as [? ?]; auto].
      split; auto. intros ->. rewrite eqb_same in E. discriminate.
  Qed.
  Lemma adel_nodup k (m : map) : keys_nodup m -> keys_nodup (adel eqb k m).
  Proof using eqb_iff.
    unfold keys_nodup. induction m as [|[j w] m IH]; cbn; auto.
    intros N. inversion N as [|? ? N1 N2]; subst. destruct (eqb k j); auto. cbn. constructor; auto.
    intros H. apply adel_keys in H as [H _]. contradiction.
  Qed.
  Lemma aset_nodup k v (m : map) : keys_nodup m -> keys_nodup (aset eqb k v m).
  Proof using eqb_iff.
    intros N. unfold keys_nodup, aset. cbn. constructor.
    - intros H. apply adel_keys in H as [_ H]. contradiction.
    - now apply adel_nodup.
  Qed.
  Lemma in_aget k v (m : map) : keys_nodup m -> In (k, v) m -> aget eqb k m = Some v.
  Proof using eqb_iff.
    unfold keys_nodup. induction m as [|[j w] m IH]; cbn; [tauto|].
    intros N. inversion N as [|? ? N1 N2]; subst. intros [H|H].
    - injection H as -> ->. now rewrite eqb_same.
    - destruct (eqb k j) eqn:E; auto. apply eqb_iff in E. subst. exfalso. apply N1.
      change j with (fst (j, v)). now apply in_map.
  Qed.
End Assoc.

Definition Zeqb_iff : forall a b, Z.eqb a b = true <-> a = b := Z.eqb_eq.

(** The two instances in use: byte-string keys and integer keys. *)
Section Inst.
  Context {V : Type}.
  Implicit Types (v : V).
  Definition bget_set_same k v m : aget beq k (aset beq k v m) = Some v := aget_aset_same beq beq_true_iff k v m.
  Definition bget_set_other k k' v m : k <> k' -> aget beq k (aset beq k' v m) = aget beq k m :=
    aget_aset_other beq beq_true_iff k k' v m.
  Definition bget_del_same k (m : list (list Z * V)) : aget beq k (adel beq k m) = None :=
    aget_adel_same beq beq_true_iff k m.
  Definition bget_del_other k k' (m : list (list Z * V)) : k <> k' -> aget beq k (adel beq k' m) = aget beq k m :=
    aget_adel_other beq beq_true_iff k k' m.
  Definition zget_set_same k v m : aget Z.eqb k (aset Z.eqb k v m) = Some v := aget_aset_same Z.eqb Z.eqb_eq k v m.
  Definition zget_set_other k k' v m : k <> k' -> aget Z.eqb k (aset Z.eqb k' v m) = aget Z.eqb k m :=
    aget_aset_other Z.eqb Z.eqb_eq k k' v m.
  Definition zget_del_same k (m : list (Z * V)) : aget Z.eqb k (adel Z.eqb k m) = None :=
    aget_adel_same Z.eqb Z.eqb_eq k m.
  Definition zget_del_other k k' (m : list (Z * V)) : k <> k' -> aget Z.eqb k (adel Z.eqb k' m) = aget Z.eqb k m :=
    aget_adel_other Z.eqb Z.eqb_eq k k' m.
End Inst.
