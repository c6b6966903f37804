(** C21: replacing the checkpoint file. *)
From Verif Require Import Common CommonFacts Assoc AssocFacts StoreModel.

Lemma fname_eqb_iff a b : fname_eqb a b = true <-> a = b.
Proof.
  destruct a as [|x], b as [|y]; cbn; try (split; [discriminate|intros [=]]); [tauto|].
  rewrite Z.eqb_eq. split; [now intros ->|now intros [= ->]].
Qed.

Local Notation same := (aget_aset_same fname_eqb fname_eqb_iff).
Local Notation other := (aget_aset_other fname_eqb fname_eqb_iff).
Local Notation dother := (aget_adel_other fname_eqb fname_eqb_iff).

(** Whatever happens on the way, and whatever was in the directory, the checkpoint
    file is afterwards the old one or the complete new one; no other file than the
    temporary one is touched; without failures it is the new one. *)
Theorem checkpoint_replacement_atomic_partial : forall w height data d, 0 < height ->
  (file (store_write false w height data d) Checkpoint = file d Checkpoint \/
   file (store_write false w height data d) Checkpoint = Some data) /\
  (forall h, h <> height -> file (store_write false w height data d) (Temp h) = file d (Temp h)) /\
  (w_open w = true -> (length data <= w_written w)%nat -> w_rename w = true -> (4 <= w_stop w)%nat ->
     file (store_write false w height data d) Checkpoint = Some data /\
     file (store_write false w height data d) (Temp height) = None).
Proof.
  intros w height data d Hh. unfold store_write, file, filename.
  destruct (Z.ltb_spec 0 height); [|lia]. change (0 <? 0) with false. cbv iota zeta.
  assert (NE : Checkpoint <> Temp height) by discriminate.
  assert (NE' : Temp height <> Checkpoint) by discriminate.
  assert (NH : forall h, h <> height -> Temp h <> Temp height) by (intros h Hn [= E]; auto).
  split; [|split].
  - destruct ((w_stop w =? 0)%nat || negb (w_open w)); [auto|].
    destruct (w_stop w =? 1)%nat; [left; rewrite other by auto; auto|].
    set (n := Nat.min (w_written w) (length data)).
    destruct ((w_stop w =? 2)%nat || negb (n =? length data)%nat) eqn:E; [left; rewrite !other by auto; auto|].
    apply Bool.orb_false_iff in E as [_ E]. apply Bool.negb_false_iff, Nat.eqb_eq in E.
    destruct ((w_stop w =? 3)%nat || negb (w_rename w)); [left; rewrite !other by auto; auto|].
    rewrite same. right. rewrite same, E, firstn_all. reflexivity.
  - intros h Hn. destruct ((w_stop w =? 0)%nat || negb (w_open w)); [auto|].
    destruct (w_stop w =? 1)%nat; [rewrite other by auto; auto|].
    destruct ((w_stop w =? 2)%nat || _); [rewrite !other by auto; auto|].
    destruct ((w_stop w =? 3)%nat || negb (w_rename w)); [rewrite !other by auto; auto|].
    rewrite same. rewrite other by discriminate. rewrite dother by auto. rewrite !other by auto. reflexivity.
  - intros W1 W2 W3 W4. rewrite W1, W3. cbn [negb].
    destruct (w_stop w) as [|[|[|[|k]]]]; try lia. cbn [Nat.eqb orb].
    rewrite Nat.min_r by lia. rewrite Nat.eqb_refl. cbn [negb]. rewrite same, firstn_all.
    split; [apply same|]. rewrite other by auto. apply aget_adel_same. exact fname_eqb_iff.
Qed.

(** On Windows the checkpoint is removed first, so there a crash can lose it. *)
Theorem checkpoint_replacement_windows_refuted : exists w height data d old, 0 < height /\
  file d Checkpoint = Some old /\ file (store_write true w height data d) Checkpoint = None.
Proof. exists (mk_weather true 3 true 3), 2000, [1; 2; 3], [(Checkpoint, [9])], [9]. vm_compute. auto. Qed.

(** With height 0 the temporary file would be the checkpoint itself (the callers
    never have height 0: see flush_height_positive in ChainTheorems.v). *)
Theorem checkpoint_replacement_height_zero_refuted : exists w data d old,
  file d Checkpoint = Some old /\
  file (store_write false w 0 data d) Checkpoint <> Some old /\ file (store_write false w 0 data d) Checkpoint <> Some data.
Proof.
  exists (mk_weather true 1 true 2), [1; 2; 3], [(Checkpoint, [9])], [9]. vm_compute. repeat split; discriminate.
Qed.

(** A torn write leaves the old checkpoint and a partial temporary file. *)
Example ex_torn :
  let d := [(Checkpoint, [7; 7])] in
  let d' := store_write false (mk_weather true 2 true 9) 4000 [1; 2; 3] d in
  file d' Checkpoint = Some [7; 7] /\ file d' (Temp 4000) = Some [1; 2].
Proof. vm_compute. auto. Qed.

Print Assumptions checkpoint_replacement_atomic_partial.
Print Assumptions checkpoint_replacement_windows_refuted.
Print Assumptions checkpoint_replacement_height_zero_refuted.
