(** Data that is taken in block by block, however it is cut into pieces. *)
From Verif Require Import Common CommonFacts.

(** The [i]-th block of [n] bytes *)
Definition block (n : nat) (l : list Z) (i : nat) : list Z := firstn n (skipn (i * n) l).
Definition blocks (n : nat) (l : list Z) : list (list Z) := map (block n l) (seq 0 (length l / n)).
(** What is left after the last whole block *)
Definition rest (n : nat) (l : list Z) : list Z := skipn (length l / n * n) l.

Section Blocks.
Variable n : nat.
Hypothesis Hn : (0 < n)%nat.
Lemma div_app_block (b l : list Z) : length b = n -> (length (b ++ l) / n = S (length l / n))%nat.
Proof. intros E. rewrite app_length, E. replace (n + length l)%nat with (length l + 1 * n)%nat by lia. rewrite Nat.div_add by lia. lia. Qed.
Lemma block_S b l i : length b = n -> block n (b ++ l) (S i) = block n l i.
Proof. intros E. unfold block. rewrite skipn_app. rewrite skipn_all2 by (cbn; nia). rewrite E. cbn [app]. f_equal. f_equal. cbn. lia. Qed.
Lemma block_0 b l : length b = n -> block n (b ++ l) 0 = b.
Proof. intros E. unfold block. cbn [Nat.mul skipn]. rewrite firstn_app, E, Nat.sub_diag, firstn_O, app_nil_r. apply firstn_all2. lia. Qed.
Lemma blocks_cons b l : length b = n -> blocks n (b ++ l) = b :: blocks n l.
Proof.
  intros E. unfold blocks. rewrite (div_app_block b l E). cbn [seq map]. rewrite block_0 by exact E. f_equal. rewrite <- seq_shift, map_map. apply map_ext. intros i. apply block_S, E.
Qed.
Lemma rest_cons b l : length b = n -> rest n (b ++ l) = rest n l.
Proof. intros E. unfold rest. rewrite (div_app_block b l E). rewrite skipn_app, skipn_all2 by (cbn; nia). cbn [app]. f_equal. rewrite E. cbn. lia. Qed.
Lemma blocks_short l : (length l < n)%nat -> blocks n l = [].
Proof. intros H. unfold blocks. now rewrite Nat.div_small. Qed.
Lemma rest_short l : (length l < n)%nat -> rest n l = l.
Proof. intros H. unfold rest. now rewrite Nat.div_small. Qed.
Lemma block_ind (P : list Z -> Prop) : (forall l, (length l < n)%nat -> P l) -> (forall b l, length b = n -> P l -> P (b ++ l)) -> forall l, P l.
Proof.
  intros H0 H1 l. remember (length l) as k eqn:E. revert l E. induction k as [k IH] using lt_wf_ind. intros l E. destruct (Nat.lt_ge_cases (length l) n) as [L|L]; [now apply H0|].
  rewrite <- (firstn_skipn n l). apply H1; [apply firstn_length_le; lia|]. apply (IH (length (skipn n l))); [rewrite skipn_length; lia|reflexivity].
Qed.
Lemma blocks_rest l : concat (blocks n l) ++ rest n l = l.
Proof.
  induction l as [l L|b l E IH] using block_ind; [rewrite blocks_short, rest_short by exact L; reflexivity|]. rewrite blocks_cons, rest_cons by exact E. cbn [concat]. rewrite <- app_assoc. now rewrite IH.
Qed.
Lemma rest_length l : length (rest n l) = (length l mod n)%nat.
Proof. unfold rest. rewrite skipn_length. rewrite (Nat.div_mod (length l) n) at 1 by lia. lia. Qed.
Lemma blocks_app a b : blocks n (a ++ b) = blocks n a ++ blocks n (rest n a ++ b).
Proof. induction a as [a L|c a E IH] using block_ind; [rewrite (blocks_short a), (rest_short a) by exact L; reflexivity|]. rewrite <- app_assoc, (blocks_cons c (a ++ b) E), (blocks_cons c a E), (rest_cons c a E), IH. reflexivity. Qed.
Lemma rest_app a b : rest n (a ++ b) = rest n (rest n a ++ b).
Proof. induction a as [a L|c a E IH] using block_ind; [now rewrite (rest_short a)|]. rewrite <- app_assoc, (rest_cons c (a ++ b) E), (rest_cons c a E). exact IH. Qed.
Lemma blocks_length l b : In b (blocks n l) -> length b = n.
Proof. induction l as [l L|c l E IH] using block_ind; [rewrite blocks_short by exact L; intros []|]. rewrite blocks_cons by exact E. intros [<-|I]; auto. Qed.
Lemma blocks_ok l : bytes_ok l -> Forall bytes_ok (blocks n l).
Proof. induction l as [l L|c l E IH] using block_ind; [rewrite blocks_short by exact L; constructor|]. rewrite blocks_cons by exact E. intros B. apply bytes_ok_app in B as [B1 B2]. constructor; auto. Qed.
Lemma rest_ok l : bytes_ok l -> bytes_ok (rest n l).
Proof. intros B. now apply bytes_ok_skipn. Qed.
Lemma rest_lt l : (length (rest n l) < n)%nat.
Proof. rewrite rest_length. apply Nat.mod_upper_bound. lia. Qed.
Lemma blocks_all l : (length l mod n = 0)%nat -> rest n l = [].
Proof. intros E. rewrite <- rest_length in E. now apply length_zero_iff_nil in E. Qed.
End Blocks.

Lemma chain_gen {A B : Type} (P : A -> Prop) (G : B -> Prop) (f g : A -> B -> A) : (forall h b, P h -> G b -> f h b = g h b /\ P (f h b)) ->
  forall bs, Forall G bs -> forall h, P h -> fold_left f bs h = fold_left g bs h /\ P (fold_left f bs h).
Proof. intros S. induction 1 as [|b bs Gb F IH]; intros h Ph; [now split|]. cbn [fold_left]. destruct (S h b Ph Gb) as [E Q]. rewrite <- E. now apply IH. Qed.

(** Blocks that are followed by something, and what is left, which is only empty if all is *)
Definition lblocks (n : nat) (l : list Z) : list (list Z) := map (block n l) (seq 0 ((length l - 1) / n)).
Definition lrest (n : nat) (l : list Z) : list Z := skipn ((length l - 1) / n * n) l.
Section Lazy.
Variable n : nat.
Hypothesis Hn : (0 < n)%nat.
Lemma ldiv_cons (b l : list Z) : length b = n -> l <> [] -> ((length (b ++ l) - 1) / n = S ((length l - 1) / n))%nat.
Proof. intros E N. rewrite app_length, E. assert (0 < length l)%nat by (destruct l; [congruence|cbn; lia]). replace (n + length l - 1)%nat with (length l - 1 + 1 * n)%nat by lia. rewrite Nat.div_add by lia. lia. Qed.
Lemma lblocks_cons b l : length b = n -> l <> [] -> lblocks n (b ++ l) = b :: lblocks n l.
Proof. intros E N. unfold lblocks. rewrite (ldiv_cons b l E N). cbn [seq map]. rewrite (block_0 n) by assumption. f_equal. rewrite <- seq_shift, map_map. apply map_ext. intros i. now apply block_S. Qed.
Lemma lrest_cons b l : length b = n -> l <> [] -> lrest n (b ++ l) = lrest n l.
Proof. intros E N. unfold lrest. rewrite (ldiv_cons b l E N). rewrite skipn_app, skipn_all2 by (cbn; nia). cbn [app]. f_equal. rewrite E. cbn. lia. Qed.
Lemma lblocks_short l : (length l <= n)%nat -> lblocks n l = [].
Proof. intros H. unfold lblocks. rewrite Nat.div_small by lia. reflexivity. Qed.
Lemma lrest_short l : (length l <= n)%nat -> lrest n l = l.
Proof. intros H. unfold lrest. rewrite Nat.div_small by lia. reflexivity. Qed.
Lemma lazy_ind (P : list Z -> Prop) : (forall l, (length l <= n)%nat -> P l) -> (forall b l, length b = n -> l <> [] -> P l -> P (b ++ l)) -> forall l, P l.
Proof.
  intros H0 H1 l. remember (length l) as k eqn:E. revert l E. induction k as [k IH] using lt_wf_ind. intros l E. destruct (Nat.le_gt_cases (length l) n) as [L|L]; [now apply H0|].
  rewrite <- (firstn_skipn n l). apply H1; [apply firstn_length_le; lia| |apply (IH (length (skipn n l))); [rewrite skipn_length; lia|reflexivity]].
  intros N. apply (f_equal (@length Z)) in N. rewrite skipn_length in N. cbn in N. lia.
Qed.
Lemma lblocks_app a b : b <> [] -> lblocks n (a ++ b) = lblocks n a ++ lblocks n (lrest n a ++ b).
Proof.
  intros N. induction a as [a L|c a E Na IH] using lazy_ind; [now rewrite (lblocks_short a), (lrest_short a) by exact L|].
  assert (Nb : a ++ b <> []) by (destruct a; [congruence|discriminate]). rewrite <- app_assoc, (lblocks_cons c (a ++ b) E Nb), (lblocks_cons c a E Na), (lrest_cons c a E Na), IH. reflexivity.
Qed.
Lemma lrest_app a b : b <> [] -> lrest n (a ++ b) = lrest n (lrest n a ++ b).
Proof.
  intros N. induction a as [a L|c a E Na IH] using lazy_ind; [now rewrite (lrest_short a) by exact L|].
  assert (Nb : a ++ b <> []) by (destruct a; [congruence|discriminate]). rewrite <- app_assoc, (lrest_cons c (a ++ b) E Nb), (lrest_cons c a E Na). exact IH.
Qed.
Lemma lrest_le l : (length (lrest n l) <= n)%nat.
Proof. induction l as [l L|c l E N IH] using lazy_ind; [now rewrite lrest_short|now rewrite lrest_cons]. Qed.
Lemma lrest_ok l : bytes_ok l -> bytes_ok (lrest n l).
Proof. intros B. now apply bytes_ok_skipn. Qed.
Lemma lblocks_length l b : In b (lblocks n l) -> length b = n.
Proof. induction l as [l L|c l E N IH] using lazy_ind; [rewrite lblocks_short by exact L; intros []|]. rewrite lblocks_cons by assumption. intros [<-|I]; auto. Qed.
Lemma lblocks_ok l : bytes_ok l -> Forall bytes_ok (lblocks n l).
Proof. induction l as [l L|c l E N IH] using lazy_ind; [rewrite lblocks_short by exact L; constructor|]. rewrite lblocks_cons by assumption. intros B. apply bytes_ok_app in B as [B1 B2]. constructor; auto. Qed.
Lemma lblocks_total l : (length l = n * length (lblocks n l) + length (lrest n l))%nat.
Proof. induction l as [l L|c l E N IH] using lazy_ind; [rewrite lblocks_short, lrest_short by exact L; cbn; lia|]. rewrite lblocks_cons, lrest_cons by assumption. rewrite app_length. cbn [length]. lia. Qed.
End Lazy.
