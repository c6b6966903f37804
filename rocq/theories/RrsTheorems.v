(** The lists of records and texts are lists of at most 255 members (C90). *)
From Verif Require Import Common CommonFacts RrsModel.

(** ** Specification *)
(** The table with the members [l]: the rest is NULL. *)
Definition tbl (l : list Z) : table := mk_table (zlen l) (map Some l ++ repeat None (255 - length l)).
(** The place an index means: negative ones count from the end *)
Definition place (l : list Z) (i : Z) : option nat :=
  let j := if i <? 0 then i + zlen l else i in if (0 <=? j) && (j <? zlen l) then Some (Z.to_nat j) else None.
Definition spec_call (l : list Z) (c : call) : answer * list Z :=
  match c with
  | Push r => if zlen l =? 255 then (Size 0, l) else (Size (zlen l + 1), l ++ [r])
  | Pop => match rev l with [] => (Ptr None, []) | x :: r => (Ptr (Some x), rev r) end
  | Shift => match l with [] => (Ptr None, []) | x :: r => (Ptr (Some x), r) end
  | Get i => (Ptr (match place l i with Some j => nth_error l j | None => None end), l)
  | Set_ i r => match place l i with Some j => (Size (zlen l), firstn j l ++ r :: skipn (S j) l) | None => (Size 0, l) end
  end.
Fixpoint spec_run (l : list Z) (cs : list call) : list answer * list Z :=
  match cs with
  | [] => ([], l)
  | c :: cs => let '(a, l) := spec_call l c in let '(r, l) := spec_run l cs in (a :: r, l)
  end.
(** Indexes are of the type int *)
Definition call_ok (c : call) : Prop := match c with Get i | Set_ i _ => - 2 ^ 31 <= i < 2 ^ 31 | _ => True end.

(** ** Slots *)
Lemma slot_at pre x suf i : i = Z.of_nat (length pre) -> i < 255 -> slot (pre ++ x :: suf) i = Ok x.
Proof.
  intros -> L. unfold slot. replace ((0 <=? Z.of_nat (length pre)) && (Z.of_nat (length pre) <? 255)) with true by (symmetry; apply andb_true_intro; split; [apply Z.leb_le|apply Z.ltb_lt]; lia).
  rewrite Nat2Z.id. rewrite nth_middle. reflexivity.
Qed.
Lemma put_at pre x suf i p : i = Z.of_nat (length pre) -> i < 255 -> put (pre ++ x :: suf) i p = Ok (pre ++ p :: suf).
Proof.
  intros -> L. unfold put. replace ((0 <=? Z.of_nat (length pre)) && (Z.of_nat (length pre) <? 255)) with true by (symmetry; apply andb_true_intro; split; [apply Z.leb_le|apply Z.ltb_lt]; lia).
  rewrite Nat2Z.id. f_equal. rewrite firstn_app, firstn_all, Nat.sub_diag. cbn [firstn]. rewrite app_nil_r. f_equal. f_equal. replace (S (length pre)) with (length pre + 1)%nat by lia. rewrite skipn_app. rewrite skipn_all2 by lia. replace (length pre + 1 - length pre)%nat with 1%nat by lia. reflexivity.
Qed.
Lemma full_at pre x suf i : i = Z.of_nat (length pre) -> i < 255 -> full (pre ++ Some x :: suf) i = Ok x.
Proof. intros E L. unfold full. rewrite (slot_at pre (Some x) suf i E L). reflexivity. Qed.
Lemma none_one k : (0 < k)%nat -> repeat (@None Z) k = None :: repeat None (k - 1).
Proof. destruct k; [lia|]. intros _. cbn [repeat]. do 2 f_equal. lia. Qed.
Lemma zlen_ge {A} (l : list A) : 0 <= zlen l.
Proof. unfold zlen. lia. Qed.

(** ** The loops *)
Lemma shift_exact l : forall pre a rest, (length pre + length l < 255)%nat ->
  shift_loop (length l) (Z.of_nat (length pre)) (pre ++ map Some (a :: l) ++ rest) = Ok (pre ++ map Some l ++ Some (last l a) :: rest).
Proof.
  induction l as [|b l IH]; intros pre a rest L; [reflexivity|]. cbn [length] in *. cbn [shift_loop map app]. rewrite full_at by (try reflexivity; lia). cbn [obind].
  replace (pre ++ Some a :: Some b :: map Some l ++ rest) with ((pre ++ [Some a]) ++ Some b :: map Some l ++ rest) by (rewrite <- app_assoc; reflexivity).
  rewrite slot_at by (rewrite ?app_length; cbn [length]; lia). cbn [obind]. rewrite <- app_assoc. cbn [app]. rewrite put_at by (try reflexivity; lia). cbn [obind].
  specialize (IH (pre ++ [Some b]) b rest). rewrite app_length in IH. cbn [length] in IH. replace (Z.of_nat (length pre) + 1) with (Z.of_nat (length pre + 1)) by lia. rewrite <- app_assoc in IH. cbn [app map] in IH. rewrite IH by lia. rewrite <- app_assoc. cbn [app]. f_equal. f_equal. f_equal. f_equal. f_equal. f_equal. clear. revert b. induction l as [|c l IH]; intros b; [reflexivity|]. cbn [last]. destruct l; [reflexivity|apply IH].
Qed.
Lemma free_exact l : forall pre rest freed, (length pre + length l <= 255)%nat -> NoDup (freed ++ l) ->
  free_loop (length l) (Z.of_nat (length pre)) (pre ++ map Some l ++ rest) freed = Ok (freed ++ l, pre ++ repeat None (length l) ++ rest).
Proof.
  induction l as [|b l IH]; intros pre rest freed L N; [cbn; rewrite app_nil_r; reflexivity|]. cbn [length] in *. cbn [free_loop map app]. rewrite full_at by (try reflexivity; lia). cbn [obind].
  assert (F : existsb (Z.eqb b) freed = false).
  { destruct (existsb (Z.eqb b) freed) eqn:E; [|reflexivity]. apply existsb_exists in E as (x & I & E). apply Z.eqb_eq in E. subst x. exfalso. apply NoDup_remove_2 in N. apply N. apply in_or_app. left. exact I. }
  rewrite F. rewrite put_at by (try reflexivity; lia). cbn [obind]. specialize (IH (pre ++ [None]) rest (freed ++ [b])). rewrite app_length in IH. cbn [length] in IH. replace (Z.of_nat (length pre) + 1) with (Z.of_nat (length pre + 1)) by lia.
  rewrite <- !app_assoc in IH. cbn [app] in IH. rewrite IH by (first [lia|exact N]). reflexivity.
Qed.
Lemma unshift_exact n : forall pre a s, (length pre + n < 255)%nat -> (n <= length s)%nat ->
  unshift_loop n (Z.of_nat (length pre) + 1) (pre ++ Some a :: s) = Ok (Z.of_nat (length pre) + 1 + Z.of_nat n, pre ++ Some a :: repeat (Some a) n ++ skipn n s).
Proof.
  induction n as [|n IH]; intros pre a s L S; [cbn [unshift_loop repeat app skipn]; do 2 f_equal; lia|]. destruct s as [|x s]; [cbn [length] in S; lia|]. cbn [length] in S. cbn [unshift_loop]. rewrite full_at by lia. cbn [obind].
  replace (pre ++ Some a :: x :: s) with ((pre ++ [Some a]) ++ x :: s) by (rewrite <- app_assoc; reflexivity). rewrite put_at by (rewrite ?app_length; cbn [length]; lia). cbn [obind].
  specialize (IH (pre ++ [Some a]) a s). rewrite app_length in IH. cbn [length] in IH. replace (Z.of_nat (length pre) + 1 + 1) with (Z.of_nat (length pre + 1) + 1) by lia. rewrite IH by lia. rewrite <- app_assoc. cbn [app repeat skipn]. do 2 f_equal. lia.
Qed.

(** ** Each call *)
Lemma tbl_split l : (length l < 255)%nat -> t_items (tbl l) = map Some l ++ None :: repeat None (255 - length l - 1).
Proof. intros L. cbn [tbl t_items]. rewrite none_one by lia. reflexivity. Qed.
Lemma tbl_snoc l x : (length l < 255)%nat -> tbl (l ++ [x]) = mk_table (zlen l + 1) (map Some l ++ Some x :: repeat None (255 - length l - 1)).
Proof. intros L. unfold tbl, zlen. rewrite app_length, map_app, <- app_assoc. cbn [length map app]. f_equal; [lia|]. do 3 f_equal. lia. Qed.
Lemma push_step l r : (length l <= 255)%nat -> t_push (tbl l) r = Ok (if zlen l =? 255 then (0, tbl l) else (zlen l + 1, tbl (l ++ [r]))).
Proof.
  intros L. unfold t_push. cbn [tbl t_size]. fold (tbl l). destruct (Z.eqb_spec (zlen l) 255) as [E|E]; [reflexivity|]. unfold zlen in E. assert (L2 : (length l < 255)%nat) by lia.
  assert (B : (zlen l <? 255) = true) by (apply Z.ltb_lt; unfold zlen; lia). rewrite B. cbn [negb]. change (map Some l ++ repeat None (255 - length l)) with (t_items (tbl l)). rewrite (tbl_split l L2).
  rewrite slot_at by (rewrite ?map_length; unfold zlen; lia). cbn [obind]. rewrite put_at by (rewrite ?map_length; unfold zlen; lia). cbn [obind]. rewrite (tbl_snoc l r L2). reflexivity.
Qed.
Lemma pop_step l x : (length l < 255)%nat -> t_pop (tbl (l ++ [x])) = Ok (Some x, tbl l).
Proof.
  intros L. rewrite (tbl_snoc l x L). unfold t_pop. cbn [t_size t_items]. pose proof (zlen_ge l). destruct (Z.eqb_spec (zlen l + 1) 0) as [E|_]; [lia|]. replace (zlen l + 1 - 1) with (zlen l) by lia.
  rewrite full_at by (rewrite ?map_length; unfold zlen; lia). cbn [obind]. rewrite put_at by (rewrite ?map_length; unfold zlen; lia). cbn [obind]. do 2 f_equal. unfold tbl. f_equal. rewrite (none_one (255 - length l)) by lia. reflexivity.
Qed.
Lemma shift_step x l : (length l < 255)%nat -> t_shift (tbl (x :: l)) = Ok (Some x, tbl l).
Proof.
  intros L. unfold t_shift. cbn [tbl t_size t_items]. unfold zlen at 1. cbn [length]. destruct (Z.eqb_spec (Z.of_nat (S (length l))) 0) as [E|_]; [lia|].
  assert (Z1 : zlen (x :: l) - 1 = zlen l) by (unfold zlen; cbn [length]; lia). rewrite Z1. change (map Some (x :: l)) with ([] ++ Some x :: map Some l). rewrite <- app_assoc. cbn [app].
  change (Some x :: map Some l ++ repeat None (255 - S (length l))) with ([] ++ Some x :: map Some l ++ repeat None (255 - S (length l))). rewrite slot_at by (cbn [length]; lia). cbn [obind].
  replace (Z.to_nat (zlen l)) with (length l) by (unfold zlen; lia). pose proof (shift_exact l [] x (repeat None (255 - S (length l))) ltac:(cbn [length]; lia)) as E. cbn [length map app] in E. cbn [app]. change (Z.of_nat 0) with 0 in E. rewrite E. cbn [obind].
  rewrite put_at by (rewrite ?map_length; unfold zlen; lia). cbn [obind]. do 2 f_equal. unfold tbl. f_equal. rewrite (none_one (255 - length l)) by lia. do 3 f_equal. lia.
Qed.
Lemma nth_some (l : list Z) j p : nth_error l j = Some p -> exists a b, l = a ++ p :: b /\ length a = j.
Proof. intros E. apply nth_error_split in E as (a & b & -> & L). exists a, b. auto. Qed.
Lemma index_place l i : (length l <= 255)%nat -> - 2 ^ 31 <= i < 2 ^ 31 ->
  match place l i with
  | Some j => (zlen l <=? t_index (tbl l) i mod 2 ^ 64) = false /\ t_index (tbl l) i = Z.of_nat j /\ (j < length l)%nat
  | None => (zlen l <=? t_index (tbl l) i mod 2 ^ 64) = true
  end.
Proof.
  intros L I. unfold place, t_index. cbn [tbl t_size]. cbv zeta. set (j := if i <? 0 then i + zlen l else i). assert (J : - 2 ^ 31 <= j < 2 ^ 31 /\ (i < 0 -> j < zlen l)) by (unfold j; destruct (Z.ltb_spec i 0); unfold zlen in *; lia). clearbody j. destruct J as [J _]. unfold zlen.
  destruct (Z.leb_spec 0 j) as [P|P]; cbn [andb].
  - rewrite Z.mod_small by lia. destruct (Z.ltb_spec j (Z.of_nat (length l))) as [Q|Q]; [split; [apply Z.leb_gt; lia|lia]|apply Z.leb_le; lia].
  - replace (j mod 2 ^ 64) with (j + 2 ^ 64); [apply Z.leb_le; lia|]. apply (Z.mod_unique j (2 ^ 64) (-1)); lia.
Qed.
Lemma tbl_mid a p b : t_items (tbl (a ++ p :: b)) = map Some a ++ Some p :: map Some b ++ repeat None (255 - length (a ++ p :: b)).
Proof. cbn [tbl t_items]. rewrite map_app, <- app_assoc. reflexivity. Qed.
Lemma call_step l c : (length l <= 255)%nat -> call_ok c -> t_call (tbl l) c = Ok (fst (spec_call l c), tbl (snd (spec_call l c))) /\ (length (snd (spec_call l c)) <= 255)%nat.
Proof.
  intros L K. destruct c as [r| | |i|i r]; cbn [t_call spec_call].
  - rewrite (push_step l r L). destruct (Z.eqb_spec (zlen l) 255) as [E|E]; cbn [obind fst snd]; [auto|]. split; [reflexivity|]. rewrite app_length. cbn [length]. unfold zlen in E. lia.
  - destruct (rev l) as [|x q] eqn:E; [apply (f_equal (@rev Z)) in E; rewrite rev_involutive in E; cbn [rev] in E; subst l; split; [reflexivity|cbn; lia]|].
    apply (f_equal (@rev Z)) in E. rewrite rev_involutive in E. cbn [rev] in E. subst l. rewrite app_length in L. cbn [length] in L. rewrite (pop_step (rev q) x) by lia. cbn [obind fst snd]. split; [reflexivity|lia].
  - destruct l as [|x l]; [split; [reflexivity|cbn; lia]|]. cbn [length] in L. rewrite (shift_step x l) by lia. cbn [obind fst snd]. split; [reflexivity|lia].
  - pose proof (index_place l i L K) as P. unfold t_get. cbn [tbl t_size]. fold (tbl l). destruct (place l i) as [j|]; [|rewrite P; cbn [obind fst snd]; auto]. destruct P as (P1 & P2 & P3). rewrite P1, P2.
    destruct (nth_error l j) as [p|] eqn:E; [|apply nth_error_None in E; lia]. pose proof E as E2. apply nth_some in E2 as (a & b & El & La). assert (T : t_items (tbl l) = map Some a ++ Some p :: map Some b ++ repeat None (255 - length l)) by (rewrite El; apply tbl_mid). rewrite T. rewrite slot_at by (rewrite ?map_length; lia). cbn [obind fst snd]. auto.
  - pose proof (index_place l i L K) as P. unfold t_set. cbn [tbl t_size]. fold (tbl l). destruct (place l i) as [j|]; [|rewrite P; cbn [obind fst snd]; auto]. destruct P as (P1 & P2 & P3). rewrite P1, P2.
    destruct (nth_error l j) as [p|] eqn:E; [|apply nth_error_None in E; lia]. apply nth_some in E as (a & b & -> & La). rewrite tbl_mid. rewrite put_at by (rewrite ?map_length; lia). cbn [obind fst snd].
    assert (F : firstn j (a ++ p :: b) ++ r :: skipn (S j) (a ++ p :: b) = a ++ r :: b).
    { subst j. rewrite firstn_app, firstn_all, Nat.sub_diag. cbn [firstn]. rewrite app_nil_r. f_equal. f_equal. rewrite skipn_app, skipn_all2 by lia. replace (S (length a) - length a)%nat with 1%nat by lia. reflexivity. }
    rewrite F. assert (G : length (a ++ r :: b) = length (a ++ p :: b)) by (rewrite !app_length; reflexivity). split; [|lia]. do 2 f_equal. unfold tbl, zlen. rewrite G. f_equal. rewrite map_app, <- app_assoc. reflexivity.
Qed.

(** ** Theorems *)
(** Every sequence of calls of push, pop, shift, get and set on a new table gives the answers of a list
    that keeps at most 255 members, stays inside the table and meets every assertion. *)
Theorem table_is_list cs : Forall call_ok cs -> t_run t_init cs = Ok (fst (spec_run [] cs), tbl (snd (spec_run [] cs))) /\ (length (snd (spec_run [] cs)) <= 255)%nat.
Proof.
  assert (G : forall cs l, (length l <= 255)%nat -> Forall call_ok cs -> t_run (tbl l) cs = Ok (fst (spec_run l cs), tbl (snd (spec_run l cs))) /\ (length (snd (spec_run l cs)) <= 255)%nat).
  { clear cs. induction cs as [|c cs IH]; intros l L K; [auto|]. destruct (call_step l c L (Forall_inv K)) as [E L2]. cbn [t_run spec_run]. rewrite E. cbn [obind]. destruct (spec_call l c) as [a l2]. cbn [fst snd] in *. destruct (IH l2 L2 (Forall_inv_tail K)) as [E3 L3]. rewrite E3. cbn [obind]. destruct (spec_run l2 cs) as [r l3]. cbn [fst snd] in *. auto. }
  intros K. exact (G cs [] ltac:(cbn; lia) K).
Qed.
(** Releasing the table frees every member once, in order, and leaves a new table *)
Theorem table_released l : (length l <= 255)%nat -> NoDup l -> t_uninit (tbl l) = Ok (l, t_init).
Proof.
  intros L N. unfold t_uninit. cbn [tbl t_size t_items]. replace (Z.to_nat (zlen l)) with (length l) by (unfold zlen; lia). pose proof (free_exact l [] (repeat None (255 - length l)) [] ltac:(cbn [length]; lia) N) as E. cbn [length app] in E. change (Z.of_nat 0) with 0 in E. rewrite E. cbn [obind].
  do 2 f_equal. unfold t_init. f_equal. rewrite <- repeat_app. f_equal. lia.
Qed.
(** What unshift does: on an empty table the record is put behind the end, and releasing the table then
    fails an assertion; else every member is replaced by the first one and the new record is put behind
    the end, and releasing the table frees the first member twice; with 254 members the record is
    written behind the table. *)
Theorem unshift_actual r :
  (exists t, t_unshift t_init r = Ok (1, t) /\ t_get t 0 = Ok None /\ t_uninit t = Abort) /\
  (forall a l, (length l < 253)%nat -> exists t, t_unshift (tbl (a :: l)) r = Ok (zlen l + 2, t) /\
     (forall i, 0 <= i < zlen l + 2 -> t_get t i = Ok (Some a)) /\ t_uninit t = Ub) /\
  (forall l, length l = 254%nat -> t_unshift (tbl l) r = Ub) /\
  (forall l, length l = 255%nat -> t_unshift (tbl l) r = Ok (0, tbl l)).
Proof.
  split; [|split; [|split]].
  - eexists. split; [reflexivity|]. split; reflexivity.
  - intros a l L. set (k := (255 - S (length l))%nat).
    assert (E : t_unshift (tbl (a :: l)) r = Ok (zlen l + 2, mk_table (zlen l + 2) ([] ++ Some a :: repeat (Some a) (S (length l)) ++ Some r :: repeat None (k - 2)))).
    { unfold t_unshift. cbn [tbl t_size t_items]. assert (Z1 : zlen (a :: l) = zlen l + 1) by (unfold zlen; cbn [length]; lia). rewrite Z1.
      destruct (Z.eqb_spec (zlen l + 1) 255) as [X|_]; [unfold zlen in X; lia|]. assert (B : (zlen l + 1 <? 255) = true) by (apply Z.ltb_lt; unfold zlen; lia). rewrite B. cbn [negb].
      replace (Z.to_nat (zlen l + 1)) with (S (length l)) by (unfold zlen; lia). cbn [length map app]. fold k.
      pose proof (unshift_exact (S (length l)) [] a (map Some l ++ repeat None k) ltac:(cbn [length]; lia) ltac:(rewrite app_length, map_length, repeat_length; unfold k; lia)) as U. cbn [length app] in U. change (Z.of_nat 0 + 1) with 1 in U. rewrite U. cbn [obind].
      assert (Sk : skipn (S (length l)) (map Some l ++ repeat None k) = None :: repeat None (k - 2)).
      { rewrite skipn_app, skipn_all2 by (rewrite map_length; lia). rewrite map_length. replace (S (length l) - length l)%nat with 1%nat by lia. cbn [app]. rewrite (none_one k) by (unfold k; lia). cbn [skipn]. rewrite (none_one (k - 1)) by (unfold k; lia). do 2 f_equal. lia. }
      rewrite Sk. change (Some a :: repeat (Some a) (S (length l)) ++ None :: repeat None (k - 2)) with ((Some a :: repeat (Some a) (S (length l))) ++ None :: repeat None (k - 2)).
      rewrite put_at by (cbn [length]; rewrite ?repeat_length; lia). cbn [obind]. replace (zlen l + 1 + 1) with (zlen l + 2) by lia. reflexivity. }
    eexists. split; [exact E|]. split.
    + intros i I. unfold t_get, t_index. cbn [t_size t_items]. destruct (Z.ltb_spec i 0) as [X|_]; [lia|]. unfold zlen in *. rewrite Z.mod_small by lia. assert (B : (Z.of_nat (length l) + 2 <=? i) = false) by (apply Z.leb_gt; lia). rewrite B.
      unfold slot. replace ((0 <=? i) && (i <? 255)) with true by (symmetry; apply andb_true_intro; split; [apply Z.leb_le|apply Z.ltb_lt]; lia). f_equal. cbn [app].
      change (Some a :: repeat (Some a) (S (length l)) ++ Some r :: repeat None (k - 2)) with (repeat (Some a) (S (S (length l))) ++ Some r :: repeat None (k - 2)). rewrite app_nth1 by (rewrite repeat_length; lia). rewrite (nth_indep _ None (Some a)) by (rewrite repeat_length; lia). apply nth_repeat.
    + unfold t_uninit. cbn [t_size t_items]. replace (Z.to_nat (zlen l + 2)) with (S (S (length l))) by (unfold zlen; lia). cbn [free_loop]. rewrite full_at by (cbn [length]; lia). cbn [obind existsb]. rewrite put_at by (cbn [length]; lia). cbn [obind app repeat].
      change (None :: Some a :: repeat (Some a) (length l) ++ Some r :: repeat None (k - 2)) with ([None] ++ Some a :: repeat (Some a) (length l) ++ Some r :: repeat None (k - 2)). rewrite full_at by (cbn [length]; lia). cbn [obind existsb]. rewrite Z.eqb_refl. reflexivity.
  - intros l L. destruct l as [|a l]; [discriminate L|]. cbn [length] in L. unfold t_unshift. cbn [tbl t_size t_items]. assert (Z1 : zlen (a :: l) = 254) by (unfold zlen; cbn [length]; lia). rewrite Z1. change (254 =? 255) with false. change (negb (254 <? 255)) with false. cbv iota.
    replace (Z.to_nat 254) with (S (length l)) by lia. cbn [length map app]. replace (255 - S (length l))%nat with 1%nat by lia.
    pose proof (unshift_exact (S (length l)) [] a (map Some l ++ repeat None 1) ltac:(cbn [length]; lia) ltac:(rewrite app_length, map_length; cbn [length repeat]; lia)) as U. cbn [length app] in U. change (Z.of_nat 0 + 1) with 1 in U. rewrite U. cbn [obind].
    unfold put. replace ((0 <=? 1 + Z.of_nat (S (length l))) && (1 + Z.of_nat (S (length l)) <? 255)) with false; [reflexivity|]. symmetry. apply Bool.andb_false_intro2. apply Z.ltb_ge. lia.
  - intros l L. unfold t_unshift. cbn [tbl t_size]. assert (Z1 : (zlen l =? 255) = true) by (apply Z.eqb_eq; unfold zlen; lia). rewrite Z1. reflexivity.
Qed.
(** So unshift never puts a record in front *)
Theorem unshift_refuted : exists l r t, NoDup (r :: l) /\ t_unshift (tbl l) r = Ok (zlen l + 1, t) /\ t <> tbl (r :: l) /\ t_get t 0 <> Ok (Some r) /\ t_uninit t = Ub.
Proof.
  exists [1; 2], 3. destruct (unshift_actual 3) as (_ & U & _). destruct (U 1 [2] ltac:(cbn [length]; lia)) as (t & E & G & F). exists t. split; [repeat constructor; cbn; lia|]. split; [exact E|]. pose proof (G 0 ltac:(unfold zlen; cbn [length]; lia)) as G0.
  split; [intros ->; discriminate G0|]. split; [rewrite G0; discriminate|exact F].
Qed.
Example ex_calls : Forall call_ok [Push 7; Push 8; Push 9; Get (-1); Set_ (-2) 5; Shift; Pop; Get 0; Get 4; Get (-9); Pop; Pop] /\
  spec_run [] [Push 7; Push 8; Push 9; Get (-1); Set_ (-2) 5; Shift; Pop; Get 0; Get 4; Get (-9); Pop; Pop] =
  ([Size 1; Size 2; Size 3; Ptr (Some 9); Size 3; Ptr (Some 7); Ptr (Some 9); Ptr (Some 5); Ptr None; Ptr None; Ptr (Some 5); Ptr None], []).
Proof. split; [repeat constructor; cbn [call_ok]; lia|reflexivity]. Qed.
Example ex_release : NoDup [4; 5; 6] /\ t_uninit (tbl [4; 5; 6]) = Ok ([4; 5; 6], t_init).
Proof. split; [repeat constructor; cbn; lia|reflexivity]. Qed.

Print Assumptions table_is_list.
Print Assumptions table_released.
Print Assumptions unshift_actual.
Print Assumptions unshift_refuted.
