(** The hash table of map.c keeps a list of keys and values: lemmas. *)
From Coq Require Import Permutation.
From Verif Require Import Common CommonFacts Assoc MapModel MapFacts.

Lemma some_inj' {A} (a b : A) : Some a = Some b -> a = b.
Proof. congruence. Qed.
Section Refine.
  Context {K V : Type} (hash : K -> Z) (equal : K -> K -> bool).
  Hypothesis equal_refl : forall a, equal a a = true.
  Hypothesis equal_sym : forall a b, equal a b = equal b a.
  Hypothesis equal_trans : forall a b c, equal a b = true -> equal b c = true -> equal a c = true.
  Hypothesis equal_hash : forall a b, equal a b = true -> hash a = hash b.

  (** ** Lists of keys and values *)
  Notation pairs := (list (K * option V)).
  Definition apart (r : pairs) : Prop := ForallOrdPairs (fun a b => equal (fst a) (fst b) = false) r.
  Lemma apart_perm r r' : Permutation r r' -> apart r -> apart r'.
  Proof.
    induction 1 as [|x l l' P IH|x y l|l1 l2 l3 P1 IH1 P2 IH2]; intros H; auto.
    - inversion H as [|? ? F A]; subst. constructor; [now rewrite <- P|apply IH; exact A].
    - inversion H as [|? ? F A]; subst. inversion A as [|? ? F' A']; subst. inversion F as [|? ? Fx Fl]; subst. constructor; [constructor; [now rewrite equal_sym|exact F']|constructor; assumption].
  Qed.
  Lemma aget_perm k (r r' : pairs) : Permutation r r' -> apart r -> aget equal k r = aget equal k r'.
  Proof.
    induction 1 as [|[x vx] l l' P IH|[x vx] [y vy] l|l1 l2 l3 P1 IH1 P2 IH2]; intros H; cbn [aget]; auto.
    - inversion H; subst. destruct (equal k x); auto.
    - inversion H as [|? ? F A]; subst. inversion F as [|? ? Fx Fl]; subst. cbn [fst] in Fx. destruct (equal k x) eqn:Ex, (equal k y) eqn:Ey; auto. rewrite equal_sym in Ey. rewrite (equal_trans y k x Ey Ex) in Fx. discriminate.
    - rewrite IH1 by exact H. apply IH2. now apply (apart_perm l1).
  Qed.
  Lemma adel_perm k (r r' : pairs) : Permutation r r' -> Permutation (adel equal k r) (adel equal k r').
  Proof.
    induction 1 as [|[x vx] l l' P IH|[x vx] [y vy] l|l1 l2 l3 P1 IH1 P2 IH2]; cbn [adel]; auto.
    - destruct (equal k x); auto.
    - destruct (equal k x), (equal k y); auto. apply perm_swap.
    - now transitivity (adel equal k l2).
  Qed.
  Lemma adel_none k (r : pairs) : Forall (fun e => equal (fst e) k = false) r -> adel equal k r = r /\ aget equal k r = None.
  Proof. induction 1 as [|[x vx] r Fx F [IH1 IH2]]; [auto|]. cbn [fst] in Fx. cbn [adel aget]. rewrite equal_sym, Fx, IH1. auto. Qed.
  Lemma adel_one k a r r0 : apart r -> Permutation r (a :: r0) -> equal (fst a) k = true -> Permutation (adel equal k r) r0 /\ aget equal k r = Some (snd a) /\ Forall (fun e => equal (fst e) k = false) r0.
  Proof.
    intros A P E. assert (A' := apart_perm _ _ P A). inversion A' as [|? ? F Ar]; subst. assert (N : Forall (fun e => equal (fst e) k = false) r0).
    { eapply Forall_impl; [|exact F]. cbn. intros e He. destruct (equal (fst e) k) eqn:Q; [|reflexivity]. rewrite equal_sym in Q. rewrite (equal_trans _ _ _ E Q) in He. discriminate. }
    split; [|split; [|exact N]].
    - rewrite (adel_perm k _ _ P). destruct a as [x v]. cbn [adel]. cbn [fst] in E. rewrite equal_sym, E. now rewrite (proj1 (adel_none k r0 N)).
    - rewrite (aget_perm k _ _ P A). destruct a as [x v]. cbn [aget fst snd] in *. now rewrite equal_sym, E.
  Qed.
  Lemma adel_clean k (r : pairs) : Forall (fun e => equal k (fst e) = false) (adel equal k r).
  Proof. induction r as [|[x v] r IH]; cbn [adel]; [constructor|]. destruct (equal k x) eqn:E; [exact IH|constructor; assumption]. Qed.
  Lemma adel_sub (P : K * option V -> Prop) k (r : pairs) : Forall P r -> Forall P (adel equal k r).
  Proof. induction 1 as [|[x v] r Px F IH]; cbn [adel]; [constructor|]. destruct (equal k x); [exact IH|constructor; assumption]. Qed.
  Lemma adel_apart k r : apart r -> apart (adel equal k r).
  Proof. induction 1 as [|[x v] r F A IH]; cbn [adel]; [constructor|]. destruct (equal k x); [exact IH|constructor; [now apply adel_sub|exact IH]]. Qed.
  Lemma aset_apart k v r : apart r -> apart (aset equal k v r).
  Proof. intros A. constructor; [apply adel_clean|now apply adel_apart]. Qed.

  (** ** The table keeps the list [r] *)
  Notation cells := (option K * option (option V))%type.
  Definition raw (e : K * option V) : cells := (Some (fst e), Some (snd e)).
  Definition cell (ks : list (option K)) (vs : list (option (option V))) (i : Z) : cells := (nth (Z.to_nat i) ks None, nth (Z.to_nat i) vs None).
  Definition reach (f : list Z) (n h i : Z) : Prop := exists s, 0 <= s < n /\ pos h n s = i /\ forall s', 0 <= s' < s -> emp f (pos h n s') = false.
  Definition used (f : list Z) (i : Z) : bool := negb (emp f i).
  Notation table := (@table K V).
  Definition shape (m : table) (k : Z) : Prop := 2 <= k <= 31 /\ n_buckets m = 2 ^ k /\ zlen (flags m) = fsize (2 ^ k) /\ 2 ^ k <= zlen (keys m) /\ 2 ^ k <= zlen (vals m) /\ upper_bound m = upper (2 ^ k).
  Definition filled (m : table) (r : pairs) (k : Z) : Prop :=
    shape m k /\ Permutation (elems (2 ^ k) (live (flags m)) (cell (keys m) (vals m))) (map raw r) /\ size m = zlen r /\ n_occupied m = zlen (elems (2 ^ k) (used (flags m)) (fun i => i)) /\ n_occupied m <= upper (2 ^ k) /\
    (forall i x, 0 <= i < 2 ^ k -> live (flags m) i = true -> nth (Z.to_nat i) (keys m) None = Some x -> reach (flags m) (2 ^ k) (hash x) i) /\ apart r.
  Definition fresh (m : table) (r : pairs) : Prop := n_buckets m = 0 /\ size m = 0 /\ n_occupied m = 0 /\ upper_bound m = 0 /\ flags m = [] /\ r = [].
  Definition keeps (m : table) (r : pairs) : Prop := is_map m = true /\ (fresh m r \/ exists k, filled m r k).

  Lemma live_cell m r k i : filled m r k -> 0 <= i < 2 ^ k -> live (flags m) i = true ->
    exists x v r0, cell (keys m) (vals m) i = raw (x, v) /\ Permutation r ((x, v) :: r0) /\ Permutation (elems (2 ^ k) (fun j => live (flags m) j && negb (j =? i)) (cell (keys m) (vals m))) (map raw r0).
  Proof.
    intros (_ & P & _) Hi L. pose proof (elems_drop (2 ^ k) (live (flags m)) (cell (keys m) (vals m)) i Hi L) as D. rewrite P in D. symmetry in D. apply Permutation_map_inv in D. destruct D as ([|[x v] r0] & E & Q); [discriminate|]. cbn [map] in E. injection E as Ek Ev Er. exists x, v, r0. split; [unfold raw, cell; cbn [fst snd]; congruence|]. split; [exact Q|]. now rewrite Er.
  Qed.
  Lemma in_range m k i : shape m k -> 0 <= i < 2 ^ k -> 0 <= i < 16 * zlen (flags m).
  Proof. intros (Hk & _ & L & _) Hi. rewrite L. pose proof (fsize_pow k Hk). lia. Qed.

  (** Where the search for a key stops *)
  Definition matches (m : table) (key : K) (i : Z) : bool := match nth (Z.to_nat i) (keys m) None with Some x => equal x key | None => false end.
  Definition stop (m : table) (key : K) (i : Z) : bool := emp (flags m) i || (negb (del (flags m) i) && matches m key i).
  Lemma passes_in m r k key i : filled m r k -> 0 <= i < 2 ^ k -> passes equal m i key = Done (negb (stop m key i)).
  Proof.
    intros F Hi. assert (Sh : shape m k) by apply F. assert (R := in_range m k i Sh Hi). unfold passes, stop. rewrite isempty_in by exact R. cbn [rbind]. destruct (emp (flags m) i) eqn:Ee; [reflexivity|]. rewrite isdel_in by exact R. cbn [rbind orb]. destruct (del (flags m) i) eqn:Ed; [reflexivity|].
    destruct (live_cell m r k i F Hi) as (x & v & r0 & C & _); [unfold live; now rewrite Ee, Ed|]. unfold cell, raw in C. apply (f_equal fst) in C. cbn [fst] in C. unfold key_at. rewrite (zget_in (keys m) i None) by (destruct Sh as (_ & _ & _ & L & _); lia). cbn [rbind]. unfold matches. rewrite C. reflexivity.
  Qed.
  (** The place where it stops *)
  Definition halts (m : table) (key : K) (k t : Z) : Prop := 0 <= t < 2 ^ k /\ stop m key (pos (hash key) (2 ^ k) t) = true /\ forall s, 0 <= s < t -> stop m key (pos (hash key) (2 ^ k) s) = false.
  Lemma halts_ex m r k key : filled m r k -> exists t, halts m key k t.
  Proof.
    intros F. assert (F' := F). destruct F' as ((Hk & _) & _ & _ & Oc & Ob & _). pose proof (pow2_cases k Hk) as (B & _). pose proof (upper_pow (2 ^ k) ltac:(lia)) as (U & _). destruct (elems_room (2 ^ k) (used (flags m)) (fun i => i)) as (i & Hi & Ui); [lia|lia|]. apply negb_false_iff in Ui.
    destruct (pos_all k (hash key) i ltac:(lia) Hi) as (s & Hs & <-). destruct (least (fun s => stop m key (pos (hash key) (2 ^ k) s)) s) as (t & Ht & St & Lt); [lia|unfold stop; now rewrite Ui|]. exists t. split; [lia|]. split; [exact St|exact Lt].
  Qed.
  Lemma halts_found m r k key t : filled m r k -> halts m key k t -> let i := pos (hash key) (2 ^ k) t in
    (live (flags m) i = true /\ exists x v r0, cell (keys m) (vals m) i = raw (x, v) /\ equal x key = true /\ Permutation r ((x, v) :: r0) /\ Permutation (elems (2 ^ k) (fun j => live (flags m) j && negb (j =? i)) (cell (keys m) (vals m))) (map raw r0)) \/
    (emp (flags m) i = true /\ Forall (fun e => equal (fst e) key = false) r).
  Proof.
    intros F (Ht & St & Lt) i. assert (Hk : 2 <= k <= 31) by apply F. pose proof (pow2_cases k Hk) as (B & _). assert (Hi : 0 <= i < 2 ^ k) by (apply pos_range; lia). fold i in St. unfold stop in St. destruct (emp (flags m) i) eqn:Ee.
    - right. split; [reflexivity|]. apply Forall_forall. intros [x v] I. cbn [fst]. destruct (equal x key) eqn:Q; [exfalso|reflexivity]. assert (F' := F). destruct F' as (_ & P & _ & _ & _ & Re & _).
      assert (J : In (raw (x, v)) (elems (2 ^ k) (live (flags m)) (cell (keys m) (vals m)))) by (rewrite P; now apply in_map). apply elems_in in J. destruct J as (j & Hj & Lj & C). unfold cell, raw in C. cbn [fst snd] in C. apply (f_equal fst) in C. cbn [fst] in C. destruct (Re j x Hj Lj C) as (s & Hs & Es & Bs). rewrite (equal_hash x key Q) in *.
      destruct (Z.lt_trichotomy s t) as [Lst|[->|Lst]].
      + specialize (Lt s ltac:(lia)). rewrite Es in Lt. unfold stop, matches in Lt. rewrite C, Q in Lt. unfold live in Lj. destruct (emp (flags m) j), (del (flags m) j); discriminate.
      + fold i in Es. rewrite <- Es in Lj. unfold live in Lj. rewrite Ee in Lj. discriminate.
      + specialize (Bs t ltac:(lia)). fold i in Bs. congruence.
    - left. cbn [orb] in St. apply andb_true_iff in St. destruct St as [Sd Sm]. assert (L : live (flags m) i = true) by (unfold live; rewrite Ee; exact Sd). split; [exact L|]. destruct (live_cell m r k i F Hi L) as (x & v & r0 & C & P & Q). exists x, v, r0. split; [exact C|]. split; [|auto]. unfold matches in Sm. unfold cell, raw in C. apply (f_equal fst) in C. cbn [fst] in C. now rewrite C in Sm.
  Qed.

  Lemma lookup_run m r k key t : filled m r k -> halts m key k t -> lookup hash equal m key = Done (if live (flags m) (pos (hash key) (2 ^ k) t) then pos (hash key) (2 ^ k) t else 2 ^ k).
  Proof.
    intros F (Ht & St & Lt). assert (Sh : shape m k) by apply F. assert (Hk : 2 <= k <= 31) by apply Sh. pose proof (pow2_cases k Hk) as (B & _). destruct Sh as (_ & En & Lf & Lk & Lv & _). unfold lookup. rewrite En. replace (2 ^ k =? 0) with false by lia. rewrite (pos_first k (hash key)) by lia.
    assert (G : forall fuel s, 0 <= s <= t -> (Z.to_nat (t - s) < fuel)%nat -> lookup_loop equal fuel m key (u32 (2 ^ k - 1)) (pos (hash key) (2 ^ k) 0) (pos (hash key) (2 ^ k) s) s = Done (if live (flags m) (pos (hash key) (2 ^ k) t) then pos (hash key) (2 ^ k) t else 2 ^ k)).
    { induction fuel as [|fuel IH]; intros s Hs Hf; [lia|]. cbn [lookup_loop]. rewrite (passes_in m r k key _ F) by (apply pos_range; lia). cbn [rbind]. destruct (Z.eq_dec s t) as [->|N].
      - rewrite St. cbn [negb]. rewrite iseither_in by (rewrite Lf; pose proof (fsize_pow k Hk); pose proof (pos_range (hash key) (2 ^ k) t ltac:(lia)); lia). cbn [rbind]. rewrite En. destruct (live (flags m) _); reflexivity.
      - rewrite Lt by lia. cbn [negb]. cbv zeta. destruct (pos_step k (hash key) s) as [Es Ep]; [lia|change (2 ^ 32) with 4294967296; lia|]. rewrite Ep, Es. replace (pos (hash key) (2 ^ k) (s + 1) =? pos (hash key) (2 ^ k) 0) with false; [apply IH; lia|]. symmetry. apply Z.eqb_neq. intros E. apply pos_inj in E; lia. }
    apply G; [lia|]. unfold rounds. rewrite En. lia.
  Qed.
  (** The list tells what is in the table *)
  Lemma fetch m r key : keeps m r -> match aget equal key r with
    | Some v => exists k i, filled m r k /\ 0 <= i < 2 ^ k /\ live (flags m) i = true /\ lookup hash equal m key = Done i /\ nth (Z.to_nat i) (vals m) None = Some v
    | None => lookup hash equal m key = Done (n_buckets m) /\ Forall (fun e => equal (fst e) key = false) r end.
  Proof.
    intros [_ [Fr|(k & F)]].
    - destruct Fr as (En & _ & _ & _ & _ & ->). cbn [aget]. unfold lookup. rewrite En. split; [reflexivity|constructor].
    - destruct (halts_ex m r k key F) as (t & Ht). pose proof (lookup_run m r k key t F Ht) as E. assert (Hk : 2 <= k <= 31) by apply F. pose proof (pow2_cases k Hk) as (B & _). destruct (halts_found m r k key t F Ht) as [(L & x & v & r0 & C & Q & P & _)|(Ee & N)].
      + destruct (adel_one key (x, v) r r0 ltac:(apply F) P Q) as (_ & -> & _). exists k, (pos (hash key) (2 ^ k) t). split; [exact F|]. split; [apply pos_range; lia|]. split; [exact L|]. rewrite L in E. split; [exact E|]. apply (f_equal snd) in C. exact C.
      + rewrite (proj2 (adel_none key r N)). split; [|exact N]. rewrite E. unfold live. rewrite Ee. cbn [negb andb]. do 2 f_equal. symmetry. apply F.
  Qed.
  Lemma get_keeps m r key : keeps m r -> map_get hash equal m key = Done (match aget equal key r with Some v => v | None => None end).
  Proof.
    intros H. pose proof (fetch m r key H) as G. unfold map_get. destruct (aget equal key r) as [v|].
    - destruct G as (k & i & F & Hi & L & E & C). rewrite E. cbn [rbind]. assert (Sh : shape m k) by apply F. assert (R := in_range m k i Sh Hi). destruct Sh as (_ & En & _ & _ & Lv & _). rewrite En. replace (i =? 2 ^ k) with false by lia. rewrite iseither_in by exact R. rewrite L. cbn [rbind negb]. unfold val_at. rewrite (zget_in (vals m) i None) by lia. rewrite C. reflexivity.
    - destruct G as [E _]. rewrite E. cbn [rbind]. now rewrite Z.eqb_refl.
  Qed.
  Lemma has_keeps m r key : keeps m r -> map_has hash equal m key = Done (ahas equal key r).
  Proof.
    intros H. pose proof (fetch m r key H) as G. unfold map_has, ahas. destruct (aget equal key r) as [v|].
    - destruct G as (k & i & F & Hi & L & E & C). rewrite E. cbn [rbind]. assert (Sh : shape m k) by apply F. assert (R := in_range m k i Sh Hi). destruct Sh as (_ & En & _). rewrite En. replace (i =? 2 ^ k) with false by lia. rewrite iseither_in by exact R. now rewrite L.
    - destruct G as [E _]. rewrite E. cbn [rbind]. now rewrite Z.eqb_refl.
  Qed.
  Lemma reach_more f f' n h i : 0 < n -> (forall j, 0 <= j < n -> emp f j = false -> emp f' j = false) -> reach f n h i -> reach f' n h i.
  Proof. intros Hn H (s & Hs & E & B). exists s. split; [exact Hs|]. split; [exact E|]. intros s' Hs'. apply H; [now apply pos_range|now apply B]. Qed.
  Lemma zlen_map {A B} (g : A -> B) l : zlen (map g l) = zlen l.
  Proof. unfold zlen. now rewrite map_length. Qed.
  Lemma size_bound m r k : filled m r k -> zlen r < 2 ^ k /\ zlen r <= n_occupied m.
  Proof.
    intros ((Hk & _) & P & _ & Oc & Ob & _). pose proof (pow2_cases k Hk) as (B & _). pose proof (upper_pow (2 ^ k) ltac:(lia)) as (U & _). apply zlen_perm in P. rewrite zlen_map in P. assert (L : zlen r <= n_occupied m); [|lia]. rewrite <- P, Oc. rewrite <- (zlen_map (fun _ => 0)), elems_map. rewrite <- (zlen_map (fun _ : Z => 0) (elems _ (used _) _)), elems_map. apply elems_fewer. intros i Hi L. unfold live in L. apply andb_true_iff in L. apply L.
  Qed.
  Lemma del_keeps m r key : keeps m r -> exists m', map_del hash equal m key = Done (ahas equal key r, m') /\ keeps m' (adel equal key r).
  Proof.
    intros H. pose proof (fetch m r key H) as G. destruct H as [Im H]. unfold map_del, ahas. destruct (aget equal key r) as [v|] eqn:Ag.
    - clear H. destruct G as (k & i & F & Hi & L & E & C). rewrite E. cbn [rbind]. assert (Sh : shape m k) by apply F. assert (R := in_range m k i Sh Hi). destruct Sh as (Hk & En & Lf & Lk & Lv & Eu). rewrite En. replace (i =? 2 ^ k) with false by lia. rewrite iseither_in by exact R. rewrite L. cbn [rbind negb]. unfold delete. rewrite En. replace (i =? 2 ^ k) with false by lia. rewrite iseither_in by exact R. rewrite L. cbn [rbind negb].
      destruct (setdel_in (flags m) i R) as (f' & Ef & Lf' & Fl). rewrite Ef. cbn [rbind]. eexists. split; [reflexivity|]. split; [exact Im|]. right. exists k. pose proof (pow2_cases k Hk) as (B & _). pose proof (size_bound m r k F) as (Sb & _).
      assert (exists x, equal x key = true /\ nth (Z.to_nat i) (keys m) None = Some x) as (x & Q & Cx).
      { destruct (halts_ex m r k key F) as (t & Ht). rewrite (lookup_run m r k key t F Ht) in E. injection E as E. destruct (halts_found m r k key t F Ht) as [(L' & x & v' & r0 & C' & Q & _)|(Ee & _)]; [|unfold live in E; rewrite Ee in E; cbn [negb andb] in E; lia]. rewrite L' in E. rewrite E in C'. exists x. split; [exact Q|]. apply (f_equal fst) in C'. exact C'. }
      destruct (live_cell m r k i F Hi L) as (x' & v' & r0 & C' & P & P'). assert (x' = x) by (apply (f_equal fst) in C'; unfold cell, raw in C'; cbn [fst snd] in C'; congruence). subst x'. destruct F as (Sh & Pe & Sz & Oc & Ob & Re & Ap). destruct (adel_one key (x, v') r r0 Ap P Q) as (Pd & _ & _).
      assert (El : forall j, 0 <= j < 2 ^ k -> live f' j = live (flags m) j && negb (j =? i)). { intros j Hj. unfold live. destruct (Fl j ltac:(lia)) as [-> ->]. destruct (j =? i), (emp (flags m) j), (del (flags m) j); reflexivity. }
      split; [|split; [|split; [|split; [|split; [|split]]]]]; unfold with_slot; cbn [n_buckets flags keys vals size n_occupied upper_bound is_map].
      + split; [exact Hk|]. split; [exact En|]. split; [cbn [flags]; congruence|]. auto.
      + rewrite Pd. rewrite <- P'. rewrite (elems_ext (2 ^ k) (live f') (fun j => live (flags m) j && negb (j =? i)) (cell (keys m) (vals m)) (cell (keys m) (vals m))) by auto. reflexivity.
      + apply zlen_perm in P. rewrite zlen_cons in P. rewrite Sz, (zlen_perm _ _ Pd). unfold u32. rewrite Z.mod_small; [lia|]. pose proof (zlen_nonneg r0). change (2 ^ 32) with 4294967296. lia.
      + rewrite Oc. f_equal. apply elems_ext; [|auto]. intros j Hj. unfold used. now rewrite (proj1 (Fl j ltac:(lia))).
      + exact Ob.
      + intros j y Hj Lj Cj. rewrite (El j Hj) in Lj. apply andb_true_iff in Lj. apply reach_more with (flags m); [lia| |apply Re; tauto]. intros a Ha. now rewrite (proj1 (Fl a ltac:(lia))).
      + now apply adel_apart.
    - destruct G as [E N]. rewrite E. cbn [rbind]. rewrite Z.eqb_refl. exists m. split; [reflexivity|]. split; [exact Im|]. now rewrite (proj1 (adel_none key r N)).
  Qed.

  (** ** Walking through the table *)
  Lemma walk_all m r k : filled m r k -> exists l, entries m = Done l /\ Permutation l r.
  Proof.
    intros F. assert (Sh : shape m k) by apply F. assert (Hk : 2 <= k <= 31) by apply Sh. pose proof (pow2_cases k Hk) as (B & _). assert (G : forall count i, 0 <= i -> i + Z.of_nat count = 2 ^ k -> exists l, walk count m i = Done l /\ map raw l = flat_map (fun j => if live (flags m) j then [cell (keys m) (vals m) j] else []) (map Z.of_nat (seq (Z.to_nat i) count))).
    { induction count as [|count IH]; intros i Hi E; [exists []; auto|]. cbn [walk seq map flat_map]. replace (Z.of_nat (Z.to_nat i)) with i by lia. destruct (IH (i + 1)) as (l & El & Ml); [lia|lia|]. replace (Z.to_nat (i + 1)) with (S (Z.to_nat i)) in Ml by lia. assert (R := in_range m k i Sh ltac:(lia)). rewrite iseither_in by exact R. cbn [rbind]. destruct (live (flags m) i) eqn:L; cbn [negb app].
      - destruct (live_cell m r k i F ltac:(lia) L) as (x & v & _ & C & _). destruct Sh as (_ & _ & _ & Lk & Lv & _). rewrite C. unfold cell, raw in C. cbn [fst snd] in C. unfold key_at, val_at. rewrite (zget_in (keys m) i None), (zget_in (vals m) i None) by lia. pose proof (f_equal fst C) as C1. pose proof (f_equal snd C) as C2. cbn [fst snd] in C1, C2. rewrite C1, C2. cbn [rbind]. rewrite El. cbn [rbind]. exists ((x, v) :: l). split; [reflexivity|]. cbn [map]. now rewrite Ml.
      - exists l. auto. }
    destruct (G (Z.to_nat (2 ^ k)) 0) as (l & El & Ml); [lia|lia|]. exists l. unfold entries. destruct Sh as (_ & En & _). rewrite En. split; [exact El|]. destruct F as (_ & P & _). change (map raw l = elems (2 ^ k) (live (flags m)) (cell (keys m) (vals m))) in Ml. rewrite <- Ml in P. apply Permutation_map_inv in P. destruct P as (l3 & E3 & P3). assert (l = l3). { clear -E3. revert l3 E3. induction l as [|[a b] l IH]; intros [|[c d] l3] E; cbn in E; try discriminate; [reflexivity|]. injection E as -> -> E. f_equal. now apply IH. } subst l3. now symmetry.
  Qed.
  Lemma entries_keeps m r : keeps m r -> exists l, entries m = Done l /\ Permutation l r.
  Proof.
    intros [_ [(En & _ & _ & _ & _ & ->)|(k & F)]]; [|now apply (walk_all m r k)]. exists []. unfold entries. rewrite En. auto.
  Qed.
  Lemma reset_keeps m r : keeps m r -> keeps (reset m) [].
  Proof.
    intros [Im [(En & Es & Eo & Eu & Ef & _)|(k & F)]].
    - unfold reset. rewrite Ef. split; [exact Im|]. left. repeat split; auto.
    - assert (Sh : shape m k) by apply F. destruct Sh as (Hk & En & Lf & Lk & Lv & Eu). pose proof (pow2_cases k Hk) as (B & _). pose proof (fsize_pow k Hk) as Fs. unfold reset. destruct (flags m) as [|w f] eqn:Efl; [change (zlen (@nil Z)) with 0 in Lf; lia|]. split; [exact Im|]. right. exists k. unfold with_slot. assert (Em : forall i, 0 <= i < 2 ^ k -> emp (all_empty (2 ^ k)) i = true) by (intros; apply all_empty_in; lia).
      split; [|split; [|split; [|split; [|split; [|split]]]]]; cbn [n_buckets flags keys vals size n_occupied upper_bound is_map]; rewrite ?En.
      + split; [exact Hk|]. split; [reflexivity|]. cbn [flags keys vals upper_bound]. split; [apply all_empty_len; lia|auto].
      + rewrite elems_nil; [reflexivity|]. intros i Hi. unfold live. now rewrite Em.
      + reflexivity.
      + rewrite elems_nil; [reflexivity|]. intros i Hi. unfold used. now rewrite Em.
      + pose proof (upper_pow (2 ^ k) ltac:(lia)). lia.
      + intros i x Hi L. unfold live in L. rewrite Em in L by exact Hi. discriminate.
      + constructor.
  Qed.

  (** ** Rearranging *)
  Notation work := (@work K V).
  Notation wcell w := (cell (w_keys w) (w_vals w)).
  Definition mid (n N : Z) (w : work) (hand L : list cells) : Prop :=
    Permutation (hand ++ elems n (live (w_old w)) (wcell w) ++ elems N (used (w_new w)) (wcell w)) L /\
    (forall i, 0 <= i < n -> i < N -> live (w_old w) i = true -> emp (w_new w) i = true) /\
    (forall i, 0 <= i < N -> del (w_new w) i = false) /\
    (forall i x, 0 <= i < N -> emp (w_new w) i = false -> nth (Z.to_nat i) (w_keys w) None = Some x -> reach (w_new w) N (hash x) i) /\
    n <= 16 * zlen (w_old w) /\ zlen (w_new w) = fsize N /\ Z.max n N <= zlen (w_keys w) /\ Z.max n N <= zlen (w_vals w).
  Lemma free_run f k h t fuel : 2 <= k <= 31 -> 2 ^ k <= 16 * zlen f -> 0 <= t < 2 ^ k -> emp f (pos h (2 ^ k) t) = true -> (forall s, 0 <= s < t -> emp f (pos h (2 ^ k) s) = false) -> (Z.to_nat t < fuel)%nat ->
    free_loop fuel f (u32 (2 ^ k - 1)) (Z.land h (u32 (2 ^ k - 1))) 0 = Done (pos h (2 ^ k) t).
  Proof.
    intros Hk Lf Ht Et Lt Hf. pose proof (pow2_cases k Hk) as (B & _). rewrite (pos_first k h) by lia.
    assert (G : forall fuel s, 0 <= s <= t -> (Z.to_nat (t - s) < fuel)%nat -> free_loop fuel f (u32 (2 ^ k - 1)) (pos h (2 ^ k) s) s = Done (pos h (2 ^ k) t)).
    { clear fuel Hf. induction fuel as [|fuel IH]; intros s Hs Hf; [lia|]. cbn [free_loop]. pose proof (pos_range h (2 ^ k) s ltac:(lia)). rewrite isempty_in by lia. cbn [rbind]. destruct (Z.eq_dec s t) as [->|N]; [now rewrite Et|]. rewrite Lt by lia. cbv zeta. destruct (pos_step k h s) as [Es Ep]; [lia|change (2 ^ 32) with 4294967296; lia|]. rewrite Ep, Es. apply IH; lia. }
    apply G; lia.
  Qed.
  Lemma kick_ends n k L : 0 <= n -> 2 <= k <= 31 -> zlen L < 2 ^ k -> Forall (fun c : cells => exists x v, c = (Some x, Some v)) L -> forall fuel w key val, mid n (2 ^ k) w [(Some key, val)] L -> zlen (elems n (live (w_old w)) (wcell w)) < Z.of_nat fuel ->
    exists w', kick hash fuel true n (2 ^ k) w key val = Done w' /\ mid n (2 ^ k) w' [] L /\ forall i, 0 <= i < n -> live (w_old w') i = true -> live (w_old w) i = true.
  Proof.
    intros Hn Hk ZL FL. pose proof (pow2_cases k Hk) as (B & _). pose proof (fsize_pow k Hk) as Fs. induction fuel as [|fuel IH]; intros w key val M Hf; [pose proof (zlen_nonneg (elems n (live (w_old w)) (wcell w))); lia|].
    assert (M' := M). destruct M' as (P & D & Nd & Re & Lo & Ln & Lk & Lv). assert (Pl := zlen_perm _ _ P). rewrite !zlen_app in Pl. change (zlen [(Some key, val)]) with 1 in Pl.
    destruct (elems_room (2 ^ k) (used (w_new w)) (wcell w)) as (i0 & Hi0 & Ui0); [lia|pose proof (zlen_nonneg (elems n (live (w_old w)) (wcell w))); lia|]. apply negb_false_iff in Ui0. destruct (pos_all k (hash key) i0 ltac:(lia) Hi0) as (s & Hs & <-).
    destruct (least (fun s => emp (w_new w) (pos (hash key) (2 ^ k) s)) s) as (t & Ht & Et & Lt); [lia|exact Ui0|]. cbn [kick]. cbv zeta. rewrite (free_run (w_new w) k (hash key) t) by (auto; lia). cbn [rbind]. set (i := pos (hash key) (2 ^ k) t) in *. assert (Hi : 0 <= i < 2 ^ k) by (apply pos_range; lia).
    destruct (clear_in (w_new w) i 2) as (f & Ef & Lf & Fl); [lia|auto|]. rewrite Ef. cbn [rbind]. change (2 =? 2) with true in Fl. cbn [andb] in Fl.
    assert (Use : forall j, 0 <= j < 2 ^ k -> used f j = used (w_new w) j || (j =? i)). { intros j Hj. unfold used. rewrite (proj1 (Fl j ltac:(lia))). destruct (j =? i); [now rewrite orb_true_r|now rewrite orb_false_r]. }
    assert (Ri : reach f (2 ^ k) (hash key) i). { exists t. split; [lia|]. split; [reflexivity|]. intros s' Hs'. pose proof (pos_range (hash key) (2 ^ k) s' ltac:(lia)). rewrite (proj1 (Fl (pos (hash key) (2 ^ k) s') ltac:(lia))). specialize (Lt s' Hs'). cbn beta in Lt. rewrite Lt. now destruct (_ =? i). }
    destruct (zset_in (w_keys w) i (Some key)) as (ks & Eks & Lks & Nks); [lia|]. destruct (zset_in (w_vals w) i val) as (vs & Evs & Lvs & Nvs); [lia|].
    assert (Ci : cell ks vs i = (Some key, val)) by (unfold cell; rewrite Nks, Nvs, Z.eqb_refl by lia; reflexivity). assert (Cj : forall j, 0 <= j -> j <> i -> cell ks vs j = wcell w j) by (intros j Hj Nj; unfold cell; rewrite Nks, Nvs by lia; replace (j =? i) with false by lia; reflexivity).
    assert (Pn : Permutation (elems (2 ^ k) (used f) (cell ks vs)) ((Some key, val) :: elems (2 ^ k) (used (w_new w)) (wcell w))).
    { rewrite (elems_drop (2 ^ k) (used f) (cell ks vs) i Hi) by (rewrite Use by lia; rewrite Z.eqb_refl; apply orb_true_r). rewrite Ci. apply perm_skip. rewrite (elems_ext (2 ^ k) _ (used (w_new w)) _ (wcell w)); [reflexivity| |].
      - intros j Hj. rewrite Use by exact Hj. destruct (Z.eqb_spec j i) as [->|]; [unfold used; rewrite Et; reflexivity|rewrite orb_false_r, andb_true_r; reflexivity].
      - intros j Hj Uj. apply Cj; [lia|]. intros ->. rewrite Z.eqb_refl, andb_false_r in Uj. discriminate. }
    assert (Re' : forall j x, 0 <= j < 2 ^ k -> emp f j = false -> nth (Z.to_nat j) ks None = Some x -> reach f (2 ^ k) (hash x) j).
    { intros j x Hj Ej Cx. rewrite Nks in Cx by lia. destruct (Z.eqb_spec j i) as [->|Nj]; [apply some_inj' in Cx; subst x; exact Ri|]. rewrite (proj1 (Fl j ltac:(lia))) in Ej. replace (j =? i) with false in Ej by lia. apply reach_more with (w_new w); [lia| |now apply Re]. intros a Ha Ea. rewrite (proj1 (Fl a ltac:(lia))), Ea. now destruct (a =? i). }
    assert (Nd' : forall j, 0 <= j < 2 ^ k -> del f j = false). { intros j Hj. rewrite (proj2 (Fl j ltac:(lia))), Nd by lia. now destruct (j =? i). }
    destruct (Z.ltb_spec i n) as [Lin|Lin]; [rewrite iseither_in by lia; cbn [rbind]; rewrite negb_involutive; destruct (live (w_old w) i) eqn:Li|cbn [rbind]].
    - pose proof (elems_drop n (live (w_old w)) (wcell w) i ltac:(lia) Li) as Pd. assert (exists x v, wcell w i = (Some x, Some v)) as (x & v & Cw).
      { rewrite Forall_forall in FL. apply FL. apply (Permutation_in _ P). apply in_or_app. right. apply in_or_app. left. apply elems_in. exists i. split; [lia|auto]. }
      pose proof (f_equal fst Cw) as Cw1. pose proof (f_equal snd Cw) as Cw2. unfold cell in Cw1, Cw2. cbn [fst snd] in Cw1, Cw2. unfold key_at. rewrite (zget_in (w_keys w) i None) by lia. rewrite Cw1. cbn [rbind]. rewrite Eks. cbn [rbind]. rewrite (zget_in (w_vals w) i None) by lia. rewrite Cw2. cbn [rbind]. rewrite Evs. cbn [rbind].
      destruct (setdel_in (w_old w) i) as (o & Eo & Lo' & Fo); [lia|]. rewrite Eo. cbn [rbind]. assert (Lo2 : forall j, 0 <= j < n -> live o j = live (w_old w) j && negb (j =? i)). { intros j Hj. unfold live. destruct (Fo j ltac:(lia)) as [-> ->]. destruct (j =? i), (emp (w_old w) j), (del (w_old w) j); reflexivity. }
      assert (Eo2 : elems n (live o) (cell ks vs) = elems n (fun j => live (w_old w) j && negb (j =? i)) (wcell w)). { apply elems_ext; [exact Lo2|]. intros j Hj Lj. apply Cj; [lia|]. intros ->. rewrite Lo2, Z.eqb_refl, andb_false_r in Lj by exact Hj. discriminate. }
      destruct (IH {| w_old := o; w_new := f; w_keys := ks; w_vals := vs |} x (Some v)) as (w' & Ew & Mw & Ow).
      + split; [|split; [|split; [|split; [|split; [|split; [|split]]]]]]; cbn [w_old w_new w_keys w_vals]; auto; try lia.
        * rewrite Eo2, Pn, <- P. rewrite Pd, Cw. cbn [app]. rewrite <- Permutation_middle. apply perm_swap.
        * intros j Hj Hj' Lj. rewrite Lo2 in Lj by exact Hj. apply andb_true_iff in Lj. destruct Lj as [Lj Nj]. rewrite (proj1 (Fl j ltac:(lia))). replace (j =? i) with false by lia. now apply D.
      + cbn [w_old w_keys w_vals]. rewrite Eo2. apply zlen_perm in Pd. rewrite zlen_cons in Pd. lia.
      + exists w'. split; [exact Ew|]. split; [exact Mw|]. intros j Hj Lj. specialize (Ow j Hj Lj). cbn [w_old] in Ow. rewrite Lo2 in Ow by exact Hj. apply andb_true_iff in Ow. apply Ow.
    - rewrite Eks. cbn [rbind]. rewrite Evs. cbn [rbind]. eexists. split; [reflexivity|]. split; [|auto]. split; [|split; [|split; [|split; [|split; [|split; [|split]]]]]]; cbn [w_old w_new w_keys w_vals app]; auto; try lia.
      + rewrite Pn, <- P. rewrite (elems_ext n (live (w_old w)) (live (w_old w)) (cell ks vs) (wcell w)); [cbn [app]; symmetry; apply Permutation_middle|auto|]. intros j Hj Lj. apply Cj; [lia|]. intros ->. congruence.
      + intros j Hj Hj' Lj. rewrite (proj1 (Fl j ltac:(lia))). destruct (Z.eqb_spec j i) as [->|]; [congruence|now apply D].
    - rewrite Eks. cbn [rbind]. rewrite Evs. cbn [rbind]. eexists. split; [reflexivity|]. split; [|auto]. split; [|split; [|split; [|split; [|split; [|split; [|split]]]]]]; cbn [w_old w_new w_keys w_vals app]; auto; try lia.
      + rewrite Pn, <- P. rewrite (elems_ext n (live (w_old w)) (live (w_old w)) (cell ks vs) (wcell w)); [cbn [app]; symmetry; apply Permutation_middle|auto|]. intros j Hj Lj. apply Cj; lia.
      + intros j Hj Hj' Lj. rewrite (proj1 (Fl j ltac:(lia))). replace (j =? i) with false by lia. now apply D.
  Qed.
  Lemma rehash_ends n k L : 0 <= n -> 2 <= k <= 31 -> zlen L < 2 ^ k -> Forall (fun c : cells => exists x v, c = (Some x, Some v)) L -> forall count j w, 0 <= j -> j + Z.of_nat count = n -> mid n (2 ^ k) w [] L -> (forall i, 0 <= i < j -> live (w_old w) i = false) ->
    exists w', rehash hash count true n (2 ^ k) j w = Done w' /\ mid n (2 ^ k) w' [] L /\ forall i, 0 <= i < n -> live (w_old w') i = false.
  Proof.
    intros Hn Hk ZL FL. pose proof (pow2_cases k Hk) as (B & _). induction count as [|count IH]; intros j w Hj Ej M Bj; [exists w; split; [reflexivity|]; split; [exact M|]; intros; apply Bj; lia|]. cbn [rehash]. assert (M' := M). destruct M' as (P & D & Nd & Re & Lo & Ln & Lk & Lv). rewrite iseither_in by lia. cbn [rbind]. destruct (live (w_old w) j) eqn:Lj; cbn [negb].
    - pose proof (elems_drop n (live (w_old w)) (wcell w) j ltac:(lia) Lj) as Pd. assert (exists x v, wcell w j = (Some x, Some v)) as (x & v & Cw).
      { rewrite Forall_forall in FL. apply FL. apply (Permutation_in _ P). cbn [app]. apply in_or_app. left. apply elems_in. exists j. split; [lia|auto]. }
      pose proof (f_equal fst Cw) as Cw1. pose proof (f_equal snd Cw) as Cw2. unfold cell in Cw1, Cw2. cbn [fst snd] in Cw1, Cw2. unfold key_at. rewrite (zget_in (w_keys w) j None) by lia. rewrite Cw1. cbn [rbind]. rewrite (zget_in (w_vals w) j None) by lia. rewrite Cw2. cbn [rbind].
      destruct (setdel_in (w_old w) j) as (o & Eo & Lo' & Fo); [lia|]. rewrite Eo. cbn [rbind]. assert (Lo2 : forall i, 0 <= i < n -> live o i = live (w_old w) i && negb (i =? j)). { intros i Hi. unfold live. destruct (Fo i ltac:(lia)) as [-> ->]. destruct (i =? j), (emp (w_old w) i), (del (w_old w) i); reflexivity. }
      assert (Eo2 : elems n (live o) (wcell w) = elems n (fun i => live (w_old w) i && negb (i =? j)) (wcell w)) by (apply elems_ext; auto).
      destruct (kick_ends n k L Hn Hk ZL FL (S (Z.to_nat n)) {| w_old := o; w_new := w_new w; w_keys := w_keys w; w_vals := w_vals w |} x (Some v)) as (w' & Ew & Mw & Ow).
      + split; [|split; [|split; [|split; [|split; [|split; [|split]]]]]]; cbn [w_old w_new w_keys w_vals]; auto; try lia.
        * rewrite Eo2, <- P. cbn [app]. rewrite Pd, Cw. reflexivity.
        * intros i Hi Hi' Li. rewrite Lo2 in Li by exact Hi. apply andb_true_iff in Li. now apply D.
      + cbn [w_old w_keys w_vals]. pose proof (elems_fewer n (live o) (fun _ => true) (wcell w) ltac:(auto)) as Fw. assert (zlen (elems n (fun _ => true) (wcell w)) = n); [|lia]. unfold elems. rewrite <- (zseq_len n Hn) at 2. generalize (zseq n). induction l as [|a l IHl]; [reflexivity|]. cbn [flat_map app]. rewrite !zlen_cons. lia.
      + rewrite Ew. cbn [rbind]. apply IH; [lia|lia|exact Mw|]. intros i Hi. destruct (live (w_old w') i) eqn:Li; [|reflexivity]. specialize (Ow i ltac:(lia) Li). cbn [w_old] in Ow. rewrite Lo2 in Ow by lia. apply andb_true_iff in Ow. destruct Ow as [Oi Ni]. rewrite Bj in Oi by lia. discriminate.
    - cbn [rbind]. apply IH; [lia|lia|exact M|]. intros i Hi. destruct (Z.eq_dec i j) as [->|]; [exact Lj|apply Bj; lia].
  Qed.
  Definition places (want : Z) : Z := let n := roundup32 want in if n <? 4 then 4 else n.
  Lemma places_pow want : 0 <= want < 2 ^ 32 -> exists k, 2 <= k <= 31 /\ places want = 2 ^ k.
  Proof.
    intros H. unfold places. destruct (roundup_any want H) as [->|(k & Hk & ->)]; [exists 2; split; [lia|reflexivity]|]. cbv zeta. destruct (Z.ltb_spec (2 ^ k) 4) as [L|L]; [exists 2; split; [lia|reflexivity]|]. exists k. split; [|reflexivity]. change 4 with (2 ^ 2) in L. apply Z.pow_le_mono_r_iff in L; lia.
  Qed.
  Lemma raw_all (r : pairs) : Forall (fun c : cells => exists x v, c = (Some x, Some v)) (map raw r).
  Proof. induction r as [|[x v] r IH]; cbn [map]; constructor; [exists x, v; reflexivity|exact IH]. Qed.
  Lemma keeps_same m m' r : is_map m' = is_map m -> n_buckets m' = n_buckets m -> size m' = size m -> n_occupied m' = n_occupied m -> upper_bound m' = upper_bound m -> flags m' = flags m -> vals m' = vals m -> (forall i, 0 <= i < n_buckets m -> nth (Z.to_nat i) (keys m') None = nth (Z.to_nat i) (keys m) None) -> n_buckets m <= zlen (keys m') -> keeps m r -> keeps m' r.
  Proof.
    intros Ei En Es Eo Eu Ef Ev Ek Lk [Im [Fr|(k & F)]].
    - split; [congruence|]. left. unfold fresh in *. rewrite En, Es, Eo, Eu, Ef. exact Fr.
    - split; [congruence|]. right. exists k. destruct F as ((Hk & Hn & Lf & Lk' & Lv & Hu) & P & Sz & Oc & Ob & Re & Ap). split; [|split; [|split; [|split; [|split; [|split]]]]]; rewrite ?En, ?Es, ?Eo, ?Eu, ?Ef, ?Ev; auto.
      + split; [exact Hk|]. rewrite En, Ef, Ev, Eu. repeat (split; [lia|]). lia.
      + rewrite <- P. erewrite elems_ext; [reflexivity|auto|]. intros i Hi Li. unfold cell. f_equal. apply Ek. lia.
      + intros i x Hi Li Cx. apply Re; auto. rewrite <- Ek by lia. exact Cx.
  Qed.
  Lemma resize_keeps mem m r want : keeps m r -> 0 <= want < 2 ^ 32 -> (places want < n_buckets m -> mem_keys mem = true /\ mem_vals mem = true) ->
    exists ok m', resize hash mem m want = Done (ok, m') /\ keeps m' r /\ size m' = size m /\
    (ok = false -> mem_flags mem && mem_keys mem && mem_vals mem = false) /\
    (ok = true -> upper (places want) <= size m /\ m' = m \/ size m < upper (places want) /\ n_buckets m' = places want /\ n_occupied m' = size m /\ upper_bound m' = upper (places want)).
  Proof.
    intros H Hw Sm. destruct (places_pow want Hw) as (k & Hk & Ep). pose proof (pow2_cases k Hk) as (B & _). pose proof (fsize_pow k Hk) as Fs. pose proof (upper_pow (2 ^ k) ltac:(lia)) as (Ub & _). unfold resize. fold (places want). rewrite Ep in *. destruct (Z.leb_spec (upper (2 ^ k)) (size m)) as [Lu|Lu].
    { exists true, m. split; [reflexivity|]. split; [exact H|]. split; [reflexivity|]. split; [discriminate|]. auto. }
    destruct (mem_flags mem) eqn:Mf; cbn [negb]; [|exists false, m; split; [reflexivity|]; split; [exact H|]; split; [reflexivity|]; split; [reflexivity|discriminate]].
    assert (Im : is_map m = true) by apply H. rewrite Im. set (grow := n_buckets m <? 2 ^ k) in *. destruct (grow && negb (mem_keys mem)) eqn:G1.
    { exists false, m. split; [reflexivity|]. split; [exact H|]. split; [reflexivity|]. split; [intros _; apply andb_true_iff in G1; destruct G1 as [_ G1]; apply negb_true_iff in G1; now rewrite G1|discriminate]. }
    cbv zeta. set (ks := if grow then realloc (keys m) (2 ^ k) else keys m).
    assert (N0 : 0 <= n_buckets m <= zlen (keys m) \/ n_buckets m = 0). { destruct H as [_ [(En & _)|(k0 & (Hk0 & En & _ & Lk & _) & _)]]; [now right|left]. pose proof (pow2_cases k0 Hk0). lia. }
    assert (Ks : (forall i, 0 <= i < n_buckets m -> nth (Z.to_nat i) ks None = nth (Z.to_nat i) (keys m) None) /\ Z.max (n_buckets m) (2 ^ k) <= zlen ks).
    { unfold ks, grow. destruct (Z.ltb_spec (n_buckets m) (2 ^ k)) as [Lg|Lg]; [split; [intros i Hi; apply realloc_in; lia|rewrite realloc_len by lia; lia]|]. split; [auto|]. lia. }
    destruct Ks as [Ks Lks]. rewrite andb_true_r. destruct (grow && negb (mem_vals mem)) eqn:G2.
    { exists false, (with_arrays m ks (vals m)). split; [reflexivity|]. split; [|split; [reflexivity|split; [intros _; apply andb_true_iff in G2; destruct G2 as [_ G2]; apply negb_true_iff in G2; rewrite G2; apply andb_false_r|discriminate]]].
      apply (keeps_same m); auto. cbn [with_arrays keys]. lia. }
    set (vs := if grow then realloc (vals m) (2 ^ k) else vals m). assert (V0 : 0 <= n_buckets m <= zlen (vals m) \/ n_buckets m = 0). { destruct H as [_ [(En & _)|(k0 & (Hk0 & En & _ & _ & Lv & _) & _)]]; [now right|left]. pose proof (pow2_cases k0 Hk0). lia. }
    assert (Vs : (forall i, 0 <= i < n_buckets m -> nth (Z.to_nat i) vs None = nth (Z.to_nat i) (vals m) None) /\ Z.max (n_buckets m) (2 ^ k) <= zlen vs).
    { unfold vs, grow. destruct (Z.ltb_spec (n_buckets m) (2 ^ k)) as [Lg|Lg]; [split; [intros i Hi; apply realloc_in; lia|rewrite realloc_len by lia; lia]|]. split; [auto|]. lia. }
    destruct Vs as [Vs Lvs]. assert (Em : forall i, 0 <= i < 2 ^ k -> emp (all_empty (2 ^ k)) i = true /\ del (all_empty (2 ^ k)) i = false) by (intros; apply all_empty_in; lia).
    assert (Szr : size m = zlen r /\ 0 <= n_buckets m /\ Permutation (elems (n_buckets m) (live (flags m)) (cell ks vs)) (map raw r) /\ n_buckets m <= 16 * zlen (flags m) /\ apart r).
    { destruct H as [_ [(En & Es & _ & _ & Ef & ->)|(k0 & F)]].
      - rewrite Es, En. split; [reflexivity|]. split; [lia|]. split; [reflexivity|]. split; [pose proof (zlen_nonneg (flags m)); lia|constructor].
      - destruct F as ((Hk0 & En & Lf & _) & P & Sz & _ & _ & _ & Ap). pose proof (pow2_cases k0 Hk0). pose proof (fsize_pow k0 Hk0). rewrite En in *. split; [exact Sz|]. split; [lia|]. split; [|split; [lia|exact Ap]]. rewrite <- P. erewrite elems_ext; [reflexivity|auto|]. intros i Hi Li. unfold cell. f_equal; [apply Ks|apply Vs]; lia. }
    destruct Szr as (Sz & Hn0 & Pr & Lfl & Ap). destruct (rehash_ends (n_buckets m) k (map raw r) Hn0 Hk) with (count := Z.to_nat (n_buckets m)) (j := 0) (w := {| w_old := flags m; w_new := all_empty (2 ^ k); w_keys := ks; w_vals := vs |}) as (w' & Ew & Mw & Ow); try lia.
    - rewrite zlen_map. lia.
    - apply raw_all.
    - split; [|split; [|split; [|split; [|split; [|split; [|split]]]]]]; cbn [w_old w_new w_keys w_vals app]; auto; try lia.
      + rewrite (elems_nil (2 ^ k)) by (intros i Hi; unfold used; now rewrite (proj1 (Em i Hi))). rewrite app_nil_r. exact Pr.
      + intros i Hi Hi' _. apply Em. lia.
      + intros i Hi. now apply Em.
      + intros i x Hi Ei. rewrite (proj1 (Em i Hi)) in Ei. discriminate.
      + apply all_empty_len. lia.
    - rewrite Ew. cbn [rbind]. destruct Mw as (P & D & Nd & Re & Lo & Ln & Lk & Lv). cbn [app] in P. rewrite (elems_nil (n_buckets m)) in P by exact Ow. cbn [app] in P.
      set (ks' := if 2 ^ k <? n_buckets m then if mem_keys mem then realloc (w_keys w') (2 ^ k) else [] else w_keys w'). set (vs' := if (2 ^ k <? n_buckets m) && true then if mem_vals mem then realloc (w_vals w') (2 ^ k) else [] else w_vals w').
      assert (Ks' : (forall i, 0 <= i < 2 ^ k -> nth (Z.to_nat i) ks' None = nth (Z.to_nat i) (w_keys w') None) /\ 2 ^ k <= zlen ks'). { unfold ks'. destruct (Z.ltb_spec (2 ^ k) (n_buckets m)) as [Ls|Ls]; [|split; [auto|lia]]. destruct (Sm Ls) as [-> _]. split; [intros; apply realloc_in; lia|rewrite realloc_len; lia]. }
      assert (Vs' : (forall i, 0 <= i < 2 ^ k -> nth (Z.to_nat i) vs' None = nth (Z.to_nat i) (w_vals w') None) /\ 2 ^ k <= zlen vs'). { unfold vs'. rewrite andb_true_r. destruct (Z.ltb_spec (2 ^ k) (n_buckets m)) as [Ls|Ls]; [|split; [auto|lia]]. destruct (Sm Ls) as [_ ->]. split; [intros; apply realloc_in; lia|rewrite realloc_len; lia]. }
      eexists. eexists. split; [reflexivity|]. split; [|split; [reflexivity|split; [discriminate|intros _; right; auto]]]. split; [reflexivity|]. right. exists k. assert (Lu' : forall i, 0 <= i < 2 ^ k -> live (w_new w') i = used (w_new w') i) by (intros i Hi; unfold live, used; rewrite Nd by exact Hi; apply andb_true_r).
      split; [|split; [|split; [|split; [|split; [|split]]]]]; cbn [n_buckets flags keys vals size n_occupied upper_bound is_map].
      + split; [exact Hk|]. split; [reflexivity|]. split; [exact Ln|]. split; [apply Ks'|]. split; [apply Vs'|reflexivity].
      + rewrite <- P. erewrite elems_ext; [reflexivity|exact Lu'|]. intros i Hi Li. unfold cell. f_equal; [now apply Ks'|now apply Vs'].
      + exact Sz.
      + rewrite Sz. rewrite <- (zlen_map raw), <- (zlen_perm _ _ P). rewrite <- (zlen_map (fun _ : cells => 0)), <- (zlen_map (fun _ : Z => 0) (elems _ _ (fun i => i))), !elems_map. reflexivity.
      + lia.
      + intros i x Hi Li Cx. apply Re; [exact Hi| |rewrite <- (proj1 Ks') by exact Hi; exact Cx]. rewrite Lu' in Li by exact Hi. unfold used in Li. now apply negb_true_iff in Li.
      + exact Ap.
  Qed.

  (** ** Putting *)
  Lemma put_run m r k key t : filled m r k -> halts m key k t -> forall fuel s site, 0 <= s <= t -> (Z.to_nat (t - s) < fuel)%nat ->
    exists site', put_loop equal fuel m key (u32 (2 ^ k - 1)) (pos (hash key) (2 ^ k) 0) (pos (hash key) (2 ^ k) s) s site = Done (false, pos (hash key) (2 ^ k) t, site') /\
      (site' = site \/ exists s', s <= s' < t /\ site' = pos (hash key) (2 ^ k) s' /\ del (flags m) site' = true).
  Proof.
    intros F (Ht & St & Lt). assert (Sh : shape m k) by apply F. assert (Hk : 2 <= k <= 31) by apply Sh. pose proof (pow2_cases k Hk) as (B & _). induction fuel as [|fuel IH]; intros s site Hs Hf; [lia|]. cbn [put_loop]. assert (Hp : 0 <= pos (hash key) (2 ^ k) s < 2 ^ k) by (apply pos_range; lia). rewrite (passes_in m r k key _ F Hp). cbn [rbind]. destruct (Z.eq_dec s t) as [->|N].
    - rewrite St. cbn [negb]. exists site. auto.
    - rewrite Lt by lia. cbn [negb]. rewrite isdel_in by now apply (in_range m k). cbn [rbind]. cbv zeta. destruct (pos_step k (hash key) s) as [Es Ep]; [lia|change (2 ^ 32) with 4294967296; lia|]. rewrite Ep, Es. replace (pos (hash key) (2 ^ k) (s + 1) =? pos (hash key) (2 ^ k) 0) with false by (symmetry; apply Z.eqb_neq; intros E; apply pos_inj in E; lia).
      destruct (IH (s + 1) (if del (flags m) (pos (hash key) (2 ^ k) s) then pos (hash key) (2 ^ k) s else site)) as (site' & E & C); [lia|lia|]. exists site'. split; [exact E|]. destruct C as [->|(s' & Hs' & -> & D)]; [|right; exists s'; split; [lia|auto]]. destruct (del (flags m) (pos (hash key) (2 ^ k) s)) eqn:D; [right; exists s; split; [lia|auto]|now left].
  Qed.
  Lemma place_run m r k key t : filled m r k -> halts m key k t -> exists x, place_for hash equal m key = Done x /\ 0 <= x < 2 ^ k /\ reach (flags m) (2 ^ k) (hash key) x /\
    (live (flags m) (pos (hash key) (2 ^ k) t) = true -> x = pos (hash key) (2 ^ k) t) /\ (live (flags m) (pos (hash key) (2 ^ k) t) = false -> live (flags m) x = false).
  Proof.
    intros F Hh. assert (Hh' := Hh). destruct Hh' as (Ht & St & Lt). assert (Sh : shape m k) by apply F. assert (Hk : 2 <= k <= 31) by apply Sh. pose proof (pow2_cases k Hk) as (B & _). assert (Sh' := Sh). destruct Sh' as (_ & En & _). assert (Hp : forall s, 0 <= pos (hash key) (2 ^ k) s < 2 ^ k) by (intros; apply pos_range; lia).
    assert (Rs : forall s, 0 <= s <= t -> reach (flags m) (2 ^ k) (hash key) (pos (hash key) (2 ^ k) s)). { intros s Hs. exists s. split; [lia|]. split; [reflexivity|]. intros s' Hs'. specialize (Lt s' ltac:(lia)). unfold stop in Lt. now apply orb_false_iff in Lt. }
    unfold place_for. rewrite En. rewrite (pos_first k (hash key)) by lia. rewrite isempty_in by (apply (in_range m k); auto). cbn [rbind]. destruct (emp (flags m) (pos (hash key) (2 ^ k) 0)) eqn:E0.
    - assert (t = 0). { destruct (Z.eq_dec t 0); [assumption|]. specialize (Lt 0 ltac:(lia)). unfold stop in Lt. rewrite E0 in Lt. discriminate. } subst t. exists (pos (hash key) (2 ^ k) 0). split; [reflexivity|]. split; [apply Hp|]. split; [apply Rs; lia|auto].
    - destruct (put_run m r k key t F Hh (rounds m) 0 (2 ^ k)) as (site & E & C); [lia|unfold rounds; rewrite En; lia|]. rewrite E. cbn [rbind]. rewrite Z.eqb_refl. rewrite isempty_in by (apply (in_range m k); auto). cbn [rbind]. eexists. split; [reflexivity|]. unfold live. destruct (emp (flags m) (pos (hash key) (2 ^ k) t)) eqn:Et; cbn [andb negb].
      + destruct C as [->|(s' & Hs' & -> & D)].
        * rewrite Z.eqb_refl. cbn [negb]. split; [apply Hp|]. split; [apply Rs; lia|]. split; [discriminate|]. intros _. now rewrite Et.
        * specialize (Hp s'). replace (pos (hash key) (2 ^ k) s' =? 2 ^ k) with false by lia. cbn [negb]. split; [exact Hp|]. split; [apply Rs; lia|]. split; [discriminate|]. intros _. rewrite D. apply andb_false_r.
      + split; [apply Hp|]. split; [apply Rs; lia|]. rewrite Et. cbn [negb andb]. auto.
  Qed.
  Lemma finish m r k key v x f ks vs sz oc : filled m r k -> 0 <= x < 2 ^ k -> reach (flags m) (2 ^ k) (hash key) x ->
    (if live (flags m) x then exists y u, cell (keys m) (vals m) x = raw (y, u) /\ equal y key = true else Forall (fun e => equal (fst e) key = false) r) ->
    zlen f = zlen (flags m) -> (forall j, 0 <= j -> emp f j = (if j =? x then false else emp (flags m) j) /\ del f j = (if j =? x then false else del (flags m) j)) ->
    zlen ks = zlen (keys m) -> (forall j d, 0 <= j -> nth (Z.to_nat j) ks d = if j =? x then Some key else nth (Z.to_nat j) (keys m) d) -> zlen vs = zlen (vals m) -> (forall j d, 0 <= j -> nth (Z.to_nat j) vs d = if j =? x then Some v else nth (Z.to_nat j) (vals m) d) ->
    sz = (if live (flags m) x then size m else size m + 1) -> oc = (if emp (flags m) x then n_occupied m + 1 else n_occupied m) -> oc <= upper (2 ^ k) ->
    filled {| n_buckets := n_buckets m; size := sz; n_occupied := oc; upper_bound := upper_bound m; flags := f; keys := ks; vals := vs; is_map := is_map m |} (aset equal key v r) k.
  Proof.
    intros F Hx Rx Q Lf Fl Lks Nks Lvs Nvs Sz' Oc' Ob'. assert (Hk : 2 <= k <= 31) by apply F. pose proof (pow2_cases k Hk) as (B & _).
    assert (Cx : cell ks vs x = raw (key, v)) by (unfold cell, raw; cbn [fst snd]; rewrite Nks, Nvs, Z.eqb_refl by lia; reflexivity). assert (Cj : forall j, 0 <= j -> j <> x -> cell ks vs j = cell (keys m) (vals m) j) by (intros j Hj Nj; unfold cell; rewrite Nks, Nvs by lia; replace (j =? x) with false by lia; reflexivity).
    assert (Lj : forall j, 0 <= j -> live f j = live (flags m) j || (j =? x)). { intros j Hj. unfold live. destruct (Fl j Hj) as [-> ->]. destruct (j =? x); [symmetry; apply orb_true_r|now rewrite orb_false_r]. }
    assert (Uj : forall j, 0 <= j -> used f j = used (flags m) j || (j =? x)). { intros j Hj. unfold used. destruct (Fl j Hj) as [-> _]. destruct (j =? x); [symmetry; apply orb_true_r|now rewrite orb_false_r]. }
    assert (Rest : Permutation (elems (2 ^ k) (fun j => live (flags m) j && negb (j =? x)) (cell (keys m) (vals m))) (map raw (adel equal key r)) /\ zlen (adel equal key r) = (if live (flags m) x then size m - 1 else size m)).
    { destruct (live (flags m) x) eqn:L.
      - destruct Q as (y & u & C & Q). destruct (live_cell m r k x F Hx L) as (y' & u' & r0 & C' & P & P'). assert (y' = y) by (pose proof (f_equal fst C) as C1; pose proof (f_equal fst C') as C2; unfold raw in C1, C2; cbn [fst] in C1, C2; congruence). subst y'. destruct (adel_one key (y, u') r r0 ltac:(apply F) P Q) as (Pd & _). split; [rewrite Pd; exact P'|]. rewrite (zlen_perm _ _ Pd). apply zlen_perm in P. rewrite zlen_cons in P. destruct F as (_ & _ & Sz & _). lia.
      - destruct (adel_none key r Q) as [-> _]. destruct F as (_ & P & Sz & _). split; [|lia]. rewrite <- P. erewrite elems_ext; [reflexivity| |auto]. intros j Hj. destruct (Z.eqb_spec j x) as [->|]; [now rewrite L|apply andb_true_r]. }
    destruct Rest as [Pr Zr]. assert (F' := F). destruct F' as ((_ & En & Ln & Lk & Lv & Eu) & P & Sz & Oc & Ob & Re & Ap). split; [|split; [|split; [|split; [|split; [|split]]]]]; cbn [n_buckets flags keys vals size n_occupied upper_bound is_map].
    - split; [exact Hk|]. cbn [n_buckets flags keys vals size n_occupied upper_bound]. rewrite Lf, Lks, Lvs. auto.
    - rewrite (elems_drop (2 ^ k) (live f) (cell ks vs) x Hx) by (rewrite Lj, Z.eqb_refl by lia; apply orb_true_r). rewrite Cx. unfold aset. cbn [map]. apply perm_skip. rewrite <- Pr. erewrite elems_ext; [reflexivity| |].
      + intros j Hj. rewrite Lj by lia. destruct (j =? x); [now rewrite !andb_false_r|now rewrite orb_false_r].
      + intros j Hj L. apply Cj; [lia|]. intros ->. rewrite Z.eqb_refl, andb_false_r in L. discriminate.
    - unfold aset. rewrite zlen_cons, Zr, Sz'. destruct (live (flags m) x); lia.
    - rewrite Oc', Oc. rewrite (zlen_perm _ _ (elems_drop (2 ^ k) (used f) (fun i => i) x Hx ltac:(rewrite Uj, Z.eqb_refl by lia; apply orb_true_r))). rewrite zlen_cons. assert (E : elems (2 ^ k) (fun i => used f i && negb (i =? x)) (fun i => i) = elems (2 ^ k) (fun i => used (flags m) i && negb (i =? x)) (fun i => i)) by (apply elems_ext; [intros j Hj; rewrite Uj by lia; destruct (j =? x); [now rewrite !andb_false_r|now rewrite orb_false_r]|auto]). rewrite E. destruct (emp (flags m) x) eqn:Ex.
      + rewrite (elems_ext (2 ^ k) (fun i => used (flags m) i && negb (i =? x)) (used (flags m)) (fun i => i) (fun i => i)); [lia| |auto]. intros j Hj. destruct (Z.eqb_spec j x) as [->|]; [unfold used; now rewrite Ex|apply andb_true_r].
      + pose proof (zlen_perm _ _ (elems_drop (2 ^ k) (used (flags m)) (fun i => i) x Hx ltac:(unfold used; now rewrite Ex))) as Z. rewrite zlen_cons in Z. lia.
    - exact Ob'.
    - intros j y Hj L Cy. assert (Mono : forall a, 0 <= a < 2 ^ k -> emp (flags m) a = false -> emp f a = false) by (intros a Ha Ea; rewrite (proj1 (Fl a ltac:(lia))), Ea; now destruct (a =? x)). rewrite Nks in Cy by lia. destruct (Z.eqb_spec j x) as [->|Nj]; [apply some_inj' in Cy; subst y; now apply reach_more with (flags m); [lia| |]|]. apply reach_more with (flags m); [lia|exact Mono|]. apply Re; [exact Hj| |exact Cy]. rewrite Lj in L by lia. replace (j =? x) with false in L by lia. now rewrite orb_false_r in L.
    - now apply aset_apart.
  Qed.
  Lemma put_room mem m r : keeps m r -> zlen r < 2 ^ 30 -> exists ok m',
    (if upper_bound m <=? n_occupied m then if u32 (Z.shiftl (size m) 1) <? n_buckets m then resize hash mem m (u32 (n_buckets m - 1)) else resize hash mem m (u32 (n_buckets m + 1)) else Done (true, m)) = Done (ok, m') /\ keeps m' r /\ size m' = size m /\
    (ok = false -> mem_flags mem && mem_keys mem && mem_vals mem = false) /\ (ok = true -> exists k, filled m' r k /\ n_occupied m' < upper (2 ^ k)).
  Proof.
    intros H Zr. change (2 ^ 30) with 1073741824 in Zr. assert (Cs : size m = zlen r /\ 0 <= n_buckets m <= 2147483648 /\ (n_buckets m = 0 /\ size m = 0 /\ upper_bound m = 0 /\ n_occupied m = 0 \/ exists k, 2 <= k <= 31 /\ n_buckets m = 2 ^ k /\ upper_bound m = upper (2 ^ k) /\ size m <= n_occupied m <= upper (2 ^ k) /\ filled m r k)).
    { destruct H as [_ [(En & Es & Eo & Eu & _ & ->)|(k & F)]]; [rewrite Es, En; split; [reflexivity|split; [lia|auto]]|]. pose proof (size_bound m r k F) as (_ & Sb). assert (F' := F). destruct F' as ((Hk & En & _ & _ & _ & Eu) & _ & Sz & _ & Ob & _). pose proof (pow2_cases k Hk). split; [exact Sz|]. split; [lia|]. right. exists k. repeat (split; [assumption || lia|]). exact F. }
    destruct Cs as (Sz & Hn & Cs). pose proof (zlen_nonneg r) as Zn. assert (Esh : u32 (Z.shiftl (size m) 1) = 2 * zlen r) by (unfold u32; rewrite Z.shiftl_mul_pow2 by lia; change (2 ^ 1) with 2; rewrite Z.mod_small; [lia|change (2 ^ 32) with 4294967296; lia]). rewrite Esh.
    destruct (Z.leb_spec (upper_bound m) (n_occupied m)) as [Lb|Lb].
    - (* the table must grow or be cleaned *)
      assert (Pick : exists want, 0 <= want < 2 ^ 32 /\ (if 2 * zlen r <? n_buckets m then resize hash mem m (u32 (n_buckets m - 1)) else resize hash mem m (u32 (n_buckets m + 1))) = resize hash mem m want /\ n_buckets m <= places want /\ size m < upper (places want)).
      { destruct Cs as [(En & Es & _ & _)|(k & Hk & En & Eu & So & F)].
        - exists 1. split; [change (2 ^ 32) with 4294967296; lia|]. rewrite En. replace (2 * zlen r <? 0) with false by lia. split; [reflexivity|]. rewrite Es. split; vm_compute; congruence.
        - pose proof (pow2_cases k Hk) as (B & B2 & B4). destruct (upper_pow (2 ^ k) ltac:(lia)) as (U1 & U2 & _). destruct (Z.ltb_spec (2 * zlen r) (n_buckets m)) as [Lc|Lc].
          + exists (2 ^ k - 1). split; [change (2 ^ 32) with 4294967296; lia|]. split; [f_equal; rewrite En; unfold u32; apply Z.mod_small; change (2 ^ 32) with 4294967296; lia|]. unfold places. rewrite (roundup_pow (2 ^ k - 1) k) by lia. cbv zeta. replace (2 ^ k <? 4) with false by lia. lia.
          + exists (2 ^ k + 1). split; [change (2 ^ 32) with 4294967296; lia|]. split; [f_equal; rewrite En; unfold u32; apply Z.mod_small; change (2 ^ 32) with 4294967296; lia|]. assert (Hk1 : k + 1 <= 31). { assert (k < 31); [|lia]. apply (Z.pow_lt_mono_r_iff 2); [lia|lia|]. change (2 ^ 31) with 2147483648. lia. }
            assert (P1 : 2 ^ (k + 1) = 2 * 2 ^ k) by (rewrite Z.pow_add_r by lia; change (2 ^ 1) with 2; lia). unfold places. rewrite (roundup_pow (2 ^ k + 1) (k + 1)) by lia. cbv zeta. replace (2 ^ (k + 1) <? 4) with false by lia. rewrite P1. lia. }
      destruct Pick as (want & Hw & -> & Lp & Ls). destruct (resize_keeps mem m r want H Hw) as (ok & m' & E & Hk & Es & Nok & Yok); [lia|]. exists ok, m'. split; [exact E|]. split; [exact Hk|]. split; [exact Es|]. split; [exact Nok|]. intros ->. destruct (Yok eq_refl) as [[Q _]|(_ & En & Eo & Eu)]; [lia|]. destruct Hk as [_ [(En0 & _)|(k & F)]]; [destruct (places_pow want Hw) as (k & Hk & Ep); pose proof (pow2_cases k Hk); lia|]. exists k. split; [exact F|]. destruct F as ((_ & En' & _) & _). rewrite Eo. rewrite <- En', En. exact Ls.
    - destruct Cs as [(_ & _ & Eu & Eo)|(k & Hk & En & Eu & So & F)]; [lia|]. exists true, m. split; [reflexivity|]. split; [exact H|]. split; [reflexivity|]. split; [discriminate|]. intros _. exists k. split; [exact F|lia].
  Qed.
  Lemma set_keeps mem m r key v : keeps m r -> zlen r < 2 ^ 30 -> exists ok m', map_set hash equal mem m key v = Done (ok, m') /\
    (if ok : bool then keeps m' (aset equal key v r) else keeps m' r /\ mem_flags mem && mem_keys mem && mem_vals mem = false).
  Proof.
    intros H Zr. destruct (put_room mem m r H Zr) as (ok & m1 & E & H1 & S1 & Nok & Yok). unfold map_set, put. rewrite E. cbn [rbind]. destruct ok; cbn [negb]; [|exists false, m1; split; [reflexivity|]; split; [exact H1|now apply Nok]]. destruct (Yok eq_refl) as (k & F & Lo). clear E Nok Yok H. assert (Im : is_map m1 = true) by apply H1.
    destruct (halts_ex m1 r k key F) as (t & Hh). destruct (place_run m1 r k key t F Hh) as (x & Ex & Hx & Rx & Xl & Xn). rewrite Ex. cbn [rbind]. assert (Sh : shape m1 k) by apply F. assert (R := in_range m1 k x Sh Hx). assert (Hk : 2 <= k <= 31) by apply Sh. pose proof (pow2_cases k Hk) as (B & _). pose proof (upper_pow (2 ^ k) ltac:(lia)) as (Ub & _). pose proof (size_bound m1 r k F) as (Sb & So). assert (Sz : size m1 = zlen r) by apply F. pose proof (zlen_nonneg r).
    assert (Q : if live (flags m1) x then exists y u, cell (keys m1) (vals m1) x = raw (y, u) /\ equal y key = true else Forall (fun e => equal (fst e) key = false) r).
    { destruct (halts_found m1 r k key t F Hh) as [(L & y & u & r0 & C & Qy & _)|(Ee & N)].
      - rewrite (Xl L), L. exists y, u. auto.
      - rewrite Xn; [exact N|]. unfold live. now rewrite Ee. }
    assert (Sh' := Sh). destruct Sh' as (_ & En & Lf & Lk & Lv & Eu). destruct (zset_in (keys m1) x (Some key)) as (ks & Eks & Lks & Nks); [lia|]. destruct (zset_in (vals m1) x (Some v)) as (vs & Evs & Lvs & Nvs); [lia|].
    destruct (clear_in (flags m1) x 3 R ltac:(auto)) as (f & Ef & Lf' & Fl). change (3 =? 2) with false in Fl. cbn [andb] in Fl.
    rewrite isempty_in by exact R. cbn [rbind]. rewrite isdel_in by exact R. destruct (emp (flags m1) x) eqn:Ee; [|cbn [rbind]; destruct (del (flags m1) x) eqn:Ed].
    - rewrite Eks. cbn [rbind]. rewrite Ef. cbn [rbind]. change (1 =? -1) with false. cbv beta iota zeta. unfold with_slot. cbn [vals]. rewrite Evs. cbn [rbind]. eexists. eexists. split; [reflexivity|]. cbv iota. split; [exact Im|]. right. exists k. unfold with_arrays, with_slot. cbn [n_buckets flags keys vals size n_occupied upper_bound is_map].
      apply finish with x; auto; unfold live; rewrite ?Ee; cbn [negb andb]; unfold u32; rewrite ?Z.mod_small; try lia; change (2 ^ 32) with 4294967296; lia.
    - rewrite Eks. cbn [rbind]. rewrite Ef. cbn [rbind]. change (2 =? -1) with false. cbv beta iota zeta. unfold with_slot. cbn [vals]. rewrite Evs. cbn [rbind]. eexists. eexists. split; [reflexivity|]. cbv iota. split; [exact Im|]. right. exists k. unfold with_arrays, with_slot. cbn [n_buckets flags keys vals size n_occupied upper_bound is_map].
      apply finish with x; auto; unfold live; rewrite ?Ee, ?Ed; cbn [negb andb]; unfold u32; rewrite ?Z.mod_small; try lia; change (2 ^ 32) with 4294967296; lia.
    - rewrite Eks. cbn [rbind]. change (0 =? -1) with false. cbv beta iota zeta. unfold with_slot. cbn [vals]. rewrite Evs. cbn [rbind]. eexists. eexists. split; [reflexivity|]. cbv iota. split; [exact Im|]. right. exists k. unfold with_arrays, with_slot. cbn [n_buckets flags keys vals size n_occupied upper_bound is_map].
      apply finish with x; auto; unfold live; rewrite ?Ee, ?Ed; cbn [negb andb]; auto; [|lia]. intros j Hj. destruct (Z.eqb_spec j x) as [->|]; auto.
  Qed.
  Lemma clear_keeps free m r : keeps m r -> exists fs m', clear free m = Done (fs, m') /\ keeps m' [] /\ (if free : bool then Permutation fs (flat_map (fun e => match snd e with Some v => [v] | None => [] end) r) else fs = []).
  Proof.
    intros H. assert (Im : is_map m = true) by apply H. unfold clear. rewrite Im. cbn [andb]. destruct free.
    - destruct (entries_keeps m r H) as (l & E & P). rewrite E. cbn [rbind]. eexists. eexists. split; [reflexivity|]. split; [now apply (reset_keeps m r)|]. now apply Permutation_flat_map.
    - eexists. eexists. split; [reflexivity|]. split; [now apply (reset_keeps m r)|reflexivity].
  Qed.
  Lemma init_keeps : keeps (map_init true) [].
  Proof. split; [reflexivity|]. left. repeat split. Qed.
End Refine.
