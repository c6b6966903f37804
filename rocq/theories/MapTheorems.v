(** C25: the hash table of map.c is a finite map, for every sequence of operations, every
    hash function and every equality that the hash function respects. *)
From Coq Require Import Permutation.
From Verif Require Import Common CommonFacts Assoc DnsNameFacts CacheModel MapModel MapKeys MapFacts MapRefine.

(** ** Specification: a list with one pair for each key *)
Section Spec.
  Context {K V : Type} (equal : K -> K -> bool).
  (** What a user does, and what is seen of it *)
  Inductive op : Type := Set_ (mem : memory) (k : K) (v : option V) | Get (k : K) | Has (k : K) | Del (k : K) | Walk | Clear (free : bool) | Resize (mem : memory) (want : Z).
  Inductive seen : Type := Bool (b : bool) | Val (v : option V) | Pairs (l : list (K * option V)) | Freed (l : list V).
  Definition enough (mem : memory) : bool := mem_flags mem && mem_keys mem && mem_vals mem.
  Definition value_of (r : list (K * option V)) (k : K) (o : option (option V)) : Prop :=
    match o with Some v => exists k', In (k', v) r /\ equal k' k = true | None => forall k' v, In (k', v) r -> equal k' k = false end.
  Inductive acts (r : list (K * option V)) : op -> seen -> list (K * option V) -> Prop :=
  | a_set mem k v r' : Permutation r' ((k, v) :: filter (fun e => negb (equal (fst e) k)) r) -> acts r (Set_ mem k v) (Bool true) r'
  | a_full mem k v : enough mem = false -> acts r (Set_ mem k v) (Bool false) r
  | a_get k o : value_of r k o -> acts r (Get k) (Val (match o with Some v => v | None => None end)) r
  | a_has k o : value_of r k o -> acts r (Has k) (Bool (match o with Some _ => true | None => false end)) r
  | a_del k o r' : value_of r k o -> Permutation r' (filter (fun e => negb (equal (fst e) k)) r) -> acts r (Del k) (Bool (match o with Some _ => true | None => false end)) r'
  | a_walk l : Permutation l r -> acts r Walk (Pairs l) r
  | a_clear l : Permutation l (flat_map (fun e => match snd e with Some v => [v] | None => [] end) r) -> acts r (Clear true) (Freed l) []
  | a_drop : acts r (Clear false) (Freed []) []
  | a_resize mem want b : (enough mem = true -> b = true) -> acts r (Resize mem want) (Bool b) r.
  Inductive all_acts : list (K * option V) -> list op -> list seen -> list (K * option V) -> Prop :=
  | acts_nil r : all_acts r [] [] r
  | acts_cons r o s r1 os ss r2 : acts r o s r1 -> all_acts r1 os ss r2 -> all_acts r (o :: os) (s :: ss) r2.
  (** Keys differ pairwise *)
  Definition one_each (r : list (K * option V)) : Prop := forall a b l, Permutation r (a :: b :: l) -> equal (fst a) (fst b) = false.
  Definition sets (os : list op) : Z := zlen (filter (fun o => match o with Set_ _ _ _ => true | _ => false end) os).
  (** A request to shrink must be given memory: map.c does not look at the result. *)
  Definition op_ok (o : op) : Prop := match o with Resize mem want => 0 <= want < 2 ^ 32 /\ mem_keys mem = true /\ mem_vals mem = true | _ => True end.
End Spec.

(** ** The code *)
Lemma filter_length_le {A} (f : A -> bool) l : (length (filter f l) <= length l)%nat.
Proof. induction l as [|x l IH]; cbn [filter length]; [lia|]. destruct (f x); cbn [length]; lia. Qed.
Section Run.
  Context {K V : Type} (hash : K -> Z) (equal : K -> K -> bool).
  Definition exec (m : @table K V) (o : @op K V) : run (@seen K V * @table K V) :=
    match o with
    | Set_ mem k v => r <-- map_set hash equal mem m k v ;; Done (Bool (fst r), snd r)
    | Get k => v <-- map_get hash equal m k ;; Done (Val v, m)
    | Has k => b <-- map_has hash equal m k ;; Done (Bool b, m)
    | Del k => r <-- map_del hash equal m k ;; Done (Bool (fst r), snd r)
    | Walk => l <-- entries m ;; Done (Pairs l, m)
    | Clear free => r <-- clear free m ;; Done (Freed (fst r), snd r)
    | Resize mem want => r <-- resize hash mem m want ;; Done (Bool (fst r), snd r)
    end.
  Fixpoint execs (m : @table K V) (os : list (@op K V)) : run (list (@seen K V) * @table K V) :=
    match os with
    | [] => Done ([], m)
    | o :: os => r <-- exec m o ;; t <-- execs (snd r) os ;; Done (fst r :: fst t, snd t)
    end.

  Hypothesis equal_refl : forall a, equal a a = true.
  Hypothesis equal_sym : forall a b, equal a b = equal b a.
  Hypothesis equal_trans : forall a b c, equal a b = true -> equal b c = true -> equal a c = true.
  Hypothesis equal_hash : forall a b, equal a b = true -> hash a = hash b.

  Lemma adel_filter k (r : list (K * option V)) : adel equal k r = filter (fun e => negb (equal (fst e) k)) r.
  Proof. induction r as [|[x v] r IH]; cbn [adel filter fst]; [reflexivity|]. rewrite (equal_sym k x), IH. now destruct (equal x k). Qed.
  Lemma aget_value k (r : list (K * option V)) : value_of equal r k (aget equal k r).
  Proof.
    induction r as [|[x v] r IH]; cbn [aget]; [intros k' v' []|]. rewrite equal_sym. destruct (equal x k) eqn:E; [exists x; split; [now left|exact E]|]. destruct (aget equal k r) as [u|]; cbn [value_of] in *.
    - destruct IH as (k' & I & Q). exists k'. split; [now right|exact Q].
    - intros k' v' [I|I]; [congruence|now apply (IH k' v')].
  Qed.
  Lemma act_done (m : @table K V) r o : keeps hash equal m r -> op_ok o -> zlen r + sets [o] <= 2 ^ 30 -> exists s m' r', exec m o = Done (s, m') /\ acts equal r o s r' /\ keeps hash equal m' r' /\ zlen r' <= zlen r + sets [o].
  Proof.
    intros H Ok_ Zr. destruct o as [mem k v|k|k|k| |free|mem want]; cbn [exec].
    - destruct (set_keeps hash equal equal_refl equal_sym equal_trans equal_hash mem m r k v H ltac:(change (sets [Set_ mem k v]) with 1 in Zr; lia)) as (ok & m' & E & S). rewrite E. cbn [rbind fst snd]. change (sets [Set_ mem k v]) with 1. destruct ok.
      + exists (Bool true), m', (aset equal k v r). split; [reflexivity|]. split; [constructor; unfold aset; now rewrite adel_filter|]. split; [exact S|]. unfold aset. rewrite zlen_cons, adel_filter. unfold zlen. pose proof (filter_length_le (fun e : K * option V => negb (equal (fst e) k)) r). lia.
      + destruct S as [S M]. exists (Bool false), m', r. split; [reflexivity|]. split; [now constructor|]. split; [exact S|lia].
    - rewrite (get_keeps hash equal equal_refl equal_sym equal_trans equal_hash m r k H). cbn [rbind]. eexists. exists m, r. split; [reflexivity|]. split; [constructor; apply aget_value|]. split; [exact H|]. change (sets [Get k]) with 0. lia.
    - rewrite (has_keeps hash equal equal_refl equal_sym equal_trans equal_hash m r k H). cbn [rbind]. eexists. exists m, r. split; [reflexivity|]. split; [unfold ahas; constructor; apply aget_value|]. split; [exact H|]. change (sets [Has k]) with 0. lia.
    - destruct (del_keeps hash equal equal_refl equal_sym equal_trans equal_hash m r k H) as (m' & E & S). rewrite E. cbn [rbind fst snd]. eexists. exists m', (adel equal k r). split; [reflexivity|]. split; [unfold ahas; constructor; [apply aget_value|now rewrite adel_filter]|]. split; [exact S|]. change (sets [Del k]) with 0. rewrite adel_filter. unfold zlen. pose proof (filter_length_le (fun e : K * option V => negb (equal (fst e) k)) r). lia.
    - destruct (entries_keeps hash equal equal_refl equal_sym equal_trans equal_hash m r H) as (l & E & P). rewrite E. cbn [rbind]. eexists. exists m, r. split; [reflexivity|]. split; [now constructor|]. split; [exact H|]. change (sets [Walk]) with 0. lia.
    - destruct (clear_keeps hash equal equal_refl equal_sym equal_trans equal_hash free m r H) as (fs & m' & E & S & P). rewrite E. cbn [rbind fst snd]. eexists. exists m', []. split; [reflexivity|]. split; [destruct free; [now constructor|subst fs; constructor]|]. split; [exact S|]. change (sets [Clear free]) with 0. change (zlen (@nil (K * option V))) with 0. pose proof (zlen_nonneg r). lia.
    - destruct Ok_ as (Hw & Mk & Mv). destruct (resize_keeps hash equal equal_refl equal_sym equal_trans equal_hash mem m r want H Hw) as (ok & m' & E & S & _ & Nok & _); [auto|]. rewrite E. cbn [rbind fst snd]. eexists. exists m', r. split; [reflexivity|]. split; [constructor; unfold enough; destruct ok; [reflexivity|rewrite Nok by reflexivity; discriminate]|]. split; [exact S|]. change (sets [Resize mem want]) with 0. lia.
  Qed.
  Lemma keeps_size (m : @table K V) r : keeps hash equal m r -> size m = zlen r /\ one_each equal r.
  Proof.
    intros H. split; [destruct H as [_ [(_ & Es & _ & _ & _ & ->)|(k & F)]]; [exact Es|apply F]|]. intros a b l P. assert (A : apart equal r) by (destruct H as [_ [(_ & _ & _ & _ & _ & ->)|(k & F)]]; [constructor|apply F]). apply (apart_perm equal equal_sym _ _ P) in A. inversion A as [|? ? Fa _]; subst. now inversion Fa.
  Qed.

  (** Any sequence of operations on a new table ends, stays inside its arrays, and shows
      exactly what a finite map shows. *)
  Theorem table_is_a_map (os : list (@op K V)) : Forall op_ok os -> sets os <= 2 ^ 30 ->
    exists ss m r, execs (map_init true) os = Done (ss, m) /\ all_acts equal [] os ss r /\ size m = zlen r /\ one_each equal r.
  Proof.
    intros F L. assert (G : forall os m r, Forall op_ok os -> keeps hash equal m r -> zlen r + sets os <= 2 ^ 30 -> exists ss m' r', execs m os = Done (ss, m') /\ all_acts equal r os ss r' /\ keeps hash equal m' r').
    { clear os F L. induction os as [|o os IH]; intros m r F H L; [exists [], m, r; split; [reflexivity|]; split; [constructor|exact H]|]. inversion F as [|? ? Fo Fs]; subst.
      assert (So : sets (o :: os) = sets [o] + sets os) by (unfold sets; cbn [filter]; destruct o; rewrite ?zlen_cons; change (zlen (@nil (@op K V))) with 0; lia). assert (Z0 : 0 <= sets os) by apply zlen_nonneg. assert (Z1 : 0 <= sets [o]) by apply zlen_nonneg.
      assert (Step : exists s m' r', exec m o = Done (s, m') /\ acts equal r o s r' /\ keeps hash equal m' r' /\ zlen r' <= zlen r + sets [o]).
      { apply act_done; auto. lia. }
      destruct Step as (s & m1 & r1 & E1 & A1 & H1 & L1). destruct (IH m1 r1 Fs H1 ltac:(lia)) as (ss & m2 & r2 & E2 & A2 & H2). exists (s :: ss), m2, r2. cbn [execs]. rewrite E1. cbn [rbind fst snd]. rewrite E2. cbn [rbind fst snd]. split; [reflexivity|]. split; [econstructor; eauto|exact H2]. }
    destruct (G os (map_init true) [] F (init_keeps hash equal) ltac:(change (zlen (@nil (K * option V))) with 0; lia)) as (ss & m & r & E & A & H). exists ss, m, r. split; [exact E|]. split; [exact A|]. now apply keeps_size.
  Qed.
End Run.

(** ** The keys of the program: hash functions respect the equalities *)
Lemma u32_range x : 0 <= u32 x < 2 ^ 32.
Proof. unfold u32. apply Z.mod_pos_bound. lia. Qed.
Lemma lxor_range a b : 0 <= a < 2 ^ 32 -> 0 <= b < 2 ^ 32 -> 0 <= Z.lxor a b < 2 ^ 32.
Proof.
  intros A B. assert (0 <= Z.lxor a b) by (apply Z.lxor_nonneg; lia). split; [assumption|]. destruct (Z.eq_dec (Z.lxor a b) 0) as [->|N]; [lia|]. apply Z.log2_lt_pow2; [lia|]. pose proof (Z.log2_lxor a b ltac:(lia) ltac:(lia)). assert (forall x, 0 <= x < 2 ^ 32 -> Z.log2 x < 32). { intros x Hx. destruct (Z.eq_dec x 0) as [->|]; [cbn; lia|]. apply Z.log2_lt_pow2; lia. } pose proof (H1 a A). pose proof (H1 b B). lia.
Qed.
Lemma shiftr_range a n : 0 <= n -> 0 <= a < 2 ^ 32 -> 0 <= Z.shiftr a n < 2 ^ 32.
Proof. intros N A. rewrite Z.shiftr_div_pow2 by lia. assert (0 < 2 ^ n) by (apply Z.pow_pos_nonneg; lia). split; [apply Z.div_pos; lia|]. apply Z.div_lt_upper_bound; [lia|]. nia. Qed.
(** Every hash is a number of 32 bits. *)
Theorem hashes_are_words d n t s x : 0 <= tweak3 d n t < 2 ^ 32 /\ 0 <= hash_hash d < 2 ^ 32 /\ 0 <= hash_str s < 2 ^ 32 /\ 0 <= hash_int x < 2 ^ 32.
Proof.
  assert (M : forall d seed, 0 <= murmur3 d seed < 2 ^ 32). { intros. unfold murmur3. cbv zeta. apply lxor_range; [apply u32_range|apply shiftr_range; [lia|apply u32_range]]. }
  split; [apply M|]. split; [apply M|]. split; [|unfold hash_int; cbv zeta; apply lxor_range; [apply u32_range|apply shiftr_range; [lia|apply u32_range]]]. unfold hash_str. assert (G : forall l h, 0 <= h < 2 ^ 32 -> 0 <= fold_left (fun h c => u32 (u32 (Z.shiftl h 5) + h + (if 128 <=? c then c - 256 else c))) l h < 2 ^ 32). { induction l as [|c l IH]; intros h H; cbn [fold_left]; [exact H|]. apply IH, u32_range. } apply G. lia.
Qed.
(** The table of the cache meets the conditions of [table_is_a_map]. *)
Theorem cache_keys_fit : (forall a, key_equal a a = true) /\ (forall a b, key_equal a b = key_equal b a) /\ (forall a b c, key_equal a b = true -> key_equal b c = true -> key_equal a c = true) /\ (forall a b, key_equal a b = true -> cache_key_hash a = cache_key_hash b).
Proof.
  assert (I : forall a b, key_equal a b = true <-> k_ref a = k_ref b /\ (k_ref a = true \/ k_type a = k_type b) /\ k_name a = k_name b). { intros a b. unfold key_equal. rewrite !andb_true_iff, orb_true_iff, Bool.eqb_true_iff, Z.eqb_eq, beq_true_iff. tauto. }
  split; [intros a; apply I; auto|]. split; [intros a b; apply eq_true_iff_eq; rewrite !I; split; intros (A & [B|B] & C); rewrite <- ?A; auto; repeat split; auto; left; congruence|].
  split; [intros a b c A B; apply I in A; apply I in B; apply I; destruct A as (A1 & [A2|A2] & A3), B as (B1 & [B2|B2] & B3); repeat split; try congruence; try (left; congruence); right; congruence|].
  intros a b H. apply I in H. destruct H as (A & B & C). unfold cache_key_hash. rewrite A, C. destruct (k_ref b) eqn:R; [reflexivity|]. destruct B as [B|B]; [congruence|now rewrite B].
Qed.

(** ** Examples *)
Definition all : memory := {| mem_flags := true; mem_keys := true; mem_vals := true |}.
Definition none : memory := {| mem_flags := false; mem_keys := true; mem_vals := true |}.
(** All keys on one place: the table grows, a value is replaced, one is deleted, its place
    used again, and memory runs out once. *)
Definition a_day : list (@op Z Z) := [Get 1; Set_ none 1 (Some 10); Set_ all 1 (Some 10); Set_ all 2 (Some 20); Set_ all 3 None; Set_ all 4 (Some 40); Set_ all 5 (Some 50); Set_ all 2 (Some 21); Del 3; Del 3; Has 3; Has 4; Get 2; Set_ all 9 (Some 90); Walk; Resize all 64; Get 9; Resize all 8; Get 9; Clear true; Get 9].
Example a_day_ok : Forall op_ok a_day /\ sets a_day <= 2 ^ 30 /\ exists m, execs (fun _ => 7) Z.eqb (map_init true) a_day =
  Done ([Val None; Bool false; Bool true; Bool true; Bool true; Bool true; Bool true; Bool true; Bool true; Bool false; Bool false; Bool true; Val (Some 21); Bool true;
         Pairs [(9, Some 90); (5, Some 50); (1, Some 10); (4, Some 40); (2, Some 21)]; Bool true; Val (Some 90); Bool true; Val (Some 90); Freed [21; 40; 50; 10; 90]; Val None], m).
Proof. split; [repeat (constructor; [cbn; auto; lia|]); constructor|]. split; [vm_compute; discriminate|]. eexists. vm_compute. reflexivity. Qed.
(** MurmurHash3 of known strings: "test" and "Hello, world!" with seed 0 *)
Example murmur_known : murmur3 [116; 101; 115; 116] 0 = 3127628307 /\ murmur3 [72; 101; 108; 108; 111; 44; 32; 119; 111; 114; 108; 100; 33] 0 = 3224780355.
Proof. split; vm_compute; reflexivity. Qed.
(** The condition on shrinking is needed: the result of realloc is not looked at. *)
Theorem shrink_refuted : exists mem, match execs (fun _ => 7) Z.eqb (@map_init Z Z true) [Set_ all 1 None; Resize all 64] with Done (l, m) => l = [Bool true; Bool true] /\ match resize (fun _ => 7) mem m 4 with Done (ok, m') => ok = true /\ map_get (fun _ => 7) Z.eqb m' 1 = Fault | _ => False end | _ => False end.
Proof. exists {| mem_flags := true; mem_keys := false; mem_vals := true |}. vm_compute. auto. Qed.
Print Assumptions table_is_a_map.
Print Assumptions hashes_are_words.
Print Assumptions cache_keys_fit.
Print Assumptions shrink_refuted.
