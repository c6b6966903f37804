(** Seeds: the built-in ones are all there after the start; the list of the command line. *)
From Coq Require Import Permutation.
From Verif Require Import Common CommonFacts ProofFacts MapModel AddrModel AddrTheorems AddrmanModel AddrmanFacts AddrmanTheorems AddrmanPick SeedsData.

Lemma ok_wf a : addr_ok a -> addr_wf a.
Proof.
  intros (_ & Bk & Lk & P & ip & E & B & L). repeat split; auto; try lia.
  - rewrite E. apply bytes_ok_app. split; [exact B|]. apply Forall_forall. intros x X. apply repeat_spec in X. subst x. unfold is_byte. lia.
  - rewrite E, app_length, L. reflexivity.
Qed.
(** The entry of a seed that was added at [now] *)
Definition seed_entry (now : Z) (a : addr) : entry :=
  {| e_addr := a; e_time := now; e_services := 1; e_attempts := 0; e_success := 0; e_attempt := 0; e_ref := 1; e_used := false; e_removed := false |}.
Lemma add_fresh fb rnd now am a : 0 <= fb < 65536 -> 0 <= now < 2 ^ 63 -> am_ok am -> addr_wf a -> (forall e, In e (am_slots am) -> ~ same (e_addr e) a) -> am_size am < 2000 ->
  exists am', add_addr fb true rnd now am a = Ok (am', true) /\ am_ok am' /\ am_slots am' = am_slots am ++ [seed_entry now a].
Proof.
  intros Hf Hn K W N L. unfold add_addr. change (2 ^ 63) with 9223372036854775808 in *. unfold u64. change (2 ^ 64) with 18446744073709551616. rewrite Z.mod_small by lia.
  destruct (adding_exact fb rnd now am {| na_time := now; na_services := 1; na_addr := a |} false Hf K W) as (am' & r & E & K' & C).
  destruct C as [(i & e & e' & Ni & S & _)|(_ & [(_ & -> & [Sl _])|[(X & _)|(X & _)]])]; try lia.
  - exfalso. apply (N e (nth_error_In _ _ Ni)). exact S.
  - exists am'. auto.
Qed.
(** No two addresses of the list are the same *)
Fixpoint differ (l : list addr) : Prop :=
  match l with [] => True | a :: r => Forall (fun b => ~ same a b) r /\ differ r end.
Fixpoint differ_b (l : list addr) : bool :=
  match l with [] => true | a :: r => forallb (fun b => negb (addr_equal a b)) r && differ_b r end.
Lemma differ_b_ok l : differ_b l = true -> differ l.
Proof.
  induction l as [|a l IH]; intros H; [exact I|]. cbn in H. apply andb_true_iff in H as [H1 H2]. split; [|auto].
  apply Forall_forall. intros b B. rewrite forallb_forall in H1. specialize (H1 b B). apply negb_true_iff in H1. apply eq_not. exact H1.
Qed.
Lemma zlen_map {A B} (f : A -> B) l : zlen (map f l) = zlen l.
Proof. unfold zlen. rewrite map_length. reflexivity. Qed.

Lemma add_seeds_ok P rnd now : ports_ok P -> 0 <= now < 2 ^ 63 -> forall seeds addrs n am,
  Forall2 (fun s a => bytes_ok s /\ from_string P s 0 = Ok (Some a)) seeds addrs -> differ addrs -> am_ok am ->
  (forall e a, In e (am_slots am) -> In a addrs -> ~ same (e_addr e) a) -> am_size am + zlen addrs <= 2000 ->
  exists am', add_seeds P (fun _ => true) rnd now n am seeds = Ok am' /\ am_ok am' /\ am_slots am' = am_slots am ++ map (seed_entry now) addrs.
Proof.
  intros HP Hn. induction seeds as [|s seeds IH]; intros addrs n am F D K N L; inversion F; subst.
  - exists am. rewrite app_nil_r. auto.
  - match goal with H : _ /\ _ |- _ => destruct H as [B E] end. rename y into a. rename l' into addrs. cbn [add_seeds]. rewrite E. cbn [obind].
    assert (W : addr_wf a).
    { destruct (reading_an_address_is_safe P s 0 HP B ltac:(lia)) as (r & R & Ra). rewrite E in R. injection R as <-. apply ok_wf. apply Ra. reflexivity. }
    rewrite zlen_cons in L. pose proof (zlen_nonneg addrs). destruct D as [Da D].
    destruct (add_fresh (pt_brontide P) (rnd n) now am a ltac:(destruct HP; lia) Hn K W) as (am1 & E1 & K1 & S1).
    { intros e I. apply N; [exact I|left; reflexivity]. }
    { lia. }
    rewrite E1. cbn [obind]. destruct (IH addrs (S n) am1) as (am' & E' & K' & S'); auto.
    + intros e b I Ib. rewrite S1 in I. apply in_app_or in I as [I|[<-|[]]].
      * apply N; [exact I|right; exact Ib].
      * rewrite Forall_forall in Da. exact (Da b Ib).
    + unfold am_size. rewrite S1, zlen_app, zlen_cons. change (zlen (@nil entry)) with 0. unfold am_size in L. lia.
    + exists am'. split; [exact E'|]. split; [exact K'|]. rewrite S', S1, <- app_assoc. reflexivity.
Qed.
(** C56. At the start, whatever the clock and the random numbers, the seeds of the network are
    in the table, in order; no assertion fails. *)
Definition all_of {A} (l : list (outcome (option A))) : option (list A) :=
  fold_right (fun o r => match o, r with Ok (Some a), Some r => Some (a :: r) | _, _ => None end) (Some []) l.
Lemma all_of_ok {A B} (f : B -> outcome (option A)) l r : all_of (map f l) = Some r -> Forall2 (fun s a => f s = Ok (Some a)) l r.
Proof.
  revert r. induction l as [|x l IH]; intros r E; cbn in E.
  - injection E as <-. constructor.
  - destruct (f x) as [[a|]| | |] eqn:Fx; try discriminate E. destruct (fold_right _ _ _) as [r'|] eqn:G; [|discriminate E]. injection E as <-. constructor; [exact Fx|]. apply IH. exact G.
Qed.
Lemma seeds_ok P rnd now seeds addrs : ports_ok P -> 0 <= now < 2 ^ 63 -> Forall bytes_ok seeds ->
  all_of (map (fun s => from_string P s 0) seeds) = Some addrs -> differ_b addrs = true -> zlen addrs <= 2000 ->
  exists am, am_init P (fun _ => true) rnd now seeds = Ok am /\ am_ok am /\ am_slots am = map (seed_entry now) addrs.
Proof.
  intros HP Hn B E D L. apply (all_of_ok (fun s => from_string P s 0)) in E. unfold am_init. apply (add_seeds_ok P rnd now HP Hn seeds addrs 0%nat am_empty); auto using empty_ok.
  - clear -B E. induction E; constructor; [|apply IHE]; apply Forall_cons_iff in B as [B1 B]; auto.
  - apply differ_b_ok. exact D.
Qed.
Definition network_seeds (P : ports) (seeds : list (list Z)) (n : nat) : Prop :=
  forall rnd now, 0 <= now < 2 ^ 63 -> exists am addrs, am_init P (fun _ => true) rnd now seeds = Ok am /\ am_ok am /\
    am_slots am = map (seed_entry now) addrs /\ Forall2 (fun s a => from_string P s 0 = Ok (Some a)) seeds addrs /\ length addrs = n.
Lemma network P seeds addrs n : ports_ok P -> Forall bytes_ok seeds ->
  all_of (map (fun s => from_string P s 0) seeds) = Some addrs -> differ_b addrs = true -> length addrs = n -> Z.of_nat n <= 2000 -> network_seeds P seeds n.
Proof.
  intros HP B E D L N rnd now Hn. destruct (seeds_ok P rnd now seeds addrs HP Hn B E D) as (am & I & K & S); [unfold zlen; lia|].
  exists am, addrs. repeat (split; [assumption|]). split; [|exact L]. apply (all_of_ok (fun s => from_string P s 0)). exact E.
Qed.
Lemma bytes_all (l : list (list Z)) : forallb (forallb (fun b => (0 <=? b) && (b <? 256))) l = true -> Forall bytes_ok l.
Proof.
  intros H. apply Forall_forall. intros x X. rewrite forallb_forall in H. specialize (H x X). apply Forall_forall. intros b Hb. rewrite forallb_forall in H. specialize (H b Hb). unfold is_byte. lia.
Qed.
Theorem builtin_seeds_load : network_seeds ports_main seeds_main 56 /\ network_seeds ports_testnet seeds_testnet 4 /\
  network_seeds ports_regtest seeds_regtest 1 /\ network_seeds ports_simnet seeds_simnet 1.
Proof.
  repeat split.
  all: match goal with |- network_seeds ?P ?S _ => let a := eval vm_compute in (all_of (map (fun s => from_string P s 0) S)) in
    match a with Some ?l => apply (network P S l) end end.
  all: first [vm_compute; reflexivity|vm_compute; repeat split; congruence|apply bytes_all; vm_compute; reflexivity].
Qed.

(* ---------- the list of the command line ---------- *)
(** The items with commas between them *)
Fixpoint join (items : list (list Z)) : list Z :=
  match items with [] => [] | [x] => x | x :: r => x ++ [44] ++ join r end.
(** An item that can be added: empty, or the text of an address, shorter than 128 *)
Definition item_ok (P : ports) (it : list Z) (o : option addr) : Prop :=
  match o with
  | None => it = []
  | Some a => it <> [] /\ ~ In 44 it /\ bytes_ok it /\ zlen it < 128 /\ from_string P it 0 = Ok (Some a)
  end.
Fixpoint somes {A} (l : list (option A)) : list A := match l with [] => [] | Some a :: r => a :: somes r | None :: r => somes r end.
Lemma seeds_skip P mem rnd now n am it : ~ In 44 it -> forall cur rest,
  set_seeds_loop P mem rnd now n am cur (it ++ rest) = set_seeds_loop P mem rnd now n am (cur ++ it) rest.
Proof.
  induction it as [|c it IH]; intros N cur rest; [rewrite app_nil_r; reflexivity|]. cbn [app set_seeds_loop].
  destruct (Z.eqb_spec c 44) as [->|]; [exfalso; apply N; left; reflexivity|]. rewrite IH by (intros X; apply N; right; exact X). rewrite <- app_assoc. reflexivity.
Qed.
Lemma item_added P rnd now n am it o : ports_ok P -> 0 <= now < 2 ^ 63 -> item_ok P it o -> am_ok am ->
  (forall e a, In e (am_slots am) -> o = Some a -> ~ same (e_addr e) a) -> am_size am + zlen (somes [o]) <= 2000 ->
  exists am', seed_item P (fun _ => true) rnd now n am it = Ok (am', true) /\ am_ok am' /\ am_slots am' = am_slots am ++ map (seed_entry now) (somes [o]).
Proof.
  intros HP Hn I K N L. unfold seed_item. destruct o as [a|]; cbn [item_ok somes map] in *.
  - destruct I as (Ne & _ & B & L1 & E). change (zlen [a]) with 1 in L. replace (zlen it =? 0) with false by (destruct it; [contradiction|rewrite zlen_cons; pose proof (zlen_nonneg it); lia]).
    replace (128 <=? zlen it) with false by lia. rewrite E. cbn [obind]. apply add_fresh; auto; try (destruct HP; lia).
    destruct (reading_an_address_is_safe P it 0 HP B ltac:(lia)) as (r & R & Ra). rewrite E in R. injection R as <-. apply ok_wf. apply Ra. reflexivity.
  - subst it. exists am. rewrite app_nil_r. auto.
Qed.
(** C56. Every seed of the list is added, in order, provided that each can be read and is new.
    Without this it is false: an item that fails is read again with the next (below). *)
Theorem all_seeds_added_partial : forall P rnd now items addrs am, ports_ok P -> 0 <= now < 2 ^ 63 -> am_ok am ->
  Forall2 (item_ok P) items addrs -> differ (somes addrs) -> (forall e a, In e (am_slots am) -> In a (somes addrs) -> ~ same (e_addr e) a) ->
  am_size am + zlen (somes addrs) <= 2000 ->
  exists am', set_seeds P (fun _ => true) rnd now am (join items) = Ok am' /\ am_ok am' /\ am_slots am' = am_slots am ++ map (seed_entry now) (somes addrs).
Proof.
  intros P rnd now items addrs am HP Hn K F D N L. unfold set_seeds. generalize 0%nat as n. revert addrs am K F D N L.
  induction items as [|it items IH]; intros addrs am K F D N L n; inversion F; subst.
  - exists am. cbn. rewrite app_nil_r. auto.
  - rename y into o. rename l' into addrs. match goal with H : item_ok _ _ _ |- _ => rename H into I end. match goal with H : Forall2 _ items addrs |- _ => rename H into F' end.
    assert (S1 : somes (o :: addrs) = somes [o] ++ somes addrs) by (destruct o; reflexivity). rewrite S1 in *. rewrite zlen_app in L.
    pose proof (zlen_nonneg (somes addrs)). assert (N44 : ~ In 44 it) by (destruct o; cbn in I; [tauto|subst it; auto]).
    destruct (item_added P rnd now n am it o HP Hn I K) as (am1 & E1 & K1 & Sl1).
    { intros e a Ie ->. apply N; [exact Ie|left; reflexivity]. }
    { lia. }
    destruct items as [|it2 items].
    + inversion F'; subst. cbn [join somes]. rewrite <- (app_nil_r it), seeds_skip by exact N44. cbn [app set_seeds_loop]. rewrite app_nil_r in *. rewrite E1. cbn [obind].
      exists am1. auto.
    + change (join (it :: it2 :: items)) with (it ++ [44] ++ join (it2 :: items)). rewrite seeds_skip by exact N44. cbn [app set_seeds_loop]. replace (44 =? 44) with true by reflexivity.
      rewrite E1. cbn [obind]. destruct (IH addrs am1 K1 F') with (n := S n) as (am' & E' & K' & Sl').
      * destruct o; [destruct D as [_ D]; exact D|exact D].
      * intros e a Ie Ia. rewrite Sl1 in Ie. apply in_app_or in Ie as [Ie|Ie]; [apply N; [exact Ie|apply in_or_app; right; exact Ia]|].
        destruct o as [b|]; [|destruct Ie]. destruct Ie as [<-|[]]. destruct D as [D _]. rewrite Forall_forall in D. exact (D a Ia).
      * unfold am_size in *. rewrite Sl1, zlen_app, zlen_map. lia.
      * exists am'. split; [exact E'|]. split; [exact K'|]. rewrite Sl', Sl1, <- app_assoc, map_app. reflexivity.
Qed.
(** x,1.2.3.4 adds nothing: the second item is read as x,1.2.3.4. *)
Theorem good_seeds_added_refuted : exists am, set_seeds ports_main (fun _ => true) (fun _ _ => 0) 1600000000 am_empty [120; 44; 49; 46; 50; 46; 51; 46; 52] = Ok am /\ am_slots am = [] /\
  exists a, from_string ports_main [49; 46; 50; 46; 51; 46; 52] 0 = Ok (Some a).
Proof. eexists. split; [vm_compute; reflexivity|]. split; [reflexivity|]. eexists. vm_compute. reflexivity. Qed.
(** So does a seed that is there already: 1.2.3.4,1.2.3.4,5.6.7.8 adds only the first. *)
Theorem repeated_seed_harmless_refuted : exists am e, set_seeds ports_main (fun _ => true) (fun _ _ => 0) 1600000000 am_empty
  ([49; 46; 50; 46; 51; 46; 52] ++ [44] ++ [49; 46; 50; 46; 51; 46; 52] ++ [44] ++ [53; 46; 54; 46; 55; 46; 56]) = Ok am /\ am_slots am = [e].
Proof. eexists. eexists. split; vm_compute; reflexivity. Qed.
Example ex_seeds : exists am, set_seeds ports_main (fun _ => true) (fun _ _ => 0) 1600000000 am_empty
  (join [[49; 46; 50; 46; 51; 46; 52]; []; [53; 46; 54; 46; 55; 46; 56]]) = Ok am /\ am_size am = 2.
Proof. eexists. split; vm_compute; reflexivity. Qed.

(* ---------- addresses told by peers ---------- *)
(** C50. After a message with addresses each entry is of an address that was there or of one of
    the message that may be kept; a message with more than 1000 is refused. *)
Theorem told_addresses_added : forall fb rnd now am l, 0 <= fb < 65536 -> am_ok am -> Forall (fun na => addr_wf (na_addr na)) l ->
  exists am' r, handle_addr fb (fun _ => true) rnd now am l = Ok (am', r) /\ am_ok am' /\ (r = true <-> zlen l <= 1000) /\ (r = false -> am' = am) /\
    am_bans am' = am_bans am /\
    forall e, In e (am_slots am') ->
      (exists e0, In e0 (am_slots am) /\ e_addr e = e_addr e0 /\ e_removed e = e_removed e0) \/
      (exists na na', In na l /\ usable now na = Some na' /\ e_addr e = na_addr na' /\ e_removed e = false).
Proof.
  intros fb rnd now am l Hf K F. unfold handle_addr. destruct (Z.ltb_spec 1000 (zlen l)).
  { exists am, false. split; [reflexivity|]. split; [exact K|]. split; [split; [discriminate|lia]|]. split; [auto|]. split; [reflexivity|]. intros e I. left. exists e. auto. }
  assert (G : forall l k am, Forall (fun na => addr_wf (na_addr na)) l -> am_ok am -> exists am', add_all fb (fun _ => true) rnd now k am l = Ok am' /\ am_ok am' /\ am_bans am' = am_bans am /\
    forall e, In e (am_slots am') ->
      (exists e0, In e0 (am_slots am) /\ e_addr e = e_addr e0 /\ e_removed e = e_removed e0) \/
      (exists na na', In na l /\ usable now na = Some na' /\ e_addr e = na_addr na' /\ e_removed e = false)).
  { clear - Hf. induction l as [|na l IH]; intros k am F K.
    - exists am. split; [reflexivity|]. split; [exact K|]. split; [reflexivity|]. intros e I. left. exists e. auto.
    - apply Forall_cons_iff in F as [W F]. cbn [add_all]. destruct (usable now na) as [na'|] eqn:U.
      + assert (X : na_addr na' = na_addr na).
        { unfold usable in U. repeat match type of U with (if ?b then _ else _) = _ => destruct b; [discriminate U|] end. cbv zeta in U.
          repeat match type of U with (if ?b then None else _) = _ => destruct b; [discriminate U|] end. injection U as <-. reflexivity. }
        rewrite <- X in W. destruct (adding_exact fb (rnd k) now am na' true Hf K W) as (am1 & r & E & K1 & C). unfold add_na. rewrite E. cbn [obind].
        destruct (IH (S k) am1 F K1) as (am' & E' & K' & B' & H'). exists am'. split; [exact E'|]. split; [exact K'|].
        assert (Q : am_bans am1 = am_bans am /\ forall e, In e (am_slots am1) ->
          (exists e0, In e0 (am_slots am) /\ e_addr e = e_addr e0 /\ e_removed e = e_removed e0) \/ e = fresh na').
        { destruct C as [(i & e & e' & N & S & Se & [Sl Bl])|(_ & [(_ & _ & [Sl Bl])|[(_ & _ & -> & _)|(_ & _ & j & e & _ & N & _ & _ & [Sl Bl])]])].
          - split; [exact Bl|]. intros x I. rewrite Sl in I. apply in_set_slot in I as [->|I]; [|left; exists x; auto]. pose proof (ok_entries _ K) as Fe. rewrite Forall_forall in Fe.
            destruct (Fe e (nth_error_In _ _ N)) as (_ & R & _). destruct (see_again_ok (rnd k) now na' true e R) as (e2 & r2 & Se2 & Ad & _ & _ & Rm & _). rewrite Se in Se2. injection Se2 as <- <-.
            left. exists e. split; [eapply nth_error_In; eauto|]. split; [exact Ad|exact Rm].
          - split; [exact Bl|]. intros x I. rewrite Sl in I. apply in_app_or in I as [I|[<-|[]]]; [left; exists x; auto|auto].
          - split; [reflexivity|]. intros x I. left. exists x. auto.
          - split; [exact Bl|]. intros x I. rewrite Sl in I. apply in_set_slot in I as [->|I]; [auto|left; exists x; auto]. }
        destruct Q as [Bq Q]. split; [congruence|]. intros e I. destruct (H' e I) as [(e1 & I1 & A1 & R1)|(na1 & na1' & I1 & U1 & A1 & R1)].
        * destruct (Q e1 I1) as [(e0 & I0 & A0 & R0)|Ef].
          -- left. exists e0. split; [exact I0|]. split; congruence.
          -- subst e1. right. exists na, na'. split; [left; reflexivity|]. split; [exact U|]. split; [exact A1|]. rewrite R1. reflexivity.
        * right. exists na1, na1'. split; [right; exact I1|]. auto.
      + destruct (IH (S k) am F K) as (am' & E' & K' & B' & H'). exists am'. split; [exact E'|]. split; [exact K'|]. split; [exact B'|].
        intros e I. destruct (H' e I) as [H|(na1 & na1' & I1 & U1 & A1)]; [left; exact H|]. right. exists na1, na1'. split; [right; exact I1|]. auto. }
  destruct (G l 0%nat am F K) as (am' & E & K' & B & H'). rewrite E. exists am', true. split; [reflexivity|]. split; [exact K'|]. split; [split; auto|]. split; [discriminate|]. auto.
Qed.

Print Assumptions builtin_seeds_load.
Print Assumptions all_seeds_added_partial.
Print Assumptions good_seeds_added_refuted.
Print Assumptions repeated_seed_harmless_refuted.
Print Assumptions told_addresses_added.
