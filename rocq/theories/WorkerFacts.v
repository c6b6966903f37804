(** Facts about the queues of the resolver thread: the doubly linked lists in the heap. *)
From Verif Require Import Common CommonFacts WorkerModel.
From Coq Require Import Permutation Lia.

Definition last_opt (l : list Z) : option Z := hd_error (rev l).
Lemma last_snoc l x : last_opt (l ++ [x]) = Some x.
Proof. unfold last_opt. rewrite rev_app_distr. reflexivity. Qed.
Lemma last_app l a b : last_opt (l ++ a :: b) = last_opt (a :: b).
Proof. unfold last_opt. rewrite rev_app_distr. cbn. destruct (rev b); reflexivity. Qed.
Lemma last_none l : last_opt l = None -> l = [].
Proof. destruct l using rev_ind; [reflexivity|]. rewrite last_snoc. discriminate. Qed.
Lemma last_some l x : last_opt l = Some x -> exists l0, l = l0 ++ [x].
Proof. destruct l as [|y l _] using rev_ind; [discriminate|]. rewrite last_snoc. intros [= ->]. eauto. Qed.
Lemma hd_app (a : list Z) x b : hd_error (a ++ x :: b) = match a with [] => Some x | y :: _ => Some y end.
Proof. destruct a; reflexivity. Qed.

Lemma nodup_snoc (l : list Z) a : NoDup l -> ~ In a l -> NoDup (l ++ [a]).
Proof. intros A B. apply (Permutation_NoDup (Permutation_cons_append l a)). constructor; assumption. Qed.

Definition dll (h : heap) (q : que) (l : list Z) : Prop :=
  q_head q = hd_error l /\ q_tail q = last_opt l /\ NoDup l
  /\ forall a x b, l = a ++ x :: b -> exists n, h x = Some n /\ n_prev n = last_opt a /\ n_next n = hd_error b.
Definition alone (h : heap) (x : Z) : Prop := exists n, h x = Some n /\ n_prev n = None /\ n_next n = None.
Definition triple : Type := (Z * Z * Z)%type.
Definition facts (n : node) : triple := (n_cb n, n_status n, n_result n).
Definition inf (h : heap) (x : Z) : triple := match h x with Some n => facts n | None => (0, 0, 0) end.

Lemma app_eq_app_ (x1 x2 y1 y2 : list Z) : x1 ++ x2 = y1 ++ y2 <->
  exists l, (x1 = y1 ++ l /\ y2 = l ++ x2) \/ (y1 = x1 ++ l /\ x2 = l ++ y2).
Proof.
  split.
  - revert y1. induction x1 as [|x x1 IH]; intros y1 E; [cbn in E; exists y1; right; split; [reflexivity|exact E]|].
    destruct y1 as [|y y1]; [cbn in E; exists (x :: x1); left; split; [reflexivity|symmetry; exact E]|].
    injection E as -> E. destruct (IH _ E) as (l & [[-> ->]|[-> ->]]); exists l; auto.
  - intros (l & [[-> ->]|[-> ->]]); rewrite <- app_assoc; reflexivity.
Qed.
Lemma dll_frame h h' q l : dll h q l -> (forall x, In x l -> h' x = h x) -> dll h' q l.
Proof.
  intros (A & B & C & D) E. repeat split; auto. intros a x b F.
  rewrite E; [auto|]. rewrite F. apply in_elt.
Qed.
Lemma dll_alloc h q l x : dll h q l -> In x l -> exists n, h x = Some n.
Proof. intros (_ & _ & _ & D) I. apply in_split in I as (a & b & E). destruct (D _ _ _ E) as (n & N & _). eauto. Qed.
(** Changing only the answer of a node keeps every list *)
Lemma dll_links h h' q l : dll h q l -> (forall x n, In x l -> h x = Some n -> exists n', h' x = Some n' /\ n_prev n' = n_prev n /\ n_next n' = n_next n) -> dll h' q l.
Proof.
  intros (A & B & C & D) E. repeat split; auto. intros a x b F.
  destruct (D _ _ _ F) as (n & N & P & Q).
  destruct (E x n) as (n' & N' & P' & Q'); [rewrite F; apply in_elt|exact N|].
  exists n'. rewrite P', Q'. auto.
Qed.
Lemma hset_same h a n : hset h a n a = n.
Proof. unfold hset. rewrite Z.eqb_refl. reflexivity. Qed.
Lemma hset_other h a n x : x <> a -> hset h a n x = h x.
Proof. unfold hset. intro. destruct (Z.eqb_spec x a); [contradiction|reflexivity]. Qed.
Lemma poke_ok h a f n : h a = Some n -> poke h a f = Ok (hset h a (Some (f n))).
Proof. unfold poke. intros ->. reflexivity. Qed.

Lemma enqueue_ok h q l a :
  dll h q l -> ~ In a l -> alone h a ->
  exists h' q', enqueue h q a = Ok (h', q') /\ dll h' q' (l ++ [a]) /\ (forall x, ~ In x l -> x <> a -> h' x = h x) /\ (forall x, inf h' x = inf h x).
Proof.
  intros (A & B & C & D) N (n & Hn & Np & Nn). unfold enqueue. rewrite B.
  destruct l as [|t l _] using rev_ind.
  - cbn in *. rewrite A. eexists _, _. split; [reflexivity|].
    split; [|split; [auto|reflexivity]].
    unfold dll. cbn. repeat split; auto.
    + constructor; [intros []|constructor].
    + intros x y z E. destruct x as [|x0 x]; [|destruct x; discriminate E]. injection E as -> <-. exists n. auto.
  - rewrite last_snoc. destruct (D l t [] eq_refl) as (m & Hm & Mp & Mn).
    assert (TA : a <> t) by (intros ->; apply N, in_elt).
    rewrite (poke_ok _ _ _ _ Hm). cbn [obind].
    rewrite (poke_ok _ _ _ n) by (rewrite hset_other by assumption; exact Hn). cbn [obind].
    eexists _, _. split; [reflexivity|]. split; [|split].
    + unfold dll. cbn [q_head q_tail]. rewrite last_snoc. split; [rewrite A; destruct l; reflexivity|]. split; [reflexivity|].
      split; [apply nodup_snoc; assumption|].
      intros x y z E. destruct z as [|z0 z _] using rev_ind.
      * apply app_inj_tail in E as [<- <-]. rewrite hset_same. eexists. split; [reflexivity|]. cbn. rewrite last_snoc. auto.
      * rewrite app_comm_cons, app_assoc in E. apply app_inj_tail in E as [E <-].
        destruct (D _ _ _ E) as (k & Hk & Kp & Kn).
        assert (YI : In y (l ++ [t])) by (rewrite E; apply in_elt).
        assert (YA : y <> a) by (intros ->; exact (N YI)).
        rewrite hset_other by assumption.
        destruct z as [|z1 z].
        { assert (y = t) by (apply app_inj_tail in E; intuition congruence). subst y.
          rewrite hset_same. eexists. split; [reflexivity|]. cbn. rewrite Hm in Hk. injection Hk as <-. auto. }
        { assert (YT : y <> t).
          { intros ->. change (x ++ t :: z1 :: z) with (x ++ [t] ++ (z1 :: z)) in E.
            destruct (exists_last (l := z1 :: z)) as (zz & w & W); [discriminate|]. rewrite W in E.
            rewrite !app_assoc in E. apply app_inj_tail in E as [E <-]. rewrite E in C.
            apply NoDup_remove_2 in C. rewrite app_nil_r in C. apply C. rewrite <- app_assoc. apply in_elt. }
          rewrite hset_other by assumption. exists k. rewrite Kp, Kn. auto. }
    + intros x X Y. rewrite hset_other by assumption. rewrite hset_other; [reflexivity|]. intros ->. apply X, in_elt.
    + intro x. unfold inf. destruct (Z.eq_dec x a) as [->|XA]; [rewrite hset_same, Hn; reflexivity|].
      rewrite (hset_other _ a) by assumption. destruct (Z.eq_dec x t) as [->|XT]; [rewrite hset_same, Hm; reflexivity|].
      rewrite hset_other by assumption. reflexivity.
Qed.

Lemma remove_ok h q a x b :
  dll h q (a ++ x :: b) ->
  exists h' q', remove h q x = Ok (h', q') /\ dll h' q' (a ++ b) /\ alone h' x /\ (forall y, ~ In y (a ++ x :: b) -> h' y = h y) /\ (forall y, inf h' y = inf h y).
Proof.
  intros (A & B & C & D). unfold remove.
  destruct (D a x b eq_refl) as (n & Hn & Np & Nn).
  rewrite A, B. rewrite hd_app, last_app.
  assert (HD : exists z, match a with [] => Some x | y :: _ => Some y end = Some z) by (destruct a; eauto). destruct HD as [z0 HD]. rewrite HD.
  assert (TL : exists z, last_opt (x :: b) = Some z).
  { destruct (last_opt (x :: b)) eqn:E; eauto. apply last_none in E. discriminate. } destruct TL as [z1 TL]. rewrite TL, Hn, Np, Nn.
  assert (XA : ~ In x a /\ ~ In x b). { apply NoDup_remove_2 in C. rewrite in_app_iff in C. tauto. } destruct XA as [XA XB].
  assert (C' : NoDup (a ++ b)) by (apply NoDup_remove_1 in C; exact C).
  assert (AB : forall y, In y a -> In y b -> False).
  { intros y Y Z. apply in_split in Y as (u & v & ->). rewrite <- app_assoc in C'. cbn in C'. apply NoDup_remove_2 in C'. apply C'. rewrite !in_app_iff. auto. }
  set (h1 := match last_opt a with Some p => match h p with Some m => hset h p (Some (set_next (hd_error b) m)) | None => h end | None => h end).
  set (h2 := match hd_error b with Some y => match h1 y with Some m => hset h1 y (Some (set_prev (last_opt a) m)) | None => h1 end | None => h1 end).
  assert (S1 : (match last_opt a with Some p => obind (poke h p (set_next (hd_error b))) (fun h => Ok (h, Some z0)) | None => if is_at (Some z0) x then Ok (h, hd_error b) else Abort end)
               = Ok (h1, hd_error (a ++ b))).
  { subst h1. destruct (last_opt a) as [p|] eqn:LA.
    - apply last_some in LA as (a0 & ->). destruct (D a0 p (x :: b)) as (m & Hm & _); [rewrite <- app_assoc; reflexivity|].
      rewrite Hm, (poke_ok _ _ _ _ Hm). cbn [obind]. f_equal. f_equal. rewrite <- HD. destruct a0; reflexivity.
    - apply last_none in LA. subst a. injection HD as <-. cbn [is_at]. rewrite Z.eqb_refl. reflexivity. }
  rewrite S1. cbn [obind].
  assert (H1 : forall y, y <> x -> In y b -> h1 y = h y).
  { intros y Y1 Y2. subst h1. destruct (last_opt a) as [p|] eqn:LA; [|reflexivity]. apply last_some in LA as (a0 & ->).
    destruct (h p); [|reflexivity]. apply hset_other. intros ->. apply (AB p); [apply in_elt|assumption]. }
  assert (H1x : h1 x = Some n).
  { subst h1. destruct (last_opt a) as [p|] eqn:LA; [|exact Hn]. apply last_some in LA as (a0 & ->).
    destruct (h p); [|exact Hn]. rewrite hset_other; [exact Hn|]. intros ->. apply XA, in_elt. }
  assert (S2 : (match hd_error b with Some y => obind (poke h1 y (set_prev (last_opt a))) (fun h => Ok (h, Some z1)) | None => if is_at (Some z1) x then Ok (h1, last_opt a) else Abort end)
               = Ok (h2, last_opt (a ++ b))).
  { subst h2. destruct b as [|y b]; cbn [hd_error].
    - cbn in TL. injection TL as <-. cbn [is_at]. rewrite Z.eqb_refl, app_nil_r. reflexivity.
    - destruct (D (a ++ [x]) y b) as (m & Hm & _); [rewrite <- app_assoc; reflexivity|].
      assert (Y : h1 y = Some m). { rewrite H1; [exact Hm| |left; reflexivity]. intros ->. apply XB. left. reflexivity. }
      rewrite Y, (poke_ok _ _ _ _ Y). cbn [obind]. f_equal. f_equal. rewrite last_app, <- TL. change (x :: y :: b) with ([x] ++ y :: b). apply last_app. }
  rewrite S2. cbn [obind].
  assert (H2x : h2 x = Some n).
  { subst h2. destruct b as [|y b]; cbn [hd_error]; [exact H1x|]. destruct (h1 y); [|exact H1x]. rewrite hset_other; [exact H1x|]. intros ->. apply XB. left. reflexivity. }
  rewrite (poke_ok _ _ _ _ H2x). cbn [obind].
  eexists _, _. split; [reflexivity|].
  assert (HH : forall y, y <> x -> hset h2 x (Some (set_next None (set_prev None n))) y = h2 y) by (intros; apply hset_other; assumption).
  split; [|split; [|split]].
  - unfold dll. cbn [q_head q_tail]. split; [reflexivity|]. split; [reflexivity|]. split; [exact C'|].
    intros u z v E. assert (ZX : z <> x). { intros ->. assert (In x (a ++ b)) by (rewrite E; apply in_elt). rewrite in_app_iff in H. tauto. }
    rewrite HH by exact ZX. clear HH.
    destruct (proj1 (app_eq_app_ a b u (z :: v)) E) as (l & [[E1 E2]|[E1 E2]]).
    + (* a = u ++ l, z :: v = l ++ b *)
      destruct l as [|z' l].
      * cbn in E2. rewrite app_nil_r in E1. subst u.
        subst h2. rewrite <- E2. cbn [hd_error].
        destruct (D (a ++ [x]) z v) as (m & Hm & Mp & Mn); [rewrite <- E2, <- app_assoc; reflexivity|].
        assert (Y : h1 z = Some m). { rewrite H1; [exact Hm|exact ZX|rewrite <- E2; left; reflexivity]. }
        rewrite Y, hset_same. eexists. split; [reflexivity|]. cbn. auto.
      * injection E2 as <- ->. subst a.
        assert (NB : forall y, hd_error b = Some y -> z <> y).
        { intros y Y ->. apply (AB y); [apply in_elt|]. destruct b; [discriminate|]. injection Y as ->. left. reflexivity. }
        assert (h2 z = h1 z) as ->. { subst h2. destruct (hd_error b) as [y|]; [|reflexivity]. destruct (h1 y); [|reflexivity]. apply hset_other, NB. reflexivity. }
        destruct (D u z (l ++ x :: b)) as (m & Hm & Mp & Mn); [rewrite <- app_assoc; reflexivity|].
        subst h1. destruct (exists_last (l := z :: l)) as (l0 & p & L); [discriminate|].
        replace (last_opt (u ++ z :: l)) with (Some p) by (rewrite L, app_assoc, last_snoc; reflexivity).
        destruct (D (u ++ l0) p (x :: b)) as (k & Hk & _); [rewrite L, <- !app_assoc; reflexivity|].
        rewrite Hk. destruct l as [|z2 l].
        { destruct l0 as [|? [|]]; [|discriminate L..]. injection L as <-. rewrite hset_same. eexists. split; [reflexivity|]. cbn. rewrite Hm in Hk. injection Hk as <-. auto. }
        { rewrite hset_other. { exists m. rewrite Mp, Mn. auto. }
          intros ->. destruct l0 as [|w l0]; [discriminate L|]. injection L as <- L. rewrite L in C'.
          rewrite <- app_assoc in C'. cbn [app] in C'. apply NoDup_remove_2 in C'. apply C'. rewrite !in_app_iff. right. left. right. left. reflexivity. }
    + (* u = a ++ l, b = l ++ z :: v *)
      subst u b.
      destruct (D (a ++ x :: l) z v) as (m & Hm & Mp & Mn); [rewrite <- app_assoc; reflexivity|].
      assert (Y : h1 z = Some m). { rewrite H1; [exact Hm|exact ZX|apply in_elt]. }
      destruct l as [|w l].
      * subst h2. cbn [app hd_error]. rewrite Y, hset_same. eexists. split; [reflexivity|]. cbn. rewrite app_nil_r. auto.
      * assert (h2 z = h1 z) as ->.
        { subst h2. cbn [app hd_error]. destruct (h1 w); [|reflexivity]. apply hset_other. intros ->.
          cbn [app] in C'. apply NoDup_remove_2 in C'. apply C'. rewrite in_app_iff. right. apply in_elt. }
        exists m. split; [exact Y|]. split; [|exact Mn]. rewrite Mp, last_app. change (x :: w :: l) with ([x] ++ w :: l). rewrite !last_app. reflexivity.
  - exists (set_next None (set_prev None n)). rewrite hset_same. auto.
  - intros y Y. rewrite in_app_iff in Y. cbn in Y. rewrite HH by (intros ->; tauto).
    assert (h2 y = h1 y) as ->. { subst h2. destruct b as [|w b]; cbn [hd_error]; [reflexivity|]. destruct (h1 w); [|reflexivity]. apply hset_other. intros ->. apply Y. right. right. left. reflexivity. }
    subst h1. destruct (last_opt a) as [p|] eqn:LA; [|reflexivity]. destruct (h p); [|reflexivity]. apply hset_other. intros ->. apply last_some in LA as (a0 & ->). apply Y. left. apply in_elt.
  - intros y. destruct (Z.eq_dec y x) as [->|YX]; [unfold inf; rewrite hset_same, Hn; reflexivity|].
    unfold inf at 1. rewrite HH by exact YX. change (inf h2 y = inf h y). transitivity (inf h1 y).
    + subst h2. unfold inf. destruct (hd_error b) as [w|]; [|reflexivity]. destruct (h1 w) as [k|] eqn:K; [|reflexivity].
      destruct (Z.eq_dec y w) as [->|W]; [rewrite hset_same, K; reflexivity|rewrite hset_other by exact W; reflexivity].
    + subst h1. unfold inf. destruct (last_opt a) as [w|]; [|reflexivity]. destruct (h w) as [k|] eqn:K; [|reflexivity].
      destruct (Z.eq_dec y w) as [->|W]; [rewrite hset_same, K; reflexivity|rewrite hset_other by exact W; reflexivity].
Qed.

Lemma dequeue_nil h q : dll h q [] -> dequeue h q = Ok (h, q, None).
Proof. intros (A & _). unfold dequeue. rewrite A. reflexivity. Qed.
Lemma dequeue_ok h q x l :
  dll h q (x :: l) ->
  exists h' q', dequeue h q = Ok (h', q', Some x) /\ dll h' q' l /\ (forall y, ~ In y (x :: l) -> h' y = h y) /\ (forall y, inf h' y = inf h y)
    /\ exists n, h' x = Some n.
Proof.
  intros (A & B & C & D). unfold dequeue. rewrite A. cbn [hd_error].
  destruct (D [] x l eq_refl) as (n & Hn & Np & Nn). rewrite Hn, (poke_ok _ _ _ _ Hn). cbn [obind]. rewrite Nn.
  inversion C as [|? ? X C']; subst.
  destruct l as [|y l]; cbn [hd_error].
  - rewrite B. cbn. rewrite Z.eqb_refl. eexists _, _. split; [reflexivity|]. split; [|split; [|split]].
    + repeat split; [constructor|]. intros a z b E. destruct a; discriminate E.
    + intros y Y. apply hset_other. intros ->. apply Y. left. reflexivity.
    + intro y. unfold inf. destruct (Z.eq_dec y x) as [->|YX]; [rewrite hset_same, Hn; reflexivity|rewrite hset_other by exact YX; reflexivity].
    + rewrite hset_same. eauto.
  - destruct (D [x] y l eq_refl) as (m & Hm & Mp & Mn).
    assert (YX : y <> x) by (intros ->; apply X; left; reflexivity).
    rewrite (poke_ok _ _ _ m) by (rewrite hset_other by exact YX; exact Hm). cbn [obind].
    eexists _, _. split; [reflexivity|]. split; [|split; [|split]].
    + unfold dll. cbn [q_head q_tail hd_error]. split; [reflexivity|]. split; [rewrite B; change (x :: y :: l) with ([x] ++ y :: l); apply last_app|]. split; [exact C'|].
      intros a z b E. destruct a as [|w a].
      * injection E as <- <-. rewrite hset_same. eexists. split; [reflexivity|]. cbn. auto.
      * assert (I : In z l) by (injection E as _ ->; apply in_elt).
        assert (z <> y). { intros ->. inversion C'; contradiction. } assert (z <> x). { intros ->. apply X. right. exact I. }
        rewrite !hset_other by assumption. destruct (D (x :: w :: a) z b) as (k & Hk & Kp & Kn); [rewrite E; reflexivity|].
        exists k. split; [exact Hk|]. split; [|exact Kn]. rewrite Kp. change (x :: w :: a) with ([x] ++ w :: a). apply last_app.
    + intros z Z. rewrite !hset_other; [reflexivity|..]; intros ->; apply Z; [left|right; left]; reflexivity.
    + intro z. unfold inf. destruct (Z.eq_dec z y) as [->|ZY]; [rewrite hset_same, Hm; reflexivity|]. rewrite (hset_other _ y) by exact ZY.
      destruct (Z.eq_dec z x) as [->|ZX]; [rewrite hset_same, Hn; reflexivity|rewrite hset_other by exact ZX; reflexivity].
    + rewrite (hset_other _ y) by auto. rewrite hset_same. eauto.
Qed.

Definition called_of (t : triple) : event := match t with (i, s, r) => Called i s r end.
Lemma flush_ok l : forall k h cur,
  (length l <= k)%nat -> NoDup l -> cur = hd_error l ->
  (forall a x b, l = a ++ x :: b -> exists n, h x = Some n /\ n_next n = hd_error b) ->
  exists h', flush k h cur = Ok (h', map (fun x => called_of (inf h x)) l).
Proof.
  induction l as [|x l IH]; intros k h cur K N -> D; [destruct k; cbn; eauto|].
  destruct k as [|k]; [cbn in K; lia|]. cbn [flush hd_error].
  destruct (D [] x l eq_refl) as (n & Hn & Nn). rewrite Hn. inversion N as [|? ? X N']; subst.
  destruct (IH k (hset h x None) (n_next n)) as (h' & F); [cbn in K; lia|exact N'|exact Nn| |].
  - intros a y b E. destruct (D (x :: a) y b) as (m & Hm & Mn); [rewrite E; reflexivity|]. exists m. split; [|exact Mn].
    rewrite hset_other; [exact Hm|]. intros ->. apply X. rewrite E. apply in_elt.
  - rewrite F. cbn [obind]. exists h'. f_equal. f_equal. cbn [map]. f_equal; [unfold inf; rewrite Hn; reflexivity|].
    apply map_ext_in. intros y Y. unfold inf. rewrite hset_other; [reflexivity|]. intros ->. contradiction.
Qed.
