(** The text of an IPv6 address: it reads back, and its shape. *)
From Verif Require Import Common CommonFacts Base32Model UtilTheorems MapModel AddrModel ProofFacts AddrFacts.
Ltac wok := unfold is_byte in *; lia.
Ltac lens := vm_compute; discriminate.
Lemma show_app_ne w r : 0 <= w < 65536 -> show 16 w ++ r <> [].
Proof. intros H. destruct (show_hex w H) as [_ L]. destruct (show 16 w); [change (zlen (@nil Z)) with 0 in L; lia|discriminate]. Qed.
Lemma show_ne w : 0 <= w < 65536 -> show 16 w <> [].
Proof. intros H. destruct (show_hex w H) as [_ L]. destruct (show 16 w); [change (zlen (@nil Z)) with 0 in L; lia|discriminate]. Qed.
Lemma ip4_ne a b c d r : bytes_ok [a; b; c; d] -> ntop4_text [a; b; c; d] ++ r <> [].
Proof.
  intros B. apply bytes_ok_cons in B as [B _]. unfold is_byte in B. destruct (show_dec a ltac:(lia)) as [_ L]. unfold ntop4_text. cbn [nth].
  destruct (show 10 a); [change (zlen (@nil Z)) with 0 in L; lia|discriminate].
Qed.
Lemma ip4_ne0 a b c d : bytes_ok [a; b; c; d] -> ntop4_text [a; b; c; d] <> [].
Proof. intros B. pose proof (ip4_ne a b c d [] B) as X. rewrite app_nil_r in X. exact X. Qed.
Lemma bytes4 a b c d : is_byte a -> is_byte b -> is_byte c -> is_byte d -> bytes_ok [a; b; c; d].
Proof. intros. repeat (apply bytes_ok_cons; split; [assumption|]). constructor. Qed.
Ltac ne := first [discriminate | apply show_app_ne; assumption | apply show_ne; assumption | apply ip4_ne0; apply bytes4; assumption].
Ltac parse :=
  repeat first
  [ rewrite pton6_start_colon
  | rewrite pton6_start by assumption
  | rewrite pton6_start0 by assumption
  | rewrite pton6_colon_word; [|assumption|lens|ne]
  | rewrite pton6_colon
  | rewrite pton6_last; [|assumption|lens]
  | rewrite pton6_ip4; [|apply bytes4; assumption|lens]
  | rewrite word_bytes_eq by assumption
  | progress cbn [app] ].
Ltac zeros_from Z0 :=
  let go j := (try (let X := fresh "X" in pose proof (Z0 j ltac:(lia) ltac:(lia)) as X; cbn [nth] in X;
    apply word_zero in X as [? ?]; [|assumption|assumption])) in
  go 0%nat; go 1%nat; go 2%nat; go 3%nat; go 4%nat; go 5%nat; go 6%nat; go 7%nat.
(** The same loop, with the two tests of words decided and the place of a word as a number *)
Fixpoint loop6 (i : nat) (base stop : Z) (e5 e7 : bool) (tail : list Z) (ws : list Z) : list Z :=
  match ws with
  | [] => []
  | w :: r =>
      let k := Z.of_nat i in
      if (base <=? k) && (k <? stop) then (if k =? base then [58] else []) ++ loop6 (S i) base stop e5 e7 tail r
      else
        (match i with O => [] | _ => [58] end) ++
        (if (k =? 6) && (base =? 0) && ((stop =? 6) || ((stop =? 7) && negb e7) || ((stop =? 5) && e5)) then tail
         else show 16 w ++ loop6 (S i) base stop e5 e7 tail r)
  end.
Lemma loop6_eq base len w5 w7 ip : 0 <= base -> forall ws i,
  ntop6_loop (Z.of_nat i) {| z_base := base; z_len := len |} w5 w7 ip ws =
  loop6 i base (base + len) (w5 =? 65535) (w7 =? 1) (ntop4_text (skipn 12 ip)) ws.
Proof.
  intros B ws. induction ws as [|w ws IH]; intros i; cbn [ntop6_loop loop6 z_base z_len]; [reflexivity|].
  replace (base =? -1) with false by lia. cbn [negb andb]. replace (Z.of_nat i + 1) with (Z.of_nat (S i)) by lia. rewrite IH.
  replace (match i with O => [] | _ => [58] end) with (if Z.of_nat i =? 0 then [] else [58])
    by (destruct i; [reflexivity|]; replace (Z.of_nat (S i) =? 0) with false by lia; reflexivity).
  destruct (Z.eqb_spec base 0) as [->|N]; [|rewrite !Bool.andb_false_r; reflexivity].
  replace (0 + len) with len by lia. reflexivity.
Qed.
Ltac fin Z0 :=
  zeros_from Z0; clear Z0; subst;
  cbv [loop6 Z.of_nat Pos.of_succ_nat Pos.succ Z.leb Z.ltb Z.eqb Z.compare Pos.compare Pos.compare_cont Pos.eqb negb andb orb];
  cbn [app];
  repeat (rewrite <- ?app_assoc; progress cbn [app]); rewrite ?app_nil_r; parse; try reflexivity.
Lemma pton6_text ip : bytes_ok ip -> length ip = 16%nat -> pton6 (ntop6_text ip) = Some ip.
Proof.
  intros B L.
  do 16 (destruct ip as [|? ip]; [discriminate L|]). destruct ip; [|discriminate L]. clear L.
  do 16 (apply bytes_ok_cons in B as [? B]). clear B.
  unfold ntop6_text. cbn [firstn words].
  assert (W : Forall (fun w => 0 <= w < 65536)
    [z * 256 + z0; z1 * 256 + z2; z3 * 256 + z4; z5 * 256 + z6; z7 * 256 + z8; z9 * 256 + z10; z11 * 256 + z12; z13 * 256 + z14])
    by (repeat (apply Forall_cons; [wok|]); apply Forall_nil).
  do 8 (let X := fresh "W" in pose proof (Forall_inv W) as X; cbv beta in X; apply Forall_inv_tail in W). clear W.
  match goal with |- context [best_run ?l] => pose proof (best_run_good l) as G; destruct (best_run l) as [base len] end.
  cbn [z_base z_len] in *. 
  destruct G as [->|(G1 & G2 & G3 & G4)].
  - zred. cbn [negb andb]. rewrite app_nil_r.
    cbn [ntop6_loop z_base z_len nth]. zred. cbn [negb andb app]. rewrite app_nil_r.
    parse. reflexivity.
  - change (zlen [_; _; _; _; _; _; _; _]) with 8 in G3.
    assert (Z0 : forall j, (Z.of_nat j < base + len) -> base <= Z.of_nat j -> nth j
      [z * 256 + z0; z1 * 256 + z2; z3 * 256 + z4; z5 * 256 + z6; z7 * 256 + z8; z9 * 256 + z10; z11 * 256 + z12; z13 * 256 + z14] 1 = 0).
    { intros j J1 J2. specialize (G4 (Z.of_nat j)). rewrite Nat2Z.id in G4. apply G4. lia. }
    clear G4.
    assert (C : exists p q, (p < 7)%nat /\ (q < 7)%nat /\ base = Z.of_nat p /\ len = Z.of_nat q + 2 /\ (p + q < 7)%nat).
    { exists (Z.to_nat base), (Z.to_nat (len - 2)). lia. }
    destruct C as (p & q & P1 & Q1 & -> & -> & PQ). clear G1 G2 G3.
    do 7 (try destruct p as [|p]); try (exfalso; clear - P1; lia);
    do 7 (try destruct q as [|q]); try (exfalso; clear - PQ; lia); clear P1 Q1 PQ.
    all: change (ntop6_loop 0) with (ntop6_loop (Z.of_nat 0)); rewrite loop6_eq by (clear; lia); cbn [nth skipn];
      match goal with |- context [loop6 _ ?x ?y ?a ?b _ _] =>
        let vx := eval vm_compute in x in let vy := eval vm_compute in y in
        change y with vy; change x with vx; destruct a, b end.
    all: cbn [z_base z_len].
    all: match goal with |- context [if ?c then [58] else []] => let v := eval vm_compute in c in change c with v; cbv iota end.
    all: fin Z0.
Qed.

(** How often a character occurs *)
Definition cnt (c : Z) (s : list Z) : Z := zlen (filter (Z.eqb c) s).
Lemma cnt_app c s t : cnt c (s ++ t) = cnt c s + cnt c t.
Proof. unfold cnt. rewrite filter_app, zlen_app. reflexivity. Qed.
Lemma cnt_cons c x s : cnt c (x :: s) = (if c =? x then 1 else 0) + cnt c s.
Proof. unfold cnt. cbn [filter]. destruct (c =? x); [rewrite zlen_cons|]; lia. Qed.
Lemma cnt_nonneg c s : 0 <= cnt c s.
Proof. unfold cnt, zlen. lia. Qed.
Lemma cnt_none c s : ~ In c s -> cnt c s = 0.
Proof.
  intros N. unfold cnt. induction s as [|x s IH]; [reflexivity|]. cbn [filter]. destruct (Z.eqb_spec c x) as [->|Hne].
  - exfalso. apply N. left. reflexivity.
  - apply IH. intros X. apply N. right. exact X.
Qed.
Definition ip_char (c : Z) : Prop := lower_hex c \/ c = 58 \/ c = 46.
Lemma dec_is_ip c : dec_char c -> ip_char c.
Proof. intros D. left. exists (c - 48). unfold dec_char in D. unfold digit_char. replace (c - 48 <? 10) with true by lia. lia. Qed.
Lemma text4_chars a b c d : bytes_ok [a; b; c; d] ->
  Forall (fun x => dec_char x \/ x = 46) (ntop4_text [a; b; c; d]) /\ 7 <= zlen (ntop4_text [a; b; c; d]) <= 15.
Proof.
  intros B. apply bytes_ok_cons in B as [Ba B]. apply bytes_ok_cons in B as [Bb B]. apply bytes_ok_cons in B as [Bc B].
  apply bytes_ok_cons in B as [Bd _]. unfold is_byte in *. unfold ntop4_text. cbn [nth].
  destruct (show_dec a ltac:(lia)) as [Fa La]. destruct (show_dec b ltac:(lia)) as [Fb Lb].
  destruct (show_dec c ltac:(lia)) as [Fc Lc]. destruct (show_dec d ltac:(lia)) as [Fd Ld].
  pose proof (byte_len a Ba). pose proof (byte_len b Bb). pose proof (byte_len c Bc). pose proof (byte_len d Bd).
  assert (M : forall s, Forall dec_char s -> Forall (fun x => dec_char x \/ x = 46) s).
  { intros s F. eapply Forall_impl; [|exact F]. intros; left; assumption. }
  assert (P : Forall (fun x => dec_char x \/ x = 46) [46]) by (constructor; [right; reflexivity|constructor]).
  split.
  - repeat (apply Forall_app; split; auto).
  - rewrite !zlen_app. change (zlen [46]) with 1. lia.
Qed.
Lemma text6_chars b w5 w7 ip : bytes_ok ip -> length ip = 16%nat -> forall ws, Forall (fun w => 0 <= w < 65536) ws -> forall i,
  Forall ip_char (ntop6_loop i b w5 w7 ip ws).
Proof.
  intros B L ws F. assert (C1 : Forall ip_char [58]) by (constructor; [right; left; reflexivity|constructor]).
  induction F as [|w ws W F IH]; intros i; cbn [ntop6_loop]; [constructor|].
  destruct (negb (z_base b =? -1) && (z_base b <=? i) && (i <? z_base b + z_len b)).
  - apply Forall_app. split; [|apply IH]. destruct (i =? z_base b); [exact C1|constructor].
  - apply Forall_app. split; [destruct (i =? 0); [constructor|exact C1]|].
    match goal with |- Forall _ (if ?c then _ else _) => destruct c end.
    + do 16 (destruct ip as [|? ip]; [discriminate L|]). destruct ip; [|discriminate L].
      do 12 (apply bytes_ok_cons in B as [_ B]). cbn [skipn].
      eapply Forall_impl; [|exact (proj1 (text4_chars _ _ _ _ B))]. intros x [D|D]; [apply dec_is_ip; exact D|right; right; exact D].
    + apply Forall_app. split; [|apply IH]. eapply Forall_impl; [|exact (proj1 (show_hex w W))]. intros x X. left. exact X.
Qed.
Lemma words_ok ip : bytes_ok ip -> Forall (fun w => 0 <= w < 65536) (words ip).
Proof.
  revert ip. fix IH 1. intros [|a [|b ip]] B; cbn [words]; try constructor.
  - apply bytes_ok_cons in B as [Ba B]. apply bytes_ok_cons in B as [Bb B]. unfold is_byte in *. lia.
  - apply IH. apply bytes_ok_cons in B as [Ba B]. apply bytes_ok_cons in B as [Bb B]. exact B.
Qed.
Section Loop.
  Variables (b : zrun) (w5 w7 : Z) (ip : list Z).
  Hypothesis B : bytes_ok ip.
  Hypothesis L : length ip = 16%nat.
  Lemma ip4_tail : 7 <= zlen (ntop4_text (skipn 12 ip)) <= 15.
  Proof.
    pose proof B as B'. pose proof L as L'. clear B L. revert B' L'. destruct ip as [|? l]; intros B' L'; [discriminate L'|].
    do 15 (destruct l as [|? l]; [discriminate L'|]). destruct l; [|discriminate L'].
    do 12 (apply bytes_ok_cons in B' as [_ B']). cbn [skipn]. exact (proj2 (text4_chars _ _ _ _ B')).
  Qed.
  (** With a run *)
  Lemma loop_run : 0 <= z_base b -> 2 <= z_len b -> z_base b + z_len b <= 8 ->
    forall ws, Forall (fun w => 0 <= w < 65536) ws -> forall i, 0 <= i -> i + zlen ws = 8 ->
    zlen (ntop6_loop i b w5 w7 ip ws) <= 5 * zlen ws + 6 - 4 * Z.max 0 (z_base b + z_len b - Z.max (z_base b) i) /\
    Z.b2z (i <=? z_base b) + Z.b2z ((i <=? z_base b + z_len b) && (z_base b + z_len b <? 8))
      <= cnt 58 (ntop6_loop i b w5 w7 ip ws).
  Proof.
    intros H0 H1 H2 ws F. induction F as [|w ws W F IH]; intros i Hi Li; cbn [ntop6_loop].
    - change (zlen (@nil Z)) with 0 in *. change (cnt 58 []) with 0. lia.
    - rewrite zlen_cons in *. specialize (IH (i + 1) ltac:(lia) ltac:(lia)). destruct IH as [I1 I2].
      replace (z_base b =? -1) with false by lia. cbn [negb andb].
      destruct (Z.leb_spec (z_base b) i) as [Q1|Q1]; cbn [andb]; [destruct (Z.ltb_spec i (z_base b + z_len b)) as [Q2|Q2]|].
      + rewrite zlen_app, cnt_app. destruct (Z.eqb_spec i (z_base b)) as [E|E].
        * change (zlen [58]) with 1. change (cnt 58 [58]) with 1. lia.
        * change (zlen (@nil Z)) with 0. change (cnt 58 []) with 0. lia.
      + replace (i =? 0) with false by lia. rewrite zlen_app, cnt_app. change (zlen [58]) with 1. change (cnt 58 [58]) with 1.
        match goal with |- context [if ?c then _ else _ ++ _] => destruct c eqn:E4 end.
        * pose proof ip4_tail. pose proof (cnt_nonneg 58 (ntop4_text (skipn 12 ip))). lia.
        * rewrite zlen_app, cnt_app. pose proof (proj2 (show_hex w W)). pose proof (cnt_nonneg 58 (show 16 w)). lia.
      + replace (z_base b =? 0) with false by lia. rewrite Bool.andb_false_r. cbn [andb].
        rewrite !zlen_app, !cnt_app. pose proof (proj2 (show_hex w W)). pose proof (cnt_nonneg 58 (show 16 w)).
        destruct (Z.eqb_spec i 0); [change (zlen (@nil Z)) with 0; change (cnt 58 []) with 0|change (zlen [58]) with 1; change (cnt 58 [58]) with 1]; lia.
  Qed.
  (** Without *)
  Lemma loop_plain : z_base b = -1 -> forall ws, Forall (fun w => 0 <= w < 65536) ws -> forall i, 0 <= i ->
    zlen (ntop6_loop i b w5 w7 ip ws) <= 5 * zlen ws - Z.b2z ((i =? 0) && (0 <? zlen ws)) /\
    zlen ws - Z.b2z (i =? 0) <= cnt 58 (ntop6_loop i b w5 w7 ip ws).
  Proof.
    intros H0 ws F. induction F as [|w ws W F IH]; intros i Hi; cbn [ntop6_loop].
    - change (zlen (@nil Z)) with 0 in *. change (cnt 58 []) with 0. lia.
    - rewrite zlen_cons in *. specialize (IH (i + 1) ltac:(lia)). destruct IH as [I1 I2]. rewrite H0. zred. cbn [negb andb].
      replace (i + 1 =? 0) with false in * by lia. cbn [andb] in *. rewrite Bool.andb_false_r. cbn [andb].
      rewrite !zlen_app, !cnt_app. pose proof (proj2 (show_hex w W)). pose proof (cnt_nonneg 58 (show 16 w)).
      assert (0 <= zlen ws) by (unfold zlen; lia).
      destruct (Z.eqb_spec i 0); cbn [andb]; [change (zlen (@nil Z)) with 0; change (cnt 58 []) with 0|change (zlen [58]) with 1; change (cnt 58 [58]) with 1]; lia.
  Qed.
End Loop.
Lemma words_len ip : length ip = 16%nat -> zlen (words ip) = 8.
Proof. intros L. do 16 (destruct ip as [|? ip]; [discriminate L|]). destruct ip; [reflexivity|discriminate L]. Qed.
Lemma text6_shape ip : bytes_ok ip -> length ip = 16%nat ->
  Forall ip_char (ntop6_text ip) /\ zlen (ntop6_text ip) <= 39 /\ 2 <= cnt 58 (ntop6_text ip).
Proof.
  intros B L. pose proof (words_ok ip B) as W. pose proof (words_len ip L) as WL.
  unfold ntop6_text. rewrite firstn_all2 by lia. split.
  { apply Forall_app. split.
    - apply text6_chars; auto.
    - destruct (_ && _); [|constructor]. constructor; [right; left; reflexivity|constructor]. }
  rewrite zlen_app, cnt_app.
  destruct (best_run_good (words ip)) as [G|(G1 & G2 & G3 & _)].
  - destruct (loop_plain (best_run (words ip)) (nth 5 (words ip) 0) (nth 7 (words ip) 0) ip L G (words ip) W 0 ltac:(lia)) as [I1 I2].
    rewrite WL in *. rewrite G. change (negb (-1 =? -1)) with false. cbn [andb].
    change (zlen (@nil Z)) with 0. change (cnt 58 []) with 0. lia.
  - rewrite WL in G3.
    destruct (loop_run (best_run (words ip)) (nth 5 (words ip) 0) (nth 7 (words ip) 0) ip B L G1 G2 G3 (words ip) W 0 ltac:(lia) ltac:(lia)) as [I1 I2].
    rewrite WL in *. replace (z_base (best_run (words ip)) =? -1) with false by lia. cbn [negb andb].
    destruct (Z.eqb_spec (z_base (best_run (words ip)) + z_len (best_run (words ip))) 8) as [E|E].
    + change (zlen [58]) with 1. change (cnt 58 [58]) with 1. lia.
    + change (zlen (@nil Z)) with 0. change (cnt 58 []) with 0. lia.
Qed.
