(** C19: "headers" messages. *)
From Verif Require Import Common CommonFacts HeaderModel HeaderSpec HeaderFacts HeaderTheorems ChainModel ChainSpec BatchModel.

Section Theorems.
  Variable B256 B512 S3 : list Z -> list Z.
  Variable N : net.
  Local Notation hash := (hdr_hash B256 B512 S3).
  Local Notation pow := (verify_pow B256 B512 S3).
  Local Notation add := (chain_add B256 B512 S3 N).
  Local Notation handle := (handle_headers B256 B512 S3 N).
  Local Notation run := (ChainSpec.run B256 B512 S3 N).

  (** Every header has proof of work and every one but the first names the one
      before it. *)
  Definition batch_ok (hs : list hdr) : Prop :=
    (forall h, In h hs -> pow h = 0) /\
    (forall i a b, nth_error hs i = Some a -> nth_error hs (S i) = Some b -> h_prev b = hash a).

  Lemma check_batch_spec hs : forall last,
    check_batch B256 B512 S3 last hs = 0 <->
    batch_ok hs /\ match last, hs with Some p, h :: _ => h_prev h = p | _, _ => True end.
  Proof.
    induction hs as [|h hs IH]; intros last; cbn [check_batch].
    - split; [|auto]. intros _. split; [|destruct last; exact I]. split; [intros h []|]. intros [|i]; discriminate.
    - destruct (match last with Some p => negb (beq (h_prev h) p) | None => false end) eqn:E.
      + split; [discriminate|]. intros [_ X]. destruct last as [p|]; [|discriminate]. subst p.
        rewrite beq_refl in E. discriminate.
      + assert (L : match last with Some p => h_prev h = p | None => True end).
        { destruct last; auto. apply Bool.negb_false_iff, beq_true_iff in E. auto. }
        destruct (Z.eqb_spec (pow h) 0) as [P|P]; cbn [negb].
        * rewrite IH. split.
          -- intros [[H1 H2] H3]. split; [split|].
             ++ intros x [<-|X]; auto.
             ++ intros [|i] a b A B; cbn in A, B; [|eauto]. injection A as <-. destruct hs as [|y hs]; [discriminate|].
                injection B as <-. exact H3.
             ++ destruct last; auto.
          -- intros [[H1 H2] _]. split; [split|].
             ++ intros x X. apply H1. now right.
             ++ intros i a b A B. apply (H2 (S i) a b A B).
             ++ destruct hs as [|y hs]; auto. apply (H2 O h y); reflexivity.
        * split; [intros X; congruence|]. intros [[H1 _] _]. exfalso. apply P, H1. now left.
  Qed.

  (** C19: a batch with a bad link or bad work anywhere is refused and changes
      nothing, as is one of more than 2000 headers. *)
  Theorem bad_batch_changes_nothing : forall clock st hs,
    ~ batch_ok hs \/ 2000 < zlen hs -> exists rc, rc <> 0 /\ handle clock st hs = Ok (rc, st, []).
  Proof.
    intros clock st hs H. unfold handle_headers. destruct (Z.eqb_spec (zlen hs) 0) as [E|E].
    - exfalso. destruct hs as [|h hs]; [|unfold zlen in E; cbn [length] in E; lia]. destruct H as [H|H]; [|unfold zlen in H; cbn in H; lia].
      apply H. split; [intros ? []|]. intros [|i]; discriminate.
    - destruct (Z.ltb_spec 2000 (zlen hs)) as [L|L].
      + exists 3. split; [discriminate|reflexivity].
      + destruct H as [H|H]; [|lia]. destruct (Z.eqb_spec (check_batch B256 B512 S3 None hs) 0) as [C|C].
        * apply check_batch_spec in C as [C _]. contradiction.
        * cbn [negb]. eauto.
  Qed.

  (** The codes after which the handler goes on. *)
  Definition goes_on (rc : Z) : bool := (rc =? 0) || (rc =? 22) || (rc =? 23) || (rc =? 26).

  (** Offering headers one by one with the codes they get. *)
  Inductive offers (clock : nat -> Z) : nat -> chain -> list hdr -> list Z -> chain -> Prop :=
  | of_nil i st : offers clock i st [] [] st
  | of_cons i st h hs rc rcs st1 st2 : add (clock i) st h = Ok (rc, st1) ->
      offers clock (S i) st1 hs rcs st2 -> offers clock i st (h :: hs) (rc :: rcs) st2.

  Lemma add_batch_spec clock hs : forall i st orphan r o' st' ev,
    add_batch B256 B512 S3 N clock i st orphan hs = Ok (r, o', st', ev) ->
    exists seen rest rcs, hs = seen ++ rest /\ offers clock i st seen rcs st' /\
      match r with
      | None => rest = [] /\ Forall (fun c => goes_on c = true) rcs /\ ev = [] /\
          o' = orphan || existsb (fun c => (c =? 26) || (c =? 23)) rcs
      | Some rc => exists init, rcs = init ++ [rc] /\ Forall (fun c => goes_on c = true) init /\ goes_on rc = false /\
          ev = (if (rc =? 24) || (rc =? 25) then [EvBan; EvDestroy] else if rc =? 21 then [EvDestroy] else [])
      end.
  Proof.
    induction hs as [|h hs IH]; intros i st orphan r o' st' ev E; cbn [add_batch] in E.
    - apply Ok_inj in E. injection E as <- <- <- <-. exists [], [], []. split; auto. split; [constructor|].
      rewrite Bool.orb_false_r. auto.
    - destruct (add (clock i) st h) as [[rc st1]|?| |] eqn:Ea; try discriminate.
      assert (Stop : forall ev0, goes_on rc = false -> ev0 = (if (rc =? 24) || (rc =? 25) then [EvBan; EvDestroy] else if rc =? 21 then [EvDestroy] else []) ->
        Ok (Some rc, orphan, st1, ev0) = Ok (r, o', st', ev) ->
        exists seen rest rcs, h :: hs = seen ++ rest /\ offers clock i st seen rcs st' /\
          match r with
          | None => rest = [] /\ Forall (fun c => goes_on c = true) rcs /\ ev = [] /\
              o' = orphan || existsb (fun c => (c =? 26) || (c =? 23)) rcs
          | Some rc => exists init, rcs = init ++ [rc] /\ Forall (fun c => goes_on c = true) init /\ goes_on rc = false /\
              ev = (if (rc =? 24) || (rc =? 25) then [EvBan; EvDestroy] else if rc =? 21 then [EvDestroy] else [])
          end).
      { intros ev0 G Ee E0. apply Ok_inj in E0. injection E0 as <- <- <- <-. exists [h], hs, [rc]. split; auto.
        split; [econstructor; [exact Ea|constructor]|]. exists []. auto. }
      assert (Go : forall o1, goes_on rc = true -> o1 = orphan || ((rc =? 26) || (rc =? 23)) ->
        add_batch B256 B512 S3 N clock (S i) st1 o1 hs = Ok (r, o', st', ev) ->
        exists seen rest rcs, h :: hs = seen ++ rest /\ offers clock i st seen rcs st' /\
          match r with
          | None => rest = [] /\ Forall (fun c => goes_on c = true) rcs /\ ev = [] /\
              o' = orphan || existsb (fun c => (c =? 26) || (c =? 23)) rcs
          | Some rc => exists init, rcs = init ++ [rc] /\ Forall (fun c => goes_on c = true) init /\ goes_on rc = false /\
              ev = (if (rc =? 24) || (rc =? 25) then [EvBan; EvDestroy] else if rc =? 21 then [EvDestroy] else [])
          end).
      { intros o1 G Eo E0. apply IH in E0 as (seen & rest & rcs & -> & O & X). exists (h :: seen), rest, (rc :: rcs).
        split; auto. split; [econstructor; eauto|]. destruct r as [rc'|].
        - destruct X as (init & -> & F & X). exists (rc :: init). split; auto.
        - destruct X as (-> & F & -> & ->). split; auto. split; auto. split; auto. cbn [existsb]. subst o1.
          destruct orphan, (rc =? 26), (rc =? 23); reflexivity. }
      unfold goes_on in *.
      destruct (Z.eqb_spec rc 24); [subst; eapply Stop; eauto|].
      destruct (Z.eqb_spec rc 25); [subst; eapply Stop; eauto|]. cbn [orb] in E.
      destruct (Z.eqb_spec rc 21); [subst; eapply Stop; eauto|].
      destruct (Z.eqb_spec rc 26); [subst; eapply Go; eauto; now destruct orphan|].
      destruct (Z.eqb_spec rc 23); [subst; eapply Go; eauto; now destruct orphan|]. cbn [orb] in E.
      destruct (Z.eqb_spec rc 0); cbn [negb] in E; [subst; eapply Go; eauto; now destruct orphan|].
      destruct (Z.eqb_spec rc 22); [subst; eapply Go; eauto; now destruct orphan|].
      eapply Stop; eauto.
  Qed.

  (** C19: a good batch is exactly a sequence of hsk_chain_add calls on a prefix of
      the headers in order: all of them unless a call returned a code other than
      0, 22, 23, 26, which is then the last call and the result. The peer is banned
      exactly after 24 and 25, and asked for more exactly after an orphan or a full
      batch. *)
  Theorem good_batch_is_offered_in_order : forall clock st hs rc st' ev,
    batch_ok hs -> 0 < zlen hs <= 2000 -> handle clock st hs = Ok (rc, st', ev) ->
    exists seen rest rcs, hs = seen ++ rest /\ offers clock 0 st seen rcs st' /\
      ((rc = 0 /\ rest = [] /\ Forall (fun c => goes_on c = true) rcs /\
        ev = if existsb (fun c => (c =? 26) || (c =? 23)) rcs || (zlen hs =? 2000) then [EvGetHeaders] else []) \/
       (goes_on rc = false /\ (exists init, rcs = init ++ [rc] /\ Forall (fun c => goes_on c = true) init) /\
        ev = if (rc =? 24) || (rc =? 25) then [EvBan; EvDestroy] else if rc =? 21 then [EvDestroy] else [])).
  Proof.
    intros clock st hs rc st' ev OK L E. unfold handle_headers in E.
    destruct (Z.eqb_spec (zlen hs) 0); [lia|]. destruct (Z.ltb_spec 2000 (zlen hs)); [lia|].
    rewrite (proj2 (check_batch_spec hs None) (conj OK I)) in E. change (negb (0 =? 0)) with false in E. cbv iota zeta in E.
    destruct (add_batch B256 B512 S3 N clock 0 st false hs) as [[[[r o] st1] ev1]|?| |] eqn:Ea; try discriminate.
    apply add_batch_spec in Ea as (seen & rest & rcs & Eh & O & X). exists seen, rest, rcs.
    destruct r as [rc1|]; apply Ok_inj in E; injection E as <- <- <-; (split; [exact Eh|]); (split; [exact O|]).
    - right. destruct X as (init & -> & F & G & ->). eauto.
    - left. destruct X as (-> & F & -> & ->). auto.
  Qed.

  (** Such a sequence is a run, to which the chain theorems apply. *)
  Theorem offers_are_runs : forall clock hs i st0 ops st rcs st', run st0 ops st -> offers clock i st hs rcs st' ->
    run st0 (ops ++ combine (map clock (seq i (length hs))) hs) st'.
  Proof.
    induction hs as [|h hs IH]; intros i st0 ops st rcs st' R O; inversion O; subst.
    - cbn. now rewrite app_nil_r.
    - cbn [length seq map combine]. change ((clock i, h) :: ?l) with ([(clock i, h)] ++ l). rewrite app_assoc.
      eapply IH; [|eassumption]. econstructor; eauto.
  Qed.
End Theorems.

Print Assumptions bad_batch_changes_nothing.
Print Assumptions good_batch_is_offered_in_order.
Print Assumptions offers_are_runs.
