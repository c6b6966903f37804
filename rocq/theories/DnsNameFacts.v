From Verif Require Import Common CommonFacts BioModel UtilTheorems DnsNameModel DnsNameSpec.

Lemma at_nth d p : at_ d (Z.of_nat p) = nth_error d p.
Proof. unfold at_. now rewrite Nat2Z.id. Qed.
Lemma nth_error_zlen {A} (d : list A) p x : nth_error d p = Some x -> Z.of_nat p < zlen d.
Proof. intros H. assert (p < length d)%nat by (apply nth_error_Some; congruence). unfold zlen. lia. Qed.

Lemma some_inj {A} (a b : A) : Some a = Some b -> a = b.
Proof. congruence. Qed.

(** * Determinism and monotonicity of the wire form *)
Lemma wire_fun dmp d p ls q h : wire dmp d p ls q h -> forall ls' q' h', wire dmp d p ls' q' h' -> ls' = ls /\ q' = q /\ h' = h.
Proof.
  induction 1 as [d p E|d p c l ls q h E R El Ln W IH|d p c c1 m ls q h E R E1 Ed W IH]; intros ls' q' h' W';
    inversion W' as [d' p' F|d' p' c' l' lt q2 h2 F R' El' Ln' W2|d' p' c' c1' m' lt q2 h2 F R' F1 Ed' W2]; subst d' p';
    rewrite F in E; apply some_inj in E; try lia; try subst c'.
  - subst; auto.
  - destruct (IH _ _ _ W2) as (X1 & X2 & X3). split; [congruence|auto].
  - rewrite F1 in E1. apply some_inj in E1. subst c1'. rewrite Ed in Ed'. apply some_inj in Ed'. subst m'. destruct (IH _ _ _ W2) as (X1 & X2 & X3). split; [exact X1|]. split; congruence.
Qed.
Lemma firstn_skipn_app {A} n p (d t : list A) : (p + n <= length d)%nat -> firstn n (skipn p (d ++ t)) = firstn n (skipn p d).
Proof.
  intros H. rewrite skipn_app, firstn_app, skipn_length. replace (n - (length d - p))%nat with O by lia. cbn. now rewrite app_nil_r.
Qed.
Lemma wire_app m t p ls q h : wire (Some m) m p ls q h -> wire (Some (m ++ t)) (m ++ t) p ls q h.
Proof.
  intros W. remember (Some m) as dmp eqn:Ed. remember m as d eqn:Em in W at 1. 
  assert (K : d = m) by exact Em. clear Em. revert K. induction W as [d p E|d p c l ls q h E R El Ln W IH|d p c c1 m' ls q h E R E1 Ed' W IH]; intros ->.
  - apply w_end. rewrite nth_error_app1; auto. apply nth_error_Some. congruence.
  - assert (L : (S p + Z.to_nat c <= length m)%nat).
    { unfold zlen in Ln. subst l. rewrite firstn_length, skipn_length in Ln. assert (p < length m)%nat by (apply nth_error_Some; congruence). lia. }
    eapply w_label; eauto.
    + rewrite nth_error_app1; eauto. lia.
    + now rewrite firstn_skipn_app.
  - rewrite Ed in Ed'. injection Ed' as <-. eapply w_ptr with (m := m ++ t); eauto.
    + rewrite nth_error_app1; eauto. apply nth_error_Some. congruence.
    + rewrite nth_error_app1; eauto. apply nth_error_Some. congruence.
Qed.

(** * The parser *)
Lemma shown_parse b : (let b' := if b =? 0 then 255 else b in if b' =? 46 then 254 else b') = shown b.
Proof. unfold shown. cbv zeta. destruct (Z.eqb_spec b 0); [reflexivity|reflexivity]. Qed.
Lemma shown_byte b : is_byte b -> is_byte (shown b).
Proof. unfold shown, is_byte. destruct (b =? 0), (b =? 46); lia. Qed.
Lemma copy_spec d : forall n p out, (p + n <= length d)%nat -> zlen out + Z.of_nat n <= 256 ->
  parse_copy d (Z.of_nat p) n out = Ok (out ++ map shown (firstn n (skipn p d))).
Proof.
  induction n as [|n IH]; intros p out L1 L2; cbn [parse_copy]; [now rewrite app_nil_r|].
  rewrite at_nth. destruct (nth_error d p) as [b|] eqn:E; [|apply nth_error_None in E; lia].
  rewrite shown_parse. unfold put. destruct (Z.ltb_spec (zlen out) 256); [|lia]. cbn [obind].
  replace (Z.of_nat p + 1) with (Z.of_nat (S p)) by lia.
  rewrite IH; [|lia|rewrite zlen_app; unfold zlen at 2; cbn [length]; lia]. rewrite <- app_assoc. f_equal. f_equal.
  assert (S : skipn p d = b :: skipn (S p) d).
  { clear - E. revert d E. induction p as [|p IH]; intros [|x d] E; try discriminate; [injection E as ->; reflexivity|]. cbn. now apply IH. }
  rewrite S. reflexivity.
Qed.

Lemma land_192 c : is_byte c -> Z.land c 192 = if c <? 64 then 0 else if c <? 128 then 64 else if c <? 192 then 128 else 192.
Proof. intros H. apply Z.eqb_eq. revert c H. apply (byte_all (fun c => Z.land c 192 =? _)). vm_compute. reflexivity. Qed.

(** What the loop does at one position. *)
Lemma ptr_target c c1 : is_byte c -> is_byte c1 -> 192 <= c -> Z.lor (Z.shiftl (Z.lxor c 192) 8) c1 = (c - 192) * 256 + c1.
Proof.
  intros Hc H1 H. assert (E : (Z.lxor c 192 =? c - 192) || (c <? 192) = true).
  { revert c Hc H. intros c Hc _. revert c Hc. apply (byte_all (fun c => (Z.lxor c 192 =? c - 192) || (c <? 192))). vm_compute. reflexivity. }
  apply orb_true_iff in E as [E|E]; [|lia]. apply Z.eqb_eq in E. rewrite E. unfold is_byte in *.
  rewrite Z.shiftl_mul_pow2 by lia. change (2 ^ 8) with 256.
  apply (lor_add _ _ 8); [lia|cbn; lia|]. exists (c - 192). reflexivity.
Qed.

Section Parse.
Variable dmp : option (list Z).
Hypothesis dmp_ok : forall m, dmp = Some m -> bytes_ok m.

Definition step (fuel : nat) (d : list Z) (p : nat) (out : list Z) (ptr : nat) (res : Z) : option (outcome (option (list Z * Z))) :=
  match nth_error d p with
  | None => Some (Ok None)
  | Some c =>
      if c =? 0 then Some (Ok (Some (out, if Z.of_nat ptr =? 0 then Z.of_nat (S p) else res)))
      else if c <? 64 then
        if (zlen d <? Z.of_nat (S p) + c) || (255 <? zlen out + c + 1) then Some (Ok None)
        else parse_loop fuel dmp d (Z.of_nat (S p + Z.to_nat c)) (out ++ map shown (firstn (Z.to_nat c) (skipn (S p) d)) ++ [46]) (Z.of_nat ptr) res
      else if c <? 192 then Some (Ok None)
      else match dmp, nth_error d (S p) with
           | Some m, Some c1 =>
               if 10 <? Z.of_nat (S ptr) then Some (Ok None)
               else parse_loop fuel dmp m (Z.of_nat (Z.to_nat ((c - 192) * 256 + c1))) out (Z.of_nat (S ptr)) (if Z.of_nat ptr =? 0 then Z.of_nat (S (S p)) else res)
           | _, _ => Some (Ok None)
           end
  end.
Lemma loop_step fuel d p out ptr res : bytes_ok d -> parse_loop (S fuel) dmp d (Z.of_nat p) out (Z.of_nat ptr) res = step fuel d p out ptr res.
Proof.
  intros Bd. cbn [parse_loop]. unfold step. rewrite at_nth. destruct (nth_error d p) as [c|] eqn:E.
  2:{ apply nth_error_None in E. destruct (Z.leb_spec (zlen d) (Z.of_nat p)); auto. unfold zlen in *. lia. }
  pose proof (nth_error_zlen _ _ _ E) as L. destruct (Z.leb_spec (zlen d) (Z.of_nat p)); [lia|].
  assert (Bc : is_byte c) by (eapply Forall_forall; [exact Bd|]; eapply nth_error_In; exact E).
  replace (Z.of_nat p + 1) with (Z.of_nat (S p)) by lia. destruct (Z.eqb_spec c 0) as [->|N0]; auto.
  rewrite (land_192 c Bc). unfold is_byte in Bc.
  destruct (Z.ltb_spec c 64) as [L64|L64].
  - zred. destruct (Z.ltb_spec 63 c); [lia|]. destruct (Z.ltb_spec (zlen d) (Z.of_nat (S p) + c)) as [L1|L1]; cbn [orb]; auto.
    destruct (Z.ltb_spec 255 (zlen out + c + 1)) as [L2|L2]; auto.
    rewrite copy_spec by (unfold zlen in *; lia). cbn [obind]. unfold put.
    assert (Lm : zlen (out ++ map shown (firstn (Z.to_nat c) (skipn (S p) d))) = zlen out + c).
    { rewrite zlen_app. unfold zlen in *. rewrite map_length, firstn_length, skipn_length. lia. }
    rewrite Lm. destruct (Z.ltb_spec (zlen out + c) 256); [|lia]. rewrite <- app_assoc. f_equal. lia.
  - destruct (Z.ltb_spec c 128) as [L128|L128]; [destruct (Z.ltb_spec c 192); [zred; reflexivity|lia]|].
    destruct (Z.ltb_spec c 192) as [L192|L192]; [zred; reflexivity|]. zred.
    destruct dmp as [m|] eqn:Em; auto. rewrite at_nth. destruct (nth_error d (S p)) as [c1|] eqn:E1.
    + pose proof (nth_error_zlen _ _ _ E1). destruct (Z.leb_spec (zlen d) (Z.of_nat (S p))); [lia|].
      assert (B1 : is_byte c1) by (eapply Forall_forall; [exact Bd|]; eapply nth_error_In; exact E1).
      rewrite ptr_target by (auto; unfold is_byte; lia). unfold is_byte in B1.
      replace (Z.of_nat ptr + 1) with (Z.of_nat (S ptr)) by lia. replace (Z.of_nat (S p) + 1) with (Z.of_nat (S (S p))) by lia.
      rewrite (Z2Nat.id ((c - 192) * 256 + c1)) by lia. reflexivity.
    + apply nth_error_None in E1. destruct (Z.leb_spec (zlen d) (Z.of_nat (S p))); auto. unfold zlen in *. lia.
Qed.

(** Soundness, safety and termination. *)
Lemma loop_sound : forall fuel d p out ptr res, bytes_ok d -> (ptr <= 10)%nat -> zlen out <= 255 -> (Z.to_nat (255 - zlen out) + (10 - ptr) < fuel)%nat ->
  exists r, parse_loop fuel dmp d (Z.of_nat p) out (Z.of_nat ptr) res = Some (Ok r) /\
  forall out' res', r = Some (out', res') ->
    exists ls q h, wire dmp d p ls q h /\ (ptr + h <= 10)%nat /\
      out' = out ++ concat (map (fun l => map shown l ++ [46]) ls) /\ zlen out' <= 255 /\ res' = (if Z.of_nat ptr =? 0 then Z.of_nat q else res).
Proof.
  induction fuel as [|fuel IH]; intros d p out ptr res Bd Hp Ho Hf; [lia|]. rewrite loop_step by auto. unfold step.
  destruct (nth_error d p) as [c|] eqn:E; [|eexists; split; [reflexivity|discriminate]].
  assert (Bc : is_byte c) by (eapply Forall_forall; [exact Bd|]; eapply nth_error_In; exact E). unfold is_byte in Bc.
  destruct (Z.eqb_spec c 0) as [->|N0].
  { eexists; split; [reflexivity|]. intros out' res' X. apply some_inj in X. pose proof (f_equal fst X) as X1. pose proof (f_equal snd X) as X2. cbn [fst snd] in X1, X2. subst.
    exists [], (S p), 0%nat. split; [now apply w_end|]. cbn [map concat]. rewrite app_nil_r. split; [lia|]. auto. }
  destruct (Z.ltb_spec c 64) as [L64|L64].
  { destruct ((zlen d <? Z.of_nat (S p) + c) || (255 <? zlen out + c + 1)) eqn:G; [eexists; split; [reflexivity|discriminate]|].
    apply orb_false_iff in G as [G1 G2]. apply Z.ltb_ge in G1, G2.
    set (l := firstn (Z.to_nat c) (skipn (S p) d)).
    assert (Ll : zlen l = c) by (unfold l, zlen in *; rewrite firstn_length, skipn_length; lia).
    assert (Lm : zlen (out ++ map shown l ++ [46]) = zlen out + c + 1).
    { rewrite !zlen_app. unfold zlen at 2. rewrite map_length. fold (zlen l). rewrite Ll. change (zlen [46]) with 1. lia. }
    destruct (IH d (S p + Z.to_nat c)%nat (out ++ map shown l ++ [46]) ptr res Bd Hp ltac:(lia) ltac:(lia)) as (r & R & G).
    exists r. split; [exact R|]. intros out' res' X. destruct (G _ _ X) as (ls & q & h & W & Hh & -> & Hz & Er).
    exists (l :: ls), q, h. split; [eapply w_label; eauto; lia|]. split; [exact Hh|]. split; [cbn [map concat]; now rewrite <- app_assoc|]. auto. }
  destruct (Z.ltb_spec c 192) as [L192|L192]; [eexists; split; [reflexivity|discriminate]|].
  destruct dmp as [m|] eqn:Em; [|eexists; split; [reflexivity|discriminate]]. rewrite <- Em in *.
  destruct (nth_error d (S p)) as [c1|] eqn:E1; [|eexists; split; [reflexivity|discriminate]].
  destruct (Z.ltb_spec 10 (Z.of_nat (S ptr))) as [Lp|Lp]; [eexists; split; [reflexivity|discriminate]|].
  destruct (IH m (Z.to_nat ((c - 192) * 256 + c1)) out (S ptr) (if Z.of_nat ptr =? 0 then Z.of_nat (S (S p)) else res) (dmp_ok m Em) ltac:(lia) Ho ltac:(lia)) as (r & R & G).
  exists r. split; [exact R|]. intros out' res' X. destruct (G _ _ X) as (ls & q & h & W & Hh & -> & Hz & Er).
  exists ls, (S (S p)), (S h). split; [eapply w_ptr; eauto; lia|]. split; [lia|]. split; [reflexivity|]. split; [exact Hz|].
  destruct (Z.eqb_spec (Z.of_nat (S ptr)) 0); [lia|]. exact Er.
Qed.
(** Completeness. *)
Lemma loop_complete d p ls q h : wire dmp d p ls q h -> bytes_ok d -> forall fuel out ptr res, (ptr + h <= 10)%nat ->
  zlen (out ++ concat (map (fun l => map shown l ++ [46]) ls)) <= 255 -> (Z.to_nat (255 - zlen out) + (10 - ptr) < fuel)%nat ->
  parse_loop fuel dmp d (Z.of_nat p) out (Z.of_nat ptr) res =
  Some (Ok (Some (out ++ concat (map (fun l => map shown l ++ [46]) ls), if Z.of_nat ptr =? 0 then Z.of_nat q else res))).
Proof.
  induction 1 as [d p E|d p c l ls q h E R El Ln W IH|d p c c1 m ls q h E R E1 Ed W IH]; intros Bd fuel out ptr res Hh Ho Hf;
    (destruct fuel as [|fuel]; [lia|]); rewrite loop_step by auto; unfold step; rewrite E.
  - zred. cbn [map concat]. now rewrite app_nil_r.
  - cbn [map concat] in *. destruct (Z.eqb_spec c 0); [lia|]. destruct (Z.ltb_spec c 64); [|lia].
    assert (Lm : zlen (out ++ map shown l ++ [46]) = zlen out + c + 1).
    { rewrite !zlen_app. unfold zlen at 2. rewrite map_length. fold (zlen l). rewrite Ln. change (zlen [46]) with 1. lia. }
    rewrite <- El. rewrite app_assoc in Ho. assert (Ho' := Ho). rewrite zlen_app in Ho'. pose proof (zlen_nonneg (concat (map (fun l => map shown l ++ [46]) ls))).
    assert (L1 : (zlen d <? Z.of_nat (S p) + c) = false).
    { apply Z.ltb_ge. assert (p < length d)%nat by (apply nth_error_Some; congruence). rewrite El in Ln. unfold zlen in Ln |- *. rewrite firstn_length, skipn_length in Ln. lia. }
    assert (L2 : (255 <? zlen out + c + 1) = false) by (apply Z.ltb_ge; lia).
    rewrite L1, L2. cbn [orb]. rewrite IH; [|exact Bd|exact Hh|exact Ho|lia]. now rewrite !app_assoc.
  - destruct (Z.eqb_spec c 0); [lia|]. destruct (Z.ltb_spec c 64); [lia|]. destruct (Z.ltb_spec c 192); [lia|]. rewrite E1.
    destruct dmp as [m'|]; [|discriminate]. apply some_inj in Ed. subst m'. destruct (Z.ltb_spec 10 (Z.of_nat (S ptr))); [lia|].
    rewrite IH; [|now apply dmp_ok|lia|exact Ho|lia]. destruct (Z.eqb_spec (Z.of_nat (S ptr)) 0); [lia|]. reflexivity.
Qed.
End Parse.

(** * The serializer *)
Lemma byte_wire c : wire_char c = byte_of c.
Proof. reflexivity. Qed.
Lemma shown_byte_of c : pchar c -> shown (byte_of c) = c.
Proof.
  unfold pchar, shown, byte_of. intros [H N]. destruct (Z.eqb_spec c 255) as [->|]; [reflexivity|]. destruct (Z.eqb_spec c 254) as [->|]; [reflexivity|].
  destruct (Z.eqb_spec c 0); [lia|]. destruct (Z.eqb_spec c 46); [contradiction|reflexivity].
Qed.
Lemma byte_of_byte c : pchar c -> is_byte (byte_of c).
Proof. unfold pchar, byte_of, is_byte. destruct (c =? 255), (c =? 254); lia. Qed.
Definition wlabels (ls : list (list Z)) : list (list Z) := map (map byte_of) ls.
Definition cat_dots (ls : list (list Z)) : list Z := concat (map (fun l => l ++ [46]) ls).
Lemma cat_dots_shown ls : Forall plabel ls -> concat (map (fun l => map shown l ++ [46]) (wlabels ls)) = cat_dots ls.
Proof.
  unfold cat_dots, wlabels. induction 1 as [|l ls [_ Hl] H IH]; cbn [map concat]; auto. rewrite IH. f_equal. f_equal.
  rewrite map_map. rewrite <- map_id. apply map_ext_in. intros c Hc. apply shown_byte_of. eapply Forall_forall; eauto.
Qed.
Lemma text_wlabels ls : Forall plabel ls -> text (wlabels ls) = dotted ls.
Proof.
  intros H. pose proof (cat_dots_shown ls H) as E. unfold text, dotted. destruct ls as [|l ls]; [reflexivity|]. exact E.
Qed.
Lemma dotted_cons l ls : dotted (l :: ls) = l ++ 46 :: cat_dots ls.
Proof. unfold dotted, cat_dots. cbn [map concat]. now rewrite <- app_assoc. Qed.
Lemma cat_dots_len l ls : zlen (cat_dots (l :: ls)) = zlen l + 1 + zlen (cat_dots ls).
Proof. unfold cat_dots. cbn [map concat]. rewrite !zlen_app. change (zlen [46]) with 1. lia. Qed.

(** Characters of a label are collected. *)
Lemma ser_scan data base cmp out : forall l s i prev lab, Forall pchar l ->
  ser_loop data base (l ++ 46 :: s) i prev lab out cmp =
  ser_loop data base (46 :: s) (i + zlen l) (match l with [] => prev | _ => Some (last l 0) end) (lab ++ l) out cmp.
Proof.
  induction l as [|c l IH]; intros s i prev lab H.
  - rewrite app_nil_r. change (zlen (@nil Z)) with 0. rewrite Z.add_0_r. reflexivity.
  - apply Forall_cons_iff in H as [[Hc N] H]. change ((c :: l) ++ 46 :: s) with (c :: (l ++ 46 :: s)). cbn [ser_loop].
    destruct (Z.eqb_spec c 46); [contradiction|]. rewrite IH by auto. rewrite <- app_assoc, zlen_cons. change ([c] ++ l) with (c :: l).
    replace (i + 1 + zlen l) with (i + (1 + zlen l)) by lia. f_equal. destruct l; reflexivity.
Qed.
Lemma last_pchar l : l <> [] -> Forall pchar l -> last l 0 <> 46.
Proof.
  intros N H. assert (I : In (last l 0) l). { rewrite (app_removelast_last 0 N) at 2. apply in_or_app. right. now left. }
  rewrite Forall_forall in H. apply H in I. apply I.
Qed.
Lemma ser_label data base l s i prev out cmp : plabel l -> 0 <= i -> (data = true -> zlen out + 1 + zlen l <= 256) ->
  ser_loop data base (l ++ 46 :: s) i prev [] out cmp =
  (let next cmp := ser_loop data base s (i + zlen l + 1) (Some 46) [] (out ++ zlen l :: map byte_of l) cmp in
   match cmp with
   | None => next None
   | Some m =>
       let p := cmp_get m (l ++ 46 :: s) in
       if p =? 0 then next (Some (if base + zlen out <? 16384 then (l ++ 46 :: s, base + zlen out) :: m else m))
       else if 255 <? i + zlen l + zlen (46 :: s) then (false, out, m)
       else if negb (last (46 :: s) 0 =? 46) then (false, out, m)
       else (true, out ++ [Z.shiftr (Z.lxor p 49152) 8 mod 256; Z.lxor p 49152 mod 256], m)
   end).
Proof.
  intros [L H] Hi D. assert (N : l <> []) by (intros ->; unfold zlen in L; cbn in L; lia). pose proof (zlen_nonneg s) as Hs.
  rewrite ser_scan by auto. replace (match l with [] => prev | _ => Some (last l 0) end) with (Some (last l 0)) by (destruct l; [contradiction|reflexivity]).
  cbn [ser_loop app]. pose proof (last_pchar l N H). change (46 =? 46) with true. cbv iota.
  assert (P : match Some (last l 0) with Some 46 => true | _ => false end = false).
  { destruct (Z.eq_dec (last l 0) 46); [contradiction|]. destruct (last l 0) as [|p|p]; auto. repeat (destruct p as [p|p|]; auto). contradiction. }
  rewrite P. cbv iota. destruct (Z.ltb_spec 63 (zlen l)); [lia|].
  assert (DD : data && (256 <? zlen out + 1 + zlen l) = false). { destruct data; auto. cbn. apply Z.ltb_ge. auto. }
  rewrite DD. cbv iota zeta. change (map wire_char l) with (map byte_of l). change ([zlen l] ++ map byte_of l) with (zlen l :: map byte_of l).
  destruct cmp as [m|]; auto. assert (B : beq (l ++ 46 :: s) [46] = false).
  { apply beq_false_iff. intros E. destruct l as [|c [|c' l]]; try discriminate. contradiction. }
  rewrite B. cbv iota. destruct (cmp_get m (l ++ 46 :: s) =? 0); auto.
  destruct (Z.ltb_spec 255 (i + zlen l + zlen (46 :: s))); auto. destruct (negb (last (46 :: s) 0 =? 46)); auto.
  destruct (Z.eqb_spec (i + zlen l + zlen (46 :: s)) 1) as [E|]; auto. rewrite zlen_cons in *. lia.
Qed.

Lemma list_snoc {A} (l : list A) : l = [] \/ exists l' x, l = l' ++ [x].
Proof. destruct l as [|x l] using rev_ind; [now left|right; eauto]. Qed.
Lemma cat_dots_last ls : last (46 :: cat_dots ls) 0 = 46.
Proof.
  destruct (list_snoc ls) as [->|(ls' & l & ->)]; [reflexivity|]. unfold cat_dots. rewrite map_app, concat_app. cbn [map concat].
  rewrite app_nil_r, app_assoc. change (46 :: ?a ++ [46]) with ((46 :: a) ++ [46]). apply last_last.
Qed.

(** Without compression. *)
Lemma ser_plain data base : forall ls i out, Forall plabel ls -> ls <> [] -> zlen out = i -> i + zlen (cat_dots ls) <= 255 ->
  forall prev, ser_loop data base (cat_dots ls) i prev [] out None = (true, out ++ plain ls, []).
Proof.
  induction ls as [|l ls IH]; intros i out H N Ei Hi prev; [contradiction|]. apply Forall_cons_iff in H as [Hl H].
  rewrite cat_dots_len in Hi. pose proof (zlen_nonneg (cat_dots ls)). pose proof (zlen_nonneg out). assert (L := proj1 Hl).
  replace (cat_dots (l :: ls)) with (l ++ 46 :: cat_dots ls) by (unfold cat_dots; cbn [map concat]; now rewrite <- app_assoc).
  rewrite ser_label by (auto; lia). cbv zeta.
  assert (Lo : zlen (out ++ zlen l :: map byte_of l) = i + zlen l + 1) by (rewrite zlen_app, zlen_cons, zlen_map; lia).
  destruct ls as [|l' ls].
  - cbn [cat_dots map concat ser_loop]. change (cat_dots []) with (@nil Z) in *. change (zlen (@nil Z)) with 0 in *. cbn [ser_loop].
    destruct (Z.ltb_spec 255 (i + zlen l + 1)); [lia|]. destruct (Z.eqb_spec (i + zlen l + 1) 1); [lia|].
    assert (D : data && (256 <=? zlen (out ++ zlen l :: map byte_of l)) = false) by (rewrite Lo; destruct data; auto; apply Z.leb_gt; lia).
    rewrite D. unfold plain. cbn [map concat]. now rewrite app_nil_r, <- !app_assoc.
  - rewrite IH; [|auto|discriminate|exact Lo|lia]. unfold plain. cbn [map concat]. now rewrite <- !app_assoc.
Qed.

(** A map is good for a message when each entry gives a position where the message
    carries that name, starting with a label, with fewer pointers than labels and fewer
    than [k], the number of names written. *)
Definition entry_ok (k : nat) (m : list Z) (e : list Z * Z) : Prop :=
  exists ls q h, Forall plabel ls /\ ls <> [] /\ fst e = cat_dots ls /\ 0 <= snd e < 16384 /\ snd e < zlen m /\
    wire (Some m) m (Z.to_nat (snd e)) (wlabels ls) q h /\ (h < length ls)%nat /\ (h < k)%nat.
Definition cmap_ok (k : nat) (m : list Z) (c : cmap) : Prop := Forall (entry_ok k m) c.
Lemma entry_app k k' m t e : (k <= k')%nat -> entry_ok k m e -> entry_ok k' (m ++ t) e.
Proof.
  intros Hk (ls & q & h & H1 & H2 & H3 & H4 & H5 & H6 & H7 & H8). exists ls, q, h. pose proof (zlen_nonneg t). rewrite zlen_app.
  repeat (split; [auto; lia|]). split; [now apply wire_app|]. split; [exact H7|lia].
Qed.
Lemma cmap_app k k' m t c : (k <= k')%nat -> cmap_ok k m c -> cmap_ok k' (m ++ t) c.
Proof. intros Hk H. eapply Forall_impl; [|exact H]. intros e. now apply entry_app. Qed.
Lemma cat_dots_inj a : forall b, Forall plabel a -> Forall plabel b -> cat_dots a = cat_dots b -> a = b.
Proof.
  assert (K : forall l x l' y, Forall pchar l -> Forall pchar l' -> l ++ 46 :: x = l' ++ 46 :: y -> l = l' /\ x = y).
  { induction l as [|c l IH]; intros x [|c' l'] y H H' E; cbn in E.
    - injection E as ->. auto.
    - injection E as <- _. apply Forall_cons_iff in H' as [[_ H'] _]. contradiction.
    - injection E as -> _. apply Forall_cons_iff in H as [[_ H] _]. contradiction.
    - injection E as -> E. apply Forall_cons_iff in H as [_ H]. apply Forall_cons_iff in H' as [_ H']. destruct (IH _ _ _ H H' E). now subst. }
  induction a as [|l a IH]; intros [|l' b] Ha Hb E; auto.
  - unfold cat_dots in E. cbn [map concat] in E. destruct l'; discriminate.
  - unfold cat_dots in E. cbn [map concat] in E. destruct l; discriminate.
  - apply Forall_cons_iff in Ha as [[_ Hl] Ha]. apply Forall_cons_iff in Hb as [[_ Hl'] Hb]. unfold cat_dots in E. cbn [map concat] in E. rewrite <- !app_assoc in E.
    apply K in E as [-> E]; auto. f_equal. now apply IH.
Qed.
Lemma cmp_get_in c k : cmp_get c k <> 0 -> In (k, cmp_get c k) c.
Proof.
  induction c as [|[k' v] c IH]; cbn [cmp_get]; [congruence|]. destruct (beq k k') eqn:E; [apply beq_true_iff in E as ->; now left|]. right. auto.
Qed.
Lemma cmp_get_app pend c k : Forall (fun e => zlen k < zlen (fst e)) pend -> cmp_get (pend ++ c) k = cmp_get c k.
Proof.
  induction 1 as [|[k' v] pend H F IH]; cbn [app cmp_get]; auto. cbn in H. replace (beq k k') with false; auto. symmetry. apply beq_false_iff. intros ->. lia.
Qed.
Lemma ptr_bytes p : 0 <= p < 16384 -> Z.shiftr (Z.lxor p 49152) 8 mod 256 = 192 + p / 256 /\ Z.lxor p 49152 mod 256 = p mod 256.
Proof.
  intros H. assert (E : Z.lxor p 49152 = p + 49152).
  { rewrite <- Z.add_nocarry_lxor; auto. apply Z.bits_inj'. intros n Hn. rewrite Z.land_spec, Z.bits_0. destruct (Z.lt_ge_cases n 14) as [L|L].
    - replace (Z.testbit 49152 n) with false; [apply andb_false_r|]. change 49152 with (3 * 2 ^ 14). now rewrite Z.mul_pow2_bits_low.
    - replace (Z.testbit p n) with false; auto. symmetry. destruct (Z.eq_dec p 0) as [->|]; [apply Z.bits_0|].
      apply Z.bits_above_log2; [lia|]. apply Z.log2_lt_pow2; [lia|]. apply Z.lt_le_trans with (2 ^ 14); [cbn; lia|]. apply Z.pow_le_mono_r; lia. }
  rewrite E. rewrite shiftr_div by lia. change (2 ^ 8) with 256. replace (p + 49152) with (p + 192 * 256) by lia.
  rewrite Z.div_add, Z.mod_add by lia. split; auto. rewrite Z.mod_small; lia.
Qed.
Lemma nth_error_mid {A} (m : list A) x t : nth_error (m ++ x :: t) (length m) = Some x.
Proof. rewrite nth_error_app2 by lia. now rewrite Nat.sub_diag. Qed.

(** The bytes of a name: some labels, then the root or a pointer to before [B]. *)
Definition lab_bytes (ls : list (list Z)) : list Z := concat (map (fun l => zlen l :: map byte_of l) ls).
Definition shape (B : Z) (ls : list (list Z)) (new : list Z) : Prop :=
  new = lab_bytes ls ++ [0] \/ exists a b p, ls = a ++ b /\ new = lab_bytes a ++ [192 + p / 256; p mod 256] /\ 0 < p < B /\ p < 16384.
Lemma shape_cons B l ls new : shape B ls new -> shape B (l :: ls) ((zlen l :: map byte_of l) ++ new).
Proof.
  intros [->|(a & b & p & -> & -> & Hp)]; [left|right].
  - unfold lab_bytes. cbn [map concat]. now rewrite <- app_assoc.
  - exists (l :: a), b, p. split; [reflexivity|]. split; auto. unfold lab_bytes. cbn [map concat]. now rewrite <- app_assoc.
Qed.
Lemma ser_comp data B k : forall ls m i out pend cmp, Forall plabel ls -> ls <> [] -> zlen out = i -> i + zlen (cat_dots ls) <= 255 ->
  cmap_ok k m cmp -> Forall (fun e => snd e < B) cmp -> Forall (fun e => zlen (cat_dots ls) < zlen (fst e)) pend -> zlen out <= zlen m ->
  forall prev, exists new news h,
    ser_loop data (zlen m - zlen out) (cat_dots ls) i prev [] out (Some (pend ++ cmp)) = (true, out ++ new, news ++ pend ++ cmp) /\
    wire (Some (m ++ new)) (m ++ new) (length m) (wlabels ls) (length (m ++ new)) h /\ (h <= length ls)%nat /\ (h <= k)%nat /\
    cmap_ok (S k) (m ++ new) news /\ shape B ls new /\ zlen new <= zlen (cat_dots ls) + 1.
Proof.
  induction ls as [|l ls IH]; intros m i out pend cmp H N Ei Hi Hm HB Hp Ho prev; [contradiction|]. assert (Hall := H). apply Forall_cons_iff in H as [Hl H].
  pose proof (cat_dots_len l ls) as Hc. pose proof (zlen_nonneg (cat_dots ls)). pose proof (zlen_nonneg out). assert (L := proj1 Hl).
  assert (Ec : cat_dots (l :: ls) = l ++ 46 :: cat_dots ls) by (unfold cat_dots; cbn [map concat]; now rewrite <- app_assoc).
  rewrite Ec. rewrite ser_label by (auto; lia). cbv zeta. rewrite <- Ec. replace (zlen m - zlen out + zlen out) with (zlen m) by lia.
  rewrite cmp_get_app by exact Hp.
  destruct (Z.eqb_spec (cmp_get cmp (cat_dots (l :: ls))) 0) as [Eg|Ng].
  - set (lb := zlen l :: map byte_of l).
    assert (Llb : zlen lb = zlen l + 1) by (unfold lb; rewrite zlen_cons, zlen_map; lia).
    assert (Lo : zlen (out ++ lb) = i + zlen l + 1) by (rewrite zlen_app; lia).
    set (e := (cat_dots (l :: ls), zlen m)).
    set (pend' := if zlen m <? 16384 then e :: pend else pend).
    assert (Ep : (if zlen m <? 16384 then e :: pend ++ cmp else pend ++ cmp) = pend' ++ cmp) by (unfold pend'; destruct (zlen m <? 16384); reflexivity).
    assert (Hlab : wlabels (l :: ls) = map byte_of l :: wlabels ls) by reflexivity.
    (* the message with this label, given what follows *)
    assert (Fin : forall new2 h, wire (Some ((m ++ lb) ++ new2)) ((m ++ lb) ++ new2) (length (m ++ lb)) (wlabels ls) (length ((m ++ lb) ++ new2)) h -> (h <= length ls)%nat -> (h <= k)%nat ->
       wire (Some (m ++ lb ++ new2)) (m ++ lb ++ new2) (length m) (wlabels (l :: ls)) (length (m ++ lb ++ new2)) h /\ (h <= length (l :: ls))%nat /\
       Forall (entry_ok (S k) (m ++ lb ++ new2)) (if zlen m <? 16384 then [e] else [])).
    { intros new2 h W Hh Hk. rewrite <- app_assoc in W.
      assert (W' : wire (Some (m ++ lb ++ new2)) (m ++ lb ++ new2) (length m) (wlabels (l :: ls)) (length (m ++ lb ++ new2)) h).
      { rewrite Hlab. unfold lb in *. eapply w_label with (c := zlen l).
        - apply nth_error_mid.
        - lia.
        - change (S (length m)) with (1 + length m)%nat. rewrite Nat.add_comm. change (m ++ (zlen l :: map byte_of l) ++ new2) with (m ++ [zlen l] ++ map byte_of l ++ new2).
          rewrite app_assoc. rewrite skipn_app. rewrite app_length. cbn [length]. rewrite Nat.sub_diag. cbn [skipn].
          rewrite skipn_all2 by (rewrite app_length; cbn [length]; lia). cbn [app]. rewrite firstn_app, map_length.
          replace (Z.to_nat (zlen l)) with (length l) by (unfold zlen; lia). rewrite Nat.sub_diag. cbn [firstn].
          rewrite app_nil_r. symmetry. apply firstn_all2. rewrite map_length. lia.
        - now rewrite zlen_map.
        - replace (S (length m) + Z.to_nat (zlen l))%nat with (length (m ++ zlen l :: map byte_of l)); [exact W|].
          rewrite app_length. cbn [length]. rewrite map_length. unfold zlen. lia. }
      split; [exact W'|]. split; [cbn [length]; lia|]. destruct (Z.ltb_spec (zlen m) 16384); constructor; auto.
      exists (l :: ls), (length (m ++ lb ++ new2)), h. unfold e. cbn [fst snd]. pose proof (zlen_nonneg m). pose proof (zlen_nonneg new2).
      split; [exact Hall|]. split; [discriminate|]. split; [reflexivity|]. split; [lia|]. split; [rewrite !zlen_app; lia|].
      split; [|cbn [length]; lia]. unfold zlen. rewrite Nat2Z.id. exact W'. }
    replace (if zlen m <? 16384 then (cat_dots (l :: ls), zlen m) :: pend ++ cmp else pend ++ cmp) with (pend' ++ cmp) by (symmetry; exact Ep).
    destruct ls as [|l' ls].
    + change (cat_dots []) with (@nil Z) in *. change (zlen (@nil Z)) with 0 in *. cbn [ser_loop].
      destruct (Z.ltb_spec 255 (i + zlen l + 1)); [lia|]. destruct (Z.eqb_spec (i + zlen l + 1) 1); [lia|].
      fold lb. assert (D : data && (256 <=? zlen (out ++ lb)) = false) by (rewrite Lo; destruct data; auto; apply Z.leb_gt; lia).
      rewrite D. destruct (Fin [0] 0%nat) as (F1 & F2 & F3); [|lia|lia|].
      { replace (length ((m ++ lb) ++ [0])) with (S (length (m ++ lb))) by (rewrite (app_length _ [0]); cbn [length]; lia). apply w_end. apply nth_error_mid. }
      exists (lb ++ [0]), (if zlen m <? 16384 then [e] else []), 0%nat. rewrite <- !app_assoc.
      split. { f_equal. unfold pend'. destruct (zlen m <? 16384); reflexivity. }
      split; [exact F1|]. split; [exact F2|]. split; [lia|]. split; [exact F3|]. split; [apply shape_cons; now left|]. rewrite zlen_app. change (zlen [0]) with 1. lia.
    + destruct (IH (m ++ lb) (i + zlen l + 1) (out ++ lb) pend' cmp) with (prev := Some 46) as (new & news & h & R & W & Hh & Hk & Hn & Hsh & Hlen).
      * exact H.
      * discriminate.
      * exact Lo.
      * lia.
      * now apply (cmap_app k).
      * exact HB.
      * unfold pend'. destruct (zlen m <? 16384).
        -- constructor; [unfold e; cbn [fst]; lia|]. eapply Forall_impl; [|exact Hp]. cbv beta. intros. lia.
        -- eapply Forall_impl; [|exact Hp]. cbv beta. intros. lia.
      * rewrite !zlen_app. lia.
      * replace (zlen (m ++ lb) - zlen (out ++ lb)) with (zlen m - zlen out) in R by (rewrite !zlen_app; lia).
        fold lb e. rewrite Ep, R. destruct (Fin new h W Hh Hk) as (F1 & F2 & F3).
        exists (lb ++ new), (news ++ (if zlen m <? 16384 then [e] else [])), h.
        split. { f_equal; [f_equal; now rewrite <- !app_assoc|]. unfold pend'. rewrite <- !app_assoc. destruct (zlen m <? 16384); reflexivity. }
        split; [exact F1|]. split; [exact F2|]. split; [exact Hk|]. split; [|split; [now apply shape_cons|rewrite zlen_app; lia]].
        unfold cmap_ok. apply Forall_app. split; [now rewrite app_assoc|exact F3].
  - set (p := cmp_get cmp (cat_dots (l :: ls))) in *.
    assert (I := cmp_get_in cmp (cat_dots (l :: ls)) Ng). fold p in I. unfold cmap_ok in Hm. rewrite Forall_forall in Hm.
    destruct (Hm _ I) as (ls' & q & h & J1 & J2 & J3 & J4 & J5 & J6 & J7 & J8). cbn [fst snd] in *. apply cat_dots_inj in J3; auto. subst ls'.
    rewrite zlen_cons. destruct (Z.ltb_spec 255 (i + zlen l + (1 + zlen (cat_dots ls)))); [lia|]. rewrite cat_dots_last. change (negb (46 =? 46)) with false. cbv iota.
    destruct (ptr_bytes p J4) as [-> ->].
    exists [192 + p / 256; p mod 256], [], (S h). split; [reflexivity|].
    assert (B1 : 192 <= 192 + p / 256 < 256) by lia.
    assert (p < B) by (rewrite Forall_forall in HB; apply (HB _ I)).
    split; [|split; [lia|split; [lia|split; [constructor|split; [right; exists [], (l :: ls), p; split; [reflexivity|]; split; [reflexivity|lia]|change (zlen [_; _]) with 2; lia]]]]].
    replace (length (m ++ [192 + p / 256; p mod 256])) with (S (S (length m))) by (rewrite app_length; cbn [length]; lia).
    eapply w_ptr; [apply nth_error_mid|exact B1| |reflexivity|].
    + change (m ++ [192 + p / 256; p mod 256]) with (m ++ [192 + p / 256] ++ [p mod 256]). rewrite app_assoc.
      replace (S (length m)) with (length (m ++ [192 + p / 256])) by (rewrite app_length; cbn [length]; lia). apply nth_error_mid.
    + apply wire_app. replace ((192 + p / 256 - 192) * 256 + p mod 256) with p by lia. exact J6.
Qed.

(** * The serializer on any string *)
Definition small (data : bool) (r : ser_result) : Prop := (data = true -> zlen (snd (fst r)) <= 256) /\ (fst (fst r) = true -> zlen (snd (fst r)) <= 256).
Lemma ser_shape data base : forall s i prev lab out cmp, zlen out + zlen lab = i -> (data = true -> zlen out <= 256) ->
  small data (ser_loop data base s i prev lab out cmp).
Proof.
  induction s as [|c s IH]; intros i prev lab out cmp Ei Ho; pose proof (zlen_nonneg lab).
  - cbn [ser_loop]. destruct (Z.ltb_spec 255 i); [split; [exact Ho|discriminate]|].
    assert (X : forall m, small data (match prev with Some 46 => if i =? 1 then (true, out, m) else if data && (256 <=? zlen out) then (false, out, m) else (true, out ++ [0], m) | _ => (false, out, m) end : ser_result)).
    { intros m. assert (Y : forall ok, small data (ok, out, m)) by (intros; split; cbn [fst snd]; intros; lia).
      destruct prev as [p|]; [|apply Y]. destruct (Z.eq_dec p 46) as [->|Np].
      - destruct (i =? 1); [apply Y|]. destruct (data && (256 <=? zlen out)); [apply Y|]. assert (zlen (out ++ [0]) = zlen out + 1) by (rewrite zlen_app; reflexivity). split; cbn [fst snd]; intros; lia.
      - destruct p as [|p|p]; try apply Y. do 6 (destruct p as [p|p|]; try apply Y). contradiction. }
    apply X.
  - cbn [ser_loop]. set (m0 := match cmp with Some m => m | None => [] end).
    assert (Y : forall m, small data (false, out, m)) by (intros; split; [auto|discriminate]).
    destruct (c =? 46) eqn:Ec.
    2:{ apply IH; auto. rewrite zlen_app. change (zlen [c]) with 1. lia. }
    destruct (match prev with Some 46 => true | _ => false end); [apply Y|]. destruct (63 <? zlen lab); [apply Y|].
    destruct (data && (256 <? zlen out + 1 + zlen lab)) eqn:Ed; [apply Y|]. cbv zeta.
    assert (Z1 : forall cm, small data (ser_loop data base s (i + 1) (Some c) [] (out ++ [zlen lab] ++ map wire_char lab) cm)).
    { intros cm. apply IH.
      - rewrite !zlen_app, zlen_map. change (zlen [zlen lab]) with 1. change (zlen (@nil Z)) with 0. lia.
      - intros ->. cbn in Ed. apply Z.ltb_ge in Ed. rewrite !zlen_app, zlen_map. change (zlen [zlen lab]) with 1. lia. }
    destruct cmp as [m|]; [|apply Z1]. destruct (beq (lab ++ c :: s) [46]) eqn:B; [apply Z1|].
    destruct (cmp_get m (lab ++ c :: s) =? 0); [apply Z1|].
    destruct (255 <? i + zlen (c :: s)) eqn:L; [apply Y|]. apply Z.ltb_ge in L. destruct (negb (last (c :: s) 0 =? 46)); [apply Y|].
    pose proof (zlen_nonneg s). rewrite zlen_cons in L.
    destruct (i + zlen (c :: s) =? 1); [split; cbn [fst snd]; intros; lia|]. assert (zlen out + 2 <= 256); [|split; cbn [fst snd]; rewrite zlen_app; change (zlen [_; _]) with 2; intros; lia]. 
    apply Z.eqb_eq in Ec. subst c. apply beq_false_iff in B. destruct lab as [|x lab].
    + destruct s as [|y s]; [now contradiction B|]. rewrite zlen_cons in L. pose proof (zlen_nonneg s). lia.
    + rewrite zlen_cons in *. pose proof (zlen_nonneg lab). lia.
Qed.

(** Without compression: exactly which strings are accepted. [ends46 s]: what is left
    completes a label and continues with labels up to a final dot. *)
Definition noz (s : list Z) : Prop := Forall (fun c => 1 <= c <= 255) s.
Lemma prev46 (prev : option Z) : match prev with Some 46 => true | _ => false end = true -> prev = Some 46.
Proof.
  destruct prev as [p|]; [|discriminate]. intros E. destruct (Z.eq_dec p 46) as [->|Np]; auto. exfalso.
  destruct p as [|p|p]; try discriminate. do 6 (destruct p as [p|p|]; try discriminate). contradiction.
Qed.
Lemma ser_accepts data base : forall s i prev lab out, noz s -> Forall pchar lab -> zlen out + zlen lab = i ->
  fst (fst (ser_loop data base s i prev lab out None)) = true ->
  i + zlen s <= 255 /\
  ((s = [] /\ prev = Some 46) \/
   exists l ls, s = l ++ 46 :: cat_dots ls /\ Forall pchar l /\ zlen (lab ++ l) <= 63 /\ (l = [] -> prev <> Some 46) /\ Forall plabel ls).
Proof.
  induction s as [|c s IH]; intros i prev lab out Hs Hlab Ei E.
  - cbn [ser_loop] in E. change (zlen (@nil Z)) with 0. destruct (Z.ltb_spec 255 i); [discriminate|]. split; [lia|]. left. split; auto.
    apply prev46. destruct prev as [p|]; [|discriminate]. destruct p as [|p|p]; try discriminate. do 6 (destruct p as [p|p|]; try discriminate). reflexivity.
  - apply Forall_cons_iff in Hs as [Hc Hs]. cbn [ser_loop] in E. rewrite zlen_cons. destruct (Z.eqb_spec c 46) as [->|Nc].
    + destruct (match prev with Some 46 => true | _ => false end) eqn:Ep; [discriminate|]. destruct (Z.ltb_spec 63 (zlen lab)); [discriminate|].
      destruct (data && (256 <? zlen out + 1 + zlen lab)); [discriminate|]. cbv zeta in E.
      apply IH in E as [L E]; auto.
      2:{ rewrite !zlen_app, zlen_map. change (zlen [zlen lab]) with 1. change (zlen (@nil Z)) with 0. lia. }
      split; [lia|]. right. exists []. rewrite app_nil_r. cbn [app].
      assert (Np : prev <> Some 46) by (intros ->; discriminate).
      destruct E as [[-> _]|(l & ls & -> & H1 & H2 & H3 & H4)].
      * exists []. unfold cat_dots. cbn. auto 10.
      * exists (l :: ls). split; [unfold cat_dots; cbn [map concat]; now rewrite <- app_assoc|]. split; [constructor|]. split; [lia|]. split; [auto|].
        constructor; auto. split; auto. cbn [app] in H2. assert (l <> []) by (intros ->; now apply H3). destruct l; [contradiction|]. rewrite zlen_cons in *. pose proof (zlen_nonneg l). lia.
    + apply IH in E as [L E]; auto.
      2:{ apply Forall_app. split; auto. constructor; [split; auto|constructor]. }
      2:{ rewrite zlen_app. change (zlen [c]) with 1. lia. }
      split; [lia|]. right. destruct E as [[_ E]|(l & ls & -> & H1 & H2 & H3 & H4)]; [injection E as ->; contradiction|].
      exists (c :: l), ls. split; [reflexivity|]. split; [constructor; auto; split; auto|]. split; [now rewrite <- app_assoc in H2|]. split; [discriminate|]. exact H4.
Qed.

(** * Labels *)
Fixpoint starts (i : Z) (ls : list (list Z)) : list Z :=
  match ls with [] => [] | l :: ls => i :: starts (i + zlen l + 1) ls end.
Lemma zlen_starts ls : forall i, zlen (starts i ls) = zlen ls.
Proof. induction ls as [|l ls IH]; intros i; cbn [starts]; auto. now rewrite !zlen_cons, IH. Qed.
Lemma split_false l s : forall i count size, Forall pchar l -> count <= size ->
  label_split_from (l ++ 46 :: s) i false count size = label_split_from (46 :: s) (i + zlen l) false count size.
Proof.
  induction l as [|c l IH]; intros i count size H Hc; [change (zlen (@nil Z)) with 0; now rewrite Z.add_0_r|].
  apply Forall_cons_iff in H as [[_ Nc] H]. cbn [app label_split_from]. destruct (Z.ltb_spec count size).
  - cbn [negb]. destruct (Z.eqb_spec c 46); [contradiction|]. rewrite IH by auto. rewrite zlen_cons. replace (i + 1 + zlen l) with (i + (1 + zlen l)) by lia. cbn [label_split_from]. destruct (Z.ltb_spec count size); [reflexivity|lia].
  - cbn [negb]. cbn [label_split_from]. reflexivity.
Qed.
Lemma split_dots ls : forall i count size, Forall plabel ls -> count + zlen ls <= size -> 0 <= i -> i + zlen (cat_dots ls) <= 256 ->
  label_split_from (cat_dots ls) i true count size = starts i ls.
Proof.
  induction ls as [|l ls IH]; intros i count size H Hc H0 Hi; [reflexivity|]. apply Forall_cons_iff in H as [[Hl Hp] H].
  rewrite cat_dots_len in Hi. rewrite zlen_cons in Hc. pose proof (zlen_nonneg ls). pose proof (zlen_nonneg (cat_dots ls)).
  replace (cat_dots (l :: ls)) with (l ++ 46 :: cat_dots ls) by (unfold cat_dots; cbn [map concat]; now rewrite <- app_assoc).
  destruct l as [|c l]; [change (zlen (@nil Z)) with 0 in Hl; lia|]. apply Forall_cons_iff in Hp as [[_ Nc] Hp].
  cbn [app label_split_from]. destruct (Z.ltb_spec count size); [|lia]. cbn [negb]. destruct (Z.eqb_spec c 46); [contradiction|].
  rewrite zlen_cons in *. pose proof (zlen_nonneg l). rewrite Z.mod_small by lia. cbn [starts]. f_equal. rewrite split_false by (auto; lia).
  destruct ls as [|l' ls].
  - cbn [cat_dots map concat label_split_from]. destruct (count + 1 <? size); reflexivity.
  - cbn [label_split_from]. rewrite zlen_cons in Hc. pose proof (zlen_nonneg ls). destruct (Z.ltb_spec (count + 1) size); [|lia]. cbn [negb]. change (46 =? 46) with true. cbv iota.
    rewrite IH; [|exact H|rewrite zlen_cons; lia|lia|lia]. rewrite zlen_cons. replace (i + 1 + zlen l + 1) with (i + (1 + zlen l) + 1) by lia. reflexivity.
Qed.
Lemma labels_le_dots ls : Forall plabel ls -> 2 * zlen ls <= zlen (cat_dots ls).
Proof.
  induction 1 as [|l ls [Hl _] H IH]; [unfold zlen; cbn; lia|]. rewrite cat_dots_len, zlen_cons. lia.
Qed.
Lemma cat_dots_dotted ls : ls <> [] -> dotted ls = cat_dots ls.
Proof. destruct ls; [contradiction|reflexivity]. Qed.
Lemma split_dotted ls size : pname ls -> zlen ls <= size -> label_split (dotted ls) size = starts 0 ls.
Proof.
  intros [H L] Hs. unfold label_split. destruct ls as [|l ls].
  - cbn [dotted label_split_from starts]. change (46 =? 46) with true. destruct (0 <? size); reflexivity.
  - rewrite cat_dots_dotted in * by discriminate. apply split_dots; auto; lia.
Qed.
Lemma label_count_dotted ls : pname ls -> label_count (dotted ls) = zlen ls.
Proof.
  intros H. unfold label_count. rewrite split_dotted; [apply zlen_starts|exact H|]. destruct H as [H L].
  destruct ls as [|l ls]; [unfold zlen; cbn; lia|]. rewrite cat_dots_dotted in L by discriminate. apply labels_le_dots in H. lia.
Qed.
Lemma cat_dots_app a b : cat_dots (a ++ b) = cat_dots a ++ cat_dots b.
Proof. unfold cat_dots. now rewrite map_app, concat_app. Qed.
Lemma starts_nth a : forall l b i, nth (length a) (starts i (a ++ l :: b)) 0 = i + zlen (cat_dots a).
Proof.
  induction a as [|x a IH]; intros l b i; cbn [app starts length nth].
  - change (zlen (cat_dots [])) with 0. lia.
  - rewrite IH, cat_dots_len. lia.
Qed.
Lemma split_at {A} (ls : list A) k : 0 <= k < zlen ls -> exists a l b, ls = a ++ l :: b /\ zlen a = k.
Proof.
  intros H. destruct (nth_error ls (Z.to_nat k)) as [l|] eqn:E; [|apply nth_error_None in E; unfold zlen in H; lia].
  apply nth_error_split in E as (a & b & -> & La). exists a, l, b. split; auto. unfold zlen. lia.
Qed.
Lemma skipn_zlen {A} (a b : list A) : skipn (Z.to_nat (zlen a)) (a ++ b) = b.
Proof. unfold zlen. rewrite Nat2Z.id, skipn_app, Nat.sub_diag, skipn_all. reflexivity. Qed.
Lemma firstn_zlen {A} (a b : list A) : firstn (Z.to_nat (zlen a)) (a ++ b) = a.
Proof. unfold zlen. rewrite Nat2Z.id, firstn_app, Nat.sub_diag, firstn_all. cbn. apply app_nil_r. Qed.
(** The label at index [k], counted from the front or, negative, from the end *)
Definition idx (n k : Z) : Z := if k <? 0 then k + n else k.
Lemma label_get_dotted cap ls k a l b : pname ls -> ls = a ++ l :: b -> idx (zlen ls) k = zlen a -> zlen l < cap ->
  label_get cap (dotted ls) k = Ok l.
Proof.
  intros H E Hk Hcap. unfold label_get. rewrite label_count_dotted by exact H. assert (Hpos : zlen ls = zlen a + 1 + zlen b) by (subst ls; rewrite zlen_app, zlen_cons; lia).
  pose proof (zlen_nonneg a). pose proof (zlen_nonneg b). destruct (Z.eqb_spec (zlen ls) 0); [lia|]. cbv zeta.
  rewrite split_dotted by (auto; lia). fold (idx (zlen ls) k). rewrite Hk. destruct (Z.leb_spec (zlen ls) (zlen a)); [lia|]. destruct (Z.ltb_spec (zlen a) 0); [lia|].
  replace (Z.to_nat (zlen a)) with (length a) by (unfold zlen; lia).
  assert (S0 : nth (length a) (starts 0 ls) 0 = zlen (cat_dots a)) by (subst ls; now rewrite starts_nth). rewrite S0.
  assert (Hl : plabel l) by (destruct H as [H _]; subst ls; apply Forall_app in H as [_ H]; now inversion H).
  assert (D : dotted ls = cat_dots a ++ l ++ 46 :: cat_dots b).
  { rewrite cat_dots_dotted by (subst ls; destruct a; discriminate). subst ls. rewrite cat_dots_app. f_equal. unfold cat_dots. cbn [map concat]. now rewrite <- app_assoc. }
  rewrite D.
  match goal with |- context [?f - zlen (cat_dots a)] => assert (F : f = zlen (cat_dots a) + zlen l) end.
  { destruct (Z.leb_spec (zlen ls) (zlen a + 1)) as [Lb|Lb].
    - assert (b = []) by (destruct b; auto; rewrite zlen_cons in *; pose proof (zlen_nonneg b); lia). subst b. change (cat_dots []) with (@nil Z).
      rewrite app_assoc. set (t := cat_dots a ++ l). assert (Lt : zlen (t ++ [46]) - 1 = zlen t) by (rewrite zlen_app; change (zlen [46]) with 1; lia).
      rewrite Lt. replace (nth (Z.to_nat (zlen t)) (t ++ [46]) 0) with 46.
      + change (46 =? 46) with true. cbv iota. unfold t. rewrite zlen_app. reflexivity.
      + unfold zlen. rewrite Nat2Z.id, app_nth2 by lia. now rewrite Nat.sub_diag.
    - destruct b as [|l' b]; [change (zlen (@nil (list Z))) with 0 in *; lia|].
      replace (Z.to_nat (zlen a + 1)) with (length (a ++ [l])) by (rewrite app_length; unfold zlen; cbn [length]; lia).
      replace ls with ((a ++ [l]) ++ l' :: b) by (rewrite <- app_assoc; exact (eq_sym E)). rewrite starts_nth, cat_dots_app, zlen_app.
      unfold cat_dots at 2. cbn [map concat]. rewrite app_nil_r, zlen_app. change (zlen [46]) with 1. lia. }
  rewrite F. replace (zlen (cat_dots a) + zlen l - zlen (cat_dots a)) with (zlen l) by lia. destruct Hl as [Hl _].
  destruct (Z.eqb_spec (zlen l) 0); [lia|]. destruct (Z.ltb_spec 63 (zlen l)); [lia|]. destruct (Z.ltb_spec (zlen l) 0); [lia|]. cbn [orb].
  destruct (Z.leb_spec cap (zlen l)); [lia|]. rewrite skipn_zlen, firstn_zlen. reflexivity.
Qed.
Lemma label_from_dotted cap ls k a l b : pname ls -> ls = a ++ l :: b -> idx (zlen ls) k = zlen a -> zlen (dotted (l :: b)) < cap ->
  label_from cap (dotted ls) k = Ok (dotted (l :: b)).
Proof.
  intros H E Hk Hcap. unfold label_from. rewrite label_count_dotted by exact H. assert (Hpos : zlen ls = zlen a + 1 + zlen b) by (subst ls; rewrite zlen_app, zlen_cons; lia).
  pose proof (zlen_nonneg a). pose proof (zlen_nonneg b). destruct (Z.eqb_spec (zlen ls) 0); [lia|]. cbv zeta.
  rewrite split_dotted by (auto; lia). fold (idx (zlen ls) k). rewrite Hk. destruct (Z.leb_spec (zlen ls) (zlen a)); [lia|]. destruct (Z.ltb_spec (zlen a) 0); [lia|].
  replace (Z.to_nat (zlen a)) with (length a) by (unfold zlen; lia).
  assert (S0 : nth (length a) (starts 0 ls) 0 = zlen (cat_dots a)) by (subst ls; now rewrite starts_nth). rewrite S0.
  assert (D : dotted ls = cat_dots a ++ dotted (l :: b)).
  { rewrite !cat_dots_dotted by (try discriminate; subst ls; destruct a; discriminate). subst ls. now rewrite cat_dots_app. }
  destruct H as [H L]. rewrite D in *. rewrite zlen_app in *. pose proof (zlen_nonneg (cat_dots a)).
  replace (zlen (cat_dots a) + zlen (dotted (l :: b)) - zlen (cat_dots a)) with (zlen (dotted (l :: b))) by lia.
  assert (0 < zlen (dotted (l :: b))). { rewrite cat_dots_dotted by discriminate. rewrite cat_dots_len. pose proof (zlen_nonneg l). pose proof (zlen_nonneg (cat_dots b)). lia. }
  destruct (Z.eqb_spec (zlen (dotted (l :: b))) 0); [lia|]. destruct (Z.ltb_spec 255 (zlen (dotted (l :: b)))); [lia|]. cbn [orb].
  destruct (Z.ltb_spec (zlen (dotted (l :: b))) 0); [lia|]. destruct (Z.leb_spec cap (zlen (dotted (l :: b)))); [lia|]. now rewrite skipn_zlen.
Qed.
