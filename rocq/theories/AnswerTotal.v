(** C37, C39: the answer for any resource the decoder can leave, and when there is none. *)
From Verif Require Import Common CommonFacts BioModel UtilTheorems Base32Model DnsNameModel DnsNameSpec DnsNameFacts DnsMsgModel DnsMsgSpec DnsMsgFacts ReqModel ReqTheorems ResourceModel ResourceTheorems DnssecModel DnssecTheorems AnswerModel AnswerTheorems.

(** ** Specification *)
(** Records of data that ends early: a server without a name, strings that were not read *)
Definition nameless (r : record) : Prop := r = RNs [] \/ (exists ip, r = RGlue4 [] ip) \/ (exists ip, r = RGlue6 [] ip).
Definition unread (r : record) : Prop := exists l t, r = RTxt l /\ In t l /\ forall b, t <> Good b.
(** Answers that do not list the servers *)
Definition keys_only (rs : list record) (ls : list (list Z)) (type : Z) : Prop := zlen ls = 1 /\ type = 43 /\ exists tag alg dt g, In (RDs tag alg dt g) rs.
Definition strings_only (rs : list record) (ls : list (list Z)) (type : Z) : Prop := zlen ls = 1 /\ type = 16 /\ exists l, In (RTxt l) rs.

(** ** Lemmas *)
Definition repair (r : record) : record :=
  match r with
  | RNs [] => RNs [46]
  | RGlue4 [] ip => RGlue4 [46] ip
  | RGlue6 [] ip => RGlue6 [46] ip
  | RTxt l => RTxt (map (fun t => match t with Good b => Good b | _ => Good [] end) l)
  | r => r
  end.
Lemma repaired r : record_left r -> record_fine (repair r).
Proof.
  intros H. destruct r as [tag alg dt g|n|n ip|n ip|ip|ip|l]; cbn [repair].
  - split; [exact H|exact I].
  - destruct n; (split; [|discriminate]); [right; exact root_valid|exact H].
  - destruct n; (split; [|discriminate]); [split; [right; exact root_valid|apply H]|exact H].
  - destruct n; (split; [|discriminate]); [split; [right; exact root_valid|apply H]|exact H].
  - split; [exact H|exact I].
  - split; [exact H|exact I].
  - destruct H as [L F]. split.
    + cbn [record_left]. split; [rewrite zlen_map; exact L|]. apply Forall_forall. intros t I. apply in_map_iff in I as (u & <- & I). rewrite Forall_forall in F. specialize (F u I). destruct u; [exact F|split; [constructor|discriminate]..].
    + intros t I. apply in_map_iff in I as (u & <- & _). destruct u; eauto.
Qed.
Lemma unread_dec r : {unread r} + {~ unread r}.
Proof.
  destruct r as [tag alg dt g|n|n ip|n ip|ip|ip|l]; try (right; intros (l' & t & E & _); discriminate). destruct (existsb (fun t => match t with Good _ => false | _ => true end) l) eqn:E.
  - left. apply existsb_exists in E as (t & I & E). exists l, t. split; [reflexivity|]. split; [exact I|]. destruct t; [discriminate|discriminate|discriminate].
  - right. intros (l' & t & X & I & N). injection X as <-. assert (K : existsb (fun t => match t with Good _ => false | _ => true end) l = true); [|congruence]. apply existsb_exists. exists t. split; [exact I|]. destruct t; [exfalso; now apply (N b)|reflexivity..].
Qed.
Lemma nameless_dec r : {nameless r} + {~ nameless r}.
Proof.
  destruct r as [tag alg dt g|n|n ip|n ip|ip|ip|l]; try (right; intros [E|[(i & E)|(i & E)]]; discriminate).
  - destruct n as [|x n]; [left; now left|right; intros [E|[(i & E)|(i & E)]]; discriminate].
  - destruct n as [|x n]; [left; right; left; eauto|right; intros [E|[(i & E)|(i & E)]]; discriminate].
  - destruct n as [|x n]; [left; right; right; eauto|right; intros [E|[(i & E)|(i & E)]]; discriminate].
Qed.
Lemma some_dec (P : record -> Prop) (D : forall r, {P r} + {~ P r}) rs : {exists r, In r rs /\ P r} + {forall r, In r rs -> ~ P r}.
Proof.
  induction rs as [|r rs [E|N]]; [right; intros r []|left; destruct E as (x & I & H); exists x; split; [now right|exact H]|]. destruct (D r) as [H|H]; [left; exists r; split; [now left|exact H]|right; intros x [<-|I]; auto].
Qed.
Lemma fine_left r : record_left r -> ~ nameless r -> ~ unread r -> record_fine r.
Proof.
  intros H N U. split; [exact H|]. destruct r as [tag alg dt g|n|n ip|n ip|ip|ip|l]; auto; try (intros ->; apply N; unfold nameless; eauto).
  intros t I. destruct t as [b| |]; [eauto| |]; exfalso; apply U; eexists; eexists; (split; [reflexivity|]); (split; [exact I|discriminate]).
Qed.
Lemma ds_repair rs name : forall an, to_ds (map repair rs) name an = to_ds rs name an.
Proof. induction rs as [|r rs IH]; intros an; [reflexivity|]. destruct r as [tag alg dt g|[|x n]|[|x n] ip|[|x n] ip|ip|ip|l]; cbn [map repair to_ds]; apply IH. Qed.
Lemma text_repair l : (forall t, In t l -> exists b, t = Good b) -> map (fun t => match t with Good b => Good b | _ => Good [] end) l = l.
Proof. induction l as [|t l IH]; intros H; [reflexivity|]. cbn [map]. rewrite IH by (intros u I; apply H; now right). destruct (H t (or_introl eq_refl)) as [b ->]. reflexivity. Qed.
Lemma read_all r l : r = RTxt l -> ~ unread r -> forall t, In t l -> exists b, t = Good b.
Proof. intros -> U t I. destruct t as [b| |]; [eauto| |]; exfalso; apply U; eexists; eexists; (split; [reflexivity|]); (split; [exact I|discriminate]). Qed.
Lemma txt_repair rs name : (forall r, In r rs -> ~ unread r) -> forall an, to_txt (map repair rs) name an = to_txt rs name an.
Proof.
  intros U. induction rs as [|r rs IH]; intros an; [reflexivity|]. assert (IH' := IH (fun x I => U x (or_intror I))). assert (Ur := U r (or_introl eq_refl)). destruct r as [tag alg dt g|[|x n]|[|x n] ip|[|x n] ip|ip|ip|l]; cbn [map repair to_txt]; try apply IH'.
  rewrite text_repair by now apply (read_all _ _ eq_refl). destruct (copy_txts l); cbn [obind]; auto.
Qed.
Lemma made_repair (P : record -> rr -> Prop) rs : forall out, (forall r x, In r rs -> P (repair r) x <-> P r x) -> made P (map repair rs) out -> made P rs out.
Proof.
  induction rs as [|r rs IH]; intros out H M; cbn [map] in M; inversion M; subst; [constructor| |].
  - apply m_some; [apply H; [now left|assumption]|]. apply IH; auto. intros r' x' I. apply H. now right.
  - apply m_none; [intros x X; apply (H r x (or_introl eq_refl)) in X; now apply (H2 x)|]. apply IH; auto. intros r' x' I. apply H. now right.
Qed.
Lemma ns_aborts rs name : Forall record_left rs -> (exists r, In r rs /\ nameless r) -> forall an, to_ns rs name an = Abort.
Proof.
  intros F. induction F as [|r rs Hr F IH]; intros (x & I & N) an; [destruct I|]. destruct (nameless_dec r) as [Nr|Nr].
  - destruct Nr as [->|[(ip & ->)|(ip & ->)]]; reflexivity.
  - assert (Rest : exists r, In r rs /\ nameless r) by (destruct I as [->|I]; [contradiction|exists x; auto]). specialize (IH Rest). cbn [to_ns].
    assert (Fq : forall n, name_left n -> n <> [] -> name_is_fqdn n = true) by (intros n Hn Nn; destruct (name_fine n Hn Nn) as (ls & _ & ->); apply dotted_end).
    destruct r as [tag alg dt g|n|n ip|n ip|ip|ip|l]; cbn [record_left] in Hr; try apply IH.
    + rewrite Fq; [apply IH|exact Hr|]. intros ->. apply Nr. now left.
    + rewrite Fq; [apply IH|apply Hr|]. intros ->. apply Nr. right. left. eauto.
    + rewrite Fq; [apply IH|apply Hr|]. intros ->. apply Nr. right. right. eauto.
    + destruct Hr as [B L]. destruct (synth_text_ok ip 4 B L) as (b & _ & E & _); [lia|]. rewrite E. apply IH.
    + destruct Hr as [B L]. destruct (synth_text_ok ip 16 B L) as (b & _ & E & _); [lia|]. rewrite E. apply IH.
Qed.
Lemma copy_unread l : Forall string_left l -> (exists t, In t l /\ forall b, t <> Good b) -> copy_txts l = Ub.
Proof.
  induction 1 as [|t l Ht F IH]; intros (x & I & N); [destruct I|]. cbn [copy_txts]. destruct t as [b| |]; auto. destruct Ht as [_ Lb]. replace (255 <? zlen b) with false by lia. rewrite IH; [reflexivity|]. destruct I as [<-|I]; [exfalso; now apply (N b)|eauto].
Qed.
Lemma copy_read l : Forall string_left l -> (forall t, In t l -> exists b, t = Good b) -> exists r, copy_txts l = Ok r.
Proof.
  induction 1 as [|t l Ht F IH]; intros G; [eexists; reflexivity|]. destruct (G t (or_introl eq_refl)) as [b ->]. destruct Ht as [_ Lb]. destruct IH as (r & E); [intros u I; apply G; now right|]. cbn [copy_txts]. replace (255 <? zlen b) with false by lia. rewrite E. eexists. reflexivity.
Qed.
Lemma txt_breaks rs name : Forall record_left rs -> (exists r, In r rs /\ unread r) -> forall an, to_txt rs name an = Ub.
Proof.
  intros F. induction F as [|r rs Hr F IH]; intros (x & I & N) an; [destruct I|]. destruct (unread_dec r) as [Nr|Nr].
  - destruct Nr as (l & t & -> & It & Nt). cbn [to_txt]. destruct Hr as [_ Hs]. rewrite copy_unread; [reflexivity|exact Hs|eauto].
  - assert (Rest : exists r, In r rs /\ unread r) by (destruct I as [->|I]; [contradiction|exists x; auto]). specialize (IH Rest). destruct r as [tag alg dt g|n|n ip|n ip|ip|ip|l]; cbn [to_txt]; auto.
    destruct Hr as [_ Hs]. destruct (copy_read l Hs (read_all _ _ eq_refl Nr)) as (c & E). rewrite E. apply IH.
Qed.
Lemma nameless_served rs : (exists r, In r rs /\ nameless r) -> has_ns rs = true.
Proof. intros (r & I & N). apply existsb_exists. exists r. split; [exact I|]. destruct N as [->|[(ip & ->)|(ip & ->)]]; reflexivity. Qed.
Lemma signed_none s now type : sec_ok s -> sign_zsk s now [] type = Ok [].
Proof. intros HS. apply (signs_nothing s now type [] HS). now left. Qed.

Definition kept_names (rs : list record) : Prop := forall r, In r rs -> ~ nameless r.
Lemma repair_named r : ~ nameless r -> repair r = match r with RTxt l => RTxt (map (fun t => match t with Good b => Good b | _ => Good [] end) l) | r => r end.
Proof. intros N. destruct r as [tag alg dt g|[|c n]|[|c n] ip|[|c n] ip|ip|ip|l]; try reflexivity; exfalso; apply N; unfold nameless; eauto. Qed.
Lemma ns_repair rs name : kept_names rs -> forall an, to_ns (map repair rs) name an = to_ns rs name an.
Proof.
  intros K. induction rs as [|r rs IH]; intros an; [reflexivity|]. assert (IH' := IH (fun x I => K x (or_intror I))). cbn [map]. rewrite repair_named by (apply K; now left). destruct r as [tag alg dt g|n|n ip|n ip|ip|ip|l]; cbn [to_ns]; rewrite ?IH'; try reflexivity.
  all: destruct (synth_text ip); cbn [obind]; rewrite ?IH'; reflexivity.
Qed.
Lemma glue_repair rs name : kept_names rs -> forall an, to_glue (map repair rs) name an = to_glue rs name an.
Proof.
  intros K. induction rs as [|r rs IH]; intros an; [reflexivity|]. assert (IH' := IH (fun x I => K x (or_intror I))). cbn [map]. rewrite repair_named by (apply K; now left). destruct r as [tag alg dt g|n|n ip|n ip|ip|ip|l]; cbn [to_glue]; rewrite ?IH'; try reflexivity.
  1, 2: destruct (is_subdomain name n); cbn [obind]; rewrite ?IH'; reflexivity.
  all: destruct (synth_text ip); cbn [obind]; rewrite ?IH'; reflexivity.
Qed.
Lemma has_repair (P : record -> bool) rs : (forall r, P (repair r) = P r) -> existsb P (map repair rs) = existsb P rs.
Proof. intros H. induction rs as [|r rs IH]; [reflexivity|]. cbn [map existsb]. now rewrite H, IH. Qed.
Lemma txt_none rs name : (forall l, ~ In (RTxt l) rs) -> forall an, to_txt rs name an = Ok an.
Proof. intros K. induction rs as [|r rs IH]; intros an; [reflexivity|]. assert (IH' := IH (fun a I => K a (or_intror I))). destruct r as [tag alg dt g|n|n ip|n ip|ip|ip|l]; cbn [to_txt]; auto. exfalso. exact (K l (or_introl eq_refl)). Qed.

(** ** Theorem *)
(** Strings that were not read are not copied, a server without a name is not listed: the
    process ends when it comes to them. In every other case there is the answer of C37. *)
Theorem any_resource_answered s now rs ls type : sec_ok s -> Forall record_left rs -> zlen rs <= 255 -> pname ls -> ls <> [] ->
  let r := to_dns s now rs (dotted ls) type in
  (strings_only rs ls type -> (exists r, In r rs /\ unread r) -> r = Ub) /\
  (~ strings_only rs ls type -> ~ keys_only rs ls type -> (exists r, In r rs /\ nameless r) -> r = Abort) /\
  ((strings_only rs ls type /\ (forall r, In r rs -> ~ unread r)) \/ keys_only rs ls type \/ (~ strings_only rs ls type /\ forall r, In r rs -> ~ nameless r) ->
     exists m, r = Ok (Some m) /\ answered s now rs ls type m /\ answer_ok m).
Proof.
  intros HS F L H N r. unfold r. clear r. destruct (top_name ls H N) as (Vn & owner & Cl & L64). assert (TF := top_from ls H N). assert (OL := one_label ls H). pose proof (zlen_nonneg ls).
  assert (Z0 : (zlen ls =? 0) = false) by (destruct ls; [congruence|]; rewrite zlen_cons; pose proof (zlen_nonneg ls); lia). assert (L6 : (64 <? zlen (dotted [last ls []])) = false) by lia.
  assert (Start : forall rs, to_dns s now rs (dotted ls) type = if 1 <? zlen ls then obind (referral s now rs (dotted [last ls []]) [] []) (fun '(ns, ar) => Ok (Some (build 0 0 [] ns ar)))
    else obind (if type =? 43 then obind (sign_zsk s now (to_ds rs (dotted [last ls []]) []) 43) (fun an => Ok (an, [], []))
           else if type =? 2 then obind (to_ns rs (dotted [last ls []]) []) (fun ns => obind (to_glue rs (dotted [last ls []]) []) (fun ar => obind (sign_zsk s now ns 2) (fun ns => Ok ([], ns, ar))))
           else if type =? 16 then obind (to_txt rs (dotted [last ls []]) []) (fun an => obind (sign_zsk s now an 16) (fun an => Ok (an, [], [])))
           else Ok ([], [], [])) (fun '(an, ns, ar) =>
    let flags := if 0 <? zlen an then Z.shiftl 1 10 else 0 in
    if (zlen an =? 0) && (zlen ns =? 0) then obind (referral s now rs (dotted [last ls []]) ns ar) (fun '(ns, ar) => Ok (Some (build 0 flags an ns ar)))
    else Ok (Some (build 0 flags an ns ar)))).
  { intros rs0. unfold to_dns. rewrite dotted_end, label_count_dotted, Z0, TF by auto. cbn [negb obind]. rewrite L6. destruct (Z.ltb_spec 1 (zlen ls)) as [G|G]; [reflexivity|]. rewrite OL by lia. reflexivity. }
  set (name := dotted [last ls []]) in *.
  assert (Ra : forall ns ar, (exists r, In r rs /\ nameless r) -> referral s now rs name ns ar = Abort) by (intros ns ar X; unfold referral; rewrite (nameless_served rs X), (ns_aborts rs name F X); reflexivity).
  assert (Fr : Forall record_fine (map repair rs)) by (apply Forall_forall; intros x I; apply in_map_iff in I as (y & <- & I); apply repaired; rewrite Forall_forall in F; auto).
  assert (Lr : zlen (map repair rs) <= 255) by (rewrite zlen_map; exact L).
  destruct (resource_answered_partial s now (map repair rs) ls type HS Fr Lr H N) as (m & Em & Am & Om).
  assert (D43 : forall o, (exists r x, In r (map repair rs) /\ signer o r x) <-> exists tag alg dt g, In (RDs tag alg dt g) rs).
  { intros o. split.
    - intros (r & x & I & Sx). apply in_map_iff in I as (y & E & I). destruct Sx. destruct y as [tag' alg' dt' g'|[|c n]|[|c n] ip|[|c n] ip|ip|ip|l]; cbn [repair] in E; try discriminate. injection E as <- <- <- <-. eauto.
    - intros (tag & alg & dt & g & I). exists (RDs tag alg dt g). eexists. split; [apply in_map_iff; exists (RDs tag alg dt g); split; [reflexivity|exact I]|constructor]. }
  split; [|split].
  - intros (L1 & -> & l & I) U. rewrite Start. replace (1 <? zlen ls) with false by lia. change (16 =? 43) with false. change (16 =? 2) with false. change (16 =? 16) with true. cbv iota. rewrite (txt_breaks rs name F U). reflexivity.
  - intros Ns Nk X. rewrite Start. destruct (Z.ltb_spec 1 (zlen ls)) as [G|G]; [now rewrite Ra|]. destruct (Z.eqb_spec type 43) as [->|T43]; [|destruct (Z.eqb_spec type 2) as [->|T2]; [now rewrite (ns_aborts rs name F X)|destruct (Z.eqb_spec type 16) as [->|T16]]].
    + assert (E : to_ds rs name [] = []). { clear - Nk G Z0 H0. assert (K : forall tag alg dt g, ~ In (RDs tag alg dt g) rs) by (intros tag alg dt g I; apply Nk; split; [lia|]; split; [reflexivity|]; eauto). clear Nk. induction rs as [|r rs IH]; [reflexivity|]. assert (IH' := IH (fun a b c d I => K a b c d (or_intror I))). destruct r as [tag alg dt g|n|n ip|n ip|ip|ip|l]; cbn [to_ds]; auto. exfalso. exact (K tag alg dt g (or_introl eq_refl)). }
      rewrite E, signed_none by exact HS. cbn [obind]. change (zlen (@nil rr)) with 0. change (0 =? 0) with true. cbn [andb]. now rewrite Ra.
    + assert (E : to_txt rs name [] = Ok []). { clear - Ns G Z0 H0. assert (K : forall l, ~ In (RTxt l) rs) by (intros l I; apply Ns; split; [lia|]; split; [reflexivity|]; eauto). clear Ns. induction rs as [|r rs IH]; [reflexivity|]. assert (IH' := IH (fun a I => K a (or_intror I))). destruct r as [tag alg dt g|n|n ip|n ip|ip|ip|l]; cbn [to_txt]; auto. exfalso. exact (K l (or_introl eq_refl)). }
      rewrite E. cbn [obind]. rewrite signed_none by exact HS. cbn [obind]. change (zlen (@nil rr)) with 0. change (0 =? 0) with true. cbn [andb]. now rewrite Ra.
    + cbn [obind]. change (zlen (@nil rr)) with 0. change (0 =? 0) with true. cbn [andb]. now rewrite Ra.
  - intros [[So U]|[Ko|[Ns Nn]]].
    + exists m. destruct So as (L1 & -> & l & I). assert (Sx : forall o r x, In r rs -> strings o (repair r) x <-> strings o r x).
      { intros o r x Ir. destruct r as [tag alg dt g|[|c n]|[|c n] ip|[|c n] ip|ip|ip|l']; cbn [repair]; try solve [split; intros X; inversion X]. rewrite text_repair by (apply (read_all (RTxt l') l' eq_refl); auto). reflexivity. }
      destruct Am as (o & Sh & Am). cbv zeta in Am. destruct Am as (C & Op & Q & A43 & A16 & A2 & _).
      assert (Dx : exists r x, In r (map repair rs) /\ strings o r x).
      { assert (G : exists ts, l = map Good ts). { assert (Gl := read_all (RTxt l) l eq_refl (U _ I)). clear - Gl. induction l as [|t l IH]; [exists []; reflexivity|]. destruct (Gl t (or_introl eq_refl)) as [b ->]. destruct IH as [ts ->]; [intros u Iu; apply Gl; now right|]. exists (b :: ts). reflexivity. }
        destruct G as [ts ->]. exists (repair (RTxt (map Good ts))). eexists. split; [now apply in_map|]. apply Sx; [exact I|constructor]. }
      destruct A16 as (Fl & Ens & Ear & l' & M & Sg); [auto|]. split.
      * rewrite <- Em, !Start. replace (1 <? zlen ls) with false by lia. change (16 =? 43) with false. change (16 =? 2) with false. change (16 =? 16) with true. cbv iota. rewrite txt_repair by exact U.
        destruct (to_txt rs name []) as [an| | |] eqn:Et; cbn [obind]; try reflexivity. destruct (sign_zsk s now an 16) as [an'| | |] eqn:Esn; cbn [obind]; try reflexivity. cbv zeta. destruct an' as [|z an']; [exfalso|rewrite zlen_cons; pose proof (zlen_nonneg an'); replace (1 + zlen an' =? 0) with false by lia; reflexivity].
        (* an empty answer is not signed strings *)
        rewrite Start in Em. replace (1 <? zlen ls) with false in Em by lia. change (16 =? 43) with false in Em. change (16 =? 2) with false in Em. change (16 =? 16) with true in Em. cbv iota in Em. rewrite txt_repair, Et in Em by exact U. cbn [obind] in Em. rewrite Esn in Em. cbn [obind] in Em. cbv zeta in Em. change (zlen (@nil rr)) with 0 in Em. change (0 <? 0) with false in Em. cbv iota in Em.
        change (0 =? 0) with true in Em. cbn [andb] in Em. destruct (referral s now (map repair rs) name [] []) as [[ns ar]| | |]; cbn [obind] in Em; try discriminate. apply Ok_inj, some_inj in Em. subst m. cbn in Fl. discriminate.
      * split; [|exact Om]. exists o. split; [exact Sh|]. cbv zeta. split; [exact C|]. split; [exact Op|]. split; [exact Q|]. split; [intros (_ & X & _); discriminate X|].
        split; [intros _; repeat (split; [assumption|]); exists l'; split; [apply made_repair; [intros; now apply Sx|exact M]|exact Sg]|]. split; [intros (_ & X & _); discriminate X|]. intros _ X _. exfalso. apply X. split; [exact L1|]. split; [reflexivity|].
        destruct Dx as (r & x & Ir & Hx). apply in_map_iff in Ir as (y & <- & Iy). exists y, x. split; [exact Iy|]. now apply Sx.
    + exists m. destruct Ko as (L1 & -> & K). assert (Sx : forall o r x, In r rs -> signer o (repair r) x <-> signer o r x).
      { intros o r x Ir. destruct r as [tag alg dt g|[|c n]|[|c n] ip|[|c n] ip|ip|ip|l']; cbn [repair]; solve [split; intros X; try exact X; inversion X]. }
      destruct Am as (o & Sh & Am). cbv zeta in Am. destruct Am as (C & Op & Q & A43 & A16 & A2 & _). assert (Dx := proj2 (D43 o) K). destruct A43 as (Fl & Ens & Ear & l' & M & Sg); [auto|]. split.
      * rewrite <- Em, !Start. replace (1 <? zlen ls) with false by lia. change (43 =? 43) with true. cbv iota. rewrite ds_repair. destruct (sign_zsk s now (to_ds rs name []) 43) as [an'| | |] eqn:Esn; cbn [obind]; try reflexivity. cbv zeta. destruct an' as [|z an']; [exfalso|rewrite zlen_cons; pose proof (zlen_nonneg an'); replace (1 + zlen an' =? 0) with false by lia; reflexivity].
        rewrite Start in Em. replace (1 <? zlen ls) with false in Em by lia. change (43 =? 43) with true in Em. cbv iota in Em. rewrite ds_repair, Esn in Em. cbn [obind] in Em. cbv zeta in Em. change (zlen (@nil rr)) with 0 in Em. change (0 <? 0) with false in Em. cbv iota in Em.
        change (0 =? 0) with true in Em. cbn [andb] in Em. destruct (referral s now (map repair rs) name [] []) as [[ns ar]| | |]; cbn [obind] in Em; try discriminate. apply Ok_inj, some_inj in Em. subst m. cbn in Fl. discriminate.
      * split; [|exact Om]. exists o. split; [exact Sh|]. cbv zeta. split; [exact C|]. split; [exact Op|]. split; [exact Q|].
        split; [intros _; repeat (split; [assumption|]); exists l'; split; [apply made_repair; [intros; now apply Sx|exact M]|exact Sg]|]. split; [intros (_ & X & _); discriminate X|]. split; [intros (_ & X & _); discriminate X|]. intros X _ _. exfalso. apply X. split; [exact L1|]. split; [reflexivity|].
        destruct Dx as (r & x & Ir & Hx). apply in_map_iff in Ir as (y & <- & Iy). exists y, x. split; [exact Iy|]. now apply Sx.
    + exists m.
      assert (Sg : forall o r x, In r rs -> signer o (repair r) x <-> signer o r x) by (intros o r x Ir; rewrite repair_named by auto; destruct r; try reflexivity; split; intros X; inversion X).
      assert (Sv : forall o r x, In r rs -> server o (repair r) x <-> server o r x) by (intros o r x Ir; rewrite repair_named by auto; destruct r; try reflexivity; split; intros X; inversion X).
      assert (Sa : forall o r x, In r rs -> address o (repair r) x <-> address o r x) by (intros o r x Ir; rewrite repair_named by auto; destruct r; try reflexivity; split; intros X; inversion X).
      assert (Any : forall (P : record -> rr -> Prop), (forall r x, In r rs -> P (repair r) x <-> P r x) -> (exists r x, In r (map repair rs) /\ P r x) <-> exists r x, In r rs /\ P r x).
      { intros P HP. split; [intros (r & x & I & X); apply in_map_iff in I as (y & <- & I); exists y, x; split; [exact I|now apply HP]|intros (r & x & I & X); exists (repair r), x; split; [now apply in_map|now apply HP]]. }
      split.
      * assert (Er : forall ns ar, referral s now (map repair rs) name ns ar = referral s now rs name ns ar).
        { intros ns ar. unfold referral. replace (has_ns (map repair rs)) with (has_ns rs) by (symmetry; apply has_repair; intros [tag alg dt g|[|c n]|[|c n] ip|[|c n] ip|ip|ip|l]; reflexivity). replace (has 0 (map repair rs)) with (has 0 rs) by (symmetry; apply has_repair; intros [tag alg dt g|[|c n]|[|c n] ip|[|c n] ip|ip|ip|l]; reflexivity).
          rewrite ns_repair by exact Nn. destruct (has_ns rs); [|reflexivity]. destruct (to_ns rs name ns); cbn [obind]; try reflexivity. rewrite ds_repair, glue_repair by exact Nn. reflexivity. }
        rewrite <- Em, !Start. rewrite Er. destruct (Z.ltb_spec 1 (zlen ls)) as [G|G]; [reflexivity|]. rewrite ds_repair, ns_repair, glue_repair by exact Nn.
        replace (if type =? 16 then obind (to_txt (map repair rs) name []) (fun an => obind (sign_zsk s now an 16) (fun an => Ok (an, [], []))) else Ok ([], [], [])) with (if type =? 16 then obind (to_txt rs name []) (fun an => obind (sign_zsk s now an 16) (fun an => Ok (an, [], []))) else Ok ([], @nil rr, @nil rr)).
        2:{ destruct (Z.eqb_spec type 16) as [->|_]; [|reflexivity]. assert (K : forall l, ~ In (RTxt l) rs) by (intros l I; apply Ns; split; [lia|]; split; [reflexivity|]; eauto). assert (K' : forall l, ~ In (RTxt l) (map repair rs)) by (intros l I; apply in_map_iff in I as (y & E & I); destruct y as [tag alg dt g|[|c n]|[|c n] ip|[|c n] ip|ip|ip|l']; try discriminate; now apply (K l')). rewrite (txt_none _ _ K), (txt_none _ _ K'). reflexivity. }
        match goal with |- obind ?a ?f = obind ?b ?g => destruct a as [[[an ns] ar]| | |]; cbn [obind]; try reflexivity end. cbv zeta. rewrite Er. reflexivity.
      * split; [|exact Om]. destruct Am as (o & Sh & Am). exists o. split; [exact Sh|]. cbv zeta in *. destruct Am as (C & Op & Q & A43 & A16 & A2 & A). split; [exact C|]. split; [exact Op|]. split; [exact Q|].
        assert (M1 := fun l => made_repair (signer o) rs l (Sg o)). assert (M2 := fun l => made_repair (server o) rs l (Sv o)). assert (M3 := fun l => made_repair (address (last ls [])) rs l (Sa (last ls []))). assert (D1 := Any (signer o) (Sg o)). assert (D2 := Any (server o) (Sv o)).
        assert (No : ~ (zlen ls = 1 /\ type = 16 /\ exists r x, In r rs /\ strings o r x)) by (intros (L1 & T & r & x & I & X); apply Ns; destruct X; split; [exact L1|]; split; [exact T|]; eauto).
        assert (No' : ~ (zlen ls = 1 /\ type = 16 /\ exists r x, In r (map repair rs) /\ strings o r x)).
        { intros (L1 & T & r & x & I & X). apply in_map_iff in I as (y & E & I). apply Ns. destruct X. destruct y as [tag alg dt g|[|c n]|[|c n] ip|[|c n] ip|ip|ip|l']; try discriminate. split; [exact L1|]. split; [exact T|]. eauto. }
        split; [intros X; rewrite D1 in A43; destruct A43 as (a & b & c & l & M & S'); [exact X|]; repeat (split; [assumption|]); exists l; auto|].
        split; [intros X; contradiction|].
        split; [intros X; rewrite D2 in A2; destruct A2 as (a & b & c & l & M & S'); [exact X|]; split; [exact a|]; split; [exact b|]; split; [auto|]; exists l; auto|].
        intros X1 _ X3. rewrite D1, D2 in A. destruct (A X1 No' X3) as (a & b & c & d). split; [exact a|]. split; [exact b|]. split; [|exact d]. intros Y. destruct (c Y) as (e & l1 & l2 & f & g & h). split; [auto|]. exists l1, l2. auto.
Qed.
(** All cases are covered, and each is met. *)
Theorem cases_covered rs ls type : let hurt := (exists r, In r rs /\ unread r) in let cut := (exists r, In r rs /\ nameless r) in
  (strings_only rs ls type /\ hurt) \/ (~ strings_only rs ls type /\ ~ keys_only rs ls type /\ cut) \/
  ((strings_only rs ls type /\ (forall r, In r rs -> ~ unread r)) \/ keys_only rs ls type \/ (~ strings_only rs ls type /\ forall r, In r rs -> ~ nameless r)).
Proof.
  assert (Dk : {keys_only rs ls type} + {~ keys_only rs ls type}).
  { unfold keys_only. destruct (Z.eq_dec (zlen ls) 1) as [L|L]; [|right; tauto]. destruct (Z.eq_dec type 43) as [T|T]; [|right; tauto]. destruct (some_dec (fun r => match r with RDs _ _ _ _ => True | _ => False end)) with (rs := rs) as [E|E]; [intros []; auto|left|right].
    - destruct E as (r & I & X). destruct r; try contradiction. split; [exact L|]. split; [exact T|]. eauto.
    - intros (_ & _ & tag & alg & dt & g & I). exact (E _ I Logic.I). }
  assert (Ds : {strings_only rs ls type} + {~ strings_only rs ls type}).
  { unfold strings_only. destruct (Z.eq_dec (zlen ls) 1) as [L|L]; [|right; tauto]. destruct (Z.eq_dec type 16) as [T|T]; [|right; tauto]. destruct (some_dec (fun r => match r with RTxt _ => True | _ => False end)) with (rs := rs) as [E|E]; [intros []; auto|left|right].
    - destruct E as (r & I & X). destruct r; try contradiction. split; [exact L|]. split; [exact T|]. eauto.
    - intros (_ & _ & l & I). exact (E _ I Logic.I). }
  intros hurt cut. subst hurt cut. destruct (some_dec unread unread_dec rs), (some_dec nameless nameless_dec rs), Dk, Ds; tauto.
Qed.
Example cut_left : Forall record_left [RDs 1 2 3 [4]; RNs []; RTxt [Freed]].
Proof. constructor; [|constructor; [left; reflexivity|constructor; [|constructor]]]; cbn [record_left]; repeat split; try (apply bytes_ok_check; reflexivity); try (vm_compute; discriminate); try (repeat constructor; cbn; auto); vm_compute; congruence. Qed.
Example cut_cases : let now := 1700000000 in let rs := [RDs 1 2 3 [4]; RNs []; RTxt [Freed]] in let name := dotted [[97]] in
  to_dns toy_sec now rs name 16 = Ub /\ to_dns toy_sec now rs name 1 = Abort /\ exists m, to_dns toy_sec now rs name 43 = Ok (Some m) /\ zlen (m_an m) = 2.
Proof. split; [reflexivity|]. split; [reflexivity|]. eexists. split; [vm_compute; reflexivity|reflexivity]. Qed.
Print Assumptions any_resource_answered.
Print Assumptions cases_covered.
