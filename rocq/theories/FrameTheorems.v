(** C42: framing of peer messages. *)
From Verif Require Import Common CommonFacts BioModel BioFacts ProofModel ProofFacts MsgModel MsgTheorems FrameModel.

(** * Specification: what the bytes of a connection mean *)
Section Spec.
Variable magic : Z.
Variable St : Type.
Variable destroy : St -> St.
Variable handle : St -> msg -> outcome (Z * St).

(** What has become of a connection: open, with the bytes of an incomplete frame not
    yet acted on; closed; or the program has crashed. *)
Inductive fate := Waiting (s : St) (rest : list Z) | Closed (s : St) | Crashed.

(** The 9 bytes of a frame header. *)
Definition frame_header (cmd size : Z) : list Z := le_bytes 4 magic ++ [cmd] ++ le_bytes 4 size.
Definition commands : list Z := [0; 1; 2; 3; 4; 5; 10; 11; 12; 26; 27].
(** A payload holds a message if it begins with its wire form. *)
Definition holds (cmd : Z) (payload : list Z) (m : msg) : Prop :=
  exists w r, payload = w ++ r /\ wire m w /\ msg_cmd m = cmd.

(** What the payload of a complete frame does: continue in a state, or end. *)
Inductive action := Next (s : St) | Stop (f : fate).
Inductive act (s : St) (cmd : Z) (p : list Z) : action -> Prop :=
(* unknown command: skipped *)
| act_skip : ~ In cmd commands -> act s cmd p (Next s)
(* payload that holds no message *)
| act_malformed : In cmd commands -> (p <> [] \/ ~ In cmd [5; 10; 11]) -> (forall m, ~ holds cmd p m) ->
    act s cmd p (Stop (Closed (destroy s)))
(* message: handled once *)
| act_msg m s' : holds cmd p m -> handle s m = Ok (0, s') -> act s cmd p (Next s')
| act_reject m rc s' : holds cmd p m -> handle s m = Ok (rc, s') -> rc <> 0 -> act s cmd p (Stop (Closed (destroy s')))
(* crashes: an empty payload for a command with a list (see empty_payload_refuted),
   or a crash of the handler *)
| act_empty : In cmd [5; 10; 11] -> p = [] -> act s cmd p (Stop Crashed)
| act_crash m : holds cmd p m -> (forall x, handle s m <> Ok x) -> act s cmd p (Stop Crashed).

Inductive run : St -> list Z -> fate -> Prop :=
(* fewer than 9 bytes *)
| run_short s d : zlen d < 9 -> run s d (Waiting s d)
(* 9 bytes that are not a header with the right magic and an admissible size *)
| run_bad s d : 9 <= zlen d -> (forall cmd size r, 0 <= size <= 8000000 -> d <> frame_header cmd size ++ r) ->
    run s d (Closed (destroy s))
(* payload incomplete *)
| run_partial s cmd size p : is_byte cmd -> 0 <= size <= 8000000 -> zlen p < size ->
    run s (frame_header cmd size ++ p) (Waiting s (frame_header cmd size ++ p))
(* complete frame *)
| run_next s s' cmd p r f : is_byte cmd -> zlen p <= 8000000 -> act s cmd p (Next s') -> run s' r f ->
    run s (frame_header cmd (zlen p) ++ p ++ r) f
| run_stop s cmd p r f : is_byte cmd -> zlen p <= 8000000 -> act s cmd p (Stop f) ->
    run s (frame_header cmd (zlen p) ++ p ++ r) f.
End Spec.
Arguments Waiting {St}. Arguments Closed {St}. Arguments Crashed {St}. Arguments Next {St}. Arguments Stop {St}.

Section Proofs.
Variable magic : Z.
Variable St : Type.
Variable alive : St -> bool.
Variable destroy : St -> St.
Variable handle : St -> msg -> outcome (Z * St).
Hypothesis magic_ok : 0 <= magic < 2 ^ 32.
Hypothesis destroy_dead : forall s, alive (destroy s) = false.
Hypothesis handle_alive : forall s m s', alive s = true -> handle s m = Ok (0, s') -> alive s' = true.

Notation run := (run magic St destroy handle).
Notation act := (act St destroy handle).
Notation hdr9 := (frame_header magic).

Lemma hdr9_len cmd size : length (hdr9 cmd size) = 9%nat.
Proof. unfold frame_header. rewrite !app_length, !le_bytes_length. reflexivity. Qed.
Lemma hdr9_zlen cmd size : zlen (hdr9 cmd size) = 9.
Proof. unfold zlen. rewrite hdr9_len. reflexivity. Qed.
Lemma le4_inj a b : 0 <= a < 2 ^ 32 -> 0 <= b < 2 ^ 32 -> le_bytes 4 a = le_bytes 4 b -> a = b.
Proof. intros Ha Hb E. rewrite <- (le_val_le_bytes 4 a), <- (le_val_le_bytes 4 b) by (cbn; lia). now rewrite E. Qed.
Lemma hdr9_inj c1 s1 r1 c2 s2 r2 : 0 <= s1 <= 8000000 -> 0 <= s2 <= 8000000 ->
  hdr9 c1 s1 ++ r1 = hdr9 c2 s2 ++ r2 -> c1 = c2 /\ s1 = s2 /\ r1 = r2.
Proof.
  intros H1 H2 E. apply app_inj_len in E as [E ->]; [|now rewrite !hdr9_len]. unfold frame_header in E.
  apply app_inv_head in E. pose proof (f_equal (hd 0) E) as E1. cbn [app hd] in E1. apply (f_equal (@tl Z)) in E. cbn [app tl] in E.
  apply le4_inj in E; auto; lia.
Qed.

(** The pending bytes a framing state stands for. *)
Definition pending (f : fr) : list Z := if f_hdr f then hdr9 (f_cmd f) (f_len f) ++ f_buf f else f_buf f.
Definition fr_ok (f : fr) : Prop :=
  if f_hdr f then is_byte (f_cmd f) /\ 0 <= f_len f <= 8000000 /\ zlen (f_buf f) <= f_len f
  else f_len f = 9 /\ zlen (f_buf f) < 9.
Lemma fr_init_ok : fr_ok fr_init.
Proof. split; reflexivity. Qed.

Lemma parse_hdr_good f cmd size : is_byte cmd -> 0 <= size <= 8000000 ->
  parse_hdr magic f (hdr9 cmd size) = (0, mk_fr true [] size cmd).
Proof.
  intros Hc Hs. unfold parse_hdr, frame_header, read_u32. rewrite read_le_app by (cbn; lia). rewrite Z.eqb_refl. cbn [negb app read_u8].
  rewrite <- (app_nil_r (le_bytes 4 size)). rewrite read_le_app by (cbn; lia). unfold HSK_MAX_MESSAGE.
  destruct (Z.ltb_spec 8000000 size); [lia|reflexivity].
Qed.
Lemma parse_hdr_cases f d : bytes_ok d -> length d = 9%nat ->
  (exists cmd size, is_byte cmd /\ 0 <= size <= 8000000 /\ d = hdr9 cmd size) \/
  (parse_hdr magic f d = (HSK_EENCODING, f) /\ forall cmd size r x, 0 <= size <= 8000000 -> d ++ x <> hdr9 cmd size ++ r).
Proof.
  intros B L.
  assert (exists mg cmd size, 0 <= mg < 2 ^ 32 /\ is_byte cmd /\ 0 <= size < 2 ^ 32 /\ d = le_bytes 4 mg ++ [cmd] ++ le_bytes 4 size) as (mg & cmd & size & Hm & Hc & Hs & ->).
  { destruct (read_le 4 d) as [[mg d1]|] eqn:E1; [|apply read_le_none in E1; lia].
    apply read_le_some in E1 as (-> & Hm & B1); auto. rewrite app_length, le_bytes_length in L. destruct d1 as [|cmd d1]; [cbn in L; lia|].
    apply bytes_ok_cons in B1 as [Hc B2]. cbn [length] in L. destruct (read_le 4 d1) as [[size d2]|] eqn:E2; [|apply read_le_none in E2; lia].
    apply read_le_some in E2 as (-> & Hs & B3); auto. rewrite app_length, le_bytes_length in L. destruct d2; [|cbn in L; lia].
    exists mg, cmd, size. rewrite app_nil_r. repeat split; auto; apply Hm || apply Hs || apply Hc. }
  destruct (Z.eq_dec mg magic) as [->|Nm].
  - destruct (Z_le_gt_dec size 8000000) as [Le|Gt].
    + left. exists cmd, size. repeat split; auto; try apply Hc; lia.
    + right. split.
      * unfold parse_hdr, read_u32. rewrite read_le_app by (cbn; lia). rewrite Z.eqb_refl. cbn [negb app read_u8].
        rewrite <- (app_nil_r (le_bytes 4 size)). rewrite read_le_app by (cbn; lia). unfold HSK_MAX_MESSAGE.
        destruct (Z.ltb_spec 8000000 size); [reflexivity|lia].
      * intros c s r x H E. apply app_inj_len in E as [E _]; [|now rewrite hdr9_len]. unfold frame_header in E. apply app_inv_head in E.
        apply (f_equal (@tl Z)) in E. cbn [app tl] in E. apply le4_inj in E; lia.
  - right. split.
    + unfold parse_hdr, read_u32. rewrite read_le_app by (cbn; lia). destruct (Z.eqb_spec mg magic); [congruence|reflexivity].
    + intros c s r x H E. unfold frame_header in E. rewrite <- !app_assoc in E. apply app_inj_len in E as [E _]; [|now rewrite !le_bytes_length].
      apply le4_inj in E; auto.
Qed.

Lemma known_iff cmd : msg_known cmd = true <-> In cmd commands.
Proof.
  unfold msg_known. rewrite existsb_exists. split; [intros (x & I & E); apply Z.eqb_eq in E; now subst|].
  intros I. exists cmd. split; auto. apply Z.eqb_refl.
Qed.

Definition fr_idle (f : fr) : Prop := fr_ok f /\ zlen (f_buf f) < f_len f /\ bytes_ok (f_buf f).
(** What a read returns, in terms of [run]. *)
Definition agrees (r : option (outcome (fr * St))) (o : fate St) : Prop :=
  match o with
  | Waiting s p => exists f, r = Some (Ok (f, s)) /\ fr_idle f /\ pending f = p /\ alive s = true
  | Closed s => exists f, r = Some (Ok (f, s)) /\ alive s = false
  | Crashed => exists e, r = Some e /\ forall x, e <> Ok x
  end.

Lemma loop_run : forall fuel f s data, alive s = true -> fr_ok f -> bytes_ok (f_buf f) -> bytes_ok data ->
  (2 * length data + (if f_hdr f then 2 else 1) <= fuel)%nat ->
  exists o, run s (pending f ++ data) o /\ agrees (read_loop magic St destroy handle fuel f s data) o.
Proof.
  induction fuel as [|fuel IH]; intros f s data A F Bb Bd Hf; [destruct (f_hdr f); lia|]. cbn [read_loop].
  destruct (Z.leb_spec (f_len f) (zlen (f_buf f) + zlen data)) as [Le|Gt].
  2:{ exists (Waiting s (pending f ++ data)).
      assert (I : fr_idle (mk_fr (f_hdr f) (f_buf f ++ data) (f_len f) (f_cmd f))).
      { unfold fr_idle, fr_ok in *. cbn [f_hdr f_buf f_len f_cmd]. rewrite zlen_app. split; [|split; [lia|now apply bytes_ok_app]].
        destruct (f_hdr f); [|lia]. destruct F as (Hc & Hl & Hb). split; [exact Hc|lia]. }
      unfold pending, fr_ok in *. destruct f as [h b l c]; cbn [f_hdr f_buf f_len f_cmd] in *. destruct h.
      - destruct F as (Hc & Hl & Hb). rewrite <- app_assoc. split; [apply run_partial; auto; rewrite zlen_app; lia|].
        eexists. split; [reflexivity|]. auto.
      - destruct F as [Hl Hb]. split; [apply run_short; rewrite zlen_app; lia|]. eexists. split; [reflexivity|]. auto. }
  destruct (Z.ltb_spec (f_len f) (zlen (f_buf f))) as [X|X]; [unfold fr_ok in F; destruct (f_hdr f); lia|]. cbn zeta.
  set (need := Z.to_nat (f_len f - zlen (f_buf f))).
  assert (Hneed : (need <= length data)%nat) by (unfold need, zlen in *; lia).
  rewrite <- (firstn_skipn need data) in Bd. apply bytes_ok_app in Bd as [Bf Br].
  set (d := f_buf f ++ firstn need data).
  assert (Ld : zlen d = f_len f).
  { unfold d. rewrite zlen_app. unfold zlen at 2. rewrite firstn_length_le by lia. unfold need. unfold zlen in *. lia. }
  assert (Bdd : bytes_ok d) by (apply bytes_ok_app; auto).
  assert (Ed : f_buf f ++ data = d ++ skipn need data) by (unfold d; now rewrite <- app_assoc, firstn_skipn).
  assert (Lr : (length (skipn need data) + need = length data)%nat) by (rewrite skipn_length; lia).
  unfold parse. unfold fr_ok, pending in F |- *. destruct (f_hdr f) eqn:Hh; cbn [negb].
  - destruct F as (Hc & Hl & Hb). rewrite <- app_assoc, Ed, <- Ld.
    destruct (msg_known (f_cmd f)) eqn:K; cbn [negb].
    2:{ assert (NK : ~ In (f_cmd f) commands) by (rewrite <- known_iff, K; discriminate).
        zred. destruct (IH fr_init s (skipn need data) A fr_init_ok (Forall_nil _) Br) as (o & R & G); [cbn; lia|].
        exists o. split; [eapply run_next; eauto; [lia|now apply act_skip]|exact G]. }
    apply known_iff in K. destruct (message_decoding_exact_partial (f_cmd f) d Bdd) as (_ & Dx & Tot).
    assert (Dx' : forall m, msg_decode (f_cmd f) d = Ok (Some m) <-> holds (f_cmd f) d m) by exact Dx.
    assert (EM : {In (f_cmd f) [5; 10; 11] /\ d = []} + {d <> [] \/ ~ In (f_cmd f) [5; 10; 11]}).
    { destruct d; [|right; left; discriminate]. destruct (in_dec Z.eq_dec (f_cmd f) [5; 10; 11]); [left|right]; auto. }
    destruct EM as [[I0 D0]|EM].
    + exists Crashed. rewrite D0. unfold msg_decode. rewrite (empty_payload_refuted _ I0). cbn [obind].
      split; [apply run_stop; [exact Hc|discriminate|apply act_empty; auto]|]. eexists. split; [reflexivity|discriminate].
    + destruct (Tot EM) as [om Eom]. unfold msg_decode in *. rewrite Eom in *. cbn [obind] in *. destruct om as [[m rr]|]; cbn [option_map fst] in *.
      * assert (Hm : holds (f_cmd f) d m) by now apply Dx'.
        destruct (handle s m) as [[rc s']|e| |] eqn:Eh; cbn [obind].
        -- destruct (Z.eqb_spec rc 0) as [->|Nrc].
           ++ destruct (IH fr_init s' (skipn need data) (handle_alive _ _ _ A Eh) fr_init_ok (Forall_nil _) Br) as (o & R & G); [cbn; lia|].
              exists o. split; [eapply run_next; eauto; [lia|eapply act_msg; eauto]|exact G].
           ++ exists (Closed (destroy s')). split; [eapply run_stop; eauto; [lia|eapply act_reject; eauto]|]. eexists. split; [reflexivity|apply destroy_dead].
        -- exists Crashed. split; [apply run_stop; [exact Hc|lia|eapply act_crash; eauto; congruence]|]. eexists. split; [reflexivity|discriminate].
        -- exists Crashed. split; [apply run_stop; [exact Hc|lia|eapply act_crash; eauto; congruence]|]. eexists. split; [reflexivity|discriminate].
        -- exists Crashed. split; [apply run_stop; [exact Hc|lia|eapply act_crash; eauto; congruence]|]. eexists. split; [reflexivity|discriminate].
      * exists (Closed (destroy s)). split; [apply run_stop; [exact Hc|lia|apply act_malformed; auto; intros m Hm; apply Dx' in Hm; discriminate]|].
        zred. eexists. split; [reflexivity|apply destroy_dead].
  - destruct F as [Hl Hb]. rewrite Ed. assert (Ld9 : length d = 9%nat) by (unfold zlen in *; lia).
    destruct (parse_hdr_cases f d Bdd Ld9) as [(cmd & size & Hc & Hs & E)|[E NH]].
    + rewrite E, parse_hdr_good by auto. zred.
      destruct (IH (mk_fr true [] size cmd) s (skipn need data) A) as (o & R & G); cbn [f_hdr f_buf f_len f_cmd fr_ok]; auto.
      * unfold fr_ok. cbn. change (zlen (@nil Z)) with 0. repeat split; try apply Hc; lia.
      * constructor.
      * unfold zlen in *; lia.
      * exists o. split; [|exact G]. unfold pending in R. cbn [f_hdr f_buf f_len f_cmd] in R. rewrite app_nil_r in R. exact R.
    + rewrite E. unfold HSK_EENCODING. zred. exists (Closed (destroy s)). split.
      * apply run_bad; [rewrite zlen_app; unfold zlen in *; lia|]. intros cmd size r Hs. now apply NH.
      * eexists. split; [reflexivity|apply destroy_dead].
Qed.

Lemma run_extend s d o : run s d o -> forall x,
  match o with
  | Waiting s' p => forall o', run s' (p ++ x) o' -> run s (d ++ x) o'
  | _ => run s (d ++ x) o
  end.
Proof.
  induction 1 as [s d H|s d H N|s cmd size p Hc Hs H|s s' cmd p r f Hc H A R IH|s cmd p r f Hc H A]; intros x; auto.
  - apply run_bad; [rewrite zlen_app; pose proof (zlen_nonneg x); lia|]. intros cmd size r Hs E.
    assert (Ed : d = hdr9 cmd size ++ skipn 9 d).
    { apply (f_equal (firstn 9)) in E. rewrite firstn_app in E. replace (9 - length d)%nat with 0%nat in E by (unfold zlen in H; lia).
      rewrite firstn_app, hdr9_len in E. rewrite (firstn_all2 (hdr9 cmd size)) in E by (rewrite hdr9_len; lia).
      change (9 - 9)%nat with 0%nat in E. change (firstn 0 x) with (@nil Z) in E. change (firstn 0 r) with (@nil Z) in E. rewrite !app_nil_r in E.
      rewrite <- E. symmetry. apply firstn_skipn. }
    apply (N cmd size (skipn 9 d) Hs Ed).
  - specialize (IH x). rewrite <- !app_assoc. destruct f; [intros o' R'| |]; eapply run_next; eauto.
  - rewrite <- !app_assoc. destruct f; [|apply run_stop; auto|apply run_stop; auto]. inversion A.
Qed.

Lemma holds_functional cmd p m m' : bytes_ok p -> holds cmd p m -> holds cmd p m' -> m = m'.
Proof.
  intros B H H'. destruct (message_decoding_exact_partial cmd p B) as (_ & D & _). apply D in H. apply D in H'. congruence.
Qed.
Lemma holds_command cmd p m : holds cmd p m -> In cmd commands.
Proof. intros (w & r & _ & _ & <-). destruct m; cbn; auto 12. Qed.
Lemma holds_empty cmd m : In cmd [5; 10; 11] -> ~ holds cmd [] m.
Proof.
  intros I (w & r & E & W & C). symmetry in E. apply app_eq_nil in E as [-> ->]. assert (B : bytes_ok []) by constructor.
  assert (X : msg_read cmd [] = Ok (Some (m, []))) by (apply message_decoding_exact_partial; auto; exists []; auto).
  rewrite (empty_payload_refuted _ I) in X. discriminate.
Qed.

Lemma act_functional s cmd p a : bytes_ok p -> act s cmd p a -> forall a', act s cmd p a' -> a' = a.
Proof.
  intros B A a' A'.
  assert (Ke : forall c, In c [5; 10; 11] -> In c commands) by (intros c [<-|[<-|[<-|[]]]]; cbn; auto 10).
  assert (HE : forall c q m, In c [5; 10; 11] -> q = [] -> holds c q m -> False) by (intros c q m I -> Hh; eapply holds_empty; eauto).
  destruct A as [N|I M N|m s' Hm E|m rc s' Hm E Nr|I Ep|m Hm E], A' as [N'|I' M' N'|m' s'' Hm' E'|m' rc' s'' Hm' E' Nr'|I' Ep'|m' Hm' E']; auto;
    try (exfalso; solve [eauto using holds_command | destruct M; auto | destruct M'; auto | eapply N; eauto | eapply N'; eauto]);
    assert (m' = m) by (eapply holds_functional; eauto); subst m'; congruence.
Qed.

Lemma run_inv s d o : run s d o ->
  (zlen d < 9 /\ o = Waiting s d) \/
  (9 <= zlen d /\ (forall cmd size r, 0 <= size <= 8000000 -> d <> hdr9 cmd size ++ r) /\ o = Closed (destroy s)) \/
  (exists cmd size p, 0 <= size <= 8000000 /\ zlen p < size /\ d = hdr9 cmd size ++ p /\ o = Waiting s d) \/
  (exists s' cmd p r, zlen p <= 8000000 /\ act s cmd p (Next s') /\ run s' r o /\ d = hdr9 cmd (zlen p) ++ p ++ r) \/
  (exists cmd p r, zlen p <= 8000000 /\ act s cmd p (Stop o) /\ d = hdr9 cmd (zlen p) ++ p ++ r).
Proof. destruct 1; auto; do 2 right; [left|right; left|right; right]; eauto 12. Qed.
Lemma run_functional s d o : run s d o -> bytes_ok d -> forall o', run s d o' -> o' = o.
Proof.
  assert (NN : forall l : list Z, 0 <= zlen l) by apply @zlen_nonneg.
  assert (Fr : forall c1 p1 r1 c2 p2 r2, zlen p1 <= 8000000 -> zlen p2 <= 8000000 ->
    hdr9 c1 (zlen p1) ++ p1 ++ r1 = hdr9 c2 (zlen p2) ++ p2 ++ r2 -> c1 = c2 /\ p1 = p2 /\ r1 = r2).
  { intros c1 p1 r1 c2 p2 r2 H1 H2 E. pose proof (NN p1). pose proof (NN p2). apply hdr9_inj in E as (-> & Ez & E); try lia.
    apply app_inj_len in E as [-> ->]; [auto|unfold zlen in Ez; lia]. }
  assert (Sh : forall c z r, zlen (hdr9 c z ++ r) < 9 -> False).
  { intros c z r L. rewrite zlen_app, hdr9_zlen in L. pose proof (NN r). lia. }
  assert (Pa : forall c1 z p1 c2 p2 r2, 0 <= z <= 8000000 -> zlen p1 < z -> zlen p2 <= 8000000 -> hdr9 c1 z ++ p1 = hdr9 c2 (zlen p2) ++ p2 ++ r2 -> False).
  { intros c1 z p1 c2 p2 r2 Hz L1 L2 E. pose proof (NN p2). apply hdr9_inj in E as (_ & Ez & ->); try lia. rewrite zlen_app in L1. pose proof (NN r2). lia. }
  assert (Bad : forall c z r, 0 <= z <= 8000000 -> (forall cmd size x, 0 <= size <= 8000000 -> hdr9 c z ++ r <> hdr9 cmd size ++ x) -> False).
  { intros c z r Hz N. apply (N c z r Hz eq_refl). }
  intros R0. induction R0 as [s d H|s d H N|s cmd size p Hc Hs H|s s' cmd p r f Hc H A R IH|s cmd p r f Hc H A]; intros B o' R';
    destruct (run_inv _ _ _ R') as [(H1 & ->)|[(H1 & N1 & ->)|[(c1 & z1 & p1 & Hs1 & H1 & E1 & ->)|[(s1 & c1 & p1 & r1 & H1 & A1 & R1 & E1)|(c1 & p1 & r1 & H1 & A1 & E1)]]]];
    clear R'; auto; try (exfalso; lia).
  all: try (exfalso; subst; eapply Sh; eassumption).
  all: try (exfalso; pose proof (NN p1); eapply N; [|exact E1]; lia).
  all: try (exfalso; pose proof (NN p); eapply N1; [|reflexivity]; lia).
  all: try (exfalso; eapply Pa; [exact Hs|exact H|exact H1|exact E1]).
  all: try (exfalso; eapply Pa; [exact Hs1|exact H1|exact H|symmetry; exact E1]).
  all: apply bytes_ok_app in B as [_ B]; apply bytes_ok_app in B as [Bp Br]; apply Fr in E1 as (<- & <- & <-); auto.
  all: pose proof (act_functional _ _ _ _ Bp A _ A1) as EA; try congruence. injection EA as ->. apply IH; auto.
Qed.

Lemma reads_run : forall chunks f s, alive s = true -> fr_idle f -> Forall bytes_ok chunks ->
  exists o, run s (pending f ++ concat chunks) o /\ agrees (reads magic St alive destroy handle f s chunks) o.
Proof.
  assert (Dead : forall chunks f s, alive s = false -> reads magic St alive destroy handle f s chunks = Some (Ok (f, s))).
  { induction chunks as [|c cs IH]; intros f s A; cbn; auto. unfold on_read. rewrite A. cbn. auto. }
  induction chunks as [|c cs IH]; intros f s A I B; cbn [reads concat].
  - rewrite app_nil_r. exists (Waiting s (pending f)). split; [|cbn; eauto]. destruct I as (Fo & L & Bf). unfold fr_ok, pending in *.
    destruct (f_hdr f); [apply run_partial; tauto|apply run_short; lia].
  - inversion B as [|? ? Bc Bcs]; subst. destruct I as (Fo & L & Bf). unfold on_read. rewrite A. cbn [negb].
    destruct (loop_run (2 * length c + 3) f s c A Fo Bf Bc) as (o & R & G); [destruct (f_hdr f); lia|].
    pose proof (run_extend _ _ _ R (concat cs)) as X. rewrite <- app_assoc in X. destruct o as [s' p|s'|]; cbn [agrees] in G.
    + destruct G as (f' & -> & I' & Ep & A'). destruct (IH f' s' A' I' Bcs) as (o & R' & G'). rewrite Ep in R'. exists o. split; auto.
    + destruct G as (f' & -> & D). exists (Closed s'). split; auto. cbn. exists f'. rewrite (Dead cs f' s' D). auto.
    + destruct G as (e & -> & D). exists Crashed. split; auto. cbn. exists e. destruct e as [[f' s']|?| |]; auto. exfalso. eapply D. reflexivity.
Qed.
End Proofs.

(** C42: however a byte stream is cut into reads, the messages it contains are handled
    once each, in order, and the connection ends in the same state: open, closed or
    crashed, as the specification says of the whole stream, which determines it. The
    reader never runs out of its loop bound, never trips its assertion, and buffers
    less than 8,000,000 bytes.
    Partial: it is assumed that a handler that reports success leaves the peer open
    (refuted for the real handlers below, when a write fails). *)
Theorem framing_exact_partial magic St alive destroy handle :
  0 <= magic < 2 ^ 32 -> (forall s, alive (destroy s) = false) ->
  (forall s m s', alive s = true -> handle s m = Ok (0, s') -> alive s' = true) ->
  forall (s : St) (chunks : list (list Z)), alive s = true -> Forall bytes_ok chunks ->
  exists o, run magic St destroy handle s (concat chunks) o /\
    (forall o', run magic St destroy handle s (concat chunks) o' -> o' = o) /\
    let r := reads magic St alive destroy handle fr_init s chunks in
    match o with
    | Waiting s' p => exists f, r = Some (Ok (f, s')) /\ alive s' = true /\ zlen (f_buf f) < 8000000
    | Closed s' => exists f, r = Some (Ok (f, s')) /\ alive s' = false
    | Crashed => exists e, r = Some e /\ forall x, e <> Ok x
    end.
Proof.
  intros Hm Hd Hh s chunks A B.
  assert (I : fr_idle fr_init) by (split; [split; reflexivity|split; [reflexivity|constructor]]).
  destruct (reads_run magic St alive destroy handle Hm Hd Hh chunks fr_init s A I B) as (o & R & G). cbn [pending fr_init f_hdr f_buf app] in R.
  exists o. split; auto. split.
  - refine (fun o' => run_functional _ _ _ _ _ _ _ _ _ _ R _ o'); auto.
    clear - B. induction B; cbn; [constructor|]. now apply bytes_ok_app.
  - cbn zeta. destruct o; cbn in G; auto. destruct G as (f & -> & (Fo & L & Bf) & Ep & A'). exists f. split; auto. split; auto.
    unfold fr_ok in Fo. destruct (f_hdr f); lia.
Qed.

(** Consequently two ways of cutting the same stream are indistinguishable. *)
Theorem chunking_irrelevant_partial magic St alive destroy handle :
  0 <= magic < 2 ^ 32 -> (forall s, alive (destroy s) = false) ->
  (forall s m s', alive s = true -> handle s m = Ok (0, s') -> alive s' = true) ->
  forall (s : St) (c1 c2 : list (list Z)), alive s = true -> Forall bytes_ok c1 -> Forall bytes_ok c2 -> concat c1 = concat c2 ->
  forall f s', reads magic St alive destroy handle fr_init s c1 = Some (Ok (f, s')) ->
  exists f', reads magic St alive destroy handle fr_init s c2 = Some (Ok (f', s')).
Proof.
  intros Hm Hd Hh s c1 c2 A B1 B2 E f s' R.
  destruct (framing_exact_partial magic St alive destroy handle Hm Hd Hh s c1 A B1) as (o1 & R1 & U1 & G1).
  destruct (framing_exact_partial magic St alive destroy handle Hm Hd Hh s c2 A B2) as (o2 & R2 & U2 & G2).
  rewrite <- E in R2. apply U1 in R2. subst o2. cbn zeta in *. rewrite R in G1. destruct o1 as [s1 p|s1|].
  - destruct G1 as (f1 & E1 & _). destruct G2 as (f2 & E2 & _). injection E1 as _ ->. eauto.
  - destruct G1 as (f1 & E1 & _). destruct G2 as (f2 & E2 & _). injection E1 as _ ->. eauto.
  - destruct G1 as (e & E1 & N). injection E1 as <-. exfalso. eapply N. reflexivity.
Qed.

(** * Finding: a handler that closes the peer and reports success *)
(** pool.c:1319-1348 hsk_peer_handle_version when writing the verack fails: the failure
    closes the peer (1145-1147), later sends to a closed peer report success (1176),
    and the handler returns success. Only whether the peer is open and which messages
    were handled is kept. *)
Definition toy_state : Type := bool * list msg.
Definition failing_write_handle (s : toy_state) (m : msg) : outcome (Z * toy_state) :=
  Ok (0, (match m with Version _ _ _ _ _ _ _ _ => false | _ => fst s end, m :: snd s)).
Definition toy_destroy (s : toy_state) : toy_state := (false, snd s).
Definition mainnet_magic : Z := 1533997779.
Definition ex_frames : list Z :=
  frame_header mainnet_magic 0 (zlen (msg_write ex_version)) ++ msg_write ex_version ++ frame_header mainnet_magic 2 8 ++ le_bytes 8 5.
(** In one read the ping after the version is still handled, in two reads it is not. *)
Theorem closed_peer_keeps_handling_refuted :
  exists c1 c2, concat c1 = concat c2 /\ Forall bytes_ok c1 /\ Forall bytes_ok c2 /\
    let go := reads mainnet_magic toy_state fst toy_destroy failing_write_handle fr_init (true, []) in
    go c1 = Some (Ok (fr_init, (false, [Ping 5; ex_version]))) /\ go c2 = Some (Ok (fr_init, (false, [ex_version]))).
Proof.
  exists [ex_frames], [firstn 137 ex_frames; skipn 137 ex_frames]. split; [vm_compute; reflexivity|].
  split; [constructor; [apply bytes_ok_check; vm_compute; reflexivity|constructor]|].
  split; [constructor; [apply bytes_ok_check; vm_compute; reflexivity|constructor; [apply bytes_ok_check; vm_compute; reflexivity|constructor]]|].
  split; vm_compute; reflexivity.
Qed.

(** * Examples *)
Definition ok_handle (s : toy_state) (m : msg) : outcome (Z * toy_state) :=
  Ok (match m with Pong _ => 3 | _ => 0 end, (fst s, m :: snd s)).
Definition ex_go := reads mainnet_magic toy_state fst toy_destroy ok_handle fr_init (true, []).
(** The handler of the examples meets the hypothesis of the theorems. *)
Example ok_handle_alive : forall s m s', fst s = true -> ok_handle s m = Ok (0, s') -> fst s' = true.
Proof. intros s m s' A E. unfold ok_handle in E. injection E as E <-. exact A. Qed.
(** One byte at a time. *)
Example ex_bytewise : ex_go (map (fun b => [b]) ex_frames) = Some (Ok (fr_init, (true, [Ping 5; ex_version]))).
Proof. vm_compute. reflexivity. Qed.
(** An unknown command is skipped, a rejected message closes, a wrong magic closes. *)
Example ex_unknown : ex_go [frame_header mainnet_magic 99 3 ++ [1; 2; 3] ++ frame_header mainnet_magic 1 0]
  = Some (Ok (fr_init, (true, [Verack]))).
Proof. vm_compute. reflexivity. Qed.
Example ex_reject : ex_go [frame_header mainnet_magic 3 8 ++ repeat 0 8; frame_header mainnet_magic 1 0]
  = Some (Ok (fr_init, (false, [Pong 0]))).
Proof. vm_compute. reflexivity. Qed.
Example ex_magic : ex_go [frame_header 7 1 0] = Some (Ok (fr_init, (false, []))).
Proof. vm_compute. reflexivity. Qed.
(** The crash by an empty addr frame. *)
Example ex_crash : ex_go [frame_header mainnet_magic 5 0] = Some Ub.
Proof. vm_compute. reflexivity. Qed.

Print Assumptions framing_exact_partial.
Print Assumptions chunking_irrelevant_partial.
Print Assumptions closed_peer_keeps_handling_refuted.
