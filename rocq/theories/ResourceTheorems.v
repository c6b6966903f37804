(** C35 and C36: decoding of on-chain resource data. *)
From Verif Require Import Common CommonFacts BioModel BioFacts ProofFacts UtilTheorems DnsNameModel DnsNameSpec DnsNameFacts DnsNameTheorems DnsMsgSpec DnsMsgFacts DnsMsgDecode DnsMsgWire ResourceModel.
From Coq Require Import Lia.

(** ** What a well-formed resource is, by positions in the data and without the model

    The bytes [b] stand at position [p]. *)
Definition occurs (m : list Z) (p : nat) (b : list Z) : Prop := exists a c, m = a ++ b ++ c /\ length a = p.
(** A name at position [p], possibly compressed, that ends before [q]. *)
Definition name_at (m : list Z) (p : nat) (name : list Z) (q : nat) : Prop :=
  exists ls h, wire (Some m) m p ls q h /\ (h <= 10)%nat /\ zlen (text ls) <= 255 /\ name = text ls.
(** The record data of each type between positions [p] and [q]. *)
Inductive body (m : list Z) : nat -> record -> nat -> Prop :=
| b_ds p tag alg dt g : 0 <= tag < 65536 -> zlen g <= 64 -> occurs m p (be_bytes 2 tag ++ [alg; dt; zlen g] ++ g) ->
    body m p (RDs tag alg dt g) (p + 5 + length g)
| b_ns p n q : name_at m p n q -> body m p (RNs n) q
| b_glue4 p n q ip : name_at m p n q -> length ip = 4%nat -> occurs m q ip -> body m p (RGlue4 n ip) (q + 4)
| b_glue6 p n q ip : name_at m p n q -> length ip = 16%nat -> occurs m q ip -> body m p (RGlue6 n ip) (q + 16)
| b_synth4 p ip : length ip = 4%nat -> occurs m p ip -> body m p (RSynth4 ip) (p + 4)
| b_synth6 p ip : length ip = 16%nat -> occurs m p ip -> body m p (RSynth6 ip) (p + 16)
| b_txt p l b : zlen l <= 255 -> Forall (fun s => zlen s <= 255) l -> b = zlen l :: concat (map (fun s => zlen s :: s) l) -> occurs m p b ->
    body m p (RTxt (map Good l)) (p + length b).
(** Records one after the other, each after its type byte. *)
Inductive records (m : list Z) : nat -> list record -> nat -> Prop :=
| r_nil p : records m p [] p
| r_cons p r q rs e : occurs m p [record_type r] -> body m (S p) r q -> records m q rs e -> records m p (r :: rs) e.
(** Version 0, then records up to the end. *)
Definition resource (m : list Z) (rs : list record) : Prop := occurs m 0 [0] /\ records m 1 rs (length m).

Lemma skipn_len {A} (a x : list A) p : length a = p -> skipn p (a ++ x) = x.
Proof. intros <-. rewrite skipn_app, skipn_all, Nat.sub_diag. reflexivity. Qed.
Lemma occurs_skip m p b : occurs m p b -> skipn p m = b ++ skipn (p + length b) m /\ (p + length b <= length m)%nat.
Proof.
  intros (a & c & -> & La). rewrite (skipn_len a) by auto. rewrite app_assoc. rewrite (skipn_len (a ++ b)) by (rewrite app_length; lia). rewrite !app_length. split; [auto|lia].
Qed.
Lemma name_at_read m p n q : bytes_ok m -> name_at m p n q -> name_read (Some m) (skipn p m) = Ok (Some (n, skipn q m)) /\ (p < q <= length m)%nat.
Proof.
  intros B (ls & h & W & H & L & ->). destruct (wire_skip _ _ _ _ _ W) as [W' Q].
  assert (Bd : bytes_ok (skipn p m)) by now apply bytes_ok_skipn. assert (Bm : forall m', Some m = Some m' -> bytes_ok m') by (intros m' E; apply some_inj in E; now subst).
  destruct (parse_exact (Some m) (skipn p m) Bd Bm) as (r & R & X). assert (E : r = Some (text ls, Z.of_nat (q - p))) by (apply X; eauto 10).
  subst r. destruct (parse_inside _ _ _ _ Bd Bm R) as [In _]. unfold zlen in In. rewrite skipn_length in In. unfold name_read. rewrite R.
  split; [|lia]. do 3 f_equal. rewrite skip_skip. f_equal. lia.
Qed.
Lemma name_into_ok m p n q : bytes_ok m -> name_at m p n q -> name_into m (skipn p m) = Ok (n, skipn q m, true) /\ (p < q <= length m)%nat.
Proof. intros B N. destruct (name_at_read m p n q B N) as [E L]. unfold name_into. rewrite E. auto. Qed.
Lemma bytes_into_ok m p b n : occurs m p b -> length b = n -> bytes_into n (skipn p m) = (b, skipn (p + n) m) /\ (p + n <= length m)%nat.
Proof. intros O L. destruct (occurs_skip m p b O) as [E Q]. rewrite L in *. split; [|auto]. unfold bytes_into, read_bytes. rewrite E. now rewrite take_app by auto. Qed.
Lemma txt_loop_ok l : forall acc rest, Forall (fun s => zlen s <= 255) l -> txt_loop (length l) (concat (map (fun s => zlen s :: s) l) ++ rest) acc = (acc ++ map Good l, rest).
Proof.
  induction l as [|s l IH]; intros acc rest F; cbn [length txt_loop map concat app]; [now rewrite app_nil_r|].
  inversion F; subst. rewrite <- app_assoc. cbn [app read_u8]. unfold read_bytes, zlen. rewrite Nat2Z.id, take_app by auto. rewrite IH by auto. now rewrite <- app_assoc.
Qed.
Lemma body_read m p r q : bytes_ok m -> body m p r q -> record_read m (record_type r) (skipn p m) = Ok (Some (r, skipn q m)) /\ (p <= q <= length m)%nat.
Proof.
  intros B Y. inversion Y; subst; cbn [record_type]; unfold record_read.
  - change (0 =? 0) with true. cbv iota. destruct (occurs_skip _ _ _ H1) as [E Q]. rewrite E. unfold be_bytes in *. cbn [le_bytes rev app] in *.
    cbn [length] in Q |- *. unfold ds_read. rewrite !zlen_cons.
    match goal with |- context [zlen (g ++ ?x)] => pose proof (zlen_nonneg (g ++ x)) as Ng; remember (zlen (g ++ x)) as y end.
    match goal with |- context [?x <? 5] => assert (N : (x <? 5) = false) by lia end. subst y.
    rewrite N. assert (N2 : (64 <? zlen g) = false) by lia. rewrite N2. unfold read_bytes, zlen at 1. rewrite Nat2Z.id, take_app by auto. split; [|lia].
    change [tag / 256 mod 256; tag mod 256] with (be_bytes 2 tag). rewrite be_val_be_bytes by (change (256 ^ Z.of_nat 2) with 65536; lia). do 4 f_equal. lia.
  - change (1 =? 0) with false. change (1 =? 1) with true. cbv iota. destruct (name_into_ok m p n q B H) as [E Q]. rewrite E. cbn [obind]. split; [auto|lia].
  - cbv [Z.eqb Pos.eqb]. destruct (name_into_ok m p n q0 B H) as [E Q]. rewrite E. cbn [obind]. destruct (bytes_into_ok m q0 ip 4 H1 H0) as [E1 Q1]. rewrite E1. split; [auto|lia].
  - cbv [Z.eqb Pos.eqb]. destruct (name_into_ok m p n q0 B H) as [E Q]. rewrite E. cbn [obind]. destruct (bytes_into_ok m q0 ip 16 H1 H0) as [E1 Q1]. rewrite E1. split; [auto|lia].
  - cbv [Z.eqb Pos.eqb]. destruct (bytes_into_ok m p ip 4 H0 H) as [E1 Q1]. rewrite E1. split; [auto|lia].
  - cbv [Z.eqb Pos.eqb]. destruct (bytes_into_ok m p ip 16 H0 H) as [E1 Q1]. rewrite E1. split; [auto|lia].
  - cbv [Z.eqb Pos.eqb]. destruct (occurs_skip _ _ _ H2) as [E Q]. rewrite E. split; [|lia]. unfold txt_read. cbn [app read_u8]. unfold zlen at 1. rewrite Nat2Z.id.
    rewrite txt_loop_ok by auto. reflexivity.
Qed.

Lemma occurs_one m p t : occurs m p [t] -> skipn p m = t :: skipn (S p) m /\ (S p <= length m)%nat.
Proof. intros O. destruct (occurs_skip m p [t] O) as [E L]. cbn [length app] in *. rewrite Nat.add_1_r in *. auto. Qed.
Lemma records_span m p rs e : bytes_ok m -> records m p rs e -> (p <= length m)%nat -> (p + length rs <= e <= length m)%nat.
Proof.
  intros B R. induction R as [p|p r q rs e O Y R IH]; intros L; cbn [length]; [lia|]. destruct (occurs_one _ _ _ O) as [_ L1]. destruct (body_read m (S p) r q B Y) as [_ L2].
  specialize (IH ltac:(lia)). lia.
Qed.
Lemma records_read m p rs e : bytes_ok m -> records m p rs e -> forall fuel acc, zlen acc + zlen rs <= 255 ->
  decode_loop (length rs + fuel) m (skipn p m) acc = decode_loop fuel m (skipn e m) (acc ++ rs).
Proof.
  intros B R. induction R as [p|p r q rs e O Y R IH]; intros fuel acc L; cbn [length Nat.add]; [now rewrite app_nil_r|].
  destruct (occurs_one _ _ _ O) as [E _]. destruct (body_read m (S p) r q B Y) as [E2 _]. rewrite E. cbn [decode_loop]. rewrite E2.
  rewrite zlen_cons in L. pose proof (zlen_nonneg rs). assert (N : (zlen acc <? 255) = true) by lia. rewrite N. rewrite IH by (rewrite zlen_app; change (zlen [r]) with 1; lia).
  now rewrite <- app_assoc.
Qed.

(** ** C36: a well-formed resource of at most 255 records decodes to exactly its records
    in order, with every name given in full or through compression pointers. *)
Theorem resource_decodes m rs : bytes_ok m -> resource m rs -> zlen rs <= 255 -> decode m = Ok (Some rs).
Proof.
  intros B [O R] L. destruct (occurs_one _ _ _ O) as [E L1]. cbn [skipn] in E. unfold decode. rewrite E at 1. cbn [read_u8]. change (negb (0 =? 0)) with false. cbv iota.
  pose proof (records_span m 1 rs _ B R L1) as Sp. replace (length m) with (length rs + (length m - length rs))%nat by lia.
  change (match m with [] => [] | _ :: l => l end) with (skipn 1 m). rewrite (records_read m 1 rs _ B R) by (change (zlen (@nil record)) with 0; lia).
  rewrite skipn_all. destruct (length m - length rs)%nat; reflexivity.
Qed.
(** A type that is not known makes the whole resource unusable. *)
Theorem unknown_rejected m rs q t : bytes_ok m -> occurs m 0 [0] -> records m 1 rs q -> zlen rs <= 255 -> occurs m q [t] -> 6 < t -> decode m = Ok None.
Proof.
  intros B O R L T N. destruct (occurs_one _ _ _ O) as [E L1]. cbn [skipn] in E. unfold decode. rewrite E at 1. cbn [read_u8]. change (negb (0 =? 0)) with false. cbv iota.
  pose proof (records_span m 1 rs _ B R L1) as Sp. destruct (occurs_one _ _ _ T) as [E2 L2]. replace (length m) with (length rs + S (length m - S (length rs)))%nat by lia.
  change (match m with [] => [] | _ :: l => l end) with (skipn 1 m). rewrite (records_read m 1 rs _ B R) by (change (zlen (@nil record)) with 0; lia). rewrite E2. cbn [decode_loop].
  unfold record_read. repeat match goal with |- context [t =? ?k] => assert (K : (t =? k) = false) by lia; rewrite K; clear K end. reflexivity.
Qed.
(** Any other version is refused. *)
Theorem version_rejected v d : v <> 0 -> decode (v :: d) = Ok None.
Proof. intros N. unfold decode. cbn [read_u8]. assert (K : (v =? 0) = false) by lia. now rewrite K. Qed.

(** ** What decoding leaves, whatever the data *)
Definition text_left (s : list Z) : Prop := exists ls, Forall plabel ls /\ s = cat_dots ls /\ zlen s <= 255.
Lemma left_text m : bytes_ok m -> forall fuel d p out ptr, bytes_ok d -> text_left out -> text_left (left_loop fuel m d (Z.of_nat p) out ptr).
Proof.
  intros Bm. induction fuel as [|fuel IH]; intros d p out ptr Bd T; cbn [left_loop]; auto. rewrite at_nth. destruct (nth_error d p) as [c|] eqn:E; auto.
  assert (Bc : is_byte c) by (eapply Forall_forall; [exact Bd|]; eapply nth_error_In; exact E). pose proof (nth_error_zlen _ _ _ E) as Lp.
  replace (Z.of_nat p + 1) with (Z.of_nat (S p)) by lia. destruct (Z.eqb_spec c 0); auto. rewrite (land_192 c Bc). unfold is_byte in Bc.
  destruct (Z.ltb_spec c 64) as [L64|L64].
  - zred. destruct ((zlen d <? Z.of_nat (S p) + c) || (255 <? zlen out + c + 1)) eqn:G; auto. apply orb_false_iff in G as [G1 G2]. apply Z.ltb_ge in G1, G2.
    rewrite copy_spec by (unfold zlen in *; lia). cbn [obind]. unfold put. set (l := firstn (Z.to_nat c) (skipn (S p) d)).
    assert (Ll : zlen l = c) by (unfold l, zlen in *; rewrite firstn_length, skipn_length; lia).
    rewrite zlen_app, zlen_map, Ll. assert (N : (zlen out + c <? 256) = true) by lia. rewrite N.
    replace (Z.of_nat (S p) + c) with (Z.of_nat (S p + Z.to_nat c)) by lia. apply IH; auto. destruct T as (ls & F & -> & Lo).
    exists (ls ++ [map shown l]). split; [|split].
    + apply Forall_app. split; auto. constructor; [|constructor]. split; [rewrite zlen_map; lia|]. apply Forall_map.
      assert (Bl : bytes_ok l) by (now apply bytes_ok_firstn, bytes_ok_skipn). eapply Forall_impl; [|exact Bl].
      unfold is_byte, pchar, shown. intros b Hb. destruct (Z.eqb_spec b 0); [lia|]. destruct (Z.eqb_spec b 46); lia.
    + rewrite cat_dots_app. unfold cat_dots at 3. cbn [map concat]. now rewrite app_nil_r, app_assoc.
    + rewrite !zlen_app, zlen_map, Ll. change (zlen [46]) with 1. lia.
  - destruct (Z.ltb_spec c 128); [zred; auto|]. destruct (Z.ltb_spec c 192); [zred; auto|]. zred. rewrite at_nth. destruct (nth_error d (S p)) as [c1|] eqn:E1; auto.
    destruct (10 <? ptr + 1); auto. assert (B1 : is_byte c1) by (eapply Forall_forall; [exact Bd|]; eapply nth_error_In; exact E1).
    rewrite ptr_target by (auto; unfold is_byte; lia). unfold is_byte in B1. rewrite <- (Z2Nat.id ((c - 192) * 256 + c1)) by lia. apply IH; auto.
Qed.
(** A name that was read, or what was stored of one that could not be read. *)
Definition name_left (s : list Z) : Prop := s = [] \/ valid_name s.
Lemma text_left_name s : text_left s -> name_left s.
Proof.
  intros (ls & F & -> & L). destruct ls as [|l ls]; [now left|]. right. exists (l :: ls). rewrite cat_dots_dotted by discriminate. split; [split; auto|reflexivity].
Qed.
Definition suffix (x d : list Z) : Prop := exists b, d = b ++ x.
Lemma suffix_refl d : suffix d d. Proof. now exists []. Qed.
Lemma suffix_cons a x d : suffix x d -> suffix x (a :: d). Proof. intros [b ->]. now exists (a :: b). Qed.
Lemma suffix_trans x y d : suffix x y -> suffix y d -> suffix x d.
Proof. intros [b ->] [c ->]. exists (c ++ b). now rewrite app_assoc. Qed.
Lemma suffix_ok x d : suffix x d -> bytes_ok d -> bytes_ok x /\ (length x <= length d)%nat.
Proof. intros [b ->] B. apply bytes_ok_app in B as [_ B]. rewrite app_length. split; [auto|lia]. Qed.
Lemma name_into_wf m d : bytes_ok m -> bytes_ok d -> exists n x ok, name_into m d = Ok (n, x, ok) /\ name_left n /\ suffix x d.
Proof.
  intros Bm Bd. assert (Bm' : dmp_ok (Some m)) by (intros m' E; apply some_inj in E; now subst). destruct (name_read_wf (Some m) d Bd Bm') as (o & R & X).
  unfold name_into. rewrite R. cbn [obind]. destruct o as [[n x]|].
  - destruct (X n x eq_refl) as (V & b & -> & _). exists n, x, true. split; [reflexivity|]. split; [now right|now exists b].
  - eexists _, d, false. split; [reflexivity|]. split; [|apply suffix_refl]. apply text_left_name. apply (left_text m Bm 300 d 0); auto. exists []. split; [constructor|]. split; [reflexivity|]. unfold zlen. cbn. lia.
Qed.
Definition bytes_n (n : nat) (b : list Z) : Prop := bytes_ok b /\ length b = n.
Lemma bytes_into_wf n d : bytes_ok d -> let '(b, x) := bytes_into n d in bytes_n n b /\ suffix x d.
Proof.
  intros B. unfold bytes_into, read_bytes. destruct (take n d) as [[b x]|] eqn:T.
  - apply take_some in T as [-> L]. apply bytes_ok_app in B. split; [split; tauto|now exists b].
  - split; [|apply suffix_refl]. split; [apply bytes_ok_repeat; unfold is_byte; lia|apply repeat_length].
Qed.
Definition string_left (t : txt) : Prop := match t with Good b => bytes_ok b /\ zlen b <= 255 | _ => True end.
(** The fields of every record hold what their types allow. *)
Definition record_left (r : record) : Prop :=
  match r with
  | RDs tag alg dt g => 0 <= tag < 65536 /\ is_byte alg /\ is_byte dt /\ bytes_ok g /\ zlen g <= 64
  | RNs n => name_left n
  | RGlue4 n ip => name_left n /\ bytes_n 4 ip
  | RGlue6 n ip => name_left n /\ bytes_n 16 ip
  | RSynth4 ip => bytes_n 4 ip
  | RSynth6 ip => bytes_n 16 ip
  | RTxt l => zlen l <= 255 /\ Forall string_left l
  end.
Lemma txt_loop_wf n : forall d acc, bytes_ok d -> Forall string_left acc ->
  let '(l, x) := txt_loop n d acc in zlen l = zlen acc + Z.of_nat n /\ Forall string_left l /\ suffix x d.
Proof.
  induction n as [|n IH]; intros d acc B F; cbn [txt_loop]; [split; [lia|]; split; [auto|apply suffix_refl]|].
  assert (K : zlen (acc ++ Freed :: repeat Null n) = zlen acc + Z.of_nat (S n) /\ Forall string_left (acc ++ Freed :: repeat Null n)).
  { split; [rewrite zlen_app, zlen_cons; unfold zlen; rewrite repeat_length; lia|]. apply Forall_app. split; auto. constructor; [exact I|]. clear. induction n; constructor; auto. exact I. }
  destruct d as [|s d]; cbn [read_u8]; [split; [tauto|]; split; [tauto|apply suffix_refl]|]. apply bytes_ok_cons in B as [Bs B]. unfold read_bytes.
  destruct (take (Z.to_nat s) d) as [[b x]|] eqn:T.
  - apply take_some in T as [-> L]. apply bytes_ok_app in B as [Bb Bx]. unfold is_byte in Bs. specialize (IH x (acc ++ [Good b]) Bx). destruct (txt_loop n x (acc ++ [Good b])) as [l y].
    destruct IH as (H1 & H2 & H3).
    + apply Forall_app. split; auto. constructor; [|constructor]. split; [auto|unfold zlen; lia].
    + rewrite zlen_app in H1. change (zlen [Good b]) with 1 in H1. split; [lia|]. split; [auto|]. apply suffix_cons. eapply suffix_trans; [exact H3|now exists b].
  - split; [tauto|]. split; [tauto|]. apply suffix_cons, suffix_refl.
Qed.
Lemma ds_read_wf d : bytes_ok d -> let '(r, x) := ds_read d in record_left r /\ suffix x d.
Proof.
  intros B. unfold ds_read.
  assert (Z0 : record_left (RDs 0 0 0 [])) by (cbn [record_left]; unfold is_byte; change (zlen (@nil Z)) with 0; repeat (split; [first [lia|constructor]|]); lia).
  destruct (zlen d <? 5); [split; [auto|apply suffix_refl]|]. destruct d as [|a [|b [|alg [|dt [|s d]]]]]; try (split; [auto|apply suffix_refl]).
  do 5 (apply bytes_ok_cons in B; destruct B as [? B]). assert (T : 0 <= be_val [a; b] < 65536) by (apply (be_val_bound [a; b]); constructor; [assumption|]; constructor; [assumption|constructor]).
  assert (Sx : forall x, suffix x d -> suffix x (a :: b :: alg :: dt :: s :: d)) by (intros; now do 5 apply suffix_cons).
  assert (T0 : record_left (RDs (be_val [a; b]) alg dt [])) by (cbn [record_left]; change (zlen (@nil Z)) with 0; repeat (split; [first [assumption|constructor]|]); lia).
  destruct (Z.ltb_spec 64 s); [split; [auto|apply Sx, suffix_refl]|]. unfold read_bytes. destruct (take (Z.to_nat s) d) as [[g x]|] eqn:E; [|split; [auto|apply Sx, suffix_refl]].
  apply take_some in E as [-> L]. apply bytes_ok_app in B as [Bg Bx]. split; [|apply Sx; now exists g]. cbn [record_left]. unfold is_byte in *. repeat (split; [first [assumption|lia]|]). unfold zlen. lia.
Qed.
Lemma record_read_wf m t d : bytes_ok m -> bytes_ok d -> exists o, record_read m t d = Ok o /\ forall r x, o = Some (r, x) -> record_left r /\ suffix x d.
Proof.
  intros Bm Bd. unfold record_read.
  destruct (t =? 0). { eexists. split; [reflexivity|]. intros r x E. apply some_inj in E. pose proof (ds_read_wf d Bd) as W. rewrite E in W. exact W. }
  destruct (t =? 1). { destruct (name_into_wf m d Bm Bd) as (n & x & ok & R & N & Sx). rewrite R. cbn [obind]. eexists. split; [reflexivity|]. intros r y E. apply some_inj in E. inversion E; subst. auto. }
  destruct (t =? 2). { destruct (name_into_wf m d Bm Bd) as (n & x & ok & R & N & Sx). rewrite R. cbn [obind]. destruct (suffix_ok _ _ Sx Bd) as [Bx _]. destruct ok.
    - pose proof (bytes_into_wf 4 x Bx) as W. destruct (bytes_into 4 x) as [b y]. eexists. split; [reflexivity|]. intros r z E. apply some_inj in E. inversion E; subst. split; [split; tauto|]. eapply suffix_trans; [|exact Sx]; tauto.
    - eexists. split; [reflexivity|]. intros r z E. apply some_inj in E. inversion E; subst. split; [split; [auto|]|auto]. split; [repeat (constructor; [unfold is_byte; lia|]); constructor|reflexivity]. }
  destruct (t =? 3). { destruct (name_into_wf m d Bm Bd) as (n & x & ok & R & N & Sx). rewrite R. cbn [obind]. destruct (suffix_ok _ _ Sx Bd) as [Bx _]. destruct ok.
    - pose proof (bytes_into_wf 16 x Bx) as W. destruct (bytes_into 16 x) as [b y]. eexists. split; [reflexivity|]. intros r z E. apply some_inj in E. inversion E; subst. split; [split; tauto|]. eapply suffix_trans; [|exact Sx]; tauto.
    - eexists. split; [reflexivity|]. intros r z E. apply some_inj in E. inversion E; subst. split; [split; [auto|]|auto]. split; [repeat (constructor; [unfold is_byte; lia|]); constructor|reflexivity]. }
  destruct (t =? 4). { pose proof (bytes_into_wf 4 d Bd) as W. destruct (bytes_into 4 d) as [b y]. eexists. split; [reflexivity|]. intros r z E. apply some_inj in E. inversion E; subst. tauto. }
  destruct (t =? 5). { pose proof (bytes_into_wf 16 d Bd) as W. destruct (bytes_into 16 d) as [b y]. eexists. split; [reflexivity|]. intros r z E. apply some_inj in E. inversion E; subst. tauto. }
  destruct (t =? 6). 2:{ eexists. split; [reflexivity|]. discriminate. }
  eexists. split; [reflexivity|]. intros r x E. apply some_inj in E. unfold txt_read in E. destruct d as [|n d]; cbn [read_u8] in E.
  - inversion E; subst. split; [split; [change (zlen (@nil txt)) with 0; lia|constructor]|apply suffix_refl].
  - apply bytes_ok_cons in Bd as [Bn Bd]. pose proof (txt_loop_wf (Z.to_nat n) d [] Bd (Forall_nil _)) as W. destruct (txt_loop (Z.to_nat n) d []) as [l y]. inversion E; subst.
    destruct W as (W1 & W2 & W3). change (zlen (@nil txt)) with 0 in W1. unfold is_byte in Bn. split; [split; [lia|auto]|]. now apply suffix_cons.
Qed.
Lemma decode_loop_wf m : bytes_ok m -> forall fuel d acc, bytes_ok d -> (length d <= fuel)%nat -> zlen acc <= 255 -> Forall record_left acc ->
  exists r, decode_loop fuel m d acc = Some r /\
    ((exists o, r = Ok o /\ forall rs, o = Some rs -> Forall record_left rs /\ zlen rs <= 255 /\ zlen rs <= zlen acc + zlen d) \/ (r = Ub /\ 255 < zlen acc + zlen d)).
Proof.
  intros Bm. induction fuel as [|fuel IH]; intros d acc Bd Lf La F; (destruct d as [|t d]; cbn [decode_loop]; [|cbn [length] in Lf; try lia]).
  1,2: eexists; split; [reflexivity|]; left; eexists; split; [reflexivity|]; intros rs E; apply some_inj in E; subst; change (zlen (@nil Z)) with 0; split; [auto|lia].
  apply bytes_ok_cons in Bd as [Bt Bd]. destruct (record_read_wf m t d Bm Bd) as (o & R & X). rewrite R.
  destruct o as [[r x]|]; [|eexists; split; [reflexivity|]; left; eexists; split; [reflexivity|discriminate]]. destruct (X r x eq_refl) as [Hr Sx].
  destruct (suffix_ok _ _ Sx Bd) as [Bx Lx]. rewrite zlen_cons. destruct (Z.ltb_spec (zlen acc) 255) as [L|L].
  - destruct (IH x (acc ++ [r]) Bx ltac:(lia)) as (res & E & C); [rewrite zlen_app; change (zlen [r]) with 1; lia|apply Forall_app; auto|]. rewrite E. exists res. split; [reflexivity|].
    rewrite zlen_app in C. change (zlen [r]) with 1 in C. assert (Hz : zlen x <= zlen d) by (unfold zlen; lia). destruct C as [(o & -> & C)|[-> C]]; [left|right].
    + exists o. split; [reflexivity|]. intros rs Er. destruct (C rs Er) as (C1 & C2 & C3). split; [auto|lia].
    + split; [reflexivity|lia].
  - eexists. split; [reflexivity|]. right. split; [reflexivity|]. pose proof (zlen_nonneg d). lia.
Qed.

(** ** C35: decoding never stops the program and, for at most 256 bytes, stays inside the
    record table; what it leaves is always within the limits of its types. *)
Theorem decode_safe_partial m : bytes_ok m ->
  (exists o, decode m = Ok o /\ forall rs, o = Some rs -> Forall record_left rs /\ zlen rs <= 255 /\ zlen rs < zlen m) \/ (decode m = Ub /\ 256 < zlen m).
Proof.
  intros B. unfold decode. destruct m as [|v d]; cbn [read_u8]; [left; eexists; split; [reflexivity|discriminate]|].
  destruct (negb (v =? 0)); [left; eexists; split; [reflexivity|discriminate]|]. assert (Bd : bytes_ok d) by (apply bytes_ok_cons in B; tauto).
  destruct (decode_loop_wf (v :: d) B (length (v :: d)) d [] Bd) as (r & E & C); [cbn; lia|unfold zlen; cbn; lia|constructor|]. rewrite E. rewrite zlen_cons. change (zlen (@nil record)) with 0 in C.
  destruct C as [(o & -> & C)|[-> C]]; [left|right].
  - exists o. split; [reflexivity|]. intros rs Er. destruct (C rs Er) as (C1 & C2 & C3). split; [auto|lia].
  - split; [reflexivity|lia].
Qed.

(** Freeing is safe exactly when no TXT string was cut short ... *)
Theorem free_exact rs : resource_free rs = Ok tt <-> forall l, In (RTxt l) rs -> forall t, In t l -> exists b, t = Good b.
Proof.
  induction rs as [|r rs IH]; cbn [resource_free In]; [split; [tauto|auto]|].
  assert (K : forall l, txts_free l = Ok tt <-> forall t, In t l -> exists b, t = Good b).
  { clear. induction l as [|[b| |] l IH]; cbn [txts_free In].
    - split; [tauto|auto].
    - rewrite IH. split; [intros H t [<-|H1]; eauto|eauto].
    - split; [discriminate|]. intros H. destruct (H Freed (or_introl eq_refl)) as [b E]. discriminate.
    - split; [discriminate|]. intros H. destruct (H Null (or_introl eq_refl)) as [b E]. discriminate. }
  assert (D : record_free r = Ok tt <-> forall l, r = RTxt l -> forall t, In t l -> exists b, t = Good b).
  { destruct r; cbn [record_free]; try (split; [intros _ l E; discriminate|auto]). rewrite K. split; [intros H l E; now inversion E; subst|intros H; now apply H]. }
  split.
  - destruct (record_free r) as [[]| | |] eqn:E; cbn [obind]; try discriminate. intros Hf l [->|Hl]; [now apply D|now apply IH].
  - intros H. assert (E : record_free r = Ok tt) by (apply D; intros l ->; apply H; auto). rewrite E. cbn [obind]. apply IH. intros l Hl. apply H. now right.
Qed.
Lemma records_good m p rs e : records m p rs e -> forall l, In (RTxt l) rs -> forall t, In t l -> exists b, t = Good b.
Proof.
  induction 1 as [p|p r q rs e O Y R IH]; [intros l []|intros l [->|Hl]; [|now apply IH]]. inversion Y; subst. intros t Ht. apply in_map_iff in Ht as (b & <- & _). now exists b.
Qed.
(** ... in particular for every well-formed resource. *)
Theorem resource_frees m rs : resource m rs -> resource_free rs = Ok tt.
Proof. intros [_ R]. apply free_exact. exact (records_good _ _ _ _ R). Qed.

(** Bytes a name owner can put on chain (at most 512) that write past the record table ... *)
Theorem table_overflow_refuted : exists m, bytes_ok m /\ zlen m = 512 /\ decode m = Ub.
Proof. exists (0 :: concat (repeat [6; 0] 255) ++ [6]). split; [apply bytes_ok_check; vm_compute; reflexivity|]. split; vm_compute; reflexivity. Qed.
(** ... that free a string twice ... *)
Theorem double_free_refuted : exists m rs, bytes_ok m /\ zlen m = 3 /\ decode m = Ok (Some rs) /\ resource_free rs = Ub.
Proof. exists [0; 6; 1], [RTxt [Freed]]. split; [apply bytes_ok_check; vm_compute; reflexivity|]. repeat split. Qed.
(** ... and data that is cut short is taken for a complete resource. *)
Theorem cut_accepted_refuted : exists m rs, bytes_ok m /\ decode m = Ok (Some rs) /\ forall rs', ~ resource m rs'.
Proof.
  exists [0; 1], [RNs []]. split; [apply bytes_ok_check; vm_compute; reflexivity|]. split; [reflexivity|]. intros rs' [_ R]. inversion R; subst.
  destruct (occurs_one _ _ _ H) as [E _]. cbn [skipn] in E. assert (Er : record_type r = 1) by congruence. destruct r; try discriminate.
  inversion H0; subst. match goal with H : name_at _ _ _ _ |- _ => destruct H as (ls & h & W & _) end. inversion W; subst; discriminate.
Qed.

(** The plain serialisation of a resource, without compression. *)
Definition record_bytes (r : record) : list Z :=
  record_type r ::
  match r with
  | RDs tag alg dt g => be_bytes 2 tag ++ [alg; dt; zlen g] ++ g
  | RNs n => name_wire n
  | RGlue4 n ip | RGlue6 n ip => name_wire n ++ ip
  | RSynth4 ip | RSynth6 ip => ip
  | RTxt l => zlen l :: concat (map (fun t => match t with Good s => zlen s :: s | _ => [] end) l)
  end.
Definition resource_bytes (rs : list record) : list Z := 0 :: concat (map record_bytes rs).
(** A record whose fields are complete. *)
Definition record_fine (r : record) : Prop :=
  record_left r /\
  match r with
  | RNs n | RGlue4 n _ | RGlue6 n _ => n <> []
  | RTxt l => forall t, In t l -> exists b, t = Good b
  | _ => True
  end.

Lemma name_wire_at n a c m : valid_name n -> m = a ++ name_wire n ++ c -> name_at m (length a) n (length (a ++ name_wire n)).
Proof.
  intros (ls & [F L] & ->) ->. rewrite name_wire_plain by auto. exists (wlabels ls), 0%nat. split; [now apply wire_plain|]. rewrite text_wlabels by auto. split; [lia|]. auto.
Qed.
Lemma record_body r a c m : record_fine r -> m = a ++ record_bytes r ++ c -> body m (S (length a)) r (length (a ++ record_bytes r)).
Proof.
  intros [L N] E. assert (El : forall b, length (a ++ record_type r :: b) = (S (length a) + length b)%nat) by (intros; rewrite app_length; cbn [length]; lia).
  assert (Oc : forall b, record_bytes r = record_type r :: b -> occurs m (S (length a)) b).
  { intros b Eb. exists (a ++ [record_type r]), c. rewrite <- app_assoc. cbn [app]. rewrite E, Eb. split; [reflexivity|]. rewrite app_length. cbn [length]. lia. }
  assert (Nm : forall n b, valid_name n -> record_bytes r = record_type r :: name_wire n ++ b -> name_at m (S (length a)) n (length (a ++ record_type r :: name_wire n)) /\ occurs m (length (a ++ record_type r :: name_wire n)) b).
  { intros n b V Eb. rewrite Eb in E. split.
    - pose proof (name_wire_at n (a ++ [record_type r]) (b ++ c) m V) as X. rewrite <- !app_assoc in X. cbn [app] in X. rewrite app_length in X. cbn [length] in X. rewrite Nat.add_1_r in X. apply X. rewrite E. cbn [app]. now rewrite <- app_assoc.
    - exists (a ++ record_type r :: name_wire n), c. split; [|reflexivity]. rewrite E. rewrite <- !app_assoc. cbn [app]. now rewrite <- app_assoc. }
  unfold record_bytes in *. destruct r; cbn [record_left record_type] in *.
  - rewrite El. replace (S (length a) + length (be_bytes 2 tag ++ [alg; dtype; zlen digest] ++ digest))%nat with (S (length a) + 5 + length digest)%nat by (rewrite !app_length, be_bytes_length; cbn [length]; lia).
    apply b_ds; try tauto. now apply Oc.
  - destruct L as [->|V]; [now destruct N|]. destruct (Nm name [] V) as [X _]; [now rewrite app_nil_r|]. now apply b_ns.
  - destruct L as [[->|V] [B Lip]]; [now destruct N|]. destruct (Nm name ip V eq_refl) as [X Y].
    replace (length (a ++ 2%Z :: name_wire name ++ ip)) with (length (a ++ 2%Z :: name_wire name) + 4)%nat by (rewrite !app_length; cbn [length]; rewrite app_length; lia). now apply b_glue4.
  - destruct L as [[->|V] [B Lip]]; [now destruct N|]. destruct (Nm name ip V eq_refl) as [X Y].
    replace (length (a ++ 3%Z :: name_wire name ++ ip)) with (length (a ++ 3%Z :: name_wire name) + 16)%nat by (rewrite !app_length; cbn [length]; rewrite app_length; lia). now apply b_glue6.
  - destruct L as [B Lip]. rewrite El, Lip. apply b_synth4; auto.
  - destruct L as [B Lip]. rewrite El, Lip. apply b_synth6; auto.
  - rewrite El. destruct L as [Ll F].
    assert (G : exists l, items = map Good l /\ Forall (fun s => zlen s <= 255) l).
    { clear - N F. induction items as [|t items IH]; [exists []; auto|]. inversion F; subst. destruct (N t (or_introl eq_refl)) as [b ->]. destruct IH as (l & -> & Fl); [auto|intros; apply N; now right|].
      exists (b :: l). split; [reflexivity|]. constructor; [apply H1|auto]. }
    destruct G as (l & -> & Fl). rewrite zlen_map in Ll. eapply b_txt; eauto.
    + rewrite zlen_map, map_map. reflexivity.
Qed.
Lemma records_bytes rs : forall a, Forall record_fine rs -> records (a ++ concat (map record_bytes rs)) (length a) rs (length (a ++ concat (map record_bytes rs))).
Proof.
  induction rs as [|r rs IH]; intros a F; cbn [map concat]; [rewrite app_nil_r; constructor|]. apply Forall_cons_iff in F as [Fr F].
  eapply r_cons.
  - exists a, (tl (record_bytes r) ++ concat (map record_bytes rs)). split; [|reflexivity]. reflexivity.
  - apply (record_body r a (concat (map record_bytes rs))); auto.
  - rewrite app_assoc. now apply IH.
Qed.
Lemma name_wire_ok n : valid_name n -> bytes_ok (name_wire n).
Proof. intros (ls & [F L] & ->). rewrite name_wire_plain by auto. now apply bytes_ok_plain. Qed.
Lemma record_bytes_ok r : record_fine r -> bytes_ok (record_bytes r).
Proof.
  intros [L N]. assert (Z255 : forall {A} (l : list A), zlen l <= 255 -> is_byte (zlen l)) by (intros A l Hl; pose proof (zlen_nonneg l); unfold is_byte; lia).
  unfold record_bytes. apply bytes_ok_cons. split; [destruct r; cbn; unfold is_byte; lia|]. destruct r; cbn [record_left] in L.
  - apply bytes_ok_app. split; [apply be_bytes_ok|]. apply bytes_ok_app. split; [|tauto]. constructor; [tauto|]. constructor; [tauto|]. constructor; [apply Z255; lia|constructor].
  - destruct L as [->|V]; [now destruct N|]. now apply name_wire_ok.
  - destruct L as [[->|V] [B _]]; [now destruct N|]. apply bytes_ok_app. split; [now apply name_wire_ok|auto].
  - destruct L as [[->|V] [B _]]; [now destruct N|]. apply bytes_ok_app. split; [now apply name_wire_ok|auto].
  - apply L.
  - apply L.
  - destruct L as [Ll F]. apply bytes_ok_cons. split; [now apply Z255|]. clear - F Z255. induction F as [|t l Ht F IH]; cbn [map concat]; [constructor|]. apply bytes_ok_app. split; [|auto].
    destruct t; try constructor; [apply Z255; apply Ht|apply Ht].
Qed.
(** C36 for the plain serialisation: every list of at most 255 complete records. *)
Theorem resource_roundtrip rs : Forall record_fine rs -> zlen rs <= 255 -> decode (resource_bytes rs) = Ok (Some rs) /\ resource_free rs = Ok tt.
Proof.
  intros F L. assert (R : resource (resource_bytes rs) rs).
  { split; [exists [], (concat (map record_bytes rs)); auto|]. exact (records_bytes rs [0] F). }
  split; [|exact (resource_frees _ _ R)]. apply resource_decodes; auto. apply bytes_ok_cons. split; [unfold is_byte; lia|]. clear - F. induction F as [|r rs H F IH]; cbn [map concat]; [constructor|].
  apply bytes_ok_app. split; [now apply record_bytes_ok|auto].
Qed.

(** ** A resource with every kind of record, the second name compressed *)
Definition sample : list Z :=
  [0; 1; 2; 110; 115; 1; 120; 0;  2; 1; 97; 192; 5; 1; 2; 3; 4;  0; 48; 57; 8; 2; 3; 7; 8; 9;  4; 10; 0; 0; 1;
   5; 0; 1; 2; 3; 4; 5; 6; 7; 8; 9; 10; 11; 12; 13; 14; 15;  6; 2; 1; 65; 0].
Definition sample_records : list record :=
  [RNs [110; 115; 46; 120; 46]; RGlue4 [97; 46; 120; 46] [1; 2; 3; 4]; RDs 12345 8 2 [7; 8; 9]; RSynth4 [10; 0; 0; 1];
   RSynth6 [0; 1; 2; 3; 4; 5; 6; 7; 8; 9; 10; 11; 12; 13; 14; 15]; RTxt [Good [65]; Good []]].
Example sample_decodes : decode sample = Ok (Some sample_records).
Proof. vm_compute. reflexivity. Qed.
Example sample_is_resource : resource sample sample_records.
Proof.
  assert (Oc : forall p b, firstn (length b) (skipn p sample) = b -> (p <= length sample)%nat -> occurs sample p b).
  { intros p b E L. exists (firstn p sample), (skipn (length b) (skipn p sample)). split; [|now apply firstn_length_le]. rewrite <- E at 1. now rewrite firstn_skipn, firstn_skipn. }
  split; [apply Oc; [reflexivity|cbn; lia]|].
  assert (N1 : name_at sample 2 [110; 115; 46; 120; 46] 8).
  { exists [[110; 115]; [120]], 0%nat. split; [|split; [lia|split; [vm_compute; discriminate|reflexivity]]].
    eapply w_label; [reflexivity|lia|reflexivity|reflexivity|]. eapply w_label; [reflexivity|lia|reflexivity|reflexivity|]. apply w_end. reflexivity. }
  assert (N2 : name_at sample 9 [97; 46; 120; 46] 13).
  { exists [[97]; [120]], 1%nat. split; [|split; [lia|split; [vm_compute; discriminate|reflexivity]]].
    eapply w_label; [reflexivity|lia|reflexivity|reflexivity|]. eapply w_ptr; [reflexivity|lia|reflexivity|reflexivity|]. eapply w_label; [reflexivity|lia|reflexivity|reflexivity|]. apply w_end. reflexivity. }
  eapply r_cons; [apply Oc; [reflexivity|cbn; lia]|apply b_ns; exact N1|].
  eapply r_cons; [apply Oc; [reflexivity|cbn; lia]|apply b_glue4; [exact N2|reflexivity|apply Oc; [reflexivity|cbn; lia]]|].
  eapply r_cons; [apply Oc; [reflexivity|cbn; lia]|apply b_ds; [lia|vm_compute; discriminate|apply Oc; [reflexivity|cbn; lia]]|].
  eapply r_cons; [apply Oc; [reflexivity|cbn; lia]|apply b_synth4; [reflexivity|apply Oc; [reflexivity|cbn; lia]]|].
  eapply r_cons; [apply Oc; [reflexivity|cbn; lia]|apply b_synth6; [reflexivity|apply Oc; [reflexivity|cbn; lia]]|].
  eapply r_cons; [apply Oc; [reflexivity|cbn; lia]| |apply r_nil].
  change [Good [65]; Good []] with (map Good [[65]; []]). eapply (b_txt sample 49 [[65]; []]); [vm_compute; discriminate| |reflexivity|apply Oc; [reflexivity|cbn; lia]].
  repeat (constructor; [vm_compute; discriminate|]). constructor.
Qed.
Example sample_fine : Forall record_fine sample_records /\ zlen (resource_bytes sample_records) = zlen sample + 1.
Proof.
  assert (V : forall ls, Forall plabel ls -> zlen (dotted ls) <= 255 -> valid_name (dotted ls)) by (intros; eexists; split; [split; eauto|reflexivity]).
  split; [|reflexivity]. assert (P : forall c l, (1 <= zlen l <= 63) -> Forall pchar l -> c = l -> plabel c) by (intros c l H1 H2 ->; now split).
  assert (B : forall l, forallb (fun b => (0 <=? b) && (b <? 256)) l = true -> bytes_ok l) by (intros l H; apply Forall_forall; intros x Hx; rewrite forallb_forall in H; specialize (H x Hx); unfold is_byte; lia).
  assert (V1 : valid_name [110; 115; 46; 120; 46]).
  { apply (V [[110; 115]; [120]]); [|vm_compute; discriminate]. repeat (constructor; [split; [unfold zlen; cbn; lia|repeat (constructor; [unfold pchar; lia|]); constructor]|]). constructor. }
  assert (V2 : valid_name [97; 46; 120; 46]).
  { apply (V [[97]; [120]]); [|vm_compute; discriminate]. repeat (constructor; [split; [unfold zlen; cbn; lia|repeat (constructor; [unfold pchar; lia|]); constructor]|]). constructor. }
  unfold sample_records. constructor; [split; [now right|discriminate]|]. constructor; [split; [split; [now right|split; [apply B|]; reflexivity]|discriminate]|].
  constructor; [split; [|exact I]; cbn [record_left]; unfold is_byte; repeat (split; [first [lia|apply B; reflexivity]|]); vm_compute; discriminate|].
  constructor; [split; [split; [apply B|]; reflexivity|exact I]|]. constructor; [split; [split; [apply B|]; reflexivity|exact I]|]. constructor; [|constructor].
  split; [split; [vm_compute; discriminate|]|].
  - repeat (constructor; [split; [apply B; reflexivity|vm_compute; discriminate]|]). constructor.
  - intros t [<-|[<-|[]]]; eexists; reflexivity.
Qed.

Print Assumptions resource_decodes.
Print Assumptions unknown_rejected.
Print Assumptions version_rejected.
Print Assumptions decode_safe_partial.
Print Assumptions free_exact.
Print Assumptions resource_frees.
Print Assumptions resource_roundtrip.
Print Assumptions table_overflow_refuted.
Print Assumptions double_free_refuted.
Print Assumptions cut_accepted_refuted.
