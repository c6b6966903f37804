(** C81: the command line. *)
From Verif Require Import Common CommonFacts ProofFacts Base32Model AddrModel UtilTheorems AddrTheorems OptModel OptSpec.
From Coq Require Import Lia.

(** ** Specification that uses C52 (hexadecimal) and the text of addresses (C60) *)
(** 64 hexadecimal digits in any case, and the key they stand for *)
Definition key_of (s k : list Z) : Prop := zlen s = 64 /\ bytes_ok k /\ hex_form k (map lower s).
Definition port_of (N : names) (c : Z) : Z := if c =? 110 then n_ns N else if c =? 114 then n_rs N else 0.
Definition with_arg : list Z := takes_text ++ takes_addr ++ [112; 107].
Inductive refused (N : names) : event -> Prop :=
| no_text c a : In c with_arg -> a = None \/ a = Some [] -> refused N (c, a)
| bad_addr c s : In c takes_addr -> from_string (n_ports N) s (port_of N c) = Ok None -> refused N (c, Some s)
| bad_size s : ~ 1 <= number s <= 1000 -> refused N (112, Some s)
| bad_key s : (forall k, ~ key_of s k) -> refused N (107, Some s)
| unknown a : refused N (63, a).
(** The version or the help *)
Definition informs (e : event) : Prop := fst e = 118 \/ fst e = 104.
Definition exits (N : names) (e : event) (code : Z) : Prop := (informs e /\ code = 0) \/ (refused N e /\ code = 1).
Definition fine (N : names) (e : event) : Prop := ~ informs e /\ ~ refused N e.
(** What getopt_long can return here: arguments of bytes, and a number that is an int *)
Definition ok_event (e : event) : Prop :=
  match snd e with None => True | Some s => bytes_ok s /\ (fst e = 112 -> -2147483648 <= number s <= 2147483647) end.
Definition net_ok (N : names) : Prop := ports_ok (n_ports N) /\ 0 <= n_ns N < 65536 /\ 0 <= n_rs N < 65536.
(** The address [s] as given by the last option with letter [c], and else [d] *)
Definition addr_meaning (N : names) (c : Z) (es : list event) (s : sa) (d : Prop) : Prop :=
  match last_arg c es with
  | Some t => exists a, from_string (n_ports N) t (port_of N c) = Ok (Some a) /\ s = to_sa a None
  | None => d
  end.
Definition loopback (port : Z) : sa := {| sa_v4 := true; sa_ip := [127; 0; 0; 1]; sa_port := port; sa_scope := None |}.
Record common (N : names) (es : list event) (o : opts) (l : locals) : Prop := {
  m_config : o_config o = last_arg 99 es;
  m_rsconf : o_rsconf o = last_arg 117 es;
  m_seeds : o_seeds o = last_arg 115 es;
  m_agent : o_agent o = last_arg 97 es;
  m_prefix : o_prefix o = last_arg 120 es;
  m_log : l_log l = last_arg 108 es;
  m_check : o_check o = true <-> given 116 es;
  m_back : l_back l = true <-> given 100 es;
  m_ip : l_ip l = true <-> given 105 es;
  m_size : o_size o = match last_arg 112 es with Some s => number s | None => 8 end;
  m_key : match last_arg 107 es with Some s => o_key o = true /\ key_of s (o_keybuf o) | None => o_key o = false /\ o_keybuf o = repeat 0 32 end;
  m_ns : addr_meaning N 110 es (o_ns o) (o_ns o = loopback (n_ns N));
  m_rs : addr_meaning N 114 es (o_rs o) (o_rs o = loopback (n_rs N)) }.
(** The address for records is that of -i, and without -i that of the name server *)
Definition meaning (N : names) (es : list event) (o : opts) (l : locals) : Prop :=
  common N es o l /\ addr_meaning N 105 es (o_ip o) (o_ip o = o_ns o).

(** ** Lemmas *)
Lemma space_blank c : space c = blank c.
Proof. unfold space, blank. cbn [existsb]. rewrite orb_false_r. destruct (Z.eqb_spec c 32); [subst; reflexivity|]. cbn [orb]. destruct (Z.leb_spec 9 c), (Z.leb_spec c 13); cbn [andb]; repeat match goal with |- context [c =? ?k] => destruct (Z.eqb_spec c k) end; cbn [orb]; try reflexivity; lia. Qed.
Lemma skip_span s : skip_space s = snd (span blank s).
Proof. induction s as [|c s IH]; [reflexivity|]. cbn [skip_space span]. rewrite space_blank. destruct (blank c); [|reflexivity]. rewrite IH. destruct (span blank s). reflexivity. Qed.
Lemma digit_range c : ((48 <=? c) && (c <=? 57)) = digit c.
Proof. unfold digit. cbn [existsb]. rewrite orb_false_r. destruct (Z.leb_spec 48 c), (Z.leb_spec c 57); cbn [andb]; repeat match goal with |- context [c =? ?k] => destruct (Z.eqb_spec c k) end; cbn [orb]; try reflexivity; lia. Qed.
Lemma digits_span s : forall v, digits v s = fold_left (fun v c => 10 * v + (c - 48)) (fst (span digit s)) v.
Proof. induction s as [|c s IH]; intros v; [reflexivity|]. cbn [digits span]. rewrite digit_range. destruct (digit c); [|reflexivity]. rewrite IH. destruct (span digit s). reflexivity. Qed.
Lemma atoi_number s : -2147483648 <= number s <= 2147483647 -> atoi s = Ok (number s).
Proof.
  intros R. assert (E : match skip_space s with c :: r => if c =? 45 then - digits 0 r else if c =? 43 then digits 0 r else digits 0 (skip_space s) | [] => 0 end = number s).
  { unfold number. rewrite skip_span. destruct (snd (span blank s)) as [|c r]; [reflexivity|]. destruct (Z.eqb_spec c 45) as [->|N5]; [unfold decimal; now rewrite <- digits_span|]. destruct (Z.eqb_spec c 43) as [->|N3]; [unfold decimal; now rewrite <- digits_span|].
    transitivity (decimal (fst (span digit (c :: r)))); [unfold decimal; now rewrite <- digits_span|]. destruct c as [|c|c]; try reflexivity. do 6 (destruct c as [c|c|]; try reflexivity); now destruct N5 || now destruct N3. }
  unfold atoi. cbv zeta. rewrite E. destruct (Z.leb_spec (-2147483648) (number s)), (Z.leb_spec (number s) 2147483647); try lia. reflexivity.
Qed.
Lemma hex_form_len k t : hex_form k t -> zlen t = 2 * zlen k.
Proof. induction 1; [reflexivity|]. rewrite !zlen_cons. lia. Qed.
Lemma key_len s k : key_of s k -> length k = 32%nat.
Proof. intros (L & _ & F). apply hex_form_len in F. unfold zlen in *. rewrite map_length in F. lia. Qed.
(** The check of a key: both tests together accept exactly the keys *)
Lemma key_check s : bytes_ok s -> (exists k, key_of s k /\ hex_decode_size s = 32 /\ hex_decode s = (true, k)) \/ ((forall k, ~ key_of s k) /\ (hex_decode_size s <> 32 \/ fst (hex_decode s) = false)).
Proof.
  intros B. destruct (hex_decoding_exact s B) as (H1 & H2 & H3 & H4). destruct (hex_decode s) as [ok b] eqn:E. cbn [fst snd] in *.
  assert (S : hex_decode_size s = zlen s / 2) by (unfold hex_decode_size; rewrite shiftr_div by lia; reflexivity).
  destruct (Z.eq_dec (hex_decode_size s) 32) as [E32|N32].
  - destruct ok.
    + left. exists b. split; [|now split]. split; [|split; [exact H2|apply (H1 b H2); reflexivity]]. destruct (proj1 H4 eq_refl) as [Ev _]. apply Z.even_spec in Ev as [q Q]. rewrite S in E32. rewrite Q in E32 |- *. rewrite Z.mul_comm, Z.div_mul in E32 by lia. lia.
    + right. split; [|now right]. intros k (L & Bk & F). apply (H1 k Bk) in F. discriminate F.
  - right. split; [|now left]. intros k (L & _). apply N32. rewrite S, L. reflexivity.
Qed.

(** One option: the field that it changes *)
Definition arg_or (c k : Z) (arg old : option (list Z)) : option (list Z) := if c =? k then arg else old.
Record changed (N : names) (e : event) (o : opts) (l : locals) (o' : opts) (l' : locals) : Prop := {
  c_config : o_config o' = arg_or (fst e) 99 (snd e) (o_config o);
  c_rsconf : o_rsconf o' = arg_or (fst e) 117 (snd e) (o_rsconf o);
  c_seeds : o_seeds o' = arg_or (fst e) 115 (snd e) (o_seeds o);
  c_agent : o_agent o' = arg_or (fst e) 97 (snd e) (o_agent o);
  c_prefix : o_prefix o' = arg_or (fst e) 120 (snd e) (o_prefix o);
  c_log : l_log l' = arg_or (fst e) 108 (snd e) (l_log l);
  c_check : o_check o' = o_check o || (fst e =? 116);
  c_back : l_back l' = l_back l || (fst e =? 100);
  c_ip : l_ip l' = l_ip l || (fst e =? 105);
  c_size : if fst e =? 112 then exists s, snd e = Some s /\ o_size o' = number s else o_size o' = o_size o;
  c_key : if fst e =? 107 then exists s, snd e = Some s /\ o_key o' = true /\ key_of s (o_keybuf o') else o_key o' = o_key o /\ o_keybuf o' = o_keybuf o;
  c_ns : if fst e =? 110 then exists s a, snd e = Some s /\ from_string (n_ports N) s (n_ns N) = Ok (Some a) /\ o_ns o' = to_sa a (sa_scope (o_ns o)) else o_ns o' = o_ns o;
  c_rs : if fst e =? 114 then exists s a, snd e = Some s /\ from_string (n_ports N) s (n_rs N) = Ok (Some a) /\ o_rs o' = to_sa a (sa_scope (o_rs o)) else o_rs o' = o_rs o;
  c_addr : if fst e =? 105 then exists s a, snd e = Some s /\ from_string (n_ports N) s 0 = Ok (Some a) /\ o_ip o' = to_sa a (sa_scope (o_ip o)) else o_ip o' = o_ip o }.
Ltac closing := first [match goal with H : Some _ = None \/ _ |- _ => destruct H; congruence end | congruence | cbn [In with_arg takes_text takes_addr app] in *; intuition (congruence || lia)].
Ltac in_list := first [left; reflexivity | right; in_list].
Ltac not_fine := split; [intros [F|F]; cbn in F; lia | let X := fresh in intros X; inversion X; subst; closing].
Lemma handle_exact N e o l : net_ok N -> ok_event e -> length (o_keybuf o) = 32%nat ->
  (exists code, exits N e code /\ handle N e o l = Ok (Leave code)) \/
  (fine N e /\ exists o' l', handle N e o l = Ok (Go o' l') /\ changed N e o l o' l' /\ length (o_keybuf o') = 32%nat).
Proof.
  intros (Pk & Rn & Rr) Oe Lb. destruct e as [c arg].
  assert (T : In c with_arg -> arg = None \/ arg = Some [] -> exists code, exits N (c, arg) code /\ code = 1) by (intros I A; exists 1; split; [right; split; [now constructor|reflexivity]|reflexivity]).
  unfold handle. cbv zeta.
  destruct (Z.eqb_spec c 118) as [->|N118]; [left; exists 0; split; [left; split; [now left|reflexivity]|reflexivity]|].
  destruct (Z.eqb_spec c 104) as [->|N104]; [left; exists 0; split; [left; split; [now right|reflexivity]|reflexivity]|].
  assert (Txt : forall k (f : list Z -> outcome act), c = k -> In k with_arg ->
    (forall s, s <> [] -> arg = Some s -> (exists code, exits N (c, arg) code /\ f s = Ok (Leave code)) \/ (fine N (c, arg) /\ exists o' l', f s = Ok (Go o' l') /\ changed N (c, arg) o l o' l' /\ length (o_keybuf o') = 32%nat)) ->
    (exists code, exits N (c, arg) code /\ match (match arg with Some (b :: r) => Some (b :: r) | _ => None end) with None => Ok (Leave 1) | Some s => f s end = Ok (Leave code)) \/
    (fine N (c, arg) /\ exists o' l', match (match arg with Some (b :: r) => Some (b :: r) | _ => None end) with None => Ok (Leave 1) | Some s => f s end = Ok (Go o' l') /\ changed N (c, arg) o l o' l' /\ length (o_keybuf o') = 32%nat)).
  { intros k f -> I H. destruct arg as [[|b r]|]; [left; destruct (T I (or_intror eq_refl)) as (code & X & ->); eauto|apply H; [discriminate|reflexivity]|left; destruct (T I (or_introl eq_refl)) as (code & X & ->); eauto]. }
  assert (Adr : forall k old port f, c = k -> In k takes_addr -> port_of N k = port -> 0 <= port < 65536 ->
    (forall s a, s <> [] -> arg = Some s -> from_string (n_ports N) s port = Ok (Some a) -> exists o' l', f (to_sa a (sa_scope old)) = Go o' l' /\ changed N (c, arg) o l o' l' /\ length (o_keybuf o') = 32%nat) ->
    forall s, s <> [] -> arg = Some s -> (exists code, exits N (c, arg) code /\ obind (sa_from_string (n_ports N) (sa_scope old) s port) (fun r => Ok (match r with None => Leave 1 | Some a => f a end)) = Ok (Leave code)) \/
      (fine N (c, arg) /\ exists o' l', obind (sa_from_string (n_ports N) (sa_scope old) s port) (fun r => Ok (match r with None => Leave 1 | Some a => f a end)) = Ok (Go o' l') /\ changed N (c, arg) o l o' l' /\ length (o_keybuf o') = 32%nat)).
  { intros k old port f -> I Ep Rp H s Ns ->. destruct Oe as [Bs _]. cbn [snd] in Bs. destruct (reading_an_address_is_safe (n_ports N) s port Pk Bs Rp) as (r & E & _). unfold sa_from_string. rewrite E. cbn [obind]. destruct r as [a|]; cbn [option_map].
    - right. destruct (H s a Ns eq_refl E) as (o' & l' & -> & X). split; [|exists o', l'; split; [reflexivity|exact X]]. subst port. clear - I Ns E N118 N104. split; [intros [F|F]; cbn in F; lia|]. intros X. inversion X; subst; closing.
    - left. exists 1. split; [right; split; [|reflexivity]; apply bad_addr; [exact I|now rewrite Ep]|reflexivity]. }
  assert (Fn : forall s, s <> [] -> arg = Some s -> In c takes_text -> fine N (c, arg)).
  { intros s Ns -> I. split; [intros [F|F]; cbn in F; lia|]. intros X. clear - X I Ns. inversion X; subst; closing. }
  destruct (Z.eqb_spec c 99) as [->|N99]; [eapply Txt; [reflexivity|in_list|]; intros s Ns Es; right; split; [apply (Fn s Ns Es); in_list|]; do 2 eexists; split; [reflexivity|]; rewrite Es; split; [constructor; unfold arg_or; cbn; cbv beta iota delta [Z.eqb Pos.eqb]; rewrite ?orb_false_r; auto|exact Lb]|].
  destruct (Z.eqb_spec c 110) as [->|N110]; [eapply Txt; [reflexivity|in_list|]; apply (Adr 110 (o_ns o) (n_ns N)); [reflexivity|in_list|reflexivity|exact Rn|]; intros s a Ns Es Ea; do 2 eexists; split; [reflexivity|]; rewrite Es; split; [constructor; unfold arg_or; cbn; cbv beta iota delta [Z.eqb Pos.eqb]; rewrite ?orb_false_r; eauto|exact Lb]|].
  destruct (Z.eqb_spec c 114) as [->|N114]; [eapply Txt; [reflexivity|in_list|]; apply (Adr 114 (o_rs o) (n_rs N)); [reflexivity|in_list|reflexivity|exact Rr|]; intros s a Ns Es Ea; do 2 eexists; split; [reflexivity|]; rewrite Es; split; [constructor; unfold arg_or; cbn; cbv beta iota delta [Z.eqb Pos.eqb]; rewrite ?orb_false_r; eauto|exact Lb]|].
  destruct (Z.eqb_spec c 105) as [->|N105]; [eapply Txt; [reflexivity|in_list|]; apply (Adr 105 (o_ip o) 0); [reflexivity|in_list|reflexivity|lia|]; intros s a Ns Es Ea; do 2 eexists; split; [reflexivity|]; rewrite Es; split; [constructor; unfold arg_or; cbn; cbv beta iota delta [Z.eqb Pos.eqb]; rewrite ?orb_false_r, ?orb_true_r; eauto|exact Lb]|].
  destruct (Z.eqb_spec c 117) as [->|N117]; [eapply Txt; [reflexivity|in_list|]; intros s Ns Es; right; split; [apply (Fn s Ns Es); in_list|]; do 2 eexists; split; [reflexivity|]; rewrite Es; split; [constructor; unfold arg_or; cbn; cbv beta iota delta [Z.eqb Pos.eqb]; rewrite ?orb_false_r; auto|exact Lb]|].
  destruct (Z.eqb_spec c 112) as [->|N112].
  { eapply Txt; [reflexivity|in_list|]. intros s Ns Es. subst arg. destruct Oe as [Bs Rs]. rewrite (atoi_number s (Rs eq_refl)). cbn [obind]. destruct (Z.leb_spec (number s) 0), (Z.ltb_spec 1000 (number s)); cbn [orb]; try (left; exists 1; split; [right; split; [apply bad_size; lia|reflexivity]|reflexivity]).
    right. split; [not_fine|]. do 2 eexists. split; [reflexivity|]. split; [constructor; unfold arg_or; cbn; cbv beta iota delta [Z.eqb Pos.eqb]; rewrite ?orb_false_r; eauto|exact Lb]. }
  destruct (Z.eqb_spec c 107) as [->|N107].
  { eapply Txt; [reflexivity|in_list|]. intros s Ns Es. subst arg. destruct Oe as [Bs Rs]. cbn [snd] in Bs. destruct (key_check s Bs) as [(k & Kk & E1 & E2)|[Nk W]].
    - right. rewrite E1, E2. cbn [Z.eqb Pos.eqb negb]. pose proof (key_len s k Kk) as Lk. assert (Zk : (32 <? zlen k) = false) by (unfold zlen; rewrite Lk; reflexivity). rewrite Zk. split; [split; [intros [F|F]; cbn in F; lia|]; intros X; inversion X; subst; first [match goal with H : forall k, ~ key_of s k |- _ => exact (H k Kk) end|closing]|].
      do 2 eexists. split; [reflexivity|]. assert (Ek : k ++ skipn (length k) (o_keybuf o) = k) by (rewrite Lk, <- Lb, skipn_all; apply app_nil_r). split; [constructor; cbn [fst snd o_config o_rsconf o_seeds o_agent o_prefix l_log o_check l_back l_ip o_size o_key o_keybuf o_ns o_rs o_ip]; rewrite ?Ek; unfold arg_or; cbv beta iota delta [Z.eqb Pos.eqb]; rewrite ?orb_false_r; eauto|cbn [o_keybuf]; now rewrite Ek].
    - left. exists 1. split; [right; split; [now apply bad_key|reflexivity]|]. destruct W as [W|W]; [rewrite (proj2 (Z.eqb_neq _ _) W); reflexivity|]. destruct (hex_decode_size s =? 32); [|reflexivity]. destruct (hex_decode s) as [ok b]. cbn [fst] in W. subst ok. reflexivity. }
  destruct (Z.eqb_spec c 115) as [->|N115]; [eapply Txt; [reflexivity|in_list|]; intros s Ns Es; right; split; [apply (Fn s Ns Es); in_list|]; do 2 eexists; split; [reflexivity|]; rewrite Es; split; [constructor; unfold arg_or; cbn; cbv beta iota delta [Z.eqb Pos.eqb]; rewrite ?orb_false_r; auto|exact Lb]|].
  destruct (Z.eqb_spec c 108) as [->|N108]; [eapply Txt; [reflexivity|in_list|]; intros s Ns Es; right; split; [apply (Fn s Ns Es); in_list|]; do 2 eexists; split; [reflexivity|]; rewrite Es; split; [constructor; unfold arg_or; cbn; cbv beta iota delta [Z.eqb Pos.eqb]; rewrite ?orb_false_r; auto|exact Lb]|].
  destruct (Z.eqb_spec c 97) as [->|N97]; [eapply Txt; [reflexivity|in_list|]; intros s Ns Es; right; split; [apply (Fn s Ns Es); in_list|]; do 2 eexists; split; [reflexivity|]; rewrite Es; split; [constructor; unfold arg_or; cbn; cbv beta iota delta [Z.eqb Pos.eqb]; rewrite ?orb_false_r; auto|exact Lb]|].
  destruct (Z.eqb_spec c 120) as [->|N120]; [eapply Txt; [reflexivity|in_list|]; intros s Ns Es; right; split; [apply (Fn s Ns Es); in_list|]; do 2 eexists; split; [reflexivity|]; rewrite Es; split; [constructor; unfold arg_or; cbn; cbv beta iota delta [Z.eqb Pos.eqb]; rewrite ?orb_false_r; auto|exact Lb]|].
  destruct (Z.eqb_spec c 116) as [->|N116]; [right; split; [clear; not_fine|]; do 2 eexists; split; [reflexivity|]; split; [constructor; unfold arg_or; cbn; cbv beta iota delta [Z.eqb Pos.eqb]; rewrite ?orb_false_r, ?orb_true_r; auto|exact Lb]|].
  destruct (Z.eqb_spec c 100) as [->|N100]; [right; split; [clear; not_fine|]; do 2 eexists; split; [reflexivity|]; split; [constructor; unfold arg_or; cbn; cbv beta iota delta [Z.eqb Pos.eqb]; rewrite ?orb_false_r, ?orb_true_r; auto|exact Lb]|].
  destruct (Z.eqb_spec c 63) as [->|N63]; [left; exists 1; split; [right; split; [apply unknown|reflexivity]|reflexivity]|].
  right. split; [clear - N118 N104 N99 N110 N114 N105 N117 N112 N107 N115 N108 N97 N120 N63; not_fine|]. exists o, l. split; [reflexivity|].
  split; [|exact Lb]. constructor; unfold arg_or; cbn [fst snd]; repeat match goal with |- context [c =? ?k] => destruct (Z.eqb_spec c k); [congruence|] end; rewrite ?orb_false_r; auto.
Qed.
Lemma last_arg_snoc c es e : last_arg c (es ++ [e]) = arg_or (fst e) c (snd e) (last_arg c es).
Proof. unfold last_arg. rewrite fold_left_app. reflexivity. Qed.
Lemma given_snoc c es e (b b' : bool) : (b = true <-> given c es) -> b' = b || (fst e =? c) -> (b' = true <-> given c (es ++ [e])).
Proof.
  intros H ->. rewrite orb_true_iff, H, Z.eqb_eq. unfold given. split.
  - intros [[a I]|E]; [exists a; apply in_or_app; now left|]. exists (snd e). apply in_or_app. right. left. destruct e. cbn in *. now subst.
  - intros [a I]. apply in_app_or in I as [I|[->|[]]]; [left; now exists a|right; reflexivity].
Qed.
Lemma not_given c es : ~ given c es -> last_arg c es = None.
Proof.
  unfold last_arg. generalize (@None (list Z)). induction es as [|e es IH]; intros r H; [reflexivity|]. cbn [fold_left]. destruct (Z.eqb_spec (fst e) c) as [E|_]; [destruct H; exists (snd e); left; destruct e; cbn in *; now subst|]. apply IH. intros [a I]. apply H. exists a. now right.
Qed.
Lemma to_sa_scope a s : sa_scope (to_sa a s) = s.
Proof. unfold to_sa. now destruct (is_mapped a). Qed.
Lemma scope_none N c es s port : addr_meaning N c es s (s = loopback port) -> sa_scope s = None.
Proof. unfold addr_meaning. destruct (last_arg c es); [intros (a & _ & ->); apply to_sa_scope|intros ->; reflexivity]. Qed.
Lemma addr_snoc N c es e s s' port d : port_of N c = port -> addr_meaning N c es s (s = d) -> sa_scope s = None ->
  (if fst e =? c then exists t a, snd e = Some t /\ from_string (n_ports N) t port = Ok (Some a) /\ s' = to_sa a (sa_scope s) else s' = s) -> addr_meaning N c (es ++ [e]) s' (s' = d).
Proof.
  intros Ep M Sc H. unfold addr_meaning in *. rewrite last_arg_snoc. unfold arg_or. destruct (fst e =? c).
  - destruct H as (t & a & -> & F & ->). exists a. rewrite Ep, Sc. now split.
  - subst s'. exact M.
Qed.
Lemma step_common N es e o l o' l' : common N es o l -> changed N e o l o' l' -> common N (es ++ [e]) o' l'.
Proof.
  intros [A1 A2 A3 A4 A5 A6 A7 A8 A9 A10 A11 A12 A13] [B1 B2 B3 B4 B5 B6 B7 B8 B9 B10 B11 B12 B13 B14].
  constructor; rewrite ?last_arg_snoc; try congruence; try (eapply given_snoc; eassumption).
  - unfold arg_or. destruct (fst e =? 112); [destruct B10 as (s & -> & ->); reflexivity|congruence].
  - unfold arg_or. destruct (fst e =? 107); [destruct B11 as (s & -> & -> & K); now split|]. destruct B11 as [-> ->]. exact A11.
  - eapply addr_snoc; [reflexivity|exact A12|eapply scope_none; exact A12|exact B12].
  - eapply addr_snoc; [reflexivity|exact A13|eapply scope_none; exact A13|exact B13].
Qed.
Lemma loop_exact N : net_ok N -> forall es pre o l, Forall ok_event es -> length (o_keybuf o) = 32%nat -> common N pre o l -> addr_meaning N 105 pre (o_ip o) (o_ip o = loopback (pt_plain (n_ports N))) ->
  (exists a e b code, es = a ++ e :: b /\ Forall (fine N) a /\ exits N e code /\ parse_loop N es o l = Ok (Leave code)) \/
  (Forall (fine N) es /\ exists o' l', parse_loop N es o l = Ok (Go o' l') /\ common N (pre ++ es) o' l' /\ addr_meaning N 105 (pre ++ es) (o_ip o') (o_ip o' = loopback (pt_plain (n_ports N)))).
Proof.
  intros Nk. induction es as [|e es IH]; intros pre o l F Lb C A; cbn [parse_loop]; [right; split; [constructor|]; exists o, l; rewrite app_nil_r; auto|].
  inversion F as [|? ? Oe Fe]. subst. destruct (handle_exact N e o l Nk Oe Lb) as [(code & X & ->)|(Fi & o' & l' & -> & Ch & Lb')]; cbn [obind].
  - left. exists [], e, es, code. split; [reflexivity|]. split; [constructor|]. now split.
  - assert (A' : addr_meaning N 105 (pre ++ [e]) (o_ip o') (o_ip o' = loopback (pt_plain (n_ports N)))) by (eapply addr_snoc; [reflexivity|exact A|eapply scope_none; exact A|exact (c_addr _ _ _ _ _ _ Ch)]).
    destruct (IH (pre ++ [e]) o' l' Fe Lb' (step_common _ _ _ _ _ _ _ C Ch) A') as [(a & x & b & code & -> & Fa & X & E)|(Fa & o2 & l2 & E & C2 & A2)].
    + left. exists (e :: a), x, b, code. split; [reflexivity|]. split; [now constructor|]. now split.
    + right. split; [now constructor|]. exists o2, l2. rewrite <- app_assoc in C2, A2. auto.
Qed.
Lemma home_addr P port : 0 <= port < 65536 -> sa_from_string P None home port = Ok (Some (loopback (if port =? 0 then pt_plain P else port))).
Proof. intros R. unfold sa_from_string, from_string, home. cbn [split_at Z.eqb Pos.eqb]. unfold split_host. cbn [split_at Z.eqb Pos.eqb]. unfold host_addr. change (46 <? zlen [49; 50; 55; 46; 48; 46; 48; 46; 49]) with false. cbv iota. change (pton4 [49; 50; 55; 46; 48; 46; 48; 46; 49]) with (Some [127; 0; 0; 1]). destruct (port =? 0); reflexivity. Qed.

(** ** Theorems *)
(** The first option that is refused or asks for the version or the help decides; otherwise a
    word that is no option is refused; otherwise the daemon starts with the last argument of
    each option, and a default for those that are not given. *)
Theorem command_line_exact N es extra : net_ok N -> 0 < n_ns N -> 0 < n_rs N -> Forall ok_event es ->
  (exists a e b code, es = a ++ e :: b /\ Forall (fine N) a /\ exits N e code /\ command_line N es extra = Ok (Leave code)) \/
  (Forall (fine N) es /\ extra = true /\ command_line N es extra = Ok (Leave 1)) \/
  (Forall (fine N) es /\ extra = false /\ exists o l, command_line N es extra = Ok (Go o l) /\ meaning N es o l).
Proof.
  intros Nk Pn Pr F. pose proof Nk as (_ & Rn & Rr). unfold command_line, opts_init. cbv zeta. rewrite !home_addr by lia. cbn [obind]. rewrite (proj2 (Z.eqb_neq (n_ns N) 0)) by lia. rewrite (proj2 (Z.eqb_neq (n_rs N) 0)) by lia. change (0 =? 0) with true. cbv iota.
  unfold parse_arg. set (o0 := {| o_config := None; o_ns := _ |}).
  assert (C0 : common N [] o0 locals_init).
  { constructor; try reflexivity; try (split; [discriminate|intros [a []]]). now split. }
  destruct (loop_exact N Nk es [] o0 locals_init F eq_refl C0 eq_refl) as [(a & e & b & code & E & Fa & X & P)|(Fa & o & l & P & C & A)]; rewrite P; cbn [obind].
  - left. exists a, e, b, code. auto.
  - right. destruct extra; [left; auto|]. right. split; [exact Fa|]. split; [reflexivity|]. cbn [app] in C, A. destruct (l_ip l) eqn:Li.
    + exists o, l. split; [reflexivity|]. split; [exact C|]. unfold addr_meaning in *. destruct (last_arg 105 es) eqn:La; [exact A|]. exfalso. apply (proj1 (m_ip _ _ _ _ C)) in Li. destruct Li as [x I]. clear - I La Fa.
      assert (G : forall r, fold_left (fun r e => if fst e =? 105 then snd e else r) es r = None -> (exists x, In (105, x) es) -> False).
      { clear I La x. induction es as [|e es IH] using rev_ind; intros r E [x I]; [destruct I|]. rewrite fold_left_app in E. cbn [fold_left] in E. apply Forall_app in Fa as [F1 F2]. apply Forall_inv in F2. apply in_app_or in I as [I|[->|[]]].
        - destruct (fst e =? 105) eqn:Ee; [|now apply (IH F1 r E); exists x]. destruct e as [c s]. cbn in *. subst s. apply Z.eqb_eq in Ee. subst c. destruct F2 as [_ F2]. apply F2. apply no_text; [in_list|now left].
        - cbn [fst snd] in E. rewrite Z.eqb_refl in E. subst x. destruct F2 as [_ F2]. apply F2. apply no_text; [in_list|now left]. }
      apply (G _ La). now exists x.
    + eexists _, l. split; [reflexivity|]. assert (Sn : sa_scope (o_ns o) = None) by (eapply scope_none; exact (m_ns _ _ _ _ C)). assert (Si : sa_scope (o_ip o) = None) by (eapply scope_none; exact A). split.
      * destruct C. now constructor.
      * unfold addr_meaning. rewrite not_given; [|intros G; apply (proj2 (m_ip _ _ _ _ C)) in G; congruence]. cbn [o_ip o_ns]. unfold sa_copy. rewrite Sn, Si. destruct (o_ns o) as [v ip p s]. cbn in *. subst s. now destruct v.
Qed.

(** What a daemon that starts can rely on *)
Theorem accepted_options N es o l : net_ok N -> 0 < n_ns N -> 0 < n_rs N -> Forall ok_event es -> command_line N es false = Ok (Go o l) ->
  1 <= o_size o <= 1000 /\ (o_key o = true -> length (o_keybuf o) = 32%nat /\ bytes_ok (o_keybuf o)) /\ o_config o <> Some [] /\ o_rsconf o <> Some [] /\ o_seeds o <> Some [] /\ o_agent o <> Some [] /\ o_prefix o <> Some [].
Proof.
  intros Nk Pn Pr F E. destruct (command_line_exact N es false Nk Pn Pr F) as [(a & e & b & code & _ & _ & _ & X)|[(_ & X & _)|(Fi & _ & o1 & l1 & X & C & _)]]; [rewrite X in E; discriminate E|discriminate X|]. rewrite X in E. apply Ok_inj in E. injection E as -> ->.
  assert (G : forall c t, In c with_arg -> last_arg c es = Some t -> In (c, Some t) es /\ t <> []).
  { intros c t I La. assert (H : forall r, fold_left (fun r e => if fst e =? c then snd e else r) es r = Some t -> r = Some t \/ In (c, Some t) es).
    { clear. induction es as [|e es IH]; intros r E; [now left|]. cbn [fold_left] in E. apply IH in E as [E|E]; [|right; now right]. destruct (Z.eqb_spec (fst e) c); [right; left; destruct e; cbn in *; congruence|now left]. }
    destruct (H None La) as [Z0|J]; [discriminate Z0|]. split; [exact J|]. intros ->. apply (proj1 (Forall_forall _ _) Fi) in J. destruct J as [_ J]. apply J. apply no_text; [exact I|now right]. }
  destruct C as [A1 A2 A3 A4 A5 A6 A7 A8 A9 A10 A11 A12 A13]. split.
  - rewrite A10. destruct (last_arg 112 es) as [s|] eqn:La; [|lia]. destruct (G 112 s ltac:(in_list) La) as [J _]. apply (proj1 (Forall_forall _ _) Fi) in J. destruct J as [_ J]. destruct (Z_le_dec 1 (number s)), (Z_le_dec (number s) 1000); try lia; exfalso; apply J; apply bad_size; lia.
  - split; [intros K; destruct (last_arg 107 es); [destruct A11 as [_ A11]; split; [eapply key_len; exact A11|apply A11]|destruct A11; congruence]|].
    split; [rewrite A1; intros X1; apply (G 99 [] ltac:(in_list)) in X1 as [_ X1]; now destruct X1|]. split; [rewrite A2; intros X1; apply (G 117 [] ltac:(in_list)) in X1 as [_ X1]; now destruct X1|].
    split; [rewrite A3; intros X1; apply (G 115 [] ltac:(in_list)) in X1 as [_ X1]; now destruct X1|]. split; [rewrite A4; intros X1; apply (G 97 [] ltac:(in_list)) in X1 as [_ X1]; now destruct X1|]. rewrite A5; intros X1; apply (G 120 [] ltac:(in_list)) in X1 as [_ X1]; now destruct X1.
Qed.
(** Every long name is found; see the refutation below for the others. *)
Theorem long_names_found : Forall (fun e => long_find longopts (fst e) = Ok (snd e)) longopts.
Proof. repeat (apply Forall_cons; [vm_compute; reflexivity|]). apply Forall_nil. Qed.
Theorem long_find_exact name c : long_find longopts name = Ok c <-> In (name, c) longopts.
Proof.
  split.
  - assert (G : forall t, long_find t name = Ok c -> In (name, c) t).
    { induction t as [|[n d] t IH]; [discriminate|]. cbn [long_find]. destruct (beq n name) eqn:E; [intros H; apply Ok_inj in H; apply beq_true_iff in E; subst; now left|intros H; right; auto]. } apply G.
  - intros I. exact (proj1 (Forall_forall _ _) long_names_found _ I).
Qed.
(** REFUTED: that an unknown long option is reported: the table has no end, so the search
    reads past it. *)
Theorem unknown_long_option_refuted : exists name, (forall c, ~ In (name, c) longopts) /\ long_find longopts name = Ub.
Proof. exists [113; 117; 105; 101; 116]. split; [|vm_compute; reflexivity]. intros c I. cbn in I. repeat (destruct I as [I|I]; [discriminate I|]). exact I. Qed.
(** REFUTED: that the daemon can release its options: with an identity key the release frees
    a pointer into the structure. Exactly then. *)
Theorem release_undefined_iff_key N es o l : net_ok N -> 0 < n_ns N -> 0 < n_rs N -> Forall ok_event es -> command_line N es false = Ok (Go o l) ->
  (opts_uninit o = Ub <-> exists s, last_arg 107 es = Some s) /\ (opts_uninit o = Ok tt <-> last_arg 107 es = None).
Proof.
  intros Nk Pn Pr F E. destruct (command_line_exact N es false Nk Pn Pr F) as [(a & e & b & code & _ & _ & _ & X)|[(_ & X & _)|(Fi & _ & o1 & l1 & X & C & _)]]; [rewrite X in E; discriminate E|discriminate X|]. rewrite X in E. apply Ok_inj in E. injection E as -> ->.
  pose proof (m_key _ _ _ _ C) as K. unfold opts_uninit. destruct (last_arg 107 es) as [s|]; destruct K as [-> _]; (split; split; [intros H; try discriminate H; eauto|intros H; try discriminate H; try (destruct H; discriminate); eauto|intros H; try discriminate H; eauto|intros H; try discriminate H; eauto]).
Qed.
(** ** Examples *)
Definition main_net : names := {| n_ports := {| pt_plain := 12038; pt_brontide := 44806 |}; n_ns := 5349; n_rs := 5350 |}.
Example ex_net : net_ok main_net /\ 0 < n_ns main_net /\ 0 < n_rs main_net.
Proof. unfold net_ok, ports_ok. cbn. lia. Qed.
(** -p 3 -n [::1]:99 -p 12 -k ... *)
Definition ex_events : list event := [(112, Some [51]); (110, Some [91; 58; 58; 49; 93; 58; 57; 57]); (112, Some [32; 43; 49; 50; 120]); (107, Some [48; 49; 50; 51; 52; 53; 54; 55; 56; 57; 97; 98; 99; 100; 101; 102; 48; 49; 50; 51; 52; 53; 54; 55; 56; 57; 97; 98; 99; 100; 101; 102; 48; 49; 50; 51; 52; 53; 54; 55; 56; 57; 97; 98; 99; 100; 101; 102; 48; 49; 50; 51; 52; 53; 54; 55; 56; 57; 97; 98; 99; 100; 101; 102]); (116, None)].
Example ex_ok : Forall ok_event ex_events.
Proof. repeat (apply Forall_cons; [split; [apply bytes_ok_check; vm_compute; reflexivity|intros X; cbn in X; try discriminate X; vm_compute; split; discriminate]|]). apply Forall_cons; [exact I|apply Forall_nil]. Qed.
Example ex_start : exists o l, command_line main_net ex_events false = Ok (Go o l) /\ o_size o = 12 /\ sa_port (o_ns o) = 99 /\ o_ip o = o_ns o /\ sa_v4 (o_ns o) = false /\ o_check o = true /\ o_key o = true /\ nth 1 (o_keybuf o) 0 = 35.
Proof. vm_compute. do 2 eexists. repeat split; reflexivity. Qed.
(** REFUTED: that the socket addresses are determined by the options: the scope of an IPv6
    address is never written. *)
Theorem ipv6_scope_unset_refuted : exists es o l, Forall ok_event es /\ command_line main_net es false = Ok (Go o l) /\ sa_v4 (o_ns o) = false /\ sa_scope (o_ns o) = None.
Proof. exists ex_events. assert (X := ex_start). destruct X as (o & l & E & _ & _ & _ & V & _). exists o, l. split; [exact ex_ok|]. split; [exact E|]. split; [exact V|]. revert E. vm_compute. intros E. injection E as <- _. reflexivity. Qed.
(** REFUTED: the release after -k *)
Theorem release_refuted : exists es o l, Forall ok_event es /\ command_line main_net es false = Ok (Go o l) /\ opts_uninit o = Ub.
Proof. exists ex_events. destruct ex_start as (o & l & E & _ & _ & _ & _ & _ & K & _). exists o, l. split; [exact ex_ok|]. split; [exact E|]. unfold opts_uninit. now rewrite K. Qed.
Example ex_refused : command_line main_net [(112, Some [49; 48; 48; 49])] false = Ok (Leave 1) /\ command_line main_net [(112, Some [48]); (104, None)] false = Ok (Leave 1) /\
  command_line main_net [(104, None); (63, None)] true = Ok (Leave 0) /\ command_line main_net [(107, Some [48; 49; 50; 51; 52; 53; 54; 55; 56; 57; 97; 98; 99; 100; 101; 102; 48; 49; 50; 51; 52; 53; 54; 55; 56; 57; 97; 98; 99; 100; 101; 102; 48; 49; 50; 51; 52; 53; 54; 55; 56; 57; 97; 98; 99; 100; 101; 102; 48; 49; 50; 51; 52; 53; 54; 55; 56; 57; 97; 98; 99; 100; 101; 102; 48])] false = Ok (Leave 1) /\ command_line main_net [] true = Ok (Leave 1) /\ command_line main_net [(110, Some [108; 111; 99; 97; 108; 104; 111; 115; 116])] false = Ok (Leave 1).
Proof. vm_compute. repeat split; reflexivity. Qed.

Print Assumptions command_line_exact.
Print Assumptions accepted_options.
Print Assumptions long_find_exact.
Print Assumptions unknown_long_option_refuted.
Print Assumptions release_undefined_iff_key.
Print Assumptions ipv6_scope_unset_refuted.
Print Assumptions release_refuted.
