(** The texts that are read as an address. *)
From Verif Require Import Common CommonFacts UtilTheorems AddrModel AddrTheorems.

Lemma port_read s : forall i w q, 0 <= i <= 5 -> port_loop i w s = Some q ->
  Forall (fun c => 48 <= c <= 57) s /\ i + zlen s <= 5 /\ q = fold_left (fun v c => v * 10 + (c - 48)) s w mod 65536.
Proof.
  induction s as [|c s IH]; intros i w q Hi E; cbn [port_loop fold_left] in *.
  - injection E as <-. split; [constructor|]. split; [change (zlen (@nil Z)) with 0; lia|reflexivity].
  - destruct ((c - 48 <? 0) || (9 <? c - 48)) eqn:B; [discriminate|]. apply orb_false_iff in B. destruct (Z.eqb_spec i 5); [discriminate|].
    apply IH in E; [|lia]. destruct E as (F & L & ->). split; [constructor; [lia|exact F]|]. split; [rewrite zlen_cons; lia|reflexivity].
Qed.
Lemma host_forms s h d : split_host s = Some (h, d) ->
  match d with
  | None => s = h \/ s = [91] ++ h ++ [93]
  | Some d => (s = h ++ [58] ++ d \/ s = [91] ++ h ++ [93; 58] ++ d)
  end.
Proof.
  unfold split_host. destruct s as [|c s]; [cbn; intros [= <- <-]; auto|]. destruct (Z.eqb_spec c 91) as [->|N].
  - cbn [skipn]. destruct (split_at 93 s) as [[a b]|] eqn:E; [|discriminate]. apply split_inv in E as [-> _].
    destruct b as [|x b]; [intros [= <- <-]; right; reflexivity|]. destruct (Z.eqb_spec x 58) as [->|]; [|discriminate].
    intros [= <- <-]. right. rewrite <- ?app_assoc. reflexivity.
  - destruct (split_at 58 (c :: s)) as [[a b]|] eqn:E; [|intros [= <- <-]; auto]. apply split_inv in E as [E _].
    destruct (split_at 58 b); intros [= <- <-]; [auto|]. left. exact E.
Qed.
(** C63. A text that is read as an address has one of the four forms host, host:port, [host]
    and [host]:port, with a key and an @ before it or not; the host is the text of the
    address, the port has at most five digits, and nothing stands between. *)
Theorem accepted_forms : forall P s p a, from_string P s p = Ok (Some a) ->
  exists key r h, s = match key with Some k => k ++ [64] | None => [] end ++ r /\ (key = None -> ~ In 64 s) /\ zlen h <= 46 /\
    (pton4 h = Some (skipn 12 (firstn 16 (a_ip a))) /\ is_mapped a = true \/ pton4 h = None /\ uv_pton6 h = Some (firstn 16 (a_ip a))) /\
    (((r = h \/ r = [91] ++ h ++ [93]) /\
      a_port a = (if p =? 0 then match key with Some _ => pt_brontide P | None => pt_plain P end else p)) \/
     exists d, (r = h ++ [58] ++ d \/ r = [91] ++ h ++ [93; 58] ++ d) /\ Forall (fun c => 48 <= c <= 57) d /\ zlen d <= 5 /\
       a_port a = fold_left (fun v c => v * 10 + (c - 48)) d 0 mod 65536).
Proof.
  intros P s p a.
  assert (Host : forall k at_ r a, match split_host r with None => Ok None | Some (h, ps) => Ok (host_addr P {| a_type := 0; a_ip := zeros 36; a_port := 0; a_key := k |} at_ p h ps) end = Ok (Some a) ->
    exists h, zlen h <= 46 /\
    (pton4 h = Some (skipn 12 (firstn 16 (a_ip a))) /\ is_mapped a = true \/ pton4 h = None /\ uv_pton6 h = Some (firstn 16 (a_ip a))) /\
    (((r = h \/ r = [91] ++ h ++ [93]) /\ a_port a = (if p =? 0 then if at_ then pt_brontide P else pt_plain P else p)) \/
     exists d, (r = h ++ [58] ++ d \/ r = [91] ++ h ++ [93; 58] ++ d) /\ Forall (fun c => 48 <= c <= 57) d /\ zlen d <= 5 /\
       a_port a = fold_left (fun v c => v * 10 + (c - 48)) d 0 mod 65536)).
  { clear a. intros k at_ r a E. destruct (split_host r) as [[h ps]|] eqn:S; [|discriminate]. apply host_forms in S. injection E as E. unfold host_addr in E.
    destruct (Z.ltb_spec 46 (zlen h)) as [|L]; [discriminate|].
    destruct (match ps with Some s => port_loop 0 0 s | None => Some (if p =? 0 then if at_ then pt_brontide P else pt_plain P else p) end) as [q|] eqn:Q; [|discriminate].
    exists h. split; [exact L|]. assert (A : a_port a = q /\ (pton4 h = Some (skipn 12 (firstn 16 (a_ip a))) /\ is_mapped a = true \/ pton4 h = None /\ uv_pton6 h = Some (firstn 16 (a_ip a)))).
    { destruct (pton4 h) as [ip|] eqn:E4.
      - apply some_inj in E. subst a. apply ip4_accepted_exactly in E4 as (x & y & z & w & -> & _). split; [reflexivity|]. left. split; reflexivity.
      - destruct (uv_pton6 h) as [ip|] eqn:E6; [|discriminate]. apply some_inj in E. subst a. split; [reflexivity|]. right. split; [reflexivity|].
        apply uv_pton6_ok in E6 as [_ L6]. f_equal. do 16 (destruct ip as [|? ip]; [discriminate L6|]). destruct ip; [reflexivity|discriminate L6]. }
    destruct A as [A1 A2]. split; [exact A2|]. rewrite A1. destruct ps as [d|].
    - right. exists d. apply port_read in Q; [|lia]. destruct Q as (F & Ld & ->). split; [exact S|]. split; [exact F|]. split; [lia|reflexivity].
    - left. split; [exact S|]. apply some_inj in Q. symmetry. exact Q. }
  unfold from_string. destruct (split_at 64 s) as [[pub rest]|] eqn:Sp.
  - destruct (53 <? zlen pub); [discriminate|]. destruct (negb _); [discriminate|]. destruct (Base32Model.decode2 _ _ _) as [rc key]. destruct (33 <? zlen key); [discriminate|].
    destruct (rc =? -1); [discriminate|]. intros E. apply Host in E. destruct E as (h & L & X & Y). apply split_inv in Sp as [-> _].
    exists (Some pub), rest, h. split; [rewrite <- app_assoc; reflexivity|]. split; [discriminate|]. auto.
  - intros E. apply Host in E. destruct E as (h & L & X & Y). exists None, s, h. split; [reflexivity|]. split; [|auto].
    intros _ I. clear - Sp I. induction s as [|x s IH]; [destruct I|]. cbn [split_at] in Sp. destruct (Z.eqb_spec x 64); [discriminate|].
    destruct I as [I|I]; [congruence|]. apply IH; [|exact I]. destruct (split_at 64 s) as [[? ?]|]; [discriminate|reflexivity].
Qed.
Print Assumptions accepted_forms.
(** [::1]:80 is read; [::1]x80, [::1 and 1.2.3.4:123456 are not *)
Definition net' : ports := {| pt_plain := 12038; pt_brontide := 44806 |}.
Example ex_forms :
  (exists a, from_string net' [91; 58; 58; 49; 93; 58; 56; 48] 0 = Ok (Some a) /\ a_port a = 80) /\
  from_string net' [91; 58; 58; 49; 93; 120; 56; 48] 0 = Ok None /\ from_string net' [91; 58; 58; 49] 0 = Ok None /\
  from_string net' [49; 46; 50; 46; 51; 46; 52; 58; 49; 50; 51; 52; 53; 54] 0 = Ok None.
Proof. split; [eexists; split; vm_compute; reflexivity|]. repeat split; vm_compute; reflexivity. Qed.
