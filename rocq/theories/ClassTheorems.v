(** The remaining classes of addresses are the blocks of their standards; multicast addresses count as
    routable. *)
From Verif Require Import Common CommonFacts MapModel AddrModel ProofFacts AddrFacts AddrText AddrTheorems ClassModel.

Lemma land_e0 b : is_byte b -> (Z.land b 240 =? 224) = (b / 16 =? 14).
Proof. intros H. apply Bool.eqb_prop. revert b H. apply (byte_all (fun c => Bool.eqb (Z.land c 240 =? 224) (c / 16 =? 14))). vm_compute. reflexivity. Qed.
Lemma list16 (l : list Z) : length l = 16%nat -> exists a b c d e f g h i j k m n o p q, l = [a; b; c; d; e; f; g; h; i; j; k; m; n; o; p; q].
Proof.
  do 16 (destruct l as [|? l]; [discriminate|]). destruct l; [|discriminate]. intros _. repeat eexists.
Qed.
Lemma byte_half b : is_byte b -> b / 256 = 0.
Proof. unfold is_byte. intros H. apply Z.div_small. lia. Qed.

(** C93. RFC 3964 is 2002::/16, RFC 6052 is 64:ff9b::/96, RFC 4380 is 2001::/32, RFC 6145 is
    ::ffff:0:0:0/96, multicast is 224.0.0.0/4 and ff00::/8. *)
Theorem classes_exactly : forall a ip, addr_ok a -> a_ip a = ip ++ zeros 20 -> length ip = 16%nat ->
  (is_rfc3964 a = true <-> in_block ip ([32; 2] ++ zeros 14) 16) /\
  (is_rfc6052 a = true <-> in_block ip ([0; 100; 255; 155] ++ zeros 12) 96) /\
  (is_rfc4380 a = true <-> in_block ip ([32; 1] ++ zeros 14) 32) /\
  (is_rfc6145 a = true <-> in_block ip (zeros 8 ++ [255; 255] ++ zeros 6) 96) /\
  (is_multicast a = true <-> in_block ip (v4 224 0 0 0) 100 \/ in_block ip ([255] ++ zeros 15) 8).
Proof.
  intros a ip A E L. pose proof A as (_ & _ & _ & _ & ip' & E' & B & L').
  assert (ip' = ip). { rewrite E' in E. apply app_inj_len in E as [E _]; [exact E|unfold zlen; lia]. } subst ip'. clear E' L'.
  assert (H : forall net len, in_block ip net len <-> blockb ip (net, len) = true) by (intros; symmetry; apply (blockb_iff ip (net, len))).
  rewrite !H. clear H.
  destruct (list16 ip L) as (x0 & x1 & x2 & x3 & x4 & x5 & x6 & x7 & x8 & x9 & x10 & x11 & x12 & x13 & x14 & x15 & ->).
  repeat match goal with H : bytes_ok (_ :: _) |- _ => apply bytes_ok_cons in H as [? H] end.
  unfold is_rfc3964, is_rfc6052, is_rfc4380, is_rfc6145, is_multicast, is_ip4, is_mapped, starts, ipb, blockb. rewrite E. cbn [fst snd]. bits.
  unfold v4, zeros, ip4_mapped, rfc6052, rfc6145, zeros. cbn [repeat app firstn nth beq length].
  rewrite land_e0 by assumption. rewrite ?(byte_half x1), ?(byte_half x2), ?(byte_half x4), ?(byte_half x12) by assumption.
  change (0 / 256) with 0. change (0 =? 0) with true. change (224 / 16) with 14. rewrite ?Bool.andb_true_r.
  split; [tauto|]. split; [tauto|]. split; [rewrite !Bool.andb_true_iff; tauto|]. split; [tauto|].
  rewrite <- Bool.orb_true_iff.
  destruct (Z.eqb_spec x0 0) as [->|N].
  - change (0 =? 255) with false. rewrite Bool.orb_false_r. cbn [andb].
    match goal with |- (if ?c then _ else _) = true <-> _ => destruct c end; cbn [andb]; tauto.
  - cbn [andb orb]. tauto.
Qed.

(** One address of each class. *)
Definition at_ (ip : list Z) : addr := {| a_type := 0; a_ip := ip ++ zeros 20; a_port := 12038; a_key := zeros 33 |}.
Lemma at_ok ip : length ip = 16%nat -> bytes_ok ip -> addr_ok (at_ ip).
Proof.
  intros L B. split; [reflexivity|]. split; [apply bytes_ok_check; reflexivity|]. split; [reflexivity|]. split; [cbn; lia|].
  exists ip. repeat split; assumption.
Qed.
Example ex_classes :
  addr_ok (at_ (v4 239 255 0 1)) /\
  is_rfc3964 (at_ ([32; 2; 7] ++ zeros 13)) = true /\ is_rfc3964 (at_ ([32; 3; 7] ++ zeros 13)) = false /\
  is_rfc6052 (at_ ([0; 100; 255; 155] ++ zeros 8 ++ [8; 8; 8; 8])) = true /\ is_rfc6052 (at_ (v4 8 8 8 8)) = false /\
  is_rfc4380 (at_ ([32; 1; 0; 0; 9] ++ zeros 11)) = true /\ is_rfc4380 (at_ ([32; 1; 0; 1; 9] ++ zeros 11)) = false /\
  is_rfc6145 (at_ (zeros 8 ++ [255; 255; 0; 0; 8; 8; 8; 8])) = true /\ is_rfc6145 (at_ (v4 8 8 8 8)) = false /\
  is_multicast (at_ (v4 239 255 0 1)) = true /\ is_multicast (at_ (v4 240 0 0 1)) = false /\ is_multicast (at_ (v4 223 0 0 1)) = false /\
  is_multicast (at_ ([255; 2] ++ zeros 14)) = true /\ is_multicast (at_ ([254; 2] ++ zeros 14)) = false.
Proof. split; [apply at_ok; [reflexivity|apply bytes_ok_check; reflexivity]|repeat split]. Qed.

(** C93 refuted: a multicast address is not routable. Both 224.0.0.1 and ff02::1 are taken for routable. *)
Theorem multicast_not_routable_refuted :
  (exists a, addr_ok a /\ in_block (firstn 16 (a_ip a)) (v4 224 0 0 0) 100 /\ is_routable a = true) /\
  (exists a, addr_ok a /\ in_block (firstn 16 (a_ip a)) ([255] ++ zeros 15) 8 /\ is_routable a = true).
Proof.
  split.
  - exists (at_ (v4 224 0 0 1)). split; [apply at_ok; [reflexivity|apply bytes_ok_check; reflexivity]|]. split; [split; reflexivity|reflexivity].
  - exists (at_ ([255; 2] ++ zeros 13 ++ [1])). split; [apply at_ok; [reflexivity|apply bytes_ok_check; reflexivity]|]. split; [split; reflexivity|reflexivity].
Qed.

Print Assumptions classes_exactly.
Print Assumptions multicast_not_routable_refuted.
