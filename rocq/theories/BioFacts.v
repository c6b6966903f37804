(** Facts about the byte readers and writers. *)
From Verif Require Import CommonFacts BioModel.

Lemma read_le_app n v d :
  0 <= v < 256 ^ Z.of_nat n -> read_le n (le_bytes n v ++ d) = Some (v, d).
Proof.
  intro H. unfold read_le. rewrite take_app by apply le_bytes_length.
  rewrite le_val_le_bytes by assumption. reflexivity.
Qed.

Lemma read_be_app n v d :
  0 <= v < 256 ^ Z.of_nat n -> read_be n (be_bytes n v ++ d) = Some (v, d).
Proof.
  intro H. unfold read_be. rewrite take_app by apply be_bytes_length.
  rewrite be_val_be_bytes by assumption. reflexivity.
Qed.

Lemma read_le_some n d v r :
  bytes_ok d -> read_le n d = Some (v, r) ->
  d = le_bytes n v ++ r /\ 0 <= v < 256 ^ Z.of_nat n /\ bytes_ok r.
Proof.
  unfold read_le. intros Hd. destruct (take n d) as [[b r']|] eqn:E; [|discriminate].
  intro H; inversion H; subst. apply take_some in E as [-> Hl].
  apply bytes_ok_app in Hd as [Hb Hr]. subst n. repeat split; auto.
  - rewrite le_bytes_le_val; auto.
  - apply le_val_bound; auto.
  - apply le_val_bound; auto.
Qed.

Lemma read_be_some n d v r :
  bytes_ok d -> read_be n d = Some (v, r) ->
  d = be_bytes n v ++ r /\ 0 <= v < 256 ^ Z.of_nat n /\ bytes_ok r.
Proof.
  unfold read_be. intros Hd. destruct (take n d) as [[b r']|] eqn:E; [|discriminate].
  intro H; inversion H; subst. apply take_some in E as [-> Hl].
  apply bytes_ok_app in Hd as [Hb Hr]. subst n. repeat split; auto.
  - rewrite be_bytes_be_val; auto.
  - apply be_val_bound; auto.
  - apply be_val_bound; auto.
Qed.

Lemma read_le_none n d : read_le n d = None <-> (length d < n)%nat.
Proof.
  unfold read_le. rewrite <- take_none. destruct (take n d) as [[? ?]|]; split; congruence.
Qed.

Lemma read_be_none n d : read_be n d = None <-> (length d < n)%nat.
Proof.
  unfold read_be. rewrite <- take_none. destruct (take n d) as [[? ?]|]; split; congruence.
Qed.

Lemma read_u8_app v d : read_u8 (v :: d) = Some (v, d).
Proof. reflexivity. Qed.

Lemma write_u8_byte v : 0 <= v < 256 -> write_u8 v = [v].
Proof. intro H. unfold write_u8. simpl. rewrite Z.mod_small by lia. reflexivity. Qed.

Lemma read_varint_write v d :
  0 <= v < 2 ^ 64 -> read_varint (write_varint v ++ d) = Ok (Some (v, d)).
Proof.
  intro H. unfold write_varint.
  destruct (Z.ltb_spec v 253).
  - rewrite write_u8_byte by lia. cbn [app read_varint].
    repeat match goal with |- context [?a =? ?b] => destruct (Z.eqb_spec a b); [lia|] end.
    reflexivity.
  - destruct (Z.leb_spec v 65535).
    + rewrite write_u8_byte by lia. cbn [app read_varint].
      change (253 =? 255) with false. change (253 =? 254) with false.
      change (253 =? 253) with true. cbv iota.
      unfold read_u16, write_u16. rewrite read_le_app by lia.
      destruct (Z.ltb_spec v 253); [lia|reflexivity].
    + destruct (Z.leb_spec v 4294967295).
      * rewrite write_u8_byte by lia. cbn [app read_varint].
        change (254 =? 255) with false. change (254 =? 254) with true. cbv iota.
        unfold read_u32, write_u32. rewrite read_le_app by lia.
        destruct (Z.leb_spec v 65535); [lia|reflexivity].
      * rewrite write_u8_byte by lia. cbn [app read_varint].
        change (255 =? 255) with true. cbv iota.
        unfold read_u64, write_u64. rewrite read_le_app by lia.
        destruct (Z.leb_spec v 4294967295); [lia|reflexivity].
Qed.

Lemma read_varint_inv d v r :
  bytes_ok d -> read_varint d = Ok (Some (v, r)) ->
  d = write_varint v ++ r /\ 0 <= v < 2 ^ 64.
Proof.
  intros Hd. unfold read_varint. destruct d as [|p d]; [discriminate|].
  apply bytes_ok_cons in Hd as [Hp Hd]. unfold is_byte in Hp.
  destruct (Z.eqb_spec p 255).
  - subst p. destruct (read_u64 d) as [[w r']|] eqn:E; [|discriminate].
    destruct (Z.leb_spec w 4294967295); [discriminate|].
    intro H1; inversion H1; subst. apply read_le_some in E as (-> & Hb & _); auto.
    split; [|exact Hb]. unfold write_varint.
    destruct (Z.ltb_spec v 253); [lia|]. destruct (Z.leb_spec v 65535); [lia|].
    destruct (Z.leb_spec v 4294967295); [lia|].
    rewrite <- app_assoc. reflexivity.
  - destruct (Z.eqb_spec p 254).
    + subst p. destruct (read_u32 d) as [[w r']|] eqn:E; [|discriminate].
      destruct (Z.leb_spec w 65535); [discriminate|].
      intro H1; inversion H1; subst. apply read_le_some in E as (-> & Hb & _); auto.
      change (256 ^ Z.of_nat 4) with 4294967296 in Hb. split; [|lia].
      unfold write_varint.
      destruct (Z.ltb_spec v 253); [lia|]. destruct (Z.leb_spec v 65535); [lia|].
      destruct (Z.leb_spec v 4294967295); [|lia].
      rewrite <- app_assoc. reflexivity.
    + destruct (Z.eqb_spec p 253).
      * subst p. destruct (read_u16 d) as [[w r']|] eqn:E; [|discriminate].
        destruct (Z.ltb_spec w 253); [discriminate|].
        intro H1; inversion H1; subst. apply read_le_some in E as (-> & Hb & _); auto.
        change (256 ^ Z.of_nat 2) with 65536 in Hb. split; [|lia].
        unfold write_varint.
        destruct (Z.ltb_spec v 253); [lia|]. destruct (Z.leb_spec v 65535); [|lia].
        rewrite <- app_assoc. reflexivity.
      * intro H1; inversion H1; subst. split; [|lia]. unfold write_varint.
        destruct (Z.ltb_spec v 253); [|lia]. rewrite write_u8_byte by lia. reflexivity.
Qed.

Lemma read_varint_ub d : read_varint d = Ub <-> d = [].
Proof.
  destruct d as [|p d]; cbn [read_varint]; [tauto|]. split; [|discriminate].
  repeat match goal with
  | |- context [if ?c then _ else _] => destruct c
  | |- context [match read_u64 ?x with _ => _ end] => destruct (read_u64 x) as [[? ?]|]
  | |- context [match read_u32 ?x with _ => _ end] => destruct (read_u32 x) as [[? ?]|]
  | |- context [match read_u16 ?x with _ => _ end] => destruct (read_u16 x) as [[? ?]|]
  end; discriminate.
Qed.
