(** vli_mmod_fast of EccModel is reduction modulo p. *)
From Verif Require Import Common CommonFacts EccModel EccSpec EccLimb EccMult.

Lemma words_nth l : words l -> forall i, word (nth i l 0).
Proof. intros W i. apply nth_word. exact W. Qed.
Lemma val_split l : wide l -> exists r p4 p5 p6 p7, l = r ++ [p4; p5; p6; p7] /\ vli r /\ word p4 /\ word p5 /\ word p6 /\ word p7.
Proof.
  intros [W L]. destruct l as [|a [|b [|c [|d [|p4 [|p5 [|p6 [|p7 [|]]]]]]]]]; try discriminate L.
  exists [a; b; c; d], p4, p5, p6, p7. repeat match goal with H : words (_ :: _) |- _ => inversion H; clear H; subst | H : Forall word (_ :: _) |- _ => inversion H; clear H; subst end.
  split; [reflexivity|]. split; [apply vli4; assumption|]. tauto.
Qed.
(** The sum of the terms t + 2 s1 + 2 s2 + s3 + s4 - d1 - d2 - d3 - d4 in 32-bit words *)
Definition solinas (t c8 c9 c10 c11 c12 c13 c14 c15 : Z) : Z :=
  let w := fun a b => a + b * 2 ^ 32 in
  let v := fun a b c d => a + 2 ^ 64 * (b + 2 ^ 64 * (c + 2 ^ 64 * (d + 2 ^ 64 * 0))) in
  t + 2 * v 0 (c11 * 2 ^ 32) (w c12 c13) (w c14 c15) + 2 * v 0 (c12 * 2 ^ 32) (w c13 c14) c15
  + v (w c8 c9) c10 0 (w c14 c15) + v (w c9 c10) (w c11 c13) (w c14 c15) (w c13 c8)
  - v (w c11 c12) c13 0 (w c8 c10) - v (w c12 c13) (w c14 c15) 0 (w c9 c11)
  - v (w c13 c14) (w c15 c8) (w c9 c10) (c12 * 2 ^ 32) - v (w c14 c15) (c9 * 2 ^ 32) (w c10 c11) (c13 * 2 ^ 32).
Lemma solinas_ok t c8 c9 c10 c11 c12 c13 c14 c15 :
  solinas t c8 c9 c10 c11 c12 c13 c14 c15 =
  t + B4 * (c8 + 2 ^ 32 * c9 + 2 ^ 64 * (c10 + 2 ^ 32 * c11 + 2 ^ 64 * (c12 + 2 ^ 32 * c13 + 2 ^ 64 * (c14 + 2 ^ 32 * c15 + 2 ^ 64 * 0))))
  - (c8 + 4294967297 * c9 + 18446744078004518912 * c10 + 79228162532711081667253501951 * c11
     + 340282367000166625977638945021017194495 * c12 + 1461501637671185285124623296161210883009696235519 * c13
     + 6277101736848182401166692341332123086285927382448418586623 * c14
     + 26959946673427741530053695850515137729844644212646842236464328081408 * c15) * p256.
Proof. unfold solinas, B4, p256. ring. Qed.
Lemma mod_shift x k m : 0 < m -> (x - k * m) mod m = x mod m.
Proof. intros. replace (x - k * m) with (x + (- k) * m) by ring. apply Z.mod_add. lia. Qed.

Ltac split_word w :=
  let a := fresh "lo" in let b := fresh "hi" in
  let E := fresh "E" in let E1 := fresh "E" in let E2 := fresh "E" in let E3 := fresh "E" in let E4 := fresh "E" in
  match goal with H : word w |- _ => destruct (halves w H) as (a & b & ? & ? & E & E1 & E2 & E3 & E4); clear H; rewrite ?E1, ?E2, ?E3, ?E4; clear E1 E2 E3 E4; subst w end.
Lemma word_lo a : 0 <= a < 2 ^ 32 -> word a. Proof. unfold word. lia. Qed.
Lemma word_hi a : 0 <= a < 2 ^ 32 -> word (a * 2 ^ 32). Proof. unfold word. lia. Qed.
Lemma word_two a b : 0 <= a < 2 ^ 32 -> 0 <= b < 2 ^ 32 -> word (a + b * 2 ^ 32). Proof. unfold word. lia. Qed.
Lemma word_zero : word 0. Proof. unfold word. lia. Qed.
#[local] Hint Resolve word_lo word_hi word_two word_zero vli4 : wd.

Lemma mmod_fast_ok l : wide l -> vli_mmod_fast l = Some (of (val l mod p256)).
Proof.
  intros Wl. destruct (val_split l Wl) as (r & p4 & p5 & p6 & p7 & -> & Vr & H4 & H5 & H6 & H7). clear Wl.
  rewrite val_app. destruct Vr as [Wr Lr]. rewrite Lr. change (base 4) with B4. assert (Vr : vli r) by (split; assumption).
  unfold vli_mmod_fast.
  replace (firstn 4 (r ++ [p4; p5; p6; p7])) with r by (rewrite <- Lr, firstn_app, firstn_all, Nat.sub_diag; cbn; rewrite app_nil_r; reflexivity).
  rewrite !app_nth2 by (rewrite Lr; auto with arith). rewrite Lr. cbn [Nat.sub nth val].
  clear Wr Lr.
  split_word p4. split_word p5. split_word p6. split_word p7. 
  rewrite !lor_halves by assumption.
  repeat match goal with |- context [?a + 2 ^ 32 * ?b] => rewrite (Z.mul_comm (2 ^ 32) b) end.
  (* s1 *)
  match goal with |- context [vli_lshift ?x 1] => destruct (lshift1_eq x) as (s1 & k1 & E1 & V1 & K1 & S1); [auto with wd|] end.
  assert (N1 : nth 0 s1 0 = 0).
  { rewrite vli_lshift_ok in E1 by (auto with wd || lia). injection E1 as <- _. cbn [of digits nth val]. 
    rewrite Z.add_0_l. change (2 ^ 1) with 2. rewrite <- Z.mul_assoc. rewrite Z.mul_comm. apply Z.mod_mul. lia. }
  rewrite E1, N1. clear E1 N1.
  destruct (add_eq r s1 Vr V1) as (r1 & d1 & -> & W1 & D1 & T1).
  match goal with |- context [vli_lshift ?x 1] => destruct (lshift1_eq x) as (s2 & k2 & -> & V2 & K2 & S2); [auto with wd|] end.
  destruct (add_eq r1 s2 W1 V2) as (r2 & d2 & -> & W2 & D2 & T2).
  match goal with |- context [vli_add r2 ?x] => destruct (add_eq r2 x W2) as (r3 & d3 & -> & W3 & D3 & T3); [auto with wd|] end.
  match goal with |- context [vli_add r3 ?x] => destruct (add_eq r3 x W3) as (r4 & d4 & -> & W4 & D4 & T4); [auto with wd|] end.
  match goal with |- context [vli_sub r4 ?x] => destruct (sub_eq r4 x W4) as (r5 & d5 & -> & W5 & D5 & T5); [auto with wd|] end.
  match goal with |- context [vli_sub r5 ?x] => destruct (sub_eq r5 x W5) as (r6 & d6 & -> & W6 & D6 & T6); [auto with wd|] end.
  match goal with |- context [vli_sub r6 ?x] => destruct (sub_eq r6 x W6) as (r7 & d7 & -> & W7 & D7 & T7); [auto with wd|] end.
  match goal with |- context [vli_sub r7 ?x] => destruct (sub_eq r7 x W7) as (r8 & d8 & -> & W8 & D8 & T8); [auto with wd|] end.
  set (c := k1 + d1 + k2 + d2 + d3 + d4 - d5 - d6 - d7 - d8).
  assert (S : val r8 + B4 * c = solinas (val r) lo hi lo0 hi0 lo1 hi1 lo2 hi2).
  { cbn [val] in *. unfold solinas. unfold c. lia. }
  assert (C : -4 <= c <= 6) by (unfold c; lia).
  assert (M : (val r8 + B4 * c) mod p256 =
    (val r + B4 * (lo + hi * 2 ^ 32 + B * (lo0 + hi0 * 2 ^ 32 + B * (lo1 + hi1 * 2 ^ 32 + B * (lo2 + hi2 * 2 ^ 32 + B * 0))))) mod p256).
  { rewrite S, solinas_ok. rewrite mod_shift by apply p_range. f_equal. ring. }
  pose proof (vli_range r8 W8) as R8.
  clear - M C W8 R8. clearbody c.
  destruct (Z.ltb_spec c 0).
  - rewrite mmod_up_ok; [rewrite M; reflexivity|assumption|assumption|]. change (Z.of_nat 16) with 16. unfold B4, p256 in *. lia.
  - rewrite mmod_down_ok; [rewrite M; reflexivity|assumption|assumption|]. change (Z.of_nat 16) with 16. unfold B4, p256 in *. lia.
Qed.
