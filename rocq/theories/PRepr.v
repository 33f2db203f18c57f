(** * Floating-point numbers and their decimal texts *)

From Coq Require Import ZArith List Bool String Lia SpecFloat.
From Coq Require Import ZifyBool.
From Verif Require Import Py PyFloat Spec SpecText SpecNum PBase PFloat PHuman.
Import ListNotations.
Open Scope string_scope.
Open Scope list_scope.
Open Scope Z_scope.

(** ** Equal fractions *)
Lemma cross_le k n d n' d' : 0 < d -> 0 < d' -> n * d' = n' * d -> k * d <= n <-> k * d' <= n'.
Proof.
  intros Hd Hd' H. rewrite (Z.mul_le_mono_pos_r (k * d) n d') by lia. rewrite (Z.mul_le_mono_pos_r (k * d') n' d) by lia. rewrite H.
  replace (k * d' * d) with (k * d * d') by ring. reflexivity.
Qed.
Lemma cross_lt k n d n' d' : 0 < d -> 0 < d' -> n * d' = n' * d -> n < k * d <-> n' < k * d'.
Proof. intros Hd Hd' H. pose proof (cross_le k n d n' d' Hd Hd' H). lia. Qed.
Lemma rnd_scale n d c : 0 < d -> 0 < c -> rnd_half_even (c * n) (c * d) = rnd_half_even n d.
Proof.
  intros Hd Hc. unfold rnd_half_even. rewrite Z.div_mul_cancel_l, Z.mul_mod_distr_l by lia.
  replace (2 * (c * (n mod d))) with (c * (2 * (n mod d))) by ring. now rewrite <- Zmult_compare_compat_l by lia.
Qed.
Lemma rnd_ext n d n' d' : 0 < d -> 0 < d' -> n * d' = n' * d -> rnd_half_even n d = rnd_half_even n' d'.
Proof.
  intros Hd Hd' H. rewrite <- (rnd_scale n d d') by lia. rewrite <- (rnd_scale n' d' d) by lia. f_equal; lia.
Qed.

(** ** Binary exponents: x / 2^e as a fraction with an integer scale 2^K *)
Lemma pow2_pos a : 0 <= a -> 0 < 2 ^ a.
Proof. intros. apply Z.pow_pos_nonneg; lia. Qed.
Lemma scale_den_pos den e : 0 < den -> 0 < scale_den den e.
Proof. intros H. unfold scale_den. destruct (0 <=? e) eqn:HE; [|lia]. pose proof (pow2_pos e). nia. Qed.
Lemma scale_frac num den e K : 0 <= K -> 0 <= e + K ->
  scale_num num e * (den * 2 ^ (e + K)) = num * 2 ^ K * scale_den den e.
Proof.
  intros HK He. unfold scale_num, scale_den. destruct (0 <=? e) eqn:HE.
  - rewrite Z.pow_add_r by lia. ring.
  - assert (HP : 2 ^ K = 2 ^ (- e) * 2 ^ (e + K)) by (rewrite <- Z.pow_add_r by lia; f_equal; lia). rewrite HP. ring.
Qed.

Section Exp.
Variables num den : Z.
Hypothesis Hn : 0 < num.
Hypothesis Hd : 0 < den.
Let e1 := Z.log2 num - Z.log2 den - 52.
Definition fits_exp (K e : Z) : Prop :=
  num * 2 ^ K < 2 ^ 53 * (den * 2 ^ (e + K)) /\ (2 ^ 52 * (den * 2 ^ (e + K)) <= num * 2 ^ K \/ e = -1074) /\ -1074 <= e.

Lemma first_exp K : 0 <= K -> 0 <= e1 + K ->
  2 ^ 51 * (den * 2 ^ (e1 + K)) < num * 2 ^ K < 2 ^ 53 * (den * 2 ^ (e1 + K)).
Proof.
  intros HK HE. pose proof (Z.log2_spec num Hn) as (Sa & Sa'). pose proof (Z.log2_spec den Hd) as (Sb & Sb').
  pose proof (Z.log2_nonneg num). pose proof (Z.log2_nonneg den). set (a := Z.log2 num) in *. set (b := Z.log2 den) in *.
  pose proof (pow2_pos K HK) as HPK. pose proof (pow2_pos (e1 + K) HE) as HPE.
  assert (E1 : 2 ^ 52 * (2 ^ b * 2 ^ (e1 + K)) = 2 ^ a * 2 ^ K).
  { rewrite <- !Z.pow_add_r by lia. f_equal. unfold e1. lia. }
  rewrite Z.pow_succ_r in Sa', Sb' by lia.
  assert (H1 : 2 ^ a * 2 ^ K <= num * 2 ^ K < 2 * 2 ^ a * 2 ^ K) by nia.
  assert (H2 : 2 ^ b * 2 ^ (e1 + K) <= den * 2 ^ (e1 + K) < 2 * 2 ^ b * 2 ^ (e1 + K)) by nia.
  change (2 ^ 52) with (2 * 2 ^ 51) in E1. change (2 ^ 53) with (2 * (2 * 2 ^ 51)).
  split; [|]; nia.
Qed.
Lemma bin_exp_big K : 0 <= K -> 1 <= e1 + K -> 1074 <= K -> fits_exp K (bin_exp num den).
Proof.
  intros HK HE HK'. destruct (first_exp K HK ltac:(lia)) as (H1 & H2). unfold bin_exp. fold e1.
  set (q := scale_num num e1 / scale_den den e1).
  pose proof (scale_frac num den e1 K HK ltac:(lia)) as HS. pose proof (scale_den_pos den e1 Hd) as HD.
  assert (HU : forall e, 0 <= e + K -> 0 < den * 2 ^ (e + K)) by (intros e He; pose proof (pow2_pos _ He); nia).
  assert (Hq : q < 2 ^ 52 <-> num * 2 ^ K < 2 ^ 52 * (den * 2 ^ (e1 + K))).
  { rewrite <- (cross_lt (2 ^ 52) (scale_num num e1) (scale_den den e1) _ _ HD (HU e1 ltac:(lia)) HS). unfold q.
    pose proof (Z.div_mod (scale_num num e1) (scale_den den e1) ltac:(lia)) as HM. pose proof (Z.mod_pos_bound (scale_num num e1) (scale_den den e1) HD) as HB.
    set (q' := scale_num num e1 / scale_den den e1) in *. set (D := scale_den den e1) in *. set (r := scale_num num e1 mod D) in *. split; intros H; nia. }
  set (e0 := if q <? 2 ^ 52 then e1 - 1 else e1).
  assert (H0 : e1 - 1 <= e0 <= e1 /\ 2 ^ 52 * (den * 2 ^ (e0 + K)) <= num * 2 ^ K < 2 ^ 53 * (den * 2 ^ (e0 + K))).
  { unfold e0. destruct (q <? 2 ^ 52) eqn:HQ.
    - split; [lia|]. assert (H3 : num * 2 ^ K < 2 ^ 52 * (den * 2 ^ (e1 + K))) by (apply Hq; lia).
      replace (e1 + K) with (1 + (e1 - 1 + K)) in H1, H3 by lia. rewrite Z.pow_add_r in H1, H3 by lia.
      change (2 ^ 52) with (2 * 2 ^ 51) in H3 |- *. change (2 ^ 53) with (2 * (2 * 2 ^ 51)). change (2 ^ 1) with 2 in *.
      set (W := 2 ^ (e1 - 1 + K)) in *. nia.
    - split; [lia|]. split; [|exact H2]. assert (~ num * 2 ^ K < 2 ^ 52 * (den * 2 ^ (e1 + K))) by (rewrite <- Hq; lia). lia. }
  destruct H0 as (HR & HL & HH). unfold fits_exp. destruct (Z.max_spec e0 (-1074)) as [(HM & ->)|(HM & ->)].
  - split; [|split; [now right|lia]]. replace (-1074 + K) with ((-1074 - e0) + (e0 + K)) by lia. rewrite Z.pow_add_r by lia.
    pose proof (pow2_pos (-1074 - e0) ltac:(lia)). pose proof (HU e0 ltac:(lia)). set (W := 2 ^ (e0 + K)) in *. set (V := 2 ^ (-1074 - e0)) in *.
    assert (HV : 1 <= V) by lia. assert (den * W <= den * (V * W)) by nia. lia.
  - split; [exact HH|]. split; [now left|lia].
Qed.
Lemma fits_more K t e : 0 <= K -> 0 <= t -> 0 <= e + K -> fits_exp (K + t) e <-> fits_exp K e.
Proof.
  intros HK Ht He. unfold fits_exp.
  assert (HA : 2 ^ (K + t) = 2 ^ K * 2 ^ t) by (apply Z.pow_add_r; lia).
  assert (HB : 2 ^ (e + (K + t)) = 2 ^ (e + K) * 2 ^ t) by (rewrite <- Z.pow_add_r by lia; f_equal; lia). rewrite HA, HB.
  pose proof (pow2_pos t Ht) as HT. set (V := 2 ^ t) in *. set (W := 2 ^ (e + K)). set (X := num * 2 ^ K).
  replace (num * (2 ^ K * V)) with (X * V) by (unfold X; ring).
  replace (2 ^ 53 * (den * (W * V))) with (2 ^ 53 * (den * W) * V) by ring. replace (2 ^ 52 * (den * (W * V))) with (2 ^ 52 * (den * W) * V) by ring.
  rewrite <- (Z.mul_lt_mono_pos_r V), <- (Z.mul_le_mono_pos_r _ _ V) by lia. reflexivity.
Qed.
Lemma bin_exp_ge : -1074 <= bin_exp num den.
Proof. unfold bin_exp. lia. Qed.
Lemma bin_exp_fits K : 1074 <= K -> fits_exp K (bin_exp num den).
Proof.
  intros HK. pose proof bin_exp_ge. apply (fits_more K (Z.abs e1 + 1)); try lia. apply bin_exp_big; lia.
Qed.
Lemma fits_unique K e e' : 1074 <= K -> fits_exp K e -> fits_exp K e' -> e = e'.
Proof.
  intros HK. assert (HS : forall a b, fits_exp K a -> fits_exp K b -> a < b -> False).
  { intros a b (A1 & A2 & A3) (B1 & B2 & B3) HL. destruct B2 as [B2|B2]; [|lia].
    assert (HB : 2 ^ (b + K) = 2 ^ (b - a - 1) * (2 * 2 ^ (a + K))) by (change 2 with (2 ^ 1) at 3; rewrite <- !Z.pow_add_r by lia; f_equal; lia).
    rewrite HB in B2.
    pose proof (pow2_pos (b - a - 1) ltac:(lia)) as HV. pose proof (pow2_pos (a + K) ltac:(lia)) as HW.
    set (W := 2 ^ (a + K)) in *. set (V := 2 ^ (b - a - 1)) in *. change (2 ^ 53) with (2 ^ 52 * 2) in A1.
    assert (den * (2 * W) <= den * (V * (2 * W))) by nia. lia. }
  intros H1 H2. destruct (Z.lt_trichotomy e e') as [H|[H|H]]; [elim (HS e e'); auto|exact H|elim (HS e' e); auto].
Qed.
Lemma bin_exp_is K e : 1074 <= K -> fits_exp K e -> bin_exp num den = e.
Proof. intros HK H. apply (fits_unique K); [exact HK|now apply bin_exp_fits|exact H]. Qed.
(** The significand. *)
Lemma rnd_scaled K e : 0 <= K -> 0 <= e + K ->
  rnd_half_even (scale_num num e) (scale_den den e) = rnd_half_even (num * 2 ^ K) (den * 2 ^ (e + K)).
Proof.
  intros HK He. apply rnd_ext; [now apply scale_den_pos|pose proof (pow2_pos _ He); nia|]. now apply scale_frac.
Qed.
End Exp.

(** Only the value of the fraction matters. *)
Lemma round_pos_ext s num den num' den' : 0 < num -> 0 < den -> 0 < num' -> 0 < den' -> num * den' = num' * den ->
  round_pos s num den = round_pos s num' den'.
Proof.
  intros Hn Hd Hn' Hd' H. assert (HE : bin_exp num den = bin_exp num' den').
  { apply (bin_exp_is num den Hn Hd 1074); [lia|]. pose proof (bin_exp_fits num' den' Hn' Hd' 1074 ltac:(lia)) as (A & B & C).
    set (e := bin_exp num' den') in *. pose proof (pow2_pos (e + 1074) ltac:(lia)) as HW. set (W := 2 ^ (e + 1074)) in *. set (P := 2 ^ 1074) in *.
    assert (HX : num' * P * (den * W) = num * P * (den' * W)) by (rewrite <- (Z.mul_assoc num'), (Z.mul_comm P), !Z.mul_assoc, <- H; ring).
    unfold fits_exp. fold W P. rewrite <- (cross_lt (2 ^ 53) (num' * P) (den' * W) (num * P) (den * W)), <- (cross_le (2 ^ 52) (num' * P) (den' * W) (num * P) (den * W)) by (nia || exact HX). tauto. }
  unfold round_pos. rewrite HE. set (e := bin_exp num' den').
  replace (rnd_half_even (scale_num num e) (scale_den den e)) with (rnd_half_even (scale_num num' e) (scale_den den' e)); [reflexivity|].
  apply rnd_ext; try now apply scale_den_pos. unfold scale_num, scale_den. destruct (0 <=? e) eqn:EE; [pose proof (pow2_pos e ltac:(lia))|pose proof (pow2_pos (- e) ltac:(lia))]; nia.
Qed.

(** ** Binary64 numbers *)
Definition K0 := 1074.

(** A fraction closer to the number than half the distance to its neighbours rounds to it. *)
Lemma round_near s m e num den : canon m e -> 0 < num -> 0 < den ->
  2 ^ 54 * Z.abs (num * 2 ^ K0 - Zpos m * (den * 2 ^ (e + K0))) < Zpos m * (den * 2 ^ (e + K0)) ->
  round_pos s num den = S754_finite s m e.
Proof.
  intros (Hm & He & Hc) Hn Hd H. pose proof (pow2_pos (e + K0) ltac:(unfold K0; lia)) as HW.
  set (X := num * 2 ^ K0) in *. set (U := den * 2 ^ (e + K0)) in *. assert (HU : 0 < U) by (unfold U; nia).
  assert (HX : 2 * Z.abs (X - Zpos m * U) < U).
  { change (2 ^ 54) with (2 ^ 53 * 2) in H. set (A := Z.abs (X - Zpos m * U)) in *. assert (0 <= A) by (unfold A; lia).
    set (B := 2 ^ 53) in *. assert (Zpos m * U < B * U) by nia. assert (B * (2 * A) < B * U) by lia. assert (0 < B) by (unfold B; lia). nia. }
  assert (HR : rnd_half_even X U = Zpos m).
  { assert (rnd_half_even X U < Zpos m + 1) by (apply rnd_lt; lia).
    assert (Zpos m - 1 < rnd_half_even X U) by (apply rnd_gt; lia). lia. }
  assert (Hcase : (Zpos m = 2 ^ 52 /\ -1074 < e /\ X < Zpos m * U) \/ fits_exp num den K0 e).
  { unfold fits_exp. fold X U. set (B := 2 ^ 52) in *. change (2 ^ 53) with (2 * B) in *.
    destruct (Z.eq_dec e (-1074)) as [HE|HE]; [right; split; [nia|]; split; [now right|lia]|].
    destruct Hc as [Hc|Hc]; [|lia]. destruct (Z.eq_dec (Zpos m) B) as [HB|HB].
    - destruct (Z_lt_le_dec X (Zpos m * U)) as [HL|HL]; [left; lia|right]. split; [nia|]. split; [left; nia|lia].
    - right. split; [nia|]. split; [left; nia|lia]. }
  unfold round_pos. destruct Hcase as [(HM & HE & HL)|HF].
  - assert (HF : fits_exp num den K0 (e - 1)).
    { unfold fits_exp. fold X. assert (HW2 : U = 2 * (den * 2 ^ (e - 1 + K0))).
      { unfold U. replace (e + K0) with (1 + (e - 1 + K0)) by lia. rewrite Z.pow_add_r by (unfold K0; lia). change (2 ^ 1) with 2. ring. }
      set (V := den * 2 ^ (e - 1 + K0)) in *. rewrite HW2, HM in HX, HL. change (2 ^ 53) with (2 * 2 ^ 52). set (B := 2 ^ 52) in *. assert (2 <= B) by (unfold B; lia).
      split; [nia|]. split; [left; nia|lia]. }
    rewrite (bin_exp_is num den Hn Hd K0 (e - 1) ltac:(unfold K0; lia) HF). rewrite (rnd_scaled num den Hn Hd K0) by (unfold K0; lia).
    fold X. assert (HW2 : U = 2 * (den * 2 ^ (e - 1 + K0))).
    { unfold U. replace (e + K0) with (1 + (e - 1 + K0)) by lia. rewrite Z.pow_add_r by (unfold K0; lia). change (2 ^ 1) with 2. ring. }
    set (V := den * 2 ^ (e - 1 + K0)) in *. assert (HRR : rnd_half_even X V = 2 ^ 53).
    { rewrite HW2, HM in H, HL. change (2 ^ 54) with (4 * 2 ^ 52) in H. change (2 ^ 53) with (2 * 2 ^ 52). set (B := 2 ^ 52) in *. assert (2 <= B) by (unfold B; lia).
      apply Z.le_antisymm.
      - apply rnd_le; nia.
      - assert (2 * B - 1 < rnd_half_even X V); [|lia]. apply rnd_gt; nia. }
    rewrite HRR. change (2 ^ 53 =? 2 ^ 53) with true. cbv iota. replace (e - 1 + 1) with e by lia. change (2 ^ 52) with (Zpos 4503599627370496) in HM |- *. injection HM as ->.
    replace (971 <? e) with false by lia. reflexivity.
  - rewrite (bin_exp_is num den Hn Hd K0 e ltac:(unfold K0; lia) HF). rewrite (rnd_scaled num den Hn Hd K0) by (unfold K0; lia). fold X U. rewrite HR.
    replace (Zpos m =? 2 ^ 53) with false by lia. replace (971 <? e) with false by lia. reflexivity.
Qed.
Lemma frac_eq m e : -1074 <= e -> frac_num (Zpos m) e * 2 ^ K0 = Zpos m * (frac_den e * 2 ^ (e + K0)).
Proof.
  intros He. unfold frac_num, frac_den. destruct (0 <=? e) eqn:HE.
  - rewrite (Z.pow_add_r 2 e) by (unfold K0; lia). ring.
  - rewrite <- Z.pow_add_r by (unfold K0; lia). replace (- e + (e + K0)) with K0 by lia. ring.
Qed.
Lemma frac_num_pos m e : 0 < frac_num (Zpos m) e.
Proof. unfold frac_num. destruct (0 <=? e) eqn:HE; [pose proof (pow2_pos e ltac:(lia)); nia|lia]. Qed.
Lemma round_exact s m e : canon m e -> round_pos s (frac_num (Zpos m) e) (frac_den e) = S754_finite s m e.
Proof.
  intros H. apply round_near; [exact H|apply frac_num_pos|apply frac_den_pos|]. rewrite frac_eq by apply H. rewrite Z.sub_diag.
  pose proof (pow2_pos (e + K0) ltac:(destruct H; unfold K0; lia)). pose proof (frac_den_pos e). cbn [Z.abs]. rewrite Z.mul_0_r. nia.
Qed.
(** Results of rounding. *)
Lemma round_pos_canon s num den : 0 < num -> 0 < den ->
  round_pos s num den = S754_zero s \/ round_pos s num den = S754_infinity s \/
  exists m e, canon m e /\ round_pos s num den = S754_finite s m e.
Proof.
  intros Hn Hd. pose proof (bin_exp_fits num den Hn Hd K0 ltac:(unfold K0; lia)) as (A & B & C). unfold round_pos.
  set (e := bin_exp num den) in *. rewrite (rnd_scaled num den Hn Hd K0) by (unfold K0; lia).
  pose proof (pow2_pos (e + K0) ltac:(unfold K0; lia)) as HW. pose proof (pow2_pos K0 ltac:(unfold K0; lia)) as HP.
  set (X := num * 2 ^ K0) in *. set (U := den * 2 ^ (e + K0)) in *. assert (HU : 0 < U) by (unfold U; nia). assert (HX : 0 < X) by (unfold X; nia).
  assert (H1 : 0 <= rnd_half_even X U) by (apply rnd_ge; lia). assert (H2 : rnd_half_even X U <= 2 ^ 53) by (apply rnd_le; lia).
  assert (H3 : 2 ^ 52 <= rnd_half_even X U \/ e = -1074) by (destruct B as [B|B]; [left; apply rnd_ge; lia|now right]).
  set (M := rnd_half_even X U) in *. destruct (M =? 2 ^ 53) eqn:EM.
  - change (2 ^ 52) with (Zpos 4503599627370496). destruct (971 <? e + 1) eqn:EE; [auto|]. right. right. exists 4503599627370496%positive, (e + 1).
    split; [|reflexivity]. split; [lia|]. split; [lia|]. left. lia.
  - destruct M as [|p|p]; [auto| |lia]. destruct (971 <? e) eqn:EE; [auto|]. right. right. exists p, e. split; [|reflexivity]. split; [lia|]. split; [lia|exact H3].
Qed.

Lemma canon_unique m e m' e' : canon m e -> canon m' e' ->
  frac_num (Zpos m) e * frac_den e' = frac_num (Zpos m') e' * frac_den e -> m = m' /\ e = e'.
Proof.
  intros H H' HE. pose proof (round_exact false m e H) as R. pose proof (round_exact false m' e' H') as R'.
  rewrite (round_pos_ext false _ _ (frac_num (Zpos m') e') (frac_den e')) in R by (try apply frac_num_pos; try apply frac_den_pos; exact HE).
  rewrite R in R'. now injection R' as -> ->.
Qed.
Lemma float_eqb_frac m e m' e' : float_eqb (S754_finite false m e) (S754_finite false m' e') = true ->
  frac_num (Zpos m) e * frac_den e' = frac_num (Zpos m') e' * frac_den e.
Proof.
  unfold float_eqb. cbn [Bool.eqb]. unfold frac_num, frac_den.
  assert (HP : forall a b c, a = b + c -> 0 <= b -> 0 <= c -> 2 ^ a = 2 ^ b * 2 ^ c) by (intros a b c -> ? ?; apply Z.pow_add_r; lia).
  destruct (e' <=? e) eqn:EL; intros H; apply Z.eqb_eq in H; [rewrite <- H|rewrite H];
    destruct (0 <=? e) eqn:E1; destruct (0 <=? e') eqn:E2; try lia.
  - rewrite (HP e (e - e') e') by lia. ring.
  - rewrite (HP (e - e') e (- e')) by lia. ring.
  - rewrite (HP (- e') (e - e') (- e)) by lia. ring.
  - rewrite (HP e' (e' - e) e) by lia. ring.
  - rewrite (HP (e' - e) e' (- e)) by lia. ring.
  - rewrite (HP (- e) (e' - e) (- e')) by lia. ring.
Qed.

(** ** Decimal exponents, with an integer scale 10^L *)
Definition L0 := 500.
Lemma pow10_pos a : 0 <= a -> 0 < 10 ^ a.
Proof. intros. apply Z.pow_pos_nonneg; lia. Qed.
Lemma dec_exp_small_spec k : forall num den acc, 0 < num < den -> den <= num * 10 ^ (Z.of_nat k + 1) ->
  exists j, 0 <= j <= Z.of_nat k /\ dec_exp_small k num den acc = acc - j /\ num * 10 ^ j < den <= num * 10 ^ (j + 1).
Proof.
  induction k as [|k IH]; intros num den acc Hn Hd.
  - exists 0. cbn [dec_exp_small]. change (Z.of_nat 0 + 1) with 1 in Hd. change (10 ^ 0) with 1. change (0 + 1) with 1. lia.
  - cbn [dec_exp_small]. destruct (den <=? num * 10) eqn:EL.
    + exists 0. change (10 ^ 0) with 1. change (0 + 1) with 1. change (10 ^ 1) with 10. lia.
    + destruct (IH (num * 10) den (acc - 1)) as (j & Hj & -> & H); [lia| |].
      { replace (Z.of_nat (S k) + 1) with (1 + (Z.of_nat k + 1)) in Hd by lia. rewrite Z.pow_add_r in Hd by lia. change (10 ^ 1) with 10 in Hd. lia. }
      exists (j + 1). split; [lia|]. split; [lia|]. rewrite (Z.pow_add_r 10 j) in * by lia. rewrite (Z.pow_add_r 10 (j + 1)), (Z.pow_add_r 10 j) by lia. change (10 ^ 1) with 10 in *. lia.
Qed.
Lemma dec_exp_spec num den : 0 < num -> 0 < den -> den <= num * 10 ^ 400 ->
  -400 <= dec_exp num den /\
  10 ^ (dec_exp num den - 1 + L0) * den <= num * 10 ^ L0 < 10 ^ (dec_exp num den + L0) * den.
Proof.
  intros Hn Hd HB. unfold dec_exp. destruct (den <=? num) eqn:EL.
  - set (q := num / den). assert (Hq : 1 <= q) by (apply Z.div_le_lower_bound; lia).
    assert (HN : 1 <= ndigits q).
    { unfold ndigits. destruct (str_decimal (Z.abs q)) as (ds & HE & H1 & _). replace (Z.abs q <? 0) with false in HE by lia. cbn [app] in HE. rewrite HE.
      destruct ds; [easy|]. rewrite len_cons. pose proof (len_nonneg ds). lia. }
    assert (H1 : q < 10 ^ ndigits q) by (pose proof (proj1 (ndigits_spec (ndigits q) q HN) (Z.le_refl _)); lia).
    assert (H2 : 10 ^ (ndigits q - 1) <= q).
    { destruct (Z.eq_dec (ndigits q) 1) as [->|HNE]; [cbn; lia|]. pose proof (ndigits_spec (ndigits q - 1) q ltac:(lia)) as (_ & HI).
      destruct (Z_lt_le_dec q (10 ^ (ndigits q - 1))) as [HL|HL]; [|exact HL]. rewrite Z.abs_eq in HI by lia. specialize (HI HL). lia. }
    set (n := ndigits q) in *. split; [lia|]. rewrite !(Z.pow_add_r 10 _ L0) by (unfold L0; lia). pose proof (pow10_pos L0 ltac:(unfold L0; lia)) as HP. set (P := 10 ^ L0) in *.
    pose proof (Z.div_mod num den ltac:(lia)) as HM. pose proof (Z.mod_pos_bound num den Hd) as HR. fold q in HM. set (a := 10 ^ (n - 1)) in *. set (b := 10 ^ n) in *.
    assert (a * den <= num < b * den) by nia. split; nia.
  - destruct (dec_exp_small_spec 400 num den 0) as (j & Hj & -> & H); [lia| |].
    { change (Z.of_nat 400 + 1) with (400 + 1). rewrite Z.pow_add_r by lia. pose proof (pow10_pos 400 ltac:(lia)). change (10 ^ 1) with 10. set (T := 10 ^ 400) in *. nia. }
    change (Z.of_nat 400) with 400 in Hj. split; [lia|].
    assert (H1 : 10 ^ L0 = 10 ^ (j + 1) * 10 ^ (0 - j - 1 + L0)) by (rewrite <- Z.pow_add_r by (unfold L0; lia); f_equal; lia).
    assert (H2 : 10 ^ L0 = 10 ^ j * 10 ^ (0 - j + L0)) by (rewrite <- Z.pow_add_r by (unfold L0; lia); f_equal; lia).
    pose proof (pow10_pos (0 - j - 1 + L0) ltac:(unfold L0; lia)). pose proof (pow10_pos (0 - j + L0) ltac:(unfold L0; lia)).
    split; [rewrite H1|rewrite H2]; nia.
Qed.

(** Rounding error. *)
Lemma rnd_err n d : 0 < d -> 2 * Z.abs (rnd_half_even n d * d - n) <= d.
Proof.
  intros Hd. unfold rnd_half_even. pose proof (Z.div_mod n d ltac:(lia)) as HM. pose proof (Z.mod_pos_bound n d Hd) as HR.
  set (q := n / d) in *. set (r := n mod d) in *. destruct (Z.compare_spec (2 * r) d); [destruct (Z.even q)| |]; nia.
Qed.
Lemma digits_spec num den nd : 0 < num -> 0 < den -> den <= num * 10 ^ 400 -> 1 <= nd <= 17 ->
  exists d E T, digits_nd num den nd = (d, E) /\ 10 ^ (nd - 1) <= d < 10 ^ nd /\ -400 <= E /\ 0 < T /\
    10 ^ (nd - 1) * T * den <= num * 10 ^ L0 /\
    2 * Z.abs (d * 10 ^ (E - nd + L0) * den - num * 10 ^ L0) <= T * den /\
    T = 10 ^ (dec_exp num den - nd + L0) /\ exists R, d * 10 ^ (E - nd + L0) = R * T.
Proof.
  intros Hn Hd HB Hnd. pose proof (dec_exp_spec num den Hn Hd HB) as (HE & H1 & H2). unfold digits_nd. set (E := dec_exp num den) in *.
  set (T := 10 ^ (E - nd + L0)). assert (HT : 0 < T) by (apply pow10_pos; unfold L0; lia).
  assert (HA : 10 ^ (E - 1 + L0) = 10 ^ (nd - 1) * T) by (unfold T; rewrite <- Z.pow_add_r by (unfold L0; lia); f_equal; lia).
  assert (HA' : 10 ^ (E + L0) = 10 ^ nd * T) by (unfold T; rewrite <- Z.pow_add_r by (unfold L0; lia); f_equal; lia).
  assert (Hrd : (if 0 <=? nd - E then rnd_half_even (num * 10 ^ (nd - E)) den else rnd_half_even num (den * 10 ^ (- (nd - E)))) =
                rnd_half_even (num * 10 ^ L0) (T * den)).
  { destruct (0 <=? nd - E) eqn:EL.
    - apply rnd_ext; [lia|nia|]. assert (HX : 10 ^ L0 = 10 ^ (nd - E) * T) by (unfold T; rewrite <- Z.pow_add_r by (unfold L0; lia); f_equal; lia). rewrite HX. ring.
    - apply rnd_ext; [pose proof (pow10_pos (- (nd - E)) ltac:(lia)); nia|nia|].
      assert (HX : T = 10 ^ L0 * 10 ^ (- (nd - E))) by (unfold T; rewrite <- Z.pow_add_r by (unfold L0; lia); f_equal; lia). rewrite HX. ring. }
  rewrite Hrd. rewrite HA in H1. rewrite HA' in H2. set (Y := num * 10 ^ L0) in *. set (V := T * den). assert (HV : 0 < V) by (unfold V; nia).
  assert (HL : 10 ^ (nd - 1) <= rnd_half_even Y V) by (apply rnd_ge; [exact HV|unfold V; lia]).
  assert (HH : rnd_half_even Y V <= 10 ^ nd) by (apply rnd_le; [exact HV|unfold V; lia]).
  pose proof (rnd_err Y V HV) as HErr. set (R := rnd_half_even Y V) in *. destruct (R =? 10 ^ nd) eqn:ER.
  - exists (10 ^ (nd - 1)), (E + 1), T. split; [reflexivity|]. split; [split; [lia|apply Z.pow_lt_mono_r; lia]|]. split; [lia|]. split; [exact HT|]. split; [exact H1|].
    assert (HX : 10 ^ (nd - 1) * 10 ^ (E + 1 - nd + L0) = 10 ^ nd * T) by (unfold T; rewrite <- !Z.pow_add_r by (unfold L0; lia); f_equal; lia).
    rewrite HX. apply Z.eqb_eq in ER. rewrite <- ER. unfold V in HErr. replace (R * T * den) with (R * (T * den)) by ring. split; [exact HErr|]. split; [reflexivity|]. now exists R.
  - exists R, E, T. split; [reflexivity|]. split; [lia|]. split; [lia|]. split; [exact HT|]. split; [exact H1|]. fold T. unfold V in HErr. replace (R * T * den) with (R * (T * den)) by ring. split; [exact HErr|]. split; [reflexivity|]. now exists R.
Qed.

(** ** Numbers from decimal digits *)
Lemma mk_dec_frac s d ex : 0 < d -> 0 <= ex + L0 -> mk_dec s d ex = round_pos s (d * 10 ^ (ex + L0)) (10 ^ L0).
Proof.
  intros Hd He. unfold mk_dec. replace (d =? 0) with false by lia. pose proof (pow10_pos L0 ltac:(unfold L0; lia)). pose proof (pow10_pos (ex + L0) He).
  destruct (0 <=? ex) eqn:EE.
  - pose proof (pow10_pos ex ltac:(lia)). apply round_pos_ext; try nia. rewrite Z.pow_add_r by (unfold L0; lia). ring.
  - pose proof (pow10_pos (- ex) ltac:(lia)). apply round_pos_ext; try nia.
    assert (HX : 10 ^ L0 = 10 ^ (ex + L0) * 10 ^ (- ex)) by (rewrite <- Z.pow_add_r by lia; f_equal; lia). rewrite HX. ring.
Qed.
Lemma mk_dec_ext s d ex d' ex' : 0 < d -> 0 < d' -> 0 <= ex + L0 -> 0 <= ex' + L0 -> d * 10 ^ (ex + L0) = d' * 10 ^ (ex' + L0) ->
  mk_dec s d ex = mk_dec s d' ex'.
Proof. intros H1 H2 H3 H4 H. rewrite !mk_dec_frac by assumption. now rewrite H. Qed.
Lemma float_of_digits_eq d nd E : 0 < d -> float_of_digits d nd E = mk_dec false d (E - nd).
Proof.
  intros Hd. unfold float_of_digits, mk_dec. replace (d =? 0) with false by lia. replace (- (E - nd)) with (nd - E) by lia. reflexivity.
Qed.
Lemma frac_ge m e : canon m e -> frac_den e <= frac_num (Zpos m) e * 10 ^ 400.
Proof.
  intros (_ & He & _). unfold frac_den, frac_num. destruct (0 <=? e) eqn:EE.
  - pose proof (pow2_pos e ltac:(lia)). pose proof (pow10_pos 400 ltac:(lia)). set (T := 10 ^ 400) in *. nia.
  - assert (H1 : 2 ^ (- e) <= 2 ^ 1074) by (apply Z.pow_le_mono_r; lia). assert (H2 : 2 ^ 1074 <= 10 ^ 400) by (vm_compute; discriminate).
    set (T := 10 ^ 400) in *. assert (0 < T) by (unfold T; apply pow10_pos; lia). nia.
Qed.
(** Seventeen digits are enough. *)
Lemma digits17 m e d E : canon m e -> digits_nd (frac_num (Zpos m) e) (frac_den e) 17 = (d, E) -> mk_dec false d (E - 17) = S754_finite false m e.
Proof.
  intros HC HD. pose proof (frac_num_pos m e) as Hn. pose proof (frac_den_pos e) as Hd.
  destruct (digits_spec _ _ 17 Hn Hd (frac_ge m e HC) ltac:(lia)) as (d' & E' & T & HD' & Hr & HE & HT & HT1 & HErr & _). rewrite HD in HD'. injection HD' as <- <-.
  assert (Hd0 : 0 < d) by (pose proof (pow10_pos (17 - 1) ltac:(lia)); lia).
  rewrite mk_dec_frac by (unfold L0; lia). pose proof (pow10_pos L0 ltac:(unfold L0; lia)) as HP. pose proof (pow10_pos (E - 17 + L0) ltac:(unfold L0; lia)) as HQ.
  apply round_near; [exact HC|nia|exact HP|]. pose proof (frac_eq m e (proj1 (proj1 (proj2 HC)))) as HF.
  pose proof (pow2_pos K0 ltac:(unfold K0; lia)) as HK. pose proof (pow2_pos (e + K0) ltac:(destruct HC; unfold K0; lia)) as HKe.
  set (fn := frac_num (Zpos m) e) in *. set (fd := frac_den e) in *. set (P := 10 ^ L0) in *. set (A := d * 10 ^ (E - 17 + L0)) in *.
  set (k := 2 ^ K0) in *. set (w := 2 ^ (e + K0)) in *. change (17 - 1) with 16 in *.
  assert (H1 : 2 * 10 ^ 16 * Z.abs (A * fd - fn * P) <= fn * P).
  { set (t := 10 ^ 16) in *. assert (0 < t) by (apply pow10_pos; lia). nia. }
  assert (H2 : 2 * 10 ^ 16 * Z.abs (fd * (A * k - Zpos m * (P * w))) <= fd * (Zpos m * (P * w))).
  { replace (fd * (A * k - Zpos m * (P * w))) with ((A * fd - fn * P) * k).
    - replace (fd * (Zpos m * (P * w))) with (fn * P * k) by (replace (fn * P * k) with (fn * k * P) by ring; rewrite HF; ring).
      rewrite Z.abs_mul, (Z.abs_eq k) by lia. rewrite Z.mul_assoc. apply Z.mul_le_mono_nonneg_r; [lia|exact H1].
    - rewrite Z.mul_sub_distr_r. replace (fn * P * k) with (fn * k * P) by ring. rewrite HF. ring. }
  rewrite Z.abs_mul, (Z.abs_eq fd) in H2 by lia. set (D := Z.abs (A * k - Zpos m * (P * w))) in *. set (B := Zpos m * (P * w)) in *.
  assert (HB : 0 < B) by (unfold B; nia). assert (H3 : 2 * 10 ^ 16 * D <= B) by nia. assert (0 <= D) by (unfold D; lia).
  change (2 * 10 ^ 16) with 20000000000000000 in H3. change (2 ^ 54) with 18014398509481984. lia.
Qed.
Lemma shortest_spec m e : canon m e -> forall k nd, Z.of_nat k + nd = 17 -> 1 <= nd ->
  exists d n E, shortest k nd m e = (d, n, E) /\ 1 <= n <= 17 /\ 10 ^ (n - 1) <= d < 10 ^ n /\ -400 <= E /\
    mk_dec false d (E - n) = S754_finite false m e.
Proof.
  intros HC. induction k as [|k IH]; intros nd Hk Hnd; cbn [shortest];
    destruct (digits_spec _ _ nd (frac_num_pos m e) (frac_den_pos e) (frac_ge m e HC) ltac:(lia)) as (d & E & T & HD & Hr & HE & _); rewrite HD.
  - exists d, nd, E. split; [reflexivity|]. split; [lia|]. split; [exact Hr|]. split; [exact HE|]. replace nd with 17 in * by lia. now apply digits17.
  - assert (Hd0 : 0 < d) by (pose proof (pow10_pos (nd - 1) ltac:(lia)); lia).
    destruct (float_eqb (float_of_digits d nd E) (S754_finite false m e)) eqn:EQ; [|apply IH; lia].
    exists d, nd, E. split; [reflexivity|]. split; [lia|]. split; [exact Hr|]. split; [exact HE|].
    rewrite float_of_digits_eq in EQ by exact Hd0. rewrite mk_dec_frac in * by (unfold L0; lia).
    pose proof (pow10_pos L0 ltac:(unfold L0; lia)) as HP. pose proof (pow10_pos (E - nd + L0) ltac:(unfold L0; lia)) as HQ.
    destruct (round_pos_canon false (d * 10 ^ (E - nd + L0)) (10 ^ L0) ltac:(nia) HP) as [HZ|[HI|(m' & e' & HC' & HF)]].
    + rewrite HZ in EQ. discriminate.
    + rewrite HI in EQ. discriminate.
    + rewrite HF in EQ |- *. apply float_eqb_frac in EQ. destruct (canon_unique m' e' m e HC' HC EQ) as (-> & ->). reflexivity.
Qed.

(** ** Reading digits *)
Definition nodigit (s : pystr) : Prop := match s with [] => True | c :: _ => ~ digit c end.
Lemma is_digit_spec c : is_digit c = true <-> digit c.
Proof. unfold is_digit, in_rng, digit. lia. Qed.
Lemma take_digits_app ds : Forall digit ds -> forall s acc n, nodigit s ->
  take_digits (ds ++ s) acc n = (acc * 10 ^ len ds + numeral ds, n + len ds, s).
Proof.
  induction 1 as [|c ds Hc HF IH]; intros s acc n Hs.
  - cbn [app]. rewrite len_nil. change (numeral []) with 0. rewrite Z.mul_1_r, !Z.add_0_r. destruct s as [|c s]; [reflexivity|]. cbn [take_digits].
    destruct (is_digit c) eqn:E; [apply is_digit_spec in E; now elim Hs|reflexivity].
  - cbn [app take_digits]. apply is_digit_spec in Hc as Hc'. rewrite Hc'. rewrite IH by exact Hs. rewrite len_cons, numeral_cons. f_equal. f_equal; [|lia].
    rewrite Z.pow_add_r by (pose proof (len_nonneg ds); lia). change (10 ^ 1) with 10. ring.
Qed.
Lemma numeral_app a b : numeral (a ++ b) = numeral a * 10 ^ len b + numeral b.
Proof. unfold numeral at 1. rewrite fold_left_app, fold_numeral. reflexivity. Qed.
Lemma numeral_zeros n : numeral (repeat 48 n) = 0.
Proof. induction n as [|n IH]; [reflexivity|]. cbn [repeat]. rewrite numeral_cons, IH. lia. Qed.
Lemma zeros_digit n : Forall digit (zeros n).
Proof. unfold zeros. apply Forall_forall. intros c H. apply repeat_spec in H. subst. unfold digit. lia. Qed.
Lemma len_zeros n : 0 <= n -> len (zeros n) = n.
Proof. intros H. unfold zeros, len. rewrite repeat_length. lia. Qed.
(** Digits without trailing zeros. *)
Lemma strip0_spec l : exists n, l = repeat 48 n ++ strip0 l /\ hd 0 (strip0 l) <> 48.
Proof.
  induction l as [|c l (n & IH & HH)]; [exists 0%nat; split; [reflexivity|discriminate]|]. destruct (Z.eq_dec c 48) as [->|HN].
  - exists (S n). cbn [strip0 repeat app]. split; [now f_equal|exact HH].
  - exists 0%nat. assert (HS : strip0 (c :: l) = c :: l).
    { destruct c as [|p|p]; try reflexivity. cbn. do 6 (destruct p; try reflexivity). now elim HN. }
    rewrite HS. split; [reflexivity|exact HN].
Qed.
Lemma strip_spec s : exists n, s = strip_trailing0 s ++ repeat 48 n.
Proof.
  unfold strip_trailing0. destruct (strip0_spec (rev s)) as (n & H & _). exists n.
  rewrite <- (rev_involutive s) at 1. rewrite H at 1. rewrite rev_app_distr. f_equal.
  clear. induction n as [|n IH]; [reflexivity|]. cbn [repeat rev]. rewrite IH. clear. induction n as [|n IH]; [reflexivity|]. cbn [repeat app]. now rewrite IH.
Qed.

(** ** Reading what [repr] writes *)
(** Unsigned texts. *)
Definition parse_abs (sg : bool) (s : pystr) : option spec_float :=
  let '(ip, n1, s) := take_digits s 0 0 in
  if n1 =? 0 then None else
  let '(d, nf, s) := match s with
                     | 46 :: s' => take_digits s' ip 0
                     | _ => (ip, 0, s)
                     end in
  match s with
  | [] => Some (mk_dec sg d (- nf))
  | 101 :: 45 :: s' =>
      let '(x, n2, r) := take_digits s' 0 0 in
      match r with [] => if n2 =? 0 then None else Some (mk_dec sg d (- x - nf)) | _ => None end
  | 101 :: 43 :: s' =>
      let '(x, n2, r) := take_digits s' 0 0 in
      match r with [] => if n2 =? 0 then None else Some (mk_dec sg d (x - nf)) | _ => None end
  | _ => None
  end.
Lemma parse_sign s : parse_float (45 :: s) = parse_abs true s.
Proof. reflexivity. Qed.
Lemma parse_plain c s : digit c -> parse_float (c :: s) = parse_abs false (c :: s).
Proof.
  unfold digit. intros H. assert (HC : c = 48 \/ c = 49 \/ c = 50 \/ c = 51 \/ c = 52 \/ c = 53 \/ c = 54 \/ c = 55 \/ c = 56 \/ c = 57) by lia.
  repeat destruct HC as [-> |HC]; try reflexivity. now subst.
Qed.
(** Integer part, fraction, exponent. *)
Lemma parse_fixed sg a b : Forall digit a -> Forall digit b -> a <> [] -> 
  parse_abs sg (a ++ 46 :: b) = Some (mk_dec sg (numeral (a ++ b)) (- len b)).
Proof.
  intros Ha Hb Hne. unfold parse_abs. rewrite (take_digits_app a Ha (46 :: b)) by (unfold nodigit, digit; lia).
  replace (0 + len a =? 0) with false by (destruct a; [easy|]; rewrite len_cons; pose proof (len_nonneg a); lia).
  rewrite <- (app_nil_r b) at 1. rewrite (take_digits_app b Hb []) by exact I. rewrite numeral_app. reflexivity.
Qed.
Lemma parse_exp sg a b x neg : Forall digit a -> Forall digit b -> Forall digit x -> a <> [] -> x <> [] ->
  parse_abs sg ((match b with [] => a | _ => a ++ 46 :: b end) ++ 101 :: (if neg : bool then 45 else 43) :: x) =
  Some (mk_dec sg (numeral (a ++ b)) ((if neg then - numeral x else numeral x) - len b)).
Proof.
  intros Ha Hb Hx Hne Hxe. unfold parse_abs.
  assert (HA : 0 + len a =? 0 = false) by (destruct a; [easy|]; rewrite len_cons; pose proof (len_nonneg a); lia).
  assert (HX : 0 + len x =? 0 = false) by (destruct x; [easy|]; rewrite len_cons; pose proof (len_nonneg x); lia).
  assert (HT : take_digits x 0 0 = (0 * 10 ^ len x + numeral x, 0 + len x, [])) by (rewrite <- (app_nil_r x) at 1; now apply take_digits_app).
  destruct b as [|c b].
  - rewrite (take_digits_app a Ha) by (unfold nodigit, digit; lia). rewrite HA. destruct neg; rewrite HT, HX, app_nil_r; change (len (@nil Z)) with 0; rewrite !Z.mul_0_l, !Z.add_0_l; reflexivity.
  - rewrite <- app_assoc. cbn [app]. rewrite (take_digits_app a Ha) by (unfold nodigit, digit; lia). rewrite HA.
    change (c :: b ++ 101 :: (if neg then 45 else 43) :: x) with ((c :: b) ++ 101 :: (if neg then 45 else 43) :: x).
    rewrite (take_digits_app (c :: b) Hb) by (unfold nodigit, digit; lia). rewrite numeral_app. destruct neg; rewrite HT, HX, !Z.mul_0_l, !Z.add_0_l; reflexivity.
Qed.
Lemma slice_firstn {A} (l : list A) k : 0 <= k <= len l -> slice l 0 k = firstn (Z.to_nat k) l /\ slice_from l k = skipn (Z.to_nat k) l.
Proof.
  intros H. unfold slice, slice_from, norm_ix. replace (0 <? 0) with false by lia. replace (k <? 0) with false by lia. rewrite !Z.min_l by lia.
  rewrite Z.sub_0_r. split; reflexivity.
Qed.
Lemma exp_digits ex : exists x, (let s := str_of_Z (Z.abs ex) in if len s <? 2 then 48 :: s else s) = x /\ Forall digit x /\ x <> [] /\ numeral x = Z.abs ex.
Proof.
  destruct (str_decimal (Z.abs ex)) as (ds & HE & H1 & H2 & H3 & _). replace (Z.abs ex <? 0) with false in HE by lia. cbn [app] in HE. rewrite HE. cbv zeta.
  rewrite Z.abs_involutive in H3. destruct (len ds <? 2); eexists; (split; [reflexivity|]).
  - split; [constructor; [unfold digit; lia|exact H2]|]. split; [discriminate|]. rewrite numeral_cons. lia.
  - auto.
Qed.
Lemma layout_parse sg ds E : Forall digit ds -> ds <> [] -> 0 < numeral ds -> len ds <= 17 -> -400 <= E ->
  parse_abs sg (layout ds E) = Some (mk_dec sg (numeral ds) (E - len ds)) /\ exists c r, layout ds E = c :: r /\ digit c.
Proof.
  intros HD Hne HN HL HE. pose proof (len_nonneg ds) as Hp. unfold layout. cbv zeta. destruct ((-4 <? E) && (E <=? 16)) eqn:ER.
  - destruct (E <=? 0) eqn:E0; [|destruct (E <? len ds) eqn:E1].
    + split; [|exists 48; eexists; split; [reflexivity|unfold digit; lia]].
      change (48 :: 46 :: zeros (- E) ++ ds) with ([48] ++ 46 :: (zeros (- E) ++ ds)). rewrite parse_fixed.
      * f_equal. rewrite len_app, len_zeros, !numeral_app by lia. unfold zeros. rewrite numeral_zeros. change (numeral [48]) with 0. rewrite !Z.mul_0_l, !Z.add_0_l. f_equal. lia.
      * repeat constructor; unfold digit; lia.
      * apply Forall_app. split; [apply zeros_digit|exact HD].
      * discriminate.
    + destruct (slice_firstn ds E ltac:(lia)) as (-> & ->). pose proof (firstn_skipn (Z.to_nat E) ds) as HFS.
      assert (HD' := HD). rewrite <- HFS in HD'. apply Forall_app in HD'. destruct HD' as (HD1 & HD2).
      assert (HL1 : len (firstn (Z.to_nat E) ds) = E) by (unfold len in *; rewrite firstn_length; lia).
      assert (HL2 : len (skipn (Z.to_nat E) ds) = len ds - E) by (unfold len in *; rewrite skipn_length; lia).
      assert (HF : firstn (Z.to_nat E) ds <> []) by (intros HX; rewrite HX in HL1; change (len (@nil Z)) with 0 in HL1; lia).
      split.
      * rewrite parse_fixed by assumption. rewrite HFS, HL2. do 2 f_equal. lia.
      * destruct (firstn (Z.to_nat E) ds) as [|c r]; [easy|]. inversion HD1; subst. cbn [app]. eauto.
    + replace (ds ++ zeros (E - len ds) ++ [46; 48]) with ((ds ++ zeros (E - len ds)) ++ 46 :: [48]) by now rewrite <- app_assoc. split.
      * rewrite parse_fixed; [|apply Forall_app; split; [exact HD|apply zeros_digit]|repeat constructor; unfold digit; lia|destruct ds; [easy|discriminate]].
        f_equal. rewrite !numeral_app, len_zeros by lia. unfold zeros at 1. rewrite numeral_zeros. change (numeral [48]) with 0. change (len [48]) with 1. rewrite !Z.add_0_r.
        pose proof (pow10_pos (E - len ds) ltac:(lia)). assert (0 < numeral ds * 10 ^ (E - len ds)) by nia. change (10 ^ 1) with 10.
        apply mk_dec_ext; [lia|lia|unfold L0; lia|unfold L0; lia|]. change 10 with (10 ^ 1) at 2.
        rewrite <- !Z.mul_assoc, <- !Z.pow_add_r by (unfold L0; lia). do 2 f_equal; lia.
      * destruct ds as [|c r]; [easy|]. inversion HD; subst. cbn [app]. eauto.
  - destruct (exp_digits (E - 1)) as (x & HX & Hx & Hxe & HNx). cbv zeta in HX. rewrite HX. destruct ds as [|c r]; [easy|]. inversion HD as [|? ? Hc Hr].
    replace (match r with [] => [c] | _ :: _ => c :: 46 :: r end) with (match r with [] => [c] | _ => [c] ++ 46 :: r end) by now destruct r.
    split.
    + rewrite (parse_exp sg [c] r x (E - 1 <? 0)); [|constructor; [exact Hc|constructor]|exact Hr|exact Hx|discriminate|exact Hxe].
      cbn [app]. do 2 f_equal. rewrite HNx, len_cons. destruct (E - 1 <? 0) eqn:EN; lia.
    + destruct r as [|c' r]; cbn [app]; eauto.
Qed.

(** ** Round trip *)
Lemma round_pos_sign s m e num den : round_pos false num den = S754_finite false m e -> round_pos s num den = S754_finite s m e.
Proof.
  unfold round_pos. destruct (if _ =? _ then _ else _) as [M x]. destruct M as [|p|p]; try discriminate. destruct (971 <? x); [discriminate|]. intros H. now injection H as -> ->.
Qed.
Theorem repr_parse f : finite64 f -> parse_float (repr_float f) = Some f.
Proof.
  destruct f as [s|s| |s m e]; cbn [finite64]; [intros _|intros []|intros []|intros HC].
  - destruct s; reflexivity.
  - cbn [repr_float]. destruct (shortest_spec m e HC 16 1 eq_refl ltac:(lia)) as (d & n & E & -> & Hn & Hd & HE & HM).
    assert (Hd0 : 0 < d) by (pose proof (pow10_pos (n - 1) ltac:(lia)); lia).
    destruct (str_decimal d) as (ds & HS & H1 & H2 & H3 & H4). replace (d <? 0) with false in HS by lia. cbn [app] in HS. rewrite HS. rewrite Z.abs_eq in H3 by lia.
    assert (HLn : len ds = n).
    { destruct ds as [|c r]; [easy|]. cbn [hd] in H4. assert (c <> 48) by (intros ->; rewrite (H4 eq_refl) in H3; cbn in H3; lia).
      pose proof (numeral_lead c r H2 ltac:(assumption)) as HR. rewrite H3, len_cons in HR. rewrite len_cons. pose proof (len_nonneg r).
      destruct (Z.lt_trichotomy (1 + len r) n) as [HL|[HL|HL]]; [|exact HL|].
      - assert (10 ^ (1 + len r) <= 10 ^ (n - 1)) by (apply Z.pow_le_mono_r; lia). lia.
      - assert (10 ^ n <= 10 ^ len r) by (apply Z.pow_le_mono_r; lia). lia. }
    destruct (strip_spec ds) as (j & HJ). set (t := strip_trailing0 ds) in *.
    assert (HD : Forall digit t) by (rewrite HJ in H2; apply Forall_app in H2; apply H2).
    assert (HLj : len t + Z.of_nat j = n) by (rewrite <- HLn, HJ, len_app; unfold len at 3; rewrite repeat_length; lia).
    assert (HV : d = numeral t * 10 ^ Z.of_nat j) by (rewrite <- H3, HJ, numeral_app, numeral_zeros; unfold len; rewrite repeat_length; lia).
    pose proof (pow10_pos (Z.of_nat j) ltac:(lia)) as Hpj. assert (HNt : 0 < numeral t) by nia.
    assert (Hte : t <> []) by (intros HX; rewrite HX in HNt; cbn in HNt; lia). pose proof (len_nonneg t).
    assert (HB : forall sg, mk_dec sg (numeral t) (E - len t) = S754_finite sg m e).
    { intros sg. rewrite (mk_dec_ext sg _ _ d (E - n)); try (unfold L0; lia).
      - unfold mk_dec in HM |- *. replace (d =? 0) with false in * by lia. destruct (0 <=? E - n); now apply round_pos_sign.
      - rewrite HV, <- Z.mul_assoc, <- Z.pow_add_r by (unfold L0; lia). do 2 f_equal. lia. }
    destruct (layout_parse s t E HD Hte HNt ltac:(lia) HE) as (HP & c & r & HC' & Hc). destruct s; cbn [app].
    + rewrite parse_sign, HP, HB. reflexivity.
    + rewrite HC' in HP |- *. rewrite parse_plain, HP, HB by exact Hc. reflexivity.
Qed.
