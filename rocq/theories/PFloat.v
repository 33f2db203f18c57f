(** * Exactness of the float divisions used for integer results *)

From Coq Require Import ZArith List Bool Lia SpecFloat.
From Coq Require Import ZifyBool.
From Verif Require Import Py PyFloat BV.
Open Scope Z_scope.

Lemma rnd_le n d k : 0 < d -> n <= k * d -> rnd_half_even n d <= k.
Proof.
  intros Hd H. unfold rnd_half_even.
  pose proof (Z.div_mod n d ltac:(lia)). pose proof (Z.mod_pos_bound n d Hd).
  assert (n / d <= k) by (apply Z.lt_succ_r, Z.div_lt_upper_bound; lia).
  destruct (Z.compare_spec (2 * (n mod d)) d); [destruct (Z.even (n / d)) | |]; nia.
Qed.

Lemma rnd_ge n d k : 0 < d -> k * d <= n -> k <= rnd_half_even n d.
Proof.
  intros Hd H. unfold rnd_half_even.
  assert (k <= n / d) by (apply Z.div_le_lower_bound; lia).
  destruct ((2 * (n mod d)) ?= d); [destruct (Z.even (n / d)) | |]; lia.
Qed.

(** More than half a unit away from an integer: strictly on the same side. *)
Lemma rnd_lt n d k : 0 < d -> 2 * n < (2 * k - 1) * d -> rnd_half_even n d < k.
Proof.
  intros Hd H. unfold rnd_half_even.
  pose proof (Z.div_mod n d ltac:(lia)). pose proof (Z.mod_pos_bound n d Hd).
  destruct (Z.compare_spec (2 * (n mod d)) d); [destruct (Z.even (n / d)) | |]; nia.
Qed.
Lemma rnd_gt n d k : 0 < d -> (2 * k + 1) * d < 2 * n -> k < rnd_half_even n d.
Proof.
  intros Hd H. unfold rnd_half_even.
  pose proof (Z.div_mod n d ltac:(lia)). pose proof (Z.mod_pos_bound n d Hd).
  destruct (Z.compare_spec (2 * (n mod d)) d); [destruct (Z.even (n / d)) | |]; nia.
Qed.

Lemma rnd_exact d k : 0 < d -> rnd_half_even (k * d) d = k.
Proof.
  intros Hd. apply Z.le_antisymm; [apply rnd_le | apply rnd_ge]; lia.
Qed.

(** Scaled quotient of numbers below 2^53. *)
Lemma bin_exp_small a b :
  0 < a < 2 ^ 53 -> 0 < b < 2 ^ 60 ->
  let e := bin_exp a b in
  e <= 0 /\ 2 ^ 52 * b <= a * 2 ^ (- e) /\ a * 2 ^ (- e) < 2 ^ 53 * b.
Proof.
  intros Ha Hb. unfold bin_exp.
  set (la := Z.log2 a). set (lb := Z.log2 b).
  pose proof (Z.log2_spec a ltac:(lia)) as Sa. fold la in Sa.
  pose proof (Z.log2_spec b ltac:(lia)) as Sb. fold lb in Sb.
  assert (0 <= la) by apply Z.log2_nonneg. assert (0 <= lb) by apply Z.log2_nonneg.
  assert (la <= 52) by (apply Z.lt_succ_r, Z.log2_lt_pow2; lia).
  assert (lb <= 59) by (apply Z.lt_succ_r, Z.log2_lt_pow2; lia).
  set (e1 := la - lb - 52). assert (He1 : -111 <= e1 <= 0) by lia.
  assert (Hn : scale_num a e1 = a * 2 ^ (- e1)).
  { unfold scale_num. destruct (Z.leb_spec 0 e1); [|reflexivity].
    replace e1 with 0 by lia. cbn. lia. }
  assert (Hd : scale_den b e1 = b).
  { unfold scale_den. destruct (Z.leb_spec 0 e1); [|reflexivity].
    replace e1 with 0 by lia. cbn. lia. }
  rewrite Hn, Hd.
  (* bounds of a * 2^-e1 / b *)
  assert (P1 : 2 ^ 51 * b < a * 2 ^ (- e1)).
  { replace (- e1) with (lb + 52 - la) by lia.
    assert (2 ^ la * 2 ^ (lb + 52 - la) = 2 ^ (lb + 52)) by (rewrite <- Z.pow_add_r by lia; f_equal; lia).
    assert (2 ^ (lb + 52) = 2 ^ 51 * 2 ^ Z.succ lb).
    { rewrite <- Z.pow_add_r by lia. f_equal. lia. }
    assert (0 < 2 ^ (lb + 52 - la)) by (apply Z.pow_pos_nonneg; lia). nia. }
  assert (P2 : a * 2 ^ (- e1) < 2 ^ 53 * b).
  { replace (- e1) with (lb + 52 - la) by lia.
    assert (2 ^ Z.succ la * 2 ^ (lb + 52 - la) = 2 ^ (lb + 53)) by (rewrite <- Z.pow_add_r by lia; f_equal; lia).
    assert (2 ^ (lb + 53) = 2 ^ 53 * 2 ^ lb).
    { rewrite <- Z.pow_add_r by lia. f_equal. lia. }
    assert (0 < 2 ^ (lb + 52 - la)) by (apply Z.pow_pos_nonneg; lia). nia. }
  destruct (Z.ltb_spec (a * 2 ^ (- e1) / b) (2 ^ 52)) as [L|L].
  - replace (Z.max (e1 - 1) (-1074)) with (e1 - 1) by lia. cbv zeta. split; [lia|].
    replace (- (e1 - 1)) with (1 + - e1) by lia. rewrite Z.pow_add_r by lia.
    assert (a * 2 ^ (- e1) < 2 ^ 52 * b).
    { pose proof (Z.div_mod (a * 2 ^ (- e1)) b ltac:(lia)).
      pose proof (Z.mod_pos_bound (a * 2 ^ (- e1)) b ltac:(lia)). nia. }
    change (2 ^ 1) with 2. nia.
  - replace (Z.max e1 (-1074)) with e1 by lia. cbv zeta. split; [lia|].
    split; [|lia].
    pose proof (Z.div_mod (a * 2 ^ (- e1)) b ltac:(lia)).
    pose proof (Z.mod_pos_bound (a * 2 ^ (- e1)) b ltac:(lia)). nia.
Qed.

(** The float nearest to a/b, as a fraction p / 2^k with the properties used. *)
Lemma round_pos_small s a b :
  0 < a < 2 ^ 53 -> 0 < b < 2 ^ 60 ->
  exists m e, round_pos s a b = S754_finite s m e /\
    exists k M, 0 <= k /\ b < 2 ^ (k + 1) /\ M = rnd_half_even (a * 2 ^ k) b /\
      frac_num (Zpos m) e * 2 ^ k = M * frac_den e.
Proof.
  intros Ha Hb. destruct (bin_exp_small a b Ha Hb) as (He & L & U).
  set (e := bin_exp a b) in *. set (k := - e).
  assert (Hk : 0 <= k) by lia.
  set (M := rnd_half_even (a * 2 ^ k) b).
  assert (HM1 : 2 ^ 52 <= M) by (apply rnd_ge; unfold k; lia).
  assert (HM2 : M <= 2 ^ 53) by (apply rnd_le; unfold k; lia).
  assert (Hb2 : b < 2 ^ (k + 1)).
  { rewrite Z.pow_add_r by lia. change (2 ^ 1) with 2. fold k in L.
    assert (2 ^ 52 * b < 2 ^ 53 * 2 ^ k); [|lia].
    assert (0 < 2 ^ k) by (apply Z.pow_pos_nonneg; lia). nia. }
  unfold round_pos. fold e.
  assert (Hn : scale_num a e = a * 2 ^ k).
  { unfold scale_num. destruct (Z.leb_spec 0 e); [|reflexivity].
    replace k with 0 by lia. cbn. lia. }
  assert (Hd : scale_den b e = b).
  { unfold scale_den. destruct (Z.leb_spec 0 e); [|reflexivity].
    replace e with 0 by lia. cbn. lia. }
  rewrite Hn, Hd. fold M.
  destruct (Z.eqb_spec M (2 ^ 53)) as [EM|EM].
  - exists (2 ^ 52)%positive, (e + 1). split.
    + change (2 ^ 52) with (Zpos (2 ^ 52)). cbv iota beta. now replace (971 <? e + 1) with false by lia.
    + exists k, M. repeat split; try lia.
      unfold frac_num, frac_den. rewrite EM.
      destruct (Z.leb_spec 0 (e + 1)) as [G|G].
      * assert (HK : k = 0 \/ k = 1) by lia. destruct HK as [HK|HK]; rewrite HK.
        -- replace (e + 1) with 1 by lia. reflexivity.
        -- replace (e + 1) with 0 by lia. reflexivity.
      * replace k with (1 + - (e + 1)) by lia. rewrite Z.pow_add_r by lia.
        change (Zpos (2 ^ 52)) with (2 ^ 52). lia.
  - destruct M as [|p|p] eqn:EMp; try lia. exists p, e. split.
    + now replace (971 <? e) with false by lia.
    + exists k, (Zpos p). repeat split; try lia.
      unfold frac_num, frac_den. destruct (Z.leb_spec 0 e).
      * replace k with 0 by lia. replace e with 0 by lia. cbn. lia.
      * reflexivity.
Qed.

Lemma frac_den_pos e : 0 < frac_den e.
Proof. unfold frac_den. destruct (0 <=? e) eqn:H; [lia | apply Z.pow_pos_nonneg; lia]. Qed.

(** Rounding bounds relative to the integer part. *)
Lemma rnd_floor a b k :
  0 <= a -> 0 < b -> 0 <= k -> b < 2 ^ (k + 1) ->
  let M := rnd_half_even (a * 2 ^ k) b in
  (a / b) * 2 ^ k <= M < (a / b + 1) * 2 ^ k /\
  (a mod b = 0 -> M = (a / b) * 2 ^ k) /\
  (a mod b <> 0 -> (a / b) * 2 ^ k < M).
Proof.
  intros Ha Hb Hk HB M.
  pose proof (Z.div_mod a b ltac:(lia)) as DM. pose proof (Z.mod_pos_bound a b Hb) as MB.
  set (q := a / b) in *. set (r := a mod b) in *.
  assert (0 < 2 ^ k) by (apply Z.pow_pos_nonneg; lia).
  rewrite Z.pow_add_r in HB by lia. change (2 ^ 1) with 2 in HB.
  unfold M. repeat split.
  - apply rnd_ge; nia.
  - apply rnd_lt; nia.
  - intros Hr. replace (a * 2 ^ k) with ((q * 2 ^ k) * b) by nia. now apply rnd_exact.
  - intros Hr. apply rnd_gt; nia.
Qed.

Lemma trunc_int_div_pos a b :
  0 < a < 2 ^ 53 -> 0 < b < 2 ^ 60 -> trunc_float (int_div a b) = a / b.
Proof.
  intros Ha Hb. unfold int_div, round_q.
  replace (b <? 0) with false by lia. replace (a =? 0) with false by lia.
  replace (a <? 0) with false by lia. rewrite Z.abs_eq by lia.
  destruct (round_pos_small false a b Ha Hb) as (m & e & -> & k & M & Hk & HB & HM & HF).
  pose proof (rnd_floor a b k ltac:(lia) ltac:(lia) Hk HB) as (R & _ & _). rewrite <- HM in R.
  cbn [trunc_float sgnz]. pose proof (frac_den_pos e) as HD.
  set (n := frac_num (Zpos m) e) in *. set (d := frac_den e) in *.
  assert (0 < 2 ^ k) by (apply Z.pow_pos_nonneg; lia).
  symmetry. apply (Z.div_unique_pos n d (a / b) (n - d * (a / b))); [|lia]. nia.
Qed.

Lemma trunc_int_div a b :
  - 2 ^ 53 < a < 2 ^ 53 -> 0 < b < 2 ^ 60 -> trunc_float (int_div a b) = Z.quot a b.
Proof.
  intros Ha Hb. destruct (Z.lt_trichotomy a 0) as [L|[->|L]].
  - unfold int_div, round_q.
    replace (b <? 0) with false by lia. replace (a =? 0) with false by lia.
    replace (a <? 0) with true by lia.
    destruct (round_pos_small true (Z.abs a) b ltac:(lia) Hb) as (m & e & -> & k & M & Hk & HB & HM & HF).
    pose proof (rnd_floor (Z.abs a) b k ltac:(lia) ltac:(lia) Hk HB) as (R & _ & _).
    rewrite <- HM in R.
    cbn [trunc_float sgnz]. pose proof (frac_den_pos e) as HD.
    set (n := frac_num (Zpos m) e) in *. set (d := frac_den e) in *.
    assert (0 < 2 ^ k) by (apply Z.pow_pos_nonneg; lia).
    assert (n / d = Z.abs a / b) as ->.
    { symmetry. apply (Z.div_unique_pos n d (Z.abs a / b) (n - d * (Z.abs a / b))); [|lia]. nia. }
    rewrite <- Z.quot_div_nonneg by lia.
    replace (Z.abs a) with (- a) by lia. rewrite Z.quot_opp_l by lia. lia.
  - unfold int_div, round_q. replace (b <? 0) with false by lia. cbn. reflexivity.
  - rewrite trunc_int_div_pos by lia. symmetry. apply Z.quot_div_nonneg; lia.
Qed.

Lemma int_quot_exact a b :
  - 2 ^ 53 < a < 2 ^ 53 -> 0 < b < 2 ^ 60 -> int_quot a b = Z.quot a b.
Proof. apply trunc_int_div. Qed.

(** Ceiling of a quotient of integers. *)
Lemma ceil_int_div a b :
  - 2 ^ 53 < a < 2 ^ 53 -> 0 < b < 2 ^ 60 -> ceil_float (int_div a b) = - ((- a) / b).
Proof.
  intros Ha Hb. destruct (Z.lt_trichotomy a 0) as [L|[->|L]].
  - unfold int_div, round_q.
    replace (b <? 0) with false by lia. replace (a =? 0) with false by lia.
    replace (a <? 0) with true by lia.
    destruct (round_pos_small true (Z.abs a) b ltac:(lia) Hb) as (m & e & -> & k & M & Hk & HB & HM & HF).
    pose proof (rnd_floor (Z.abs a) b k ltac:(lia) ltac:(lia) Hk HB) as (R & _ & _).
    rewrite <- HM in R.
    cbn [ceil_float sgnz]. pose proof (frac_den_pos e) as HD.
    set (n := frac_num (Zpos m) e) in *. set (d := frac_den e) in *.
    assert (0 < 2 ^ k) by (apply Z.pow_pos_nonneg; lia).
    rewrite Z.opp_involutive. replace (- a) with (Z.abs a) by lia.
    f_equal. symmetry.
    apply (Z.div_unique_pos n d (Z.abs a / b) (n - d * (Z.abs a / b))); [|lia]. nia.
  - unfold int_div, round_q. replace (b <? 0) with false by lia. reflexivity.
  - unfold int_div, round_q.
    replace (b <? 0) with false by lia. replace (a =? 0) with false by lia.
    replace (a <? 0) with false by lia. rewrite Z.abs_eq by lia.
    destruct (round_pos_small false a b ltac:(lia) Hb) as (m & e & -> & k & M & Hk & HB & HM & HF).
    pose proof (rnd_floor a b k ltac:(lia) ltac:(lia) Hk HB) as (R & R0 & R1).
    rewrite <- HM in R, R0, R1.
    cbn [ceil_float sgnz]. pose proof (frac_den_pos e) as HD.
    set (n := frac_num (Zpos m) e) in *. set (d := frac_den e) in *.
    assert (HK : 0 < 2 ^ k) by (apply Z.pow_pos_nonneg; lia).
    pose proof (Z.div_mod a b ltac:(lia)) as DM. pose proof (Z.mod_pos_bound a b ltac:(lia)) as MB.
    set (q := a / b) in *. set (r := a mod b) in *.
    f_equal. destruct (Z.eq_dec r 0) as [E|E].
    + specialize (R0 E).
      rewrite <- (Z.div_unique_pos (- n) d (- q) 0) by nia.
      apply (Z.div_unique_pos (- a) b (- q) 0); nia.
    + specialize (R1 E).
      rewrite <- (Z.div_unique_pos (- n) d (- q - 1) (d * (q + 1) - n)) by nia.
      apply (Z.div_unique_pos (- a) b (- q - 1) (b * (q + 1) - a)); nia.
Qed.

(** A quotient is an integer as a float iff it is one. *)
Lemma float_eq_Z_frac s m e z :
  float_eq_Z (S754_finite s m e) z = (sgnz s (frac_num (Zpos m) e) =? z * frac_den e).
Proof.
  unfold float_eq_Z, frac_num, frac_den. destruct (0 <=? e); [|reflexivity].
  now rewrite Z.mul_1_r.
Qed.

Lemma float_eq_round s a b z :
  0 < a < 2 ^ 53 -> 0 < b < 2 ^ 60 ->
  (float_eq_Z (round_pos s a b) (sgnz s z) = true <-> a = z * b).
Proof.
  intros Ha Hb.
  destruct (round_pos_small s a b Ha Hb) as (m & e & -> & k & M & Hk & HB & HM & HF).
  pose proof (rnd_floor a b k ltac:(lia) ltac:(lia) Hk HB) as (R & R0 & R1).
  rewrite <- HM in R, R0, R1.
  rewrite float_eq_Z_frac. pose proof (frac_den_pos e) as HD.
  set (n := frac_num (Zpos m) e) in *. set (d := frac_den e) in *.
  assert (HK : 0 < 2 ^ k) by (apply Z.pow_pos_nonneg; lia).
  pose proof (Z.div_mod a b ltac:(lia)) as DM. pose proof (Z.mod_pos_bound a b ltac:(lia)) as MB.
  assert (HS : (sgnz s n =? sgnz s z * d) = (n =? z * d)) by (destruct s; cbn; lia).
  rewrite HS, Z.eqb_eq. set (q := a / b) in *. set (r := a mod b) in *.
  split; intros H.
  - assert (HMz : M = z * 2 ^ k) by nia. rewrite HMz in *.
    destruct (Z.eq_dec r 0) as [E|E].
    + specialize (R0 E). assert (q = z) by nia. nia.
    + specialize (R1 E). assert (q < z) by nia. assert (z < q + 1) by nia. lia.
  - assert (r = 0) as E by (unfold r; rewrite H; apply Z.mod_mul; lia).
    assert (q = z) as EQ by (unfold q; rewrite H; apply Z.div_mul; lia).
    specialize (R0 E). rewrite EQ in R0. nia.
Qed.

Lemma float_eq_int_div a b z :
  - 2 ^ 53 < a < 2 ^ 53 -> 0 < b < 2 ^ 60 ->
  (float_eq_Z (int_div a b) z = true <-> a = z * b).
Proof.
  intros Ha Hb. unfold int_div, round_q. replace (b <? 0) with false by lia.
  destruct (Z.eqb_spec a 0) as [->|N]; [cbn; nia|].
  destruct (Z.ltb_spec a 0) as [L|L].
  - rewrite <- (Z.opp_involutive z) at 1. change (- - z) with (sgnz true (- z)).
    rewrite float_eq_round by lia. lia.
  - change z with (sgnz false z) at 1. rewrite float_eq_round by lia. lia.
Qed.
