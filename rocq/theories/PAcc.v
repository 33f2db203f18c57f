(** * Accuracy of the floating-point numbers in reports *)

From Coq Require Import ZArith List Bool String Lia SpecFloat ZifyBool QArith Qabs Qfield Lqa.
From Coq Require Import Init.Byte.
From Verif Require Import Py PyFloat Spec SpecText SpecNum PBase PFloat PHuman PRepr.
Import ListNotations.
Open Scope string_scope.
Open Scope list_scope.
Open Scope Z_scope.

(** ** Powers of ten *)
Lemma inj_pos z : 0 < z -> (0 < inject_Z z)%Q.
Proof. intros H. change 0%Q with (inject_Z 0). now rewrite <- Zlt_Qlt. Qed.
Lemma inj_nz z : 0 < z -> ~ (inject_Z z == 0)%Q.
Proof. intros H HX. pose proof (inj_pos z H). lra. Qed.
Lemma p10_frac x K : 0 <= K -> 0 <= x + K -> (p10 x * inject_Z (10 ^ K) == inject_Z (10 ^ (x + K)))%Q.
Proof.
  intros HK HX. unfold p10. destruct (0 <=? x) eqn:EX.
  - rewrite <- inject_Z_mult. rewrite <- Z.pow_add_r by lia. reflexivity.
  - assert (HP : 10 ^ K = 10 ^ (- x) * 10 ^ (x + K)) by (rewrite <- Z.pow_add_r by lia; f_equal; lia). rewrite HP, inject_Z_mult.
    field. apply inj_nz, pow10_pos. lia.
Qed.
Lemma p10_pos x : (0 < p10 x)%Q.
Proof.
  unfold p10. destruct (0 <=? x) eqn:EX; [apply inj_pos, pow10_pos; lia|]. apply Qinv_lt_0_compat, inj_pos, pow10_pos. lia.
Qed.
Lemma p10_add a b : (p10 a * p10 b == p10 (a + b))%Q.
Proof.
  set (K := Z.abs a + Z.abs b). assert (HA := p10_frac a K ltac:(lia) ltac:(lia)). assert (HB := p10_frac b K ltac:(lia) ltac:(lia)).
  assert (HC := p10_frac (a + b) (K + K) ltac:(lia) ltac:(lia)).
  rewrite Z.pow_add_r, inject_Z_mult in HC by lia. replace (a + b + (K + K)) with ((a + K) + (b + K)) in HC by lia.
  rewrite (Z.pow_add_r 10 (a + K)), inject_Z_mult in HC by lia. rewrite <- HA, <- HB in HC.
  assert (HN := inj_nz (10 ^ K) (pow10_pos K ltac:(lia))). set (k := inject_Z (10 ^ K)) in *.
  assert (HX : (p10 a * p10 b * (k * k) == p10 (a + b) * (k * k))%Q) by (rewrite HC; ring).
  apply Qmult_inj_r in HX; [exact HX|]. intros HZ. apply Qmult_integral in HZ. destruct HZ; auto.
Qed.
Lemma p10_Z x : 0 <= x -> (p10 x == inject_Z (10 ^ x))%Q.
Proof. intros H. unfold p10. now replace (0 <=? x) with true by lia. Qed.

(** ** The number a text denotes *)
Lemma layout_denotes ds E : Forall digit ds -> ds <> [] -> denotes (layout ds E) (inject_Z (numeral ds) * p10 (E - len ds)).
Proof.
  intros HD Hne. pose proof (len_nonneg ds) as Hp. unfold layout. cbv zeta. destruct ((-4 <? E) && (E <=? 16)) eqn:ER.
  - destruct (E <=? 0) eqn:E0; [|destruct (E <? len ds) eqn:E1].
    + exists [48], (zeros (- E) ++ ds), [], 0. split.
      { destruct (zeros (- E) ++ ds) eqn:EZ; [apply app_eq_nil in EZ; now destruct EZ|]. rewrite app_nil_r. cbn [app]. now rewrite <- EZ. }
      split; [discriminate|]. split; [repeat constructor; unfold digit; lia|]. split; [apply Forall_app; split; [apply zeros_digit|exact HD]|].
      split; [left; auto|]. rewrite len_app, len_zeros, !numeral_app by lia. unfold zeros. rewrite numeral_zeros. change (numeral [48]) with 0. rewrite !Z.mul_0_l, !Z.add_0_l.
      replace (0 - (- E + len ds)) with (E - len ds) by lia. reflexivity.
    + destruct (slice_firstn ds E ltac:(lia)) as (-> & ->). pose proof (firstn_skipn (Z.to_nat E) ds) as HFS.
      assert (HD' := HD). rewrite <- HFS in HD'. apply Forall_app in HD'. destruct HD' as (HD1 & HD2).
      assert (HL1 : len (firstn (Z.to_nat E) ds) = E) by (unfold len in *; rewrite firstn_length; lia).
      assert (HL2 : len (skipn (Z.to_nat E) ds) = len ds - E) by (unfold len in *; rewrite skipn_length; lia).
      exists (firstn (Z.to_nat E) ds), (skipn (Z.to_nat E) ds), [], 0. split.
      { rewrite app_nil_r. destruct (skipn (Z.to_nat E) ds); [change (len (@nil Z)) with 0 in HL2; lia|]. reflexivity. }
      split; [intros HX; rewrite HX in HL1; change (len (@nil Z)) with 0 in HL1; lia|]. split; [exact HD1|]. split; [exact HD2|]. split; [left; auto|].
      rewrite HFS, HL2. replace (0 - (len ds - E)) with (E - len ds) by lia. reflexivity.
    + exists (ds ++ zeros (E - len ds)), [48], [], 0. split; [now rewrite <- !app_assoc, app_nil_r|].
      split; [destruct ds; [easy|discriminate]|]. split; [apply Forall_app; split; [exact HD|apply zeros_digit]|].
      split; [repeat constructor; unfold digit; lia|]. split; [left; auto|].
      rewrite !numeral_app, len_zeros by lia. unfold zeros. rewrite numeral_zeros. change (numeral [48]) with 0. change (len [48]) with 1. rewrite !Z.add_0_r.
      rewrite !inject_Z_mult, <- (p10_Z (E - len ds)), <- (p10_Z 1) by lia. change (0 - 1) with (-1). rewrite <- !Qmult_assoc, !p10_add.
      replace (E - len ds + (1 + -1)) with (E - len ds) by lia. reflexivity.
  - destruct (exp_digits (E - 1)) as (x & HX & Hx & Hxe & HNx). cbv zeta in HX. rewrite HX. clear HX. destruct ds as [|c r]; [easy|]. inversion HD as [|? ? Hc Hr]; subst.
    exists [c], r, (101 :: (if E - 1 <? 0 then 45 else 43) :: x), (E - 1). split; [now destruct r|]. split; [discriminate|].
    split; [constructor; [exact Hc|constructor]|]. split; [exact Hr|]. split.
    + right. exists x. split; [exact Hxe|]. split; [exact Hx|]. destruct (E - 1 <? 0) eqn:EN; [right|left]; (split; [reflexivity|lia]).
    + cbn [app]. rewrite len_cons. replace (E - 1 - len r) with (E - (1 + len r)) by lia. reflexivity.
Qed.
(** The text of a positive number: some decimal that rounds to it. *)
Lemma repr_denotes m e : canon m e -> exists d n E, shortest 16 1 m e = (d, n, E) /\ 1 <= n <= 17 /\ 0 < d /\ -400 <= E /\
  mk_dec false d (E - n) = S754_finite false m e /\ denotes (repr_float (S754_finite false m e)) (inject_Z d * p10 (E - n)).
Proof.
  intros HC. destruct (shortest_spec m e HC 16 1 eq_refl ltac:(lia)) as (d & n & E & HSH & Hn & Hd & HE & HM).
  assert (Hd0 : 0 < d) by (pose proof (pow10_pos (n - 1) ltac:(lia)); lia).
  exists d, n, E. split; [exact HSH|]. split; [exact Hn|]. split; [exact Hd0|]. split; [exact HE|]. split; [exact HM|]. cbn [repr_float]. rewrite HSH. cbn [app].
  destruct (str_decimal d) as (ds & HS & H1 & H2 & H3 & H4). replace (d <? 0) with false in HS by lia. cbn [app] in HS. rewrite HS. rewrite Z.abs_eq in H3 by lia.
  assert (HLn : len ds = n).
  { destruct ds as [|c r]; [easy|]. cbn [hd] in H4. assert (c <> 48) by (intros ->; rewrite (H4 eq_refl) in H3; cbn in H3; lia).
    pose proof (numeral_lead c r H2 ltac:(assumption)) as HR. rewrite H3, len_cons in HR. rewrite len_cons. pose proof (len_nonneg r).
    destruct (Z.lt_trichotomy (1 + len r) n) as [HL|[HL|HL]]; [|exact HL|].
    - assert (10 ^ (1 + len r) <= 10 ^ (n - 1)) by (apply Z.pow_le_mono_r; lia). lia.
    - assert (10 ^ n <= 10 ^ len r) by (apply Z.pow_le_mono_r; lia). lia. }
  destruct (strip_spec ds) as (j & HJ). set (t := strip_trailing0 ds) in *.
  assert (HD : Forall digit t) by (rewrite HJ in H2; apply Forall_app in H2; apply H2).
  assert (HLj : len t + Z.of_nat j = n) by (rewrite <- HLn, HJ, len_app; unfold len at 3; rewrite repeat_length; lia).
  assert (HV : d = numeral t * 10 ^ Z.of_nat j) by (rewrite <- H3, HJ, numeral_app, numeral_zeros; unfold len; rewrite repeat_length; lia).
  assert (Hte : t <> []) by (intros HX; rewrite HX in HV; cbn in HV; lia).
  destruct (layout_denotes t E HD Hte) as (a & b & u & x & G1 & G2 & G3 & G4 & G5 & G6). exists a, b, u, x. repeat (split; [assumption|]).
  rewrite <- G6, HV, inject_Z_mult, <- (p10_Z (Z.of_nat j)), <- Qmult_assoc, p10_add by lia. replace (Z.of_nat j + (E - n)) with (E - len t) by lia. reflexivity.
Qed.
Lemma zero_denotes : denotes (repr_float (S754_zero false)) 0.
Proof.
  exists [48], [48], [], 0. split; [reflexivity|]. split; [discriminate|]. split; [repeat constructor; unfold digit; lia|].
  split; [repeat constructor; unfold digit; lia|]. split; [now left|]. reflexivity.
Qed.

(** ** Rounding errors *)
Definition fval (m : positive) (e : Z) : Q := (inject_Z (frac_num (Zpos m) e) / inject_Z (frac_den e))%Q.
Definition within (l h x y : Q) : Prop := (l * y <= x /\ x <= h * y)%Q.
Definition u : Q := 1 # 9007199254740992.

Lemma fval_eq m e : -1074 <= e -> (fval m e * inject_Z (2 ^ K0) == inject_Z (Zpos m * 2 ^ (e + K0)))%Q.
Proof.
  intros He. unfold fval. pose proof (frac_eq m e He) as HF. pose proof (inj_nz _ (frac_den_pos e)) as HD.
  assert (HQ : (inject_Z (frac_num (Zpos m) e) * inject_Z (2 ^ K0) == inject_Z (Zpos m * 2 ^ (e + K0)) * inject_Z (frac_den e))%Q).
  { rewrite <- !inject_Z_mult, HF. replace (Zpos m * (frac_den e * 2 ^ (e + K0))) with (Zpos m * 2 ^ (e + K0) * frac_den e) by ring. reflexivity. }
  transitivity (inject_Z (frac_num (Zpos m) e) * inject_Z (2 ^ K0) / inject_Z (frac_den e))%Q; [field; exact HD|]. rewrite HQ. field. exact HD.
Qed.
Lemma fval_pos m e : (0 < fval m e)%Q.
Proof. unfold fval. apply Qlt_shift_div_l; [apply inj_pos, frac_den_pos|]. rewrite Qmult_0_l. apply inj_pos, frac_num_pos. Qed.

Lemma round_err s num den : 0 < num -> 0 < den ->
  (exists M, 2 ^ 54 * Z.abs (M * den - num * 2 ^ K0) <= Z.max (2 * num * 2 ^ K0) (2 ^ 53 * den) /\
    (M = 0 /\ round_pos s num den = S754_zero s \/ exists m e, canon m e /\ M = Zpos m * 2 ^ (e + K0) /\ round_pos s num den = S754_finite s m e)) \/
  round_pos s num den = S754_infinity s /\ 2 ^ 1023 * den <= num.
Proof.
  intros Hn Hd. pose proof (bin_exp_fits num den Hn Hd K0 ltac:(unfold K0; lia)) as (A & B & C). 
  destruct (round_pos_canon s num den Hn Hd) as [HZ|[HI|(m & e' & HC & HF)]].
  - left. exists 0. split; [|left; auto]. revert HZ. unfold round_pos. set (e := bin_exp num den) in *. rewrite (rnd_scaled num den Hn Hd K0) by (unfold K0; lia).
    pose proof (pow2_pos (e + K0) ltac:(unfold K0; lia)) as HW. set (X := num * 2 ^ K0) in *. set (U := den * 2 ^ (e + K0)) in *. assert (HU : 0 < U) by (unfold U; nia).
    pose proof (rnd_err X U HU) as HErr. assert (HX0 : 0 <= X) by (unfold X; pose proof (pow2_pos K0 ltac:(unfold K0; lia)); nia).
    assert (H1 : 0 <= rnd_half_even X U) by (apply rnd_ge; lia). set (M := rnd_half_even X U) in *. destruct (M =? 2 ^ 53) eqn:EM.
    + change (2 ^ 52) with (Zpos 4503599627370496). destruct (971 <? e + 1); discriminate.
    + destruct M as [|p|p]; [intros _|destruct (971 <? e); discriminate|lia].
      assert (HB : 2 ^ 53 * U <= Z.max (2 * X) (2 ^ 53 * den)).
      { destruct B as [B|B]; [lia|]. unfold U. rewrite B. change (2 ^ (-1074 + K0)) with 1. lia. }
      replace (2 * num * 2 ^ K0) with (2 * X) by (unfold X; ring). change (2 ^ 54) with (2 ^ 53 * 2). set (b := 2 ^ 53) in *. assert (0 < b) by (unfold b; lia). nia.
  - right. split; [exact HI|]. revert HI. unfold round_pos. set (e := bin_exp num den) in *.
    assert (HE : 971 <= e -> 2 ^ 1023 * den <= num).
    { intros HE. destruct B as [B|B]; [|lia]. rewrite Z.pow_add_r in B by (unfold K0; lia). pose proof (pow2_pos K0 ltac:(unfold K0; lia)) as HK. set (k := 2 ^ K0) in *.
      assert (HB2 : 2 ^ 52 * (den * 2 ^ e) <= num) by nia. assert (HP : 2 ^ 971 <= 2 ^ e) by (apply Z.pow_le_mono_r; lia).
      change (2 ^ 1023) with (2 ^ 52 * 2 ^ 971). set (p := 2 ^ 971) in *. set (q := 2 ^ 52) in *. assert (0 < q) by (unfold q; lia). nia. }
    destruct (_ =? 2 ^ 53).
    + change (2 ^ 52) with (Zpos 4503599627370496). destruct (971 <? e + 1) eqn:EE; [intros _; apply HE; lia|discriminate].
    + destruct (rnd_half_even _ _); try discriminate. destruct (971 <? e) eqn:EE; [intros _; apply HE; lia|discriminate].
  - left. exists (Zpos m * 2 ^ (e' + K0)). split; [|right; exists m, e'; auto]. revert HF. unfold round_pos. set (e := bin_exp num den) in *. rewrite (rnd_scaled num den Hn Hd K0) by (unfold K0; lia).
    pose proof (pow2_pos (e + K0) ltac:(unfold K0; lia)) as HW. set (X := num * 2 ^ K0) in *. set (U := den * 2 ^ (e + K0)) in *. assert (HU : 0 < U) by (unfold U; nia).
    pose proof (rnd_err X U HU) as HErr. assert (HX0 : 0 <= X) by (unfold X; pose proof (pow2_pos K0 ltac:(unfold K0; lia)); nia).
    set (M := rnd_half_even X U) in *.
    assert (HB : 2 ^ 53 * U <= Z.max (2 * X) (2 ^ 53 * den)).
    { destruct B as [B|B]; [lia|]. unfold U. rewrite B. change (2 ^ (-1074 + K0)) with 1. lia. }
    intros HM. assert (HMU : M * U = Zpos m * 2 ^ (e' + K0) * den).
    { destruct (M =? 2 ^ 53) eqn:EM.
      - change (2 ^ 52) with (Zpos 4503599627370496) in HM. destruct (971 <? e + 1); [discriminate|]. injection HM as <- <-. apply Z.eqb_eq in EM. rewrite EM. unfold U.
        replace (e + 1 + K0) with (1 + (e + K0)) by lia. rewrite (Z.pow_add_r 2 1) by (unfold K0; lia). change (2 ^ 1) with 2. change (2 ^ 53) with (Zpos 4503599627370496 * 2). ring.
      - destruct M as [|p|p]; try discriminate. destruct (971 <? e); [discriminate|]. injection HM as <- <-. unfold U. ring. }
    rewrite <- HMU. replace (2 * num * 2 ^ K0) with (2 * X) by (unfold X; ring). change (2 ^ 54) with (2 ^ 53 * 2). set (b := 2 ^ 53) in *. assert (0 < b) by (unfold b; lia). nia.
Qed.
Lemma scaled_le D K a b : (0 < D)%Q -> (0 < K)%Q -> (a * (D * K) <= b * (D * K))%Q -> (a <= b)%Q.
Proof. intros HD HK H. apply (Qmult_lt_0_compat D K HD) in HK. now apply Qmult_le_r in H. Qed.
Definition qdiv (num den : Z) : Q := (inject_Z num / inject_Z den)%Q.
Lemma qdiv_mul num den : 0 < den -> (qdiv num den * inject_Z den == inject_Z num)%Q.
Proof. intros H. unfold qdiv. field. now apply inj_nz. Qed.
Lemma err_q M num den : 0 < den -> 2 ^ 53 * Z.abs (M * den - num * 2 ^ K0) <= num * 2 ^ K0 ->
  within (1 - u) (1 + u) (inject_Z M / inject_Z (2 ^ K0)) (qdiv num den).
Proof.
  intros Hd H. assert (HK := pow2_pos K0 ltac:(unfold K0; lia)). assert (HKq := inj_pos _ HK). assert (HDq := inj_pos _ Hd).
  assert (H1 : 2 ^ 53 * (M * den) <= (2 ^ 53 + 1) * (num * 2 ^ K0)) by lia.
  assert (H2 : (2 ^ 53 - 1) * (num * 2 ^ K0) <= 2 ^ 53 * (M * den)) by lia. clear H.
  rewrite Zle_Qle in H1, H2. rewrite !inject_Z_mult in H1, H2. pose proof (qdiv_mul num den Hd) as HQ.
  assert (HF : (inject_Z M / inject_Z (2 ^ K0) * inject_Z (2 ^ K0) == inject_Z M)%Q) by (field; now apply inj_nz).
  rewrite <- HQ, <- HF in H1, H2. set (x := (inject_Z M / inject_Z (2 ^ K0))%Q) in *. set (k := inject_Z (2 ^ K0)) in *. set (D := inject_Z den) in *. set (q := qdiv num den) in *.
  change (inject_Z (2 ^ 53)) with (9007199254740992 # 1)%Q in H1, H2. change (inject_Z (2 ^ 53 + 1)) with (9007199254740993 # 1)%Q in H1. change (inject_Z (2 ^ 53 - 1)) with (9007199254740991 # 1)%Q in H2.
  assert (H1' : ((9007199254740992 # 1) * x * (D * k) <= (9007199254740993 # 1) * q * (D * k))%Q) by lra.
  assert (H2' : ((9007199254740991 # 1) * q * (D * k) <= (9007199254740992 # 1) * x * (D * k))%Q) by lra.
  apply scaled_le in H1', H2'; try assumption. split; unfold u; lra.
Qed.
Lemma fval_M m e : -1074 <= e -> (fval m e == inject_Z (Zpos m * 2 ^ (e + K0)) / inject_Z (2 ^ K0))%Q.
Proof. intros He. rewrite <- (fval_eq m e He). field. apply inj_nz, pow2_pos. unfold K0. lia. Qed.
Lemma within_ext l h x x' y y' : (x == x' -> y == y' -> within l h x y -> within l h x' y')%Q.
Proof. unfold within. intros HX HY. now rewrite HX, HY. Qed.
Lemma acc s num den : 0 < num -> 0 < den -> den <= num * 2 ^ 1022 -> num < 2 ^ 1023 * den ->
  exists m e, canon m e /\ round_pos s num den = S754_finite s m e /\ within (1 - u) (1 + u) (fval m e) (qdiv num den).
Proof.
  intros Hn Hd HL HH. destruct (round_err s num den Hn Hd) as [(M & HErr & HM)|(_ & HX)]; [|lia].
  assert (HB : 2 ^ 53 * den <= 2 * num * 2 ^ K0).
  { change (2 ^ K0) with (2 ^ 1022 * 2 ^ 52). change (2 ^ 53) with (2 * 2 ^ 52). set (a := 2 ^ 1022) in *. set (b := 2 ^ 52). assert (0 < b) by (unfold b; lia). nia. }
  rewrite Z.max_l in HErr by exact HB. change (2 ^ 54) with (2 * 2 ^ 53) in HErr.
  assert (HE : 2 ^ 53 * Z.abs (M * den - num * 2 ^ K0) <= num * 2 ^ K0) by lia. clear HErr.
  destruct HM as [(-> & _)|(m & e & HC & -> & HF)].
  - pose proof (pow2_pos K0 ltac:(unfold K0; lia)) as HK. set (k := 2 ^ K0) in *. rewrite Z.mul_0_l in HE. assert (0 < num * k) by nia. lia.
  - exists m, e. split; [exact HC|]. split; [exact HF|]. apply (within_ext _ _ (inject_Z (Zpos m * 2 ^ (e + K0)) / inject_Z (2 ^ K0)) _ (qdiv num den)).
    + symmetry. apply fval_M. apply HC.
    + reflexivity.
    + now apply err_q.
Qed.
(** A number of at least 1/100000 comes from a nearby decimal. *)
Lemma acc_back num den m e : 0 < num -> 0 < den -> canon m e -> round_pos false num den = S754_finite false m e -> (1 # 100000 <= fval m e)%Q ->
  within (1 - u) (1 + u) (fval m e) (qdiv num den).
Proof.
  intros Hn Hd HC HF HV. destruct (round_err false num den Hn Hd) as [(M & HErr & HM)|(HX & _)]; [|congruence].
  destruct HM as [(_ & HM)|(m' & e' & _ & -> & HF')]; [congruence|]. rewrite HF in HF'. injection HF' as <- <-.
  pose proof (fval_M m e ltac:(apply HC)) as HE. set (M := Zpos m * 2 ^ (e + K0)) in *.
  apply (within_ext _ _ (inject_Z M / inject_Z (2 ^ K0)) _ (qdiv num den)); [now symmetry|reflexivity|]. apply err_q; [exact Hd|].
  assert (HK := pow2_pos K0 ltac:(unfold K0; lia)).
  assert (HMk : 2 ^ K0 <= 100000 * M).
  { rewrite HE in HV. apply (Qmult_le_compat_r _ _ (inject_Z (100000 * 2 ^ K0))) in HV; [|apply Qlt_le_weak, inj_pos; lia].
    rewrite inject_Z_mult in HV. change (inject_Z 100000) with (100000 # 1)%Q in HV.
    assert (HA : (inject_Z M / inject_Z (2 ^ K0) * ((100000 # 1) * inject_Z (2 ^ K0)) == inject_Z (100000 * M))%Q)
      by (rewrite inject_Z_mult; change (inject_Z 100000) with (100000 # 1)%Q; field; now apply inj_nz).
    rewrite HA in HV. rewrite Zle_Qle. lra. }
  assert (HB : 2 ^ 53 * den <= 2 * num * 2 ^ K0).
  { destruct (Z_le_gt_dec (2 ^ 53 * den) (2 * num * 2 ^ K0)) as [H|H]; [exact H|exfalso]. rewrite Z.max_r in HErr by lia.
    assert (HM1 : 2 ^ 54 * (M * den) <= 2 ^ 54 * (num * 2 ^ K0) + 2 ^ 53 * den) by lia.
    assert (HM2 : 2 ^ 54 * (M * den) <= 2 ^ 106 * den + 2 ^ 53 * den) by (change (2 ^ 106) with (2 ^ 53 * 2 ^ 53); change (2 ^ 54) with (2 * 2 ^ 53) in *; lia).
    assert (HM3 : 2 ^ 54 * M <= 2 ^ 106 + 2 ^ 53) by nia. assert (HM4 : 2 ^ 54 * 2 ^ K0 <= 100000 * (2 ^ 106 + 2 ^ 53)) by lia. vm_compute in HM4. lia. }
  rewrite Z.max_l in HErr by exact HB. change (2 ^ 54) with (2 * 2 ^ 53) in HErr. lia.
Qed.

(** ** Operations *)
Definition rep (f : spec_float) (l h y : Q) : Prop := exists m e, canon m e /\ f = S754_finite false m e /\ within l h (fval m e) y.
Definition big : Q := inject_Z (2 ^ 1000).
Lemma mul_le a b c d : (0 <= a -> a <= b -> 0 <= c -> c <= d -> a * c <= b * d)%Q.
Proof.
  intros Ha Hab Hc Hcd. apply (Qle_trans _ (b * c)); [now apply Qmult_le_compat_r|]. rewrite (Qmult_comm b c), (Qmult_comm b d).
  apply Qmult_le_compat_r; [exact Hcd|]. lra.
Qed.
Lemma within_trans l h l' h' x y z : (0 <= l -> 0 <= h -> within l h x y -> within l' h' y z -> within (l * l') (h * h') x z)%Q.
Proof.
  intros Hl Hh (H1 & H2) (H3 & H4). split.
  - apply (Qle_trans _ (l * y)); [|exact H1]. rewrite <- Qmult_assoc. rewrite (Qmult_comm l), (Qmult_comm l y). now apply Qmult_le_compat_r.
  - apply (Qle_trans _ (h * y)); [exact H2|]. rewrite <- Qmult_assoc. rewrite (Qmult_comm h), (Qmult_comm h (h' * z)). now apply Qmult_le_compat_r.
Qed.
Lemma within_mul l h l' h' x y x' y' : (0 <= l -> 0 <= l' -> 0 <= y -> 0 <= y' -> within l h x y -> within l' h' x' y' ->
  within (l * l') (h * h') (x * x') (y * y'))%Q.
Proof.
  intros Hl Hl' Hy Hy' (H1 & H2) (H3 & H4). assert (A := Qmult_le_0_compat _ _ Hl Hy). assert (A' := Qmult_le_0_compat _ _ Hl' Hy'). split.
  - assert (HX := mul_le _ _ _ _ A H1 A' H3). lra.
  - assert (HX := mul_le x _ x' _ ltac:(lra) H2 ltac:(lra) H4). lra.
Qed.
Lemma range_Z num den : 0 < num -> 0 < den -> (/ inject_Z (2 ^ 1022) <= qdiv num den)%Q -> (qdiv num den <= inject_Z (2 ^ 1022))%Q ->
  den <= num * 2 ^ 1022 /\ num < 2 ^ 1023 * den.
Proof.
  intros Hn Hd H1 H2. assert (HP : 0 < 2 ^ 1022) by (apply pow2_pos; lia). assert (HQ := qdiv_mul num den Hd). assert (HD := inj_pos _ Hd). assert (HK := inj_pos _ HP). split.
  - rewrite Zle_Qle, inject_Z_mult, <- HQ. apply (Qmult_le_compat_r _ _ (inject_Z den * inject_Z (2 ^ 1022))) in H1; [|apply Qmult_le_0_compat; lra].
    assert (HE : (/ inject_Z (2 ^ 1022) * (inject_Z den * inject_Z (2 ^ 1022)) == inject_Z den)%Q) by (field; now apply inj_nz). rewrite HE in H1. lra.
  - assert (HL : num <= 2 ^ 1022 * den).
    { rewrite Zle_Qle, inject_Z_mult, <- HQ. apply Qmult_le_compat_r; [exact H2|lra]. }
    change (2 ^ 1023) with (2 * 2 ^ 1022). set (p := 2 ^ 1022) in *. nia.
Qed.
Lemma big_range x : (/ (big * (4#1)) <= x)%Q -> (x <= (4#1) * big)%Q -> (/ inject_Z (2 ^ 1022) <= x /\ x <= inject_Z (2 ^ 1022))%Q.
Proof.
  intros H1 H2. assert (HB : (inject_Z (2 ^ 1022) == (4194304#1) * big)%Q) by (unfold big; change (2 ^ 1022) with (4194304 * 2 ^ 1000); now rewrite inject_Z_mult).
  assert (HP : (0 < big)%Q) by (apply inj_pos, pow2_pos; lia). assert (HI : (0 < / big)%Q) by (now apply Qinv_lt_0_compat).
  assert (HE : (/ inject_Z (2 ^ 1022) == (1 # 4194304) * / big)%Q) by (rewrite HB; field; lra).
  assert (HE' : (/ (big * (4#1)) == (1 # 4) * / big)%Q) by (field; lra). rewrite HE' in H1. rewrite HE, HB. clear HB HE HE'. split; lra.
Qed.
Lemma rep_pos f l h y : rep f l h y -> (0 < l)%Q -> (0 < y)%Q -> (0 < l * y)%Q.
Proof. intros _ H1 H2. now apply Qmult_lt_0_compat. Qed.
Lemma qdiv_mul_frac a b c d : 0 < b -> 0 < d -> (qdiv (a * c) (b * d) == qdiv a b * qdiv c d)%Q.
Proof. intros Hb Hd. unfold qdiv. rewrite !inject_Z_mult. field. split; now apply inj_nz. Qed.
Lemma u_pos : (0 < 1 - u)%Q.
Proof. reflexivity. Qed.
Lemma mul_range l h x y : ((1#4) <= l -> h <= (4#1) -> / big <= y -> y <= big -> within l h x y -> / (big * (4#1)) <= x /\ x <= (4#1) * big)%Q.
Proof.
  intros Hl Hh H1 H2 (H3 & H4). assert (HP : (0 < big)%Q) by (apply inj_pos, pow2_pos; lia). assert (HI : (0 < / big)%Q) by (now apply Qinv_lt_0_compat).
  assert (HE' : (/ (big * (4#1)) == (1 # 4) * / big)%Q) by (field; lra). rewrite HE'. split.
  - apply (Qle_trans _ (l * y)); [|exact H3]. apply mul_le; lra.
  - apply (Qle_trans _ (h * y)); [exact H4|]. apply (Qle_trans _ ((4#1) * y)); [apply Qmult_le_compat_r; lra|]. lra.
Qed.
Lemma rep_round l h num den y : 0 < num -> 0 < den -> ((1#4) <= l -> h <= (4#1) -> / big <= y -> y <= big -> within l h (qdiv num den) y ->
  rep (round_pos false num den) ((1 - u) * l) ((1 + u) * h) y)%Q.
Proof.
  intros Hn Hd Hl Hh H1 H2 HW. destruct (mul_range _ _ _ _ Hl Hh H1 H2 HW) as (A & B). destruct (big_range _ A B) as (A' & B').
  destruct (range_Z num den Hn Hd A' B') as (C & D). destruct (acc false num den Hn Hd C D) as (m & e & HC & HF & HWW).
  exists m, e. split; [exact HC|]. split; [exact HF|]. eapply within_trans; [| |exact HWW|exact HW]; unfold u; lra.
Qed.
Lemma rep_mul f g l h y l' h' y' : rep f l h y -> rep g l' h' y' -> ((1#2) <= l -> h <= (2#1) -> (1#2) <= l' -> h' <= (2#1) -> 0 <= h -> 0 <= h' ->
  0 <= y -> 0 <= y' -> / big <= y * y' -> y * y' <= big -> rep (float_mul f g) ((1 - u) * (l * l')) ((1 + u) * (h * h')) (y * y'))%Q.
Proof.
  intros (m & e & HC & -> & HW) (m' & e' & HC' & -> & HW') Hl Hh Hl' Hh' Hh0 Hh0' Hy Hy' H1 H2. cbn [float_mul]. change (xorb false false) with false.
  pose proof (frac_num_pos m e). pose proof (frac_num_pos m' e'). pose proof (frac_den_pos e). pose proof (frac_den_pos e').
  apply rep_round; [nia|nia| | |exact H1|exact H2|].
  - assert (HX := mul_le (1#2) l (1#2) l' ltac:(lra) Hl ltac:(lra) Hl'). lra.
  - assert (HX := mul_le h (2#1) h' (2#1) Hh0 Hh Hh0' Hh'). lra.
  - apply (within_ext _ _ (fval m e * fval m' e') _ (y * y')); [symmetry; now apply qdiv_mul_frac|reflexivity|]. apply within_mul; try assumption; lra.
Qed.
Lemma within_inv l h x y : (0 < l -> 0 < h -> 0 < x -> 0 < y -> within l h x y -> within (/ h) (/ l) (/ x) (/ y))%Q.
Proof.
  intros Hl Hh Hx Hy (H1 & H2). split.
  - rewrite <- Qinv_mult_distr. apply Qle_shift_inv_l; [exact Hx|]. rewrite Qmult_comm. change (x * / (h * y))%Q with (x / (h * y))%Q. apply Qle_shift_div_r; [now apply Qmult_lt_0_compat|]. lra.
  - rewrite <- Qinv_mult_distr. apply Qle_shift_inv_r; [exact Hx|]. rewrite Qmult_comm. change (x * / (l * y))%Q with (x / (l * y))%Q. apply Qle_shift_div_l; [now apply Qmult_lt_0_compat|]. lra.
Qed.
Lemma rep_div f g l h y l' h' y' : rep f l h y -> rep g l' h' y' -> ((1#2) <= l -> h <= (2#1) -> (1#2) <= l' -> h' <= (2#1) -> 0 <= h -> 0 < h' ->
  0 <= y -> 0 < y' -> / big <= y / y' -> y / y' <= big -> rep (float_div f g) ((1 - u) * (l * / h')) ((1 + u) * (h * / l')) (y / y'))%Q.
Proof.
  intros (m & e & HC & -> & HW) (m' & e' & HC' & -> & HW') Hl Hh Hl' Hh' Hh0 Hh0' Hy Hy' H1 H2. cbn [float_div]. change (xorb false false) with false.
  pose proof (frac_num_pos m e). pose proof (frac_num_pos m' e'). pose proof (frac_den_pos e). pose proof (frac_den_pos e').
  assert (HI : ((1#2) <= / h')%Q) by (apply Qle_shift_inv_l; lra). assert (HI' : (/ l' <= (2#1))%Q) by (apply Qle_shift_inv_r; lra).
  assert (HI0 : (0 <= / l')%Q) by (apply Qlt_le_weak, Qinv_lt_0_compat; lra).
  apply rep_round; [nia|nia| | |exact H1|exact H2|].
  - assert (HX := mul_le (1#2) l (1#2) (/ h') ltac:(lra) Hl ltac:(lra) HI). lra.
  - assert (HX := mul_le h (2#1) (/ l') (2#1) Hh0 Hh HI0 HI'). lra.
  - apply (within_ext _ _ (fval m e * / fval m' e') _ (y * / y')); [|reflexivity|].
    + unfold fval, qdiv. rewrite !inject_Z_mult. field. repeat split; now apply inj_nz.
    + apply within_mul; try assumption; try lra.
      * apply Qlt_le_weak, Qinv_lt_0_compat. lra.
      * apply within_inv; try assumption; try lra. apply fval_pos.
Qed.
Lemma within_refl x : within 1 1 x x.
Proof. split; lra. Qed.
Lemma rep_int_div a b : 0 < a -> 0 < b -> (/ big <= qdiv a b -> qdiv a b <= big -> rep (int_div a b) (1 - u) (1 + u) (qdiv a b))%Q.
Proof.
  intros Ha Hb H1 H2. unfold int_div, round_q. replace (b <? 0) with false by lia. replace (a =? 0) with false by lia. replace (a <? 0) with false by lia. rewrite Z.abs_eq by lia.
  destruct (rep_round 1 1 a b (qdiv a b) Ha Hb ltac:(lra) ltac:(lra) H1 H2 (within_refl _)) as (m & e & HC & HF & HW1 & HW2). exists m, e. split; [exact HC|]. split; [exact HF|]. split; lra.
Qed.
Lemma rep_int z : 0 < z -> z <= 2 ^ 1000 -> rep (float_of_Z z) (1 - u) (1 + u) (inject_Z z).
Proof.
  intros Hz HB. assert (HE : (qdiv z 1 == inject_Z z)%Q) by (unfold qdiv; change (inject_Z 1) with 1%Q; field).
  assert (HP : (0 < big)%Q) by (apply inj_pos, pow2_pos; lia). assert (H1 : (1 <= inject_Z z)%Q) by (change 1%Q with (inject_Z 1); rewrite <- Zle_Qle; lia).
  assert (H2 : (1 <= big)%Q) by (change 1%Q with (inject_Z 1); unfold big; rewrite <- Zle_Qle; vm_compute; discriminate).
  destruct (rep_int_div z 1 Hz ltac:(lia)) as (m & e & HC & HF & HW).
  - rewrite HE. apply (Qle_trans _ 1); [|exact H1]. apply Qle_shift_inv_r; lra.
  - rewrite HE. unfold big. now rewrite <- Zle_Qle.
  - exists m, e. split; [exact HC|]. split; [exact HF|]. apply (within_ext _ _ (fval m e) _ (qdiv z 1)); [reflexivity|exact HE|exact HW].
Qed.

(** ** Rounding to two decimals and printing *)
Lemma rnd_q n d : 0 < d -> (Qabs (inject_Z (rnd_half_even n d) - qdiv n d) <= 1 # 2)%Q.
Proof.
  intros Hd. pose proof (rnd_err n d Hd) as H. set (r := rnd_half_even n d) in *. assert (HD := inj_pos _ Hd). pose proof (qdiv_mul n d Hd) as HQ.
  assert (H1 : 2 * (r * d) <= 2 * n + d) by lia. assert (H2 : 2 * n - d <= 2 * (r * d)) by lia. rewrite Zle_Qle in H1, H2.
  unfold Z.sub in H2. rewrite inject_Z_plus, !inject_Z_mult in H1. rewrite inject_Z_plus, inject_Z_opp, !inject_Z_mult in H2. rewrite <- HQ in H1, H2. change (inject_Z 2) with (2#1)%Q in H1, H2. set (q := qdiv n d) in *. set (D := inject_Z d) in *. set (R := inject_Z r) in *.
  assert (H1' : (R * (D * 1) <= (q + (1#2)) * (D * 1))%Q) by lra. assert (H2' : ((q - (1#2)) * (D * 1) <= R * (D * 1))%Q) by lra.
  apply scaled_le in H1', H2'; try lra. apply Qabs_Qle_condition. lra.
Qed.
Lemma near_q x a : (within (1 - u) (1 + u) x a -> 0 <= a -> x - a <= u * a /\ a - x <= u * a)%Q.
Proof. intros (H1 & H2) Ha. lra. Qed.
(** ** Two decimals are printed as they are *)
Lemma shortest_first m e : forall k nd d n E, shortest k nd m e = (d, n, E) ->
  (forall nd', nd <= nd' < n -> exists d' E', digits_nd (frac_num (Zpos m) e) (frac_den e) nd' = (d', E') /\ float_eqb (float_of_digits d' nd' E') (S754_finite false m e) = false) /\
  digits_nd (frac_num (Zpos m) e) (frac_den e) n = (d, E).
Proof.
  induction k as [|k IH]; intros nd d n E; cbn [shortest]; destruct (digits_nd _ _ nd) as (d0, E0) eqn:ED.
  - intros H. injection H as <- <- <-. split; [intros nd' H; lia|exact ED].
  - destruct (float_eqb _ _) eqn:EQ.
    + intros H. injection H as <- <- <-. split; [intros nd' H; lia|exact ED].
    + intros H. destruct (IH _ _ _ _ H) as (H1 & H2). split; [|exact H2]. intros nd' Hnd. destruct (Z.eq_dec nd' nd) as [->|HN]; [eauto|]. apply H1. lia.
Qed.
Lemma float_eqb_refl m e : float_eqb (S754_finite false m e) (S754_finite false m e) = true.
Proof. unfold float_eqb. cbn [Bool.eqb]. rewrite Z.leb_refl, Z.sub_diag. change (2 ^ 0) with 1. rewrite Z.mul_1_r. cbn. apply Pos.eqb_refl. Qed.
Lemma float_Z m e num den : 0 < num -> 0 < den -> canon m e -> round_pos false num den = S754_finite false m e -> (1 # 100000 <= fval m e)%Q ->
  2 ^ 53 * Z.abs (frac_num (Zpos m) e * den - num * frac_den e) <= num * frac_den e.
Proof.
  intros Hn Hd HC HF HV. destruct (acc_back num den m e Hn Hd HC HF HV) as (H1 & H2). assert (HD := inj_pos _ Hd). assert (HFD := inj_pos _ (frac_den_pos e)).
  pose proof (qdiv_mul num den Hd) as HQ. pose proof (qdiv_mul (frac_num (Zpos m) e) (frac_den e) (frac_den_pos e)) as HQ'. change (qdiv (frac_num (Zpos m) e) (frac_den e)) with (fval m e) in HQ'.
  assert (HDD := Qmult_lt_0_compat _ _ HFD HD).
  apply (Qmult_le_compat_r _ _ (inject_Z (frac_den e) * inject_Z den)) in H1, H2; try lra.
  assert (G1 : (2 ^ 53 - 1) * (num * frac_den e) <= 2 ^ 53 * (frac_num (Zpos m) e * den)).
  { rewrite Zle_Qle, !inject_Z_mult, <- HQ, <- HQ'. change (inject_Z (2 ^ 53)) with (9007199254740992 # 1)%Q. change (inject_Z (2 ^ 53 - 1)) with (9007199254740991 # 1)%Q. unfold u in H1. lra. }
  assert (G2 : 2 ^ 53 * (frac_num (Zpos m) e * den) <= (2 ^ 53 + 1) * (num * frac_den e)).
  { rewrite Zle_Qle, !inject_Z_mult, <- HQ, <- HQ'. change (inject_Z (2 ^ 53)) with (9007199254740992 # 1)%Q. change (inject_Z (2 ^ 53 + 1)) with (9007199254740993 # 1)%Q. unfold u in H2. lra. }
  lia.
Qed.
Lemma close_eq A B G : 0 < G -> 0 < A -> 0 < B -> 2 ^ 53 * Z.abs (A - B) <= A + B -> (A mod G = 0) -> (B mod G = 0) -> A < 10 ^ 15 * G \/ B < 10 ^ 15 * G -> A = B.
Proof.
  intros HG HA HB HE HAm HBm HL. apply Z.div_exact in HAm, HBm; try lia. set (a := A / G) in *. set (b := B / G) in *. rewrite HAm, HBm in *. clearbody a b. clear HAm HBm.
  destruct (Z.eq_dec a b) as [->|HN]; [reflexivity|exfalso]. assert (HD : G <= Z.abs (G * a - G * b)) by (rewrite <- Z.mul_sub_distr_l, Z.abs_mul, (Z.abs_eq G) by lia; nia).
  change (2 ^ 53) with 9007199254740992 in HE. change (10 ^ 15) with 1000000000000000 in HL. set (x := G * a) in *. set (y := G * b) in *. clearbody x y. lia.
Qed.
Lemma few_decimals K m e n d k E : 0 <= K <= 9 -> canon m e -> 0 < n <= 10 ^ 14 -> round_pos false n (10 ^ K) = S754_finite false m e -> (1 # 100000 <= fval m e)%Q ->
  shortest 16 1 m e = (d, k, E) -> d * 10 ^ (E - k + L0) = n * 10 ^ (L0 - K).
Proof.
  intros HK HC Hn HF HV HS. destruct (shortest_spec m e HC 16 1 eq_refl ltac:(lia)) as (d' & k' & E' & HS' & Hk & Hd & HE & HM). rewrite HS in HS'. injection HS' as <- <- <-.
  pose proof (pow10_pos L0 ltac:(unfold L0; lia)) as HP. pose proof (pow10_pos (L0 - K) ltac:(unfold L0; lia)) as HP2. pose proof (pow10_pos (E - k + L0) ltac:(unfold L0; lia)) as HPE.
  assert (Hd0 : 0 < d) by (pose proof (pow10_pos (k - 1) ltac:(lia)); lia). rewrite mk_dec_frac in HM by (unfold L0; lia).
  set (A := d * 10 ^ (E - k + L0)) in *. set (B := n * 10 ^ (L0 - K)). assert (HA0 : 0 < A) by (unfold A; nia). assert (HB0 : 0 < B) by (unfold B; nia).
  assert (HFB : round_pos false B (10 ^ L0) = S754_finite false m e).
  { rewrite <- HF. apply round_pos_ext; try lia. unfold B. rewrite <- Z.mul_assoc, <- Z.pow_add_r by (unfold L0; lia). do 2 f_equal; try lia. }
  pose proof (float_Z m e A (10 ^ L0) HA0 HP HC HM HV) as HA. pose proof (float_Z m e B (10 ^ L0) HB0 HP HC HFB HV) as HB.
  pose proof (frac_den_pos e) as Hfd. pose proof (frac_num_pos m e) as Hfn. set (fn := frac_num (Zpos m) e) in *. set (fd := frac_den e) in *. set (P := 10 ^ L0) in *.
  assert (HAB : 2 ^ 53 * Z.abs (A - B) <= A + B).
  { assert (H : 2 ^ 53 * Z.abs ((A - B) * fd) <= (A + B) * fd) by lia. rewrite Z.abs_mul, (Z.abs_eq fd) in H by lia. set (c := 2 ^ 53) in *. nia. }
  destruct (Z_le_gt_dec k 15) as [Hk15|Hk15].
  - destruct (Z_le_gt_dec (- K) (E - k)) as [HEk|HEk].
    + apply (close_eq A B (10 ^ (L0 - K))); try assumption.
      * unfold A. replace (E - k + L0) with ((E - k + K) + (L0 - K)) by lia. rewrite Z.pow_add_r, Z.mul_assoc by (unfold L0; lia). apply Z.mod_mul. lia.
      * unfold B. apply Z.mod_mul. lia.
      * right. unfold B. change (10 ^ 15) with (10 * 10 ^ 14). set (w := 10 ^ 14) in *. nia.
    + apply (close_eq A B (10 ^ (E - k + L0))); try assumption.
      * unfold A. apply Z.mod_mul. lia.
      * unfold B. replace (L0 - K) with ((- K - E + k) + (E - k + L0)) by lia. rewrite Z.pow_add_r, Z.mul_assoc by (unfold L0; lia). apply Z.mod_mul. lia.
      * left. unfold A. assert (10 ^ k <= 10 ^ 15) by (apply Z.pow_le_mono_r; lia). nia.
  - exfalso. destruct (shortest_first m e 16 1 d k E HS) as (HNo & _). destruct (HNo 15 ltac:(lia)) as (d1 & E1 & HD1 & HQ1).
    destruct (digits_spec fn fd 15 Hfn Hfd (frac_ge m e HC) ltac:(lia)) as (d2 & E2 & T & HD2 & Hr2 & HE2 & HT & HT1 & HErr & HTE & R & HR). fold fn fd in HD1. rewrite HD1 in HD2. injection HD2 as <- <-.
    destruct (dec_exp_spec fn fd Hfn Hfd (frac_ge m e HC)) as (HE0 & HL1 & HL2). set (E0 := dec_exp fn fd) in *. fold P in HErr, HT1, HL1, HL2.
    assert (HE13 : E0 <= 15 - K).
    { destruct (Z_le_gt_dec E0 (15 - K)) as [H|H]; [exact H|exfalso]. assert (HX : 10 ^ (15 - K + L0) <= 10 ^ (E0 - 1 + L0)) by (apply Z.pow_le_mono_r; unfold L0; lia).
      assert (HY : 10 ^ (15 - K + L0) = 10 ^ 15 * 10 ^ (L0 - K)) by (rewrite <- Z.pow_add_r by (unfold L0; lia); f_equal; lia). rewrite HY in HX. clear HY.
      assert (HBl : B <= 10 ^ 14 * 10 ^ (L0 - K)) by (apply Z.mul_le_mono_nonneg_r; lia). set (g := 10 ^ (L0 - K)) in *. clearbody g B P fn fd. clear - HX HBl HB HL1 Hfd H HP2. change (10 ^ 15) with 1000000000000000 in HX. change (10 ^ 14) with 100000000000000 in HBl. change (2 ^ 53) with 9007199254740992 in HB.
      assert (H1 : 1000000000000000 * g * fd <= fn * P) by (apply (Z.le_trans _ (10 ^ (E0 - 1 + L0) * fd)); [apply Z.mul_le_mono_nonneg_r; lia|exact HL1]). assert (H2 : B * fd <= 100000000000000 * g * fd) by (apply Z.mul_le_mono_nonneg_r; lia). assert (0 < g * fd) by nia. lia. }
    assert (HTp : 10 ^ (E0 + L0) = 10 ^ 15 * T) by (rewrite HTE, <- Z.pow_add_r by (unfold L0; lia); f_equal; lia). rewrite HTp in HL2.
    assert (HBT : exists b, B = b * T).
    { exists (n * 10 ^ (15 - K - E0)). unfold B. rewrite HTE, <- Z.mul_assoc, <- Z.pow_add_r by (unfold L0; lia). do 2 f_equal. lia. }
    destruct HBT as (b & HBT). assert (HEQ : R * T = B).
    { rewrite HR in HErr. rewrite HBT in *. clear HBT. change (10 ^ 15) with 1000000000000000 in HL2. change (2 ^ 53) with 9007199254740992 in HB.
      assert (HTd : 0 < T * fd) by (now apply Z.mul_pos_pos). replace (R * T * fd) with (R * (T * fd)) in HErr by ring. replace (b * T * fd) with (b * (T * fd)) in HB by ring. replace (1000000000000000 * T * fd) with (1000000000000000 * (T * fd)) in HL2 by ring.
      set (W := T * fd) in *. set (Y := fn * P) in *. clearbody W Y. clear - HErr HB HL2 HTd. assert (Z.abs (R * W - b * W) < W) by lia. rewrite <- Z.mul_sub_distr_r, Z.abs_mul, (Z.abs_eq W) in H by lia.
      assert (R = b) as -> by nia. reflexivity. }
    assert (Hd1 : 0 < d1) by (pose proof (pow10_pos (15 - 1) ltac:(lia)); lia). rewrite float_of_digits_eq, mk_dec_frac in HQ1 by (try exact Hd1; unfold L0; lia).
    rewrite HR, HEQ in HQ1. fold P in HQ1. rewrite HFB, float_eqb_refl in HQ1. discriminate.
Qed.
Lemma two_decimals m e n d k E : canon m e -> 0 < n <= 10 ^ 14 -> round_pos false n (10 ^ 2) = S754_finite false m e -> (1 # 100000 <= fval m e)%Q ->
  shortest 16 1 m e = (d, k, E) -> d * 10 ^ (E - k + L0) = n * 10 ^ (L0 - 2).
Proof. now apply (few_decimals 2). Qed.
(** [f] is the double next to [n] hundredths; its text is a number about [y]. *)
Definition cents (f : spec_float) (n : Z) : Prop :=
  n = 0 /\ f = S754_zero false \/ 0 < n /\ rep f (1 - u) (1 + u) (qdiv n (10 ^ 2)).
Definition shows_as (f : spec_float) (y : Q) : Prop :=
  exists q n, denotes (repr_float f) q /\ about q y /\ cents f n /\ (inject_Z n <= (101#1) * y + 1)%Q /\
    ((y <= inject_Z (10 ^ 11))%Q -> n <= 10 ^ 14 /\ (q == inject_Z n / (100#1))%Q).
Lemma shows_printed f y : shows_as f y -> printed (repr_float f) y.
Proof. intros (q & n & H1 & H2 & _ & _ & H3). exists q. split; [exact H1|]. split; [exact H2|]. intros H. exists n. now apply H3. Qed.
Lemma text_near f l h y : rep f l h y -> (1 - (8#1) * u <= l -> h <= 1 + (8#1) * u -> 0 < y -> (2#1) * y <= big -> shows_as (round_nd 2 f) y)%Q.
Proof.
  unfold shows_as.
  intros (m & e & HC & -> & HW1 & HW2) Hl Hh Hy HB. cbn [round_nd]. pose proof (rnd_q (frac_num (Zpos m) e * 10 ^ 2) (frac_den e) (frac_den_pos e)) as HR.
  assert (HE : (qdiv (frac_num (Zpos m) e * 10 ^ 2) (frac_den e) == (100#1) * fval m e)%Q).
  { unfold qdiv, fval. rewrite inject_Z_mult. change (inject_Z (10 ^ 2)) with (100#1)%Q. field. apply inj_nz, frac_den_pos. }
  rewrite HE in HR. clear HE. set (n := rnd_half_even (frac_num (Zpos m) e * 10 ^ 2) (frac_den e)) in *. set (x := fval m e) in *.
  apply Qabs_Qle_condition in HR. assert (HX1 : (y * (1 - (8#1) * u) <= x)%Q) by (apply (Qle_trans _ (l * y)); [rewrite Qmult_comm; apply Qmult_le_compat_r; lra|exact HW1]).
  assert (HX2 : (x <= y * (1 + (8#1) * u))%Q) by (apply (Qle_trans _ (h * y)); [exact HW2|rewrite (Qmult_comm y); apply Qmult_le_compat_r; lra]).
  clear HW1 HW2 Hl Hh. assert (Hu : (u == 1 # 9007199254740992)%Q) by reflexivity. destruct (n =? 0) eqn:EN.
  - exists 0%Q, 0. split; [exact zero_denotes|]. apply Z.eqb_eq in EN. rewrite EN in HR. change (inject_Z 0) with 0%Q in HR. unfold about. split; [apply Qabs_Qle_condition; rewrite Hu in *; clear Hu; lra|].
    split; [now left|]. split; [change (inject_Z 0) with 0%Q; lra|]. intros _. split; [lia|reflexivity].
  - assert (Hn0 : 0 <= n) by (apply rnd_ge; [apply frac_den_pos|pose proof (frac_num_pos m e); change (10 ^ 2) with 100; nia]). assert (Hn : 1 <= n) by lia.
    assert (HnQ : (1 <= inject_Z n)%Q) by (change 1%Q with (inject_Z 1); now rewrite <- Zle_Qle).
    assert (HE : (qdiv n (10 ^ 2) == inject_Z n * (1 # 100))%Q) by (unfold qdiv; change (inject_Z (10 ^ 2)) with (100#1)%Q; field).
    assert (HP : (1 <= big)%Q) by (unfold big; change 1%Q with (inject_Z 1); rewrite <- Zle_Qle; vm_compute; discriminate).
    assert (HI : (/ big <= 1)%Q) by (apply Qle_shift_inv_r; lra).
    destruct (rep_round 1 1 n (10 ^ 2) (qdiv n (10 ^ 2))) as (m' & e' & HC' & HF & HV1 & HV2); try lra; try lia; try apply within_refl.
    { rewrite HE. apply Qle_shift_inv_r; [lra|]. apply (Qle_trans _ ((1#100) * big)); [|apply Qmult_le_compat_r; lra]. unfold big. 
      assert (HB' : (inject_Z 100 <= inject_Z (2 ^ 1000))%Q) by (rewrite <- Zle_Qle; vm_compute; discriminate). change (inject_Z 100) with (100#1)%Q in HB'. lra. }
    { rewrite HE. rewrite Hu in *. lra. }
    rewrite HF. rewrite HE in HV1, HV2. destruct (repr_denotes m' e' HC') as (d & k & E & HSH & Hk & Hd & HEk & HM & HDn).
    assert (HCT : cents (S754_finite false m' e') n).
    { right. split; [lia|]. exists m', e'. split; [exact HC'|]. split; [reflexivity|]. apply (within_ext _ _ (fval m' e') _ (inject_Z n * (1#100))); [reflexivity|now symmetry|]. split; lra. }
    exists (inject_Z d * p10 (E - k))%Q, n. split; [exact HDn|]. rewrite mk_dec_frac in HM by (unfold L0; lia). pose proof (pow10_pos L0 ltac:(unfold L0; lia)) as HL. pose proof (pow10_pos (E - k + L0) ltac:(unfold L0; lia)) as HEL.
    assert (HV : (1 # 100000 <= fval m' e')%Q) by (rewrite Hu in *; lra).
    pose proof (acc_back (d * 10 ^ (E - k + L0)) (10 ^ L0) m' e' (Z.mul_pos_pos _ _ Hd HEL) HL HC' HM HV) as HBk.
    assert (HQ : (qdiv (d * 10 ^ (E - k + L0)) (10 ^ L0) == inject_Z d * p10 (E - k))%Q).
    { unfold qdiv. rewrite inject_Z_mult, <- p10_frac by (unfold L0; lia). field. now apply inj_nz. }
    apply (within_ext _ _ _ (fval m' e') _ (inject_Z d * p10 (E - k))) in HBk; [|reflexivity|exact HQ]. destruct HBk as (HB1 & HB2).
    split; [|split; [exact HCT|split]].
    2:{ rewrite Hu in *. lra. }
    2:{ intros HY. assert (Hn14 : n <= 10 ^ 14). { change (inject_Z (10 ^ 11)) with (100000000000#1)%Q in HY. assert (HX : n < 10 ^ 14 + 1); [|lia]. rewrite Zlt_Qlt. change (inject_Z (10 ^ 14 + 1)) with (100000000000001#1)%Q. rewrite Hu in *. lra. }
      split; [exact Hn14|]. pose proof (two_decimals m' e' n d k E HC' ltac:(lia) HF HV HSH) as HTD. rewrite <- HQ, HTD. unfold qdiv. rewrite inject_Z_mult. change (10 ^ L0) with (10 ^ (L0 - 2) * 100). rewrite inject_Z_mult. change (inject_Z 100) with (100#1)%Q. field. now apply inj_nz, pow10_pos. }
    set (q := (inject_Z d * p10 (E - k))%Q) in *. set (F := fval m' e') in *. set (N := inject_Z n) in *. rewrite Hu in *. clear Hu HE HI HC HC' HM HF HDn HQ HCT. clearbody q F N x.
    unfold about. apply Qabs_Qle_condition. split; lra.
Qed.

(** ** Ratios and resolutions *)
Lemma dbl_fval m e : (dbl m e == fval m e)%Q.
Proof.
  unfold dbl, fval, frac_num, frac_den. destruct (0 <=? e) eqn:HE; [rewrite inject_Z_mult; change (inject_Z 1) with 1%Q; field|]. field. apply inj_nz, pow2_pos. lia.
Qed.
Lemma big_ge z : z <= 2 ^ 1000 -> (inject_Z z <= big)%Q.
Proof. intros H. unfold big. now rewrite <- Zle_Qle. Qed.
Lemma inj_ge1 z : 1 <= z -> (1 <= inject_Z z)%Q.
Proof. intros H. change 1%Q with (inject_Z 1). now rewrite <- Zle_Qle. Qed.
(** Quotients of moderate integers are in range. *)
Lemma range_q a b : 0 < a <= 2 ^ 999 -> 0 < b <= 2 ^ 999 -> (/ big <= qdiv a b)%Q /\ ((2#1) * qdiv a b <= big)%Q.
Proof.
  intros Ha Hb. pose proof (inj_pos a ltac:(lia)) as HA. pose proof (inj_pos b ltac:(lia)) as HB. pose proof (inj_ge1 a ltac:(lia)) as HA1. pose proof (inj_ge1 b ltac:(lia)) as HB1.
  assert (HP : (0 < big)%Q) by (apply inj_pos, pow2_pos; lia).
  assert (HD : 2 ^ 1000 = 2 * 2 ^ 999) by reflexivity. assert (Ha2 : 2 * a <= 2 ^ 1000) by lia. assert (Hb2 : b <= 2 ^ 1000) by lia.
  apply big_ge in Ha2, Hb2. rewrite inject_Z_mult in Ha2. change (inject_Z 2) with (2#1)%Q in Ha2. split.
  - apply Qle_shift_inv_r; [exact HP|]. unfold qdiv. assert (HX : (1 <= / inject_Z b * big)%Q).
    { apply (Qle_trans _ (/ inject_Z b * inject_Z b)); [rewrite Qmult_comm, Qmult_inv_r; [lra|lra]|]. rewrite (Qmult_comm _ (inject_Z b)), (Qmult_comm _ big). apply Qmult_le_compat_r; [exact Hb2|apply Qlt_le_weak, Qinv_lt_0_compat; lra]. }
    apply (Qle_trans _ (1 * (/ inject_Z b * big))); [lra|]. apply (Qle_trans _ (inject_Z a * (/ inject_Z b * big))); [apply Qmult_le_compat_r; lra|]. unfold Qdiv. lra.
  - assert (HX : (qdiv a b <= inject_Z a)%Q); [|lra]. unfold qdiv. apply Qle_shift_div_r; [exact HB|]. apply (Qle_trans _ (inject_Z a * 1)); [lra|]. rewrite (Qmult_comm _ 1), (Qmult_comm (inject_Z a)). apply Qmult_le_compat_r; lra.
Qed.
Lemma rep_ext f l h y y' : (y == y')%Q -> rep f l h y -> rep f l h y'.
Proof. intros HE (m & e & HC & HF & HW). exists m, e. split; [exact HC|]. split; [exact HF|]. now apply (within_ext _ _ (fval m e) _ y). Qed.
Lemma rep_qmul f g l h l' h' a b a' b' : rep f l h (qdiv a b) -> rep g l' h' (qdiv a' b') -> 0 < a -> 0 < b -> 0 < a' -> 0 < b' ->
  a * a' <= 2 ^ 999 -> b * b' <= 2 ^ 999 -> ((1#2) <= l -> h <= (2#1) -> (1#2) <= l' -> h' <= (2#1) -> 0 <= h -> 0 <= h' ->
  rep (float_mul f g) ((1 - u) * (l * l')) ((1 + u) * (h * h')) (qdiv (a * a') (b * b')))%Q.
Proof.
  intros HF HG Ha Hb Ha' Hb' H1 H2 Hl Hh Hl' Hh' Hh0 Hh0'. assert (HE := qdiv_mul_frac a b a' b' Hb Hb'). destruct (range_q (a * a') (b * b')) as (R1 & R2); [nia|nia|].
  assert (HP : forall a b, 0 < a -> 0 < b -> (0 <= qdiv a b)%Q).
  { intros x y Hx Hy. unfold qdiv. apply Qle_shift_div_l; [now apply inj_pos|]. rewrite Qmult_0_l. now apply Qlt_le_weak, inj_pos. }
  apply (rep_ext _ _ _ (qdiv a b * qdiv a' b')); [now symmetry|]. apply rep_mul; try assumption; try (now apply HP).
  - now rewrite <- HE.
  - rewrite <- HE. assert (HP1 := HP (a * a') (b * b') ltac:(nia) ltac:(nia)). lra.
Qed.
Lemma rep_z z : 0 < z <= 2 ^ 999 -> rep (float_of_Z z) (1 - u) (1 + u) (qdiv z 1).
Proof.
  intros Hz. apply (rep_ext _ _ _ (inject_Z z)); [unfold qdiv; change (inject_Z 1) with 1%Q; field|]. apply rep_int; [lia|]. change (2 ^ 1000) with (2 * 2 ^ 999). lia.
Qed.
Lemma rep_q a b : 0 < a <= 2 ^ 999 -> 0 < b <= 2 ^ 999 -> rep (int_div a b) (1 - u) (1 + u) (qdiv a b).
Proof. intros Ha Hb. destruct (range_q a b Ha Hb) as (R1 & R2). apply rep_int_div; try lia; [exact R1|]. pose proof (Qinv_lt_0_compat big (inj_pos _ (pow2_pos 1000 ltac:(lia)))). lra. Qed.
Lemma qdiv_pos a b : 0 < a -> 0 < b -> (0 < qdiv a b)%Q.
Proof. intros Ha Hb. unfold qdiv. apply Qlt_shift_div_l; [now apply inj_pos|]. rewrite Qmult_0_l. now apply inj_pos. Qed.

(** What is said of a printed number: [s] denotes a value close to [x], with two
    decimals unless it is large. *)
Lemma ratio_text size D h w : 0 < size < 2 ^ 63 -> 0 < D < 2 ^ 32 -> 0 < h < 2 ^ 32 -> 0 < w < 2 ^ 32 ->
  shows_as (round_nd 2 (float_div (float_mul (float_mul (int_div D 8) (float_of_Z h)) (float_of_Z w)) (float_of_Z size))) (qdiv (D * h * w) (8 * size)).
Proof.
  intros Hs HD Hh Hw. assert (HB : 2 ^ 200 <= 2 ^ 999) by (apply Z.pow_le_mono_r; lia). assert (HB' : 2 ^ 32 * 2 ^ 32 * 2 ^ 32 <= 2 ^ 200 /\ 8 * 2 ^ 63 <= 2 ^ 200) by (split; vm_compute; discriminate).
  assert (M1 : D * h <= 2 ^ 32 * 2 ^ 32) by nia. assert (M2 : D * h * w <= 2 ^ 32 * 2 ^ 32 * 2 ^ 32) by nia. assert (P1 : 0 < D * h) by nia. assert (P2 : 0 < D * h * w) by nia.
  pose proof (rep_q D 8 ltac:(lia) ltac:(lia)) as R1. pose proof (rep_z h ltac:(lia)) as R2. pose proof (rep_z w ltac:(lia)) as R3. pose proof (rep_z size ltac:(lia)) as R4.
  pose proof (rep_qmul _ _ _ _ _ _ _ _ _ _ R1 R2) as R5. specialize (R5 ltac:(lia) ltac:(lia) ltac:(lia) ltac:(lia) ltac:(lia) ltac:(lia)).
  specialize (R5 ltac:(vm_compute; discriminate) ltac:(vm_compute; discriminate) ltac:(vm_compute; discriminate) ltac:(vm_compute; discriminate) ltac:(vm_compute; discriminate) ltac:(vm_compute; discriminate)).
  pose proof (rep_qmul _ _ _ _ _ _ _ _ _ _ R5 R3) as R6. specialize (R6 ltac:(lia) ltac:(lia) ltac:(lia) ltac:(lia) ltac:(lia) ltac:(lia)).
  specialize (R6 ltac:(vm_compute; discriminate) ltac:(vm_compute; discriminate) ltac:(vm_compute; discriminate) ltac:(vm_compute; discriminate) ltac:(vm_compute; discriminate) ltac:(vm_compute; discriminate)).
  assert (HE : (qdiv (D * h * w) (8 * 1 * 1) / qdiv size 1 == qdiv (D * h * w) (8 * size))%Q).
  { unfold qdiv. rewrite !inject_Z_mult. change (inject_Z 1) with 1%Q. field. apply inj_nz; lia. }
  destruct (range_q (D * h * w) (8 * size) ltac:(lia) ltac:(lia)) as (G1 & G2). pose proof (qdiv_pos (D * h * w) (8 * size) P2 ltac:(lia)) as G3.
  pose proof (rep_div _ _ _ _ _ _ _ _ R6 R4) as R7.
  specialize (R7 ltac:(vm_compute; discriminate) ltac:(vm_compute; discriminate) ltac:(vm_compute; discriminate) ltac:(vm_compute; discriminate) ltac:(vm_compute; discriminate) ltac:(vm_compute; reflexivity)).
  specialize (R7 ltac:(apply Qlt_le_weak, qdiv_pos; lia) ltac:(apply qdiv_pos; lia)). specialize (R7 ltac:(rewrite HE; exact G1) ltac:(rewrite HE; lra)).
  apply (rep_ext _ _ _ _ _ HE) in R7. eapply text_near; [exact R7| | |exact G3|exact G2]; vm_compute; discriminate.
Qed.
Lemma rep_weaken f l h l' h' y : (l' <= l -> h <= h' -> 0 <= y -> rep f l h y -> rep f l' h' y)%Q.
Proof.
  intros Hl Hh Hy (m & e & HC & HF & HW1 & HW2). exists m, e. split; [exact HC|]. split; [exact HF|]. split.
  - apply (Qle_trans _ (l * y)); [now apply Qmult_le_compat_r|exact HW1].
  - apply (Qle_trans _ (h * y)); [exact HW2|now apply Qmult_le_compat_r].
Qed.
Definition up (x : Z) : Z := 10 ^ Z.max x 0.
Lemma up_range x : x <= 128 -> 1 <= up x <= 10 ^ 128.
Proof. intros H. unfold up. split; [pose proof (pow10_pos (Z.max x 0) ltac:(lia)); lia|apply Z.pow_le_mono_r; lia]. Qed.
Lemma p10_up x : (p10 x == qdiv (up x) (up (- x)))%Q.
Proof.
  unfold p10, up, qdiv. destruct (0 <=? x) eqn:HX.
  - rewrite Z.max_l, Z.max_r by lia. change (10 ^ 0) with 1. change (inject_Z 1) with 1%Q. field.
  - rewrite Z.max_r, Z.max_l by lia. change (10 ^ 0) with 1. change (inject_Z 1) with 1%Q. field. apply inj_nz, pow10_pos. lia.
Qed.
Lemma rep_pow p x : pow_ok p -> -128 <= x <= 127 ->
  rep (if 0 <=? x then float_of_Z (10 ^ x) else p x) (1 - (2#1) * u) (1 + (2#1) * u) (qdiv (up x) (up (- x))).
Proof.
  intros HP Hx. pose proof (up_range x ltac:(lia)) as U1. pose proof (up_range (- x) ltac:(lia)) as U2. assert (HB : 10 ^ 128 <= 2 ^ 999) by (vm_compute; discriminate).
  destruct (0 <=? x) eqn:EX.
  - replace (10 ^ x) with (up x) by (unfold up; now rewrite Z.max_l by lia). replace (up (- x)) with 1 by (unfold up; now rewrite Z.max_r by lia).
    apply (rep_weaken _ (1 - u) (1 + u)); [vm_compute; discriminate|vm_compute; discriminate|apply Qlt_le_weak, qdiv_pos; lia|]. apply rep_z. lia.
  - destruct (HP x ltac:(lia)) as (m & e & HF & HC & HA). exists m, e. split; [exact HC|]. split; [exact HF|]. apply (within_ext _ _ (dbl m e) _ (p10 x)); [apply dbl_fval|apply p10_up|].
    apply Qabs_Qle_condition in HA. pose proof (p10_pos x). unfold u. split; lra.
Qed.
Definition res_value (num den ex : Z) : Q := (inject_Z num / inject_Z den * p10 ex)%Q.
Lemma res_text p num den ex : pow_ok p -> 0 <= num < 65536 -> 0 < den < 65536 -> -128 <= ex <= 127 ->
  let mt := float_mul (int_div num den) (if 0 <=? ex then float_of_Z (10 ^ ex) else p ex) in
  shows_as (round_nd 2 mt) (res_value num den ex) /\
  shows_as (round_nd 2 (float_mul mt (round_pos false 254 10000))) (res_value num den ex * (254#10000)).
Proof.
  intros HP Hn Hd Hx mt. pose proof (up_range ex ltac:(lia)) as U1. pose proof (up_range (- ex) ltac:(lia)) as U2.
  assert (HB : 65536 * 10 ^ 128 * 10000 <= 2 ^ 999) by (vm_compute; discriminate). pose proof (rep_pow p ex HP Hx) as RP. unfold mt. set (pw := if 0 <=? ex then _ else _) in *. clearbody pw. clear mt.
  assert (HE : (res_value num den ex == qdiv (num * up ex) (den * up (- ex)))%Q).
  { unfold res_value. rewrite p10_up. change (inject_Z num / inject_Z den)%Q with (qdiv num den). symmetry. apply qdiv_mul_frac; lia. }
  destruct (Z.eq_dec num 0) as [->|HN].
  - assert (HZ : int_div 0 den = S754_zero false) by (unfold int_div, round_q; now replace (den <? 0) with false by lia). rewrite HZ.
    destruct RP as (m & e & _ & -> & _). change (float_mul (S754_zero false) (S754_finite false m e)) with (S754_zero false).
    assert (HM : float_mul (S754_zero false) (round_pos false 254 10000) = S754_zero false) by (vm_compute; reflexivity). rewrite HM. cbn [round_nd].
    assert (HV : (res_value 0 den ex == 0)%Q) by (unfold res_value; change (inject_Z 0) with 0%Q; field; apply inj_nz; lia).
    assert (HZC : cents (S754_zero false) 0) by (left; split; reflexivity).
    split; exists 0%Q, 0; (split; [exact zero_denotes|]); (split; [unfold about; rewrite HV; vm_compute; discriminate|]); (split; [exact HZC|]);
      (split; [rewrite HV; vm_compute; discriminate|]); intros _; (split; [vm_compute; discriminate|reflexivity]).
  - assert (M1 : num * up ex <= 65536 * 10 ^ 128) by nia. assert (M2 : den * up (- ex) <= 65536 * 10 ^ 128) by nia. assert (P1 : 0 < num * up ex) by nia. assert (P2 : 0 < den * up (- ex)) by nia.
    set (a := num * up ex) in *. set (b := den * up (- ex)) in *. set (W := 65536 * 10 ^ 128) in *. assert (HW : 65536 <= W) by (vm_compute; discriminate). 
    pose proof (rep_q num den ltac:(lia) ltac:(lia)) as R1.
    pose proof (rep_qmul _ _ _ _ _ _ _ _ _ _ R1 RP) as R2. specialize (R2 ltac:(lia) ltac:(lia) ltac:(lia) ltac:(lia) ltac:(fold a; lia) ltac:(fold b; lia)).
    specialize (R2 ltac:(vm_compute; discriminate) ltac:(vm_compute; discriminate) ltac:(vm_compute; discriminate) ltac:(vm_compute; discriminate) ltac:(vm_compute; discriminate) ltac:(vm_compute; discriminate)).
    fold a b in R2. set (mt := float_mul (int_div num den) pw) in *. clearbody mt. destruct (range_q a b ltac:(lia) ltac:(lia)) as (G1 & G2). pose proof (qdiv_pos a b P1 P2) as G3. split.
    + apply (rep_ext _ _ _ _ (res_value num den ex)) in R2; [|now symmetry]. eapply text_near; [exact R2| | |rewrite HE; exact G3|rewrite HE; exact G2]; vm_compute; discriminate.
    + assert (R3 : rep (round_pos false 254 10000) (1 - u) (1 + u) (qdiv 254 10000)) by (apply (rep_q 254 10000); lia).
      pose proof (rep_qmul _ _ _ _ _ _ _ _ _ _ R2 R3) as R4. specialize (R4 P1 P2 ltac:(lia) ltac:(lia) ltac:(nia) ltac:(nia)).
      specialize (R4 ltac:(vm_compute; discriminate) ltac:(vm_compute; discriminate) ltac:(vm_compute; discriminate) ltac:(vm_compute; discriminate) ltac:(vm_compute; discriminate) ltac:(vm_compute; discriminate)).
      assert (HE' : (qdiv (a * 254) (b * 10000) == res_value num den ex * (254#10000))%Q) by (rewrite HE; apply (qdiv_mul_frac a b 254 10000); lia).
      destruct (range_q (a * 254) (b * 10000) ltac:(nia) ltac:(nia)) as (G4 & G5). pose proof (qdiv_pos (a * 254) (b * 10000) ltac:(lia) ltac:(lia)) as G6.
      apply (rep_ext _ _ _ _ _ HE') in R4. eapply text_near; [exact R4| | |rewrite <- HE'; exact G6|rewrite <- HE'; exact G5]; vm_compute; discriminate.
Qed.
