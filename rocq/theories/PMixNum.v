(** * Arithmetic on numbers of hundredths, as done for MIX output *)

From Coq Require Import ZArith List Bool String Lia QArith Qabs SpecFloat.
From Verif Require Import Py PyFloat Mix SpecText SpecNum PBase PFloat PRepr PAcc.
Import ListNotations.
Open Scope string_scope.
Open Scope list_scope.
Open Scope Z_scope.

Lemma cents_finite f n : cents f n -> finite64 f.
Proof. intros [(_ & ->)|(_ & m & e & HC & -> & _)]; [exact I|exact HC]. Qed.
Lemma trunc_int n : 0 < n < 2 ^ 53 -> trunc_float (round_pos false n 1) = n.
Proof.
  intros Hn. pose proof (trunc_int_div_pos n 1 Hn ltac:(lia)) as H. rewrite Z.div_1_r in H.
  unfold int_div, round_q in H. replace (1 <? 0) with false in H by lia. replace (n =? 0) with false in H by lia. replace (n <? 0) with false in H by lia.
  rewrite Z.abs_eq in H by lia. exact H.
Qed.
Lemma int_finite n : 0 < n < 2 ^ 1000 -> exists v, intOf (round_pos false n 1) = Ok v /\ v = trunc_float (round_pos false n 1).
Proof.
  intros Hn. destruct (acc false n 1 ltac:(lia) ltac:(lia)) as (m & e & _ & -> & _).
  - assert (1 < 2 ^ 1022) by reflexivity. set (a := 2 ^ 1022) in *. nia.
  - assert (2 ^ 1000 < 2 ^ 1023) by reflexivity. lia.
  - eexists. split; reflexivity.
Qed.
Lemma fval_frac m e : (fval m e == qdiv (frac_num (Zpos m) e) (frac_den e))%Q.
Proof. reflexivity. Qed.
Lemma rnd_fval m e : (Qabs (inject_Z (rnd_half_even (frac_num (Zpos m) e * 10 ^ 0) (frac_den e)) - fval m e) <= 1 # 2)%Q.
Proof. change (10 ^ 0) with 1. rewrite Z.mul_1_r. apply rnd_q, frac_den_pos. Qed.
Lemma floor_fval m e : (inject_Z (frac_num (Zpos m) e / frac_den e) <= fval m e)%Q /\ (fval m e < inject_Z (frac_num (Zpos m) e / frac_den e) + 1)%Q.
Proof.
  pose proof (frac_den_pos e) as HD. set (n := frac_num (Zpos m) e). set (d := frac_den e) in *. change (fval m e) with (qdiv n d).
  pose proof (Z.div_mod n d ltac:(lia)) as H1. pose proof (Z.mod_pos_bound n d HD) as H2. set (k := n / d) in *.
  pose proof (qdiv_mul n d HD) as HQ. pose proof (inj_pos d HD) as Hd. split.
  - apply Qle_shift_div_l; [exact Hd|]. rewrite <- inject_Z_mult, <- Zle_Qle. lia.
  - apply Qlt_shift_div_r; [exact Hd|]. change 1%Q with (inject_Z 1). rewrite <- inject_Z_plus, <- inject_Z_mult, <- Zlt_Qlt. lia.
Qed.

(** A hundred times [n] hundredths. *)
Lemma times100 f n : 0 < n <= 2 ^ 900 -> rep f (1 - u) (1 + u) (qdiv n (10 ^ 2)) ->
  rep (float_mul f float100) (1 - (4#1) * u) (1 + (4#1) * u) (inject_Z n).
Proof.
  intros Hn HR. assert (HB : 2 ^ 900 * 100 <= 2 ^ 999) by (vm_compute; discriminate). change (10 ^ 2) with 100 in HR.
  pose proof (rep_z 100 ltac:(split; [lia|vm_compute; discriminate])) as R2.
  pose proof (rep_qmul _ _ _ _ _ _ _ _ _ _ HR R2) as R3. specialize (R3 ltac:(lia) ltac:(lia) ltac:(lia) ltac:(lia) ltac:(lia) ltac:(vm_compute; discriminate)).
  specialize (R3 ltac:(vm_compute; discriminate) ltac:(vm_compute; discriminate) ltac:(vm_compute; discriminate) ltac:(vm_compute; discriminate) ltac:(vm_compute; discriminate) ltac:(vm_compute; discriminate)).
  assert (HE : (qdiv (n * 100) (100 * 1) == inject_Z n)%Q) by (unfold qdiv; rewrite !inject_Z_mult; change (inject_Z 100) with (100#1)%Q; change (inject_Z 1) with 1%Q; field).
  apply (rep_ext _ _ _ _ _ HE) in R3. eapply rep_weaken; [| | |exact R3]; try (vm_compute; discriminate). apply Qlt_le_weak, inj_pos. lia.
Qed.
Lemma rep_near f n : 0 < n -> rep f (1 - (4#1) * u) (1 + (4#1) * u) (inject_Z n) -> exists m e, f = S754_finite false m e /\
  (inject_Z n - (4#1) * u * inject_Z n <= fval m e)%Q /\ (fval m e <= inject_Z n + (4#1) * u * inject_Z n)%Q.
Proof. intros Hn (m & e & _ & -> & H1 & H2). exists m, e. split; [reflexivity|]. split; Lqa.lra. Qed.
Lemma small_err n : 0 < n <= 10 ^ 14 -> (0 <= (4#1) * u * inject_Z n)%Q /\ ((4#1) * u * inject_Z n <= 1#20)%Q.
Proof.
  intros Hn. assert (H1 := inj_pos n ltac:(lia)). assert (H2 : (inject_Z n <= inject_Z (10 ^ 14))%Q) by (rewrite <- Zle_Qle; lia).
  change (inject_Z (10 ^ 14)) with (100000000000000#1)%Q in H2. unfold u. split; Lqa.lra.
Qed.

Lemma round_int m e : (fval m e <= inject_Z (2 ^ 999))%Q ->
  let k := rnd_half_even (frac_num (Zpos m) e * 10 ^ 0) (frac_den e) in
  exists v, intOf (round_nd 0 (S754_finite false m e)) = Ok v /\ 0 <= k /\ (k < 2 ^ 53 -> v = k).
Proof.
  intros HB k. cbn [round_nd]. fold k. pose proof (rnd_fval m e) as HR. fold k in HR. apply Qabs_Qle_condition in HR.
  assert (Hk : 0 <= k) by (apply rnd_ge; [apply frac_den_pos|pose proof (frac_num_pos m e); lia]).
  destruct (k =? 0) eqn:EK; [exists 0; split; [reflexivity|split; lia]|].
  change (10 ^ 0) with 1. destruct (int_finite k) as (v & HV & ->).
  - split; [lia|]. change (2 ^ 1000) with (2 * 2 ^ 999). rewrite Zlt_Qlt, inject_Z_mult. change (inject_Z 2) with (2#1)%Q.
    assert (1 <= inject_Z (2 ^ 999))%Q by (change 1%Q with (inject_Z 1); rewrite <- Zle_Qle; vm_compute; discriminate). Lqa.lra.
  - eexists. split; [exact HV|]. split; [exact Hk|]. intros H. apply trunc_int. lia.
Qed.
Lemma le_900 n : n <= 2 ^ 900 -> (inject_Z n + inject_Z n <= inject_Z (2 ^ 999))%Q.
Proof. intros H. assert (2 ^ 900 + 2 ^ 900 <= 2 ^ 999) by (vm_compute; discriminate). rewrite <- inject_Z_plus, <- Zle_Qle. lia. Qed.

(** [int(round(100 x))] of [n] hundredths. *)
Lemma num100 f n : cents f n -> n <= 2 ^ 900 ->
  exists v, intOf (round_nd 0 (float_mul f float100)) = Ok v /\ (n <= 10 ^ 14 -> v = n).
Proof.
  intros [(-> & ->)|(Hn & HR)] HB; [exists 0; split; [reflexivity|lia]|].
  destruct (rep_near _ n Hn (times100 f n ltac:(lia) HR)) as (m & e & -> & H1 & H2). pose proof (inj_pos n Hn) as HP.
  destruct (round_int m e) as (v & HV & Hk & Hv).
  { apply (Qle_trans _ (inject_Z n + inject_Z n)); [|now apply le_900]. unfold u in *. Lqa.lra. }
  exists v. split; [exact HV|]. intros Hs. destruct (small_err n ltac:(lia)) as (S1 & S2). pose proof (rnd_fval m e) as HRN. set (k := rnd_half_even _ _) in *.
  apply Qabs_Qle_condition in HRN. assert (HK : k = n).
  { assert (HA : (inject_Z (k - n) < inject_Z 1)%Q) by (unfold Z.sub; rewrite inject_Z_plus, inject_Z_opp; change (inject_Z 1) with 1%Q; Lqa.lra).
    assert (HA' : (inject_Z (n - k) < inject_Z 1)%Q) by (unfold Z.sub; rewrite inject_Z_plus, inject_Z_opp; change (inject_Z 1) with 1%Q; Lqa.lra).
    rewrite <- Zlt_Qlt in HA, HA'. lia. }
  rewrite <- HK. apply Hv. rewrite HK. change (2 ^ 53) with 9007199254740992. change (10 ^ 14) with 100000000000000 in Hs. lia.
Qed.
(** [int(round(x))] of [n] hundredths. *)
Lemma num1 f n : cents f n -> n <= 2 ^ 900 ->
  exists v, intOf (round_nd 0 f) = Ok v /\ (n <= 10 ^ 14 -> Z.abs (100 * v - n) <= 50).
Proof.
  intros [(-> & ->)|(Hn & m & e & _ & -> & H1 & H2)] HB; [exists 0; split; [reflexivity|lia]|]. pose proof (inj_pos n Hn) as HP.
  assert (HE : (qdiv n (10 ^ 2) == inject_Z n * (1 # 100))%Q) by (unfold qdiv; change (inject_Z (10 ^ 2)) with (100#1)%Q; field). rewrite HE in H1, H2.
  destruct (round_int m e) as (v & HV & Hk & Hv).
  { apply (Qle_trans _ (inject_Z n + inject_Z n)); [|now apply le_900]. unfold u in *. Lqa.lra. }
  exists v. split; [exact HV|]. intros Hs. destruct (small_err n ltac:(lia)) as (S1 & S2). pose proof (rnd_fval m e) as HRN. set (k := rnd_half_even _ _) in *.
  apply Qabs_Qle_condition in HRN.
  assert (HA : (inject_Z (100 * k - n) < inject_Z 51)%Q) by (unfold Z.sub; rewrite inject_Z_plus, inject_Z_opp, inject_Z_mult; change (inject_Z 100) with (100#1)%Q; change (inject_Z 51) with (51#1)%Q; unfold u in *; Lqa.lra).
  assert (HA' : (inject_Z (n - 100 * k) < inject_Z 51)%Q) by (unfold Z.sub; rewrite inject_Z_plus, inject_Z_opp, inject_Z_mult; change (inject_Z 100) with (100#1)%Q; change (inject_Z 51) with (51#1)%Q; unfold u in *; Lqa.lra).
  rewrite <- Zlt_Qlt in HA, HA'. rewrite Hv; [lia|]. change (2 ^ 53) with 9007199254740992. change (10 ^ 14) with 100000000000000 in Hs. lia.
Qed.
(** [int(100 x)] of [n] hundredths: the multiplication may fall just short. *)
Lemma cut100 f n : cents f n -> n <= 2 ^ 900 ->
  exists v, intOf (float_mul f float100) = Ok v /\ (n <= 10 ^ 14 -> n - 1 <= v <= n).
Proof.
  intros [(-> & ->)|(Hn & HR)] HB; [exists 0; split; [reflexivity|lia]|].
  destruct (rep_near _ n Hn (times100 f n ltac:(lia) HR)) as (m & e & -> & H1 & H2). pose proof (inj_pos n Hn) as HP.
  eexists. split; [reflexivity|]. cbn [trunc_float sgnz]. intros Hs. destruct (small_err n ltac:(lia)) as (S1 & S2). destruct (floor_fval m e) as (F1 & F2).
  set (k := frac_num (Zpos m) e / frac_den e) in *.
  assert (HA : (inject_Z (k - n) < inject_Z 1)%Q) by (unfold Z.sub; rewrite inject_Z_plus, inject_Z_opp; change (inject_Z 1) with 1%Q; Lqa.lra).
  assert (HA' : (inject_Z (n - k) < inject_Z 2)%Q) by (unfold Z.sub; rewrite inject_Z_plus, inject_Z_opp; change (inject_Z 2) with (2#1)%Q; Lqa.lra).
  rewrite <- Zlt_Qlt in HA, HA'. lia.
Qed.
(** ... and does: 0.29 times 100 is cut to 28. *)
Example cut100_29 : cents (round_nd 2 (int_div 29 100)) 29 /\ repr_float (round_nd 2 (int_div 29 100)) = pys "0.29" /\
  intOf (float_mul (round_nd 2 (int_div 29 100)) float100) = Ok 28.
Proof.
  split; [|split; vm_compute; reflexivity]. right. split; [lia|]. assert (HE : round_nd 2 (int_div 29 100) = int_div 29 100) by (vm_compute; reflexivity).
  rewrite HE. apply rep_q; split; try lia; vm_compute; discriminate.
Qed.
