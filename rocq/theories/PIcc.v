(** * ICC header fields: numbers with four decimals, dates and texts *)

From Coq Require Import ZArith List Bool String Lia QArith Qabs Lqa.
From Coq Require Import Init.Byte SpecFloat.
From Coq Require Import ZifyBool.
From Verif Require Import Py PyFloat Spec SpecText SpecNum SpecIcc PBase PLeaf2 PFloat PRepr PAcc PEmit PHuman.
Import ListNotations.
Open Scope string_scope.
Open Scope list_scope.
Open Scope Z_scope.

Lemma fixed_text a : 0 <= a < 2 ^ 32 -> rounded4 (repr_float (round_nd 4 (int_div a 65536))) (Qdiv (inject_Z a) (inject_Z 65536)).
Proof.
  intros Ha. destruct (Z.eq_dec a 0) as [->|Ha0].
  { exists 0. split; [|vm_compute; discriminate]. destruct zero_denotes as (x & b & t & k & H1 & H2 & H3 & H4 & H5 & H6). exists x, b, t, k. do 5 (split; [assumption|]). rewrite <- H6. reflexivity. }
  assert (HR : rep (int_div a 65536) (1 - u) (1 + u) (qdiv a 65536)).
  { apply rep_q; split; lia. }
  destruct HR as (m & e & HC & -> & HW). change (inject_Z a / inject_Z 65536)%Q with (qdiv a 65536). cbn [round_nd].
  pose proof (rnd_q (frac_num (Zpos m) e * 10 ^ 4) (frac_den e) (frac_den_pos e)) as HR.
  assert (HE : (qdiv (frac_num (Zpos m) e * 10 ^ 4) (frac_den e) == (10000#1) * fval m e)%Q).
  { unfold qdiv, fval. rewrite inject_Z_mult. change (inject_Z (10 ^ 4)) with (10000#1)%Q. field. apply inj_nz, frac_den_pos. }
  rewrite HE in HR. clear HE. set (n := rnd_half_even (frac_num (Zpos m) e * 10 ^ 4) (frac_den e)) in *. apply Qabs_Qle_condition in HR.
  assert (HQ : (qdiv a 65536 == inject_Z a * (1 # 65536))%Q) by (unfold qdiv; change (inject_Z 65536) with (65536#1)%Q; field).
  assert (HaQ : (0 < inject_Z a /\ inject_Z a < (4294967296#1))%Q). { split; [apply inj_pos; lia|]. change (4294967296#1)%Q with (inject_Z (2 ^ 32)). rewrite <- Zlt_Qlt. lia. }
  destruct HW as (HW1 & HW2). rewrite HQ in HW1, HW2. unfold u in HW1, HW2.
  assert (HN : 2 * Z.abs (4096 * n - 625 * a) <= 4096).
  { assert (HX : 2 * Z.abs (4096 * n - 625 * a) < 4097); [|lia].
    assert (G1 : 2 * (4096 * n - 625 * a) < 4097). { rewrite Zlt_Qlt. unfold Z.sub. rewrite inject_Z_mult, inject_Z_plus, inject_Z_opp, !inject_Z_mult. change (inject_Z 2) with (2#1)%Q. change (inject_Z 4096) with (4096#1)%Q. change (inject_Z 625) with (625#1)%Q. change (inject_Z 4097) with (4097#1)%Q. lra. }
    assert (G2 : -4097 < 2 * (4096 * n - 625 * a)). { rewrite Zlt_Qlt. unfold Z.sub. rewrite inject_Z_mult, inject_Z_plus, inject_Z_opp, !inject_Z_mult. change (inject_Z 2) with (2#1)%Q. change (inject_Z 4096) with (4096#1)%Q. change (inject_Z 625) with (625#1)%Q. change (inject_Z (-4097)) with (-4097#1)%Q. lra. }
    lia. }
  exists n. split.
  2:{ assert (G1 : 2 * (4096 * n) <= 4096 + 2 * (625 * a)) by lia. assert (G2 : 2 * (625 * a) - 4096 <= 2 * (4096 * n)) by lia. rewrite Zle_Qle in G1, G2. unfold Z.sub in G2.
      rewrite inject_Z_plus, !inject_Z_mult in G1, G2. rewrite inject_Z_opp in G2. change (inject_Z 2) with (2#1)%Q in *. change (inject_Z 4096) with (4096#1)%Q in *. change (inject_Z 625) with (625#1)%Q in *.
      apply Qabs_Qle_condition. rewrite HQ. assert (HD : (inject_Z n / (10000#1) == inject_Z n * (1#10000))%Q) by field. rewrite HD. split; lra. }
  destruct (n =? 0) eqn:EN.
  - apply Z.eqb_eq in EN. rewrite EN. destruct zero_denotes as (x & b & t & k & H1 & H2 & H3 & H4 & H5 & H6). exists x, b, t, k. do 5 (split; [assumption|]). rewrite <- H6. reflexivity.
  - assert (Hn0 : 0 <= n) by (apply rnd_ge; [apply frac_den_pos|pose proof (frac_num_pos m e); change (10 ^ 4) with 10000; nia]). assert (Hn : 1 <= n) by lia.
    assert (HnQ : (1 <= inject_Z n)%Q) by (change 1%Q with (inject_Z 1); now rewrite <- Zle_Qle).
    assert (HNU : n <= 10 ^ 12) by (change (10 ^ 12) with 1000000000000; change (2 ^ 32) with 4294967296 in Ha; lia).
    clear HR. assert (HR : rep (round_pos false n (10 ^ 4)) (1 - u) (1 + u) (qdiv n (10 ^ 4))).
    { assert (HI : rep (int_div n (10 ^ 4)) (1 - u) (1 + u) (qdiv n (10 ^ 4))). { apply rep_q; split; lia. }
      unfold int_div, round_q in HI. change (10 ^ 4 <? 0) with false in HI. cbv iota in HI. destruct n as [|n'|n']; [discriminate EN|exact HI|lia]. }
    destruct HR as (m' & e' & HC' & HF & HV). rewrite HF. destruct (repr_denotes m' e' HC') as (d & k & E & HSH & Hk & Hd & HEk & HM & HDn).
    assert (HV1 : (1 # 100000 <= fval m' e')%Q).
    { destruct HV as (HV & _). assert (HD : (qdiv n (10 ^ 4) == inject_Z n * (1#10000))%Q) by (unfold qdiv; change (inject_Z (10 ^ 4)) with (10000#1)%Q; field). rewrite HD in HV. unfold u in HV. lra. }
    pose proof (few_decimals 4 m' e' n d k E ltac:(lia) HC' ltac:(change (10 ^ 14) with (100 * 10 ^ 12); lia) HF HV1 HSH) as HTD.
    assert (HQ' : (inject_Z d * p10 (E - k) == inject_Z n / (10000#1))%Q).
    { pose proof (pow10_pos L0 ltac:(unfold L0; lia)) as HL. pose proof (p10_frac (E - k) L0 ltac:(unfold L0; lia) ltac:(unfold L0; lia)) as HP.
      assert (HX : (inject_Z d * p10 (E - k) * inject_Z (10 ^ L0) == inject_Z n / (10000#1) * inject_Z (10 ^ L0))%Q).
      { rewrite <- Qmult_assoc, HP, <- inject_Z_mult, HTD, inject_Z_mult. change (10 ^ L0) with (10 ^ (L0 - 4) * 10000). rewrite inject_Z_mult. change (inject_Z 10000) with (10000#1)%Q. field. }
      apply Qmult_inj_r in HX; [exact HX|now apply inj_nz]. }
    destruct HDn as (x & b & t & k0 & H1 & H2 & H3 & H4 & H5 & H6). exists x, b, t, k0. do 5 (split; [assumption|]). rewrite <- H6. now symmetry.
Qed.

(** ** Dates *)
Lemma two_text n : 0 <= n <= 99 -> fmt02d n = two n.
Proof.
  intros H. assert (HX : forallb (fun n => pystr_eqb (fmt02d n) (two n)) (zseq 100) = true) by (vm_compute; reflexivity).
  rewrite forallb_forall in HX. apply pystr_eqb_spec, HX. unfold zseq. apply in_map_iff. exists (Z.to_nat n). split; [lia|]. apply in_seq. lia.
Qed.
Lemma val_split p off a b : 0 <= off -> 0 < a -> 0 < b -> off + a + b <= len p -> val p off (a + b) = val p off a * 256 ^ b + val p (off + a) b.
Proof.
  intros Ho Ha Hb HL. unfold val. replace (off + (a + b) <=? len p) with true by lia. replace (off + a <=? len p) with true by lia. replace (off + a + b <=? len p) with true by lia.
  set (q := skipn (Z.to_nat off) p). assert (HQ : len q = len p - off) by (unfold q, len in *; rewrite skipn_length; lia).
  assert (HSK : skipn (Z.to_nat (off + a)) p = skipn (Z.to_nat a) q) by (unfold q; rewrite skipn_skipn, Z2Nat.inj_add by lia; f_equal; lia). rewrite HSK. clear HSK.
  replace (firstn (Z.to_nat (a + b)) q) with (firstn (Z.to_nat a) q ++ firstn (Z.to_nat b) (skipn (Z.to_nat a) q)).
  2:{ transitivity (firstn (Z.to_nat (a + b)) (firstn (Z.to_nat a) q ++ skipn (Z.to_nat a) q)); [|now rewrite firstn_skipn]. rewrite firstn_app. f_equal; [symmetry; apply firstn_all2; rewrite firstn_length; lia|]. f_equal. rewrite firstn_length. unfold len in *. lia. }
  rewrite beval_app. do 2 f_equal. f_equal. clearbody q. unfold len in *. rewrite firstn_length, skipn_length. lia.
Qed.
Lemma val_low p off a b : 0 <= off -> 0 < a -> 0 < b -> off + a + b <= len p -> val p off (a + b) < 256 ^ b -> val p (off + a) b = val p off (a + b).
Proof.
  intros Ho Ha Hb HL HV. pose proof (val_split p off a b Ho Ha Hb HL) as HS.
  destruct (val_range p off a Ho Ha) as [H|H]; [unfold val in H; replace (off + a <=? len p) with true in H by lia; pose proof (beval_range (firstn (Z.to_nat a) (skipn (Z.to_nat off) p))); lia|].
  destruct (val_range p (off + a) b ltac:(lia) Hb) as [H'|H']; [unfold val in H'; replace (off + a + b <=? len p) with true in H' by lia; pose proof (beval_range (firstn (Z.to_nat b) (skipn (Z.to_nat (off + a)) p))); lia|].
  assert (val p off a = 0) by nia. lia.
Qed.
