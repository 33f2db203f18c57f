(** * What the validators add to a report, against the schema *)

From Coq Require Import ZArith List Bool String Lia SpecFloat QArith Qabs Lqa.
From Coq Require Import ZifyBool.
From Coq Require Import Init.Byte.
From Verif Require Import Py PyFloat ByteConv Shared ETree BV VBoxes VMarkers VSuper Remap Spec SpecText SpecNum PBase PHuman
     PFloat PRepr PAcc Serial SpecXml SpecXsd.
Import ListNotations.
Open Scope string_scope.
Open Scope list_scope.
Open Scope Z_scope.

(** ** Content models *)
Lemma m_seq V l1 l2 a b : matches V (Seq l1) a -> matches V (Seq l2) b -> matches V (Seq (l1 ++ l2)) (a ++ b).
Proof.
  revert a. induction l1 as [|p l1 IH]; intros a HA HB.
  - inversion HA; subst. exact HB.
  - inversion HA; subst. cbn [app]. rewrite <- app_assoc. constructor; auto.
Qed.
Lemma m_seq1 V p l : matches V p l <-> matches V (Seq [p]) l.
Proof.
  split; intros H.
  - rewrite <- (app_nil_r l). constructor; [exact H|constructor].
  - inversion H as [| | |? ? a b HA HB| |]; subst. inversion HB; subst. now rewrite app_nil_r.
Qed.
Lemma m_star_nil V p : matches V (Star p) [].
Proof. change (matches V (Star p) (List.concat [])). constructor; cbn; auto. Qed.
Lemma m_star_one V p l : matches V p l -> matches V (Star p) l.
Proof.
  intros H. rewrite <- (app_nil_r l). change (matches V (Star p) (List.concat [l])).
  constructor; cbn; [lia|auto|]. repeat constructor; assumption.
Qed.
Lemma m_star_app V p a b : matches V (Star p) a -> matches V (Star p) b -> matches V (Star p) (a ++ b).
Proof.
  intros HA HB. inversion HA; subst. inversion HB; subst. rewrite <- concat_app.
  constructor; [lia|auto|]. apply Forall_app. auto.
Qed.
Lemma m_opt_none V p : matches V (Opt p) [].
Proof. change (matches V (Opt p) (List.concat [])). constructor; cbn; auto; lia. Qed.
Lemma m_opt_some V p l : matches V p l -> matches V (Opt p) l.
Proof.
  intros H. rewrite <- (app_nil_r l). change (matches V (Opt p) (List.concat [l])).
  constructor; cbn; [lia|lia|]. repeat constructor; assumption.
Qed.

(** ** Texts *)
Lemma collapsed_id (P : pystr -> Prop) s : P s -> collapsed P s.
Proof. intros H. exists [], s, []. rewrite app_nil_r. repeat split; auto; constructor. Qed.
Lemma decimal_integer z s : decimal z s -> typed XInteger s.
Proof.
  intros (ds & -> & HN & HD & _). apply collapsed_id. destruct (z <? 0).
  - right. exists 45, ds. repeat split; auto. cbn. auto.
  - left. split; auto.
Qed.
Lemma integer_decimal s : typed XInteger s -> typed XDecimal s.
Proof.
  intros (a & m & b & -> & HA & HB & H). exists a, m, b. repeat split; auto.
  destruct H as [H|(c & r & -> & HC & H)]; [left; now left|]. right. exists c, r. repeat split; auto. now left.
Qed.
Lemma decimal_double s : typed XDecimal s -> typed XDouble s.
Proof. intros (a & m & b & -> & HA & HB & H). exists a, m, b. repeat split; auto. left. now left. Qed.

Lemma denotes_double s q : denotes s q -> typed XDouble s /\ forall r, r = 45 :: s -> typed XDouble r.
Proof.
  intros (a & b & t & x & -> & HN & HA & HB & HT & _).
  assert (HF : fraction (a ++ match b with [] => [] | _ => 46 :: b end)).
  { destruct b as [|c b]; [rewrite app_nil_r; left; split; auto|].
    right. exists a, (c :: b). repeat split; auto. destruct a; discriminate. }
  assert (HS : forall sg, In sg [[]; [45]] ->
            scientific (sg ++ a ++ match b with [] => [] | _ => 46 :: b end ++ t)).
  { intros sg Hsg.
    assert (HG : signed fraction (sg ++ a ++ match b with [] => [] | _ => 46 :: b end)).
    { destruct Hsg as [<-|[<-|[]]]; [left; exact HF|]. right. eexists 45, _. split; [reflexivity|].
      split; [cbn; auto|exact HF]. }
    destruct HT as [(-> & _)|(ds & HD & HDD & HT)].
    - left. now rewrite app_nil_r.
    - right. assert (HE : exists sg', In sg' [43; 45] /\ t = 101 :: sg' :: ds)
        by (destruct HT as [(-> & _)|(-> & _)]; eexists; (split; [|reflexivity]); cbn; auto).
      destruct HE as (sg' & Hsg' & ->). exists (sg ++ a ++ match b with [] => [] | _ => 46 :: b end), 101, (sg' :: ds).
      split; [now rewrite <- !app_assoc|]. split; [cbn; auto|]. split; [exact HG|].
      right. exists sg', ds. repeat split; auto. }
  split; [|intros r ->]; apply collapsed_id; left.
  - apply (HS []). cbn; auto.
  - apply (HS [45]). cbn; auto.
Qed.

(** Any float that was rounded is printed as one. *)
Lemma round_cases nd f : 0 <= nd -> match round_nd nd f with S754_finite _ m e => canon m e | _ => True end.
Proof.
  intros Hnd. destruct f as [s|s| |s m e]; cbn [round_nd]; try exact I.
  destruct (_ =? 0) eqn:EZ; [exact I|].
  assert (HP : 0 < 10 ^ nd) by (apply Z.pow_pos_nonneg; lia).
  assert (H0 : 0 <= rnd_half_even (frac_num (Zpos m) e * 10 ^ nd) (frac_den e)).
  { apply rnd_ge; [apply frac_den_pos|]. pose proof (frac_num_pos m e). nia. }
  destruct (round_pos_canon s (rnd_half_even (frac_num (Zpos m) e * 10 ^ nd) (frac_den e)) (10 ^ nd) ltac:(lia) HP)
    as [H|[H|(m' & e' & HC & H)]]; rewrite H; auto.
Qed.
Lemma repr_sign s m e : repr_float (S754_finite s m e) = (if s then [45] else []) ++ repr_float (S754_finite false m e).
Proof. cbn [repr_float]. destruct (shortest 16 1 m e) as [[d n] E]. reflexivity. Qed.
Lemma repr_typed nd f : 0 <= nd -> typed XFloat (repr_float (round_nd nd f)).
Proof.
  intros Hnd. pose proof (round_cases nd f Hnd) as H. destruct (round_nd nd f) as [s|s| |s m e].
  - left. destruct (denotes_double _ _ zero_denotes) as (HA & HB). destruct s; [now apply HB|exact HA].
  - right. destruct s; [exists "-inf"|exists "inf"]; (split; [cbn; tauto|reflexivity]).
  - right. exists "nan". split; [cbn; tauto|reflexivity].
  - left. destruct (repr_denotes m e H) as (d & n & E & _ & _ & _ & _ & _ & HD).
    destruct (denotes_double _ _ HD) as (HA & HB). rewrite repr_sign. destruct s; [now apply HB|exact HA].
Qed.
(** A number with few decimals, not too large, is printed without exponent. *)
Lemma layout_fraction ds E : Forall digit ds -> ds <> [] -> -4 < E <= 16 -> fraction (layout ds E).
Proof.
  intros HD HN HE. unfold layout. replace ((-4 <? E) && (E <=? 16)) with true by lia. right.
  assert (HZ : forall n, Forall digit (zeros n)).
  { intros n. unfold zeros. apply Forall_forall. intros c Hc. apply repeat_spec in Hc. subst c. unfold digit. lia. }
  destruct (E <=? 0) eqn:E0; [|destruct (E <? len ds) eqn:E1].
  - exists [48], (zeros (- E) ++ ds). split; [reflexivity|]. split; [repeat constructor; unfold digit; lia|].
    split; [apply Forall_app; auto|discriminate].
  - destruct (slice_firstn ds E ltac:(lia)) as (H1 & H2). exists (firstn (Z.to_nat E) ds), (skipn (Z.to_nat E) ds).
    rewrite H1, H2. split; [reflexivity|]. rewrite firstn_skipn. split; [|split; [|exact HN]].
    + apply Forall_forall. intros c Hc. rewrite Forall_forall in HD. apply HD. now apply firstn_incl in Hc.
    + apply Forall_forall. intros c Hc. rewrite Forall_forall in HD. apply HD. now apply skipn_incl in Hc.
  - exists (ds ++ zeros (E - len ds)), [48]. rewrite <- app_assoc. split; [reflexivity|].
    split; [apply Forall_app; auto|]. split; [repeat constructor; unfold digit; lia|]. destruct ds; [easy|discriminate].
Qed.
Lemma plain_decimal K s m e n : 0 <= K <= 4 -> canon m e -> 0 < n <= 10 ^ 14 -> round_pos false n (10 ^ K) = S754_finite false m e ->
  (1 # 100000 <= fval m e)%Q -> typed XDecimal (repr_float (S754_finite s m e)).
Proof.
  intros HK HC Hn HF HV. destruct (shortest_spec m e HC 16 1 eq_refl ltac:(lia)) as (d & k & E & HS & Hk & Hd & HE & HM).
  pose proof (few_decimals K m e n d k E ltac:(lia) HC Hn HF HV HS) as HX.
  assert (HR : -4 < E <= 16).
  { assert (H1 : 10 ^ (E - 1 + L0) <= n * 10 ^ (L0 - K)).
    { rewrite <- HX. replace (E - 1 + L0) with ((k - 1) + (E - k + L0)) by lia. rewrite (Z.pow_add_r 10 (k - 1)) by (unfold L0; lia).
      apply Z.mul_le_mono_nonneg_r; [apply Z.lt_le_incl, pow10_pos; unfold L0; lia|lia]. }
    assert (H2 : n * 10 ^ (L0 - K) < 10 ^ (E + L0)).
    { rewrite <- HX. replace (E + L0) with (k + (E - k + L0)) by lia. rewrite (Z.pow_add_r 10 k) by (unfold L0; lia).
      apply Z.mul_lt_mono_pos_r; [apply pow10_pos; unfold L0; lia|lia]. }
    assert (HP : 0 < 10 ^ (L0 - K)) by (apply pow10_pos; unfold L0; lia). split.
    - destruct (Z_lt_le_dec (-4) E) as [H|H]; [exact H|exfalso].
      assert (10 ^ (E + L0) <= 10 ^ (L0 - K)) by (apply Z.pow_le_mono_r; unfold L0; lia). nia.
    - destruct (Z_le_gt_dec E 16) as [H|H]; [exact H|exfalso].
      assert (HY : 10 ^ (15 + (L0 - K)) <= 10 ^ (E - 1 + L0)) by (apply Z.pow_le_mono_r; unfold L0; lia).
      rewrite Z.pow_add_r in HY by (unfold L0; lia). change (10 ^ 15) with (10 * 10 ^ 14) in HY. nia. }
  assert (HFr : fraction (repr_float (S754_finite false m e))).
  { cbn [repr_float]. rewrite HS. cbn [app]. destruct (str_decimal d) as (ds & HSD & H1 & H2 & H3 & H4).
    assert (Hd0 : 0 < d) by (pose proof (pow10_pos (k - 1) ltac:(lia)); lia).
    replace (d <? 0) with false in HSD by lia. cbn [app] in HSD. rewrite HSD. rewrite Z.abs_eq in H3 by lia.
    destruct (strip_spec ds) as (j & HJ). set (t := strip_trailing0 ds) in *.
    apply layout_fraction; [| |exact HR].
    - rewrite HJ in H2. apply Forall_app in H2. apply H2.
    - intros HT. rewrite HT in HJ. cbn [app] in HJ. rewrite HJ in H3.
      assert (HZ : forall j, numeral (repeat 48 j) = 0).
      { intros j0. unfold numeral. induction j0 as [|j0 IH]; [reflexivity|]. cbn [repeat fold_left]. exact IH. }
      rewrite HZ in H3. lia. }
  rewrite repr_sign. apply collapsed_id. destruct s; [|left; exact HFr]. right. exists 45, (repr_float (S754_finite false m e)).
  split; [reflexivity|]. split; [cbn; auto|exact HFr].
Qed.
Lemma uint_range b : bytesToUInt b = -9999 \/ 0 <= bytesToUInt b < 2 ^ 32.
Proof.
  unfold bytesToUInt, doConv. destruct (len b =? 4) eqn:EL; [right|now left]. rewrite be_acc_0.
  pose proof (beval_range b) as H. replace (len b) with 4 in H by lia. change (2 ^ 32) with (256 ^ 4). lia.
Qed.
Lemma icc_fixed_typed b : typed XDecimal (repr_float (round_nd 4 (int_div (bytesToUInt b) 65536))).
Proof.
  destruct (uint_range b) as [->|HB].
  { replace (repr_float _) with (45 :: [48] ++ 46 :: [49; 53; 50; 54]) by (vm_compute; reflexivity).
    apply collapsed_id. right. eexists 45, _. split; [reflexivity|]. split; [cbn; auto|]. right. exists [48], [49; 53; 50; 54].
    repeat split; try discriminate; repeat constructor; unfold digit; lia. }
  set (a := bytesToUInt b) in *. clearbody a. clear b.
  assert (HZ : typed XDecimal (repr_float (S754_zero false))).
  { cbn. apply collapsed_id. left. right. exists [48], [48]. repeat split; try discriminate; repeat constructor; unfold digit; lia. }
  destruct (Z.eq_dec a 0) as [->|Ha0]; [exact HZ|].
  destruct (rep_q a 65536 ltac:(lia) ltac:(lia)) as (m & e & HC & -> & HW). cbn [round_nd].
  pose proof (rnd_q (frac_num (Zpos m) e * 10 ^ 4) (frac_den e) (frac_den_pos e)) as HR.
  set (n := rnd_half_even (frac_num (Zpos m) e * 10 ^ 4) (frac_den e)) in *.
  destruct (n =? 0) eqn:EN; [exact HZ|].
  assert (Hn0 : 0 <= n) by (apply rnd_ge; [apply frac_den_pos|pose proof (frac_num_pos m e); change (10 ^ 4) with 10000; nia]).
  assert (HNU : n <= 10 ^ 14).
  { assert (HE : (qdiv (frac_num (Zpos m) e * 10 ^ 4) (frac_den e) == (10000#1) * fval m e)%Q).
    { unfold qdiv, fval. rewrite inject_Z_mult. change (inject_Z (10 ^ 4)) with (10000#1)%Q. field. apply inj_nz, frac_den_pos. }
    rewrite HE in HR. apply Qabs_Qle_condition in HR. destruct HW as (_ & HW2).
    assert (HQ : (qdiv a 65536 == inject_Z a * (1 # 65536))%Q) by (unfold qdiv; change (inject_Z 65536) with (65536#1)%Q; field).
    assert (HaQ : (inject_Z a < (4294967296#1))%Q). { change (4294967296#1)%Q with (inject_Z (2 ^ 32)). rewrite <- Zlt_Qlt. lia. }
    rewrite HQ in HW2. unfold u in HW2. rewrite Zle_Qle. change (inject_Z (10 ^ 14)) with (100000000000000#1)%Q. lra. }
  destruct (rep_q n (10 ^ 4) ltac:(split; [lia|]; apply (Z.le_trans _ (10 ^ 14)); [exact HNU|vm_compute; discriminate]) ltac:(lia)) as (m' & e' & HC' & HF & HV).
  unfold int_div, round_q in HF. change (10 ^ 4 <? 0) with false in HF. cbv iota in HF. rewrite EN in HF.
  replace (n <? 0) with false in HF by lia. rewrite Z.abs_eq in HF by lia. rewrite HF.
  apply (plain_decimal 4 false m' e' n); try assumption; try lia.
  destruct HV as (HV & _). assert (HD : (qdiv n (10 ^ 4) == inject_Z n * (1#10000))%Q) by (unfold qdiv; change (inject_Z (10 ^ 4)) with (10000#1)%Q; field).
  rewrite HD in HV. assert (HnQ : (1 <= inject_Z n)%Q) by (change 1%Q with (inject_Z 1); rewrite <- Zle_Qle; lia). unfold u in HV. lra.
Qed.
