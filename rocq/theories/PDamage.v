(** * Bytes in which a valid file has no choice *)

From Coq Require Import ZArith List Bool String Lia.
From Coq Require Import ZifyBool.
From Coq Require Import Init.Byte.
From Verif Require Import Py ETree BV VSuper Spec SpecBox SpecMarker SpecIPL SpecWalk SpecSuper SpecCS SpecFile SpecTop SpecValid SpecMake SpecForm SpecDamage
     PBase PEmit PWalk PWrite PSeg PLeaf PLeaf2 PValid PTop PForm.
Import ListNotations.
Open Scope string_scope.
Open Scope list_scope.
Open Scope Z_scope.

Lemma sub_one x a n i : 0 <= a <= i -> i < a + n -> sub x i 1 = sub (sub x a n) (i - a) 1.
Proof.
  intros H1 H2. unfold sub. rewrite skipn_firstn_comm, firstn_firstn, skipn_skipn. f_equal; [lia|]. f_equal. lia.
Qed.
Lemma val_bytes x x' a n : 0 <= a -> 0 <= n -> val x a n = val x' a n -> 0 <= val x a n -> sub x a n = sub x' a n.
Proof.
  intros Ha Hn HE HV. unfold val in *. destruct (a + n <=? len x) eqn:E1; [|lia]. destruct (a + n <=? len x') eqn:E2; [|lia].
  apply beval_inj in HE; [exact HE|]. fold (sub x a n). fold (sub x' a n). rewrite !len_sub by lia. lia.
Qed.
Lemma same_one x x' a n i : 0 <= a <= i -> i < a + n -> sub x a n = sub x' a n -> sub x i 1 = sub x' i 1.
Proof. intros H1 H2 H. now rewrite (sub_one x a n), (sub_one x' a n), H. Qed.

(** Contents that a format prescribes. *)
Lemma sig_fixed E fmt x : box_ok E fmt (t_sig, x) -> sub x 0 4 = [x0d; x0a; x87; x0a].
Proof.
  intros H. inversion H as [? ? _ HN| | | |]; subst. unfold need in HN. cbn in HN. unfold sig_tests in HN. rewrite !holds_cons in HN. tauto.
Qed.
Lemma ftyp_fixed E fmt x : In fmt ["jp2"; "jph"] -> box_ok E fmt (t_ftyp, x) ->
  ftyp_brand fmt = Some (sub x 0 4) /\ val x 4 4 = 0.
Proof.
  intros HF H. inversion H as [? ? _ HN| | | |]; subst. change (need E fmt None t_ftyp x) with (holds (ftyp_tests fmt x)) in HN.
  unfold ftyp_tests in HN. destruct HF as [<-|[<-|[]]]; cbn in HN |- *; rewrite !holds_cons in HN; destruct HN as (_ & -> & -> & _); auto.
Qed.
Lemma ihdr_fixed E fmt x : box_ok E fmt (t_ihdr, x) -> len x = 14 /\ val x 11 1 = 7 /\ 1 <= val x 8 2 /\ 1 <= val x 0 4 /\ 1 <= val x 4 4 /\ 0 <= val x 10 1.
Proof.
  intros H. inversion H as [? ? _ HN| | | |]; subst. change (need E fmt None t_ihdr x) with (holds (ihdr_tests x)) in HN.
  unfold ihdr_tests in HN. rewrite !holds_cons in HN. destruct HN as (H1 & H2 & H3 & H4 & H5 & H6 & _). repeat (split; [lia|]).
  destruct (Z_lt_le_dec (val x 10 1) 0) as [L|L]; [|exact L]. exfalso. unfold val in H5, L. destruct (_ <=? _); [|lia].
  match type of L with beval ?l < 0 => pose proof (beval_range l) end. lia.
Qed.
Lemma cs_fixed E fmt x : codestream_ok E fmt x -> sub x 0 4 = m_SOC ++ m_SIZ /\ exists pre, x = pre ++ m_EOC.
Proof.
  intros (l & rest & ps & _ & _ & H1 & _ & _ & _ & _ & H3). unfold cs_tests1 in H1. unfold cs_tests3 in H3. rewrite !holds_app, !holds_cons in *.
  destruct H1 as (HA & HB & _). destruct H3 as (_ & _ & HC & _). split; [|exact HC].
  assert (HL : seg_length x = 0) by (unfold seg_length; rewrite HA; reflexivity).
  unfold cs_second in HB. rewrite HL in HB. change (0 =? -9999) with false in HB. cbv iota in HB.
  rewrite <- HA, <- HB. clear. unfold sub. change (Z.to_nat (0 + 2)) with 2%nat. change (Z.to_nat 0) with 0%nat. cbn [skipn].
  change (Z.to_nat 4) with 4%nat. change (Z.to_nat 2) with 2%nat. destruct x as [|a [|b [|c [|d x]]]]; reflexivity.
Qed.

Lemma guarded_cs E fmt x x' i : codestream_ok E fmt x -> codestream_ok E fmt x' -> len x' = len x -> guarded t_jp2c x i -> sub x i 1 = sub x' i 1.
Proof.
  intros B B' HL [(HX & _)|[(HX & _)|(_ & Hi)]]; [discriminate..|].
  destruct (cs_fixed _ _ _ B) as (C1 & p & C2). destruct (cs_fixed _ _ _ B') as (C1' & p' & C2').
  destruct Hi as [Hi|Hi].
  - apply (same_one x x' 0 4 i); [lia|lia|congruence].
  - assert (HP : forall y q, y = q ++ m_EOC -> len y = len x -> sub y (len x - 2) 2 = m_EOC).
    { intros y q -> HY. rewrite len_app in HY. change (len m_EOC) with 2 in HY. unfold sub. replace (Z.to_nat (len x - 2)) with (List.length q) by (unfold len in *; lia).
      rewrite skipn_app, skipn_all, PeanoNat.Nat.sub_diag. reflexivity. }
    assert (HX : 2 <= len x) by (rewrite C2, len_app; change (len m_EOC) with 2; pose proof (len_nonneg p); lia).
    apply (same_one x x' (len x - 2) 2 i); [lia|lia|]. now rewrite (HP x p C2 eq_refl), (HP x' p' C2' HL).
Qed.

(** The parts of a valid file. *)
Lemma box_in E fmt c bs b : file_ok E fmt c -> splits c bs -> In b bs -> box_ok E fmt b.
Proof.
  intros (bs' & hs & HS' & _ & HB & _) HS HI. rewrite (splits_unique _ _ HS' _ HS) in HB. rewrite Forall_forall in HB. now apply HB.
Qed.
Lemma fixed_box E fmt c bs t x x' c' bs' i : In fmt ["jp2"; "jph"] -> file_ok E fmt c -> file_ok E fmt c' -> splits c bs -> splits c' bs' ->
  In (t, x) bs -> In (t, x') bs' -> len x' = len x -> guarded t x i -> sub x i 1 = sub x' i 1.
Proof.
  intros HF HV HV' HS HS' HI HI' HL HG. pose proof (box_in _ _ _ _ _ HV HS HI) as B. pose proof (box_in _ _ _ _ _ HV' HS' HI') as B'.
  destruct HG as [(-> & Hi)|[(-> & Hi)|(-> & Hi)]].
  - apply (same_one x x' 0 4 i); [lia|lia|]. now rewrite (sig_fixed _ _ _ B), (sig_fixed _ _ _ B').
  - destruct (ftyp_fixed _ _ _ HF B) as (B1 & B2). destruct (ftyp_fixed _ _ _ HF B') as (B1' & B2').
    destruct (Z_lt_le_dec i 4).
    + apply (same_one x x' 0 4 i); [lia|lia|congruence].
    + apply (same_one x x' 4 4 i); [lia|lia|]. apply val_bytes; lia.
  - assert (C : forall y, box_ok E fmt (t_jp2c, y) -> codestream_ok E fmt y).
    { intros y H. inversion H as [? ? HN _| | | |]; subst; [destruct HN; cbn; auto|assumption]. }
    apply (guarded_cs E fmt); auto. right. right. auto.
Qed.
