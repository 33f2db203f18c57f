(** * One format, one file: C80 *)

From Coq Require Import ZArith List Bool String Lia.
From Coq Require Import ZifyBool.
From Coq Require Import Init.Byte.
From Verif Require Import Py ETree BV VSuper Spec SpecBox SpecMarker SpecIPL SpecWalk SpecSuper SpecCS SpecFile SpecTop SpecValid SpecMake SpecForm SpecDamage
     PBase PEmit PWalk PWrite PSeg PLeaf PLeaf2 PValid PTop PForm PDamage Ex Prop_Top Prop_File Prop_Trunc Prop_Report Prop_CS Prop_Check Prop_MixFile Prop_Form Prop_Same.
Import ListNotations.
Open Scope string_scope.
Open Scope list_scope.
Open Scope Z_scope.

Definition formats : list string := ["jp2"; "jph"; "j2c"; "jhc"].

Lemma file_first E fmt c : file_ok E fmt c -> exists y z bs, splits c ((t_sig, y) :: (t_ftyp, z) :: bs) /\ box_ok E fmt (t_ftyp, z) /\ ~ In t_sig (map fst bs).
Proof.
  intros (bs & hs & HS & _ & HB & HT). exists (match bs with (_, y) :: _ => y | _ => [] end), (match bs with _ :: (_, y) :: _ => y | _ => [] end), (skipn 2 bs).
  assert (H1 : nth_error (map fst bs) 0 = Some t_sig) by (apply (holds_in _ "firstBoxIsSignatureBox" _ HT); unfold jp2_tests; rewrite !in_app_iff; cbn; tauto).
  assert (H2 : nth_error (map fst bs) 1 = Some t_ftyp) by (apply (holds_in _ "secondBoxIsFileTypeBox" _ HT); unfold jp2_tests; rewrite !in_app_iff; cbn; tauto).
  assert (H3 : at_most_one t_sig (map fst bs)) by (apply (holds_in _ "noMoreThanOneSignatureBox" _ HT); unfold jp2_tests; rewrite !in_app_iff; cbn; tauto).
  destruct bs as [|(t, y) [|(u, z) bs]]; try discriminate. cbn in H1, H2. injection H1 as ->. injection H2 as ->.
  split; [exact HS|]. split; [rewrite Forall_forall in HB; apply HB; right; now left|].
  cbn [skipn]. intros HI. apply in_split in HI as (a & b & HI). cbn [map fst] in H3. rewrite HI in H3. now apply (H3 [] (t_ftyp :: a) b).
Qed.
Lemma first_type c t y bs : splits c ((t, y) :: bs) -> sub c 4 4 = t.
Proof. inversion 1; reflexivity. Qed.
Lemma cs_siz_tests E fmt x : codestream_ok E fmt x -> holds (siz_tests fmt (cs_siz x)).
Proof. intros (l & rest & ps & _ & _ & _ & (_ & H) & _). exact H. Qed.
Lemma ht_bit fmt x : holds (siz_tests fmt x) -> (fmt_p1 fmt = true -> bitk (val x 2 2) 14 = 0) /\ (fmt_p1 fmt = false -> fmt_ht fmt = true -> bitk (val x 2 2) 14 = 1).
Proof.
  intros H. split.
  - intros HP. assert (HB : bitsk (val x 2 2) 12 4 = 0).
    { apply (holds_in _ "rsizIsValid" _ H). unfold siz_tests. rewrite HP, !in_app_iff. cbn. tauto. }
    unfold bitsk, bitk in *. change (2 ^ 12) with 4096 in HB. change (2 ^ 4) with 16 in HB. change (2 ^ 14) with 16384.
    replace 16384 with (4096 * 4) by reflexivity. rewrite <- Z.div_div by lia. generalize dependent (val x 2 2 / 4096). intros v HB. lia.
  - intros HP HH. apply (holds_in _ "rsizIsValid" _ H). unfold siz_tests. rewrite HP, HH, !in_app_iff. cbn. tauto.
Qed.
Lemma file_not_cs E fmt E' fmt' c : file_ok E fmt c -> codestream_ok E' fmt' c -> False.
Proof.
  intros HF HC. destruct (file_first _ _ _ HF) as (y & z & bs & HS & _). apply first_type in HS.
  destruct (cs_start _ _ _ HC) as (S1 & S2 & S3 & S4 & _). pose proof (cs_siz_tests _ _ _ HC) as HT.
  assert (HL : btw 41 (val (cs_siz c) 0 2) 49190) by (apply (holds_in _ "lsizIsValid" _ HT); unfold siz_tests; rewrite !in_app_iff; cbn; tauto).
  assert (HK : val (cs_siz c) 0 2 = 38 + 3 * val (cs_siz c) 36 2) by (apply (holds_in _ "lsizConsistentWithCsiz" _ HT); unfold siz_tests; rewrite !in_app_iff; cbn; tauto).
  assert (HV : val c 4 2 = val (cs_siz c) 0 2).
  { unfold btw in HL. set (z0 := cs_siz c) in *. set (r := skipn _ (cs_second c)) in *. clearbody z0 r. rewrite S2 in S1. rewrite S1.
    rewrite val_app_r by (cbn; lia). rewrite val_app_r by (cbn; lia). change (4 - len m_SOC - len m_SIZ) with 0. apply val_app_l; lia. }
  assert (HW : val c 4 2 = 27216).
  { assert (H4 : 4 + 4 <= len c) by (apply (sub_len_le c 4 4); [lia..|now rewrite HS]).
    unfold val. replace (4 + 2 <=? len c) with true by lia. change (firstn (Z.to_nat 2) (skipn (Z.to_nat 4) c)) with (sub c 4 2).
    replace (sub c 4 2) with (sub (sub c 4 4) 0 2) by (unfold sub; rewrite skipn_O, firstn_firstn; reflexivity). rewrite HS. reflexivity. }
  lia.
Qed.

(** No sequence of bytes is a valid file in two formats. *)
Theorem C80_one_format E o E' o' c : In (o_format o) formats -> In (o_format o') formats -> len c < 2 ^ 53 ->
  called_valid E o c -> called_valid E' o' c -> o_format o = o_format o'.
Proof.
  intros HF HF' HL HV HV'.
  assert (D : forall p, In p formats -> In p ["jp2"; "jph"] \/ In p ["j2c"; "jhc"]) by (unfold formats; cbn; tauto).
  destruct (D _ HF) as [HI|HI]; destruct (D _ HF') as [HI'|HI'].
  - apply called_file in HV; [|assumption..]. apply called_file in HV'; [|assumption..].
    destruct (file_first _ _ _ HV) as (y & z & bs & HS & HB & _). destruct (file_first _ _ _ HV') as (y' & z' & bs' & HS' & HB' & _).
    pose proof (splits_unique _ _ HS _ HS') as HE. injection HE as _ <- _.
    apply ftyp_fixed in HB as (HB & _); [|assumption]. apply ftyp_fixed in HB' as (HB' & _); [|assumption]. rewrite <- HB' in HB.
    cbn in HI, HI'. destruct HI as [HI|[HI|[]]], HI' as [HI'|[HI'|[]]]; rewrite <- HI, <- HI' in *; try reflexivity; discriminate.
  - exfalso. apply called_file in HV; [|assumption..]. apply called_cs in HV'; [|assumption]. exact (file_not_cs _ _ _ _ _ HV HV').
  - exfalso. apply called_file in HV'; [|assumption..]. apply called_cs in HV; [|assumption]. exact (file_not_cs _ _ _ _ _ HV' HV).
  - apply called_cs in HV; [|assumption]. apply called_cs in HV'; [|assumption].
    apply cs_siz_tests, ht_bit in HV. apply cs_siz_tests, ht_bit in HV'.
    cbn in HI, HI'. destruct HI as [HI|[HI|[]]], HI' as [HI'|[HI'|[]]]; rewrite <- HI, <- HI' in *; try reflexivity; exfalso; cbn in HV, HV'; intuition lia.
Qed.

(** The codestreams in files differ in the same way. *)
Theorem C80_inside E o E' o' c x : In (o_format o) ["jp2"; "jph"] -> In (o_format o') ["j2c"; "jhc"] -> len c < 2 ^ 53 ->
  called_valid E o c -> (exists bs, splits c bs /\ In (t_jp2c, x) bs) -> called_valid E' o' x ->
  (o_format o = "jp2" <-> o_format o' = "j2c").
Proof.
  intros HF HF' HL HV (bs & HS & HI) HX. apply called_file in HV; [|assumption..]. apply called_cs in HX; [|assumption].
  destruct HV as (bs' & hs & HS' & _ & HB & _). pose proof (splits_unique _ _ HS _ HS') as <-.
  rewrite Forall_forall in HB. specialize (HB _ HI).
  assert (HC : codestream_ok E (o_format o) x).
  { inversion HB as [? ? HN _| | | |]; subst; [exfalso; apply HN; cbn; tauto|assumption]. }
  apply cs_siz_tests, ht_bit in HC. apply cs_siz_tests, ht_bit in HX.
  cbn in HF, HF'. destruct HF as [HF|[HF|[]]], HF' as [HF'|[HF'|[]]]; rewrite <- HF, <- HF' in *; cbn in HC, HX; split; intros HQ; try reflexivity; try discriminate; exfalso; intuition lia.
Qed.

(** Two valid files one after the other are not a valid file, of whatever format, if
    the boxes of the first all give their lengths. *)
Theorem C80_not_joined E o E' o' bs c : In (o_format o) ["jp2"; "jph"] -> In (o_format o') ["jp2"; "jph"] ->
  Forall fits bs -> (forall b, In b bs -> fst (fst b) <> Rest) -> bs <> [] -> len (bytes_of bs ++ c) < 2 ^ 53 ->
  called_valid E' o' c -> ~ called_valid E o (bytes_of bs ++ c).
Proof.
  intros HF HF' HT HR HN HL HV HJ. rewrite len_app in HL. pose proof (len_nonneg (bytes_of bs)). pose proof (len_nonneg c).
  apply called_file in HV; [|assumption|lia]. apply called_file in HJ; [|assumption|rewrite len_app; lia].
  destruct (file_first _ _ _ HV) as (y & z & cs & HS & _). destruct (file_first _ _ _ HJ) as (y' & z' & js & HS' & _ & HO).
  pose proof (splits_app bs c _ HT HR HS) as HA. fold (bytes_of bs) in HA. pose proof (splits_unique _ _ HA _ HS') as HE.
  destruct bs as [|b1 [|b2 bs]]; [contradiction| |].
  - cbn in HE. injection HE as _ HE _ _. discriminate.
  - apply (f_equal (skipn 2)) in HE. cbn [map app skipn] in HE. apply HO. rewrite <- HE, map_app. apply in_app_iff. right. now left.
Qed.

(** The example files, each valid in its own format; two of them joined, and the one
    codestream that may follow another. *)
Definition called_by (fmt : string) (c : bytes) : bool :=
  is_valid (run fmt (if existsb (String.eqb fmt) ["jp2"; "jph"] then BTs "JP2" else BTs "contiguousCodestreamBox") c VNone).
Example C80_ex :
  map (fun c => filter (fun fmt => called_by fmt c) formats) [ex_file; ex_jph_file; ex_cs; ex_jph_cs] = map (fun fmt => [fmt]) formats /\
  called_by "jp2" (ex_file ++ ex_file) = false /\ called_by "jph" (ex_file ++ ex_jph_file) = false /\
  called_by "j2c" (ex_cs ++ ex_cs) = true.
Proof. now vm_compute. Qed.

Definition all_theorems := (C80_one_format, C80_inside, C80_not_joined).
Print Assumptions all_theorems.
