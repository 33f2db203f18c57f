(** * Files and bare codestreams: the reports (proofs for C76) *)

From Coq Require Import ZArith List Bool String Lia.
From Coq Require Import Init.Byte.
From Verif Require Import Py ByteConv ETree BV VBoxes VMarkers VSuper Spec SpecBox SpecMarker SpecIPL SpecWalk SpecSuper SpecCS SpecTop SpecForm
     PBase PEmit PLeaf PLeaf2 PWalk PSuper PSeg PTile PChain PCS PGrow PTop PValid PForm.
Import ListNotations.
Open Scope string_scope.
Open Scope list_scope.
Open Scope Z_scope.

Lemma seg_same E o1 o2 fuel d m x st cz : pair (o_format o1) (o_format o2) -> others_same o1 o2 ->
  In m (m_SIZ :: map fst main_markers ++ map fst tile_markers) ->
  validate E o1 fuel d (BTb m) x st cz = validate E o2 fuel d (BTb m) x st cz.
Proof.
  intros HP HO HI. destruct d as [|d]; [reflexivity|]. rewrite !validate_S.
  destruct o1 as [? ? ? ?], o2. unfold others_same in HO. cbn in HP, HO. destruct HO as (? & ? & ?). subst.
  cbn [map fst main_markers tile_markers app In] in HI.

  match goal with |- match runMethod ?E ?r1 ?fu ?f1 st0 with _ => _ end = match runMethod ?E ?r2 ?fu ?f2 st0 with _ => _ end =>
    assert (HH : runMethod E r1 fu f1 = runMethod E r2 fu f2); [|now rewrite HH] end.
  destruct HP.
  all: repeat (destruct HI as [<-|HI]; [first [match goal with |- runMethod _ _ _ ?f1 = runMethod _ _ _ ?f2 =>
      let b := eval cbn in (s_btype f1) in match b with BTb m_CAP => change (validate_cap f1 = validate_cap f2) end end;
      unfold validate_cap; cbv zeta; cbn [s_contents]; generalize (pcapPartsFrom 32 0 (bytesToUInt (slice x 2 6))); intros; reflexivity
    | reflexivity]|]); now destruct HI.
Qed.
Lemma sot_same E o1 o2 fuel d x st cz : pair (o_format o1) (o_format o2) -> others_same o1 o2 ->
  validate E o1 fuel d (BTs "startOfTile") x st cz = validate E o2 fuel d (BTs "startOfTile") x st cz.
Proof.
  intros HP HO. destruct d as [|d]; [reflexivity|]. rewrite !validate_S.
  destruct o1 as [? ? ? ?], o2. unfold others_same in HO. cbn in HP, HO. destruct HO as (? & ? & ?). subst.
  match goal with |- match runMethod ?E ?r1 ?fu ?f1 st0 with _ => _ end = match runMethod ?E ?r2 ?fu ?f2 st0 with _ => _ end =>
    assert (HH : runMethod E r1 fu f1 = runMethod E r2 fu f2); [|now rewrite HH] end.
  destruct HP; reflexivity.
Qed.
Lemma reports_fun v L k1 k2 : reports v L k1 -> reports v L k2 -> k1 = k2.
Proof.
  intros H. revert k2. induction H as [|n P L k HP _ IH|n P L k HP _ IH]; intros k2 H2; inversion H2; subst; try tauto; try reflexivity.
  - destruct v; [f_equal|]; apply IH; assumption.
  - f_equal. apply IH; assumption.
Qed.

Lemma tail_out {A} (a : A) s m n e : a :: s ++ m ++ n :: e = (a :: s ++ m ++ [n]) ++ e.
Proof. cbn [app]. now rewrite <- !app_assoc. Qed.

(** Two runs that agree about marker segments agree about tile parts, and about all
    of a codestream but the compression ratio. *)
Section Same.
Variables (E : env) (o1 o2 : opts).
Hypothesis Hv : o_verbose o1 = o_verbose o2.
Hypothesis Hp : o_packet o1 = o_packet o2.
Hypothesis Hseg : forall m x st cz r, In m (m_SIZ :: map fst main_markers ++ map fst tile_markers) ->
  gives E o1 (BTb m) x st cz r -> gives E o2 (BTb m) x st cz r.
Hypothesis Hsot : forall x r, gives E o1 (BTs "startOfTile") x VNone VNone r -> gives E o2 (BTs "startOfTile") x VNone VNone r.

Lemma segs_same n tbl l rs : tbl = main_markers \/ tbl = tile_markers ->
  Forall2 (seg_gives E o1 n) (treated tbl l) rs -> Forall2 (seg_gives E o2 n) (treated tbl l) rs.
Proof.
  intros HT. assert (HK : forall q, In q (treated tbl l) -> In (snd (fst q)) (m_SIZ :: map fst main_markers ++ map fst tile_markers)).
  { intros ((k & m) & x) HI. unfold treated in HI. apply in_flat_map in HI. destruct HI as ((m' & x') & _ & HI).
    destruct (lookup m' tbl) as [k'|] eqn:EL; [|destruct HI]. destruct HI as [HI|[]]. injection HI as -> -> ->. cbn [fst snd].
    apply lookup_in in EL. right. apply in_or_app. destruct HT as [->| ->]; tauto. }
  revert HK. intros HK H. induction H as [|q r ls rs H _ IH]; constructor.
  - apply Hseg; [apply HK; now left|exact H].
  - apply IH. intros q' Hq'. apply HK. now right.
Qed.
Lemma tile_same c p n r : 0 <= p -> sub c p 2 = m_SOT -> tile_of E o1 c n p r -> tile_of E o2 c n p r.
Proof.
  intros Hp0 HM HG. destruct (after_total m_SOD (skipn (Z.to_nat p) c)) as (l & rr & HA).
  destruct (tile_gives E o1 c p n l rr r Hp0 HM HA HG) as (r0 & rs & H0 & _ & HR & HT).
  destruct (tile_fwd E o2 c p n l rr rs Hp0 HM HA (segs_same n tile_markers l rs (or_intror eq_refl) HR)) as (q0 & r' & HG' & _ & _).
  destruct (tile_gives E o2 c p n l rr r' Hp0 HM HA HG') as (r0' & rs' & H0' & _ & HR' & HT').
  assert (r0' = r0) as -> by exact (gives_fun _ _ _ _ _ _ _ _ H0' (Hsot _ _ H0)).
  assert (rs' = rs) as ->.
  { apply (segs_same n tile_markers l rs (or_intror eq_refl)) in HR. clear -HR HR'. revert rs' HR'.
    induction HR as [|x y ls ys H _ IH]; intros rs' HR'; inversion HR'; subst; [reflexivity|]. f_equal; [|now apply IH]. eapply gives_fun; eassumption. }
  destruct HT as ((k & T1 & T2) & T3 & T4 & T5 & T6 & T7). destruct HT' as ((k' & U1 & U2) & U3 & U4 & U5 & U6 & U7).
  rewrite <- Hv in U2. pose proof (reports_fun _ _ _ _ T2 U2) as <-. rewrite <- Hp in U3.
  assert (r' = r) as -> by (destruct r, r'; cbn in *; congruence). exact HG'.
Qed.

Definition ending (o : opts) (c : bytes) : list elt :=
  if bytes_eqb (sub (cs_second c) 0 2) m_SIZ then cs_props2 (o_format o) c else [].
Lemma cs_same t1 t2 st1 cz1 st2 cz2 c l rest ps r1 : boxTypeOf t1 = "contiguousCodestreamBox" -> boxTypeOf t2 = "contiguousCodestreamBox" ->
  after m_SOT (cs_second c) l rest -> parts c rest ps -> gives E o1 t1 c st1 cz1 r1 ->
  exists r2, gives E o2 t2 c st2 cz2 r2 /\ ekids (r_tests r2) = ekids (r_tests r1) /\ ekids (r_warns r2) = ekids (r_warns r1) /\
    r_valid r2 = r_valid r1 /\ exists k, ekids (r_chars r1) = k ++ ending o1 c /\ ekids (r_chars r2) = k ++ ending o2 c.
Proof.
  intros Ht1 Ht2 HA HPS HG. unfold ending. destruct (bytes_eqb (sub (cs_second c) 0 2) m_SIZ) eqn:EB.
  - apply bytes_eqb_spec in EB.
    destruct (cs_gives E o1 t1 c st1 cz1 l rest ps r1 Ht1 EB HA HPS HG) as (cap & rz & rs & ts & (_ & HCAP & _ & _ & HZ & _ & HR & HT & HC)).
    pose proof (segs_same (cs_csiz c) main_markers l rs (or_introl eq_refl) HR) as HR2.
    assert (HT2 : Forall2 (tile_of E o2 c (cs_csiz c)) ps ts).
    { assert (HX : forall p, In p ps -> 0 <= p /\ sub c p 2 = m_SOT).
      { intros p HI. destruct rest as [s|]; [|cbn in HPS; subst ps; destruct HI]. exact (chain_at _ _ _ _ HPS p HI). }
      clear -HT HX Hseg Hsot Hv Hp. induction HT as [|p r ps ts H _ IH]; constructor.
      - destruct (HX p (or_introl eq_refl)). now apply tile_same.
      - apply IH. intros q Hq. apply HX. now right. }
    destruct (cs_fwd E o2 t2 c st2 cz2 cap l rest ps rs ts Ht2 EB HCAP HA HPS HR2 HT2) as (rz2 & r2 & HG2 & (_ & _ & _ & _ & HZ2 & _ & _ & _ & HC2)).
    assert (rz2 = rz) as -> by (eapply gives_fun; [exact HZ2|]; apply Hseg; [now left|exact HZ]).
    destruct HC as ((k1 & k2 & k3 & T1 & R1 & R2 & R3) & T2 & T3 & (b & T4 & T5) & _).
    destruct HC2 as ((j1 & j2 & j3 & U1 & S1 & S2 & S3) & U2 & U3 & (b2 & U4 & U5) & _).
    rewrite <- Hv in S1, S2, S3. pose proof (reports_fun _ _ _ _ R1 S1) as <-. pose proof (reports_fun _ _ _ _ R2 S2) as <-.
    pose proof (reports_fun _ _ _ _ R3 S3) as <-. rewrite <- Hp in U2.
    exists r2. split; [exact HG2|].
    assert (HK : ekids (r_tests r2) = ekids (r_tests r1)) by (rewrite T1, U1; reflexivity). split; [exact HK|]. split; [rewrite T3, U3; reflexivity|]. split.
    + rewrite T4, U4. f_equal. rewrite <- !anyFalse_spec in T5, U5. rewrite T1, anyFalse_node in T5. rewrite U1, anyFalse_node in U5.
      destruct b, b2; try reflexivity; exfalso; intuition congruence.
    + clear -T2 U2. revert T2 U2. generalize (shown (o_packet o1) (treated main_markers l) rs) as S, (node "tileParts" (map r_chars ts)) as N,
        (leaves [("ppmCount", VInt (len (segs_of m_PPM l))); ("plmCount", VInt (len (segs_of m_PLM l)))]) as L,
        (cs_props2 (o_format o1) c) as e1, (cs_props2 (o_format o2) c) as e2, (charRoot t1) as g1, (charRoot t2) as g2.
      intros S N L e1 e2 g1 g2 -> ->. exists (r_chars rz :: S ++ L ++ [N]). rewrite <- !tail_out. split; reflexivity.
  - assert (HN : sub (cs_second c) 0 2 <> m_SIZ) by (intros HX; rewrite HX, bytes_eqb_refl in EB; discriminate).
    destruct HG as (f & d & HV). destruct d as [|d]; [discriminate|].
    destruct (cs_nosiz_ok E o1 f d t1 c st1 cz1 Ht1 HN) as (q1 & HV1 & ((k & T1 & R1) & T2 & T3 & T4 & _)). rewrite HV1 in HV. injection HV as ->.
    destruct (cs_nosiz_ok E o2 f d t2 c st2 cz2 Ht2 HN) as (q2 & HV2 & ((k' & U1 & S1) & U2 & U3 & U4 & _)).
    rewrite <- Hv in S1. pose proof (reports_fun _ _ _ _ R1 S1) as <-. exists q2. split; [now exists f, (S d)|].
    rewrite T1, U1, T2, U2, T3, U3, T4, U4. repeat split. now exists [].
Qed.
End Same.

Lemma seg_both E o1 o2 m x st cz r : pair (o_format o1) (o_format o2) -> others_same o1 o2 ->
  In m (m_SIZ :: map fst main_markers ++ map fst tile_markers) -> gives E o1 (BTb m) x st cz r <-> gives E o2 (BTb m) x st cz r.
Proof.
  intros HP HO HI. split; intros (f & d & HV); exists f, d; [rewrite <- (seg_same E o1 o2)|rewrite (seg_same E o1 o2)]; assumption.
Qed.
Lemma sot_both E o1 o2 x r : pair (o_format o1) (o_format o2) -> others_same o1 o2 ->
  gives E o1 (BTs "startOfTile") x VNone VNone r <-> gives E o2 (BTs "startOfTile") x VNone VNone r.
Proof.
  intros HP HO. split; intros (f & d & HV); exists f, d; [rewrite <- (sot_same E o1 o2)|rewrite (sot_same E o1 o2)]; assumption.
Qed.
