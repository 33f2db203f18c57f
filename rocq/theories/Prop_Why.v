(** * The reasons given for a verdict: C78 *)

From Coq Require Import ZArith List Bool String Lia.
From Coq Require Import Init.Byte.
From Verif Require Import Py ETree BV VSuper Spec SpecBox SpecMarker SpecIPL SpecWalk SpecSuper SpecCS SpecFile SpecTop SpecValid
     SpecText SpecOutcome SpecWhy CheckFile PBase PWalk PWrite PSeg PLeaf PEmit PLeaf2 PValid PTop PLoop PWhy Ex Prop_Top Prop_Tiles Prop_File Prop_Outcome Prop_Check.
Import ListNotations.
Open Scope string_scope.
Open Scope list_scope.
Open Scope Z_scope.
Notation failed := SpecWhy.failed.

(** The failed tests of the report on a file are exactly the requirements that are
    not met, each at its place; there is nothing else in the tests than outcomes.
    Verbose mode and the other options make no difference. *)
Theorem C78_file E op c r : len c < 2 ^ 53 -> (forall y, inbox c (t_jp2c, y) -> chained y) -> gives E op (BTs "JP2") c VNone VNone r ->
  every (fun _ v => v = VNone \/ exists b, v = VBool b) (r_tests r) /\ forall q, failed (r_tests r) q <-> file_wrong E (o_format op) c q.
Proof. intros HL HC HG. exact (file_why E op c r HL HC HG). Qed.
Theorem C78_codestream E op c r : chained c -> gives E op (BTs "contiguousCodestreamBox") c VNone VNone r ->
  every (fun _ v => v = VNone \/ exists b, v = VBool b) (r_tests r) /\ forall q, failed (r_tests r) q <-> cs_wrong E (o_format op) c q.
Proof. intros HC HG. exact (cs_why E op (BTs "contiguousCodestreamBox") c VNone VNone r eq_refl HC HG). Qed.

(** A verdict "not valid" always has a reason, and "valid" never has one. *)
Lemma some_failed e : anyFalse e = true -> etext e = VBool false \/ exists q, failed e q.
Proof.
  revert e. fix IH 1. intros [t a v k] H. cbn [anyFalse etext] in *. apply orb_true_iff in H as [H|H].
  - left. destruct v as [| [|] | | | |]; try discriminate. reflexivity.
  - right. assert (HX : exists x, In x k /\ (etext x = VBool false \/ exists q, failed x q)).
    { clear t a v. revert H. induction k as [|x k IHk]; [discriminate|]. cbn. intros H. apply orb_true_iff in H as [H|H].
      - exists x. split; [now left|]. now apply IH.
      - destruct (IHk H) as (y & Hy & HY). exists y. split; [now right|exact HY]. }
    destruct HX as (x & HI & [HV|(q & HQ)]); [exists [etag x]; now apply leads_here|exists (etag x :: q); now apply leads_below].
Qed.
Lemma none_failed e q : anyFalse e = false -> ~ failed e q.
Proof.
  intros H HF. rewrite anyFalse_spec in H. induction HF as [[t a v k] x HI HV|[t a v k] x q HI HF IH]; cbn [ekids] in HI.
  - apply (H x); [|exact HV]. apply within_kid with x; [exact HI|apply within_self].
  - apply IH. intros y Hy. apply H. now apply within_kid with x.
Qed.
Lemma verdict_reasons E op t c r : boxTypeOf t = "contiguousCodestreamBox" \/ boxTypeOf t = "JP2" -> gives E op t c VNone VNone r ->
  (r_valid r = VBool true /\ forall q, ~ failed (r_tests r) q) \/ (r_valid r = VBool false /\ exists q, failed (r_tests r) q).
Proof.
  intros Ht HG. destruct (C10_verdict E op t c VNone VNone r Ht HG) as (b & HV & HB). rewrite HV. destruct b.
  - left. split; [reflexivity|]. intros q. apply none_failed. apply anyFalse_spec. now apply HB.
  - right. split; [reflexivity|]. destruct (anyFalse (r_tests r)) eqn:EA; [|apply anyFalse_spec in EA; apply HB in EA; discriminate].
    destruct (some_failed _ EA) as [HX|HX]; [|exact HX]. apply gives_node in HG as (k & HK). rewrite HK in HX. discriminate.
Qed.
Theorem C78_reason E op c r : len c < 2 ^ 53 -> (forall y, inbox c (t_jp2c, y) -> chained y) -> gives E op (BTs "JP2") c VNone VNone r ->
  (r_valid r = VBool true /\ forall q, ~ file_wrong E (o_format op) c q) \/ (r_valid r = VBool false /\ exists q, file_wrong E (o_format op) c q).
Proof.
  intros HL HC HG. destruct (C78_file E op c r HL HC HG) as (_ & HQ).
  destruct (verdict_reasons E op (BTs "JP2") c r (or_intror eq_refl) HG) as [(HV & H)|(HV & q & H)]; [left|right]; (split; [exact HV|]).
  - intros q Hq. apply (H q). now apply HQ.
  - exists q. now apply HQ.
Qed.
Theorem C78_reason_codestream E op c r : chained c -> gives E op (BTs "contiguousCodestreamBox") c VNone VNone r ->
  (r_valid r = VBool true /\ forall q, ~ cs_wrong E (o_format op) c q) \/ (r_valid r = VBool false /\ exists q, cs_wrong E (o_format op) c q).
Proof.
  intros HC HG. destruct (C78_codestream E op c r HC HG) as (_ & HQ).
  destruct (verdict_reasons E op (BTs "contiguousCodestreamBox") c r (or_introl eq_refl) HG) as [(HV & H)|(HV & q & H)]; [left|right]; (split; [exact HV|]).
  - intros q Hq. apply (H q). now apply HQ.
  - exists q. now apply HQ.
Qed.

(** The same for the report that is printed: where the analysis succeeded, the tests
    that show "False" are these. *)
Definition ended_well (rep : elt) : Prop := findElementText ["statusInfo"; "success"] rep = VStr (pys "True").
Definition what_is_wrong (E : env) (fmt : string) (c : bytes) (q : list string) : Prop :=
  (In fmt ["jp2"; "jph"] /\ file_wrong E fmt c q) \/ (In fmt ["j2c"; "jhc"] /\ cs_wrong E fmt c q).
Theorem C78_report E fuel depth path fo o size mtime c rep : env_ok E -> fo_size fo = Ok size -> fo_mtime fo = Ok mtime ->
  fo_map fo = Mapped c -> len c < 2 ^ 53 -> chained c -> (forall y, inbox c (t_jp2c, y) -> chained y) ->
  checkOneFile E fuel depth path fo o 0 = Ok rep -> ended_well rep ->
  exists tests, In tests (ekids rep) /\ etag tests = "tests" /\
    forall q, leads (VStr (pys "False")) tests q <-> what_is_wrong E (o_format o) c q.
Proof.
  intros HE H1 H2 HM HL HC0 HC HR HW. destruct (C20_report E fuel depth path fo o size mtime HE H1 H2)
    as [(v & T & P & W & HX & HA)|[(e' & HX & _)|(HX & _)]]; rewrite HX in HR; [|injection HR as <-; discriminate HW|discriminate].
  injection HR as <-. exists (node "tests" T). split; [cbn; tauto|]. split; [reflexivity|].
  destruct HA as (b & w & t & r & W0 & HB & HT & HV & _ & HS & _). rewrite HM in HB. inversion HB; subst b w.
  assert (HG : gives E o t c VNone VNone r) by now exists fuel, depth. intros q.
  destruct HT as [(HF & ->)|(HF & ->)].
  - destruct (C78_file E o c r HL HC HG) as (HP & HQ). rewrite <- (plain_shown _ _ _ _ HP HS q). fold (failed (r_tests r) q). rewrite HQ.
    unfold what_is_wrong. split; [auto|]. intros [(_ & H)|(HF' & _)]; [exact H|exfalso; cbn in HF, HF'; intuition congruence].
  - destruct (C78_codestream E o c r HC0 HG) as (HP & HQ). rewrite <- (plain_shown _ _ _ _ HP HS q). fold (failed (r_tests r) q). rewrite HQ.
    unfold what_is_wrong. split; [auto|]. intros [(HF' & _)|(_ & H)]; [exfalso; cbn in HF, HF'; intuition congruence|exact H].
Qed.

(** A file with a wrong compression type in the image header, and without the marker
    at the end of the codestream (which is also missed by the last tile part). *)
Definition ex_open : bytes := sub ex_cs 0 82 ++ [xd8].
Definition ex_two : bytes := sub ex_bad 0 (len ex_bad - 1) ++ [xd8].
Lemma open_chained : chained ex_open.
Proof.
  apply no_bad_chained. intros p (Hp & HM & _ & HB).
  assert (HL : p < 83).
  { destruct (Z_lt_le_dec p 83) as [L|L]; [exact L|]. exfalso. unfold sub in HM.
    rewrite skipn_all2 in HM by (change (List.length ex_open) with 83%nat; lia). discriminate. }
  assert (HA : forallb (fun n => negb (bytes_eqb (firstn 2 (skipn n ex_open)) m_SOT) || (n =? 65)%nat) (seq 0 83) = true) by now vm_compute.
  rewrite forallb_forall in HA. specialize (HA (Z.to_nat p)). rewrite in_seq in HA. specialize (HA ltac:(lia)).
  unfold sub in HM. change (Z.to_nat 2) with 2%nat in HM. rewrite HM in HA. cbn [negb orb] in HA. apply PeanoNat.Nat.eqb_eq in HA.
  assert (p = 65) as -> by lia. now vm_compute in HB.
Qed.
Lemma two_splits : splits ex_two [(t_sig, skipn 8 ex_sig); (t_ftyp, skipn 8 ex_ftyp); (t_jp2h, sub ex_two 40 37); (t_jp2c, ex_open)] /\
  splits (sub ex_two 40 37) [(t_ihdr, sub ex_two 48 14); (t_colr, sub ex_two 70 7)].
Proof. split; repeat (eapply splits_step; [reflexivity..|discriminate|reflexivity|]); constructor. Qed.
Example C78_ex : (forall y, inbox ex_two (t_jp2c, y) -> chained y) /\
  forall q, file_wrong E0 "jp2" ex_two q <->
    q = ["jp2HeaderBox"; "imageHeaderBox"; "cIsValid"] \/ q = ["contiguousCodestreamBox"; "foundEOCMarker"] \/
    q = ["contiguousCodestreamBox"; "tileParts"; "tilePart"; "foundNextTilePartOrEOC"].
Proof.
  assert (HC : forall y, inbox ex_two (t_jp2c, y) -> chained y).
  { intros y Hy. destruct two_splits as (HS & HH). apply (inbox_inv _ _ _ HS) in Hy. destruct Hy as [Hb|(s & z & H1 & H2 & H3)].
    - destruct Hb as [Hb|[Hb|[Hb|[Hb|[]]]]]; try discriminate Hb. injection Hb as <-. exact open_chained.
    - destruct H1 as [H1|[H1|[H1|[H1|[]]]]]; injection H1 as <- <-; try (cbv in H2; intuition discriminate).
      apply (inbox_inv _ _ _ HH) in H3. destruct H3 as [[H3|[H3|[]]]|(s' & y' & H4 & H5 & H6)]; try discriminate H3.
      destruct H4 as [H4|[H4|[]]]; injection H4 as <- <-; cbv in H5; intuition discriminate. }
  split; [exact HC|]. intros q.
  destruct (validate E0 (op "jp2" false) 100 4 (BTs "JP2") ex_two VNone VNone) as [r| |] eqn:HV; [|now vm_compute in HV..].
  destruct (C78_file E0 (op "jp2" false) ex_two r ltac:(now vm_compute) HC) as (_ & HQ); [now exists 100%nat, 4%nat|].
  rewrite <- (HQ q). vm_compute in HV. injection HV as <-. cbn [r_tests].
  change (SpecWhy.failed (node "tests" [node "jp2HeaderBox" [node "imageHeaderBox" [leaf "cIsValid" (VBool false)]];
     node "contiguousCodestreamBox" [node "tileParts" [node "tilePart" [leaf "foundNextTilePartOrEOC" (VBool false)]]; leaf "foundEOCMarker" (VBool false)]]) q <-> q = ["jp2HeaderBox"; "imageHeaderBox"; "cIsValid"] \/ q = ["contiguousCodestreamBox"; "foundEOCMarker"] \/
    q = ["contiguousCodestreamBox"; "tileParts"; "tilePart"; "foundNextTilePartOrEOC"]).
  assert (HLF : forall n q, kfailed [leaf n (VBool false)] q -> q = [n]).
  { intros n q' H. apply kfailed_one in H as [(-> & _)|(q2 & _ & H)]; [reflexivity|]. apply failed_kids in H. now apply kfailed_nil in H. }
  split.
  - intros H. apply failed_kids in H. apply kfailed_cons in H as [H|H].
    + left. apply kfailed_node in H as (q1 & -> & H). apply kfailed_node in H as (q2 & -> & H). apply HLF in H. now subst q2.
    + right. apply kfailed_node in H as (q1 & -> & H). apply kfailed_cons in H as [H|H].
      * right. apply kfailed_node in H as (q2 & -> & H). apply kfailed_node in H as (q3 & -> & H). apply HLF in H. now subst q3.
      * left. apply HLF in H. now subst q1.
  - intros [-> |[-> | ->]].
    + eapply (leads_below _ _ (node "jp2HeaderBox" _)); [now left|]. eapply (leads_below _ _ (node "imageHeaderBox" _)); [now left|].
      apply (leads_here _ _ (leaf "cIsValid" (VBool false))); [now left|reflexivity].
    + eapply (leads_below _ _ (node "contiguousCodestreamBox" _)); [right; now left|].
      apply (leads_here _ _ (leaf "foundEOCMarker" (VBool false))); [right; now left|reflexivity].
    + eapply (leads_below _ _ (node "contiguousCodestreamBox" _)); [right; now left|].
      eapply (leads_below _ _ (node "tileParts" _)); [now left|]. eapply (leads_below _ _ (node "tilePart" _)); [now left|].
      apply (leads_here _ _ (leaf "foundNextTilePartOrEOC" (VBool false))); [now left|reflexivity].
Qed.

Definition all_theorems := (C78_file, C78_codestream, C78_reason, C78_reason_codestream, C78_report).
Print Assumptions all_theorems.
