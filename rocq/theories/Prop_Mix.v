(** * NISO MIX output: C51, C52, C53 *)

From Coq Require Import ZArith List Bool String Lia.
From Coq Require Import Init.Byte.
From Coq Require Import ZifyBool.
From Verif Require Import Py PyFloat ByteConv ETree BV VSuper Remap Mix CheckFile Spec SpecText SpecBox SpecMarker SpecWalk SpecSuper SpecCS SpecFile SpecTop SpecValid
     PBase PText PHuman Ex PSuper PTop PFile PValid Prop_File Prop_Top Prop_Check.
Import ListNotations.
Open Scope string_scope.
Open Scope list_scope.
Open Scope Z_scope.

(** ** C51: when there is MIX output *)
Lemma mix_not_diverge isspace mf p : generateMix isspace mf p <> Diverge.
Proof.
  assert (HT : forall q e, textAt q e <> Diverge) by (intros q e; unfold textAt; destruct (ETree.find q e); discriminate).
  assert (HS : forall v, strip isspace v <> Diverge) by (intros []; discriminate).
  assert (HF : forall v, floatOf v <> Diverge) by (intros []; cbn; try discriminate; destruct (parse_float _); discriminate).
  assert (HI : forall f, intOf f <> Diverge) by (intros []; discriminate).
  assert (HB : forall A B (x : res A) (f : A -> res B), x <> Diverge -> (forall a, f a <> Diverge) -> rbind x f <> Diverge)
    by (intros A B x f H1 H2; destruct x; cbn; auto; discriminate).
  assert (HR : forall r q t, findValueInRDF r q t <> Diverge).
  { intros r q t. unfold findValueInRDF. destruct (ETree.find [q; t] r); [discriminate|]. destruct (ETree.find [q] r); [|discriminate].
    destruct (attrGet _ _) as [[|]|]; discriminate. }
  assert (HA : forall r q t d, addIfExist isspace r q t d <> Diverge).
  { intros r q t d. unfold addIfExist. apply HB; [apply HR|]. intros []; try discriminate; (apply HB; [apply HS|discriminate]). }
  assert (HJ : forall l, joinComma l <> Diverge).
  { induction l as [|v l IH]; [discriminate|]. destruct v; try discriminate. cbn. destruct l; [discriminate|].
    destruct v; cbn; try discriminate; (apply HB; [exact IH|discriminate]). }
  assert (HQ : forall b t, freq b t <> Diverge) by (intros b t; unfold freq; apply HB; [apply HT|intros a]; apply HB; [apply HF|intros ?; apply HI]).
  unfold generateMix. apply HB; [|intros b1; apply HB; [|intros b2; apply HB; [|intros b3; apply HB; [|discriminate]]]].
  - unfold mixBDOI. apply HB; [destruct (ETree.find _ p); [apply HB; [apply HS|discriminate]|discriminate]|]. intros a.
    apply HB; [apply HT|]. intros a2. apply HB; [apply HT|]. intros a3. apply HB; [apply HF|]. intros a4.
    destruct (mf =? 1); (apply HB; [apply HI|discriminate]).
  - unfold mixBII. apply HB; [apply HT|]. intros a1. apply HB; [apply HT|]. intros a2. apply HB.
    + destruct (ETree.find _ p) as [[? ? ? [|]]|]; (apply HB; [apply HT|]; intros a3; apply HB; [apply HS|]; try discriminate).
      intros a4. apply HB; [apply HT|discriminate].
    + intros a3. apply HB; [destruct (ETree.find _ p) as [c|]; [|discriminate]; destruct (etext c); try discriminate; destruct (searchCodec _) as [[]|]; discriminate|].
      intros a4. apply HB; [apply HT|]. intros a5. apply HB; [apply HT|]. intros a6. apply HB; [apply HT|]. intros a7. apply HB; [apply HT|]. discriminate.
  - unfold mixICM. destruct (mf =? 0); [discriminate|]. destruct (match truthy _ with Some r => _ | None => _ end); [|discriminate].
    apply HB; [apply HA|intros ?]. apply HB; [apply HA|intros ?]. apply HB; [apply HA|intros ?]. apply HB; [apply HA|intros ?]. apply HB; [apply HA|intros ?].
    apply HB; [apply HR|intros tool]. apply HB; [|discriminate]. destruct tool; try discriminate. destruct (searchTool _) as [[]|]; discriminate.
  - unfold mixIAM. apply HB; [|intros n; destruct (ETree.find _ p); [|discriminate]].
    + destruct (ETree.find _ p); [|destruct (ETree.find _ p); [|discriminate]]; (apply HB; [apply HQ|intros ?]; apply HB; [apply HQ|discriminate]).
    + apply HB; [destruct (mf =? 1); [apply HB; [apply HJ|discriminate]|discriminate]|]. intros ?. apply HB; [apply HT|discriminate].
Qed.
Lemma mix_tag isspace mf p m : generateMix isspace mf p = Ok m -> etag m = "mix:mix".
Proof.
  unfold generateMix. destruct (mixBDOI _ _ _); try discriminate. cbn [rbind]. destruct (mixBII _ _ _); try discriminate. cbn [rbind].
  destruct (mixICM _ _ _); try discriminate. cbn [rbind]. destruct (mixIAM _ _); try discriminate. cbn [rbind]. intros H. now injection H as <-.
Qed.

(** What the extra flag changes: a report gets an element propertiesExtension before
    the warnings; it holds one MIX element if the file is valid and the format is jp2
    or jph, and nothing otherwise. *)
Theorem C51_extension E fuel depth path fo o size mtime mf rep : env_ok E -> fo_size fo = Ok size -> fo_mtime fo = Ok mtime ->
  mf <> 0 -> checkOneFile E fuel depth path fo o mf = Ok rep ->
  exists st v T P W ext, checkOneFile E fuel depth path fo o 0 = Ok (report fo o size mtime st v T P [] W) /\
    rep = report fo o size mtime st v T P [node "propertiesExtension" ext] W /\ In v ["True"; "False"] /\
    ((v = "True" /\ In (o_format o) ["jp2"; "jph"] /\ exists m, ext = [m] /\ generateMix (isspace E) mf (node "properties" P) = Ok m /\ etag m = "mix:mix") \/
     (~ (v = "True" /\ In (o_format o) ["jp2"; "jph"]) /\ ext = [])).
Proof.
  intros HE H1 H2 HM. unfold checkOneFile. rewrite H1, H2. cbn [rbind].
  replace (mf =? 0) with false by lia. cbn [Z.eqb negb andb rbind].
  pose proof (analyse_spec E fuel depth path (fo_map fo) o HE) as HS.
  assert (HF : (String.eqb (o_format o) "jp2" || String.eqb (o_format o) "jph") = true <-> In (o_format o) ["jp2"; "jph"]).
  { rewrite orb_true_iff, !String.eqb_eq. cbn. intuition. }
  destruct (analyse E fuel depth path (fo_map fo) o) as [a|e|]; [| |discriminate].
  - destruct HS as (v & T & P & W & -> & -> & -> & -> & HS). cbn [truth].
    destruct v.
    + destruct (generateMix (isspace E) mf (node "properties" P)) as [m|e|] eqn:EM; try discriminate. cbn [rbind].
      intros HR. injection HR as <-. rewrite andb_true_r. destruct (_ || _) eqn:EF.
      * exists succeeded, "True", T, P, W, [m]. split; [reflexivity|]. split; [reflexivity|]. split; [cbn; auto|]. left. split; [reflexivity|]. split; [now apply HF|].
        exists m. split; [reflexivity|]. split; [exact EM|]. now apply (mix_tag _ _ _ _ EM).
      * exists succeeded, "True", T, P, W, []. split; [reflexivity|]. split; [reflexivity|]. split; [cbn; auto|]. right. split; [|reflexivity].
        intros (_ & HX). apply HF in HX. congruence.
    + cbn [rbind]. intros HR. injection HR as <-. rewrite andb_false_r. exists succeeded, "False", T, P, W, []. split; [reflexivity|]. split; [reflexivity|]. split; [cbn; auto|]. right. split; [|reflexivity]. now intros (? & _).
  - cbn [truth rbind]. intros HR. injection HR as <-. rewrite andb_false_r, failure_message.
    exists (failed_with (message e)), "False", [], [], [leaf "warning" (VStr (pys (message e)))], []. split; [reflexivity|]. split; [reflexivity|]. split; [cbn; auto|]. right. split; [|reflexivity]. now intros (? & _).
Qed.
Print Assumptions C51_extension.
(** Without the flag there is no extension. *)
Theorem C51_off E fuel depth path fo o size mtime rep : env_ok E -> fo_size fo = Ok size -> fo_mtime fo = Ok mtime ->
  checkOneFile E fuel depth path fo o 0 = Ok rep -> findall ["propertiesExtension"] rep = [].
Proof.
  intros HE H1 H2 HR. destruct (C20_report E fuel depth path fo o size mtime HE H1 H2)
    as [(v & T & P & W & HX & HA)|[(e' & HX & HA)|(HX & _)]]; rewrite HX in HR; [injection HR as <-; reflexivity|injection HR as <-; reflexivity|discriminate].
Qed.
Print Assumptions C51_off.
Example C51_ex :
  (match checkOneFile E0 100 10 (pys "a") (ex_fo (Mapped ex_file)) (op "jp2" false) 1 with
   | Ok r => map etag (findall ["propertiesExtension"; "mix:mix"] r) = ["mix:mix"] /\ says_valid r | _ => False end) /\
  (match checkOneFile E0 100 10 (pys "a") (ex_fo MapEmpty) (op "jp2" false) 1 with
   | Ok r => findall ["propertiesExtension"] r = [node "propertiesExtension" []] /\ ~ says_valid r | _ => False end).
Proof. split; vm_compute; (split; [reflexivity|]); [reflexivity|discriminate]. Qed.

(** ** C52: MIX values are those of the properties *)
Definition width_path := ["jp2HeaderBox"; "imageHeaderBox"; "width"].
Definition height_path := ["jp2HeaderBox"; "imageHeaderBox"; "height"].
Definition mixBIC := ["mix:BasicImageInformation"; "mix:BasicImageCharacteristics"].
Definition mixENC := ["mix:BasicImageInformation"; "mix:SpecialFormatCharacteristics"; "mix:JPEG2000"; "mix:EncodingOptions"].
Definition mixICE := ["mix:ImageAssessmentMetadata"; "mix:ImageColorEncoding"].
Fixpoint comma (l : list pystr) : pystr :=
  match l with [] => [] | [s] => s | s :: r => s ++ pys "," ++ comma r end.
(** [p] has a node at [q], the first of them with text [s]. *)
Definition has_text (p : elt) (q : list string) (s : pystr) : Prop :=
  exists x, ETree.find q p = Some x /\ etext x = VStr s.
Lemma textAt_ok q p v : textAt q p = Ok v -> exists x, ETree.find q p = Some x /\ etext x = v.
Proof. unfold textAt. destruct (ETree.find q p) as [x|]; [|discriminate]. intros H. injection H as <-. eauto. Qed.
Lemma join_comma l s : joinComma l = Ok s -> exists ss, l = map VStr ss /\ s = comma ss.
Proof.
  revert s. induction l as [|v l IH]; intros s H; [injection H as <-; now exists []|]. destruct v as [| | | | |a]; try discriminate.
  cbn in H. destruct l as [|v' l']; [injection H as <-; now exists [a]|]. set (l := v' :: l') in *.
  assert (HX : exists t, joinComma l = Ok t /\ s = a ++ pys "," ++ t).
  { unfold l in *. destruct v'; cbn in H; try discriminate.
    destruct (joinComma (VStr s0 :: l')) as [t| |] eqn:EJ; cbn in EJ, H; rewrite EJ in H; try discriminate. cbn in H. injection H as <-. eauto. }
  destruct HX as (t & HJ & ->). destruct (IH t HJ) as (ss & HL & ->). exists (a :: ss). split; [unfold l in *; rewrite HL; reflexivity|].
  destruct ss; [discriminate HL|reflexivity].
Qed.

(** The three parts of the output are found under their names. *)
Lemma mix_parts isspace mf p m : generateMix isspace mf p = Ok m -> exists bdoi bii iam,
  mixBDOI isspace mf p = Ok bdoi /\ mixBII isspace mf p = Ok bii /\ mixIAM mf p = Ok iam /\
  (forall q, findall ("mix:BasicDigitalObjectInformation" :: q) m = findall q bdoi) /\
  (forall q, findall ("mix:BasicImageInformation" :: q) m = findall q bii) /\
  (forall q, findall ("mix:ImageAssessmentMetadata" :: q) m = findall q iam).
Proof.
  unfold generateMix.
  destruct (mixBDOI isspace mf p) as [bdoi| |] eqn:EB; try discriminate. cbn [rbind].
  destruct (mixBII isspace mf p) as [bii| |] eqn:EI; try discriminate. cbn [rbind].
  destruct (mixICM isspace mf p) as [icm| |] eqn:EC; try discriminate. cbn [rbind].
  destruct (mixIAM mf p) as [iam| |] eqn:EA; try discriminate. cbn [rbind]. intros H. injection H as <-.
  assert (T1 : etag bdoi = "mix:BasicDigitalObjectInformation").
  { clear -EB. unfold mixBDOI in EB. repeat (match type of EB with rbind ?x _ = _ => destruct x; try discriminate; cbn [rbind] in EB end).
    destruct (mf =? 1); (repeat (match type of EB with rbind ?x _ = _ => destruct x; try discriminate; cbn [rbind] in EB end)); injection EB as <-; reflexivity. }
  assert (T2 : etag bii = "mix:BasicImageInformation").
  { clear -EI. unfold mixBII in EI. repeat (match type of EI with rbind ?x _ = _ => destruct x; try discriminate; cbn [rbind] in EI end). injection EI as <-. reflexivity. }
  assert (T3 : match truthy icm with Some x => etag x = "mix:ImageCaptureMetadata" | None => True end).
  { clear -EC. unfold mixICM in EC. destruct (mf =? 0); [injection EC as <-; exact I|].
    destruct (match truthy _ with Some r => _ | None => _ end); [|injection EC as <-; exact I].
    repeat (match type of EC with rbind ?x _ = _ => destruct x; try discriminate; cbn [rbind] in EC end). injection EC as <-. reflexivity. }
  assert (T4 : etag iam = "mix:ImageAssessmentMetadata").
  { clear -EA. unfold mixIAM in EA. match type of EA with rbind ?x _ = _ => destruct x; try discriminate; cbn [rbind] in EA end.
    destruct (ETree.find _ p); try discriminate. repeat (match type of EA with rbind ?x _ = _ => destruct x; try discriminate; cbn [rbind] in EA end). injection EA as <-. reflexivity. }
  exists bdoi, bii, iam. repeat split; intros q; cbn [findall ekids app filter];
    rewrite T1, T2; (destruct (truthy icm) as [x|]; cbn [app filter]; [rewrite T3|]); rewrite T4; cbn [String.eqb Ascii.eqb Bool.eqb flat_map]; apply app_nil_r.
Qed.
Lemma has_strText q e v s : textAt q e = Ok v -> has_text e q s -> v = VStr s.
Proof. intros H1 (x & H2 & H3). apply textAt_ok in H1 as (x' & H1 & <-). rewrite H2 in H1. injection H1 as <-. exact H3. Qed.
Definition siz_path := ["contiguousCodestreamBox"; "siz"].
Definition cod_path := ["contiguousCodestreamBox"; "cod"].
(** The text of an optional element: none when the property is the text 0. *)
Definition unless0 (s : pystr) : list value := if pystr_eqb s (pys "0") then [] else [VStr s].
Lemma bii_values isspace mf p b : mixBII isspace mf p = Ok b ->
  exists w h tx ty ly lv,
  textAt width_path p = Ok w /\ textAt height_path p = Ok h /\ textAt (siz_path ++ ["xTsiz"]) p = Ok tx /\ textAt (siz_path ++ ["yTsiz"]) p = Ok ty /\
  textAt (cod_path ++ ["layers"]) p = Ok ly /\ textAt (cod_path ++ ["levels"]) p = Ok lv /\
  findAllText ["mix:BasicImageCharacteristics"; "mix:imageWidth"] b = [VStr (strText w)] /\
  findAllText ["mix:BasicImageCharacteristics"; "mix:imageHeight"] b = [VStr (strText h)] /\
  (mf = 1 -> findAllText (tl mixENC ++ ["mix:tiles"]) b = [VStr (strText tx ++ pys "x" ++ strText ty)]) /\
  (mf <> 1 -> findAllText (tl mixENC ++ ["mix:Tiles"; "mix:tileWidth"]) b = [VStr (strText tx)]) /\
  (mf <> 1 -> findAllText (tl mixENC ++ ["mix:Tiles"; "mix:tileHeight"]) b = [VStr (strText ty)]) /\
  findAllText (tl mixENC ++ ["mix:qualityLayers"]) b = unless0 (strText ly) /\
  findAllText (tl mixENC ++ ["mix:resolutionLevels"]) b = unless0 (strText lv).
Proof.
  unfold mixBII. change (["jp2HeaderBox"; "imageHeaderBox"; "width"]) with width_path. change (["jp2HeaderBox"; "imageHeaderBox"; "height"]) with height_path.
  change (["contiguousCodestreamBox"; "siz"; "xTsiz"]) with (siz_path ++ ["xTsiz"]). change (["contiguousCodestreamBox"; "siz"; "yTsiz"]) with (siz_path ++ ["yTsiz"]).
  change (["contiguousCodestreamBox"; "cod"; "layers"]) with (cod_path ++ ["layers"]). change (["contiguousCodestreamBox"; "cod"; "levels"]) with (cod_path ++ ["levels"]).
  intros EI.
  destruct (textAt width_path p) as [w| |]; try discriminate; cbn [rbind] in EI.
  destruct (textAt height_path p) as [h| |]; try discriminate; cbn [rbind] in EI.
  match type of EI with rbind ?x _ = _ => destruct x as [pi| |]; try discriminate; cbn [rbind] in EI end.
  match type of EI with rbind ?x _ = _ => destruct x as [codec| |] eqn:ECO; try discriminate; cbn [rbind] in EI end.
  destruct (textAt (siz_path ++ ["xTsiz"]) p) as [tx| |]; try discriminate; cbn [rbind] in EI.
  destruct (textAt (siz_path ++ ["yTsiz"]) p) as [ty| |]; try discriminate; cbn [rbind] in EI.
  destruct (textAt (cod_path ++ ["layers"]) p) as [ly| |]; try discriminate; cbn [rbind] in EI.
  destruct (textAt (cod_path ++ ["levels"]) p) as [lv| |]; try discriminate; cbn [rbind] in EI.
  injection EI as <-. exists w, h, tx, ty, ly, lv. do 6 (split; [reflexivity|]). split; [reflexivity|]. split; [reflexivity|].
  assert (TC : codec = [] \/ exists l, codec = [node "mix:CodecCompliance" l]).
  { clear -ECO. destruct (ETree.find _ p) as [c|]; [|injection ECO as <-; now left]. destruct (etext c); try discriminate.
    destruct (searchCodec _) as [[]|]; injection ECO as <-; eauto. }
  unfold unless0. destruct TC as [-> |(l & ->)]; destruct (Z.eqb_spec mf 1) as [HF|HF]; (destruct (pystr_eqb (strText ly) _); destruct (pystr_eqb (strText lv) _));
    repeat split; intros; try (exfalso; tauto); reflexivity.
Qed.
Lemma iam_values mf p b : mixIAM mf p = Ok b ->
  exists z num, ETree.find siz_path p = Some z /\ textAt ["csiz"] z = Ok num /\
  findAllText ["mix:ImageColorEncoding"; "mix:samplesPerPixel"] b = [num] /\
  (mf = 1 -> exists ss, findAllText ["ssizDepth"] z = map VStr ss /\
             findAllText ["mix:ImageColorEncoding"; "mix:bitsPerSample"; "mix:bitsPerSampleValue"] b = [VStr (comma ss)]) /\
  (mf <> 1 -> findAllText ["mix:ImageColorEncoding"; "mix:BitsPerSample"; "mix:bitsPerSampleValue"] b = findAllText ["ssizDepth"] z).
Proof.
  unfold mixIAM. change (["contiguousCodestreamBox"; "siz"]) with siz_path. intros EA.
  match type of EA with rbind ?x _ = _ => destruct x as [nums| |]; try discriminate; cbn [rbind] in EA end.
  destruct (ETree.find siz_path p) as [z|] eqn:EZ; [|discriminate].
  match type of EA with rbind ?x _ = _ => destruct x as [bps| |] eqn:EBP; try discriminate; cbn [rbind] in EA end.
  destruct (textAt ["csiz"] z) as [num| |] eqn:ENM; try discriminate; cbn [rbind] in EA. injection EA as <-.
  exists z, num. split; [reflexivity|]. split; [exact ENM|].
  match goal with |- context [node "mix:ImageAssessmentMetadata" ?l] =>
    assert (HS : forall q, findall ("mix:ImageColorEncoding" :: q) (node "mix:ImageAssessmentMetadata" l)
       = findall q (node "mix:ImageColorEncoding" [bps; leaf "mix:samplesPerPixel" num])) end.
  { intros q. destruct nums as [(x, y)|]; cbn [findall ekids app filter node etag String.eqb Ascii.eqb Bool.eqb flat_map]; apply app_nil_r. }
  unfold findAllText. rewrite !HS.
  destruct (Z.eqb_spec mf 1) as [HF|HF].
  - destruct (joinComma _) as [s| |] eqn:EJ; try discriminate. injection EBP as <-. split; [reflexivity|]. split; [|intros HX; exfalso; tauto].
    intros _. destruct (join_comma _ _ EJ) as (ss & H1 & ->). exists ss. split; [exact H1|]. reflexivity.
  - injection EBP as <-. split; [reflexivity|]. split; [intros HX; exfalso; tauto|]. intros _.
    change (map etext (findall ["ssizDepth"] z)) with (findAllText ["ssizDepth"] z). generalize (findAllText ["ssizDepth"] z). intros vs.
    cbn [findall ekids filter node leaf etag String.eqb Ascii.eqb Bool.eqb flat_map]. rewrite app_nil_r.
    induction vs as [|v vs IH]; [reflexivity|]. cbn. now rewrite IH.
Qed.

(** Image size, tile size, layers, levels, number of components and bit depths: the
    MIX element repeats the texts of the properties. *)
Theorem C52_values isspace mf p m : generateMix isspace mf p = Ok m ->
  (forall s, has_text p width_path s -> findAllText (mixBIC ++ ["mix:imageWidth"]) m = [VStr s]) /\
  (forall s, has_text p height_path s -> findAllText (mixBIC ++ ["mix:imageHeight"]) m = [VStr s]) /\
  (forall sx sy, has_text p (siz_path ++ ["xTsiz"]) sx -> has_text p (siz_path ++ ["yTsiz"]) sy ->
     (mf = 1 -> findAllText (mixENC ++ ["mix:tiles"]) m = [VStr (sx ++ pys "x" ++ sy)]) /\
     (mf <> 1 -> findAllText (mixENC ++ ["mix:Tiles"; "mix:tileWidth"]) m = [VStr sx] /\
                 findAllText (mixENC ++ ["mix:Tiles"; "mix:tileHeight"]) m = [VStr sy])) /\
  (forall s, has_text p (cod_path ++ ["layers"]) s -> findAllText (mixENC ++ ["mix:qualityLayers"]) m = unless0 s) /\
  (forall s, has_text p (cod_path ++ ["levels"]) s -> findAllText (mixENC ++ ["mix:resolutionLevels"]) m = unless0 s) /\
  (exists z, ETree.find siz_path p = Some z /\
     (forall s, has_text z ["csiz"] s -> findAllText (mixICE ++ ["mix:samplesPerPixel"]) m = [VStr s]) /\
     (mf = 1 -> exists ss, findAllText ["ssizDepth"] z = map VStr ss /\
                findAllText (mixICE ++ ["mix:bitsPerSample"; "mix:bitsPerSampleValue"]) m = [VStr (comma ss)]) /\
     (mf <> 1 -> findAllText (mixICE ++ ["mix:BitsPerSample"; "mix:bitsPerSampleValue"]) m = findAllText ["ssizDepth"] z)).
Proof.
  intros HM. destruct (mix_parts _ _ _ _ HM) as (bdoi & bii & iam & _ & HB & HA & _ & F2 & F3).
  destruct (bii_values _ _ _ _ HB) as (w & h & tx & ty & ly & lv & E1 & E2 & E3 & E4 & E5 & E6 & G1 & G2 & G3 & G4 & G5 & G6 & G7).
  destruct (iam_values _ _ _ HA) as (z & num & EZ & EN & G8 & G9 & G10).
  assert (X2 : forall q, findAllText ("mix:BasicImageInformation" :: q) m = findAllText q bii) by (intros q; unfold findAllText; now rewrite F2).
  assert (X3 : forall q, findAllText ("mix:ImageAssessmentMetadata" :: q) m = findAllText q iam) by (intros q; unfold findAllText; now rewrite F3).
  unfold mixBIC, mixENC, mixICE. cbn [app]. rewrite !X2.
  repeat split.
  - intros s HS. rewrite (has_strText _ _ _ _ E1 HS) in G1. exact G1.
  - intros s HS. rewrite (has_strText _ _ _ _ E2 HS) in G2. exact G2.
  - intros HF. rewrite (has_strText _ _ _ _ E3 H), (has_strText _ _ _ _ E4 H0) in G3. now apply G3.
  - rewrite (has_strText _ _ _ _ E3 H) in G4. now apply G4.
  - rewrite (has_strText _ _ _ _ E4 H0) in G5. now apply G5.
  - intros s HS. rewrite (has_strText _ _ _ _ E5 HS) in G6. exact G6.
  - intros s HS. rewrite (has_strText _ _ _ _ E6 HS) in G7. exact G7.
  - exists z. split; [exact EZ|]. rewrite !X3. split; [|split].
    + intros s HS. rewrite (has_strText _ _ _ _ EN HS) in G8. exact G8.
    + intros HF. destruct (G9 HF) as (ss & A & B). exists ss. split; [exact A|]. exact B.
    + intros HF. now apply G10.
Qed.
Print Assumptions C52_values.

(** ** C52 on files *)
Lemma rel_findall P q : forall e e', rel P e e' -> Forall2 (rel P) (findall q e) (findall q e').
Proof.
  induction q as [|t q IH]; intros e e' H; [cbn; now constructor|].
  inversion H as [t0 a v v' k k' HP HK]; subst. cbn [findall ekids].
  induction HK as [|c c' k k' HC HK IHK]; [constructor|]. cbn [filter].
  assert (HT : etag c = etag c') by (inversion HC; reflexivity). rewrite <- HT.
  assert (HI : Forall2 (rel P) (flat_map (findall q) (filter (fun c0 : elt => (etag c0 =? t)%string) k))
                                (flat_map (findall q) (filter (fun c0 : elt => (etag c0 =? t)%string) k'))).
  { apply IHK. now constructor. }
  destruct (etag c =? t)%string; [|exact HI]. cbn [flat_map]. apply Forall2_app; [now apply IH|exact HI].
Qed.
Lemma shows_number catC limit tbl t z v : ~ In t (map fst tbl) -> shows catC limit tbl t (VInt z) v -> exists s, v = VStr s /\ decimal z s.
Proof.
  intros HN H. inversion H; subst; [|now eauto]. exfalso. apply HN.
  match goal with HD : described _ _ _ _ |- _ => destruct HD as (m & k & HI & _) end. apply in_map_iff. now exists (t, m).
Qed.
Definition plain_tag (t : string) : Prop := ~ In t (map fst propertiesRemapTable).
Lemma ptag t : In t ["width"; "height"; "xTsiz"; "yTsiz"; "csiz"; "ssizDepth"] -> plain_tag t.
Proof. unfold plain_tag. cbn. intuition (subst; discriminate). Qed.
Lemma numbers_shown E t ns l : plain_tag t ->
  Forall2 (rel (shows (catC E) (str_limit E) propertiesRemapTable)) (map (fun n => leaf t (VInt n)) ns) l ->
  exists ss, Forall2 decimal ns ss /\ map etext l = map VStr ss.
Proof.
  intros HT. revert l. induction ns as [|n ns IH]; intros l H; inversion H as [|? e ? l' HR HF]; subst; [now exists []|].
  destruct (IH l' HF) as (ss & H1 & H2). inversion HR as [t0 a v v' k k' HP HK]; subst.
  destruct (shows_number _ _ _ _ _ _ HT HP) as (s & -> & HD). exists (s :: ss). split; [now constructor|]. cbn. now rewrite H2.
Qed.
Lemma number_shown E q t n e e' : plain_tag t -> rel (shows (catC E) (str_limit E) propertiesRemapTable) e e' ->
  findall q e = [leaf t (VInt n)] -> exists s, decimal n s /\ has_text e' q s.
Proof.
  intros HT HR HF. apply (rel_findall _ q) in HR. rewrite HF in HR. change [leaf t (VInt n)] with (map (fun n => leaf t (VInt n)) [n]) in HR.
  destruct (numbers_shown E t [n] _ HT HR) as (ss & HD & HM). inversion HD as [|? s ? ? HS HN]; subst. inversion HN; subst.
  exists s. split; [exact HS|]. unfold has_text, find. destruct (findall q e') as [|x [|]]; try discriminate HM. cbn. exists x. split; [reflexivity|]. now injection HM.
Qed.
Lemma findall_app p q e : findall (p ++ q) e = flat_map (findall q) (findall p e).
Proof.
  revert e. induction p as [|t p IH]; intros e; [cbn; now rewrite app_nil_r|]. cbn [app findall].
  induction (filter _ (ekids e)) as [|c l IHl]; [reflexivity|]. cbn [flat_map]. now rewrite IH, IHl, flat_map_app.
Qed.

(** For a valid JP2 or JPH file the numbers in the MIX element are, in decimal, those
    stored in the image header box and in the SIZ segment. *)
Theorem C52_file E fuel depth path fo o size mtime mf rep c bs :
  env_ok E -> fo_size fo = Ok size -> fo_mtime fo = Ok mtime -> fo_map fo = Mapped c -> In (o_format o) ["jp2"; "jph"] ->
  mf <> 0 -> checkOneFile E fuel depth path fo o mf = Ok rep -> says_valid rep -> splits c bs ->
  exists hx hb x y ys, boxes_of t_jp2h bs = [hx] /\ splits hx hb /\ boxes_of t_ihdr hb = [x] /\ boxes_of t_jp2c bs = y :: ys /\
    let z := cs_siz y in
    let mix q := findAllText (["propertiesExtension"; "mix:mix"] ++ q) rep in
    (exists s, decimal (val x 4 4) s /\ mix (mixBIC ++ ["mix:imageWidth"]) = [VStr s]) /\
    (exists s, decimal (val x 0 4) s /\ mix (mixBIC ++ ["mix:imageHeight"]) = [VStr s]) /\
    (exists sx sy, decimal (val z 20 4) sx /\ decimal (val z 24 4) sy /\
       (mf = 1 -> mix (mixENC ++ ["mix:tiles"]) = [VStr (sx ++ pys "x" ++ sy)]) /\
       (mf <> 1 -> mix (mixENC ++ ["mix:Tiles"; "mix:tileWidth"]) = [VStr sx] /\
                   mix (mixENC ++ ["mix:Tiles"; "mix:tileHeight"]) = [VStr sy])) /\
    (exists s, decimal (val z 36 2) s /\ mix (mixICE ++ ["mix:samplesPerPixel"]) = [VStr s]) /\
    (exists ss, Forall2 decimal (map (fun i => cdepth (val z (38 + 3 * i) 1)) (zseq (val z 36 2))) ss /\
       (mf = 1 -> mix (mixICE ++ ["mix:bitsPerSample"; "mix:bitsPerSampleValue"]) = [VStr (comma ss)]) /\
       (mf <> 1 -> mix (mixICE ++ ["mix:BitsPerSample"; "mix:bitsPerSampleValue"]) = map VStr ss)).
Proof.
  intros HE H1 H2 HM HF Hmf HR HSV HS.
  destruct (C51_extension E fuel depth path fo o size mtime mf rep HE H1 H2 Hmf HR) as (st & v & T & P & W & ext & HR0 & -> & Hin & HX).
  assert (Hv : v = "True").
  { unfold says_valid in HSV. change (findElementText ["isValid"] (report fo o size mtime st v T P [node "propertiesExtension" ext] W)) with (VStr (pys v)) in HSV.
    destruct Hin as [<-|[<-|[]]]; [reflexivity|discriminate HSV]. }
  subst v. destruct HX as [(_ & _ & m & -> & HG & Hm)|(HX & _)]; [|tauto].
  assert (HMIX : forall q, findAllText (["propertiesExtension"; "mix:mix"] ++ q) (report fo o size mtime st "True" T P [node "propertiesExtension" [m]] W) = findAllText q m).
  { intros q. unfold findAllText. f_equal. unfold report. cbn [app findall ekids node leaf filter etag String.eqb Ascii.eqb Bool.eqb flat_map]. rewrite Hm. cbn. now rewrite !app_nil_r. }
  destruct (C20_report E fuel depth path fo o size mtime HE H1 H2) as [(v & T' & P' & W' & HX & HA)|[(e' & HX & _)|(HX & _)]];
    rewrite HX in HR0; [|injection HR0; discriminate|discriminate].
  destruct v; [|injection HR0; discriminate]. injection HR0 as _ <- <- <-.
  destruct HA as (b & w & t & r & W0 & HC & HT & HV & Hv & _ & HP & _). rewrite HM in HC. inversion HC; subst b w.
  destruct HT as [(_ & ->)|(HI & _)]; [|exfalso; cbn in HF, HI; intuition congruence].
  assert (HVAL : valid E o c) by (exists r; split; [now exists fuel, depth|exact Hv]).
  destruct (C37_consistent E o c bs HVAL HS) as (hx & hb & x & y & ys & B1 & B2 & B3 & B4 & _).
  exists hx, hb, x, y, ys. split; [exact B1|]. split; [exact B2|]. split; [exact B3|]. split; [exact B4|]. cbv zeta.
  assert (HH : headers bs [hb]) by (unfold headers; rewrite B1; now repeat constructor).
  destruct (jp2_gives E o c VNone VNone bs [hb] r HS HH) as (rs & HK & HROOT); [now exists fuel, depth|].
  apply (gives_all_at E o (fun b => BTb (fst b)) snd (fun _ => VNone) (fun _ => VNone) bs rs O O) in HK as (f & d & _ & _ & HK).
  destruct HROOT as ((_ & HRC & _) & _).
  destruct (kids_jp2h E o f d bs rs [hb] HK HH) as (K1 & _). cbn [flat_map] in K1. rewrite B3 in K1.
  assert (HSIZ : file_siz bs = Some (cs_siz y)).
  { apply (valid_iff E o c bs [hb] HS HH) in HVAL as (HA & _). rewrite Forall_forall in HA.
    assert (HCS : codestream_ok E (o_format o) y).
    { apply (cs_spec E o (BTb t_jp2c) y VNone VNone eq_refl). apply (HA (t_jp2c, y)), boxes_of_box. rewrite B4. now left. }
    destruct HCS as (l & rest & ps & _ & _ & HC1 & _).
    assert (HM1 : sub (cs_second y) 0 2 = m_SIZ) by (apply (holds_in _ "foundSIZMarker" _ HC1); cbn; auto).
    unfold file_siz. rewrite B4. cbn [flat_map]. rewrite HM1. reflexivity. }
  pose proof (kids_siz E o f d bs rs HK) as K2. rewrite HSIZ in K2. destruct K2 as (cap & _ & K2).
  set (z := cs_siz y) in *. clearbody z.
  assert (HPR : forall t q, t <> "compressionRatio" -> findall (t :: q) (r_chars r) = flat_map (findall q) (filter (fun c => String.eqb (etag c) t) (map r_chars rs))).
  { intros t q Ht. rewrite HRC. cbn [findall ekids node]. rewrite filter_app, flat_map_app. unfold jp2_props.
    destruct (file_ihdr [hb]); [|now rewrite app_nil_r]. rewrite HSIZ. destruct (_ || _); cbn [filter leaf etag]; [|now rewrite app_nil_r].
    destruct (String.eqb_spec "compressionRatio" t); [congruence|]. now rewrite app_nil_r. }
  assert (K1' : findall ["jp2HeaderBox"; "imageHeaderBox"] (r_chars r) = [node "imageHeaderBox" (leaves (ihdr_props x))]).
  { rewrite HPR by discriminate. exact K1. }
  assert (K2' : ETree.find siz_path (r_chars r) = Some (node "siz" (leaves (siz_props cap z)))).
  { rewrite <- K2. unfold find, siz_path. rewrite HPR by discriminate. reflexivity. }
  destruct (C52_values _ _ _ _ HG) as (G1 & G2 & G3 & _ & _ & zz & G4 & G5 & G6 & G7).
  assert (FI : forall t n, In (t, n) [("width", val x 4 4); ("height", val x 0 4)] -> findall (["jp2HeaderBox"; "imageHeaderBox"] ++ [t]) (r_chars r) = [leaf t (VInt n)]).
  { intros t n HI. rewrite findall_app, K1'. cbn in HI. destruct HI as [HI|[HI|[]]]; injection HI as <- <-; reflexivity. }
  assert (HZZ : rel (shows (catC E) (str_limit E) propertiesRemapTable) (node "siz" (leaves (siz_props cap z))) zz).
  { apply (rel_findall _ siz_path) in HP. unfold find in K2', G4. destruct (findall siz_path (r_chars r)); [discriminate|]. destruct (findall siz_path (node "properties" P')); [discriminate|].
    injection K2' as ->. injection G4 as ->. now inversion HP. }
  assert (FZ : forall t n, In (t, n) [("xTsiz", val z 20 4); ("yTsiz", val z 24 4); ("csiz", val z 36 2)] -> findall [t] (node "siz" (leaves (siz_props cap z))) = [leaf t (VInt n)]).
  { intros t n HI. unfold siz_props, leaves. rewrite map_app. cbn [findall ekids node]. rewrite filter_app, flat_map_app.
    match goal with |- _ ++ ?l = _ => assert (HN : l = []) end.
    { induction (zseq (val z 36 2)) as [|i l IH]; [reflexivity|]. cbn [flat_map]. rewrite map_app, filter_app, flat_map_app, IH, app_nil_r.
      cbn in HI. destruct HI as [HI|[HI|[HI|[]]]]; injection HI as <- <-; reflexivity. }
    rewrite HN, app_nil_r. cbn in HI. destruct HI as [HI|[HI|[HI|[]]]]; injection HI as <- <-; reflexivity. }
  assert (UP : forall t s, has_text zz [t] s -> has_text (node "properties" P') (siz_path ++ [t]) s).
  { intros t s (e & HE1 & HE2). exists e. split; [|exact HE2]. unfold find in *. rewrite findall_app.
    destruct (findall siz_path (node "properties" P')); [discriminate|]. injection G4 as ->. cbn [flat_map].
    destruct (findall [t] zz); [discriminate|]. exact HE1. }
  rewrite !HMIX. split; [|split; [|split; [|split]]].
  - destruct (number_shown E _ "width" _ _ _ (ptag "width" ltac:(cbn; auto 9)) HP (FI "width" _ ltac:(cbn; auto))) as (s & HD & HT).
    exists s. split; [exact HD|now apply G1].
  - destruct (number_shown E _ "height" _ _ _ (ptag "height" ltac:(cbn; auto 9)) HP (FI "height" _ ltac:(cbn; auto))) as (s & HD & HT).
    exists s. split; [exact HD|now apply G2].
  - destruct (number_shown E _ "xTsiz" _ _ _ (ptag "xTsiz" ltac:(cbn; auto 9)) HZZ (FZ "xTsiz" _ ltac:(cbn; auto))) as (sx & HD & HT).
    destruct (number_shown E _ "yTsiz" _ _ _ (ptag "yTsiz" ltac:(cbn; auto 9)) HZZ (FZ "yTsiz" _ ltac:(cbn; auto))) as (sy & HD' & HT').
    exists sx, sy. split; [exact HD|]. split; [exact HD'|]. apply G3; now apply UP.
  - destruct (number_shown E _ "csiz" _ _ _ (ptag "csiz" ltac:(cbn; auto 9)) HZZ (FZ "csiz" _ ltac:(cbn; auto))) as (s & HD & HT).
    exists s. split; [exact HD|now apply G5].
  - assert (FD : exists l, findall ["ssizDepth"] (node "siz" (leaves (siz_props cap z))) = map (fun n => leaf "ssizDepth" (VInt n)) l /\
       l = map (fun i => cdepth (val z (38 + 3 * i) 1)) (zseq (val z 36 2))).
    { eexists. split; [|reflexivity]. unfold siz_props, leaves. rewrite map_app. cbn [findall ekids node]. rewrite filter_app, flat_map_app. cbn [map filter leaf fst snd etag String.eqb Ascii.eqb Bool.eqb flat_map app].
      induction (zseq (val z 36 2)) as [|i l IH]; [reflexivity|]. cbn [flat_map]. rewrite map_app, filter_app, flat_map_app. cbn [map]. rewrite <- IH. reflexivity. }
    destruct FD as (l & FD & <-). pose proof (rel_findall _ ["ssizDepth"] _ _ HZZ) as HL. rewrite FD in HL.
    destruct (numbers_shown E "ssizDepth" l _ (ptag "ssizDepth" ltac:(cbn; auto 9)) HL) as (ss & HD & HT). exists ss. split; [exact HD|]. split.
    + intros Hf. destruct (G6 Hf) as (ss' & HX1 & HX2). unfold findAllText in HX1. rewrite HT in HX1. rewrite HX2.
      assert (ss = ss') as ->; [|reflexivity]. clear -HX1. revert ss' HX1. induction ss as [|a ss IH]; intros [|b ss'] H; try discriminate; [reflexivity|]. injection H as -> H. f_equal. now apply IH.
    + intros Hf. rewrite (G7 Hf). exact HT.
Qed.
Print Assumptions C52_file.
Example C52_ex :
  match checkOneFile E0 100 10 (pys "a") (ex_fo (Mapped ex_file)) (op "jp2" false) 2 with
  | Ok r => findAllText (["propertiesExtension"; "mix:mix"] ++ mixBIC ++ ["mix:imageWidth"]) r <> [] /\
            findAllText (["propertiesExtension"; "mix:mix"] ++ mixICE ++ ["mix:samplesPerPixel"]) r = [VStr (pys "1")] /\
            findAllText (["propertiesExtension"; "mix:mix"] ++ mixICE ++ ["mix:BitsPerSample"; "mix:bitsPerSampleValue"]) r = [VStr (pys "8")]
  | _ => False end.
Proof. vm_compute. split; [discriminate|]. split; reflexivity. Qed.

(** ** C53: MIX generation can abort the run *)
(** What it can raise. *)
Theorem C53_exceptions isspace mf p e : generateMix isspace mf p = Raise e -> In e [AttributeError; TypeError; ValueError].
Proof.
  pose (Q A (x : res A) := forall e, x = Raise e -> In e [AttributeError; TypeError; ValueError]).
  enough (H : Q _ (generateMix isspace mf p)) by apply H. unfold Q.
  assert (HO : forall A (a : A), Q A (Ok a)) by (intros A a e0 H; discriminate).
  assert (R1 : forall A, Q A (Raise AttributeError)) by (intros A e0 H; injection H as <-; cbn; auto).
  assert (R2 : forall A, Q A (Raise TypeError)) by (intros A e0 H; injection H as <-; cbn; auto).
  assert (R3 : forall A, Q A (Raise ValueError)) by (intros A e0 H; injection H as <-; cbn; auto).
  assert (HB : forall A B (x : res A) (f : A -> res B), Q A x -> (forall a, Q B (f a)) -> Q B (rbind x f)).
  { intros A B x f H1 H2 e0 H. destruct x; cbn in H; [now apply (H2 a)|injection H as <-; now apply H1|discriminate]. }
  fold (Q _ (generateMix isspace mf p)).
  assert (HT : forall q x, Q _ (textAt q x)) by (intros q x; unfold textAt; destruct (ETree.find q x); auto).
  assert (HS : forall v, Q _ (strip isspace v)) by (intros []; cbn; auto).
  assert (HF : forall v, Q _ (floatOf v)) by (intros []; cbn; auto; destruct (parse_float _); auto).
  assert (HI : forall f, Q _ (intOf f)) by (intros []; cbn; auto).
  assert (HR : forall r q t, Q _ (findValueInRDF r q t)).
  { intros r q t. unfold findValueInRDF. destruct (ETree.find [q; t] r); auto. destruct (ETree.find [q] r); auto.
    destruct (attrGet _ _) as [[|]|]; auto. }
  assert (HA : forall r q t d, Q _ (addIfExist isspace r q t d)).
  { intros r q t d. unfold addIfExist. apply HB; [apply HR|]. intros []; auto; (apply HB; auto). }
  assert (HJ : forall l, Q _ (joinComma l)).
  { induction l as [|v l IH]; [apply HO|]. destruct v; try apply R2. cbn [joinComma]. destruct l; [apply HO|]. apply HB; auto. }
  assert (HQ : forall b t, Q _ (freq b t)) by (intros b t; unfold freq; apply HB; [apply HT|intros a]; apply HB; [apply HF|intros ?; apply HI]).
  unfold generateMix. apply HB; [|intros b1; apply HB; [|intros b2; apply HB; [|intros b3; apply HB; [|intros; apply HO]]]].
  - unfold mixBDOI. apply HB; [destruct (ETree.find _ p); auto; apply HB; auto|]. intros a.
    apply HB; auto. intros a2. apply HB; auto. intros a3. apply HB; auto. intros a4.
    destruct (mf =? 1); (apply HB; auto).
  - unfold mixBII. apply HB; auto. intros a1. apply HB; auto. intros a2. apply HB.
    + destruct (ETree.find _ p) as [[? ? ? [|]]|]; (apply HB; [apply HT|intros a3]; apply HB; [apply HS|intros a4]); auto.
    + intros a3. apply HB; [destruct (ETree.find _ p) as [c|]; auto; destruct (etext c); auto; destruct (searchCodec _) as [[]|]; auto|].
      intros a4. repeat first [apply HT|apply HO|apply HB; [|intros ?]].
  - unfold mixICM. destruct (mf =? 0); auto. destruct (match truthy _ with Some r => _ | None => _ end); auto.
    do 5 (apply HB; [apply HA|intros ?]). apply HB; [apply HR|intros tool]. apply HB; [|intros; apply HO]. destruct tool; auto. destruct (searchTool _) as [[]|]; auto.
  - unfold mixIAM. apply HB; [|intros n; destruct (ETree.find _ p); auto].
    + destruct (ETree.find _ p); [|destruct (ETree.find _ p); auto]; (apply HB; [apply HQ|intros ?]; apply HB; [apply HQ|intros; apply HO]).
    + apply HB; [destruct (mf =? 1); auto; apply HB; auto|]. intros ?. apply HB; auto.
Qed.
Print Assumptions C53_exceptions.

Lemma raw_kids E o fuel depth c r : validate E o fuel depth (BTs "contiguousCodestreamBox") c VNone VNone = Ok r -> r_valid r = VBool true ->
  Forall (fun e => ~ In (etag e) ["contiguousCodestreamBox"; "fileTypeBox"]) (ekids (r_chars r)).
Proof.
  intros HV Hv. assert (HG : gives E o (BTs "contiguousCodestreamBox") c VNone VNone r) by (now exists fuel, depth).
  destruct (C10_verdict E o (BTs "contiguousCodestreamBox") c VNone VNone r (or_introl eq_refl) HG) as (b & Hb & HP).
  assert (all_pass (r_tests r)) as HA by (apply HP; congruence).
  destruct (cs_valid_inv E o (BTs "contiguousCodestreamBox") c VNone VNone r eq_refl HG HA) as (cap & l & rest & ps & rz & rs & ts & HF).
  destruct HF as (_ & _ & _ & _ & _ & HZ & HS & _ & HC). destruct HC as (_ & -> & _).
  cbn [ekids node]. destruct HZ as (_ & HZ & _). constructor; [rewrite HZ; cbn; intuition discriminate|].
  apply Forall_app. split.
  - unfold shown. clear -HS. apply Forall_forall. intros e HE. apply in_flat_map in HE as ((((t, m), x), r) & HI & HE).
    assert (e = r_chars r) as -> by (destruct t; [| |destruct (o_packet o)]; cbn in HE; intuition).
    clear HE. assert (HT : In (t, m, x) (treated main_markers l) /\ seg_gives E o (cs_csiz c) (t, m, x) r).
    { induction HS as [|a b la lb H1 H2 IH]; [destruct HI|]. destruct HI as [HI|HI]; [injection HI as -> ->; split; [now left|exact H1]|].
      destruct (IH HI). split; [now right|assumption]. }
    destruct HT as (HT & (f & d & HV)). destruct (validate_tag _ _ _ _ _ _ _ _ _ HV) as (_ & (k & ->) & _).
    cbn [node etag fst snd]. unfold treated in HT. apply in_flat_map in HT as ((m', x') & _ & HT).
    destruct (lookup m' main_markers) as [t'|] eqn:EL; [|destruct HT]. destruct HT as [HT|[]]. injection HT as -> -> ->.
    unfold main_markers, lookup in EL. cbn [List.find fst] in EL.
    repeat (match type of EL with context [bytes_eqb ?a ?b] => let Q := fresh in destruct (bytes_eqb a b) eqn:Q; [apply bytes_eqb_spec in Q; subst; cbn; intuition discriminate|] end).
    discriminate EL.
  - unfold leaves, cs_props2. constructor; [cbn; intuition discriminate|]. constructor; [cbn; intuition discriminate|]. constructor; [cbn; intuition discriminate|].
    destruct (_ || _); repeat constructor. cbn; intuition discriminate.
Qed.
Lemma no_kid t q e : Forall (fun x => etag x <> t) (ekids e) -> findall (t :: q) e = [].
Proof.
  intros H. cbn [findall]. replace (filter _ (ekids e)) with (@nil elt); [reflexivity|]. symmetry.
  induction H as [|x l HX _ IH]; [reflexivity|]. cbn. destruct (String.eqb_spec (etag x) t); [contradiction|exact IH].
Qed.
(** A valid bare codestream (formats j2c and jhc): asking for MIX raises
    AttributeError, and no report is written.  (The command-line program sets the flag
    to 0 for these formats; the library function does not.) *)
Theorem C53_codestream_refuted E fuel depth path fo o size mtime mf rep c :
  env_ok E -> fo_size fo = Ok size -> fo_mtime fo = Ok mtime -> fo_map fo = Mapped c -> In (o_format o) ["j2c"; "jhc"] -> mf <> 0 ->
  checkOneFile E fuel depth path fo o 0 = Ok rep -> says_valid rep ->
  checkOneFile E fuel depth path fo o mf = Raise AttributeError.
Proof.
  intros HE H1 H2 HM HF Hmf HR HSV. revert HR. unfold checkOneFile. rewrite H1, H2. cbn [rbind Z.eqb negb andb].
  replace (mf =? 0) with false by lia. cbn [negb].
  pose proof (analyse_spec E fuel depth path (fo_map fo) o HE) as HS.
  destruct (analyse E fuel depth path (fo_map fo) o) as [a|e|]; [| |discriminate].
  2:{ intros HR. injection HR as <-. discriminate HSV. }
  destruct HS as (v & T & P & W & -> & -> & -> & -> & HA). destruct v; [|intros HR; injection HR as <-; discriminate HSV].
  intros _. cbn [truth andb].
  destruct HA as (b & w & t & r & W0 & HC & HT & HV & Hv & _ & HP & _). rewrite HM in HC. inversion HC; subst b w.
  destruct HT as [(HI & _)|(_ & ->)]; [exfalso; cbn in HF, HI; intuition congruence|].
  pose proof (raw_kids _ _ _ _ _ _ HV Hv) as HK.
  assert (HN : forall t q, In t ["contiguousCodestreamBox"; "fileTypeBox"] -> findall (t :: q) (node "properties" P) = []).
  { intros t q Ht. pose proof (rel_findall _ (t :: q) _ _ HP) as HX. rewrite no_kid in HX; [now inversion HX|].
    eapply Forall_impl; [|exact HK]. intros x Hx Hx'. apply Hx. rewrite Hx'. exact Ht. }
  unfold generateMix, mixBDOI, textAt, find. rewrite !HN by (cbn; auto). reflexivity.
Qed.
Print Assumptions C53_codestream_refuted.
Example C53_codestream_ex :
  (match checkOneFile E0 100 10 (pys "a") (ex_fo (Mapped ex_cs)) (op "j2c" false) 0 with Ok r => says_valid r | _ => False end) /\
  checkOneFile E0 100 10 (pys "a") (ex_fo (Mapped ex_cs)) (op "j2c" false) 1 = Raise AttributeError.
Proof. split; now vm_compute. Qed.

(** A valid JP2 file with XMP metadata whose rdf:RDF element has children but no
    rdf:Description: AttributeError. *)
Definition ex_xmp : bytes := list_byte_of_string
  "<x:xmpmeta xmlns:x='adobe:ns:meta/'><r:RDF xmlns:r='http://www.w3.org/1999/02/22-rdf-syntax-ns#'><a/></r:RDF></x:xmpmeta>".
Definition ex_xmp_doc : elt :=
  node "{adobe:ns:meta/}xmpmeta" [node "{http://www.w3.org/1999/02/22-rdf-syntax-ns#}RDF" [node "a" []]].
Definition E1 : env := {| catC := catC E0; isspace := isspace E0; xml_parse := fun b => if bytes_eqb b ex_xmp then Some ex_xmp_doc else None;
  pow10neg := pow10neg E0; str_limit := None |}.
Definition ex_xmp_file : bytes := ex_sig ++ ex_ftyp ++ ex_jp2h ++ ex_jp2c ++
  [x00; x00; x00; byte_of_Z (8 + len ex_xmp)] ++ list_byte_of_string "xml " ++ ex_xmp.
Theorem C53_xmp_refuted :
  (match checkOneFile E1 100 10 (pys "a") (ex_fo (Mapped ex_xmp_file)) (op "jp2" false) 0 with Ok r => says_valid r | _ => False end) /\
  checkOneFile E1 100 10 (pys "a") (ex_fo (Mapped ex_xmp_file)) (op "jp2" false) 1 = Raise AttributeError.
Proof. split; now vm_compute. Qed.
Print Assumptions C53_xmp_refuted.
