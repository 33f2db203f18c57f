(** * When MIX output is made, and what it then contains *)

From Coq Require Import ZArith List Bool String Lia.
From Coq Require Import Init.Byte.
From Coq Require Import ZifyBool.
From Verif Require Import Py PyFloat ETree BV Remap Mix CheckFile Spec SpecText SpecMix PBase PText PHuman Prop_Mix.
Import ListNotations.
Open Scope string_scope.
Open Scope list_scope.
Open Scope Z_scope.

(** Text without the white space at its ends. *)
Definition trim (isp : Z -> bool) (s : pystr) : pystr := rev (dropWhile isp (rev (dropWhile isp s))).
Definition icc_path := ["jp2HeaderBox"; "colourSpecificationBox"; "icc"].
Definition enum_path := ["jp2HeaderBox"; "colourSpecificationBox"; "enumCS"].

Lemma textAt_has q p s : has_text p q s -> textAt q p = Ok (VStr s).
Proof. intros (x & HX & HE). unfold textAt. now rewrite HX, HE. Qed.
Lemma textAt_none q p : ETree.find q p = None -> textAt q p = Raise AttributeError.
Proof. intros HX. unfold textAt. now rewrite HX. Qed.
Lemma join_ok ss : joinComma (map VStr ss) = Ok (comma ss).
Proof.
  induction ss as [|a ss IH]; [reflexivity|]. destruct ss as [|b ss]; [reflexivity|]. cbn [map] in *.
  change (joinComma (VStr a :: VStr b :: map VStr ss)) with (rbind (joinComma (VStr b :: map VStr ss)) (fun t => Ok (a ++ pys "," ++ t))). rewrite IH. reflexivity.
Qed.

Section Ok.
Variables (isp : Z -> bool) (mf : Z).

Definition scheme_of (st : pystr) : pystr := pys (if pystr_eqb st (pys "5-3 reversible") then "JPEG 2000 Lossless" else "JPEG 2000 Lossy").
Lemma bdoi_ok p sb st sr f v : has_text p ["fileTypeBox"; "br"] sb -> has_text p (cod_path ++ ["transformation"]) st ->
  has_text p ["compressionRatio"] sr -> parse_float sr = Some f ->
  intOf (if mf =? 1 then round_nd 0 f else round_nd 0 (float_mul f float100)) = Ok v ->
  mixBDOI isp mf p = Ok (node "mix:BasicDigitalObjectInformation"
    [node "mix:FormatDesignation" [leaf "mix:formatName" (VStr (pys "image/" ++ trim isp sb))];
     leaf "mix:byteOrder" (VStr (pys (if mf =? 1 then "big_endian" else "big endian")));
     node "mix:Compression" [leaf "mix:compressionScheme" (VStr (scheme_of st));
       if mf =? 1 then leaf "mix:compressionRatio" (VStr (str_of_Z v))
       else node "mix:compressionRatio" [leaf "mix:numerator" (VStr (str_of_Z v)); leaf "mix:denominator" (VStr (pys "100"))]]]).
Proof.
  intros (b & HB & HB') HT HR HP HV. unfold mixBDOI. rewrite HB. cbn [rbind]. unfold strip. rewrite HB'. cbn [rbind].
  change ["contiguousCodestreamBox"; "cod"; "transformation"] with (cod_path ++ ["transformation"]). rewrite (textAt_has _ _ _ HT). cbn [rbind].
  rewrite (textAt_has _ _ _ HR). cbn [rbind floatOf]. rewrite HP. cbn [rbind]. unfold scheme_of. cbn [py_eqb]. fold (trim isp sb).
  destruct (mf =? 1); rewrite HV; cbn [rbind]; destruct (pystr_eqb st _); reflexivity.
Qed.

(** Where the colour space comes from: an ICC profile if there is one, otherwise an
    enumerated colour space. *)
Definition colour_case (p : elt) (sc : pystr) (names : list value) : Prop :=
  (exists x sd, ETree.find icc_path p = Some x /\ ekids x <> [] /\ has_text p (icc_path ++ ["colourSpace"]) sc /\
     has_text p (icc_path ++ ["description"]) sd /\ names = [VStr sd]) \/
  (ETree.find icc_path p = None /\ has_text p enum_path sc /\ names = []).
Definition mixPI := ["mix:BasicImageCharacteristics"; "mix:PhotometricInterpretation"].
Lemma bii_ok p w h sc names sx sy ly lv : has_text p width_path w -> has_text p height_path h -> colour_case p sc names ->
  (forall x, ETree.find ["contiguousCodestreamBox"; "com"; "comment"] p = Some x -> exists s, etext x = VStr s) ->
  has_text p (siz_path ++ ["xTsiz"]) sx -> has_text p (siz_path ++ ["yTsiz"]) sy ->
  has_text p (cod_path ++ ["layers"]) ly -> has_text p (cod_path ++ ["levels"]) lv ->
  exists b, mixBII isp mf p = Ok b /\ findAllText (mixPI ++ ["mix:colorSpace"]) b = [VStr (trim isp sc)] /\
    findAllText (mixPI ++ ["mix:ColorProfile"; "mix:IccProfile"; "mix:iccProfileName"]) b = names.
Proof.
  intros HW HH HC HCOM HX HY HL HV. unfold mixBII.
  change ["jp2HeaderBox"; "imageHeaderBox"; "width"] with width_path. change ["jp2HeaderBox"; "imageHeaderBox"; "height"] with height_path.
  change ["jp2HeaderBox"; "colourSpecificationBox"; "icc"] with icc_path. change ["jp2HeaderBox"; "colourSpecificationBox"; "enumCS"] with enum_path.
  change ["jp2HeaderBox"; "colourSpecificationBox"; "icc"; "colourSpace"] with (icc_path ++ ["colourSpace"]).
  change ["jp2HeaderBox"; "colourSpecificationBox"; "icc"; "description"] with (icc_path ++ ["description"]).
  change ["contiguousCodestreamBox"; "siz"; "xTsiz"] with (siz_path ++ ["xTsiz"]). change ["contiguousCodestreamBox"; "siz"; "yTsiz"] with (siz_path ++ ["yTsiz"]).
  change ["contiguousCodestreamBox"; "cod"; "layers"] with (cod_path ++ ["layers"]). change ["contiguousCodestreamBox"; "cod"; "levels"] with (cod_path ++ ["levels"]).
  rewrite (textAt_has _ _ _ HW). cbn [rbind]. rewrite (textAt_has _ _ _ HH). cbn [rbind].
  match goal with |- context [rbind ?x _] => assert (HPI : exists pl, x = Ok pl /\
    map etext (findall ["mix:colorSpace"] (node "x" pl)) = [VStr (trim isp sc)] /\
    map etext (findall ["mix:ColorProfile"; "mix:IccProfile"; "mix:iccProfileName"] (node "x" pl)) = names) end.
  { destruct HC as [(x & sd & HX1 & HX2 & HX3 & HX4 & ->)|(HX1 & HX2 & ->)]; rewrite HX1.
    - destruct x as [t a v [|k ks]]; [cbn in HX2; congruence|]. rewrite (textAt_has _ _ _ HX3). cbn [rbind strip]. rewrite (textAt_has _ _ _ HX4). cbn [rbind].
      eexists. split; [reflexivity|]. split; reflexivity.
    - rewrite (textAt_has _ _ _ HX2). cbn [rbind strip]. eexists. split; [reflexivity|]. split; reflexivity. }
  destruct HPI as (pl & -> & P1 & P2). cbn [rbind].
  match goal with |- context [rbind ?x _] => assert (HCO : exists cl, x = Ok cl) end.
  { destruct (ETree.find ["contiguousCodestreamBox"; "com"; "comment"] p) as [x|]; [|eauto]. destruct (HCOM x eq_refl) as (s & ->). destruct (searchCodec s) as [(a & b)|]; eauto. }
  destruct HCO as (cl & ->). cbn [rbind].
  rewrite (textAt_has _ _ _ HX). cbn [rbind]. rewrite (textAt_has _ _ _ HY). cbn [rbind]. rewrite (textAt_has _ _ _ HL). cbn [rbind]. rewrite (textAt_has _ _ _ HV). cbn [rbind].
  eexists. split; [reflexivity|]. rewrite <- P1, <- P2. unfold findAllText, mixPI.
  split; cbn [app findall ekids node leaf filter etag String.eqb Ascii.eqb Bool.eqb flat_map]; now rewrite ?app_nil_r.
Qed.
Lemma bii_fails p w h : has_text p width_path w -> has_text p height_path h -> ETree.find icc_path p = None -> ETree.find enum_path p = None ->
  mixBII isp mf p = Raise AttributeError.
Proof.
  intros HW HH H1 H2. unfold mixBII.
  change ["jp2HeaderBox"; "imageHeaderBox"; "width"] with width_path. change ["jp2HeaderBox"; "imageHeaderBox"; "height"] with height_path.
  change ["jp2HeaderBox"; "colourSpecificationBox"; "icc"] with icc_path. change ["jp2HeaderBox"; "colourSpecificationBox"; "enumCS"] with enum_path.
  rewrite (textAt_has _ _ _ HW). cbn [rbind]. rewrite (textAt_has _ _ _ HH). cbn [rbind]. rewrite H1, (textAt_none _ _ H2). reflexivity.
Qed.

(** Sampling frequencies: those of the capture resolution if there is one, otherwise
    those of the display resolution. *)
Definition capture_path := ["jp2HeaderBox"; "resolutionBox"; "captureResolutionBox"].
Definition display_path := ["jp2HeaderBox"; "resolutionBox"; "displayResolutionBox"].
Definition freq_case (p : elt) (n : option (Z * Z)) : Prop :=
  match ETree.find capture_path p with
  | Some b => exists x y, freq b "hRescInPixelsPerMeter" = Ok x /\ freq b "vRescInPixelsPerMeter" = Ok y /\ n = Some (x, y)
  | None => match ETree.find display_path p with
            | Some b => exists x y, freq b "hResdInPixelsPerMeter" = Ok x /\ freq b "vResdInPixelsPerMeter" = Ok y /\ n = Some (x, y)
            | None => n = None
            end
  end.
Definition metrics (n : option (Z * Z)) : list elt :=
  match n with
  | Some (x, y) =>
      [node "mix:SpatialMetrics"
            [leaf "mix:samplingFrequencyUnit" (VStr (pys (if mf =? 1 then "3" else "cm")));
             node "mix:xSamplingFrequency" [leaf "mix:numerator" (VStr (str_of_Z x)); leaf "mix:denominator" (VStr (pys "10000"))];
             node "mix:ySamplingFrequency" [leaf "mix:numerator" (VStr (str_of_Z y)); leaf "mix:denominator" (VStr (pys "10000"))]]]
  | None => []
  end.
Lemma iam_ok p n z ss sc : freq_case p n -> ETree.find siz_path p = Some z -> findAllText ["ssizDepth"] z = map VStr ss -> has_text z ["csiz"] sc ->
  exists b, mixIAM mf p = Ok b /\ findall ["mix:SpatialMetrics"] b = metrics n.
Proof.
  intros HN HZ HS HC. unfold mixIAM. change ["jp2HeaderBox"; "resolutionBox"; "captureResolutionBox"] with capture_path.
  change ["jp2HeaderBox"; "resolutionBox"; "displayResolutionBox"] with display_path. change ["contiguousCodestreamBox"; "siz"] with siz_path.
  assert (HX : (match ETree.find capture_path p with
            | Some b => rbind (freq b "hRescInPixelsPerMeter") (fun x => rbind (freq b "vRescInPixelsPerMeter") (fun y => Ok (Some (x, y))))
            | None => match ETree.find display_path p with
                | Some b => rbind (freq b "hResdInPixelsPerMeter") (fun x => rbind (freq b "vResdInPixelsPerMeter") (fun y => Ok (Some (x, y))))
                | None => Ok None end end) = Ok n).
  { unfold freq_case in HN. destruct (ETree.find capture_path p); [|destruct (ETree.find display_path p); [|now subst n]];
      destruct HN as (x & y & -> & -> & ->); reflexivity. }
  rewrite HX. cbn [rbind]. rewrite HZ, HS, (textAt_has _ _ _ HC), join_ok. cbn [rbind].
  destruct (mf =? 1) eqn:EM; cbn [rbind]; eexists; (split; [reflexivity|]); destruct n as [(x, y)|]; unfold metrics; rewrite ?EM; reflexivity.
Qed.

(** Capture metadata *)
Definition textual : elt -> Prop := every (fun _ v => v = VNone \/ exists s, v = VStr s).
Lemma textual_findall q : forall p, textual p -> Forall textual (findall q p).
Proof.
  induction q as [|t q IH]; intros p HP; [cbn; auto|]. inversion HP as [t0 a v k HV HK]; subst. cbn [findall ekids].
  induction HK as [|x k HX HK IHK]; [constructor|]. assert (HR : Forall textual (flat_map (findall q) (filter (fun c => String.eqb (etag c) t) k))) by (apply IHK; now constructor).
  cbn [filter]. destruct (String.eqb (etag x) t); [|exact HR]. cbn [flat_map]. apply Forall_app. split; [now apply IH|exact HR].
Qed.
Lemma textual_find q p x : textual p -> ETree.find q p = Some x -> textual x.
Proof. intros HP HF. pose proof (textual_findall q p HP) as H. unfold find in HF. destruct (findall q p); [discriminate|]. injection HF as ->. now inversion H. Qed.
Lemma value_ok rdf tag : textual rdf -> In rdfDescription (map etag (ekids rdf)) ->
  exists v, findValueInRDF rdf rdfDescription tag = Ok v /\ (v = VNone \/ exists s, v = VStr s).
Proof.
  intros HT HD. unfold findValueInRDF. destruct (ETree.find [rdfDescription; tag] rdf) as [x|] eqn:EX.
  - pose proof (textual_find _ _ _ HT EX) as HX. exists (etext x). split; [reflexivity|]. now inversion HX.
  - assert (HF : exists d, ETree.find [rdfDescription] rdf = Some d).
    { unfold find. destruct rdf as [t a v k]. cbn [findall ekids] in *. apply in_map_iff in HD as (d & HE & HI).
      assert (HI' : In d (filter (fun c => String.eqb (etag c) rdfDescription) k)) by (apply filter_In; split; [exact HI|]; now apply String.eqb_eq).
      destruct (filter _ k) as [|d' l]; [destruct HI'|]. cbn. eauto. }
    destruct HF as (d & ->). destruct (attrGet tag (eattrib d)) as [[|c s]|]; eauto.
Qed.
Lemma add_ok rdf tag dest : textual rdf -> In rdfDescription (map etag (ekids rdf)) -> exists l, addIfExist isp rdf rdfDescription tag dest = Ok l.
Proof.
  intros HT HD. unfold addIfExist. destruct (value_ok rdf tag HT HD) as (v & -> & [->|(s & ->)]); cbn; eauto.
Qed.
Lemma value_fails rdf tag : ~ In rdfDescription (map etag (ekids rdf)) -> findValueInRDF rdf rdfDescription tag = Raise AttributeError.
Proof.
  intros HD. unfold findValueInRDF, find. assert (HN : forall q, findall (rdfDescription :: q) rdf = []).
  { intros q. cbn [findall]. replace (filter _ (ekids rdf)) with (@nil elt); [reflexivity|]. symmetry. induction (ekids rdf) as [|x l IH]; [reflexivity|].
    cbn [filter]. destruct (String.eqb_spec (etag x) rdfDescription) as [HE|HE]; [exfalso; apply HD; left; exact HE|]. apply IH. intros HI. apply HD. now right. }
  rewrite !HN. reflexivity.
Qed.
Lemma truthy_some (o : option elt) x : truthy o = Some x <-> o = Some x /\ ekids x <> [].
Proof.
  destruct o as [[t a v [|k ks]]|]; cbn; split; intros H; try discriminate H; try (destruct H; discriminate).
  - destruct H as (H & HK). injection H as <-. cbn in HK. congruence.
  - injection H as <-. split; [reflexivity|discriminate].
  - now destruct H as (-> & _).
Qed.
Lemma truthy_none (o : option elt) : truthy o = None <-> (forall x, o = Some x -> ekids x = []).
Proof.
  destruct o as [[t a v [|k ks]]|]; cbn; split; intros H; try reflexivity; try discriminate H.
  - intros x HX. now injection HX as <-.
  - specialize (H _ eq_refl). discriminate H.
  - intros x HX. discriminate HX.
Qed.
Definition rdf_of (p : elt) : option elt := match truthy (ETree.find (rdfPath "xmlBox") p) with Some r => Some r | None => truthy (ETree.find (rdfPath "uuidBox") p) end.
Lemma rdf_of_spec p x : rdf_of p = Some x <-> chosen_rdf p x.
Proof.
  unfold rdf_of. split.
  - destruct (truthy (ETree.find (rdfPath "xmlBox") p)) eqn:E1; intros H.
    + injection H as ->. apply truthy_some in E1. constructor; tauto.
    + apply truthy_some in H. apply rdf_uuid; try tauto. now apply truthy_none.
  - intros [y H1 H2|y H1 H2 H3].
    + assert (truthy (ETree.find (rdfPath "xmlBox") p) = Some y) as -> by now apply truthy_some. reflexivity.
    + assert (truthy (ETree.find (rdfPath "xmlBox") p) = None) as -> by now apply truthy_none. now apply truthy_some.
Qed.
Lemma icm_ok p : textual p -> mf <> 0 -> xmp_ok p -> exists i, mixICM isp mf p = Ok i.
Proof.
  intros HT Hm HX. unfold mixICM. replace (mf =? 0) with false by lia. fold (rdf_of p).
  destruct (rdf_of p) as [rdf|] eqn:ER; [|eauto].
  apply rdf_of_spec in ER. pose proof (HX _ ER) as HD.
  assert (HTR : textual rdf) by (destruct ER as [x H _|x _ H _]; exact (textual_find _ _ _ HT H)).
  repeat match goal with |- context [addIfExist isp rdf rdfDescription ?t ?d] => destruct (add_ok rdf t d HTR HD) as (? & ->); cbn [rbind] end.
  match goal with |- context [findValueInRDF rdf rdfDescription ?t] => destruct (value_ok rdf t HTR HD) as (v & -> & HV) end. cbn [rbind].
  destruct HV as [->|(s & ->)]; [cbn [rbind]; eauto|]. destruct (searchTool s) as [(a, b)|]; cbn [rbind]; eauto.
Qed.
Lemma icm_fails p x : mf <> 0 -> chosen_rdf p x -> ~ In rdfDescription (map etag (ekids x)) -> mixICM isp mf p = Raise AttributeError.
Proof.
  intros Hm HC HD. unfold mixICM. replace (mf =? 0) with false by lia. fold (rdf_of p). apply rdf_of_spec in HC. rewrite HC.
  unfold addIfExist at 1. now rewrite (value_fails _ _ HD).
Qed.
End Ok.
