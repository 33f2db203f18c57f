(** * C68: MIX output: its parts, the codec and the capture metadata *)

From Coq Require Import ZArith List Bool String Lia.
From Coq Require Import Init.Byte.
From Coq Require Import ZifyBool.
From Verif Require Import Py PyFloat ByteConv ETree BV VSuper Remap Mix CheckFile Spec SpecText SpecMix SpecMixXmp
     PBase Prop_Check Prop_Mix PMix PMixOk Prop_MixFile PMixXmp Ex.
Import ListNotations.
Open Scope string_scope.
Open Scope list_scope.
Open Scope Z_scope.

Section Parts.
Variables (isp : Z -> bool) (mf : Z) (p m : elt).
Hypothesis HG : generateMix isp mf p = Ok m.
Hypothesis Hmf : mf <> 0.
Lemma parts : exists bdoi bii icm iam,
  mixBII isp mf p = Ok bii /\ mixICM isp mf p = Ok icm /\
  etag bdoi = "mix:BasicDigitalObjectInformation" /\ etag bii = "mix:BasicImageInformation" /\
  (forall x, icm = Some x -> etag x = mixICM_ /\ ekids x <> []) /\ etag iam = "mix:ImageAssessmentMetadata" /\
  eattrib m = map (fun kv => (fst kv, pys (snd kv))) (mix_attributes mf) /\
  ekids m = [bdoi; bii] ++ (match icm with Some x => [x] | None => [] end) ++ [iam].
Proof.
  revert HG. unfold generateMix.
  destruct (mixBDOI isp mf p) as [bdoi| |] eqn:EB; try discriminate. cbn [rbind].
  destruct (mixBII isp mf p) as [bii| |] eqn:EI; try discriminate. cbn [rbind].
  destruct (mixICM isp mf p) as [icm| |] eqn:EC; try discriminate. cbn [rbind].
  destruct (mixIAM mf p) as [iam| |] eqn:EA; try discriminate. cbn [rbind]. intros H. injection H as <-.
  exists bdoi, bii, icm, iam. split; [reflexivity|]. split; [reflexivity|]. split.
  { clear -EB. unfold mixBDOI in EB. repeat (match type of EB with rbind ?x _ = _ => destruct x; try discriminate; cbn [rbind] in EB end).
    destruct (mf =? 1); (repeat (match type of EB with rbind ?x _ = _ => destruct x; try discriminate; cbn [rbind] in EB end)); injection EB as <-; reflexivity. }
  split.
  { clear -EI. unfold mixBII in EI. repeat (match type of EI with rbind ?x _ = _ => destruct x; try discriminate; cbn [rbind] in EI end). injection EI as <-. reflexivity. }
  assert (HI : forall x, icm = Some x -> etag x = mixICM_ /\ ekids x <> []).
  { clear -EC. intros x ->. unfold mixICM in EC. destruct (mf =? 0); [discriminate|]. destruct (match truthy _ with Some r => _ | None => _ end); [|discriminate].
    repeat (match type of EC with rbind ?x _ = _ => destruct x; try discriminate; cbn [rbind] in EC end). injection EC as <-. now split. }
  split; [exact HI|]. split.
  { clear -EA. unfold mixIAM in EA. match type of EA with rbind ?x _ = _ => destruct x; try discriminate; cbn [rbind] in EA end.
    destruct (ETree.find _ p); try discriminate. repeat (match type of EA with rbind ?x _ = _ => destruct x; try discriminate; cbn [rbind] in EA end). injection EA as <-. reflexivity. }
  split; [unfold mix_attributes; now destruct (mf =? 1)|]. cbn [ekids].
  destruct icm as [[t a v [|k ks]]|]; try reflexivity. destruct (HI _ eq_refl) as (_ & HX). cbn in HX. congruence.
Qed.
Lemma icm_rdf icm : mixICM isp mf p = Ok icm -> (icm = None <-> forall x, ~ chosen_rdf p x).
Proof.
  unfold mixICM. replace (mf =? 0) with false by lia. fold (rdf_of p). destruct (rdf_of p) as [rdf|] eqn:ER.
  - intros H. split; [|intros HN; apply rdf_of_spec in ER; [|exact isp|exact mf]; now destruct (HN _ ER)].
    repeat (match type of H with rbind ?x _ = _ => destruct x; try discriminate; cbn [rbind] in H end). injection H as <-. discriminate.
  - intros H. injection H as <-. split; [|reflexivity]. intros _ x HX. apply (rdf_of_spec isp mf) in HX. congruence.
Qed.
End Parts.
Lemma bii_codec isp mf p b : mixBII isp mf p = Ok b ->
  match ETree.find ["contiguousCodestreamBox"; "com"; "comment"] p with
  | Some c => exists s, etext c = VStr s /\
      ((exists x y, searchCodec s = Some (x, y) /\
          findAllText (tl codec_path ++ ["mix:codec"]) b = [VStr x] /\ findAllText (tl codec_path ++ ["mix:codecVersion"]) b = [VStr y]) \/
       (searchCodec s = None /\ findall (tl codec_path) b = []))
  | None => findall (tl codec_path) b = []
  end.
Proof.
  unfold mixBII. intros EI.
  do 3 (match type of EI with rbind ?x _ = _ => destruct x; try discriminate; cbn [rbind] in EI end).
  destruct (ETree.find ["contiguousCodestreamBox"; "com"; "comment"] p) as [c|].
  - destruct (etext c) as [| | | | |s]; try discriminate. exists s. split; [reflexivity|].
    destruct (searchCodec s) as [(x, y)|]; cbn [rbind] in EI;
      repeat (match type of EI with rbind ?x _ = _ => destruct x; try discriminate; cbn [rbind] in EI end); injection EI as <-.
    + left. exists x, y. repeat split.
    + right. now split.
  - cbn [rbind] in EI. repeat (match type of EI with rbind ?x _ = _ => destruct x; try discriminate; cbn [rbind] in EI end); injection EI as <-. reflexivity.
Qed.
Lemma kids_app t X q a b : findall (X :: q) (node t (a ++ b)) = findall (X :: q) (node t a) ++ findall (X :: q) (node t b).
Proof. cbn [findall ekids node]. now rewrite filter_app, flat_map_app. Qed.
Lemma icm_gci T G R X q : findall ("mix:GeneralCaptureInformation" :: X :: q)
  (node T (node "mix:GeneralCaptureInformation" G :: match R with [] => [] | e :: l => [node "mix:ScannerCapture" (e :: l)] end)) = findall (X :: q) (node "mix:GeneralCaptureInformation" G).
Proof. destruct R; cbn [findall ekids node filter etag String.eqb Ascii.eqb Bool.eqb]; apply app_nil_r. Qed.
Lemma icm_sc T G R X q : findall ("mix:ScannerCapture" :: X :: q)
  (node T (node "mix:GeneralCaptureInformation" G :: match R with [] => [] | e :: l => [node "mix:ScannerCapture" (e :: l)] end)) = findall (X :: q) (node "mix:ScannerCapture" R).
Proof. destruct R; cbn [findall ekids node filter etag String.eqb Ascii.eqb Bool.eqb]; [reflexivity|apply app_nil_r]. Qed.
Lemma opt_find t X isp dest v l : match v with Some s => l = [leaf dest (VStr (trim isp s))] | None => l = [] end ->
  findall [X] (node t l) = if String.eqb dest X then l else [].
Proof. destruct v; intros ->; cbn [findall ekids node leaf filter etag]; destruct (String.eqb _ X); reflexivity. Qed.
Lemma opt_find2 t X Y q isp dest v l : match v with Some s => l = [leaf dest (VStr (trim isp s))] | None => l = [] end -> dest <> X ->
  findall (X :: Y :: q) (node t l) = [].
Proof. destruct v; intros -> HD; cbn [findall ekids node leaf filter etag]; [destruct (String.eqb_spec dest X); [congruence|reflexivity]|reflexivity]. Qed.
Lemma opt_text isp dest v l : match v with Some s => l = [leaf dest (VStr (trim isp s))] | None => l = [] end ->
  map etext l = match v with Some s => [VStr (trim isp s)] | None => [] end.
Proof. destruct v; intros ->; reflexivity. Qed.
Lemma sm_find L X q : flat_map (findall (X :: q)) (match L with [] => [] | e :: l => [node "mix:ScannerModel" (e :: l)] end) = findall (X :: q) (node "mix:ScannerModel" L).
Proof. destruct L; [reflexivity|apply app_nil_r]. Qed.
Lemma icm_capture isp mf p i rdf : mf <> 0 -> chosen_rdf p rdf -> mixICM isp mf p = Ok (Some i) ->
  (forall k q, In (k, q) capture_table -> exists v, xmp_value rdf k v /\
     findAllText (tl q) i = match v with Some s => [VStr (trim isp s)] | None => [] end) /\
  exists v, xmp_value rdf creator_tool v /\
    match v with
    | None => findall (tl software_path) i = []
    | Some s =>
        match searchTool s with
        | Some (a, b) => findAllText (tl software_path ++ ["mix:scanningSoftwareName"]) i = [VStr a] /\
                         findAllText (tl software_path ++ ["mix:scanningSoftwareVersionNo"]) i = [VStr b]
        | None => findAllText (tl software_path ++ ["mix:scanningSoftwareName"]) i = [VStr s] /\
                  findAllText (tl software_path ++ ["mix:scanningSoftwareVersionNo"]) i = []
        end
    end.
Proof.
  intros Hm HC. unfold mixICM. replace (mf =? 0) with false by lia. fold (rdf_of p). apply (rdf_of_spec isp mf) in HC. rewrite HC.
  change rdfDescription with xmp_description.
  repeat match goal with |- rbind (addIfExist isp rdf xmp_description ?t ?d) _ = _ -> _ =>
    let l := fresh "l" in let E := fresh "E" in destruct (addIfExist isp rdf xmp_description t d) as [l| |] eqn:E; try discriminate; cbn [rbind];
    apply add_spec in E; destruct E as (? & ? & ?) end.
  change "{http://ns.adobe.com/xap/1.0/}CreatorTool" with creator_tool.
  destruct (findValueInRDF rdf xmp_description creator_tool) as [v| |] eqn:EV; try discriminate. cbn [rbind].
  assert (HV : exists w, xmp_value rdf creator_tool w /\ match w with Some s => v = VStr s | None => v = VNone end \/ (v <> VNone /\ forall s, v <> VStr s)).
  { destruct (value_spec _ _ _ EV) as [(-> & HV)|[(s & -> & HV)|HV]]; [exists None; now left; split|exists (Some s); now left; split|exists None; now right]. }
  destruct HV as (w & [(HW & HV)|(HV & HV')]).
  2:{ destruct v; try discriminate; [now destruct HV|now destruct (HV' s)]. }
  intros HEQ. assert (HI : exists sss, (match w with None => sss = [] | Some s => match searchTool s with
      | Some (a, b) => sss = [node "mix:ScanningSystemSoftware" [leaf "mix:scanningSoftwareName" (VStr a); leaf "mix:scanningSoftwareVersionNo" (VStr b)]]
      | None => sss = [node "mix:ScanningSystemSoftware" [leaf "mix:scanningSoftwareName" (VStr s)]] end end) /\
      i = node "mix:ImageCaptureMetadata" (node "mix:GeneralCaptureInformation" (l ++ l0) ::
         match l1 ++ (match l2 ++ l3 with [] => [] | l => [node "mix:ScannerModel" l] end) ++ sss with [] => [] | l => [node "mix:ScannerCapture" l] end)).
  { destruct w as [s|]; subst v.
    - destruct (searchTool s) as [(a, b)|]; cbn [rbind] in HEQ; injection HEQ as <-; eexists; (split; [reflexivity|]); reflexivity.
    - cbn [rbind] in HEQ. injection HEQ as <-. eexists; (split; [reflexivity|]); reflexivity. }
  clear HEQ HV v EV HC Hm. destruct HI as (sss & HS & ->).
  assert (HSS : forall t X q, X <> "mix:ScanningSystemSoftware" -> findall (X :: q) (node t sss) = []).
  { intros t X q HX. destruct w as [s|]; [destruct (searchTool s) as [(a, b)|]|]; subst sss; cbn [findall ekids node filter etag]; try reflexivity;
      (destruct (String.eqb_spec "mix:ScanningSystemSoftware" X); [congruence|reflexivity]). }
  set (sm := match l2 ++ l3 with [] => [] | _ => _ end) in *.
  assert (HSM : forall t X q, findall (X :: q) (node t sm) = if String.eqb "mix:ScannerModel" X then flat_map (findall q) sm else []).
  { intros t X q. unfold sm. destruct (l2 ++ l3); cbn [findall ekids node filter etag]; destruct (String.eqb _ X); reflexivity. }
  split.
  - intros k q HQ. unfold capture_table in HQ. cbn [In] in HQ.
    destruct HQ as [HQ|[HQ|[HQ|[HQ|[HQ|[]]]]]]; injection HQ as <- <-; eexists; (split; [eassumption|]); cbn [tl]; unfold findAllText.
    + rewrite icm_gci, kids_app, (opt_find _ _ _ _ _ _ H0), (opt_find _ _ _ _ _ _ H2). cbn [String.eqb Ascii.eqb Bool.eqb]. rewrite app_nil_r. now apply opt_text in H0.
    + rewrite icm_gci, kids_app, (opt_find _ _ _ _ _ _ H0), (opt_find _ _ _ _ _ _ H2). cbn [String.eqb Ascii.eqb Bool.eqb app]. now apply opt_text in H2.
    + rewrite icm_sc, !kids_app, HSM, HSS, (opt_find _ _ _ _ _ _ H4) by discriminate. cbn [String.eqb Ascii.eqb Bool.eqb app]. rewrite app_nil_r. now apply opt_text in H4.
    + rewrite icm_sc, !kids_app, HSM, HSS, (opt_find2 _ _ _ _ _ _ _ _ H4) by discriminate. cbn [String.eqb Ascii.eqb Bool.eqb app]. rewrite app_nil_r.
      unfold sm. rewrite sm_find, kids_app, (opt_find _ _ _ _ _ _ H6), (opt_find _ _ _ _ _ _ H8). cbn [String.eqb Ascii.eqb Bool.eqb app]. rewrite app_nil_r. now apply opt_text in H6.
    + rewrite icm_sc, !kids_app, HSM, HSS, (opt_find2 _ _ _ _ _ _ _ _ H4) by discriminate. cbn [String.eqb Ascii.eqb Bool.eqb app]. rewrite app_nil_r.
      unfold sm. rewrite sm_find, kids_app, (opt_find _ _ _ _ _ _ H6), (opt_find _ _ _ _ _ _ H8). cbn [String.eqb Ascii.eqb Bool.eqb app]. now apply opt_text in H8.
  - exists w. split; [exact HW|].
    assert (HQ : forall q, findall ("mix:ScannerCapture" :: "mix:ScanningSystemSoftware" :: q)
      (node "mix:ImageCaptureMetadata" (node "mix:GeneralCaptureInformation" (l ++ l0) :: match l1 ++ sm ++ sss with [] => [] | l => [node "mix:ScannerCapture" l] end))
      = findall ("mix:ScanningSystemSoftware" :: q) (node "mix:ScannerCapture" sss)).
    { intros q. rewrite icm_sc, !kids_app, HSM. cbn [String.eqb Ascii.eqb Bool.eqb app].
      replace (findall ("mix:ScanningSystemSoftware" :: q) (node "mix:ScannerCapture" l1)) with (@nil elt); [reflexivity|].
      symmetry. destruct x1; subst l1; reflexivity. }
    unfold software_path, findAllText. cbn [tl app]. rewrite !HQ.
    destruct w as [s|]; [destruct (searchTool s) as [(a, b)|]|]; subst sss; try split; reflexivity.
Qed.

(** ** Theorems about reports *)
Section Reports.
Variables (E : env) (fuel depth : nat) (path : pystr) (fo : fileobs) (o : opts) (size : Z) (mtime : pystr) (mf : Z) (rep : elt).
Hypothesis HE : env_ok E.
Hypothesis H1 : fo_size fo = Ok size.
Hypothesis H2 : fo_mtime fo = Ok mtime.
Hypothesis HF : In (o_format o) ["jp2"; "jph"].
Hypothesis Hmf : mf <> 0.
Hypothesis HR : checkOneFile E fuel depth path fo o mf = Ok rep.
Hypothesis HSV : says_valid rep.
Lemma made : exists p m, findall ["properties"] rep = [p] /\ findall ["propertiesExtension"; "mix:mix"] rep = [m] /\ generateMix (isspace E) mf p = Ok m.
Proof.
  destruct (C51_extension E fuel depth path fo o size mtime mf rep HE H1 H2 Hmf HR) as (st & v & T & P & W & ext & _ & HEQ & Hin & HX).
  assert (Hv : v = "True").
  { unfold says_valid in HSV. rewrite HEQ in HSV. change (findElementText ["isValid"] (report fo o size mtime st v T P [node "propertiesExtension" ext] W)) with (VStr (pys v)) in HSV.
    destruct Hin as [<-|[<-|[]]]; [reflexivity|discriminate HSV]. }
  subst v. destruct HX as [(_ & _ & m & -> & HG & Hm)|(HX & _)]; [|tauto].
  exists (node "properties" P), m. rewrite HEQ. split; [reflexivity|]. split; [|exact HG].
  unfold report. cbn [app findall ekids node leaf filter etag String.eqb Ascii.eqb Bool.eqb flat_map]. rewrite Hm. reflexivity.
Qed.

(** The report of a valid file has one MIX document, with the parts and attributes of
    the version asked for; there is capture metadata exactly when there is XMP
    metadata. *)
Theorem C68_layout : exists p m, findall ["properties"] rep = [p] /\ findall ["propertiesExtension"; "mix:mix"] rep = [m] /\
  eattrib m = map (fun kv => (fst kv, pys (snd kv))) (mix_attributes mf) /\
  ((exists x, chosen_rdf p x) -> map etag (ekids m) = mix_sections true) /\
  ((forall x, ~ chosen_rdf p x) -> map etag (ekids m) = mix_sections false).
Proof.
  destruct made as (p & m & HP & HM & HG). exists p, m. split; [exact HP|]. split; [exact HM|].
  destruct (parts _ _ _ _ HG) as (bdoi & bii & icm & iam & _ & HC & T1 & T2 & T3 & T4 & HA & HK).
  pose proof (icm_rdf _ _ _ Hmf _ HC) as HI. split; [exact HA|]. rewrite HK. split; intros HX.
  - destruct icm as [x|]; [|destruct HX as (x & HX); now destruct (proj1 HI eq_refl x)].
    cbn. rewrite T1, T2, T4. now rewrite (proj1 (T3 _ eq_refl)).
  - apply HI in HX. subst icm. cbn. now rewrite T1, T2, T4.
Qed.

(** The codec and its version are taken from the first comment. *)
Theorem C68_codec p m : findall ["properties"] rep = [p] -> findall ["propertiesExtension"; "mix:mix"] rep = [m] ->
  match ETree.find ["contiguousCodestreamBox"; "com"; "comment"] p with
  | Some c => exists s, etext c = VStr s /\
      ((exists a b, names_codec s a b /\ (forall a' b', names_codec s a' b' -> a' = a /\ b' = b) /\
          findAllText (codec_path ++ ["mix:codec"]) m = [VStr a] /\ findAllText (codec_path ++ ["mix:codecVersion"]) m = [VStr b]) \/
       (~ has_dash_v s /\ findall codec_path m = []))
  | None => findall codec_path m = []
  end.
Proof.
  intros HP HM. destruct made as (p' & m' & HP' & HM' & HG). rewrite HP in HP'. rewrite HM in HM'. injection HP' as <-. injection HM' as <-.
  destruct (mix_parts _ _ _ _ HG) as (bdoi & bii & iam & _ & HB & _ & _ & HQ & _). pose proof (bii_codec _ _ _ _ HB) as HC.
  assert (HQ' : forall q, findall (codec_path ++ q) m = findall (tl codec_path ++ q) bii) by (intros q; apply (HQ (tl codec_path ++ q))).
  assert (HQ2 : findall codec_path m = findall (tl codec_path) bii) by apply HQ.
  destruct (ETree.find ["contiguousCodestreamBox"; "com"; "comment"] p) as [c|]; [|now rewrite HQ2].
  destruct HC as (s & HS & HC). exists s. split; [exact HS|]. pose proof (codec_spec s) as HN. unfold findAllText. rewrite !HQ', HQ2.
  destruct HC as [(a & b & HC & C1 & C2)|(HC & C1)]; rewrite HC in HN; [left|right; now split].
  exists a, b. split; [exact HN|]. split; [|split; [exact C1|exact C2]].
  intros a' b' HX. apply codec_complete in HX. rewrite HC in HX. injection HX as -> ->. now split.
Qed.

(** Capture metadata repeats the XMP properties, without white space at the ends; the
    creator tool is split into name and version. *)
Theorem C68_capture p m rdf : findall ["properties"] rep = [p] -> findall ["propertiesExtension"; "mix:mix"] rep = [m] -> chosen_rdf p rdf ->
  (forall k q, In (k, q) capture_table -> exists v, xmp_value rdf k v /\
     match v with
     | Some s => exists t, trimmed (isspace E) s t /\ findAllText q m = [VStr t]
     | None => findAllText q m = []
     end) /\
  exists v, xmp_value rdf creator_tool v /\
    match v with
    | None => findall software_path m = []
    | Some s =>
        (exists a b, names_tool s a b /\ findAllText (software_path ++ ["mix:scanningSoftwareName"]) m = [VStr a] /\
                     findAllText (software_path ++ ["mix:scanningSoftwareVersionNo"]) m = [VStr b]) \/
        ((forall a b, ~ names_tool s a b) /\ findAllText (software_path ++ ["mix:scanningSoftwareName"]) m = [VStr s] /\
         findAllText (software_path ++ ["mix:scanningSoftwareVersionNo"]) m = [])
    end.
Proof.
  intros HP HM HC. destruct made as (p' & m' & HP' & HM' & HG). rewrite HP in HP'. rewrite HM in HM'. injection HP' as <-. injection HM' as <-.
  destruct (parts _ _ _ _ HG) as (bdoi & bii & icm & iam & _ & HI & T1 & T2 & T3 & T4 & _ & HK).
  destruct icm as [i|]; [|exfalso; now apply (proj1 (icm_rdf _ _ _ Hmf _ HI) eq_refl rdf)].
  assert (HQ : forall q, findall (mixICM_ :: q) m = findall q i).
  { intros q. cbn [findall]. rewrite HK. cbn [app filter]. rewrite T1, T2, T4, (proj1 (T3 _ eq_refl)). apply app_nil_r. }
  destruct (icm_capture _ _ _ _ _ Hmf HC HI) as (G1 & v & G2 & G3). split.
  - intros k q HIN. destruct (G1 k q HIN) as (w & W1 & W2). exists w. split; [exact W1|].
    assert (HX : findAllText q m = findAllText (tl q) i).
    { unfold findAllText. f_equal. cbn [capture_table In] in HIN. destruct HIN as [HIN|[HIN|[HIN|[HIN|[HIN|[]]]]]]; injection HIN as _ <-; apply HQ. }
    destruct w as [s|]; rewrite HX, W2; [|reflexivity]. exists (trim (isspace E) s). split; [apply trim_trimmed|reflexivity].
  - exists v. split; [exact G2|]. destruct v as [s|]; [|unfold software_path; rewrite HQ; exact G3].
    assert (HX : forall t, findAllText (software_path ++ [t]) m = findAllText (tl software_path ++ [t]) i) by (intros t; unfold findAllText; f_equal; apply HQ).
    rewrite !HX. pose proof (tool_spec s) as HT. destruct (searchTool s) as [(a, b)|]; [left; exists a, b; tauto|right; tauto].
Qed.
End Reports.
(** The specifications determine the values. *)
Theorem C68_determined :
  (forall rdf k v v', xmp_value rdf k v -> xmp_value rdf k v' -> v = v') /\
  (forall s a b a' b', names_tool s a b -> names_tool s a' b' -> a = a' /\ b = b') /\
  (forall s, has_dash_v s -> exists a b, names_codec s a b).
Proof.
  split; [exact xmp_value_fun|]. split; [exact tool_unique|]. intros s HS. pose proof (codec_spec s) as HX. destruct (searchCodec s) as [(a, b)|]; [eauto|tauto].
Qed.

(** A valid file with the comment "Kakadu-v7.10" and XMP metadata in an XML box. *)
Definition ex_xmp : elt := node "{adobe:ns:meta/}xmpmeta" [node "{http://www.w3.org/1999/02/22-rdf-syntax-ns#}RDF"
  [Elt xmp_description [("{http://ns.adobe.com/tiff/1.0/}Make", pys "Acme"); ("{http://ns.adobe.com/tiff/1.0/}Model", [])] VNone
     [leaf "{http://ns.adobe.com/xap/1.0/}CreateDate" (VStr (pys " 2020-02-29 ")); leaf creator_tool (VStr (pys "Scan Pro 2.1"))]]].
Definition E_xmp : env := {| catC := catC E0; isspace := isspace E0; xml_parse := fun _ => Some ex_xmp; pow10neg := pow10neg E0; str_limit := None |}.
Definition ex_xmp_file : bytes := ex_sig ++ ex_ftyp ++ ex_jp2h ++ [x00; x00; x00; x6d; x6a; x70; x32; x63] ++ ex_mainhdr ++
  [xff; x64; x00; x10; x00; x01; x4b; x61; x6b; x61; x64; x75; x2d; x76; x37; x2e; x31; x30] ++ ex_tile ++ [xff; xd9] ++
  [x00; x00; x00; x0a; x78; x6d; x6c; x20; x3c; x3e].
Definition ex_xmp_says (mf : Z) (q : list string) (ts : list string) : Prop :=
  match checkOneFile E_xmp 100 10 (pys "a") (ex_fo (Mapped ex_xmp_file)) (op "jp2" false) mf with
  | Ok r => says_valid r /\ findAllText (["propertiesExtension"; "mix:mix"] ++ q) r = map (fun t => VStr (pys t)) ts
  | _ => False end.
Example C68_ex :
  ex_xmp_says 2 (codec_path ++ ["mix:codec"]) ["Kakadu"] /\ ex_xmp_says 2 (codec_path ++ ["mix:codecVersion"]) ["7.10"] /\
  ex_xmp_says 1 [mixICM_; "mix:GeneralCaptureInformation"; "mix:dateTimeCreated"] ["2020-02-29"] /\
  ex_xmp_says 2 [mixICM_; "mix:ScannerCapture"; "mix:scannerManufacturer"] ["Acme"] /\
  ex_xmp_says 2 [mixICM_; "mix:ScannerCapture"; "mix:ScannerModel"; "mix:scannerModelName"] [] /\
  ex_xmp_says 2 (software_path ++ ["mix:scanningSoftwareName"]) ["Scan Pro"] /\
  ex_xmp_says 2 (software_path ++ ["mix:scanningSoftwareVersionNo"]) ["2.1"].
Proof. do 6 (split; [vm_compute; now split|]). vm_compute; now split. Qed.
(** The codec in the second line; only its last "-v" counts. *)
Example C68_codec_ex : names_codec (pys "made by" ++ [newline] ++ pys "a-v1-v2.0b" ++ [newline] ++ pys "x-v3") (pys "a-v1") (pys "2.0").
Proof. pose proof (codec_spec (pys "made by" ++ [newline] ++ pys "a-v1-v2.0b" ++ [newline] ++ pys "x-v3")) as H. exact H. Qed.

(** One check for the theorems of this file. *)
Definition all_theorems := (C68_layout, C68_codec, C68_capture, C68_determined).
Print Assumptions all_theorems.
