(** * MIX output for valid files: C53 (when it is made) and C65 (what it says) *)

From Coq Require Import ZArith List Bool String Lia QArith Qabs.
From Coq Require Import Init.Byte.
From Coq Require Import ZifyBool.
From Verif Require Import Py PyFloat ByteConv ETree BV VSuper Remap Mix CheckFile Spec SpecText SpecBox SpecMarker SpecWalk SpecSuper SpecCS SpecFile SpecTop SpecValid SpecNum SpecMix
     PBase PLeaf2 PWalk PSeg PText PHuman PFile PValid Prop_Boxes Prop_File Prop_Top Prop_CS Prop_Check Prop_Mix Prop_Report Prop_Num
     PMix PMixOk PMixFile Ex.
Import ListNotations.
Open Scope string_scope.
Open Scope list_scope.
Open Scope Z_scope.

(** ** C53: when MIX output is made *)
Lemma mix_run E fuel depth path fo o size mtime mf rep c :
  env_ok E -> fo_size fo = Ok size -> fo_mtime fo = Ok mtime -> fo_map fo = Mapped c -> In (o_format o) ["jp2"; "jph"] -> mf <> 0 ->
  checkOneFile E fuel depth path fo o 0 = Ok rep -> says_valid rep ->
  exists P r, ETree.find ["properties"] rep = Some (node "properties" P) /\ gives E o (BTs "JP2") c VNone VNone r /\ r_valid r = VBool true /\
    rel (shows (catC E) (str_limit E) propertiesRemapTable) (r_chars r) (node "properties" P) /\
    (forall e, generateMix (isspace E) mf (node "properties" P) = Raise e -> checkOneFile E fuel depth path fo o mf = Raise e) /\
    (forall m, generateMix (isspace E) mf (node "properties" P) = Ok m -> exists rep', checkOneFile E fuel depth path fo o mf = Ok rep' /\ says_valid rep').
Proof.
  intros HE H1 H2 HM HF Hmf HR HSV. revert HR. unfold checkOneFile. rewrite H1, H2. cbn [rbind Z.eqb negb andb].
  replace (mf =? 0) with false by lia. cbn [negb].
  pose proof (analyse_spec E fuel depth path (fo_map fo) o HE) as HS.
  destruct (analyse E fuel depth path (fo_map fo) o) as [a|e|]; [| |discriminate].
  2:{ intros HR. injection HR as <-. discriminate HSV. }
  destruct HS as (v & T & P & W & -> & -> & -> & -> & HA). destruct v; [|intros HR; injection HR as <-; discriminate HSV].
  intros HR. cbn [truth andb].
  destruct HA as (b & w & t & r & W0 & HC & HT & HV & Hv & _ & HP & _). rewrite HM in HC. inversion HC; subst b w.
  destruct HT as [(_ & ->)|(HI & _)]; [|exfalso; cbn in HF, HI; intuition congruence].
  exists P, r. split; [injection HR as <-; reflexivity|]. split; [now exists fuel, depth|]. split; [exact Hv|]. split; [exact HP|].
  split; intros x ->; cbn [rbind]; [reflexivity|]. eexists. split; [reflexivity|]. reflexivity.
Qed.
(** For a valid JP2 or JPH file MIX output is made exactly if some colour
    specification box gives a profile or an enumerated colour space, and the XMP
    metadata used (if any) has an rdf:Description. Otherwise the run stops with an
    AttributeError. *)
Theorem C53_complete E fuel depth path fo o size mtime mf rep c bs hx hb P :
  env_ok E -> pow_ok (pow10neg E) -> fo_size fo = Ok size -> fo_mtime fo = Ok mtime -> fo_map fo = Mapped c ->
  In (o_format o) ["jp2"; "jph"] -> len c < 2 ^ 53 -> mf <> 0 ->
  checkOneFile E fuel depth path fo o 0 = Ok rep -> says_valid rep -> ETree.find ["properties"] rep = Some P ->
  splits c bs -> boxes_of t_jp2h bs = [hx] -> splits hx hb ->
  let made := Exists (fun x => In (val x 0 1) [1; 2; 3]) (boxes_of t_colr hb) /\ xmp_ok P in
  (made -> exists rep', checkOneFile E fuel depth path fo o mf = Ok rep' /\ says_valid rep') /\
  (~ made -> checkOneFile E fuel depth path fo o mf = Raise AttributeError).
Proof.
  intros HE HW H1 H2 HM HF HL Hmf HR HSV HPR HS B1 B2. cbv zeta.
  destruct (mix_run E fuel depth path fo o size mtime mf rep c HE H1 H2 HM HF Hmf HR HSV) as (P' & r & HPR' & HG & HV & HP & R1 & R2).
  rewrite HPR in HPR'. injection HPR' as ->.
  assert (HX := h_when E o c bs r P' HF HS HG HV HL HE HW HP mf hx hb Hmf B1 B2). cbv zeta in HX. destruct HX as (W1 & W2). split.
  - intros (X1 & X2). destruct (W1 X1 X2) as (m & HMX). exact (R2 m HMX).
  - intros HN. exact (R1 _ (W2 HN)).
Qed.
(** In particular a valid JP2 file without XML and UUID boxes has MIX output. *)
Theorem C53_jp2 E fuel depth path fo o size mtime mf rep c bs :
  env_ok E -> pow_ok (pow10neg E) -> fo_size fo = Ok size -> fo_mtime fo = Ok mtime -> fo_map fo = Mapped c ->
  o_format o = "jp2" -> len c < 2 ^ 53 -> mf <> 0 ->
  checkOneFile E fuel depth path fo o 0 = Ok rep -> says_valid rep ->
  splits c bs -> boxes_of t_xml bs = [] -> boxes_of t_uuid bs = [] ->
  exists rep', checkOneFile E fuel depth path fo o mf = Ok rep' /\ says_valid rep'.
Proof.
  intros HE HW H1 H2 HM HFJ HL Hmf HR HSV HS N1 N2.
  assert (HF : In (o_format o) ["jp2"; "jph"]) by (rewrite HFJ; now left).
  destruct (mix_run E fuel depth path fo o size mtime mf rep c HE H1 H2 HM HF Hmf HR HSV) as (P & r & HPR & HG & HV & HP & _).
  destruct (h_header E o c bs r P HS HG HV HL HW HP) as (hx & hb & us & w & h & B1 & B2 & _ & HT & HCT & _).
  destruct (C53_complete E fuel depth path fo o size mtime mf rep c bs hx hb _ HE HW H1 H2 HM HF HL Hmf HR HSV HPR HS B1 B2) as (HX & _). apply HX. split.
  - assert (HC : In t_colr (map fst hb)).
    { apply (holds_in _ "containsColourSpecificationBox" _ HT). unfold jp2h_tests. cbv zeta. rewrite HFJ. apply in_or_app. right. apply in_or_app. left. now left. }
    apply boxes_of_in in HC. destruct (boxes_of t_colr hb) as [|x xs]; [congruence|]. apply Exists_exists. exists x.
    assert (HIX : In x (x :: xs)) by (now left). split; [exact HIX|].
    rewrite Forall_forall in HCT. specialize (HCT x HIX). rewrite HFJ in HCT.
    assert (HMT : In (val x 0 1) [1; 2]).
    { unfold colr_tests in HCT. cbv zeta in HCT.
      assert (HCC : holds (colr_common "jp2" x)).
      { destruct (val x 0 1 =? 1); [unfold colr_enum_tests in HCT; apply holds_app in HCT; tauto|]. destruct (val x 0 1 =? 2); [unfold colr_icc_tests in HCT; apply holds_app in HCT; tauto|].
        destruct (val x 0 1 =? 5); [unfold colr_param_tests in HCT; apply holds_app in HCT; tauto|exact HCT]. }
      apply (holds_in _ "methIsValid" _ HCC). left. reflexivity. }
    cbn in *. tauto.
  - intros x HX'. exfalso. destruct HX' as [x HX' _|x _ HX' _].
    + pose proof (v_none E o c bs r HS HG) as HN. unfold xmp_path in HX'. rewrite (r_none E _ _ _ HP (HN t_xml "xmlBox" _ ltac:(now left) N1)) in HX'. discriminate.
    + pose proof (v_none E o c bs r HS HG) as HN. unfold xmp_path in HX'. rewrite (r_none E _ _ _ HP (HN t_uuid "uuidBox" _ ltac:(right; now left) N2)) in HX'. discriminate.
Qed.

(** A valid JPH file whose only colour specification box has method 5 (parameterised
    colour space): valid, but with MIX output requested the run stops. *)
Definition ex_ihdr : bytes := [x00; x00; x00; x16; x69; x68; x64; x72; x00; x00; x00; x02; x00; x00; x00; x02; x00; x01; x07; x07; x00; x00].
Definition ex_jph_colr : bytes := [x00; x00; x00; x12; x63; x6f; x6c; x72; x05; x00; x00; x00; x01; x00; x01; x00; x01; x00].
Definition ex_jph_cs : bytes := [xff; x4f; xff; x51; x00; x29; x40; x00; x00; x00; x00; x02; x00; x00; x00; x02; x00; x00; x00; x00; x00; x00; x00; x00; x00; x00; x00; x02; x00; x00; x00; x02;
  x00; x00; x00; x00; x00; x00; x00; x00; x00; x01; x07; x01; x01; xff; x50; x00; x08; x00; x02; x00; x00; x00; x00; xff; x52; x00; x0c; x00; x00; x00; x01; x00; x00; x00; x00; x40; x01;
  xff; x5c; x00; x04; x40; x40] ++ ex_tile ++ [xff; xd9].
Definition ex_jph_file : bytes := ex_sig ++ [x00; x00; x00; x14; x66; x74; x79; x70; x6a; x70; x68; x20; x00; x00; x00; x00; x6a; x70; x68; x20] ++
  [x00; x00; x00; x30; x6a; x70; x32; x68] ++ ex_ihdr ++ ex_jph_colr ++ [x00; x00; x00; x65; x6a; x70; x32; x63] ++ ex_jph_cs.
Theorem C53_colour_refuted :
  (match checkOneFile E0 100 10 (pys "a") (ex_fo (Mapped ex_jph_file)) (op "jph" false) 0 with Ok r => says_valid r | _ => False end) /\
  checkOneFile E0 100 10 (pys "a") (ex_fo (Mapped ex_jph_file)) (op "jph" false) 1 = Raise AttributeError.
Proof. split; now vm_compute. Qed.
Example C53_complete_ex :
  pow_ok (pow10neg E0) /\ len ex_file < 2 ^ 53 /\
  (match checkOneFile E0 100 10 (pys "a") (ex_fo (Mapped ex_file)) (op "jp2" false) 0 with Ok r => says_valid r | _ => False end) /\
  (match checkOneFile E0 100 10 (pys "a") (ex_fo (Mapped ex_file)) (op "jp2" false) 1 with Ok r => says_valid r | _ => False end).
Proof. split; [exact pow_ok_rounded|]. split; [reflexivity|]. split; now vm_compute. Qed.

(** ** C65: what MIX output says about a valid file *)
(** The space is white space; the other printable ASCII characters are not. *)
Definition space_ok (E : env) : Prop := isspace E 32 = true /\ forall c, 33 <= c < 127 -> isspace E c = false.
Lemma drop_spec isp s : exists a, s = a ++ dropWhile isp s /\ Forall (fun c => isp c = true) a /\ (dropWhile isp s = [] \/ exists c t, dropWhile isp s = c :: t /\ isp c = false).
Proof.
  induction s as [|c s (a & H1 & H2 & H3)]; [exists []; cbn; auto|]. cbn [dropWhile]. destruct (isp c) eqn:EC.
  - exists (c :: a). split; [cbn; congruence|]. split; [now constructor|exact H3].
  - exists []. split; [reflexivity|]. split; [constructor|]. right. eauto.
Qed.
Lemma trim_trimmed isp s : trimmed isp s (trim isp s).
Proof.
  unfold trim. destruct (drop_spec isp s) as (a & H1 & H2 & H3). destruct (drop_spec isp (rev (dropWhile isp s))) as (b & H4 & H5 & H6).
  set (u := dropWhile isp s) in *. set (w := dropWhile isp (rev u)) in *. exists a, (rev b).
  assert (HU : u = rev w ++ rev b) by (rewrite <- rev_app_distr, <- H4; now rewrite rev_involutive).
  split; [rewrite <- HU; exact H1|]. split; [apply Forall_app; split; [exact H2|now apply Forall_rev]|].
  destruct H6 as [H6|(c & t & H6 & H7)]; [left; now rewrite H6|]. right. split.
  - destruct (rev w) as [|d rw] eqn:ER; [exfalso; rewrite H6 in ER; cbn in ER; now destruct (rev t)|]. cbn in HU. destruct H3 as [H3|(c' & t' & H3 & H3')]; [congruence|].
    exists d, rw. split; [reflexivity|]. rewrite HU in H3. injection H3 as <- _. exact H3'.
  - exists c, (rev t). split; [now rewrite H6|exact H7].
Qed.
Lemma trim_names E sc n : space_ok E -> In (n, sc) enum_names -> trim (isspace E) sc = sc.
Proof.
  intros (_ & HP) HI. cbn in HI. destruct HI as [HI|[HI|[HI|[]]]]; injection HI as _ <-; unfold trim; cbn [pys list_ascii_of_string map]; cbn; repeat (rewrite !HP by lia; cbn); reflexivity.
Qed.
Lemma trim_brand E b : space_ok E -> trim (isspace E) (pys (if b : bool then "jp2 " else "jph ")) = pys (if b then "jp2" else "jph").
Proof. intros (HS & HP). destruct b; unfold trim; cbn; rewrite !HP by lia; cbn; rewrite HS; cbn; rewrite !HP by lia; reflexivity. Qed.

Lemma dec0 z : pystr_eqb (str_of_Z z) (pys "0") = (z =? 0).
Proof.
  destruct (Z.eqb_spec z 0) as [->|HZ]; [reflexivity|]. destruct (pystr_eqb _ _) eqn:EP; [|reflexivity]. exfalso. apply HZ.
  apply pystr_eqb_spec in EP. destruct (str_decimal z) as (ds & H1 & _ & _ & H2 & _). rewrite EP in H1. destruct (z <? 0) eqn:EZ; [discriminate H1|].
  cbn [app] in H1. subst ds. cbn in H2. lia.
Qed.
Definition mixComp := ["mix:BasicDigitalObjectInformation"; "mix:Compression"].
Definition mixSpat := ["mix:ImageAssessmentMetadata"; "mix:SpatialMetrics"].
(** Format, compression, layers and levels, colour space and sampling frequencies of
    a valid JP2 or JPH file are those of the file: of its first codestream and of the
    boxes in its JP2 header. (The sizes and bit depths: C52.) *)
Theorem C65_file E fuel depth path fo o size mtime mf rep c bs :
  env_ok E -> pow_ok (pow10neg E) -> space_ok E -> fo_size fo = Ok size -> fo_mtime fo = Ok mtime -> fo_map fo = Mapped c ->
  In (o_format o) ["jp2"; "jph"] -> len c < 2 ^ 53 -> mf <> 0 ->
  checkOneFile E fuel depth path fo o mf = Ok rep -> says_valid rep -> splits c bs ->
  exists y ys l rest k ks hx hb us,
    boxes_of t_jp2c bs = y :: ys /\ after m_SOT (cs_second y) l rest /\ segs_of m_COD l = k :: ks /\
    boxes_of t_jp2h bs = [hx] /\ splits hx hb /\ Forall2 splits (boxes_of t_res hb) us /\
    let z := cs_siz y in
    let ratio := Qdiv (inject_Z (fold_right Z.add 0 (siz_depths z) * (val z 8 4 - val z 16 4) * (val z 4 4 - val z 12 4))) (inject_Z (8 * len c)) in
    let mix q := findAllText (["propertiesExtension"; "mix:mix"] ++ q) rep in
    let says q t := mix q = [VStr (pys t)] in
    let gives_num q v := exists s, decimal v s /\ mix q = [VStr s] in
    let shown t v s := shows (catC E) (str_limit E) propertiesRemapTable t v (VStr s) in
    says ["mix:BasicDigitalObjectInformation"; "mix:FormatDesignation"; "mix:formatName"] (if String.eqb (o_format o) "jp2" then "image/jp2" else "image/jph") /\
    says ["mix:BasicDigitalObjectInformation"; "mix:byteOrder"] (if mf =? 1 then "big_endian" else "big endian") /\
    says (mixComp ++ ["mix:compressionScheme"]) (if val k 11 1 =? 1 then "JPEG 2000 Lossless" else "JPEG 2000 Lossy") /\
    (mf = 1 -> exists v, gives_num (mixComp ++ ["mix:compressionRatio"]) v /\ rounded v ratio) /\
    (mf <> 1 -> exists v, gives_num (mixComp ++ ["mix:compressionRatio"; "mix:numerator"]) v /\
                says (mixComp ++ ["mix:compressionRatio"; "mix:denominator"]) "100" /\ in_hundredths v ratio) /\
    gives_num (mixENC ++ ["mix:qualityLayers"]) (val k 4 2) /\
    (if val k 7 1 =? 0 then mix (mixENC ++ ["mix:resolutionLevels"]) = [] else gives_num (mixENC ++ ["mix:resolutionLevels"]) (val k 7 1)) /\
    (forall x xs, filter is_icc (boxes_of t_colr hb) = x :: xs ->
       exists sc t sd, shown "colourSpace" (VBytes (sub (colr_profile x) 16 4)) sc /\ trimmed (isspace E) sc t /\
         shown "description" (first_desc (colr_profile x) (zseq (icc_ntags (colr_profile x)))) sd /\
         mix ("mix:BasicImageInformation" :: mixPI ++ ["mix:colorSpace"]) = [VStr t] /\
         mix ("mix:BasicImageInformation" :: mixPI ++ ["mix:ColorProfile"; "mix:IccProfile"; "mix:iccProfileName"]) = [VStr sd]) /\
    (filter is_icc (boxes_of t_colr hb) = [] ->
       exists x xs t, filter is_enum (boxes_of t_colr hb) = x :: xs /\ In (colr_enum x, t) enum_names /\
         mix ("mix:BasicImageInformation" :: mixPI ++ ["mix:colorSpace"]) = [VStr t] /\
         mix ("mix:BasicImageInformation" :: mixPI ++ ["mix:ColorProfile"; "mix:IccProfile"; "mix:iccProfileName"]) = []) /\
    match best_res us with
    | Some w =>
        says (mixSpat ++ ["mix:samplingFrequencyUnit"]) (if mf =? 1 then "3" else "cm") /\
        says (mixSpat ++ ["mix:xSamplingFrequency"; "mix:denominator"]) "10000" /\
        says (mixSpat ++ ["mix:ySamplingFrequency"; "mix:denominator"]) "10000" /\
        (exists v, gives_num (mixSpat ++ ["mix:xSamplingFrequency"; "mix:numerator"]) v /\ sampled v (hres w)) /\
        (exists v, gives_num (mixSpat ++ ["mix:ySamplingFrequency"; "mix:numerator"]) v /\ sampled v (vres w))
    | None => mix mixSpat = []
    end.
Proof.
  intros HE HW HSP H1 H2 HM HF HL Hmf HR HSV HS.
  destruct (C51_extension E fuel depth path fo o size mtime mf rep HE H1 H2 Hmf HR) as (st0 & v0 & T & P & W & ext & HR0 & -> & Hin & HX).
  assert (Hv : v0 = "True").
  { unfold says_valid in HSV. change (findElementText ["isValid"] (report fo o size mtime st0 v0 T P [node "propertiesExtension" ext] W)) with (VStr (pys v0)) in HSV.
    destruct Hin as [<-|[<-|[]]]; [reflexivity|discriminate HSV]. }
  subst v0. destruct HX as [(_ & _ & m & -> & HG & Hm)|(HX & _)]; [|tauto].
  assert (HMIX : forall q, findAllText (["propertiesExtension"; "mix:mix"] ++ q) (report fo o size mtime st0 "True" T P [node "propertiesExtension" [m]] W) = findAllText q m).
  { intros q. unfold findAllText. f_equal. unfold report. cbn [app findall ekids node leaf filter etag String.eqb Ascii.eqb Bool.eqb flat_map]. rewrite Hm. cbn. now rewrite !app_nil_r. }
  assert (HSV0 : says_valid (report fo o size mtime st0 "True" T P [] W)) by reflexivity.
  destruct (mix_run E fuel depth path fo o size mtime mf _ c HE H1 H2 HM HF Hmf HR0 HSV0) as (P' & r & HPR & HGV & HV & HP & _).
  assert (P' = P) as -> by (injection HPR as <-; reflexivity).
  destruct (mix_parts _ _ _ _ HG) as (bdoi & bii & iam & M1 & M2 & M3 & F1 & F2 & F3).
  destruct (h_bdoi E o c bs r P HF HS HGV HV HL HE HP mf) as (y & ys & l & rest & k & ks & st & v & B1 & B2 & B3 & B4 & B5 & B6). rewrite M1 in B6. injection B6 as B6.
  destruct (h_cs E o c bs r P HS HGV HV HL HP) as (y' & ys' & l' & rest' & k' & ks' & st' & ly & lv & sx & sy & zz & ss & sn & A1 & A2 & A3 & AT & _ & _ & K1 & K2 & K3 & K4 & _).
  rewrite B1 in A1. injection A1 as <- <-. destruct (after_unique _ _ _ _ _ _ B2 A2) as (<- & <-). rewrite B3 in A3. injection A3 as <- <-.
  destruct (h_bii E o c bs r P HS HGV HV HL HW HP mf) as (hx & hb & C1 & C2 & _ & D2 & D3).
  destruct (h_iam E o c bs r P HS HGV HV HL HW HP mf) as (hx' & hb' & us & b & n & C1' & C2' & C3 & M3' & N1 & N2). rewrite M3 in M3'. injection M3' as <-.
  rewrite C1 in C1'. injection C1' as <-. rewrite (splits_unique _ _ C2' _ C2) in C3. clear C2' hb'.
  exists y, ys, l, rest, k, ks, hx, hb, us. do 6 (split; [assumption|]).
  intros z ratio mix says gives_num shown. assert (Hmix : forall q, mix q = findAllText q m) by exact HMIX. unfold says, gives_num. clear says gives_num. clearbody mix.
  rewrite !Hmix. destruct (C52_values _ _ _ _ HG) as (_ & _ & _ & V4 & V5 & _). unfold mixComp, mixSpat. cbn [app].
  assert (X1 : forall q, findAllText ("mix:BasicDigitalObjectInformation" :: q) m = findAllText q bdoi) by (intros q; unfold findAllText; now rewrite F1).
  assert (X2 : forall q, findAllText ("mix:BasicImageInformation" :: q) m = findAllText q bii) by (intros q; unfold findAllText; now rewrite F2).
  assert (X3 : forall q, findAllText ("mix:ImageAssessmentMetadata" :: "mix:SpatialMetrics" :: q) m = flat_map (fun e => map etext (findall q e)) (metrics mf n)).
  { intros q. unfold findAllText. rewrite F3, <- N1. change ("mix:SpatialMetrics" :: q) with (["mix:SpatialMetrics"] ++ q). rewrite findall_app. generalize (findall ["mix:SpatialMetrics"] iam). clear. intros L. induction L as [|e L IH]; [reflexivity|]. cbn [flat_map]. rewrite map_app. f_equal. exact IH. }
  assert (Y4 := V4 _ K1). assert (Y5 := V5 _ K3).
  split; [|split; [|split; [|split; [|split; [|split; [|split; [|split; [|split]]]]]]]].
  - rewrite X1, B6, (trim_brand E (String.eqb (o_format o) "jp2") HSP). cbn. destruct (String.eqb (o_format o) "jp2"); reflexivity.
  - rewrite X1, B6. reflexivity.
  - assert (HSC : scheme_of st = pys (if val k 11 1 =? 1 then "JPEG 2000 Lossless" else "JPEG 2000 Lossy")).
    { unfold lossless_text in B4. cbn in B4. destruct B4 as [B4|[B4|[]]]; injection B4 as <- <-; reflexivity. }
    rewrite X1, B6, HSC. destruct (mf =? 1); reflexivity.
  - intros Hm1. exists v. rewrite X1, B6. replace (mf =? 1) with true in * by lia. split; [exists (str_of_Z v); split; [apply str_decimal|reflexivity]|exact B5].
  - intros Hm1. exists v. rewrite !X1, B6. replace (mf =? 1) with false in * by lia. split; [exists (str_of_Z v); split; [apply str_decimal|reflexivity]|]. split; [reflexivity|exact B5].
  - exists ly. split; [exact K2|]. rewrite Y4. unfold unless0. apply decimal_iff in K2. rewrite K2.
    assert (HLY : btw 1 (val k 4 2) 65535) by (apply (holds_in _ "layersIsValid" _ AT); unfold cod_tests; rewrite !in_app_iff; left; cbn; tauto).
    rewrite dec0. unfold btw in HLY. replace (val k 4 2 =? 0) with false by lia. reflexivity.
  - apply decimal_iff in K4. unfold unless0 in Y5. rewrite K4, dec0 in Y5. destruct (val k 7 1 =? 0); [exact Y5|]. exists (str_of_Z (val k 7 1)). split; [apply str_decimal|exact Y5].
  - intros x xs HX. destruct (D2 x xs HX) as (b' & sc & sd & G1 & G2 & G3 & G4 & G5). rewrite M2 in G1. injection G1 as <-.
    exists sc, (trim (isspace E) sc), sd. split; [exact G2|]. split; [apply trim_trimmed|]. split; [exact G3|]. rewrite !X2. split; [exact G4|exact G5].
  - intros HX. destruct (filter is_enum (boxes_of t_colr hb)) as [|x xs] eqn:EX.
    { exfalso. destruct (h_bii E o c bs r P HS HGV HV HL HW HP mf) as (hx2 & hb2 & C1'' & C2'' & D1 & _). rewrite C1 in C1''. injection C1'' as <-. rewrite (splits_unique _ _ C2'' _ C2) in D1.
      rewrite (D1 HX EX) in M2. discriminate. }
    destruct (D3 x xs HX eq_refl) as (b' & sc & G1 & G2 & G4 & G5). rewrite M2 in G1. injection G1 as <-.
    exists x, xs, sc. split; [reflexivity|]. split; [exact G2|]. rewrite !X2. rewrite (trim_names E sc _ HSP G2) in G4. split; [exact G4|exact G5].
  - destruct (best_res us) as [w|]; [|subst n; unfold findAllText; rewrite F3, N1; reflexivity].
    destruct N2 as (vx & vy & -> & S1 & S2). rewrite !X3. split; [reflexivity|]. split; [reflexivity|]. split; [reflexivity|].
    split; [exists vx|exists vy]; (split; [eexists; split; [apply str_decimal|reflexivity]|assumption]).
Qed.

(** A file with a capture resolution of 11811 pixels per metre horizontally and 0.29
    vertically. *)
Definition ex_resc : bytes := [x00; x1d; x00; x64; x2e; x23; x00; x01; x00; x00].
Definition ex_res_file : bytes := ex_sig ++ ex_ftyp ++ [x00; x00; x00; x47; x6a; x70; x32; x68] ++ ex_ihdr ++
  [x00; x00; x00; x0f; x63; x6f; x6c; x72; x01; x00; x00; x00; x00; x00; x11] ++
  [x00; x00; x00; x1a; x72; x65; x73; x20; x00; x00; x00; x12; x72; x65; x73; x63] ++ ex_resc ++ ex_jp2c.
Definition ex_says (mf : Z) (q : list string) (t : string) : Prop :=
  match checkOneFile E0 100 10 (pys "a") (ex_fo (Mapped ex_res_file)) (op "jp2" false) mf with
  | Ok r => says_valid r /\ findAllText (["propertiesExtension"; "mix:mix"] ++ q) r = [VStr (pys t)]
  | _ => False end.
Example C65_file_ex :
  space_ok E0 /\ pow_ok (pow10neg E0) /\ len ex_res_file < 2 ^ 53 /\
  ex_says 2 ["mix:BasicDigitalObjectInformation"; "mix:FormatDesignation"; "mix:formatName"] "image/jp2" /\
  ex_says 2 (mixComp ++ ["mix:compressionScheme"]) "JPEG 2000 Lossless" /\
  ex_says 2 (mixComp ++ ["mix:compressionRatio"; "mix:numerator"]) "2" /\
  ex_says 1 (mixComp ++ ["mix:compressionRatio"]) "0" /\
  ex_says 2 ("mix:BasicImageInformation" :: mixPI ++ ["mix:colorSpace"]) "greyscale" /\
  ex_says 2 (mixENC ++ ["mix:qualityLayers"]) "1" /\
  (hres ex_resc == 11811)%Q /\ ex_says 2 (mixSpat ++ ["mix:xSamplingFrequency"; "mix:numerator"]) "1181100".
Proof.
  split; [split; [reflexivity|]; intros c Hc; cbn; lia|]. split; [exact pow_ok_rounded|]. split; [reflexivity|].
  split; [vm_compute; now split|]. split; [vm_compute; now split|]. split; [vm_compute; now split|]. split; [vm_compute; now split|].
  split; [vm_compute; now split|]. split; [vm_compute; now split|]. split; [reflexivity|]. vm_compute; now split.
Qed.
(** The sampling frequency is cut, not rounded, to a whole number of 1/100: the
    resolution 29/100 of this valid file is shown as 0.29 but becomes 28/100. *)
Theorem C65_frequency_refuted :
  (vres ex_resc == 29 # 100)%Q /\
  (match checkOneFile E0 100 10 (pys "a") (ex_fo (Mapped ex_res_file)) (op "jp2" false) 0 with
   | Ok r => says_valid r /\ findAllText (["properties"] ++ capture_path ++ ["vRescInPixelsPerMeter"]) r = [VStr (pys "0.29")]
   | _ => False end) /\
  ex_says 2 (mixSpat ++ ["mix:ySamplingFrequency"; "mix:numerator"]) "28".
Proof. split; [reflexivity|]. split; vm_compute; now split. Qed.

(** One check for the theorems of this file. *)
Definition all_theorems := (C53_complete, C53_jp2, C53_colour_refuted, C65_file, C65_frequency_refuted).
Print Assumptions all_theorems.
