(** * Properties of the leaf boxes

    [validate E op fuel depth t c start csiz] is the model of
    [BoxValidator(options, t, c, start, csiz).validate()].  In every theorem the
    environment, options, budgets and optional arguments are arbitrary; the
    conditions and values that are reported come from SpecBox.v. *)

From Coq Require Import ZArith List Bool String Lia.
From Coq Require Import Init.Byte.
From Verif Require Import Py PyFloat ByteConv ETree BV VBoxes VSuper Spec SpecBox
     PBase PFloat PEmit PLeaf PLeaf2 Ex.
Import ListNotations.
Open Scope string_scope.
Open Scope list_scope.
Open Scope Z_scope.

(** C23 *)
Theorem C23_signature E op fuel d c start csiz :
  exists r, validate E op fuel (S d) (BTb tagJP) c start csiz = Ok r /\
    says (o_verbose op) "signatureBox" (sig_tests c) [] [] r /\
    (all_pass (r_tests r) <-> c = [x0d; x0a; x87; x0a]).
Proof. exact (reported_pass_iff _ _ _ _ _ _ _ _ _ _ _ _ (sig_says E op fuel d c start csiz) (sig_holds c)). Qed.
Print Assumptions C23_signature.
Example C23_signature_ex :
  passes (run "jp2" (BTb tagJP) [x0d; x0a; x87; x0a] VNone) = true /\
  failed (run "jp2" (BTb tagJP) [x0d; x0a; x87; x0b] VNone) = ["signatureIsValid"].
Proof. now vm_compute. Qed.

Theorem C23_filetype E op fuel d c start csiz :
  len c < 2 ^ 53 ->
  exists r, validate E op fuel (S d) (BTb tagFTYP) c start csiz = Ok r /\
    says (o_verbose op) "fileTypeBox" (ftyp_tests (o_format op) c) (leaves (ftyp_props c)) [] r /\
    (forall b, ftyp_brand (o_format op) = Some b ->
       (all_pass (r_tests r) <->
        len c mod 4 = 0 /\ sub c 0 4 = b /\ val c 4 4 = 0 /\
        exists i, 0 <= i < (len c - 8) / 4 /\ sub c (8 + 4 * i) 4 = b)).
Proof.
  intros H. destruct (reported_pass _ _ _ _ _ _ _ _ _ _ _ (ftyp_says E op fuel d c start csiz H))
    as (r & HR & HS & HA).
  exists r. split; [exact HR|]. split; [exact HS|]. intros b Hb. rewrite HA. now apply ftyp_holds.
Qed.
Print Assumptions C23_filetype.
Example C23_filetype_ex :
  let jp2 := [x6a; x70; x32; x20] in
  let c := jp2 ++ [x00; x00; x00; x00] ++ [x6d; x69; x66; x31] ++ jp2 in
  passes (run "jp2" (BTb tagFTYP) c VNone) = true /\
  failed (run "jph" (BTb tagFTYP) c VNone) = ["brandIsValid"; "compatibilityListIsValid"] /\
  texts (run "jp2" (BTb tagFTYP) c VNone) =
    [("br", VBytes jp2); ("minV", VInt 0); ("cL", VBytes [x6d; x69; x66; x31]); ("cL", VBytes jp2)].
Proof. now vm_compute. Qed.

(** C24.  The bPC clause of the statement is false: any readable value passes. *)
Theorem C24_ihdr E op fuel d c start csiz :
  exists r, validate E op fuel (S d) (BTb tagIHDR) c start csiz = Ok r /\
    says (o_verbose op) "imageHeaderBox" (ihdr_tests c) (leaves (ihdr_props c)) [] r /\
    (all_pass (r_tests r) <->
     len c = 14 /\ 1 <= val c 0 4 /\ 1 <= val c 4 4 /\ 1 <= val c 8 2 <= 16384 /\
     val c 11 1 = 7 /\ (val c 12 1 = 0 \/ val c 12 1 = 1) /\ (val c 13 1 = 0 \/ val c 13 1 = 1)).
Proof. exact (reported_pass_iff _ _ _ _ _ _ _ _ _ _ _ _ (ihdr_says E op fuel d c start csiz) (ihdr_holds c)). Qed.
Print Assumptions C24_ihdr.
Definition ihdr_ex (bpc : byte) : bytes :=
  [x00; x00; x00; x02; x00; x00; x00; x03; x00; x01; bpc; x07; x00; x00].
Example C24_ihdr_ex :
  passes (run "jp2" (BTb tagIHDR) (ihdr_ex x07) VNone) = true /\
  failed (run "jp2" (BTb tagIHDR) [x00; x00; x00; x00; x00] VNone) =
    ["boxLengthIsValid"; "heightIsValid"; "widthIsValid"; "nCIsValid"; "bPCIsValid"; "cIsValid"; "unkCIsValid"; "iPRIsValid"].
Proof. now vm_compute. Qed.

Theorem C24_bpc_refuted :
  exists E op fuel d c start csiz r,
    validate E op fuel d (BTb tagIHDR) c start csiz = Ok r /\
    all_pass (r_tests r) /\ ~ ihdr_bpc_documented c.
Proof.
  exists E0, (op "jp2" true), 1%nat, 1%nat, (ihdr_ex x7e), VNone, VNone. eexists.
  split; [vm_compute; reflexivity|]. split; [now apply anyFalse_spec|].
  unfold ihdr_bpc_documented. vm_compute. intros [[_ H] | H]; [now apply H | discriminate].
Qed.
Print Assumptions C24_bpc_refuted.

(** C25 *)
Theorem C25_bpcc E op fuel d c start csiz :
  exists r, validate E op fuel (S d) (BTb tagBPCC) c start csiz = Ok r /\
    says (o_verbose op) "bitsPerComponentBox" (bpcc_tests c) (leaves (bpcc_props c)) [] r /\
    (all_pass (r_tests r) <-> Forall (fun b => bz b mod 128 <= 37) c).
Proof. exact (reported_pass_iff _ _ _ _ _ _ _ _ _ _ _ _ (bpcc_says E op fuel d c start csiz) (bpcc_holds c)). Qed.
Print Assumptions C25_bpcc.
Example C25_bpcc_ex :
  passes (run "jp2" (BTb tagBPCC) [x07; x87; xa5] VNone) = true /\
  failed (run "jp2" (BTb tagBPCC) [x07; xa6; xff] VNone) = ["bPCIsValid"; "bPCIsValid"] /\
  texts (run "jp2" (BTb tagBPCC) [x87] VNone) = [("bPCSign", VInt 1); ("bPCDepth", VInt 8)].
Proof. now vm_compute. Qed.

(** C26.  One nested validator (the ICC profile) must fit in the recursion limit. *)
Theorem C26_colr E op fuel d c start csiz :
  exists r, validate E op fuel (S (S d)) (BTb tagCOLR) c start csiz = Ok r /\
    says (o_verbose op) "colourSpecificationBox" (colr_tests (o_format op) c) (colr_all_props c) [] r /\
    (o_format op = "jp2" \/ o_format op = "jph" ->
     (all_pass (r_tests r) <->
      val c 1 1 = 0 /\ val c 2 1 = 0 /\
      ( val c 0 1 = 1 /\ len c = 7 /\ 16 <= val c 3 4 <= 18
      \/ val c 0 1 = 2 /\
         (let p := colr_profile c in
          val p 0 4 = len p /\
          (sub p 12 4 = [x73; x63; x6e; x72] \/ sub p 12 4 = [x6d; x6e; x74; x72]) /\
          (forall i, 0 <= i < icc_ntags p -> icc_tag p i <> [x41; x32; x42; x30]))
      \/ o_format op = "jph" /\
         (val c 0 1 = 3 \/
          val c 0 1 = 5 /\
          In (val c 3 2) [1; 2; 4; 5; 6; 7; 8; 9; 10; 11; 12; 22] /\
          In (val c 5 2) [1; 2; 4; 5; 6; 7; 8; 9; 10; 11; 12; 13; 14; 15; 16; 17; 18] /\
          In (val c 7 2) [0; 1; 2; 4; 5; 6; 7; 8; 9; 10; 11; 12; 13; 14])))).
Proof.
  destruct (reported_pass _ _ _ _ _ _ _ _ _ _ _ (colr_says E op fuel d c start csiz))
    as (r & HR & HS & HA).
  exists r. split; [exact HR|]. split; [exact HS|]. intros HF. rewrite HA. now apply colr_holds.
Qed.
Print Assumptions C26_colr.
(** An ICC profile of 144 bytes with one tag, in a colour specification box. *)
Definition colr_icc_ex (cls tag : bytes) : bytes :=
  [x02; x00; x00] ++ [x00; x00; x00; x90] ++ repeat x00 8 ++ cls ++ repeat x00 112 ++
  [x00; x00; x00; x01] ++ tag ++ repeat x00 8.
Example C26_colr_ex :
  passes (run "jp2" (BTb tagCOLR) [x01; x00; x00; x00; x00; x00; x10] VNone) = true /\
  failed (run "jp2" (BTb tagCOLR) [x01; x00; x00; x00; x00; x00; x13] VNone) = ["enumCSIsValid"] /\
  failed (run "jp2" (BTb tagCOLR) [x05; x00; x00; x00; x01; x00; x01; x00; x01; x00] VNone) = ["methIsValid"] /\
  passes (run "jph" (BTb tagCOLR) [x05; x00; x00; x00; x01; x00; x01; x00; x01; x00] VNone) = true /\
  passes (run "jp2" (BTb tagCOLR) (colr_icc_ex [x6d; x6e; x74; x72] [x64; x65; x73; x63]) VNone) = true /\
  failed (run "jp2" (BTb tagCOLR) (colr_icc_ex [x70; x72; x74; x72] [x41; x32; x42; x30]) VNone) =
    ["iccPermittedProfileClass"; "iccNoLUTBasedProfile"].
Proof. now vm_compute. Qed.

Theorem C26_icc E op fuel d p start csiz :
  exists r, validate E op fuel (S d) (BTs "icc") p start csiz = Ok r /\
    says (o_verbose op) "icc" [] (leaves (icc_props p)) [] r.
Proof.
  destruct (reported_pass _ _ _ _ _ _ _ _ _ _ _ (icc_says E op fuel d p start csiz)) as (r & HR & HS & _).
  exists r. split; [exact HR|exact HS].
Qed.
Print Assumptions C26_icc.
Example C26_icc_ex :
  let p := [x00; x00; x00; x90; x61; x62; x63; x64; x04; x21; x00; x00] ++ repeat x00 116 ++
           [x00; x00; x00; x01; x64; x65; x73; x63; x00; x00; x00; x84; x00; x00; x00; x0c] in
  firstn 3 (texts (run "jp2" (BTs "icc") p VNone)) =
    [("profileSize", VInt 144); ("preferredCMMType", VBytes [x61; x62; x63; x64]);
     ("profileVersion", VStr (pys "4.2.1"))].
Proof. now vm_compute. Qed.

(** C27 *)
Theorem C27_pclr E op fuel d c start csiz :
  exists r, validate E op fuel (S d) (BTb tagPCLR) c start csiz = Ok r /\
    says (o_verbose op) "paletteBox" (pclr_tests c) (leaves (pclr_props c)) [] r /\
    (all_pass (r_tests r) <->
     1 <= val c 0 2 <= 1024 /\ 1 <= val c 2 1 /\
     (forall i, 0 <= i < val c 2 1 -> cdepth (val c (3 + i) 1) <= 38)).
Proof. exact (reported_pass_iff _ _ _ _ _ _ _ _ _ _ _ _ (pclr_says E op fuel d c start csiz) (pclr_holds c)). Qed.
Print Assumptions C27_pclr.
Example C27_pclr_ex :
  let c := [x00; x02; x02; x07; x07; x01; x02; x03; x04] in
  passes (run "jp2" (BTb tagPCLR) c VNone) = true /\
  texts (run "jp2" (BTb tagPCLR) c VNone) =
    [("nE", VInt 2); ("nPC", VInt 2);
     ("bSign", VInt 0); ("bDepth", VInt 8); ("cP", VInt 1); ("cP", VInt 2);
     ("bSign", VInt 0); ("bDepth", VInt 8); ("cP", VInt 3); ("cP", VInt 4)].
Proof. now vm_compute. Qed.

Theorem C27_cmap E op fuel d c start csiz :
  len c < 2 ^ 53 ->
  exists r, validate E op fuel (S d) (BTb tagCMAP) c start csiz = Ok r /\
    says (o_verbose op) "componentMappingBox" (cmap_tests c) (leaves (cmap_props c)) [] r /\
    (all_pass (r_tests r) <->
     (forall i, 0 <= i < len c / 4 ->
        0 <= val c (4 * i) 2 <= 16384 /\
        (val c (4 * i + 2) 1 = 0 /\ val c (4 * i + 3) 1 = 0 \/ val c (4 * i + 2) 1 = 1))).
Proof. exact (fun H => reported_pass_iff _ _ _ _ _ _ _ _ _ _ _ _ (cmap_says E op fuel d c start csiz H) (cmap_holds c)). Qed.
Print Assumptions C27_cmap.
Example C27_cmap_ex :
  passes (run "jp2" (BTb tagCMAP) [x00; x00; x01; x00; x00; x00; x01; x01] VNone) = true /\
  failed (run "jp2" (BTb tagCMAP) [x00; x00; x00; x05; xff; x00; x02; x01] VNone) =
    ["pColIsValid"; "cMPIsValid"; "mTypIsValid"].
Proof. now vm_compute. Qed.

Theorem C27_cdef E op fuel d c start csiz :
  exists r, validate E op fuel (S d) (BTb tagCDEF) c start csiz = Ok r /\
    says (o_verbose op) "channelDefinitionBox" (cdef_tests (o_format op) c) (leaves (cdef_props c)) [] r /\
    (o_format op = "jp2" ->
     (all_pass (r_tests r) <->
      1 <= val c 0 2 /\ len c = 2 + 6 * val c 0 2 /\
      (forall i, 0 <= i < val c 0 2 -> In (val c (4 + 6 * i) 2) [0; 1; 2; 65535]))) /\
    (o_format op = "jph" ->
     (all_pass (r_tests r) <->
      1 <= val c 0 2 /\ len c = 2 + 6 * val c 0 2 /\
      (forall i, 0 <= i < val c 0 2 -> In (val c (4 + 6 * i) 2) [0; 1; 2; 3; 65535]) /\
      len (cdef_alpha c) <= 1 /\ Forall (fun a => a = 0) (cdef_alpha c))).
Proof.
  destruct (reported_pass _ _ _ _ _ _ _ _ _ _ _ (cdef_says E op fuel d c start csiz))
    as (r & HR & HS & HA).
  exists r. split; [exact HR|]. split; [exact HS|]. split; intros HF; rewrite HA, HF.
  - apply cdef_holds_jp2.
  - apply cdef_holds_jph.
Qed.
Print Assumptions C27_cdef.
Example C27_cdef_ex :
  let c := [x00; x02; x00; x00; x00; x00; x00; x01; x00; x01; x00; x01; x00; x05] in
  passes (run "jp2" (BTb tagCDEF) c VNone) = true /\
  failed (run "jph" (BTb tagCDEF) c VNone) = ["cAssocAlphaChannelIsZero"].
Proof. now vm_compute. Qed.

(** The association test looks at the channel type: a box cut before its last
    association field passes it. *)
Theorem C27_cassoc_refuted :
  exists E op fuel d c start csiz r,
    validate E op fuel d (BTb tagCDEF) c start csiz = Ok r /\
    In (leaf "cAssocIsValid" (VBool true)) (ekids (r_tests r)) /\
    In (leaf "cAssoc" (VInt (-9999))) (ekids (r_chars r)) /\
    ~ In (leaf "cAssocIsValid" (VBool false)) (ekids (r_tests r)).
Proof.
  exists E0, (op "jp2" true), 1%nat, 1%nat, [x00; x01; x00; x00; x00; x00], VNone, VNone. eexists.
  split; [vm_compute; reflexivity|]. cbn. intuition discriminate.
Qed.
Print Assumptions C27_cassoc_refuted.

(** C28.  Non-zero denominators: the reported values; [res_metre] and the
    rounding are IEEE double operations (PyFloat.v). *)
Theorem C28_resolution E op fuel d c start csiz t x :
  t = tagRESC /\ x = "c" \/ t = tagRESD /\ x = "d" ->
  val c 2 2 <> 0 -> val c 6 2 <> 0 ->
  exists r, validate E op fuel (S d) (BTb t) c start csiz = Ok r /\
    says (o_verbose op) (boxTypeOf (BTb t)) (res_tests x c)
         (leaves (res_props (pow10neg E) x c)) [] r /\
    (all_pass (r_tests r) <->
     len c = 10 /\ 1 <= val c 0 2 /\ 1 <= val c 2 2 /\ 1 <= val c 4 2 /\ 1 <= val c 6 2).
Proof.
  intros [[-> ->] | [-> ->]] H1 H2.
  - exact (reported_pass_iff _ _ _ _ _ _ _ _ _ _ _ _ (resc_says E op fuel d c start csiz H1 H2) (res_holds _ c)).
  - exact (reported_pass_iff _ _ _ _ _ _ _ _ _ _ _ _ (resd_says E op fuel d c start csiz H1 H2) (res_holds _ c)).
Qed.
Print Assumptions C28_resolution.
Example C28_resolution_ex :
  let c := [x01; x2c; x00; x01; x01; x2c; x00; x01; x02; x02] in
  passes (run "jp2" (BTb tagRESC) c VNone) = true /\
  nth_error (texts (run "jp2" (BTb tagRESC) c VNone)) 6 =
    Some ("vRescInPixelsPerMeter", VFloat (float_of_Z 30000)) /\
  nth_error (texts (run "jp2" (BTb tagRESC) c VNone)) 8 =
    Some ("vRescInPixelsPerInch", VFloat (float_of_Z 762)).
Proof. now vm_compute. Qed.

(** A zero denominator raises instead of failing a test. *)
Theorem C28_zero_denominator_refuted E op fuel d c start csiz t :
  t = tagRESC \/ t = tagRESD ->
  val c 2 2 = 0 \/ val c 6 2 = 0 ->
  validate E op fuel (S d) (BTb t) c start csiz = Raise ZeroDivisionError.
Proof. exact (fun Ht H => res_raises E op fuel d c start csiz t Ht H). Qed.
Print Assumptions C28_zero_denominator_refuted.
Example C28_zero_denominator_refuted_ex :
  raises (run "jp2" (BTb tagRESC) (repeat x00 10) VNone) = Some ZeroDivisionError.
Proof. now vm_compute. Qed.

(** C56 *)
Theorem C56_xml E op fuel d c start csiz :
  exists r C, validate E op fuel (S d) (BTb tagXML) c start csiz = Ok r /\
    says (o_verbose op) "xmlBox" (xml_tests (xml_parse E) c) C [] r /\
    xml_shown (xml_parse E) (o_nullxml op) c C /\
    (all_pass (r_tests r) <-> exists e, xml_parse E c = Some e).
Proof.
  destruct (xml_says E op fuel d c start csiz) as (C & HC & HR).
  destruct (reported_pass _ _ _ _ _ _ _ _ _ _ _ HR) as (r & HV & HS & HA).
  exists r, C. split; [exact HV|]. split; [exact HS|]. split; [exact HC|]. rewrite HA.
  unfold xml_tests. rewrite holds_cons, holds_nil. tauto.
Qed.
Print Assumptions C56_xml.
Example C56_xml_ex :
  passes (run "jp2" (BTb tagXML) [x3c; x61; x3e] VNone) = true /\
  texts (run "jp2" (BTb tagXML) [x3c; x61; x3e] VNone) = [("doc", VNone)] /\
  failed (run "jp2" (BTb tagXML) [x3c; x61; x3e; x00] VNone) = ["containsWellformedXML"].
Proof. now vm_compute. Qed.

Theorem C56_uuid E op fuel d c start csiz :
  (len c < 16 -> validate E op fuel (S d) (BTb tagUUID) c start csiz = Raise ValueError) /\
  (16 <= len c -> sub c 0 16 <> xmp_uuid ->
   exists r, validate E op fuel (S d) (BTb tagUUID) c start csiz = Ok r /\
     says (o_verbose op) "uuidBox" [("boxLengthIsValid", 16 < len c)]
          (leaves [("uuid", VStr (uuid_text (sub c 0 16)))]) [] r) /\
  (sub c 0 16 = xmp_uuid ->
   exists r C, validate E op fuel (S d) (BTb tagUUID) c start csiz = Ok r /\
     says (o_verbose op) "uuidBox"
          (("boxLengthIsValid", 16 < len c) :: xml_tests (xml_parse E) (sub c 16 (len c - 16))) C [] r /\
     xml_shown (xml_parse E) (o_nullxml op) (sub c 16 (len c - 16)) C).
Proof.
  split; [exact (uuid_short_raises E op fuel d c start csiz)|]. split.
  - intros H1 H2. destruct (uuid_other_says E op fuel d c start csiz H1 H2) as (r & HR & HS & _).
    exists r. split; [exact HR | exact HS].
  - intros H. destruct (uuid_xmp_says E op fuel d c start csiz H) as (C & HC & r & HR & HS & _).
    exists r, C. auto.
Qed.
Print Assumptions C56_uuid.
Example C56_uuid_ex :
  raises (run "jp2" (BTb tagUUID) [x00] VNone) = Some ValueError /\
  texts (run "jp2" (BTb tagUUID) (repeat x1f 17) VNone) =
    [("uuid", VStr (pys "1f1f1f1f-1f1f-1f1f-1f1f-1f1f1f1f1f1f"))] /\
  texts (run "jp2" (BTb tagUUID) (xmp_uuid ++ [x3c; x3e]) VNone) = [("doc", VNone)].
Proof. now vm_compute. Qed.

(** C58: UUID list and URL boxes *)
Theorem C58_uuid_list E op fuel d c start csiz :
  (val c 0 2 * 16 + 2 <= len c ->
   exists r, validate E op fuel (S d) (BTb tagULST) c start csiz = Ok r /\
     says (o_verbose op) "uuidListBox" (ulst_tests c) (leaves (ulst_props c)) [] r /\
     (all_pass (r_tests r) <-> len c = val c 0 2 * 16 + 2)) /\
  (len c < val c 0 2 * 16 + 2 ->
   validate E op fuel (S d) (BTb tagULST) c start csiz = Raise ValueError).
Proof.
  split.
  - exact (fun H => reported_pass_iff _ _ _ _ _ _ _ _ _ _ _ _ (ulst_says E op fuel d c start csiz H) (ulst_holds c)).
  - exact (ulst_raises E op fuel d c start csiz).
Qed.
Print Assumptions C58_uuid_list.
Example C58_uuid_list_ex :
  passes (run "jp2" (BTb tagULST) ([x00; x01] ++ repeat xab 16) VNone) = true /\
  texts (run "jp2" (BTb tagULST) ([x00; x01] ++ repeat xab 16) VNone) =
    [("nU", VInt 1); ("uuid", VStr (pys "abababab-abab-abab-abab-abababababab"))] /\
  raises (run "jp2" (BTb tagULST) ([x00; x02] ++ repeat xab 16) VNone) = Some ValueError.
Proof. now vm_compute. Qed.

Theorem C58_url E op fuel d c start csiz :
  exists r loc, validate E op fuel (S d) (BTb tagURL) c start csiz = Ok r /\
    stripped (url_loc c) loc /\
    says (o_verbose op) "urlBox" (url_tests c) (leaves (url_props c loc)) [] r /\
    (all_pass (r_tests r) <-> holds (url_tests c)).
Proof.
  destruct (url_says E op fuel d c start csiz) as (loc & HL & HR).
  destruct (reported_pass _ _ _ _ _ _ _ _ _ _ _ HR) as (r & HV & HS & HA).
  exists r, loc. auto.
Qed.
Print Assumptions C58_url.
Example C58_url_ex :
  passes (run "jp2" (BTb tagURL) [x00; x00; x00; x00; x61; xc3; xa9; x00] VNone) = true /\
  failed (run "jp2" (BTb tagURL) [x00; x00; x00; x01; x61; xc3] VNone) =
    ["flagIsValid"; "locHasNullTerminator"; "locIsUTF8"].
Proof. now vm_compute. Qed.
