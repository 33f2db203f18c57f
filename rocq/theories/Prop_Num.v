(** * Numbers with decimals in reports: C64 *)

From Coq Require Import ZArith List Bool String Lia QArith Qabs SpecFloat.
From Coq Require Import Init.Byte.
From Coq Require Import ZifyBool.
From Verif Require Import Py PyFloat ByteConv ETree BV VSuper Remap Mix CheckFile Spec SpecText SpecNum SpecBox SpecMarker SpecWalk SpecSuper SpecCS SpecFile SpecTop SpecValid
     PBase PText PHuman PEmit PLeaf PLeaf2 PRepr PAcc Ex PSuper PTop PFile PValid Prop_Boxes Prop_File Prop_Top Prop_CS Prop_Check Prop_Report Prop_Mix.
Import ListNotations.
Open Scope string_scope.
Open Scope list_scope.
Open Scope Z_scope.

(** ** C64: reading back *)

(** The text of a finite double, converted back, is that double. *)
Theorem C64_readback f : finite64 f -> parse_float (repr_float f) = Some f.
Proof. exact (repr_parse f). Qed.
Print Assumptions C64_readback.
Theorem C64_distinct f g : finite64 f -> finite64 g -> repr_float f = repr_float g -> f = g.
Proof. intros Hf Hg H. pose proof (repr_parse f Hf) as HF. rewrite H, (repr_parse g Hg) in HF. now injection HF. Qed.
Print Assumptions C64_distinct.
Example C64_readback_ex :
  finite64 (float_of_Z 762) /\ repr_float (float_of_Z 762) = pys "762.0" /\
  finite64 (round_pos true 1 3) /\ repr_float (round_pos true 1 3) = pys "-0.3333333333333333" /\
  finite64 (round_pos false (10 ^ 30) 1) /\ repr_float (round_pos false (10 ^ 30) 1) = pys "1e+30".
Proof. vm_compute. repeat split; try (intros H; discriminate H); try (now left). Qed.

(** ** C64: the resolution in pixels per metre and per inch *)
Theorem C64_resolution E op fuel d c start csiz t x : pow_ok (pow10neg E) ->
  t = tagRESC /\ x = "c" \/ t = tagRESD /\ x = "d" -> len c = 10 -> val c 2 2 <> 0 -> val c 6 2 <> 0 ->
  exists r, validate E op fuel (S d) (BTb t) c start csiz = Ok r /\
    let v := (inject_Z (val c 0 2) / inject_Z (val c 2 2) * p10 (sval c 8))%Q in
    let h := (inject_Z (val c 4 2) / inject_Z (val c 6 2) * p10 (sval c 9))%Q in
    Forall (fun '(tag, y) => exists f, In (leaf tag (VFloat f)) (ekids (r_chars r)) /\ printed (repr_float f) y)
      [ ("vRes" ++ x ++ "InPixelsPerMeter", v); ("hRes" ++ x ++ "InPixelsPerMeter", h);
        ("vRes" ++ x ++ "InPixelsPerInch", v * (254 # 10000))%Q; ("hRes" ++ x ++ "InPixelsPerInch", h * (254 # 10000))%Q ]%string.
Proof.
  intros HP Ht HL H1 H2. destruct (C28_resolution E op fuel d c start csiz t x Ht H1 H2) as (r & HR & (_ & HC & _) & _).
  exists r. split; [exact HR|]. cbv zeta. rewrite HC. cbn [node ekids]. unfold res_props, leaves. cbv zeta. cbn [map fst snd].
  pose proof (val_range c 0 2 ltac:(lia) ltac:(lia)) as V0. pose proof (val_range c 2 2 ltac:(lia) ltac:(lia)) as V1.
  pose proof (val_range c 4 2 ltac:(lia) ltac:(lia)) as V2. pose proof (val_range c 6 2 ltac:(lia) ltac:(lia)) as V3.
  assert (HV : forall off, 0 <= off -> off + 2 <= len c -> 0 <= val c off 2) by (intros; apply val_readable; lia).
  pose proof (HV 0 ltac:(lia) ltac:(lia)). pose proof (HV 2 ltac:(lia) ltac:(lia)). pose proof (HV 4 ltac:(lia) ltac:(lia)). pose proof (HV 6 ltac:(lia) ltac:(lia)).
  change (256 ^ 2) with 65536 in *.
  assert (HS : forall i, 0 <= i -> i + 1 <= len c -> -128 <= sval c i <= 127).
  { intros i Hi Hl. unfold sval. pose proof (val_1_range c i Hi). pose proof (val_readable c i 1 Hi ltac:(lia) ltac:(lia)).
    repeat match goal with |- context [if ?b then _ else _] => destruct b eqn:? end; lia. }
  destruct (res_text (pow10neg E) (val c 0 2) (val c 2 2) (sval c 8) HP ltac:(lia) ltac:(lia) (HS 8 ltac:(lia) ltac:(lia))) as (T1%shows_printed & T2%shows_printed).
  destruct (res_text (pow10neg E) (val c 4 2) (val c 6 2) (sval c 9) HP ltac:(lia) ltac:(lia) (HS 9 ltac:(lia) ltac:(lia))) as (T3%shows_printed & T4%shows_printed).
  constructor; [eexists; split; [do 6 right; left; reflexivity|exact T1]|].
  constructor; [eexists; split; [do 7 right; left; reflexivity|exact T3]|].
  constructor; [eexists; split; [do 8 right; left; reflexivity|exact T2]|].
  constructor; [eexists; split; [do 9 right; left; reflexivity|exact T4]|]. constructor.
Qed.
Print Assumptions C64_resolution.
(** Correctly rounded powers qualify. *)
Lemma pow_ok_rounded : pow_ok (fun n => round_pos false 1 (10 ^ (- n))).
Proof.
  intros x Hx. assert (HP : 0 < 10 ^ (- x)) by (apply pow10_pos; lia).
  assert (HB : 10 ^ (- x) <= 1 * 2 ^ 1022).
  { apply (Z.le_trans _ (10 ^ 128)); [apply Z.pow_le_mono_r; lia|]. vm_compute. discriminate. }
  destruct (acc false 1 (10 ^ (- x)) ltac:(lia) HP HB) as (m & e & HC & HF & HW).
  - assert (1 < 2 ^ 1023) by reflexivity. set (a := 2 ^ 1023) in *. nia.
  - exists m, e. split; [exact HF|]. split; [exact HC|].
    assert (HE : (qdiv 1 (10 ^ (- x)) == p10 x)%Q) by (unfold qdiv, p10; replace (0 <=? x) with false by lia; change (inject_Z 1) with 1%Q; field; now apply inj_nz).
    apply (within_ext _ _ (fval m e) (dbl m e) _ (p10 x)) in HW; [|symmetry; apply dbl_fval|exact HE]. destruct HW as (H1 & H2). pose proof (p10_pos x).
    apply Qabs_Qle_condition. unfold u in *. split; Lqa.lra.
Qed.
Example C64_resolution_ex :
  pow_ok (pow10neg E0) /\
  let c := [x00; x64; x00; x07; x01; x2c; x00; x01; x02; xfe] in
  len c = 10 /\ val c 0 2 = 100 /\ val c 2 2 = 7 /\ sval c 8 = 2 /\ sval c 9 = -2 /\
  Forall (fun '(t, s) => In (t, VStr (pys s)) (map (fun '(t, v) => (t, match v with VFloat f => VStr (repr_float f) | _ => v end)) (texts (run "jp2" (BTb tagRESC) c VNone))))
    [("vRescInPixelsPerMeter", "1428.57"); ("hRescInPixelsPerMeter", "3.0"); ("vRescInPixelsPerInch", "36.29"); ("hRescInPixelsPerInch", "0.08")].
Proof. split; [exact pow_ok_rounded|]. cbv zeta. do 5 (split; [reflexivity|]). repeat (constructor; [vm_compute; tauto|]). constructor. Qed.

(** ** C64: the compression ratio *)
Lemma shows_float_text catC limit t f v : plain_tag t -> shows catC limit propertiesRemapTable t (VFloat f) v -> v = VStr (repr_float f).
Proof.
  intros HN H. inversion H; subst; [|reflexivity]. exfalso. apply HN.
  match goal with HD : described _ _ _ _ |- _ => destruct HD as (m & k & HI & _) end. apply in_map_iff. now exists (t, m).
Qed.
Lemma zseq_len n : 0 <= n -> len (zseq n) = n.
Proof. intros H. unfold zseq, len. rewrite map_length, seq_length. lia. Qed.
Lemma sum_depths z : 1 <= val z 36 2 <= 16384 -> 0 < fold_right Z.add 0 (siz_depths z) < 2 ^ 32.
Proof.
  intros H. unfold siz_depths. assert (HX : forall l, len l <= fold_right Z.add 0 (map (fun i => cdepth (val z (38 + 3 * i) 1)) l) <= 128 * len l).
  { induction l as [|i l IH]; [cbn; lia|]. cbn [map fold_right]. rewrite len_cons. assert (1 <= cdepth (val z (38 + 3 * i) 1) <= 128) by (unfold cdepth; pose proof (Z.mod_pos_bound (val z (38 + 3 * i) 1) 128); lia). lia. }
  specialize (HX (zseq (val z 36 2))). rewrite zseq_len in HX by lia. lia.
Qed.

(** A valid JP2 or JPH file: the ratio shown is the number of bytes needed for the
    uncompressed image (all components at full size) divided by that of the file. *)
Theorem C64_ratio E fuel depth path fo o size mtime rep c bs :
  env_ok E -> fo_size fo = Ok size -> fo_mtime fo = Ok mtime -> fo_map fo = Mapped c -> In (o_format o) ["jp2"; "jph"] ->
  checkOneFile E fuel depth path fo o 0 = Ok rep -> says_valid rep -> splits c bs -> len c < 2 ^ 63 ->
  exists y ys P ks s, boxes_of t_jp2c bs = y :: ys /\ ETree.find ["properties"] rep = Some P /\
    ekids P = ks ++ [leaf "compressionRatio" (VStr s)] /\
    let z := cs_siz y in
    printed s (inject_Z (fold_right Z.add 0 (siz_depths z) * (val z 8 4 - val z 16 4) * (val z 4 4 - val z 12 4)) / inject_Z (8 * len c)).
Proof.
  intros HE H1 H2 HM HF HR HSV HS HLC.
  destruct (C20_report E fuel depth path fo o size mtime HE H1 H2) as [(v & T' & P' & W' & HX & HA)|[(e' & HX & _)|(HX & _)]];
    rewrite HX in HR; [|injection HR as <-; discriminate HSV|discriminate]. injection HR as <-.
  destruct v; [clear HSV|discriminate HSV].
  destruct HA as (b & w & t & r & W0 & HC & HT & HV & Hv & _ & HP & _). rewrite HM in HC. inversion HC; subst b w.
  destruct HT as [(_ & ->)|(HI & _)]; [|exfalso; cbn in HF, HI; intuition congruence].
  assert (HG : gives E o (BTs "JP2") c VNone VNone r) by (now exists fuel, depth).
  assert (HVAL : valid E o c) by (exists r; split; [exact HG|exact Hv]).
  destruct (C47_ratio E o c bs r ltac:(cbn in HF; intuition) HS HG Hv) as (ks & y & ys & HY & HK).
  destruct (C37_consistent E o c bs HVAL HS) as (hx & hb & x & y' & ys' & B1 & B2 & B3 & B4 & C1 & C2 & C3 & _).
  rewrite HY in B4. injection B4 as <- <-.
  assert (HIH : 1 <= val x 0 4 /\ 1 <= val x 4 4 /\ 1 <= val x 8 2 <= 16384).
  { assert (HH : headers bs [hb]) by (unfold headers; rewrite B1; now repeat constructor).
    apply (valid_iff E o c bs [hb] HS HH) in HVAL as (HA & _). rewrite Forall_forall in HA.
    assert (HB : box_accepted E o (t_jp2h, hx)) by (apply HA, boxes_of_box; rewrite B1; now left).
    destruct (accepted_tests E o hx hb B2 HB) as (HAh & _). rewrite Forall_forall in HAh.
    assert (HB2 : box_accepted E o (t_ihdr, x)) by (apply HAh, boxes_of_box; rewrite B3; now left).
    apply (accepted_iff E o (BTb t_ihdr) x VNone VNone _ _ _ (fun fuel d => ihdr_says E o fuel (S d) x VNone VNone)) in HB2. apply ihdr_holds in HB2. tauto. }
  pose proof (val_range x 0 4 ltac:(lia) ltac:(lia)) as V1. pose proof (val_range x 4 4 ltac:(lia) ltac:(lia)) as V2. change (256 ^ 4) with (2 ^ 32) in *.
  assert (HLp : 0 < len c).
  { destruct c; [|rewrite len_cons; pose proof (len_nonneg c); lia]. exfalso. inversion HS; subst; first [discriminate HY|contradiction]. }
  set (z := cs_siz y) in *.
  pose proof (ratio_text (len c) (fold_right Z.add 0 (siz_depths z)) (siz_height z) (siz_width z)) as HQ.
  specialize (HQ ltac:(lia) ltac:(apply sum_depths; lia) ltac:(unfold siz_height; lia) ltac:(unfold siz_width; lia)). apply shows_printed in HQ.
  inversion HP as [t0 a v v' k k' HP0 HKK]; subst. match goal with HR0 : Elt _ _ _ _ = r_chars r |- _ => rewrite <- HR0 in HK end. cbn [ekids] in HK. subst k.
  apply Forall2_app_inv_l in HKK as (ks' & last & _ & HLast & HKE). inversion HLast as [|? e ? nl HRel HN]; subst. inversion HN; subst.
  inversion HRel as [t1 a1 v1 v1' k1 k1' HSh HK1]; subst. inversion HK1; subst.
  apply (shows_float_text _ _ "compressionRatio") in HSh; [|unfold plain_tag; cbn; intuition discriminate]. subst v1'.
  exists y, ys, (node "properties" (ks' ++ [Elt "compressionRatio" [] (VStr (repr_float (round_nd 2 (float_div
    (float_mul (float_mul (int_div (fold_right Z.add 0 (siz_depths z)) 8) (float_of_Z (siz_height z))) (float_of_Z (siz_width z))) (float_of_Z (len c)))))) []])), ks'.
  eexists. split; [exact HY|]. split; [unfold report; reflexivity|]. split; [reflexivity|]. cbv zeta. exact HQ.
Qed.
Print Assumptions C64_ratio.
Lemma siz_bounds fmt z : holds (siz_tests fmt z) -> 1 <= val z 36 2 <= 16384 /\ 0 <= val z 12 4.
Proof.
  intros HZ. unfold siz_tests in HZ. rewrite !holds_app in HZ. destruct HZ as (_ & _ & HZ & _). split.
  - assert (HB : btw 1 (val z 36 2) 16384) by (apply (holds_in _ "csizIsValid" _ HZ); do 8 right; left; reflexivity). exact HB.
  - assert (HB : btw 0 (val z 12 4) 4294967294) by (apply (holds_in _ "xOsizIsValid" _ HZ); do 2 right; left; reflexivity). unfold btw in HB. lia.
Qed.
(** A valid bare codestream, if the image starts at the same X and Y offset (see
    C47 for what happens otherwise). *)
Theorem C64_ratio_codestream E fuel depth path fo o size mtime rep c :
  env_ok E -> fo_size fo = Ok size -> fo_mtime fo = Ok mtime -> fo_map fo = Mapped c -> In (o_format o) ["j2c"; "jhc"] ->
  checkOneFile E fuel depth path fo o 0 = Ok rep -> says_valid rep -> len c < 2 ^ 63 ->
  let z := cs_siz c in
  val z 12 4 = val z 16 4 -> val z 16 4 < val z 8 4 -> val z 12 4 < val z 4 4 ->
  exists P ks s, ETree.find ["properties"] rep = Some P /\ ekids P = ks ++ [leaf "compressionRatio" (VStr s)] /\
    printed s (inject_Z (fold_right Z.add 0 (siz_depths z) * (val z 8 4 - val z 16 4) * (val z 4 4 - val z 12 4)) / inject_Z (8 * len c)).
Proof.
  intros HE H1 H2 HM HF HR HSV HLC z G1 G2 G3.
  destruct (C20_report E fuel depth path fo o size mtime HE H1 H2) as [(v & T' & P' & W' & HX & HA)|[(e' & HX & _)|(HX & _)]];
    rewrite HX in HR; [|injection HR as <-; discriminate HSV|discriminate]. injection HR as <-.
  destruct v; [clear HSV|discriminate HSV].
  destruct HA as (b & w & t & r & W0 & HC & HT & HV & Hv & _ & HP & _). rewrite HM in HC. inversion HC; subst b w.
  destruct HT as [(HI & _)|(_ & ->)]; [exfalso; cbn in HF, HI; intuition congruence|].
  assert (HG : gives E o (BTs "contiguousCodestreamBox") c VNone VNone r) by (now exists fuel, depth).
  destruct (C47_ratio_codestream E o (BTs "contiguousCodestreamBox") c VNone VNone r eq_refl ltac:(cbn in HF; intuition) HG Hv) as (ks & HK). cbv zeta in HK. fold z in HK.
  assert (HCS : codestream_ok E (o_format o) c).
  { apply (cs_spec E o (BTs "contiguousCodestreamBox") c VNone VNone eq_refl). exists r. split; [exact HG|]. now apply (cs_verdict_pass E o (BTs "contiguousCodestreamBox") c VNone VNone r eq_refl HG). }
  assert (HZZ : holds (siz_tests (o_format o) z)) by (destruct HCS as (l & rest & ps & _ & _ & _ & (_ & HZ) & _); exact HZ).
  destruct (siz_bounds _ _ HZZ) as (HCZ & V3').
  pose proof (val_range z 8 4 ltac:(lia) ltac:(lia)) as V1. pose proof (val_range z 4 4 ltac:(lia) ltac:(lia)) as V2. pose proof (val_range z 12 4 ltac:(lia) ltac:(lia)) as V3. change (256 ^ 4) with (2 ^ 32) in *.
  assert (HLp : 0 < len c).
  { destruct c; [|rewrite len_cons; pose proof (len_nonneg c); lia]. exfalso. destruct (cs_start _ _ _ HCS) as (HX1 & _). discriminate HX1. }
  pose proof (ratio_text (len c) (fold_right Z.add 0 (siz_depths z)) (val z 8 4 - val z 12 4) (siz_width z)) as HQ.
  specialize (HQ ltac:(lia) ltac:(apply sum_depths; lia) ltac:(lia) ltac:(unfold siz_width; lia)). apply shows_printed in HQ.
  inversion HP as [t0 a v v' k k' HP0 HKK]; subst. match goal with HR0 : Elt _ _ _ _ = r_chars r |- _ => rewrite <- HR0 in HK end. cbn [ekids] in HK. subst k.
  apply Forall2_app_inv_l in HKK as (ks' & last & _ & HLast & HKE). inversion HLast as [|? e ? nl HRel HN]; subst. inversion HN; subst.
  inversion HRel as [t1 a1 v1 v1' k1 k1' HSh HK1]; subst. inversion HK1; subst.
  apply (shows_float_text _ _ "compressionRatio") in HSh; [|unfold plain_tag; cbn; intuition discriminate]. subst v1'.
  exists (node "properties" (ks' ++ [Elt "compressionRatio" [] (VStr (repr_float (round_nd 2 (float_div
    (float_mul (float_mul (int_div (fold_right Z.add 0 (siz_depths z)) 8) (float_of_Z (val z 8 4 - val z 12 4))) (float_of_Z (siz_width z))) (float_of_Z (len c)))))) []])), ks'.
  eexists. split; [unfold report; reflexivity|]. split; [reflexivity|]. rewrite <- G1. exact HQ.
Qed.
Print Assumptions C64_ratio_codestream.
Example C64_ratio_ex :
  match checkOneFile E0 100 10 (pys "a") (ex_fo (Mapped ex_file)) (op "jp2" false) 0 with
  | Ok r => says_valid r /\ findAllText ["properties"; "compressionRatio"] r = [VStr (pys "0.02")] | _ => False end /\
  match checkOneFile E0 100 10 (pys "a") (ex_fo (Mapped ex_cs)) (op "j2c" false) 0 with
  | Ok r => says_valid r /\ findAllText ["properties"; "compressionRatio"] r = [VStr (pys "0.05")] | _ => False end.
Proof. vm_compute. repeat split. Qed.
