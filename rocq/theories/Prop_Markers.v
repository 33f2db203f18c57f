(** * Properties of the codestream marker segments

    As in Prop_Boxes.v: for every environment, options, budgets, content. *)

From Coq Require Import ZArith List Bool String Lia.
From Coq Require Import ZifyBool.
From Coq Require Import Init.Byte.
From Coq Require SpecFloat.
From Verif Require Import Py PyFloat ByteConv ETree BV VBoxes VMarkers VSuper Spec SpecBox SpecMarker
     PBase PFloat PEmit PLeaf PLeaf2 PMarker PMarker2 Ex.
Import ListNotations.
Open Scope string_scope.
Open Scope list_scope.
Open Scope Z_scope.

Ltac conj1 H := decompose [and] H; clear H;
  repeat match goal with |- _ /\ _ => split end;
  first [assumption | exact I | lia | tauto | intros; discriminate | intros; lia | intuition lia].
Ltac conj :=
  let H := fresh in split; intros H; decompose [and] H; clear H;
  repeat match goal with |- _ /\ _ => split end; first [assumption | exact I | lia | tauto | intros; discriminate | intros; lia].

(** C30.  [siz_capability] is None exactly for the values of Rsiz for which the
    code has no text (C22). *)
Theorem C30_siz E op fuel d c start csiz cap :
  siz_capability (val c 2 2) = Some cap ->
  exists r, validate E op fuel (S d) (BTb mSIZ) c start csiz = Ok r /\
    says (o_verbose op) "siz" (siz_tests (o_format op) c) (leaves (siz_props cap c)) [] r /\
    (all_pass (r_tests r) <->
     (fmt_p1 (o_format op) = true -> val c 2 2 / 4096 mod 16 = 0) /\
     (fmt_ht (o_format op) = true -> val c 2 2 / 16384 mod 2 = 1) /\
     val c 0 2 = 38 + 3 * val c 36 2 /\
     1 <= val c 4 4 /\ 1 <= val c 8 4 /\
     0 <= val c 12 4 < 4294967295 /\ 0 <= val c 16 4 < 4294967295 /\
     1 <= val c 20 4 /\ 1 <= val c 24 4 /\
     0 <= val c 28 4 < 4294967295 /\ 0 <= val c 32 4 < 4294967295 /\
     1 <= val c 36 2 <= 16384 /\
     forall i, 0 <= i < val c 36 2 ->
       val c (38 + 3 * i) 1 mod 128 <= 37 /\ 1 <= val c (39 + 3 * i) 1 /\ 1 <= val c (40 + 3 * i) 1).
Proof.
  intros H. refine (reported_pass_iff _ _ _ _ _ _ _ _ _ _ _ _ (siz_says E op fuel d c start csiz cap H) _).
  unfold siz_tests. rewrite !holds_app, holds_flat. rewrite !holds_cons, !holds_nil. unfold btw.
  pose proof (val_4_range c 4 ltac:(lia)). pose proof (val_4_range c 8 ltac:(lia)).
  pose proof (val_4_range c 20 ltac:(lia)). pose proof (val_4_range c 24 ltac:(lia)).
  assert (HC : (forall x, In x (zseq (val c 36 2)) ->
      holds [("ssizIsValid", cdepth (val c (38 + 3 * x) 1) <= 38);
             ("xRsizIsValid", 1 <= val c (39 + 3 * x) 1 <= 255);
             ("yRsizIsValid", 1 <= val c (40 + 3 * x) 1 <= 255)]) <->
    forall i, 0 <= i < val c 36 2 ->
       val c (38 + 3 * i) 1 mod 128 <= 37 /\ 1 <= val c (39 + 3 * i) 1 /\ 1 <= val c (40 + 3 * i) 1).
  { split; intros HA i Hi.
    - specialize (HA i). rewrite in_zseq, !holds_cons in HA. specialize (HA Hi). unfold cdepth in HA. lia.
    - apply in_zseq in Hi. specialize (HA i Hi). rewrite !holds_cons, holds_nil. unfold cdepth.
      pose proof (val_1_range c (39 + 3 * i) ltac:(lia)). pose proof (val_1_range c (40 + 3 * i) ltac:(lia)). lia. }
  rewrite HC.
  assert (HF : holds (if fmt_p1 (o_format op) then [("rsizIsValid", bitsk (val c 2 2) 12 4 = 0)]
     else if fmt_ht (o_format op) then [("rsizIsValid", bitk (val c 2 2) 14 = 1)] else []) <->
     (fmt_p1 (o_format op) = true -> val c 2 2 / 4096 mod 16 = 0) /\
     (fmt_ht (o_format op) = true -> val c 2 2 / 16384 mod 2 = 1)).
  { assert (HX : fmt_p1 (o_format op) = true -> fmt_ht (o_format op) = true -> False).
    { unfold fmt_p1, fmt_ht, fmt_is. rewrite !orb_true_iff, !String.eqb_eq. intros [-> | ->] [|]; discriminate. }
    destruct (fmt_p1 (o_format op)), (fmt_ht (o_format op)); rewrite ?holds_cons, ?holds_nil;
      unfold bitsk, bitk; change (2 ^ 12) with 4096; change (2 ^ 4) with 16; change (2 ^ 14) with 16384;
      intuition congruence. }
  rewrite HF.
  generalize (forall i, 0 <= i < val c 36 2 ->
       val c (38 + 3 * i) 1 mod 128 <= 37 /\ 1 <= val c (39 + 3 * i) 1 /\ 1 <= val c (40 + 3 * i) 1).
  intros Q. clear HC HF.
  generalize (fmt_p1 (o_format op) = true -> val c 2 2 / 4096 mod 16 = 0)
             (fmt_ht (o_format op) = true -> val c 2 2 / 16384 mod 2 = 1). intros Q1 Q2.
  conj.
Qed.
Print Assumptions C30_siz.

(** SIZ of a 2000 x 1500 image with three unsigned 8-bit components in tiles of 700 x 800. *)
Definition siz_ex (rsiz : list byte) : bytes :=
  [x00; x2f] ++ rsiz ++ [x00; x00; x07; xd0; x00; x00; x05; xdc] ++ repeat x00 8 ++
  [x00; x00; x02; xbc; x00; x00; x03; x20] ++ repeat x00 8 ++
  [x00; x03; x07; x01; x01; x07; x01; x01; x07; x01; x01].
Example C30_siz_ex :
  passes (run "jp2" (BTb mSIZ) (siz_ex [x00; x00]) VNone) = true /\
  failed (run "jp2" (BTb mSIZ) (siz_ex [x10; x00]) VNone) = ["rsizIsValid"] /\
  siz_capability 0 = Some (pys "ISO/IEC 15444-1") /\ siz_tiles (siz_ex [x00; x00]) = 6.
Proof. vm_compute. tauto. Qed.

(** The number of tiles shown is the product of the least numbers of tile widths
    and heights that cover the image, although the code divides floats. *)
Theorem C30_tiles E op fuel d c start csiz cap :
  siz_capability (val c 2 2) = Some cap -> 1 <= val c 20 4 -> 1 <= val c 24 4 ->
  exists r nx ny, validate E op fuel (S d) (BTb mSIZ) c start csiz = Ok r /\
    In (leaf "numberOfTiles" (VInt (nx * ny))) (ekids (r_chars r)) /\
    (nx - 1) * val c 20 4 < val c 4 4 - val c 28 4 <= nx * val c 20 4 /\
    (ny - 1) * val c 24 4 < val c 8 4 - val c 32 4 <= ny * val c 24 4.
Proof.
  intros H Hx Hy. destruct (siz_says E op fuel d c start csiz cap H) as (r & HR & (HT & HC & HW) & _).
  exists r, (cdiv (val c 4 4 - val c 28 4) (val c 20 4)), (cdiv (val c 8 4 - val c 32 4) (val c 24 4)).
  split; [exact HR|]. split.
  - rewrite HC. cbn [ekids node]. unfold siz_props, siz_tiles. cbv zeta.
    replace (val c 20 4 =? 0) with false by lia. replace (val c 24 4 =? 0) with false by lia.
    cbn [orb]. rewrite leaves_app. apply in_or_app. left. unfold leaves. cbn [map].
    do 11 (apply in_cons). now left.
  - unfold cdiv. Z.to_euclidean_division_equations. nia.
Qed.
Print Assumptions C30_tiles.
Example C30_tiles_ex :
  1 <= val (siz_ex [x00; x00]) 20 4 /\ 1 <= val (siz_ex [x00; x00]) 24 4 /\
  In ("numberOfTiles", VInt 6) (texts (run "jp2" (BTb mSIZ) (siz_ex [x00; x00]) VNone)).
Proof. vm_compute. repeat split; try discriminate. tauto. Qed.

(** C31 *)
(** Explicit precinct sizes: present for every resolution level, and at least 2
    (exponent 1) in both directions except for the lowest. *)
Definition precincts_ok (c : bytes) (off levels : Z) : Prop :=
  forall i, 0 < i <= levels ->
    1 <= val c (off + i) 1 mod 16 /\ 1 <= val c (off + i) 1 / 16 mod 16.

Lemma prec_holds b c levels off :
  holds (prec_tests b c levels off) <-> (b = true -> precincts_ok c off levels).
Proof.
  unfold prec_tests, precincts_ok. destruct b; [|rewrite holds_nil; intuition discriminate].
  rewrite holds_flat. split; intros H.
  - intros _ i Hi. specialize (H i). rewrite in_zseq, !holds_cons in H. specialize (H ltac:(lia)).
    unfold bitsk in H. rewrite Z.pow_0_r, Z.div_1_r in H. change (2 ^ 4) with 16 in H. lia.
  - intros i Hi. apply in_zseq in Hi. rewrite !holds_cons, holds_nil. unfold bitsk.
    rewrite Z.pow_0_r, Z.div_1_r. change (2 ^ 4) with 16.
    destruct (Z.eq_dec i 0); [tauto|]. specialize (H eq_refl i ltac:(lia)). tauto.
Qed.

Lemma explicit_mod v : (bitk v 0 =? 1) = (v mod 2 =? 1).
Proof. unfold bitk. now rewrite Z.pow_0_r, Z.div_1_r. Qed.

Theorem C31_cod E op fuel d c start csiz :
  exists r, validate E op fuel (S d) (BTb mCOD) c start csiz = Ok r /\
    says (o_verbose op) "cod" (cod_tests c) (leaves (cod_props (o_format op) c)) [] r /\
    (all_pass (r_tests r) <->
     0 <= val c 3 1 <= 4 /\ 1 <= val c 4 2 /\ 0 <= val c 6 1 <= 1 /\ 0 <= val c 7 1 <= 32 /\
     0 <= val c 8 1 /\ 0 <= val c 9 1 /\ val c 8 1 + val c 9 1 <= 8 /\ 0 <= val c 11 1 <= 1 /\
     (if val c 2 1 mod 2 =? 1
      then val c 0 2 = 13 + val c 7 1 /\ precincts_ok c 12 (val c 7 1)
      else val c 0 2 = 12)).
Proof.
  refine (reported_pass_iff _ _ _ _ _ _ _ _ _ _ _ _ (cod_says E op fuel d c start csiz) _).
  unfold cod_tests, cb_tests. rewrite !holds_app, !holds_cons, !holds_nil, prec_holds.
  unfold cod_explicit. rewrite explicit_mod. unfold btw. nrm.
  pose proof (val_2_range c 4 ltac:(lia)).
  generalize (precincts_ok c 12 (val c 7 1)). intros Q.
  destruct (val c 2 1 mod 2 =? 1); conj.
Qed.
Print Assumptions C31_cod.
Definition cod_ex : bytes := [x00; x0f; x01; x02; x00; x01; x00; x02; x04; x04; x00; x01; x88; x99; x99].
Example C31_cod_ex :
  passes (run "jp2" (BTb mCOD) cod_ex VNone) = true /\
  failed (run "jp2" (BTb mCOD) [x00; x0f; x01; x02; x00; x01; x00; x02; x04; x05; x00; x01; x88; x99; x90] VNone) =
    ["sumHeightWidthExponentIsValid"; "precinctSizeXIsValid"].
Proof. now vm_compute. Qed.

Theorem C31_coc E op fuel d c start n :
  let w := if n <? 257 then 1 else 2 in
  exists r, validate E op fuel (S d) (BTb mCOC) c start (VInt n) = Ok r /\
    says (o_verbose op) "coc" (coc_tests n c) (leaves (coc_props (o_format op) n c)) [] r /\
    (all_pass (r_tests r) <->
     0 <= val c 2 w /\ (257 <= n -> val c 2 w <= 16383) /\ 0 <= val c (3 + w) 1 <= 32 /\
     0 <= val c (4 + w) 1 /\ 0 <= val c (5 + w) 1 /\ val c (4 + w) 1 + val c (5 + w) 1 <= 8 /\
     0 <= val c (7 + w) 1 <= 1 /\
     (if val c (2 + w) 1 mod 2 =? 1
      then val c 0 2 = 9 + w + val c (3 + w) 1 /\ precincts_ok c (8 + w) (val c (3 + w) 1)
      else val c 0 2 = 8 + w)).
Proof.
  intros w. refine (reported_pass_iff _ _ _ _ _ _ _ _ _ _ _ _ (coc_says E op fuel d c start n) _).
  unfold coc_tests, cb_tests, coc_explicit, coc_levels.
  change (cwidth n) with w. cbv zeta.
  rewrite !holds_app, !holds_cons, !holds_nil, prec_holds. rewrite explicit_mod. unfold btw.
  replace (4 + w + 1) with (5 + w) by lia. unfold cmax.
  assert (HR : n < 257 -> val c 2 w <= 255).
  { intros Hn. unfold w. replace (n <? 257) with true by lia. pose proof (val_1_range c 2 ltac:(lia)). lia. }
  assert (HW : 1 <= w <= 2) by (unfold w; destruct (n <? 257); lia).
  generalize (precincts_ok c (8 + w) (val c (3 + w) 1)). intros Q.
  destruct (val c (2 + w) 1 mod 2 =? 1); destruct (n <? 257) eqn:Hn; conj.
Qed.
Print Assumptions C31_coc.
(** The same segment read for 3 and for 300 components. *)
Example C31_coc_ex :
  passes (run "jp2" (BTb mCOC) [x00; x09; x01; x00; x05; x04; x04; x00; x01] (VInt 3)) = true /\
  passes (run "jp2" (BTb mCOC) [x00; x0a; x01; x02; x00; x05; x04; x04; x00; x01] (VInt 300)) = true /\
  failed (run "jp2" (BTb mCOC) [x00; x0a; x01; x02; x00; x05; x04; x04; x00; x01] (VInt 3)) =
    ["lcocConsistencyCheck"; "sumHeightWidthExponentIsValid"].
Proof. now vm_compute. Qed.

(** C32 *)
Theorem C32_rgn E op fuel d c start n :
  let w := if n <? 257 then 1 else 2 in
  exists r, validate E op fuel (S d) (BTb mRGN) c start (VInt n) = Ok r /\
    says (o_verbose op) "rgn" (rgn_tests (o_format op) n c) (leaves (rgn_props n c)) [] r /\
    (all_pass (r_tests r) <->
     5 <= val c 0 2 <= 6 /\ 0 <= val c 2 w /\ (257 <= n -> val c 2 w <= 16383) /\
     val c (2 + w) 1 = 0 /\ 0 <= val c (3 + w) 1 /\
     (fmt_ht (o_format op) = true -> val c (3 + w) 1 <= 37)).
Proof.
  intros w. refine (reported_pass_iff _ _ _ _ _ _ _ _ _ _ _ _ (rgn_says E op fuel d c start n) _).
  unfold rgn_tests. change (cwidth n) with w. cbv zeta. rewrite !holds_cons, !holds_nil.
  assert (HW : 1 <= w <= 2) by (unfold w; destruct (n <? 257); lia).
  assert (HR : n < 257 -> val c 2 w <= 255).
  { intros Hn. unfold w. replace (n <? 257) with true by lia. pose proof (val_1_range c 2 ltac:(lia)). lia. }
  pose proof (val_1_range c (3 + w) ltac:(lia)). unfold btw, cmax.
  destruct (fmt_ht (o_format op)), (n <? 257) eqn:Hn; conj.
Qed.
Print Assumptions C32_rgn.
Example C32_rgn_ex :
  passes (run "jp2" (BTb mRGN) [x00; x05; x02; x00; x30] (VInt 3)) = true /\
  failed (run "jph" (BTb mRGN) [x00; x05; x02; x00; x30] (VInt 3)) = ["roiShiftIsValid"].
Proof. now vm_compute. Qed.

Theorem C32_qcd E op fuel d c start csiz :
  exists r, validate E op fuel (S d) (BTb mQCD) c start csiz = Ok r /\
    says (o_verbose op) "qcd" (qcd_tests c) (leaves (qcd_props c)) [] r /\
    (all_pass (r_tests r) <-> 4 <= val c 0 2 <= 197 /\ val c 2 1 mod 32 <= 2).
Proof.
  refine (reported_pass_iff _ _ _ _ _ _ _ _ _ _ _ _ (qcd_says E op fuel d c start csiz) _).
  unfold qcd_tests. rewrite !holds_cons, !holds_nil. unfold btw, bitsk.
  rewrite Z.pow_0_r, Z.div_1_r. change (2 ^ 5) with 32.
  pose proof (Z.mod_pos_bound (val c 2 1) 32 ltac:(lia)). conj.
Qed.
Print Assumptions C32_qcd.
Example C32_qcd_ex :
  passes (run "jp2" (BTb mQCD) [x00; x07; x40; x40; x48; x48; x50] VNone) = true /\
  failed (run "jp2" (BTb mQCD) [x00; x03; x43] VNone) = ["lqcdIsValid"; "qStyleIsValid"].
Proof. now vm_compute. Qed.

(** The step sizes shown are not all the decoded ones: for one decomposition
    level, reversible, there are four sub-bands with exponents 8, 9, 9, 10, of
    which only the first is shown. *)
Theorem C32_qcd_steps_refuted :
  exists c r, validate E0 (op "jp2" true) 1 1 (BTb mQCD) c VNone VNone = Ok r /\
    all_pass (r_tests r) /\
    val c 0 2 = len c /\ val c 2 1 mod 32 = 0 /\
    map (fun i => val c i 1 / 8) [3; 4; 5; 6] = [8; 9; 9; 10] /\
    filter (fun e => String.eqb (etag e) "epsilon") (ekids (r_chars r)) = [leaf "epsilon" (VInt 8)].
Proof.
  exists [x00; x07; x40; x40; x48; x48; x50]. eexists. split; [vm_compute; reflexivity|].
  split; [now apply anyFalse_spec|]. now vm_compute.
Qed.
Print Assumptions C32_qcd_steps_refuted.

Theorem C32_qcc E op fuel d c start n :
  let w := if n <? 257 then 1 else 2 in
  exists r, validate E op fuel (S d) (BTb mQCC) c start (VInt n) = Ok r /\
    says (o_verbose op) "qcc" (qcc_tests n c) (leaves (qcc_props n c)) [] r /\
    (all_pass (r_tests r) <-> 5 <= val c 0 2 <= 199 /\ val c (2 + w) 1 mod 32 <= 2).
Proof.
  intros w. refine (reported_pass_iff _ _ _ _ _ _ _ _ _ _ _ _ (qcc_says E op fuel d c start n) _).
  unfold qcc_tests. change (cwidth n) with w. rewrite !holds_cons, !holds_nil. unfold btw, bitsk.
  rewrite Z.pow_0_r, Z.div_1_r. change (2 ^ 5) with 32.
  pose proof (Z.mod_pos_bound (val c (2 + w) 1) 32 ltac:(lia)). conj.
Qed.
Print Assumptions C32_qcc.
Example C32_qcc_ex :
  passes (run "jp2" (BTb mQCC) [x00; x08; x01; x40; x40; x48; x48; x50] (VInt 3)) = true /\
  failed (run "jp2" (BTb mQCC) [x00; x08; x01; x43; x40; x48; x48; x50] (VInt 3)) = ["qStyleIsValid"].
Proof. now vm_compute. Qed.

(** The step sizes of a QCC segment are read one byte too early: scalar derived
    quantisation with exponent 13 and mantissa 5 is shown as exponent 13 of the
    style byte and its neighbour. *)
Theorem C32_qcc_steps_refuted :
  exists c r, validate E0 (op "jp2" true) 1 1 (BTb mQCC) c VNone (VInt 3) = Ok r /\
    all_pass (r_tests r) /\ val c 0 2 = len c /\ val c 3 1 mod 32 = 1 /\
    val c 4 2 = 2048 * 13 + 5 /\
    ~ In (leaf "epsilon" (VInt 13)) (ekids (r_chars r)) /\
    ~ In (leaf "mu" (VInt 5)) (ekids (r_chars r)).
Proof.
  exists [x00; x06; x01; x21; x68; x05]. eexists. split; [vm_compute; reflexivity|].
  split; [now apply anyFalse_spec|]. vm_compute. repeat split; intros H;
    repeat (destruct H as [H|H]; [discriminate H|]); exact H.
Qed.
Print Assumptions C32_qcc_steps_refuted.

Theorem C32_poc E op fuel d c start n :
  let w := if n <? 257 then 1 else 2 in
  exists r, validate E op fuel (S d) (BTb mPOC) c start (VInt n) = Ok r /\
    says (o_verbose op) "poc" (poc_tests n c) (leaves (poc_props n c)) [] r /\
    (all_pass (r_tests r) <->
     9 <= val c 0 2 /\
     forall i, 0 <= i < (val c 0 2 - 2) / (5 + 2 * w) ->
       let o := 2 + (5 + 2 * w) * i in
       0 <= val c o 1 < val c (o + 3 + w) 1 /\ val c (o + 3 + w) 1 <= 33 /\
       1 <= val c (o + 1 + w) 2 /\ 0 <= val c (o + 4 + 2 * w) 1 <= 4 /\
       0 <= val c (o + 1) w /\ (257 <= n -> val c (o + 1) w <= 16383) /\
       (val c (o + 4 + w) w = 0 \/
        val c (o + 1) w < val c (o + 4 + w) w /\ (257 <= n -> val c (o + 4 + w) w <= 16384))).
Proof.
  intros w. refine (reported_pass_iff _ _ _ _ _ _ _ _ _ _ _ _ (poc_says E op fuel d c start n) _).
  unfold poc_tests, poc_n, poc_off, cmax. change (cwidth n) with w. cbv zeta.
  rewrite !holds_cons, holds_flat.
  assert (HW : 1 <= w <= 2) by (unfold w; destruct (n <? 257); lia).
  rewrite zseq_quot by lia. pose proof (val_2_range c 0 ltac:(lia)) as R0.
  assert (HR : forall o, 0 <= o -> n < 257 -> val c o w <= 255).
  { intros o Ho Hn. unfold w. replace (n <? 257) with true by lia. pose proof (val_1_range c o ltac:(lia)). lia. }
  assert (HQ : forall A B C D : Prop, (A <-> C) -> (B <-> D) -> (A /\ B <-> C /\ D)) by tauto.
  apply HQ; clear HQ.
  - unfold btw. lia.
  - split; intros H i Hi.
    + specialize (H i). rewrite in_zseq, !holds_cons in H. specialize (H Hi). unfold btw in H.
      destruct (n <? 257) eqn:Hn; conj1 H.
    + apply in_zseq in Hi. specialize (H i Hi). rewrite !holds_cons, holds_nil.
      assert (0 <= (5 + 2 * w) * i) by (apply Z.mul_nonneg_nonneg; lia).
      set (o := 2 + (5 + 2 * w) * i) in *. unfold btw.
      pose proof (HR (o + 1) ltac:(lia)). pose proof (HR (o + 4 + w) ltac:(lia)).
      pose proof (val_2_range c (o + 1 + w) ltac:(lia)).
      destruct (n <? 257) eqn:Hn; conj1 H.
Qed.
Print Assumptions C32_poc.
Example C32_poc_ex :
  passes (run "jp2" (BTb mPOC) [x00; x10; x00; x00; x00; x01; x02; x03; x00;
                                x02; x00; x00; x01; x06; x03; x01] (VInt 3)) = true /\
  failed (run "jp2" (BTb mPOC) [x00; x09; x02; x00; x00; x01; x02; x00; x07] (VInt 3)) =
    ["repocIsValid"; "orderIsValid"].
Proof. now vm_compute. Qed.

Theorem C32_crg E op fuel d c start n :
  exists r, validate E op fuel (S d) (BTb mCRG) c start (VInt n) = Ok r /\
    says (o_verbose op) "crg" (crg_tests n c) (leaves (crg_props n c)) [] r /\
    (all_pass (r_tests r) <->
     6 <= val c 0 2 <= 65534 /\ (0 < n -> 2 + 4 * n <= len c)).
Proof.
  refine (reported_pass_iff _ _ _ _ _ _ _ _ _ _ _ _ (crg_says E op fuel d c start n) _).
  unfold crg_tests. rewrite !holds_cons, holds_flat. unfold btw.
  split; intros [H1 H2]; (split; [exact H1|]).
  - intros Hn. specialize (H2 (n - 1)). rewrite in_zseq, !holds_cons in H2. specialize (H2 ltac:(lia)).
    destruct H2 as (_ & H2 & _). unfold val in H2.
    destruct (4 + 4 * (n - 1) + 2 <=? len c) eqn:EE; [lia|lia].
  - intros i Hi. apply in_zseq in Hi. rewrite !holds_cons, holds_nil.
    pose proof (val_readable c (2 + 4 * i) 2 ltac:(lia) ltac:(lia) ltac:(lia)).
    pose proof (val_readable c (4 + 4 * i) 2 ltac:(lia) ltac:(lia) ltac:(lia)). lia.
Qed.
Print Assumptions C32_crg.
Example C32_crg_ex :
  passes (run "jp2" (BTb mCRG) [x00; x0a; x00; x00; x80; x00; x00; x01; x00; x02] (VInt 2)) = true /\
  failed (run "jp2" (BTb mCRG) [x00; x0a; x00; x00; x80; x00; x00; x01] (VInt 2)) = ["ycrgIsValid"].
Proof. now vm_compute. Qed.

(** C33 *)
Theorem C33_com E op fuel d c start csiz :
  exists r p, validate E op fuel (S d) (BTb mCOM) c start csiz = Ok r /\
    says (o_verbose op) "com" (com_tests (catC E) c) (leaves p) [] r /\ com_props (catC E) c p /\
    (all_pass (r_tests r) <->
     5 <= val c 0 2 /\
     (val c 2 2 = 0 \/
      val c 2 2 = 1 /\ Forall (printable (catC E)) (map iso8859_15 (sub c 4 (val c 0 2 - 4))))).
Proof.
  destruct (com_says E op fuel d c start csiz) as (p & HP & HR).
  destruct (reported_pass _ _ _ _ _ _ _ _ _ _ _ HR) as (r & HV & HS & HA).
  exists r, p. repeat (split; [assumption|]). rewrite HA. unfold com_tests.
  rewrite !holds_cons, holds_nil. unfold btw, com_ok, com_raw.
  pose proof (val_2_range c 0 ltac:(lia)). conj.
Qed.
Print Assumptions C33_com.
Example C33_com_ex :
  passes (run "jp2" (BTb mCOM) [x00; x06; x00; x01; x4b; xa4] VNone) = true /\
  texts (run "jp2" (BTb mCOM) [x00; x06; x00; x01; x4b; xa4] VNone) =
    [("lcom", VInt 6); ("rcom", VInt 1); ("comment", VStr [75; 8364])] /\
  texts (run "jp2" (BTb mCOM) [x00; x05; x00; x00; x7f] VNone) =
    [("lcom", VInt 5); ("rcom", VInt 0); ("comment", VBytes [x37; x66])] /\
  failed (run "jp2" (BTb mCOM) [x00; x05; x00; x01; x07] VNone) = ["commentIsValid"].
Proof. now vm_compute. Qed.

Theorem C33_cap E op fuel d c start csiz :
  exists r, validate E op fuel (S d) (BTb mCAP) c start csiz = Ok r /\
    says (o_verbose op) "cap" (cap_tests (o_format op) c) (leaves (cap_props (o_format op) c)) [] r /\
    (all_pass (r_tests r) <->
     val c 0 2 = 6 + 2 * len (cap_parts c) /\ (fmt_ht (o_format op) = true -> In 15 (cap_parts c))).
Proof.
  refine (reported_pass_iff _ _ _ _ _ _ _ _ _ _ _ _ (cap_says E op fuel d c start csiz) _).
  unfold cap_tests. rewrite holds_app, holds_cons, holds_nil.
  destruct (fmt_ht (o_format op)); rewrite ?holds_cons, ?holds_nil; intuition discriminate.
Qed.
Print Assumptions C33_cap.
Example C33_cap_ex :
  passes (run "jph" (BTb mCAP) [x00; x08; x00; x02; x00; x00; x00; x03] VNone) = true /\
  texts (run "jph" (BTb mCAP) [x00; x08; x00; x02; x00; x00; x00; x03] VNone) =
    [("lcap", VInt 8); ("pcapPart", VInt 15); ("htCodeBlocks", VInt 0); ("htSets", VInt 0);
     ("htRegion", VInt 0); ("htHomogeneous", VInt 0); ("htReversible", VInt 0); ("htB", VInt 11)] /\
  failed (run "jph" (BTb mCAP) [x00; x08; x40; x00; x00; x00; x00; x03] VNone) = ["pcap15IsValid"].
Proof. now vm_compute. Qed.

(** Profile segments: the entries after the first are never read. *)
Lemma rep16_sign v n : 0 < n -> (0 < rep16 v n <-> 0 < v) /\ (rep16 v n < 0 <-> v < 0).
Proof.
  intros H. assert (HX : exists k, 0 < k /\ rep16 v n = v * k).
  { assert (0 <= n) as Hn by lia. assert (0 < n) as Hp by lia. clear H. revert Hp.
    pattern n. apply natlike_ind; [lia| |exact Hn]. clear n Hn. intros n Hn IH Hp.
    assert (HP : 0 < 2 ^ (16 * n)) by (apply Z.pow_pos_nonneg; lia).
    unfold Z.succ. rewrite rep16_succ by exact Hn. destruct (Z.eq_dec n 0) as [->|N].
    - exists 1. split; [lia|]. cbn. lia.
    - destruct IH as (k & Hk & ->); [lia|]. exists (k + 2 ^ (16 * n)). split; lia. }
  destruct HX as (k & Hk & ->). nia.
Qed.

Theorem C33_prf E op fuel d c start csiz :
  exists r, validate E op fuel (S d) (BTb mPRF) c start csiz = Ok r /\
    says (o_verbose op) "prf" (prf_tests c) (leaves (prf_props c)) [] r /\
    (all_pass (r_tests r) <-> 4 <= val c 0 2 <= 65534 /\ 1 <= val c 2 2).
Proof.
  refine (reported_pass_iff _ _ _ _ _ _ _ _ _ _ _ _ (prf_says E op fuel d c start csiz) _).
  unfold prf_tests, prf_num. rewrite !holds_cons, !holds_nil. unfold btw.
  split; intros H.
  - assert (0 < Z.quot (val c 0 2 - 2) 2) as HQ.
    { rewrite Z.quot_div_nonneg by lia. apply Z.div_str_pos. lia. }
    pose proof (rep16_sign (val c 2 2) _ HQ). lia.
  - assert (0 < Z.quot (val c 0 2 - 2) 2) as HQ.
    { rewrite Z.quot_div_nonneg by lia. apply Z.div_str_pos. lia. }
    pose proof (rep16_sign (val c 2 2) _ HQ). lia.
Qed.
Print Assumptions C33_prf.
Example C33_prf_ex :
  passes (run "jp2" (BTb mPRF) [x00; x04; x00; x07] VNone) = true /\
  texts (run "jp2" (BTb mPRF) [x00; x04; x00; x07] VNone) = [("lprf", VInt 4); ("PRFnum", VInt 4102)] /\
  failed (run "jp2" (BTb mPRF) [x00; x04; x00; x00] VNone) = ["PRFnumIsValid"].
Proof. now vm_compute. Qed.

(** A last entry of zero passes, and the number shown is not the one encoded. *)
Theorem C33_prf_refuted :
  exists c r, validate E0 (op "jp2" true) 1 1 (BTb mPRF) c VNone VNone = Ok r /\
    all_pass (r_tests r) /\ val c 0 2 = len c /\ val c 4 2 = 0 /\
    ~ In (leaf "PRFnum" (VInt (4095 + num16 c 2))) (ekids (r_chars r)).
Proof.
  exists [x00; x06; x00; x07; x00; x00]. eexists. split; [vm_compute; reflexivity|].
  split; [now apply anyFalse_spec|]. vm_compute. repeat split; intros H;
    repeat (destruct H as [H|H]; [discriminate H|]); exact H.
Qed.
Print Assumptions C33_prf_refuted.

Theorem C33_cpf E op fuel d c start csiz :
  exists r, validate E op fuel (S d) (BTb mCPF) c start csiz = Ok r /\
    says (o_verbose op) "cpf" (cpf_tests (o_format op) c) (leaves (cpf_props c)) [] r /\
    (all_pass (r_tests r) <-> (fmt_ht (o_format op) = true -> 4 <= val c 0 2 <= 65534)).
Proof.
  refine (reported_pass_iff _ _ _ _ _ _ _ _ _ _ _ _ (cpf_says E op fuel d c start csiz) _).
  unfold cpf_tests. destruct (fmt_ht (o_format op)); rewrite ?holds_cons, ?holds_nil; unfold btw;
    intuition (try discriminate; lia).
Qed.
Print Assumptions C33_cpf.
Example C33_cpf_ex :
  passes (run "jph" (BTb mCPF) [x00; x04; x00; x07] VNone) = true /\
  failed (run "jph" (BTb mCPF) [x00; x03; x00; x07] VNone) = ["lcpIsValid"] /\
  texts (run "jph" (BTb mCPF) [x00; x04; x00; x07] VNone) = [("lcpf", VInt 4); ("CPFnum", VInt 6)].
Proof. now vm_compute. Qed.
Theorem C33_cpf_refuted :
  exists c r, validate E0 (op "jph" true) 1 1 (BTb mCPF) c VNone VNone = Ok r /\
    all_pass (r_tests r) /\ val c 0 2 = len c /\ val c 4 2 = 0 /\
    ~ In (leaf "CPFnum" (VInt (num16 c 2 - 1))) (ekids (r_chars r)).
Proof.
  exists [x00; x06; x00; x07; x00; x00]. eexists. split; [vm_compute; reflexivity|].
  split; [now apply anyFalse_spec|]. vm_compute. repeat split; intros H;
    repeat (destruct H as [H|H]; [discriminate H|]); exact H.
Qed.
Print Assumptions C33_cpf_refuted.

(** C34.  The tile-part length handed to the caller is psot, or -9999 if the
    segment is too short for it. *)
Theorem C34_sot E op fuel d c start csiz :
  exists r, validate E op fuel (S d) (BTs "startOfTile") c start csiz = Ok r /\
    says (o_verbose op) "sot" (sot_tests c) (leaves (sot_props c)) [] r /\
    r_tpl r = VInt (val c 4 4) /\
    (all_pass (r_tests r) <->
     val c 0 2 = 10 /\ 0 <= val c 2 2 <= 65534 /\ ~ 1 <= val c 4 4 <= 13 /\ 0 <= val c 8 1 <= 254).
Proof.
  destruct (sot_says E op fuel d c start csiz) as (r & HV & HS & _ & _ & HT).
  exists r. split; [exact HV|]. split; [exact HS|]. split; [exact HT|].
  rewrite (says_all_pass _ _ _ _ _ _ HS). unfold sot_tests.
  rewrite !holds_cons, !holds_nil. unfold btw. tauto.
Qed.
Print Assumptions C34_sot.
Example C34_sot_ex :
  passes (run "jp2" (BTs "startOfTile") [x00; x0a; x00; x00; x00; x00; x01; x00; x00; x01] VNone) = true /\
  failed (run "jp2" (BTs "startOfTile") [x00; x0a; xff; xff; x00; x00; x00; x0c; xff; x01] VNone) =
    ["isotIsValid"; "psotIsValid"; "tpsotIsValid"] /\
  texts (run "jp2" (BTs "startOfTile") [x00; x0a; x00; x02; x00; x00; x01; x00; x00; x01] VNone) =
    [("lsot", VInt 10); ("isot", VInt 2); ("psot", VInt 256); ("tpsot", VInt 0); ("tnsot", VInt 1)].
Proof. now vm_compute. Qed.

(** C35.  (The position of every field as a function of the width is spelled out
    in C31_coc, C32_rgn, C32_qcc and C32_poc.)  Widening the component index k to
    two bytes and adding one to the length changes nothing but the length in what
    is reported, when 257 or more components are declared instead of fewer. *)
Definition be16 (z : Z) : bytes := [byte_of_Z (z / 256); byte_of_Z (z mod 256)].

Lemma val_cons x l off n : 0 <= off -> val (x :: l) (off + 1) n = val l off n.
Proof.
  intros H. unfold val, len. cbn [List.length].
  replace (off + 1 + n <=? Z.of_nat (S (List.length l))) with (off + n <=? Z.of_nat (List.length l)) by lia.
  now replace (Z.to_nat (off + 1)) with (S (Z.to_nat off)) by lia.
Qed.
Lemma val_be16 z l : 0 <= z <= 65535 -> val (be16 z ++ l) 0 2 = z.
Proof.
  intros H. pose proof (len_nonneg l). unfold be16, val, len in *. cbn [app List.length].
  replace (0 + 2 <=? _) with true by lia. cbn [skipn Z.to_nat].
  change (Pos.to_nat 2) with 2%nat. cbn [firstn beval List.length].
  rewrite !bz_byte_of_Z by (Z.to_euclidean_division_equations; lia).
  cbn. Z.to_euclidean_division_equations. lia.
Qed.
Definition seg1 (len : Z) (k : byte) (rest : bytes) : bytes := be16 len ++ k :: rest.
Definition seg2 (len : Z) (k : byte) (rest : bytes) : bytes := be16 len ++ x00 :: k :: rest.
Lemma seg_val l k rest off n :
  2 <= off -> val (seg2 (l + 1) k rest) (off + 1) n = val (seg1 l k rest) off n.
Proof.
  intros H. unfold seg1, seg2, be16. cbn [app].
  replace off with (off - 2 + 1 + 1) by lia.
  rewrite !val_cons by lia. reflexivity.
Qed.
Lemma seg_idx l k rest : val (seg2 l k rest) 2 2 = bz k /\ val (seg1 l k rest) 2 1 = bz k.
Proof.
  unfold seg1, seg2, be16. cbn [app]. change 2 with (0 + 1 + 1) at 1 3. rewrite !val_cons by lia.
  pose proof (len_nonneg rest). unfold val, len in *. cbn [List.length].
  replace (0 + 2 <=? _) with true by lia. replace (0 + 1 <=? _) with true by lia.
  cbn [skipn Z.to_nat]. change (Pos.to_nat 2) with 2%nat. change (Pos.to_nat 1) with 1%nat.
  cbn [firstn beval len List.length]. change (bz x00) with 0. cbn. lia.
Qed.

Theorem C35_width E op fuel d t l k rest start n N :
  In t [mCOC; mRGN; mQCC] -> n < 257 <= N -> 0 <= l < 65535 ->
  exists r1 r2,
    validate E op fuel (S d) (BTb t) (seg1 l k rest) start (VInt n) = Ok r1 /\
    validate E op fuel (S d) (BTb t) (seg2 (l + 1) k rest) start (VInt N) = Ok r2 /\
    tl (ekids (r_chars r1)) = tl (ekids (r_chars r2)).
Proof.
  intros Ht Hn Hl. destruct (seg_idx l k rest) as [_ H1]. destruct (seg_idx (l + 1) k rest) as [H2 _].
  assert (HL1 : val (seg1 l k rest) 0 2 = l) by (apply val_be16; lia).
  assert (HL2 : val (seg2 (l + 1) k rest) 0 2 = l + 1) by (apply val_be16; lia).
  pose proof (seg_val l k rest) as HV.
  set (c1 := seg1 l k rest) in *. set (c2 := seg2 (l + 1) k rest) in *.
  assert (W1 : cwidth n = 1) by (unfold cwidth; now replace (n <? 257) with true by lia).
  assert (W2 : cwidth N = 2) by (unfold cwidth; now replace (N <? 257) with false by lia).
  assert (V : forall o m, 2 <= o -> val c2 (o + 2) m = val c1 (o + 1) m).
  { intros o m Ho. rewrite <- HV by lia. f_equal. lia. }
  repeat destruct Ht as [<-|Ht]; try contradiction.
  - destruct (coc_says E op fuel d c1 start n) as (r1 & HR1 & (_ & HC1 & _) & _).
    destruct (coc_says E op fuel d c2 start N) as (r2 & HR2 & (_ & HC2 & _) & _).
    exists r1, r2. split; [exact HR1|]. split; [exact HR2|]. rewrite HC1, HC2. cbn [ekids node].
    unfold coc_props, coc_levels, coc_explicit. rewrite W1, W2, H1, H2. cbv zeta.
    unfold prec_props, cb_props. rewrite !V by lia.
    replace (4 + 2 + 1) with (5 + 2) by lia. rewrite !V by lia. replace (4 + 1 + 1) with (5 + 1) by lia.
    rewrite !leaves_app. cbn [leaves map app tl]. repeat apply cons_eq; try reflexivity.
    change (map (fun '(n, v) => leaf n v)) with leaves. f_equal. apply cons_eq; [reflexivity|].
    rewrite !leaves_flat. apply flat_map_ext_in. intros i Hi. apply in_zseq in Hi.
    replace (8 + 2 + i) with (8 + i + 2) by lia. rewrite V by lia.
    now replace (8 + 1 + i) with (8 + i + 1) by lia.
  - destruct (rgn_says E op fuel d c1 start n) as (r1 & HR1 & (_ & HC1 & _) & _).
    destruct (rgn_says E op fuel d c2 start N) as (r2 & HR2 & (_ & HC2 & _) & _).
    exists r1, r2. split; [exact HR1|]. split; [exact HR2|]. rewrite HC1, HC2. cbn [ekids node].
    unfold rgn_props. rewrite W1, W2, H1, H2. cbv zeta. rewrite !V by lia. reflexivity.
  - destruct (qcc_says E op fuel d c1 start n) as (r1 & HR1 & (_ & HC1 & _) & _).
    destruct (qcc_says E op fuel d c2 start N) as (r2 & HR2 & (_ & HC2 & _) & _).
    exists r1, r2. split; [exact HR1|]. split; [exact HR2|]. rewrite HC1, HC2. cbn [ekids node].
    unfold qcc_props. rewrite W1, W2, H1, H2, HL1, HL2. cbv zeta. rewrite !V by lia.
    replace (step_levels (bitsk (val c1 (2 + 1) 1) 0 5) (l + 1) (4 + 2))
      with (step_levels (bitsk (val c1 (2 + 1) 1) 0 5) l (4 + 1)).
    2:{ unfold step_levels. replace (l + 1 - (4 + 2)) with (l - (4 + 1)) by lia. reflexivity. }
    generalize (step_levels (bitsk (val c1 (2 + 1) 1) 0 5) l (4 + 1)). intros lv.
    rewrite !leaves_app. cbn [leaves map app tl]. repeat apply cons_eq; try reflexivity.
    change (map (fun '(n, v) => leaf n v)) with leaves. unfold step_props.
    destruct (_ =? 0); [|destruct (_ =? 1); [|destruct (_ =? 2); [|reflexivity]]].
    + rewrite !leaves_map. apply flat_map_ext_in. intros i Hi. apply in_zseq in Hi.
      replace (2 + 2 + i) with (2 + i + 2) by lia. rewrite V by lia.
      now replace (2 + 1 + i) with (2 + i + 1) by lia.
    + rewrite !V by lia. reflexivity.
    + rewrite !leaves_flat. apply flat_map_ext_in. intros i Hi. apply in_zseq in Hi.
      replace (2 + 2 + 2 * i) with (2 + 2 * i + 2) by lia. rewrite V by lia.
      now replace (2 + 1 + 2 * i) with (2 + 2 * i + 1) by lia.
Qed.
Print Assumptions C35_width.
Example C35_width_ex :
  texts (run "jp2" (BTb mRGN) (seg1 5 x07 [x00; x0c]) (VInt 256)) =
    [("lrgn", VInt 5); ("crgn", VInt 7); ("roiStyle", VInt 0); ("roiShift", VInt 12)] /\
  texts (run "jp2" (BTb mRGN) (seg2 6 x07 [x00; x0c]) (VInt 257)) =
    [("lrgn", VInt 6); ("crgn", VInt 7); ("roiStyle", VInt 0); ("roiShift", VInt 12)].
Proof. now vm_compute. Qed.
