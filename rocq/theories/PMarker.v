(** * Marker segments: what they report *)

From Coq Require Import ZArith List Bool String Lia.
From Coq Require Import ZifyBool.
From Coq Require Import Init.Byte.
From Coq Require SpecFloat.
From Verif Require Import Py PyFloat ByteConv ETree BV VBoxes VMarkers VSuper Spec SpecBox SpecMarker
     PBase PText PFloat PEmit PLeaf PLeaf2.
Import ListNotations.
Open Scope string_scope.
Open Scope list_scope.
Open Scope Z_scope.

(** ** Bit fields *)
Lemma bitsk_land x k n : 0 <= k -> 0 <= n -> Z.land (Z.shiftr x k) (2 ^ n - 1) = bitsk x k n.
Proof. intros. unfold bitsk. now rewrite land_mod, Z.shiftr_div_pow2 by lia. Qed.
Lemma bitsk_land0 x n : 0 <= n -> Z.land x (2 ^ n - 1) = bitsk x 0 n.
Proof. intros. unfold bitsk. now rewrite land_mod, Z.pow_0_r, Z.div_1_r by lia. Qed.
Lemma shl15 x k : 0 <= k -> Z.land (Z.shiftr x k) 15 = bitsk x k 4.
Proof. intros. apply (bitsk_land x k 4); lia. Qed.
Lemma shl31 x k : 0 <= k -> Z.land (Z.shiftr x k) 31 = bitsk x k 5.
Proof. intros. apply (bitsk_land x k 5); lia. Qed.
Lemma shl7 x k : 0 <= k -> Z.land (Z.shiftr x k) 7 = bitsk x k 3.
Proof. intros. apply (bitsk_land x k 3); lia. Qed.
Lemma l15 x : Z.land x 15 = bitsk x 0 4. Proof. apply (bitsk_land0 x 4). lia. Qed.
Lemma l31 x : Z.land x 31 = bitsk x 0 5. Proof. apply (bitsk_land0 x 5). lia. Qed.
Lemma l2047 x : Z.land x 2047 = bitsk x 0 11. Proof. apply (bitsk_land0 x 11). lia. Qed.
Lemma bitsk_range x k n : 0 <= n -> 0 <= bitsk x k n < 2 ^ n.
Proof. intros. apply Z.mod_pos_bound. apply Z.pow_pos_nonneg; lia. Qed.
Lemma bitk_range x k : 0 <= bitk x k <= 1.
Proof. unfold bitk. pose proof (Z.mod_pos_bound (x / 2 ^ k) 2 ltac:(lia)). lia. Qed.

Ltac bits := rewrite ?shl15, ?shl31, ?shl7, ?l15, ?l31, ?l2047 by lia.
Ltac vals := rewrite ?u8_val, ?u16_val, ?u32_val, ?u64_val by lia; bits;
             rewrite ?bitv, ?bitvW by lia.

(** ** SIZ *)
Lemma capability_eq x : sizCapability x = siz_capability x.
Proof.
  unfold sizCapability, siz_capability. bits.
  pose proof (bitsk_range x 14 4 ltac:(lia)) as R1.
  pose proof (bitsk_range x 8 4 ltac:(lia)) as R2.
  pose proof (bitsk_range x 4 4 ltac:(lia)) as R3.
  pose proof (bitsk_range x 0 4 ltac:(lia)) as R4.
  assert (HP : (x mod 4096 =? 4095) =
               ((bitsk x 8 4 =? 15) && (bitsk x 4 4 =? 15) && (bitsk x 0 4 =? 15))).
  { unfold bitsk in *. change (2 ^ 8) with 256 in *. change (2 ^ 4) with 16 in *. change (2 ^ 0) with 1 in *.
    Z.to_euclidean_division_equations. lia. }
  rewrite HP. set (e := bitsk x 14 4) in *. set (p := bitsk x 8 4) in *.
  set (s := bitsk x 4 4) in *. set (m := bitsk x 0 4) in *. cbv zeta.
  cbn [List.find fst cap_imf].
  rewrite (Z.eqb_sym 1 e), (Z.eqb_sym 2 e), (Z.eqb_sym 3 e).
  destruct (e =? 1); [reflexivity|]. destruct (e =? 2); [reflexivity|]. destruct (e =? 3); [reflexivity|].
  change (2 ^ 4) with 16 in *.
  assert (p = 0 \/ p = 1 \/ p = 2 \/ p = 3 \/ p = 4 \/ p = 5 \/ p = 6 \/ p = 7 \/ p = 8 \/ p = 9 \/ p = 10 \/
          p = 11 \/ p = 12 \/ p = 13 \/ p = 14 \/ p = 15) as HH by lia.
  repeat destruct HH as [HH|HH]; try rewrite HH; try reflexivity.
  - cbn [Z.eqb Pos.eqb].
    assert (m = 0 \/ m = 1 \/ m = 2 \/ m = 3 \/ m = 4 \/ m = 5 \/ m = 6 \/ m = 7 \/ m = 8 \/ m = 9 \/ m = 10 \/
          m = 11 \/ m = 12 \/ m = 13 \/ m = 14 \/ m = 15) as HM by lia.
    repeat destruct HM as [HM|HM]; rewrite HM; reflexivity.
Qed.

Lemma ceil_int_div_any a b :
  - 2 ^ 53 < a < 2 ^ 53 -> - 2 ^ 60 < b < 2 ^ 60 -> b <> 0 -> ceil_float (int_div a b) = cdiv a b.
Proof.
  intros Ha Hb Hn. unfold cdiv. destruct (Z.ltb_spec b 0) as [L|L]; [|apply ceil_int_div; lia].
  destruct (Z.eq_dec a 0) as [->|N].
  - unfold int_div. replace (b <? 0) with true by lia. now rewrite Z.div_0_l.
  - rewrite <- (Z.div_opp_opp (- a) b), Z.opp_involutive by lia.
    replace a with (- - a) at 2 by lia.
    rewrite <- (ceil_int_div (- a) (- b)) by lia. f_equal.
    unfold int_div. replace (b <? 0) with true by lia. replace (- b <? 0) with false by lia.
    now replace (a =? 0) with false by lia.
Qed.

Lemma val4_dist c a b : 0 <= a -> 0 <= b -> - 2 ^ 53 < val c a 4 - val c b 4 < 2 ^ 53.
Proof. intros Ha Hb. pose proof (val_4_range c a Ha). pose proof (val_4_range c b Hb). lia. Qed.

Lemma siz_tiles_eq c :
  sizNumberOfTiles (val c 4 4) (val c 8 4) (val c 28 4) (val c 32 4) (val c 20 4) (val c 24 4) = siz_tiles c.
Proof.
  unfold sizNumberOfTiles, siz_tiles. cbv zeta.
  pose proof (val_4_range c 20 ltac:(lia)). pose proof (val_4_range c 24 ltac:(lia)).
  destruct (val c 20 4 =? 0) eqn:E1; [reflexivity|]. destruct (val c 24 4 =? 0) eqn:E2; [reflexivity|].
  cbn [negb andb orb]. rewrite !ceil_int_div_any; try lia; apply val4_dist; lia.
Qed.

Lemma cdepth_pos b : 1 <= cdepth b. Proof. pose proof (cdepth_range b). lia. Qed.

Lemma siz_says E op fuel d c start csiz cap :
  siz_capability (val c 2 2) = Some cap ->
  reported E op fuel d (BTb mSIZ) c start csiz (siz_tests (o_format op) c) (leaves (siz_props cap c)) [].
Proof.
  intros HC. rewrite <- capability_eq in HC. unfold reported. start_says.
  - open_method ltac:(fun E rec fuel f => constr:(validate_siz f)).
    unfold validate_siz. cbv zeta. cbn [s_opts s_contents].
    rewrite (u16_val c 2 4), (u16_val c 36 38) by lia. rewrite HC.
    repeat (eapply emits_bind; [solve [run1]|]).
    eapply emits_bind; [|run1].
    eapply (emits_for op _ (fun i => 38 + 3 * i)); [reflexivity|].
    intros i Hi. run1. lia.
  - unfold siz_tests. cbn [app]. tbl; [unfold btw; cond|].
    rewrite !app_nil_r.
    apply tbl_app.
    + unfold fmt_p1, fmt_ht, fmt_is.
      destruct (String.eqb (o_format op) "jp2" || String.eqb (o_format op) "j2c"); [tbl; vals; lia|].
      destruct (String.eqb (o_format op) "jph" || String.eqb (o_format op) "jhc"); [|exact tbl_nil].
      cbn [when]. tbl. vals. change (16 - 2) with 14. lia.
    + cbn [app]. unfold btw. tbl; try cond.
      apply tbl_flat. intros i Hi. apply in_zseq in Hi. cbn [app].
      rewrite !u8_val by lia. rewrite land127. fold (cdepth (val c (38 + 3 * i) 1)).
      pose proof (cdepth_pos (val c (38 + 3 * i) 1)).
      replace (38 + 3 * i + 1) with (39 + 3 * i) by lia. replace (38 + 3 * i + 2) with (40 + 3 * i) by lia.
      tbl; cond.
  - unfold siz_props. rewrite leaves_app, leaves_flat.
    vals. rewrite siz_tiles_eq. unfold fmt_p1, fmt_ht, fmt_is.
    assert (HX : forall (a b : bool), (if a then @nil elt else if b then [] else []) = [])
      by (intros [] []; reflexivity).
    unfold when. rewrite HX, app_nil_r. cbn [app leaves map]. repeat apply cons_eq; try reflexivity.
    apply flat_map_ext_in. intros i Hi. apply in_zseq in Hi. vals. rewrite land127.
    replace (38 + 3 * i + 1) with (39 + 3 * i) by lia. replace (38 + 3 * i + 2) with (40 + 3 * i) by lia.
    reflexivity.
  - nowarn.
Qed.

Lemma siz_raises E op fuel d c start csiz :
  siz_capability (val c 2 2) = None ->
  validate E op fuel (S d) (BTb mSIZ) c start csiz = Raise UnboundLocalError.
Proof.
  intros HC. rewrite <- capability_eq in HC. cbn [validate].
  match goal with |- context [runMethod ?E ?rec ?fuel ?f] =>
    change (runMethod E rec fuel f) with (validate_siz f) end.
  enough (forall s, validate_siz {| s_opts := op; s_btype := BTb mSIZ; s_contents := c;
     s_start := start; s_csiz := csiz |} s = Raise UnboundLocalError) as -> by reflexivity.
  intros s. unfold validate_siz. cbv zeta. cbn [s_opts s_contents].
  rewrite (u16_val c 2 4) by lia. rewrite HC.
  do 4 (eapply (emits_raise op); [run1|]; clear s; intros s; cbv beta).
  reflexivity.
Qed.

(** ** COD and COC *)
Lemma pow2_size v : v = -9999 \/ 0 <= v -> pow2 (v + 2) = cb_size v.
Proof.
  intros [->|H]; unfold cb_size, pow2.
  - vm_compute. reflexivity.
  - replace (v =? -9999) with false by lia. replace (0 <=? v + 2) with true by lia.
    rewrite Z.pow_add_r by lia. change (2 ^ 2) with 4. f_equal. lia.
Qed.

Lemma emits_cb f op off :
  s_opts f = op -> 0 <= off ->
  exists T, emits op (codeBlockFields f off) tt T (leaves (cb_props (s_contents f) off)) [] /\
            tbl_ok (cb_tests (s_contents f) off) T.
Proof.
  intros <- Ho. set (c := s_contents f). eexists. split.
  - eapply emits_eq.
    + unfold codeBlockFields. cbv zeta. fold c. vals. run1.
    + reflexivity.
    + reflexivity.
    + pose proof (val_1_range c off Ho). pose proof (val_1_range c (off + 1) ltac:(lia)).
      rewrite !pow2_size by lia. reflexivity.
    + reflexivity.
  - unfold cb_tests, btw. cbn [app]. tbl; cond.
Qed.

Lemma only_ht_bits x : (Z.land 192 x =? 64) = (bitk x 7 =? 0) && (bitk x 6 =? 1).
Proof.
  rewrite Z.land_comm. change 192 with (Z.shiftl 3 6).
  assert (HS : Z.land x (Z.shiftl 3 6) = Z.shiftl (Z.land (Z.shiftr x 6) 3) 6).
  { apply Z.bits_inj'. intros n Hn. rewrite Z.land_spec.
    destruct (Z.ltb_spec n 6).
    - rewrite !Z.shiftl_spec_low by lia. apply andb_false_r.
    - rewrite !Z.shiftl_spec, Z.land_spec, Z.shiftr_spec by lia. f_equal. f_equal. lia. }
  rewrite HS, Z.shiftl_mul_pow2 by lia.
  rewrite (land_mod _ 2), Z.shiftr_div_pow2 by lia. unfold bitk.
  change (2 ^ 6) with 64. change (2 ^ 7) with 128. change (2 ^ 2) with 4.
  Z.to_euclidean_division_equations. lia.
Qed.

Lemma emits_cbs f op off :
  s_opts f = op -> 0 <= off ->
  emits op (codeBlockStyleFields f off) tt [] (leaves (cbs_props (o_format op) (val (s_contents f) off 1))) [].
Proof.
  intros <- Ho. set (c := s_contents f). eapply emits_eq.
  - unfold codeBlockStyleFields. cbv zeta. fold c. vals. run1.
  - reflexivity.
  - now destruct (negb _).
  - unfold cbs_props, fmt_ht, fmt_is. cbv zeta.
    destruct (String.eqb (o_format (s_opts f)) "jph" || String.eqb (o_format (s_opts f)) "jhc");
      cbn [andb]; [|reflexivity].
    rewrite only_ht_bits. now destruct ((bitk (val c off 1) 7 =? 0) && (bitk (val c off 1) 6 =? 1)).
  - now destruct (negb _).
Qed.

Lemma pow2_ge2 k : 0 <= k -> (2 <=? 2 ^ k) = (1 <=? k).
Proof.
  intros H. destruct (Z.leb_spec 1 k) as [L|L].
  - apply Z.leb_le. change 2 with (2 ^ 1) at 1. apply Z.pow_le_mono_r; lia.
  - replace k with 0 by lia. reflexivity.
Qed.

Lemma emits_prec f op pr levels off :
  s_opts f = op -> 0 <= off ->
  exists T, emits op (precinctFields f pr levels off) tt T
                  (leaves (prec_props (pr =? 1) (s_contents f) levels off)) [] /\
            tbl_ok (prec_tests (pr =? 1) (s_contents f) levels off) T.
Proof.
  intros <- Ho. set (c := s_contents f). unfold precinctFields, prec_props, prec_tests. fold c.
  destruct (pr =? 1).
  - eexists. split.
    + eapply emits_eq.
      * eapply emits_bind; [|run1].
        eapply (emits_for _ _ (fun i => off + i)); [lia|].
        intros i Hi. rewrite !u8_val by lia. cbv zeta. run1. lia.
      * reflexivity.
      * reflexivity.
      * rewrite leaves_flat, app_nil_r. apply flat_map_ext_in. intros i Hi. bits. reflexivity.
      * nowarn.
    + rewrite app_nil_r. apply tbl_flat. intros i Hi. apply in_zseq in Hi. cbn [app]. bits.
      pose proof (bitsk_range (val c (off + i) 1) 0 4 ltac:(lia)).
      pose proof (bitsk_range (val c (off + i) 1) 4 4 ltac:(lia)).
      rewrite !pow2_ge2 by lia. tbl; destruct (i =? 0) eqn:Ei; cbn [negb]; lia.
  - eexists. split.
    + eapply emits_eq.
      * eapply (emits_for _ _ (fun _ => tt)); [reflexivity|]. intros i Hi. run1.
      * reflexivity.
      * reflexivity.
      * rewrite leaves_flat. reflexivity.
      * nowarn.
    + cbn [app]. rewrite flat_map_nil. exact tbl_nil.
Qed.

Lemma cod_says E op fuel d c start csiz :
  reported E op fuel d (BTb mCOD) c start csiz (cod_tests c) (leaves (cod_props (o_format op) c)) [].
Proof.
  set (f := {| s_opts := op; s_btype := BTb mCOD; s_contents := c; s_start := start; s_csiz := csiz |}).
  destruct (emits_cb f op 8 eq_refl ltac:(lia)) as (T1 & HE1 & HT1).
  pose proof (emits_cbs f op 10 eq_refl ltac:(lia)) as HE2.
  destruct (emits_prec f op (bitk (val c 2 1) 0) (val c 7 1) 12 eq_refl ltac:(lia)) as (T3 & HE3 & HT3).
  cbn [s_contents f] in HT1, HE1, HE2, HT3, HE3.
  assert (S1 : slice (slice c 3 7) 0 1 = slice c 3 4)
    by (rewrite !slice_sub by lia; apply sub_sub; lia).
  assert (S2 : slice (slice c 3 7) 1 3 = slice c 4 6)
    by (rewrite !slice_sub by lia; apply sub_sub; lia).
  assert (S3 : slice (slice c 3 7) 3 4 = slice c 6 7)
    by (rewrite !slice_sub by lia; apply sub_sub; lia).
  unfold reported. start_says.
  - open_method ltac:(fun E rec fuel f => constr:(validate_cod f)).
    unfold validate_cod. cbv zeta. cbn [s_opts s_contents]. rewrite S1, S2, S3.
    vals. change (8 - 8) with 0. fold f.
    repeat (eapply emits_bind; [solve [run1]|]).
    eapply emits_bind; [exact HE1|]. eapply emits_bind; [exact HE2|].
    do 2 (eapply emits_bind; [run1|]). exact HE3.
  - unfold cod_tests, cod_explicit. cbn [app]. unfold btw at 1 2 3 4 5 6. tbl; try cond.
    1-2: cbn [Zin existsb]; lia.
    apply tbl_app; [exact HT1|]. cbn [app]. tbl; [cbn [Zin existsb]; unfold btw; lia|]. exact HT3.
  - unfold cod_props. rewrite !leaves_app. reflexivity.
  - reflexivity.
Qed.

(** Evaluate sums of literals. *)
Ltac nrm := repeat match goal with |- context [Zpos ?a + Zpos ?b] =>
  let r := eval vm_compute in (Zpos a + Zpos b) in change (Zpos a + Zpos b) with r end.
Ltac runb := repeat (eapply emits_bind; [solve [run1]|]).
Ltac open_csiz := unfold cwidth, cmax; match goal with |- context [?n <? 257] => destruct (n <? 257) eqn:Hcs end.

Lemma zin01 x : Zin x [0; 1] = true <-> btw 0 x 1.
Proof. cbn [Zin existsb]. unfold btw. lia. Qed.
Lemma zin012 x : Zin x [0; 1; 2] = true <-> btw 0 x 2.
Proof. cbn [Zin existsb]. unfold btw. lia. Qed.
Lemma zin04 x : Zin x [0; 1; 2; 3; 4] = true <-> btw 0 x 4.
Proof. cbn [Zin existsb]. unfold btw. lia. Qed.

Lemma coc_says E op fuel d c start n :
  reported E op fuel d (BTb mCOC) c start (VInt n) (coc_tests n c) (leaves (coc_props (o_format op) n c)) [].
Proof.
  set (f := {| s_opts := op; s_btype := BTb mCOC; s_contents := c; s_start := start; s_csiz := VInt n |}).
  pose proof (fun o => emits_cb f op o eq_refl) as HE1.
  pose proof (fun o => emits_cbs f op o eq_refl) as HE2.
  pose proof (fun p l o => emits_prec f op p l o eq_refl) as HE3.
  cbn [s_contents f] in HE1, HE2, HE3.
  pose proof (bitk_range (val c (2 + cwidth n) 1) 0) as RB.
  unfold reported, coc_tests, coc_props, coc_explicit, coc_levels, cwidth, cmax in *. cbv zeta.
  destruct (n <? 257) eqn:Hcs.
  - destruct (HE1 (4 + 1) ltac:(lia)) as (T1 & HE1' & HT1). specialize (HE2 (6 + 1) ltac:(lia)).
    destruct (HE3 (bitk (val c (2 + 1) 1) 0) (val c (3 + 1) 1) (8 + 1) ltac:(lia)) as (T3 & HE3' & HT3).
    start_says.
    + open_method ltac:(fun E rec fuel f => constr:(validate_coc f)).
      unfold validate_coc. cbv zeta. cbn [s_opts s_contents s_csiz as_int]. fold f.
      vals. change (8 - 8) with 0.
      eapply emits_bind; [run1|]. eapply emits_bind; [run1|]. eapply emits_bind; [run1|].
      rewrite Hcs. vals. change (8 - 8) with 0. runb.
      eapply emits_bind; [exact HE1'|]. eapply emits_bind; [exact HE2|].
      runb. exact HE3'.
    + cbn [app]. unfold btw at 1 2 3 4. tbl; try cond.
      * change (3 + 1) with 4. change (2 + 1) with 3 in *. destruct (bitk (val c 3 1) 0 =? 1) eqn:EB; cbn [andb].
        -- replace (9 + 1 + val c 4 1) with (10 + val c 4 1) by lia. lia.
        -- replace (bitk (val c 3 1) 0 =? 0) with true by lia. cbn [andb]. lia.
      * apply tbl_app; [exact HT1|]. cbn [app]. tbl; [apply zin01|]. exact HT3.
    + rewrite !leaves_app. reflexivity.
    + reflexivity.
  - destruct (HE1 (4 + 2) ltac:(lia)) as (T1 & HE1' & HT1). specialize (HE2 (6 + 2) ltac:(lia)).
    destruct (HE3 (bitk (val c (2 + 2) 1) 0) (val c (3 + 2) 1) (8 + 2) ltac:(lia)) as (T3 & HE3' & HT3).
    start_says.
    + open_method ltac:(fun E rec fuel f => constr:(validate_coc f)).
      unfold validate_coc. cbv zeta. cbn [s_opts s_contents s_csiz as_int]. fold f.
      eapply emits_bind; [run1|]. eapply emits_bind; [run1|]. eapply emits_bind; [run1|].
      rewrite Hcs. vals. change (8 - 8) with 0. runb.
      eapply emits_bind; [exact HE1'|]. eapply emits_bind; [exact HE2|].
      runb. exact HE3'.
    + cbn [app]. change (4 + 1) with 5. change (3 + 2) with 5. change (2 + 2) with 4 in *.
      unfold btw at 1 2 3 4. tbl; try cond.
      * replace (257 <=? n) with true by lia. rewrite ?andb_false_r, ?andb_true_r.
        destruct (bitk (val c 4 1) 0 =? 1) eqn:EB.
        -- replace (9 + 2 + val c 5 1) with (11 + val c 5 1) by lia. lia.
        -- lia.
      * apply tbl_app; [exact HT1|]. cbn [app]. tbl; [apply zin01|]. exact HT3.
    + rewrite !leaves_app, !u16_val by lia. reflexivity.
    + reflexivity.
Qed.

(** ** RGN *)
Lemma rgn_says E op fuel d c start n :
  reported E op fuel d (BTb mRGN) c start (VInt n) (rgn_tests (o_format op) n c) (leaves (rgn_props n c)) [].
Proof.
  unfold reported, rgn_tests, rgn_props, cwidth, cmax. cbv zeta.
  destruct (n <? 257) eqn:Hcs; (start_says;
  [ open_method ltac:(fun E rec fuel f => constr:(validate_rgn f));
    unfold validate_rgn; cbv zeta; cbn [s_opts s_contents s_csiz as_int];
    eapply emits_bind; [run1|]; eapply emits_bind; [run1|]; eapply emits_bind; [run1|];
    rewrite Hcs; vals; run1
  | cbn [app]; unfold btw, fmt_ht, fmt_is; nrm;
    destruct (String.eqb (o_format op) "jph" || String.eqb (o_format op) "jhc"); tbl; cond
  | vals; reflexivity
  | reflexivity ]).
Qed.

(** ** QCD and QCC *)
Lemma emits_steps f op style levels off :
  s_opts f = op -> 0 <= off ->
  emits op (stepSizeFields f style levels off) tt [] (leaves (step_props (s_contents f) style levels off)) [].
Proof.
  intros <- Ho. set (c := s_contents f). unfold stepSizeFields, step_props. fold c.
  destruct (style =? 0); [|destruct (style =? 1); [|destruct (style =? 2)]].
  - eapply emits_eq.
    + eapply emits_bind; [|run1]. eapply (emits_for _ _ (fun i => off + i)); [lia|].
      intros i Hi. cbv zeta. vals. run1. lia.
    + reflexivity.
    + nowarn.
    + rewrite leaves_map, app_nil_r. apply flat_map_ext_in. intros i Hi. reflexivity.
    + nowarn.
  - cbv zeta. vals. eapply emits_eq; [run1|reflexivity..].
  - eapply emits_eq.
    + eapply emits_bind; [|run1]. eapply (emits_for _ _ (fun i => off + 2 * i)); [lia|].
      intros i Hi. cbv zeta. vals. run1. lia.
    + reflexivity.
    + nowarn.
    + rewrite leaves_flat, app_nil_r. apply flat_map_ext_in. intros i Hi. reflexivity.
    + nowarn.
  - apply emits_ret.
Qed.

Lemma val2_dist c a k : 0 <= a -> Z.abs k <= 2 ^ 50 -> - 2 ^ 53 < val c a 2 - k < 2 ^ 53.
Proof. intros Ha Hk. pose proof (val_2_range c a Ha). lia. Qed.

Lemma qcd_says E op fuel d c start csiz :
  reported E op fuel d (BTb mQCD) c start csiz (qcd_tests c) (leaves (qcd_props c)) [].
Proof.
  set (f := {| s_opts := op; s_btype := BTb mQCD; s_contents := c; s_start := start; s_csiz := csiz |}).
  pose proof (fun s l => emits_steps f op s l 3 eq_refl ltac:(lia)) as HS. cbn [s_contents f] in HS.
  unfold reported, qcd_tests, qcd_props. cbv zeta. start_says.
  - open_method ltac:(fun E rec fuel f => constr:(validate_qcd f)).
    unfold validate_qcd. cbv zeta. cbn [s_opts s_contents]. fold f. vals.
    rewrite !int_quot_exact by first [apply val2_dist; lia | lia].
    runb. apply HS.
  - cbn [app]. unfold btw at 1. tbl; [cond|]. apply zin012.
  - rewrite !leaves_app. unfold step_levels.
    replace (val c 0 2 - 4 - 1) with (val c 0 2 - 5) by lia. reflexivity.
  - reflexivity.
Qed.

Lemma qcc_says E op fuel d c start n :
  reported E op fuel d (BTb mQCC) c start (VInt n) (qcc_tests n c) (leaves (qcc_props n c)) [].
Proof.
  set (f := {| s_opts := op; s_btype := BTb mQCC; s_contents := c; s_start := start; s_csiz := VInt n |}).
  pose proof (fun s l o => emits_steps f op s l o eq_refl) as HS. cbn [s_contents f] in HS.
  unfold reported, qcc_tests, qcc_props, cwidth. cbv zeta.
  destruct (n <? 257) eqn:Hcs.
  - start_says.
    + open_method ltac:(fun E rec fuel f => constr:(validate_qcc f)).
      unfold validate_qcc. cbv zeta. cbn [s_opts s_contents s_csiz as_int]. fold f.
      eapply emits_bind; [run1|]. eapply emits_bind; [run1|]. eapply emits_bind; [run1|].
      rewrite Hcs. vals. rewrite !int_quot_exact by first [apply val2_dist; lia | lia].
      replace (257 <=? n) with false by lia. rewrite !andb_true_r, !andb_false_r.
      runb. apply HS. lia.
    + cbn [app]. unfold btw at 1. tbl; [cond|]. apply zin012.
    + rewrite !leaves_app. unfold step_levels.
      replace (val c 0 2 - (4 + 1) - 1) with (val c 0 2 - 6) by lia.
      rewrite !u16_val by lia. reflexivity.
    + reflexivity.
  - start_says.
    + open_method ltac:(fun E rec fuel f => constr:(validate_qcc f)).
      unfold validate_qcc. cbv zeta. cbn [s_opts s_contents s_csiz as_int]. fold f.
      eapply emits_bind; [run1|]. eapply emits_bind; [run1|]. eapply emits_bind; [run1|].
      rewrite Hcs. vals. rewrite !int_quot_exact by first [apply val2_dist; lia | lia].
      replace (257 <=? n) with true by lia. rewrite !andb_true_r, !andb_false_r.
      runb. apply HS. lia.
    + cbn [app]. unfold btw at 1. tbl; [cond|]. apply zin012.
    + rewrite !leaves_app. unfold step_levels.
      replace (val c 0 2 - (4 + 2) - 1) with (val c 0 2 - 7) by lia.
      rewrite !u16_val by lia. reflexivity.
    + reflexivity.
Qed.
