(** * Marker segments, continued: POC, CRG, COM, CAP, PRF, CPF, SOT *)

From Coq Require Import ZArith List Bool String Lia.
From Coq Require Import ZifyBool.
From Coq Require Import Init.Byte.
From Verif Require Import Py PyFloat ByteConv ETree BV VBoxes VMarkers VSuper Spec SpecBox SpecMarker
     PBase PText PFloat PEmit PLeaf PLeaf2 PMarker.
Import ListNotations.
Open Scope string_scope.
Open Scope list_scope.
Open Scope Z_scope.

(** ** POC *)
Lemma poc_says E op fuel d c start n :
  reported E op fuel d (BTb mPOC) c start (VInt n) (poc_tests n c) (leaves (poc_props n c)) [].
Proof.
  unfold reported, poc_tests, poc_props, poc_off, poc_n, cwidth, cmax. cbv zeta.
  destruct (n <? 257) eqn:Hcs.
  - start_says.
    + open_method ltac:(fun E rec fuel f => constr:(validate_poc f)).
      unfold validate_poc. cbv zeta. cbn [s_opts s_contents s_csiz as_int].
      eapply emits_bind; [run1|]. eapply emits_bind; [run1|]. eapply emits_bind; [run1|].
      rewrite Hcs. vals. rewrite !int_quot_exact by first [apply val2_dist; lia | lia].
      eapply emits_bind; [|run1].
      eapply (emits_for op _ (fun i => 2 + 7 * i)); [reflexivity|].
      intros i Hi. vals. run1. lia.
    + cbn [app]. tbl; [unfold btw; cond|]. rewrite app_nil_r. change (5 + 2 * 1) with 7.
      apply tbl_flat. intros i Hi. cbn [app].
      replace (2 + 7 * i + 1 + 1 + 2) with (2 + 7 * i + 3 + 1) by lia.
      replace (2 + 7 * i + 3 + 1 + 1) with (2 + 7 * i + 4 + 1) by lia.
      replace (2 + 7 * i + 4 + 1 + 1) with (2 + 7 * i + 4 + 2 * 1) by lia.
      unfold btw. tbl; unfold in_rng; try lia. apply zin04.
    + cbn [app leaves map]. rewrite ?u16_val by lia. apply cons_eq; [reflexivity|].
      change (map (fun '(n, v) => leaf n v)) with leaves. rewrite leaves_flat, app_nil_r.
      apply flat_map_ext_in. intros i Hi. cbn [app leaves map]. change (5 + 2 * 1) with 7.
      replace (2 + 7 * i + 1 + 1 + 2) with (2 + 7 * i + 3 + 1) by lia.
      replace (2 + 7 * i + 3 + 1 + 1) with (2 + 7 * i + 4 + 1) by lia.
      replace (2 + 7 * i + 4 + 1 + 1) with (2 + 7 * i + 4 + 2 * 1) by lia. reflexivity.
    + nowarn.
  - start_says.
    + open_method ltac:(fun E rec fuel f => constr:(validate_poc f)).
      unfold validate_poc. cbv zeta. cbn [s_opts s_contents s_csiz as_int].
      eapply emits_bind; [run1|]. eapply emits_bind; [run1|]. eapply emits_bind; [run1|].
      rewrite Hcs. vals. rewrite !int_quot_exact by first [apply val2_dist; lia | lia].
      eapply emits_bind; [|run1].
      eapply (emits_for op _ (fun i => 2 + 9 * i)); [reflexivity|].
      intros i Hi. vals. run1. lia.
    + cbn [app]. tbl; [unfold btw; cond|]. rewrite app_nil_r. change (5 + 2 * 2) with 9.
      apply tbl_flat. intros i Hi. cbn [app].
      replace (2 + 9 * i + 1 + 2 + 2) with (2 + 9 * i + 3 + 2) by lia.
      replace (2 + 9 * i + 3 + 2 + 1) with (2 + 9 * i + 4 + 2) by lia.
      replace (2 + 9 * i + 4 + 2 + 2) with (2 + 9 * i + 4 + 2 * 2) by lia.
      unfold btw. tbl; unfold in_rng; try lia. apply zin04.
    + cbn [app leaves map]. rewrite ?u16_val by lia. apply cons_eq; [reflexivity|].
      change (map (fun '(n, v) => leaf n v)) with leaves. rewrite leaves_flat, app_nil_r.
      apply flat_map_ext_in. intros i Hi. cbn [app leaves map]. change (5 + 2 * 2) with 9.
      replace (2 + 9 * i + 1 + 2 + 2) with (2 + 9 * i + 3 + 2) by lia.
      replace (2 + 9 * i + 3 + 2 + 1) with (2 + 9 * i + 4 + 2) by lia.
      replace (2 + 9 * i + 4 + 2 + 2) with (2 + 9 * i + 4 + 2 * 2) by lia. reflexivity.
    + nowarn.
Qed.

(** ** CRG *)
Lemma crg_says E op fuel d c start n :
  reported E op fuel d (BTb mCRG) c start (VInt n) (crg_tests n c) (leaves (crg_props n c)) [].
Proof.
  unfold reported, crg_tests, crg_props. start_says.
  - open_method ltac:(fun E rec fuel f => constr:(validate_crg f)).
    unfold validate_crg. cbv zeta. cbn [s_opts s_contents s_csiz as_int].
    eapply emits_bind; [run1|]. eapply emits_bind; [run1|]. eapply emits_bind; [run1|].
    eapply emits_bind; [|run1].
    eapply (emits_for op _ (fun i => 2 + 4 * i)); [reflexivity|].
    intros i Hi. vals. replace (2 + 4 * i + 2) with (4 + 4 * i) by lia. run1. lia.
  - cbn [app]. tbl; [unfold btw; cond|]. rewrite app_nil_r.
    apply tbl_flat. intros i Hi. cbn [app]. unfold btw. tbl; cond.
  - cbn [app leaves map]. rewrite ?u16_val by lia. apply cons_eq; [reflexivity|].
    change (map (fun '(n, v) => leaf n v)) with leaves. rewrite leaves_flat, app_nil_r.
    apply flat_map_ext_in. intros i Hi. reflexivity.
  - nowarn.
Qed.

(** ** COM *)
Lemma latin9_eq b : latin9 b = iso8859_15 b.
Proof. destruct b; reflexivity. Qed.

Lemma com_raw_eq c : slice c 4 (val c 0 2) = com_raw c.
Proof.
  unfold com_raw. destruct (val_2_range c 0 ltac:(lia)) as [H|H].
  - assert (len c < 2).
    { destruct (Z.ltb_spec (len c) 2) as [L|L]; [exact L|].
      pose proof (val_readable c 0 2 ltac:(lia) ltac:(lia) ltac:(lia)). lia. }
    rewrite H. unfold slice, norm_ix. pose proof (len_nonneg c).
    unfold sub. replace (Z.to_nat (-9999 - 4)) with 0%nat by lia. cbn [firstn].
    replace (-9999 <? 0) with true by lia. replace (4 <? 0) with false by lia.
    replace (Z.to_nat (Z.max 0 (-9999 + len c) - Z.min 4 (len c))) with 0%nat by lia. reflexivity.
  - apply slice_sub; lia.
Qed.

Lemma rcc_same catC s :
  pystr_eqb (removeControlCharacters catC s) s = true <-> Forall (printable catC) s.
Proof.
  rewrite pystr_eqb_spec. split; intros H; [|now apply rcc_id].
  rewrite <- H. apply rcc_printable.
Qed.

Lemma com_says E op fuel d c start csiz :
  exists p, com_props (catC E) c p /\
  reported E op fuel d (BTb mCOM) c start csiz (com_tests (catC E) c) (leaves p) [].
Proof.
  assert (HM : map latin9 (com_raw c) = map iso8859_15 (com_raw c))
    by (apply map_ext, latin9_eq).
  pose proof (rcc_same (catC E) (map iso8859_15 (com_raw c))) as HR.
  set (ok := if val c 2 2 =? 0 then true
             else if val c 2 2 =? 1 then
               pystr_eqb (removeControlCharacters (catC E) (map iso8859_15 (com_raw c)))
                         (map iso8859_15 (com_raw c)) else false).
  assert (HOK : ok = true <-> com_ok (catC E) c).
  { unfold ok, com_ok. destruct (val c 2 2 =? 0) eqn:E0; [intuition lia|].
    destruct (val c 2 2 =? 1) eqn:E1; intuition lia. }
  exists ([("lcom", VInt (val c 0 2)); ("rcom", VInt (val c 2 2))] ++
     if ok then [("comment", com_text c)] else []). split.
  - destruct ok.
    + apply com_shown. now apply HOK.
    + apply com_hidden. intros H. apply HOK in H. discriminate.
  - unfold reported, com_tests. start_says.
    + open_method ltac:(fun E rec fuel f => constr:(validate_com E f)).
      unfold validate_com. cbv zeta. cbn [s_opts s_contents]. vals. rewrite com_raw_eq, HM.
      runb.
      instantiate (3 := [("commentIsValid", ok)]).
      instantiate (2 := if ok then leaves [("comment", com_text c)] else []). instantiate (1 := []).
      unfold ok, com_text. destruct (val c 2 2 =? 0) eqn:E0.
      { rewrite profileID_hex. eapply emits_eq; [run1|reflexivity..]. }
      destruct (val c 2 2 =? 1).
      * destruct (pystr_eqb _ _); (eapply emits_eq; [run1|reflexivity..]).
      * eapply emits_eq; [run1|reflexivity..].
    + cbn [app]. unfold btw. tbl; [cond|cond|exact HOK].
    + rewrite leaves_app. now destruct ok.
    + reflexivity.
Qed.

(** ** CAP *)
Fixpoint upfrom (i : Z) (k : nat) : list Z :=
  match k with O => [] | S k' => i :: upfrom (i + 1) k' end.

Lemma parts_filter k i p :
  i + Z.of_nat k = 32 ->
  pcapPartsFrom k i p = filter (fun j => bitk p (32 - j) =? 1) (upfrom (i + 1) k).
Proof.
  revert i. induction k as [|k IH]; intros i H; [reflexivity|].
  cbn [pcapPartsFrom upfrom filter]. rewrite land1_mod, Z.shiftr_div_pow2 by lia.
  change (p / 2 ^ Z.of_nat k mod 2) with (bitk p (Z.of_nat k)).
  replace (32 - (i + 1)) with (Z.of_nat k) by lia.
  rewrite IH by lia. now destruct (bitk p (Z.of_nat k) =? 1).
Qed.

Lemma parts_eq c : pcapPartsFrom 32 0 (val c 2 4) = cap_parts c.
Proof.
  rewrite parts_filter by reflexivity. unfold cap_parts.
  assert (H : upfrom (0 + 1) 32 = map (Z.add 1) (zseq 32)) by (vm_compute; reflexivity).
  now rewrite H.
Qed.

Lemma zindex_filter P k i a :
  zindex a 15 (filter P (upfrom i k)) =
  if existsb (Z.eqb 15) (filter P (upfrom i k))
  then Some (a + len (filter (fun x => x <? 15) (filter P (upfrom i k)))) else None.
Proof.
  assert (HB : forall k i, 15 < i -> existsb (Z.eqb 15) (filter P (upfrom i k)) = false).
  { clear. induction k as [|k IH]; intros i H; [reflexivity|]. cbn [upfrom filter].
    destruct (P i); [|apply IH; lia]. cbn [existsb]. rewrite IH by lia. lia. }
  assert (HC : forall k i, 15 <= i -> filter (fun x => x <? 15) (filter P (upfrom i k)) = []).
  { clear. induction k as [|k IH]; intros i H; [reflexivity|]. cbn [upfrom filter].
    destruct (P i); [|apply IH; lia]. cbn [filter]. replace (i <? 15) with false by lia. apply IH; lia. }
  revert i a. induction k as [|k IH]; intros i a; [reflexivity|].
  cbn [upfrom filter]. destruct (P i); [|apply IH].
  cbn [zindex existsb filter]. destruct (Z.eqb_spec 15 i) as [<-|N].
  - cbn [orb]. change (15 <? 15) with false. cbv iota. rewrite HC by lia. f_equal. cbn. lia.
  - cbn [orb]. rewrite IH. destruct (Z.ltb_spec i 15) as [L|L].
    + destruct (existsb _ _); [|reflexivity]. f_equal. unfold len. cbn [List.length]. lia.
    + rewrite HB by lia. reflexivity.
Qed.

Lemma cap_index c :
  zindex 0 15 (cap_parts c) = if cap_has15 c then Some (cap_before15 c) else None.
Proof.
  unfold cap_before15, cap_has15, cap_parts.
  assert (H : map (Z.add 1) (zseq 32) = upfrom 1 32) by (vm_compute; reflexivity).
  rewrite H. rewrite zindex_filter. now destruct (existsb _ _).
Qed.

Lemma emits_parts op l : emits op (addParts l) tt [] (map (fun k => leaf "pcapPart" (VInt k)) l) [].
Proof.
  induction l as [|x l IH]; cbn [addParts map].
  - apply emits_ret.
  - apply (emits_bind op _ _ tt tt [] [leaf "pcapPart" (VInt x)] [] []
             (map (fun k => leaf "pcapPart" (VInt k)) l) []); [apply emits_int | exact IH].
Qed.

Lemma land_49152 x : Z.land 49152 x = 16384 * bitsk x 14 2.
Proof.
  rewrite Z.land_comm. change 49152 with (Z.shiftl 3 14).
  assert (HS : Z.land x (Z.shiftl 3 14) = Z.shiftl (Z.land (Z.shiftr x 14) 3) 14).
  { apply Z.bits_inj'. intros n Hn. rewrite Z.land_spec.
    destruct (Z.ltb_spec n 14).
    - rewrite !Z.shiftl_spec_low by lia. apply andb_false_r.
    - rewrite !Z.shiftl_spec, Z.land_spec, Z.shiftr_spec by lia. f_equal. f_equal. lia. }
  rewrite HS, Z.shiftl_mul_pow2 by lia.
  pose proof (bitsk_land x 14 2 ltac:(lia) ltac:(lia)) as HB. change (2 ^ 2 - 1) with 3 in HB. rewrite HB. lia.
Qed.

Lemma len_parts c : len (cap_parts c) <= 32.
Proof.
  unfold cap_parts, len.
  assert (H : forall (P : Z -> bool) l, (List.length (filter P l) <= List.length l)%nat).
  { clear. intros P l. induction l as [|y l IH]; cbn; [lia|]. destruct (P y); cbn; lia. }
  pose proof (H (fun k => bitk (val c 2 4) (32 - k) =? 1) (map (Z.add 1) (zseq 32))) as H1.
  rewrite map_length in H1. change (List.length (zseq 32)) with 32%nat in H1. lia.
Qed.

Lemma cap_says E op fuel d c start csiz :
  reported E op fuel d (BTb mCAP) c start csiz (cap_tests (o_format op) c)
           (leaves (cap_props (o_format op) c)) [].
Proof.
  pose proof (len_parts c) as HL. pose proof (len_nonneg (cap_parts c)) as HN.
  unfold reported, cap_tests, cap_props. start_says.
  - open_method ltac:(fun E rec fuel f => constr:(validate_cap f)).
    unfold validate_cap. cbv zeta. cbn [s_opts s_contents]. vals. rewrite parts_eq, cap_index.
    eapply emits_bind; [run1|]. eapply emits_bind; [apply emits_parts|]. eapply emits_bind; [run1|].
    eapply emits_when. eapply emits_bind; [run1|].
    instantiate (3 := []).
    instantiate (2 := if cap_has15 c then leaves
      (let v := cap_ccap15 c in
     [ ("htCodeBlocks", VInt (16384 * bitsk v 14 2)); ("htSets", VInt (bitk v 13));
       ("htRegion", VInt (bitk v 12)); ("htHomogeneous", VInt (bitk v 11));
       ("htReversible", VInt (bitk v 5)); ("htB", VInt (cap_B (bitsk v 0 5))) ]) else []).
    instantiate (1 := []).
    destruct (cap_has15 c); [|apply emits_ret].
    assert (0 <= cap_before15 c) by apply len_nonneg.
    unfold cap_ccap15. revert H. generalize (cap_before15 c). intros b Hb.
    vals. generalize (val c (6 + 2 * b) 2). intros v. rewrite land_49152.
    eapply emits_eq; [run1| reflexivity | reflexivity | | reflexivity].
    cbn [app leaves map]. repeat apply cons_eq; try reflexivity.
    unfold capHtB, cap_B. pose proof (bitsk_range v 0 5 ltac:(lia)).
    do 2 f_equal. destruct (bitsk _ 0 5 =? 0) eqn:E1; [reflexivity|].
    destruct (bitsk _ 0 5 <? 20) eqn:E2; [reflexivity|].
    now replace (20 <=? bitsk v 0 5) with true by lia.
  - cbn [app]. tbl.
    + pose proof (val_2_range c 0 ltac:(lia)). rewrite float_eq_int_div by lia. lia.
    + unfold fmt_ht, fmt_is. destruct (_ || _); [|exact tbl_nil]. tbl. apply Zin_spec.
  - unfold fmt_ht, fmt_is. rewrite !leaves_app. f_equal. cbn [app]. f_equal.
    + unfold leaves. now rewrite map_map.
    + cbn [app]. destruct (_ || _); [|reflexivity]. now destruct (cap_has15 c).
  - nowarn.
Qed.

(** ** PRF and CPF *)
Lemma rep16_succ v n : 0 <= n -> rep16 v (n + 1) = rep16 v n + v * 2 ^ (16 * n).
Proof.
  intros H. unfold rep16. rewrite zseq_succ, map_app, fold_right_app by exact H. cbn [map fold_right].
  generalize (map (fun i => v * 2 ^ (16 * i)) (zseq n)) as l.
  induction l as [|x l IH]; cbn [fold_right]; lia.
Qed.

Lemma rep16_max v n : rep16 v (Z.max 0 n) = rep16 v n.
Proof. unfold rep16. now rewrite map_zseq_max. Qed.

Lemma prf_says E op fuel d c start csiz :
  reported E op fuel d (BTb mPRF) c start csiz (prf_tests c) (leaves (prf_props c)) [].
Proof.
  unfold reported, prf_tests, prf_props. start_says.
  - open_method ltac:(fun E rec fuel f => constr:(validate_prf f)).
    unfold validate_prf. cbv zeta. cbn [s_opts s_contents]. vals.
    rewrite !int_quot_exact by first [apply val2_dist; lia | lia]. runb.
    eapply emits_bind.
    + eapply (emits_for op _ (fun i => 4095 + rep16 (val c 2 2) i)); [reflexivity|].
      intros i Hi. replace (i =? Z.quot (val c 0 2 - 2) 2) with false by lia. cbn [when].
      run1. rewrite rep16_succ by lia. lia.
    + run1.
  - cbn [app]. rewrite flat_map_nil, rep16_max. unfold btw. tbl; [cond|].
    unfold prf_num. lia.
  - cbn [app]. rewrite flat_map_nil, rep16_max. reflexivity.
  - nowarn.
Qed.

Lemma cpf_says E op fuel d c start csiz :
  reported E op fuel d (BTb mCPF) c start csiz (cpf_tests (o_format op) c) (leaves (cpf_props c)) [].
Proof.
  unfold reported, cpf_tests, cpf_props. start_says.
  - open_method ltac:(fun E rec fuel f => constr:(validate_cpf f)).
    unfold validate_cpf. cbv zeta. cbn [s_opts s_contents]. vals.
    rewrite !int_quot_exact by first [apply val2_dist; lia | lia]. runb.
    eapply emits_bind.
    + eapply (emits_for op _ (fun i => -1 + rep16 (val c 2 2) i)); [reflexivity|].
      intros i Hi. replace (i =? Z.quot (val c 0 2 - 2) 2) with false by lia. cbn [when].
      run1. rewrite rep16_succ by lia. lia.
    + run1.
  - cbn [app]. rewrite flat_map_nil. unfold btw, fmt_ht, fmt_is.
    destruct (_ || _); cbn [app]; tbl; cond.
  - cbn [app]. rewrite flat_map_nil, rep16_max. destruct (_ || _); reflexivity.
  - nowarn.
Qed.

(** ** SOT: besides the report, the tile-part length *)
Definition sot_result (op : opts) (c : bytes) (r : bv) : Prop :=
  says (o_verbose op) "sot" (sot_tests c) (leaves (sot_props c)) [] r /\
  r_ret r = VNone /\ r_valid r = VNone /\ r_tpl r = VInt (val c 4 4).

Lemma bind_assoc {A B C} (m : M A) (k : A -> M B) (h : B -> M C) s :
  bind (bind m k) h s = bind m (fun a => bind (k a) h) s.
Proof. unfold bind. destruct (m s) as [[a s']| |]; reflexivity. Qed.

Lemma sot_says E op fuel d c start csiz :
  exists r, validate E op fuel (S d) (BTs "startOfTile") c start csiz = Ok r /\ sot_result op c r.
Proof.
  cbn [validate].
  match goal with |- context [runMethod ?E ?rec ?fuel ?f] =>
    change (runMethod E rec fuel f) with (validate_sot f) end.
  set (f := {| s_opts := op; s_btype := BTs "startOfTile"; s_contents := c; s_start := start; s_csiz := csiz |}).
  set (m := addInt "lsot" (val c 0 2) ;; testFor op "lsotIsValid" (val c 0 2 =? 10) ;;
    addInt "isot" (val c 2 2) ;; testFor op "isotIsValid" (in_rng (val c 2 2) 0 65534) ;;
    addInt "psot" (val c 4 4) ;; testFor op "psotIsValid" (negb (in_rng (val c 4 4) 1 13)) ;;
    addInt "tpsot" (val c 8 1) ;; testFor op "tpsotIsValid" (in_rng (val c 8 1) 0 254) ;;
    addInt "tnsot" (val c 9 1)).
  assert (HM : validate_sot f st0 = bind m (fun _ => set_tpl (VInt (val c 4 4))) st0).
  { unfold validate_sot, m. cbv zeta. cbn [s_opts s_contents f]. vals.
    generalize (in_rng (val c 2 2) 0 65534), (in_rng (val c 4 4) 1 13), (in_rng (val c 8 1) 0 254), (val c 0 2 =? 10).
    generalize (val c 0 2), (val c 2 2), (val c 4 4), (val c 8 1), (val c 9 1).
    intros x1 x2 x3 x4 x5 b1 b2 b3 b4. unfold testFor. generalize (negb (o_verbose op)).
    intros b0. destruct b0, b1, b2, b3, b4; reflexivity. }
  assert (HE : exists T, emits op m tt T (leaves (sot_props c)) [] /\ tbl_ok (sot_tests c) T).
  { eexists. split.
    - unfold m. eapply emits_eq; [run1|reflexivity..].
    - unfold sot_tests, btw. cbn [app]. tbl; cond. }
  destruct HE as (T & HE & HT).
  rewrite HM. unfold bind. rewrite HE. unfold set_tpl, app_st. cbn [st_tests st_chars st_warns st_ret st_valid].
  eexists. split; [reflexivity|]. split; [|split; [|split]; reflexivity].
  split; [|split; reflexivity]. eexists. split; [reflexivity|]. now apply reports_vis.
Qed.

(** ** Segments with empty validators *)
Lemma tlm_says E op fuel d c start csiz : reported E op fuel d (BTb mTLM) c start csiz [] [] [].
Proof. unfold reported. start_says; [apply emits_ret | exact tbl_nil | reflexivity..]. Qed.
Lemma ppm_says E op fuel d c start csiz : reported E op fuel d (BTb mPPM) c start csiz [] [] [].
Proof. unfold reported. start_says; [apply emits_ret | exact tbl_nil | reflexivity..]. Qed.
Lemma ppt_says E op fuel d c start csiz : reported E op fuel d (BTb mPPT) c start csiz [] [] [].
Proof. unfold reported. start_says; [apply emits_ret | exact tbl_nil | reflexivity..]. Qed.

(** ** Component count not supplied: TypeError *)
Lemma no_csiz_raises E op fuel d c start t :
  In t [mCOC; mRGN; mQCC; mPOC; mCRG] ->
  validate E op fuel (S d) (BTb t) c start VNone = Raise TypeError.
Proof.
  intros Ht. cbn [validate].
  repeat destruct Ht as [<-|Ht]; try contradiction;
  match goal with |- context [runMethod ?E ?rec ?fuel ?f] => set (g := f) end.
  all: match goal with |- match ?m st0 with _ => _ end = _ =>
         enough (forall s, m s = Raise TypeError) as -> by reflexivity end;
    intros s.
  - change (runMethod _ _ _ _) with (validate_coc g). unfold validate_coc. cbv zeta. cbn [s_opts s_csiz g].
    do 2 (eapply (emits_raise op); [run1|]; clear s; intros s; cbv beta). reflexivity.
  - change (runMethod _ _ _ _) with (validate_rgn g). unfold validate_rgn. cbv zeta. cbn [s_opts s_csiz g].
    do 2 (eapply (emits_raise op); [run1|]; clear s; intros s; cbv beta). reflexivity.
  - change (runMethod _ _ _ _) with (validate_qcc g). unfold validate_qcc. cbv zeta. cbn [s_opts s_csiz g].
    do 2 (eapply (emits_raise op); [run1|]; clear s; intros s; cbv beta). reflexivity.
  - change (runMethod _ _ _ _) with (validate_poc g). unfold validate_poc. cbv zeta. cbn [s_opts s_csiz g].
    do 2 (eapply (emits_raise op); [run1|]; clear s; intros s; cbv beta). reflexivity.
  - change (runMethod _ _ _ _) with (validate_crg g). unfold validate_crg. cbv zeta. cbn [s_opts s_csiz g].
    do 2 (eapply (emits_raise op); [run1|]; clear s; intros s; cbv beta). reflexivity.
Qed.
