(** * Closed form of the codestream *)

From Coq Require Import ZArith List Bool String Lia.
From Coq Require Import ZifyBool.
From Coq Require Import Init.Byte.
From Verif Require Import Py PyFloat ByteConv ETree BV VBoxes VMarkers VSuper Spec SpecBox SpecMarker
     SpecWalk SpecSuper SpecCS PBase PEmit PLeaf PMarker PMarker2 PWalk PSuper PSeg PTile PChain.
Import ListNotations.
Open Scope string_scope.
Open Scope list_scope.
Open Scope Z_scope.

(** What the loop needs to know about a tile part. *)
Lemma tile_facts E op fuel d c n p r :
  (List.length c + 3 <= fuel)%nat -> 0 <= p -> sub c p 2 = m_SOT ->
  validate E op fuel (S (S d)) (BTb m_SOT) c (VInt p) (VInt n) = Ok r ->
  r_ret r = VInt (p + tp_psot c p) /\
  findElementText ["sot"; "isot"] (r_chars r) = VInt (tp_isot c p) /\
  findElementText ["sot"; "tnsot"] (r_chars r) = VInt (tp_tnsot c p).
Proof.
  intros HF Hp HM HV. destruct (after_total m_SOD (skipn (Z.to_nat p) c)) as (l & r1 & HA).
  pose proof (after_len _ _ _ _ HA) as HL. rewrite skipn_length in HL.
  destruct (tile_says_ok E op fuel d c p n l r1 Hp HM HA ltac:(lia)) as (r0 & HV0 & HR0 & HT).
  destruct (mapM _ _) as [rs|e|].
  - destruct HT as (res & HT & (_ & HC & _ & HR & _)). rewrite HT in HV. injection HV as <-.
    split; [exact HR|]. destruct HR0 as ((_ & HC0 & _) & _).
    unfold findElementText, find. rewrite HC. cbn [findall ekids node filter]. rewrite HC0. split; reflexivity.
  - congruence.
  - congruence.
Qed.

Lemma siz_find x cap f :
  In f ["csiz"; "rsiz"; "numberOfTiles"; "xsiz"; "ysiz"; "xOsiz"; "yOsiz"] ->
  findElementText [f] (node "siz" (leaves (siz_props cap x))) =
  VInt (match List.find (fun p => String.eqb (fst p) f)
     [("csiz", val x 36 2); ("rsiz", val x 2 2); ("numberOfTiles", siz_tiles x); ("xsiz", val x 4 4);
      ("ysiz", val x 8 4); ("xOsiz", val x 12 4); ("yOsiz", val x 16 4)] with
   | Some p => snd p | None => 0 end).
Proof.
  intros Hf. unfold siz_props, leaves. rewrite map_app. unfold findElementText, find. cbn [findall ekids node].
  rewrite filter_app, flat_map_app. cbn in Hf.
  repeat (destruct Hf as [<-|Hf]; [reflexivity|]). destruct Hf.
Qed.

Lemma siz_depths_text x cap : findAllText ["ssizDepth"] (node "siz" (leaves (siz_props cap x))) =
  map VInt (siz_depths x).
Proof.
  unfold siz_props, leaves, siz_depths. rewrite map_app. unfold findAllText. cbn [findall ekids node].
  rewrite filter_app, flat_map_app, map_app.
  match goal with |- ?a ++ ?b = ?c => change a with (@nil value); cbn [app] end.
  rewrite map_map.
  induction (zseq (val x 36 2)) as [|i l IH]; [reflexivity|].
  cbn [flat_map]. rewrite map_app, filter_app, flat_map_app, map_app, IH. reflexivity.
Qed.

Lemma sum_ints l a : sum_values a (map VInt l) = Ok (a + fold_right Z.add 0 l).
Proof.
  revert a. induction l as [|x l IH]; intros a; cbn [map sum_values fold_right]; [now rewrite Z.add_0_r|].
  cbn [as_int rbind]. rewrite IH. f_equal. lia.
Qed.

Lemma cap_bits r : Z.land (Z.shiftr r 14) 15 = bitsk r 14 4.
Proof.
  unfold bitsk. change 15 with (Z.ones 4). rewrite Z.land_ones by lia. now rewrite Z.shiftr_div_pow2 by lia.
Qed.

Lemma eoc_spec c : bytes_eqb (slice c (len c - 2) (len c)) m_EOC = true <-> exists pre, c = pre ++ m_EOC.
Proof.
  rewrite bytes_eqb_spec. destruct (Z_lt_le_dec (len c) 2) as [L|L].
  - split.
    + intros H. exfalso. destruct c as [|b [|b' c]]; [discriminate H|discriminate H|].
      unfold len in L. cbn [List.length] in L. lia.
    + intros (pre & ->). exfalso. rewrite len_app in L. pose proof (len_nonneg pre). unfold m_EOC, len in *. cbn in L. lia.
  - rewrite slice_sub by lia. split.
    + intros H. exists (firstn (Z.to_nat (len c - 2)) c).
      rewrite <- H. unfold sub. rewrite <- (firstn_skipn (Z.to_nat (len c - 2)) c) at 1. f_equal.
      symmetry. apply firstn_all2. rewrite skipn_length. unfold len in *. lia.
    + intros (pre & ->). rewrite len_app. change (len m_EOC) with 2. unfold sub.
      replace (len pre + 2 - 2) with (len pre) by lia. rewrite skipn_app.
      rewrite skipn_all2 by (unfold len; lia). cbn [app].
      replace (Z.to_nat (len pre) - List.length pre)%nat with 0%nat by (unfold len; lia). cbn [skipn].
      apply firstn_all2. cbn. lia.
Qed.

Lemma in_markers m l : existsb (bytes_eqb m) l = true <-> In m l.
Proof.
  rewrite existsb_exists. split.
  - intros (x & H & HE). apply bytes_eqb_spec in HE. now subst.
  - intros H. exists m. split; [exact H|apply bytes_eqb_refl].
Qed.

(** The second marker. *)
Lemma second_spec c :
  let '(_, _, _, n0) := getMarkerSegment c 0 in
  sub (cs_second c) 0 2 = m_SIZ ->
  exists p, n0 = p /\ 0 <= p /\ cs_second c = skipn (Z.to_nat p) c.
Proof.
  rewrite getMarkerSegment_spec by lia. change (skipn (Z.to_nat 0) c) with c. unfold cs_second.
  destruct (seg_length c =? -9999) eqn:EL; [discriminate|]. intros _.
  exists (0 + seg_length c + 2). split; [reflexivity|].
  pose proof (seg_length_range c). split; [lia|]. reflexivity.
Qed.

Lemma tiles_found_spec c q ix :
  NoDup ix -> (forall i, In i ix <-> In i (map (tp_isot c) q)) -> len ix = tiles_found c q.
Proof.
  intros HN HI. unfold tiles_found, len. f_equal. apply PeanoNat.Nat.le_antisymm; apply NoDup_incl_length.
  - exact HN.
  - intros i H. apply nodup_In. now apply HI.
  - apply NoDup_nodup.
  - intros i H. apply nodup_In in H. now apply HI.
Qed.

Lemma declared_none c q i : parts_declared c q i = None <->
  forall p, In p q -> tp_isot c p = i -> tp_tnsot c p = 0.
Proof.
  unfold parts_declared. destruct (List.find _ (rev q)) as [p|] eqn:EF; cbn [option_map].
  - apply find_some in EF as (HI & HE). split; [discriminate|]. intros H.
    apply in_rev in HI. specialize (H p HI). lia.
  - split; [|reflexivity]. intros _ p Hp Hi. apply in_rev in Hp.
    pose proof (find_none _ _ EF p Hp) as H. cbn in H. lia.
Qed.

Lemma expected_nil c q e : (forall i, getZ i e = parts_declared c q i) ->
  (dict_list e = [] <-> existsb (fun p => negb (tp_tnsot c p =? 0)) q = false).
Proof.
  intros HE. rewrite <- not_true_iff_false, existsb_exists. split.
  - intros H (p & Hp & HT). destruct e; [|discriminate].
    pose proof (HE (tp_isot c p)) as H1. cbn in H1. symmetry in H1.
    rewrite declared_none in H1. specialize (H1 p Hp eq_refl). lia.
  - intros H. destruct e as [|(i & v) e]; [reflexivity|]. exfalso.
    pose proof (HE i) as H1. cbn [getZ] in H1. rewrite Z.eqb_refl in H1.
    assert (H2 : parts_declared c q i = None).
    { apply declared_none. intros p Hp Hi. destruct (Z.eq_dec (tp_tnsot c p) 0); [easy|].
      exfalso. apply H. exists p. split; [exact Hp|]. lia. }
    congruence.
Qed.

Lemma add_test_ne_eq e s : add_test_ne e s = Ok (tt, app_st s (filled [e]) [] []).
Proof.
  unfold add_test_ne, filled. cbn [filter]. destruct s, (ekids e); unfold app_st; cbn; rewrite ?app_nil_r; reflexivity.
Qed.
Lemma add_warn_ne_eq e s : add_warn_ne e s = Ok (tt, app_st s [] [] (filled [e])).
Proof.
  unfold add_warn_ne, filled. cbn [filter]. destruct s, (ekids e); unfold app_st; cbn; rewrite ?app_nil_r; reflexivity.
Qed.

Lemma bind_assoc {A B C} (m : M A) (k : A -> M B) (k' : B -> M C) s :
  bind (bind m k) k' s = bind m (fun a => bind (k a) k') s.
Proof. unfold bind. destruct (m s) as [[a s']|e|]; reflexivity. Qed.

Lemma segs_some stop s l s1 : segs stop s l (Some s1) -> sub s1 0 2 = stop.
Proof.
  intros H. remember (Some s1) as r eqn:HR. revert HR. induction H; intros HR; try discriminate; auto.
  injection HR as <-. assumption.
Qed.
Lemma after_some stop s l s1 : after stop s l (Some s1) -> sub s1 0 2 = stop.
Proof.
  unfold after. destruct (seg_length s =? -9999); [intros (_ & H); discriminate|apply segs_some].
Qed.

Lemma find2 a b x l t : etag x = a -> find [b] x <> None ->
  findElementText [a; b] (node t (x :: l)) = findElementText [b] x.
Proof.
  intros HA HB. unfold findElementText, find in *. cbn [findall ekids node filter] in *.
  rewrite HA, String.eqb_refl. cbn [flat_map findall].
  destruct (flat_map _ (filter _ (ekids x))) as [|y m] eqn:EY; [contradiction|]. reflexivity.
Qed.

Lemma siz_has x cap f :
  In f ["csiz"; "rsiz"; "numberOfTiles"; "xsiz"; "ysiz"; "xOsiz"; "yOsiz"] ->
  find [f] (node "siz" (leaves (siz_props cap x))) <> None.
Proof.
  intros Hf H. pose proof (siz_find x cap f Hf) as HS. unfold findElementText in HS. rewrite H in HS. discriminate.
Qed.

(** ** With a SIZ segment *)
Lemma cs_says_ok E op fuel d t c start csz cap l rest ps :
  boxTypeOf t = "contiguousCodestreamBox" -> (List.length c + 3 <= fuel)%nat ->
  sub (cs_second c) 0 2 = m_SIZ -> siz_capability (val (cs_siz c) 2 2) = Some cap ->
  after m_SOT (cs_second c) l rest -> parts c rest ps ->
  exists rz, validate E op fuel (S (S d)) (BTb m_SIZ) (cs_siz c) VNone VNone = Ok rz /\
    says (o_verbose op) "siz" (siz_tests (o_format op) (cs_siz c)) (leaves (siz_props cap (cs_siz c))) [] rz /\
  match mapM (seg_child (validate E op fuel (S (S d))) (VInt (cs_csiz c))) (treated main_markers l) with
  | Ok rs =>
      match mapM (fun p => validate E op fuel (S (S d)) (BTb m_SOT) c (VInt p) (VInt (cs_csiz c))) ps with
      | Ok ts => exists res, validate E op fuel (S (S (S d))) t c start csz = Ok res /\
                  cs_says op (testRoot t) (charRoot t) (warnRoot t) c l ps rz rs ts res
      | Raise e => validate E op fuel (S (S (S d))) t c start csz = Raise e
      | Diverge => validate E op fuel (S (S (S d))) t c start csz = Diverge
      end
  | Raise e => validate E op fuel (S (S (S d))) t c start csz = Raise e
  | Diverge => validate E op fuel (S (S (S d))) t c start csz = Diverge
  end.
Proof.
  intros Ht HF HSIZ HCAP HA HPS.
  destruct (siz_says E op fuel (S d) (cs_siz c) VNone VNone cap HCAP) as (rz & HVz & HRz & _ & _ & _).
  exists rz. split; [exact HVz|]. split; [exact HRz|].
  destruct HRz as (HTz & HCz & HWz). cbn [boxTypeOf] in HCz.
  change (boxTypeOf (BTb mSIZ)) with "siz" in HCz.
  set (D := S (S d)) in *. rewrite validate_S.
  set (f := {| s_opts := op; s_btype := t; s_contents := c; s_start := start; s_csiz := csz |}).
  replace (runMethod E (validate E op fuel D) fuel f)
    with (validate_contiguousCodestreamBox (validate E op fuel D) fuel f)
    by (unfold runMethod; cbn [s_btype f]; rewrite Ht; reflexivity).
  pose proof (second_spec c) as H2. rewrite getMarkerSegment_spec in H2 by lia.
  destruct (H2 HSIZ) as (p & Hn0 & Hp & Hsec). clear H2.
  pose proof (after_len _ _ _ _ HA) as HLEN.
  assert (HLC : (List.length (cs_second c) <= List.length c)%nat) by (rewrite Hsec, skipn_length; lia).
  destruct (mainHeader_spec (validate E op fuel D) fuel f (VInt (cs_csiz c)) p l rest Hp)
    as (s' & (HS1 & HS2 & HS3 & HS4 & HS5) & HREST & HE).
  { cbn [s_contents f]. rewrite <- Hsec, HSIZ. discriminate. }
  { cbn [s_contents f]. rewrite <- Hsec. exact HA. }
  { lia. }
  cbn [s_contents f s_opts] in HE, HREST. rewrite <- Hsec, HSIZ in HE.
  match goal with |- context [validate_contiguousCodestreamBox ?a ?b ?g st0] =>
    remember (validate_contiguousCodestreamBox a b g st0) as R eqn:HR end.
  unfold validate_contiguousCodestreamBox in HR. cbv zeta in HR. cbn [s_contents f] in HR.
  rewrite getMarkerSegment_spec in HR by lia. rewrite Hn0 in HR.
  rewrite getMarkerSegment_spec in HR by exact Hp. rewrite <- Hsec, HSIZ in HR.
  fold (cs_siz c) in HR. change (skipn (Z.to_nat 0) c) with c in HR.
  erewrite bind_emits in HR by apply emits_test. erewrite bind_emits in HR by apply emits_test.
  change (bytes_eqb m_SIZ mSIZ) with true in HR. cbn [when] in HR.
  rewrite bind_assoc in HR. unfold bind at 1 in HR. rewrite attach_eq in HR.
  unfold mSIZ in HVz. unfold m_SIZ in HR at 1. rewrite HVz in HR. cbn [rbind] in HR.
  rewrite HCz, siz_find in HR by (cbn; tauto). cbn [List.find String.eqb Ascii.eqb Bool.eqb fst snd] in HR.
  fold (cs_csiz c) in HR.
  rewrite bind_assoc in HR. unfold bind at 1 in HR. rewrite HE in HR.
  destruct (mapM (seg_child (validate E op fuel D) (VInt (cs_csiz c))) (treated main_markers l)) as [rs|e|] eqn:EM;
    cbn [rbind] in HR; [|now rewrite HR..].
  rewrite bind_assoc in HR. erewrite bind_emits in HR by (apply (emits_int op)).
  rewrite bind_assoc in HR. erewrite bind_emits in HR by (apply (emits_int op)).
  rewrite bind_assoc in HR. erewrite bind_emits in HR by apply emits_test.
  rewrite bind_assoc in HR. erewrite bind_emits in HR by apply emits_test.
  rewrite bind_assoc in HR. unfold bind at 1 in HR. unfold get_chars at 1 in HR.
  rewrite !app_st_app in HR.
  match type of HR with context [findElementText ["siz"; "rsiz"] (node "" (st_chars ?s))] =>
    assert (HCH : forall k, In k ["csiz"; "rsiz"; "numberOfTiles"; "xsiz"; "ysiz"; "xOsiz"; "yOsiz"] ->
      findElementText ["siz"; k] (node "" (st_chars s)) =
      findElementText [k] (node "siz" (leaves (siz_props cap (cs_siz c)))))
  end.
  { intros k Hk. cbn [st_chars app_st st0 app]. apply find2; [reflexivity|now apply siz_has]. }
  rewrite !HCH in HR by (cbn; tauto).
  rewrite !siz_find in HR by (cbn; tauto). cbn [List.find String.eqb Ascii.eqb Bool.eqb fst snd] in HR.
  cbn [as_int] in HR.
  rewrite bind_assoc in HR. erewrite bind_emits in HR by (apply (emits_lift op)).
  rewrite bind_assoc, cap_bits in HR. erewrite bind_emits in HR by (eapply emits_when, emits_test).
  rewrite bind_assoc in HR. erewrite bind_emits in HR by (apply (emits_lift op)).
  fold (cs_tiles c) in HR. rewrite dict_zeros_of in HR.
  rewrite !app_st_app in HR. rewrite bind_assoc in HR.
  match type of HR with _ = bind ?m ?k ?s => set (K := k) in HR; set (S1 := s) in HR; set (TL := m) in HR end.
  assert (HTL : match mapM (fun p => validate E op fuel D (BTb m_SOT) c (VInt p) (VInt (cs_csiz c))) ps with
    | Ok ts => exists t', TL S1 = Ok (t', S1) /\ inv c (cs_tiles c) ps t' /\
        tl_tests t' = filled (map r_tests ts) /\ tl_chars t' = map r_chars ts /\
        tl_warns t' = filled (map r_warns ts)
    | Raise e => TL S1 = Raise e | Diverge => TL S1 = Diverge end).
  { assert (HI0 : inv c (cs_tiles c) [] {| tl_tests := []; tl_chars := []; tl_warns := []; tl_indices := [];
                     tl_expected := []; tl_found := dict_of (cs_tiles c) (fun _ => 0) |}).
    { constructor; cbn.
      - exists []. split; [reflexivity|]. split; [constructor|]. reflexivity.
      - exists []. split; [reflexivity|]. split; [constructor|]. reflexivity.
      - reflexivity. }
    unfold TL. destruct rest as [s1|].
    - destruct HREST as (HM1 & HO1 & HS1'). rewrite HM1. change (bytes_eqb m_SOT mSOT) with true. cbv iota.
      pose proof (after_some _ _ _ _ HA) as HSOT.
      assert (HOL : mh_offset s' < len c).
      { destruct (Z_lt_le_dec (mh_offset s') (len c)) as [G|G]; [exact G|]. exfalso.
        rewrite HS1', skipn_all2 in HSOT by (unfold len in G; lia). discriminate HSOT. }
      cbn [parts] in HPS. rewrite HS1', len_skipn in HPS by lia.
      replace (len c - (len c - mh_offset s')) with (mh_offset s') in HPS by lia.
      rewrite tilePartLoop_body.
      pose proof (chain_loop E op fuel D c (cs_csiz c) (cs_tiles c)) as HCL.
      specialize (HCL (fun q r Hq HMq HVq => tile_facts E op fuel d c (cs_csiz c) q r HF Hq HMq HVq) f (mh_offset s') ps eq_refl HPS
                      fuel [] _ S1 HI0).
      pose proof (chain_len _ _ _ _ HPS) as HCLEN.
      specialize (HCL ltac:(unfold len in HOL; lia)).
      unfold tile_at in HCL. destruct (mapM _ ps) as [ts|e|]; exact HCL.
    - cbn [parts] in HPS. subst ps. cbn [mapM].
      replace (bytes_eqb (mh_marker s') mSOT) with false
        by (symmetry; apply not_true_iff_false; now rewrite bytes_eqb_spec).
      eexists. split; [reflexivity|]. split; [exact HI0|]. repeat split. }
  destruct (mapM (fun p => validate E op fuel D (BTb m_SOT) c (VInt p) (VInt (cs_csiz c))) ps) as [ts|e|] eqn:ET.
  2,3: rewrite HR; unfold bind; now rewrite HTL.
  destruct HTL as (t' & HTL & HINV & HT1 & HT2 & HT3).
  unfold bind at 1 in HR. rewrite HTL in HR. unfold K in HR. clear K HTL TL HE.
  rewrite HT1, HT2, HT3 in HR.
  destruct HINV as [(ix & HI1 & HI2 & HI3) (ex & HX1 & HX2 & HX3) HFD].
  set (tn := existsb (fun p => negb (tp_tnsot c p =? 0)) ps).
  assert (HEX : forall nm, match tl_expected t' with
      | [] => ret tt
      | _ => testFor op nm (dict_eqb (tl_expected t') (tl_found t'))
      end = when tn (testFor op nm (dict_eqb (dict_list ex) (dict_of (cs_tiles c) (parts_found c ps))))).
  { intros nm. rewrite HX1, HFD. pose proof (expected_nil c ps ex HX3) as HN. fold tn in HN.
    destruct (dict_list ex) as [|x0 l0]; destruct tn; try reflexivity.
    - destruct HN as [HN _]. specialize (HN eq_refl). discriminate.
    - destruct HN as [_ HN]. specialize (HN eq_refl). discriminate. }
  rewrite bind_assoc in HR. erewrite bind_emits in HR by apply emits_test.
  rewrite HI1 in HR. replace (len (map VInt ix)) with (tiles_found c ps) in HR
    by (rewrite <- (tiles_found_spec c ps ix HI2 HI3); unfold len; now rewrite map_length).
  rewrite bind_assoc in HR. cbn [s_opts f] in HR. rewrite HEX in HR. clear HEX.
  erewrite bind_emits in HR by (eapply emits_when, emits_test).
  rewrite bind_assoc in HR. unfold bind at 1 in HR. rewrite add_test_ne_eq in HR.
  rewrite bind_assoc in HR. erewrite bind_emits in HR by (apply (emits_add_char op)).
  rewrite bind_assoc in HR. unfold bind at 1 in HR. rewrite add_warn_ne_eq in HR.
  rewrite bind_assoc in HR. unfold bind at 1 in HR. unfold get_chars at 1 in HR.
  rewrite !app_st_app in HR. unfold S1 in HR. rewrite !app_st_app in HR. clear S1.
  set (SIZ := node "siz" (leaves (siz_props cap (cs_siz c)))) in *.
  set (chars := node "" ([SIZ] ++ shown (o_packet op) (treated main_markers l) rs ++
     (leaves [("ppmCount", VInt (len (segs_of m_PPM l))); ("plmCount", VInt (len (segs_of m_PLM l)))] ++
      [node "tileParts" (map r_chars ts)]))).
  match type of HR with context [node "" (st_chars ?s)] =>
    replace (node "" (st_chars s)) with chars in HR
      by (unfold chars; cbn [st_chars app_st st0]; rewrite HS4, HS5;
          destruct (bitsk _ 14 4 =? 1), tn; cbn [app]; rewrite ?app_nil_r; rewrite <- ?app_assoc; reflexivity) end.
  rewrite bind_assoc in HR. erewrite bind_emits in HR by (eapply emits_unique; reflexivity).
  rewrite bind_assoc in HR. erewrite bind_emits in HR by (eapply emits_unique; reflexivity).
  rewrite bind_assoc in HR. erewrite bind_emits in HR by apply emits_test.
  assert (HCR : forall m, m = (ysiz <- lift (as_int (findElementText ["ysiz"] SIZ)) ;;
        yOsiz <- lift (as_int (findElementText ["xOsiz"] SIZ)) ;;
        xsiz <- lift (as_int (findElementText ["xsiz"] SIZ)) ;;
        xOsiz <- lift (as_int (findElementText ["xOsiz"] SIZ)) ;;
        cr <- lift (calculateCompressionRatio (len c) (findAllText ["ssizDepth"] SIZ)
                      (ysiz - yOsiz) (xsiz - xOsiz)) ;;
        addCharacteristic "compressionRatio" (round2 cr)) ->
     emits op (when (String.eqb (o_format op) "j2c" || String.eqb (o_format op) "jhc") m) tt
       [] (cs_props2 (o_format op) c) []).
  { intros m ->. unfold cs_props2, fmt_is.
    destruct (String.eqb (o_format op) "j2c" || String.eqb (o_format op) "jhc"); [|apply emits_ret].
    unfold SIZ. rewrite !siz_find by (cbn; tauto). rewrite siz_depths_text.
    cbn [List.find String.eqb Ascii.eqb Bool.eqb fst snd as_int when].
    assert (HNB : negb (len c =? 0) = true).
    { destruct (len c =? 0) eqn:E0; [|reflexivity]. exfalso. destruct c; [discriminate HSIZ|].
      unfold len in E0. cbn [List.length] in E0. lia. }
    eapply emits_eq; [eapply (emits_bind op); [apply emits_lift|];
                      eapply (emits_bind op); [apply emits_lift|];
                      eapply (emits_bind op); [apply emits_lift|];
                      eapply (emits_bind op); [apply emits_lift|];
                      cbv beta; unfold calculateCompressionRatio; rewrite sum_ints; cbn [rbind]; rewrite HNB;
                      eapply (emits_bind op); [apply emits_lift|apply emits_char]|..]; reflexivity. }
  specialize (HCR _ eq_refl). cbn [s_opts f] in HR.
  erewrite bind_emits in HR by exact HCR. rewrite !app_st_app in HR.
  unfold isValid_of, set_valid in HR. unfold bind at 1 in HR. 
  rewrite HR. clear HR HCR. cbv beta.
  set (T1 := [("codestreamStartsWithSOCMarker", bytes_eqb (sub c 0 2) mSOC); ("foundSIZMarker", true)]).
  set (T2 := [("foundCODMarker", mh_cod s'); ("foundQCDMarker", mh_qcd s')] ++
             (if bitsk (val (cs_siz c) 2 2) 14 4 =? 1 then [("foundCAPMarker", mh_cap s')] else []) ++
             [("foundExpectedNumberOfTiles", tiles_found c ps =? cs_tiles c)] ++
             (if tn then [("foundExpectedNumberOfTileParts",
                dict_eqb (dict_list ex) (dict_of (cs_tiles c) (parts_found c ps)))] else [])).
  set (v1 := findAllText ["coc"; "ccoc"] chars). set (v2 := findAllText ["qcc"; "cqcc"] chars).
  set (T3 := match v1 with [] => [] | _ => [("maxOneCcocPerComponentMain", len (py_dedup v1) =? len v1)] end ++
             match v2 with [] => [] | _ => [("maxOneCqccPerComponentMain", len (py_dedup v2) =? len v2)] end ++
             [("foundEOCMarker", bytes_eqb (slice c (len c - 2) (len c)) mEOC)]).
  assert (HT1' : tbl_ok (cs_tests1 c) T1).
  { constructor; [|constructor; [|constructor]]; (split; [reflexivity|]); cbn [snd];
      [now rewrite bytes_eqb_spec|now rewrite HSIZ]. }
  assert (HT2' : tbl_ok (cs_tests2 c l ps) T2).
  { unfold cs_tests2, T2. apply tbl_app; [|apply tbl_app; [|apply tbl_app]].
    - constructor; [|constructor; [|constructor]]; (split; [reflexivity|]); cbn [snd];
        rewrite ?HS2, ?HS3; apply in_markers.
    - apply tbl_if; [|constructor]. constructor; [|constructor]. split; [reflexivity|]. cbn [snd].
      rewrite HS1. apply in_markers.
    - constructor; [|constructor]. split; [reflexivity|]. cbn [snd]. apply Z.eqb_eq.
    - fold tn. apply tbl_if; [|constructor]. constructor; [|constructor]. split; [reflexivity|]. cbn [snd].
      rewrite dict_eqb_spec by exact HX2. unfold parts_ok. split; intros (G1 & G2); split; intros i Hi.
      + rewrite <- HX3. now apply G1.
      + apply G2. now rewrite HX3.
      + rewrite HX3. now apply G1.
      + apply G2. now rewrite <- HX3. }
  assert (HT3' : tbl_ok (cs_tests3 c l) T3).
  { unfold cs_tests3, T3. cbv zeta.
    assert (HPRE : forall x, x <> "siz" -> filter (fun e => String.eqb (etag e) x) [SIZ] = []).
    { intros x Hx. unfold SIZ. cbn [filter etag node]. destruct (String.eqb_spec "siz" x); [congruence|reflexivity]. }
    apply tbl_app; [apply (tbl_once _ _ (fun x => val x 2 (cwidth (cs_csiz c))))|].
    { unfold v1, chars. apply (seg_kids_text E op fuel D (VInt (cs_csiz c)) main_markers m_COC "coc" WithComponents "ccoc"
               (fun x => VInt (val x 2 (cwidth (cs_csiz c))))); auto;
        try solve [apply HPRE; discriminate|discriminate|repeat split; discriminate].
      intros x r1 H1. eapply coc_ccoc. exact H1. }
    apply tbl_app; [apply (tbl_once _ _ (fun x => val x 2 (cwidth (cs_csiz c))))|].
    { unfold v2, chars. apply (seg_kids_text E op fuel D (VInt (cs_csiz c)) main_markers m_QCC "qcc" WithComponents "cqcc"
               (fun x => VInt (val x 2 (cwidth (cs_csiz c))))); auto;
        try solve [apply HPRE; discriminate|discriminate|repeat split; discriminate].
      intros x r1 H1. eapply qcc_cqcc. exact H1. }
    constructor; [|constructor]. split; [reflexivity|]. cbn [snd]. apply eoc_spec. }
  eexists. split; [reflexivity|]. unfold cs_says.
  split; [|split; [|split; [|split]]].
  - exists (vis (o_verbose op) T1), (vis (o_verbose op) T2), (vis (o_verbose op) T3).
    split; [|split; [|split]]; try (apply reports_vis; assumption).
    cbn [r_tests bv_of st_tests app_st st0]. unfold T1, T2, T3. rewrite !vis_app.
    change (vis (o_verbose op) []) with (@nil elt). f_equal.
    change (r_tests rz :: map r_tests rs) with ([r_tests rz] ++ map r_tests rs).
    rewrite filled_app. 
    assert (HV2 : forall a b, vis (o_verbose op) [a; b] = vis (o_verbose op) [a] ++ vis (o_verbose op) [b])
      by (intros a b; apply (vis_app (o_verbose op) [a] [b])).
    rewrite !HV2. rewrite ?app_nil_l, ?app_nil_r, <- ?app_assoc. reflexivity.
  - cbn [r_chars bv_of st_chars app_st st0]. rewrite HCz, HS4, HS5. fold SIZ. f_equal.
    destruct (bitsk _ 14 4 =? 1), tn; cbn [app]; rewrite ?app_nil_r; rewrite <- ?app_assoc; reflexivity.
  - cbn [r_warns bv_of st_warns app_st st0].
    change (r_warns rz :: map r_warns rs) with ([r_warns rz] ++ map r_warns rs).
    rewrite filled_app. f_equal.
    destruct (bitsk _ 14 4 =? 1), tn; cbn [app]; rewrite ?app_nil_r; rewrite <- ?app_assoc; reflexivity.
  - eexists. split; [reflexivity|]. rewrite <- anyFalse_spec. cbn [r_tests bv_of]. rewrite anyFalse_node.
    apply negb_true_iff.
  - repeat split; reflexivity.
Qed.

(** ** Other cases *)
Lemma cs_siz_raises E op fuel d t c start csz :
  boxTypeOf t = "contiguousCodestreamBox" ->
  sub (cs_second c) 0 2 = m_SIZ -> siz_capability (val (cs_siz c) 2 2) = None ->
  validate E op fuel (S (S d)) t c start csz = Raise UnboundLocalError.
Proof.
  intros Ht HSIZ HCAP. pose proof (siz_raises E op fuel d (cs_siz c) VNone VNone HCAP) as HV.
  rewrite validate_S.
  set (f := {| s_opts := op; s_btype := t; s_contents := c; s_start := start; s_csiz := csz |}).
  replace (runMethod E (validate E op fuel (S d)) fuel f)
    with (validate_contiguousCodestreamBox (validate E op fuel (S d)) fuel f)
    by (unfold runMethod; cbn [s_btype f]; rewrite Ht; reflexivity).
  pose proof (second_spec c) as H2. rewrite getMarkerSegment_spec in H2 by lia.
  destruct (H2 HSIZ) as (p & Hn0 & Hp & Hsec). clear H2.
  unfold validate_contiguousCodestreamBox. cbv zeta. cbn [s_contents f].
  rewrite getMarkerSegment_spec by lia. rewrite Hn0.
  rewrite getMarkerSegment_spec by exact Hp. rewrite <- Hsec, HSIZ.
  fold (cs_siz c). erewrite bind_emits by apply emits_test. erewrite bind_emits by apply emits_test.
  change (bytes_eqb m_SIZ mSIZ) with true. cbn [when].
  rewrite bind_assoc. unfold bind at 1. rewrite attach_eq.
  unfold mSIZ in HV. unfold m_SIZ at 1. rewrite HV. reflexivity.
Qed.

Lemma cs_nosiz_ok E op fuel d t c start csz :
  boxTypeOf t = "contiguousCodestreamBox" -> sub (cs_second c) 0 2 <> m_SIZ ->
  exists res, validate E op fuel (S d) t c start csz = Ok res /\
              cs_says_nosiz op (testRoot t) (charRoot t) (warnRoot t) c res.
Proof.
  intros Ht HSIZ. rewrite validate_S.
  set (f := {| s_opts := op; s_btype := t; s_contents := c; s_start := start; s_csiz := csz |}).
  replace (runMethod E (validate E op fuel d) fuel f)
    with (validate_contiguousCodestreamBox (validate E op fuel d) fuel f)
    by (unfold runMethod; cbn [s_btype f]; rewrite Ht; reflexivity).
  unfold validate_contiguousCodestreamBox. cbv zeta. cbn [s_contents f].
  rewrite getMarkerSegment_spec by lia. change (skipn (Z.to_nat 0) c) with c.
  erewrite bind_emits by apply emits_test.
  match goal with |- context [getMarkerSegment c ?n] => destruct (getMarkerSegment c n) as [[[m1 l1] x1] n1] eqn:EG end.
  assert (HM : bytes_eqb m1 mSIZ = false).
  { apply not_true_iff_false. rewrite bytes_eqb_spec. intros ->. apply HSIZ. revert EG. unfold cs_second.
    destruct (seg_length c =? -9999) eqn:EL.
    - (* fewer than four bytes: -9999 is before the start *)
      apply Z.eqb_eq in EL. intros EG. exfalso. unfold getMarkerSegment in EG.
      assert (HL : len c < 4).
      { unfold seg_length in EL. destruct (delimiter (sub c 0 2)); [discriminate|].
        destruct (Z_lt_le_dec (len c) 4) as [G|G]; [exact G|].
        pose proof (val_readable c 2 2 ltac:(lia) ltac:(lia) ltac:(lia)). lia. }
      assert (HS : slice c (-9999) (-9999 + 2) = []).
      { unfold slice, norm_ix. change (-9999 <? 0) with true. change (-9999 + 2 <? 0) with true. cbv iota zeta.
        replace (Z.max 0 (-9999 + 2 + len c)) with 0 by lia. replace (Z.max 0 (-9999 + len c)) with 0 by lia.
        reflexivity. }
      rewrite HS in EG. discriminate EG.
    - pose proof (seg_length_range c). rewrite getMarkerSegment_spec by lia. intros EG.
      injection EG as H1 _ _ _. replace (0 + seg_length c + 2) with (seg_length c + 2) in H1 by lia. exact H1. }
  rewrite HM. erewrite bind_emits by apply emits_test. cbn [when].
  unfold bind, ret, isValid_of, set_valid. eexists. split; [reflexivity|].
  unfold cs_says_nosiz. rewrite app_st_app, <- vis_app. cbn [app].
  split; [|split; [reflexivity|split; [reflexivity|split; [|split; reflexivity]]]].
  - eexists. split; [reflexivity|]. apply reports_vis.
    constructor; [|constructor; [|constructor]]; (split; [reflexivity|]); cbn [snd].
    + apply bytes_eqb_spec.
    + split; [discriminate|]. intros HX. contradiction.
  - cbn [r_valid bv_of st_valid st_tests app_st st0 app]. rewrite existsb_vis. cbn [forallb snd].
    now rewrite andb_false_r.
Qed.
