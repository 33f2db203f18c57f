(** * The human-readable properties of a valid file, as far as MIX output reads them *)

From Coq Require Import ZArith List Bool String Lia QArith Qabs.
From Coq Require Import Init.Byte.
From Coq Require Import ZifyBool.
From Coq Require Lqa.
From Verif Require Import Py PyFloat ByteConv ETree BV VSuper Remap Mix CheckFile Spec SpecText SpecBox SpecMarker SpecWalk SpecSuper SpecCS SpecFile SpecTop SpecValid SpecNum SpecMix
     PBase PWalk PSeg PText PHuman PEmit PLeaf PLeaf2 PMarker PMarker2 PSuper PTop PFile PValid Prop_Boxes Prop_File Prop_Top Prop_CS Prop_Check Prop_Mix Prop_Report PRepr PAcc Prop_Num
     PMixNum PMix PMixOk.
Import ListNotations.
Open Scope string_scope.
Open Scope list_scope.
Open Scope Z_scope.

Section Human.
Variables (E : env) (o : opts) (c : bytes) (bs : list (bytes * bytes)) (r : bv) (P : list elt).
Hypothesis HF : In (o_format o) ["jp2"; "jph"].
Hypothesis HS : splits c bs.
Hypothesis HG : gives E o (BTs "JP2") c VNone VNone r.
Hypothesis HV : r_valid r = VBool true.
Hypothesis HL : len c < 2 ^ 53.
Hypothesis HE : env_ok E.
Hypothesis HW : pow_ok (pow10neg E).
Let shown_as := shows (catC E) (str_limit E) propertiesRemapTable.
Let p := node "properties" P.
Hypothesis HP : rel shown_as (r_chars r) p.

(** ** From raw to human-readable *)
Lemma h_textual_value t v v' : shown_as t v v' -> v' = VNone \/ exists s, v' = VStr s.
Proof. intros H. inversion H; subst; eauto. Qed.
Lemma h_every e e' : rel shown_as e e' -> textual e'.
Proof.
  revert e'. induction e as [t a v k IH] using elt_ind'. intros e' H. inversion H as [t0 a0 v0 v' k0 k' HX HK]; subst. constructor; [now apply h_textual_value in HX|].
  clear H HX. induction HK as [|x x' k k' HX HK IHK]; [constructor|]. inversion IH as [|? ? I1 I2]; subst. constructor; [now apply I1|now apply IHK].
Qed.
Lemma h_textual : textual p.
Proof. exact (h_every _ _ HP). Qed.
Lemma h_shows t v v' : v <> VNone -> shown_as t v v' -> exists s, v' = VStr s.
Proof. intros HN H. inversion H; subst; eauto. now exfalso. Qed.
Lemma r_text e e' q t v es : rel shown_as e e' -> findall q e = leaf t v :: es -> v <> VNone ->
  exists s, has_text e' q s /\ shown_as t v (VStr s).
Proof.
  intros HR HQ HN. pose proof (rel_findall _ q _ _ HR) as H. rewrite HQ in H. inversion H as [|? x' ? l HX HXL EQ1 EQ2]; subst.
  inversion HX as [t0 a0 v0 v' k0 k' HSH HK]; subst. destruct (h_shows t v v' HN HSH) as (s & ->). exists s. split; [|exact HSH].
  exists (Elt t [] (VStr s) k'). split; [unfold find; now rewrite <- EQ2|reflexivity].
Qed.
Lemma r_none e e' q : rel shown_as e e' -> findall q e = [] -> ETree.find q e' = None.
Proof. intros HR HQ. pose proof (rel_findall _ q _ _ HR) as H. rewrite HQ in H. inversion H. unfold find. now rewrite <- H0. Qed.
Lemma r_some e e' q x es : rel shown_as e e' -> findall q e = x :: es -> exists x', ETree.find q e' = Some x' /\ rel shown_as x x'.
Proof. intros HR HQ. pose proof (rel_findall _ q _ _ HR) as H. rewrite HQ in H. inversion H as [|? x' ? l HX HXL EQ1 EQ2]; subst. exists x'. split; [unfold find; now rewrite <- EQ2|exact HX]. Qed.
Lemma under q t e es v x : findall q x = e :: es -> tagged t (ekids e) = [leaf t v] -> exists es', findall (q ++ [t]) x = leaf t v :: es'.
Proof.
  intros HQ HT. rewrite findall_app, HQ. cbn [flat_map]. destruct e as [n a v0 k]. rewrite findall_cons, flat_nil. cbn [ekids] in HT. rewrite HT. cbn [app]. eauto.
Qed.
Lemma plain_int t z s : plain_tag t -> shown_as t (VInt z) (VStr s) -> decimal z s.
Proof. intros HT H. destruct (shows_number _ _ _ _ _ _ HT H) as (s' & HX & HD). injection HX as ->. exact HD. Qed.
Lemma plain_ascii t b s : plain_tag t -> Forall (fun x => 32 <= bz x < 127) b -> shown_as t (VBytes b) (VStr s) -> s = map bz b.
Proof.
  intros HT HB H. assert (HU : utf8_of (map bz b) b).
  { clear H. split.
    - apply Forall_forall. intros x HX. apply in_map_iff in HX as (y & <- & HY). rewrite Forall_forall in HB. specialize (HB y HY). split; lia.
    - induction HB as [|x b Hx HB IH]; [reflexivity|]. cbn [map flat_map]. rewrite <- IH. unfold utf8_octets. replace (bz x <=? 127) with true by lia. reflexivity. }
  inversion H; subst.
  - exfalso. apply HT. match goal with HD : described _ _ _ _ |- _ => destruct HD as (m & k & HI & _) end. apply in_map_iff. now exists (t, m).
  - match goal with HX : utf8_of ?s0 b |- _ => assert (s0 = map bz b) as -> by (exact (c04_unique _ _ _ HX HU)) end.
    match goal with HK : kept _ _ _ |- _ => revert HK end. clear -HB HE. revert s. induction HB as [|x b Hx HB IH]; intros s HK; inversion HK; subst; [reflexivity| |].
    + cbn [map]. f_equal. now apply IH.
    + exfalso. match goal with HN : ~ printable _ _ |- _ => apply HN end. left. apply (proj1 HE). lia.
  - exfalso. match goal with HN : forall s, ~ utf8_of s b |- _ => now apply (HN (map bz b)) end.
Qed.
Lemma plain_float t f s : plain_tag t -> shown_as t (VFloat f) (VStr s) -> s = repr_float f.
Proof. intros HT H. apply shows_float_text in H; [|exact HT]. now injection H. Qed.
Lemma in_table t m0 v d : In (t, m0) propertiesRemapTable -> shown_as t v (VStr d) -> raw v ->
  (forall m, In (t, m) propertiesRemapTable -> m = m0) -> Exists (fun kd => py_eqb v (fst kd) = true) m0 ->
  Exists (fun kd => py_eqb v (fst kd) = true /\ snd kd = d) m0.
Proof.
  intros HI H HRAW HU HX.
  assert (HD : exists d, described propertiesRemapTable t v d).
  { apply Exists_exists in HX as ((k, d') & HK & HQ). exists d', m0, k. auto. }
  assert (HDD : described propertiesRemapTable t v d).
  { destruct HD as (d' & HD). destruct HRAW as [(z & ->)|(b & ->)]; inversion H; subst; try assumption; exfalso; match goal with HN : forall d, ~ described _ _ _ _ |- _ => now apply (HN d') end. }
  destruct HDD as (m & k & H1 & H2 & H3). rewrite (HU m H1) in H2. apply Exists_exists. exists (k, d). auto.
Qed.

(** ** What MIX reads *)
Lemma h_br : has_text p ["fileTypeBox"; "br"] (pys (if String.eqb (o_format o) "jp2" then "jp2 " else "jph ")).
Proof.
  destruct (v_ftyp E o c bs r HS HG HV HL) as (f & _ & HT & HB).
  destruct (r_text _ _ _ _ _ _ HP HB ltac:(discriminate)) as (s & H1 & H2).
  assert (HBR : o_format o = "jp2" /\ sub f 0 4 = [x6a; x70; x32; x20] \/ o_format o = "jph" /\ sub f 0 4 = [x6a; x70; x68; x20]).
  { destruct HF as [H|[H|[]]]; rewrite <- H in *; [left|right]; (split; [reflexivity|]); apply (holds_in _ "brandIsValid" _ HT); right; left; reflexivity. }
  destruct HBR as [(HQ1 & HQ2)|(HQ1 & HQ2)]; rewrite HQ1, HQ2 in *.
  - apply plain_ascii in H2; [|unfold plain_tag; cbn; intuition discriminate|repeat constructor; vm_compute; try discriminate; reflexivity]. rewrite H2 in H1. exact H1.
  - apply plain_ascii in H2; [|unfold plain_tag; cbn; intuition discriminate|repeat constructor; vm_compute; try discriminate; reflexivity]. rewrite H2 in H1. exact H1.
Qed.

Lemma cod_tags fmt k t v : In (t, v) [("transformation", val k 11 1); ("layers", val k 4 2); ("levels", val k 7 1)] ->
  tagged t (leaves (cod_props fmt k)) = [leaf t (VInt v)].
Proof.
  intros HI. unfold cod_props. rewrite !leaves_app, !tagged_app.
  assert (HN : forall L, Forall (fun x => In (fst x) ["codeBlockWidth"; "codeBlockHeight"; "codingBypass"; "resetOnBoundaries"; "termOnEachPass"; "vertCausalContext"; "predTermination"; "segmentationSymbols"; "precinctSizeX"; "precinctSizeY"]) L -> tagged t (leaves L) = []).
  { intros L H. apply tagged_other. eapply Forall_impl; [|exact H]. intros x Hx Hy. cbv beta in Hx; rewrite Hy in Hx. cbn in HI. destruct HI as [HI|[HI|[HI|[]]]]; injection HI as <- <-; cbn in Hx; intuition discriminate. }
  rewrite (HN (cb_props k 8)) by (unfold cb_props; repeat (apply Forall_cons; [cbn [fst In]; tauto|]); apply Forall_nil).
  rewrite (HN (cbs_props fmt (val k 10 1))) by (unfold cbs_props; destruct (negb _); cbn [app]; repeat (apply Forall_cons; [cbn [fst In]; tauto|]); apply Forall_nil).
  rewrite (HN (prec_props _ _ _ _)).
  2:{ unfold prec_props. apply Forall_forall. intros x Hx. apply in_flat_map in Hx as (i & _ & Hx). destruct (cod_explicit k); cbn in Hx; destruct Hx as [<-|[<-|[]]]; cbn; tauto. }
  cbn in HI. destruct HI as [HI|[HI|[HI|[]]]]; injection HI as <- <-; reflexivity.
Qed.
Lemma siz_tags cap z t v : In (t, v) [("xTsiz", val z 20 4); ("yTsiz", val z 24 4); ("csiz", val z 36 2)] ->
  tagged t (leaves (siz_props cap z)) = [leaf t (VInt v)].
Proof.
  intros HI. unfold siz_props. rewrite !leaves_app, !tagged_app.
  rewrite (tagged_other t (flat_map _ _)).
  2:{ apply Forall_forall. intros x Hx. apply in_flat_map in Hx as (i & _ & Hx). cbn in HI, Hx. destruct HI as [HI|[HI|[HI|[]]]]; injection HI as <- <-; destruct Hx as [<-|[<-|[<-|[<-|[]]]]]; discriminate. }
  cbn in HI. destruct HI as [HI|[HI|[HI|[]]]]; injection HI as <- <-; reflexivity.
Qed.
Lemma siz_depth_tags cap z : tagged "ssizDepth" (leaves (siz_props cap z)) = map (fun i => leaf "ssizDepth" (VInt (cdepth (val z (38 + 3 * i) 1)))) (zseq (val z 36 2)).
Proof.
  unfold siz_props. rewrite leaves_app, tagged_app. change (tagged "ssizDepth" (leaves [_; _; _; _; _; _; _; _; _; _; _; _; _])) with (@nil elt). cbn [app].
  induction (zseq (val z 36 2)) as [|i l IH]; [reflexivity|]. cbn [flat_map map]. rewrite leaves_app, tagged_app, IH. reflexivity.
Qed.

Definition lossless_text (k : bytes) (st : pystr) : Prop := In (val k 11 1, st) [(0, pys "9-7 irreversible"); (1, pys "5-3 reversible")].
Lemma h_cs : exists y ys l rest k ks st ly lv sx sy z ss sn, boxes_of t_jp2c bs = y :: ys /\ after m_SOT (cs_second y) l rest /\ segs_of m_COD l = k :: ks /\
  holds (cod_tests k) /\
  has_text p (cod_path ++ ["transformation"]) st /\ lossless_text k st /\
  has_text p (cod_path ++ ["layers"]) ly /\ decimal (val k 4 2) ly /\ has_text p (cod_path ++ ["levels"]) lv /\ decimal (val k 7 1) lv /\
  has_text p (siz_path ++ ["xTsiz"]) sx /\ has_text p (siz_path ++ ["yTsiz"]) sy /\
  ETree.find siz_path p = Some z /\ findAllText ["ssizDepth"] z = map VStr ss /\ has_text z ["csiz"] sn.
Proof.
  destruct (v_cs E o c bs r HS HG HV HL) as (y & ys & l & rest & k & ks & cap & B1 & B2 & B3 & HT & _ & (e1 & HZ) & (e2 & HK) & _).
  change ["contiguousCodestreamBox"; "siz"] with siz_path in HZ. change ["contiguousCodestreamBox"; "cod"] with cod_path in HK.
  assert (KT : forall t v, In (t, v) [("transformation", val k 11 1); ("layers", val k 4 2); ("levels", val k 7 1)] ->
    exists s, has_text p (cod_path ++ [t]) s /\ shown_as t (VInt v) (VStr s)).
  { intros t v HI. destruct (under cod_path t _ _ (VInt v) _ HK) as (es & HU); [now apply cod_tags|]. exact (r_text _ _ _ _ _ _ HP HU ltac:(discriminate)). }
  assert (ZT : forall t v, In (t, v) [("xTsiz", val (cs_siz y) 20 4); ("yTsiz", val (cs_siz y) 24 4)] ->
    exists s, has_text p (siz_path ++ [t]) s).
  { intros t v HI. destruct (under siz_path t _ _ (VInt v) _ HZ) as (es & HU); [apply siz_tags; cbn in HI; cbn; tauto|].
    destruct (r_text _ _ _ _ _ _ HP HU ltac:(discriminate)) as (s & H & _). eauto. }
  destruct (KT "transformation" (val k 11 1) ltac:(cbn; tauto)) as (st & K1 & K1').
  destruct (KT "layers" (val k 4 2) ltac:(cbn; tauto)) as (ly & K2 & K2'). destruct (KT "levels" (val k 7 1) ltac:(cbn; tauto)) as (lv & K3 & K3').
  destruct (ZT "xTsiz" _ ltac:(cbn; left; reflexivity)) as (sx & Z1). destruct (ZT "yTsiz" _ ltac:(cbn; right; left; reflexivity)) as (sy & Z2).
  destruct (r_some _ _ _ _ _ HP HZ) as (z & Z3 & HRZ).
  destruct (r_text _ _ ["csiz"] "csiz" (VInt (val (cs_siz y) 36 2)) [] HRZ) as (sn & Z4 & _); [unfold node; rewrite findall_cons, flat_nil; apply siz_tags; cbn; tauto|discriminate|].
  pose proof (rel_findall _ ["ssizDepth"] _ _ HRZ) as HD. unfold node in HD. rewrite findall_cons, flat_nil, siz_depth_tags in HD.
  rewrite <- (map_map (fun i => cdepth (val (cs_siz y) (38 + 3 * i) 1)) (fun n => leaf "ssizDepth" (VInt n))) in HD.
  destruct (numbers_shown E "ssizDepth" _ _ ltac:(unfold plain_tag; cbn; intuition discriminate) HD) as (ss & _ & Z5).
  exists y, ys, l, rest, k, ks, st, ly, lv, sx, sy, z, ss, sn.
  do 5 (split; [assumption|]). split.
  { assert (H01 : btw 0 (val k 11 1) 1) by (apply (holds_in _ "transformationIsValid" _ HT); unfold cod_tests; rewrite !in_app_iff; right; right; left; now left).
    unfold btw in H01. apply (in_table "transformation" transformationMap) in K1'.
    - unfold lossless_text. apply Exists_exists in K1' as ((kk, d) & HI & HQ & HD'). cbn [fst snd] in *. subst d. cbn in HI. destruct HI as [HI|[HI|[]]]; injection HI as <- <-; cbn [py_eqb] in HQ;
        [left|right; left]; f_equal; lia.
    - cbn; tauto.
    - left. eauto.
    - intros m HI. cbn in HI. repeat (destruct HI as [HI|HI]; [now (discriminate HI || injection HI as <-)|]). destruct HI.
    - assert (val k 11 1 = 0 \/ val k 11 1 = 1) as [-> | ->] by lia; [left|right; left]; reflexivity. }
  split; [exact K2|]. split; [apply (plain_int "layers"); [unfold plain_tag; cbn; intuition discriminate|exact K2']|].
  split; [exact K3|]. split; [apply (plain_int "levels"); [unfold plain_tag; cbn; intuition discriminate|exact K3']|].
  do 3 (split; [assumption|]). split; [exact Z5|exact Z4].
Qed.
Lemma h_ratio : exists y ys F, boxes_of t_jp2c bs = y :: ys /\ has_text p ["compressionRatio"] (repr_float F) /\
  let z := cs_siz y in shows_as F (qdiv (fold_right Z.add 0 (siz_depths z) * (val z 8 4 - val z 16 4) * (val z 4 4 - val z 12 4)) (8 * len c)).
Proof.
  destruct (v_ratio E o c bs r HF HS HG HV HL) as (y & ys & F & B1 & B2 & B3). exists y, ys, F. split; [exact B1|]. split; [|exact B3].
  destruct (r_text _ _ _ _ _ _ HP B2 ltac:(discriminate)) as (s & H1 & H2). apply plain_float in H2; [|unfold plain_tag; cbn; intuition discriminate]. now subst s.
Qed.
Lemma h_comment x : ETree.find ["contiguousCodestreamBox"; "com"; "comment"] p = Some x -> exists s, etext x = VStr s.
Proof.
  destruct (v_cs E o c bs r HS HG HV HL) as (y & ys & l & rest & k & ks & cap & _ & _ & _ & _ & _ & _ & _ & HC).
  intros HX. pose proof (rel_findall _ ["contiguousCodestreamBox"; "com"; "comment"] _ _ HP) as HR. unfold find in HX.
  destruct (findall ["contiguousCodestreamBox"; "com"; "comment"] p) as [|x' l']; [discriminate|]. injection HX as ->.
  remember (findall ["contiguousCodestreamBox"; "com"; "comment"] (r_chars r)) as LL eqn:HLL. inversion HR as [|a b la lb HAB HLB EQ1 EQ2]. subst b lb LL.
  assert (HA : exists v, a = leaf "comment" v /\ v <> VNone).
  { assert (HI : In a (findall (["contiguousCodestreamBox"; "com"] ++ ["comment"]) (r_chars r))) by (change (["contiguousCodestreamBox"; "com"] ++ ["comment"]) with ["contiguousCodestreamBox"; "com"; "comment"]; rewrite <- EQ1; now left).
    rewrite findall_app in HI. apply in_flat_map in HI as (e & HI & HIN). rewrite Forall_forall in HC. destruct (HC e HI) as (w & pr & HPR & ->).
    unfold node in HIN. rewrite findall_cons, flat_nil in HIN. inversion HPR; subst; cbn in HIN; [|destruct HIN]. destruct HIN as [<-|[]]. eexists. split; [reflexivity|].
    unfold com_text. destruct (_ =? _); discriminate. }
  destruct HA as (v & -> & HN). inversion HAB as [t0 a0 v0 v' k0 k' HSH HK]; subst. destruct (h_shows _ _ _ HN HSH) as (s & ->). exists s. reflexivity.
Qed.

(** Header boxes *)
Lemma icc_tags x : tagged "icc" (colr_all_props x) = if is_icc x then [node "icc" (leaves (icc_props (colr_profile x)))] else [].
Proof.
  unfold colr_all_props, is_icc. cbv zeta. destruct (val x 0 1 =? 1) eqn:E1; [replace (val x 0 1 =? 2) with false by lia; replace (val x 0 1 =? 3) with false by lia; reflexivity|].
  destruct (_ || _); [reflexivity|]. destruct (_ =? 5); reflexivity.
Qed.
Lemma enum_tags x : tagged "enumCS" (colr_all_props x) = if is_enum x then [leaf "enumCS" (VInt (colr_enum x))] else [].
Proof.
  unfold colr_all_props, is_enum. cbv zeta. destruct (val x 0 1 =? 1) eqn:E1; [reflexivity|].
  destruct (_ || _); [reflexivity|]. destruct (_ =? 5); reflexivity.
Qed.
Lemma icc_kid_tags q t v : In (t, v) [("colourSpace", VBytes (sub q 16 4)); ("description", first_desc q (zseq (icc_ntags q)))] ->
  tagged t (leaves (icc_props q)) = [leaf t v].
Proof.
  intros HI. unfold icc_props. rewrite !leaves_app, !tagged_app. rewrite (tagged_other t (map _ _)).
  2:{ apply Forall_forall. intros x Hx. apply in_map_iff in Hx as (i & <- & _). cbn in HI. destruct HI as [HI|[HI|[]]]; injection HI as <- <-; discriminate. }
  destruct HI as [HI|[HI|[]]]; injection HI as <- <-; reflexivity.
Qed.
Lemma desc_some q l : first_desc q l <> VNone.
Proof. induction l as [|i l IH]; [discriminate|]. cbn [first_desc]. destruct (bytes_eqb _ _); [discriminate|exact IH]. Qed.
Lemma flat_if {A B} (f : A -> bool) (g : A -> B) l : flat_map (fun x => if f x then [g x] else []) l = map g (filter f l).
Proof. induction l as [|x l IH]; [reflexivity|]. cbn [flat_map filter]. rewrite IH. destruct (f x); reflexivity. Qed.

Lemma qdiv_top a b : 0 <= a -> 1 <= b -> (qdiv a b <= inject_Z a)%Q.
Proof.
  intros Ha Hb. unfold qdiv. apply Qle_shift_div_r; [apply inj_pos; lia|]. rewrite <- inject_Z_mult, <- Zle_Qle. nia.
Qed.
Lemma cents_bound F y B : shows_as F y -> (y <= inject_Z B)%Q -> 101 * B + 1 <= 2 ^ 900 -> exists q n, denotes (repr_float F) q /\ about q y /\ cents F n /\ n <= 2 ^ 900 /\
    ((y <= inject_Z (10 ^ 11))%Q -> n <= 10 ^ 14 /\ (q == inject_Z n / (100#1))%Q).
Proof.
  intros (q & n & H1 & H2 & H3 & H4 & H5) HY HB. exists q, n. do 3 (split; [assumption|]). split; [|exact H5].
  assert (HN : (inject_Z n <= inject_Z (101 * B + 1))%Q). { rewrite inject_Z_plus, inject_Z_mult. change (inject_Z 101) with (101#1)%Q. change (inject_Z 1) with 1%Q. Lqa.lra. }
  rewrite <- Zle_Qle in HN. exact (Z.le_trans _ _ _ HN HB).
Qed.
Lemma freq_ok b t F y B : has_text b [t] (repr_float F) -> shows_as F y -> (y <= inject_Z B)%Q -> 101 * B + 1 <= 2 ^ 900 ->
  exists v, freq b t = Ok v /\ sampled v y.
Proof.
  intros HT HA HY HB. destruct (cents_bound F y B HA HY HB) as (q & n & _ & H2 & H3 & H4 & H5). destruct (cut100 F n H3 H4) as (v & HC & HR).
  exists v. split.
  - unfold freq. rewrite (textAt_has _ _ _ HT). cbn [rbind floatOf]. rewrite (repr_parse F (cents_finite F n H3)). cbn [rbind]. exact HC.
  - exists q. split; [exact H2|]. intros HX. destruct (H5 HX) as (H6 & H7). specialize (HR H6).
    assert (HQ : ((100#1) * q == inject_Z n)%Q) by (rewrite H7; field). rewrite HQ. change 1%Q with (inject_Z 1). rewrite <- inject_Z_plus, <- !Zle_Qle. lia.
Qed.
Lemma res_bound num den ex : 0 <= num < 65536 -> 0 < den < 65536 -> -128 <= ex <= 127 -> (res_value num den ex <= inject_Z (65536 * 10 ^ 128))%Q.
Proof.
  intros Hn Hd Hx. unfold res_value. rewrite p10_up. change (inject_Z num / inject_Z den)%Q with (qdiv num den).
  pose proof (up_range ex ltac:(lia)) as U1. pose proof (up_range (- ex) ltac:(lia)) as U2. rewrite <- qdiv_mul_frac by lia.
  set (B := 10 ^ 128) in *. assert (0 < B) by (apply Z.pow_pos_nonneg; lia). clearbody B. apply Qle_trans with (inject_Z (num * up ex)); [apply qdiv_top; nia|]. rewrite <- Zle_Qle. nia.
Qed.
Lemma h_box w t x n b : In (t, x, n) res_kinds -> holds (res_tests x w) -> rel shown_as (node n (leaves (res_props (pow10neg E) x w))) b ->
  exists vx vy, freq b ("hRes" ++ x ++ "InPixelsPerMeter")%string = Ok vx /\ freq b ("vRes" ++ x ++ "InPixelsPerMeter")%string = Ok vy /\
    sampled vx (hres w) /\ sampled vy (vres w).
Proof.
  intros HI HH HR. apply res_holds in HH as (HLw & N1 & D1 & N2 & D2).
  pose proof (val_range w 0 2 ltac:(lia) ltac:(lia)) as V0. pose proof (val_range w 2 2 ltac:(lia) ltac:(lia)) as V1.
  pose proof (val_range w 4 2 ltac:(lia) ltac:(lia)) as V2. pose proof (val_range w 6 2 ltac:(lia) ltac:(lia)) as V3. change (256 ^ 2) with 65536 in *.
  assert (HSV : forall i, 0 <= i -> i + 1 <= len w -> -128 <= sval w i <= 127).
  { intros i Hi Hl. unfold sval. pose proof (val_1_range w i Hi). pose proof (val_readable w i 1 Hi ltac:(lia) ltac:(lia)).
    repeat match goal with |- context [if ?b then _ else _] => destruct b eqn:? end; lia. }
  pose proof (HSV 8 ltac:(lia) ltac:(lia)) as S8. pose proof (HSV 9 ltac:(lia) ltac:(lia)) as S9.
  destruct (res_text (pow10neg E) (val w 0 2) (val w 2 2) (sval w 8) HW ltac:(lia) ltac:(lia) S8) as (T1 & _).
  destruct (res_text (pow10neg E) (val w 4 2) (val w 6 2) (sval w 9) HW ltac:(lia) ltac:(lia) S9) as (T2 & _).
  assert (HB : 101 * (65536 * 10 ^ 128) + 1 <= 2 ^ 900) by (vm_compute; discriminate).
  assert (HT : forall tg F, In (tg, F) [(("hRes" ++ x ++ "InPixelsPerMeter")%string, round_nd 2 (res_metre (pow10neg E) (val w 4 2) (val w 6 2) (sval w 9)));
      (("vRes" ++ x ++ "InPixelsPerMeter")%string, round_nd 2 (res_metre (pow10neg E) (val w 0 2) (val w 2 2) (sval w 8)))] -> has_text b [tg] (repr_float F)).
  { intros tg F HTF. destruct (r_text _ _ [tg] tg (VFloat F) [] HR) as (s & H1 & H2); [|discriminate|].
    - unfold node. rewrite findall_cons, flat_nil. destruct HI as [HI|[HI|[]]]; injection HI as <- <- <-; destruct HTF as [HTF|[HTF|[]]]; injection HTF as <- <-; reflexivity.
    - apply plain_float in H2; [now subst s|]. destruct HI as [HI|[HI|[]]]; injection HI as <- <- <-; destruct HTF as [HTF|[HTF|[]]]; injection HTF as <- _; unfold plain_tag; cbn; intuition discriminate. }
  destruct (freq_ok b _ _ (hres w) (65536 * 10 ^ 128) (HT _ _ (or_introl eq_refl)) T2 (res_bound (val w 4 2) (val w 6 2) (sval w 9) ltac:(lia) ltac:(lia) S9) HB) as (vx & X1 & X2).
  destruct (freq_ok b _ _ (vres w) (65536 * 10 ^ 128) (HT _ _ (or_intror (or_introl eq_refl))) T1 (res_bound (val w 0 2) (val w 2 2) (sval w 8) ltac:(lia) ltac:(lia) S8) HB) as (vy & Y1 & Y2).
  exists vx, vy. auto.
Qed.

Lemma h_header : exists hx hb us w h, boxes_of t_jp2h bs = [hx] /\ splits hx hb /\ Forall2 splits (boxes_of t_res hb) us /\
  holds (jp2h_tests (o_format o) hb) /\ Forall (fun x => holds (colr_tests (o_format o) x)) (boxes_of t_colr hb) /\
  has_text p width_path w /\ has_text p height_path h /\
  (forall x xs, filter is_icc (boxes_of t_colr hb) = x :: xs -> exists sc sd, colour_case p sc [VStr sd] /\
     shown_as "colourSpace" (VBytes (sub (colr_profile x) 16 4)) (VStr sc) /\
     shown_as "description" (first_desc (colr_profile x) (zseq (icc_ntags (colr_profile x)))) (VStr sd)) /\
  (forall x xs, filter is_icc (boxes_of t_colr hb) = [] -> filter is_enum (boxes_of t_colr hb) = x :: xs -> exists sc, colour_case p sc [] /\
     shown_as "enumCS" (VInt (colr_enum x)) (VStr sc)) /\
  (filter is_icc (boxes_of t_colr hb) = [] -> filter is_enum (boxes_of t_colr hb) = [] -> ETree.find icc_path p = None /\ ETree.find enum_path p = None) /\
  exists n, freq_case p n /\
    match best_res us with
    | Some w => exists vx vy, n = Some (vx, vy) /\ sampled vx (hres w) /\ sampled vy (vres w)
    | None => n = None
    end.
Proof.
  destruct (v_header E o c bs r HS HG HV HL) as (hx & hb & rs & B1 & B2 & B3 & _ & B4 & B5 & B6).
  destruct (C37_consistent E o c bs (v_valid E o c r HG HV) HS) as (hx' & hb' & x & y & ys & C1 & C2 & C3 & _).
  rewrite B1 in C1. injection C1 as <-. rewrite (splits_unique _ _ C2 _ B2) in C3. clear C2 hb'.
  destruct (v_res E o hb rs B3 B4) as (us & U1 & U2).
  assert (HQ : forall t q, findall ("jp2HeaderBox" :: t :: q) (r_chars r) = flat_map (findall q) (tagged t (map r_chars rs))).
  { intros t q. rewrite B6. unfold node. now rewrite findall_cons. }
  assert (HCI : findall icc_path (r_chars r) = map (fun x => node "icc" (leaves (icc_props (colr_profile x)))) (filter is_icc (boxes_of t_colr hb))).
  { unfold icc_path. rewrite HQ, (v_colr E o hb rs B4), flat_map_map, <- flat_if. apply flat_map_ext. intros w. unfold node at 1. now rewrite findall_cons, flat_nil, icc_tags. }
  assert (HCE : findall enum_path (r_chars r) = map (fun x => leaf "enumCS" (VInt (colr_enum x))) (filter is_enum (boxes_of t_colr hb))).
  { unfold enum_path. rewrite HQ, (v_colr E o hb rs B4), flat_map_map, <- flat_if. apply flat_map_ext. intros w. unfold node at 1. now rewrite findall_cons, flat_nil, enum_tags. }
  assert (HI : forall t v, In (t, v) [("width", val x 4 4); ("height", val x 0 4)] -> findall ["jp2HeaderBox"; "imageHeaderBox"; t] (r_chars r) = [leaf t (VInt v)]).
  { intros t v HI. rewrite HQ, (v_ihdr E o hb rs B4), C3. cbn [map flat_map]. rewrite app_nil_r. unfold node. rewrite findall_cons, flat_nil.
    destruct HI as [HI|[HI|[]]]; injection HI as <- <-; reflexivity. }
  destruct (r_text _ _ _ _ _ _ HP (HI "width" _ (or_introl eq_refl)) ltac:(discriminate)) as (w & W1 & _).
  destruct (r_text _ _ _ _ _ _ HP (HI "height" _ (or_intror (or_introl eq_refl))) ltac:(discriminate)) as (h & H1 & _).
  exists hx, hb, us, w, h. split; [exact B1|]. split; [exact B2|]. split; [exact U1|]. split; [exact B5|]. split.
  { apply Forall_forall. intros z HZ. rewrite Forall_forall in B3. specialize (B3 _ (boxes_of_box _ _ _ HZ)). apply box_ok_need in B3; [exact B3|cbn; intuition discriminate]. }
  split; [exact W1|]. split; [exact H1|]. split; [|split; [|split]].
  - intros z zs HZ. rewrite HZ in HCI. cbn [map] in HCI.
    destruct (r_some _ _ _ _ _ HP HCI) as (ic & I1 & I2).
    destruct (under icc_path "colourSpace" _ _ _ _ HCI (icc_kid_tags (colr_profile z) "colourSpace" _ (or_introl eq_refl))) as (e1 & K1).
    destruct (under icc_path "description" _ _ _ _ HCI (icc_kid_tags (colr_profile z) "description" _ (or_intror (or_introl eq_refl)))) as (e2 & K2).
    destruct (r_text _ _ _ _ _ _ HP K1 ltac:(discriminate)) as (sc & S1 & S2).
    pose proof (desc_some (colr_profile z) (zseq (icc_ntags (colr_profile z)))) as HND.
    destruct (r_text _ _ _ _ _ _ HP K2 HND) as (sd & D1 & D2).
    exists sc, sd. split; [|split; assumption]. left. exists ic, sd. split; [exact I1|]. split; [|auto].
    inversion I2 as [t0 a0 v0 v' k0 k' _ HK]; subst. cbn [ekids]. intros ->. inversion HK.
  - intros z zs HZ1 HZ2. rewrite HZ1 in HCI. rewrite HZ2 in HCE. cbn [map] in HCI, HCE.
    destruct (r_text _ _ _ _ _ _ HP HCE ltac:(discriminate)) as (sc & S1 & S2). exists sc. split; [|exact S2]. right. split; [exact (r_none _ _ _ HP HCI)|]. split; [exact S1|reflexivity].
  - intros HZ1 HZ2. rewrite HZ1 in HCI. rewrite HZ2 in HCE. split; [exact (r_none _ _ _ HP HCI)|exact (r_none _ _ _ HP HCE)].
  - destruct (U2 t_resc "c" "captureResolutionBox" ltac:(left; reflexivity)) as (R1 & R2). destruct (U2 t_resd "d" "displayResolutionBox" ltac:(right; left; reflexivity)) as (R3 & R4).
    rewrite <- (HQ "resolutionBox" ["captureResolutionBox"]) in R2. rewrite <- (HQ "resolutionBox" ["displayResolutionBox"]) in R4. fold capture_path in R2. fold display_path in R4.
    unfold best_res, freq_case. destruct (flat_map (boxes_of t_resc) us) as [|wc wcs].
    + cbn [app]. rewrite (r_none _ _ _ HP R2). destruct (flat_map (boxes_of t_resd) us) as [|wd wds].
      * rewrite (r_none _ _ _ HP R4). exists None. split; reflexivity.
      * destruct (r_some _ _ _ _ _ HP R4) as (b & -> & HB). inversion R3; subst.
        destruct (h_box wd t_resd "d" "displayResolutionBox" b ltac:(right; left; reflexivity) ltac:(assumption) HB) as (vx & vy & X1 & X2 & X3 & X4).
        exists (Some (vx, vy)). split; [exists vx, vy; split; [exact X1|]; split; [exact X2|reflexivity]|]. exists vx, vy. split; [reflexivity|]. split; assumption.
    + cbn [app]. destruct (r_some _ _ _ _ _ HP R2) as (b & -> & HB). inversion R1; subst.
      destruct (h_box wc t_resc "c" "captureResolutionBox" b ltac:(left; reflexivity) ltac:(assumption) HB) as (vx & vy & X1 & X2 & X3 & X4).
      exists (Some (vx, vy)). split; [exists vx, vy; split; [exact X1|]; split; [exact X2|reflexivity]|]. exists vx, vy. split; [reflexivity|]. split; assumption.
Qed.
(** ** The parts of MIX output *)
Lemma ratio_bound y : Qle (qdiv (fold_right Z.add 0 (siz_depths y) * (val y 8 4 - val y 16 4) * (val y 4 4 - val y 12 4)) (8 * len c)) (inject_Z (2 ^ 100)).
Proof.
  assert (HV4 : forall i, 0 <= i -> -9999 <= val y i 4 < 2 ^ 32) by (intros i Hi; pose proof (val_range y i 4 Hi ltac:(lia)); change (256 ^ 4) with (2 ^ 32) in *; lia).
  pose proof (HV4 8 ltac:(lia)). pose proof (HV4 16 ltac:(lia)). pose proof (HV4 4 ltac:(lia)). pose proof (HV4 12 ltac:(lia)).
  assert (HD : 0 <= fold_right Z.add 0 (siz_depths y) <= 128 * 65536).
  { assert (HX : forall l, 0 <= fold_right Z.add 0 (map (fun i => cdepth (val y (38 + 3 * i) 1)) l) <= 128 * len l).
    { induction l as [|i l IH]; [cbn; lia|]. cbn [map fold_right]. rewrite len_cons. unfold cdepth at 1 3. pose proof (Z.mod_pos_bound (val y (38 + 3 * i) 1) 128 ltac:(lia)). lia. }
    specialize (HX (zseq (val y 36 2))). rewrite len_zseq in HX. pose proof (val_2_range y 36 ltac:(lia)). unfold siz_depths. lia. }
  set (d := fold_right Z.add 0 (siz_depths y)) in *. set (a := val y 8 4 - val y 16 4) in *. set (b := val y 4 4 - val y 12 4) in *.
  assert (HA : - 2 ^ 33 <= a <= 2 ^ 33) by lia. assert (HB : - 2 ^ 33 <= b <= 2 ^ 33) by lia. clearbody d a b.
  assert (HN : d * a * b <= 2 ^ 100).
  { assert (a * b <= 2 ^ 66) by (change (2 ^ 66) with (2 ^ 33 * 2 ^ 33); set (B := 2 ^ 33) in *; clearbody B; nia).
    change (2 ^ 100) with (2 ^ 34 * 2 ^ 66). set (B := 2 ^ 66) in *. assert (0 < B) by reflexivity. clearbody B. rewrite <- Z.mul_assoc. nia. }
  pose proof (len_nonneg c) as HC. destruct (Z.eq_dec (len c) 0) as [HZ|HZ].
  - rewrite HZ. unfold qdiv. change (inject_Z (8 * 0)) with 0%Q. unfold Qdiv. change (/ 0)%Q with 0%Q. rewrite Qmult_0_r. change 0%Q with (inject_Z 0). rewrite <- Zle_Qle. lia.
  - unfold qdiv. apply Qle_shift_div_r; [apply inj_pos; lia|]. rewrite <- inject_Z_mult, <- Zle_Qle. set (B := 2 ^ 100) in *. assert (0 < B) by reflexivity. clearbody B. nia.
Qed.
Definition ratio_of (y : bytes) : Q :=
  let z := cs_siz y in Qdiv (inject_Z (fold_right Z.add 0 (siz_depths z) * (val z 8 4 - val z 16 4) * (val z 4 4 - val z 12 4))) (inject_Z (8 * len c)).
Lemma h_bdoi mf : exists y ys l rest k ks st v, boxes_of t_jp2c bs = y :: ys /\ after m_SOT (cs_second y) l rest /\ segs_of m_COD l = k :: ks /\
  lossless_text k st /\ (if mf =? 1 then rounded v (ratio_of y) else in_hundredths v (ratio_of y)) /\
  mixBDOI (isspace E) mf p = Ok (node "mix:BasicDigitalObjectInformation"
    [node "mix:FormatDesignation" [leaf "mix:formatName" (VStr (pys "image/" ++ trim (isspace E) (pys (if String.eqb (o_format o) "jp2" then "jp2 " else "jph "))))];
     leaf "mix:byteOrder" (VStr (pys (if mf =? 1 then "big_endian" else "big endian")));
     node "mix:Compression" [leaf "mix:compressionScheme" (VStr (scheme_of st));
       if mf =? 1 then leaf "mix:compressionRatio" (VStr (str_of_Z v))
       else node "mix:compressionRatio" [leaf "mix:numerator" (VStr (str_of_Z v)); leaf "mix:denominator" (VStr (pys "100"))]]]).
Proof.
  destruct h_cs as (y & ys & l & rest & k & ks & st & ly & lv & sx & sy & z & ss & sn & B1 & B2 & B3 & _ & T1 & T2 & _).
  destruct h_ratio as (y' & ys' & F & B1' & R1 & R2). rewrite B1 in B1'. injection B1' as <- <-. cbv zeta in R2.
  destruct (cents_bound F _ (2 ^ 100) R2 (ratio_bound (cs_siz y)) ltac:(vm_compute; discriminate)) as (q & n & _ & Q2 & Q3 & Q4 & Q5).
  assert (HV' : exists v, intOf (if mf =? 1 then round_nd 0 F else round_nd 0 (float_mul F float100)) = Ok v /\
    (if mf =? 1 then rounded v (ratio_of y) else in_hundredths v (ratio_of y))).
  { destruct (mf =? 1).
    - destruct (num1 F n Q3 Q4) as (v & N1 & N2). exists v. split; [exact N1|]. exists q. split; [exact Q2|]. intros HX. destruct (Q5 HX) as (Q6 & Q7). specialize (N2 Q6).
      rewrite Q7. assert (HA : (inject_Z v - inject_Z n / (100#1) == inject_Z (100 * v - n) * (1#100))%Q).
      { unfold Z.sub. rewrite inject_Z_plus, inject_Z_opp, inject_Z_mult. change (inject_Z 100) with (100#1)%Q. field. }
      rewrite HA. apply Qabs_Qle_condition. assert (H1 : -50 <= 100 * v - n) by lia. assert (H2 : 100 * v - n <= 50) by lia. rewrite Zle_Qle in H1, H2.
      change (inject_Z (-50)) with (-50#1)%Q in H1. change (inject_Z 50) with (50#1)%Q in H2. split; Lqa.lra.
    - destruct (num100 F n Q3 Q4) as (v & N1 & N2). exists v. split; [exact N1|]. exists q. split; [exact Q2|]. intros HX. destruct (Q5 HX) as (Q6 & Q7). now rewrite (N2 Q6). }
  destruct HV' as (v & V1 & V2). exists y, ys, l, rest, k, ks, st, v. do 5 (split; [assumption|]).
  exact (bdoi_ok _ _ _ _ _ _ _ _ h_br T1 R1 (repr_parse F (cents_finite F n Q3)) V1).
Qed.

Lemma h_bii mf : exists hx hb, boxes_of t_jp2h bs = [hx] /\ splits hx hb /\
  let cs := boxes_of t_colr hb in
  (filter is_icc cs = [] -> filter is_enum cs = [] -> mixBII (isspace E) mf p = Raise AttributeError) /\
  (forall x xs, filter is_icc cs = x :: xs -> exists b sc sd, mixBII (isspace E) mf p = Ok b /\
     shown_as "colourSpace" (VBytes (sub (colr_profile x) 16 4)) (VStr sc) /\
     shown_as "description" (first_desc (colr_profile x) (zseq (icc_ntags (colr_profile x)))) (VStr sd) /\
     findAllText (mixPI ++ ["mix:colorSpace"]) b = [VStr (trim (isspace E) sc)] /\
     findAllText (mixPI ++ ["mix:ColorProfile"; "mix:IccProfile"; "mix:iccProfileName"]) b = [VStr sd]) /\
  (forall x xs, filter is_icc cs = [] -> filter is_enum cs = x :: xs -> exists b sc, mixBII (isspace E) mf p = Ok b /\
     In (colr_enum x, sc) enum_names /\
     findAllText (mixPI ++ ["mix:colorSpace"]) b = [VStr (trim (isspace E) sc)] /\
     findAllText (mixPI ++ ["mix:ColorProfile"; "mix:IccProfile"; "mix:iccProfileName"]) b = []).
Proof.
  destruct h_cs as (y & ys & l & rest & k & ks & st & ly & lv & sx & sy & z & ss & sn & B1 & B2 & B3 & _ & _ & _ & K1 & _ & K2 & _ & Z1 & Z2 & _).
  destruct h_header as (hx & hb & us & w & h & C1 & C2 & _ & _ & CT & C4 & C5 & C6 & C7 & C8 & _).
  exists hx, hb. split; [exact C1|]. split; [exact C2|]. cbv zeta. split; [|split].
  - intros HA HB. destruct (C8 HA HB) as (D1 & D2). exact (bii_fails _ _ _ _ _ C4 C5 D1 D2).
  - intros x xs HX. destruct (C6 x xs HX) as (sc & sd & D1 & D2 & D3).
    destruct (bii_ok (isspace E) mf _ _ _ _ _ _ _ _ _ C4 C5 D1 h_comment Z1 Z2 K1 K2) as (b & E1 & E2 & E3). exists b, sc, sd. auto.
  - intros x xs HX1 HX2. destruct (C7 x xs HX1 HX2) as (sc & D1 & D2).
    destruct (bii_ok (isspace E) mf _ _ _ _ _ _ _ _ _ C4 C5 D1 h_comment Z1 Z2 K1 K2) as (b & E1 & E2 & E3). exists b, sc. split; [exact E1|]. split; [|auto].
    assert (HIX : In x (boxes_of t_colr hb) /\ is_enum x = true) by (apply filter_In; rewrite HX2; now left).
    rewrite Forall_forall in CT. specialize (CT x (proj1 HIX)). destruct HIX as (_ & HEX). unfold is_enum in HEX. unfold colr_tests in CT. rewrite HEX in CT.
    assert (HIN : In (colr_enum x) [16; 17; 18]) by (apply (holds_in _ "enumCSIsValid" _ CT); unfold colr_enum_tests; apply in_or_app; right; now left).
    apply (in_table "enumCS" enumCSMap) in D2.
    + apply Exists_exists in D2 as ((kk, d) & HI & HQ & HD'). cbn [fst snd] in *. subst d. unfold enum_names. cbn in HI.
      destruct HI as [HI|[HI|[HI|[]]]]; injection HI as <- <-; cbn [py_eqb] in HQ; apply Z.eqb_eq in HQ; rewrite HQ; [left|right; left|right; right; left]; reflexivity.
    + cbn; tauto.
    + left. eauto.
    + intros m HI. cbn in HI. repeat (destruct HI as [HI|HI]; [now (discriminate HI || injection HI as <-)|]). destruct HI.
    + cbn in HIN. destruct HIN as [<-|[<-|[<-|[]]]]; [left|right; left|right; right; left]; reflexivity.
Qed.
Lemma h_iam mf : exists hx hb us b n, boxes_of t_jp2h bs = [hx] /\ splits hx hb /\ Forall2 splits (boxes_of t_res hb) us /\
  mixIAM mf p = Ok b /\ findall ["mix:SpatialMetrics"] b = metrics mf n /\
  match best_res us with
  | Some w => exists vx vy, n = Some (vx, vy) /\ sampled vx (hres w) /\ sampled vy (vres w)
  | None => n = None
  end.
Proof.
  destruct h_cs as (y & ys & l & rest & k & ks & st & ly & lv & sx & sy & z & ss & sn & B1 & B2 & B3 & _ & _ & _ & _ & _ & _ & _ & _ & _ & Z1 & Z2 & Z3).
  destruct h_header as (hx & hb & us & w & h & C1 & C2 & C3 & _ & _ & _ & _ & _ & _ & _ & n & N1 & N2).
  destruct (iam_ok mf p n z ss sn N1 Z1 Z2 Z3) as (b & E1 & E2). exists hx, hb, us, b, n. auto 8.
Qed.
(** When MIX output is made. *)
Lemma h_when mf hx hb : mf <> 0 -> boxes_of t_jp2h bs = [hx] -> splits hx hb ->
  let colour := Exists (fun x => In (val x 0 1) [1; 2; 3]) (boxes_of t_colr hb) in
  (colour -> xmp_ok p -> exists m, generateMix (isspace E) mf p = Ok m) /\
  (~ (colour /\ xmp_ok p) -> generateMix (isspace E) mf p = Raise AttributeError).
Proof.
  intros Hmf C1 C2. cbv zeta.
  destruct (h_bdoi mf) as (y & ys & l & rest & k & ks & st & v & _ & _ & _ & _ & _ & HB).
  destruct (h_bii mf) as (hx' & hb' & C1' & C2' & D1 & D2 & D3). rewrite C1 in C1'. injection C1' as <-. rewrite (splits_unique _ _ C2' _ C2) in *. clear C2' hb'.
  destruct (h_iam mf) as (hx' & hb' & us & b & n & _ & _ & _ & HI & _).
  assert (HCOL : Exists (fun x => In (val x 0 1) [1; 2; 3]) (boxes_of t_colr hb) -> exists b, mixBII (isspace E) mf p = Ok b).
  { intros HX. destruct (filter is_icc (boxes_of t_colr hb)) as [|x xs] eqn:E1; [|destruct (D2 _ _ eq_refl) as (b' & _ & _ & H & _); eauto].
    destruct (filter is_enum (boxes_of t_colr hb)) as [|x xs] eqn:E2; [|destruct (D3 _ _ eq_refl eq_refl) as (b' & _ & H & _); eauto].
    exfalso. apply Exists_exists in HX as (x & HX & HM). cbn in HM.
    destruct (is_icc x) eqn:I1; [assert (HX' : In x (filter is_icc (boxes_of t_colr hb))) by (apply filter_In; auto); rewrite E1 in HX'; destruct HX'|].
    destruct (is_enum x) eqn:I2; [assert (HX' : In x (filter is_enum (boxes_of t_colr hb))) by (apply filter_In; auto); rewrite E2 in HX'; destruct HX'|].
    unfold is_icc in I1. unfold is_enum in I2. lia. }
  assert (HNO : ~ Exists (fun x => In (val x 0 1) [1; 2; 3]) (boxes_of t_colr hb) -> mixBII (isspace E) mf p = Raise AttributeError).
  { intros HX. apply D1.
    - destruct (filter is_icc (boxes_of t_colr hb)) as [|x xs] eqn:E1; [reflexivity|]. exfalso. apply HX. apply Exists_exists. exists x.
      assert (HXI : In x (boxes_of t_colr hb) /\ is_icc x = true) by (apply filter_In; rewrite E1; now left). split; [apply HXI|]. destruct HXI as (_ & HXI). unfold is_icc in HXI. cbn. lia.
    - destruct (filter is_enum (boxes_of t_colr hb)) as [|x xs] eqn:E1; [reflexivity|]. exfalso. apply HX. apply Exists_exists. exists x.
      assert (HXI : In x (boxes_of t_colr hb) /\ is_enum x = true) by (apply filter_In; rewrite E1; now left). split; [apply HXI|]. destruct HXI as (_ & HXI). unfold is_enum in HXI. cbn. lia. }
  unfold generateMix. rewrite HB. cbn [rbind]. split.
  - intros HX HXMP. destruct (HCOL HX) as (b2 & ->). cbn [rbind]. destruct (icm_ok (isspace E) mf p h_textual Hmf HXMP) as (i & ->). cbn [rbind]. rewrite HI. cbn [rbind]. eauto.
  - intros HX. destruct (Exists_dec (fun x => In (val x 0 1) [1; 2; 3]) (boxes_of t_colr hb)) as [HC|HC]; [intros x; apply in_dec, Z.eq_dec| |rewrite (HNO HC); reflexivity].
    destruct (HCOL HC) as (b2 & ->). cbn [rbind].
    destruct (rdf_of p) as [x|] eqn:ER.
    + apply (rdf_of_spec (isspace E) mf) in ER. destruct (in_dec string_dec xmp_description (map etag (ekids x))) as [HD|HD].
      * exfalso. apply HX. split; [exact HC|]. intros x' HX'. apply (proj2 (rdf_of_spec (isspace E) mf p x)) in ER. apply (proj2 (rdf_of_spec (isspace E) mf p x')) in HX'. assert (HEQ : x = x') by congruence. rewrite <- HEQ. exact HD.
      * rewrite (icm_fails (isspace E) mf p x Hmf ER HD). reflexivity.
    + exfalso. apply HX. split; [exact HC|]. intros x' HX'. apply (rdf_of_spec (isspace E) mf) in HX'. congruence.
Qed.
End Human.
