(** * What the properties of a valid file contain, as far as MIX output reads them *)

From Coq Require Import ZArith List Bool String Lia.
From Coq Require Import Init.
From Coq Require Import ZifyBool.
From Verif Require Import Py PyFloat ByteConv ETree BV VSuper Remap Mix CheckFile Spec SpecText SpecBox SpecMarker SpecWalk SpecSuper SpecCS SpecFile SpecTop SpecValid
     PBase PWalk PSeg PText PHuman PEmit PLeaf PLeaf2 PMarker PMarker2 PSuper PTop PFile PValid Prop_Boxes Prop_File Prop_Top Prop_CS Prop_Check Prop_Mix Prop_Report PRepr PAcc Prop_Num.
Import ListNotations.
Open Scope string_scope.
Open Scope list_scope.
Open Scope Z_scope.

(** ** Children by name *)
Definition tagged (n : string) (l : list elt) : list elt := filter (fun c => String.eqb (etag c) n) l.
Lemma findall_cons t q n a v k : findall (t :: q) (Elt n a v k) = flat_map (findall q) (tagged t k).
Proof. reflexivity. Qed.
Lemma tagged_app n a b : tagged n (a ++ b) = tagged n a ++ tagged n b.
Proof. apply filter_app. Qed.
Lemma flat_nil (l : list elt) : flat_map (findall []) l = l.
Proof. induction l as [|x l IH]; [reflexivity|]. cbn [flat_map]. rewrite IH. reflexivity. Qed.

Section Named.
Variables (E : env) (op : opts).
Lemma g_tag bs rs n t : Forall2 (box_gives E op) bs rs -> owns t n ->
  Forall2 (fun x e => exists r, gives E op (BTb t) x VNone VNone r /\ e = r_chars r) (boxes_of t bs) (tagged n (map r_chars rs)).
Proof.
  intros HF HO. apply (gives_all_at E op (fun b => BTb (fst b)) snd (fun _ => VNone) (fun _ => VNone) bs rs O O) in HF as (f & d & _ & _ & HK).
  pose proof (kids_tag E op f d bs rs n t HK HO) as H. unfold tagged. induction H as [|x e l m (r & HV & ->) _ IH]; [constructor|].
  constructor; [|exact IH]. exists r. split; [now exists f, d|reflexivity].
Qed.
(** Boxes whose properties have a closed form. *)
Lemma g_leaf bs rs n t (props : bytes -> list elt) : Forall2 (box_gives E op) bs rs -> owns t n ->
  (forall x r, In x (boxes_of t bs) -> gives E op (BTb t) x VNone VNone r -> r_chars r = node n (props x)) ->
  tagged n (map r_chars rs) = map (fun x => node n (props x)) (boxes_of t bs).
Proof.
  intros HF HO HP. pose proof (g_tag bs rs n t HF HO) as H. revert HP. induction H as [|x e l m (r & HV & ->) _ IH]; intros HP; [reflexivity|].
  cbn [map]. f_equal; [apply HP; [now left|exact HV]|]. apply IH. intros x' r' HI. apply HP. now right.
Qed.
Lemma gives_closed t c r L p w tag : (forall fuel d, exists r, validate E op fuel (S (S d)) t c VNone VNone = Ok r /\ says (o_verbose op) tag L p w r) ->
  gives E op t c VNone VNone r -> r_chars r = node tag p.
Proof.
  intros H (f & d & HV). destruct (H f d) as (r' & HV' & (_ & HC & _)).
  apply (lift_ok E op f f d (S (S d))) in HV; [|lia|lia]. rewrite HV' in HV. injection HV as <-. exact HC.
Qed.
End Named.

(** ** Marker segments of the main header *)
Section Main.
Variables (E : env) (op : opts).
Lemma seg_tag n m k N l rs : owns m n -> lookup m main_markers = Some k -> k <> PacketMarker ->
  Forall2 (seg_gives E op N) (treated main_markers l) rs ->
  Forall2 (fun x e => exists r, seg_gives E op N (k, m, x) r /\ e = r_chars r) (segs_of m l) (tagged n (shown (o_packet op) (treated main_markers l) rs)).
Proof.
  intros HO HL HK. revert rs. induction l as [|(m', x) l IH]; intros rs H; [inversion H; subst; constructor|].
  unfold segs_of. cbn [filter fst]. change (treated main_markers ((m', x) :: l)) with ((match lookup m' main_markers with Some t => [(t, m', x)] | None => [] end) ++ treated main_markers l) in *.
  destruct (lookup m' main_markers) as [t'|] eqn:EL.
  - cbn [app] in *. inversion H as [|a r la rs' HG HR]; subst. specialize (IH rs' HR).
    assert (HS : tagged n (shown (o_packet op) ((t', m', x) :: treated main_markers l) (r :: rs')) =
                 (if bytes_eqb m' m then [r_chars r] else []) ++ tagged n (shown (o_packet op) (treated main_markers l) rs')).
    { unfold shown. cbn [combine flat_map]. rewrite tagged_app. f_equal. destruct HG as (f & d & HV).
      destruct (validate_tag _ _ _ _ _ _ _ _ _ HV) as (_ & (kk & HC) & _). cbn [fst snd] in HC.
      assert (HT : etag (r_chars r) = boxTypeOf (BTb m')) by (rewrite HC; reflexivity).
      assert (HX : tagged n [r_chars r] = if bytes_eqb m' m then [r_chars r] else []) by (unfold tagged; cbn [filter]; rewrite HT, (owns_eqb m n m' HO); reflexivity).
      destruct t'; try exact HX. destruct (o_packet op); [exact HX|]. destruct (bytes_eqb m' m) eqn:EB; [|reflexivity].
      exfalso. apply bytes_eqb_spec in EB. subst m'. rewrite HL in EL. injection EL as ->. now apply HK. }
    rewrite HS. destruct (bytes_eqb m' m) eqn:EB; cbn [map app]; [|exact IH]. constructor; [|exact IH].
    apply bytes_eqb_spec in EB. subst m'. rewrite HL in EL. injection EL as <-. exists r. split; [exact HG|reflexivity].
  - cbn [app] in *. destruct (bytes_eqb m' m) eqn:EB; [|now apply IH]. exfalso. apply bytes_eqb_spec in EB. subst m'. congruence.
Qed.
Lemma cs_named n m k t y st cz cap l rest ps rz rs ts r : In (m, n, k) [(m_COD, "cod", Alone); (m_COM, "com", Alone)] ->
  cs_facts E op t y cap l rest ps rz rs ts r -> gives E op t y st cz r ->
  Forall2 (fun x e => exists r, gives E op (BTb m) x VNone VNone r /\ e = r_chars r) (segs_of m l) (tagged n (ekids (r_chars r))).
Proof.
  intros HI HF _. destruct HF as (_ & _ & _ & _ & _ & HZ & HS & _ & HC). destruct HC as (_ & -> & _). destruct HZ as (_ & HZ & _).
  cbn [ekids node]. change (r_chars rz :: ?l) with ([r_chars rz] ++ l). rewrite 2!tagged_app, HZ.
  assert (HX : Forall2 (fun x e => exists r, seg_gives E op (cs_csiz y) (k, m, x) r /\ e = r_chars r) (segs_of m l) (tagged n (shown (o_packet op) (treated main_markers l) rs))).
  { apply (seg_tag n m k (cs_csiz y) l rs); [..|exact HS]; cbn in HI; destruct HI as [HI|[HI|[]]]; injection HI as <- <- <-; try discriminate; try reflexivity; (repeat split; discriminate). }
  assert (HN : tagged n (leaves [("ppmCount", VInt (len (segs_of m_PPM l))); ("plmCount", VInt (len (segs_of m_PLM l)))] ++ node "tileParts" (map r_chars ts) :: cs_props2 (o_format op) y) = []).
  { cbn in HI. unfold cs_props2. destruct HI as [HI|[HI|[]]]; injection HI as <- <- <-; destruct (_ || _); reflexivity. }
  rewrite HN, app_nil_r. replace (tagged n [node "siz" (leaves (siz_props cap (cs_siz y)))]) with (@nil elt) by (cbn in HI; destruct HI as [HI|[HI|[]]]; injection HI as <- <- <-; reflexivity).
  cbn [app]. assert (k = Alone) as -> by (cbn in HI; destruct HI as [HI|[HI|[]]]; congruence). exact HX.
Qed.
End Main.

Lemma leaves_app a b : leaves (a ++ b) = leaves a ++ leaves b.
Proof. apply map_app. Qed.
Lemma tagged_other n L : Forall (fun p => fst p <> n) L -> tagged n (leaves L) = [].
Proof.
  induction 1 as [|(m & v) L H HL IH]; [reflexivity|]. unfold tagged in *. cbn [leaves map filter leaf etag]. cbn [fst] in H.
  destruct (String.eqb_spec m n); [contradiction|exact IH].
Qed.

(** ** Valid files *)
Lemma flat_map_app2 {A B} (f : A -> list B) l1 l2 : flat_map f (l1 ++ l2) = flat_map f l1 ++ flat_map f l2.
Proof. induction l1 as [|x l1 IH]; [reflexivity|]. cbn [flat_map app]. now rewrite IH, app_assoc. Qed.
Lemma flat_map_map {A B C} (g : A -> B) (f : B -> list C) l : flat_map f (map g l) = flat_map (fun x => f (g x)) l.
Proof. induction l as [|x l IH]; [reflexivity|]. cbn [flat_map map]. now rewrite IH. Qed.
Lemma box_ok_need E fmt t x : box_ok E fmt (t, x) -> ~ In t [t_jp2h; t_res; t_uinf; t_jp2c] -> need E fmt None t x.
Proof. intros H HN. inversion H; subst; [assumption|exfalso; apply HN; cbn; tauto..]. Qed.

Section Valid.
Variables (E : env) (o : opts) (c : bytes) (bs : list (bytes * bytes)) (r : bv).
Hypothesis HF : In (o_format o) ["jp2"; "jph"].
Hypothesis HS : splits c bs.
Hypothesis HG : gives E o (BTs "JP2") c VNone VNone r.
Hypothesis HV : r_valid r = VBool true.
Hypothesis HL : len c < 2 ^ 53.

Lemma v_valid : valid E o c.
Proof. exists r. split; [exact HG|exact HV]. Qed.
Lemma v_boxes : Forall (box_ok E (o_format o)) bs.
Proof.
  assert (HA : accepted E o (BTs "JP2") c VNone VNone).
  { destruct (headers_total bs) as (hs & HH). destruct (jp2_gives _ _ _ _ _ _ _ _ HS HH HG) as (rs & _ & _ & _ & (b & H1 & H2) & _).
    exists r. split; [exact HG|]. apply H2. congruence. }
  apply (file_spec E o c HL) in HA. destruct HA as (bs' & hs & HS' & _ & HB & _). now rewrite (splits_unique _ _ HS _ HS').
Qed.
Lemma v_root : exists rs ks, Forall2 (box_gives E o) bs rs /\ r_chars r = node "properties" (map r_chars rs ++ ks) /\
  (forall n, n <> "compressionRatio" -> tagged n ks = []).
Proof.
  destruct (headers_total bs) as (hs & HH). destruct (jp2_gives _ _ _ _ _ _ _ _ HS HH HG) as (rs & HK & (_ & HC & _) & _).
  exists rs, (jp2_props (o_format o) c bs hs). split; [exact HK|]. split; [exact HC|]. intros n Hn. unfold jp2_props.
  destruct (file_ihdr hs); [|reflexivity]. destruct (file_siz bs); [|reflexivity]. destruct (_ || _); [|reflexivity].
  unfold tagged. cbn [filter leaf etag]. destruct (String.eqb_spec "compressionRatio" n); [congruence|reflexivity].
Qed.

(** File type *)
Lemma v_ftyp : exists f, boxes_of t_ftyp bs = [f] /\ holds (ftyp_tests (o_format o) f) /\
  findall ["fileTypeBox"; "br"] (r_chars r) = [leaf "br" (VBytes (sub f 0 4))].
Proof.
  destruct (C36_structure E o c bs v_valid HS) as (a & b & HM & _ & _ & HN & _).
  assert (HB : exists f, boxes_of t_ftyp bs = [f]).
  { apply boxes_of_one; [rewrite HM; cbn; auto|]. rewrite HM. clear -HN. intros p1 p2 p3 HX.
    assert (HC : (count_occ (list_eq_dec Byte.byte_eq_dec) (t_sig :: t_ftyp :: a ++ t_jp2h :: b) t_ftyp <= 1)%nat).
    { cbn. destruct (list_eq_dec Byte.byte_eq_dec t_sig t_ftyp) as [HY|_]; [discriminate|]. destruct (list_eq_dec Byte.byte_eq_dec t_ftyp t_ftyp) as [_|HY]; [|congruence].
      rewrite count_occ_app. cbn. destruct (list_eq_dec Byte.byte_eq_dec t_jp2h t_ftyp) as [HY|_]; [discriminate|].
      rewrite !(proj1 (count_occ_not_In _ _ _)); [lia|intros HY; apply HN; apply in_app_iff; now right|intros HY; apply HN; apply in_app_iff; now left]. }
    rewrite HX, !count_occ_app in HC. cbn in HC. destruct (list_eq_dec Byte.byte_eq_dec t_ftyp t_ftyp) as [_|HY]; [|congruence]. rewrite !count_occ_app in HC. cbn in HC. destruct (list_eq_dec Byte.byte_eq_dec t_ftyp t_ftyp); [lia|congruence]. }
  destruct HB as (f & HB). exists f. split; [exact HB|].
  assert (HIN : In (t_ftyp, f) bs) by (apply boxes_of_box; rewrite HB; now left).
  assert (HN1 : need E (o_format o) None t_ftyp f).
  { apply box_ok_need; [|cbn; intuition discriminate]. pose proof v_boxes as HA. rewrite Forall_forall in HA. now apply HA. }
  split; [exact HN1|].
  destruct v_root as (rs & ks & HK & HC & Hks). rewrite HC. unfold node. rewrite findall_cons, tagged_app, Hks, app_nil_r by discriminate.
  assert (HSM : len f < 2 ^ 53) by (pose proof (splits_inside _ _ HS) as HI; rewrite Forall_forall in HI; specialize (HI _ HIN); cbn [snd] in HI; lia).
  rewrite (g_leaf E o bs rs "fileTypeBox" t_ftyp (fun x => leaves (ftyp_props x)) HK ltac:(repeat split; discriminate)).
  - rewrite HB. cbn [map flat_map]. rewrite app_nil_r. unfold node. rewrite findall_cons, flat_nil. unfold ftyp_props. rewrite leaves_app, tagged_app.
    rewrite (tagged_other "br" (map _ _)); [reflexivity|]. apply Forall_forall. intros p HP. apply in_map_iff in HP as (i & <- & _). discriminate.
  - intros x r' HX HG'. rewrite HB in HX. destruct HX as [<-|[]].
    apply (gives_closed E o (BTb t_ftyp) f r' (ftyp_tests (o_format o) f) (leaves (ftyp_props f)) [] "fileTypeBox"); [|exact HG'].
    intros fuel d. destruct (ftyp_says E o fuel (S d) f VNone VNone HSM) as (r1 & H1 & H2 & _). exists r1. split; [exact H1|exact H2].
Qed.

(** Inside the JP2 header *)
Lemma v_header : exists hx hb rs, boxes_of t_jp2h bs = [hx] /\ splits hx hb /\ Forall (box_ok E (o_format o)) hb /\ len hx < 2 ^ 53 /\
  Forall2 (box_gives E o) hb rs /\ holds (jp2h_tests (o_format o) hb) /\
  (forall q, findall ("jp2HeaderBox" :: q) (r_chars r) = findall q (node "jp2HeaderBox" (map r_chars rs))).
Proof.
  destruct (C37_consistent E o c bs v_valid HS) as (hx & hb & x & y & ys & B1 & B2 & _).
  assert (HIN : In (t_jp2h, hx) bs) by (apply boxes_of_box; rewrite B1; now left).
  assert (HB : box_ok E (o_format o) (t_jp2h, hx)) by (pose proof v_boxes as HA; rewrite Forall_forall in HA; now apply HA).
  inversion HB as [? ? HN _|? hb' HS' H1 H2| | |]; subst; [exfalso; apply HN; cbn; tauto|]. assert (hb' = hb) as -> by (exact (splits_unique _ _ HS' _ B2)).
  destruct v_root as (rs & ks & HK & HC & Hks). pose proof (g_tag E o bs rs "jp2HeaderBox" t_jp2h HK ltac:(repeat split; discriminate)) as HT.
  rewrite B1 in HT. inversion HT as [|? e ? m (r1 & HG1 & ->) HN HE]; subst. inversion HN; subst.
  destruct (jp2h_gives E o hx VNone VNone hb r1 B2 HG1) as (rs' & HK' & (_ & HC' & _) & _).
  exists hx, hb, rs'. split; [exact B1|]. split; [exact B2|]. split; [exact H1|].
  split; [pose proof (splits_inside _ _ HS) as HI; rewrite Forall_forall in HI; specialize (HI _ HIN); cbn [snd] in HI; lia|].
  split; [exact HK'|]. split; [exact H2|]. intros q. rewrite HC. unfold node at 1. rewrite findall_cons, tagged_app, Hks, app_nil_r by discriminate.
  match goal with HX : _ = tagged "jp2HeaderBox" (map r_chars rs) |- _ => rewrite <- HX end. cbn [flat_map]. rewrite app_nil_r, HC', app_nil_r. reflexivity.
Qed.

(** Boxes inside the header, given what [v_header] says of them. *)
Lemma v_colr hb rs : Forall2 (box_gives E o) hb rs ->
  tagged "colourSpecificationBox" (map r_chars rs) = map (fun x => node "colourSpecificationBox" (colr_all_props x)) (boxes_of t_colr hb).
Proof.
  intros HK. apply (g_leaf E o hb rs "colourSpecificationBox" t_colr colr_all_props HK ltac:(repeat split; discriminate)). intros x r' _ HG'.
  apply (gives_closed E o (BTb t_colr) x r' (colr_tests (o_format o) x) (colr_all_props x) [] "colourSpecificationBox"); [|exact HG'].
  intros fuel d. destruct (colr_says E o fuel d x VNone VNone) as (r1 & H1 & H2 & _). exists r1. split; [exact H1|exact H2].
Qed.
Lemma v_ihdr hb rs : Forall2 (box_gives E o) hb rs ->
  tagged "imageHeaderBox" (map r_chars rs) = map (fun x => node "imageHeaderBox" (leaves (ihdr_props x))) (boxes_of t_ihdr hb).
Proof.
  intros HK. apply (g_leaf E o hb rs "imageHeaderBox" t_ihdr (fun x => leaves (ihdr_props x)) HK ltac:(repeat split; discriminate)). intros x r' _ HG'.
  apply (gives_closed E o (BTb t_ihdr) x r' (ihdr_tests x) (leaves (ihdr_props x)) [] "imageHeaderBox"); [|exact HG'].
  intros fuel d. destruct (ihdr_says E o fuel (S d) x VNone VNone) as (r1 & H1 & H2 & _). exists r1. split; [exact H1|exact H2].
Qed.
Definition res_kinds := [(t_resc, "c", "captureResolutionBox"); (t_resd, "d", "displayResolutionBox")].
Lemma res_need t x n w : In (t, x, n) res_kinds -> need E (o_format o) None t w -> holds (res_tests x w).
Proof. intros [HI|[HI|[]]] HN; injection HI as <- <- <-; exact HN. Qed.
Lemma v_res hb rs : Forall (box_ok E (o_format o)) hb -> Forall2 (box_gives E o) hb rs ->
  exists us, Forall2 splits (boxes_of t_res hb) us /\
    forall t x n, In (t, x, n) res_kinds ->
      Forall (fun w => holds (res_tests x w)) (flat_map (boxes_of t) us) /\
      flat_map (findall [n]) (tagged "resolutionBox" (map r_chars rs)) = map (fun w => node n (leaves (res_props (pow10neg E) x w))) (flat_map (boxes_of t) us).
Proof.
  intros HO HK. pose proof (g_tag E o hb rs "resolutionBox" t_res HK ltac:(repeat split; discriminate)) as HT.
  assert (HA : Forall (fun x => box_ok E (o_format o) (t_res, x)) (boxes_of t_res hb)).
  { apply Forall_forall. intros x HX. rewrite Forall_forall in HO. now apply HO, boxes_of_box. }
  induction HT as [|x e l m (r1 & HG1 & ->) _ IH].
  - exists []. split; [constructor|]. intros t x n _. split; [constructor|reflexivity].
  - inversion HA as [|? ? HB HA']; subst. destruct (IH HA') as (us & HU & HX). clear IH.
    inversion HB as [? ? HN _| |? ub HS' H1 H2| |]; subst; [exfalso; apply HN; cbn; tauto|].
    destruct (res_gives E o x VNone VNone ub r1 HS' HG1) as (rs' & HK' & (_ & HC' & _) & _). exists (ub :: us). split; [now constructor|].
    intros t x' n HI. destruct (HX t x' n HI) as (G1 & G2). cbn [flat_map].
    assert (HH : Forall (fun w => holds (res_tests x' w)) (boxes_of t ub)).
    { apply Forall_forall. intros w Hw. apply (res_need t x' n w HI). apply box_ok_need; [rewrite Forall_forall in H1; now apply H1, boxes_of_box|].
      cbn in HI. destruct HI as [HI|[HI|[]]]; injection HI as <- <- <-; cbn; intuition discriminate. }
    split; [now apply Forall_app|]. rewrite map_app, G2. f_equal. rewrite HC', app_nil_r. unfold node at 1. rewrite findall_cons, flat_nil.
    apply (g_leaf E o ub rs' n t (fun w => leaves (res_props (pow10neg E) x' w)) HK').
    { cbn in HI. destruct HI as [HI|[HI|[]]]; injection HI as <- <- <-; repeat split; discriminate. }
    intros w r' Hw HG'. rewrite Forall_forall in HH. specialize (HH w Hw). apply res_holds in HH. destruct HH as (_ & _ & D1 & _ & D2).
    apply (gives_closed E o (BTb t) w r' (res_tests x' w) (leaves (res_props (pow10neg E) x' w)) [] n); [|exact HG'].
    intros fuel d. destruct (C28_resolution E o fuel (S d) w VNone VNone t x' ltac:(cbn in HI; destruct HI as [HI|[HI|[]]]; injection HI as <- <- <-; auto) ltac:(lia) ltac:(lia)) as (r2 & R1 & R2 & _).
    exists r2. split; [exact R1|]. replace n with (boxTypeOf (BTb t)); [exact R2|]. cbn in HI. destruct HI as [HI|[HI|[]]]; injection HI as <- <- <-; reflexivity.
Qed.

(** Boxes that are not there. *)
Lemma v_none t n q : In (t, n) [(t_xml, "xmlBox"); (t_uuid, "uuidBox")] -> boxes_of t bs = [] -> findall (n :: q) (r_chars r) = [].
Proof.
  intros HI HB. destruct v_root as (rs & ks & HK & -> & Hks). unfold node. rewrite findall_cons, tagged_app, Hks, app_nil_r by (cbn in HI; destruct HI as [HI|[HI|[]]]; injection HI as <- <-; discriminate).
  pose proof (g_tag E o bs rs n t HK ltac:(cbn in HI; destruct HI as [HI|[HI|[]]]; injection HI as <- <-; repeat split; discriminate)) as HT.
  rewrite HB in HT. inversion HT. reflexivity.
Qed.

(** Compression ratio *)
Lemma box_names b : In (boxTypeOf (BTb b)) ("unknownBox" :: map snd typeMap_b).
Proof.
  unfold boxTypeOf. destruct (assoc_b b typeMap_b) as [n|] eqn:EA; [|now left]. right. induction typeMap_b as [|(k, n') l IH]; [discriminate EA|].
  cbn in EA. destruct (bytes_eqb _ _); [injection EA as ->; now left|right; now apply IH].
Qed.
Lemma v_ratio : exists y ys F, boxes_of t_jp2c bs = y :: ys /\
  findall ["compressionRatio"] (r_chars r) = [leaf "compressionRatio" (VFloat F)] /\
  let z := cs_siz y in shows_as F (qdiv (fold_right Z.add 0 (siz_depths z) * (val z 8 4 - val z 16 4) * (val z 4 4 - val z 12 4)) (8 * len c)).
Proof.
  pose proof v_valid as HVAL.
  destruct (C47_ratio E o c bs r ltac:(cbn in HF; intuition) HS HG HV) as (ks & y & ys & HY & HK).
  destruct (C37_consistent E o c bs HVAL HS) as (hx & hb & x & y' & ys' & B1 & B2 & B3 & B4 & C1 & C2 & C3 & _).
  rewrite HY in B4. injection B4 as <- <-.
  assert (HIH : 1 <= val x 0 4 /\ 1 <= val x 4 4 /\ 1 <= val x 8 2 <= 16384).
  { assert (HH : headers bs [hb]) by (unfold headers; rewrite B1; now repeat constructor).
    apply (valid_iff E o c bs [hb] HS HH) in HVAL as (HA & _). rewrite Forall_forall in HA.
    assert (HB : box_accepted E o (t_jp2h, hx)) by (apply HA, boxes_of_box; rewrite B1; now left).
    destruct (accepted_tests E o hx hb B2 HB) as (HAh & _). rewrite Forall_forall in HAh.
    assert (HB2 : box_accepted E o (t_ihdr, x)) by (apply HAh, boxes_of_box; rewrite B3; now left).
    apply (accepted_iff E o (BTb t_ihdr) x VNone VNone _ _ _ (fun fuel d => ihdr_says E o fuel (S d) x VNone VNone)) in HB2. apply ihdr_holds in HB2. tauto. }
  pose proof (val_range x 0 4 ltac:(lia) ltac:(lia)) as V1. pose proof (val_range x 4 4 ltac:(lia) ltac:(lia)) as V2. change (256 ^ 4) with (2 ^ 32) in *.
  assert (HLp : 0 < len c).
  { destruct c as [|b0 c0]; [|rewrite len_cons; pose proof (len_nonneg c0); lia]. exfalso. inversion HS; subst; first [discriminate HY|contradiction]. }
  assert (HB63 : 2 ^ 53 < 2 ^ 63) by (vm_compute; reflexivity).
  exists y, ys. eexists. split; [exact HY|]. split.
  - destruct v_root as (rs & ks' & HK' & HC & Hks). rewrite HC in *. cbn [node ekids] in HK. unfold node. rewrite findall_cons, flat_nil, HK, tagged_app.
    assert (HN : tagged "compressionRatio" ks = []).
    { destruct (headers_total bs) as (hs & HH). destruct (jp2_gives _ _ _ _ _ _ _ _ HS HH HG) as (rs' & HK'' & (_ & HC' & _) & _).
      rewrite HC' in HC. unfold node in HC. injection HC as HC. rewrite <- HC in HK.
      assert (HKS : ks = map r_chars rs').
      { unfold jp2_props in HK. destruct (file_ihdr hs), (file_siz bs); try (destruct (_ || _)); rewrite ?app_nil_r in HK;
        try (apply app_inj_tail in HK; destruct HK as [HK _]; now rewrite HK).
        all: exfalso; clear -HK HK''; assert (HX : In "compressionRatio" (map etag (map r_chars rs'))) by (rewrite HK, map_app, in_app_iff; right; now left);
          apply in_map_iff in HX as (e & HE & HX); apply in_map_iff in HX as (r0 & <- & HX);
          clear HK; revert HX; induction HK'' as [|b r1 bs0 rs0 (f & d & HV) _ IH]; intros HX; [destruct HX|destruct HX as [<-|HX]; [|now apply IH]];
          destruct (validate_tag _ _ _ _ _ _ _ _ _ HV) as (_ & (k & HC) & _); rewrite HC in HE; cbn [node etag] in HE; change (charRoot (BTb (fst b))) with (boxTypeOf (BTb (fst b))) in HE; pose proof (box_names (fst b)) as HB; rewrite HE in HB; cbn in HB; intuition discriminate. }
      subst ks. clear -HK''. unfold tagged. induction HK'' as [|b r1 bs0 rs0 (f & d & HV) _ IH]; [reflexivity|]. cbn [map filter].
      destruct (validate_tag _ _ _ _ _ _ _ _ _ HV) as (_ & (k & HC) & _). rewrite HC. cbn [node etag].
      destruct (String.eqb_spec (charRoot (BTb (fst b))) "compressionRatio") as [HE|_]; [|exact IH]. change (charRoot (BTb (fst b))) with (boxTypeOf (BTb (fst b))) in HE. pose proof (box_names (fst b)) as HB. rewrite HE in HB. cbn in HB. intuition discriminate. }
    rewrite HN. reflexivity.
  - cbv zeta. unfold siz_height, siz_width in *. apply ratio_text; [lia|apply sum_depths; lia|lia|lia].
Qed.

(** Codestreams *)
Definition com_elt (e : elt) : Prop := exists x p, com_props (catC E) x p /\ e = node "com" (leaves p).
Lemma cs_kids t y ry : boxTypeOf t = "contiguousCodestreamBox" -> codestream_ok E (o_format o) y -> gives E o t y VNone VNone ry ->
  exists l rest k ks cap, after m_SOT (cs_second y) l rest /\ segs_of m_COD l = k :: ks /\ holds (cod_tests k) /\ holds (siz_tests (o_format o) (cs_siz y)) /\
  (exists es, tagged "siz" (ekids (r_chars ry)) = node "siz" (leaves (siz_props cap (cs_siz y))) :: es) /\
  (exists es, tagged "cod" (ekids (r_chars ry)) = node "cod" (leaves (cod_props (o_format o) k)) :: es) /\
  Forall com_elt (tagged "com" (ekids (r_chars ry))).
Proof.
  intros Ht HOK HGy. pose proof HOK as HA. apply (cs_spec E o t y VNone VNone Ht) in HA. destruct HA as (r' & HG' & HP).
  rewrite (gives_fun _ _ _ _ _ _ _ _ HG' HGy) in *. clear HG' r'.
  destruct (cs_valid_inv E o t y VNone VNone ry Ht HGy HP) as (cap & l & rest & ps & rz & rs & ts & HFa).
  pose proof (cs_named E o "cod" m_COD Alone t y VNone VNone cap l rest ps rz rs ts ry ltac:(cbn; auto) HFa HGy) as N1.
  pose proof (cs_named E o "com" m_COM Alone t y VNone VNone cap l rest ps rz rs ts ry ltac:(cbn; auto) HFa HGy) as N2.
  destruct HOK as (l' & rest' & ps' & A1 & _ & _ & (_ & HZT) & HSEG & _ & HT2 & _).
  destruct HFa as (_ & _ & A2 & _ & _ & (_ & HZ & _) & _ & _ & (_ & HC & _)). destruct (after_unique _ _ _ _ _ _ A1 A2) as (-> & _).
  assert (HIN : In m_COD (map fst l)) by (apply (holds_in _ "foundCODMarker" _ HT2); cbn; auto).
  apply boxes_of_in in HIN. change (boxes_of m_COD l) with (segs_of m_COD l) in HIN. destruct (segs_of m_COD l) as [|k ks] eqn:EK; [contradiction|].
  exists l, rest, k, ks, cap. split; [exact A2|]. split; [exact EK|].
  split.
  { assert (HB : In (m_COD, k) l) by (apply boxes_of_box; change (In k (segs_of m_COD l)); rewrite EK; now left).
    assert (HI : In (Alone, m_COD, k) (treated main_markers l)) by (apply in_flat_map; exists (m_COD, k); split; [exact HB|now left]).
    rewrite Forall_forall in HSEG. exact (HSEG _ HI). }
  split; [exact HZT|].
  split; [rewrite HC; cbn [node ekids]; rewrite HZ; eexists; reflexivity|].
  split.
  - inversion N1 as [|? e ? es (r1 & HG1 & ->) _ HE]; subst. exists es. f_equal.
    apply (gives_closed E o (BTb m_COD) k r1 (cod_tests k) (leaves (cod_props (o_format o) k)) [] "cod"); [|exact HG1].
    intros fuel d. destruct (cod_says E o fuel (S d) k VNone VNone) as (r2 & H1 & H2 & _). exists r2. split; [exact H1|exact H2].
  - clear -N2. induction N2 as [|x e xs es (r1 & HG1 & ->) _ IH]; [constructor|]. constructor; [|exact IH].
    destruct HG1 as (f & d & HV1). destruct (com_says E o f d x VNone VNone) as (p & HPp & r2 & HV2 & (_ & HC2 & _) & _).
    apply (lift_ok E o f f d (S d)) in HV1; [|lia|lia]. change (BTb m_COM) with (BTb mCOM) in HV1. rewrite HV2 in HV1. injection HV1 as ->. exists x, p. split; [exact HPp|exact HC2].
Qed.
Lemma v_cs : exists y ys l rest k ks cap, boxes_of t_jp2c bs = y :: ys /\ after m_SOT (cs_second y) l rest /\ segs_of m_COD l = k :: ks /\
  holds (cod_tests k) /\ holds (siz_tests (o_format o) (cs_siz y)) /\
  (exists es, findall ["contiguousCodestreamBox"; "siz"] (r_chars r) = node "siz" (leaves (siz_props cap (cs_siz y))) :: es) /\
  (exists es, findall ["contiguousCodestreamBox"; "cod"] (r_chars r) = node "cod" (leaves (cod_props (o_format o) k)) :: es) /\
  Forall com_elt (findall ["contiguousCodestreamBox"; "com"] (r_chars r)).
Proof.
  destruct (C37_consistent E o c bs v_valid HS) as (_ & _ & _ & y & ys & _ & _ & _ & B4 & _).
  destruct v_root as (rs & kids & HK & HC & Hks). pose proof (g_tag E o bs rs "contiguousCodestreamBox" t_jp2c HK ltac:(repeat split; discriminate)) as HT.
  assert (HOK : forall x, In x (boxes_of t_jp2c bs) -> codestream_ok E (o_format o) x).
  { intros x HX. pose proof v_boxes as HA. rewrite Forall_forall in HA. specialize (HA (t_jp2c, x) (boxes_of_box _ _ _ HX)).
    inversion HA as [? ? HN _| | | |? HX1]; subst; [exfalso; apply HN; cbn; tauto|exact HX1]. }
  assert (HFA : forall t, findall ["contiguousCodestreamBox"; t] (r_chars r) = flat_map (fun e => tagged t (ekids e)) (tagged "contiguousCodestreamBox" (map r_chars rs))).
  { intros t. rewrite HC. unfold node. rewrite findall_cons, tagged_app, Hks, app_nil_r by discriminate. apply flat_map_ext. intros [n a v k]. rewrite findall_cons, flat_nil. reflexivity. }
  assert (HCOM : Forall com_elt (findall ["contiguousCodestreamBox"; "com"] (r_chars r))).
  { rewrite HFA. clear -HT HOK. induction HT as [|x e xs es (r1 & HG1 & ->) _ IH]; [constructor|]. cbn [flat_map]. apply Forall_app. split.
    - destruct (cs_kids (BTb t_jp2c) x r1 eq_refl (HOK x (or_introl eq_refl)) HG1) as (l & rest & k & ks & cap & _ & _ & _ & _ & _ & _ & HX). exact HX.
    - apply IH. intros x' HX'. apply HOK. now right. }
  set (TT := tagged "contiguousCodestreamBox" (map r_chars rs)) in *. clearbody TT. rewrite B4 in HT. inversion HT as [|? e ? es (r1 & HG1 & HE1) HT']; subst.
  destruct (cs_kids (BTb t_jp2c) y r1 eq_refl (HOK y ltac:(rewrite B4; now left)) HG1) as (l & rest & k & ks & cap & H1 & H2 & H3 & H4 & (e1 & H5) & (e2 & H6) & _).
  exists y, ys, l, rest, k, ks, cap. split; [exact B4|]. split; [exact H1|]. split; [exact H2|]. split; [exact H3|]. split; [exact H4|].
  split; [|split; [|exact HCOM]]; rewrite HFA; cbn [flat_map]; [rewrite H5|rewrite H6]; eexists; reflexivity.
Qed.
End Valid.
