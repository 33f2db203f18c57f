(** * Reports on files: C43, C46, C47, C55 *)

From Coq Require Import ZArith List Bool String Lia.
From Coq Require Import Init.Byte.
From Coq Require Import ZifyBool.
From Verif Require Import Py PyFloat ByteConv ETree BV VBoxes VMarkers VSuper Spec SpecBox SpecMarker
     SpecWalk SpecSuper SpecIPL SpecCS SpecFile SpecTop PBase PEmit PLeaf PLeaf2 PMarker PMarker2 PRel PWalk PSuper PSeg PWrite
     PTile PChain PCS PIPL PGrow Prop_Options PFile PTop SpecValid PValid Ex Prop_File.
Import ListNotations.
Open Scope string_scope.
Open Scope list_scope.
Open Scope Z_scope.

(** ** C46: properties in the order of the file *)

(** Tags of the boxes (documented in the user manual). *)
Definition box_tags : list (bytes * string) :=
  [ (t_jp2i, "intellectualPropertyBox"); (t_xml, "xmlBox"); (t_uuid, "uuidBox"); (t_uinf, "uuidInfoBox");
    (t_sig, "signatureBox"); (t_ftyp, "fileTypeBox"); (t_jp2h, "jp2HeaderBox"); (t_ihdr, "imageHeaderBox");
    (t_bpcc, "bitsPerComponentBox"); (t_colr, "colourSpecificationBox"); (t_pclr, "paletteBox");
    (t_cmap, "componentMappingBox"); (t_cdef, "channelDefinitionBox"); (t_res, "resolutionBox");
    (t_resc, "captureResolutionBox"); (t_resd, "displayResolutionBox"); (t_jp2c, "contiguousCodestreamBox");
    (t_ulst, "uuidListBox"); (t_url, "urlBox") ].
Definition known (t : bytes) : Prop := In t (map fst box_tags).
Definition box_tag (t : bytes) (tag : string) : Prop := In (t, tag) box_tags \/ ~ known t /\ tag = "unknownBox".

Lemma box_tag_spec t : len t = 4 -> box_tag t (boxTypeOf (BTb t)).
Proof.
  intros HL. unfold boxTypeOf, box_tag.
  assert (HM : forall m : bytes, len m = 2 -> bytes_eqb t m = false).
  { intros m Hm. apply bytes_eqb_neq. intros ->. lia. }
  unfold typeMap_b. cbn [assoc_b].
  repeat match goal with |- context [bytes_eqb t ?m] =>
    lazymatch m with
    | [_; _] => rewrite (HM m eq_refl); cbv iota
    | _ => destruct (bytes_eqb t m) eqn:?E;
       [match goal with H : bytes_eqb t m = true |- _ => apply bytes_eqb_spec in H; subst t end; left; unfold box_tags;
        repeat (try (left; reflexivity); right); fail |]
    end end.
  right. split; [|reflexivity]. unfold known. cbn [map fst box_tags In].
  repeat match goal with H : bytes_eqb t _ = false |- _ => apply bytes_eqb_neq in H end.
  intros H. repeat (destruct H as [H|H]; [match goal with HN : t <> _ |- _ => apply HN; symmetry; exact H end|]). exact H.
Qed.
Lemma gives_chars E op t c st cz r : gives E op t c st cz r -> exists k, r_chars r = node (charRoot t) k.
Proof.
  intros (f & d & H). destruct d as [|d]; [discriminate|]. rewrite validate_S in H.
  destruct (runMethod _ _ _ _ _) as [[u s]|e|]; try discriminate. injection H as <-. now eexists.
Qed.
(** One element per box, with the tag of its type, and then the compression ratio
    (if there is an Image Header box and a codestream with SIZ). *)
Theorem C46_order E op c bs r : splits c bs -> (forall b, In b bs -> len (fst b) = 4) ->
  gives E op (BTs "JP2") c VNone VNone r ->
  exists ks last, ekids (r_chars r) = ks ++ last /\ Forall2 (fun b e => box_tag (fst b) (etag e)) bs ks /\
    (last = [] \/ exists v, last = [leaf "compressionRatio" v]).
Proof.
  intros HS HL HG. destruct (headers_total bs) as (hs & HH).
  destruct (jp2_gives _ _ _ _ _ _ _ _ HS HH HG) as (rs & HR & (_ & HC & _) & _).
  exists (map r_chars rs), (jp2_props (o_format op) c bs hs). rewrite HC. split; [reflexivity|]. split.
  - clear -HR HL. induction HR as [|b r bs rs H _ IH]; [constructor|]. cbn [map]. constructor.
    + destruct (gives_chars _ _ _ _ _ _ _ H) as (k & ->). cbn [node etag charRoot isTop]. apply box_tag_spec, HL. now left.
    + apply IH. intros b' Hb. apply HL. now right.
  - unfold jp2_props. destruct (file_ihdr hs); [|now left]. destruct (file_siz bs); [|now left]. destruct (_ || _); eauto.
Qed.
Print Assumptions C46_order.
Example C46_ex : (match run "jp2" (BTs "JP2") (ex_file ++ box_bytes (Short, [x66; x6f; x6f; x20], [x01])) VNone with
   | Ok r => map etag (ekids (r_chars r)) =
      ["signatureBox"; "fileTypeBox"; "jp2HeaderBox"; "contiguousCodestreamBox"; "unknownBox"; "compressionRatio"]
   | _ => False end).
Proof. now vm_compute. Qed.
(** The order of the file also within superboxes. *)
Theorem C46_order_inside E op t c bs r : In t [t_jp2h; t_res; t_uinf] -> splits c bs -> (forall b, In b bs -> len (fst b) = 4) ->
  gives E op (BTb t) c VNone VNone r -> Forall2 (fun b e => box_tag (fst b) (etag e)) bs (ekids (r_chars r)).
Proof.
  intros Ht HS HL HG.
  assert (HX : exists rs tag, Forall2 (box_gives E op) bs rs /\ r_chars r = node tag (map r_chars rs ++ [])).
  { destruct Ht as [<-|[<-|[<-|[]]]];
      [destruct (jp2h_gives _ _ _ _ _ _ _ HS HG) as (rs & HR & (_ & HC & _) & _)
      |destruct (res_gives _ _ _ _ _ _ _ HS HG) as (rs & HR & (_ & HC & _) & _)
      |destruct (uinf_gives _ _ _ _ _ _ _ HS HG) as (rs & HR & (_ & HC & _) & _)]; eauto. }
  destruct HX as (rs & tag & HR & ->). cbn [node ekids]. rewrite app_nil_r. clear -HR HL.
  induction HR as [|b r bs rs H _ IH]; [constructor|]. cbn [map]. constructor.
  - destruct (gives_chars _ _ _ _ _ _ _ H) as (k & ->). cbn [node etag charRoot isTop]. apply box_tag_spec, HL. now left.
  - apply IH. intros b' Hb. apply HL. now right.
Qed.
Print Assumptions C46_order_inside.

(** ** C43: data at the end of a file *)
Lemma splits_app bs s bs' : Forall fits bs -> (forall b, In b bs -> fst (fst b) <> Rest) -> splits s bs' ->
  splits (List.concat (map box_bytes bs) ++ s) (map written bs ++ bs').
Proof.
  intros HF HR HS. induction HF as [|b bs Hb HF IH]; [exact HS|].
  cbn [map List.concat app]. rewrite <- app_assoc. set (w := List.concat (map box_bytes bs) ++ s) in *.
  assert (IH' : splits w (map written bs ++ bs')) by (apply IH; intros b' H'; apply HR; now right).
  pose proof (box_nonempty b w Hb) as HN. specialize (HR b (or_introl eq_refl)).
  destruct b as [[[] t] x]; cbn [fits] in Hb; unfold written at 1; cbn [fst snd] in *; [| |contradiction].
  - destruct Hb as (Ht & Hx). destruct (box_short t x w Ht Hx) as (H1 & H2 & H3 & H4 & H5).
    eapply splits_step; [exact H1|exact H2|exact H3| |exact H5|exact HN|pose proof (len_nonneg x); lia|exact IH'].
    replace (len x + 8 - 8) with (len x) by lia. exact H4.
  - destruct Hb as (Ht & Hx). destruct (box_extended t x w Ht Hx) as (H1 & H2 & H3 & H4 & H5).
    eapply splits_step; [exact H1|exact H2|exact H3| |exact H5|exact HN|pose proof (len_nonneg x); lia|exact IH'].
    replace (len x + 16 - 16) with (len x) by lia. exact H4.
Qed.
Lemma Forall2_len {A B} (R : A -> B -> Prop) l1 l2 : Forall2 R l1 l2 -> List.length l1 = List.length l2.
Proof. induction 1; cbn; congruence. Qed.
Lemma splits_some s bs : splits s bs -> s <> [] -> bs <> [].
Proof. intros H HN. inversion H; subst; congruence. Qed.
(** Data after complete boxes is not passed over in silence: the properties have at
    least one more element. *)
Theorem C43_trailing_data_shows E op bs s r : Forall fits bs -> (forall b, In b bs -> fst (fst b) <> Rest) -> s <> [] ->
  gives E op (BTs "JP2") (List.concat (map box_bytes bs) ++ s) VNone VNone r ->
  (List.length bs < List.length (ekids (r_chars r)))%nat.
Proof.
  intros HF HR HN HG. destruct (splits_total s) as (bs' & HS).
  pose proof (splits_app bs s bs' HF HR HS) as HSA. destruct (headers_total (map written bs ++ bs')) as (hs & HH).
  destruct (jp2_gives _ _ _ _ _ _ _ _ HSA HH HG) as (rs & HRS & (_ & HC & _) & _). rewrite HC. cbn [node ekids].
  apply Forall2_len in HRS. rewrite app_length, map_length in HRS. rewrite app_length, map_length, <- HRS.
  pose proof (splits_some _ _ HS HN). destruct bs'; [contradiction|cbn; lia].
Qed.
Print Assumptions C43_trailing_data_shows.
(** But the claim that such a file is invalid is false: one stray byte; a box that
    claims to be longer than what is left; a length that is too small. *)
Definition is_valid (r : res bv) : bool := match r with Ok b => match r_valid b with VBool v => v | _ => false end | _ => false end.
Lemma is_valid_valid E op fuel d c : is_valid (validate E op fuel d (BTs "JP2") c VNone VNone) = true -> valid E op c.
Proof.
  destruct (validate _ _ _ _ _ _ _ _) as [r| |] eqn:HV; try discriminate. cbn. intros H. exists r. split; [now exists fuel, d|].
  destruct (r_valid r); try discriminate. cbn in H. now subst.
Qed.
Theorem C43_trailing_data_invalid_refuted :
  Forall (fun s => s <> [] /\ valid E0 (op "jp2" false) (ex_file ++ s))
    [ [x00]; [xff; xff; xff]; [x00; x00; x01; x00; x66; x72; x65; x65; x00]; [x00; x00; x00; x05; x66; x72; x65; x65; x2a] ].
Proof.
  repeat constructor; try discriminate; apply (is_valid_valid _ _ 100 4); now vm_compute.
Qed.
Print Assumptions C43_trailing_data_invalid_refuted.

(** ** C47: the compression ratio *)

(** Height, width and component depths according to the SIZ segment [z]. *)
Definition siz_height (z : bytes) : Z := val z 8 4 - val z 16 4.
Definition siz_width (z : bytes) : Z := val z 4 4 - val z 12 4.
(** Of a valid file: from the size of the whole file, and the SIZ segment of the
    first codestream; arithmetic in doubles, one operation after another. *)
Theorem C47_ratio E op c bs r : o_format op = "jp2" \/ o_format op = "jph" -> splits c bs ->
  gives E op (BTs "JP2") c VNone VNone r -> r_valid r = VBool true ->
  exists ks y ys, boxes_of t_jp2c bs = y :: ys /\
    ekids (r_chars r) = ks ++ [leaf "compressionRatio"
      (ratio (len c) (siz_depths (cs_siz y)) (siz_height (cs_siz y)) (siz_width (cs_siz y)))].
Proof.
  intros Hf HS HG HV. destruct (headers_total bs) as (hs & HH).
  assert (Hvalid : valid E op c) by (now exists r).
  destruct (C37_consistent E op c bs Hvalid HS) as (hx & hb & x & y & ys & Hhx & Hhb & Hx & Hy & H1 & H2 & H3 & _ & _).
  destruct (jp2_gives _ _ _ _ _ _ _ _ HS HH HG) as (rs & HR & (_ & HC & _) & _).
  exists (map r_chars rs), y, ys. split; [exact Hy|]. rewrite HC. cbn [node ekids]. f_equal.
  assert (hs = [hb]) as ->.
  { unfold headers in HH. rewrite Hhx in HH. inversion HH as [|? hb' ? ? HS1 HN]; subst. inversion HN; subst.
    now rewrite (splits_unique _ _ HS1 _ Hhb). }
  pose proof (proj1 (valid_iff E op c bs [hb] HS HH) Hvalid) as (HA & HT).
  assert (HI : file_ihdr [hb] = Some x) by (unfold file_ihdr; cbn [flat_map]; rewrite Hx; reflexivity).
  assert (HSIZ : sub (cs_second y) 0 2 = m_SIZ).
  { rewrite Forall_forall in HA. assert (HAy : box_accepted E op (t_jp2c, y)) by (apply HA, boxes_of_box; rewrite Hy; now left).
    apply (cs_spec E op (BTb t_jp2c) y VNone VNone eq_refl) in HAy. destruct HAy as (l & rest & ps & _ & _ & HC1 & _).
    apply (holds_in _ "foundSIZMarker" _ HC1); cbn; auto. }
  assert (HSZ : file_siz bs = Some (cs_siz y)).
  { unfold file_siz. rewrite Hy. cbn [flat_map]. rewrite HSIZ. replace (bytes_eqb m_SIZ m_SIZ) with true by reflexivity. reflexivity. }
  unfold jp2_tests in HT. rewrite HI, HSZ in HT.
  assert (HDP : hdr_bpc cdepth x (file_bpcc [hb]) = siz_bpc cdepth (cs_siz y)).
  { apply (holds_in _ "bPCDepthConsistentWithSIZ" _ HT). rewrite !in_app_iff. right. right. right. cbn. auto 8. }
  unfold jp2_props. rewrite HI, HSZ, HDP, H1, H2.
  replace (fmt_is (o_format op) "jp2" || fmt_is (o_format op) "jph") with true by (destruct Hf as [-> | ->]; reflexivity).
  reflexivity.
Qed.
Print Assumptions C47_ratio.
Lemma cs_verdict_pass E op t c st cz r : boxTypeOf t = "contiguousCodestreamBox" -> gives E op t c st cz r ->
  r_valid r = VBool true -> all_pass (r_tests r).
Proof.
  intros Ht (f & d & HG) HV. destruct (top_verdict E op f d t c st cz r) as (b & H1 & H2); [cbn; rewrite Ht; auto|exact HG|].
  rewrite HV in H1. injection H1 as <-. now apply H2.
Qed.
(** Bare codestreams: the code uses XOsiz in place of YOsiz for the height. *)
Theorem C47_ratio_codestream E op t c st cz r : boxTypeOf t = "contiguousCodestreamBox" ->
  o_format op = "j2c" \/ o_format op = "jhc" -> gives E op t c st cz r -> r_valid r = VBool true ->
  exists ks, let z := cs_siz c in
    ekids (r_chars r) = ks ++ [leaf "compressionRatio" (ratio (len c) (siz_depths z) (val z 8 4 - val z 12 4) (siz_width z))].
Proof.
  intros Ht Hf HG HV. pose proof (cs_verdict_pass E op t c st cz r Ht HG HV) as HP.
  destruct (cs_valid_inv _ _ _ _ _ _ _ Ht HG HP) as (cap & l & rest & ps & rz & rs & ts & HF).
  destruct HF as (_ & _ & _ & _ & _ & _ & _ & _ & (_ & HC & _)). rewrite HC. cbn [node ekids].
  unfold cs_props2. replace (fmt_is (o_format op) "j2c" || fmt_is (o_format op) "jhc") with true by (destruct Hf as [-> | ->]; reflexivity).
  cbv zeta.   match goal with |- exists ks, ?a :: ?b ++ ?e ++ ?t :: _ = _ => exists (a :: b ++ e ++ [t]) end. cbv zeta.
  cbn [app]. rewrite <- !app_assoc. reflexivity.
Qed.
Print Assumptions C47_ratio_codestream.
(** So the claim is false for bare codestreams: an image of 2 x 2 pixels at YOsiz = 1
    (8 bits, 83 bytes). *)
Definition ex_offset : bytes :=
  sub ex_cs 0 15 ++ [x03] ++ sub ex_cs 16 7 ++ [x01] ++ sub ex_cs 24 7 ++ [x03] ++ skipn 32 ex_cs.
Lemma ex_ratios : ratio 83 [8] 3 2 <> ratio 83 [8] 2 2.
Proof. intros H. vm_compute in H. discriminate H. Qed.
Theorem C47_ratio_codestream_refuted : exists r ks,
  gives E0 (op "j2c" false) (BTs "contiguousCodestreamBox") ex_offset VNone VNone r /\ r_valid r = VBool true /\
  siz_height (cs_siz ex_offset) = 2 /\ siz_width (cs_siz ex_offset) = 2 /\ siz_depths (cs_siz ex_offset) = [8] /\
  ekids (r_chars r) = ks ++ [leaf "compressionRatio" (ratio 83 [8] 3 2)] /\ ratio 83 [8] 3 2 <> ratio 83 [8] 2 2.
Proof.
  destruct (validate E0 (op "j2c" false) 100 4 (BTs "contiguousCodestreamBox") ex_offset VNone VNone) as [r| |] eqn:HV;
    [|now vm_compute in HV..].
  assert (HG : gives E0 (op "j2c" false) (BTs "contiguousCodestreamBox") ex_offset VNone VNone r) by now exists 100%nat, 4%nat.
  assert (HT : r_valid r = VBool true) by (vm_compute in HV; injection HV as <-; reflexivity).
  destruct (C47_ratio_codestream E0 (op "j2c" false) (BTs "contiguousCodestreamBox") ex_offset VNone VNone r (eq_refl : boxTypeOf (BTs "contiguousCodestreamBox") = _) (or_introl eq_refl) HG HT) as (ks & HK).
  exists r, ks. split; [exact HG|]. split; [exact HT|]. do 3 (split; [now vm_compute|]). clear HG HT HV.
  split; [|exact ex_ratios]. cbv zeta in HK. rewrite HK. reflexivity.
Qed.
Print Assumptions C47_ratio_codestream_refuted.

(** ** C55: unknown boxes *)
Definition tests_eq (L L' : list (string * Prop)) : Prop := Forall2 (fun a b => fst a = fst b /\ (snd a <-> snd b)) L L'.
Lemma tests_eq_refl L : tests_eq L L.
Proof. induction L; constructor; [tauto|assumption]. Qed.
Lemma tests_eq_app L1 L2 M1 M2 : tests_eq L1 L2 -> tests_eq M1 M2 -> tests_eq (L1 ++ M1) (L2 ++ M2).
Proof. apply Forall2_app. Qed.
Lemma reports_fun v L k : reports v L k -> forall L' k', tests_eq L L' -> reports v L' k' -> k' = k.
Proof.
  induction 1 as [|n P L k HP HR IH|n P L k HP HR IH]; intros L' k' HE HR'.
  - inversion HE; subst. inversion HR'. reflexivity.
  - inversion HE as [|? (n' & P') ? L2 (HN & HPP) HE2]; subst. cbn in HN, HPP. subst n'.
    inversion HR' as [|? ? ? k2 HP2 HR2|? ? ? k2 HP2 HR2]; subst; [rewrite (IH _ _ HE2 HR2); reflexivity|tauto].
  - inversion HE as [|? (n' & P') ? L2 (HN & HPP) HE2]; subst. cbn in HN, HPP. subst n'.
    inversion HR' as [|? ? ? k2 HP2 HR2|? ? ? k2 HP2 HR2]; subst; [tauto|rewrite (IH _ _ HE2 HR2); reflexivity].
Qed.

Section Unknown.
Variables (pre post : list (bytes * bytes)) (u x : bytes).
Hypothesis HU : ~ known u.
Hypothesis HP : (2 <= List.length pre)%nat.
Let bs := pre ++ (u, x) :: post.
Let bs' := pre ++ post.

Lemma other t : In t (map fst box_tags) -> t <> u.
Proof. intros H ->. now apply HU. Qed.
Lemma in_other t : t <> u -> (In t (map fst bs) <-> In t (map fst bs')).
Proof. intros Ht. unfold bs, bs'. rewrite !map_app, !in_app_iff. cbn [map fst In]. intuition congruence. Qed.
Lemma amo_other t : t <> u -> (at_most_one t (map fst bs) <-> at_most_one t (map fst bs')).
Proof.
  intros Ht. rewrite !(at_most_one_count (list_eq_dec Byte.byte_eq_dec)). unfold bs, bs'.
  rewrite !map_app, !count_occ_app. cbn [map fst count_occ]. destruct (list_eq_dec _ u t) as [->|_]; [contradiction|]. reflexivity.
Qed.
Lemma boxes_other t : t <> u -> boxes_of t bs = boxes_of t bs'.
Proof.
  intros Ht. unfold boxes_of, bs, bs'. rewrite !filter_app, !map_app. cbn [filter fst].
  assert (HE : bytes_eqb u t = false) by (apply bytes_eqb_neq; congruence). now rewrite HE.
Qed.
Lemma nth_other i : (i < 2)%nat -> nth_error (map fst bs) i = nth_error (map fst bs') i.
Proof. intros Hi. unfold bs, bs'. rewrite !map_app, !nth_error_app1; [reflexivity|rewrite map_length; lia..]. Qed.
Lemma placed_other : t_jp2h <> u -> t_jp2c <> u -> (header_placed (map fst bs) <-> header_placed (map fst bs')).
Proof.
  intros Hh Hc. unfold header_placed. unfold bs, bs'. rewrite !map_app. cbn [map fst].
  set (p := map fst pre). set (q := map fst post). assert (HPL : (2 <= List.length p)%nat) by (unfold p; now rewrite map_length).
  clearbody p q. split.
  - intros (a & b & HE & H1 & H2 & H3 & H4). apply app_eq_app in HE as (l & [(HE1 & HE2)|(HE1 & HE2)]).
    + (* header within p *) destruct l as [|y l].
      * cbn in HE2. injection HE2 as HX _. congruence.
      * cbn in HE2. injection HE2 as <- ->. exists a, (l ++ q). subst p. split; [now rewrite <- app_assoc|]. split; [exact H1|]. split; [exact H2|].
        split; [|exact H4]. rewrite in_app_iff in *. cbn in H3. intuition congruence.
    + destruct l as [|y l].
      * cbn in HE2. injection HE2 as HX _. congruence.
      * cbn in HE2. injection HE2 as -> ->. exists (p ++ l), b. subst a. rewrite !in_app_iff in *. cbn in H1, H2.
        split; [now rewrite <- app_assoc|]. split; [tauto|]. split; [tauto|]. split; [exact H3|].
        unfold len. rewrite app_length. lia.
  - intros (a & b & HE & H1 & H2 & H3 & H4). apply app_eq_app in HE as (l & [(HE1 & HE2)|(HE1 & HE2)]).
    + destruct l as [|y l].
      * cbn in HE2. subst p. rewrite app_nil_r in *. exists (a ++ [u]), b. rewrite <- HE2. split; [now rewrite <- app_assoc|].
        rewrite !in_app_iff. cbn. split; [intuition congruence|]. split; [intuition congruence|]. split; [exact H3|].
        unfold len in *. rewrite app_length. lia.
      * cbn in HE2. injection HE2 as <- ->. exists a, (l ++ u :: q). subst p. split; [now rewrite <- app_assoc|]. split; [exact H1|]. split; [exact H2|].
        split; [|exact H4]. rewrite in_app_iff in *. cbn. tauto.
    + subst a q. exists (p ++ u :: l), b. split; [rewrite <- app_assoc; reflexivity|]. rewrite !in_app_iff in *. cbn.
      split; [intuition congruence|]. split; [intuition congruence|]. split; [exact H3|]. unfold len. rewrite app_length. lia.
Qed.
Lemma tests_other hs : tests_eq (jp2_tests bs hs) (jp2_tests bs' hs).
Proof.
  unfold jp2_tests. cbv zeta.
  assert (O : forall t, In t [t_sig; t_ftyp; t_jp2h; t_jp2c; t_jp2i] -> t <> u).
  { intros t Ht. apply other. cbn in Ht. destruct Ht as [<-|[<-|[<-|[<-|[<-|[]]]]]]; cbn; auto 25. }
  assert (HSZ : file_siz bs = file_siz bs') by (unfold file_siz; rewrite boxes_other by (apply O; cbn; auto 8); reflexivity).
  rewrite HSZ. repeat apply tests_eq_app.
  - repeat constructor; cbn [snd]; apply in_other, O; cbn; auto 8.
  - destruct (file_ihdr hs); [|constructor]. destruct (_ =? _); [|constructor]. repeat constructor; cbn [snd]; apply in_other, O; cbn; auto 8.
  - rewrite !nth_other by lia. constructor; [cbn; tauto|]. constructor; [cbn; tauto|].
    constructor; [split; [reflexivity|]; apply placed_other; apply O; cbn; auto 8|].
    repeat constructor; cbn [snd]; apply amo_other, O; cbn; auto 8.
  - apply tests_eq_refl.
Qed.
Lemma headers_other hs : headers bs hs <-> headers bs' hs.
Proof. unfold headers. rewrite boxes_other; [reflexivity|]. apply other. cbn. auto 25. Qed.
Lemma props_other fmt c hs : exists p p', jp2_props fmt c bs hs = p /\ forall c', jp2_props fmt c' bs' hs = p' c'.
Proof. exists (jp2_props fmt c bs hs), (fun c' => jp2_props fmt c' bs' hs). auto. Qed.
End Unknown.

Lemma unknown_type u : len u = 4 -> ~ known u -> boxTypeOf (BTb u) = "unknownBox".
Proof.
  intros HL HU. destruct (box_tag_spec u HL) as [H|(_ & H)]; [|exact H].
  exfalso. apply HU. unfold known. apply in_map_iff. exists (u, boxTypeOf (BTb u)). auto.
Qed.
(** Root boxes [pre ++ post], with and without a box of unknown type in between: the
    analysis ends with a report in both cases or in neither. *)
Theorem C55_unknown_ends E op c c' pre post u x : len u = 4 -> ~ known u -> (2 <= List.length pre)%nat ->
  splits c (pre ++ (u, x) :: post) -> splits c' (pre ++ post) ->
  ((exists r, gives E op (BTs "JP2") c VNone VNone r) <-> (exists r', gives E op (BTs "JP2") c' VNone VNone r')).
Proof.
  intros HL HU HP HS HS'. destruct (headers_total (pre ++ post)) as (hs & HH').
  pose proof (proj2 (headers_other pre post u x HU hs) HH') as HH.
  destruct (unknown_says E op O O u x VNone VNone (unknown_type u HL HU)) as (ru & HVu & _).
  assert (HGu : box_gives E op (u, x) ru) by (now exists O, 1%nat).
  split; intros (r & HG).
  - destruct (jp2_gives _ _ _ _ _ _ _ _ HS HH HG) as (rs & HR & _). apply Forall2_app_inv_l in HR as (r1 & r2 & H1 & H2 & ->).
    inversion H2 as [|? ? ? r2' H3 H4]; subst. destruct (jp2_fwd E op c' VNone VNone _ hs (r1 ++ r2') HS' HH') as (r' & HG' & _); [now apply Forall2_app|eauto].
  - destruct (jp2_gives _ _ _ _ _ _ _ _ HS' HH' HG) as (rs & HR & _). apply Forall2_app_inv_l in HR as (r1 & r2 & H1 & H2 & ->).
    destruct (jp2_fwd E op c VNone VNone _ hs (r1 ++ ru :: r2) HS HH) as (r' & HG' & _); [apply Forall2_app; [exact H1|now constructor]|eauto].
Qed.
Print Assumptions C55_unknown_ends.
(** The tests and the verdict are the same; properties and warnings have one more
    element, in the place of the box.  (The compression ratio at the end of the
    properties changes with the size of the file.) *)
Theorem C55_unknown_ignored E op c c' pre post u x r r' : len u = 4 -> ~ known u -> (2 <= List.length pre)%nat ->
  splits c (pre ++ (u, x) :: post) -> splits c' (pre ++ post) ->
  gives E op (BTs "JP2") c VNone VNone r -> gives E op (BTs "JP2") c' VNone VNone r' ->
  r_tests r = r_tests r' /\ r_valid r = r_valid r' /\
  (exists k1 k2 p p', List.length k1 = List.length pre /\ List.length k2 = List.length post /\
     ekids (r_chars r') = k1 ++ k2 ++ p' /\
     ekids (r_chars r) = k1 ++ node "unknownBox" [leaf "boxType" (VBytes u)] :: k2 ++ p /\
     map etag p = map etag p') /\
  (exists w1 w2, ekids (r_warns r') = w1 ++ w2 /\
     ekids (r_warns r) = w1 ++ node "unknownBox" [leaf "warning" (VStr (pys "ignoring unknown box '" ++ bytesToText (catC E) u ++ pys "'"))] :: w2).
Proof.
  intros HL HU HP HS HS' HG HG'. destruct (headers_total (pre ++ post)) as (hs & HH').
  pose proof (proj2 (headers_other pre post u x HU hs) HH') as HH.
  destruct (unknown_says E op O O u x VNone VNone (unknown_type u HL HU)) as (ru & HVu & HSu & _).
  assert (HGu : box_gives E op (u, x) ru) by (now exists O, 1%nat).
  destruct (jp2_gives _ _ _ _ _ _ _ _ HS HH HG) as (rs & HR & ((k & HT & HK) & HC & HW) & _ & (b & HV & HB) & _).
  destruct (jp2_gives _ _ _ _ _ _ _ _ HS' HH' HG') as (rs' & HR' & ((k' & HT' & HK') & HC' & HW') & _ & (b' & HV' & HB') & _).
  apply Forall2_app_inv_l in HR as (r1 & r2 & H1 & H2 & ->). inversion H2 as [|? ru' ? r2' H3 H4]; subst.
  assert (ru' = ru) as -> by exact (gives_fun _ _ _ _ _ _ _ _ H3 HGu).
  apply Forall2_app_inv_l in HR' as (s1 & s2 & G1 & G2 & ->).
  assert (HF : forall (l : list (bytes * bytes)) a b, Forall2 (box_gives E op) l a -> Forall2 (box_gives E op) l b -> a = b).
  { induction l as [|y l IH]; intros ? ? HA HB0; inversion HA; inversion HB0; subst; [reflexivity|].
    f_equal; [eapply gives_fun; eassumption|now apply IH]. }
  assert (s1 = r1) as -> by (now apply (HF pre)). assert (s2 = r2') as -> by (now apply (HF post)).
  destruct HSu as ((ku & HTu & HKu) & HCu & HWu). inversion HKu; subst ku.
  rewrite (unknown_type u HL HU) in *. 
  assert (HTT : r_tests r = r_tests r').
  { rewrite HT, HT'. f_equal. f_equal; [|symmetry; exact (reports_fun _ _ _ HK _ _ (tests_other pre post u x HU HP hs) HK')].
    rewrite !map_app. unfold filled. rewrite !filter_app. cbn [map filter]. rewrite HTu. reflexivity. }
  split; [exact HTT|]. split; [|split].
  - rewrite HV, HV'. f_equal. rewrite HTT in HB. destruct b, b'; try reflexivity; [symmetry; tauto|tauto].
  - exists (map r_chars r1), (map r_chars r2'), (jp2_props (o_format op) c (pre ++ (u, x) :: post) hs), (jp2_props (o_format op) c' (pre ++ post) hs).
    rewrite !map_length. rewrite <- (Forall2_len _ _ _ H1), <- (Forall2_len _ _ _ H4). split; [reflexivity|]. split; [reflexivity|].
    rewrite HC, HC'. cbn [node ekids]. rewrite !map_app. cbn [map]. rewrite HCu. rewrite <- !app_assoc. split; [reflexivity|]. split; [reflexivity|].
    unfold jp2_props. replace (file_siz (pre ++ (u, x) :: post)) with (file_siz (pre ++ post)).
    + destruct (file_ihdr hs); [|reflexivity]. destruct (file_siz _); [|reflexivity]. destruct (_ || _); reflexivity.
    + unfold file_siz. rewrite (boxes_other pre post u x); [reflexivity|]. apply (other u HU). cbn. auto 25.
  - exists (filled (map r_warns r1)), (filled (map r_warns r2')). rewrite HW, HW'. cbn [node ekids]. rewrite !map_app. unfold filled.
    rewrite !filter_app. cbn [map filter]. rewrite HWu. cbn [node ekids]. auto.
Qed.
Print Assumptions C55_unknown_ignored.
(** The warning remains when the box comes first or second, but then the file is
    no longer valid. *)
Example C55_ex :
  let b := box_bytes (Short, [x66; x6f; x6f; x20], [x01]) in
  ~ known [x66; x6f; x6f; x20] /\
  is_valid (run "jp2" (BTs "JP2") (ex_sig ++ ex_ftyp ++ b ++ ex_jp2h ++ ex_jp2c) VNone) = true /\
  is_valid (run "jp2" (BTs "JP2") (ex_sig ++ b ++ ex_ftyp ++ ex_jp2h ++ ex_jp2c) VNone) = false.
Proof. split; [cbn; intuition discriminate|]. now vm_compute. Qed.
