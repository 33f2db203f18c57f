(** * Whole reports: C10, C18, C19, C54, C60 *)

From Coq Require Import ZArith List Bool String Lia.
From Coq Require Import Init.Byte.
From Coq Require Import ZifyBool.
From Verif Require Import Py PyFloat ByteConv ETree BV VBoxes VMarkers VSuper Spec SpecBox SpecMarker
     SpecWalk SpecSuper SpecIPL SpecCS SpecFile SpecTop PBase PEmit PLeaf PLeaf2 PMarker PMarker2 PRel PWalk PSuper PSeg PWrite
     PTile PChain PCS PIPL PGrow Prop_Options PFile PTop SpecValid PValid PEnds PLoop Ex Prop_IPL Prop_Walk.
Import ListNotations.
Open Scope string_scope.
Open Scope list_scope.
Open Scope Z_scope.

(** ** C18: boxes *)

(** Boxes written one after another, with headers of any form, are the boxes the
    code sees ([C13_loop_ends] says what the walk does with them). *)
Theorem C18_boxes_read_back bs : Forall fits bs -> rest_last bs ->
  splits (List.concat (map box_bytes bs)) (map (fun b => (snd (fst b), snd b)) bs) /\
  forall bs', splits (List.concat (map box_bytes bs)) bs' -> bs' = map (fun b => (snd (fst b), snd b)) bs.
Proof.
  intros HF HR. pose proof (splits_written bs HF HR) as H. split; [exact H|].
  intros bs' H'. exact (splits_unique _ _ H' _ H).
Qed.
Print Assumptions C18_boxes_read_back.

(** [framed r rs]: the report [r] has the reports [rs] in order: all their
    properties, and the tests and warnings of those that have any. *)
Definition framed (r : bv) (rs : list bv) : Prop :=
  (exists k, ekids (r_tests r) = filled (map r_tests rs) ++ k) /\
  (exists k, ekids (r_chars r) = map r_chars rs ++ k) /\
  ekids (r_warns r) = filled (map r_warns rs).
Lemma container_gives E op t c bs r : container t -> splits c bs -> gives E op t c VNone VNone r ->
  exists rs, Forall2 (box_gives E op) bs rs /\ framed r rs.
Proof.
  intros Ht HS HG.
  assert (HX : forall ttag ctag wtag rs L p, super_says (o_verbose op) ttag ctag wtag rs L p r -> framed r rs).
  { unfold framed. intros ttag ctag wtag rs L p ((k & -> & _) & -> & ->). cbn [node ekids]. repeat split; eauto. }
  destruct Ht as [->|(s & -> & [<-|[<-|[<-|[]]]])].
  - destruct (headers_total bs) as (hs & HH). destruct (jp2_gives _ _ _ _ _ _ _ _ HS HH HG) as (rs & HR & H & _). eauto.
  - destruct (jp2h_gives _ _ _ _ _ _ _ HS HG) as (rs & HR & H & _). eauto.
  - destruct (res_gives _ _ _ _ _ _ _ HS HG) as (rs & HR & H & _). eauto.
  - destruct (uinf_gives _ _ _ _ _ _ _ HS HG) as (rs & HR & H & _). eauto.
Qed.
(** The report on a file (or superbox) that is made of these boxes consists of the
    reports on each of them, and what follows from looking at all of them. *)
Theorem C18_boxes_reported E op t bs r : container t -> Forall fits bs -> rest_last bs ->
  gives E op t (List.concat (map box_bytes bs)) VNone VNone r ->
  exists rs, Forall2 (fun b r => gives E op (BTb (snd (fst b))) (snd b) VNone VNone r) bs rs /\ framed r rs.
Proof.
  intros Ht HF HR HG. destruct (container_gives _ _ _ _ _ _ Ht (splits_written bs HF HR) HG) as (rs & H & HFR).
  exists rs. split; [|exact HFR]. clear -H. revert rs H.
  induction bs as [|b bs IH]; intros rs H; inversion H; subst; constructor; auto.
Qed.
Print Assumptions C18_boxes_reported.
Definition ex_forms : list (form * bytes * bytes) :=
  [(Short, t_sig, [x0d; x0a; x87; x0a]); (Extended, t_ftyp, skipn 8 ex_ftyp);
   (Extended, t_jp2h, skipn 8 ex_jp2h); (Rest, t_jp2c, ex_cs)].
Example C18_ex : Forall fits ex_forms /\ rest_last ex_forms /\
  (match run "jp2" (BTs "JP2") (List.concat (map box_bytes ex_forms)) VNone with
   | Ok r => r_valid r = VBool true /\
       map etag (ekids (r_chars r)) = ["signatureBox"; "fileTypeBox"; "jp2HeaderBox"; "contiguousCodestreamBox"; "compressionRatio"]
   | _ => False end).
Proof.
  split; [|split; [|now vm_compute]].
  - repeat constructor.
  - intros pre t x post H. destruct pre as [|a [|b [|d [|e pre]]]]; injection H; intros; subst; try discriminate; try reflexivity.
    destruct pre; discriminate.
Qed.

(** ** C19: marker segments *)
Theorem C19_segments_read_back z l s : seg_fits (m_SIZ, z) -> Forall seg_fits l -> ~ In m_SOT (map fst l) ->
  sub s 0 2 = m_SOT ->
  let c := m_SOC ++ seg_bytes (m_SIZ, z) ++ List.concat (map seg_bytes l) ++ s in
  sub (cs_second c) 0 2 = m_SIZ /\ cs_siz c = be 2 (len z + 2) ++ z /\
  forall l' r', after m_SOT (cs_second c) l' r' ->
    l' = map (fun p => (fst p, be 2 (len (snd p) + 2) ++ snd p)) l /\ r' = Some s.
Proof.
  intros Hz HF HN HS c. assert (HC : c = header_bytes z l ++ s) by (unfold c, header_bytes; now rewrite <- !app_assoc).
  destruct (header_written z l s Hz HF HN HS) as (_ & H1 & H2 & H3). rewrite <- HC in H1, H2, H3.
  split; [exact H1|]. split; [exact H2|]. intros l' r' H. exact (after_unique _ _ _ _ _ _ H H3).
Qed.
Print Assumptions C19_segments_read_back.
(** The report on the codestream has the reports on SIZ and on those of the other
    segments that the code knows; the tile parts start at [s]. *)
Theorem C19_segments_reported E op t z l s st cz r : boxTypeOf t = "contiguousCodestreamBox" ->
  seg_fits (m_SIZ, z) -> Forall seg_fits l -> ~ In m_SOT (map fst l) -> sub s 0 2 = m_SOT ->
  let c := m_SOC ++ seg_bytes (m_SIZ, z) ++ List.concat (map seg_bytes l) ++ s in
  let known := treated main_markers (map (fun p => (fst p, be 2 (len (snd p) + 2) ++ snd p)) l) in
  (exists ps, chain (cs_tiles c) c (len c - len s) ps) ->
  gives E op t c st cz r ->
  exists rz rs ps ts k1 k2 k3,
    gives E op (BTb m_SIZ) (be 2 (len z + 2) ++ z) VNone VNone rz /\
    Forall2 (seg_gives E op (cs_csiz c)) known rs /\
    chain (cs_tiles c) c (len c - len s) ps /\ Forall2 (tile_of E op c (cs_csiz c)) ps ts /\
    ekids (r_tests r) = k1 ++ filled (r_tests rz :: map r_tests rs) ++ k2 ++
                        filled [node "tileParts" (filled (map r_tests ts))] ++ k3 /\
    ekids (r_chars r) = r_chars rz :: shown (o_packet op) known rs ++
      leaves [ ("ppmCount", VInt (len (segs_of m_PPM l))); ("plmCount", VInt (len (segs_of m_PLM l))) ] ++
      node "tileParts" (map r_chars ts) :: cs_props2 (o_format op) c.
Proof.
  intros Ht Hz HF HN HS c known (ps & HPS) HG.
  assert (HC : c = header_bytes z l ++ s) by (unfold c, header_bytes; now rewrite <- !app_assoc).
  destruct (header_written z l s Hz HF HN HS) as (_ & H1 & H2 & H3). rewrite <- HC in H1, H2, H3.
  destruct (cs_gives E op t c st cz _ _ ps r Ht H1 H3 HPS HG) as (cap & rz & rs & ts & HX).
  destruct HX as (_ & _ & _ & _ & HZ & _ & HR & HT & ((k1 & k2 & k3 & HT1 & _) & HT2 & _)).
  rewrite H2 in HZ. exists rz, rs, ps, ts, k1, k2, k3. rewrite HT1, HT2. cbn [node ekids].
  split; [exact HZ|]. split; [exact HR|]. split; [exact HPS|]. split; [exact HT|]. split; [reflexivity|].
  assert (HSO : forall m, len (segs_of m (bodies l)) = len (segs_of m l)).
  { intros m. unfold segs_of, bodies, len. rewrite !map_length. f_equal. clear.
    induction l as [|p l IH]; [reflexivity|]. cbn [map filter fst]. destruct (bytes_eqb (fst p) m); cbn [List.length]; now rewrite IH. }
  rewrite !HSO. reflexivity.
Qed.
Print Assumptions C19_segments_reported.
(** An unknown marker (FF 30) is passed over; COC and COM are looked at. *)
Definition ex_segs : list (bytes * bytes) :=
  [(m_COM, [x00; x01; x41]); (m_COD, sub ex_mainhdr 49 10); ([xff; x70], [xff; x90]); (m_QCD, sub ex_mainhdr 63 2)].
Definition ex_seg_cs : bytes :=
  m_SOC ++ seg_bytes (m_SIZ, sub ex_mainhdr 6 39) ++ List.concat (map seg_bytes ex_segs) ++ ex_tile ++ m_EOC.
Example C19_ex : seg_fits (m_SIZ, sub ex_mainhdr 6 39) /\ Forall seg_fits ex_segs /\ ~ In m_SOT (map fst ex_segs) /\
  chain (cs_tiles ex_seg_cs) ex_seg_cs (len ex_seg_cs - len (ex_tile ++ m_EOC)) [78] /\
  (match run "j2c" (BTs "contiguousCodestreamBox") ex_seg_cs VNone with
   | Ok r => r_valid r = VBool true /\
       map etag (ekids (r_chars r)) = ["siz"; "com"; "cod"; "qcd"; "ppmCount"; "plmCount"; "tileParts"; "compressionRatio"]
   | _ => False end).
Proof.
  split; [repeat constructor|]. split; [repeat constructor|]. split; [cbn; intuition discriminate|].
  split; [|now vm_compute]. change (len ex_seg_cs - len (ex_tile ++ m_EOC)) with 78.
  apply chain_next; [now vm_compute|reflexivity|now vm_compute|now vm_compute|].
  apply chain_end; [now vm_compute|now vm_compute].
Qed.

(** ** C54: what is said about a box depends on nothing else *)

Lemma filled_in e l : In e l -> In e (filled l) \/ ekids e = [].
Proof.
  intros H. destruct (ekids e) as [|a k] eqn:EK; [now right|]. left. apply filter_In. split; [exact H|]. now rewrite EK.
Qed.
Lemma within_in e x t : In x (ekids t) -> within e x -> within e t.
Proof. destruct t as [tag a v k]. cbn. intros H1 H2. now apply within_kid with x. Qed.
Lemma Forall2_in_r {A B} (R : A -> B -> Prop) l1 l2 a : Forall2 R l1 l2 -> In a l1 -> exists b, In b l2 /\ R a b.
Proof. induction 1 as [|x y l1 l2 H _ IH]; [intros []|]. intros [->|HI]; [exists y; split; [now left|auto]|]. destruct (IH HI) as (b & H1 & H2). exists b. split; [now right|auto]. Qed.

(** A report [r'] is part of report [r].  (Elements without children are left out
    of the tests: a box without failed tests, unless [verbose].) *)
Definition part_of (r' r : bv) : Prop :=
  within (r_chars r') (r_chars r) /\ (within (r_tests r') (r_tests r) \/ ekids (r_tests r') = []).
Lemma framed_in r rs r' : framed r rs -> In r' rs -> part_of r' r.
Proof.
  intros ((k & HT) & (k' & HC) & _) HI. split.
  - apply within_in with (r_chars r'); [|constructor]. rewrite HC. apply in_or_app. left. now apply in_map.
  - destruct (filled_in (r_tests r') (map r_tests rs)) as [H|H]; [now apply in_map| |now right].
    left. apply within_in with (r_tests r'); [|constructor]. rewrite HT. apply in_or_app. now left.
Qed.
Lemma within_trans a b c : within a b -> within b c -> within a c.
Proof. intros H1 H2. induction H2 as [|tag v w k x HI _ IH]; [exact H1|]. now apply within_kid with x. Qed.
Lemma within_empty a b : within a b -> ekids b = [] -> a = b.
Proof. intros H HE. destruct H as [|tag v w k x HI _]; [reflexivity|]. cbn in HE. subst k. destruct HI. Qed.
Lemma part_trans a b c : part_of a b -> part_of b c -> part_of a c.
Proof.
  intros (H1 & H2) (H3 & H4). split; [now apply within_trans with (r_chars b)|].
  destruct H2 as [H2|H2]; [|now right]. destruct H4 as [H4|H4]; [left; now apply within_trans with (r_tests b)|].
  right. now rewrite (within_empty _ _ H2 H4).
Qed.

(** For every box in the file, at any depth: its report is the one that its type and
    contents alone lead to, and that report is part of the report on the file. *)
Theorem C54_boxes_local E op t c b r : container t -> inbox c b -> gives E op t c VNone VNone r ->
  exists r', gives E op (BTb (fst b)) (snd b) VNone VNone r' /\ part_of r' r.
Proof.
  intros Ht Hb. revert t r Ht. induction Hb as [bs b HS Hb|s y bs b _ IH Hs HS Hb]; intros t r Ht HG.
  - destruct (container_gives _ _ _ _ _ _ Ht HS HG) as (rs & HR & HF).
    destruct (Forall2_in_r _ _ _ _ HR Hb) as (r' & HI & H). exists r'. split; [exact H|]. now apply framed_in with rs.
  - destruct (IH t r Ht HG) as (ry & HGy & HP). cbn [fst snd] in HGy.
    destruct (container_gives E op (BTb s) y bs ry) as (rs & HR & HF); [right; now exists s|exact HS|exact HGy|].
    destruct (Forall2_in_r _ _ _ _ HR Hb) as (r' & HI & H). exists r'. split; [exact H|].
    apply part_trans with ry; [now apply framed_in with rs|exact HP].
Qed.
Print Assumptions C54_boxes_local.
(** So two files that both have the box say the same about it. *)
Theorem C54_boxes_same E op c1 c2 b r1 r2 : inbox c1 b -> inbox c2 b ->
  gives E op (BTs "JP2") c1 VNone VNone r1 -> gives E op (BTs "JP2") c2 VNone VNone r2 ->
  exists r', part_of r' r1 /\ part_of r' r2 /\ gives E op (BTb (fst b)) (snd b) VNone VNone r'.
Proof.
  intros H1 H2 G1 G2. destruct (C54_boxes_local E op _ c1 b r1 (or_introl eq_refl) H1 G1) as (a & GA & PA).
  destruct (C54_boxes_local E op _ c2 b r2 (or_introl eq_refl) H2 G2) as (a' & GA' & PA').
  rewrite (gives_fun _ _ _ _ _ _ _ _ GA' GA) in PA'. eauto.
Qed.
Print Assumptions C54_boxes_same.
(** The same for the marker segments of a codestream and its tile parts, given the
    number of components. *)
Theorem C54_segments_local E op t c st cz l rest ps r : boxTypeOf t = "contiguousCodestreamBox" ->
  sub (cs_second c) 0 2 = m_SIZ -> after m_SOT (cs_second c) l rest -> parts c rest ps -> gives E op t c st cz r ->
  (forall x, In x (treated main_markers l) -> exists r', seg_gives E op (cs_csiz c) x r' /\
     ((fst (fst x) = PacketMarker -> o_packet op = true) -> within (r_chars r') (r_chars r)) /\
     (within (r_tests r') (r_tests r) \/ ekids (r_tests r') = [])) /\
  (forall p, In p ps -> exists r', tile_of E op c (cs_csiz c) p r' /\ part_of r' r).
Proof.
  intros Ht HSIZ HA HPS HG. destruct (cs_gives E op t c st cz l rest ps r Ht HSIZ HA HPS HG) as (cap & rz & rs & ts & HX).
  destruct HX as (_ & _ & _ & _ & HZ & _ & HR & HT & ((k1 & k2 & k3 & HT1 & _) & HT2 & _)). split.
  - intros x Hx. clear HT HG. assert (HI : exists r', In r' rs /\ seg_gives E op (cs_csiz c) x r' /\
        ((fst (fst x) = PacketMarker -> o_packet op = true) -> In (r_chars r') (shown (o_packet op) (treated main_markers l) rs))).
    { clear -HR Hx. induction HR as [|y r' ys rs H HR IH]; [destruct Hx|]. unfold shown. cbn [combine flat_map].
      destruct Hx as [->|Hx].
      - exists r'. split; [now left|]. split; [exact H|]. intros HP. apply in_or_app. left.
        destruct x as ((k & m) & x). cbn [fst] in HP. destruct k; try (now left). rewrite HP by reflexivity. now left.
      - destruct (IH Hx) as (r0 & H1 & H2 & H3). exists r0. split; [now right|]. split; [exact H2|]. intros HP.
        apply in_or_app. right. now apply H3. }
    destruct HI as (r' & H1 & H2 & H3). exists r'. split; [exact H2|]. split.
    + intros HP. apply within_in with (r_chars r'); [|constructor]. rewrite HT2. cbn [node ekids]. right. apply in_or_app. left. auto.
    + destruct (filled_in (r_tests r') (r_tests rz :: map r_tests rs)) as [H|H]; [right; now apply in_map| |now right].
      left. apply within_in with (r_tests r'); [|constructor]. rewrite HT1. cbn [node ekids].
      apply in_or_app. right. apply in_or_app. now left.
  - intros p Hp. destruct (Forall2_in_r _ _ _ _ HT Hp) as (r' & HI & H). exists r'. split; [exact H|]. split.
    + apply within_in with (node "tileParts" (map r_chars ts)).
      * rewrite HT2. cbn [node ekids]. right. apply in_or_app. right. cbn [leaves map app]. do 2 right. now left.
      * apply within_in with (r_chars r'); [|constructor]. cbn [node ekids]. now apply in_map.
    + destruct (filled_in (r_tests r') (map r_tests ts)) as [HF|HF]; [now apply in_map| |now right]. left.
      apply within_in with (node "tileParts" (filled (map r_tests ts))).
      * rewrite HT1. cbn [node ekids]. do 3 (apply in_or_app; right). apply in_or_app. left. apply filter_In. split; [now left|].
        cbn [node ekids]. destruct (filled (map r_tests ts)) as [|a k]; [destruct HF|reflexivity].
      * apply within_in with (r_tests r'); [exact HF|constructor].
Qed.
Print Assumptions C54_segments_local.
Example C54_ex : inbox ex_file (t_ihdr, sub ex_jp2h 16 14) /\
  exists r, gives E0 (op "jp2" false) (BTs "JP2") ex_file VNone VNone r /\ r_valid r = VBool true.
Proof.
  split.
  - eapply (inbox_in _ t_jp2h (skipn 8 ex_jp2h) [(t_ihdr, sub ex_jp2h 16 14); (t_colr, sub ex_jp2h 38 7)]).
    + apply (inbox_here _ [(t_sig, skipn 8 ex_sig); (t_ftyp, skipn 8 ex_ftyp); (t_jp2h, skipn 8 ex_jp2h); (t_jp2c, ex_cs)]).
      * repeat (eapply splits_step; [reflexivity..|discriminate|reflexivity|]). constructor.
      * cbn. tauto.
    + now left.
    + repeat (eapply splits_step; [reflexivity..|discriminate|reflexivity|]). constructor.
    + now left.
  - destruct (validate E0 (op "jp2" false) 100 4 (BTs "JP2") ex_file VNone VNone) as [r| |] eqn:HV; [|now vm_compute in HV..].
    exists r. split; [now exists 100%nat, 4%nat|]. vm_compute in HV. injection HV as <-. reflexivity.
Qed.

(** ** C10: the verdict *)

Theorem C10_verdict E op t c st cz r : boxTypeOf t = "contiguousCodestreamBox" \/ boxTypeOf t = "JP2" ->
  gives E op t c st cz r -> exists b, r_valid r = VBool b /\ (b = true <-> all_pass (r_tests r)).
Proof.
  intros Ht (f & d & HV). apply (top_verdict E op f d t c st cz r); [|exact HV]. cbn. destruct Ht as [-> | ->]; auto.
Qed.
Print Assumptions C10_verdict.
(** A valid file has no box, at any depth, for which a test failed. *)
Lemma pass_within r' r : part_of r' r -> all_pass (r_tests r) -> etext (r_tests r') <> VBool false -> all_pass (r_tests r').
Proof.
  intros (_ & [H|H]) HP HT e He; [apply HP; now apply within_trans with (r_tests r')|].
  now rewrite (within_empty _ _ He H).
Qed.
Theorem C10_nested_boxes E op c b r : inbox c b -> gives E op (BTs "JP2") c VNone VNone r -> r_valid r = VBool true ->
  exists r', gives E op (BTb (fst b)) (snd b) VNone VNone r' /\ all_pass (r_tests r').
Proof.
  intros Hb HG HV. destruct (C10_verdict E op (BTs "JP2") c VNone VNone r (or_intror eq_refl) HG) as (v & H1 & H2).
  rewrite HV in H1. injection H1 as <-. assert (HP : all_pass (r_tests r)) by now apply H2.
  destruct (C54_boxes_local E op _ c b r (or_introl eq_refl) Hb HG) as (r' & HG' & HPart). exists r'. split; [exact HG'|].
  apply pass_within with r; [exact HPart|exact HP|]. destruct (gives_node _ _ _ _ _ _ _ HG') as (k & ->). discriminate.
Qed.
Print Assumptions C10_nested_boxes.
(** A valid codestream has no marker segment and no tile part for which one failed. *)
Theorem C10_nested_segments E op t c st cz l rest ps r : boxTypeOf t = "contiguousCodestreamBox" ->
  after m_SOT (cs_second c) l rest -> parts c rest ps -> gives E op t c st cz r -> r_valid r = VBool true ->
  (forall x, In x (treated main_markers l) -> exists r', seg_gives E op (cs_csiz c) x r' /\ all_pass (r_tests r')) /\
  (forall p, In p ps -> exists r', tile_of E op c (cs_csiz c) p r' /\ all_pass (r_tests r')).
Proof.
  intros Ht HA HPS HG HV. destruct (C10_verdict E op _ _ _ _ r (or_introl Ht) HG) as (v & H1 & H2).
  rewrite HV in H1. injection H1 as <-. assert (HP : all_pass (r_tests r)) by now apply H2.
  assert (HSIZ : sub (cs_second c) 0 2 = m_SIZ).
  { destruct (cs_valid_inv _ _ _ _ _ _ _ Ht HG HP) as (cap & l' & rest' & ps' & rz & rs & ts & HF). apply HF. }
  destruct (C54_segments_local E op t c st cz l rest ps r Ht HSIZ HA HPS HG) as (HS & HT). split.
  - intros x Hx. destruct (HS x Hx) as (r' & HG' & _ & HW). exists r'. split; [exact HG'|].
    destruct (gives_node _ _ _ _ _ _ _ HG') as (k & HK). intros e He. destruct HW as [HW|HW].
    + apply HP. now apply within_trans with (r_tests r').
    + rewrite (within_empty _ _ He HW), HK. discriminate.
  - intros p Hp. destruct (HT p Hp) as (r' & HG' & HPart). exists r'. split; [exact HG'|].
    apply pass_within with r; [exact HPart|exact HP|]. destruct (gives_node _ _ _ _ _ _ _ HG') as (k & ->). discriminate.
Qed.
Print Assumptions C10_nested_segments.
(** A wrong compression type (byte 11 of the Image Header box) makes the file invalid. *)
Definition ex_bad : bytes := sub ex_file 0 59 ++ [x08] ++ skipn 60 ex_file.
Example C10_ex : (match run "jp2" (BTs "JP2") ex_bad VNone with
  | Ok r => r_valid r = VBool false /\ r_tests r = node "tests" [node "jp2HeaderBox" [node "imageHeaderBox" [leaf "cIsValid" (VBool false)]]]
  | _ => False end).
Proof. now vm_compute. Qed.

(** ** C60: when a file is reported valid *)
Theorem C60_file E op c : len c < 2 ^ 53 ->
  ((exists r, gives E op (BTs "JP2") c VNone VNone r /\ r_valid r = VBool true) <-> file_ok E (o_format op) c).
Proof.
  intros HC. rewrite <- (file_spec E op c HC). unfold accepted. split; intros (r & HG & H); exists r; (split; [exact HG|]);
    destruct (C10_verdict E op (BTs "JP2") c VNone VNone r (or_intror eq_refl) HG) as (b & H1 & H2).
  - rewrite H in H1. injection H1 as <-. now apply H2.
  - rewrite H1. f_equal. now apply H2.
Qed.
Print Assumptions C60_file.
Theorem C60_codestream E op t c st cz : boxTypeOf t = "contiguousCodestreamBox" ->
  ((exists r, gives E op t c st cz r /\ r_valid r = VBool true) <-> codestream_ok E (o_format op) c).
Proof.
  intros Ht. rewrite <- (cs_spec E op t c st cz Ht). unfold accepted. split; intros (r & HG & H); exists r; (split; [exact HG|]);
    destruct (C10_verdict E op _ _ _ _ r (or_introl Ht) HG) as (b & H1 & H2).
  - rewrite H in H1. injection H1 as <-. now apply H2.
  - rewrite H1. f_equal. now apply H2.
Qed.
Print Assumptions C60_codestream.
Example C60_ex : file_ok E0 "jp2" ex_file /\ codestream_ok E0 "j2c" ex_cs /\ ~ file_ok E0 "jp2" ex_bad.
Proof.
  split; [|split].
  - apply (C60_file E0 (op "jp2" false) ex_file); [now vm_compute|]. apply C54_ex.
  - apply (C60_codestream E0 (op "j2c" false) (BTs "contiguousCodestreamBox") ex_cs VNone VNone eq_refl).
    eexists. split; [exists 100%nat, 3%nat; vm_compute; reflexivity|reflexivity].
  - intros H. apply (C60_file E0 (op "jp2" false) ex_bad) in H; [|now vm_compute]. destruct H as (r & HG & HV).
    destruct (validate E0 (op "jp2" false) 100 4 (BTs "JP2") ex_bad VNone VNone) as [r'| |] eqn:HV'; [|now vm_compute in HV'..].
    assert (HG' : gives E0 (op "jp2" false) (BTs "JP2") ex_bad VNone VNone r') by now exists 100%nat, 4%nat.
    rewrite (gives_fun _ _ _ _ _ _ _ _ HG HG') in HV. vm_compute in HV'. injection HV' as <-. discriminate.
Qed.
