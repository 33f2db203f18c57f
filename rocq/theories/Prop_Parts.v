(** * Tile parts: numbers, indices, extents (C42, C59, C62, C63) *)

From Coq Require Import ZArith List Bool String Lia.
From Coq Require Import Init.Byte.
From Coq Require Import ZifyBool.
From Verif Require Import Py PyFloat ByteConv ETree BV VBoxes VMarkers VSuper Spec SpecBox SpecMarker
     SpecWalk SpecSuper SpecIPL SpecCS SpecFile SpecTop PBase PEmit PLeaf PLeaf2 PMarker PMarker2 PRel PWalk PSuper PSeg PWrite
     PTile PChain PCS PIPL PGrow Prop_Options PFile PTop SpecValid PValid PEnds PLoop Ex Prop_File Prop_Report Prop_CS.
Import ListNotations.
Open Scope string_scope.
Open Scope list_scope.
Open Scope Z_scope.

(** Is the test [n] among the failed tests of the element itself? *)
Definition test_failed (n : string) (r : bv) : Prop := In (leaf n (VBool false)) (ekids (r_tests r)).
Lemma leaf_filled n v l : ~ In (leaf n v) (filled l).
Proof. unfold filled. rewrite filter_In. now intros (_ & H). Qed.
Lemma reports_failed v L k n : reports v L k -> (In (leaf n (VBool false)) k <-> exists P : Prop, In (n, P) L /\ ~ P).
Proof.
  induction 1 as [|m P L k HP HR IH|m P L k HP HR IH].
  - cbn. split; [intros []|intros (P & [] & _)].
  - assert (HI : In (leaf n (VBool false)) (if v then leaf m (VBool true) :: k else k) <-> In (leaf n (VBool false)) k).
    { destruct v; [|reflexivity]. cbn. split; [intros [H|H]; [discriminate|auto]|auto]. }
    rewrite HI, IH. split; intros (Q & H1 & H2); exists Q; (split; [|exact H2]); [now right|].
    destruct H1 as [H1|H1]; [|exact H1]. injection H1 as -> ->. contradiction.
  - cbn [In]. rewrite IH. split.
    + intros [H|(Q & H1 & H2)]; [injection H as ->; exists P; auto|eauto].
    + intros (Q & [H|H] & H2); [injection H as -> ->; auto|eauto].
Qed.
(** A test of the codestream itself. *)
Lemma cs_test_failed E op t c st cz l rest ps r n : boxTypeOf t = "contiguousCodestreamBox" -> gives E op t c st cz r ->
  sub (cs_second c) 0 2 = m_SIZ -> after m_SOT (cs_second c) l rest -> parts c rest ps ->
  (test_failed n r <-> exists P : Prop, In (n, P) (cs_tests1 c ++ cs_tests2 c l ps ++ cs_tests3 c l) /\ ~ P).
Proof.
  intros Ht HG HS HA HP. destruct (cs_gives E op t c st cz l rest ps r Ht HS HA HP HG) as (cap & rz & rs & ts & HF).
  destruct HF as (_ & _ & _ & _ & _ & _ & _ & _ & ((k1 & k2 & k3 & HT & R1 & R2 & R3) & _)).
  unfold test_failed. rewrite HT. cbn [node ekids]. rewrite !in_app_iff.
  pose proof (reports_failed _ _ _ n R1) as F1. pose proof (reports_failed _ _ _ n R2) as F2. pose proof (reports_failed _ _ _ n R3) as F3.
  split.
  - intros [H|[H|[H|[H|H]]]]; try (now apply leaf_filled in H).
    + apply F1 in H as (P & H & H'). exists P. rewrite !in_app_iff. auto.
    + apply F2 in H as (P & H & H'). exists P. rewrite !in_app_iff. auto.
    + apply F3 in H as (P & H & H'). exists P. rewrite !in_app_iff. auto.
  - intros (P & H & H'). rewrite !in_app_iff in H. destruct H as [H|[H|H]].
    + left. apply F1. eauto.
    + right; right; left. apply F2. eauto.
    + right; right; right; right. apply F3. eauto.
Qed.
Ltac in_tests H :=
  unfold cs_tests1, cs_tests2, cs_tests3 in H; rewrite !in_app_iff in H.
Lemma tiles_test c l ps P : In ("foundExpectedNumberOfTiles", P) (cs_tests1 c ++ cs_tests2 c l ps ++ cs_tests3 c l) <->
  P = (tiles_found c ps = cs_tiles c).
Proof.
  split.
  - intros H. in_tests H. destruct (bitsk _ _ _ =? _), (existsb _ _), (segs_of m_COC l), (segs_of m_QCC l); cbn in H;
      intuition (try discriminate; match goal with H : (_, _) = _ |- _ => now injection H end).
  - intros ->. unfold cs_tests2. rewrite !in_app_iff. right. left. right. right. left. cbn. auto.
Qed.
Lemma parts_test c l ps P : In ("foundExpectedNumberOfTileParts", P) (cs_tests1 c ++ cs_tests2 c l ps ++ cs_tests3 c l) <->
  P = parts_ok (cs_tiles c) c ps /\ exists p, In p ps /\ tp_tnsot c p <> 0.
Proof.
  assert (HE : existsb (fun p => negb (tp_tnsot c p =? 0)) ps = true <-> exists p, In p ps /\ tp_tnsot c p <> 0).
  { rewrite existsb_exists. split; intros (p & H1 & H2); exists p; (split; [exact H1|]); lia. }
  rewrite <- HE. split.
  - intros H. in_tests H. destruct (bitsk _ _ _ =? _), (existsb _ _), (segs_of m_COC l), (segs_of m_QCC l); cbn in H;
      intuition (try discriminate; match goal with H : (_, _) = _ |- _ => now injection H end).
  - intros (-> & HX). unfold cs_tests2. rewrite HX, !in_app_iff. right. left. right. right. right. cbn. auto.
Qed.

(** ** C59: number of tiles *)

(** What the test does: it counts the different tile indices. *)
Theorem C59_count E op t c st cz l rest ps r : boxTypeOf t = "contiguousCodestreamBox" -> gives E op t c st cz r ->
  sub (cs_second c) 0 2 = m_SIZ -> after m_SOT (cs_second c) l rest -> parts c rest ps ->
  (test_failed "foundExpectedNumberOfTiles" r <-> len (nodup Z.eq_dec (map (tp_isot c) ps)) <> Z.min (siz_tiles (cs_siz c)) 65535).
Proof.
  intros Ht HG HS HA HP. rewrite (cs_test_failed _ _ _ _ _ _ _ _ _ _ _ Ht HG HS HA HP). split.
  - intros (P & H1 & H2). apply tiles_test in H1. now subst P.
  - intros H. exists (tiles_found c ps = cs_tiles c). split; [now apply tiles_test|exact H].
Qed.
Print Assumptions C59_count.
(** That covers the tiles of the image if all indices are in range, *)
Lemma zseq_in n i : In i (zseq n) <-> 0 <= i < n.
Proof.
  unfold zseq. rewrite in_map_iff. split.
  - intros (k & <- & H). apply in_seq in H. lia.
  - intros H. exists (Z.to_nat i). split; [lia|]. apply in_seq. lia.
Qed.
Lemma zseq_nodup n : NoDup (zseq n).
Proof. unfold zseq. apply FinFun.Injective_map_NoDup; [intros a b; lia|apply seq_NoDup]. Qed.
Lemma cover_indices (l : list Z) n : Forall (fun i => 0 <= i < n) l -> len (nodup Z.eq_dec l) = n ->
  forall i, In i l <-> 0 <= i < n.
Proof.
  intros HF HL i. rewrite Forall_forall in HF. split; [apply HF|]. intros Hi.
  assert (HI : incl (zseq n) (nodup Z.eq_dec l)).
  { apply NoDup_length_incl; [apply NoDup_nodup| |].
    - pose proof (len_zseq n). unfold len in *. lia.
    - intros j Hj. apply zseq_in, HF. now apply nodup_In in Hj. }
  apply (nodup_In Z.eq_dec). apply HI. now apply zseq_in.
Qed.
Theorem C59_cover E op t c st cz l rest ps r : boxTypeOf t = "contiguousCodestreamBox" -> gives E op t c st cz r ->
  sub (cs_second c) 0 2 = m_SIZ -> after m_SOT (cs_second c) l rest -> parts c rest ps ->
  Forall (fun p => 0 <= tp_isot c p < Z.min (siz_tiles (cs_siz c)) 65535) ps ->
  ~ test_failed "foundExpectedNumberOfTiles" r ->
  forall i, In i (map (tp_isot c) ps) <-> 0 <= i < Z.min (siz_tiles (cs_siz c)) 65535.
Proof.
  intros Ht HG HS HA HP HF HN. rewrite (C59_count _ _ _ _ _ _ _ _ _ _ Ht HG HS HA HP) in HN.
  apply cover_indices; [|lia]. apply Forall_forall. intros i Hi. apply in_map_iff in Hi as (p & <- & Hp).
  rewrite Forall_forall in HF. now apply HF.
Qed.
Print Assumptions C59_cover.
(** and in a valid codestream that gives a number of tile parts anywhere. *)
Theorem C59_cover_declared E op t c st cz : boxTypeOf t = "contiguousCodestreamBox" -> cs_valid E op t c st cz ->
  exists l rest ps, after m_SOT (cs_second c) l rest /\ parts c rest ps /\
    (Exists (fun p => tp_tnsot c p <> 0) ps ->
     forall i, In i (map (tp_isot c) ps) <-> 0 <= i < Z.min (siz_tiles (cs_siz c)) 65535).
Proof.
  intros Ht HV. apply (cs_valid_iff _ _ _ _ _ _ Ht) in HV.
  destruct HV as (l & rest & ps & HA & HP & H1 & (_ & H2) & H3 & H4 & H5 & H6).
  exists l, rest, ps. split; [exact HA|]. split; [exact HP|]. intros HX.
  assert (HT : tiles_found c ps = cs_tiles c).
  { apply (holds_in _ "foundExpectedNumberOfTiles" _ H5). unfold cs_tests2. rewrite !in_app_iff. cbn. auto 6. }
  assert (HQ : parts_ok (cs_tiles c) c ps).
  { apply (holds_in _ "foundExpectedNumberOfTileParts" _ H5). unfold cs_tests2. rewrite !in_app_iff. right. right. right.
    replace (existsb _ ps) with true; [cbn; auto|]. symmetry. apply existsb_exists. apply Exists_exists in HX as (p & Hp & Hn).
    exists p. split; [exact Hp|lia]. }
  assert (HD : forall i, 0 <= i < cs_tiles c -> In i (map (tp_isot c) ps)).
  { intros i Hi. destruct HQ as (HQ & _). specialize (HQ i Hi). unfold parts_declared in HQ. destruct (List.find _ _) as [p|] eqn:EF; [|discriminate].
    apply find_some in EF as (E1 & E2). apply in_rev in E1. apply in_map_iff. exists p. split; [lia|exact E1]. }
  intros i. fold (cs_tiles c). split; [|apply HD]. intros Hi. apply zseq_in.
  assert (HI : incl (nodup Z.eq_dec (map (tp_isot c) ps)) (zseq (cs_tiles c))).
  { apply NoDup_length_incl; [apply zseq_nodup| |].
    - pose proof (len_zseq (cs_tiles c)). unfold tiles_found in HT. pose proof (len_nonneg (nodup Z.eq_dec (map (tp_isot c) ps))). unfold len in *. lia.
    - intros j Hj. apply nodup_In, HD. now apply zseq_in in Hj. }
  apply HI. now apply nodup_In.
Qed.
Print Assumptions C59_cover_declared.
(** Otherwise an index that is out of range may stand for a missing tile: an image of
    two tiles, with tile parts for tiles 0 and 5. *)
Definition ex_stray : bytes := ex_hdr2 ++ ex_part x00 x0f x00 x00 [x80] ++ ex_part x05 x0f x00 x00 [x80] ++ m_EOC.
Lemma is_valid_cs E op f d t c : is_valid (validate E op f d t c VNone VNone) = true -> cs_valid E op t c VNone VNone.
Proof.
  destruct (validate _ _ _ _ _ _ _ _) as [r| |] eqn:HV; try discriminate. cbn. intros H. exists r. split; [now exists f, d|].
  destruct (r_valid r); try discriminate. cbn in H. now subst.
Qed.
Ltac seg_step := eapply segs_more; [intros H; vm_compute in H; discriminate H|vm_compute; discriminate|].
Theorem C59_cover_refuted : exists l s ps, cs_valid E0 (op "j2c" false) (BTs "contiguousCodestreamBox") ex_stray VNone VNone /\
  after m_SOT (cs_second ex_stray) l (Some s) /\ parts ex_stray (Some s) ps /\
  siz_tiles (cs_siz ex_stray) = 2 /\ map (tp_isot ex_stray) ps = [0; 5].
Proof.
  eexists _, (skipn 65 ex_stray), [65; 80]. split; [apply (is_valid_cs E0 (op "j2c" false) 100 10); now vm_compute|].
  split; [|split; [|split; now vm_compute]].
  - unfold after. replace (_ =? -9999) with false by now vm_compute. seg_step. seg_step. apply (segs_stop m_SOT (skipn 65 ex_stray)). now vm_compute.
  - unfold parts. replace (cs_tiles ex_stray) with 2 by now vm_compute. replace (_ - _) with 65 by now vm_compute.
    apply chain_next; [lia|now vm_compute|now vm_compute|now vm_compute|].
    replace (_ + _) with 80 by now vm_compute. apply chain_stop; [lia|now vm_compute|]. left. vm_compute. intros (_ & H). discriminate H.
Qed.
Print Assumptions C59_cover_refuted.

(** ** C42: number of tile parts of each tile *)

(** Tile parts as the standard has them: those of each tile are numbered from 0, and
    each gives the number of tile parts of its tile, or 0. *)
Definition std_parts (n : Z) (c : bytes) (ps : list Z) : Prop :=
  (forall p, In p ps -> 0 <= tp_isot c p < n) /\
  (forall i, 0 <= i < n -> let qs := filter (fun p => tp_isot c p =? i) ps in
     qs <> [] /\ map (fun p => val (tp_sot c p) 8 1) qs = zseq (len qs) /\
     forall p, In p qs -> tp_tnsot c p = 0 \/ tp_tnsot c p = len qs).
(** The test passes if every tile has a tile part that gives the number, or if no
    tile part does; *)
Theorem C42_accepts E op t c st cz l rest ps r : boxTypeOf t = "contiguousCodestreamBox" -> gives E op t c st cz r ->
  sub (cs_second c) 0 2 = m_SIZ -> after m_SOT (cs_second c) l rest -> parts c rest ps ->
  std_parts (cs_tiles c) c ps ->
  (forall i, 0 <= i < cs_tiles c -> exists p, In p ps /\ tp_isot c p = i /\ tp_tnsot c p <> 0) \/
  (forall p, In p ps -> tp_tnsot c p = 0) ->
  ~ test_failed "foundExpectedNumberOfTileParts" r.
Proof.
  intros Ht HG HS HA HP (HI & HQ) HD. rewrite (cs_test_failed _ _ _ _ _ _ _ _ _ _ _ Ht HG HS HA HP). intros (P & H1 & H2).
  apply parts_test in H1 as (-> & p & Hp & Hn). destruct HD as [HD|HD]; [|now specialize (HD p Hp)].
  apply H2. split.
  - intros i Hi. unfold parts_declared. destruct (List.find _ (rev ps)) as [q|] eqn:EF.
    + apply find_some in EF as (E1 & E2). apply in_rev in E1. cbn [option_map]. f_equal. unfold parts_found.
      destruct (HQ i Hi) as (_ & _ & HQ3). destruct (HQ3 q); [apply filter_In; split; [exact E1|lia]|lia|assumption].
    + exfalso. destruct (HD i Hi) as (q & Q1 & Q2 & Q3). apply (find_none _ _ EF q) in Q1 as Q4 || apply in_rev in Q1.
      apply (find_none _ _ EF q) in Q1. lia.
  - intros i Hi. unfold parts_declared in Hi. destruct (List.find _ (rev ps)) as [q|] eqn:EF; [|now contradiction Hi].
    apply find_some in EF as (E1 & E2). apply in_rev in E1. specialize (HI q E1). lia.
Qed.
Print Assumptions C42_accepts.
(** it fails if one tile has such a tile part and another one has not. *)
Theorem C42_mixed_fails E op t c st cz l rest ps r i p : boxTypeOf t = "contiguousCodestreamBox" -> gives E op t c st cz r ->
  sub (cs_second c) 0 2 = m_SIZ -> after m_SOT (cs_second c) l rest -> parts c rest ps ->
  0 <= i < cs_tiles c -> (forall q, In q ps -> tp_isot c q = i -> tp_tnsot c q = 0) ->
  In p ps -> tp_tnsot c p <> 0 -> test_failed "foundExpectedNumberOfTileParts" r.
Proof.
  intros Ht HG HS HA HP Hi HZ Hp Hn. rewrite (cs_test_failed _ _ _ _ _ _ _ _ _ _ _ Ht HG HS HA HP).
  exists (parts_ok (cs_tiles c) c ps). split; [apply parts_test; eauto|]. intros (HQ & _). specialize (HQ i Hi).
  unfold parts_declared in HQ. destruct (List.find _ (rev ps)) as [q|] eqn:EF; [|discriminate].
  apply find_some in EF as (E1 & E2). apply in_rev in E1. specialize (HZ q E1). lia.
Qed.
Print Assumptions C42_mixed_fails.
(** So not every codestream with such tile parts is accepted: two tiles with one tile
    part each, which gives the number for one of them. *)
Definition ex_mixed : bytes := ex_hdr2 ++ ex_part x00 x0f x00 x01 [x80] ++ ex_part x01 x0f x00 x00 [x80] ++ m_EOC.
Theorem C42_accepts_refuted : exists l s ps r, gives E0 (op "j2c" false) (BTs "contiguousCodestreamBox") ex_mixed VNone VNone r /\
  after m_SOT (cs_second ex_mixed) l (Some s) /\ parts ex_mixed (Some s) ps /\ std_parts (cs_tiles ex_mixed) ex_mixed ps /\
  ekids (r_tests r) = [leaf "foundExpectedNumberOfTileParts" (VBool false)].
Proof.
  destruct (validate E0 (op "j2c" false) 100 10 (BTs "contiguousCodestreamBox") ex_mixed VNone VNone) as [r| |] eqn:HV; [|now vm_compute in HV..].
  eexists _, (skipn 65 ex_mixed), [65; 80], r. split; [now exists 100%nat, 10%nat|].
  split; [clear HV|split; [clear HV|split; [clear HV|]]].
  - unfold after. replace (_ =? -9999) with false by now vm_compute. seg_step. seg_step. apply (segs_stop m_SOT (skipn 65 ex_mixed)). now vm_compute.
  - unfold parts. replace (cs_tiles ex_mixed) with 2 by now vm_compute. replace (_ - _) with 65 by now vm_compute.
    apply chain_next; [lia|now vm_compute|now vm_compute|now vm_compute|].
    replace (_ + _) with 80 by now vm_compute. apply chain_next; [lia|now vm_compute|now vm_compute|now vm_compute|].
    apply chain_end; [now vm_compute|]. intros H. vm_compute in H. discriminate H.
  - replace (cs_tiles ex_mixed) with 2 by now vm_compute. split.
    + intros p [<-|[<-|[]]]; now vm_compute.
    + intros i Hi. assert (i = 0 \/ i = 1) as [-> | ->] by lia; cbv zeta.
      * replace (filter _ _) with [65] by now vm_compute. split; [discriminate|]. split; [now vm_compute|]. intros p [<-|[]]. right. now vm_compute.
      * replace (filter _ _) with [80] by now vm_compute. split; [discriminate|]. split; [now vm_compute|]. intros p [<-|[]]. left. now vm_compute.
  - vm_compute in HV. injection HV as <-. reflexivity.
Qed.
Print Assumptions C42_accepts_refuted.
(** The hypotheses of C42_accepts hold for [ex_two] (C38). *)
Example C42_ex : map (fun p => (tp_isot ex_two p, val (tp_sot ex_two p) 8 1, tp_tnsot ex_two p)) [65; 80; 94] = [(0, 0, 2); (1, 0, 1); (0, 1, 0)] /\
  map (tp_psot ex_two) [65; 80; 94] = [15; 14; 0] /\ cs_tiles ex_two = 2.
Proof. now vm_compute. Qed.

(** ** C62: tile parts in a valid codestream *)
Theorem C62_tile_parts E op t c st cz : boxTypeOf t = "contiguousCodestreamBox" -> cs_valid E op t c st cz ->
  siz_tiles (cs_siz c) <> 0 ->
  exists l s p ps, after m_SOT (cs_second c) l (Some s) /\ parts c (Some s) (p :: ps) /\ tile_valid E (o_format op) c (cs_csiz c) p.
Proof.
  intros Ht HV HN. apply (cs_valid_iff _ _ _ _ _ _ Ht) in HV.
  destruct HV as (l & rest & ps & HA & HP & H1 & (_ & H2) & H3 & H4 & H5 & H6).
  assert (HT : tiles_found c ps = cs_tiles c).
  { apply (holds_in _ "foundExpectedNumberOfTiles" _ H5). unfold cs_tests2. rewrite !in_app_iff. cbn. auto 6. }
  destruct ps as [|p ps]; [cbn in HT; unfold cs_tiles in HT; lia|]. destruct rest as [s|]; [|discriminate].
  exists l, s, p, ps. split; [exact HA|]. split; [exact HP|]. now inversion H4.
Qed.
Print Assumptions C62_tile_parts.
(** The code does not ask for a nonempty image: with XTOsiz = Xsiz the headers and an
    EOC marker suffice. *)
Definition ex_hollow : bytes := sub ex_mainhdr 0 35 ++ [x02] ++ skipn 36 ex_mainhdr ++ m_EOC.
Theorem C62_tile_parts_refuted : cs_valid E0 (op "j2c" false) (BTs "contiguousCodestreamBox") ex_hollow VNone VNone /\
  forall l rest ps, after m_SOT (cs_second ex_hollow) l rest -> parts ex_hollow rest ps -> ps = [].
Proof.
  split; [apply (is_valid_cs E0 (op "j2c" false) 100 10); now vm_compute|]. intros l rest ps HA HP.
  assert (HX : after m_SOT (cs_second ex_hollow) [(m_COD, sub ex_hollow 47 12); (m_QCD, sub ex_hollow 61 4); (m_EOC, []); ([], [])] None).
  { unfold after. replace (_ =? -9999) with false by now vm_compute. seg_step. seg_step. seg_step.
    apply segs_cut; [intros H; vm_compute in H; discriminate H|now vm_compute]. }
  destruct (after_unique _ _ _ _ _ _ HA HX) as (_ & ->). exact HP.
Qed.
Print Assumptions C62_tile_parts_refuted.

(** ** C63: extent of tile parts *)

(** The offsets of the tile parts increase, by at least 14 bytes. *)
Theorem C63_apart E op t c st cz : boxTypeOf t = "contiguousCodestreamBox" -> cs_valid E op t c st cz ->
  exists l rest ps, after m_SOT (cs_second c) l rest /\ parts c rest ps /\
    forall i j p q, (i < j)%nat -> nth_error ps i = Some p -> nth_error ps j = Some q -> p + 14 <= q.
Proof.
  intros Ht HV. destruct (C39_chaining _ _ _ _ _ _ Ht HV) as (l & rest & ps & HA & HP & _ & H). exists l, rest, ps.
  split; [exact HA|]. split; [exact HP|]. intros i j. induction j as [|j IH]; [lia|]. intros p q Hij Hp Hq.
  destruct (nth_error ps j) as [q'|] eqn:Hj.
  - destruct (H j q' Hj) as (_ & Hn). rewrite Hq in Hn. destruct (Nat.eq_dec i j) as [->|HNE].
    + rewrite Hp in Hj. injection Hj as ->. lia.
    + specialize (IH p q' ltac:(lia) Hp eq_refl). lia.
  - apply nth_error_None in Hj. assert (S j < List.length ps)%nat by (apply nth_error_Some; congruence). lia.
Qed.
Print Assumptions C63_apart.
(** But nothing keeps a tile part from starting before the header of the one before it
    has ended.  Here the header of the first tile part has a segment with the unknown
    marker FF70, and its contents are the SOT segment of the second tile part; both
    share the SOD marker and the data. *)
Definition ex_nested : bytes := ex_mainhdr ++
  [xff; x90; x00; x0a; x00; x00; x00; x00; x00; x10; x00; x02; xff; x70; x00; x0e] ++
  ex_part x00 x10 x01 x02 [x80; x80] ++ m_EOC.
Theorem C63_apart_refuted : cs_valid E0 (op "j2c" false) (BTs "contiguousCodestreamBox") ex_nested VNone VNone /\
  exists l s h d, after m_SOT (cs_second ex_nested) l (Some s) /\ parts ex_nested (Some s) [65; 81] /\
    after m_SOD (skipn 65 ex_nested) h (Some d) /\ len ex_nested - len d = 93.
Proof.
  split; [apply (is_valid_cs E0 (op "j2c" false) 100 10); now vm_compute|].
  eexists _, (skipn 65 ex_nested), _, (skipn 93 ex_nested). split; [|split; [|split]].
  - unfold after. replace (_ =? -9999) with false by now vm_compute. seg_step. seg_step. apply (segs_stop m_SOT (skipn 65 ex_nested)). now vm_compute.
  - unfold parts. replace (cs_tiles ex_nested) with 1 by now vm_compute. replace (_ - _) with 65 by now vm_compute.
    apply chain_next; [lia|now vm_compute|now vm_compute|now vm_compute|].
    replace (_ + _) with 81 by now vm_compute. apply chain_next; [lia|now vm_compute|now vm_compute|now vm_compute|].
    apply chain_end; [now vm_compute|]. intros H. vm_compute in H. discriminate H.
  - unfold after. replace (_ =? -9999) with false by now vm_compute. seg_step. apply (segs_stop m_SOD (skipn 93 ex_nested)). now vm_compute.
  - now vm_compute.
Qed.
Print Assumptions C63_apart_refuted.
