(** * Files and superboxes: C29, C36, C37, C43, C46, C47, C55 *)

From Coq Require Import ZArith List Bool String Lia.
From Coq Require Import Init.Byte.
From Coq Require Import ZifyBool.
From Verif Require Import Py PyFloat ByteConv ETree BV VBoxes VMarkers VSuper Spec SpecBox SpecMarker
     SpecWalk SpecSuper SpecIPL SpecCS SpecFile SpecTop PBase PEmit PLeaf PLeaf2 PMarker PMarker2 PRel PWalk PSuper PSeg PWrite
     PTile PChain PCS PIPL PGrow Prop_Options PFile PTop SpecValid PValid Ex.
Import ListNotations.
Open Scope string_scope.
Open Scope list_scope.
Open Scope Z_scope.

Lemma super_accepts E op t c bs (claim : list bv -> bv -> Prop) L :
  (forall r, gives E op t c VNone VNone r -> exists rs, Forall2 (box_gives E op) bs rs /\ claim rs r) ->
  (forall rs, Forall2 (box_gives E op) bs rs -> exists r, gives E op t c VNone VNone r /\ claim rs r) ->
  (forall rs r, claim rs r -> Forall (fun e => exists t k, e = node t k) (map r_tests rs) ->
     (all_pass (r_tests r) <-> Forall (fun r => all_pass (r_tests r)) rs /\ holds L)) ->
  (accepted E op t c VNone VNone <-> Forall (box_accepted E op) bs /\ holds L).
Proof.
  intros HB HF HP. split.
  - intros (r & HG & HR). destruct (HB r HG) as (rs & H2 & HC). apply (HP rs r HC) in HR.
    2:{ now apply (Forall2_node E op (fun b => BTb (fst b)) snd (fun _ => VNone) (fun _ => VNone) bs). }
    destruct HR as (R1 & R2). split; [|exact R2]. eapply bwd_all; [|exact H2|exact R1].
    intros b r0 Hb Hg Hp. now exists r0.
  - intros (R1 & R2). destruct (fwd_all (box_gives E op) (box_accepted E op) bs) as (rs & H1 & H2); [|exact R1|].
    { intros b Hb Ho. exact Ho. }
    destruct (HF rs H1) as (r & HG & HC). exists r. split; [exact HG|]. apply (HP rs r HC); [|auto].
    now apply (Forall2_node E op (fun b => BTb (fst b)) snd (fun _ => VNone) (fun _ => VNone) bs).
Qed.

(** ** C29: the JP2 Header box *)

(** What 15444-1, I.5.3 asks of the boxes inside. *)
Definition header_rules (colour : Prop) (bs : list (bytes * bytes)) : Prop :=
  let types := map fst bs in
  hd_error types = Some t_ihdr /\
  (forall t, In t [t_ihdr; t_bpcc; t_pclr; t_cmap; t_cdef; t_res] -> (count_occ (list_eq_dec Byte.byte_eq_dec) types t <= 1)%nat) /\
  colour /\ one_block t_colr types /\
  (forall x, first_of t_ihdr bs = Some x -> val x 10 1 = 255 -> In t_bpcc types) /\
  (In t_pclr types <-> In t_cmap types).

Lemma at_most_one_count {A} (dec : forall x y : A, {x = y} + {x <> y}) x l : at_most_one x l <-> (count_occ dec l x <= 1)%nat.
Proof.
  split.
  - intros H. destruct (Compare_dec.le_gt_dec (count_occ dec l x) 1) as [L|L]; [exact L|]. exfalso.
    assert (HI : In x l) by (apply (count_occ_In dec); lia). apply in_split in HI as (a & b & ->).
    rewrite count_occ_app in L. cbn [count_occ] in L. destruct (dec x x) as [_|N]; [|now destruct N].
    destruct (in_dec dec x a) as [HA|HA].
    + apply in_split in HA as (a1 & a2 & ->). apply (H a1 a2 b). now rewrite <- app_assoc.
    + destruct (in_dec dec x b) as [HB|HB].
      * apply in_split in HB as (b1 & b2 & ->). now apply (H a b1 b2).
      * apply (count_occ_not_In dec) in HA, HB. lia.
  - intros H a b c ->. rewrite count_occ_app in H. cbn [count_occ] in H. destruct (dec x x) as [_|N]; [|now destruct N].
    rewrite count_occ_app in H. cbn [count_occ] in H. destruct (dec x x) as [_|N]; [|now destruct N]. lia.
Qed.
Lemma hd_in {A} (l : list A) x : hd_error l = Some x -> In x l.
Proof. destruct l; [discriminate|]. intros H. injection H as ->. now left. Qed.
Lemma all_six {A} (P : A -> Prop) a b c d e f : (forall t, In t [a; b; c; d; e; f] -> P t) <-> P a /\ P b /\ P c /\ P d /\ P e /\ P f.
Proof. split; [intros H; repeat split; apply H; cbn; auto 8|]. intros H t HI. cbn in HI. intuition (subst; assumption). Qed.

Theorem C29_jp2h_iff E op x bs : o_format op = "jp2" -> splits x bs ->
  (accepted E op (BTb t_jp2h) x VNone VNone <->
   header_rules (In t_colr (map fst bs)) bs /\ Forall (fun b => accepted E op (BTb (fst b)) (snd b) VNone VNone) bs).
Proof.
  intros Hf HS.
  rewrite (super_accepts E op (BTb t_jp2h) x bs (fun rs r => inner_says op "jp2HeaderBox" rs (jp2h_tests (o_format op) bs) r) (jp2h_tests (o_format op) bs));
    [|intros r; now apply jp2h_gives|intros rs; now apply jp2h_fwd|intros rs r (HC & _); now apply (super_pass _ _ _ _ _ _ _ _ HC)].
  rewrite Hf. unfold jp2h_tests, header_rules. rewrite all_six, <- !at_most_one_count. change (fmt_is "jp2" "jp2") with true. cbv iota.
  change (box_accepted E op) with (fun b => accepted E op (BTb (fst b)) (snd b) VNone VNone).
  pose proof (hd_in (map fst bs) t_ihdr) as HD.
  destruct (first_of t_ihdr bs) as [y|] eqn:EI.
  - assert (HB : (forall z, Some y = Some z -> val z 10 1 = 255 -> In t_bpcc (map fst bs)) <-> (val y 10 1 = 255 -> In t_bpcc (map fst bs)))
      by (split; [intros H; now apply H|intros H z Hz; injection Hz as <-; exact H]).
    rewrite HB. destruct (Z.eqb_spec (val y 10 1) 255) as [E255|E255]; holds; cbn [snd]; tauto.
  - assert (HB : forall z, None = Some z -> val z 10 1 = 255 -> In t_bpcc (map fst bs)) by discriminate.
    holds; cbn [snd]; tauto.
Qed.
Print Assumptions C29_jp2h_iff.
(** For JPH files a Colour Specification box is needed if the colourspace is known
    (UnkC = 0); without one there must be no channel of type 0. *)
Theorem C29_jph_iff E op x bs : o_format op = "jph" -> splits x bs ->
  (accepted E op (BTb t_jp2h) x VNone VNone <->
   header_rules
     ((forall y, first_of t_ihdr bs = Some y -> val y 12 1 = 0 -> In t_colr (map fst bs)) /\
      (~ In t_colr (map fst bs) ->
       forall y i, In y (boxes_of t_cdef bs) -> 0 <= i < val y 0 2 -> val y (4 + 6 * i) 2 <> 0)) bs /\
   Forall (fun b => accepted E op (BTb (fst b)) (snd b) VNone VNone) bs).
Proof.
  intros Hf HS.
  rewrite (super_accepts E op (BTb t_jp2h) x bs (fun rs r => inner_says op "jp2HeaderBox" rs (jp2h_tests (o_format op) bs) r) (jp2h_tests (o_format op) bs));
    [|intros r; now apply jp2h_gives|intros rs; now apply jp2h_fwd|intros rs r (HC & _); now apply (super_pass _ _ _ _ _ _ _ _ HC)].
  rewrite Hf. unfold jp2h_tests, header_rules. rewrite all_six, <- !at_most_one_count.
  change (fmt_is "jph" "jp2") with false. change (fmt_is "jph" "jph") with true. cbv iota.
  change (box_accepted E op) with (fun b => accepted E op (BTb (fst b)) (snd b) VNone VNone).
  pose proof (hd_in (map fst bs) t_ihdr) as HD.
  assert (HC : existsb (bytes_eqb t_colr) (map fst bs) = true <-> In t_colr (map fst bs)).
  { rewrite existsb_exists. split; [intros (z & H1 & H2); apply bytes_eqb_spec in H2; now subst z|].
    intros H. exists t_colr. split; [exact H|now apply bytes_eqb_spec]. }
  set (colr := In t_colr (map fst bs)) in *.
  set (ctype := forall y i, In y (boxes_of t_cdef bs) -> 0 <= i < val y 0 2 -> val y (4 + 6 * i) 2 <> 0).
  clearbody ctype colr.
  assert (HF : forall P : Prop, (forall z, None = Some z -> val z 12 1 = 0 -> P) /\ (forall z, None = Some z -> val z 10 1 = 255 -> P))
    by (split; discriminate).
  destruct (first_of t_ihdr bs) as [y|] eqn:EI.
  - assert (HB : forall k v (P : Prop), (forall z, Some y = Some z -> val z k 1 = v -> P) <-> (val y k 1 = v -> P))
      by (split; [intros H; now apply H|intros H z Hz; injection Hz as <-; exact H]).
    rewrite !HB. destruct (Z.eqb_spec (val y 10 1) 255) as [E255|E255]; destruct (Z.eqb_spec (val y 12 1) 0) as [E0'|E0'];
      destruct (existsb _ _); holds; cbn [snd]; clear HB; (assert (HX : false = true -> False) by discriminate); tauto.
  - destruct (existsb _ _); holds; cbn [snd]; (assert (HX : false = true -> False) by discriminate);
      pose proof (proj1 (HF colr)); pose proof (proj2 (HF (In t_bpcc (map fst bs)))); tauto.
Qed.
Print Assumptions C29_jph_iff.
(** A header that passes, and one with two Image Header boxes. *)
Definition ihdr_bytes : bytes := [x00; x00; x00; x16; x69; x68; x64; x72; x00; x00; x00; x02; x00; x00; x00; x02; x00; x01; x07; x07; x00; x00].
Example C29_ex : passes (run "jp2" (BTb t_jp2h) (skipn 8 ex_jp2h) VNone) = true /\
  skipn 8 ex_jp2h = ihdr_bytes ++ [x00; x00; x00; x0f; x63; x6f; x6c; x72; x01; x00; x00; x00; x00; x00; x11] /\
  failed (run "jp2" (BTb t_jp2h) (skipn 8 ex_jp2h ++ ihdr_bytes) VNone) = ["noMoreThanOneImageHeaderBox"] /\
  failed (run "jp2" (BTb t_jp2h) ihdr_bytes VNone) = ["containsColourSpecificationBox"] /\
  failed (run "jph" (BTb t_jp2h) ihdr_bytes VNone) = ["containsColourSpecificationBox"].
Proof. now vm_compute. Qed.

(** ** Valid files *)
Definition valid (E : env) (op : opts) (c : bytes) : Prop :=
  exists r, gives E op (BTs "JP2") c VNone VNone r /\ r_valid r = VBool true.
Lemma valid_iff E op c bs hs : splits c bs -> headers bs hs ->
  (valid E op c <-> Forall (box_accepted E op) bs /\ holds (jp2_tests bs hs)).
Proof.
  intros HS HH. rewrite <- (super_accepts E op (BTs "JP2") c bs (fun rs r => root_says op c bs hs rs r) (jp2_tests bs hs)).
  - unfold valid, accepted. split; intros (r & HG & H); exists r; (split; [exact HG|]);
      destruct (jp2_gives _ _ _ _ _ _ _ _ HS HH HG) as (rs & _ & _ & _ & (b & H1 & H2) & _).
    + rewrite H in H1. injection H1 as <-. now apply H2.
    + rewrite H1. f_equal. now apply H2.
  - intros r. now apply jp2_gives.
  - intros rs. now apply jp2_fwd.
  - intros rs r (HT & _). now apply (super_pass _ _ _ _ _ _ _ _ HT).
Qed.

(** ** C36: boxes of a valid file *)
Lemma amo_tail {A} (x : A) a b : at_most_one x (a ++ x :: b) -> ~ In x (a ++ b).
Proof.
  intros H HI. apply in_app_or in HI as [HI|HI]; apply in_split in HI as (u & v & ->).
  - apply (H u v b). now rewrite <- app_assoc.
  - now apply (H a u v).
Qed.
Theorem C36_structure E op c bs : valid E op c -> splits c bs ->
  exists a b, map fst bs = t_sig :: t_ftyp :: a ++ t_jp2h :: b /\
    ~ In t_jp2h (a ++ b) /\ ~ In t_sig (a ++ b) /\ ~ In t_ftyp (a ++ b) /\ ~ In t_jp2c a /\ In t_jp2c b.
Proof.
  intros HV HS. destruct (headers_total bs) as (hs & HH). apply (valid_iff E op c bs hs HS HH) in HV as (_ & HT).
  unfold jp2_tests in HT. set (types := map fst bs) in *. revert HT. holds. cbn [snd].
  intros (_ & _ & (H1 & H2 & (a & b & HP & HA & HC & HB & HL) & H4 & H5 & H6 & _) & _).
  destruct types as [|t1 [|t2 types]]; try discriminate. cbn in H1, H2. injection H1 as ->. injection H2 as ->.
  destruct a as [|a1 [|a2 a]]; [unfold len in HL; cbn in HL; lia..|]. cbn in HP. injection HP as <- <- ->.
  exists a, b. split; [reflexivity|].
  split; [rewrite in_app_iff; intros [H|H]; [apply HA; cbn; tauto|]; apply (amo_tail t_jp2h (t_sig :: t_ftyp :: a) b) in H6; apply H6; cbn; rewrite in_app_iff; tauto|].
  split; [intros H; apply (amo_tail t_sig [] (t_ftyp :: a ++ t_jp2h :: b)) in H4; apply H4; cbn; rewrite in_app_iff in *; cbn; tauto|].
  split; [intros H; apply (amo_tail t_ftyp [t_sig] (a ++ t_jp2h :: b)) in H5; apply H5; cbn; rewrite in_app_iff in *; cbn; tauto|].
  split; [intros H; apply HC; cbn; tauto|exact HB].
Qed.
Print Assumptions C36_structure.

(** ** C37: header and codestream agree *)
Lemma boxes_of_in t bs : In t (map fst bs) <-> boxes_of t bs <> [].
Proof.
  unfold boxes_of. induction bs as [|(u & x) bs IH]; [cbn; tauto|]. cbn [map filter fst In].
  destruct (bytes_eqb u t) eqn:EU; cbn [map].
  - apply bytes_eqb_spec in EU. split; [discriminate|auto].
  - apply bytes_eqb_neq in EU. rewrite <- IH. intuition congruence.
Qed.
Lemma boxes_of_one t bs : In t (map fst bs) -> at_most_one t (map fst bs) -> exists x, boxes_of t bs = [x].
Proof.
  intros HI HA. induction bs as [|(u & x) bs IH]; [destruct HI|]. unfold boxes_of. cbn [filter fst map] in *.
  destruct (bytes_eqb u t) eqn:EU.
  - apply bytes_eqb_spec in EU. subst u. exists x. cbn [map snd]. f_equal.
    assert (HN : ~ In t (map fst bs)) by (apply (amo_tail t [] (map fst bs)) in HA; exact HA).
    destruct (boxes_of t bs) as [|y l] eqn:EB; [exact EB|]. exfalso. apply HN, boxes_of_in. rewrite EB. discriminate.
  - apply bytes_eqb_neq in EU. apply IH; [destruct HI as [HI|HI]; [contradiction|exact HI]|].
    intros a b d HE. apply (HA (u :: a) b d). cbn. now rewrite HE.
Qed.
Lemma boxes_of_box t bs x : In x (boxes_of t bs) -> In (t, x) bs.
Proof.
  unfold boxes_of. rewrite in_map_iff. intros ((u & y) & <- & H). apply filter_In in H as (H & HU). apply bytes_eqb_spec in HU.
  cbn in HU. now subst u.
Qed.
Lemma byte_eq a b : 0 <= a <= 255 -> 0 <= b <= 255 -> csign a = csign b -> cdepth a = cdepth b -> a = b.
Proof.
  unfold csign, cdepth, bitk. intros Ha Hb HS HD. change (2 ^ 7) with 128 in HS.
  pose proof (Z.div_mod a 128). pose proof (Z.div_mod b 128).
  rewrite (Z.mod_small (a / 128)) in HS by (split; [apply Z.div_pos; lia|apply Z.div_lt_upper_bound; lia]).
  rewrite (Z.mod_small (b / 128)) in HS by (split; [apply Z.div_pos; lia|apply Z.div_lt_upper_bound; lia]). lia.
Qed.
Lemma nth_zseq {B} (f : Z -> B) n i d : 0 <= i < n -> nth (Z.to_nat i) (map f (zseq n)) d = f i.
Proof.
  intros Hi. unfold zseq. rewrite map_map. rewrite (nth_indep _ d (f (Z.of_nat 0))) by (rewrite map_length, seq_length; lia).
  rewrite (map_nth (fun x => f (Z.of_nat x))), seq_nth by lia. f_equal. lia.
Qed.
Lemma accepted_tests E op x bs : splits x bs -> box_accepted E op (t_jp2h, x) -> Forall (box_accepted E op) bs /\ holds (jp2h_tests (o_format op) bs).
Proof.
  intros HS HA.
  apply (super_accepts E op (BTb t_jp2h) x bs (fun rs r => inner_says op "jp2HeaderBox" rs (jp2h_tests (o_format op) bs) r) (jp2h_tests (o_format op) bs)) in HA;
    [exact HA|intros r; now apply jp2h_gives|intros rs; now apply jp2h_fwd|intros rs r (HC & _); now apply (super_pass _ _ _ _ _ _ _ _ HC)].
Qed.
Lemma holds_in (L : list (string * Prop)) n P : holds L -> In (n, P) L -> P.
Proof. intros H HI. unfold holds in H. rewrite Forall_forall in H. exact (H _ HI). Qed.

Theorem C37_consistent E op c bs : valid E op c -> splits c bs ->
  exists hx hb x y ys, boxes_of t_jp2h bs = [hx] /\ splits hx hb /\ boxes_of t_ihdr hb = [x] /\ boxes_of t_jp2c bs = y :: ys /\
    let z := cs_siz y in
    val x 0 4 = val z 8 4 - val z 16 4 /\ val x 4 4 = val z 4 4 - val z 12 4 /\ val x 8 2 = val z 36 2 /\
    (val x 10 1 <> 255 -> forall i, 0 <= i < val z 36 2 -> val z (38 + 3 * i) 1 = val x 10 1) /\
    (val x 10 1 = 255 -> exists p, boxes_of t_bpcc hb = [p] /\ len p = val z 36 2 /\
       forall i, 0 <= i < val z 36 2 -> val z (38 + 3 * i) 1 = val p i 1).
Proof.
  intros HV HS. destruct (headers_total bs) as (hs & HH). apply (valid_iff E op c bs hs HS HH) in HV as (HA & HT).
  pose proof (fun n P => holds_in _ n P HT) as HIN. unfold jp2_tests in HIN. cbv zeta in HIN.
  assert (H1 : In t_jp2h (map fst bs)) by (apply (HIN "containsJP2HeaderBox"); cbn; auto).
  assert (H2 : In t_jp2c (map fst bs)) by (apply (HIN "containsContiguousCodestreamBox"); cbn; auto).
  assert (H3 : at_most_one t_jp2h (map fst bs)).
  { apply (HIN "noMoreThanOneJP2HeaderBox"). rewrite !in_app_iff. right. right. left. cbn. auto 8. }
  destruct (boxes_of_one _ _ H1 H3) as (hx & Hhx).
  assert (Hhb : exists hb, splits hx hb /\ hs = [hb]).
  { unfold headers in HH. rewrite Hhx in HH. inversion HH as [|? hb ? ? HS1 HN]; subst. inversion HN; subst. eauto. }
  destruct Hhb as (hb & HSh & ->).
  rewrite Forall_forall in HA. assert (HB : box_accepted E op (t_jp2h, hx)) by (apply HA, boxes_of_box; rewrite Hhx; now left).
  destruct (accepted_tests E op hx hb HSh HB) as (HAh & HTh). pose proof (fun n P => holds_in _ n P HTh) as HINh.
  unfold jp2h_tests in HINh. cbv zeta in HINh.
  assert (G1 : In t_ihdr (map fst hb)) by (apply (HINh "containsImageHeaderBox"); cbn; auto).
  assert (G2 : at_most_one t_ihdr (map fst hb)).
  { apply (HINh "noMoreThanOneImageHeaderBox"). rewrite !in_app_iff. do 3 right. cbn. auto 12. }
  assert (G3 : at_most_one t_bpcc (map fst hb)).
  { apply (HINh "noMoreThanOneBitsPerComponentBox"). rewrite !in_app_iff. do 3 right. cbn. auto 12. }
  destruct (boxes_of_one _ _ G1 G2) as (x & Hx).
  destruct (boxes_of t_jp2c bs) as [|y ys] eqn:Hy; [now apply boxes_of_in in H2; contradiction H2|].
  exists hx, hb, x, y, ys. do 4 (split; [first [exact Hhx|exact HSh|exact Hx|reflexivity]|]). cbv zeta.
  (* the codestream *)
  assert (HC : box_accepted E op (t_jp2c, y)) by (apply HA, boxes_of_box; rewrite Hy; now left).
  assert (HCS : codestream_ok E (o_format op) y).
  { apply (cs_spec E op (BTb t_jp2c) y VNone VNone eq_refl). exact HC. }
  destruct HCS as (l & rest & ps & _ & _ & HC1 & HZ & _).
  assert (HSIZ : sub (cs_second y) 0 2 = m_SIZ) by (apply (holds_in _ "foundSIZMarker" _ HC1); cbn; auto).
  destruct HZ as (_ & HZ). set (z := cs_siz y) in *.
  assert (HI : file_ihdr [hb] = Some x) by (unfold file_ihdr; cbn [flat_map]; rewrite Hx; reflexivity).
  assert (HSZ : file_siz bs = Some z).
  { unfold file_siz. rewrite Hy. cbn [flat_map]. rewrite HSIZ. replace (bytes_eqb m_SIZ m_SIZ) with true by reflexivity. reflexivity. }
  rewrite HI, HSZ in HIN.
  assert (HAG : forall n P, In (n, P) (agree_tests x (file_bpcc [hb]) z) -> P).
  { intros n P HP. apply (HIN n P). rewrite !in_app_iff. right. right. right. exact HP. }
  split; [apply (HAG "heightConsistentWithSIZ"); cbn; auto|].
  split; [apply (HAG "widthConsistentWithSIZ"); cbn; auto|].
  assert (HNC : val x 8 2 = val z 36 2) by (apply (HAG "nCConsistentWithSIZ"); cbn; auto).
  split; [exact HNC|].
  assert (HSG : hdr_bpc csign x (file_bpcc [hb]) = siz_bpc csign z) by (apply (HAG "bPCSignConsistentWithSIZ"); cbn; auto).
  assert (HDP : hdr_bpc cdepth x (file_bpcc [hb]) = siz_bpc cdepth z) by (apply (HAG "bPCDepthConsistentWithSIZ"); cbn; auto 8).
  clear HAG HIN HINh HT HTh.
  assert (HDZ : forall i, 0 <= i < val z 36 2 -> cdepth (val z (38 + 3 * i) 1) <= 38).
  { intros i Hi. unfold siz_tests in HZ. rewrite !holds_app in HZ. destruct HZ as (_ & _ & _ & HZ). unfold holds in HZ. rewrite Forall_forall in HZ.
    specialize (HZ ("ssizIsValid", cdepth (val z (38 + 3 * i) 1) <= 38)). cbn [snd] in HZ.
    apply HZ. apply in_flat_map. exists i. split; [|now left].
    unfold zseq. apply in_map_iff. exists (Z.to_nat i). split; [lia|]. apply in_seq. lia. }
  assert (HZB : forall i, 0 <= i < val z 36 2 -> 0 <= val z (38 + 3 * i) 1 <= 255).
  { intros i Hi. destruct (val_1_range z (38 + 3 * i)) as [HM|HR]; [lia| |exact HR]. exfalso.
    specialize (HDZ i Hi). rewrite HM in HDZ. change (cdepth (-9999)) with 114 in HDZ. lia. }
  assert (HSZ' : forall f i d, 0 <= i < val z 36 2 -> nth (Z.to_nat i) (siz_bpc f z) d = f (val z (38 + 3 * i) 1)).
  { intros f i d Hi. unfold siz_bpc. now rewrite nth_zseq. }
  unfold hdr_bpc in HSG, HDP. split.
  - intros HN i Hi. replace (val x 10 1 =? 255) with false in HSG, HDP by lia.
    assert (HX1 : csign (val x 10 1) = csign (val z (38 + 3 * i) 1)).
    { rewrite <- (HSZ' csign i (csign (val x 10 1)) Hi), <- HSG. symmetry. apply nth_repeat. }
    assert (HX2 : cdepth (val x 10 1) = cdepth (val z (38 + 3 * i) 1)).
    { rewrite <- (HSZ' cdepth i (cdepth (val x 10 1)) Hi), <- HDP. symmetry. apply nth_repeat. }
    symmetry. destruct (val_1_range x 10) as [HM|HR]; [lia| |apply byte_eq; auto].
    exfalso. rewrite HM in HX2. change (cdepth (-9999)) with 114 in HX2.
    specialize (HDZ i Hi). lia.
  - intros HN. replace (val x 10 1 =? 255) with true in HSG, HDP by lia.
    assert (G4 : In t_bpcc (map fst hb)).
    { destruct (accepted_tests E op hx hb HSh HB) as (_ & HTh). apply (holds_in _ "containsBitsPerComponentBox" _ HTh).
      unfold jp2h_tests. cbv zeta. unfold first_of. rewrite Hx. cbn [hd_error]. rewrite !in_app_iff. do 2 right. left.
      replace (val x 10 1 =? 255) with true by lia. cbn. auto. }
    destruct (boxes_of_one _ _ G4 G3) as (p & Hp). exists p. split; [exact Hp|].
    assert (HFP : file_bpcc [hb] = Some p) by (unfold file_bpcc; cbn [flat_map]; rewrite Hp; reflexivity).
    rewrite HFP in HSG, HDP.
    assert (HLP : len p = val z 36 2).
    { apply (f_equal (@List.length Z)) in HSG. unfold siz_bpc, zseq in HSG. rewrite !map_length, seq_length in HSG. unfold len.
      assert (0 <= val z 36 2) by (unfold siz_tests in HZ; rewrite !holds_app in HZ; destruct HZ as (_ & _ & HZ & _);
        assert (HX : btw 1 (val z 36 2) 16384) by (apply (holds_in _ "csizIsValid" _ HZ); cbn; auto 12); unfold btw in HX; lia). lia. }
    split; [exact HLP|]. intros i Hi.
    assert (HVP : exists b, nth (Z.to_nat i) p x00 = b /\ val p i 1 = bz b).
    { eexists. split; [reflexivity|]. unfold val. replace (i + 1 <=? len p) with true by lia. 
      assert (HL : (Z.to_nat i < List.length p)%nat) by (unfold len in HLP; lia). clear -HL.
      change (Z.to_nat 1) with 1%nat. generalize dependent (Z.to_nat i). induction p as [|b p IH]; intros k Hk; [cbn in Hk; lia|].
      destruct k as [|k]; [cbn [skipn firstn nth]; unfold beval; cbn; lia|]. cbn [skipn nth]. apply IH. cbn in *; lia. }
    destruct HVP as (b & HB1 & HB2). rewrite HB2.
    pose proof (bz_range b).
    apply byte_eq; [now apply HZB|lia| |].
    + rewrite <- (HSZ' csign i (csign (bz x00)) Hi), <- HSG, (map_nth (fun q => csign (bz q))). now rewrite HB1.
    + rewrite <- (HSZ' cdepth i (cdepth (bz x00)) Hi), <- HDP, (map_nth (fun q => cdepth (bz q))). now rewrite HB1.
Qed.
Print Assumptions C37_consistent.
Example C37_ex : valid E0 (op "jp2" false) ex_file /\
  splits ex_file [(t_sig, skipn 8 ex_sig); (t_ftyp, skipn 8 ex_ftyp); (t_jp2h, skipn 8 ex_jp2h); (t_jp2c, ex_cs)].
Proof.
  split.
  - destruct (validate E0 (op "jp2" false) 100 4 (BTs "JP2") ex_file VNone VNone) as [r| |] eqn:HV; [|now vm_compute in HV..].
    exists r. split; [now exists 100%nat, 4%nat|]. vm_compute in HV. injection HV as <-. reflexivity.
  - repeat (eapply splits_step; [reflexivity..|discriminate|reflexivity|]). constructor.
Qed.
