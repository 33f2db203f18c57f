(** * Damage that is always noticed: C79 *)

From Coq Require Import ZArith List Bool String Lia.
From Coq Require Import ZifyBool.
From Coq Require Import Init.Byte.
From Verif Require Import Py ETree BV VSuper Spec SpecBox SpecMarker SpecIPL SpecWalk SpecSuper SpecCS SpecFile SpecTop SpecValid SpecMake SpecForm SpecDamage
     PBase PEmit PWalk PWrite PSeg PLeaf PLeaf2 PValid PTop PForm PDamage Ex Prop_Top Prop_File Prop_Check Prop_Form Prop_Same.
Import ListNotations.
Open Scope string_scope.
Open Scope list_scope.
Open Scope Z_scope.

Lemma fits_len f t x x' : len x' = len x -> fits (f, t, x) -> fits (f, t, x').
Proof. intros H. destruct f; cbn; now rewrite ?H. Qed.
Lemma fits_with bs1 f t bs2 x x' : len x' = len x -> Forall fits (file_with bs1 f t bs2 x) -> Forall fits (file_with bs1 f t bs2 x').
Proof.
  intros HL. unfold file_with. rewrite !Forall_app, !Forall_cons_iff. intros (H1 & H2 & H3). split; [exact H1|]. split; [|exact H3]. now apply (fits_len f t x).
Qed.
Lemma rest_cons b bs : rest_last (b :: bs) <-> (fst (fst b) = Rest -> bs = []) /\ rest_last bs.
Proof.
  destruct b as ((f, t), x). cbn [fst]. unfold rest_last. split.
  - intros H. split; [intros ->; now apply (H [] t x bs)|]. intros pre u y post ->. now apply (H ((f, t, x) :: pre) u y post).
  - intros (H1 & H2) [|b pre] u y post HE.
    + injection HE as -> -> -> ->. now apply H1.
    + injection HE as <- HE. now apply (H2 pre u y post).
Qed.
Lemma rest_with bs1 f t bs2 x x' : rest_last (file_with bs1 f t bs2 x) -> rest_last (file_with bs1 f t bs2 x').
Proof.
  unfold file_with. induction bs1 as [|b bs1 IH]; cbn [app].
  - rewrite !rest_cons. cbn [fst]. auto.
  - rewrite !rest_cons. intros (H1 & H2). split; [|auto]. intros HB. apply H1 in HB. now destruct bs1.
Qed.
Lemma with_splits bs1 f t bs2 x : Forall fits (file_with bs1 f t bs2 x) -> rest_last (file_with bs1 f t bs2 x) ->
  splits (bytes_of (file_with bs1 f t bs2 x)) (map written bs1 ++ (t, x) :: map written bs2).
Proof. intros HF HR. pose proof (splits_written _ HF HR) as H. unfold file_with in H. rewrite (map_app written) in H. exact H. Qed.
Lemma len_bytes bs1 f t bs2 x x' : len x' = len x -> len (bytes_of (file_with bs1 f t bs2 x')) = len (bytes_of (file_with bs1 f t bs2 x)).
Proof.
  intros HL. unfold bytes_of, file_with. rewrite !map_app, !concat_app, !len_app. f_equal. cbn [map List.concat]. rewrite !len_app. f_equal.
  destruct f; cbn [box_bytes]; rewrite !len_app, HL; reflexivity.
Qed.

(** However else the contents of the box may have been changed: if a guarded byte is
    different, at most one of the two files is valid. *)
Theorem C79_damage E o bs1 f t bs2 x x' i : In (o_format o) ["jp2"; "jph"] ->
  Forall fits (file_with bs1 f t bs2 x) -> rest_last (file_with bs1 f t bs2 x) -> len (bytes_of (file_with bs1 f t bs2 x)) < 2 ^ 53 ->
  called_valid E o (bytes_of (file_with bs1 f t bs2 x)) ->
  len x' = len x -> guarded t x i -> differ x x' i ->
  ~ called_valid E o (bytes_of (file_with bs1 f t bs2 x')).
Proof.
  intros HF HT HR HB HV HL HG HD HV'. pose proof (fits_with bs1 f t bs2 x x' HL HT) as HT'. pose proof (rest_with bs1 f t bs2 x x' HR) as HR'.
  apply called_file in HV; [|exact HF|exact HB]. apply called_file in HV'; [|exact HF|now rewrite (len_bytes bs1 f t bs2 x x' HL)].
  apply HD. apply (fixed_box E (o_format o) _ _ t x x' _ _ i HF HV HV' (with_splits _ _ _ _ _ HT HR) (with_splits _ _ _ _ _ HT' HR')); try assumption; apply in_elt.
Qed.

(** The Image Header box has no choice either, but for bytes 12 and 13, as long as the
    rest of the file is the same. *)
Lemma called_is_valid E o c : In (o_format o) ["jp2"; "jph"] -> called_valid E o c -> valid E o c.
Proof. intros HF (t & r & [(_ & ->)|(HI & _)] & H); [now exists r|]. exfalso. cbn in HF, HI. intuition congruence. Qed.
Lemma boxes_app t l1 l2 : boxes_of t (l1 ++ l2) = boxes_of t l1 ++ boxes_of t l2.
Proof. unfold boxes_of. now rewrite filter_app, map_app. Qed.
Lemma boxes_mid_other t u x l1 l2 : u <> t -> boxes_of t (l1 ++ (u, x) :: l2) = boxes_of t (l1 ++ l2).
Proof.
  intros H. rewrite !boxes_app. f_equal. unfold boxes_of. cbn [filter fst]. destruct (bytes_eqb u t) eqn:EB; [apply bytes_eqb_spec in EB; contradiction|reflexivity].
Qed.
Lemma boxes_mid_one t x y l1 l2 : boxes_of t (l1 ++ (t, x) :: l2) = [y] -> y = x.
Proof.
  rewrite boxes_app. assert (HC : boxes_of t ((t, x) :: l2) = x :: boxes_of t l2).
  { unfold boxes_of. cbn [filter fst]. now rewrite (proj2 (bytes_eqb_spec t t) eq_refl). }
  rewrite HC. destruct (boxes_of t l1) as [|z l]; cbn [app]; intros H; [now injection H|]. injection H as _ H. now destruct l.
Qed.
Section Header.
Variables (E : env) (o : opts) (bs1 bs2 hb1 hb2 : list (form * bytes * bytes)) (f fi : form).
Let whole (y : bytes) := bytes_of (file_with bs1 f t_jp2h bs2 (bytes_of (file_with hb1 fi t_ihdr hb2 y))).
Let header (y : bytes) := file_with hb1 fi t_ihdr hb2 y.

Lemma header_reads y : In (o_format o) ["jp2"; "jph"] ->
  Forall fits (header y) -> rest_last (header y) ->
  Forall fits (file_with bs1 f t_jp2h bs2 (bytes_of (header y))) -> rest_last (file_with bs1 f t_jp2h bs2 (bytes_of (header y))) ->
  len (whole y) < 2 ^ 53 -> called_valid E o (whole y) ->
  exists z ys, boxes_of t_jp2c (map written bs1 ++ map written bs2) = z :: ys /\
    (len y = 14 /\ val y 11 1 = 7 /\ 1 <= val y 8 2 /\ 1 <= val y 0 4 /\ 1 <= val y 4 4 /\ 0 <= val y 10 1) /\
    val y 0 4 = val (cs_siz z) 8 4 - val (cs_siz z) 16 4 /\ val y 4 4 = val (cs_siz z) 4 4 - val (cs_siz z) 12 4 /\
    val y 8 2 = val (cs_siz z) 36 2 /\
    (~ In t_bpcc (map (fun b => snd (fst b)) (header y)) -> val y 10 1 = val (cs_siz z) 38 1).
Proof.
  intros HF HT HR HT2 HR2 HL HV. pose proof (with_splits _ _ _ _ _ HT2 HR2) as HS. pose proof (with_splits _ _ _ _ _ HT HR) as HH.
  fold (header y) in HS. destruct (C37_consistent E o (whole y) _ (called_is_valid _ _ _ HF HV) HS) as (hx & hb & x & z & ys & H1 & H2 & H3 & H4 & HZ).
  cbv zeta in HZ. destruct HZ as (Z1 & Z2 & Z3 & Z4 & Z5).
  apply boxes_mid_one in H1. subst hx. rewrite (splits_unique _ _ H2 _ HH) in H3, Z5. apply boxes_mid_one in H3. subst x.
  rewrite boxes_mid_other in H4 by discriminate.
  apply called_file in HV; [|exact HF|exact HL]. pose proof (box_in _ _ _ _ _ HV HS (in_elt _ _ _)) as B.
  assert (BI : box_ok E (o_format o) (t_ihdr, y)).
  { inversion B as [? ? HN _|? bs' HS' HB' _| | |]; subst; [destruct HN; cbn; auto|]. rewrite (splits_unique _ _ HS' _ HH) in HB'.
    rewrite Forall_forall in HB'. apply HB', in_elt. }
  pose proof (ihdr_fixed _ _ _ BI) as HI. exists z, ys. split; [exact H4|]. split; [exact HI|]. repeat (split; [assumption|]).
  intros HN. destruct (Z.eq_dec (val y 10 1) 255) as [E1|E1].
  - exfalso. destruct (Z5 E1) as (p & HP & _). apply HN.
    assert (HI2 : In t_bpcc (map fst (map written hb1 ++ (t_ihdr, y) :: map written hb2))) by (apply boxes_of_in; rewrite HP; discriminate).
    unfold header, file_with. rewrite map_app in *. cbn [map fst] in *. rewrite !map_map in HI2. exact HI2.
  - symmetry. specialize (Z4 E1 0 ltac:(lia)). exact Z4.
Qed.
Theorem C79_header y y' i : In (o_format o) ["jp2"; "jph"] ->
  Forall fits (header y) -> rest_last (header y) ->
  Forall fits (file_with bs1 f t_jp2h bs2 (bytes_of (header y))) -> rest_last (file_with bs1 f t_jp2h bs2 (bytes_of (header y))) ->
  len (whole y) < 2 ^ 53 -> called_valid E o (whole y) ->
  len y' = len y -> guarded_ihdr (map (fun b => snd (fst b)) (header y)) i -> differ y y' i ->
  ~ called_valid E o (whole y').
Proof.
  intros HF HT HR HT2 HR2 HL HV HLy HG HD HV'.
  assert (HLh : len (bytes_of (header y')) = len (bytes_of (header y))) by (apply len_bytes; exact HLy).
  destruct (header_reads y HF HT HR HT2 HR2 HL HV) as (z & ys & HZ & (L1 & C1 & N1 & P1 & P2 & P3) & A1 & A2 & A3 & A4).
  destruct (header_reads y' HF) as (z' & ys' & HZ' & (L1' & C1' & _) & A1' & A2' & A3' & A4').
  { now apply (fits_with hb1 fi t_ihdr hb2 y). } { now apply (rest_with hb1 fi t_ihdr hb2 y). }
  { now apply (fits_with bs1 f t_jp2h bs2 (bytes_of (header y))). } { now apply (rest_with bs1 f t_jp2h bs2 (bytes_of (header y))). }
  { pose proof (len_bytes bs1 f t_jp2h bs2 _ _ HLh) as HW. fold (header y') in HW. change (len (whole y') = len (whole y)) in HW. now rewrite HW. } { exact HV'. }
  rewrite HZ in HZ'. injection HZ' as <- <-. apply HD. destruct HG as [Hi|[->|(-> & HN)]].
  - destruct (Z_lt_le_dec i 4); [|destruct (Z_lt_le_dec i 8)].
    + apply (same_one y y' 0 4 i); [lia|lia|]. apply val_bytes; lia.
    + apply (same_one y y' 4 4 i); [lia|lia|]. apply val_bytes; lia.
    + apply (same_one y y' 8 2 i); [lia|lia|]. apply val_bytes; lia.
  - apply val_bytes; lia.
  - apply val_bytes; try lia. rewrite (A4 HN). symmetry. apply A4'. revert HN. unfold header, file_with. rewrite !map_app. cbn [map fst snd]. auto.
Qed.
End Header.

(** The markers of a bare codestream. *)
Theorem C79_codestream E o x x' i : In (o_format o) ["j2c"; "jhc"] -> called_valid E o x -> len x' = len x -> guarded t_jp2c x i -> differ x x' i ->
  ~ called_valid E o x'.
Proof.
  intros HF HV HL HG HD HV'. apply called_cs in HV; [|exact HF]. apply called_cs in HV'; [|exact HF]. apply HD.
  now apply (guarded_cs E (o_format o)).
Qed.

(** In the example of C77: the first byte of the minor version, the last byte of the
    width, the end of codestream.  A byte that is not guarded (whether the colour space
    is known) may be different in another valid file. *)
Definition put (x : bytes) (i : nat) (b : byte) : bytes := firstn i x ++ [b] ++ skipn (S i) x.
Definition ex_hdr (y : bytes) : list (form * bytes * bytes) := file_with [] Short t_ihdr [(Short, t_colr, sub ex_jp2h 38 7); (Extended, ex_note, [x61])] y.
Definition ex_with_ftyp (x : bytes) : bytes := bytes_of (file_with (firstn 1 (ex_boxes false)) Extended t_ftyp (skipn 2 (ex_boxes false)) x).
Definition ex_with_ihdr (y : bytes) : bytes := bytes_of (file_with (firstn 2 (ex_boxes false)) Extended t_jp2h (skipn 3 (ex_boxes false)) (bytes_of (ex_hdr y))).
Definition ex_ihdr : bytes := sub ex_jp2h 16 14.
Example C79_ex : ex_with_ftyp (skipn 8 ex_ftyp) = ex_version false /\ ex_with_ihdr ex_ihdr = ex_version false /\
  ~ called_valid E0 (op "jp2" false) (ex_with_ftyp (put (skipn 8 ex_ftyp) 4 x01)) /\
  ~ called_valid E0 (op "jp2" false) (ex_with_ihdr (put ex_ihdr 7 x00)) /\
  ~ called_valid E0 (op "j2c" false) (put ex_cs 82 xd8) /\
  called_valid E0 (op "jp2" false) (ex_with_ihdr (put ex_ihdr 12 x01)) /\ ex_with_ihdr (put ex_ihdr 12 x01) <> ex_version false.
Proof.
  assert (H1 : ex_with_ftyp (skipn 8 ex_ftyp) = ex_version false) by now vm_compute.
  assert (H2 : ex_with_ihdr ex_ihdr = ex_version false) by now vm_compute.
  assert (HR : rest_last (ex_boxes false)) by (apply (rest_end (firstn 3 (ex_boxes false))); repeat constructor; discriminate).
  assert (HRh : rest_last (ex_header false)) by (apply (rest_end (firstn 2 (ex_header false))); repeat constructor; discriminate).
  split; [exact H1|]. split; [exact H2|]. split; [|split; [|split; [|split]]].
  - apply (C79_damage E0 (op "jp2" false) _ _ _ _ (skipn 8 ex_ftyp) _ 4); try reflexivity.
    + cbn. tauto.
    + repeat constructor.
    + exact HR.
    + change (called_valid E0 (op "jp2" false) (ex_with_ftyp (skipn 8 ex_ftyp))). rewrite H1. apply C77_ex_file.
    + right. left. split; [reflexivity|lia].
    + vm_compute. discriminate.
  - apply (C79_header E0 (op "jp2" false) _ _ _ _ _ _ ex_ihdr _ 7); try reflexivity.
    + cbn. tauto.
    + repeat constructor.
    + exact HRh.
    + repeat constructor.
    + exact HR.
    + change (called_valid E0 (op "jp2" false) (ex_with_ihdr ex_ihdr)). rewrite H2. apply C77_ex_file.
    + left. lia.
    + vm_compute. discriminate.
  - apply (C79_codestream E0 (op "j2c" false) ex_cs _ 82).
    + cbn. tauto.
    + apply called_cs; [cbn; tauto|apply C60_ex].
    + reflexivity.
    + right. right. split; [reflexivity|]. right. change (len ex_cs) with 83. lia.
    + vm_compute. discriminate.
  - exists (BTs "JP2"). eexists. split; [left; split; [cbn; tauto|reflexivity]|]. split; [exists 100%nat, 4%nat; vm_compute; reflexivity|reflexivity].
  - vm_compute. discriminate.
Qed.

Definition all_theorems := (C79_damage, C79_header, C79_codestream).
Print Assumptions all_theorems.
