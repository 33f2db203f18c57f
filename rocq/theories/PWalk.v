(** * The loops over boxes *)

From Coq Require Import ZArith List Bool String Lia.
From Coq Require Import ZifyBool.
From Coq Require Import Init.Byte.
From Verif Require Import Py PyFloat ByteConv ETree BV VBoxes VMarkers VSuper Spec SpecBox SpecWalk
     PBase PEmit PLeaf.
Import ListNotations.
Open Scope string_scope.
Open Scope list_scope.
Open Scope Z_scope.

Lemma validate_S E op fuel d t c start csiz :
  validate E op fuel (S d) t c start csiz =
  match runMethod E (validate E op fuel d) fuel
          {| s_opts := op; s_btype := t; s_contents := c; s_start := start; s_csiz := csiz |} st0 with
  | Ok (_, s) => Ok (bv_of t s) | Raise e => Raise e | Diverge => Diverge end.
Proof. reflexivity. Qed.

(** ** Suffixes *)
Lemma skipn_skipn {A} a b (l : list A) : skipn a (skipn b l) = skipn (b + a) l.
Proof.
  revert l. induction b as [|b IH]; intros l; [reflexivity|].
  destruct l; [now rewrite !skipn_nil|]. cbn. apply IH.
Qed.
Lemma len_skipn {A} (c : list A) p : 0 <= p <= len c -> len (skipn (Z.to_nat p) c) = len c - p.
Proof. intros H. unfold len in *. rewrite skipn_length. lia. Qed.
Lemma sub_skipn c p a n : 0 <= p -> 0 <= a -> sub (skipn (Z.to_nat p) c) a n = sub c (p + a) n.
Proof. intros. unfold sub. rewrite skipn_skipn. do 2 f_equal. lia. Qed.
Lemma val_skipn c p a n : 0 <= p <= len c -> 0 <= a -> val (skipn (Z.to_nat p) c) a n = val c (p + a) n.
Proof.
  intros H Ha. unfold val. rewrite len_skipn by lia. rewrite skipn_skipn.
  replace (a + n <=? len c - p) with (p + a + n <=? len c) by lia.
  replace (Z.to_nat p + Z.to_nat a)%nat with (Z.to_nat (p + a)) by lia. reflexivity.
Qed.
Lemma slice_skipn c p a b : 0 <= p -> 0 <= a -> 0 <= b ->
  slice c (p + a) (p + b) = sub (skipn (Z.to_nat p) c) a (b - a).
Proof. intros. rewrite slice_sub by lia. rewrite sub_skipn by lia. f_equal. lia. Qed.

(** Empty when the start is behind the end. *)
Lemma slice_empty {A} (c : list A) a b : len c <= a -> slice c a b = [].
Proof.
  intros H. pose proof (len_nonneg c) as HN. unfold slice, norm_ix.
  replace (a <? 0) with false by lia. replace (Z.min a (len c)) with (len c) by lia.
  rewrite skipn_all2 by (unfold len; lia). apply firstn_nil.
Qed.

(** ** One box *)
Lemma pair4 {A B C D} (a a' : A) (b b' : B) (c c' : C) (d d' : D) :
  a = a' -> b = b' -> c = c' -> d = d' -> (a, b, c, d) = (a', b', c', d').
Proof. now intros -> -> -> ->. Qed.
Lemma box_length_range s : box_length s = -9999 \/ 0 <= box_length s.
Proof.
  unfold box_length. pose proof (val_range s 0 4 ltac:(lia) ltac:(lia)) as H1.
  pose proof (val_range s 8 8 ltac:(lia) ltac:(lia)) as H2.
  destruct (val s 0 4 =? 1) eqn:HE; lia.
Qed.

Lemma getBox_spec c p : 0 <= p < len c ->
  let s := skipn (Z.to_nat p) c in
  let L := box_length s in
  getBox c p (len c) =
  if L =? -9999 then (-9999, sub s 4 4, p - 9999, [])
  else if L =? 0 then (len c - p, sub s 4 4, len c, sub s (box_header s) (len s))
  else (L, sub s 4 4, p + L, sub s (box_header s) (L - box_header s)).
Proof.
  intros Hp. cbv zeta. set (s := skipn (Z.to_nat p) c).
  assert (HL : len s = len c - p) by (apply len_skipn; lia).
  unfold getBox. rewrite u32_val by lia. replace (val c p 4) with (val s 0 4)
    by (unfold s; rewrite val_skipn by lia; f_equal; lia).
  rewrite u64_val by lia. replace (val c (p + 8) 8) with (val s 8 8)
    by (unfold s; rewrite val_skipn by lia; f_equal; lia).
  rewrite (slice_skipn c p 4 8) by lia. fold s. change (8 - 4) with 4.
  unfold box_length, box_header.
  pose proof (val_range s 0 4 ltac:(lia) ltac:(lia)) as R1.
  pose proof (val_range s 8 8 ltac:(lia) ltac:(lia)) as R2.
  destruct (val s 0 4 =? 1) eqn:H1.
  - destruct (val s 8 8 =? -9999) eqn:H2.
    + replace (val s 8 8 =? 0) with false by lia. rewrite slice_empty.
      * apply pair4; [lia|reflexivity|lia|reflexivity].
      * destruct (Z_le_gt_dec 16 (len s)) as [G|G]; [|lia].
        pose proof (val_readable s 8 8 ltac:(lia) ltac:(lia) ltac:(lia)). lia.
    + destruct (val s 8 8 =? 0) eqn:H3.
      * apply pair4; [lia|reflexivity|lia|]. rewrite (slice_skipn c p 16) by lia. fold s.
        unfold sub. rewrite !firstn_all2; [reflexivity| |];
          rewrite skipn_length; unfold len in *; lia.
      * apply pair4; [lia|reflexivity|lia|]. rewrite (slice_skipn c p 16) by lia. fold s. reflexivity.
  - destruct (val s 0 4 =? -9999) eqn:H2.
    + replace (val s 0 4 =? 0) with false by lia. rewrite slice_empty.
      * apply pair4; [lia|reflexivity|lia|reflexivity].
      * destruct (Z_le_gt_dec 4 (len s)) as [G|G]; [|lia].
        pose proof (val_readable s 0 4 ltac:(lia) ltac:(lia) ltac:(lia)). lia.
    + destruct (val s 0 4 =? 0) eqn:H3.
      * apply pair4; [lia|reflexivity|lia|]. rewrite (slice_skipn c p 8) by lia. fold s.
        unfold sub. rewrite !firstn_all2; [reflexivity| |];
          rewrite skipn_length; unfold len in *; lia.
      * apply pair4; [lia|reflexivity|lia|]. rewrite (slice_skipn c p 8) by lia. fold s. reflexivity.
Qed.

(** ** The split exists, is unique, and has at most one box per byte *)
Lemma splits_unique s bs1 : splits s bs1 -> forall bs2, splits s bs2 -> bs1 = bs2.
Proof.
  induction 1 as [|s HN HL|s HN HL|s bs HN HL H IH]; intros bs2 H2;
    inversion H2; subst; try congruence; try lia.
  f_equal. now apply IH.
Qed.

Lemma splits_total s : exists bs, splits s bs.
Proof.
  remember (List.length s) as n eqn:Hn. revert s Hn.
  induction n as [n IH] using (well_founded_induction Wf_nat.lt_wf). intros s Hn.
  destruct s as [|b s'] eqn:ES; [exists []; constructor|]. rewrite <- ES in *.
  assert (HN : s <> []) by (rewrite ES; discriminate).
  destruct (box_length_range s) as [H|H].
  - eexists. now apply splits_cut.
  - destruct (Z.eq_dec (box_length s) 0) as [H0|H0]; [eexists; now apply splits_rest|].
    destruct (IH (List.length (skipn (Z.to_nat (box_length s)) s))) with (s := skipn (Z.to_nat (box_length s)) s)
      as (bs & Hbs).
    + rewrite Hn, skipn_length. assert (0 < List.length s)%nat by (rewrite ES; cbn; lia). lia.
    + reflexivity.
    + eexists. apply splits_box; [exact HN|lia|exact Hbs].
Qed.

Lemma splits_len s bs : splits s bs -> (List.length bs <= List.length s)%nat.
Proof.
  induction 1 as [|s HN HL|s HN HL|s bs HN HL H IH]; cbn [List.length]; [lia| | |];
    destruct s as [|b s]; try contradiction; cbn [List.length]; try lia.
  rewrite skipn_length in IH. cbn [List.length] in IH. lia.
Qed.

(** ** The loop *)
Fixpoint mapM {A B} (f : A -> res B) (l : list A) : res (list B) :=
  match l with
  | [] => Ok []
  | x :: l' => rbind (f x) (fun y => rbind (mapM f l') (fun ys => Ok (y :: ys)))
  end.

Definition child (rec : recT) (b : bytes * bytes) : res bv := rec (BTb (fst b)) (snd b) VNone VNone.

Lemma filled_cons e l : filled (e :: l) = (match ekids e with [] => [] | _ => [e] end) ++ filled l.
Proof. unfold filled. cbn. now destruct (ekids e). Qed.

Lemma attach_eq rec t x start csiz s :
  attach rec t x start csiz s =
  rbind (rec t x start csiz) (fun r =>
    Ok (r, app_st s (filled [r_tests r]) [r_chars r] (filled [r_warns r]))).
Proof.
  unfold attach, attachIf, bind, lift. destruct (rec t x start csiz) as [r|e|]; [|reflexivity|reflexivity].
  cbn [rbind when]. unfold add_test_ne, add_warn_ne, filled. cbn [filter].
  destruct s, (ekids (r_tests r)), (ekids (r_warns r)); unfold app_st; cbn;
    rewrite ?app_nil_r; reflexivity.
Qed.

Lemma boxLoop_gen rec fuel f c p blv ts bs :
  s_contents f = c -> 0 <= p -> (p < len c -> ~ In blv [0; -9999]) ->
  splits (skipn (Z.to_nat p) c) bs -> (List.length bs < fuel)%nat ->
  forall s,
  loop fuel (fun '(byteStart, boxLengthValue, types) =>
    if (byteStart <? len c) && negb (Zin boxLengthValue [0; -9999]) then
      let '(blv, boxType, byteEnd, sub) := getBox c byteStart (len c) in
      _ <- attach rec (BTb boxType) sub VNone VNone ;;
      ret (inl (byteEnd, blv, types ++ [boxType]))
    else ret (inr types)) (p, blv, ts) s =
  rbind (mapM (child rec) bs) (fun rs =>
    Ok (ts ++ map fst bs,
        app_st s (filled (map r_tests rs)) (map r_chars rs) (filled (map r_warns rs)))).
Proof.
  intros Hc Hp Hblv HS. remember (skipn (Z.to_nat p) c) as sf eqn:Hsf.
  revert p blv ts fuel Hp Hblv Hsf.
  induction HS as [|sf HN HL|sf HN HL|sf bs HN HL HS IH]; intros p blv ts fuel Hp Hblv Hsf Hfu s.
  - destruct fuel as [|fuel]; [cbn in Hfu; lia|]. cbn [loop].
    assert (HP : len c <= p).
    { apply (f_equal (@List.length byte)) in Hsf. rewrite skipn_length in Hsf. cbn in Hsf.
      unfold len. lia. }
    unfold bind at 1. replace (p <? len c) with false by lia. cbn.
    now rewrite app_nil_r, app_st_nil.
  - destruct fuel as [|[|fuel]]; [cbn in Hfu; lia|cbn in Hfu; lia|]. cbn [loop].
    assert (HP : p < len c).
    { destruct (Z_lt_le_dec p (len c)) as [G|G]; [exact G|]. exfalso. apply HN. rewrite Hsf.
      apply skipn_all2. unfold len in G. lia. }
    pose proof (getBox_spec c p ltac:(lia)) as HB. cbv zeta in HB. rewrite <- Hsf, HL in HB.
    cbn [Z.eqb Pos.eqb] in HB. unfold bind at 1 2. rewrite HB.
    replace (p <? len c) with true by lia.
    replace (Zin blv [0; -9999]) with false
      by (symmetry; apply not_true_iff_false; rewrite Zin_spec; auto).
    cbn [negb andb]. unfold bind. rewrite attach_eq. cbn [mapM rbind child fst snd].
    unfold child. cbn [fst snd].
    destruct (rec (BTb (sub sf 4 4)) [] VNone VNone) as [r|e|]; [|reflexivity|reflexivity].
    cbn [rbind ret map]. rewrite andb_false_r. reflexivity.
  - destruct fuel as [|[|fuel]]; [cbn in Hfu; lia|cbn in Hfu; lia|]. cbn [loop].
    assert (HP : p < len c).
    { destruct (Z_lt_le_dec p (len c)) as [G|G]; [exact G|]. exfalso. apply HN. rewrite Hsf.
      apply skipn_all2. unfold len in G. lia. }
    pose proof (getBox_spec c p ltac:(lia)) as HB. cbv zeta in HB. rewrite <- Hsf, HL in HB.
    cbn [Z.eqb Pos.eqb] in HB. unfold bind at 1 2. rewrite HB.
    replace (p <? len c) with true by lia.
    replace (Zin blv [0; -9999]) with false
      by (symmetry; apply not_true_iff_false; rewrite Zin_spec; auto).
    cbn [negb andb]. unfold bind. rewrite attach_eq. cbn [mapM rbind fst snd].
    unfold child. cbn [fst snd].
    destruct (rec (BTb (sub sf 4 4)) _ VNone VNone) as [r|e|]; [|reflexivity|reflexivity].
    cbn [rbind ret map]. rewrite Z.ltb_irrefl. reflexivity.
  - destruct fuel as [|fuel]; [cbn in Hfu; lia|]. cbn [loop].
    assert (HP : p < len c).
    { destruct (Z_lt_le_dec p (len c)) as [G|G]; [exact G|]. exfalso. apply HN. rewrite Hsf.
      apply skipn_all2. unfold len in G. lia. }
    pose proof (getBox_spec c p ltac:(lia)) as HB. cbv zeta in HB. rewrite <- Hsf in HB.
    replace (box_length sf =? -9999) with false in HB by lia.
    replace (box_length sf =? 0) with false in HB by lia.
    unfold bind at 1 2. rewrite HB.
    replace (p <? len c) with true by lia.
    replace (Zin blv [0; -9999]) with false
      by (symmetry; apply not_true_iff_false; rewrite Zin_spec; auto).
    cbn [negb andb]. unfold bind at 1. rewrite attach_eq. cbn [mapM].
    unfold child at 1. cbn [fst snd].
    destruct (rec (BTb (sub sf 4 4)) _ VNone VNone) as [r|e|]; [|reflexivity|reflexivity].
    cbn [rbind ret]. rewrite IH.
    + destruct (mapM (child rec) bs) as [rs|e|]; [|reflexivity|reflexivity].
      cbn [rbind map fst]. rewrite app_st_app, <- app_assoc. cbn [app].
      rewrite !filled_cons. cbn. now rewrite !app_nil_r.
    + lia.
    + intros _ [G|[G|[]]]; lia.
    + rewrite Hsf at 2. rewrite skipn_skipn. f_equal. lia.
    + cbn in Hfu. lia.
Qed.

Lemma boxLoop_spec rec fuel f bs :
  splits (s_contents f) bs -> (List.length bs < fuel)%nat ->
  forall s, boxLoop rec fuel f s =
  rbind (mapM (child rec) bs) (fun rs =>
    Ok (map fst bs,
        app_st s (filled (map r_tests rs)) (map r_chars rs) (filled (map r_warns rs)))).
Proof.
  intros HS HF s. unfold boxLoop. cbv zeta.
  rewrite (boxLoop_gen rec fuel f (s_contents f) 0 10 [] bs); [reflexivity|reflexivity|lia| |exact HS|exact HF].
  intros _ [G|[G|[]]]; lia.
Qed.
