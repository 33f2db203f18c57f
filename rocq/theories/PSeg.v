(** * The loops over marker segments *)

From Coq Require Import ZArith List Bool String Lia.
From Coq Require Import ZifyBool.
From Coq Require Import Init.Byte.
From Verif Require Import Py PyFloat ByteConv ETree BV VBoxes VMarkers VSuper Spec SpecBox SpecMarker
     SpecWalk SpecCS PBase PEmit PLeaf PMarker2 PWalk.
Import ListNotations.
Open Scope string_scope.
Open Scope list_scope.
Open Scope Z_scope.

(** ** One segment *)
Lemma val_skipn' c p a n : 0 <= p -> 0 <= a -> 0 < n -> val (skipn (Z.to_nat p) c) a n = val c (p + a) n.
Proof.
  intros Hp Ha Hn. destruct (Z_le_gt_dec p (len c)) as [L|L]; [apply val_skipn; lia|].
  rewrite !val_missing; [reflexivity|lia|].
  rewrite skipn_all2 by (unfold len in L; lia). cbn. lia.
Qed.

Lemma seg_length_range s : seg_length s = -9999 \/ 0 <= seg_length s.
Proof.
  unfold seg_length. pose proof (val_range s 2 2 ltac:(lia) ltac:(lia)) as H.
  destruct (delimiter (sub s 0 2)); lia.
Qed.

Lemma delimiter_bin m : bin m [[xff; x4f]; [xff; x93]; [xff; xd9]; [xff; x92]] = delimiter m.
Proof.
  unfold delimiter, bin. cbn [existsb].
  destruct (bytes_eqb m [xff; x4f]), (bytes_eqb m [xff; x93]), (bytes_eqb m [xff; xd9]),
    (bytes_eqb m [xff; x92]); reflexivity.
Qed.

Lemma getMarkerSegment_spec c p : 0 <= p ->
  let s := skipn (Z.to_nat p) c in
  getMarkerSegment c p =
  (sub s 0 2, seg_length s, seg_contents s,
   if seg_length s =? -9999 then -9999 else p + seg_length s + 2).
Proof.
  intros Hp. cbv zeta. set (s := skipn (Z.to_nat p) c). unfold getMarkerSegment. cbv zeta.
  assert (HM : slice c p (p + 2) = sub s 0 2).
  { rewrite slice_sub by lia. unfold s. rewrite sub_skipn by lia. f_equal; lia. }
  rewrite HM, delimiter_bin. rewrite u16_val by lia.
  replace (val c (p + 2) 2) with (val s 2 2) by (unfold s; rewrite val_skipn' by lia; f_equal; lia).
  fold (seg_length s).
  apply pair4; [reflexivity|reflexivity| |reflexivity].
  unfold seg_contents. destruct (seg_length_range s) as [HL|HL].
  - rewrite HL. cbn [Z.eqb Pos.eqb].
    assert (HN : len c < p + 4).
    { destruct (Z_le_gt_dec (p + 4) (len c)) as [L|L]; [|lia].
      unfold seg_length in HL. destruct (delimiter (sub s 0 2)); [discriminate|].
      unfold s in HL. rewrite val_skipn' in HL by lia.
      pose proof (val_readable c (p + 2) 2 ltac:(lia) ltac:(lia) ltac:(lia)). lia. }
    pose proof (len_nonneg c) as H0.
    unfold slice. replace (Z.to_nat _) with O; [reflexivity|].
    unfold norm_ix. destruct (p + 2 <? 0) eqn:E1; destruct (p + 2 + -9999 <? 0) eqn:E2; lia.
  - replace (seg_length s =? -9999) with false by lia.
    rewrite slice_sub by lia. unfold s. rewrite sub_skipn by lia. f_equal; lia.
Qed.

(** ** The split exists, is unique, and is short *)
Lemma segs_unique stop s l1 r1 : segs stop s l1 r1 ->
  forall l2 r2, segs stop s l2 r2 -> l1 = l2 /\ r1 = r2.
Proof.
  induction 1 as [s HS|s HS HL|s l r HS HL H IH]; intros l2 r2 H2; inversion H2; subst;
    try congruence; try lia; auto.
  destruct (IH _ _ ltac:(eassumption)) as (-> & ->). auto.
Qed.

Lemma segs_total stop s : exists l r, segs stop s l r.
Proof.
  remember (List.length s) as n eqn:Hn. revert s Hn.
  induction n as [n IH] using (well_founded_induction Wf_nat.lt_wf). intros s Hn.
  destruct (list_eq_dec Byte.byte_eq_dec (sub s 0 2) stop) as [D|D]; [do 2 eexists; now apply segs_stop|].
  destruct (seg_length_range s) as [HL|HL]; [do 2 eexists; now apply segs_cut|].
  destruct s as [|b s'] eqn:ES.
  - exfalso. assert (seg_length [] = -9999) by reflexivity. lia.
  - rewrite <- ES in *.
    destruct (IH (List.length (skipn (Z.to_nat (seg_length s + 2)) s)))
      with (s := skipn (Z.to_nat (seg_length s + 2)) s) as (l & r & H).
    + rewrite Hn, skipn_length. assert (0 < List.length s)%nat by (rewrite ES; cbn; lia). lia.
    + reflexivity.
    + do 2 eexists. eapply segs_more; [exact D|lia|exact H].
Qed.

Lemma segs_len stop s l r : segs stop s l r -> (2 * List.length l <= List.length s + 2)%nat.
Proof.
  induction 1 as [s HS|s HS HL|s l r HS HL H IH]; cbn [List.length]; [lia|lia|].
  rewrite skipn_length in IH.
  assert (HN : s <> []) by (intros ->; assert (seg_length [] = -9999) by reflexivity; lia).
  destruct (Nat.le_gt_cases 2 (List.length s)) as [G|G]; [lia|].
  assert (HM : seg_length s = -9999); [|lia].
  unfold seg_length. replace (delimiter (sub s 0 2)) with false.
  - apply val_missing. unfold len. lia.
  - destruct s as [|x [|y s]]; [contradiction| |cbn in G; lia].
    unfold sub. cbn. now destruct x.
Qed.

Lemma after_unique stop s l1 r1 l2 r2 : after stop s l1 r1 -> after stop s l2 r2 -> l1 = l2 /\ r1 = r2.
Proof.
  unfold after. destruct (seg_length s =? -9999); [intros (-> & ->) (-> & ->); auto|].
  intros H1 H2. now apply (segs_unique stop _ l1 r1 H1).
Qed.
Lemma after_total stop s : exists l r, after stop s l r.
Proof.
  unfold after. destruct (seg_length s =? -9999); [now exists [], None|apply segs_total].
Qed.
Lemma after_len stop s l r : after stop s l r -> (2 * List.length l <= List.length s + 2)%nat.
Proof.
  unfold after. destruct (seg_length s =? -9999); [intros (-> & _); cbn; lia|].
  intros H. apply segs_len in H. rewrite skipn_length in H. lia.
Qed.

(** ** Generic loop *)
Definition seg_child (rec : recT) (csiz : value) (t : treat * bytes * bytes) : res bv :=
  let '(k, m, x) := t in
  rec (BTb m) x VNone (match k with WithComponents => csiz | _ => VNone end).

Definition keeps (packet : bool) (t : treat) : bool :=
  match t with PacketMarker => packet | _ => true end.

Lemma attachIf_eq rec keep t x start csiz s :
  attachIf rec keep t x start csiz s =
  rbind (rec t x start csiz) (fun r =>
    Ok (r, app_st s (filled [r_tests r]) (if keep then [r_chars r] else []) (filled [r_warns r]))).
Proof.
  unfold attachIf, bind, lift. destruct (rec t x start csiz) as [r|e|]; [|reflexivity|reflexivity].
  cbn [rbind when]. unfold add_test_ne, add_warn_ne, filled. cbn [filter].
  destruct s, keep, (ekids (r_tests r)), (ekids (r_warns r)); unfold app_st; cbn;
    rewrite ?app_nil_r; reflexivity.
Qed.

Definition act (rec : recT) (packet : bool) (csiz : value) (tbl : list (bytes * treat)) (m x : bytes) : M unit :=
  match lookup m tbl with
  | Some k => _ <- attachIf rec (keeps packet k) (BTb m) x VNone
                     (match k with WithComponents => csiz | _ => VNone end) ;; ret tt
  | None => ret tt
  end.

Lemma act_eq rec packet csiz tbl m x s :
  act rec packet csiz tbl m x s =
  rbind (mapM (seg_child rec csiz) (treated tbl [(m, x)])) (fun rs =>
    Ok (tt, app_st s (filled (map r_tests rs)) (shown packet (treated tbl [(m, x)]) rs)
                   (filled (map r_warns rs)))).
Proof.
  unfold act, treated. cbn [flat_map]. destruct (lookup m tbl) as [k|]; cbn [app mapM rbind map].
  - unfold bind. rewrite attachIf_eq. unfold seg_child at 1.
    destruct (rec _ _ _ _) as [r|e|]; [|reflexivity|reflexivity].
    cbn [rbind map shown combine flat_map]. unfold ret. do 3 f_equal.
    destruct k, packet; reflexivity.
  - unfold ret. cbn. now rewrite app_st_nil.
Qed.

Lemma mapM_app {A B} (f : A -> res B) l1 l2 :
  mapM f (l1 ++ l2) = rbind (mapM f l1) (fun r1 => rbind (mapM f l2) (fun r2 => Ok (r1 ++ r2))).
Proof.
  induction l1 as [|x l1 IH]; cbn [app mapM rbind].
  - now destruct (mapM f l2).
  - destruct (f x) as [y|e|]; [|reflexivity|reflexivity]. cbn [rbind]. rewrite IH.
    destruct (mapM f l1) as [r1|e|]; [|reflexivity|reflexivity]. cbn [rbind].
    now destruct (mapM f l2).
Qed.
Lemma mapM_length {A B} (f : A -> res B) l r : mapM f l = Ok r -> List.length r = List.length l.
Proof.
  revert r. induction l as [|x l IH]; cbn [mapM]; intros r H; [injection H as <-; reflexivity|].
  destruct (f x); try discriminate. cbn [rbind] in H. destruct (mapM f l) as [ys| |]; try discriminate.
  injection H as <-. cbn. now rewrite (IH ys eq_refl).
Qed.
Lemma filled_app l1 l2 : filled (l1 ++ l2) = filled l1 ++ filled l2.
Proof. apply filter_app. Qed.
Lemma shown_app packet t1 r1 t2 r2 : List.length r1 = List.length t1 ->
  shown packet (t1 ++ t2) (r1 ++ r2) = shown packet t1 r1 ++ shown packet t2 r2.
Proof.
  revert r1. induction t1 as [|[[k m] x] t1 IH]; intros [|r r1] HL; try discriminate HL; [reflexivity|].
  injection HL as HL. cbn [app]. unfold shown in *. cbn [combine flat_map]. rewrite <- app_assoc.
  f_equal. now apply IH.
Qed.
Lemma treated_app tbl l1 l2 : treated tbl (l1 ++ l2) = treated tbl l1 ++ treated tbl l2.
Proof. apply flat_map_app. Qed.

Section Loop.
Variables (rec : recT) (packet : bool) (csiz : value) (tbl : list (bytes * treat)) (stop c : bytes).
Variables (S X : Type) (marker : S -> bytes) (offset next : S -> Z) (upd : S -> bytes -> Z -> S).
Variables (g : S -> X) (h : X -> bytes -> X).
Hypothesis marker_upd : forall s m n, marker (upd s m n) = m.
Hypothesis next_upd : forall s m n, next (upd s m n) = n.
Hypothesis offset_upd : forall s m n, m <> stop -> offset (upd s m n) = n.
Hypothesis g_upd : forall s m n, g (upd s m n) = h (g s) m.
Hypothesis h_stop : forall x, h x stop = x.
Hypothesis stop_untreated : lookup stop tbl = None.
Variable step : S -> M S.
Hypothesis step_eq : forall s st,
  step s st = (let '(m, _, x, n) := getMarkerSegment c (offset s) in
               _ <- act rec packet csiz tbl m x ;; ret (upd s m n)) st.

Definition segLoop (fuel : nat) : S -> M S :=
  loop fuel (fun s =>
    if negb (bytes_eqb (marker s) stop) && negb (next s =? -9999) then
      s' <- step s ;; ret (inl s')
    else ret (inr s)).

(** [s'] is the final state after the segments [l]. *)
Definition final (s : S) (l : list (bytes * bytes)) (r : option bytes) (s' : S) : Prop :=
  g s' = fold_left h (map fst l) (g s) /\
  match r with
  | None => marker s' <> stop
  | Some s1 => marker s' = stop /\
      exists t n, s' = upd t stop n /\ 0 <= offset t /\ s1 = skipn (Z.to_nat (offset t)) c
  end.

Lemma segLoop_spec l r sf : segs stop sf l r ->
  forall fuel s, marker s <> stop -> next s <> -9999 -> 0 <= offset s ->
  sf = skipn (Z.to_nat (offset s)) c -> (List.length l + 1 < fuel)%nat ->
  exists s', final s l r s' /\ forall st,
  segLoop fuel s st =
  rbind (mapM (seg_child rec csiz) (treated tbl l)) (fun rs =>
    Ok (s', app_st st (filled (map r_tests rs)) (shown packet (treated tbl l) rs)
                   (filled (map r_warns rs)))).
Proof.
  induction 1 as [sf HS|sf HS HL|sf l r HS HL H IH]; intros fuel s Hm Hn Hp Hsf Hfu.
  - destruct fuel as [|[|fuel]]; [cbn in Hfu; lia|cbn in Hfu; lia|].
    pose proof (getMarkerSegment_spec c (offset s) Hp) as HG. cbv zeta in HG. rewrite <- Hsf, HS in HG.
    exists (upd s stop (if seg_length sf =? -9999 then -9999 else offset s + seg_length sf + 2)). split.
    + split; [cbn; rewrite g_upd; apply h_stop|]. split; [apply marker_upd|].
      exists s. eexists. split; [reflexivity|]. auto.
    + intros st. unfold segLoop. cbn [loop]. unfold bind at 1.
      replace (bytes_eqb (marker s) stop) with false
        by (symmetry; apply not_true_iff_false; now rewrite bytes_eqb_spec).
      replace (next s =? -9999) with false by lia. cbn [negb andb].
      unfold bind at 1. rewrite step_eq, HG. unfold bind at 1. rewrite act_eq.
      unfold treated. cbn [flat_map]. rewrite stop_untreated. cbn [app mapM rbind map filled filter].
      unfold ret at 1 2. rewrite marker_upd, bytes_eqb_refl. cbn [negb andb].
      unfold bind, ret. cbn. now rewrite app_st_nil.
  - destruct fuel as [|[|fuel]]; [cbn in Hfu; lia|cbn in Hfu; lia|].
    pose proof (getMarkerSegment_spec c (offset s) Hp) as HG. cbv zeta in HG. rewrite <- Hsf, HL in HG.
    cbn [Z.eqb Pos.eqb] in HG.
    exists (upd s (sub sf 0 2) (-9999)). split.
    + split; [cbn; now rewrite g_upd|]. now rewrite marker_upd.
    + intros st. unfold segLoop. cbn [loop]. unfold bind at 1.
      replace (bytes_eqb (marker s) stop) with false
        by (symmetry; apply not_true_iff_false; now rewrite bytes_eqb_spec).
      replace (next s =? -9999) with false by lia. cbn [negb andb].
      unfold bind at 1. rewrite step_eq, HG. unfold bind at 1. rewrite act_eq.
      unfold seg_contents. rewrite HL. cbn [Z.eqb Pos.eqb].
      destruct (mapM _ _) as [rs|e|]; [|reflexivity|reflexivity]. cbn [rbind].
      unfold ret at 1 2. rewrite next_upd. cbn [Z.eqb Pos.eqb negb]. rewrite andb_false_r. reflexivity.
  - destruct fuel as [|fuel]; [cbn in Hfu; lia|].
    pose proof (getMarkerSegment_spec c (offset s) Hp) as HG. cbv zeta in HG. rewrite <- Hsf in HG.
    replace (seg_length sf =? -9999) with false in HG by lia.
    unfold seg_contents in HG. replace (seg_length sf =? -9999) with false in HG by lia.
    set (s1 := upd s (sub sf 0 2) (offset s + seg_length sf + 2)) in *.
    assert (HO : offset s1 = offset s + seg_length sf + 2) by (apply offset_upd; exact HS).
    destruct (IH fuel s1) as (s' & HF & HE).
    + unfold s1. now rewrite marker_upd.
    + unfold s1. rewrite next_upd. lia.
    + lia.
    + rewrite HO, Hsf at 1. rewrite Hsf at 1. rewrite skipn_skipn. f_equal. rewrite <- Hsf. lia.
    + cbn in Hfu. lia.
    + exists s'. split.
      * destruct HF as (HF1 & HF2). split; [|exact HF2]. rewrite HF1. cbn [map fold_left fst].
        unfold s1. now rewrite g_upd.
      * intros st. unfold segLoop. cbn [loop]. unfold bind at 1.
        replace (bytes_eqb (marker s) stop) with false
          by (symmetry; apply not_true_iff_false; now rewrite bytes_eqb_spec).
        replace (next s =? -9999) with false by lia. cbn [negb andb].
        unfold bind at 1. rewrite step_eq, HG. unfold bind at 1. rewrite act_eq.
        change (treated tbl ((sub sf 0 2, sub sf 2 (seg_length sf)) :: l)) with
          (treated tbl ([(sub sf 0 2, sub sf 2 (seg_length sf))] ++ l)).
        rewrite treated_app, mapM_app.
        destruct (mapM _ (treated tbl [_])) as [rs1|e|] eqn:EM; [|reflexivity|reflexivity]. cbn [rbind].
        unfold ret at 1 2. fold s1. cbn iota beta. fold (segLoop fuel s1).
        rewrite HE. destruct (mapM _ (treated tbl l)) as [rs2|e|]; [|reflexivity|reflexivity]. cbn [rbind].
        rewrite app_st_app, !map_app, !filled_app, shown_app by (now apply mapM_length in EM). reflexivity.
Qed.

(** From the segment before. *)
Lemma after_spec l r sf fuel s : after stop sf l r ->
  marker s <> stop -> offset s = next s -> next s = -9999 \/ 0 <= next s ->
  (next s = -9999 <-> seg_length sf = -9999) ->
  (next s <> -9999 -> skipn (Z.to_nat (seg_length sf + 2)) sf = skipn (Z.to_nat (offset s)) c) ->
  (List.length l + 1 < fuel)%nat ->
  exists s', final s l r s' /\ forall st,
  segLoop fuel s st =
  rbind (mapM (seg_child rec csiz) (treated tbl l)) (fun rs =>
    Ok (s', app_st st (filled (map r_tests rs)) (shown packet (treated tbl l) rs)
                   (filled (map r_warns rs)))).
Proof.
  unfold after. intros HA Hm Ho Hr Hn Hsk Hfu.
  destruct (seg_length sf =? -9999) eqn:EL.
  - destruct HA as (-> & ->). exists s. split; [split; [reflexivity|exact Hm]|].
    intros st. destruct fuel as [|fuel]; [cbn in Hfu; lia|]. unfold segLoop. cbn [loop].
    replace (next s =? -9999) with true by lia. cbn [negb]. rewrite andb_false_r. cbn. now rewrite app_st_nil.
  - eapply segLoop_spec; [exact HA|exact Hm|lia|lia|apply Hsk; lia|exact Hfu].
Qed.
End Loop.
