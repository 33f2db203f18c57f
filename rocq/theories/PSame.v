(** * What the verdict does not depend on *)

From Coq Require Import ZArith List Bool String Lia Permutation.
From Coq Require Import Init.Byte.
From Verif Require Import Py ETree BV VSuper Spec SpecBox SpecMarker SpecIPL SpecWalk SpecSuper SpecCS SpecFile SpecTop SpecValid SpecSame
     PBase PEmit PWalk PWrite PSeg PLeaf2 PValid PTop.
Import ListNotations.
Open Scope string_scope.
Open Scope list_scope.
Open Scope Z_scope.

(** ** Codestreams: the tile parts are judged by the bytes from the first SOT on *)
Lemma skipn_pre (pre body : bytes) p : len pre <= p -> skipn (Z.to_nat p) (pre ++ body) = skipn (Z.to_nat (p - len pre)) body.
Proof.
  intros H. rewrite skipn_app. rewrite (skipn_all2 pre) by (unfold len in *; lia). cbn [app]. f_equal. unfold len in *. lia.
Qed.

Section Shift.
Variables (pre pre' body : bytes).
Let c := pre ++ body.
Let c' := pre' ++ body.
Let d := len pre' - len pre.

Lemma sh_skipn p : len pre <= p -> skipn (Z.to_nat (p + d)) c' = skipn (Z.to_nat p) c.
Proof. intros H. unfold c, c'. rewrite !skipn_pre by (unfold d; lia). f_equal. unfold d. lia. Qed.
Lemma sh_sub p n : len pre <= p -> sub c' (p + d) n = sub c p n.
Proof. intros H. unfold sub. now rewrite sh_skipn. Qed.
Lemma sh_sot p : len pre <= p -> tp_sot c' (p + d) = tp_sot c p.
Proof. intros H. unfold tp_sot. now rewrite sh_skipn. Qed.
Lemma sh_psot p : len pre <= p -> tp_psot c' (p + d) = tp_psot c p.
Proof. intros H. unfold tp_psot. now rewrite sh_sot. Qed.
Lemma sh_isot p : len pre <= p -> tp_isot c' (p + d) = tp_isot c p.
Proof. intros H. unfold tp_isot. now rewrite sh_sot. Qed.
Lemma sh_tnsot p : len pre <= p -> tp_tnsot c' (p + d) = tp_tnsot c p.
Proof. intros H. unfold tp_tnsot. now rewrite sh_sot. Qed.

Lemma sh_chain n p ps : chain n c p ps -> len pre <= p -> chain n c' (p + d) (map (fun q => q + d) ps) /\ Forall (fun q => len pre <= q) ps.
Proof.
  assert (HD : forall q, len pre <= q -> 0 <= q + d) by (intros q Hq; unfold d; pose proof (len_nonneg pre'); lia).
  induction 1 as [p H0 H1|p H0 H1 H2|p ps H0 H1 H2 H3 HC IH]; intros HP.
  - split; [|constructor]. apply chain_end; [now apply HD|now rewrite sh_sub].
  - split; [|repeat constructor; exact HP]. apply chain_stop; [now apply HD|now rewrite sh_sub|]. now rewrite sh_isot, sh_psot.
  - destruct (IH ltac:(lia)) as (IH1 & IH2). split; [|now constructor]. cbn [map]. apply chain_next; [now apply HD|now rewrite sh_sub|now rewrite sh_isot|now rewrite sh_psot|].
    rewrite sh_psot by exact HP. replace (p + d + tp_psot c p) with (p + tp_psot c p + d) by lia. exact IH1.
Qed.

Variable ps : list Z.
Hypothesis HP : Forall (fun q => len pre <= q) ps.
Let ps' := map (fun q => q + d) ps.
Lemma sh_map {A} (f f' : Z -> A) : (forall q, len pre <= q -> f' (q + d) = f q) -> map f' ps' = map f ps.
Proof. intros H. unfold ps'. rewrite map_map. apply map_ext_in. intros q Hq. rewrite Forall_forall in HP. now apply H, HP. Qed.
Lemma sh_tiles : tiles_found c' ps' = tiles_found c ps.
Proof. unfold tiles_found. now rewrite (sh_map (tp_isot c) (tp_isot c') sh_isot). Qed.
Lemma sh_found i : parts_found c' ps' i = parts_found c ps i.
Proof.
  unfold parts_found, ps'. clear ps'. revert HP. generalize ps as l. intros l HL. induction HL as [|q r Hq Hr IH]; [reflexivity|]. cbn [map filter]. rewrite (sh_isot q Hq).
  destruct (tp_isot c q =? i); [|exact IH]. unfold len in *. cbn [List.length]. rewrite !Nat2Z.inj_succ. now rewrite IH.
Qed.
Lemma sh_find (f f' : Z -> bool) l : Forall (fun q => len pre <= q) l -> (forall q, len pre <= q -> f' (q + d) = f q) ->
  List.find f' (map (fun q => q + d) l) = option_map (fun q => q + d) (List.find f l).
Proof.
  intros HL H. induction HL as [|q r Hq Hr IH]; [reflexivity|]. cbn [map List.find]. rewrite (H q Hq). destruct (f q); [reflexivity|exact IH].
Qed.
Lemma sh_declared i : parts_declared c' ps' i = parts_declared c ps i.
Proof.
  unfold parts_declared, ps'. rewrite <- map_rev. 
  assert (HR : Forall (fun q => len pre <= q) (rev ps)) by now apply Forall_rev.
  rewrite (sh_find (fun p => (tp_isot c p =? i) && negb (tp_tnsot c p =? 0))); [|exact HR|].
  - destruct (List.find _ (rev ps)) as [q|] eqn:EF; [|reflexivity]. cbn [option_map]. f_equal. apply sh_tnsot. apply find_some in EF. rewrite Forall_forall in HR. now apply HR.
  - intros q Hq. now rewrite sh_isot, sh_tnsot.
Qed.
Lemma sh_parts n : parts_ok n c ps -> parts_ok n c' ps'.
Proof.
  intros (H1 & H2). split; intros i; rewrite ?sh_declared, ?sh_found; auto.
Qed.
Lemma sh_exists : existsb (fun p => negb (tp_tnsot c' p =? 0)) ps' = existsb (fun p => negb (tp_tnsot c p =? 0)) ps.
Proof.
  unfold ps'. clear ps'. revert HP. generalize ps as l. intros l HL. induction HL as [|q r Hq Hr IH]; [reflexivity|]. cbn [map existsb]. now rewrite (sh_tnsot q Hq), IH.
Qed.
Lemma sot_read x : holds (sot_tests x) -> val x 4 4 <> -9999.
Proof.
  intros H. unfold sot_tests in H. rewrite !holds_cons in H. destruct H as (_ & _ & _ & H & _). unfold btw in H. 
  unfold val in *. destruct (8 + 1 <=? len x) eqn:E1; [|lia]. replace (4 + 4 <=? len x) with true by lia.
  pose proof (val_4_range x 4 ltac:(lia)) as HV. unfold val in HV. replace (4 + 4 <=? len x) with true in HV by lia.
  destruct HV as [HV|HV]; [|lia]. pose proof (beval_range (firstn (Z.to_nat 4) (skipn (Z.to_nat 4) x))). lia.
Qed.
Lemma sh_tile E fmt n p : len pre <= p -> tile_valid E fmt c n p -> tile_valid E fmt c' n (p + d).
Proof.
  intros Hp (l & r & HA & HS & HF & HT). exists l, r. rewrite sh_skipn, sh_sot by exact Hp. split; [exact HA|]. split; [exact HS|]. split; [exact HF|].
  unfold tp_tests in *. rewrite sh_sot, sh_psot by exact Hp. rewrite !holds_app in *. intuition.
  destruct (tp_psot c p =? 0) eqn:E0; [assumption|].
  assert (HN : tp_next c' (p + d) = tp_next c p).
  { unfold tp_next. rewrite sh_psot by exact Hp. destruct (tp_psot c p =? -9999) eqn:E9; [exfalso; apply (sot_read _ HS); unfold tp_psot in E9; lia|].
    replace (p + d + tp_psot c p) with (p + tp_psot c p + d) by lia. apply sh_sub. unfold tp_psot in *. pose proof (val_4_range (tp_sot c p) 4 ltac:(lia)). lia. }
  now rewrite HN.
Qed.
End Shift.

(** ** Codestreams: the main header *)
Lemma segs_suffix stop s l r : segs stop s l r -> forall b, r = Some b -> sub b 0 2 = stop /\ exists k, b = skipn k s.
Proof.
  induction 1 as [s H|s H H'|s l r H H' HS IH]; intros b HB.
  - injection HB as <-. split; [exact H|]. now exists 0%nat.
  - discriminate.
  - destruct (IH b HB) as (H1 & k & HK). split; [exact H1|]. rewrite skipn_skipn in HK. eauto.
Qed.
Lemma after_suffix c l b : after m_SOT (cs_second c) l (Some b) -> exists pre b2, c = pre ++ b /\ b = m_SOT ++ b2.
Proof.
  unfold after. intros H. destruct (seg_length (cs_second c) =? -9999) eqn:EL; [destruct H; discriminate|].
  destruct (segs_suffix _ _ _ _ H b eq_refl) as (H1 & k & HK). 
  assert (HC : exists k, b = skipn k c).
  { unfold cs_second in HK. destruct (seg_length c =? -9999); [rewrite !skipn_nil in HK; subst b; discriminate H1|]. rewrite !skipn_skipn in HK. eauto. }
  destruct HC as (j & HJ). exists (firstn j c), (skipn 2 b). split; [rewrite HJ; symmetry; apply firstn_skipn|].
  rewrite <- H1. unfold sub. cbn [Z.to_nat skipn]. symmetry. apply firstn_skipn.
Qed.
Lemma no_comments_in m y l : m <> m_COM -> (In (m, y) (no_comments l) <-> In (m, y) l).
Proof.
  intros H. unfold no_comments. rewrite filter_In. cbn [fst]. split; [tauto|]. intros HI. split; [exact HI|]. apply bytes_eqb_neq in H. now rewrite H.
Qed.
Lemma no_comments_segs m l : m <> m_COM -> segs_of m (no_comments l) = segs_of m l.
Proof.
  intros H. unfold segs_of, no_comments. f_equal. induction l as [|(k, y) l IH]; [reflexivity|]. cbn [filter fst].
  destruct (bytes_eqb k m_COM) eqn:EK; cbn [negb filter fst]; [|now rewrite IH].
  apply bytes_eqb_spec in EK. subst k. destruct (bytes_eqb m_COM m) eqn:EM; [|exact IH]. apply bytes_eqb_spec in EM. now elim H.
Qed.
Lemma treated_forall tbl (P : treat * bytes * bytes -> Prop) l :
  Forall P (treated tbl l) <-> forall m y k, In (m, y) l -> lookup m tbl = Some k -> P (k, m, y).
Proof.
  unfold treated. rewrite Forall_forall. split.
  - intros H m y k HI HL. apply H. apply in_flat_map. exists (m, y). split; [exact HI|]. rewrite HL. now left.
  - intros H ((k & m) & y) HI. apply in_flat_map in HI. destruct HI as ((m' & y') & HI & HK). destruct (lookup m' tbl) as [k'|] eqn:EL; [|destruct HK].
    destruct HK as [HK|[]]. injection HK as -> -> ->. now apply H.
Qed.

Lemma perm_filter {A} (f : A -> bool) a b : Permutation a b -> Permutation (filter f a) (filter f b).
Proof.
  induction 1 as [|x a b _ IH|x y a|a b c _ IH1 _ IH2]; [constructor| | |eapply perm_trans; eassumption]; cbn [filter].
  - destruct (f x); [now constructor|exact IH].
  - destruct (f x), (f y); try constructor; apply Permutation_refl.
Qed.
Section Main.
Variables (l l' : list (bytes * bytes)).
Hypothesis HP : Permutation (no_comments l) (no_comments l').
Lemma main_in m y : m <> m_COM -> In (m, y) l -> In (m, y) l'.
Proof. intros H HI. apply no_comments_in; [exact H|]. apply (Permutation_in _ HP). now apply no_comments_in. Qed.
Lemma main_type m : m <> m_COM -> In m (map fst l) -> In m (map fst l').
Proof. intros H HI. apply in_map_iff in HI. destruct HI as ((m' & y) & HE & HI). cbn [fst] in HE. subst m'. apply in_map_iff. exists (m, y). split; [reflexivity|]. now apply main_in. Qed.
Lemma main_segs m : m <> m_COM -> Permutation (segs_of m l) (segs_of m l').
Proof.
  intros H. rewrite <- (no_comments_segs m l H), <- (no_comments_segs m l' H). unfold segs_of. apply Permutation_map.
  now apply perm_filter.
Qed.
End Main.

Lemma perm_once {A} (a b : list bytes) (f : bytes -> A) name : Permutation a b ->
  holds (match a with [] => [] | x :: xs => [(name, NoDup (map f (x :: xs)))] end) ->
  holds (match b with [] => [] | x :: xs => [(name : string, NoDup (map f (x :: xs)))] end).
Proof.
  intros HP H. destruct a as [|x a]; [apply Permutation_nil in HP; subst; exact H|]. destruct b as [|y b]; [constructor|].
  apply holds_cons in H. destruct H as (H & _). apply holds_cons. split; [|constructor]. eapply Permutation_NoDup; [apply Permutation_map; exact HP|exact H].
Qed.

Lemma stream_ok E fmt x x' : stream_alike E x x' -> codestream_ok E fmt x -> codestream_ok E fmt x'.
Proof.
  intros (l & l' & body & H1 & H2 & H3 & HA & HA' & HP & HC & HC') (l0 & rest & ps & HA0 & HPS & HT1 & HN & HF & HTV & HT2 & HT3).
  assert (HU : l0 = l /\ rest = Some body) by (eapply after_unique; eassumption). destruct HU as (-> & ->). clear HA0.
  destruct (after_suffix _ _ _ HA) as (pre & b2 & HX & HB). destruct (after_suffix _ _ _ HA') as (pre' & b2' & HX' & _). clear b2'.
  assert (HL : len x - len body = len pre) by (rewrite HX; unfold len; rewrite app_length; lia).
  assert (HL' : len x' - len body = len pre') by (rewrite HX'; unfold len; rewrite app_length; lia).
  set (d := len pre' - len pre).
  assert (HCT : cs_tiles x' = cs_tiles x) by (unfold cs_tiles; now rewrite H3).
  assert (HCZ : cs_csiz x' = cs_csiz x) by (unfold cs_csiz; now rewrite H3).
  unfold parts in HPS. rewrite HL in HPS. rewrite HX in HPS at 2. destruct (sh_chain pre pre' body _ _ _ HPS (Z.le_refl _)) as (HPS' & HQ).
  replace (len pre + (len pre' - len pre)) with (len pre') in HPS' by lia. fold d in HPS'.
  assert (HTI : tiles_found x' (map (fun q => q + d) ps) = tiles_found x ps) by (rewrite HX, HX'; apply (sh_tiles pre pre' body ps HQ)).
  assert (HTE : existsb (fun p => negb (tp_tnsot x' p =? 0)) (map (fun q => q + d) ps) = existsb (fun p => negb (tp_tnsot x p =? 0)) ps)
    by (rewrite HX, HX'; apply (sh_exists pre pre' body ps HQ)).
  assert (HTP : forall n, parts_ok n x ps -> parts_ok n x' (map (fun q => q + d) ps)) by (intros n; rewrite HX, HX'; apply (sh_parts pre pre' body ps HQ)).
  exists l', (Some body), (map (fun q => q + d) ps). split; [exact HA'|]. split; [|split; [|split; [|split; [|split; [|split]]]]].
  - unfold parts. rewrite HL', HCT. now rewrite HX' at 1.
  - unfold cs_tests1 in *. now rewrite <- H1, <- H2.
  - now rewrite <- H3.
  - rewrite HCZ. apply treated_forall. intros m y k HI HK. destruct (list_eq_dec Byte.byte_eq_dec m m_COM) as [->|NE].
    + injection HK as <-. exact (HC' y HI).
    + apply (proj1 (treated_forall _ _ _) HF); [|exact HK]. exact (main_in l' l (Permutation_sym HP) m y NE HI).
  - rewrite HCZ. apply Forall_map. rewrite Forall_forall in *. intros q Hq. rewrite HX'. apply (sh_tile pre pre' body); [now apply HQ|]. rewrite <- HX. now apply HTV.
  - unfold cs_tests2 in *. rewrite HCT, <- H3. rewrite !holds_app, !holds_cons in *. destruct HT2 as ((T1 & T2 & _) & T3 & (T4 & _) & T5).
    split; [split; [|split; [|constructor]]|split; [|split; [split; [|constructor]|]]].
    + apply (main_type l l' HP); [discriminate|exact T1].
    + apply (main_type l l' HP); [discriminate|exact T2].
    + destruct (bitsk _ 14 4 =? 1); [|constructor]. apply holds_cons in T3. apply holds_cons. split; [|constructor]. apply (main_type l l' HP); [discriminate|apply T3].
    + now rewrite HTI.
    + rewrite HTE. destruct (existsb _ ps); [|constructor]. apply holds_cons in T5. apply holds_cons. split; [|constructor]. apply HTP, T5.
  - unfold cs_tests3 in *. rewrite HCZ. rewrite !holds_app in *. destruct HT3 as (T1 & T2 & T3). split; [|split].
    + eapply perm_once; [|exact T1]. apply (main_segs l l' HP). discriminate.
    + eapply perm_once; [|exact T2]. apply (main_segs l l' HP). discriminate.
    + apply holds_cons in T3. destruct T3 as ((q & HE) & _). apply holds_cons. split; [|constructor].
      rewrite HX in HE. apply app_eq_app in HE. destruct HE as (z & [(HE1 & HE2)|(HE1 & HE2)]).
      * destruct z as [|z0 [|z1 [|z2 z]]].
        -- cbn [app] in HE2. rewrite HX', <- HE2. now exists pre'.
        -- exfalso. rewrite HB in HE2. discriminate HE2.
        -- exfalso. rewrite HB in HE2. discriminate HE2.
        -- exfalso. discriminate HE2.
      * rewrite HX', HE2. exists (pre' ++ z). now rewrite app_assoc.
Qed.
