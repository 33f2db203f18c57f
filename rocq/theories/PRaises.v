(** * Codestreams: which exceptions, whatever the tile parts are *)

From Coq Require Import ZArith List Bool String Lia.
From Coq Require Import ZifyBool.
From Coq Require Import Init.Byte.
From Verif Require Import Py PyFloat ByteConv ETree BV VBoxes VMarkers VSuper Spec SpecBox SpecMarker SpecIPL
     SpecWalk SpecSuper SpecCS SpecFile SpecTop SpecValid SpecOutcome PBase PEmit PLeaf PLeaf2 PMarker PMarker2 PRel PWalk PSuper PSeg PTile
     PChain PCS PGrow PIPL Prop_Options PFile PTop PValid PEnds PLoop POutcome.
Import ListNotations.
Open Scope string_scope.
Open Scope list_scope.
Open Scope Z_scope.

(** [calm]: a result, or no end; no exception. *)
Definition no_exn (e : exn) : Prop := False.
Notation calm := (fine True no_exn).
Notation quiet := (safe True no_exn).

Lemma calm_raise {A} (r : res A) : calm r <-> forall e, r <> Raise e.
Proof.
  destruct r; cbn; split; intros; try exact I; try discriminate; try contradiction.
  now apply (H e).
Qed.

Lemma fails_of E op fuel d t c st cz e : validate E op fuel d t c st cz = Raise e -> e <> RecursionError ->
  fails E op t c st cz e.
Proof.
  intros HV HE. exists fuel, d. intros f' d' Hf Hd.
  pose proof (C57_limits E op fuel f' d d' t c st cz Hf Hd) as H. rewrite HV in H. now destruct e.
Qed.

Lemma leaf_exn E op fuel d n t x e : ~ In t (t_jp2c :: supers) -> (t = t_ftyp \/ t = t_cmap -> small x) ->
  validate E op fuel d (BTb t) x VNone (czv n) = Raise e -> e <> RecursionError -> trouble n t x (Exception e).
Proof.
  intros HN HL HV HE. pose proof (fails_of _ _ _ _ _ _ _ _ _ HV HE) as HF.
  destruct (leaf_total n t x) as (o & HO).
  assert (HD : does E op (BTb t) x VNone (czv n) o) by (apply leaf_does; assumption).
  apply does_settles in HD. change (does E op (BTb t) x VNone (czv n) (Exception e)) in HF. apply does_settles in HF.
  pose proof (settles_fun _ _ _ HD HF) as ->. destruct HO as [HO|[HO _]]; [exact HO|discriminate].
Qed.

(** Marker segments of a header. *)
Lemma seg_calm E op fuel d n k m : In (m, k) (main_markers ++ tile_markers) -> forall x,
  calm (validate E op fuel (S (S d)) (BTb m) x VNone (match k with WithComponents => VInt n | _ => VNone end)).
Proof.
  intros HI x. apply calm_raise. intros e HV.
  Ltac each HI := unfold main_markers, tile_markers in HI; cbn [app] in HI;
    repeat (destruct HI as [HI|HI]; [injection HI as <- <-; cbn; intuition discriminate|]); destruct HI.
  replace (match k with WithComponents => VInt n | _ => VNone end)
    with (czv (match k with WithComponents => Some n | _ => None end)) in HV by (destruct k; reflexivity).
  assert (HE : e <> RecursionError).
  { intros ->. assert (HF : fine True no_rec (validate E op fuel (S (S d)) (BTb m) x VNone (czv (match k with WithComponents => Some n | _ => None end)))).
    { apply leaf_fine; [exact code_no_rec| |auto|right; split; [lia|intros _; lia]]. clear HV. each HI. }
    rewrite HV in HF. now apply HF. }
  apply leaf_exn in HV; [| | |exact HE].
  - unfold main_markers, tile_markers in HI; cbn [app] in HI.
    repeat (destruct HI as [HI|HI]; [injection HI as <- <-;
      inversion HV; subst; try discriminate;
      match goal with H : In _ _ |- _ => cbn in H; intuition discriminate end|]). destruct HI.
  - clear HV. each HI.
  - clear HV. each HI.
Qed.

(** [ends_in m Q]: no exception, and a result satisfies [Q]. *)
Definition ends_in {A} (m : M A) (Q : A -> st -> Prop) : Prop :=
  forall s, match m s with Ok (a, s') => Q a s' | Raise _ => False | Diverge => True end.
Lemma ends_bind {A B} (m : M A) (k : A -> M B) Q R : ends_in m Q ->
  (forall a s, Q a s -> match k a s with Ok (b, s') => R b s' | Raise _ => False | Diverge => True end) ->
  ends_in (bind m k) R.
Proof. intros Hm Hk s. unfold bind. specialize (Hm s). destruct (m s) as [[a s1]|e|]; [now apply Hk|exact Hm|exact Hm]. Qed.
Lemma ends_then {A B} (m : M A) (k : A -> M B) R : quiet m -> (forall a, ends_in (k a) R) -> ends_in (bind m k) R.
Proof.
  intros Hm Hk s. unfold bind. specialize (Hm s). destruct (m s) as [[a s1]|e|]; [apply Hk|exact Hm|exact Hm].
Qed.
Lemma quiet_attachIf rec b t x st cz : calm (rec t x st cz) -> quiet (attachIf rec b t x st cz).
Proof. intros H. apply safe_attachIf. exact H. Qed.

(** Tile parts, wherever they are. *)
Lemma tile_calm E op fuel d c p n :
  match validate E op fuel (S (S (S d))) (BTb mSOT) c (VInt p) (VInt n) with
  | Ok r => exists z, r_ret r = VInt z
  | Raise _ => False
  | Diverge => True
  end.
Proof.
  rewrite validate_S.
  set (f := {| s_opts := op; s_btype := BTb mSOT; s_contents := c; s_start := VInt p; s_csiz := VInt n |}).
  change (runMethod E (validate E op fuel (S (S d))) fuel f) with (validate_tilePart (validate E op fuel (S (S d))) fuel f).
  enough (H : ends_in (validate_tilePart (validate E op fuel (S (S d))) fuel f) (fun _ s => exists z, st_ret s = VInt z)).
  { specialize (H st0). destruct (validate_tilePart _ _ _ st0) as [[u s]|e|]; [exact H|exact H|exact I]. }
  unfold validate_tilePart. apply ends_then; [apply safe_lift; exact I|]. intros start.
  destruct (getMarkerSegment _ _) as [[[m0 l0] x0] n0].
  apply ends_bind with (fun r _ => r_tpl r = VInt (val x0 4 4)).
  { intros s. rewrite attach_eq. destruct (sot_says E op fuel (S d) x0 VNone VNone) as (r & -> & _ & _ & _ & HR).
    cbn [rbind]. exact HR. }
  intros r s Hr. revert s.
  match goal with |- forall s, match ?m s with _ => _ end => change (ends_in m (fun _ s => exists z, st_ret s = VInt z)) end.
  apply ends_then.
  { unfold tileHeaderLoop. apply safe_loop; [exact I|]. intros s. destruct (_ && _); [|apply safe_ret].
    apply safe_bind; [|intros; apply safe_ret]. unfold tileHeaderStep.
    destruct (getMarkerSegment _ _) as [[[m l] x] nn].
    apply safe_bind; [|intros; apply safe_ret].
    destruct (bin m [mCOD; mQCD; mCOM]) eqn:HB.
    { apply bin_in in HB. apply safe_bind; [|intros; apply safe_ret]. apply quiet_attachIf.
      apply (seg_calm E op fuel d n Alone). cbn in HB |- *. intuition (subst; auto 30). }
    destruct (bin m [mCOC; mQCC; mRGN; mPOC]) eqn:HB2.
    { apply bin_in in HB2. apply safe_bind; [|intros; apply safe_ret]. apply quiet_attachIf.
      apply (seg_calm E op fuel d n WithComponents). cbn in HB2 |- *. intuition (subst; auto 30). }
    destruct (bin m [mPLT; mPPT]) eqn:HB3; [|apply safe_ret].
    apply bin_in in HB3. apply safe_bind; [|intros; apply safe_ret]. apply quiet_attachIf.
    apply (seg_calm E op fuel d n PacketMarker). cbn in HB3 |- *. intuition (subst; auto 30). }
  intros s. apply ends_then; [apply safe_test|]. intros _.
  apply ends_then; [intros ?; exact I|]. intros _. apply ends_then; [intros ?; exact I|]. intros _.
  apply ends_then; [intros ?; exact I|]. intros chars.
  do 5 (apply ends_then; [unfold onlyInFirst; destruct (findall _ _); [apply safe_ret|apply safe_test]|intros _]).
  do 2 (apply ends_then; [unfold uniqueTest; destruct (findAllText _ _); [apply safe_ret|apply safe_test]|intros _]).
  apply ends_then; [rewrite Hr; apply safe_lift; exact I|]. intros tl.
  apply ends_then; [apply safe_when, safe_test|]. intros _.
  intros s'. cbn. eauto.
Qed.

(** The loop over tile parts. *)
Definition ints_l (d : pydict) : Prop := Forall (fun p => exists z, snd p = VInt z) d.
Lemma ints_set d k z : ints_l d -> ints_l (dict_set k (VInt z) d).
Proof.
  unfold ints_l. induction 1 as [|[k1 v1] d H1 H2 IH]; cbn [dict_set].
  - constructor; [now exists z|constructor].
  - destruct (py_eqb k k1); constructor; auto. now exists z.
Qed.
Lemma ints_get d k v : ints_l d -> dict_get k d = Some v -> exists z, v = VInt z.
Proof.
  unfold ints_l. induction 1 as [|[k1 v1] d H1 H2 IH]; cbn [dict_get]; [discriminate|].
  destruct (py_eqb k k1); [intros [= <-]; exact H1|exact IH].
Qed.
Lemma tiles_calm E op fuel d n f k : forall q t, ints_l (tl_found t) ->
  quiet (loop k (tlBody E op fuel (S (S (S d))) n f) (q, t)).
Proof.
  induction k as [|k IH]; intros q t HT s; [exact I|]. cbn [loop]. revert s.
  unfold tlBody at 1. destruct (bytes_eqb _ mSOT); [|intros s; exact I].
  intros s. unfold bind at 1, bind at 1, lift at 1. pose proof (tile_calm E op fuel d (s_contents f) q n) as HC.
  destruct (validate E op fuel (S (S (S d))) (BTb mSOT) (s_contents f) (VInt q) (VInt n)) as [r|e|]; [|exact HC|exact I].
  destruct HC as (z & HZ). cbv zeta. cbn [tl_found].
  destruct (dict_get _ (tl_found t)) as [v|] eqn:HG; [|exact I].
  destruct (ints_get _ _ _ HT HG) as (y & ->). unfold bind at 1, lift at 1. cbn [as_int]. rewrite HZ. 
  destruct (negb (py_eqb (VInt z) (VInt q))); [|exact I].
  unfold bind at 1, lift at 1. cbn [as_int ret]. apply IH. cbn [tl_found]. now apply ints_set.
Qed.

Lemma cs_calm E op fuel d t c st cz cap :
  boxTypeOf t = "contiguousCodestreamBox" -> (List.length c + 3 <= fuel)%nat ->
  sub (cs_second c) 0 2 = m_SIZ -> siz_capability (val (cs_siz c) 2 2) = Some cap ->
  calm (validate E op fuel (S (S (S (S d)))) t c st cz).
Proof.
  intros Ht HF HSIZ HCAP. rewrite validate_S.
  set (f := {| s_opts := op; s_btype := t; s_contents := c; s_start := st; s_csiz := cz |}).
  set (D := S (S (S d))).
  replace (runMethod E (validate E op fuel D) fuel f)
    with (validate_contiguousCodestreamBox (validate E op fuel D) fuel f)
    by (unfold runMethod; cbn [s_btype f]; rewrite Ht; reflexivity).
  enough (HW : calm (validate_contiguousCodestreamBox (validate E op fuel D) fuel f st0)).
  { destruct (validate_contiguousCodestreamBox _ _ _ st0) as [[u s]|e|]; exact HW. }
  destruct (after_total m_SOT (cs_second c)) as (l & rest & HA).
  destruct (siz_says E op fuel (S (S d)) (cs_siz c) VNone VNone cap HCAP) as (rz & HVz & HRz & _ & _ & _).
  destruct HRz as (HTz & HCz & HWz). change (boxTypeOf (BTb mSIZ)) with "siz" in HCz. fold D in HVz.
  pose proof (second_spec c) as H2. rewrite getMarkerSegment_spec in H2 by lia.
  destruct (H2 HSIZ) as (p & Hn0 & Hp & Hsec). clear H2.
  pose proof (after_len _ _ _ _ HA) as HLEN.
  assert (HLC : (List.length (cs_second c) <= List.length c)%nat) by (rewrite Hsec, skipn_length; lia).
  destruct (mainHeader_spec (validate E op fuel D) fuel f (VInt (cs_csiz c)) p l rest Hp)
    as (s' & _ & _ & HE).
  { cbn [s_contents f]. rewrite <- Hsec, HSIZ. discriminate. }
  { cbn [s_contents f]. rewrite <- Hsec. exact HA. }
  { lia. }
  cbn [s_contents f s_opts] in HE. rewrite <- Hsec, HSIZ in HE.
  remember (validate_contiguousCodestreamBox (validate E op fuel D) fuel f st0) as R eqn:HR.
  unfold validate_contiguousCodestreamBox in HR. cbv zeta in HR. cbn [s_contents f] in HR.
  rewrite getMarkerSegment_spec in HR by lia. rewrite Hn0 in HR.
  rewrite getMarkerSegment_spec in HR by exact Hp. rewrite <- Hsec, HSIZ in HR.
  fold (cs_siz c) in HR. change (skipn (Z.to_nat 0) c) with c in HR.
  erewrite bind_emits in HR by apply emits_test. erewrite bind_emits in HR by apply emits_test.
  change (bytes_eqb m_SIZ mSIZ) with true in HR. cbn [when] in HR.
  rewrite bind_assoc in HR. unfold bind at 1 in HR. rewrite attach_eq in HR.
  unfold mSIZ in HVz. unfold m_SIZ in HR at 1. rewrite HVz in HR. cbn [rbind] in HR.
  rewrite HCz, siz_find in HR by (cbn; tauto). cbn [List.find String.eqb Ascii.eqb Bool.eqb fst snd] in HR.
  fold (cs_csiz c) in HR. rewrite !app_st_app in HR.
  match type of HR with _ = bind _ _ ?s => set (S0 := s) in HR end.
  assert (HS0 : st_chars S0 = [node "siz" (leaves (siz_props cap (cs_siz c)))]) by reflexivity. clearbody S0.
  rewrite bind_assoc in HR. unfold bind at 1 in HR. rewrite HE in HR. clear HE.
  destruct (mapM (seg_child (validate E op fuel D) (VInt (cs_csiz c))) (treated main_markers l)) as [rs|e|] eqn:EM;
    cbn [rbind] in HR; [| |now rewrite HR].
  2:{ exfalso. apply mapM_raise in EM. destruct EM as ([[k m] x] & HI & HV).
      apply in_treated in HI. destruct HI as (_ & HI).
      assert (HI2 : In (m, k) (main_markers ++ tile_markers)).
      { apply in_or_app. left. unfold lookup in HI. destruct (List.find _ main_markers) as [[m' k']|] eqn:EF; [|discriminate].
        injection HI as <-. apply find_some in EF. destruct EF as (EI & EB). apply bytes_eqb_spec in EB. cbn [fst] in EB. now subst m'. }
      pose proof (seg_calm E op fuel (S d) (cs_csiz c) k m HI2 x) as HC. fold D in HC.
      rewrite calm_raise in HC. apply (HC e). destruct k; exact HV. }
  rewrite bind_assoc in HR. erewrite bind_emits in HR by (apply (emits_int op)).
  rewrite bind_assoc in HR. erewrite bind_emits in HR by (apply (emits_int op)).
  rewrite bind_assoc in HR. erewrite bind_emits in HR by apply emits_test.
  rewrite bind_assoc in HR. erewrite bind_emits in HR by apply emits_test.
  rewrite bind_assoc in HR. unfold bind at 1 in HR. unfold get_chars at 1 in HR.
  rewrite !app_st_app in HR.
  match type of HR with context [findElementText ["siz"; "rsiz"] (node "" (st_chars ?s))] =>
    assert (HCH : forall k, In k ["csiz"; "rsiz"; "numberOfTiles"; "xsiz"; "ysiz"; "xOsiz"; "yOsiz"] ->
      findElementText ["siz"; k] (node "" (st_chars s)) =
      findElementText [k] (node "siz" (leaves (siz_props cap (cs_siz c)))))
  end.
  { intros k1 Hk1. cbn [st_chars app_st]. rewrite HS0. cbn [app]. apply find2; [reflexivity|now apply siz_has]. }
  rewrite !HCH in HR by (cbn; tauto).
  rewrite !siz_find in HR by (cbn; tauto). cbn [List.find String.eqb Ascii.eqb Bool.eqb fst snd] in HR.
  cbn [as_int] in HR.
  rewrite bind_assoc in HR. erewrite bind_emits in HR by (apply (emits_lift op)).
  rewrite bind_assoc, cap_bits in HR. erewrite bind_emits in HR by (eapply emits_when, emits_test).
  rewrite bind_assoc in HR. erewrite bind_emits in HR by (apply (emits_lift op)).
  fold (cs_tiles c) in HR. rewrite dict_zeros_of in HR. rewrite bind_assoc in HR.
  match type of HR with _ = ?m ?s => enough (HQ : quiet m) by (rewrite HR; apply HQ) end.
  clear HR. apply safe_bind.
  { destruct (bytes_eqb (mh_marker s') mSOT); [|apply safe_ret]. rewrite tilePartLoop_body. apply tiles_calm.
    cbn [tl_found]. unfold ints_l, dict_of. apply Forall_forall. intros [k1 v1] Hk.
    apply in_map_iff in Hk. destruct Hk as (z & [= <- <-] & _). now exists 0. }
  intros t'. apply safe_bind; [|intros _ s; exact I].
  do 2 (apply safe_bind; [first [apply safe_test|destruct (tl_expected t'); [apply safe_ret|apply safe_test]]|intros _]).
  apply safe_bind; [unfold add_test_ne; destruct (ekids _); intros s; exact I|intros _].
  apply safe_bind; [intros s; exact I|intros _].
  apply safe_bind; [unfold add_warn_ne; destruct (ekids _); intros s; exact I|intros _].
  apply safe_bind; [intros s; exact I|intros chars].
  do 2 (apply safe_bind; [unfold uniqueTest; destruct (findAllText _ _); [apply safe_ret|apply safe_test]|intros _]).
  apply safe_bind; [apply safe_test|intros _].
  apply safe_when. rewrite siz_depths_text.
  cbn [List.find String.eqb Ascii.eqb Bool.eqb fst snd as_int].
  do 4 (apply safe_bind; [intros s; exact I|intros ?]).
  apply safe_bind; [|intros cr s; exact I]. apply safe_lift. unfold calculateCompressionRatio. rewrite sum_ints. cbn [rbind].
  destruct (negb _); exact I.
Qed.

(** Exceptions of codestreams. *)
Lemma cs_exn E op t c st cz e : boxTypeOf t = "contiguousCodestreamBox" -> fails E op t c st cz e ->
  e = UnboundLocalError /\ sub (cs_second c) 0 2 = m_SIZ /\ siz_capability (val (cs_siz c) 2 2) = None.
Proof.
  intros Ht HF. destruct HF as (f0 & d0 & H) eqn:EH. clear EH.
  set (fuel := (f0 + List.length c + 3)%nat). specialize (H fuel (S (S (S (S d0)))) ltac:(lia) ltac:(lia)).
  destruct (bytes_eqb (sub (cs_second c) 0 2) m_SIZ) eqn:HS; [apply bytes_eqb_spec in HS|apply bytes_eqb_neq in HS].
  - destruct (siz_capability (val (cs_siz c) 2 2)) as [cap|] eqn:HC.
    + exfalso. pose proof (cs_calm E op fuel d0 t c st cz cap Ht ltac:(lia) HS HC) as HK. rewrite H in HK. exact HK.
    + change (does E op t c st cz (Exception e)) in HF. apply does_settles in HF.
      pose proof (cs_does E op t c st cz _ Ht (out_siz c HS HC)) as HD. apply does_settles in HD.
      pose proof (settles_fun _ _ _ HD HF) as [= <-]. now repeat split.
  - exfalso. change (does E op t c st cz (Exception e)) in HF. apply does_settles in HF.
    pose proof (cs_does E op t c st cz _ Ht (out_nosiz c HS)) as HD. apply does_settles in HD.
    pose proof (settles_fun _ _ _ HD HF). discriminate.
Qed.

(** Exceptions of boxes and files. *)
Lemma inside_exn E op t c e : t = BTs "JP2" \/ (exists s, t = BTb s /\ In s supers) -> fails E op t c VNone VNone e ->
  e <> RecursionError -> exists bs b, splits c bs /\ In b bs /\ fails E op (BTb (fst b)) (snd b) VNone VNone e.
Proof.
  intros Ht (f0 & d0 & H) HE. destruct (splits_total c) as (bs & HS).
  pose proof (super_outcome E op (f0 + S (List.length bs)) d0 t c bs Ht HS ltac:(lia)) as HO.
  specialize (H (f0 + S (List.length bs))%nat (S d0) ltac:(lia) ltac:(lia)).
  destruct (mapM _ bs) as [rs|e'|] eqn:EM; [destruct HO as (r & HO); congruence| |congruence].
  assert (e' = e) as -> by congruence. destruct (mapM_raise _ _ _ EM) as (b & Hb & HV).
  exists bs, b. split; [exact HS|]. split; [exact Hb|]. eapply fails_of; [exact HV|exact HE].
Qed.
Lemma box_exn E op e : e <> RecursionError -> forall k t x, len x < Z.of_nat k -> small x ->
  fails E op (BTb t) x VNone VNone e -> trigger (t, x) e \/ exists b, In t supers /\ inbox x b /\ trigger b e.
Proof.
  intros HE. induction k as [|k IH]; intros t x Hk Hs HF; [pose proof (len_nonneg x); lia|].
  destruct (supers_dec t) as [Ht|Ht].
  - right. destruct (inside_exn E op (BTb t) x e (or_intror (ex_intro _ t (conj eq_refl Ht))) HF HE) as (bs & (s, y) & HS & Hb & HB).
    pose proof (splits_inside _ _ HS) as HL. rewrite Forall_forall in HL. specialize (HL _ Hb). cbn [fst snd] in *.
    destruct (IH s y) as [H|(b & H1 & H2 & H3)]; [lia|unfold small in *; lia|exact HB| |].
    + exists (s, y). split; [exact Ht|]. split; [now apply inbox_here with bs|exact H].
    + exists b. split; [exact Ht|]. split; [|exact H3]. apply inbox_trans with s y; auto. now apply inbox_here with bs.
  - left. destruct (list_eq_dec Byte.byte_eq_dec t t_jp2c) as [->|Hc].
    + right. cbn [fst snd]. split; [reflexivity|]. now apply (cs_exn E op (BTb t_jp2c) x VNone VNone).
    + left. cbn [fst snd]. assert (HN : ~ In t (t_jp2c :: supers)) by (intros [H|H]; [now apply Hc|contradiction]).
      split; [exact HN|]. destruct HF as (f0 & d0 & HF).
      apply (leaf_exn E op f0 d0 None t x e HN); [auto|apply HF; lia|exact HE].
Qed.
Lemma root_exn E op c e : small c -> fails E op (BTs "JP2") c VNone VNone e -> e <> RecursionError ->
  exists b, inbox c b /\ trigger b e.
Proof.
  intros Hs HF HE. destruct (inside_exn E op (BTs "JP2") c e (or_introl eq_refl) HF HE) as (bs & (s, y) & HS & Hb & HB).
  pose proof (splits_inside _ _ HS) as HL. rewrite Forall_forall in HL. specialize (HL _ Hb). cbn [fst snd] in *.
  destruct (box_exn E op e HE (Z.to_nat (len y + 1)) s y) as [H|(b & H1 & H2 & H3)];
    [pose proof (len_nonneg y); lia|unfold small in *; lia|exact HB| |].
  - exists (s, y). split; [now apply inbox_here with bs|exact H].
  - exists b. split; [|exact H3]. apply inbox_trans with s y; auto. now apply inbox_here with bs.
Qed.
Lemma trigger_fails E op b e : trigger b e -> fails E op (BTb (fst b)) (snd b) VNone VNone e.
Proof.
  destruct b as (t, x). intros [(HN & HT)|(HT & -> & HS & HC)]; cbn [fst snd] in *.
  - exact (trouble_does E op None t x (Exception e) HT).
  - subst t. exact (cs_does E op (BTb t_jp2c) x VNone VNone (Exception UnboundLocalError) eq_refl (out_siz x HS HC)).
Qed.
