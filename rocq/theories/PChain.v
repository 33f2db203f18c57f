(** * The loop over tile parts *)

From Coq Require Import ZArith List Bool String Lia FinFun.
From Coq Require Import ZifyBool.
From Coq Require Import Init.Byte.
From Verif Require Import Py PyFloat ByteConv ETree BV VBoxes VMarkers VSuper Spec SpecBox SpecMarker
     SpecWalk SpecSuper SpecCS PBase PEmit PLeaf PMarker PMarker2 PWalk PSuper PSeg PTile.
Import ListNotations.
Open Scope string_scope.
Open Scope list_scope.
Open Scope Z_scope.

(** ** Dictionaries *)
Definition dict_of (n : Z) (k : Z -> Z) : pydict := map (fun i => (VInt i, VInt (k i))) (zseq n).
Definition dict_list (e : list (Z * Z)) : pydict := map (fun '(i, v) => (VInt i, VInt v)) e.

Lemma dict_of_list n k : dict_of n k = dict_list (map (fun i => (i, k i)) (zseq n)).
Proof. unfold dict_of, dict_list. now rewrite map_map. Qed.
Lemma dict_zeros_of n : dict_zeros n = dict_of n (fun _ => 0).
Proof. unfold dict_zeros, dict_of, zseq. now rewrite map_map. Qed.

Fixpoint getZ (i : Z) (e : list (Z * Z)) : option Z :=
  match e with [] => None | (j, v) :: r => if i =? j then Some v else getZ i r end.
Fixpoint setZ (i v : Z) (e : list (Z * Z)) : list (Z * Z) :=
  match e with [] => [(i, v)] | (j, w) :: r => if i =? j then (j, v) :: r else (j, w) :: setZ i v r end.

Lemma dict_get_list i e : dict_get (VInt i) (dict_list e) = option_map VInt (getZ i e).
Proof.
  induction e as [|[j v] e IH]; [reflexivity|]. cbn [dict_list map dict_get getZ py_eqb].
  destruct (i =? j); [reflexivity|exact IH].
Qed.
Lemma dict_set_list i v e : dict_set (VInt i) (VInt v) (dict_list e) = dict_list (setZ i v e).
Proof.
  induction e as [|[j w] e IH]; [reflexivity|]. cbn [dict_list map dict_set setZ py_eqb].
  destruct (i =? j); [reflexivity|]. cbn [map]. f_equal. exact IH.
Qed.
Lemma getZ_setZ i v e j : getZ j (setZ i v e) = if j =? i then Some v else getZ j e.
Proof.
  induction e as [|[k w] e IH]; cbn [setZ getZ].
  - destruct (j =? i); reflexivity.
  - destruct (i =? k) eqn:EK; cbn [getZ].
    + apply Z.eqb_eq in EK. subst k. destruct (j =? i); reflexivity.
    + rewrite IH. destruct (j =? k) eqn:EJ; [|reflexivity]. apply Z.eqb_eq in EJ. subst j.
      rewrite Z.eqb_sym, EK. reflexivity.
Qed.
Lemma getZ_in i v e : getZ i e = Some v -> In (i, v) e.
Proof.
  induction e as [|[j w] e IH]; [discriminate|]. cbn [getZ]. destruct (i =? j) eqn:EJ.
  - apply Z.eqb_eq in EJ. subst. intros H. injection H as ->. now left.
  - intros H. right. now apply IH.
Qed.
Lemma getZ_none i e : getZ i e = None <-> ~ In i (map fst e).
Proof.
  induction e as [|[j w] e IH]; [cbn; tauto|]. cbn [getZ map In fst]. destruct (i =? j) eqn:EJ.
  - apply Z.eqb_eq in EJ. subst. split; [discriminate|]. intros H. destruct H. now left.
  - rewrite IH. assert (j <> i) by lia. tauto.
Qed.
Lemma setZ_keys i v e : NoDup (map fst e) -> NoDup (map fst (setZ i v e)).
Proof.
  induction e as [|[j w] e IH]; cbn [setZ map fst]; intros H; [repeat constructor; auto|].
  inversion H as [|x l HN HD]; subst. destruct (i =? j) eqn:EJ; cbn [map fst].
  - now constructor.
  - constructor; [|now apply IH]. rewrite <- getZ_none, getZ_setZ.
    replace (j =? i) with false by lia. now apply getZ_none.
Qed.
Lemma in_getZ i v e : NoDup (map fst e) -> In (i, v) e -> getZ i e = Some v.
Proof.
  induction e as [|[j w] e IH]; [easy|]. cbn [map fst getZ]. intros HD [H|H].
  - injection H as -> ->. now rewrite Z.eqb_refl.
  - inversion HD as [|x l HN HD']; subst. destruct (i =? j) eqn:EJ; [|now apply IH].
    apply Z.eqb_eq in EJ. subst. destruct HN. apply in_map_iff. now exists (j, v).
Qed.

Lemma getZ_of n k i : getZ i (map (fun i => (i, k i)) (zseq n)) = if (0 <=? i) && (i <? n) then Some (k i) else None.
Proof.
  destruct ((0 <=? i) && (i <? n)) eqn:ER.
  - apply in_getZ.
    + rewrite map_map. cbn. rewrite map_id. unfold zseq. apply FinFun.Injective_map_NoDup; [|apply seq_NoDup].
      intros a b. lia.
    + apply in_map_iff. exists i. split; [reflexivity|]. apply in_zseq. lia.
  - apply getZ_none. rewrite map_map. cbn. rewrite map_id, in_zseq. lia.
Qed.
Lemma setZ_of n k i v : 0 <= i < n ->
  setZ i v (map (fun i => (i, k i)) (zseq n)) = map (fun j => (j, if j =? i then v else k j)) (zseq n).
Proof.
  intros Hi. assert (HN : NoDup (zseq n)).
  { unfold zseq. apply FinFun.Injective_map_NoDup; [|apply seq_NoDup]. intros a b. lia. }
  assert (HI : In i (zseq n)) by (apply in_zseq; lia).
  induction (zseq n) as [|j l IH]; [destruct HI|]. inversion HN as [|x l' HN1 HN2]; subst.
  cbn [map setZ]. destruct (i =? j) eqn:EJ.
  - apply Z.eqb_eq in EJ. subst j. rewrite Z.eqb_refl. f_equal. apply map_ext_in.
    intros a Ha. replace (a =? i) with false; [reflexivity|]. symmetry. apply Z.eqb_neq. intros ->. contradiction.
  - rewrite Z.eqb_sym in EJ. rewrite EJ. f_equal. apply IH; [exact HN2|]. destruct HI as [->|HI]; [lia|exact HI].
Qed.

Lemma forallb_dict_list e g :
  forallb (fun '(k, v) => match dict_get k g with Some v' => py_eqb v v' | None => false end) (dict_list e) =
  forallb (fun '(i, v) => match dict_get (VInt i) g with Some v' => py_eqb (VInt v) v' | None => false end) e.
Proof.
  induction e as [|[i v] e IH]; [reflexivity|]. unfold dict_list in *. cbn [map forallb]. now rewrite IH.
Qed.

Lemma dict_eqb_spec e n k : NoDup (map fst e) ->
  dict_eqb (dict_list e) (dict_of n k) = true <->
  (forall i, 0 <= i < n -> getZ i e = Some (k i)) /\ (forall i, getZ i e <> None -> 0 <= i < n).
Proof.
  intros HD. unfold dict_eqb. rewrite andb_true_iff, Z.eqb_eq, forallb_dict_list, forallb_forall.
  assert (HL : len (dict_list e) = len (map fst e)) by (unfold dict_list, len; now rewrite !map_length).
  assert (HL2 : len (dict_of n k) = len (zseq n)) by (unfold dict_of, len; now rewrite map_length).
  rewrite HL, HL2.
  assert (HZ : NoDup (zseq n)).
  { unfold zseq. apply FinFun.Injective_map_NoDup; [|apply seq_NoDup]. intros a b. lia. }
  assert (HG : forall i, dict_get (VInt i) (dict_of n k) =
                         if (0 <=? i) && (i <? n) then Some (VInt (k i)) else None).
  { intros i. rewrite dict_of_list, dict_get_list, getZ_of. now destruct ((0 <=? i) && (i <? n)). }
  split.
  - intros (HN & HF).
    assert (HI : forall i v, In (i, v) e -> 0 <= i < n /\ v = k i).
    { intros i v H. specialize (HF _ H). cbn in HF. rewrite HG in HF.
      destruct ((0 <=? i) && (i <? n)) eqn:ER; [|discriminate]. cbn [py_eqb] in HF. lia. }
    assert (HIN : incl (map fst e) (zseq n)).
    { intros i H. apply in_map_iff in H as ((j & v) & <- & H). apply in_zseq. now apply (HI j v). }
    assert (HIN2 : incl (zseq n) (map fst e)).
    { apply NoDup_length_incl; [exact HD| |exact HIN]. unfold len in HN. lia. }
    split.
    + intros i Hi. apply in_zseq in Hi. apply HIN2 in Hi. apply in_map_iff in Hi as ((j & v) & <- & H).
      cbn [fst]. rewrite (in_getZ j v e HD H). f_equal. now apply (HI j v).
    + intros i H. destruct (getZ i e) as [v|] eqn:EG; [|congruence]. apply getZ_in in EG. now apply (HI i v).
  - intros (H1 & H2). split.
    + assert (HIN : incl (map fst e) (zseq n)).
      { intros i H. apply in_zseq. apply H2. intros HX. apply getZ_none in HX. contradiction. }
      assert (HIN2 : incl (zseq n) (map fst e)).
      { intros i H. apply in_zseq in H. specialize (H1 i H). apply getZ_in in H1.
        apply in_map_iff. now exists (i, k i). }
      pose proof (NoDup_incl_length HD HIN). pose proof (NoDup_incl_length HZ HIN2). unfold len. lia.
    + intros (i & v) H. pose proof (in_getZ i v e HD H) as HGe.
      assert (HR : 0 <= i < n) by (apply H2; congruence). rewrite HG.
      replace ((0 <=? i) && (i <? n)) with true by lia. cbn [py_eqb]. rewrite (H1 i HR) in HGe.
      injection HGe as ->. apply Z.eqb_refl.
Qed.

(** ** The loop *)
Section Chain.
Variables (E : env) (op : opts) (fuel0 d : nat) (c : bytes) (m n : Z).
Let rec : recT := validate E op fuel0 d.
Definition tile_at (p : Z) : res bv := validate E op fuel0 d (BTb m_SOT) c (VInt p) (VInt m).

(** State after the tile parts [q]. *)
Record inv (q : list Z) (t : tpl) : Prop := {
  inv_ix : exists ix, tl_indices t = map VInt ix /\ NoDup ix /\ forall i, In i ix <-> In i (map (tp_isot c) q);
  inv_exp : exists e, tl_expected t = dict_list e /\ NoDup (map fst e) /\
                      forall i, getZ i e = parts_declared c q i;
  inv_found : tl_found t = dict_of n (parts_found c q)
}.

Hypothesis tile_ok : forall p r, 0 <= p -> sub c p 2 = m_SOT -> tile_at p = Ok r ->
  r_ret r = VInt (p + tp_psot c p) /\
  findElementText ["sot"; "isot"] (r_chars r) = VInt (tp_isot c p) /\
  findElementText ["sot"; "tnsot"] (r_chars r) = VInt (tp_tnsot c p).

Lemma declared_snoc q p i :
  parts_declared c (q ++ [p]) i =
  if (tp_isot c p =? i) && negb (tp_tnsot c p =? 0) then Some (tp_tnsot c p) else parts_declared c q i.
Proof.
  unfold parts_declared. rewrite rev_app_distr. cbn [rev app List.find].
  destruct ((tp_isot c p =? i) && negb (tp_tnsot c p =? 0)); reflexivity.
Qed.
Lemma found_snoc q p i :
  parts_found c (q ++ [p]) i = parts_found c q i + if tp_isot c p =? i then 1 else 0.
Proof.
  unfold parts_found. rewrite filter_app, len_app. cbn [filter].
  destruct (tp_isot c p =? i); reflexivity.
Qed.

(** The state after one more tile part. *)
Definition tl_step (t : tpl) (p : Z) (r : bv) : tpl :=
  {| tl_tests := appendIfNotEmpty (tl_tests t) (r_tests r);
     tl_chars := tl_chars t ++ [r_chars r];
     tl_warns := appendIfNotEmpty (tl_warns t) (r_warns r);
     tl_indices := if py_in (VInt (tp_isot c p)) (tl_indices t) then tl_indices t
                   else tl_indices t ++ [VInt (tp_isot c p)];
     tl_expected := if negb (py_eqb (VInt (tp_tnsot c p)) (VInt 0))
                    then dict_set (VInt (tp_isot c p)) (VInt (tp_tnsot c p)) (tl_expected t)
                    else tl_expected t;
     tl_found := if (0 <=? tp_isot c p) && (tp_isot c p <? n)
                 then dict_of n (fun i => if i =? tp_isot c p
                                          then match dict_get (VInt i) (tl_found t) with
                                               | Some (VInt z) => z + 1 | _ => 0 end
                                          else match dict_get (VInt i) (tl_found t) with
                                               | Some (VInt z) => z | _ => 0 end)
                 else tl_found t |}.

Lemma dict_of_ext k1 k2 : (forall i, 0 <= i < n -> k1 i = k2 i) -> dict_of n k1 = dict_of n k2.
Proof.
  intros H. unfold dict_of. apply map_ext_in. intros i Hi. apply in_zseq in Hi. now rewrite H.
Qed.
Lemma dict_get_of k i : dict_get (VInt i) (dict_of n k) =
  if (0 <=? i) && (i <? n) then Some (VInt (k i)) else None.
Proof.
  rewrite dict_of_list, dict_get_list, getZ_of. now destruct ((0 <=? i) && (i <? n)).
Qed.

Lemma inv_step q t p r : inv q t -> inv (q ++ [p]) (tl_step t p r).
Proof.
  intros [(ix & HI1 & HI2 & HI3) (e & HE1 & HE2 & HE3) HF]. constructor; cbn [tl_step tl_indices tl_expected tl_found].
  - rewrite HI1. destruct (py_in (VInt (tp_isot c p)) (map VInt ix)) eqn:EI.
    + apply py_in_ints in EI. exists ix. split; [reflexivity|]. split; [exact HI2|].
      intros i. rewrite map_app, in_app_iff. cbn. rewrite HI3 in *. intuition congruence.
    + assert (HX : ~ In (tp_isot c p) ix) by (rewrite <- py_in_ints; congruence).
      exists (ix ++ [tp_isot c p]). split; [now rewrite map_app|]. split.
      * apply NoDup_app_iff || (rewrite <- (rev_involutive (ix ++ [tp_isot c p])); apply NoDup_rev;
          rewrite rev_app_distr; cbn; constructor; [now rewrite <- in_rev|now apply NoDup_rev]).
      * intros i. rewrite map_app, !in_app_iff. cbn. rewrite HI3. tauto.
  - cbn [py_eqb]. rewrite HE1. destruct (tp_tnsot c p =? 0) eqn:ET; cbn [negb].
    + exists e. split; [reflexivity|]. split; [exact HE2|]. intros i. rewrite HE3, declared_snoc, ET.
      now rewrite andb_false_r.
    + exists (setZ (tp_isot c p) (tp_tnsot c p) e). split; [apply dict_set_list|]. split; [now apply setZ_keys|].
      intros i. rewrite getZ_setZ, HE3, declared_snoc, ET. rewrite andb_true_r, Z.eqb_sym. reflexivity.
  - destruct ((0 <=? tp_isot c p) && (tp_isot c p <? n)) eqn:ER.
    + apply dict_of_ext. intros i Hi. rewrite HF, dict_get_of.
      replace ((0 <=? i) && (i <? n)) with true by lia. rewrite found_snoc, Z.eqb_sym.
      destruct (tp_isot c p =? i); lia.
    + rewrite HF. apply dict_of_ext. intros i Hi. rewrite found_snoc.
      replace (tp_isot c p =? i) with false by lia. lia.
Qed.

Lemma append_filled k e : appendIfNotEmpty k e = k ++ filled [e].
Proof. unfold appendIfNotEmpty, filled. cbn. destruct (ekids e); [now rewrite app_nil_r|reflexivity]. Qed.

(** One iteration. *)
Definition tlBody (f : self) : Z * tpl -> M (Z * tpl + tpl) := fun '(offset, t) =>
    if bytes_eqb (slice (s_contents f) offset (offset + 2)) mSOT then
      r <- lift (rec (BTb mSOT) (s_contents f) (VInt offset) (VInt m)) ;;
      let tileIndex := findElementText ["sot"; "isot"] (r_chars r) in
      let tilePartsOfTile := findElementText ["sot"; "tnsot"] (r_chars r) in
      let t1 :=
        {| tl_tests := appendIfNotEmpty (tl_tests t) (r_tests r);
           tl_chars := tl_chars t ++ [r_chars r];
           tl_warns := appendIfNotEmpty (tl_warns t) (r_warns r);
           tl_indices := if py_in tileIndex (tl_indices t) then tl_indices t
                         else tl_indices t ++ [tileIndex];
           tl_expected := if negb (py_eqb tilePartsOfTile (VInt 0))
                          then dict_set tileIndex tilePartsOfTile (tl_expected t)
                          else tl_expected t;
           tl_found := tl_found t |} in
      match dict_get tileIndex (tl_found t1) with
      | None => ret (inr t1)
      | Some n =>
          n' <- lift (as_int n) ;;
          let t2 :=
            {| tl_tests := tl_tests t1; tl_chars := tl_chars t1; tl_warns := tl_warns t1;
               tl_indices := tl_indices t1; tl_expected := tl_expected t1;
               tl_found := dict_set tileIndex (VInt (n' + 1)) (tl_found t1) |} in
          if negb (py_eqb (r_ret r) (VInt offset)) then
            offset' <- lift (as_int (r_ret r)) ;;
            ret (inl (offset', t2))
          else ret (inr t2)
      end
    else ret (inr t).

Lemma tilePartLoop_body f fuel p t : tilePartLoop rec fuel f (VInt m) p t = loop fuel (tlBody f) (p, t).
Proof. reflexivity. Qed.

Lemma tlBody_spec f q p t st : s_contents f = c -> 0 <= p -> inv q t ->
  tlBody f (p, t) st =
  if bytes_eqb (sub c p 2) m_SOT then
    rbind (tile_at p) (fun r => Ok (
      if (0 <=? tp_isot c p) && (tp_isot c p <? n) && negb (tp_psot c p =? 0)
      then inl (p + tp_psot c p, tl_step t p r) else inr (tl_step t p r), st))
  else Ok (inr t, st).
Proof.
  intros Hc Hp HI. unfold tlBody. rewrite Hc. rewrite slice_sub by lia.
  replace (p + 2 - p) with 2 by lia. change mSOT with m_SOT.
  destruct (bytes_eqb (sub c p 2) m_SOT) eqn:EM; [|reflexivity].
  apply bytes_eqb_spec in EM. unfold bind at 1. unfold lift at 1.
  change (rec (BTb m_SOT) c (VInt p) (VInt m)) with (tile_at p).
  destruct (tile_at p) as [r|e|] eqn:ET; [|reflexivity|reflexivity].
  destruct (tile_ok p r Hp EM ET) as (H1 & H2 & H3). cbn [rbind]. rewrite H2, H3. cbv zeta.
  cbn [tl_found tl_tests tl_chars tl_warns tl_indices tl_expected].
  pose proof (inv_found _ _ HI) as HF. rewrite HF, dict_get_of.
  destruct ((0 <=? tp_isot c p) && (tp_isot c p <? n)) eqn:ER.
  - unfold bind at 1, lift at 1. cbn [as_int]. rewrite H1. cbn [py_eqb].
    assert (HS : dict_set (VInt (tp_isot c p)) (VInt (parts_found c q (tp_isot c p) + 1)) (dict_of n (parts_found c q)) =
                 tl_found (tl_step t p r)).
    { cbn [tl_step tl_found]. rewrite ER, dict_of_list, dict_set_list, setZ_of by lia. unfold dict_list.
      rewrite map_map. unfold dict_of at 1. apply map_ext_in. intros i Hi. apply in_zseq in Hi.
      rewrite HF, dict_get_of. replace ((0 <=? i) && (i <? n)) with true by lia.
      destruct (i =? tp_isot c p) eqn:EI; [|reflexivity]. apply Z.eqb_eq in EI. now subst i. }
    replace (p + tp_psot c p =? p) with (tp_psot c p =? 0) by lia. cbn [andb].
    rewrite HS. destruct (tp_psot c p =? 0); reflexivity.
  - cbn [andb]. unfold ret. do 3 f_equal. unfold tl_step. rewrite ER. rewrite HF. reflexivity.
Qed.

Lemma chain_loop f p ps : s_contents f = c -> chain n c p ps -> forall fuel q t st,
  inv q t -> (List.length ps < fuel)%nat ->
  match mapM tile_at ps with
  | Ok ts => exists t', loop fuel (tlBody f) (p, t) st = Ok (t', st) /\ inv (q ++ ps) t' /\
      tl_tests t' = tl_tests t ++ filled (map r_tests ts) /\
      tl_chars t' = tl_chars t ++ map r_chars ts /\
      tl_warns t' = tl_warns t ++ filled (map r_warns ts)
  | Raise e => loop fuel (tlBody f) (p, t) st = Raise e
  | Diverge => loop fuel (tlBody f) (p, t) st = Diverge
  end.
Proof.
  intros Hc HC. induction HC as [p Hp HM|p Hp HM HS|p ps Hp HM HI HP HC IH]; intros fuel q t st HInv Hfu.
  - cbn [mapM]. exists t. destruct fuel as [|fuel]; [cbn in Hfu; lia|]. cbn [loop]. unfold bind at 1.
    rewrite (tlBody_spec f q p t st Hc Hp HInv).
    replace (bytes_eqb (sub c p 2) m_SOT) with false
      by (symmetry; apply not_true_iff_false; now rewrite bytes_eqb_spec).
    cbn. rewrite !app_nil_r. auto.
  - destruct fuel as [|fuel]; [cbn in Hfu; lia|]. cbn [loop mapM]. unfold bind at 1 2 3.
    rewrite (tlBody_spec f q p t st Hc Hp HInv). rewrite HM, bytes_eqb_refl.
    destruct (tile_at p) as [r|e|]; [|reflexivity|reflexivity]. cbn [rbind].
    replace ((0 <=? tp_isot c p) && (tp_isot c p <? n) && negb (tp_psot c p =? 0)) with false by lia.
    exists (tl_step t p r). split; [reflexivity|]. split; [now apply inv_step|].
    cbn [tl_step tl_tests tl_chars tl_warns map]. rewrite !append_filled. auto.
  - destruct fuel as [|fuel]; [cbn in Hfu; lia|]. cbn [loop mapM]. unfold bind.
    rewrite (tlBody_spec f q p t st Hc Hp HInv). rewrite HM, bytes_eqb_refl.
    destruct (tile_at p) as [r|e|]; [|reflexivity|reflexivity]. cbn [rbind].
    replace ((0 <=? tp_isot c p) && (tp_isot c p <? n) && negb (tp_psot c p =? 0)) with true by lia.
    specialize (IH fuel (q ++ [p]) (tl_step t p r) st (inv_step q t p r HInv)).
    cbn in Hfu. specialize (IH ltac:(lia)).
    destruct (mapM tile_at ps) as [ts|e|]; cbn [rbind]; [|exact IH|exact IH].
    destruct IH as (t' & H1 & H2 & H3 & H4 & H5). exists t'. split; [exact H1|].
    rewrite <- app_assoc in H2. split; [exact H2|]. rewrite H3, H4, H5. cbn [tl_step tl_tests tl_chars tl_warns].
    rewrite !append_filled, <- !app_assoc. cbn [map]. split; [|split].
    + f_equal. now rewrite <- filled_app.
    + reflexivity.
    + f_equal. now rewrite <- filled_app.
Qed.

End Chain.

(** The chain is unique. *)
Lemma chain_unique n c p ps1 : chain n c p ps1 -> forall ps2, chain n c p ps2 -> ps1 = ps2.
Proof.
  induction 1 as [p Hp HM|p Hp HM HS|p ps Hp HM HI HP HC IH]; intros ps2 H2; inversion H2; subst;
    try congruence; try lia; try reflexivity.
  f_equal. auto.
Qed.
Lemma chain_len n c p ps : chain n c p ps -> (List.length ps + Z.to_nat p <= Nat.max (Z.to_nat p) (List.length c))%nat.
Proof.
  assert (HIN : forall p, 0 <= p -> sub c p 2 = m_SOT -> p < len c).
  { intros p' Hp HM. destruct (Z_lt_le_dec p' (len c)) as [L|L]; [exact L|].
    unfold sub in HM. rewrite skipn_all2 in HM by (unfold len in L; lia). discriminate HM. }
  induction 1 as [p Hp HM|p Hp HM HS|p ps Hp HM HI HP HC IH]; cbn [List.length].
  - lia.
  - specialize (HIN p Hp HM). unfold len in HIN. lia.
  - specialize (HIN p Hp HM). unfold len in HIN. lia.
Qed.
