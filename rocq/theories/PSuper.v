(** * Reports of superboxes *)

From Coq Require Import ZArith List Bool String Lia.
From Coq Require Import ZifyBool.
From Coq Require Import Init.Byte.
From Verif Require Import Py PyFloat ByteConv Shared ETree BV VBoxes VMarkers VSuper
     Spec SpecBox SpecWalk SpecSuper PBase PText PEmit PLeaf PWalk.
Import ListNotations.
Open Scope string_scope.
Open Scope list_scope.
Open Scope Z_scope.

(** ** Counting *)
Lemma bcount_le1 t l : bcount t l <= 1 <-> at_most_one t l.
Proof.
  unfold bcount, at_most_one. split.
  - intros H a b c ->. rewrite !filter_app in H. cbn [filter] in H. rewrite !filter_app in H.
    cbn [filter] in H. rewrite bytes_eqb_refl in H.
    repeat (rewrite ?len_app, ?len_cons in H).
    pose proof (len_nonneg (filter (bytes_eqb t) a)). pose proof (len_nonneg (filter (bytes_eqb t) b)).
    pose proof (len_nonneg (filter (bytes_eqb t) c)). lia.
  - intros H. destruct (Z_le_gt_dec (len (filter (bytes_eqb t) l)) 1) as [G|G]; [exact G|exfalso].
    assert (HS : forall m, 1 <= len (filter (bytes_eqb t) m) ->
      exists a b, m = a ++ t :: b /\ len (filter (bytes_eqb t) b) = len (filter (bytes_eqb t) m) - 1).
    { induction m as [|x m IH]; [cbn; lia|]. cbn [filter]. destruct (bytes_eqb t x) eqn:EX.
      - intros _. apply bytes_eqb_spec in EX. subst x. exists [], m. split; [reflexivity|].
        rewrite len_cons. lia.
      - intros HM. destruct (IH HM) as (a & b & -> & HB). exists (x :: a), b. split; [reflexivity|exact HB]. }
    destruct (HS l ltac:(lia)) as (a & b & -> & HB). destruct (HS b ltac:(lia)) as (b' & c & -> & _).
    now apply (H a b' c).
Qed.
Lemma bcount_pos t l : 1 <= bcount t l <-> In t l.
Proof.
  unfold bcount. split.
  - intros H. destruct (filter (bytes_eqb t) l) as [|x m] eqn:EF; [cbn in H; lia|].
    assert (HI : In x (filter (bytes_eqb t) l)) by (rewrite EF; now left).
    apply filter_In in HI as (HI & HE). apply bytes_eqb_spec in HE. now subst.
  - intros H. assert (HI : In t (filter (bytes_eqb t) l))
      by (apply filter_In; split; [exact H|apply bytes_eqb_refl]).
    destruct (filter (bytes_eqb t) l) as [|x m]; [destruct HI|]. rewrite len_cons.
    pose proof (len_nonneg m). lia.
Qed.
Lemma bcount_eq1 t l : (bcount t l =? 1) = true <-> exactly_one t l.
Proof. unfold exactly_one. rewrite <- bcount_le1, <- bcount_pos. lia. Qed.
Lemma bcount_leb t l : (bcount t l <=? 1) = true <-> at_most_one t l.
Proof. rewrite <- bcount_le1. lia. Qed.

(** ** Children *)
Lemma mapM_Forall2 {A B} (f : A -> res B) l rs :
  mapM f l = Ok rs <-> Forall2 (fun x r => f x = Ok r) l rs.
Proof.
  revert rs. induction l as [|x l IH]; intros rs; cbn [mapM].
  - split; [intros H; injection H as <-; constructor | intros H; inversion H; reflexivity].
  - split.
    + destruct (f x) as [y|e|] eqn:EX; cbn [rbind]; try discriminate.
      destruct (mapM f l) as [ys|e|] eqn:EL; cbn [rbind]; try discriminate.
      intros H. injection H as <-. constructor; [exact EX|]. now apply IH.
    + intros H. inversion H as [|? y ? ys H1 H2]; subst. rewrite H1. cbn [rbind].
      apply IH in H2. now rewrite H2.
Qed.

Lemma assoc_b_in k l n : assoc_b k l = Some n -> In (k, n) l.
Proof.
  induction l as [|[k' v] l IH]; cbn [assoc_b]; [discriminate|].
  destruct (bytes_eqb k k') eqn:EK.
  - apply bytes_eqb_spec in EK. subst k'. intros H. injection H as ->. now left.
  - intros H. right. now apply IH.
Qed.

(** Only the type [t] has the name [n]. *)
Definition owns (t : bytes) (n : string) : Prop :=
  assoc_b t typeMap_b = Some n /\
  forallb (fun '(k, n') => negb (String.eqb n' n) || bytes_eqb k t) typeMap_b = true /\ n <> "unknownBox".
Lemma owns_spec t n b : owns t n -> (boxTypeOf (BTb b) = n <-> b = t).
Proof.
  intros (H1 & H2 & H3). cbn [boxTypeOf]. split.
  - destruct (assoc_b b typeMap_b) as [n'|] eqn:EA; [|congruence]. intros ->.
    apply assoc_b_in in EA. rewrite forallb_forall in H2. specialize (H2 _ EA). cbn in H2.
    rewrite String.eqb_refl in H2. now apply bytes_eqb_spec.
  - intros ->. now rewrite H1.
Qed.
Lemma owns_eqb t n b : owns t n -> String.eqb (boxTypeOf (BTb b)) n = bytes_eqb b t.
Proof.
  intros H. apply Bool.eq_true_iff_eq. rewrite String.eqb_eq, bytes_eqb_spec. now apply owns_spec.
Qed.

Lemma validate_tag E op fuel d t c start csiz r :
  validate E op fuel d t c start csiz = Ok r ->
  (exists k, r_tests r = node (testRoot t) k) /\ (exists k, r_chars r = node (charRoot t) k) /\
  (exists k, r_warns r = node (warnRoot t) k).
Proof.
  destruct d as [|d]; [discriminate|]. rewrite validate_S.
  destruct (runMethod _ _ _ _ _) as [[u s]|e|]; try discriminate. intros H. injection H as <-.
  cbn. split; [|split]; eexists; reflexivity.
Qed.

Section Kids.
Variables (E : env) (op : opts) (fuel d : nat).
Let kid (b : bytes * bytes) (r : bv) : Prop := child (validate E op fuel d) b = Ok r.

Lemma kids_tag bs rs n t : Forall2 kid bs rs -> owns t n ->
  Forall2 (fun x e => exists r, validate E op fuel d (BTb t) x VNone VNone = Ok r /\ e = r_chars r)
          (boxes_of t bs) (filter (fun c => String.eqb (etag c) n) (map r_chars rs)).
Proof.
  intros HF HO. induction HF as [|[b x] r bs rs HK HF IH]; [constructor|].
  unfold boxes_of. cbn [filter map fst].
  destruct (validate_tag _ _ _ _ _ _ _ _ _ HK) as (_ & (k & HC) & _). cbn [fst snd] in HC.
  rewrite HC. cbn [etag node]. unfold charRoot. cbn [isTop]. rewrite (owns_eqb t n b HO).
  destruct (bytes_eqb b t) eqn:EB; [|exact IH]. apply bytes_eqb_spec in EB. subst b.
  cbn [map]. constructor; [|exact IH]. exists r. split; [exact HK|]. rewrite HC. reflexivity.
Qed.

Lemma kids_ihdr bs rs : Forall2 kid bs rs ->
  filter (fun c => String.eqb (etag c) "imageHeaderBox") (map r_chars rs) =
  map (fun x => node "imageHeaderBox" (leaves (ihdr_props x))) (boxes_of t_ihdr bs).
Proof.
  intros HF. pose proof (kids_tag bs rs "imageHeaderBox" t_ihdr HF) as H.
  specialize (H ltac:(repeat split; discriminate)).
  induction H as [|x e l m (r & HV & ->) _ IH]; [reflexivity|]. cbn [map]. f_equal; [|exact IH].
  destruct d as [|d']; [discriminate|].
  destruct (ihdr_says E op fuel d' x VNone VNone) as (r' & HV' & (_ & HC & _) & _).
  unfold tagIHDR in HV'. unfold t_ihdr in HV. rewrite HV' in HV. injection HV as <-. exact HC.
Qed.

Lemma kids_find1 bs rs f : Forall2 kid bs rs -> In f (map fst (ihdr_props [])) ->
  findElementText ["imageHeaderBox"; f] (node "" (map r_chars rs)) =
  match first_of t_ihdr bs with
  | Some x => match List.find (fun nv => String.eqb (fst nv) f) (ihdr_props x) with
              | Some nv => snd nv | None => VNone end
  | None => VNone
  end.
Proof.
  intros HF Hf. unfold findElementText, find. cbn [findall ekids node]. rewrite (kids_ihdr bs rs HF).
  unfold first_of. destruct (boxes_of t_ihdr bs) as [|x l]; [reflexivity|].
  cbn [map flat_map hd_error]. cbn in Hf.
  repeat (destruct Hf as [<-|Hf]; [reflexivity|]). destruct Hf.
Qed.
End Kids.

Section Kids2.
Variables (E : env) (op : opts) (fuel d : nat).
Let kid (b : bytes * bytes) (r : bv) : Prop := child (validate E op fuel d) b = Ok r.

Lemma kids_cdef bs rs : Forall2 kid bs rs ->
  filter (fun c => String.eqb (etag c) "channelDefinitionBox") (map r_chars rs) =
  map (fun x => node "channelDefinitionBox" (leaves (cdef_props x))) (boxes_of t_cdef bs).
Proof.
  intros HF. pose proof (kids_tag E op fuel d bs rs "channelDefinitionBox" t_cdef HF) as H.
  specialize (H ltac:(repeat split; discriminate)).
  induction H as [|x e l m (r & HV & ->) _ IH]; [reflexivity|]. cbn [map]. f_equal; [|exact IH].
  destruct d as [|d']; [discriminate|].
  destruct (cdef_says E op fuel d' x VNone VNone) as (r' & HV' & (_ & HC & _) & _).
  unfold tagCDEF in HV'. unfold t_cdef in HV. rewrite HV' in HV. injection HV as <-. exact HC.
Qed.

Lemma cdef_ctyp x : findAllText ["cTyp"] (node "channelDefinitionBox" (leaves (cdef_props x))) =
  map (fun i => VInt (val x (4 + 6 * i) 2)) (zseq (val x 0 2)).
Proof.
  unfold findAllText. cbn [findall ekids node]. unfold cdef_props.
  change (leaves (("n", VInt (val x 0 2)) :: ?l)) with (leaf "n" (VInt (val x 0 2)) :: leaves l).
  cbn [leaves map filter etag leaf]. cbn [String.eqb Ascii.eqb Bool.eqb].
  fold (leaves (flat_map (fun i => [("cN", VInt (val x (2 + 6 * i) 2)); ("cTyp", VInt (val x (4 + 6 * i) 2));
                       ("cAssoc", VInt (val x (6 + 6 * i) 2))]) (zseq (val x 0 2)))).
  rewrite leaves_flat.
  induction (zseq (val x 0 2)) as [|i l IH]; [reflexivity|]. cbn. f_equal. exact IH.
Qed.

Lemma kids_ctyp bs rs : Forall2 kid bs rs ->
  py_in (VInt 0) (findAllText ["channelDefinitionBox"; "cTyp"] (node "" (map r_chars rs))) = false <->
  (forall x i, In x (boxes_of t_cdef bs) -> 0 <= i < val x 0 2 -> val x (4 + 6 * i) 2 <> 0).
Proof.
  intros HF. unfold findAllText. cbn [findall ekids node]. rewrite (kids_cdef bs rs HF).
  rewrite flat_map_concat_map, map_map, <- flat_map_concat_map.
  unfold py_in. rewrite <- not_true_iff_false, existsb_exists. split.
  - intros H x i Hx Hi H0. apply H. exists (VInt 0). split; [|reflexivity].
    apply in_map_iff.
    assert (HI : In (VInt 0) (findAllText ["cTyp"] (node "channelDefinitionBox" (leaves (cdef_props x))))).
    { rewrite cdef_ctyp. apply in_map_iff. exists i. split; [now rewrite H0|now apply in_zseq]. }
    apply in_map_iff in HI as (e & He & HI). exists e. split; [exact He|].
    apply in_flat_map. exists x. split; [exact Hx|exact HI].
  - intros H (v & Hv & HE). apply in_map_iff in Hv as (e & <- & Hv).
    apply in_flat_map in Hv as (x & Hx & Hv).
    assert (HI : In (etext e) (findAllText ["cTyp"] (node "channelDefinitionBox" (leaves (cdef_props x)))))
      by (apply in_map; exact Hv).
    rewrite cdef_ctyp in HI. apply in_map_iff in HI as (i & Hi & HZ). apply in_zseq in HZ.
    rewrite <- Hi in HE. cbn [py_eqb] in HE. apply Z.eqb_eq in HE. now apply (H x i Hx HZ).
Qed.
End Kids2.

(** ** Generic superbox *)
Lemma bind_emits {A B} o (m : M A) (k : A -> M B) a T C W s :
  emits o m a T C W -> bind m k s = k a (app_st s (vis (o_verbose o) T) C W).
Proof. intros H. unfold bind. now rewrite H. Qed.

Definition with_valid (v : value) (s : st) : st :=
  {| st_tests := st_tests s; st_chars := st_chars s; st_warns := st_warns s;
     st_ret := st_ret s; st_valid := v; st_tpl := st_tpl s |}.

Lemma super_intro E op fuel d t c start csiz bs (own : list bytes -> M unit) L props vf :
  splits c bs -> (List.length bs < fuel)%nat ->
  runMethod E (validate E op fuel d) fuel
    {| s_opts := op; s_btype := t; s_contents := c; s_start := start; s_csiz := csiz |} =
  bind (boxLoop (validate E op fuel d) fuel
    {| s_opts := op; s_btype := t; s_contents := c; s_start := start; s_csiz := csiz |}) own ->
  (forall rs s, Forall2 (fun b r => child (validate E op fuel d) b = Ok r) bs rs ->
     s = app_st st0 (filled (map r_tests rs)) (map r_chars rs) (filled (map r_warns rs)) ->
     exists T, own (map fst bs) s = Ok (tt, with_valid (vf rs T) (app_st s (vis (o_verbose op) T) (props rs) [])) /\
               tbl_ok (L rs) T) ->
  match mapM (child (validate E op fuel d)) bs with
  | Ok rs => exists r T, validate E op fuel (S d) t c start csiz = Ok r /\
      super_says (o_verbose op) (testRoot t) (charRoot t) (warnRoot t) rs (L rs) (props rs) r /\
      r_ret r = VNone /\ r_valid r = vf rs T /\ r_tpl r = VNone /\
      tbl_ok (L rs) T /\ r_tests r = node (testRoot t) (filled (map r_tests rs) ++ vis (o_verbose op) T)
  | Raise e => validate E op fuel (S d) t c start csiz = Raise e
  | Diverge => validate E op fuel (S d) t c start csiz = Diverge
  end.
Proof.
  intros HS HF HM HO. rewrite validate_S, HM. unfold bind.
  rewrite boxLoop_spec with (bs := bs) by assumption.
  destruct (mapM (child (validate E op fuel d)) bs) as [rs|e|] eqn:EM; cbn [rbind]; try reflexivity.
  apply mapM_Forall2 in EM. destruct (HO rs _ EM eq_refl) as (T & HE & HT). rewrite HE.
  eexists. exists T. split; [reflexivity|]. split; [|cbn; auto].
  unfold super_says. cbn. rewrite !app_nil_r. split; [|split; reflexivity]. eexists. split; [reflexivity|]. now apply reports_vis.
Qed.

Lemma bin_in t l : bin t l = true <-> In t l.
Proof. apply bin_spec. Qed.

Lemma app_st_chars s T W : st_chars (app_st s T [] W) = st_chars s.
Proof. cbn. apply app_nil_r. Qed.

Lemma csign_cdepth b : b = -9999 \/ 0 <= b <= 255 ->
  py_eqb (VInt (csign b)) (VInt 1) && py_eqb (VInt (cdepth b)) (VInt 128) = (b =? 255).
Proof.
  intros [->|H]; [reflexivity|]. cbn [py_eqb]. unfold csign, cdepth, bitk.
  change (2 ^ 7) with 128. pose proof (Z.div_mod b 128 ltac:(lia)) as HD.
  pose proof (Z.mod_pos_bound b 128 ltac:(lia)) as HM.
  assert (0 <= b / 128 <= 1) as HQ by lia. rewrite (Z.mod_small (b / 128) 2) by lia. lia.
Qed.

Lemma own_run o m T0 T1 C W s :
  emits o m tt T1 C W -> C = [] -> W = [] -> st_valid s = VNone ->
  m (app_st s (vis (o_verbose o) T0) [] []) =
  Ok (tt, with_valid VNone (app_st s (vis (o_verbose o) (T0 ++ T1)) [] [])).
Proof.
  intros H -> -> HV. rewrite H. do 2 f_equal. rewrite app_st_app, <- vis_app. destruct s. cbn in HV. subst.
  reflexivity.
Qed.

Lemma own_run0 o m T1 C W s :
  emits o m tt T1 C W -> C = [] -> W = [] -> st_valid s = VNone ->
  m s = Ok (tt, with_valid VNone (app_st s (vis (o_verbose o) T1) [] [])).
Proof.
  intros H HC HW HV. pose proof (own_run o m [] T1 C W s H HC HW HV) as G.
  cbn [vis flat_map app] in G. now rewrite app_st_nil in G.
Qed.

Lemma hd_types (bs : list (bytes * bytes)) : match map fst bs with t :: _ => bytes_eqb t tagIHDR | [] => false end = true <->
  hd_error (map fst bs) = Some t_ihdr.
Proof.
  destruct (map fst bs) as [|t l]; cbn; [easy|]. rewrite bytes_eqb_spec. split; [now intros ->|].
  intros H. now injection H as ->.
Qed.

Lemma together_spec a b l :
  (if bin a l && negb (bin b l) || bin b l && negb (bin a l) then false else true) = true <->
  (In a l <-> In b l).
Proof. rewrite <- !bin_spec. destruct (bin a l), (bin b l); cbn; intuition discriminate. Qed.

Lemma jp2h_says E op fuel d c start csiz bs :
  splits c bs -> (List.length bs < fuel)%nat ->
  match mapM (child (validate E op fuel d)) bs with
  | Ok rs => exists r, validate E op fuel (S d) (BTb t_jp2h) c start csiz = Ok r /\
      super_says (o_verbose op) "jp2HeaderBox" "jp2HeaderBox" "jp2HeaderBox" rs
                 (jp2h_tests (o_format op) bs) [] r /\
      r_ret r = VNone /\ r_valid r = VNone /\ r_tpl r = VNone
  | Raise e => validate E op fuel (S d) (BTb t_jp2h) c start csiz = Raise e
  | Diverge => validate E op fuel (S d) (BTb t_jp2h) c start csiz = Diverge
  end.
Proof.
  intros HS HF.
  pose proof (super_intro E op fuel d (BTb t_jp2h) c start csiz bs) as HI.
  match type of HI with forall own, _ => specialize (HI (ltac:(
    let f := constr:({| s_opts := op; s_btype := BTb t_jp2h; s_contents := c; s_start := start; s_csiz := csiz |}) in
    let m := eval cbv beta zeta delta [validate_jp2HeaderBox] in (validate_jp2HeaderBox (validate E op fuel d) fuel f) in
    lazymatch m with bind _ ?k => exact k end))) end.
  specialize (HI (fun _ => jp2h_tests (o_format op) bs) (fun _ => []) (fun _ _ => VNone) HS HF eq_refl).
  match type of HI with ?P -> _ => assert (H : P) end.
  { clear HI. intros rs s HK Hs.
    erewrite bind_emits by apply emits_test. unfold bind at 1. unfold get_chars at 1.
    rewrite app_st_chars. replace (st_chars s) with (map r_chars rs) by (rewrite Hs; reflexivity).
    rewrite !(kids_find1 E op fuel d bs rs) by (first [exact HK | cbn; tauto]).
    pose proof (kids_ctyp E op fuel d bs rs HK) as HCT.
    pose proof (bin_in tagIHDR (map fst bs)) as B1. pose proof (bin_in tagCOLR (map fst bs)) as B2.
    pose proof (bin_in tagBPCC (map fst bs)) as B3.
    pose proof (bin_in tagPCLR (map fst bs)) as B4. pose proof (bin_in tagCMAP (map fst bs)) as B5.
    cbn [s_opts]. unfold jp2h_tests, fmt_is. cbv zeta.
    change (existsb (bytes_eqb t_colr) (map fst bs)) with (bin tagCOLR (map fst bs)).
    destruct (first_of t_ihdr bs) as [x|];
      [cbn [List.find ihdr_props fst snd String.eqb Ascii.eqb Bool.eqb];
       rewrite csign_cdepth by (apply val_1_range; lia); cbn [py_eqb]|cbn [py_eqb andb]];
      destruct (String.eqb (o_format op) "jp2");
      [|destruct (String.eqb (o_format op) "jph");
        [destruct (bin tagCOLR (map fst bs)) eqn:HB; [|]|]| |
        destruct (String.eqb (o_format op) "jph");
        [destruct (bin tagCOLR (map fst bs)) eqn:HB; [|]|]];
      try destruct (val x 12 1 =? 0); try destruct (val x 10 1 =? 255);
      cbn [when negb];
      (eexists; split; [eapply own_run; [run1|reflexivity|reflexivity|rewrite Hs; reflexivity]|]);
      cbn [app]; tbl; try apply bcount_leb; try assumption; try apply hd_types;
      try apply contiguous_spec.
    all: first [apply together_spec | rewrite negb_true_iff; exact HCT]. }
  specialize (HI H). clear H.
  destruct (mapM (child (validate E op fuel d)) bs) as [rs|e|]; [|exact HI|exact HI].
  destruct HI as (r & T & H1 & H2 & H3 & H4 & H5 & _). exists r. auto.
Qed.

Lemma res_super_says E op fuel d c start csiz bs :
  splits c bs -> (List.length bs < fuel)%nat ->
  match mapM (child (validate E op fuel d)) bs with
  | Ok rs => exists r, validate E op fuel (S d) (BTb t_res) c start csiz = Ok r /\
      super_says (o_verbose op) "resolutionBox" "resolutionBox" "resolutionBox" rs
                 (res_super_tests (map fst bs)) [] r /\
      r_ret r = VNone /\ r_valid r = VNone /\ r_tpl r = VNone
  | Raise e => validate E op fuel (S d) (BTb t_res) c start csiz = Raise e
  | Diverge => validate E op fuel (S d) (BTb t_res) c start csiz = Diverge
  end.
Proof.
  intros HS HF.
  pose proof (super_intro E op fuel d (BTb t_res) c start csiz bs) as HI.
  match type of HI with forall own, _ => specialize (HI (ltac:(
    let f := constr:({| s_opts := op; s_btype := BTb t_res; s_contents := c; s_start := start; s_csiz := csiz |}) in
    let m := eval cbv beta zeta delta [validate_resolutionBox] in (validate_resolutionBox (validate E op fuel d) fuel f) in
    lazymatch m with bind _ ?k => exact k end))) end.
  specialize (HI (fun _ => res_super_tests (map fst bs)) (fun _ => []) (fun _ _ => VNone) HS HF eq_refl).
  match type of HI with ?P -> _ => assert (H : P) end.
  { clear HI. intros rs s HK Hs. cbn [s_opts]. unfold res_super_tests.
    eexists. split; [eapply own_run0; [cbv beta; run1|reflexivity|reflexivity|rewrite Hs; reflexivity]|].
    cbn [app]. tbl; [|apply bcount_leb|apply bcount_leb].
    rewrite orb_true_iff, !bin_in. reflexivity. }
  specialize (HI H). clear H.
  destruct (mapM (child (validate E op fuel d)) bs) as [rs|e|]; [|exact HI|exact HI].
  destruct HI as (r & T & H1 & H2 & H3 & H4 & H5 & _). exists r. auto.
Qed.

Lemma uinf_says E op fuel d c start csiz bs :
  splits c bs -> (List.length bs < fuel)%nat ->
  match mapM (child (validate E op fuel d)) bs with
  | Ok rs => exists r, validate E op fuel (S d) (BTb t_uinf) c start csiz = Ok r /\
      super_says (o_verbose op) "uuidInfoBox" "uuidInfoBox" "uuidInfoBox" rs
                 (uinf_tests (map fst bs)) [] r /\
      r_ret r = VNone /\ r_valid r = VNone /\ r_tpl r = VNone
  | Raise e => validate E op fuel (S d) (BTb t_uinf) c start csiz = Raise e
  | Diverge => validate E op fuel (S d) (BTb t_uinf) c start csiz = Diverge
  end.
Proof.
  intros HS HF.
  pose proof (super_intro E op fuel d (BTb t_uinf) c start csiz bs) as HI.
  match type of HI with forall own, _ => specialize (HI (ltac:(
    let f := constr:({| s_opts := op; s_btype := BTb t_uinf; s_contents := c; s_start := start; s_csiz := csiz |}) in
    let m := eval cbv beta zeta delta [validate_uuidInfoBox] in (validate_uuidInfoBox (validate E op fuel d) fuel f) in
    lazymatch m with bind _ ?k => exact k end))) end.
  specialize (HI (fun _ => uinf_tests (map fst bs)) (fun _ => []) (fun _ _ => VNone) HS HF eq_refl).
  match type of HI with ?P -> _ => assert (H : P) end.
  { clear HI. intros rs s HK Hs. cbn [s_opts]. unfold uinf_tests.
    eexists. split; [eapply own_run0; [cbv beta; run1|reflexivity|reflexivity|rewrite Hs; reflexivity]|].
    cbn [app]. tbl; apply bcount_eq1. }
  specialize (HI H). clear H.
  destruct (mapM (child (validate E op fuel d)) bs) as [rs|e|]; [|exact HI|exact HI].
  destruct HI as (r & T & H1 & H2 & H3 & H4 & H5 & _). exists r. auto.
Qed.
