(** * Headers and tile parts *)

From Coq Require Import ZArith List Bool String Lia.
From Coq Require Import ZifyBool.
From Coq Require Import Init.Byte.
From Verif Require Import Py PyFloat ByteConv ETree BV VBoxes VMarkers VSuper Spec SpecBox SpecMarker
     SpecWalk SpecSuper SpecCS PBase PEmit PLeaf PMarker PMarker2 PWalk PSuper PSeg.
Import ListNotations.
Open Scope string_scope.
Open Scope list_scope.
Open Scope Z_scope.

Ltac eqb_cases m l :=
  lazymatch l with
  | ?a :: ?l' => let a' := eval unfold a in a in
                 destruct (bytes_eqb m a'); [reflexivity|]; eqb_cases m l'
  | _ => reflexivity
  end.
Ltac markers := cbv delta [mCOD m_COD mQCD m_QCD mCOM m_COM mCAP m_CAP mPRF m_PRF mCPF m_CPF mTLM m_TLM mCOC m_COC mQCC m_QCC mRGN m_RGN mPOC m_POC mCRG m_CRG mPLM m_PLM mPPM m_PPM mPLT m_PLT mPPT m_PPT].

Lemma bind_same {A B} (m m' : M A) (k : A -> M B) st : m st = m' st -> bind m k st = bind m' k st.
Proof. unfold bind. now intros ->. Qed.

(** ** Main header *)
Definition mh_upd (s : mh) (m : bytes) (n : Z) : mh :=
  {| mh_marker := m; mh_offset := if bytes_eqb m mSOT then mh_offset s else n; mh_next := n;
     mh_cap := mh_cap s || bytes_eqb m mCAP; mh_cod := mh_cod s || bytes_eqb m mCOD;
     mh_qcd := mh_qcd s || bytes_eqb m mQCD;
     mh_plm := mh_plm s + Zb (bytes_eqb m mPLM); mh_ppm := mh_ppm s + Zb (bytes_eqb m mPPM) |}.

Lemma main_act rec packet csiz m x st :
  (if bin m [mCOD; mQCD; mCOM; mCAP; mPRF; mCPF; mTLM] then
     _ <- attach rec (BTb m) x VNone VNone ;; ret tt
   else if bin m [mCOC; mQCC; mRGN; mPOC; mCRG] then
     _ <- attach rec (BTb m) x VNone csiz ;; ret tt
   else if bin m [mPLM; mPPM] then
     _ <- attachIf rec packet (BTb m) x VNone VNone ;; ret tt
   else ret tt) st = act rec packet csiz main_markers m x st.
Proof.
  unfold act, lookup, main_markers, bin. cbn [existsb List.find fst]. markers.
  eqb_cases m [mCOD; mQCD; mCOM; mCAP; mPRF; mCPF; mTLM; mCOC; mQCC; mRGN; mPOC; mCRG; mPLM; mPPM].
Qed.

Lemma fold_or (m : bytes) l b :
  fold_left (fun b y => b || bytes_eqb y m) l b = b || existsb (bytes_eqb m) l.
Proof.
  revert b. induction l as [|y l IH]; intros b; cbn; [now rewrite orb_false_r|].
  rewrite IH, <- orb_assoc. f_equal. f_equal.
  apply Bool.eq_true_iff_eq. rewrite !bytes_eqb_spec. split; congruence.
Qed.
Lemma fold_count (m : bytes) (l : list (bytes * bytes)) n :
  fold_left (fun n y => n + Zb (bytes_eqb y m)) (map fst l) n = n + len (segs_of m l).
Proof.
  revert n. induction l as [|[y x] l IH]; intros n; [cbn; lia|].
  cbn [map fold_left fst]. rewrite IH. unfold segs_of. cbn [filter fst].
  destruct (bytes_eqb y m); cbn [map Zb]; rewrite ?len_cons; lia.
Qed.

Definition mh_g (s : mh) := (mh_cap s, mh_cod s, mh_qcd s, mh_plm s, mh_ppm s).
Definition mh_h (x : bool * bool * bool * Z * Z) (m : bytes) :=
  let '(a, b, c, p, q) := x in
  (a || bytes_eqb m mCAP, b || bytes_eqb m mCOD, c || bytes_eqb m mQCD,
   p + Zb (bytes_eqb m mPLM), q + Zb (bytes_eqb m mPPM)).
Lemma mh_fold l a b c p q :
  fold_left mh_h l (a, b, c, p, q) =
  (fold_left (fun b y => b || bytes_eqb y mCAP) l a, fold_left (fun b y => b || bytes_eqb y mCOD) l b,
   fold_left (fun b y => b || bytes_eqb y mQCD) l c,
   fold_left (fun n y => n + Zb (bytes_eqb y mPLM)) l p,
   fold_left (fun n y => n + Zb (bytes_eqb y mPPM)) l q).
Proof. revert a b c p q. induction l as [|y l IH]; intros; [reflexivity|]. cbn [fold_left mh_h]. apply IH. Qed.

Lemma mainHeader_spec rec fuel f csiz p l r :
  let c := s_contents f in
  let sf := skipn (Z.to_nat p) c in
  0 <= p -> sub sf 0 2 <> m_SOT -> after m_SOT sf l r -> (List.length l + 1 < fuel)%nat ->
  exists s', 
    (mh_cap s' = existsb (bytes_eqb m_CAP) (map fst l) /\ mh_cod s' = existsb (bytes_eqb m_COD) (map fst l) /\
     mh_qcd s' = existsb (bytes_eqb m_QCD) (map fst l) /\
     mh_plm s' = len (segs_of m_PLM l) /\ mh_ppm s' = len (segs_of m_PPM l)) /\
    match r with
    | None => mh_marker s' <> m_SOT
    | Some s1 => mh_marker s' = m_SOT /\ 0 <= mh_offset s' /\ s1 = skipn (Z.to_nat (mh_offset s')) c
    end /\
    let n := if seg_length sf =? -9999 then -9999 else p + seg_length sf + 2 in
    forall st, mainHeaderLoop rec fuel f csiz
      {| mh_marker := sub sf 0 2; mh_offset := n; mh_next := n; mh_cap := false; mh_cod := false;
         mh_qcd := false; mh_plm := 0; mh_ppm := 0 |} st =
    rbind (mapM (seg_child rec csiz) (treated main_markers l)) (fun rs =>
      Ok (s', app_st st (filled (map r_tests rs)) (shown (o_packet (s_opts f)) (treated main_markers l) rs)
                     (filled (map r_warns rs)))).
Proof.
  cbv zeta. intros Hp Hm HA HF.
  set (n := if seg_length (skipn (Z.to_nat p) (s_contents f)) =? -9999 then -9999
            else p + seg_length (skipn (Z.to_nat p) (s_contents f)) + 2).
  destruct (after_spec rec (o_packet (s_opts f)) csiz main_markers m_SOT (s_contents f)
              mh _ mh_marker mh_offset mh_next mh_upd mh_g mh_h
              ltac:(reflexivity) ltac:(reflexivity)
              ltac:(intros s m k HM; cbn; replace (bytes_eqb m mSOT) with false; [reflexivity|];
                    symmetry; apply not_true_iff_false; now rewrite bytes_eqb_spec)
              ltac:(reflexivity)
              ltac:(intros [[[[a b] e] u] v]; cbn; rewrite !orb_false_r, !Z.add_0_r; reflexivity)
              ltac:(reflexivity)
              (mainHeaderStep rec f csiz)
              ltac:(intros s st; unfold mainHeaderStep; destruct (getMarkerSegment _ _) as [[[m z] x] k];
                    apply bind_same; apply main_act)
              l r _ fuel
              {| mh_marker := sub (skipn (Z.to_nat p) (s_contents f)) 0 2; mh_offset := n; mh_next := n;
                 mh_cap := false; mh_cod := false; mh_qcd := false; mh_plm := 0; mh_ppm := 0 |}
              HA) as (s' & (HG & HR) & HE).
  - exact Hm.
  - reflexivity.
  - cbn. unfold n. destruct (seg_length_range (skipn (Z.to_nat p) (s_contents f))); destruct (_ =? _) eqn:EE; lia.
  - cbn. unfold n. destruct (seg_length_range (skipn (Z.to_nat p) (s_contents f)));
      destruct (_ =? _) eqn:EE; lia.
  - cbn. unfold n. intros HN. rewrite skipn_skipn. f_equal.
    destruct (seg_length_range (skipn (Z.to_nat p) (s_contents f))); destruct (_ =? _) eqn:EE; lia.
  - exact HF.
  - exists s'. split; [|split; [|exact HE]].
    + unfold mh_g in HG. cbn [mh_cap mh_cod mh_qcd mh_plm mh_ppm] in HG.
      rewrite mh_fold, !fold_or, !fold_count in HG. cbn [orb] in HG. rewrite !Z.add_0_l in HG.
      injection HG as H1 H2 H3 H4 H5. auto.
    + destruct r as [s1|]; [|exact HR]. destruct HR as (HM & t & k & HU & HO & HS).
      rewrite HU. cbn. change (bytes_eqb m_SOT mSOT) with true. auto.
Qed.

(** ** Tile-part header *)
Definition th_upd (s : th) (m : bytes) (n : Z) : th :=
  {| th_marker := m; th_offset := n; th_next := n;
     th_plt := th_plt s + Zb (bytes_eqb m mPLT); th_ppt := th_ppt s + Zb (bytes_eqb m mPPT) |}.

Lemma tile_act rec packet csiz m x st :
  (if bin m [mCOD; mQCD; mCOM] then
     _ <- attach rec (BTb m) x VNone VNone ;; ret tt
   else if bin m [mCOC; mQCC; mRGN; mPOC] then
     _ <- attach rec (BTb m) x VNone csiz ;; ret tt
   else if bin m [mPLT; mPPT] then
     _ <- attachIf rec packet (BTb m) x VNone VNone ;; ret tt
   else ret tt) st = act rec packet csiz tile_markers m x st.
Proof.
  unfold act, lookup, tile_markers, bin. cbn [existsb List.find fst]. markers.
  eqb_cases m [mCOD; mQCD; mCOM; mCOC; mQCC; mRGN; mPOC; mPLT; mPPT].
Qed.

Definition th_h (x : Z * Z) (m : bytes) :=
  (fst x + Zb (bytes_eqb m mPLT), snd x + Zb (bytes_eqb m mPPT)).
Lemma th_fold l p q :
  fold_left th_h l (p, q) =
  (fold_left (fun n y => n + Zb (bytes_eqb y mPLT)) l p, fold_left (fun n y => n + Zb (bytes_eqb y mPPT)) l q).
Proof. revert p q. induction l as [|y l IH]; intros; [reflexivity|]. cbn [fold_left th_h fst snd]. apply IH. Qed.

Lemma tileHeader_spec rec fuel f p l r :
  let c := s_contents f in
  let sf := skipn (Z.to_nat p) c in
  0 <= p -> sub sf 0 2 <> m_SOD -> after m_SOD sf l r -> (List.length l + 1 < fuel)%nat ->
  exists s', 
    th_plt s' = len (segs_of m_PLT l) /\ th_ppt s' = len (segs_of m_PPT l) /\
    (th_marker s' = m_SOD <-> r <> None) /\
    let n := if seg_length sf =? -9999 then -9999 else p + seg_length sf + 2 in
    forall st, tileHeaderLoop rec fuel f
      {| th_marker := sub sf 0 2; th_offset := n; th_next := n; th_plt := 0; th_ppt := 0 |} st =
    rbind (mapM (seg_child rec (s_csiz f)) (treated tile_markers l)) (fun rs =>
      Ok (s', app_st st (filled (map r_tests rs)) (shown (o_packet (s_opts f)) (treated tile_markers l) rs)
                     (filled (map r_warns rs)))).
Proof.
  cbv zeta. intros Hp Hm HA HF.
  set (n := if seg_length (skipn (Z.to_nat p) (s_contents f)) =? -9999 then -9999
            else p + seg_length (skipn (Z.to_nat p) (s_contents f)) + 2).
  destruct (after_spec rec (o_packet (s_opts f)) (s_csiz f) tile_markers m_SOD (s_contents f)
              th _ th_marker th_offset th_next th_upd (fun s => (th_plt s, th_ppt s)) th_h
              ltac:(reflexivity) ltac:(reflexivity) ltac:(reflexivity) ltac:(reflexivity)
              ltac:(intros [u v]; unfold th_h; cbn; rewrite !Z.add_0_r; reflexivity)
              ltac:(reflexivity)
              (tileHeaderStep rec f)
              ltac:(intros s st; unfold tileHeaderStep; destruct (getMarkerSegment _ _) as [[[m z] x] k];
                    apply bind_same; apply tile_act)
              l r _ fuel
              {| th_marker := sub (skipn (Z.to_nat p) (s_contents f)) 0 2; th_offset := n; th_next := n;
                 th_plt := 0; th_ppt := 0 |}
              HA) as (s' & (HG & HR) & HE).
  - exact Hm.
  - reflexivity.
  - cbn. unfold n. destruct (seg_length_range (skipn (Z.to_nat p) (s_contents f))); destruct (_ =? _) eqn:EE; lia.
  - cbn. unfold n. destruct (seg_length_range (skipn (Z.to_nat p) (s_contents f)));
      destruct (_ =? _) eqn:EE; lia.
  - cbn. unfold n. intros HN. rewrite skipn_skipn. f_equal.
    destruct (seg_length_range (skipn (Z.to_nat p) (s_contents f))); destruct (_ =? _) eqn:EE; lia.
  - exact HF.
  - exists s'. cbn [th_plt th_ppt] in HG. rewrite th_fold, !fold_count, !Z.add_0_l in HG.
    injection HG as H1 H2. split; [exact H1|]. split; [exact H2|]. split; [|exact HE].
    destruct r as [s1|]; [|split; [intros HX; now rewrite HX in HR|easy]].
    destruct HR as (HM & _). split; [discriminate|auto].
Qed.

(** ** Properties of the segments of a header *)
Lemma filter_app_nil {A} (f : A -> bool) l1 l2 : filter f (l1 ++ l2) = filter f l1 ++ filter f l2.
Proof. apply filter_app. Qed.

Section Kids.
Variables (E : env) (op : opts) (fuel d : nat) (csiz : value) (tbl : list (bytes * treat)).
Let rec := validate E op fuel d.

Lemma seg_kids m n k l rs :
  owns m n -> lookup m tbl = Some k -> k <> PacketMarker ->
  mapM (seg_child rec csiz) (treated tbl l) = Ok rs ->
  Forall2 (fun x e => exists r, seg_child rec csiz (k, m, x) = Ok r /\ e = r_chars r)
          (segs_of m l) (filter (fun e => String.eqb (etag e) n) (shown (o_packet op) (treated tbl l) rs)).
Proof.
  intros HO HK HP. revert rs. induction l as [|[m' x] l IH]; intros rs HM.
  - injection HM as <-. constructor.
  - change ((m', x) :: l) with ([(m', x)] ++ l) in HM |- *. rewrite treated_app, mapM_app in HM.
    destruct (mapM (seg_child rec csiz) (treated tbl [(m', x)])) as [r1|e|] eqn:E1; try discriminate.
    cbn [rbind] in HM.
    destruct (mapM (seg_child rec csiz) (treated tbl l)) as [r2|e|] eqn:E2; try discriminate.
    cbn [rbind] in HM. injection HM as <-. specialize (IH r2 eq_refl).
    rewrite treated_app, shown_app by (now apply mapM_length in E1).
    rewrite filter_app_nil. unfold segs_of. rewrite filter_app_nil, map_app.
    apply Forall2_app; [|exact IH].
    unfold treated in *. cbn [flat_map filter fst] in *.
    destruct (lookup m' tbl) as [k'|] eqn:EK.
    + cbn [app mapM] in E1.
      destruct (seg_child rec csiz (k', m', x)) as [r|e|] eqn:EV; try discriminate.
      cbn [rbind] in E1. injection E1 as <-. cbn [app shown combine flat_map].
      destruct (validate_tag _ _ _ _ _ _ _ _ _ EV) as (_ & (kk & HC) & _).
      destruct (bytes_eqb m' m) eqn:EM.
      * apply bytes_eqb_spec in EM. subst m'. rewrite HK in EK. injection EK as <-.
        destruct k; [| |contradiction]; (cbn [app filter map snd]; rewrite HC; cbn [etag node];
          unfold charRoot; cbn [isTop]; rewrite (owns_eqb m n m HO), bytes_eqb_refl;
          constructor; [|constructor]; exists r; split; [exact EV|]; rewrite HC; reflexivity).
      * assert (HT : String.eqb (etag (r_chars r)) n = false).
        { rewrite HC. cbn [etag node]. unfold charRoot. cbn [isTop]. now rewrite (owns_eqb m n m' HO). }
        destruct k', (o_packet op); cbn [app filter map]; rewrite ?HT; constructor.
    + destruct (bytes_eqb m' m) eqn:EM.
      * apply bytes_eqb_spec in EM. subst m'. congruence.
      * injection E1 as <-. constructor.
Qed.

(** The elements with tag [n]: present iff there is such a segment. *)
Lemma seg_kids_nil m n k l rs (pre post : list elt) :
  owns m n -> lookup m tbl = Some k -> k <> PacketMarker ->
  filter (fun e => String.eqb (etag e) n) pre = [] -> filter (fun e => String.eqb (etag e) n) post = [] ->
  mapM (seg_child rec csiz) (treated tbl l) = Ok rs ->
  (findall [n] (node "" (pre ++ shown (o_packet op) (treated tbl l) rs ++ post)) = [] <-> segs_of m l = []).
Proof.
  intros HO HK HP H1 H2 HM. pose proof (seg_kids m n k l rs HO HK HP HM) as HF.
  cbn [findall ekids node]. rewrite !filter_app, H1, H2, app_nil_r. cbn [app].
  destruct HF; [easy|]. split; discriminate.
Qed.

Lemma flat_single {A} (l : list A) : flat_map (fun x => [x]) l = l.
Proof. induction l as [|x l IH]; cbn; [reflexivity|now rewrite IH]. Qed.

(** The texts of one field in the elements with tag [n]. *)
Lemma seg_kids_text m n k fld (v : bytes -> value) l rs (pre post : list elt) :
  owns m n -> lookup m tbl = Some k -> k <> PacketMarker ->
  filter (fun e => String.eqb (etag e) n) pre = [] -> filter (fun e => String.eqb (etag e) n) post = [] ->
  (forall x r, seg_child rec csiz (k, m, x) = Ok r -> findAllText [fld] (r_chars r) = [v x]) ->
  mapM (seg_child rec csiz) (treated tbl l) = Ok rs ->
  findAllText [n; fld] (node "" (pre ++ shown (o_packet op) (treated tbl l) rs ++ post)) =
  map v (segs_of m l).
Proof.
  intros HO HK HP H1 H2 HV HM. pose proof (seg_kids m n k l rs HO HK HP HM) as HF.
  unfold findAllText. cbn [findall ekids node]. rewrite !filter_app, H1, H2, app_nil_r. cbn [app].
  induction HF as [|x e xs es (r & HR & ->) HF IH]; [reflexivity|].
  cbn [flat_map map]. rewrite map_app, IH. change (v x :: map v xs) with ([v x] ++ map v xs). f_equal.
  rewrite <- (HV x r HR). unfold findAllText. reflexivity.
Qed.
End Kids.

(** ** Uniqueness of component indices *)
Lemma py_in_ints z l : py_in (VInt z) (map VInt l) = true <-> In z l.
Proof.
  unfold py_in. rewrite existsb_exists. split.
  - intros (v & HV & HE). apply in_map_iff in HV as (y & <- & HY). cbn in HE. apply Z.eqb_eq in HE. now subst.
  - intros H. exists (VInt z). split; [now apply in_map|]. cbn. apply Z.eqb_refl.
Qed.
Lemma dedup_le l : len (py_dedup l) <= len l.
Proof.
  induction l as [|x l IH]; [reflexivity|]. cbn [py_dedup]. destruct (py_in x l); rewrite ?len_cons; lia.
Qed.
Lemma dedup_nodup l : len (py_dedup (map VInt l)) =? len (map VInt l) = true <-> NoDup l.
Proof.
  rewrite Z.eqb_eq. induction l as [|z l IH]; [split; [constructor|reflexivity]|].
  cbn [map py_dedup]. destruct (py_in (VInt z) (map VInt l)) eqn:EI.
  - apply py_in_ints in EI. split.
    + intros H. pose proof (dedup_le (map VInt l)). rewrite len_cons in H. lia.
    + intros H. inversion H. contradiction.
  - rewrite !len_cons. split.
    + intros H. constructor; [|apply IH; lia]. rewrite <- py_in_ints. congruence.
    + intros H. inversion H; subst. apply IH in H3. lia.
Qed.

Lemma emits_first o f name tag chars tpsot b : s_opts f = o ->
  py_eqb tpsot (VInt 0) = b ->
  emits o (onlyInFirst f name tag chars tpsot) tt
        (match findall [tag] chars with [] => [] | _ => [(name, b)] end) [] [].
Proof.
  intros <- <-. unfold onlyInFirst. destruct (findall [tag] chars); [apply emits_ret|apply emits_test].
Qed.
Lemma emits_unique o f name vals : s_opts f = o ->
  emits o (uniqueTest f name vals) tt
        (match vals with [] => [] | _ => [(name, len (py_dedup vals) =? len vals)] end) [] [].
Proof. intros <-. unfold uniqueTest. destruct vals; [apply emits_ret|apply emits_test]. Qed.

Lemma tbl_first (name : string) (P : Prop) (b : bool) {A B} (x : list A) (y : list B) :
  (b = true <-> P) -> (y = [] <-> x = []) ->
  tbl_ok (match x with [] => [] | _ => [(name, P)] end) (match y with [] => [] | _ => [(name, b)] end).
Proof.
  intros HB HN. destruct x, y; try (destruct HN as [H1 H2]; first [discriminate (H1 eq_refl)|discriminate (H2 eq_refl)]).
  - constructor.
  - constructor; [split; [reflexivity|exact HB]|constructor].
Qed.
Lemma tbl_once (name : string) (l : list bytes) (v : bytes -> Z) vals :
  vals = map (fun x => VInt (v x)) l ->
  tbl_ok (match l with [] => [] | x :: l' => [(name, NoDup (map v (x :: l')))] end)
         (match vals with [] => [] | _ => [(name, len (py_dedup vals) =? len vals)] end).
Proof.
  intros ->. destruct l as [|x l]; [constructor|]. cbn [map].
  constructor; [|constructor]. split; [reflexivity|]. cbn [snd].
  replace (VInt (v x) :: map (fun y => VInt (v y)) l) with (map VInt (map v (x :: l)))
    by (cbn [map]; now rewrite map_map).
  apply dedup_nodup.
Qed.

Lemma coc_ccoc E op fuel d n x r :
  validate E op fuel d (BTb m_COC) x VNone (VInt n) = Ok r ->
  findAllText ["ccoc"] (r_chars r) = [VInt (val x 2 (cwidth n))].
Proof.
  destruct d as [|d]; [discriminate|].
  destruct (coc_says E op fuel d x VNone n) as (r' & HV & (_ & HC & _) & _).
  unfold mCOC in HV. unfold m_COC. rewrite HV. intros H. injection H as <-. rewrite HC.
  unfold coc_props, cb_props, cbs_props, prec_props. cbv zeta.
  unfold leaves. rewrite !map_app. unfold findAllText. cbn [findall ekids node].
  rewrite !filter_app, !flat_map_app, !map_app.
  assert (HX : forall l, (forall nv, In nv l -> In (fst nv) ["precinctSizeX"; "precinctSizeY"]) ->
    filter (fun e => String.eqb (etag e) "ccoc") (map (fun '(n, v) => leaf n v) l) = []).
  { intros l. induction l as [|[a b] l IH]; intros H; [reflexivity|]. cbn [map filter etag leaf].
    pose proof (H _ (or_introl eq_refl)) as HA. cbn in HA.
    rewrite IH by (intros; apply H; now right). destruct HA as [<-|[<-|[]]]; reflexivity. }
  rewrite (HX (flat_map _ _)).
  2:{ intros nv HI. apply in_flat_map in HI as (i & _ & HI).
      destruct (coc_explicit n x); cbn in HI |- *; intuition (subst; auto). }
  destruct (negb _); reflexivity.
Qed.

Lemma qcc_cqcc E op fuel d n x r :
  validate E op fuel d (BTb m_QCC) x VNone (VInt n) = Ok r ->
  findAllText ["cqcc"] (r_chars r) = [VInt (val x 2 (cwidth n))].
Proof.
  destruct d as [|d]; [discriminate|].
  destruct (qcc_says E op fuel d x VNone n) as (r' & HV & (_ & HC & _) & _).
  unfold mQCC in HV. unfold m_QCC. rewrite HV. intros H. injection H as <-. rewrite HC.
  unfold qcc_props. cbv zeta.
  unfold leaves. rewrite !map_app. unfold findAllText. cbn [findall ekids node].
  rewrite !filter_app, !flat_map_app, !map_app.
  assert (HX : forall l, (forall nv, In nv l -> In (fst nv) ["mu"; "epsilon"]) ->
    filter (fun e => String.eqb (etag e) "cqcc") (map (fun '(n, v) => leaf n v) l) = []).
  { intros l. induction l as [|[a b] l IH]; intros H; [reflexivity|]. cbn [map filter etag leaf].
    pose proof (H _ (or_introl eq_refl)) as HA. cbn in HA.
    rewrite IH by (intros; apply H; now right). destruct HA as [<-|[<-|[]]]; reflexivity. }
  rewrite (HX (step_props _ _ _ _)).
  2:{ intros nv HI. unfold step_props in HI.
      repeat match type of HI with In _ (if ?b then _ else _) => destruct b end.
      - apply in_map_iff in HI as (i & <- & _). cbn. auto.
      - cbn in HI |- *. intuition (subst; auto).
      - apply in_flat_map in HI as (i & _ & HI). cbn in HI |- *. intuition (subst; auto).
      - destruct HI. }
  reflexivity.
Qed.

(** ** Tile parts *)
Lemma tile_says_ok E op fuel d c p n l r :
  0 <= p -> sub c p 2 = m_SOT -> after m_SOD (skipn (Z.to_nat p) c) l r -> (List.length l + 1 < fuel)%nat ->
  exists r0, validate E op fuel (S d) (BTs "startOfTile") (tp_sot c p) VNone VNone = Ok r0 /\
    sot_result op (tp_sot c p) r0 /\
  match mapM (seg_child (validate E op fuel (S d)) (VInt n)) (treated tile_markers l) with
  | Ok rs => exists res, validate E op fuel (S (S d)) (BTb m_SOT) c (VInt p) (VInt n) = Ok res /\
                         tile_says op n c p l r r0 rs res
  | Raise e => validate E op fuel (S (S d)) (BTb m_SOT) c (VInt p) (VInt n) = Raise e
  | Diverge => validate E op fuel (S (S d)) (BTb m_SOT) c (VInt p) (VInt n) = Diverge
  end.
Proof.
  intros Hp HM HA HF.
  destruct (sot_says E op fuel d (tp_sot c p) VNone VNone) as (r0 & HV0 & HR0).
  exists r0. split; [exact HV0|]. split; [exact HR0|].
  rewrite validate_S.
  set (f := {| s_opts := op; s_btype := BTb m_SOT; s_contents := c; s_start := VInt p; s_csiz := VInt n |}).
  change (runMethod E (validate E op fuel (S d)) fuel f) with (validate_tilePart (validate E op fuel (S d)) fuel f).
  assert (HM' : sub (skipn (Z.to_nat p) c) 0 2 = m_SOT) by (rewrite sub_skipn, Z.add_0_r by lia; exact HM).
  destruct (tileHeader_spec (validate E op fuel (S d)) fuel f p l r Hp) as (s' & HP1 & HP2 & HSOD & HE).
  { cbn [s_contents f]. rewrite HM'. discriminate. }
  { exact HA. }
  { exact HF. }
  cbn [s_contents f s_csiz s_opts] in HE. rewrite HM' in HE.
  match goal with |- context [validate_tilePart ?a ?b ?g st0] =>
    remember (validate_tilePart a b g st0) as R eqn:HR end.
  unfold validate_tilePart in HR. unfold bind at 1 in HR. cbn [s_start f as_int lift] in HR.
  cbn [s_contents f] in HR. rewrite getMarkerSegment_spec in HR by exact Hp. rewrite HM' in HR.
  unfold bind at 1 in HR. rewrite attach_eq in HR. fold (tp_sot c p) in HR. rewrite HV0 in HR.
  cbn [rbind] in HR. unfold bind at 1 in HR. rewrite HE in HR.
  destruct (mapM (seg_child (validate E op fuel (S d)) (VInt n)) (treated tile_markers l)) as [rs|e|] eqn:EM;
    cbn [rbind] in HR; [rewrite HR; clear HR R|now rewrite HR..].
  destruct HR0 as ((HT0 & HC0 & HW0) & _ & _ & HTPL).
  rewrite HTPL. cbn [as_int].
  fold (tp_psot c p).
  set (S1 := app_st (app_st st0 (filled [r_tests r0]) [r_chars r0] (filled [r_warns r0]))
     (filled (map r_tests rs)) (shown (o_packet op) (treated tile_markers l) rs) (filled (map r_warns rs))).
  set (chars := node "" ([r_chars r0] ++ shown (o_packet op) (treated tile_markers l) rs ++ leaves (tp_props l))).
  assert (HTP : findElementText ["sot"; "tpsot"] chars = VInt (val (tp_sot c p) 8 1)).
  { unfold findElementText, find, chars. cbn [findall ekids node app filter]. rewrite HC0. reflexivity. }
  set (T := [("foundSODMarker", bytes_eqb (th_marker s') mSOD)] ++
     match findall ["cod"] chars with [] => [] | _ => [("CODAllowed", val (tp_sot c p) 8 1 =? 0)] end ++
     match findall ["coc"] chars with [] => [] | _ => [("COCAllowed", val (tp_sot c p) 8 1 =? 0)] end ++
     match findall ["qcd"] chars with [] => [] | _ => [("QCDAllowed", val (tp_sot c p) 8 1 =? 0)] end ++
     match findall ["qcc"] chars with [] => [] | _ => [("QCCAllowed", val (tp_sot c p) 8 1 =? 0)] end ++
     match findall ["rgn"] chars with [] => [] | _ => [("RGNAllowed", val (tp_sot c p) 8 1 =? 0)] end ++
     match findAllText ["coc"; "ccoc"] chars with [] => []
     | _ => [("maxOneCcocPerComponentTP", len (py_dedup (findAllText ["coc"; "ccoc"] chars)) =? len (findAllText ["coc"; "ccoc"] chars))] end ++
     match findAllText ["qcc"; "cqcc"] chars with [] => []
     | _ => [("maxOneCqccPerComponentTP", len (py_dedup (findAllText ["qcc"; "cqcc"] chars)) =? len (findAllText ["qcc"; "cqcc"] chars))] end ++
     if negb (tp_psot c p =? 0)
     then [("foundNextTilePartOrEOC", bin (slice c (p + tp_psot c p) (p + tp_psot c p + 2)) [mSOT; mEOC])] else []).
  assert (HT : tbl_ok (tp_tests n c p l r) T).
  { unfold tp_tests, T. cbv zeta.
    assert (HZ : val (tp_sot c p) 8 1 =? 0 = true <-> val (tp_sot c p) 8 1 = 0) by apply Z.eqb_eq.
    assert (HPRE : forall x, x <> "sot" -> filter (fun e => String.eqb (etag e) x) [r_chars r0] = []).
    { intros x Hx. rewrite HC0. cbn [filter etag node].
      destruct (String.eqb_spec "sot" x); [congruence|reflexivity]. }
    assert (HNIL : forall m nm k, owns m nm -> lookup m tile_markers = Some k -> k <> PacketMarker ->
       nm <> "sot" -> nm <> "pltCount" -> nm <> "pptCount" ->
       (findall [nm] chars = [] <-> segs_of m l = [])).
    { intros m nm k H1 H2 H3 H4 H5 H6. unfold chars.
      apply (seg_kids_nil E op fuel (S d) (VInt n) tile_markers m nm k); auto.
      unfold tp_props. cbn [leaves map filter etag leaf]. destruct (String.eqb_spec "pltCount" nm); [congruence|].
      destruct (String.eqb_spec "pptCount" nm); [congruence|]. reflexivity. }
    apply tbl_app; [constructor; [|constructor]; split; [reflexivity|]; cbn [snd]; now rewrite bytes_eqb_spec|].
    apply tbl_app; [apply tbl_first; [exact HZ|eapply HNIL; [repeat split; discriminate|reflexivity|discriminate..]]|].
    apply tbl_app; [apply tbl_first; [exact HZ|eapply HNIL; [repeat split; discriminate|reflexivity|discriminate..]]|].
    apply tbl_app; [apply tbl_first; [exact HZ|eapply HNIL; [repeat split; discriminate|reflexivity|discriminate..]]|].
    apply tbl_app; [apply tbl_first; [exact HZ|eapply HNIL; [repeat split; discriminate|reflexivity|discriminate..]]|].
    apply tbl_app; [apply tbl_first; [exact HZ|eapply HNIL; [repeat split; discriminate|reflexivity|discriminate..]]|].
    apply tbl_app; [apply (tbl_once _ _ (fun x => val x 2 (cwidth n)))|].
    { apply (seg_kids_text E op fuel (S d) (VInt n) tile_markers m_COC "coc" WithComponents "ccoc"
               (fun x => VInt (val x 2 (cwidth n)))); auto;
        [repeat split; discriminate|discriminate|apply HPRE; discriminate|].
      intros x r1 H1. eapply coc_ccoc. exact H1. }
    apply tbl_app; [apply (tbl_once _ _ (fun x => val x 2 (cwidth n)))|].
    { apply (seg_kids_text E op fuel (S d) (VInt n) tile_markers m_QCC "qcc" WithComponents "cqcc"
               (fun x => VInt (val x 2 (cwidth n)))); auto;
        [repeat split; discriminate|discriminate|apply HPRE; discriminate|].
      intros x r1 H1. eapply qcc_cqcc. exact H1. }
    destruct (tp_psot c p =? 0) eqn:EP; cbn [negb]; [constructor|].
    constructor; [|constructor]. split; [reflexivity|]. cbn [snd]. rewrite bin_in.
    unfold tp_next. destruct (tp_psot c p =? -9999) eqn:EQ.
    - apply Z.eqb_eq in EQ. rewrite EQ. replace (p + -9999 + 2) with (p - 9997) by lia.
      replace (p + -9999) with (p - 9999) by lia. reflexivity.
    - assert (0 <= tp_psot c p) by (unfold tp_psot in *; pose proof (val_4_range (tp_sot c p) 4 ltac:(lia)); lia).
      rewrite slice_sub by lia. replace (p + tp_psot c p + 2 - (p + tp_psot c p)) with 2 by lia. reflexivity. }
  erewrite bind_emits by apply emits_test.
  erewrite bind_emits by (apply (emits_int op)). erewrite bind_emits by (apply (emits_int op)).
  unfold bind at 1. unfold get_chars at 1. rewrite !app_st_app.
  match goal with |- context [node "" (st_chars ?s)] =>
    replace (node "" (st_chars s)) with chars end.
  2:{ unfold chars, tp_props. cbn. rewrite HP1, HP2. reflexivity. }
  rewrite HTP.
  erewrite bind_emits by (eapply emits_first; reflexivity).
  erewrite bind_emits by (eapply emits_first; reflexivity).
  erewrite bind_emits by (eapply emits_first; reflexivity).
  erewrite bind_emits by (eapply emits_first; reflexivity).
  erewrite bind_emits by (eapply emits_first; reflexivity).
  erewrite bind_emits by (eapply emits_unique; reflexivity).
  erewrite bind_emits by (eapply emits_unique; reflexivity).
  erewrite bind_emits by (apply (emits_lift op)).
  erewrite bind_emits by (eapply emits_when, emits_test).
  rewrite !app_st_app. cbn [set_ret].
  eexists. split; [reflexivity|].
  assert (HS1 : st_tests S1 = filled (r_tests r0 :: map r_tests rs) /\
                st_warns S1 = filled (r_warns r0 :: map r_warns rs)).
  { unfold S1. cbn [app_st st_tests st_warns st0 app]. rewrite <- !filled_app. split; reflexivity. }
  unfold tile_says. split; [|split; [|split]].
  - exists (vis (o_verbose op) T). split; [|now apply reports_vis].
    cbn [r_tests bv_of st_tests app_st]. rewrite (proj1 HS1). unfold T. rewrite !vis_app.
    cbn [s_opts f]. change (vis (o_verbose op) []) with (@nil elt). cbn [app].
    rewrite <- ?app_assoc. reflexivity.
  - cbn [r_chars bv_of st_chars app_st]. unfold tp_props, S1. cbn [st_chars app_st st0].
    rewrite HP1, HP2. cbn [app].
    destruct (negb (tp_psot c p =? 0)); rewrite ?app_nil_r; rewrite <- ?app_assoc; reflexivity.
  - cbn [r_warns bv_of st_warns app_st]. rewrite (proj2 HS1). cbn [app].
    destruct (negb (tp_psot c p =? 0)); rewrite ?app_nil_r; reflexivity.
  - repeat split; reflexivity.
Qed.
