(** * C73: from a directory to the verdicts in the document *)

From Coq Require Import ZArith List Bool String Ascii Lia.
From Verif Require Import Py ETree BV VSuper CheckFile Main Serial PosixFS SpecBox SpecMarker SpecWalk SpecSuper SpecIPL SpecCS SpecFile SpecTop SpecValid SpecOutcome SpecXml SpecFS SpecDoc.
From Verif Require Import Spec SpecText PBase PHuman Ex Prop_Options PFile POutcome PSerial PDoc PFS Prop_Check Prop_Tiles Prop_Top Prop_Outcome Prop_Main Prop_Xml Prop_FS.
Import ListNotations.
Open Scope string_scope.
Open Scope list_scope.
Open Scope Z_scope.

(** ** One file *)
Lemma settled E o path fo size mtime c w t fin (OK : Prop) : env_ok E -> fo_size fo = Ok size -> fo_mtime fo = Ok mtime -> str_limit E = None ->
  contents path (fo_map fo) c w -> root_type (o_format o) t -> SpecOutcome.does E o t c VNone VNone fin -> fin <> Endless ->
  ((exists r, gives E o t c VNone VNone r /\ r_valid r = VBool true) <-> OK) ->
  exists f0 d0, forall f d, (f0 <= f)%nat -> (d0 <= d)%nat -> exists v st T P W,
    checkOneFile E f d path fo o 0 = Ok (report fo o size mtime st (if v : bool then "True" else "False") T P [] W) /\ (v = true <-> OK).
Proof.
  intros HE H1 H2 HN HM HT HD HF HOK. pose proof HD as HD0. apply does_settles in HD. destruct HD as (f0 & d0 & HD). exists f0, d0. intros f d Hf Hd. specialize (HD f d Hf Hd).
  assert (HRT : forall t', root_type (o_format o) t' -> t' = t).
  { intros t' HT'. destruct HT as [(A & ->)|(A & ->)], HT' as [(B & ->)|(B & ->)]; try reflexivity; exfalso; cbn in A, B; intuition congruence. }
  assert (HCC : forall b w', contents path (fo_map fo) b w' -> b = c) by (intros b w' HC; inversion HM; inversion HC; congruence).
  destruct (C20_report E f d path fo o size mtime HE H1 H2) as [(v & T & P & W & HX & HA)|[(e' & HX & HA)|(HX & HA)]].
  - exists v, succeeded, T, P, W. split; [exact HX|]. destruct HA as (b & w' & t' & r & W0 & HC' & HT' & HV & Hv & _). apply HCC in HC'. subst b. rewrite (HRT t' HT') in HV.
    rewrite <- HOK. split.
    + intros ->. exists r. split; [now exists f, d|exact Hv].
    + intros (r' & (f' & d' & HG) & Hr'). assert (HE1 : validate E o (f + f') (d + d') t c VNone VNone = Ok r) by (eapply lift_ok; [exact HV|lia|lia]).
      assert (HE2 : validate E o (f + f') (d + d') t c VNone VNone = Ok r') by (eapply lift_ok; [exact HG|lia|lia]). rewrite HE1 in HE2. injection HE2 as <-. congruence.
  - exists false, (failed_with (message e')), [], [], [leaf "warning" (VStr (pys (message e')))]. split; [exact HX|]. split; [discriminate|]. intros HO. exfalso.
    apply HOK in HO. destruct HO as (r' & HG & _). assert (fin = Report) as ->.
    { apply (does_fun E o t c VNone VNone); [exact HD0|]. exists r'. exact HG. }
    cbn [as_out] in HD. destruct HD as (r & HV). inversion HA as [e HU|b w' HC' HT'|b w' t' e HC' HT' HV'|b w' t' r2 HC' HT' HV' HL]; subst.
    + eapply contents_readable; [exact HM|exact HU].
    + eapply HT'; exact HT.
    + apply HCC in HC'. subst b. rewrite (HRT t' HT') in HV'. congruence.
    + rewrite HN in HL. destruct HL as [HL|[HL|HL]]; apply HL; (eapply every_impl; [|apply every_true]); intros t1 v1 _ (z & _ & HZ & _); now apply HZ.
  - exfalso. destruct HA as (b & w' & t' & HC' & HT' & HV'). apply HCC in HC'. subst b. rewrite (HRT t' HT') in HV'.
    destruct fin as [|e|]; cbn [as_out] in HD; [destruct HD as (r & HD); congruence|congruence|contradiction].
Qed.

(** ** Reading *)
Definition trim_kids (k : list dnode) : list dnode :=
  flat_map (fun y => match y with DText s => match strip s with [] => [] | t => [DText t] end | DElem _ _ _ => [trim y] end) k.
Lemma named_trim n x : has_name n (trim x) = has_name n x.
Proof. destruct x as [s|m a k]; [reflexivity|]. cbn [trim]. destruct (existsb is_elem k); reflexivity. Qed.
Lemma first_kids n k : first_named n (trim_kids k) = option_map trim (first_named n k).
Proof.
  induction k as [|x k IH]; [reflexivity|]. unfold trim_kids in *. cbn [flat_map]. destruct x as [s|m a q].
  - cbn [first_named has_name]. rewrite <- IH. destruct (strip s); reflexivity.
  - cbn [app]. change (first_named n (trim (DElem m a q) :: ?l)) with (if has_name n (trim (DElem m a q)) then Some (trim (DElem m a q)) else first_named n l).
    cbn [first_named]. rewrite named_trim. destruct (has_name n (DElem m a q)); [reflexivity|exact IH].
Qed.
Lemma filter_kids n k : filter (has_name n) (trim_kids k) = map trim (filter (has_name n) k).
Proof.
  induction k as [|x k IH]; [reflexivity|]. unfold trim_kids in *. cbn [flat_map]. rewrite filter_app, IH. destruct x as [s|m a q].
  - cbn [filter has_name]. destruct (strip s); reflexivity.
  - cbn [filter]. rewrite named_trim. destruct (has_name n (DElem m a q)); reflexivity.
Qed.
Lemma no_elem n k : existsb is_elem k = false -> first_named n k = None /\ filter (has_name n) k = [].
Proof. induction k as [|[s|m a q] k IH]; cbn; [auto|auto|discriminate]. Qed.
Lemma child_trim n x : child n (option_map trim x) = option_map trim (child n x).
Proof.
  destruct x as [[s|m a k]|]; [reflexivity| |reflexivity]. cbn [option_map child trim]. destruct (existsb is_elem k) eqn:E; cbn [children]; [apply first_kids|].
  now rewrite (proj1 (no_elem _ k E)).
Qed.
Lemma doc_text_trim x : doc_text (option_map trim x) = doc_text x.
Proof.
  destruct x as [[s|m a k]|]; [reflexivity| |reflexivity]. cbn [option_map trim]. destruct (existsb is_elem k) eqn:E; [|reflexivity].
  assert (H1 : doc_text (Some (DElem m a k)) = []) by (destruct k as [|[s|? ? ?] [|]]; [reflexivity|discriminate E|reflexivity..]).
  rewrite H1. fold (trim_kids k). assert (H2 : existsb is_elem (trim_kids k) = true).
  { clear -E. induction k as [|[s|n b q] k IH]; [discriminate E| |]; unfold trim_kids; cbn [flat_map]; rewrite existsb_app; [fold (trim_kids k); rewrite IH by exact E; apply orb_true_r|].
    cbn [existsb trim]. destruct (existsb is_elem q); reflexivity. }
  destruct (trim_kids k) as [|[s|? ? ?] [|]]; [reflexivity|discriminate H2|reflexivity..].
Qed.
Lemma row_trim f : row (trim f) = row f.
Proof.
  unfold row. change (Some (trim f)) with (option_map trim (Some f)). rewrite !child_trim, !doc_text_trim. reflexivity.
Qed.
Lemma verdicts_trim z : verdicts (trim z) = verdicts z.
Proof.
  destruct z as [s|m a k]; [reflexivity|]. unfold verdicts. cbn [trim]. destruct (existsb is_elem k) eqn:E; cbn [children]; [|reflexivity].
  fold (trim_kids k). rewrite filter_kids, map_map. apply map_ext. apply row_trim.
Qed.

(** ** The meaning of a report *)
Lemma means_plain t v k y : ename default_ns true (pys t) = Some (jp t) -> means default_ns (Elt t [] v k) = Some y ->
  exists k', y = DElem (jp t) [] (text_nodes v ++ k') /\ Forall2 (fun e x => means default_ns e = Some x) k k'.
Proof.
  intros HN. cbn [means map]. change (decls [] ++ default_ns) with default_ns. change (others []) with (@nil (pystr * pystr)). rewrite HN. cbn [map all_some]. destruct (all_some (map (means default_ns) k)) as [k'|] eqn:E; [|discriminate].
  cbn [map distinct]. intros H. injection H as <-. exists k'. split; [reflexivity|]. clear -E. revert k' E. induction k as [|e k IH]; intros k'; cbn [map all_some]; [intros H; injection H as <-; constructor|].
  destruct (means default_ns e) eqn:EM; [|discriminate]. destruct (all_some (map (means default_ns) k)) eqn:EA; [|discriminate]. intros H. injection H as <-. constructor; auto.
Qed.
Lemma means_valid fmt s y : means default_ns (Elt "isValid" [("format", pys fmt)] (VStr (pys s)) []) = Some y -> has_name (jp "isValid") y = true /\ doc_text (Some y) = eol (pys s).
Proof.
  cbn [means map all_some]. change (ename _ true (pys "isValid")) with (Some (jp "isValid")). intros H. cbv iota in H.
  match type of H with match ?a with _ => _ end = _ => destruct a as [a'|]; [|discriminate H] end. destruct (SpecXml.distinct (map fst a')); [|discriminate H]. injection H as <-. split; [reflexivity|].
  rewrite app_nil_r. destruct s as [|c s]; [reflexivity|]. cbn [pys text_nodes]. destruct (eol_cons (Z.of_N (N_of_ascii c)) (pys s)) as (d & r & HX). reflexivity.
Qed.
Lemma leaf_text t s y : ename default_ns true (pys t) = Some (jp t) -> means default_ns (leaf t (VStr s)) = Some y -> has_name (jp t) y = true /\ doc_text (Some y) = eol s.
Proof.
  intros HN H. apply means_plain in H; [|exact HN]. destruct H as (k' & -> & HK). inversion HK; subst. rewrite app_nil_r. split; [unfold has_name; now apply eqb_refl|].
  destruct s as [|c s]; reflexivity.
Qed.
Lemma jp_name n t : pystr_eqb (jp n) (jp t) = pystr_eqb (pys n) (pys t).
Proof. unfold jp. generalize (pys "{http://openpreservation.org/ns/jpylyzer/v2/}"). intros u. induction u as [|c u IH]; [reflexivity|]. cbn [app pystr_eqb]. now rewrite Z.eqb_refl, IH. Qed.
Lemma report_row fo o size mtime st v T P W y :
  means default_ns (report fo o size mtime st v T P [] W) = Some y ->
  has_name (jp "file") y = true /\ row y = (eol (stripSurrogatePairs (fo_abspath fo)), eol (pys v)).
Proof.
  intros H. unfold report in H. apply means_plain in H; [|reflexivity]. destruct H as (k & -> & HK). cbn [text_nodes app] in *.
  inversion HK as [|? y1 ? k1 M1 HK1]; subst. inversion HK1 as [|? y2 ? k2 M2 HK2]; subst. inversion HK2 as [|? y3 ? k3 M3 _]; subst. clear HK HK1 HK2.
  apply means_plain in M1; [|reflexivity]. destruct M1 as (i & -> & HI). apply means_plain in M2; [|reflexivity]. destruct M2 as (q & -> & _). apply means_valid in M3. destruct M3 as [M3 M3'].
  inversion HI as [|? z1 ? i1 N1 HI1]; subst. inversion HI1 as [|? z2 ? i2 N2 _]; subst. clear HI HI1. apply leaf_text in N1; [|reflexivity]. apply leaf_text in N2; [|reflexivity].
  destruct N1 as [N1 _], N2 as [N2 N2']. split; [unfold has_name; apply eqb_refl|]. unfold row. cbn [child children text_nodes app].
  assert (HZ : has_name (jp "filePath") z1 = false).
  { destruct z1 as [s|m a kk]; [reflexivity|]. cbn [has_name] in *. apply pystr_eqb_spec in N1. subst m. rewrite jp_name. reflexivity. }
  assert (HA : forall n m x l, pystr_eqb (pys m) (pys n) = true -> first_named (jp n) (DElem (jp m) [] x :: l) = Some (DElem (jp m) [] x)) by (intros n m x l H; cbn [first_named]; unfold has_name at 1; now rewrite jp_name, H).
  assert (HB : forall n m x l, pystr_eqb (pys m) (pys n) = false -> first_named (jp n) (DElem (jp m) [] x :: l) = first_named (jp n) l) by (intros n m x l H; cbn [first_named]; unfold has_name at 1; now rewrite jp_name, H).
  f_equal.
  - rewrite HA by reflexivity. unfold child, children. cbn [first_named]. rewrite HZ, N2. exact N2'.
  - rewrite !HB by reflexivity. cbn [first_named]. rewrite M3. exact M3'.
Qed.

(** ** A run of the program *)
(** What the format asks for, and that the analysis comes to an end. *)
Definition conforms (E : env) (fmt : string) (c : bytes) : Prop :=
  (In fmt ["jp2"; "jph"] /\ file_ok E fmt c) \/ (In fmt ["j2c"; "jhc"] /\ codestream_ok E fmt c).
Definition comes_to_end (fmt : string) (c : bytes) : Prop :=
  exists fin, fin <> Endless /\ ((In fmt ["jp2"; "jph"] /\ file_out c fin) \/ (In fmt ["j2c"; "jhc"] /\ cs_out c fin)).
(** A file that can be read, with the contents [c], and the path [p] of which can be
    written in an XML document. *)
Definition path_char (c : Z) : Prop := xml_char c /\ c <> 13.
Definition readable (fo : fileobs) (p : pystr) (c : bytes) : Prop :=
  ((c <> [] /\ fo_map fo = Mapped c) \/ (c = [] /\ fo_map fo = MapEmpty)) /\
  fo_abspath fo = p /\ Forall path_char p /\ Forall path_char (fo_basename fo) /\
  exists size mtime, fo_size fo = Ok size /\ fo_mtime fo = Ok mtime /\ ascii_text mtime.

Lemma strip_id s : Forall path_char s -> stripSurrogatePairs s = s.
Proof.
  intros H. assert (HC : Forall codepoint s) by (eapply Forall_impl; [|exact H]; intros c [HX _]; unfold xml_char in HX; unfold codepoint; lia).
  destruct (C45_names s HC) as [_ HF]. revert H HF. generalize (stripSurrogatePairs s). induction s as [|c s IH]; intros t H HF; inversion HF as [|? c' ? t' HX HF']; subst; [reflexivity|].
  inversion H as [|? ? [HP _] H']; subst. inversion HC; subst. f_equal; [|now apply IH]. destruct HX as [(HX & _)|(_ & HX)]; [unfold xml_char, surrogate in *; lia|exact HX].
Qed.
Lemma chars_eol s : Forall path_char s -> eol s = s.
Proof. intros H. apply eol_id. intros HI. rewrite Forall_forall in H. apply H in HI. now destruct HI. Qed.
Lemma together {A} (P : nat -> nat -> A -> Prop) l : (forall x, In x l -> exists f0 d0, forall f d, (f0 <= f)%nat -> (d0 <= d)%nat -> P f d x) ->
  exists f0 d0, forall f d, (f0 <= f)%nat -> (d0 <= d)%nat -> forall x, In x l -> P f d x.
Proof.
  induction l as [|x l IH]; intros H; [exists O, O; intros ? ? _ _ ? []|]. destruct IH as (f1 & d1 & H1); [intros y Hy; apply H; now right|]. destruct (H x) as (f2 & d2 & H2); [now left|].
  exists (f1 + f2)%nat, (d1 + d2)%nat. intros f d Hf Hd y [<-|Hy]; [apply H2; lia|apply H1; [lia|lia|exact Hy]].
Qed.
Lemma Forall2_map_r {A B C} (P : A -> C -> Prop) (g : B -> C) l m : Forall2 (fun x y => P x (g y)) l m -> Forall2 P l (map g m).
Proof. induction 1; constructor; assumption. Qed.

Section Run.
Variables (E : env) (F : fsys) (observe : pystr -> fileobs) (dom : pystr -> res dnode) (np : bool).
Hypothesis HE : env_ok E.
Hypothesis HL : str_limit E = None.
Hypothesis HU : unicode_ok (catC E).
Hypothesis HP : parser_ok (negb np) E.
Hypothesis HD : np = false -> dom_ok dom.

(** Of files that can be read, and the analysis of which comes to an end, one run
    writes one well-formed document, in which a reader finds the path of each file, in
    order, with the verdict True or False, and True exactly for the conforming ones. *)
Theorem C73_run name version a (content : pystr -> bytes) :
  xml_string name -> xml_string version -> In (lower (a_format a)) ["jp2"; "jph"; "j2c"; "jhc"] -> a_mix a = 0 -> a_paths a <> [] ->
  let files := findFiles F (a_recurse a) (a_paths a) in
  files <> [] ->
  (forall f, In f files -> readable (observe f) (fo_abspath (observe f)) (content f) /\ len (content f) < 2 ^ 53 /\ comes_to_end (lower (a_format a)) (content f)) ->
  exists fuel0 depth0, forall fuel depth, (fuel0 <= fuel)%nat -> (depth0 <= depth)%nat ->
    let r := main E fuel depth F observe (writeElement dom np) (toolInfo name version) a in
    Main.ends r = Finished /\ exists z, parse (stdout_text r) = Some z /\
    Forall2 (fun f v => fst v = fo_abspath (observe f) /\
                        (snd v = pys "True" /\ conforms E (lower (a_format a)) (content f) \/
                         snd v = pys "False" /\ ~ conforms E (lower (a_format a)) (content f))) files (verdicts z).
Proof.
  intros HN HV HF HM HA files HNE HO. set (fmt := lower (a_format a)) in *.
  set (o := {| o_format := fmt; o_verbose := a_verbose a; o_nullxml := a_nullxml a; o_packet := a_packet a |}).
  destruct (together (fun f d p => exists rep, checkOneFile E f d p (observe p) o 0 = Ok rep /\
      forall y, means default_ns rep = Some y -> has_name (jp "file") y = true /\ fst (row y) = fo_abspath (observe p) /\
        (snd (row y) = pys "True" /\ conforms E fmt (content p) \/ snd (row y) = pys "False" /\ ~ conforms E fmt (content p))) files) as (f0 & d0 & HT).
  { intros p Hp. destruct (HO p Hp) as ((HR & _ & HC1 & HC2 & size & mtime & S1 & S2 & _) & HLen & fin & HFin & HEnd).
    assert (HC : exists w, contents p (fo_map (observe p)) (content p) w) by (destruct HR as [(_ & ->)|(-> & ->)]; eexists; constructor). destruct HC as (w & HC).
    assert (HX : exists t, root_type fmt t /\ SpecOutcome.does E o t (content p) VNone VNone fin /\
       ((exists r, gives E o t (content p) VNone VNone r /\ r_valid r = VBool true) <-> conforms E fmt (content p))).
    { destruct HEnd as [(HI & HEnd)|(HI & HEnd)].
      - exists (BTs "JP2"). split; [left; auto|]. split; [now apply file_does|]. rewrite (C60_file E o (content p) HLen). cbn [o_format o]. unfold conforms. split; [auto|].
        intros [(_ & H)|(HI' & _)]; [exact H|]. exfalso. cbn in HI, HI'. intuition congruence.
      - exists (BTs "contiguousCodestreamBox"). split; [right; auto|]. split; [now apply cs_does|]. rewrite (C60_codestream E o (BTs "contiguousCodestreamBox") (content p) VNone VNone eq_refl). cbn [o_format o]. unfold conforms. split; [auto|].
        intros [(HI' & _)|(_ & H)]; [|exact H]. exfalso. cbn in HI, HI'. intuition congruence. }
    destruct HX as (t & HT & HDoes & HOK). destruct (settled E o p (observe p) size mtime (content p) w t fin _ HE S1 S2 HL HC HT HDoes HFin HOK) as (f0 & d0 & HS).
    exists f0, d0. intros f d Hf Hd. destruct (HS f d Hf Hd) as (v & st & T & P & W & HX & HB). eexists. split; [exact HX|]. intros y Hy. apply report_row in Hy. destruct Hy as [Hy1 Hy2]. split; [exact Hy1|].
    rewrite Hy2. cbn [fst snd]. rewrite strip_id by exact HC1. split; [now apply chars_eol|]. destruct v; [left|right]; split; try reflexivity; [now apply HB|]. intros HX'. apply HB in HX'. discriminate. }
  exists f0, d0. intros f d Hf Hd r. specialize (HT f d Hf Hd).
  assert (HR : r = checkFiles E f d F observe (writeElement dom np) (toolInfo name version) [] o 0 (a_recurse a) (a_paths a)).
  { destruct (C48_main E f d F observe (writeElement dom np) (toolInfo name version) a) as [(H & _)|[(_ & H & _)|(_ & _ & mf & H1 & H2 & H3)]]; [contradiction|contradiction|].
    unfold r. rewrite H3. f_equal. fold fmt in H1, H2. destruct (in_dec string_dec fmt ["j2c"; "jhc"]) as [HI|HI]; [now apply H1|rewrite H2 by exact HI; exact HM]. }
  destruct (C70_document E f d F observe dom np HE HU HP HD name version [] o 0 (a_recurse a) (a_paths a) HN HV HF HNE) as (HFin & reps & ys & z & HReps & HMeans & HZ & HZ').
  { intros p Hp. destruct (HT p Hp) as (rep & HC & _). split; [|eauto]. destruct (HO p Hp) as ((_ & _ & HC1 & HC2 & HI) & _).
    assert (HXS : forall s, Forall path_char s -> xml_string (stripSurrogatePairs s)) by (intros s Hs; rewrite strip_id by exact Hs; eapply Forall_impl; [|exact Hs]; now intros c [Hc _]).
    split; [now apply HXS|]. split; [now apply HXS|]. exact HI. }
  rewrite <- HR in HFin, HZ. split; [exact HFin|]. exists z. split; [exact HZ|].
  assert (HVz : verdicts z = map row (filter (has_name (jp "file")) ys)).
  { destruct np.
    - subst z. reflexivity.
    - rewrite <- verdicts_trim, HZ'. unfold verdicts, document. cbn [children]. clear. induction ys as [|y ys IH]; [reflexivity|]. cbn [map filter]. rewrite named_trim. destruct (has_name (jp "file") y); [|exact IH]. cbn [map]. now rewrite row_trim, IH. }
  rewrite HVz. inversion HMeans as [|? y0 ? ys' M0 HM']; subst. unfold toolInfo in M0. apply means_plain in M0; [|reflexivity]. destruct M0 as (k0 & -> & _).
  cbn [filter]. replace (has_name (jp "file") (DElem (jp "toolInfo") [] (text_nodes VNone ++ k0))) with false by (symmetry; unfold has_name; rewrite jp_name; reflexivity).
  cbn [app] in HReps. fold files in HReps. apply Forall2_map_r. clear -HReps HM' HT. revert ys' HM' HT. induction HReps as [|p rep ps reps HC HReps IH]; intros ys' HM' HT; inversion HM' as [|? y ? ys2 HY HM2]; subst; [constructor|].
  destruct (HT p (or_introl eq_refl)) as (rep' & HC' & HX). rewrite HC in HC'. injection HC' as <-. destruct (HX y HY) as (H1 & H2 & H3). cbn [filter]. rewrite H1. constructor; [auto|].
  apply IH; [exact HM2|]. intros q Hq. apply HT. now right.
Qed.
End Run.

(** The analysis of a file comes to an end if no tile part of a codestream points back,
    and the packet lengths end within their marker segments. *)
Theorem C73_ends fmt c : len c < 2 ^ 53 ->
  (In fmt ["jp2"; "jph"] /\ (forall y, inbox c (t_jp2c, y) -> (forall p, ~ bad_sot y p) /\ packet_lengths_end y)) \/
  (In fmt ["j2c"; "jhc"] /\ (forall p, ~ bad_sot c p) /\ packet_lengths_end c) -> comes_to_end fmt c.
Proof.
  assert (HX : forall t x fin, SpecOutcome.does E0 (op "jp2" false) t x VNone VNone fin -> SpecTop.ends E0 (op "jp2" false) t x VNone VNone -> fin <> Endless).
  { intros t x fin HD HN. destruct HN as [HR|(e & He & HR)].
    - assert (HX : SpecOutcome.does E0 (op "jp2" false) t x VNone VNone Report) by exact HR. rewrite (does_fun _ _ _ _ _ _ _ _ HD HX). discriminate.
    - assert (HX : SpecOutcome.does E0 (op "jp2" false) t x VNone VNone (Exception e)) by (cbn; auto). rewrite (does_fun _ _ _ _ _ _ _ _ HD HX). discriminate. }
  intros HL [(HI & H)|(HI & H1 & H2)].
  - destruct (C69_outcome E0 (op "jp2" false) c HL) as ((fin & HF) & HA); [intros y Hy; apply no_bad_chained; now apply H|]. exists fin. split; [|left; auto].
    eapply HX; [now apply HA|]. now apply C15_file_terminates.
  - destruct (C69_outcome_codestream E0 (op "jp2" false) c (no_bad_chained c H1)) as ((fin & HF) & HA). exists fin. split; [|right; auto].
    eapply HX; [now apply HA|]. now apply C15_terminates.
Qed.

(** With --recurse and a directory, in which every entry is a directory or a file: the
    document has one verdict for each file in it, at whatever depth. *)
Theorem C73_directory E observe dom np root cwd d k l name version a content :
  env_ok E -> str_limit E = None -> unicode_ok (catC E) -> parser_ok (negb np) E -> (np = false -> dom_ok dom) ->
  wf_tree root -> hd 0 cwd = 47 -> stat root cwd d = Some (Dir k l) -> ~ In 42 d -> (hd 0 d = 47 \/ ~ In 42 cwd) ->
  xml_string name -> xml_string version -> In (lower (a_format a)) ["jp2"; "jph"; "j2c"; "jhc"] -> a_mix a = 0 ->
  a_paths a = [d] -> a_recurse a = true ->
  (forall ds n m, walked l ds m -> ~ In (n, Other) m) -> (exists ds n m, walked l ds m /\ In (n, File) m) ->
  exists top, (hd 0 d = 47 -> top = d) /\ hd 0 top = 47 /\ stat root cwd top = Some (Dir k l) /\
  let found f := exists ds n m, f = under top (ds ++ [n]) /\ walked l ds m /\ In (n, File) m in
  (forall f, found f -> readable (observe f) (path_abspath cwd f) (content f) /\ len (content f) < 2 ^ 53 /\ comes_to_end (lower (a_format a)) (content f)) ->
  exists fuel0 depth0, forall fuel depth, (fuel0 <= fuel)%nat -> (depth0 <= depth)%nat ->
    let r := main E fuel depth (posix root cwd) observe (writeElement dom np) (toolInfo name version) a in
    Main.ends r = Finished /\ exists z files, parse (stdout_text r) = Some z /\
      NoDup files /\ (forall f, In f files <-> found f) /\
      Forall2 (fun f v => stat root cwd f = Some File /\ stat root cwd (fst v) = Some File /\ fst v = path_abspath cwd f /\
                          (snd v = pys "True" /\ conforms E (lower (a_format a)) (content f) \/
                           snd v = pys "False" /\ ~ conforms E (lower (a_format a)) (content f))) files (verdicts z).
Proof.
  intros HE HL HU HP HD HW HC HS H42 H47 HN HV HF HM HPa HRe HOther HSome.
  destruct (C72_tree root cwd HW HC d k l HS H42 H47) as (top & T1 & T2 & T3 & HND & HIn).
  exists top. split; [exact T1|]. split; [exact T2|]. split; [exact T3|]. intros found HO. set (files := findFiles (posix root cwd) true [d]) in *.
  assert (HSt : forall ds n m, walked l ds m -> In (n, File) m -> stat root cwd (under top (ds ++ [n])) = Some File).
  { intros ds n m HWk HI. pose proof (stat_wf root cwd top _ HW T3) as HWf. destruct (stat_walked root cwd _ _ _ HWk _ _ HWf T3) as (k' & HS' & HW'). destruct (stat_in root cwd _ _ _ _ _ HW' HS' HI) as (HS2 & _). rewrite under_app. exact HS2. }
  assert (HFo : forall f, In f files <-> found f).
  { intros f. rewrite HIn. split.
    - intros (ds & n & m & e & HX & HWk & HI & _ & [-> | ->]); [exists ds, n, m; auto|]. exfalso. eapply HOther; [exact HWk|exact HI].
    - intros (ds & n & m & -> & HWk & HI). exists ds, n, m, File. repeat (split; [eauto|]). now left. }
  assert (HNE : files <> []).
  { destruct HSome as (ds & n & m & HWk & HI). intros HX. assert (HY : In (under top (ds ++ [n])) files) by (apply HFo; exists ds, n, m; auto). rewrite HX in HY. destruct HY. }
  assert (HAb : forall f, In f files -> fo_abspath (observe f) = path_abspath cwd f) by (intros f Hf; destruct (HO f (proj1 (HFo f) Hf)) as ((_ & HX & _) & _); exact HX).
  assert (HFile : forall f, In f files -> stat root cwd f = Some File /\ stat root cwd (path_abspath cwd f) = Some File).
  { intros f Hf. apply HFo in Hf. destruct Hf as (ds & n & m & -> & HWk & HI). pose proof (HSt ds n m HWk HI) as HX. split; [exact HX|]. eapply abspath_stat; [now apply slash_hd|eapply root_dir; exact HX|exact HX]. }
  destruct (C73_run E (posix root cwd) observe dom np HE HL HU HP HD name version a content HN HV HF HM ltac:(rewrite HPa; discriminate)) as (f0 & d0 & HT).
  { rewrite HPa, HRe. exact HNE. }
  { rewrite HPa, HRe. intros f Hf. rewrite (HAb f Hf). now apply HO, HFo. }
  exists f0, d0. intros f d' Hf Hd. specialize (HT f d' Hf Hd). destruct HT as (HFin & z & HZ & HV2). split; [exact HFin|]. exists z, files. split; [exact HZ|]. split; [exact HND|]. split; [exact HFo|].
  rewrite HPa, HRe in HV2. fold files in HV2. clear -HV2 HAb HFile. revert HAb HFile. induction HV2 as [|f v fs vs [H1 H2] HV2 IH]; intros HAb HFile; constructor.
  - destruct (HFile f (or_introl eq_refl)) as [S1 S2]. assert (HX : fst v = path_abspath cwd f) by (rewrite H1; apply HAb; now left). split; [exact S1|]. split; [now rewrite HX|]. auto.
  - apply IH; intros g Hg; [apply HAb|apply HFile]; now right.
Qed.

(** ** A case: a directory with a valid file, and below it another that is not *)
Definition end_tree : entry := Dir false [(pys "data", Dir false [(pys "a.jp2", File); (pys "s", Dir false [(pys "b.jp2", File)])])].
Definition end_content (f : pystr) : bytes := if pystr_eqb f (pys "/data/a.jp2") then ex_file else two_troubles.
Definition end_observe (f : pystr) : fileobs :=
  {| fo_basename := pys "x.jp2"; fo_abspath := f; fo_size := Ok 1; fo_mtime := Ok (pys "2020-01-01T00:00:00"); fo_map := Mapped (end_content f) |}.
Definition end_args : args := {| a_format := "JP2"; a_mix := 0; a_nullxml := false; a_recurse := true; a_packet := false; a_verbose := false; a_paths := [pys "/data"] |}.
Example C73_ex np : exists fuel0 depth0, forall fuel depth, (fuel0 <= fuel)%nat -> (depth0 <= depth)%nat ->
  let r := main E2 fuel depth (posix end_tree at_root) end_observe (writeElement dom0 np) (toolInfo (pys "jpylyzer") (pys "2.2.1")) end_args in
  Main.ends r = Finished /\ exists z, parse (stdout_text r) = Some z /\
  verdicts z = [(pys "/data/a.jp2", pys "True"); (pys "/data/s/b.jp2", pys "False")].
Proof.
  destruct C70_ex_env as (H1 & H2 & H3 & H4 & _).
  assert (HF : findFiles (posix end_tree at_root) true [pys "/data"] = [pys "/data/a.jp2"; pys "/data/s/b.jp2"]) by (vm_compute; reflexivity).
  assert (HX : forall s, forallb is_char (pys s) && forallb (fun c => negb (c =? 13)) (pys s) = true -> Forall path_char (pys s)).
  { intros s H. apply andb_prop in H. destruct H as [HA HB]. rewrite forallb_forall in HA, HB. apply Forall_forall. intros c Hc. split; [apply xml_is_char; auto|]. apply HB in Hc. lia. }
  assert (HR : forall s, forallb is_char (pys s) && forallb (fun c => negb (c =? 13)) (pys s) = true -> end_content (pys s) <> [] -> readable (end_observe (pys s)) (fo_abspath (end_observe (pys s))) (end_content (pys s))).
  { intros s H HC. split; [left; split; [exact HC|reflexivity]|]. split; [reflexivity|]. split; [now apply HX|]. split; [apply (HX "x.jp2"); reflexivity|]. exists 1, (pys "2020-01-01T00:00:00"). split; [reflexivity|]. split; [reflexivity|]. now apply plainb_spec. }
  assert (HA : end_content (pys "/data/a.jp2") = ex_file) by reflexivity. assert (HB : end_content (pys "/data/s/b.jp2") = two_troubles) by reflexivity.
  destruct (C73_run E2 (posix end_tree at_root) end_observe dom0 np H2 eq_refl H3) with (name := pys "jpylyzer") (version := pys "2.2.1") (a := end_args) (content := end_content) as (f0 & d0 & HT).
  { intros b e. cbn [xml_parse E2 E0]. destruct b as [|x b]; [discriminate|]. destruct x; try discriminate. destruct (rev b) as [|y r]; [discriminate|].
    destruct y; try discriminate. intros H. injection H as <-. now apply parsed_node. }
  { auto. }
  { eapply Forall_impl; [|apply (HX "jpylyzer"); reflexivity]. now intros c [Hc _]. }
  { eapply Forall_impl; [|apply (HX "2.2.1"); reflexivity]. now intros c [Hc _]. }
  { now left. }
  { reflexivity. }
  { discriminate. }
  { cbn [end_args a_recurse a_paths]. rewrite HF. discriminate. }
  { cbn [end_args a_recurse a_paths a_format]. rewrite HF. change (lower "JP2") with "jp2". intros f [<-|[<-|[]]].
    - split; [apply HR; [reflexivity|rewrite HA; discriminate]|]. rewrite HA. split; [reflexivity|]. apply C73_ends; [reflexivity|]. left. split; [now left|].
      intros y Hy. apply ex_boxes in Hy as [Hy|Hy]; [cbv in Hy; intuition discriminate|]. injection Hy as ->. apply C15_terminates_ex.
    - split; [apply HR; [reflexivity|rewrite HB; discriminate]|]. rewrite HB. split; [reflexivity|]. exists (Exception ValueError). split; [discriminate|]. left. split; [now left|]. apply C69_outcome_ex. }
  exists f0, d0. intros f d Hf Hd. destruct (HT f d Hf Hd) as (HFin & z & HZ & HV). split; [exact HFin|]. exists z. split; [exact HZ|].
  cbn [end_args a_recurse a_paths a_format] in HV. rewrite HF in HV. change (lower "JP2") with "jp2" in HV.
  inversion HV as [|? v1 ? vs [V1 W1] HV1]; subst. inversion HV1 as [|? v2 ? vs2 [V2 W2] HV2]; subst. inversion HV2; subst. destruct v1 as [p1 q1], v2 as [p2 q2]. cbn [fst snd] in *. subst p1 p2.
  change (end_content _) with ex_file in W1. change (end_content _) with two_troubles in W2. destruct W1 as [(-> & _)|(_ & W1)].
  2: { exfalso. apply W1. left. split; [now left|]. apply (C60_file E2 (op "jp2" false) ex_file); [reflexivity|].
       eexists. split; [exists 100%nat, 4%nat; vm_compute; reflexivity|reflexivity]. }
  destruct W2 as [(_ & [(_ & W2)|(W2 & _)])|(-> & _)]; [| |reflexivity]; exfalso; [|cbn in W2; intuition discriminate].
  apply (C60_file E2 (op "jp2" false) two_troubles) in W2; [|reflexivity]. destruct W2 as (r & HG & _).
  assert (HD : SpecOutcome.does E2 (op "jp2" false) (BTs "JP2") two_troubles VNone VNone Report) by (exists r; exact HG).
  pose proof (file_does E2 (op "jp2" false) two_troubles (Exception ValueError) ltac:(reflexivity) ltac:(apply C69_outcome_ex)) as HD2.
  pose proof (does_fun _ _ _ _ _ _ _ _ HD HD2). discriminate.
Qed.

Definition all_theorems := (C73_run, C73_ends, @C73_directory, C73_ex).
Print Assumptions all_theorems.
