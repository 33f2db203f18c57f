(** * The report of one file: C20, C21, C44, C45 *)

From Coq Require Import ZArith List Bool String Lia.
From Coq Require Import Init.Byte.
From Coq Require Import ZifyBool.
From Verif Require Import Py PyFloat ByteConv ETree BV VSuper Remap CheckFile Spec SpecText SpecBox SpecWalk SpecTop SpecValid
     PBase PText PRel PHuman Ex Prop_Options PFile PTop Prop_Top.
Import ListNotations.
Open Scope string_scope.
Open Scope list_scope.
Open Scope Z_scope.

(** ** C44: the human-readable form of a tree *)

(** It is the unique tree with the same tags, attributes and shape in which every
    text is shown as documented. *)
Theorem C44_readable catC limit tbl e e' : ascii_ok catC -> good_limit limit -> good_table tbl ->
  (makeHumanReadable catC limit tbl e = Ok e' <-> rel (shows catC limit tbl) e e').
Proof.
  intros HA HL HT. destruct (mhr_cases catC limit tbl e HA HL HT) as [(x & -> & H)|(-> & H)].
  - rewrite H. split; [intros HX; injection HX; auto|congruence].
  - split; [discriminate|]. intros HR. exfalso. apply H. clear H. revert e' HR.
    induction e as [t a v k IH] using elt_ind'. intros e' HR. inversion HR as [? ? ? v' ? k' H1 H2]; subst. constructor.
    + intros (z & -> & HC & HD). inversion H1; subst; try contradiction. eapply HD; eassumption.
    + clear HR H1. revert k' H2. induction IH as [|x k Hx _ IHk]; intros k' H2; inversion H2; subst; constructor; eauto.
Qed.
Print Assumptions C44_readable.
(** Afterwards every text is absent or a string without control characters. *)
Theorem C44_clean catC limit tbl e e' : ascii_ok catC -> good_limit limit -> good_table tbl ->
  makeHumanReadable catC limit tbl e = Ok e' -> every (fun _ v => clean catC v) e'.
Proof.
  intros HA HL HT H. apply C44_readable in H; try assumption. eapply rel_every; [|exact H].
  intros t v v'. now apply shows_clean.
Qed.
Print Assumptions C44_clean.
(** Applying it again changes nothing. *)
Theorem C44_idempotent catC limit tbl tbl' e e' : ascii_ok catC -> good_limit limit -> good_table tbl -> good_table tbl' ->
  makeHumanReadable catC limit tbl e = Ok e' -> makeHumanReadable catC limit tbl' e' = Ok e'.
Proof.
  intros HA HL HT HT' H. apply C44_readable; try assumption. apply C44_clean in H; try assumption.
  apply rel_refl. eapply every_impl; [|exact H]. intros t v. now apply shows_again.
Qed.
Print Assumptions C44_idempotent.
(** It fails only on an integer with more digits than Python's limit (ValueError),
    and then always. *)
Theorem C44_fails catC limit tbl e : ascii_ok catC -> good_limit limit -> good_table tbl ->
  ((exists e', makeHumanReadable catC limit tbl e = Ok e') <-> every (fun t v => ~ too_long limit tbl t v) e) /\
  (makeHumanReadable catC limit tbl e = Raise ValueError <-> ~ every (fun t v => ~ too_long limit tbl t v) e).
Proof.
  intros HA HL HT. destruct (mhr_cases catC limit tbl e HA HL HT) as [(x & HX & H)|(-> & H)].
  - assert (HE : every (fun t v => ~ too_long limit tbl t v) e).
    { assert (HR : rel (shows catC limit tbl) e x) by now apply H. clear H HX. revert x HR.
      induction e as [t a v k IH] using elt_ind'. intros e' HR. inversion HR as [? ? ? v' ? k' H1 H2]; subst. constructor.
      - intros (z & -> & HC & HD). inversion H1; subst; try contradiction. eapply HD; eassumption.
      - clear HR H1. revert k' H2. induction IH as [|y k Hx _ IHk]; intros k' H2; inversion H2; subst; constructor; eauto. }
    rewrite HX. split; split; intros HY; eauto; [discriminate|contradiction].
  - split; split; intros HY; auto; [destruct HY; discriminate|contradiction].
Qed.
Print Assumptions C44_fails.
(** The two tables in use are dictionaries from raw values to plain text. *)
Theorem C44_tables : good_table propertiesRemapTable /\ good_table [].
Proof. exact (conj table_good empty_good). Qed.
Print Assumptions C44_tables.
(** A tree with a described integer, an undescribed one, a bool, a byte string with
    a control character, one that is not UTF-8, no text, and a float. *)
Definition ex_tree : elt :=
  node "properties" [leaf "meth" (VInt 2); leaf "height" (VInt (-305)); leaf "isValid" (VBool true);
    leaf "br" (VBytes [x6a; x70; x01; x32]); leaf "uuid" (VBytes [xff]); leaf "empty" VNone;
    leaf "ratio" (VFloat (int_div 3 2)); Elt "meth" [("a", pys "b")] (VInt 9) [leaf "c" (VInt 7)]].
Example C44_ex :
  ascii_ok (catC E0) /\ good_limit (str_limit E0) /\
  makeHumanReadable (catC E0) (str_limit E0) propertiesRemapTable ex_tree =
  Ok (node "properties" [leaf "meth" (VStr (pys "Restricted ICC")); leaf "height" (VStr (pys "-305"));
    leaf "isValid" (VStr (pys "True")); leaf "br" (VStr (pys "jp2")); leaf "uuid" (VStr []); leaf "empty" VNone;
    leaf "ratio" (VStr (pys "1.5")); Elt "meth" [("a", pys "b")] (VStr (pys "9")) [leaf "c" (VStr (pys "jpeg2000"))]]) /\
  makeHumanReadable (catC E0) (Some 2) propertiesRemapTable ex_tree = Raise ValueError.
Proof.
  split; [intros c Hc; cbn; lia|]. split; [exact I|]. split; now vm_compute.
Qed.

(** ** Reports *)

Definition env_ok (E : env) : Prop := ascii_ok (catC E) /\ good_limit (str_limit E).
(** What analysing a file needs from the operating system: the contents and
    warnings, or an exception. *)
Inductive contents (path : pystr) : mapping -> bytes -> list pystr -> Prop :=
| contents_mapped b : contents path (Mapped b) b []
| contents_empty : contents path MapEmpty [] [pys "empty file " ++ path]
| contents_large gb : contents path (MapTooLarge gb) []
    [pys "file " ++ path ++ pys " too large to open (" ++ gb ++ pys " GB). Try using 64-bit Python."].
Definition unreadable (m : mapping) (e : exn) : Prop :=
  m = MapFails e \/ (m = MapOther /\ e = UnboundLocalError).
(** The object that is analysed for a format. *)
Definition root_type (fmt : string) (t : btype) : Prop :=
  (In fmt ["jp2"; "jph"] /\ t = BTs "JP2") \/ (In fmt ["j2c"; "jhc"] /\ t = BTs "contiguousCodestreamBox").

Definition report (fo : fileobs) (o : opts) (size : Z) (mtime : pystr) (status : list elt) (verdict : string)
           (tests props ext warns : list elt) : elt :=
  node "file"
    ([node "fileInfo" [leaf "fileName" (VStr (stripSurrogatePairs (fo_basename fo)));
                      leaf "filePath" (VStr (stripSurrogatePairs (fo_abspath fo)));
                      leaf "fileSizeInBytes" (VStr (str_of_Z size)); leaf "fileLastModified" (VStr mtime)];
      node "statusInfo" status;
      Elt "isValid" [("format", pys (o_format o))] (VStr (pys verdict)) [];
      node "tests" tests; node "properties" props] ++ ext ++ [node "warnings" warns]).
Definition succeeded : list elt := [leaf "success" (VStr (pys "True"))].
Definition failed_with (msg : string) : list elt :=
  [leaf "success" (VStr (pys "False")); leaf "failureMessage" (VStr (pys msg))].
(** The documented messages. *)
Definition message (e : exn) : string :=
  match e with
  | MemoryError => "memory error (file size too large)"
  | OSError => "I/O error (cannot open file)"
  | RuntimeError => "runtime error, please report to developers by creating an issue at https://github.com/openpreserve/jpylyzer/issues"
  | _ => "unknown error, please report to developers by creating an issue at https://github.com/openpreserve/jpylyzer/issues"
  end.

(** [analysed E fuel depth path fo o e]: an exception [e] occurs during the analysis. *)
Inductive analysis_raises E fuel depth path (m : mapping) (o : opts) : exn -> Prop :=
| raises_map e : unreadable m e -> analysis_raises E fuel depth path m o e
| raises_format b w : contents path m b w -> (forall t, ~ root_type (o_format o) t) ->
    analysis_raises E fuel depth path m o UnboundLocalError
| raises_validate b w t e : contents path m b w -> root_type (o_format o) t ->
    validate E o fuel depth t b VNone VNone = Raise e -> analysis_raises E fuel depth path m o e
| raises_text b w t r : contents path m b w -> root_type (o_format o) t ->
    validate E o fuel depth t b VNone VNone = Ok r ->
    (~ every (fun t v => ~ too_long (str_limit E) [] t v) (r_tests r) \/
     ~ every (fun t v => ~ too_long (str_limit E) propertiesRemapTable t v) (r_chars r) \/
     ~ every (fun t v => ~ too_long (str_limit E) [] t v) (r_warns r)) ->
    analysis_raises E fuel depth path m o ValueError.
(** ... a report [r] of contents [b] is made, [T], [P] and [W] being its readable trees. *)
Definition analysis_ok E fuel depth path (m : mapping) (o : opts) (v : bool) (T P W : list elt) : Prop :=
  exists b w t r W0, contents path m b w /\ root_type (o_format o) t /\
    validate E o fuel depth t b VNone VNone = Ok r /\ r_valid r = VBool v /\
    rel (shows (catC E) (str_limit E) []) (r_tests r) (node "tests" T) /\
    rel (shows (catC E) (str_limit E) propertiesRemapTable) (r_chars r) (node "properties" P) /\
    rel (shows (catC E) (str_limit E) []) (r_warns r) (node "warnings" W0) /\
    exists ws, Forall2 (kept (catC E)) w ws /\ W = W0 ++ map (fun x => leaf "warning" (VStr x)) ws.
Definition analysis_loops E fuel depth path (m : mapping) (o : opts) : Prop :=
  exists b w t, contents path m b w /\ root_type (o_format o) t /\ validate E o fuel depth t b VNone VNone = Diverge.

Lemma rootBox_spec f : (exists t, rootBox f = Some t /\ root_type f t /\ forall t', root_type f t' -> t' = t) \/
  (rootBox f = None /\ forall t, ~ root_type f t).
Proof.
  unfold rootBox, root_type. cbn [In].
  destruct (String.eqb f "jp2") eqn:E1; [apply String.eqb_eq in E1 as ->; left; cbn; eexists; intuition (congruence || discriminate)|].
  destruct (String.eqb f "jph") eqn:E2; [apply String.eqb_eq in E2 as ->; left; cbn; eexists; intuition (congruence || discriminate)|].
  destruct (String.eqb f "j2c") eqn:E3; [apply String.eqb_eq in E3 as ->; left; cbn; eexists; intuition (congruence || discriminate)|].
  destruct (String.eqb f "jhc") eqn:E4; [apply String.eqb_eq in E4 as ->; left; cbn; eexists; intuition (congruence || discriminate)|].
  right. apply String.eqb_neq in E1, E2, E3, E4. cbn. intuition congruence.
Qed.
Lemma map_spec path m : (exists b w, fileToMemoryMap path m = Ok (b, w) /\ contents path m b w /\
    forall b' w', contents path m b' w' -> b' = b /\ w' = w) \/
  (exists e, fileToMemoryMap path m = Raise e /\ unreadable m e /\ forall b w, ~ contents path m b w).
Proof.
  destruct m as [b| |gb| |e]; cbn.
  - left. do 2 eexists. split; [reflexivity|]. split; [constructor|]. intros b' w' H. now inversion H.
  - left. do 2 eexists. split; [reflexivity|]. split; [constructor|]. intros b' w' H. now inversion H.
  - left. do 2 eexists. split; [reflexivity|]. split; [constructor|]. intros b' w' H. now inversion H.
  - right. exists UnboundLocalError. split; [reflexivity|]. split; [right; auto|]. intros b w H. inversion H.
  - right. exists e. split; [reflexivity|]. split; [now left|]. intros b w H. inversion H.
Qed.
Lemma contents_readable path m b w e : contents path m b w -> ~ unreadable m e.
Proof. intros H [HU|(HU & _)]; rewrite HU in H; inversion H. Qed.
Lemma verdict_bool E o fuel depth f t b r : root_type f t -> validate E o fuel depth t b VNone VNone = Ok r ->
  exists v, r_valid r = VBool v.
Proof.
  intros Ht HV. destruct (C10_verdict E o t b VNone VNone r) as (v & H & _); [|now exists fuel, depth|eauto].
  destruct Ht as [(_ & ->)|(_ & ->)]; cbn; auto.
Qed.
Lemma top_trees E o fuel depth f t b r : root_type f t -> validate E o fuel depth t b VNone VNone = Ok r ->
  (exists k, r_tests r = node "tests" k) /\ (exists k, r_chars r = node "properties" k) /\ (exists k, r_warns r = node "warnings" k).
Proof.
  intros Ht HV. destruct depth as [|d]; [discriminate|]. cbn [validate] in HV.
  destruct (runMethod _ _ _ _ _) as [[u s]| |]; try discriminate. injection HV as <-.
  destruct Ht as [(_ & ->)|(_ & ->)]; (split; [|split]); eexists; reflexivity.
Qed.
Lemma rel_node P t k e : rel P (node t k) e -> P t VNone VNone -> (forall v, P t VNone v -> v = VNone) ->
  exists k', e = node t k' /\ Forall2 (rel P) k k'.
Proof. intros H _ HF. inversion H as [? ? ? v' ? k' H1 H2]; subst. apply HF in H1 as ->. eexists. split; [reflexivity|exact H2]. Qed.
Lemma shows_none_inv catC limit tbl t v : good_table tbl -> shows catC limit tbl t VNone v -> v = VNone.
Proof. intros HT H. inversion H as [? d HD| | | | | | | |]; subst; [|reflexivity]. exfalso. now apply (raw_not _ _ _ _ HT) in HD. Qed.
Lemma mhr_root catC limit tbl t k e : ascii_ok catC -> good_limit limit -> good_table tbl ->
  makeHumanReadable catC limit tbl (node t k) = Ok e -> exists k', e = node t k'.
Proof.
  intros HA HL HT H. apply C44_readable in H; try assumption. apply rel_node in H; [|constructor|intros v; now apply shows_none_inv].
  destruct H as (k' & -> & _). eauto.
Qed.
Lemma rel_app_inv P t k1 k2 k : rel P (node t (k1 ++ k2)) (node t k) -> P t VNone VNone ->
  exists k1' k2', k = k1' ++ k2' /\ rel P (node t k1) (node t k1') /\ Forall2 (rel P) k2 k2'.
Proof.
  intros H HP. inversion H as [? ? ? v' ? k' H1 H2]; subst. apply Forall2_app_inv_l in H2 as (a & b & HA & HB & ->).
  exists a, b. split; [reflexivity|]. split; [|exact HB]. now constructor.
Qed.
Lemma warn_leaves catC limit w k : Forall2 (rel (shows catC limit [])) (map (fun x => leaf "warning" (VStr x)) w) k ->
  exists ws, Forall2 (kept catC) w ws /\ k = map (fun x => leaf "warning" (VStr x)) ws.
Proof.
  revert k. induction w as [|x w IH]; intros k H; inversion H as [|? y ? k' H1 H2]; subst; [exists []; repeat constructor|].
  destruct (IH _ H2) as (ws & HW & ->). inversion H1 as [? ? ? v' ? k'' H3 H4]; subst. inversion H4; subst.
  inversion H3 as [? d HD| | | | | | | |s s' HS]; subst; [exfalso; destruct HD as (? & ? & [] & _)|].
  exists (s' :: ws). split; [now constructor|reflexivity].
Qed.

(** The three possible outcomes exclude one another and are exactly what [analyse] computes. *)
Lemma analyse_spec E fuel depth path m o : env_ok E ->
  match analyse E fuel depth path m o with
  | Ok a => exists v T P W, an_valid a = VBool v /\ an_tests a = node "tests" T /\ an_chars a = node "properties" P /\
              an_warns a = node "warnings" W /\ analysis_ok E fuel depth path m o v T P W
  | Raise e => analysis_raises E fuel depth path m o e
  | Diverge => analysis_loops E fuel depth path m o
  end.
Proof.
  intros (HA & HL). unfold analyse.
  destruct (map_spec path m) as [(b & w & -> & HC & _)|(e & -> & HU & _)]; cbn [rbind]; [|now constructor].
  destruct (rootBox_spec (o_format o)) as [(t & -> & HT & _)|(-> & HT)]; [|now apply raises_format with b w].
  destruct (validate E o fuel depth t b VNone VNone) as [r|e|] eqn:HV; cbn [rbind];
    [|now apply raises_validate with b w t|now exists b, w, t].
  destruct (verdict_bool _ _ _ _ _ _ _ _ HT HV) as (v & Hv).
  destruct (top_trees _ _ _ _ _ _ _ _ HT HV) as ((k1 & K1) & (k2 & K2) & (k3 & K3)).
  destruct (C44_fails (catC E) (str_limit E) [] (r_tests r) HA HL empty_good) as (F1 & F1').
  destruct (makeHumanReadable _ _ [] (r_tests r)) as [e1|e|] eqn:H1; cbn [rbind].
  2:{ assert (e = ValueError) as -> by (destruct (mhr_cases (catC E) (str_limit E) [] (r_tests r) HA HL empty_good) as [(x & HX & _)|(HX & _)]; congruence).
      apply raises_text with b w t r; auto. left. now apply F1'. }
  2:{ exfalso. destruct (mhr_cases (catC E) (str_limit E) [] (r_tests r) HA HL empty_good) as [(x & HX & _)|(HX & _)]; congruence. }
  destruct (C44_fails (catC E) (str_limit E) propertiesRemapTable (r_chars r) HA HL table_good) as (F2 & F2').
  destruct (makeHumanReadable _ _ propertiesRemapTable (r_chars r)) as [e2|e|] eqn:H2; cbn [rbind].
  2:{ assert (e = ValueError) as -> by (destruct (mhr_cases (catC E) (str_limit E) propertiesRemapTable (r_chars r) HA HL table_good) as [(x & HX & _)|(HX & _)]; congruence).
      apply raises_text with b w t r; auto. right. left. now apply F2'. }
  2:{ exfalso. destruct (mhr_cases (catC E) (str_limit E) propertiesRemapTable (r_chars r) HA HL table_good) as [(x & HX & _)|(HX & _)]; congruence. }
  rewrite K3. cbn [etag eattrib etext ekids node].
  change (Elt "warnings" [] VNone (k3 ++ map (fun x => leaf "warning" (VStr x)) w)) with (node "warnings" (k3 ++ map (fun x => leaf "warning" (VStr x)) w)).
  destruct (C44_fails (catC E) (str_limit E) [] (node "warnings" (k3 ++ map (fun x => leaf "warning" (VStr x)) w)) HA HL empty_good) as (F3 & F3').
  destruct (makeHumanReadable _ _ [] (node "warnings" _)) as [e3|e|] eqn:H3; cbn [rbind].
  2:{ assert (e = ValueError) as -> by (destruct (mhr_cases (catC E) (str_limit E) [] (node "warnings" (k3 ++ map (fun x => leaf "warning" (VStr x)) w)) HA HL empty_good) as [(x & HX & _)|(HX & _)]; congruence).
      apply raises_text with b w t r; auto. right. right. rewrite K3. intros HE. apply (proj1 F3' eq_refl).
      inversion HE as [? ? ? ? HE1 HE2]; subst. constructor; [exact HE1|]. apply Forall_app. split; [exact HE2|].
      apply Forall_forall. intros x Hx. apply in_map_iff in Hx as (y & <- & _). constructor; [|constructor]. intros (z & HZ & _). discriminate. }
  2:{ exfalso. destruct (mhr_cases (catC E) (str_limit E) [] (node "warnings" (k3 ++ map (fun x => leaf "warning" (VStr x)) w)) HA HL empty_good) as [(x & HX & _)|(HX & _)]; congruence. }
  cbn [an_valid an_tests an_chars an_warns].
  destruct (mhr_root (catC E) (str_limit E) [] "tests" k1 e1 HA HL empty_good ltac:(now rewrite <- K1)) as (T & ->).
  destruct (mhr_root (catC E) (str_limit E) propertiesRemapTable "properties" k2 e2 HA HL table_good ltac:(now rewrite <- K2)) as (P & ->).
  destruct (mhr_root (catC E) (str_limit E) [] "warnings" _ e3 HA HL empty_good H3) as (W & ->).
  exists v, T, P, W. split; [exact Hv|]. do 3 (split; [reflexivity|]).
  apply C44_readable in H1, H2, H3; try assumption; try apply empty_good; try apply table_good.
  apply rel_app_inv in H3; [|constructor]. destruct H3 as (W0 & W1 & -> & H3 & H4).
  apply warn_leaves in H4 as (ws & H4 & ->).
  exists b, w, t, r, W0. rewrite K3. do 7 (split; [assumption|]). exists ws. auto.
Qed.
Lemma failure_message e : failureMessage e = pys (message e).
Proof. destruct e; reflexivity. Qed.

(** ** C20: the analysis of a file always gives a report *)

(** Unless the analysis never ends, a report with all its parts comes out, for
    every content, every way in which reading can fail and every option setting. *)
Theorem C20_report E fuel depth path fo o size mtime : env_ok E -> fo_size fo = Ok size -> fo_mtime fo = Ok mtime ->
  (exists v T P W, checkOneFile E fuel depth path fo o 0 =
     Ok (report fo o size mtime succeeded (if v : bool then "True" else "False") T P [] W) /\
     analysis_ok E fuel depth path (fo_map fo) o v T P W) \/
  (exists e, checkOneFile E fuel depth path fo o 0 =
     Ok (report fo o size mtime (failed_with (message e)) "False" [] [] [] [leaf "warning" (VStr (pys (message e)))]) /\
     analysis_raises E fuel depth path (fo_map fo) o e) \/
  (checkOneFile E fuel depth path fo o 0 = Diverge /\ analysis_loops E fuel depth path (fo_map fo) o).
Proof.
  intros HE H1 H2. unfold checkOneFile. rewrite H1, H2. cbn [rbind].
  pose proof (analyse_spec E fuel depth path (fo_map fo) o HE) as HS.
  destruct (analyse E fuel depth path (fo_map fo) o) as [a|e|].
  - destruct HS as (v & T & P & W & -> & -> & -> & -> & HS). left. exists v, T, P, W. split; [|exact HS]. now destruct v.
  - right. left. exists e. split; [|exact HS]. cbn [rbind negb andb Z.eqb]. rewrite failure_message. reflexivity.
  - right. right. auto.
Qed.
Print Assumptions C20_report.
(** Nothing escapes ... *)
Theorem C20_never_raises E fuel depth path fo o size mtime e : env_ok E -> fo_size fo = Ok size -> fo_mtime fo = Ok mtime ->
  checkOneFile E fuel depth path fo o 0 <> Raise e.
Proof.
  intros HE H1 H2. destruct (C20_report E fuel depth path fo o size mtime HE H1 H2)
    as [(v & T & P & W & -> & _)|[(e' & -> & _)|(-> & _)]]; discriminate.
Qed.
Print Assumptions C20_never_raises.
(** ... and a file is called valid exactly if its contents could be read, have been
    found valid, and the report can be written down. *)
Definition says_valid (rep : elt) : Prop := findElementText ["isValid"] rep = VStr (pys "True").
Theorem C20_verdict E path fo o size mtime c : env_ok E -> fo_size fo = Ok size -> fo_mtime fo = Ok mtime ->
  str_limit E = None -> fo_map fo = Mapped c -> In (o_format o) ["jp2"; "jph"] -> len c < 2 ^ 53 ->
  ((exists fuel depth rep, checkOneFile E fuel depth path fo o 0 = Ok rep /\ says_valid rep) <-> file_ok E (o_format o) c).
Proof.
  intros HE H1 H2 HN HM HF HC. rewrite <- (C60_file E o c HC). split.
  - intros (fuel & depth & rep & HR & HS). destruct (C20_report E fuel depth path fo o size mtime HE H1 H2)
      as [(v & T & P & W & HX & HA)|[(e' & HX & _)|(HX & _)]]; rewrite HX in HR; [|injection HR as <-; discriminate HS|discriminate].
    injection HR as <-. destruct HA as (b & w & t & r & W0 & HC' & HT & HV & Hv & _). rewrite HM in HC'. inversion HC'; subst.
    destruct HT as [(_ & ->)|(HI & _)]; [|exfalso; cbn in HF, HI; intuition congruence].
    exists r. split; [now exists fuel, depth|]. destruct v; [exact Hv|discriminate HS].
  - intros (r & (fuel & depth & HV) & Hv). exists fuel, depth.
    destruct (C20_report E fuel depth path fo o size mtime HE H1 H2)
      as [(v & T & P & W & HX & HA)|[(e' & HX & HA)|(HX & HA)]].
    + rewrite HX. eexists. split; [reflexivity|]. destruct HA as (b & w & t & r' & W0 & HC' & HT & HV' & Hv' & _).
      rewrite HM in HC'. inversion HC'; subst. destruct HT as [(_ & ->)|(HI & _)]; [|exfalso; cbn in HF, HI; intuition congruence].
      assert (r' = r) as -> by congruence. assert (v = true) as -> by congruence. reflexivity.
    + exfalso. rewrite HM in HA. inversion HA as [e HU|b w HC' HT|b w t e HC' HT HV'|b w t r' HC' HT HV' HL]; subst.
      * destruct HU as [HU|(HU & _)]; discriminate.
      * apply (HT (BTs "JP2")). now left.
      * inversion HC'; subst. destruct HT as [(_ & ->)|(HI & _)]; [|cbn in HF, HI; intuition congruence]. congruence.
      * rewrite HN in HL. destruct HL as [HL|[HL|HL]]; apply HL; (eapply every_impl; [|apply every_true]); intros t' v' _ (z & _ & HZ & _); now apply HZ.
    + exfalso. destruct HA as (b & w & t & HC' & HT & HV'). rewrite HM in HC'. inversion HC'; subst.
      destruct HT as [(_ & ->)|(HI & _)]; [|cbn in HF, HI; intuition congruence]. congruence.
Qed.
Print Assumptions C20_verdict.
Theorem C20_verdict_codestream E path fo o size mtime c : env_ok E -> fo_size fo = Ok size -> fo_mtime fo = Ok mtime ->
  str_limit E = None -> fo_map fo = Mapped c -> In (o_format o) ["j2c"; "jhc"] ->
  ((exists fuel depth rep, checkOneFile E fuel depth path fo o 0 = Ok rep /\ says_valid rep) <-> codestream_ok E (o_format o) c).
Proof.
  intros HE H1 H2 HN HM HF. rewrite <- (C60_codestream E o (BTs "contiguousCodestreamBox") c VNone VNone eq_refl). split.
  - intros (fuel & depth & rep & HR & HS). destruct (C20_report E fuel depth path fo o size mtime HE H1 H2)
      as [(v & T & P & W & HX & HA)|[(e' & HX & _)|(HX & _)]]; rewrite HX in HR; [|injection HR as <-; discriminate HS|discriminate].
    injection HR as <-. destruct HA as (b & w & t & r & W0 & HC' & HT & HV & Hv & _). rewrite HM in HC'. inversion HC'; subst.
    destruct HT as [(HI & _)|(_ & ->)]; [exfalso; cbn in HF, HI; intuition congruence|].
    exists r. split; [now exists fuel, depth|]. destruct v; [exact Hv|discriminate HS].
  - intros (r & (fuel & depth & HV) & Hv). exists fuel, depth.
    destruct (C20_report E fuel depth path fo o size mtime HE H1 H2)
      as [(v & T & P & W & HX & HA)|[(e' & HX & HA)|(HX & HA)]].
    + rewrite HX. eexists. split; [reflexivity|]. destruct HA as (b & w & t & r' & W0 & HC' & HT & HV' & Hv' & _).
      rewrite HM in HC'. inversion HC'; subst. destruct HT as [(HI & _)|(_ & ->)]; [exfalso; cbn in HF, HI; intuition congruence|].
      assert (r' = r) as -> by congruence. assert (v = true) as -> by congruence. reflexivity.
    + exfalso. rewrite HM in HA. inversion HA as [e HU|b w HC' HT|b w t e HC' HT HV'|b w t r' HC' HT HV' HL]; subst.
      * destruct HU as [HU|(HU & _)]; discriminate.
      * apply (HT (BTs "contiguousCodestreamBox")). now right.
      * inversion HC'; subst. destruct HT as [(HI & _)|(_ & ->)]; [cbn in HF, HI; intuition congruence|]. congruence.
      * rewrite HN in HL. destruct HL as [HL|[HL|HL]]; apply HL; (eapply every_impl; [|apply every_true]); intros t' v' _ (z & _ & HZ & _); now apply HZ.
    + exfalso. destruct HA as (b & w & t & HC' & HT & HV'). rewrite HM in HC'. inversion HC'; subst.
      destruct HT as [(HI & _)|(_ & ->)]; [cbn in HF, HI; intuition congruence|]. congruence.
Qed.
Print Assumptions C20_verdict_codestream.
(** If the analysis of the contents comes to an end, the report does not depend on
    loop budgets or recursion limits that are large enough. *)
Theorem C20_settles E path fo o size mtime b w t : env_ok E -> fo_size fo = Ok size -> fo_mtime fo = Ok mtime ->
  contents path (fo_map fo) b w -> root_type (o_format o) t -> ends E o t b VNone VNone ->
  exists rep fuel0 depth0, forall fuel depth, (fuel0 <= fuel)%nat -> (depth0 <= depth)%nat ->
    checkOneFile E fuel depth path fo o 0 = Ok rep.
Proof.
  intros HE H1 H2 HC HT HEnd.
  assert (HX : exists f0 d0, validate E o f0 d0 t b VNone VNone <> Diverge /\ forall f d, (f0 <= f)%nat -> (d0 <= d)%nat ->
            validate E o f d t b VNone VNone = validate E o f0 d0 t b VNone VNone).
  { destruct HEnd as [(r & f & d & HV)|(e & _ & f & d & HV)].
    - exists f, d. split; [congruence|]. intros f' d' Hf Hd. rewrite HV. now apply (lift_ok _ _ _ _ _ _ _ _ _ _ _ HV).
    - exists f, d. rewrite (HV f d) by lia. split; [discriminate|]. intros f' d' Hf Hd. now apply HV. }
  destruct HX as (f0 & d0 & HN & HX).
  assert (HAn : forall f d, (f0 <= f)%nat -> (d0 <= d)%nat -> checkOneFile E f d path fo o 0 = checkOneFile E f0 d0 path fo o 0).
  { intros f d Hf Hd. unfold checkOneFile, analyse.
    destruct (map_spec path (fo_map fo)) as [(b' & w' & -> & _ & HU)|(e & _ & _ & HU)]; [|exfalso; eapply HU; eassumption].
    apply HU in HC as [<- <-]. destruct (rootBox_spec (o_format o)) as [(t' & -> & _ & HT')|(_ & HT')]; [|exfalso; eapply HT'; eassumption].
    apply HT' in HT as <-. cbn [rbind]. rewrite (HX f d Hf Hd). reflexivity. }
  destruct (C20_report E f0 d0 path fo o size mtime HE H1 H2) as [(v & T & P & W & HR & _)|[(e & HR & _)|(_ & HL)]].
  - eexists _, f0, d0. intros f d Hf Hd. now rewrite (HAn f d Hf Hd), HR.
  - eexists _, f0, d0. intros f d Hf Hd. now rewrite (HAn f d Hf Hd), HR.
  - exfalso. destruct HL as (b' & w' & t' & HC' & HT' & HV).
    destruct (map_spec path (fo_map fo)) as [(b1 & w1 & _ & _ & HU)|(e & _ & _ & HU)]; [|eapply HU; eassumption].
    apply HU in HC as [-> ->]. apply HU in HC' as [-> ->].
    destruct (rootBox_spec (o_format o)) as [(t1 & _ & _ & HT1)|(_ & HT1)]; [|eapply HT1; eassumption].
    apply HT1 in HT as ->. apply HT1 in HT' as ->. contradiction.
Qed.
Print Assumptions C20_settles.
(** False without the assumption on the modification time: the fallback for dates
    that cannot be represented fails itself. *)
Theorem C20_mtime_refuted E fuel depth path fo o mixFlag size : fo_size fo = Ok size -> fo_mtime fo = Raise ValueError ->
  checkOneFile E fuel depth path fo o mixFlag = Raise TypeError.
Proof. intros H1 H2. unfold checkOneFile. now rewrite H1, H2. Qed.
Print Assumptions C20_mtime_refuted.

Definition ex_fo (m : mapping) : fileobs :=
  {| fo_basename := pys "a.jp2"; fo_abspath := pys "/d/a.jp2"; fo_size := Ok 168;
     fo_mtime := Ok (pys "2020-01-01T00:00:00"); fo_map := m |}.
Definition outcome_of (r : res elt) : list (string * value) :=
  match r with
  | Ok e => map (fun k => (etag k, etext k)) (flat_map ekids (findall ["statusInfo"] e) ++ findall ["isValid"] e ++ flat_map ekids (findall ["warnings"] e))
  | _ => []
  end.
(** A valid file, an empty one, one that cannot be opened, an unknown format. *)
Example C20_ex :
  env_ok E0 /\
  outcome_of (checkOneFile E0 100 10 (pys "a.jp2") (ex_fo (Mapped ex_file)) (op "jp2" false) 0) =
    [("success", VStr (pys "True")); ("isValid", VStr (pys "True"))] /\
  outcome_of (checkOneFile E0 100 10 (pys "a.jp2") (ex_fo MapEmpty) (op "jp2" false) 0) =
    [("success", VStr (pys "True")); ("isValid", VStr (pys "False")); ("warning", VStr (pys "empty file a.jp2"))] /\
  outcome_of (checkOneFile E0 100 10 (pys "a.jp2") (ex_fo (MapFails OSError)) (op "jp2" false) 0) =
    [("success", VStr (pys "False")); ("failureMessage", VStr (pys "I/O error (cannot open file)"));
     ("isValid", VStr (pys "False")); ("warning", VStr (pys "I/O error (cannot open file)"))] /\
  outcome_of (checkOneFile E0 100 10 (pys "a.jp2") (ex_fo (Mapped ex_cs)) (op "j2c" false) 0) =
    [("success", VStr (pys "True")); ("isValid", VStr (pys "True"))].
Proof. split; [split; [intros c Hc; cbn; lia|exact I]|]. now vm_compute. Qed.

(** ** C21: the report of an analysis that failed *)
Theorem C21_failed E fuel depth path fo o size mtime e : env_ok E -> fo_size fo = Ok size -> fo_mtime fo = Ok mtime ->
  analysis_raises E fuel depth path (fo_map fo) o e ->
  checkOneFile E fuel depth path fo o 0 =
    Ok (report fo o size mtime (failed_with (message e)) "False" [] [] [] [leaf "warning" (VStr (pys (message e)))]).
Proof.
  intros HE H1 H2 HA. unfold checkOneFile. rewrite H1, H2. cbn [rbind].
  assert (HX : analyse E fuel depth path (fo_map fo) o = Raise e).
  { destruct HE as (HA' & HL). unfold analyse. destruct (map_spec path (fo_map fo)) as [(b & w & -> & HC & HF)|(e' & -> & HU & HF)]; cbn [rbind].
    - destruct HA as [e HU|b' w' HC' HT|b' w' t e HC' HT HV|b' w' t r HC' HT HV HL'];
        [now apply (contents_readable path (fo_map fo) b w e HC) in HU|apply HF in HC' as [-> ->]..];
        (destruct (rootBox_spec (o_format o)) as [(t' & -> & HT' & HU)|(-> & HT')]; [|try (exfalso; eapply HT'; eassumption); try reflexivity]).
      + exfalso. eapply HT. eassumption.
      + apply HU in HT as ->. rewrite HV. reflexivity.
      + apply HU in HT as ->. rewrite HV. cbn [rbind].
        destruct (top_trees _ _ _ _ _ _ _ _ HT' HV) as (_ & _ & (k3 & K3)).
        destruct (mhr_cases (catC E) (str_limit E) [] (r_tests r) HA' HL empty_good) as [(x1 & -> & X1)|(-> & _)]; [|reflexivity]. cbn [rbind].
        destruct (mhr_cases (catC E) (str_limit E) propertiesRemapTable (r_chars r) HA' HL table_good) as [(x2 & -> & X2)|(-> & _)]; [|reflexivity]. cbn [rbind].
        destruct (mhr_cases (catC E) (str_limit E) [] (Elt (etag (r_warns r)) (eattrib (r_warns r)) (etext (r_warns r)) (ekids (r_warns r) ++ map (fun x => leaf "warning" (VStr x)) w)) HA' HL empty_good)
          as [(x3 & HX3 & X3)|(-> & _)]; [|reflexivity]. exfalso.
        destruct HL' as [HL'|[HL'|HL']]; apply HL'.
        * apply (proj1 (C44_fails (catC E) (str_limit E) [] (r_tests r) HA' HL empty_good)). exists x1. apply C44_readable; try assumption; [apply empty_good|now apply X1].
        * apply (proj1 (C44_fails (catC E) (str_limit E) propertiesRemapTable (r_chars r) HA' HL table_good)). exists x2. apply C44_readable; try assumption; [apply table_good|now apply X2].
        * assert (HE : every (fun t v => ~ too_long (str_limit E) [] t v) (Elt (etag (r_warns r)) (eattrib (r_warns r)) (etext (r_warns r)) (ekids (r_warns r) ++ map (fun x => leaf "warning" (VStr x)) w)))
            by (apply (proj1 (C44_fails (catC E) (str_limit E) [] _ HA' HL empty_good)); eauto).
          destruct (r_warns r) as [tg at_ tx kd]. cbn [etag eattrib etext ekids] in HE. inversion HE as [? ? ? ? E1 E2]; subst.
          apply Forall_app in E2 as [E2 _]. now constructor.
    - destruct HA as [e HU'|b' w' HC' HT|b' w' t e HC' HT HV|b' w' t r HC' HT HV HL']; try (exfalso; eapply HF; eassumption).
      destruct HU as [HU|(HU & ->)], HU' as [HU'|(HU' & ->)]; congruence. }
  rewrite HX, failure_message. reflexivity.
Qed.
Print Assumptions C21_failed.
(** Conversely, a report without success is that of an exception; it is not valid,
    has no tests and no properties. *)
Theorem C21_only E fuel depth path fo o size mtime rep : env_ok E -> fo_size fo = Ok size -> fo_mtime fo = Ok mtime ->
  checkOneFile E fuel depth path fo o 0 = Ok rep -> findElementText ["statusInfo"; "success"] rep <> VStr (pys "True") ->
  exists e, analysis_raises E fuel depth path (fo_map fo) o e /\
    rep = report fo o size mtime (failed_with (message e)) "False" [] [] [] [leaf "warning" (VStr (pys (message e)))].
Proof.
  intros HE H1 H2 HR HS. destruct (C20_report E fuel depth path fo o size mtime HE H1 H2)
    as [(v & T & P & W & HX & HA)|[(e' & HX & HA)|(HX & _)]]; rewrite HX in HR; [|injection HR as <-|discriminate].
  - injection HR as <-. exfalso. now apply HS.
  - eauto.
Qed.
Print Assumptions C21_only.
(** Which exceptions can occur: those of the validators (C22), those of opening and
    mapping the file, and the two of this function. *)
Theorem C21_exceptions E fuel depth path m o e : analysis_raises E fuel depth path m o e ->
  unreadable m e \/ In e [TypeError; ValueError; ZeroDivisionError; UnboundLocalError; RecursionError].
Proof.
  intros [e' HU|b w HC HT|b w t e' HC HT HV|b w t r HC HT HV HL]; [now left|right; cbn; tauto| |right; cbn; tauto].
  right. now apply (C22_exceptions _ _ _ _ _ _ _ _ _ HV).
Qed.
Print Assumptions C21_exceptions.
(** Hence the "runtime error" and "memory error" messages are never given on account
    of the contents, and a recursion error (a subclass of RuntimeError) or an
    unreadable file reported by a subclass of OSError is an "unknown error". *)
Theorem C21_messages E fuel depth path c o e : analysis_raises E fuel depth path (Mapped c) o e ->
  message e = "unknown error, please report to developers by creating an issue at https://github.com/openpreserve/jpylyzer/issues".
Proof.
  intros H. destruct (C21_exceptions _ _ _ _ _ _ _ H) as [[HU|(HU & _)]|HI]; try discriminate.
  cbn in HI. intuition (subst; reflexivity).
Qed.
Print Assumptions C21_messages.
(** A file with a SIZ segment with Rsiz = 8, one nested beyond the recursion limit,
    a file that may not be opened. *)
Example C21_ex :
  analysis_raises E0 100 10 (pys "a.jp2") (Mapped (raiser 10 UnboundLocalError)) (op "jp2" false) UnboundLocalError /\
  outcome_of (checkOneFile E0 100 10 (pys "a.jp2") (ex_fo (Mapped (raiser 10 UnboundLocalError))) (op "jp2" false) 0) =
    [("success", VStr (pys "False")); ("failureMessage", VStr (pys (message TypeError)));
     ("isValid", VStr (pys "False")); ("warning", VStr (pys (message TypeError)))] /\
  analysis_raises E0 100 10 (pys "a.jp2") (MapFails OSErrorSub) (op "jp2" false) OSErrorSub.
Proof.
  split; [|split].
  - eapply raises_validate; [constructor|left; split; [now left|reflexivity]|now vm_compute].
  - now vm_compute.
  - apply raises_map. now left.
Qed.

(** ** C45: the texts of a report can be written as XML *)

(** XML 1.0, production 2 (Char). *)
Definition xml_char (c : Z) : Prop :=
  c = 9 \/ c = 10 \/ c = 13 \/ 32 <= c <= 55295 \/ 57344 <= c <= 65533 \/ 65536 <= c <= 1114111.
Definition xml_text (v : value) : Prop := v = VNone \/ exists s, v = VStr s /\ Forall xml_char s.
(** Unicode: the other code points are of category C (control characters,
    surrogates, unassigned). *)
Definition unicode_ok (catC : Z -> bool) : Prop := ascii_ok catC /\ forall c, ~ xml_char c -> catC c = true.
Lemma xml_char_dec c : {xml_char c} + {~ xml_char c}.
Proof.
  unfold xml_char.
  destruct ((c =? 9) || (c =? 10) || (c =? 13) || ((32 <=? c) && (c <=? 55295)) || ((57344 <=? c) && (c <=? 65533)) || ((65536 <=? c) && (c <=? 1114111))) eqn:E;
    [left|right]; lia.
Qed.
Lemma clean_xml catC v : unicode_ok catC -> clean catC v -> xml_text v.
Proof.
  intros (_ & HU) [->|(s & -> & HF)]; [now left|right]. eexists. split; [reflexivity|].
  eapply Forall_impl; [|exact HF]. intros c Hc. destruct (xml_char_dec c) as [|N]; [assumption|].
  pose proof (HU c N). destruct Hc as [Hc|Hc]; [congruence|]. unfold xml_char. intuition.
Qed.
Lemma plain_clean catC s : ascii_ok catC -> ascii_text s -> clean catC (VStr s).
Proof. intros HA HP. right. eexists. split; [reflexivity|]. now apply plain_printable. Qed.
Lemma message_plain e : ascii_text (pys (message e)).
Proof. apply plainb_spec. destruct e; now vm_compute. Qed.

(** All texts are clean, except that of the name and the path of the file. *)
Theorem C45_texts E fuel depth path fo o size mtime rep : env_ok E -> fo_size fo = Ok size -> fo_mtime fo = Ok mtime ->
  ascii_text mtime -> checkOneFile E fuel depth path fo o 0 = Ok rep ->
  exists info rest, rep = node "file" (node "fileInfo" (leaf "fileName" (VStr (stripSurrogatePairs (fo_basename fo)))
      :: leaf "filePath" (VStr (stripSurrogatePairs (fo_abspath fo))) :: info) :: rest) /\
    Forall (every (fun _ v => clean (catC E) v)) (info ++ rest).
Proof.
  intros HE H1 H2 HM HR. assert (HA := proj1 HE).
  assert (HL : forall t s, ascii_text s -> every (fun _ v => clean (catC E) v) (leaf t (VStr s)))
    by (intros t s Hs; constructor; [now apply plain_clean|constructor]).
  assert (HN : forall t k, Forall (every (fun _ v => clean (catC E) v)) k -> every (fun _ v => clean (catC E) v) (node t k))
    by (intros t k Hk; constructor; [now left|exact Hk]).
  destruct (C20_report E fuel depth path fo o size mtime HE H1 H2)
    as [(v & T & P & W & HX & HAn)|[(e' & HX & HAn)|(HX & _)]]; rewrite HX in HR; [| |discriminate]; injection HR as <-;
    unfold report; cbn [app]; (eexists [_; _], _; split; [reflexivity|]); cbn [app].
  - destruct HAn as (b & w & t & r & W0 & _ & _ & _ & _ & R1 & R2 & R3 & ws & R4 & ->).
    pose proof (rel_every _ (fun _ v => clean (catC E) v) _ _ (fun t v v' => shows_clean (catC E) (str_limit E) [] t v v' HA empty_good) R1) as E1.
    pose proof (rel_every _ (fun _ v => clean (catC E) v) _ _ (fun t v v' => shows_clean (catC E) (str_limit E) _ t v v' HA table_good) R2) as E2.
    pose proof (rel_every _ (fun _ v => clean (catC E) v) _ _ (fun t v v' => shows_clean (catC E) (str_limit E) [] t v v' HA empty_good) R3) as E3.
    apply Forall_cons; [apply HL, str_plain|]. apply Forall_cons; [now apply HL|].
    apply Forall_cons; [apply HN; apply Forall_cons; [apply HL; now apply plainb_spec|apply Forall_nil]|].
    apply Forall_cons; [constructor; [|constructor]; apply plain_clean; [exact HA|destruct v; now apply plainb_spec]|].
    apply Forall_cons; [exact E1|]. apply Forall_cons; [exact E2|]. apply Forall_cons; [|constructor].
    apply HN. apply Forall_app. split; [now inversion E3|].
    apply Forall_forall. intros x Hx. apply in_map_iff in Hx as (s & <- & Hs). constructor; [|constructor].
    right. eexists. split; [reflexivity|]. clear -R4 Hs. induction R4 as [|a b l l' HK _ IH]; [destruct Hs|].
    destruct Hs as [<-|Hs]; [apply kept_iff in HK as ->; apply rcc_printable|auto].
  - apply Forall_cons; [apply HL, str_plain|]. apply Forall_cons; [now apply HL|].
    apply Forall_cons; [apply HN; apply Forall_cons; [apply HL; now apply plainb_spec|]; apply Forall_cons; [apply HL; apply message_plain|apply Forall_nil]|].
    apply Forall_cons; [constructor; [|constructor]; apply plain_clean; [exact HA|now apply plainb_spec]|].
    apply Forall_cons; [now apply HN|]. apply Forall_cons; [now apply HN|]. apply Forall_cons; [|constructor].
    apply HN. apply Forall_cons; [apply HL; apply message_plain|apply Forall_nil].
Qed.
Print Assumptions C45_texts.
(** With a correct character database, clean text consists of XML characters. *)
Theorem C45_xml catC v : unicode_ok catC -> clean catC v -> xml_text v.
Proof. exact (clean_xml catC v). Qed.
Print Assumptions C45_xml.
(** In the name and the path only the surrogates are replaced (by question marks);
    both can be encoded in UTF-8. *)
Definition surrogate (c : Z) : Prop := 55296 <= c <= 57343.
Theorem C45_names s : Forall codepoint s ->
  Forall scalar (stripSurrogatePairs s) /\
  Forall2 (fun c c' => (surrogate c /\ c' = 63) \/ (~ surrogate c /\ c' = c)) s (stripSurrogatePairs s).
Proof.
  intros HC. set (f := fun c => if is_surrogate c then 63 else c).
  assert (HS : Forall scalar (map f s)).
  { apply Forall_forall. intros c Hc. apply in_map_iff in Hc as (x & <- & Hx). rewrite Forall_forall in HC. apply HC in Hx.
    unfold f, is_surrogate, in_rng, scalar, codepoint in *. destruct (_ && _) eqn:E; lia. }
  assert (HF2 : Forall2 (fun c c' => (surrogate c /\ c' = 63) \/ (~ surrogate c /\ c' = c)) s (map f s)).
  { clear. unfold f, surrogate, is_surrogate, in_rng. induction s as [|c s IH]; constructor; [|exact IH]. destruct (_ && _) eqn:E; lia. }
  assert (HE : stripSurrogatePairs s = map f s).
  { unfold stripSurrogatePairs. destruct (utf8_encode s) as [b|] eqn:EE.
    - apply utf8_encode_spec in EE; [|exact HC]. destruct EE as (HSc & _). clear -HSc.
      induction HSc as [|c s Hc _ IH]; cbn; [reflexivity|]. rewrite <- IH. f_equal. unfold f, is_surrogate, in_rng, scalar in *.
      destruct (_ && _) eqn:E; lia.
    - replace (utf8_decode (utf8_encode_replace s)) with (Some (map f s)); [reflexivity|]. symmetry. apply utf8_decode_spec.
      split; [exact HS|]. unfold utf8_encode_replace.
      assert (HX : flat_map (fun c => if is_surrogate c then [63] else utf8_enc1 c) s = flat_map utf8_octets (map f s)).
      { clear -HC. induction HC as [|c s Hc _ IH]; cbn; [reflexivity|]. rewrite IH. f_equal. unfold f.
        destruct (is_surrogate c) eqn:E; [reflexivity|]. apply enc1_octets. now apply scalar_cp. }
      rewrite HX. apply flat_map_octets_bytes in HS. clear -HS.
      induction HS as [|z l Hz _ IH]; cbn; [reflexivity|]. rewrite IH, bz_byte_of_Z by assumption. reflexivity. }
  rewrite HE. auto.
Qed.
Print Assumptions C45_names.
(** They may contain other characters that XML does not allow. *)
Theorem C45_names_refuted : exists fo rep, checkOneFile E0 100 10 (pys "a") fo (op "jp2" false) 0 = Ok rep /\
  fo_size fo = Ok 0 /\ fo_mtime fo = Ok (pys "2020-01-01T00:00:00") /\
  findElementText ["fileInfo"; "fileName"] rep = VStr [97; 1] /\ ~ xml_text (VStr [97; 1]).
Proof.
  exists {| fo_basename := [97; 1]; fo_abspath := pys "/a"; fo_size := Ok 0; fo_mtime := Ok (pys "2020-01-01T00:00:00"); fo_map := MapEmpty |}.
  eexists. split; [vm_compute; reflexivity|]. split; [reflexivity|]. split; [reflexivity|]. split; [reflexivity|].
  intros [H|(s & H & HF)]; [discriminate|]. injection H as <-. inversion HF as [|? ? _ HF']; subst. inversion HF' as [|? ? H _]; subst.
  unfold xml_char in H. lia.
Qed.
Print Assumptions C45_names_refuted.
Example C45_ex :
  stripSurrogatePairs [97; 56320; 233] = [97; 63; 233] /\
  ascii_text (pys "2020-01-01T00:00:00") /\
  outcome_of (checkOneFile E0 100 10 [97; 7; 98] (ex_fo MapEmpty) (op "jp2" false) 0) =
    [("success", VStr (pys "True")); ("isValid", VStr (pys "False")); ("warning", VStr (pys "empty file ab"))].
Proof. split; [now vm_compute|]. split; [now apply plainb_spec|now vm_compute]. Qed.
