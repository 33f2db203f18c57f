(** * Command line, batches of files and file discovery: C48, C49, C50 *)

From Coq Require Import ZArith List Bool String Ascii Lia.
From Coq Require Import Init.Byte.
From Coq Require Import ZifyBool.
From Verif Require Import Py ETree BV CheckFile Main SpecText Ex Prop_Check Prop_Mix.
Import ListNotations.
Open Scope string_scope.
Open Scope list_scope.
Open Scope Z_scope.

(** ** C48: one element per file, in order *)
Section Batches.
Variable E : env.
Variables fuel depth : nat.
Variable F : fsys.
Variable observe : pystr -> fileobs.
Variable write : elt -> res pystr.
Variable toolInfo : elt.
Let checkFiles := checkFiles E fuel depth F observe write toolInfo.

(** [s] is the text written for the file [p]. *)
Definition text_of (o : opts) (mf : Z) (p s : pystr) : Prop :=
  exists rep, checkOneFile E fuel depth p (observe p) o mf = Ok rep /\ write rep = Ok s.
(** The analysis of [p], or writing its report, raises [e]. *)
Definition text_raises (o : opts) (mf : Z) (p : pystr) (e : exn) : Prop :=
  checkOneFile E fuel depth p (observe p) o mf = Raise e \/
  exists rep, checkOneFile E fuel depth p (observe p) o mf = Ok rep /\ write rep = Raise e.
Definition text_hangs (o : opts) (mf : Z) (p : pystr) : Prop :=
  checkOneFile E fuel depth p (observe p) o mf = Diverge \/
  exists rep, checkOneFile E fuel depth p (observe p) o mf = Ok rep /\ write rep = Diverge.

Lemma text_cases o mf p : match rbind (checkOneFile E fuel depth p (observe p) o mf) write with
  | Ok s => text_of o mf p s | Raise e => text_raises o mf p e | Diverge => text_hangs o mf p end.
Proof.
  unfold text_of, text_raises, text_hangs. destruct (checkOneFile _ _ _ _ _ _ _) as [rep|e|]; cbn [rbind]; auto.
  destruct (write rep) eqn:EW; eauto.
Qed.
Lemma text_ok o mf p s : text_of o mf p s -> rbind (checkOneFile E fuel depth p (observe p) o mf) write = Ok s.
Proof. intros (rep & -> & H). exact H. Qed.
Lemma text_bad o mf p e : text_raises o mf p e -> rbind (checkOneFile E fuel depth p (observe p) o mf) write = Raise e.
Proof. intros [-> |(rep & -> & H)]; [reflexivity|exact H]. Qed.
Lemma text_loop o mf p : text_hangs o mf p -> rbind (checkOneFile E fuel depth p (observe p) o mf) write = Diverge.
Proof. intros [-> |(rep & -> & H)]; [reflexivity|exact H]. Qed.

Lemma process_spec o mf ps :
  let r := processFiles E fuel depth observe write o mf ps in
  (exists ss, Forall2 (text_of o mf) ps ss /\ out r = map Element ss ++ [Tail] /\ ends r = Finished) \/
  (exists a p b ss, ps = a ++ p :: b /\ Forall2 (text_of o mf) a ss /\ out r = map Element ss /\
     ((exists e, text_raises o mf p e /\ ends r = Crashed e) \/ (text_hangs o mf p /\ ends r = Hangs))).
Proof.
  induction ps as [|p ps IH]; cbn [processFiles]; [left; exists []; repeat split; constructor|].
  pose proof (text_cases o mf p) as HC. destruct (rbind _ write) as [s|e|]; cbn [out ends].
  - destruct IH as [(ss & H1 & -> & ->)|(a & q & b & ss & -> & H1 & -> & H2)].
    + left. exists (s :: ss). repeat split. now constructor.
    + right. exists (p :: a), q, b, (s :: ss). repeat split; [now constructor|exact H2].
  - right. exists [], p, ps, []. repeat split; [constructor|]. left. eauto.
  - right. exists [], p, ps, []. repeat split; [constructor|]. right. auto.
Qed.

(** A run of [checkFiles] writes the head, the tool element and then the elements of
    the files found, in their order; if all of them can be written the closing tag
    follows; otherwise the output stops at the first that cannot. *)
Theorem C48_output before o mf recurse paths tool : write toolInfo = Ok tool ->
  let files := before ++ findFiles F recurse paths in
  let r := checkFiles before o mf recurse paths in
  (files = [] /\ out r = [] /\ ends r = Exited (-7)) \/
  (files <> [] /\ exists ss, Forall2 (text_of o mf) files ss /\
     out r = [Head; Element tool] ++ map Element ss ++ [Tail] /\ ends r = Finished) \/
  (exists a p b ss, files = a ++ p :: b /\ Forall2 (text_of o mf) a ss /\ out r = [Head; Element tool] ++ map Element ss /\
     ((exists e, text_raises o mf p e /\ ends r = Crashed e) \/ (text_hangs o mf p /\ ends r = Hangs))).
Proof.
  intros HW files r. unfold r, checkFiles, Main.checkFiles. fold files. destruct files as [|p ps]; [left; auto|]. right.
  rewrite HW. cbn [out ends]. pose proof (process_spec o mf (p :: ps)) as HP. cbv zeta in HP.
  destruct (processFiles E fuel depth observe write o mf (p :: ps)) as [ou en]. cbn [out ends] in *.
  destruct HP as [(ss & H1 & -> & ->)|(a & q & b & ss & H0 & H1 & -> & H2)].
  - left. split; [discriminate|]. exists ss. auto.
  - right. exists a, q, b, ss. auto.
Qed.
(** The three outcomes exclude one another: what the files do decides which it is. *)
Theorem C48_complete_iff before o mf recurse paths tool : write toolInfo = Ok tool ->
  before ++ findFiles F recurse paths <> [] ->
  (ends (checkFiles before o mf recurse paths) = Finished <->
   Forall (fun p => exists s, text_of o mf p s) (before ++ findFiles F recurse paths)).
Proof.
  intros HW HN. destruct (C48_output before o mf recurse paths tool HW) as [(H & _)|[(_ & ss & H1 & _ & H2)|(a & p & b & ss & H0 & H1 & _ & H2)]].
  - contradiction.
  - split; [|intros _; exact H2]. intros _. clear -H1. induction H1; constructor; eauto.
  - split.
    + intros H. destruct H2 as [(e & _ & H2)|(_ & H2)]; congruence.
    + intros H. rewrite H0 in H. apply Forall_app in H as (_ & H). inversion H as [|? ? (s & HT) _]; subst. apply text_ok in HT.
      destruct H2 as [(e & H2 & _)|(H2 & _)]; [apply text_bad in H2|apply text_loop in H2]; congruence.
Qed.
(** Without MIX output no analysis raises, so a batch of files with readable size and
    modification time, and whose reports can be serialised, is written to its end
    unless an analysis does not terminate. *)
Theorem C48_no_crash before o recurse paths tool : env_ok E -> write toolInfo = Ok tool ->
  (forall rep, exists s, write rep = Ok s) ->
  (forall p, In p (before ++ findFiles F recurse paths) -> exists n t, fo_size (observe p) = Ok n /\ fo_mtime (observe p) = Ok t) ->
  before ++ findFiles F recurse paths <> [] ->
  let r := checkFiles before o 0 recurse paths in
  ends r = Finished \/ (ends r = Hangs /\ exists p, In p (before ++ findFiles F recurse paths) /\
                          checkOneFile E fuel depth p (observe p) o 0 = Diverge).
Proof.
  intros HE HW HT HO HN r. unfold r.
  destruct (C48_output before o 0 recurse paths tool HW) as [(H & _)|[(_ & ss & H1 & _ & H2)|(a & p & b & ss & H0 & H1 & _ & H2)]]; [contradiction|now left|].
  assert (HI : In p (before ++ findFiles F recurse paths)) by (rewrite H0; apply in_or_app; right; now left).
  destruct (HO p HI) as (n & t & O1 & O2).
  destruct H2 as [(e & [H2|(rep & _ & H2)] & _)|([H2|(rep & _ & H2)] & H3)].
  - now apply C20_never_raises with (1 := HE) (2 := O1) (3 := O2) in H2.
  - destruct (HT rep) as (s & HS). congruence.
  - right. split; [exact H3|]. eauto.
  - destruct (HT rep) as (s & HS). congruence.
Qed.

(** ** C49: files do not influence one another *)
(** In a batch that is written to its end, the element of a file is the one that a
    batch of that file alone gets, and it is at the place of the file. *)
Theorem C49_isolated o mf a p b r : r = processFiles E fuel depth observe write o mf (a ++ p :: b) -> ends r = Finished ->
  exists ssa s ssb, out r = map Element ssa ++ Element s :: map Element ssb ++ [Tail] /\ List.length ssa = List.length a /\
    out (processFiles E fuel depth observe write o mf [p]) = [Element s; Tail].
Proof.
  intros -> HF. destruct (process_spec o mf (a ++ p :: b)) as [(ss & H1 & H2 & _)|(a' & p' & b' & ss & _ & _ & _ & [(e & _ & H2)|(_ & H2)])];
    [|rewrite HF in H2; discriminate|rewrite HF in H2; discriminate].
  apply Forall2_app_inv_l in H1 as (ssa & ss' & H1 & H3 & ->). inversion H3 as [|? s ? ssb H4 H5]; subst.
  exists ssa, s, ssb. rewrite H2, map_app, <- app_assoc. split; [reflexivity|]. split; [clear -H1; now induction H1; cbn; [|f_equal]|].
  cbn [processFiles]. rewrite (text_ok _ _ _ _ H4). reflexivity.
Qed.
(** Removing a file from such a batch only removes its element. *)
Theorem C49_removal o mf a p b : ends (processFiles E fuel depth observe write o mf (a ++ p :: b)) = Finished ->
  exists ssa s ssb, out (processFiles E fuel depth observe write o mf (a ++ p :: b)) = map Element ssa ++ Element s :: ssb /\
    out (processFiles E fuel depth observe write o mf (a ++ b)) = map Element ssa ++ ssb /\ List.length ssa = List.length a /\
    ends (processFiles E fuel depth observe write o mf (a ++ b)) = Finished.
Proof.
  induction a as [|x a IH]; cbn [app processFiles].
  - destruct (rbind _ write) as [s| |]; try discriminate. cbn [out ends]. intros H. exists [], s, (out (processFiles E fuel depth observe write o mf b)). auto.
  - destruct (rbind _ write) as [s| |]; try discriminate. cbn [out ends]. intros H. destruct (IH H) as (ssa & s' & ssb & H1 & H2 & H3 & H4).
    exists (s :: ssa), s', ssb. rewrite H1, H2. cbn. rewrite H3. auto.
Qed.
(** A failing analysis does not prevent the others from being reported (no MIX output):
    every file gets its element, whether its analysis raised or not. *)
Theorem C49_failures o ps : env_ok E -> (forall rep, exists s, write rep = Ok s) ->
  (forall p, In p ps -> exists n t, fo_size (observe p) = Ok n /\ fo_mtime (observe p) = Ok t /\
     checkOneFile E fuel depth p (observe p) o 0 <> Diverge) ->
  let r := processFiles E fuel depth observe write o 0 ps in
  ends r = Finished /\ exists ss, Forall2 (text_of o 0) ps ss /\ out r = map Element ss ++ [Tail].
Proof.
  intros HE HT HO r. unfold r. destruct (process_spec o 0 ps) as [(ss & H1 & H2 & H3)|(a & p & b & ss & H0 & H1 & _ & H2)]; [eauto|].
  assert (HI : In p ps) by (rewrite H0; apply in_or_app; right; now left). destruct (HO p HI) as (n & t & O1 & O2 & O3). exfalso.
  destruct H2 as [(e & [H2|(rep & _ & H2)] & _)|([H2|(rep & _ & H2)] & _)].
  - now apply C20_never_raises with (1 := HE) (2 := O1) (3 := O2) in H2.
  - destruct (HT rep) as (s & HS). congruence.
  - contradiction.
  - destruct (HT rep) as (s & HS). congruence.
Qed.
End Batches.
Print Assumptions C48_output.
Print Assumptions C48_complete_iff.
Print Assumptions C48_no_crash.
Print Assumptions C49_isolated.
Print Assumptions C49_removal.
Print Assumptions C49_failures.

(** Two files, the first of which cannot be analysed: both are reported. *)
Definition ex_obs (p : pystr) : fileobs := if pystr_eqb p (pys "bad") then ex_fo (MapFails OSError) else ex_fo (Mapped ex_file).
Definition ex_write (e : elt) : res pystr := Ok (match findElementText ["isValid"] e with VStr s => s | _ => pys "tool" end).
Definition ex_fsys (files : list pystr) : fsys := {|
  isfile := fun p => existsb (pystr_eqb p) files; isdir := fun _ => false; isabs := fun _ => true; abspath := fun p => p;
  globf := fun _ => []; walk := fun _ => []; psplit := fun p => (p, []); psplitext := fun p => (p, []); pjoin := fun a b => a ++ b |}.
Example C48_ex :
  let r := checkFiles E0 100 10 (ex_fsys [pys "bad"; pys "good"]) ex_obs ex_write (node "toolInfo" []) [] (op "jp2" false) 0 false
             [pys "bad"; pys "missing"; pys "good"] in
  out r = [Head; Element (pys "tool"); Element (pys "False"); Element (pys "True"); Tail] /\ ends r = Finished.
Proof. vm_compute. split; reflexivity. Qed.

(** ** The program *)
Theorem C48_main E fuel depth F observe write toolInfo a :
  let r := main E fuel depth F observe write toolInfo a in
  let fmt := lower (a_format a) in
  (a_paths a = [] /\ out r = [] /\ ends r = Exited 0) \/
  (a_paths a <> [] /\ ~ In fmt ["jp2"; "jph"; "j2c"; "jhc"] /\ out r = [] /\ ends r = Exited 0) \/
  (a_paths a <> [] /\ In fmt ["jp2"; "jph"; "j2c"; "jhc"] /\ exists mf,
     (In fmt ["j2c"; "jhc"] -> mf = 0) /\ (~ In fmt ["j2c"; "jhc"] -> mf = a_mix a) /\
     r = checkFiles E fuel depth F observe write toolInfo []
           {| o_format := fmt; o_verbose := a_verbose a; o_nullxml := a_nullxml a; o_packet := a_packet a |} mf (a_recurse a) (a_paths a)).
Proof.
  cbv zeta. unfold main. destruct (a_paths a) as [|p ps]; [left; auto|right].
  set (fmt := lower (a_format a)).
  assert (HS : supported fmt = true <-> In fmt ["jp2"; "jph"; "j2c"; "jhc"]).
  { unfold supported. rewrite existsb_exists. split; [intros (x & HI & HX); apply String.eqb_eq in HX; now subst|intros HI; exists fmt; split; [exact HI|apply String.eqb_refl]]. }
  destruct (supported fmt); cbn [negb].
  - right. split; [discriminate|]. split; [now apply HS|]. eexists. split; [|split; [|reflexivity]].
    + intros HI. replace (_ || _) with true; [reflexivity|]. symmetry. rewrite orb_true_iff, !String.eqb_eq. cbn in HI. intuition.
    + intros HI. replace (_ || _) with false; [reflexivity|]. symmetry. rewrite orb_false_iff, !String.eqb_neq. cbn in HI. intuition.
  - left. split; [discriminate|]. split; [intros HI; apply HS in HI; discriminate|]. auto.
Qed.
Print Assumptions C48_main.
(** An unknown format ends the program with the exit status of success. *)
Theorem C48_status_refuted E fuel depth F observe write toolInfo : exists a, a_paths a <> [] /\
  lower (a_format a) = "jpx" /\ ends (main E fuel depth F observe write toolInfo a) = Exited 0.
Proof.
  exists {| a_format := "jpx"; a_mix := 0; a_nullxml := false; a_recurse := false; a_packet := false; a_verbose := false; a_paths := [pys "a"] |}.
  split; [discriminate|]. split; reflexivity.
Qed.
Print Assumptions C48_status_refuted.
(** The list of files is kept between calls: after a first call, a second call on
    other paths also analyses the files of the first again. *)
Theorem C48_once_refuted : exists F ps qs,
  let first := findFiles F false ps in
  out (checkFiles E0 100 10 F ex_obs ex_write (node "toolInfo" []) first (op "jp2" false) 0 false qs) =
    [Head; Element (pys "tool"); Element (pys "False"); Element (pys "True"); Tail] /\ findFiles F false qs = [pys "good"].
Proof. exists (ex_fsys [pys "bad"; pys "good"]), [pys "bad"], [pys "good"]. vm_compute. split; reflexivity. Qed.
Print Assumptions C48_once_refuted.
(** With MIX output one file can stop a batch: the valid file after it is not reported. *)
Theorem C49_mix_refuted : exists (observe : pystr -> fileobs) ps,
  (forall p, In p ps -> exists rep, checkOneFile E1 100 10 p (observe p) (op "jp2" false) 0 = Ok rep /\ says_valid rep) /\
  processFiles E1 100 10 observe ex_write (op "jp2" false) 1 ps = {| out := []; ends := Crashed AttributeError |}.
Proof.
  exists (fun p => if pystr_eqb p (pys "x") then ex_fo (Mapped ex_xmp_file) else ex_fo (Mapped ex_file)), [pys "x"; pys "y"]. split; [|now vm_compute].
  intros p [<-|[<-|[]]].
  - eexists. split; [vm_compute; reflexivity|now vm_compute].
  - eexists. split; [vm_compute; reflexivity|now vm_compute].
Qed.
Print Assumptions C49_mix_refuted.

(** ** C50: which files are found *)
Section Discovery.
Variable F : fsys.
Definition star (p : pystr) : Prop := In 42 p.
(** The path as the program looks it up. *)
Inductive absolute : pystr -> pystr -> Prop :=
| abs_already p : isabs F p = true -> absolute p p
| abs_made p : isabs F p = false -> absolute p (abspath F p).
Lemma star_spec p : hasWildcard p = true <-> star p.
Proof.
  unfold hasWildcard, star. rewrite existsb_exists. split; [intros (x & HI & HX); apply Z.eqb_eq in HX; now subst|]. intros HI. exists 42. auto.
Qed.
Lemma star_dec p : {star p} + {~ star p}.
Proof. destruct (hasWildcard p) eqn:EW; [left; now apply star_spec|right; rewrite <- star_spec; congruence]. Qed.

(** Without recursion: the path itself if it is a file, the matching files if it is
    an expression; nothing else. *)
Inductive named (root : pystr) : list pystr -> Prop :=
| named_file : isfile F root = true -> named root [root]
| named_expr a : isfile F root = false -> star root -> absolute root a -> named root (filter (isfile F) (globf F a))
| named_none : isfile F root = false -> ~ star root -> named root [].
Lemma plain_named root : named root (fst (findPlain F root)).
Proof.
  unfold findPlain. destruct (isfile F root) eqn:EF; [now constructor|].
  destruct (hasWildcard root) eqn:EW; [|apply named_none; [exact EF|rewrite <- star_spec; congruence]].
  set (a := if isabs F root then root else abspath F root).
  assert (HA : absolute root a) by (unfold a; destruct (isabs F root) eqn:EA; now constructor).
  replace (fst _) with (filter (isfile F) (globf F a)); [apply named_expr; [exact EF|now apply star_spec|exact HA]|].
  destruct (globf F a) as [|f [|g l]]; [reflexivity| |reflexivity]. cbn. now destruct (isfile F f).
Qed.
Theorem C50_plain paths : exists ls, Forall2 named paths ls /\ findFiles F false paths = List.concat ls.
Proof.
  unfold findFiles. induction paths as [|p paths (ls & H1 & H2)]; [exists []; split; constructor|].
  exists (fst (findPlain F p) :: ls). split; [constructor; [apply plain_named|exact H1]|]. cbn [flat_map List.concat]. rewrite H2.
  destruct (findPlain F p). cbn. now rewrite app_nil_r.
Qed.
Theorem C50_restricted paths f : In f (findFiles F false paths) -> isfile F f = true.
Proof.
  destruct (C50_plain paths) as (ls & H1 & ->). intros HI. apply in_concat in HI as (l & Hl & HI).
  induction H1 as [|p l' paths ls HN _ IH]; [destruct Hl|]. destruct Hl as [<-|Hl]; [|now apply IH].
  destruct HN; [destruct HI as [<-|[]]; assumption|apply filter_In in HI; tauto|destruct HI].
Qed.

(** With recursion *)
(** [proper d s]: [s] is listed as a directory below [d]. *)
Definition proper (d s : pystr) : Prop :=
  exists d' subs files n, In (d', subs, files) (walk F d) /\ In n subs /\ s = pjoin F d' n.
Definition matches (d pat f : pystr) : Prop := In f (globf F (pjoin F d pat)) /\ isfile F f = true.
Lemma tree_pattern d pat f : In f (getFilesWithPatternFromTree F d pat) <-> exists s, proper d s /\ matches s pat f.
Proof.
  unfold getFilesWithPatternFromTree, getFiles, proper, matches. rewrite in_flat_map. split.
  - intros (((d', subs), files) & HW & HI). apply in_flat_map in HI as (n & Hn & HI). apply filter_In in HI. exists (pjoin F d' n). split; [now exists d', subs, files, n|exact HI].
  - intros (s & (d' & subs & files & n & HW & Hn & ->) & HI). exists (d', subs, files). split; [exact HW|]. apply in_flat_map. exists n. split; [exact Hn|]. now apply filter_In.
Qed.
(** An expression whose only wildcards are in its last component finds the matching
    files in the directory and in all directories below it. *)
Theorem C50_recursive root dir pat : isfile F root = false -> isabs F root = true -> psplit F root = (dir, pat) ->
  root = pjoin F dir pat -> star pat -> ~ star dir -> star root -> (forall d, globf F root = [d] -> isdir F d = false) ->
  forall f, In f (findFiles F true [root]) <-> exists d, (d = dir \/ proper dir d) /\ matches d pat f.
Proof.
  intros H1 H2 H3 H4 H5 H6 H7 H8 f. unfold findFiles. cbn [flat_map]. rewrite app_nil_r.
  pose proof (plain_named root) as HN.
  assert (HS : snd (findPlain F root) = root).
  { unfold findPlain. rewrite H1, H2. replace (hasWildcard root) with true by (symmetry; now apply star_spec).
    destruct (globf F root) as [|d [|]] eqn:EG; try reflexivity. cbn. now rewrite (H8 d eq_refl). }
  destruct (findPlain F root) as [l root1]. cbn [fst snd] in *. subst root1.
  inversion HN as [HX|a HX HY HA|HX HY]; subst l; [congruence| |contradiction].
  assert (a = root) as -> by (inversion HA; congruence).
  assert (HR : findRecurse F root = getFilesWithPatternFromTree F dir pat).
  { unfold findRecurse. rewrite H2, H3. replace (hasWildcard root) with true by (symmetry; now apply star_spec).
    destruct (psplitext F pat) as (stem, ext). replace (hasWildcard dir) with false by (symmetry; apply not_true_iff_false; now rewrite star_spec).
    now replace (hasWildcard pat) with true by (symmetry; now apply star_spec). }
  rewrite HR, in_app_iff, tree_pattern. unfold matches. rewrite filter_In. split.
  - intros [HI|(s & HP & HM)]; [exists dir; split; [now left|]; now rewrite <- H4|exists s; split; [now right|exact HM]].
  - intros (d & [-> |HP] & HM); [left; now rewrite H4|right; now exists d].
Qed.
(** A directory finds every entry in it and below it. *)
Theorem C50_tree dir : isfile F dir = false -> isabs F dir = true -> ~ star dir -> isdir F dir = true ->
  forall f, In f (findFiles F true [dir]) <-> exists d subs files n, In (d, subs, files) (walk F dir) /\ In n files /\ f = pjoin F d n.
Proof.
  intros H1 H2 H3 H4 f. assert (HW : hasWildcard dir = false) by (apply not_true_iff_false; now rewrite star_spec).
  unfold findFiles. cbn [flat_map]. rewrite app_nil_r. unfold findPlain. rewrite H1, HW. cbn [app]. unfold findRecurse. rewrite H2, HW, H4.
  unfold getFilesFromTree. rewrite in_flat_map. split.
  - intros (((d, subs), files) & HI & HF). apply in_map_iff in HF as (n & <- & Hn). exists d, subs, files, n. auto.
  - intros (d & subs & files & n & HI & Hn & ->). exists (d, subs, files). split; [exact HI|]. apply in_map_iff. now exists n.
Qed.
(** Without recursion a directory finds nothing. *)
Theorem C50_directory dir : isfile F dir = false -> ~ star dir -> findFiles F false [dir] = [].
Proof.
  intros H1 H2. destruct (C50_plain [dir]) as (ls & H3 & ->). inversion H3 as [|? l ? ? HN HX]; subst. inversion HX; subst.
  inversion HN; subst; [congruence|contradiction|reflexivity].
Qed.
(** Paths are independent, and come out in the order given. *)
Theorem C50_order recurse a b : findFiles F recurse (a ++ b) = findFiles F recurse a ++ findFiles F recurse b.
Proof. apply flat_map_app. Qed.
End Discovery.
Print Assumptions C50_plain.
Print Assumptions C50_restricted.
Print Assumptions C50_recursive.
Print Assumptions C50_tree.
Print Assumptions C50_directory.
Print Assumptions C50_order.

(** A small file system: /d with the file a.jp2, the entry l (a broken symbolic
    link) and the directory s with the file b.jp2. *)
Definition fs1 : fsys := {|
  isfile := fun p => existsb (pystr_eqb p) [pys "/d/a.jp2"; pys "/d/s/b.jp2"];
  isdir := fun p => existsb (pystr_eqb p) [pys "/d"; pys "/d/s"];
  isabs := fun p => match p with 47 :: _ => true | _ => false end;
  abspath := fun p => pys "/" ++ p;
  globf := fun p => if pystr_eqb p (pys "/d/*.jp2") then [pys "/d/a.jp2"] else if pystr_eqb p (pys "/d/s/*.jp2") then [pys "/d/s/b.jp2"] else [];
  walk := fun p => if pystr_eqb p (pys "/d") then [(pys "/d", [pys "s"], [pys "a.jp2"; pys "l"]); (pys "/d/s", [], [pys "b.jp2"])] else [];
  psplit := fun p => if pystr_eqb p (pys "/d/*.jp2") then (pys "/d", pys "*.jp2") else (p, []);
  psplitext := fun p => (p, []); pjoin := fun a b => a ++ pys "/" ++ b |}.
Example C50_ex : findFiles fs1 true [pys "/d/*.jp2"] = [pys "/d/a.jp2"; pys "/d/s/b.jp2"] /\
  findFiles fs1 false [pys "/d/*.jp2"; pys "/d"; pys "/x"; pys "/d/s/b.jp2"] = [pys "/d/a.jp2"; pys "/d/s/b.jp2"] /\
  (forall f, In f (findFiles fs1 true [pys "/d/*.jp2"]) <-> exists d, (d = pys "/d" \/ proper fs1 (pys "/d") d) /\ matches fs1 d (pys "*.jp2") f).
Proof.
  split; [reflexivity|]. split; [reflexivity|]. apply C50_recursive; try reflexivity; try (cbn; auto 9; fail).
  - cbn. intuition discriminate.
  - intros d HD. vm_compute in HD. injection HD as <-. reflexivity.
Qed.
(** In a tree, what is not a regular file is found too: a broken link, whose size
    cannot be asked for, so that the run ends there. *)
Theorem C50_restricted_refuted : exists F paths f, In f (findFiles F true paths) /\ isfile F f = false /\
  forall observe write toolInfo s o, fo_size (observe f) = Raise OSError -> write toolInfo = Ok s ->
    (forall p, p <> f -> exists t, rbind (checkOneFile E0 100 10 p (observe p) o 0) write = Ok t) ->
    ends (checkFiles E0 100 10 F observe write toolInfo [] o 0 true paths) = Crashed OSError.
Proof.
  exists fs1, [pys "/d"], (pys "/d/l"). split; [cbn; auto|]. split; [reflexivity|]. intros observe write toolInfo s o HO HW HP.
  unfold checkFiles. change ([] ++ findFiles fs1 true [pys "/d"]) with [pys "/d/a.jp2"; pys "/d/l"; pys "/d/s/b.jp2"]. cbv iota. rewrite HW. cbn [ends processFiles].
  destruct (HP (pys "/d/a.jp2") ltac:(discriminate)) as (t & ->). cbn [ends]. 
  assert (HX : rbind (checkOneFile E0 100 10 (pys "/d/l") (observe (pys "/d/l")) o 0) write = Raise OSError) by (unfold checkOneFile; rewrite HO; reflexivity).
  rewrite HX. reflexivity.
Qed.
Print Assumptions C50_restricted_refuted.
(** An expression that matches one directory finds all files below it; one that
    matches two directories finds no file in them. *)
Definition fs2 (dirs : list pystr) : fsys := {|
  isfile := fun p => existsb (pystr_eqb p) [pys "/d/a.jp2"];
  isdir := fun p => existsb (pystr_eqb p) dirs;
  isabs := fun p => match p with 47 :: _ => true | _ => false end;
  abspath := fun p => pys "/" ++ p;
  globf := fun p => if pystr_eqb p (pys "/d*") then dirs else [];
  walk := fun p => if pystr_eqb p (pys "/d") then [(pys "/d", [], [pys "a.jp2"])]
                   else if pystr_eqb p (pys "/") then [(pys "/", map (@tl Z) dirs, []); (pys "/d", [], [pys "a.jp2"])] else [];
  psplit := fun p => if pystr_eqb p (pys "/d*") then (pys "/", pys "d*") else (p, []);
  psplitext := fun p => (p, []); pjoin := fun a b => (if pystr_eqb a (pys "/") then a else a ++ pys "/") ++ b |}.
Theorem C50_directories_refuted :
  findFiles (fs2 [pys "/d"]) true [pys "/d*"] = [pys "/d/a.jp2"] /\ findFiles (fs2 [pys "/d"; pys "/d2"]) true [pys "/d*"] = [].
Proof. split; now vm_compute. Qed.
Print Assumptions C50_directories_refuted.
