(** * C72: what a search of a directory finds *)

From Coq Require Import ZArith List Bool String Lia.
From Verif Require Import Py Main PosixFS SpecFS PFS.
Import ListNotations.
Open Scope string_scope.
Open Scope list_scope.
Open Scope Z_scope.

Section Search.
Variables (root : entry) (cwd : pystr).
Hypothesis HR : wf_tree root.
Hypothesis HC : hd 0 cwd = 47.
Notation F := (posix root cwd).
Notation st := (stat root cwd).

Lemma slash_hd s : hd 0 s = 47 -> starts_slash s = true.
Proof. destruct s; cbn; lia. Qed.
Lemma hd_slash s : starts_slash s = true -> hd 0 s = 47.
Proof. destruct s; cbn; [discriminate|lia]. Qed.

(** The text of an absolute path of the same entry, without a new "*". *)
Lemma absolute d e : st d = Some e -> ~ In 42 d -> (hd 0 d = 47 \/ ~ In 42 cwd) ->
  let a := if starts_slash d then d else path_abspath cwd d in
  (hd 0 d = 47 -> a = d) /\ hd 0 a = 47 /\ st a = Some e /\ ~ In 42 a.
Proof.
  intros HS HD HW a. unfold a. destruct (starts_slash d) eqn:E.
  - split; [auto|]. split; [now apply hd_slash|]. auto.
  - destruct (abspath_stat root cwd d e (slash_hd _ HC) (root_dir _ _ _ _ HS) HS) as [H1 H2]. split; [intros H; apply slash_hd in H; congruence|]. split; [now apply hd_slash|]. split; [exact H1|].
    intros H. apply in_abspath in H; [|discriminate..]. destruct H as [H|H]; [|contradiction]. destruct HW as [HW|HW]; [apply slash_hd in HW; congruence|contradiction].
Qed.

(** A directory, with --recurse: every entry that is not a directory, of every
    directory that is reached without following a symbolic link, once. *)
Theorem C72_tree d k l :
  st d = Some (Dir k l) -> ~ In 42 d -> (hd 0 d = 47 \/ ~ In 42 cwd) ->
  exists a, (hd 0 d = 47 -> a = d) /\ hd 0 a = 47 /\ st a = Some (Dir k l) /\
    NoDup (findFiles F true [d]) /\
    forall f, In f (findFiles F true [d]) <->
      exists ds n m e, f = under a (ds ++ [n]) /\ walked l ds m /\ In (n, e) m /\ st f = Some e /\
                       (e = File \/ e = Other).
Proof.
  intros HS HD HW. destruct (absolute d _ HS HD HW) as (H1 & H2 & H3 & H4). eexists. split; [exact H1|]. split; [exact H2|]. split; [exact H3|].
  set (a := if starts_slash d then d else path_abspath cwd d) in *. pose proof (stat_wf root cwd d _ HR HS) as HWf.
  assert (HE : findFiles F true [d] = getFilesFromTree F a).
  { unfold findFiles. cbn [flat_map]. rewrite app_nil_r. unfold findPlain. cbn [isfile posix]. unfold path_isfile at 1. rewrite HS. rewrite (wildcard_false d HD). cbn [app].
    unfold findRecurse. cbn [isabs abspath isdir posix]. fold a. rewrite (wildcard_false a H4). unfold path_isdir. rewrite H3. reflexivity. }
  rewrite HE. split; [eapply tree_nodup; eassumption|]. intros f. rewrite (tree_in root cwd a k l f HWf H3). split.
  - intros (ds & n & m & e & -> & HWk & HI & HDir). exists ds, n, m, e. split; [reflexivity|]. split; [exact HWk|]. split; [exact HI|].
    destruct (stat_walked root cwd _ _ _ HWk _ _ HWf H3) as (k' & HS' & HW'). destruct (stat_in root cwd _ _ _ _ _ HW' HS' HI) as (HS2 & _). rewrite under_app. split; [exact HS2|]. destruct e; [auto|auto|discriminate].
  - intros (ds & n & m & e & -> & HWk & HI & _ & HE'). exists ds, n, m, e. split; [reflexivity|]. split; [exact HWk|]. split; [exact HI|]. destruct HE' as [-> | ->]; reflexivity.
Qed.

(** Without --recurse nothing of it. *)
Theorem C72_plain d k l : st d = Some (Dir k l) -> ~ In 42 d -> findFiles F false [d] = [].
Proof.
  intros HS HD. unfold findFiles. cbn [flat_map]. unfold findPlain. cbn [isfile posix]. unfold path_isfile. rewrite HS. now rewrite (wildcard_false d HD).
Qed.

(** A file: itself, whatever else. *)
Theorem C72_file r f : st f = Some File -> ~ In 42 f -> (hd 0 f = 47 \/ ~ In 42 cwd) -> findFiles F r [f] = [f].
Proof.
  intros HS HD HW. destruct (absolute f _ HS HD HW) as (H1 & H2 & H3 & H4).
  unfold findFiles. cbn [flat_map]. rewrite app_nil_r. unfold findPlain. cbn [isfile posix]. unfold path_isfile. rewrite HS. destruct r; [|reflexivity].
  unfold findRecurse. cbn [isabs abspath isdir posix]. rewrite (wildcard_false _ H4). unfold path_isdir. rewrite H3. reflexivity.
Qed.

(** ** Expressions *)
Section Pattern.
Variables (d pat : pystr) (k : bool) (l : list (pystr * entry)).
Hypothesis HT : d = [47] \/ last d 0 <> 47.
Hypothesis HA : hd 0 d = 47.
Hypothesis HL : literal d.
Hypothesis HS : st d = Some (Dir k l).
Hypothesis HP : In 42 pat.
Hypothesis HN : ~ In 47 pat.
Hypothesis HB : orderly pat.
Hypothesis HF : st (below d pat) <> Some File.

Lemma tidy_d : tidy d.
Proof. split; [intros E; rewrite E in HA; discriminate|tauto]. Qed.
Lemma wf_d : wf_tree (Dir k l).
Proof. exact (stat_wf root cwd d _ HR HS). Qed.
Lemma good_in n e : In (n, e) l -> good_name n.
Proof. intros H. pose proof wf_d as HW. inversion HW as [| |? ? HX _]; subst. rewrite Forall_forall in HX. apply (HX _ H). Qed.
Definition plain_d := plain_at root cwd d k l pat wf_d tidy_d HL (slash_hd _ HA) HS HP HN HF.
Lemma direct_in f : In f (map (below d) (fnames pat l)) <-> exists n, f = below d n /\ In (n, File) l /\ named_by pat n.
Proof.
  rewrite in_map_iff. split; [intros (n & <- & H); apply fnames_spec in H; [eauto|exact HB]|intros (n & -> & H); exists n; split; [reflexivity|now apply fnames_spec]].
Qed.
Lemma direct_nodup : NoDup (map (below d) (fnames pat l)).
Proof.
  apply NoDup_map_in; [apply fnames_nodup; pose proof wf_d as HW; now inversion HW|]. intros x y Hx Hy E. apply fnames_spec in Hx, Hy; try exact HB.
  assert (E' : under d [x] = under d [y]) by exact E. apply under_inj in E'; [now injection E'|apply tidy_d|constructor; [eapply good_in; apply Hx|constructor]|constructor; [eapply good_in; apply Hy|constructor]].
Qed.

(** Without --recurse: the files of the directory with matching names. *)
Theorem C72_pattern :
  NoDup (findFiles F false [below d pat]) /\
  forall f, In f (findFiles F false [below d pat]) <-> exists n, f = below d n /\ In (n, File) l /\ named_by pat n.
Proof.
  assert (HE : findFiles F false [below d pat] = map (below d) (fnames pat l)) by (unfold findFiles; cbn [flat_map]; rewrite plain_d, !app_nil_r; reflexivity).
  rewrite HE. split; [apply direct_nodup|apply direct_in].
Qed.

Lemma only_spec n e : In (n, e) l -> (forall m x, In (m, x) l -> (named_by pat m <-> m = n)) -> filter (matches pat) (map fst l) = [n].
Proof.
  intros HI HO. assert (HM : forall m, In m (map fst l) -> (matches pat m = true <-> m = n)) by (intros m Hm; apply in_map_iff in Hm; destruct Hm as ([m' x] & <- & Hm); rewrite (matches_spec pat _ HB); eapply HO; exact Hm).
  assert (HD : NoDup (map fst l)) by (pose proof wf_d as HW; now inversion HW). apply (in_map fst) in HI. cbn in HI. clear -HI HM HD.
  induction (map fst l) as [|x r IH]; [destruct HI|]. inversion HD as [|? ? HX HD']; subst. cbn [filter]. destruct (matches pat x) eqn:E.
  - apply HM in E; [subst x|now left]. f_equal. destruct (filter (matches pat) r) as [|y s] eqn:EF; [reflexivity|]. exfalso.
    assert (HY : In y (filter (matches pat) r)) by (rewrite EF; now left). apply filter_In in HY. destruct HY as [HY1 HY2]. apply HM in HY2; [subst y; contradiction|now right].
  - apply IH; [|intros; apply HM; now right|exact HD']. destruct HI as [->|HI]; [|exact HI]. rewrite (proj2 (HM n (or_introl eq_refl)) eq_refl) in E. discriminate.
Qed.

(** With --recurse: the files with matching names of the directory and of every
    directory below it, when no directory has a name that is itself an expression and
    the expression does not stand for a single directory. *)
Theorem C72_pattern_tree :
  (forall ds m, visited l ds m -> Forall literal ds) ->
  ~ (exists n b l', In (n, Dir b l') l /\ forall m x, In (m, x) l -> (named_by pat m <-> m = n)) ->
  NoDup (findFiles F true [below d pat]) /\
  forall f, In f (findFiles F true [below d pat]) <->
    exists ds n m, f = under d (ds ++ [n]) /\ visited l ds m /\ In (n, File) m /\ named_by pat n.
Proof.
  intros HV HO.
  assert (HE : findFiles F true [below d pat] = map (under d) (map (fun n => [n]) (fnames pat l) ++ deep pat k l)).
  { unfold findFiles. cbn [flat_map]. rewrite plain_d, app_nil_r. rewrite map_app, map_map. f_equal.
    replace (match filter (matches pat) (map fst l) with [n] => _ | _ => _ end) with (below d pat).
    - unfold findRecurse. cbn [isabs abspath psplit psplitext posix]. rewrite starts_below, (slash_hd _ HA) by apply tidy_d.
      rewrite (proj2 (wildcard_spec (below d pat))) by (apply in_below; [apply tidy_d|discriminate|now right]). rewrite split_tidy by (try exact HN; exact tidy_d). destruct (path_splitext pat) as [stem ext].
      rewrite (wildcard_false d) by apply HL. rewrite (proj2 (wildcard_spec pat) HP). apply pattern_at; try assumption; [exact wf_d|exact tidy_d].
    - destruct (filter (matches pat) (map fst l)) as [|n [|n' r]] eqn:EF; try reflexivity.
      assert (HI : In n (filter (matches pat) (map fst l))) by (rewrite EF; now left). apply filter_In in HI. destruct HI as [HI HM]. apply in_map_iff in HI. destruct HI as ([n0 e] & E & HI). cbn in E. subst n0.
      rewrite (assoc_in n e l) by (try exact HI; pose proof wf_d as HW; now inversion HW). destruct e as [| |b l']; [reflexivity|reflexivity|]. exfalso. apply HO. exists n, b, l'. split; [exact HI|].
      intros m x Hm. rewrite <- (matches_spec pat m HB). split; [|now intros ->]. intros HX. assert (HY : In m (filter (matches pat) (map fst l))) by (apply filter_In; split; [now apply (in_map fst) in Hm|exact HX]). rewrite EF in HY. destruct HY as [->|[]]. reflexivity. }
  rewrite HE. split.
  - apply NoDup_map_in.
    + apply NoDup_app'; [|now apply deep_nodup, wf_d|].
      * apply NoDup_map_in; [apply fnames_nodup; pose proof wf_d as HW; now inversion HW|]. intros x y _ _ E. now injection E.
      * intros x Hx Hy. apply in_map_iff in Hx. destruct Hx as (n & <- & _). apply deep_spec in Hy; [|exact HB]. destruct Hy as (ds & n' & m & E & HD & _). destruct ds as [|y ds]; [contradiction|]. destruct ds; discriminate E.
    + assert (HG : forall x, In x (map (fun n => [n]) (fnames pat l) ++ deep pat k l) -> Forall good_name x).
      { intros x Hx. apply in_app_iff in Hx. destruct Hx as [Hx|Hx].
        - apply in_map_iff in Hx. destruct Hx as (n & <- & Hx). apply fnames_spec in Hx; [|exact HB]. constructor; [eapply good_in; apply Hx|constructor].
        - apply deep_spec in Hx; [|exact HB]. destruct Hx as (ds & n & m & -> & _ & HVs & HI & _). destruct (visited_wf _ _ _ _ HVs wf_d) as [HG HM]. apply Forall_app. split; [exact HG|]. constructor; [|constructor].
          inversion HM as [| |? ? HX _]; subst. rewrite Forall_forall in HX. apply (HX _ HI). }
      intros x y Hx Hy E. eapply under_inj; [apply tidy_d|apply HG, Hx|apply HG, Hy|exact E].
  - intros f. rewrite in_map_iff. split.
    + intros (ns & <- & HI). apply in_app_iff in HI. destruct HI as [HI|HI].
      * apply in_map_iff in HI. destruct HI as (n & <- & HI). apply fnames_spec in HI; [|exact HB]. exists [], n, l. split; [reflexivity|]. split; [apply visited_walked; constructor|exact HI].
      * apply deep_spec in HI; [|exact HB]. destruct HI as (ds & n & m & -> & _ & H). eauto 8.
    + intros (ds & n & m & -> & HVs & HI & HM). exists (ds ++ [n]). split; [reflexivity|]. apply in_app_iff. destruct ds as [|x ds].
      * left. cbn. apply in_map_iff. exists n. split; [reflexivity|]. apply fnames_spec; [exact HB|]. inversion HVs as [? ? ? H|? ds' ? ? ? H _ E]; subst; [inversion H; subst; auto|destruct ds'; discriminate].
      * right. apply deep_spec; [exact HB|]. exists (x :: ds), n, m. split; [reflexivity|]. split; [discriminate|auto].
Qed.

(** If it does, everything below that directory, whatever its name. *)
Theorem C72_single n b l' :
  In (n, Dir b l') l -> ~ In 42 n -> (forall m x, In (m, x) l -> (named_by pat m <-> m = n)) ->
  NoDup (findFiles F true [below d pat]) /\
  forall f, In f (findFiles F true [below d pat]) <->
    exists ds m x e, f = under d (n :: ds ++ [x]) /\ walked l' ds m /\ In (x, e) m /\ (e = File \/ e = Other).
Proof.
  intros HI H42 HO. destruct (stat_in root cwd d k l n _ wf_d HS HI) as (HS' & HG & HW').
  assert (HE : findFiles F true [below d pat] = getFilesFromTree F (below d n)).
  { unfold findFiles. cbn [flat_map]. rewrite plain_d, app_nil_r. rewrite (only_spec n _ HI HO). rewrite (assoc_in n _ l) by (try exact HI; pose proof wf_d as HW; now inversion HW).
    replace (fnames pat l) with (@nil pystr).
    - cbn [map app]. unfold findRecurse. cbn [isabs abspath isdir posix]. rewrite starts_below, (slash_hd _ HA) by apply tidy_d.
      rewrite wildcard_false; [|rewrite in_below by (try apply tidy_d; discriminate); destruct HL; tauto]. unfold path_isdir. now rewrite HS'.
    - symmetry. destruct (fnames pat l) as [|y r] eqn:EF; [reflexivity|]. exfalso. assert (HY : In y (fnames pat l)) by (rewrite EF; now left). apply fnames_spec in HY; [|exact HB]. destruct HY as [HY1 HY2].
      apply (HO _ _ HY1) in HY2. subst y. pose proof wf_d as HW. inversion HW as [| |? ? _ HD]; subst. pose proof (assoc_in n _ _ HD HI). pose proof (assoc_in n _ _ HD HY1). congruence. }
  rewrite HE. split; [eapply tree_nodup; eassumption|]. intros f. rewrite (tree_in root cwd (below d n) b l' f HW' HS'). split.
  - intros (ds & x & m & e & -> & HWk & Hx & HD). exists ds, m, x, e. split; [reflexivity|]. split; [exact HWk|]. split; [exact Hx|]. destruct e; [auto|auto|discriminate].
  - intros (ds & m & x & e & -> & HWk & Hx & HE'). exists ds, x, m, e. split; [reflexivity|]. split; [exact HWk|]. split; [exact Hx|]. destruct HE' as [-> | ->]; reflexivity.
Qed.
End Pattern.
End Search.
Print Assumptions C72_tree.
Print Assumptions C72_pattern_tree.
Print Assumptions C72_single.

(** Several paths are searched one after the other. *)
Theorem C72_paths root cwd r ps : findFiles (posix root cwd) r ps = flat_map (fun p => findFiles (posix root cwd) r [p]) ps.
Proof. induction ps as [|p ps IH]; [reflexivity|]. cbn [flat_map]. rewrite <- IH. unfold findFiles. cbn [flat_map]. now rewrite app_nil_r. Qed.
Print Assumptions C72_paths.

(** ** Cases *)
Definition ex_tree : entry :=
  Dir false [(pys "data", Dir false
    [(pys "b.jp2", File); (pys "notes.txt", File); (pys ".c.jp2", File);
     (pys "s", Dir false [(pys "x.jp2", File); (pys "p", Other)]);
     (pys "t", Dir true [(pys "y.jp2", File); (pys "u", Dir false [(pys "z.jp2", File)])])])].
Definition at_root : pystr := pys "/".
Example C72_ex_tree : findFiles (posix ex_tree at_root) true [pys "data"] =
  [pys "/data/b.jp2"; pys "/data/notes.txt"; pys "/data/.c.jp2"; pys "/data/s/x.jp2"; pys "/data/s/p"].
Proof. vm_compute. reflexivity. Qed.
Example C72_ex_pattern : findFiles (posix ex_tree at_root) true [pys "/data/*.jp2"] =
  [pys "/data/b.jp2"; pys "/data/s/x.jp2"; pys "/data/t/y.jp2"].
Proof. vm_compute. reflexivity. Qed.
Example C72_ex_plain : findFiles (posix ex_tree (pys "/data")) false [pys "s/../*.jp2"] = [pys "/data/b.jp2"].
Proof. vm_compute. reflexivity. Qed.

(** A class, and its complement; and why a class must not begin with a range in reverse:
    by its text this one has the character "x" and "!". *)
Example C72_ex_class :
  findFiles (posix ex_tree at_root) true [pys "/data/[a-cx]*.jp[!3-9]"] = [pys "/data/b.jp2"; pys "/data/s/x.jp2"] /\
  wild (pys "[a-cx]*.jp[!3-9]") (pys "b.jp2") /\ orderly (pys "[a-cx]*.jp[!3-9]").
Proof.
  split; [vm_compute; reflexivity|]. split.
  - apply (wild_class (pys "a-cx") (pys "*.jp[!3-9]") 98 (pys ".jp2")); [split; [discriminate|cbn; intuition discriminate]|discriminate|apply (member_range 97 99 [120] 98); lia|].
    apply (wild_star (pys ".jp[!3-9]") [] (pys ".jp2")). apply (wild_char (pys "jp[!3-9]") 46 (pys "jp2")); [discriminate..|]. apply (wild_char (pys "p[!3-9]") 106 (pys "p2")); [discriminate..|]. apply (wild_char (pys "[!3-9]") 112 (pys "2")); [discriminate..|].
    apply (wild_negated (pys "3-9") [] 50 []); [split; [discriminate|cbn; intuition discriminate]| |apply wild_nil].
    intros H. inversion H as [? ? ? ? HX|? ? ? ? HX|? ? HX|? ? ? HX _]; subst; [lia|inversion HX|exfalso; eapply HX; reflexivity..].
  - intros a x y r E. assert (HX : In (91, x, 45, y) ((fix w (s : pystr) := match s with c1 :: ((c2 :: c3 :: c4 :: _) as s') => (c1, c2, c3, c4) :: w s' | _ => [] end) (pys "[a-cx]*.jp[!3-9]"))).
    { rewrite E. clear E. revert x y r. induction a as [|c a IH]; intros x y r; [now left|]. specialize (IH x y r). destruct a as [|c1 [|c2 [|c3 a]]]; right; exact IH. }
    cbn in HX. repeat (destruct HX as [HX|HX]; [first [discriminate HX|injection HX; intros; subst; lia]|]). destruct HX.
Qed.
Example C72_ex_reverse : fnmatch (pys "[b-a!x]*") (pys "y") = true /\ fnmatch (pys "[b-a!x]*") (pys "x") = false /\
  fnmatch (pys "[b-ad-c!x]") (pys "y") = true /\ fnmatch (pys "[b-ad-c!x]") (pys "x") = false /\
  fnmatch (pys "[b-a!-x]") (pys "k") = true /\ fnmatch (pys "[b-a!-x]") (pys "-") = false /\ fnmatch (pys "[b-a!-x]") (pys "x") = false.
Proof. vm_compute. repeat split; reflexivity. Qed.

(** The condition on the names of directories is needed: files of a directory named
    "[a]" are not found, those of its sibling "a" are found twice. *)
Definition ex_names : entry :=
  Dir false [(pys "data", Dir false
    [(pys "b.jp2", File); (pys "[a]", Dir false [(pys "x.jp2", File)]); (pys "a", Dir false [(pys "y.jp2", File)])])].
Theorem C72_names_refuted :
  wf_tree ex_names /\ stat ex_names at_root (pys "/data/[a]/x.jp2") = Some File /\ wild (pys "*.jp2") (pys "x.jp2") /\
  findFiles (posix ex_names at_root) true [pys "/data/*.jp2"] = [pys "/data/b.jp2"; pys "/data/a/y.jp2"; pys "/data/a/y.jp2"].
Proof.
  assert (HG : forall s, (pystr_eqb s [] || existsb (Z.eqb 47) s || pystr_eqb s dot || pystr_eqb s dotdot) = false -> good_name s).
  { intros s H. rewrite !orb_false_iff in H. destruct H as [[[H1 H2] H3] H4]. repeat split; intros E; [subst s; discriminate| |subst s; discriminate..].
    assert (HX : existsb (Z.eqb 47) s = true) by (apply existsb_exists; exists 47; auto). congruence. }
  split; [|split; [vm_compute; reflexivity|split; [|vm_compute; reflexivity]]].
  - repeat first [apply wf_file | apply wf_dir; [repeat (apply Forall_cons; [split; [apply HG; vm_compute; reflexivity|]|]); try apply Forall_nil|]];
    cbn [map fst]; repeat (apply NoDup_cons; [cbn [In]; intros HI; repeat (destruct HI as [HI|HI]; [discriminate HI|]); exact HI|]); apply NoDup_nil.
  - change (wild (42 :: pys ".jp2") (pys "x" ++ pys ".jp2")). apply wild_star. repeat (apply wild_char; [discriminate..|]). apply wild_nil.
Qed.
Print Assumptions C72_names_refuted.
