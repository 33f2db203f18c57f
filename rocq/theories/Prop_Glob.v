(** * C72, continued: expressions in several components of a path *)

From Coq Require Import ZArith List Bool String Lia.
From Verif Require Import Py Main PosixFS SpecFS PFS PGlob Prop_FS.
Import ListNotations.
Open Scope string_scope.
Open Scope list_scope.
Open Scope Z_scope.

Section Search.
Variables (root : entry) (cwd : pystr).
Hypothesis HR : wf_tree root.
Notation F := (posix root cwd).
Notation st := (stat root cwd).

(** A path: a directory without special characters, given from the root; then
    components, of which the first has special characters. *)
Variables (d : pystr) (k : bool) (l : list (pystr * entry)).
Hypothesis HT : d = [47] \/ last d 0 <> 47.
Hypothesis HA : hd 0 d = 47.
Hypothesis HL : literal d.
Hypothesis HS : st d = Some (Dir k l).
Lemma tidy_top : tidy d.
Proof. split; [intros E; rewrite E in HA; discriminate|tauto]. Qed.
Lemma wf_top : wf_tree (Dir k l).
Proof. exact (stat_wf root cwd d _ HR HS). Qed.

Section Pats.
Variables (dps : list pystr) (fp : pystr).
Hypothesis HM : ~ literal (hd [] dps).
Hypothesis HG : Forall good_name (dps ++ [fp]).
Hypothesis HO : Forall orderly (dps ++ [fp]).
Hypothesis HF : st (under d (dps ++ [fp])) <> Some File.
Lemma dps_some : dps <> [].
Proof. intros E. apply HM. rewrite E. repeat split; intros []. Qed.
Lemma hd_some : hd [] (dps ++ [fp]) = hd [] dps.
Proof. pose proof dps_some. destruct dps; [contradiction|reflexivity]. Qed.
Lemma parts : Forall good_name dps /\ good_name fp /\ Forall orderly dps /\ orderly fp.
Proof. apply Forall_app in HG, HO. destruct HG as [H1 H2], HO as [H3 H4]. inversion H2; inversion H4; subst. auto. Qed.
Lemma under_inj_in (ls : list (list pystr)) : NoDup ls -> (forall ns, In ns ls -> Forall good_name ns) -> NoDup (map (under d) ls).
Proof. intros HN HGd. apply NoDup_map_in; [exact HN|]. intros x y Hx Hy E. eapply under_inj; [apply tidy_top|apply HGd, Hx|apply HGd, Hy|exact E]. Qed.
Lemma files_good ns : In ns (map fst (filter (fun h => is_file (snd h)) (hits (Dir k l) (dps ++ [fp])))) -> Forall good_name ns.
Proof. intros H. apply in_map_iff in H. destruct H as ([ns' x] & <- & H). apply filter_In in H. eapply hits_good; [exact wf_top|exact HS|apply H]. Qed.

(** Without --recurse: the files that the components lead to, once each. *)
Theorem C72_glob : Exists (In 42) (dps ++ [fp]) ->
  NoDup (findFiles F false [under d (dps ++ [fp])]) /\
  forall f, In f (findFiles F false [under d (dps ++ [fp])]) <-> exists ns, f = under d ns /\ reached l (dps ++ [fp]) ns File.
Proof.
  intros H42.
  assert (HE : findFiles F false [under d (dps ++ [fp])] = map (under d) (map fst (filter (fun h => is_file (snd h)) (hits (Dir k l) (dps ++ [fp]))))).
  { unfold findFiles. cbn [flat_map]. rewrite (plain_gen root cwd d k l wf_top tidy_top HL (slash_hd _ HA) HS) by (try rewrite hd_some; assumption). now rewrite !app_nil_r, map_map. }
  rewrite HE. split.
  - apply under_inj_in; [apply NoDup_filter_map, hits_nodup, wf_top|exact files_good].
  - intros f. rewrite in_map_iff. split.
    + intros (ns & <- & H). exists ns. split; [reflexivity|]. apply in_map_iff in H. destruct H as ([ns' x] & <- & H). apply filter_In in H. destruct H as [H HX]. cbn in HX. destruct x; try discriminate HX.
      apply hits_spec in H; [exact H|exact HO|destruct dps; discriminate].
    + intros (ns & -> & H). exists ns. split; [reflexivity|]. apply in_map_iff. exists (ns, File). split; [reflexivity|]. apply filter_In. split; [|reflexivity]. apply hits_spec; [exact HO|destruct dps; discriminate|exact H].
Qed.

(** With --recurse: the files with matching names of the directories that the leading
    components lead to and of every directory below these, once each, when no
    directory on the way has a name that is itself an expression and the path does not
    stand for a single directory. *)
Theorem C72_glob_tree : Exists (In 42) dps ->
  (forall ns b m ds y, reached l dps ns (Dir b m) -> visited m ds y -> Forall literal (ns ++ ds)) ->
  ~ (exists ns b m, reached l (dps ++ [fp]) ns (Dir b m) /\ forall ns' x, reached l (dps ++ [fp]) ns' x -> ns' = ns) ->
  NoDup (findFiles F true [under d (dps ++ [fp])]) /\
  forall f, In f (findFiles F true [under d (dps ++ [fp])]) <->
    exists ns b m ds n y, f = under d (ns ++ ds ++ [n]) /\ reached l dps ns (Dir b m) /\ visited m ds y /\ In (n, File) y /\ named_by fp n.
Proof.
  intros H42 HV HN1. destruct parts as (HG1 & HG2 & HO1 & HO2). pose proof dps_some as HD.
  assert (HE : findFiles F true [under d (dps ++ [fp])] = map (under d) (map fst (filter (fun h => is_file (snd h)) (hits (Dir k l) (dps ++ [fp]))) ++ flat_map (below_hits fp) (hits (Dir k l) dps))).
  { unfold findFiles. cbn [flat_map]. rewrite (plain_gen root cwd d k l wf_top tidy_top HL (slash_hd _ HA) HS); [|now rewrite hd_some|exact HG|apply Exists_app; now left|exact HF].
    rewrite app_nil_r, map_app, map_map. f_equal.
    replace (match hits (Dir k l) (dps ++ [fp]) with [h] => _ | _ => _ end) with (under d (dps ++ [fp])).
    - apply (recurse_gen root cwd d k l wf_top tidy_top HL (slash_hd _ HA) HS); [exact HM|exact HG1|exact H42|exact HG2|]. intros ns b m ds y HI. apply hits_spec in HI; [|exact HO1|exact HD]. now apply (HV ns b m).
    - pose proof (hits_spec (dps ++ [fp]) HO ltac:(destruct dps; discriminate) k l) as HX. destruct (hits (Dir k l) (dps ++ [fp])) as [|[ns x] [|h r]]; try reflexivity. cbn [fst snd]. destruct x as [| |b m]; [reflexivity..|]. exfalso. apply HN1. exists ns, b, m. split; [apply HX; now left|].
      intros ns' x' H. apply HX in H. destruct H as [H|[]]. now injection H. }
  rewrite HE. split.
  - apply under_inj_in; [apply (all_nodup root cwd d k l wf_top (slash_hd _ HA) HS)|]. intros ns H. apply in_app_iff in H. destruct H as [H|H]; [now apply files_good|]. eapply below_hits_good; [exact wf_top|exact (slash_hd _ HA)|exact HS|exact H].
  - intros f. rewrite in_map_iff. split.
    + intros (ns & <- & H). apply in_app_iff in H. destruct H as [H|H].
      * apply files_spec in H; [|assumption..]. destruct H as (hs & b & m & n & -> & H1 & H2 & H3). exists hs, b, m, [], n, m. split; [reflexivity|]. split; [exact H1|]. split; [apply visited_walked; constructor|auto].
      * apply below_hits_spec in H; [|assumption..]. destruct H as (hs & b & m & ds & n & y & -> & _ & H1 & H2 & H3). exists hs, b, m, ds, n, y. auto.
    + intros (hs & b & m & ds & n & y & -> & H1 & H2 & H3 & H4). exists (hs ++ ds ++ [n]). split; [reflexivity|]. apply in_app_iff. destruct ds as [|z ds].
      * left. apply files_spec; [assumption..|]. exists hs, b, m, n. split; [reflexivity|]. split; [exact H1|]. split; [|exact H4]. inversion H2 as [? ? ? H|? ds' ? ? ? H _ E]; subst; [now inversion H; subst|destruct ds'; discriminate].
      * right. apply below_hits_spec; [assumption..|]. exists hs, b, m, (z :: ds), n, y. split; [reflexivity|]. split; [discriminate|auto].
Qed.

(** If it does, everything below that directory. *)
Theorem C72_glob_single ns b m : Exists (In 42) (dps ++ [fp]) ->
  reached l (dps ++ [fp]) ns (Dir b m) -> (forall ns' x, reached l (dps ++ [fp]) ns' x -> ns' = ns) -> Forall (fun n => ~ In 42 n) ns ->
  NoDup (findFiles F true [under d (dps ++ [fp])]) /\
  forall f, In f (findFiles F true [under d (dps ++ [fp])]) <->
    exists ds n y e, f = under d (ns ++ ds ++ [n]) /\ walked m ds y /\ In (n, e) y /\ (e = File \/ e = Other).
Proof.
  intros H42 HRe H1 HN. assert (HNE : dps ++ [fp] <> []) by (destruct dps; discriminate). pose proof (proj2 (hits_spec (dps ++ [fp]) HO HNE k l ns (Dir b m)) HRe) as HI.
  destruct (hits_stat root cwd (dps ++ [fp]) d (Dir k l) ns (Dir b m) wf_top HS HI) as (HS' & HGn & HW' & _).
  assert (HH : hits (Dir k l) (dps ++ [fp]) = [(ns, Dir b m)]).
  { pose proof (hits_nodup (dps ++ [fp]) _ wf_top) as HND. pose proof (fun ns' x => proj1 (hits_spec (dps ++ [fp]) HO HNE k l ns' x)) as HX. destruct (hits (Dir k l) (dps ++ [fp])) as [|[n1 x1] r]; [destruct HI|].
    assert (n1 = ns) by (eapply H1, HX; now left). subst n1. inversion HND as [|? ? HNI _]; subst. destruct r as [|[n2 x2] r]; [destruct HI as [HI|[]]; now rewrite HI|]. exfalso. apply HNI. assert (n2 = ns) by (eapply H1, HX; right; now left). subst n2. now left. }
  assert (HE : findFiles F true [under d (dps ++ [fp])] = getFilesFromTree F (under d ns)).
  { unfold findFiles. cbn [flat_map]. rewrite (plain_gen root cwd d k l wf_top tidy_top HL (slash_hd _ HA) HS); [|now rewrite hd_some|exact HG|exact H42|exact HF].
    rewrite app_nil_r, HH. cbn [filter snd is_file map app is_dir fst]. unfold findRecurse. cbn [isabs abspath isdir posix]. rewrite starts_under, (slash_hd _ HA) by apply tidy_top.
    rewrite wildcard_false; [|rewrite in_under by (try apply tidy_top; discriminate); intros [H|H]; [exact (proj1 HL H)|]; apply Exists_exists in H; destruct H as (n & Hn & H); rewrite Forall_forall in HN; exact (HN n Hn H)].
    unfold path_isdir. now rewrite HS'. }
  rewrite HE. split; [eapply tree_nodup; eassumption|]. intros f. rewrite (tree_in root cwd (under d ns) b m f HW' HS'). split.
  - intros (ds & x & y & e & -> & HWk & Hx & HD). exists ds, x, y, e. rewrite (under_app d ns (ds ++ [x])). split; [reflexivity|]. split; [exact HWk|]. split; [exact Hx|]. destruct e; [auto|auto|discriminate].
  - intros (ds & x & y & e & -> & HWk & Hx & HE'). exists ds, x, y, e. rewrite (under_app d ns (ds ++ [x])). split; [reflexivity|]. split; [exact HWk|]. split; [exact Hx|]. destruct HE' as [-> | ->]; reflexivity.
Qed.
End Pats.
End Search.

(** ** Cases *)
Definition ex_years : entry :=
  Dir false [(pys "data", Dir false
    [(pys "y2019", Dir false [(pys "a.jp2", File); (pys "s", Dir false [(pys "b.jp2", File); (pys "c.txt", File)])]);
     (pys "y2020", Dir false [(pys "d.jp2", File)]); (pys "x2020", Dir false [(pys "e.jp2", File)]); (pys "yes", File)])].
Example C72_ex_glob :
  findFiles (posix ex_years at_root) false [pys "/data/y*/*.jp2"] = [pys "/data/y2019/a.jp2"; pys "/data/y2020/d.jp2"] /\
  findFiles (posix ex_years at_root) true [pys "/data/y*/*.jp2"] = [pys "/data/y2019/a.jp2"; pys "/data/y2020/d.jp2"; pys "/data/y2019/s/b.jp2"] /\
  findFiles (posix ex_years at_root) true [pys "/data/*/b.jp2"] = [pys "/data/y2019/s/b.jp2"] /\
  findFiles (posix ex_years at_root) true [pys "/*/[!y]2020"] = [pys "/data/x2020/e.jp2"] /\
  under (pys "/data") [pys "y*"; pys "*.jp2"] = pys "/data/y*/*.jp2".
Proof. vm_compute. repeat split. Qed.

Definition all_theorems := (C72_glob, C72_glob_tree, C72_glob_single, C72_ex_glob).
Print Assumptions all_theorems.
