(** * Expressions in more than one component of a path *)

From Coq Require Import ZArith List Bool String Lia ZifyBool.
From Verif Require Import Py Main PosixFS SpecFS PBase PFS.
Import ListNotations.
Open Scope string_scope.
Open Scope list_scope.
Open Scope Z_scope.

Section FS.
Variables (root : entry) (cwd : pystr).
Notation F := (posix root cwd).
Notation st := (stat root cwd).

Lemma stat_name q x n : st q = Some x -> good_name n -> st (below q n) = assoc n (entries x).
Proof.
  intros HS HG. assert (HP : q <> []) by (intros ->; discriminate HS). unfold stat in *.
  destruct q as [|c p]; [contradiction|]. set (q := c :: p) in *. pose proof (below_nonempty q n HP) as HB.
  assert (HF : full cwd (below q n) = below (full cwd q) n).
  { unfold full. assert (HX : starts_slash (below q n) = starts_slash q) by (rewrite below_eq by exact HP; unfold q; destruct (ends_slash (c :: p)); reflexivity).
    rewrite HX. destruct (starts_slash q); [reflexivity|]. rewrite (below_eq q) by exact HP. rewrite below_eq by (destruct cwd; discriminate).
    assert (HE : ends_slash (cwd ++ 47 :: q) = ends_slash q).
    { unfold ends_slash. rewrite rev_app_distr. cbn [rev]. rewrite <- app_assoc. destruct (rev q) eqn:E; [|reflexivity]. exfalso. apply HP. rewrite <- (rev_involutive q), E. reflexivity. }
    rewrite HE. destruct (ends_slash q); now rewrite <- app_assoc. }
  assert (HQ : full cwd q <> []) by (unfold full; destruct (starts_slash q); [exact HP|destruct cwd; discriminate]).
  destruct (below q n) as [|y r] eqn:EB; [contradiction|]. rewrite HF, split_below by (try exact HQ; apply HG). rewrite descend_app.
  assert (HD : exists up, descend root [] (base (full cwd q)) = Some (x, up)).
  { destruct (descend root [] (split_slash (full cwd q))) as [[e' up]|] eqn:ED; [|discriminate]. injection HS as ->. unfold base. destruct (ends_slash (full cwd q)) eqn:EE; [|eauto].
    apply ends_spec in EE. destruct EE as (r' & EE). rewrite EE in ED |- *. rewrite split_app in ED |- *. cbn [split_slash] in *. rewrite removelast_last. rewrite descend_app in ED.
    destruct (descend root [] (split_slash r')) as [[e1 up1]|]; [|discriminate]. cbn [descend] in ED. destruct e1; try discriminate. cbn in ED. injection ED as <- <-. eauto. }
  destruct HD as (up & ->). destruct x as [| |k l]; [reflexivity..|]. rewrite descend_name by exact HG. cbn [entries]. now destruct (assoc n l).
Qed.

(** ** The entries that a list of expressions leads to *)
Definition cands (p : pystr) (e : entry) : list (pystr * entry) := filter (fun x => matches p (fst x)) (entries e).
Fixpoint hits (e : entry) (ps : list pystr) : list (list pystr * entry) :=
  match ps with
  | [] => [([], e)]
  | p :: ps => flat_map (fun x => map (fun y => (fst x :: fst y, snd y)) (hits (snd x) ps)) (cands p e)
  end.
Lemma hits_snoc ps p : forall e, hits e (ps ++ [p]) = flat_map (fun h => map (fun x => (fst h ++ [fst x], snd x)) (cands p (snd h))) (hits e ps).
Proof.
  induction ps as [|q ps IH]; intros e; cbn [app hits].
  - cbn [flat_map fst snd app]. rewrite app_nil_r. induction (cands p e) as [|x l IH]; [reflexivity|]. cbn [flat_map map app fst snd]. f_equal; exact IH.
  - rewrite flat_map_flat_map. apply flat_map_ext_in. intros x _. rewrite IH, map_flat_map, flat_map_map. apply flat_map_ext_in. intros y _. cbn [fst snd]. rewrite map_map. reflexivity.
Qed.
Lemma wf_entries e x : wf_tree e -> In x (entries e) -> good_name (fst x) /\ wf_tree (snd x).
Proof. intros H. destruct e as [| |k l]; [contradiction..|]. inversion H as [| |? ? HF _]; subst. rewrite Forall_forall in HF. apply HF. Qed.
Lemma wf_nodup e : wf_tree e -> NoDup (map fst (entries e)).
Proof. intros H. destruct e; [constructor|constructor|]. now inversion H. Qed.
Lemma hits_stat ps : forall d e ns x, wf_tree e -> st d = Some e -> In (ns, x) (hits e ps) ->
  st (under d ns) = Some x /\ Forall good_name ns /\ wf_tree x /\ List.length ns = List.length ps.
Proof.
  induction ps as [|p ps IH]; intros d e ns x HW HS; cbn [hits].
  - intros [H|[]]. injection H as <- <-. repeat split; [exact HS|constructor|exact HW].
  - intros H. apply in_flat_map in H. destruct H as ([n e'] & HC & H). cbn [fst snd] in H. apply in_map_iff in H. destruct H as ([ns' x'] & E & H). injection E as <- <-. cbn [fst snd] in *.
    apply filter_In in HC. destruct HC as [HC _]. destruct (wf_entries _ _ HW HC) as [HG HW']. cbn [fst snd] in *.
    assert (HS' : st (below d n) = Some e') by (rewrite (stat_name d e n HS HG); apply assoc_in; [now apply wf_nodup|exact HC]).
    destruct (IH _ _ _ _ HW' HS' H) as (H1 & H2 & H3 & H4). repeat split; [exact H1|now constructor|exact H3|cbn; now rewrite H4].
Qed.
Lemma hits_nodup ps : forall e, wf_tree e -> NoDup (map fst (hits e ps)).
Proof.
  induction ps as [|p ps IH]; intros e HW; cbn [hits]; [constructor; [intros []|constructor]|]. rewrite map_flat_map.
  apply (NoDup_flat_map fst (hd [])).
  - apply NoDup_filter_map, wf_nodup, HW.
  - intros [n e'] HC. apply filter_In in HC. destruct (wf_entries _ _ HW (proj1 HC)) as [_ HW']. cbn [fst snd] in *. rewrite map_map. cbn [fst]. rewrite <- (map_map fst (cons n)). apply NoDup_map_in; [now apply IH|]. intros x y _ _ E. now injection E.
  - intros x y _ HY. rewrite map_map in HY. apply in_map_iff in HY. destruct HY as (z & <- & _). reflexivity.
Qed.

(** ** One step of glob *)
Lemma wild_literal p s : literal p -> (wild p s <-> s = p).
Proof.
  revert s. induction p as [|c p IH]; intros s (H1 & H2 & H3); (split; [intros H|intros ->]).
  - now inversion H.
  - constructor.
  - inversion H; subst; try (exfalso; first [apply H1; now left|apply H2; now left|apply H3; now left]). f_equal. apply IH; [|assumption]. repeat split; intros HI; [apply H1|apply H2|apply H3]; now right.
  - apply wild_char; try (intros ->; first [apply H1; now left|apply H2; now left|apply H3; now left]). apply IH; [|reflexivity]. repeat split; intros HI; [apply H1|apply H2|apply H3]; now right.
Qed.
Lemma matches_literal p n : literal p -> (matches p n = true <-> n = p).
Proof.
  intros HL. rewrite matches_spec by (intros a x y r ->; destruct HL as (_ & _ & HL); exfalso; apply HL; apply in_or_app; right; now left).
  unfold named_by. rewrite (wild_literal p n HL). split; [tauto|]. intros ->. auto.
Qed.
Lemma cands_literal p e : literal p -> NoDup (map fst (entries e)) -> cands p e = match assoc p (entries e) with Some x => [(p, x)] | None => [] end.
Proof.
  intros HL. unfold cands. generalize (entries e). intros l. induction l as [|[n x] l IH]; intros HN; [reflexivity|]. inversion HN as [|? ? HI HN']; subst. cbn [filter fst assoc]. specialize (IH HN').
  destruct (pystr_eqb p n) eqn:E.
  - apply pystr_eqb_spec in E. subst n. rewrite (proj2 (matches_literal p p HL) eq_refl). f_equal. cbn in HI.
    rewrite IH. destruct (assoc p l) as [y|] eqn:EA; [|reflexivity]. exfalso. apply HI. clear -EA. induction l as [|[m z] l IH]; [discriminate|]. cbn [assoc] in EA. destruct (pystr_eqb p m) eqn:E; [apply pystr_eqb_spec in E; subst; now left|right; auto].
  - replace (matches p n) with false; [exact IH|]. symmetry. apply not_true_iff_false. intros H. apply (matches_literal p n HL) in H. subst. rewrite eqb_refl in E. discriminate.
Qed.
Lemma flat_map_filter {A B} (f : A -> list B) (P : A -> bool) l : (forall x, In x l -> P x = false -> f x = []) -> flat_map f (filter P l) = flat_map f l.
Proof.
  induction l as [|x l IH]; intros H; [reflexivity|]. cbn [filter flat_map]. rewrite <- IH by (intros y Hy; apply H; now right). destruct (P x) eqn:E; [reflexivity|]. rewrite (H x); [reflexivity|now left|exact E].
Qed.
Lemma level {A} (f : pystr -> list A) q x p b : q <> [] -> wf_tree x -> st q = Some x -> good_name p ->
  (b = true -> forall y, In y (cands p x) -> is_dir (snd y) = false -> f (below q (fst y)) = []) ->
  flat_map f (map (path_join q) (if has_magic p then glob1 root cwd q p b else glob0 root cwd q p)) = flat_map (fun y => f (below q (fst y))) (cands p x).
Proof.
  intros HQ HW HS HG HB. rewrite flat_map_map. destruct (has_magic p) eqn:EM.
  - assert (HL : listing root cwd (match q with [] => dot | _ => q end) = entries x) by (unfold listing; destruct q; [contradiction|]; rewrite HS; reflexivity).
    assert (HE : glob1 root cwd q p b = map fst (filter (fun y => negb b || is_dir (snd y)) (cands p x))).
    { unfold glob1. rewrite HL. unfold cands. rewrite filter_filter. unfold matches. destruct (ishidden p); cbn [orb].
      - rewrite filter_map, filter_filter. f_equal. apply filter_ext_in'. intros y _. rewrite andb_true_r. apply andb_comm.
      - rewrite filter_map, filter_map, !filter_filter. f_equal. apply filter_ext_in'. intros y _. destruct (negb b || is_dir (snd y)), (ishidden (fst y)), (fnmatch p (fst y)); reflexivity. }
    rewrite HE, flat_map_map.
    transitivity (flat_map (fun y => f (below q (fst y))) (filter (fun y => negb b || is_dir (snd y)) (cands p x))).
    + apply flat_map_ext_in. intros y Hy. apply filter_In in Hy. destruct Hy as [Hy _]. apply filter_In in Hy. rewrite join_below; [reflexivity|exact HQ|]. eapply wf_entries; [exact HW|apply Hy].
    + apply flat_map_filter. intros y Hy HP. apply orb_false_iff in HP. apply HB; [destruct b; [reflexivity|now destruct HP]|exact Hy|apply HP].
  - apply magic_spec in EM. rewrite (cands_literal p x EM) by now apply wf_nodup. unfold glob0. destruct p as [|c p]; [now destruct HG|]. set (w := c :: p) in *. rewrite join_below by assumption.
    unfold lexists. rewrite (stat_name q x w HS HG). destruct (assoc w (entries x)) as [y|]; cbn [flat_map]; [|reflexivity]. now rewrite join_below.
Qed.

(** ** glob *)
Lemma has_magic_below d n : d <> [] -> has_magic (below d n) = has_magic d || has_magic n.
Proof.
  intros HD. unfold has_magic. rewrite below_eq by exact HD. destruct (ends_slash d); rewrite existsb_app; [reflexivity|]. reflexivity.
Qed.
Lemma has_magic_under ns : forall d, d <> [] -> has_magic (under d ns) = has_magic d || existsb has_magic ns.
Proof.
  induction ns as [|n ns IH]; intros d HD; [now rewrite orb_false_r|]. cbn [under fold_left existsb]. fold (under (below d n) ns). rewrite IH by now apply below_nonempty. rewrite has_magic_below by exact HD. now rewrite orb_assoc.
Qed.
Lemma below_longer d n : good_name n -> d <> [] -> (List.length d < List.length (below d n))%nat.
Proof. intros (HN & _) HD. rewrite below_eq by exact HD. destruct n; [contradiction|]. destruct (ends_slash d); rewrite app_length; cbn; lia. Qed.
Section Glob.
Variables (d : pystr) (k : bool) (l : list (pystr * entry)).
Hypothesis HW : wf_tree (Dir k l).
Hypothesis HT : tidy d.
Hypothesis HL : literal d.
Hypothesis HS : st d = Some (Dir k l).
Notation e0 := (Dir k l).
Lemma iglob_at {A} ps p : ~ literal (hd [] (ps ++ [p])) -> Forall good_name (ps ++ [p]) ->
  forall n b (f : pystr -> list A), (List.length (under d (ps ++ [p])) <= n)%nat ->
  (b = true -> forall h, In h (hits e0 (ps ++ [p])) -> is_dir (snd h) = false -> f (under d (fst h)) = []) ->
  flat_map f (iglob root cwd n b (under d (ps ++ [p]))) = flat_map (fun h => f (under d (fst h))) (hits e0 (ps ++ [p])).
Proof.
  revert p. induction ps as [|q ps IH] using rev_ind; intros p HM HG n b f HN HB.
  - cbn [app hd] in *. inversion HG as [|? ? HP _]; subst. change (under d [p]) with (below d p) in *. destruct n as [|n]; [pose proof (below_longer d p HP (proj1 HT)); lia|]. cbn [iglob].
    rewrite split_tidy by (try exact HT; apply HP). rewrite has_magic_below by apply HT. assert (EM : has_magic p = true) by (destruct (has_magic p) eqn:E; [reflexivity|]; exfalso; now apply HM, magic_spec).
    rewrite EM, orb_true_r. cbn [negb]. destruct d as [|c d'] eqn:ED; [now destruct HT|]. rewrite <- ED in *. rewrite (proj2 (magic_spec d) HL). cbn [andb flat_map]. rewrite app_nil_r.
    assert (HX : glob1 root cwd d p b = if has_magic p then glob1 root cwd d p b else glob0 root cwd d p) by now rewrite EM. rewrite HX.
    rewrite (level f d e0 p b); [|apply HT|exact HW|exact HS|exact HP|].
    + cbn [hits]. rewrite flat_map_flat_map. apply flat_map_ext_in. intros y _. cbn [map flat_map fst app]. now rewrite app_nil_r.
    + intros Hb y Hy HD. apply (HB Hb ([fst y], snd y)); [|exact HD]. cbn [hits]. apply in_flat_map. exists y. split; [exact Hy|]. now left.
  - assert (HG1 : Forall good_name (ps ++ [q])) by (apply Forall_app in HG; apply HG). assert (HP : good_name p) by (apply Forall_app in HG; destruct HG as [_ HG]; now inversion HG).
    assert (HM1 : ~ literal (hd [] (ps ++ [q]))) by (destruct ps; exact HM). set (ps' := ps ++ [q]) in *. rewrite under_app. change (under (under d ps') [p]) with (below (under d ps') p).
    assert (HT' : tidy (under d ps')) by now apply tidy_under. rewrite under_app in HN. change (under (under d ps') [p]) with (below (under d ps') p) in HN.
    destruct n as [|n]; [pose proof (below_longer (under d ps') p HP (proj1 HT')); lia|]. cbn [iglob]. rewrite split_tidy by (try exact HT'; apply HP). rewrite has_magic_below by apply HT'.
    assert (EM : has_magic (under d ps') = true).
    { rewrite has_magic_under by apply HT. apply orb_true_iff. right. clear -HM1; destruct ps' as [|r rs]; [exfalso; apply HM1; repeat split; intros []|]. cbn [hd] in HM1. cbn [existsb]. destruct (has_magic r) eqn:E; [reflexivity|]. exfalso. now apply HM1, magic_spec. }
    rewrite EM. cbn [orb negb]. destruct (under d ps') as [|c u] eqn:EU; [now destruct HT'|]. rewrite <- EU in *.
    replace (pystr_eqb (under d ps') (below (under d ps') p)) with false.
    2:{ symmetry. apply eqb_false. intros E. pose proof (below_longer (under d ps') p HP (proj1 HT')). rewrite <- E in H. lia. }
    cbn [negb andb]. rewrite flat_map_flat_map.
    rewrite (IH q HM1 HG1 n true); [|pose proof (below_longer (under d ps') p HP (proj1 HT')); fold ps'; lia|].
    + fold ps'. rewrite hits_snoc, flat_map_flat_map. apply flat_map_ext_in. intros [ns x] Hh. cbn [fst snd].
      destruct (hits_stat ps' d e0 ns x HW HS Hh) as (H1 & H2 & H3 & _). assert (HT2 : tidy (under d ns)) by now apply tidy_under.
      rewrite (level f (under d ns) x p b); [|apply HT2|exact H3|exact H1|exact HP|].
      * rewrite flat_map_map. apply flat_map_ext_in. intros y _. cbn [fst]. rewrite under_app. reflexivity.
      * intros Hb y Hy HD. specialize (HB Hb (ns ++ [fst y], snd y)). cbn [fst snd] in HB. rewrite under_app in HB. apply HB; [|exact HD].
        rewrite hits_snoc. apply in_flat_map. exists (ns, x). split; [exact Hh|]. cbn [fst snd]. apply in_map_iff. exists y. auto.
    + intros _ [ns x] Hh HD. cbn [fst snd] in *. fold ps' in Hh. destruct (hits_stat ps' d e0 ns x HW HS Hh) as (H1 & H2 & H3 & _). assert (HT2 : tidy (under d ns)) by now apply tidy_under.
      pose proof (level (fun z => [z]) (under d ns) x p false (proj1 HT2) H3 H1 HP) as HV. cbn [flat_map] in HV.
      assert (HX : forall g : pystr -> list A, flat_map g (map (path_join (under d ns)) (if has_magic p then glob1 root cwd (under d ns) p b else glob0 root cwd (under d ns) p)) = flat_map (fun y => g (below (under d ns) (fst y))) (cands p x)).
      { intros g. apply level; [apply HT2|exact H3|exact H1|exact HP|]. intros _ y Hy _. exfalso. unfold cands in Hy. destruct x; [destruct Hy..|discriminate HD]. }
      rewrite HX. unfold cands. destruct x; [reflexivity..|discriminate HD].
Qed.
Lemma glob_hits ps : ~ literal (hd [] ps) -> Forall good_name ps -> path_glob root cwd (under d ps) = map (fun h => under d (fst h)) (hits e0 ps).
Proof.
  intros HM HG. destruct (exists_last (l := ps)) as (qs & p & ->); [intros ->; apply HM; repeat split; intros []|].
  assert (H1 : forall A B (g : A -> B) m, flat_map (fun x => [g x]) m = map g m) by (intros A B g m; induction m as [|x m IH]; [reflexivity|]; cbn; now rewrite IH).
  pose proof (iglob_at qs p HM HG (S (List.length (under d (qs ++ [p])))) false (fun z => [z])) as H. rewrite !H1, map_id in H. apply H; [lia|discriminate].
Qed.
End Glob.

(** ** Searching *)
Definition is_file (x : entry) : bool := match x with File => true | _ => false end.
Lemma fnames_cands p k l : fnames p l = map fst (filter (fun x => is_file (snd x)) (cands p (Dir k l))).
Proof. unfold fnames, cands. cbn [entries]. rewrite filter_filter. f_equal. apply filter_ext_in'. intros [n []] _; cbn; now rewrite ?andb_true_r, ?andb_false_r. Qed.
Lemma getFiles_gen q k m p : wf_tree (Dir k m) -> tidy q -> literal q -> st q = Some (Dir k m) -> good_name p -> getFiles F (below q p) = map (below q) (fnames p m).
Proof.
  intros HW HT HL HS HG. unfold getFiles. cbn [globf isfile posix]. rewrite (fnames_cands p k m). destruct (has_magic p) eqn:EM.
  - change (below q p) with (under q [p]). rewrite (glob_hits q k m HW HT HL HS [p]); [|cbn [hd]; intros H; apply magic_spec in H; congruence|repeat constructor; apply HG].
    cbn [hits]. rewrite filter_map, map_map.
    assert (HX : forall l, (forall x, In x l -> In x (cands p (Dir k m))) -> map (fun h => under q (fst h)) (filter (fun h => path_isfile root cwd (under q (fst h))) (flat_map (fun x => map (fun y => (fst x :: fst y, snd y)) [([], snd x)]) l)) = map (fun x => below q (fst x)) (filter (fun x => is_file (snd x)) l)).
    { induction l as [|[n x] l IH]; intros HI; [reflexivity|]. cbn [flat_map map app fst snd filter].
      assert (HN : In (n, x) m) by (specialize (HI _ (or_introl eq_refl)); apply filter_In in HI; apply HI).
      assert (HF : path_isfile root cwd (under q [n]) = is_file x) by (unfold path_isfile; change (under q [n]) with (below q n); destruct (stat_in root cwd q k m n x HW HS HN) as (-> & _); now destruct x).
      rewrite HF. specialize (IH (fun y Hy => HI y (or_intror Hy))). destruct (is_file x); [cbn [map fst]; f_equal; exact IH|exact IH]. }
    apply HX. auto.
  - pose proof (proj1 (magic_spec p) EM) as HLp. unfold path_glob. cbn [iglob]. rewrite split_tidy by (try exact HT; apply HG). rewrite has_magic_below by apply HT. rewrite (proj2 (magic_spec q) HL), EM. cbn [orb negb].
    destruct p as [|c p]; [now destruct HG|]. set (w := c :: p) in *. unfold lexists. rewrite (stat_name q _ w HS HG). rewrite (cands_literal w _ HLp) by now apply wf_nodup. cbn [entries].
    destruct (assoc w m) as [x|] eqn:EA; [|reflexivity]. cbn [filter snd]. unfold path_isfile. rewrite (stat_name q _ w HS HG). cbn [entries]. rewrite EA. destruct x; reflexivity.
Qed.
Lemma pattern_gen p k l pat : wf_tree (Dir k l) -> st p = Some (Dir k l) -> tidy p -> literal p -> good_name pat ->
  (forall ds m, visited l ds m -> Forall literal ds) ->
  getFilesWithPatternFromTree F p pat = map (under p) (deep pat k l).
Proof.
  intros HW HS HT HL HP HV. unfold getFilesWithPatternFromTree. cbn [walk pjoin posix]. unfold path_walk. rewrite HS.
  rewrite (walk_dirs (getFiles F) pat (Dir k l) p HW) by apply HT. unfold deep. rewrite map_flat_map. apply flat_map_ext_in. intros [ds m] HI. cbn [fst snd].
  apply tdirs_spec in HI. destruct HI as [_ HI]. cbn [entries] in HI. destruct (visited_wf _ _ _ _ HI HW) as [HG _]. destruct (stat_visited _ _ _ _ _ _ _ HI HW HS) as (k' & HS' & HW').
  assert (HT' : tidy (under p ds)) by now apply tidy_under.
  rewrite join_below by (try apply HT'; exact HP). erewrite getFiles_gen; [|exact HW'|exact HT'|apply literal_under; [apply HT|exact HL|eapply HV; exact HI]|exact HS'|exact HP].
  rewrite map_map. apply map_ext. intros n. now rewrite under_app.
Qed.
Lemma hits_spec ps : Forall orderly ps -> ps <> [] -> forall k l ns x, In (ns, x) (hits (Dir k l) ps) <-> reached l ps ns x.
Proof.
  intros HO. induction HO as [|p ps HP HO IH]; [contradiction|]. intros _ k l ns x. cbn [hits]. rewrite in_flat_map. split.
  - intros ([n e] & HC & H). apply in_map_iff in H. destruct H as ([ns' x'] & E & H). cbn [fst snd] in *. injection E as <- <-. apply filter_In in HC. destruct HC as [HC HM]. cbn [entries fst] in *. apply (matches_spec p n HP) in HM.
    destruct ps as [|q ps]; [destruct H as [H|[]]; injection H as <- <-; now constructor|]. destruct e as [| |b l']; [destruct H..|]. eapply reached_down; [exact HC|exact HM|]. now apply (IH ltac:(discriminate) b).
  - intros H. inversion H as [? ? n e HI HM|? ? n b l' ? ns' e HI HM HR]; subst.
    + exists (n, x). split; [apply filter_In; split; [exact HI|now apply matches_spec]|]. now left.
    + exists (n, Dir b l'). split; [apply filter_In; split; [exact HI|now apply matches_spec]|]. apply in_map_iff. exists (ns', x). split; [reflexivity|]. cbn [snd]. apply IH; [|exact HR]. intros ->. inversion HR.
Qed.
Lemma in_under c ns : c <> 47 -> forall d, d <> [] -> (In c (under d ns) <-> In c d \/ Exists (In c) ns).
Proof.
  intros HC. induction ns as [|n ns IH]; intros d HD; [rewrite Exists_nil; tauto|]. cbn [under fold_left]. fold (under (below d n) ns). rewrite IH by now apply below_nonempty. rewrite in_below by assumption. rewrite Exists_cons. tauto.
Qed.
Lemma starts_under ns : forall d, d <> [] -> starts_slash (under d ns) = starts_slash d.
Proof. induction ns as [|n ns IH]; intros d HD; [reflexivity|]. cbn [under fold_left]. fold (under (below d n) ns). rewrite IH by now apply below_nonempty. now apply starts_below. Qed.

Section Find.
Variables (d : pystr) (k : bool) (l : list (pystr * entry)).
Hypothesis HW : wf_tree (Dir k l).
Hypothesis HT : tidy d.
Hypothesis HL : literal d.
Hypothesis HA : starts_slash d = true.
Hypothesis HS : st d = Some (Dir k l).
Notation e0 := (Dir k l).
Lemma hits_isfile ps : filter (path_isfile root cwd) (map (fun h => under d (fst h)) (hits e0 ps)) = map (fun h => under d (fst h)) (filter (fun h => is_file (snd h)) (hits e0 ps)).
Proof.
  rewrite filter_map. f_equal. apply filter_ext_in'. intros [ns x] HI. destruct (hits_stat ps d e0 ns x HW HS HI) as (H1 & _). cbn [fst snd]. unfold path_isfile. rewrite H1. now destruct x.
Qed.
Lemma plain_gen ps : ~ literal (hd [] ps) -> Forall good_name ps -> Exists (In 42) ps -> st (under d ps) <> Some File ->
  findPlain F (under d ps) = (map (fun h => under d (fst h)) (filter (fun h => is_file (snd h)) (hits e0 ps)),
    match hits e0 ps with [h] => if is_dir (snd h) then under d (fst h) else under d ps | _ => under d ps end).
Proof.
  intros HM HG H42 HF. unfold findPlain. cbn [isfile isabs globf isdir posix].
  replace (path_isfile root cwd (under d ps)) with false by (unfold path_isfile; destruct (st (under d ps)) as [[]|]; try reflexivity; contradiction).
  replace (hasWildcard (under d ps)) with true by (symmetry; apply wildcard_spec, in_under; [discriminate|apply HT|now right]).
  rewrite starts_under, HA by apply HT. rewrite (glob_hits d k l HW HT HL HS ps HM HG). rewrite <- hits_isfile. pose proof (fun ns x => hits_stat ps d e0 ns x HW HS) as HX.
  destruct (hits e0 ps) as [|[ns x] [|h r]]; [reflexivity| |reflexivity]. destruct (HX ns x (or_introl eq_refl)) as (H1 & _). cbn [map fst snd filter]. unfold path_isfile, path_isdir. rewrite H1. destruct x; reflexivity.
Qed.
Definition below_hits (fp : pystr) (h : list pystr * entry) : list (list pystr) :=
  match snd h with Dir b m => map (app (fst h)) (deep fp b m) | _ => [] end.
Lemma recurse_gen dps fp : ~ literal (hd [] dps) -> Forall good_name dps -> Exists (In 42) dps -> good_name fp ->
  (forall ns b m ds x, In (ns, Dir b m) (hits e0 dps) -> visited m ds x -> Forall literal (ns ++ ds)) ->
  findRecurse F (under d (dps ++ [fp])) = map (under d) (flat_map (below_hits fp) (hits e0 dps)).
Proof.
  intros HM HG H42 HP HV. unfold findRecurse. cbn [isabs psplit psplitext globf isdir posix]. rewrite starts_under, HA by apply HT.
  assert (HT' : tidy (under d dps)) by now apply tidy_under.
  replace (hasWildcard (under d (dps ++ [fp]))) with true by (symmetry; apply wildcard_spec, in_under; [discriminate|apply HT|right; apply Exists_app; now left]).
  rewrite under_app. change (under (under d dps) [fp]) with (below (under d dps) fp). rewrite split_tidy by (try exact HT'; apply HP). destruct (path_splitext fp) as [stem ext].
  replace (hasWildcard (under d dps)) with true by (symmetry; apply wildcard_spec, in_under; [discriminate|apply HT|now right]).
  rewrite (glob_hits d k l HW HT HL HS dps HM HG).
  assert (HX : forall h, In h (hits e0 dps) -> getFilesWithPatternFromTree F (under d (fst h)) fp = map (under d) (below_hits fp h) /\ (path_isdir root cwd (under d (fst h)) = false -> below_hits fp h = [])).
  { intros [ns x] HI. destruct (hits_stat dps d e0 ns x HW HS HI) as (H1 & H2 & H3 & _). cbn [fst snd]. unfold below_hits. cbn [fst snd]. split.
    - assert (HN : is_dir x = false -> getFilesWithPatternFromTree F (under d ns) fp = []) by (intros HD; unfold getFilesWithPatternFromTree; cbn [walk posix]; unfold path_walk; rewrite H1; destruct x; [reflexivity..|discriminate HD]).
      destruct x as [| |b m]; [apply HN; reflexivity..|]. assert (HV' : forall ds y, visited m ds y -> Forall literal ns /\ Forall literal ds) by (intros ds y Hy; specialize (HV _ _ _ _ _ HI Hy); now apply Forall_app in HV).
      rewrite pattern_gen with (k := b) (l := m); [|exact H3|exact H1|now apply tidy_under|apply literal_under; [apply HT|exact HL|apply (HV' [] m); apply visited_walked; constructor]|exact HP|intros ds y Hy; eapply HV'; exact Hy].
      rewrite map_map. apply map_ext. intros ds. now rewrite under_app.
    - unfold path_isdir. rewrite H1. destruct x; [reflexivity..|discriminate]. }
  assert (HY : flat_map (fun f => if path_isdir root cwd f then getFilesWithPatternFromTree F f fp else []) (map (fun h => under d (fst h)) (hits e0 dps)) = map (under d) (flat_map (below_hits fp) (hits e0 dps))).
  { rewrite flat_map_map, map_flat_map. apply flat_map_ext_in. intros h Hh. destruct (HX h Hh) as [H1 H2]. destruct (path_isdir root cwd (under d (fst h))); [exact H1|]. now rewrite (H2 eq_refl). }
  rewrite <- HY. destruct (hits e0 dps) as [|h [|h' r]]; [reflexivity| |reflexivity]. cbn [map flat_map]. rewrite app_nil_r. destruct (HX h (or_introl eq_refl)) as [H1 H2].
  destruct (path_isdir root cwd (under d (fst h))); [reflexivity|]. now rewrite H1, (H2 eq_refl).
Qed.
Lemma below_hits_spec dps fp ns : Forall orderly dps -> dps <> [] -> orderly fp ->
  (In ns (flat_map (below_hits fp) (hits e0 dps)) <-> exists hs b m ds n y, ns = hs ++ ds ++ [n] /\ ds <> [] /\ reached l dps hs (Dir b m) /\ visited m ds y /\ In (n, File) y /\ named_by fp n).
Proof.
  intros HO HD HP. rewrite in_flat_map. split.
  - intros ([hs x] & HI & H). unfold below_hits in H. cbn [fst snd] in H. destruct x as [| |b m]; [destruct H..|]. apply in_map_iff in H. destruct H as (z & <- & H). apply (deep_spec fp b m z HP) in H.
    destruct H as (ds & n & y & -> & H0 & H1 & H2). exists hs, b, m, ds, n, y. split; [reflexivity|]. split; [exact H0|]. split; [|tauto]. eapply hits_spec; eassumption.
  - intros (hs & b & m & ds & n & y & -> & H0 & H1 & H2 & H3). exists (hs, Dir b m). split; [now apply hits_spec|]. unfold below_hits. cbn [fst snd]. apply in_map_iff. exists (ds ++ [n]). split; [reflexivity|]. apply deep_spec; [exact HP|]. exists ds, n, y. tauto.
Qed.
Lemma files_spec dps fp ns : Forall orderly dps -> dps <> [] -> orderly fp ->
  (In ns (map fst (filter (fun h => is_file (snd h)) (hits e0 (dps ++ [fp])))) <-> exists hs b m n, ns = hs ++ [n] /\ reached l dps hs (Dir b m) /\ In (n, File) m /\ named_by fp n).
Proof.
  intros HO HD HP. rewrite in_map_iff. rewrite hits_snoc. split.
  - intros ([ns' x] & <- & H). apply filter_In in H. destruct H as [H HF]. cbn [fst snd] in *. destruct x; try discriminate HF. apply in_flat_map in H. destruct H as ([hs e] & HI & H). apply in_map_iff in H. destruct H as ([n x] & E & H). cbn [fst snd] in *. injection E as <- ->.
    apply filter_In in H. destruct H as [H HM]. cbn [fst] in HM. apply (matches_spec fp n HP) in HM. destruct e as [| |b m]; [destruct H..|]. exists hs, b, m, n. split; [reflexivity|]. split; [eapply hits_spec; eassumption|auto].
  - intros (hs & b & m & n & -> & H1 & H2 & H3). exists (hs ++ [n], File). split; [reflexivity|]. apply filter_In. split; [|reflexivity]. apply in_flat_map. exists (hs, Dir b m). split; [now apply hits_spec|]. cbn [fst snd]. apply in_map_iff. exists (n, File). split; [reflexivity|]. apply filter_In. split; [exact H2|]. now apply matches_spec.
Qed.
Lemma hits_good ps ns x : In (ns, x) (hits e0 ps) -> Forall good_name ns /\ List.length ns = List.length ps /\ wf_tree x.
Proof. intros H. destruct (hits_stat ps d e0 ns x HW HS H) as (_ & H1 & H2 & H3). auto. Qed.
Lemma below_hits_good dps fp ns : In ns (flat_map (below_hits fp) (hits e0 dps)) -> Forall good_name ns /\ (List.length dps + 1 < List.length ns)%nat.
Proof.
  intros H. apply in_flat_map in H. destruct H as ([hs x] & HI & H). destruct (hits_good _ _ _ HI) as (HG & HN & HX). unfold below_hits in H. cbn [fst snd] in H. destruct x as [| |b m]; [destruct H..|].
  apply in_map_iff in H. destruct H as (z & <- & H). unfold deep in H. apply in_flat_map in H. destruct H as ([ds y] & H1 & H2). apply in_map_iff in H2. destruct H2 as (n & <- & H2). cbn [fst snd] in *.
  apply tdirs_spec in H1. destruct H1 as [H0 H1]. cbn [entries] in H1. destruct (visited_wf _ _ _ _ H1 HX) as [HG1 HW1]. split.
  - apply Forall_app. split; [exact HG|]. apply Forall_app. split; [exact HG1|]. constructor; [|constructor]. unfold fnames in H2. apply in_map_iff in H2. destruct H2 as ([n' e'] & <- & H2). apply filter_In in H2. inversion HW1 as [| |? ? HF _]; subst. rewrite Forall_forall in HF. apply (HF _ (proj1 H2)).
  - rewrite !app_length, HN. destruct ds; [contradiction|]. cbn. lia.
Qed.
Lemma firstn_exact {A} (a b : list A) : firstn (List.length a) (a ++ b) = a.
Proof. induction a as [|x a IH]; [now destruct b|]. cbn. now rewrite IH. Qed.
Lemma all_nodup dps fp : NoDup (map fst (filter (fun h => is_file (snd h)) (hits e0 (dps ++ [fp]))) ++ flat_map (below_hits fp) (hits e0 dps)).
Proof.
  apply NoDup_app'.
  - apply NoDup_filter_map, hits_nodup, HW.
  - apply (NoDup_flat_map fst (firstn (List.length dps))); [now apply hits_nodup| |].
    + intros [hs x] HI. unfold below_hits. cbn [fst snd]. destruct x as [| |b m]; [constructor..|]. apply NoDup_map_in; [apply deep_nodup; now apply hits_good in HI|]. intros y z _ _ E. now apply app_inv_head in E.
    + intros [hs x] y HI HY. destruct (hits_good _ _ _ HI) as (_ & HN & _). unfold below_hits in HY. cbn [fst snd] in *. destruct x; [destruct HY..|]. apply in_map_iff in HY. destruct HY as (z & <- & _). rewrite <- HN. apply firstn_exact.
  - intros ns H1 H2. apply below_hits_good in H2. apply in_map_iff in H1. destruct H1 as ([ns' x] & <- & H1). apply filter_In in H1. destruct (hits_good _ _ _ (proj1 H1)) as (_ & HN & _). rewrite app_length in HN. cbn in *. lia.
Qed.
End Find.
End FS.
