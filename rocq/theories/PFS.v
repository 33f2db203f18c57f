(** * Proofs about the file system model *)

From Coq Require Import ZArith List Bool String Lia.
From Coq Require Import ZifyBool.
From Verif Require Import Py Main PBase PosixFS SpecFS.
Import ListNotations.
Open Scope string_scope.
Open Scope list_scope.
Open Scope Z_scope.

Lemma entry_ind' (P : entry -> Prop) : P File -> P Other -> (forall b l, Forall (fun x => P (snd x)) l -> P (Dir b l)) -> forall e, P e.
Proof.
  intros H1 H2 H3. fix IH 1. intros [| |b l]; [exact H1|exact H2|]. apply H3. induction l as [|[n e] l IHl]; constructor; [apply IH|exact IHl].
Qed.

(** ** Paths *)
Lemma split_app a b : split_slash (a ++ 47 :: b) = split_slash a ++ split_slash b.
Proof.
  induction a as [|c a IH]; [reflexivity|]. cbn [app split_slash]. rewrite IH. destruct (c =? 47); [reflexivity|].
  assert (HN : split_slash a <> []) by (destruct a as [|x a']; cbn; [discriminate|]; destruct (x =? 47); [discriminate|]; destruct (split_slash a'); discriminate).
  destruct (split_slash a) as [|x l]; [contradiction|reflexivity].
Qed.
Lemma split_plain n : ~ In 47 n -> split_slash n = [n].
Proof.
  induction n as [|c n IH]; [reflexivity|]. intros H. cbn [split_slash]. replace (c =? 47) with false by (symmetry; apply Z.eqb_neq; intros ->; apply H; now left).
  rewrite IH; [reflexivity|]. intros HI. apply H. now right.
Qed.
Lemma ends_spec s : ends_slash s = true <-> exists r, s = r ++ [47].
Proof.
  unfold ends_slash. split.
  - destruct (rev s) as [|c r] eqn:E; [discriminate|]. cbn. intros H. exists (rev r). rewrite <- (rev_involutive s), E. cbn. f_equal. f_equal. lia.
  - intros (r & ->). rewrite rev_app_distr. reflexivity.
Qed.
Lemma last_spec (s : pystr) : s <> [] -> (last s 0 = 47 <-> ends_slash s = true).
Proof.
  intros HN. destruct (exists_last HN) as (r & c & ->). rewrite last_last, ends_spec. split.
  - intros ->. eauto.
  - intros (r' & H). apply app_inj_tail in H. now destruct H.
Qed.
Lemma join_plain p n : p <> [] -> n <> [] -> ~ In 47 n -> path_join p n = below p n.
Proof.
  intros HP HN HS. unfold path_join, below. destruct n as [|c n]; [contradiction|].
  replace (starts_slash (c :: n)) with false by (symmetry; cbn; apply Z.eqb_neq; intros ->; apply HS; now left).
  destruct p as [|x p]; [contradiction|]. pose proof (last_spec (x :: p) HP) as HL.
  destruct (ends_slash (x :: p)) eqn:E.
  - rewrite (proj2 HL eq_refl). reflexivity.
  - assert (HX : last (x :: p) 0 <> 47) by (intros H; apply HL in H; discriminate).
    destruct (last (x :: p) 0) as [|q|]; try reflexivity. destruct q as [q|q|]; try reflexivity; do 5 (destruct q as [q|q|]; try reflexivity). contradiction.
Qed.
Lemma join_below p n : p <> [] -> good_name n -> path_join p n = below p n.
Proof. intros HP (HN & HS & _). now apply join_plain. Qed.
Lemma below_eq p n : p <> [] -> below p n = if ends_slash p then p ++ n else p ++ 47 :: n.
Proof.
  intros HP. unfold below. pose proof (last_spec p HP) as HL. destruct (ends_slash p) eqn:E.
  - rewrite (proj2 HL eq_refl). reflexivity.
  - assert (HX : last p 0 <> 47) by (intros H; apply HL in H; discriminate).
    destruct (last p 0) as [|q|]; try reflexivity. destruct q as [q|q|]; try reflexivity; do 5 (destruct q as [q|q|]; try reflexivity). contradiction.
Qed.
(** The components of a directory, without the empty one after a slash at the end. *)
Definition base (p : pystr) : list pystr := if ends_slash p then removelast (split_slash p) else split_slash p.
Lemma split_below p n : p <> [] -> ~ In 47 n -> split_slash (below p n) = base p ++ [n].
Proof.
  intros HP HN. rewrite below_eq by exact HP. unfold base. destruct (ends_slash p) eqn:E.
  - apply ends_spec in E. destruct E as (r & ->). rewrite <- app_assoc. cbn [app]. rewrite !split_app, (split_plain n) by exact HN. cbn [split_slash]. now rewrite removelast_last.
  - now rewrite split_app, (split_plain n).
Qed.
Lemma below_ends p n : p <> [] -> good_name n -> ends_slash (below p n) = false.
Proof.
  intros HP (HN & HS & _). destruct (ends_slash (below p n)) eqn:E; [|reflexivity]. exfalso. apply ends_spec in E. destruct E as (r & E).
  destruct (exists_last HN) as (m & c & ->). assert (HC : c = 47).
  { rewrite below_eq in E by exact HP. destruct (ends_slash p).
    - rewrite app_assoc in E. apply app_inj_tail in E. tauto.
    - change (p ++ 47 :: m ++ [c]) with (p ++ ([47] ++ m) ++ [c]) in E. rewrite app_assoc in E. apply app_inj_tail in E. tauto. }
  subst c. apply HS. apply in_or_app. right. now left.
Qed.
Lemma below_nonempty p n : p <> [] -> below p n <> [].
Proof. intros HP H. rewrite below_eq in H by exact HP. destruct (ends_slash p); apply app_eq_nil in H; tauto. Qed.
Lemma base_below p n : p <> [] -> good_name n -> base (below p n) = base p ++ [n].
Proof. intros HP HN. unfold base at 1. rewrite (below_ends p n HP HN). apply split_below; [exact HP|apply HN]. Qed.
Lemma under_base p ns : p <> [] -> Forall good_name ns -> base (under p ns) = base p ++ ns /\ under p ns <> [].
Proof.
  intros HP H. revert p HP. induction H as [|n ns HN HF IH]; intros p HP; [rewrite app_nil_r; auto|]. cbn [under fold_left]. fold (under (below p n) ns).
  destruct (IH (below p n) (below_nonempty p n HP)) as [H1 H2]. split; [|exact H2]. rewrite H1, base_below by assumption. now rewrite <- app_assoc.
Qed.
Lemma under_inj p ns ns' : p <> [] -> Forall good_name ns -> Forall good_name ns' -> under p ns = under p ns' -> ns = ns'.
Proof.
  intros HP H H' E. destruct (under_base p ns HP H) as [B _]. destruct (under_base p ns' HP H') as [B' _]. rewrite E, B' in B. now apply app_inv_head in B.
Qed.
Lemma under_app p a b : under p (a ++ b) = under (under p a) b.
Proof. unfold under. apply fold_left_app. Qed.

(** ** Looking up paths *)
Section FS.
Variables (root : entry) (cwd : pystr).
Lemma descend_app a b : forall e up, descend e up (a ++ b) = match descend e up a with Some (e', up') => descend e' up' b | None => None end.
Proof.
  induction a as [|c a IH]; intros e up; [reflexivity|]. cbn [app descend]. destruct e as [| |k l]; try reflexivity.
  destruct (pystr_eqb c [] || pystr_eqb c dot); [apply IH|]. destruct (pystr_eqb c dotdot); [destruct up; apply IH|]. destruct (assoc c l); [apply IH|reflexivity].
Qed.
Lemma eqb_false a b : a <> b -> pystr_eqb a b = false.
Proof. intros H. destruct (pystr_eqb a b) eqn:E; [|reflexivity]. apply pystr_eqb_spec in E. contradiction. Qed.
Lemma eqb_refl a : pystr_eqb a a = true.
Proof. now apply pystr_eqb_spec. Qed.
Lemma descend_name k l up n : good_name n -> descend (Dir k l) up [n] = match assoc n l with Some e => Some (e, Dir k l :: up) | None => None end.
Proof.
  intros (H1 & _ & H2 & H3). cbn [descend]. rewrite (eqb_false n []), (eqb_false n dot), (eqb_false n dotdot) by assumption. cbn [orb]. destruct (assoc n l); reflexivity.
Qed.
Lemma assoc_in n e l : NoDup (map fst l) -> In (n, e) l -> assoc n l = Some e.
Proof.
  induction l as [|[m x] l IH]; intros HN []; cbn [assoc]; inversion HN as [|? ? HI HN']; subst.
  - injection H as -> ->. now rewrite eqb_refl.
  - rewrite eqb_false; [auto|]. intros ->. apply HI. now apply (in_map fst) in H.
Qed.
Lemma stat_below p k l n e : stat root cwd p = Some (Dir k l) -> good_name n -> assoc n l = Some e -> stat root cwd (below p n) = Some e.
Proof.
  intros HS HG HA. assert (HP : p <> []) by (intros ->; discriminate HS). unfold stat in *.
  destruct p as [|c p]; [contradiction|]. set (q := c :: p) in *. pose proof (below_nonempty q n HP) as HB.
  assert (HF : full cwd (below q n) = below (full cwd q) n).
  { unfold full. assert (HX : starts_slash (below q n) = starts_slash q) by (rewrite below_eq by exact HP; unfold q; destruct (ends_slash (c :: p)); reflexivity).
    rewrite HX. destruct (starts_slash q); [reflexivity|]. rewrite (below_eq q) by exact HP. rewrite below_eq by (destruct cwd; discriminate).
    assert (HE : ends_slash (cwd ++ 47 :: q) = ends_slash q).
    { unfold ends_slash. rewrite rev_app_distr. cbn [rev]. rewrite <- app_assoc. destruct (rev q) eqn:E; [|reflexivity]. exfalso. apply HP. rewrite <- (rev_involutive q), E. reflexivity. }
    rewrite HE. destruct (ends_slash q); now rewrite <- app_assoc. }
  assert (HQ : full cwd q <> []) by (unfold full; destruct (starts_slash q); [exact HP|destruct cwd; discriminate]).
  destruct (below q n) as [|x r] eqn:EB; [contradiction|]. rewrite HF, split_below by (try exact HQ; apply HG). rewrite descend_app.
  assert (HD : exists up, descend root [] (base (full cwd q)) = Some (Dir k l, up)).
  { destruct (descend root [] (split_slash (full cwd q))) as [[e' up]|] eqn:ED; [|discriminate]. injection HS as ->. unfold base. destruct (ends_slash (full cwd q)) eqn:EE; [|eauto].
    apply ends_spec in EE. destruct EE as (r' & EE). rewrite EE in ED |- *. rewrite split_app in ED |- *. cbn [split_slash] in *. rewrite removelast_last. rewrite descend_app in ED.
    destruct (descend root [] (split_slash r')) as [[e1 up1]|]; [|discriminate]. cbn [descend] in ED. destruct e1; try discriminate. cbn in ED. injection ED as -> -> ->. eauto. }
  destruct HD as (up & ->). rewrite descend_name by exact HG. now rewrite HA.
Qed.
Lemma stat_in p k l n e : wf_tree (Dir k l) -> stat root cwd p = Some (Dir k l) -> In (n, e) l -> stat root cwd (below p n) = Some e /\ good_name n /\ wf_tree e.
Proof.
  intros HW HS HI. inversion HW as [| |? ? HF HN]; subst. rewrite Forall_forall in HF. destruct (HF _ HI) as [HG HE]. split; [|auto].
  eapply stat_below; [exact HS|exact HG|]. now apply assoc_in.
Qed.
Lemma stat_wf p e : wf_tree root -> stat root cwd p = Some e -> wf_tree e.
Proof.
  intros HW. unfold stat. destruct p as [|c p]; [discriminate|]. destruct (descend root [] _) as [[e' up]|] eqn:ED; [|discriminate]. intros H. injection H as <-.
  assert (HX : forall comps x up0, wf_tree x -> Forall wf_tree up0 -> forall y up1, descend x up0 comps = Some (y, up1) -> wf_tree y).
  { induction comps as [|d comps IH]; intros x up0 Hx Hu y up1; cbn [descend]; [intros H; injection H as <- _; exact Hx|].
    destruct x as [| |k l]; try discriminate. destruct (_ || _); [now apply IH|]. destruct (pystr_eqb d dotdot).
    - destruct up0 as [|z up0]; [now apply IH|]. inversion Hu; subst. now apply IH.
    - destruct (assoc d l) as [z|] eqn:EA; [|discriminate]. apply IH; [|now constructor].
      inversion Hx as [| |? ? HF _]; subst. clear -EA HF. induction HF as [|[m v] l [_ Hv] HF IHF]; [discriminate|]. cbn [assoc] in EA. destruct (pystr_eqb d m); [injection EA as <-; exact Hv|auto]. }
  eapply HX; [exact HW|constructor|exact ED].
Qed.
End FS.

(** ** Walking *)
Definition entries (e : entry) : list (pystr * entry) := match e with Dir _ l => l | _ => [] end.
Fixpoint tdirs (e : entry) : list (list pystr * list (pystr * entry)) :=
  match e with
  | Dir _ l =>
      map (fun x => ([fst x], entries (snd x))) (filter (fun x => is_dir (snd x)) l) ++
      flat_map (fun x => match x with (n, Dir false _ as e') => map (fun y => (n :: fst y, snd y)) (tdirs e') | _ => [] end) l
  | _ => []
  end.
Fixpoint tfiles (e : entry) : list (list pystr) :=
  match e with
  | Dir _ l =>
      map (fun x => [fst x]) (filter (fun x => negb (is_dir (snd x))) l) ++
      flat_map (fun x => match x with (n, Dir false _ as e') => map (cons n) (tfiles e') | _ => [] end) l
  | _ => []
  end.
Lemma flat_map_flat_map {A B C} (f : B -> list C) (g : A -> list B) l : flat_map f (flat_map g l) = flat_map (fun x => flat_map f (g x)) l.
Proof. induction l as [|x l IH]; [reflexivity|]. cbn [flat_map]. now rewrite flat_map_app, IH. Qed.
Lemma flat_map_map {A B C} (f : B -> list C) (g : A -> B) l : flat_map f (map g l) = flat_map (fun x => f (g x)) l.
Proof. induction l as [|x l IH]; [reflexivity|]. cbn [flat_map map]. now rewrite IH. Qed.
Lemma map_flat_map {A B C} (f : B -> C) (g : A -> list B) l : map f (flat_map g l) = flat_map (fun x => map f (g x)) l.
Proof. induction l as [|x l IH]; [reflexivity|]. cbn [flat_map]. now rewrite map_app, IH. Qed.
Lemma flat_map_ext_in {A B} (f g : A -> list B) l : (forall x, In x l -> f x = g x) -> flat_map f l = flat_map g l.
Proof. intros H. induction l as [|x l IH]; [reflexivity|]. cbn [flat_map]. rewrite (H x) by now left. f_equal. apply IH. intros y Hy. apply H. now right. Qed.

Lemma walk_files e : forall p, wf_tree e -> p <> [] ->
  flat_map (fun '(d, _, fs) => map (path_join d) fs) (walk_entry e p) = map (under p) (tfiles e).
Proof.
  induction e as [| |b l IH] using entry_ind'; intros p HW HP; [reflexivity|reflexivity|].
  inversion HW as [| |? ? HF HN]; subst. rewrite Forall_forall in IH, HF. cbn [walk_entry flat_map tfiles]. rewrite map_app. f_equal.
  - rewrite !map_map. apply map_ext_in. intros [n e] HI. apply filter_In in HI. destruct HI as [HI _]. cbn. apply join_below; [exact HP|apply (HF _ HI)].
  - rewrite flat_map_flat_map, map_flat_map. apply flat_map_ext_in. intros [n e] HI. destruct e as [| |[|] l']; try reflexivity.
    destruct (HF _ HI) as [HG HW']. cbn [fst snd] in *. rewrite (join_below p n HP HG). pose proof (IH _ HI (below p n) HW' (below_nonempty p n HP)) as IH'. cbn [snd] in IH'. rewrite IH', map_map. reflexivity.
Qed.
Lemma walk_dirs {A} (G : pystr -> list A) pat e : forall p, wf_tree e -> p <> [] ->
  flat_map (fun '(d, subs, _) => flat_map (fun s => G (path_join (path_join d s) pat)) subs) (walk_entry e p) =
  flat_map (fun y => G (path_join (under p (fst y)) pat)) (tdirs e).
Proof.
  induction e as [| |b l IH] using entry_ind'; intros p HW HP; [reflexivity|reflexivity|].
  inversion HW as [| |? ? HF HN]; subst. rewrite Forall_forall in IH, HF. cbn [walk_entry flat_map tdirs]. rewrite flat_map_app. f_equal.
  - rewrite !flat_map_map. apply flat_map_ext_in. intros [n e] HI. apply filter_In in HI. destruct HI as [HI _]. cbn [fst snd].
    rewrite (join_below p n HP) by apply (HF _ HI). reflexivity.
  - rewrite !flat_map_flat_map. apply flat_map_ext_in. intros [n e] HI. destruct e as [| |[|] l']; try reflexivity.
    destruct (HF _ HI) as [HG HW']. cbn [fst snd] in *. rewrite (join_below p n HP HG). pose proof (IH _ HI (below p n) HW' (below_nonempty p n HP)) as IH'. cbn [snd] in IH'. rewrite IH', flat_map_map. reflexivity.
Qed.
Lemma tfiles_spec e : forall ns, In ns (tfiles e) <->
  exists ds n m x, ns = ds ++ [n] /\ walked (entries e) ds m /\ In (n, x) m /\ is_dir x = false.
Proof.
  assert (HX : forall ns, (exists ds n m x, ns = ds ++ [n] /\ walked [] ds m /\ In (n, x) m /\ is_dir x = false) -> False).
  { intros ns (ds & n & m & x & _ & HWk & HI & _). inversion HWk; subst; contradiction. }
  induction e as [| |b l IH] using entry_ind'; intros ns; cbn [tfiles entries]; [split; [intros []|apply HX]..|].
  rewrite Forall_forall in IH. rewrite in_app_iff, in_map_iff, in_flat_map. split.
  - intros [([n e] & <- & HI)|([n e] & HI & HJ)].
    + apply filter_In in HI. cbn in HI. exists [], n, l, e. split; [reflexivity|]. split; [constructor|]. split; [apply HI|]. destruct (is_dir e); [now destruct HI|reflexivity].
    + destruct e as [| |[|] l']; try contradiction. apply in_map_iff in HJ. destruct HJ as (r & <- & HJ). apply (IH _ HI) in HJ. destruct HJ as (ds & n' & m & x & -> & HWk & HM).
      exists (n :: ds), n', m, x. split; [reflexivity|]. split; [econstructor; [exact HI|exact HWk]|exact HM].
  - intros (ds & n & m & x & -> & HWk & HI & HD). inversion HWk as [|? n0 l' ds' ? HI0 HWk']; subst.
    + left. exists (n, x). split; [reflexivity|]. apply filter_In. split; [exact HI|]. cbn. now rewrite HD.
    + right. exists (n0, Dir false l'). split; [exact HI0|]. apply in_map_iff. exists (ds' ++ [n]). split; [reflexivity|]. apply (IH _ HI0). cbn. eauto 8.
Qed.
Lemma tdirs_spec e : forall ns m, In (ns, m) (tdirs e) <-> ns <> [] /\ visited (entries e) ns m.
Proof.
  assert (HX : forall ns m, ns <> [] /\ visited [] ns m -> False).
  { intros ns m (HN & HV). inversion HV as [? ? ? H|? ? ? ? ? H HI]; subst; inversion H; subst; contradiction. }
  induction e as [| |b l IH] using entry_ind'; intros ns m; cbn [tdirs entries]; [split; [intros []|apply HX]..|].
  rewrite Forall_forall in IH. rewrite in_app_iff, in_map_iff, in_flat_map. split.
  - intros [([n e] & HE & HI)|([n e] & HI & HJ)].
    + apply filter_In in HI. cbn [fst snd] in *. injection HE as <- <-. destruct HI as [HI HD]. destruct e as [| |b' l']; try discriminate HD. split; [discriminate|]. cbn [entries].
      destruct b'; [change [n] with ([] ++ [n]); eapply visited_link; [constructor|exact HI]|apply visited_walked; econstructor; [exact HI|constructor]].
    + destruct e as [| |[|] l']; try contradiction. apply in_map_iff in HJ. destruct HJ as ([r m'] & HE & HJ). cbn [fst snd] in HE. injection HE as <- <-. apply (IH _ HI) in HJ. cbn [snd entries] in HJ.
      split; [discriminate|]. destruct HJ as [_ HV]. inversion HV as [? ? ? H|? ds ? ? ? H HI']; subst.
      * apply visited_walked. econstructor; [exact HI|exact H].
      * change (n :: ds ++ [n0]) with ((n :: ds) ++ [n0]). eapply visited_link; [econstructor; [exact HI|exact H]|exact HI'].
  - intros (HN & HV).
    assert (HB : forall n l' r, In (n, Dir false l') l -> visited l' r m -> ns = n :: r ->
              (exists x, ([fst x], entries (snd x)) = (ns, m) /\ In x (filter (fun x => is_dir (snd x)) l)) \/
              (exists x, In x l /\ In (ns, m) (match x with (n, Dir false _ as e') => map (fun y => (n :: fst y, snd y)) (tdirs e') | _ => [] end))).
    { intros n l' r HI HV' ->. destruct r as [|n' r].
      - left. exists (n, Dir false l'). split; [|apply filter_In; split; [exact HI|reflexivity]]. cbn. f_equal. inversion HV' as [? ? ? H|? ds ? ? ? H HI' HQ]; subst; [now inversion H|]. now destruct ds.
      - right. exists (n, Dir false l'). split; [exact HI|]. apply in_map_iff. exists (n' :: r, m). split; [reflexivity|]. apply (IH _ HI). split; [discriminate|exact HV']. }
    inversion HV as [? ? ? H|? ds l1 n1 ? H HI']; subst.
    + inversion H as [|? n l' r ? HI H']; subst; [contradiction|]. eapply HB; [exact HI|apply visited_walked; exact H'|reflexivity].
    + inversion H as [|? n l' r ? HI H']; subst.
      * left. exists (n1, Dir true m). split; [reflexivity|]. apply filter_In. split; [exact HI'|reflexivity].
      * cbn [app] in *. eapply HB; [exact HI|eapply visited_link; [exact H'|exact HI']|reflexivity].
Qed.

(** ** No path twice *)
Lemma NoDup_app' {A} (a b : list A) : NoDup a -> NoDup b -> (forall x, In x a -> In x b -> False) -> NoDup (a ++ b).
Proof.
  induction a as [|x a IH]; [auto|]. intros HA HB H. inversion HA; subst. cbn. constructor.
  - rewrite in_app_iff. intros [HI|HI]; [contradiction|]. apply (H x); [now left|exact HI].
  - apply IH; auto. intros y Hy. apply H. now right.
Qed.
Lemma NoDup_flat_map {A B K} (key : A -> K) (g : B -> K) (f : A -> list B) l :
  NoDup (map key l) -> (forall x, In x l -> NoDup (f x)) -> (forall x y, In x l -> In y (f x) -> g y = key x) -> NoDup (flat_map f l).
Proof.
  induction l as [|x l IH]; intros HN HF HK; [constructor|]. cbn [flat_map]. inversion HN as [|? ? HI HN']; subst. apply NoDup_app'.
  - apply HF. now left.
  - apply IH; [exact HN'| |]; intros; [apply HF|eapply HK]; try (right; eassumption); eassumption.
  - intros y H1 H2. apply in_flat_map in H2. destruct H2 as (z & Hz & H2). apply HI. rewrite <- (HK x y) by (try (now left); exact H1). rewrite (HK z y) by (try (now right); exact H2). now apply in_map.
Qed.
Lemma NoDup_map_in {A B} (f : A -> B) l : NoDup l -> (forall x y, In x l -> In y l -> f x = f y -> x = y) -> NoDup (map f l).
Proof.
  induction l as [|x l IH]; intros HN HI; [constructor|]. inversion HN; subst. cbn. constructor.
  - intros HM. apply in_map_iff in HM. destruct HM as (y & E & Hy). apply HI in E; [subst; contradiction|now right|now left].
  - apply IH; [assumption|]. intros y z Hy Hz. apply HI; now right.
Qed.
Lemma NoDup_filter_map {A B} (f : A -> B) (P : A -> bool) l : NoDup (map f l) -> NoDup (map f (filter P l)).
Proof.
  induction l as [|x l IH]; intros HN; [constructor|]. inversion HN as [|? ? HI HN']; subst. cbn [filter]. destruct (P x); [|auto]. cbn. constructor; [|auto].
  intros HM. apply HI. apply in_map_iff in HM. destruct HM as (y & E & Hy). apply filter_In in Hy. rewrite <- E. now apply in_map.
Qed.
Lemma tfiles_nodup e : wf_tree e -> NoDup (tfiles e).
Proof.
  induction e as [| |b l IH] using entry_ind'; intros HW; try constructor. inversion HW as [| |? ? HF HN]; subst. rewrite Forall_forall in IH, HF. cbn [tfiles]. apply NoDup_app'.
  - apply (NoDup_filter_map fst (fun x => negb (is_dir (snd x)))) in HN. rewrite <- (map_map fst (fun n => [n])). apply NoDup_map_in; [exact HN|]. intros x y _ _ E. now injection E.
  - apply (NoDup_flat_map fst (hd [])); [exact HN| |].
    + intros [n e] HI. destruct e as [| |[|] l']; try constructor. apply NoDup_map_in; [apply (IH _ HI), (HF _ HI)|]. intros x y _ _ E. now injection E.
    + intros [n e] y HI HY. destruct e as [| |[|] l']; try contradiction. apply in_map_iff in HY. destruct HY as (r & <- & _). reflexivity.
  - intros ns H1 H2. apply in_map_iff in H1. destruct H1 as ([n e] & <- & _). apply in_flat_map in H2. destruct H2 as ([n' e'] & _ & H2). destruct e' as [| |[|] l']; try contradiction.
    apply in_map_iff in H2. destruct H2 as (r & E & HR). injection E as _ ->. apply tfiles_spec in HR. destruct HR as (ds & ? & ? & ? & E & _). destruct ds; discriminate E.
Qed.
Lemma tdirs_nodup e : wf_tree e -> NoDup (map fst (tdirs e)).
Proof.
  induction e as [| |b l IH] using entry_ind'; intros HW; try constructor. inversion HW as [| |? ? HF HN]; subst. rewrite Forall_forall in IH, HF. cbn [tdirs]. rewrite map_app. apply NoDup_app'.
  - rewrite map_map. cbn [fst]. apply (NoDup_filter_map fst (fun x => is_dir (snd x))) in HN. rewrite <- (map_map fst (fun n => [n])). apply NoDup_map_in; [exact HN|]. intros x y _ _ E. now injection E.
  - rewrite map_flat_map. apply (NoDup_flat_map fst (hd [])); [exact HN| |].
    + intros [n e] HI. destruct e as [| |[|] l']; try constructor. rewrite map_map. cbn [fst]. rewrite <- (map_map fst (cons n)). apply NoDup_map_in; [apply (IH _ HI), (HF _ HI)|]. intros x y _ _ E. now injection E.
    + intros [n e] y HI HY. destruct e as [| |[|] l']; try contradiction. rewrite map_map in HY. apply in_map_iff in HY. destruct HY as (r & <- & _). reflexivity.
  - intros ns H1 H2. rewrite map_map in H1. apply in_map_iff in H1. destruct H1 as ([n e] & <- & _). rewrite map_flat_map in H2. apply in_flat_map in H2. destruct H2 as ([n' e'] & _ & H2). destruct e' as [| |[|] l']; try contradiction.
    rewrite map_map in H2. apply in_map_iff in H2. destruct H2 as ([r m] & E & HR). cbn in E. injection E as _ ->. apply tdirs_spec in HR. now destruct HR.
Qed.

(** ** Names on the way are good *)
Lemma walked_wf l ds m : walked l ds m -> forall b, wf_tree (Dir b l) -> Forall good_name ds /\ wf_tree (Dir false m).
Proof.
  induction 1 as [l|l n l' ds m HI HWk IH]; intros b HW; inversion HW as [| |? ? HF HN]; subst.
  - split; [constructor|now constructor].
  - rewrite Forall_forall in HF. destruct (HF _ HI) as [HG HW']. destruct (IH _ HW') as [HD HM]. split; [now constructor|exact HM].
Qed.
Lemma visited_wf l ds m b : visited l ds m -> wf_tree (Dir b l) -> Forall good_name ds /\ wf_tree (Dir false m).
Proof.
  intros HV HW. inversion HV as [? ? ? H|? ds' l1 n ? H HI]; subst; [eapply walked_wf; eassumption|].
  destruct (walked_wf _ _ _ H _ HW) as [HD HM]. inversion HM as [| |? ? HF HN]; subst. rewrite Forall_forall in HF. destruct (HF _ HI) as [HG HW']. cbn in *.
  split; [apply Forall_app; auto|]. inversion HW'; subst. now constructor.
Qed.

(** ** File name expressions *)
Lemma star_spec p s : tok_match (TStar :: p) s = true <-> exists a b, s = a ++ b /\ tok_match p b = true.
Proof.
  induction s as [|c s IH]; cbn [tok_match].
  - rewrite orb_false_r. split; [intros H; exists [], []; auto|]. intros (a & b & E & H). symmetry in E. apply app_eq_nil in E. now destruct E as [-> ->].
  - rewrite orb_true_iff. split.
    + intros [H|H]; [exists [], (c :: s); auto|]. apply IH in H. destruct H as (a & b & -> & H). exists (c :: a), b. auto.
    + intros ([|x a] & b & E & H); cbn in E; [subst b; now left|]. injection E as -> ->. right. apply IH. eauto.
Qed.
Lemma orderly_app a b : orderly (a ++ b) -> orderly b.
Proof. intros H c x y r ->. apply (H (a ++ c) x y r). now rewrite <- app_assoc. Qed.
Lemma orderly_tl c b : orderly (c :: b) -> orderly b.
Proof. apply (orderly_app [c]). Qed.
Lemma to_bracket_spec s a b : to_bracket s = Some (a, b) <-> s = a ++ 93 :: b /\ ~ In 93 a.
Proof.
  revert a b. induction s as [|c s IH]; intros a b; cbn [to_bracket].
  - split; [discriminate|]. intros [E _]. destruct a; discriminate E.
  - destruct (Z.eqb_spec c 93) as [->|HN].
    + split; [intros H; injection H as <- <-; auto|]. intros [E HI]. destruct a as [|x a]; injection E; [now intros ->|]. intros _ <-. exfalso. apply HI. now left.
    + split.
      * destruct (to_bracket s) as [[a' b']|]; [|discriminate]. intros H. injection H as <- <-. destruct (proj1 (IH a' b') eq_refl) as [-> HI]. split; [reflexivity|]. intros [E|E]; [now apply HN|now apply HI].
      * intros [E HI]. destruct a as [|x a]; injection E; [intros; congruence|]. intros -> <-. rewrite (proj2 (IH a b)); [reflexivity|]. split; [reflexivity|]. intros H. apply HI. now right.
Qed.
Lemma set_body_spec s a b : set_body s = Some (a, b) <-> s = a ++ 93 :: b /\ class a.
Proof.
  unfold class. destruct s as [|c s].
  { cbn. split; [discriminate|]. intros [E _]. destruct a; discriminate E. }
  assert (HS : set_body (c :: s) = if c =? 93 then match to_bracket s with Some (a, b) => Some (93 :: a, b) | None => None end else to_bracket (c :: s)).
  { destruct (Z.eqb_spec c 93) as [->|HN]; [reflexivity|]. unfold set_body. destruct c as [|q|]; try reflexivity. do 7 (destruct q as [q|q|]; try reflexivity; try contradiction). }
  rewrite HS. destruct (Z.eqb_spec c 93) as [->|HN].
  - split.
    + destruct (to_bracket s) as [[a' b']|] eqn:E; [|discriminate]. apply to_bracket_spec in E. destruct E as [-> HI]. intros H. injection H as <- <-. repeat split; [discriminate|exact HI].
    + intros (E & HA & HI). destruct a as [|x a]; [contradiction|]. injection E as <- ->. rewrite (proj2 (to_bracket_spec _ a b)); [reflexivity|auto].
  - rewrite to_bracket_spec. split.
    + intros [E HI]. split; [exact E|]. destruct a as [|x a]; [injection E; intros; congruence|]. split; [discriminate|]. intros H. apply HI. now right.
    + intros (E & HA & HI). split; [exact E|]. destruct a as [|x a]; [contradiction|]. injection E as <- ->. intros [H|H]; [now apply HN|now apply HI].
Qed.
Lemma ranges_step n x y z r : ranges (S n) (x :: y :: z :: r) = if y =? 45 then (x, z) :: ranges n r else (x, x) :: ranges n (y :: z :: r).
Proof. destruct (Z.eqb_spec y 45) as [->|HN]; [reflexivity|]. cbn [ranges]. destruct y as [|q|]; try reflexivity. do 6 (destruct q as [q|q|]; try reflexivity; try contradiction). Qed.
Lemma ranges_short n x y : ranges (S n) [x; y] = (x, x) :: ranges n [y].
Proof. cbn [ranges]. destruct y as [|q|]; try reflexivity. do 6 (destruct q as [q|q|]; try reflexivity). Qed.
Definition in_set (c : Z) (l : list (Z * Z)) : bool := existsb (fun '(a, b) => (a <=? c) && (c <=? b)) l.
Lemma ranges_spec n : forall b c, (List.length b <= n)%nat -> (in_set c (ranges n b) = true <-> member b c).
Proof.
  induction n as [|n IH]; intros b c HL.
  - destruct b; [|cbn in HL; lia]. cbn. split; [discriminate|intros H; inversion H].
  - destruct b as [|x [|y [|z r]]].
    + cbn. split; [discriminate|intros H; inversion H].
    + cbn. destruct n; cbn; rewrite ?orb_false_r; (split; [intros H; replace x with c by lia; apply member_char; discriminate|intros H; inversion H; subst; [lia|match goal with K : member [] _ |- _ => inversion K end]]).
    + rewrite ranges_short. cbn [in_set existsb]. change (existsb _ (ranges n [y])) with (in_set c (ranges n [y])). rewrite orb_true_iff, IH by (cbn in *; lia). split.
      * intros [H|H]; [replace x with c by lia; apply member_char; discriminate|apply member_next; [discriminate|exact H]].
      * intros H. inversion H; subst; [left; lia|now right].
    + rewrite ranges_step. destruct (Z.eqb_spec y 45) as [->|HN]; cbn [in_set existsb].
      * change (existsb _ (ranges n r)) with (in_set c (ranges n r)). rewrite orb_true_iff, IH by (cbn in *; lia). split.
        -- intros [H|H]; [apply member_range; lia|now apply member_after].
        -- intros H. inversion H as [? ? ? ? HX|? ? ? ? HX|? ? HX|? ? ? HX _]; subst; [left; lia|now right|exfalso; eapply HX; reflexivity..].
      * change (existsb _ (ranges n _)) with (in_set c (ranges n (y :: z :: r))). rewrite orb_true_iff, IH by (cbn in *; lia). split.
        -- intros [H|H]; [replace x with c by lia; apply member_char|apply member_next; [|exact H]]; intros ? ? E; injection E; intros; congruence.
        -- intros H. inversion H as [? ? ? ? HX|? ? ? ? HX|? ? HX|? ? ? HX HY]; subst; [contradiction..|left; lia|now right].
Qed.
Lemma set_tok_spec s : (forall x y r, s = x :: 45 :: y :: r -> x <= y) -> hd 0 s <> 33 -> set_tok s = TSet false (ranges (List.length s) s).
Proof.
  intros HO H33. assert (HD : drop_empty (List.length s) s = s).
  { destruct s as [|x [|y [|z r]]]; try reflexivity.
    - cbn. destruct y as [|q|]; try reflexivity. do 6 (destruct q as [q|q|]; try reflexivity).
    - destruct (Z.eqb_spec y 45) as [->|HN]; [cbn [List.length drop_empty]; specialize (HO x z r eq_refl); replace (z <? x) with false by lia; reflexivity|].
      cbn [List.length drop_empty]. destruct y as [|q|]; try reflexivity. do 6 (destruct q as [q|q|]; try reflexivity; try contradiction). }
  unfold set_tok. rewrite HD. destruct s as [|c s]; [reflexivity|]. cbn in H33. destruct c as [|q|]; try reflexivity. do 6 (destruct q as [q|q|]; try reflexivity; try contradiction).
Qed.

(** The step at a "[" *)
Lemma tokens_set n r : tokens (S n) (91 :: r) =
  match r with
  | 33 :: q => match set_body q with Some (b, rest) => TSet true (ranges (List.length b) b) :: tokens n rest | None => TChar 91 :: tokens n r end
  | _ => match set_body r with Some (b, rest) => set_tok b :: tokens n rest | None => TChar 91 :: tokens n r end
  end.
Proof. cbn [tokens]. destruct r as [|c r]; [reflexivity|]. destruct c as [|q|]; try reflexivity. do 6 (destruct q as [q|q|]; try reflexivity). Qed.
Lemma class_unique b1 q1 b2 q2 : class b1 -> class b2 -> b1 ++ 93 :: q1 = b2 ++ 93 :: q2 -> b1 = b2 /\ q1 = q2.
Proof.
  intros H1 H2 E. assert (E1 : set_body (b1 ++ 93 :: q1) = Some (b1, q1)) by now apply set_body_spec. assert (E2 : set_body (b1 ++ 93 :: q1) = Some (b2, q2)) by now apply set_body_spec.
  rewrite E1 in E2. now injection E2.
Qed.
Lemma tokens_wild n : forall pat s, (List.length pat <= n)%nat -> orderly pat -> (tok_match (tokens n pat) s = true <-> wild pat s).
Proof.
  induction n as [|n IH]; intros pat s HL HO.
  - destruct pat; [|cbn in HL; lia]. destruct s; cbn; split; intros H; try discriminate; try constructor; inversion H.
  - destruct pat as [|c pat]; [destruct s; cbn; split; intros H; try discriminate; try constructor; inversion H|]. cbn [List.length] in HL.
    assert (HI : forall s, tok_match (tokens n pat) s = true <-> wild pat s) by (intros; apply IH; [lia|now apply orderly_tl in HO]).
    destruct (Z.eqb_spec c 91) as [->|H91].
    { rewrite tokens_set.
      assert (HB : (forall b q, class b -> pat <> 33 :: b ++ 93 :: q) -> (forall b q, class b -> hd 0 b <> 33 -> pat <> b ++ 93 :: q) ->
                   (tok_match (TChar 91 :: tokens n pat) s = true <-> wild (91 :: pat) s)).
      { intros HN1 HN2. cbn [tok_match]. destruct s as [|x s]; [split; [discriminate|intros H; inversion H]|]. cbn [tok_char]. rewrite andb_true_iff, HI. split.
        - intros [H1 H2]. replace x with 91 by lia. now constructor.
        - intros H. inversion H; subst; try congruence; [exfalso; eapply HN2; [eassumption..|reflexivity]|exfalso; eapply HN1; [eassumption|reflexivity]|]. split; [reflexivity|assumption]. }
      assert (HC33 : (exists q, pat = 33 :: q) \/ hd 0 pat <> 33) by (destruct pat as [|y q]; [right; discriminate|]; destruct (Z.eq_dec y 33) as [->|]; [left; eauto|right; assumption]).
      destruct HC33 as [[q ->]|H33].
      - destruct (set_body q) as [[b rest]|] eqn:EB.
        + apply set_body_spec in EB. destruct EB as [-> HB1]. cbn [tok_match]. destruct s as [|x s]; [split; [discriminate|intros H; inversion H]|]. cbn [tok_char]. fold (in_set x (ranges (List.length b) b)).
          rewrite andb_true_iff. rewrite (IH rest s); [|cbn in HL; rewrite app_length in HL; cbn in HL; lia|apply (orderly_app (91 :: 33 :: b ++ [93])); cbn; now rewrite <- app_assoc].
          pose proof (ranges_spec (List.length b) b x (le_n _)) as HM. split.
          * intros [H1 H2]. apply wild_negated; [exact HB1| |exact H2]. intros K. apply HM in K. rewrite K in H1. discriminate.
          * intros H. inversion H as [| | | |b' p ? ? HB' H33' HM' HW' E E0|b' p ? ? HB' HM' HW' E E0|p ? HN1 HN2 HW' E E0]; subst; try congruence.
            -- exfalso. destruct b' as [|y b']; [now destruct HB'|]. injection E as -> _. now apply H33'.
            -- destruct (class_unique _ _ _ _ HB' HB1 E) as [-> ->]. split; [|assumption]. destruct (in_set x _); [exfalso; now apply HM', HM|reflexivity].
            -- exfalso. eapply HN1; [exact HB1|reflexivity].
        + apply HB.
          * intros b r Hb E. injection E as ->. rewrite (proj2 (set_body_spec _ b r)) in EB; [discriminate|auto].
          * intros b r Hb Hh E. destruct b as [|y b]; [now destruct Hb|]. injection E as <- _. now apply Hh.
      - assert (HM : match pat with
          | 33 :: q => match set_body q with Some (b, rest) => TSet true (ranges (List.length b) b) :: tokens n rest | None => TChar 91 :: tokens n pat end
          | _ => match set_body pat with Some (b, rest) => set_tok b :: tokens n rest | None => TChar 91 :: tokens n pat end
          end = match set_body pat with Some (b, rest) => set_tok b :: tokens n rest | None => TChar 91 :: tokens n pat end).
        { destruct pat as [|y q]; [reflexivity|]. cbn in H33. destruct y as [|u|]; try reflexivity. do 6 (destruct u as [u|u|]; try reflexivity; try contradiction). }
        rewrite HM. clear HM. destruct (set_body pat) as [[b rest]|] eqn:EB.
        + apply set_body_spec in EB. destruct EB as [-> HB1]. assert (Hh : hd 0 b <> 33) by (destruct b; [now destruct HB1|exact H33]).
          rewrite set_tok_spec; [|intros x y r ->; apply (HO [] x y (r ++ 93 :: rest)); reflexivity|exact Hh]. cbn [tok_match]. destruct s as [|x s]; [split; [discriminate|intros H; inversion H]|]. cbn [tok_char]. fold (in_set x (ranges (List.length b) b)).
          rewrite xorb_false_l, andb_true_iff. rewrite (IH rest s); [|rewrite app_length in HL; cbn in HL; lia|apply (orderly_app (91 :: b ++ [93])); cbn; now rewrite <- app_assoc].
          rewrite (ranges_spec (List.length b) b x (le_n _)). split.
          * intros [H1 H2]. now apply wild_class.
          * intros H. inversion H as [| | | |b' p ? ? HB' H33' HM' HW' E E0|b' p ? ? HB' HM' HW' E E0|p ? HN1 HN2 HW' E E0]; subst; try congruence.
            -- destruct (class_unique _ _ _ _ HB' HB1 E) as [-> ->]. auto.
            -- exfalso. apply H33. now rewrite <- E.
            -- exfalso. eapply HN2; [exact HB1|exact Hh|reflexivity].
        + apply HB.
          * intros b r Hb ->. now apply H33.
          * intros b r Hb Hh ->. rewrite (proj2 (set_body_spec _ b r)) in EB; [discriminate|auto]. }
    assert (HC : tokens (S n) (c :: pat) = (if c =? 42 then TStar else if c =? 63 then TAny else TChar c) :: tokens n pat).
    { destruct (c =? 42) eqn:E1; [replace c with 42 by lia; reflexivity|]. destruct (c =? 63) eqn:E2; [replace c with 63 by lia; reflexivity|].
      apply Z.eqb_neq in E1, E2. clear -E1 E2 H91. cbn [tokens]. destruct c as [|q|]; try reflexivity. do 7 (destruct q as [q|q|]; try reflexivity; try contradiction). }
    rewrite HC. destruct (c =? 42) eqn:E1; [|destruct (c =? 63) eqn:E2].
    + replace c with 42 by lia. rewrite star_spec. split.
      * intros (a & b & -> & H). apply HI in H. now constructor.
      * intros H. inversion H; subst; [|contradiction]. do 2 eexists. split; [reflexivity|now apply HI].
    + replace c with 63 by lia. cbn [tok_match]. destruct s as [|x s]; [split; [discriminate|intros H; inversion H]|]. cbn [tok_char andb]. rewrite HI. split; [now constructor|].
      intros H. inversion H; subst; [assumption|contradiction].
    + apply Z.eqb_neq in E1, E2. cbn [tok_match]. destruct s as [|x s]; [split; [discriminate|intros H; inversion H; subst; congruence]|]. cbn [tok_char]. rewrite andb_true_iff, HI. split.
      * intros [H1 H2]. replace x with c by lia. now constructor.
      * intros H. inversion H; subst; try congruence. split; [lia|assumption].
Qed.
Lemma fnmatch_wild pat s : orderly pat -> (fnmatch pat s = true <-> wild pat s).
Proof. intros H. apply tokens_wild; [lia|exact H]. Qed.
Definition matches (pat n : pystr) : bool := fnmatch pat n && (ishidden pat || negb (ishidden n)).
Lemma hd_hidden s : ishidden s = true <-> hd 0 s = 46.
Proof. destruct s; cbn; lia. Qed.
Lemma matches_spec pat n : orderly pat -> (matches pat n = true <-> named_by pat n).
Proof.
  intros H. unfold matches, named_by. rewrite andb_true_iff, (fnmatch_wild pat n H), orb_true_iff, negb_true_iff. rewrite <- !hd_hidden.
  destruct (ishidden pat), (ishidden n); intuition congruence.
Qed.
Lemma magic_spec s : has_magic s = false <-> literal s.
Proof.
  unfold has_magic, literal. split.
  - intros H. repeat split; intros HI; assert (HX : existsb (fun c => (c =? 42) || (c =? 63) || (c =? 91)) s = true) by (apply existsb_exists; eexists; split; [exact HI|reflexivity]); congruence.
  - intros (H1 & H2 & H3). destruct (existsb _ s) eqn:E; [|reflexivity]. apply existsb_exists in E. destruct E as (c & HI & HC).
    assert (c = 42 \/ c = 63 \/ c = 91) as [-> | [-> | ->]] by lia; contradiction.
Qed.
Lemma wildcard_spec s : hasWildcard s = true <-> In 42 s.
Proof. unfold hasWildcard. rewrite existsb_exists. split; [intros (c & HI & H); now replace 42 with c by lia|intros H; exists 42; auto]. Qed.
Lemma wildcard_false s : ~ In 42 s -> hasWildcard s = false.
Proof. intros H. destruct (hasWildcard s) eqn:E; [|reflexivity]. apply wildcard_spec in E. contradiction. Qed.

(** ** Splitting *)
(** A directory without a slash at the end, or the root. *)
Definition tidy (d : pystr) : Prop := d <> [] /\ (last d 0 <> 47 \/ d = [47]).
Lemma rcut_plain n : ~ In 47 n -> rcut n = ([], n).
Proof.
  induction n as [|c n IH]; [reflexivity|]. intros H. cbn [rcut]. rewrite IH by (intros ?; apply H; now right).
  now replace (c =? 47) with false by (symmetry; apply Z.eqb_neq; intros ->; apply H; now left).
Qed.
Lemma rcut_app a n : ~ In 47 n -> rcut (a ++ 47 :: n) = (a ++ [47], n).
Proof.
  intros H. induction a as [|c a IH]; cbn [app rcut]; [now rewrite rcut_plain|]. rewrite IH. now destruct a.
Qed.
Lemma drop_head c s : c <> 47 -> drop_slashes (c :: s) = c :: s.
Proof. intros H. cbn. now replace (c =? 47) with false by (symmetry; now apply Z.eqb_neq). Qed.
Lemma split_tidy d n : tidy d -> ~ In 47 n -> path_split (below d n) = (d, n).
Proof.
  intros (HD & HT) HN. rewrite below_eq by exact HD. unfold path_split. destruct HT as [HT| ->].
  - assert (HE : ends_slash d = false) by (destruct (ends_slash d) eqn:E; [apply (last_spec d HD) in E; contradiction|reflexivity]).
    rewrite HE, rcut_app by exact HN. destruct (exists_last HD) as (r & c & ->). rewrite last_last in HT.
    replace (forallb (Z.eqb 47) ((r ++ [c]) ++ [47])) with false.
    + unfold rstrip_slash. rewrite !rev_app_distr. cbn [rev app]. change (drop_slashes (47 :: c :: rev r)) with (drop_slashes (c :: rev r)). rewrite drop_head by exact HT. cbn [rev]. now rewrite rev_involutive.
    + symmetry. rewrite !forallb_app. cbn [forallb]. replace (47 =? c) with false by (symmetry; apply Z.eqb_neq; congruence). cbn [andb]. rewrite ?andb_false_r. reflexivity.
  - change (ends_slash [47]) with true. cbv iota. pose proof (rcut_app [] n HN) as HR. cbn [app] in HR |- *. rewrite HR. reflexivity.
Qed.
Lemma tidy_below d n : d <> [] -> good_name n -> tidy (below d n).
Proof.
  intros HD HN. split; [now apply below_nonempty|]. left. intros H. apply last_spec in H; [|now apply below_nonempty]. rewrite below_ends in H by assumption. discriminate.
Qed.
Lemma tidy_under d ns : tidy d -> Forall good_name ns -> tidy (under d ns).
Proof. intros HD H. revert d HD. induction H as [|n ns HN HF IH]; intros d HD; [exact HD|]. cbn. apply IH, tidy_below; [apply HD|exact HN]. Qed.
Lemma in_below c d n : d <> [] -> c <> 47 -> (In c (below d n) <-> In c d \/ In c n).
Proof. intros HD HC. rewrite below_eq by exact HD. destruct (ends_slash d); rewrite in_app_iff; [reflexivity|]. cbn. intuition congruence. Qed.
Lemma literal_under d ns : d <> [] -> literal d -> Forall literal ns -> literal (under d ns).
Proof.
  intros HD HL H. revert d HD HL. induction H as [|n ns HN HF IH]; intros d HD HL; [exact HL|]. cbn. apply IH; [now apply below_nonempty|].
  destruct HL as (A & B & C), HN as (A' & B' & C'). repeat split; rewrite in_below by (try exact HD; discriminate); tauto.
Qed.
Lemma pat_good pat : In 42 pat -> ~ In 47 pat -> good_name pat.
Proof. intros H1 H2. repeat split; [intros ->; contradiction|exact H2|intros ->; cbn in H1; lia|intros ->; cbn in H1; lia]. Qed.

(** ** Searching *)
Section Search.
Variables (root : entry) (cwd : pystr).
Notation F := (posix root cwd).
Notation st := (stat root cwd).
Definition fnames (pat : pystr) (l : list (pystr * entry)) : list pystr :=
  map fst (filter (fun x => match snd x with File => matches pat (fst x) | _ => false end) l).
Lemma filter_filter {A} (f g : A -> bool) l : filter f (filter g l) = filter (fun x => g x && f x) l.
Proof. induction l as [|x l IH]; [reflexivity|]. cbn [filter]. destruct (g x); cbn [filter andb]; [destruct (f x)|]; now rewrite IH. Qed.
Lemma filter_map {A B} (f : B -> bool) (g : A -> B) l : filter f (map g l) = map g (filter (fun x => f (g x)) l).
Proof. induction l as [|x l IH]; [reflexivity|]. cbn [filter map]. destruct (f (g x)); cbn [map]; now rewrite IH. Qed.
Lemma filter_all {A} (f : A -> bool) l : (forall x, In x l -> f x = true) -> filter f l = l.
Proof. induction l as [|x l IH]; intros H; [reflexivity|]. cbn. rewrite (H x) by now left. f_equal. apply IH. intros y Hy. apply H. now right. Qed.
Lemma filter_ext_in' {A} (f g : A -> bool) l : (forall x, In x l -> f x = g x) -> filter f l = filter g l.
Proof. induction l as [|x l IH]; intros H; [reflexivity|]. cbn. rewrite (H x) by now left. rewrite IH by (intros y Hy; apply H; now right). reflexivity. Qed.
Lemma glob1_at d k l pat : d <> [] -> st d = Some (Dir k l) -> glob1 root cwd d pat false = filter (matches pat) (map fst l).
Proof.
  intros HD HS. unfold glob1, listing. destruct d as [|c d]; [contradiction|]. rewrite HS. cbn [negb orb]. rewrite (filter_all (fun _ => true)) by auto.
  unfold matches. destruct (ishidden pat); [apply filter_ext_in'; intros; cbn; now rewrite andb_true_r|].
  rewrite filter_filter. apply filter_ext_in'. intros. cbn. apply andb_comm.
Qed.
Lemma glob_at d k l pat : tidy d -> literal d -> st d = Some (Dir k l) -> In 42 pat -> ~ In 47 pat ->
  path_glob root cwd (below d pat) = map (path_join d) (filter (matches pat) (map fst l)).
Proof.
  intros HT HL HS HP HN. unfold path_glob. cbn [iglob]. rewrite split_tidy by assumption.
  replace (has_magic (below d pat)) with true.
  - cbn [negb]. destruct d as [|c d]; [now destruct HT|]. set (q := c :: d) in *. rewrite (proj2 (magic_spec q) HL). cbn [andb flat_map]. rewrite app_nil_r.
    replace (has_magic pat) with true.
    + f_equal. eapply glob1_at; [apply HT|exact HS].
    + symmetry. apply existsb_exists. exists 42. auto.
  - symmetry. apply existsb_exists. exists 42. split; [|reflexivity]. rewrite in_below by (try apply HT; discriminate). now right.
Qed.
Lemma getFiles_at d k l pat : wf_tree (Dir k l) -> tidy d -> literal d -> st d = Some (Dir k l) -> In 42 pat -> ~ In 47 pat ->
  getFiles F (below d pat) = map (below d) (fnames pat l).
Proof.
  intros HW HT HL HS HP HN. unfold getFiles. cbn [globf isfile posix]. rewrite (glob_at d k l pat) by assumption.
  rewrite filter_map. unfold fnames. rewrite filter_map with (g := fst), !filter_map with (g := fst).
  rewrite map_map. rewrite filter_filter. inversion HW as [| |? ? HF _]; subst. rewrite Forall_forall in HF.
  assert (HX : forall x, In x l -> path_join d (fst x) = below d (fst x)) by (intros x HI; apply join_below; [apply HT|apply (HF _ HI)]).
  rewrite map_map. erewrite filter_ext_in'; [apply map_ext_in; intros x HI; apply filter_In in HI; now apply HX|].
  intros [n e] HI. cbn [fst snd]. rewrite (HX _ HI : path_join d n = below d n). unfold path_isfile.
  destruct (stat_in root cwd d k l n e HW HS HI) as (-> & _ & _). destruct e; [now rewrite andb_true_r|now rewrite andb_false_r..].
Qed.
Lemma fnames_spec pat l n : orderly pat -> (In n (fnames pat l) <-> In (n, File) l /\ named_by pat n).
Proof.
  intros HB. unfold fnames. rewrite in_map_iff. split.
  - intros ([m e] & <- & H). apply filter_In in H. cbn [fst snd] in *. destruct e; try (now destruct H). rewrite (matches_spec pat m HB) in H. exact H.
  - intros [HI HM]. exists (n, File). split; [reflexivity|]. apply filter_In. cbn. now rewrite (matches_spec pat n HB).
Qed.
(** Entries reached by names *)
Lemma stat_walked l ds m : walked l ds m -> forall p k, wf_tree (Dir k l) -> st p = Some (Dir k l) -> exists k', st (under p ds) = Some (Dir k' m) /\ wf_tree (Dir k' m).
Proof.
  induction 1 as [l|l n l' ds m HI HWk IH]; intros p k HW HS; [exists k; auto|].
  destruct (stat_in root cwd p k l n _ HW HS HI) as (HS' & HG & HW'). cbn [under fold_left]. now apply (IH _ false).
Qed.
Lemma stat_visited l ds m p k : visited l ds m -> wf_tree (Dir k l) -> st p = Some (Dir k l) -> exists k', st (under p ds) = Some (Dir k' m) /\ wf_tree (Dir k' m).
Proof.
  intros HV HW HS. inversion HV as [? ? ? H|? ds' l1 n ? H HI]; subst; [eapply stat_walked; eassumption|].
  destruct (stat_walked _ _ _ H _ _ HW HS) as (k' & HS' & HW'). destruct (stat_in root cwd _ k' l1 n _ HW' HS' HI) as (HS2 & _ & HW2).
  rewrite under_app. cbn [under fold_left]. eauto.
Qed.
(** getFilesFromTree *)
Lemma tree_at p k l : wf_tree (Dir k l) -> st p = Some (Dir k l) -> getFilesFromTree F p = map (under p) (tfiles (Dir k l)).
Proof.
  intros HW HS. assert (HP : p <> []) by (intros ->; discriminate HS). unfold getFilesFromTree. cbn [walk pjoin posix]. unfold path_walk. rewrite HS. now apply walk_files.
Qed.
Lemma tree_good l k ns : wf_tree (Dir k l) -> In ns (tfiles (Dir k l)) -> Forall good_name ns.
Proof.
  intros HW HI. apply tfiles_spec in HI. destruct HI as (ds & n & m & x & -> & HWk & HI & _). cbn [entries] in HWk. destruct (walked_wf _ _ _ HWk _ HW) as [HD HM].
  apply Forall_app. split; [exact HD|]. constructor; [|constructor]. inversion HM as [| |? ? HF _]; subst. rewrite Forall_forall in HF. apply (HF _ HI).
Qed.
Lemma tree_nodup p k l : wf_tree (Dir k l) -> st p = Some (Dir k l) -> NoDup (getFilesFromTree F p).
Proof.
  intros HW HS. assert (HP : p <> []) by (intros ->; discriminate HS). rewrite (tree_at p k l HW HS). apply NoDup_map_in; [now apply tfiles_nodup|].
  intros x y Hx Hy E. eapply under_inj; [exact HP|eapply tree_good; eassumption..|exact E].
Qed.
Lemma tree_in p k l f : wf_tree (Dir k l) -> st p = Some (Dir k l) -> (In f (getFilesFromTree F p) <->
  exists ds n m e, f = under p (ds ++ [n]) /\ walked l ds m /\ In (n, e) m /\ is_dir e = false).
Proof.
  intros HW HS. rewrite (tree_at p k l HW HS), in_map_iff. split.
  - intros (ns & <- & HI). apply tfiles_spec in HI. destruct HI as (ds & n & m & x & -> & H). eauto 8.
  - intros (ds & n & m & e & -> & H). exists (ds ++ [n]). split; [reflexivity|]. apply tfiles_spec. eauto 8.
Qed.
(** getFilesWithPatternFromTree *)
Definition deep (pat : pystr) (k : bool) (l : list (pystr * entry)) : list (list pystr) :=
  flat_map (fun y => map (fun n => fst y ++ [n]) (fnames pat (snd y))) (tdirs (Dir k l)).
Lemma pattern_at p k l pat : wf_tree (Dir k l) -> st p = Some (Dir k l) -> tidy p -> literal p -> In 42 pat -> ~ In 47 pat ->
  (forall ds m, visited l ds m -> Forall literal ds) ->
  getFilesWithPatternFromTree F p pat = map (under p) (deep pat k l).
Proof.
  intros HW HS HT HL HP HN HV. unfold getFilesWithPatternFromTree. cbn [walk pjoin posix]. unfold path_walk. rewrite HS.
  rewrite (walk_dirs (getFiles F) pat (Dir k l) p HW) by apply HT. unfold deep. rewrite map_flat_map. apply flat_map_ext_in. intros [ds m] HI. cbn [fst snd].
  apply tdirs_spec in HI. destruct HI as [_ HI]. cbn [entries] in HI. destruct (visited_wf _ _ _ _ HI HW) as [HG _]. destruct (stat_visited _ _ _ _ _ HI HW HS) as (k' & HS' & HW').
  assert (HT' : tidy (under p ds)) by now apply tidy_under.
  rewrite join_below by (try apply HT'; now apply pat_good). erewrite getFiles_at; [|exact HW'|exact HT'|apply literal_under; [apply HT|exact HL|eapply HV; exact HI]|exact HS'|exact HP|exact HN].
  rewrite map_map. apply map_ext. intros n. now rewrite under_app.
Qed.
Lemma deep_spec pat k l ns : orderly pat -> (In ns (deep pat k l) <-> exists ds n m, ns = ds ++ [n] /\ ds <> [] /\ visited l ds m /\ In (n, File) m /\ named_by pat n).
Proof.
  intros HB. unfold deep. rewrite in_flat_map. split.
  - intros ([ds m] & HI & HJ). cbn [fst snd] in HJ. apply in_map_iff in HJ. destruct HJ as (n & <- & HJ). apply tdirs_spec in HI. apply (fnames_spec pat m n HB) in HJ. exists ds, n, m. cbn in HI. tauto.
  - intros (ds & n & m & -> & HD & HV & HM). exists (ds, m). split; [apply tdirs_spec; auto|]. apply in_map_iff. exists n. split; [reflexivity|]. cbn. now apply fnames_spec.
Qed.
Lemma fnames_nodup pat l : NoDup (map fst l) -> NoDup (fnames pat l).
Proof. apply NoDup_filter_map. Qed.
Lemma deep_nodup pat k l : wf_tree (Dir k l) -> NoDup (deep pat k l).
Proof.
  intros HW. apply (NoDup_flat_map fst (@removelast pystr)); [now apply tdirs_nodup| |].
  - intros [ds m] HI. apply NoDup_map_in.
    + cbn [snd]. apply fnames_nodup. apply tdirs_spec in HI. destruct HI as [_ HI]. destruct (visited_wf _ _ _ _ HI HW) as [_ HM]. now inversion HM.
    + intros x y _ _ E. apply app_inj_tail in E. tauto.
  - intros [ds m] y _ HY. apply in_map_iff in HY. destruct HY as (n & <- & _). apply removelast_last.
Qed.

(** ** findFiles *)
Lemma starts_below d n : d <> [] -> starts_slash (below d n) = starts_slash d.
Proof. intros HD. rewrite below_eq by exact HD. destruct d as [|c d]; [contradiction|]. destruct (ends_slash (c :: d)); reflexivity. Qed.
Lemma plain_at d k l pat : wf_tree (Dir k l) -> tidy d -> literal d -> starts_slash d = true -> st d = Some (Dir k l) -> In 42 pat -> ~ In 47 pat ->
  st (below d pat) <> Some File ->
  findPlain F (below d pat) = (map (below d) (fnames pat l),
    match filter (matches pat) (map fst l) with
    | [n] => match assoc n l with Some (Dir _ _) => below d n | _ => below d pat end
    | _ => below d pat end).
Proof.
  intros HW HT HL HA HS HP HN HF. unfold findPlain. cbn [isfile isabs globf isdir posix].
  replace (path_isfile root cwd (below d pat)) with false by (unfold path_isfile; destruct (st (below d pat)) as [[]|]; try reflexivity; contradiction).
  replace (hasWildcard (below d pat)) with true by (symmetry; apply wildcard_spec, in_below; [apply HT|discriminate|now right]).
  rewrite starts_below, HA by apply HT. pose proof (getFiles_at d k l pat HW HT HL HS HP HN) as HG. unfold getFiles in HG. cbn [globf isfile posix] in HG.
  rewrite (glob_at d k l pat HT HL HS HP HN) in *. rewrite <- HG.
  destruct (filter (matches pat) (map fst l)) as [|n [|n' r]] eqn:EF; [reflexivity| |reflexivity].
  assert (HI : In n (map fst l)) by (assert (In n [n]) as HI by (now left); rewrite <- EF in HI; apply filter_In in HI; tauto).
  apply in_map_iff in HI. destruct HI as ([m e] & E & HI). cbn in E. subst m. destruct (stat_in root cwd d k l n e HW HS HI) as (HS' & HGn & _).
  assert (HAs : assoc n l = Some e) by (apply assoc_in; [now inversion HW|exact HI]). rewrite HAs. cbn [map]. rewrite (join_below d n) by (try apply HT; exact HGn). cbn [filter].
  unfold path_isfile, path_isdir. rewrite HS'. destruct e; reflexivity.
Qed.
End Search.

(** ** abspath *)
Lemma join_split l : l <> [] -> Forall (fun n => ~ In 47 n) l -> split_slash (join_slash l) = l.
Proof.
  induction l as [|x l IH]; [contradiction|]. intros _ H. inversion H; subst. destruct l as [|y l]; [now apply split_plain|].
  change (join_slash (x :: y :: l)) with (x ++ 47 :: join_slash (y :: l)). rewrite split_app, split_plain by assumption. rewrite IH by (try discriminate; assumption). reflexivity.
Qed.
Lemma split_plain_all s : Forall (fun n => ~ In 47 n) (split_slash s).
Proof.
  induction s as [|c s IH]; cbn [split_slash]; [repeat constructor; intros []|]. destruct (c =? 47) eqn:E; [constructor; [intros []|exact IH]|].
  destruct (split_slash s) as [|x l]; [repeat constructor; cbn; lia|]. inversion IH; subst. constructor; [|assumption]. cbn. intros [H|H]; [lia|contradiction].
Qed.
Lemma norm_plain b l : forall acc, Forall (fun n => ~ In 47 n) acc -> Forall (fun n => ~ In 47 n) l -> Forall (fun n => ~ In 47 n) (norm_comps b acc l).
Proof.
  induction l as [|c l IH]; intros acc HA HL; cbn [norm_comps]; [now apply Forall_rev|]. inversion HL; subst.
  destruct (_ || _); [now apply IH|]. destruct (_ || _); [apply IH; auto|]. destruct acc; [now apply IH|]. inversion HA; subst. now apply IH.
Qed.
Lemma norm_descend root : is_dir root = true -> forall comps acc e up r,
  descend root [] (rev acc) = Some (e, up) -> Forall (fun c => pystr_eqb c [] = false /\ pystr_eqb c dot = false /\ pystr_eqb c dotdot = false) acc ->
  List.length up = List.length acc ->
  descend e up comps = Some r -> descend root [] (norm_comps true acc comps) = Some r.
Proof.
  intros HR. induction comps as [|c comps IH]; intros acc e up r HD HA HU H; cbn [norm_comps].
  - rewrite HD. exact H.
  - cbn [descend] in H. destruct e as [| |k l]; try discriminate H.
    destruct (pystr_eqb c [] || pystr_eqb c dot) eqn:E1; [eapply IH; eassumption|]. apply orb_false_iff in E1.
    destruct (pystr_eqb c dotdot) eqn:E2.
    + cbn [negb orb andb]. destruct acc as [|x acc]; cbn [orb].
      * destruct up as [|d up]; [|discriminate HU]. eapply IH; eassumption.
      * inversion HA as [|? ? (X1 & X2 & X3) HA']; subst. rewrite X3. cbn [rev] in HD. rewrite descend_app in HD. destruct (descend root [] (rev acc)) as [[e1 up1]|] eqn:ED; [|discriminate HD].
        cbn [descend] in HD. destruct e1 as [| |k1 l1]; try discriminate HD. rewrite X1, X2, X3 in HD. cbn [orb] in HD. destruct (assoc x l1); [|discriminate HD]. injection HD as -> <-.
        eapply IH; [exact ED|exact HA'|cbn in HU; lia|exact H].
    + cbn [negb orb]. destruct (assoc c l) as [e'|] eqn:EA; [|discriminate H]. eapply IH; [|constructor; [tauto|exact HA]| |exact H].
      * cbn [rev]. rewrite descend_app, HD. cbn [descend]. destruct E1 as [-> ->]. rewrite E2. cbn [orb]. now rewrite EA.
      * cbn. now rewrite HU.
Qed.
Lemma descend_skip e up comps : is_dir e = true -> descend e up ([] :: comps) = descend e up comps.
Proof. destruct e; try discriminate. reflexivity. Qed.
Lemma norm_stat root cwd q e : starts_slash q = true -> stat root cwd q = Some e -> is_dir root = true -> stat root cwd (normpath q) = Some e /\ starts_slash (normpath q) = true.
Proof.
  intros HA HS HR. destruct q as [|c q]; [discriminate HA|]. assert (c = 47) by (cbn in HA; lia). subst c. unfold stat in HS. cbv beta iota in HS. unfold full in HS. rewrite HA in HS.
  destruct (descend root [] (split_slash (47 :: q))) as [[e' up]|] eqn:ED; [|discriminate HS]. injection HS as ->.
  pose proof (norm_descend root HR (split_slash (47 :: q)) [] root [] (e, up) eq_refl (Forall_nil _) eq_refl ED) as HN.
  set (N := norm_comps true [] (split_slash (47 :: q))) in *.
  assert (HP : Forall (fun n => ~ In 47 n) N) by (apply norm_plain; [constructor|apply split_plain_all]).
  assert (HQ : exists more, (more = [] \/ more = [47]) /\ normpath (47 :: q) = 47 :: more ++ join_slash N).
  { unfold normpath. change (starts_slash (47 :: q)) with true. fold N. clear. destruct q as [|c q]; [exists []; auto|].
    destruct (Z.eq_dec c 47) as [->|HC].
    - destruct q as [|c q]; [exists [47]; auto|]. destruct (Z.eq_dec c 47) as [->|HC]; [exists []; auto|]. exists [47]. split; [auto|]. destruct c as [|z|]; try reflexivity. do 6 (destruct z as [z|z|]; try reflexivity). contradiction.
    - exists []. split; [auto|]. destruct c as [|z|]; try reflexivity. do 6 (destruct z as [z|z|]; try reflexivity). contradiction. }
  destruct HQ as (more & HM & ->). split; [|reflexivity]. unfold stat, full. change (starts_slash (47 :: more ++ join_slash N)) with true. cbv iota.
  assert (HJ : descend root [] (split_slash (join_slash N)) = Some (e, up)).
  { destruct N as [|x N']; [cbn in *; destruct root; [discriminate HR..|exact HN]|]. rewrite join_split by (try discriminate; exact HP). exact HN. }
  assert (HX : split_slash (47 :: more ++ join_slash N) = [] :: (match more with [] => [] | _ => [[]] end) ++ split_slash (join_slash N)) by (destruct HM as [-> | ->]; reflexivity).
  rewrite HX. rewrite descend_skip by exact HR. destruct HM as [-> | ->]; cbn [app]; [|rewrite descend_skip by exact HR]; now rewrite HJ.
Qed.
Lemma abspath_stat root cwd p e : starts_slash cwd = true -> is_dir root = true -> stat root cwd p = Some e ->
  stat root cwd (path_abspath cwd p) = Some e /\ starts_slash (path_abspath cwd p) = true.
Proof.
  intros HC HR HS. unfold path_abspath. destruct (starts_slash p) eqn:EP; [now apply norm_stat|].
  assert (HJ : starts_slash (path_join cwd p) = true) by (unfold path_join; rewrite EP; destruct cwd as [|c w]; [discriminate HC|]; destruct (ends_slash (c :: w)); exact HC).
  apply norm_stat; [exact HJ| |exact HR]. destruct p as [|c p]; [discriminate HS|]. set (q := c :: p) in *. unfold stat in HS |- *. unfold full in HS |- *. rewrite HJ. rewrite EP in HS. cbn [q] in HS.
  assert (HE : descend root [] (split_slash (path_join cwd q)) = descend root [] (split_slash (cwd ++ 47 :: q))).
  { unfold path_join. rewrite EP. destruct cwd as [|w0 w]; [discriminate HC|]. destruct (ends_slash (w0 :: w)) eqn:EE; [|reflexivity]. apply ends_spec in EE. destruct EE as (r & ->).
    rewrite <- !app_assoc. cbn [app]. rewrite !split_app. cbn [split_slash]. rewrite !descend_app. destruct (descend root [] (split_slash r)) as [[e1 u1]|]; [|reflexivity].
    destruct e1; [| |reflexivity]; cbn [app descend]; [|]; destruct (split_slash q) eqn:EQ; try reflexivity; unfold q in EQ; cbn in EQ; destruct (c =? 47); [discriminate EQ| |discriminate EQ|]; destruct (split_slash p); discriminate EQ. }
  destruct (path_join cwd q) as [|x y] eqn:EJ; [discriminate HJ|]. rewrite HE. exact HS.
Qed.
Lemma root_dir root cwd p e : stat root cwd p = Some e -> is_dir root = true.
Proof.
  unfold stat. destruct p as [|c p]; [discriminate|]. assert (HN : split_slash (full cwd (c :: p)) <> []) by (generalize (full cwd (c :: p)); intros q; destruct q as [|x q]; cbn; [discriminate|]; destruct (x =? 47); [discriminate|]; destruct (split_slash q); discriminate).
  destruct (split_slash (full cwd (c :: p))); [contradiction|]. destruct root; [discriminate|discriminate|reflexivity].
Qed.
Lemma in_split c s n : In n (split_slash s) -> In c n -> In c s.
Proof.
  revert n. induction s as [|x s IH]; intros n; cbn [split_slash]; [intros [<-|[]] []|]. destruct (x =? 47).
  - intros [<-|H] HC; [destruct HC|]. right. eapply IH; eassumption.
  - destruct (split_slash s) as [|y l]; [intros [<-|[]] [->|[]]; now left|]. intros [<-|H] HC.
    + destruct HC as [->|HC]; [now left|]. right. eapply IH; [now left|exact HC].
    + right. eapply IH; [right; exact H|exact HC].
Qed.
Lemma in_join_slash c l : c <> 47 -> In c (join_slash l) -> exists n, In n l /\ In c n.
Proof.
  intros HC. induction l as [|x l IH]; [intros []|]. destruct l as [|y l]; [intros H; exists x; split; [now left|exact H]|].
  change (join_slash (x :: y :: l)) with (x ++ 47 :: join_slash (y :: l)). rewrite in_app_iff. intros [H|[H|H]]; [exists x; split; [now left|exact H]|congruence|].
  destruct (IH H) as (n & HI & Hn). exists n. split; [now right|exact Hn].
Qed.
Lemma in_norm b l n : forall acc, In n (norm_comps b acc l) -> In n acc \/ In n l.
Proof.
  induction l as [|c l IH]; intros acc; cbn [norm_comps]; [rewrite <- in_rev; auto|].
  destruct (_ || _); [intros H; apply IH in H; cbn; tauto|]. destruct (_ || _); [intros H; apply IH in H; cbn in *; tauto|]. destruct acc; intros H; apply IH in H; cbn in *; tauto.
Qed.
Lemma in_normpath c q : c <> 47 -> c <> 46 -> In c (normpath q) -> In c q.
Proof.
  intros H1 H2. destruct q as [|x q]; [intros [H|[]]; congruence|]. unfold normpath. cbv zeta. match goal with |- context [?a ++ join_slash ?b] => set (sl := a); set (N := b) end.
  assert (HS : ~ In c sl).
  { assert (HX : sl = [] \/ sl = [47] \/ sl = [47; 47]).
    { unfold sl. destruct (Z.eq_dec x 47) as [->|HC]; [|left; destruct x as [|z|]; try reflexivity; do 6 (destruct z as [z|z|]; try reflexivity); contradiction].
      destruct q as [|y q]; [auto|]. destruct (Z.eq_dec y 47) as [->|HC]; [|right; left; destruct y as [|z|]; try reflexivity; do 6 (destruct z as [z|z|]; try reflexivity); contradiction].
      destruct q as [|z q]; [auto|]. destruct (Z.eq_dec z 47) as [->|HC]; [auto|]. right; right; destruct z as [|z|]; try reflexivity; do 6 (destruct z as [z|z|]; try reflexivity); contradiction. }
    destruct HX as [-> | [-> | ->]]; cbn; intuition congruence. }
  clearbody sl. intros HI. assert (HJ : In c (sl ++ join_slash N)) by (destruct (sl ++ join_slash N); [destruct HI as [H|[]]; congruence|exact HI]).
  apply in_app_iff in HJ. destruct HJ as [HJ|HJ]; [contradiction|]. apply in_join_slash in HJ; [|exact H1]. destruct HJ as (n & Hn & HC). apply in_norm in Hn. destruct Hn as [[]|Hn]. eapply in_split; eassumption.
Qed.
Lemma in_abspath c cwd p : c <> 47 -> c <> 46 -> In c (path_abspath cwd p) -> In c cwd \/ In c p.
Proof.
  intros H1 H2 H. apply in_normpath in H; [|assumption..]. destruct (starts_slash p); [auto|]. unfold path_join in H. destruct (starts_slash p); [auto|].
  destruct (match cwd with [] => true | _ => ends_slash cwd end); apply in_app_iff in H; cbn in H; intuition congruence.
Qed.
