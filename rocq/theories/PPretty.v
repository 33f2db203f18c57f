(** * Pretty printing, and whole documents *)

From Coq Require Import ZArith List Bool String Lia ZifyBool Permutation.
From Verif Require Import Py ETree Main Serial SpecText PBase PHuman SpecXml PXml PSerial.
Import ListNotations.
Open Scope string_scope.
Open Scope list_scope.
Open Scope Z_scope.

(** ** Lines *)
Lemma split_cons s : exists l ls, split_nl s = l :: ls.
Proof.
  induction s as [|c s IH]; cbn; [eauto|]. destruct IH as (l & ls & ->). destruct (c =? 10); eauto.
Qed.
Lemma join_split s : join_nl (split_nl s) = s.
Proof.
  induction s as [|c s IH]; [reflexivity|]. cbn [split_nl]. destruct (split_cons s) as (l & ls & HE). rewrite HE in *.
  destruct (c =? 10) eqn:E.
  - assert (c = 10) as -> by lia. change (join_nl ([] :: l :: ls)) with (10 :: join_nl (l :: ls)). now rewrite IH.
  - destruct ls as [|l' ls].
    + change (join_nl [c :: l]) with (c :: join_nl [l]). now rewrite IH.
    + change (join_nl ((c :: l) :: l' :: ls)) with (c :: join_nl (l :: l' :: ls)). now rewrite IH.
Qed.
Lemma split_line a s : ~ In 10 a -> split_nl (a ++ 10 :: s) = a :: split_nl s.
Proof.
  induction a as [|c a IH]; intros HA.
  - cbn [app split_nl]. destruct (split_cons s) as (l & ls & ->). reflexivity.
  - cbn [app split_nl]. rewrite IH by (intros H; apply HA; now right). replace (c =? 10) with false; [reflexivity|].
    symmetry. apply Z.eqb_neq. intros ->. apply HA. now left.
Qed.
Lemma no_declaration x : join_nl (tl (split_nl (toprettyxml x))) = writexml [] x.
Proof.
  assert (toprettyxml x = (pys "<?xml version=" ++ [34] ++ pys "1.0" ++ [34] ++ pys " ?>") ++ 10 :: writexml [] x) as -> by reflexivity.
  rewrite split_line.
  - cbn [tl]. apply join_split.
  - cbn. intros H. repeat (destruct H as [H|H]; [discriminate H|]). destruct H.
Qed.

(** ** The tree that is written *)
Fixpoint padded (ind : pystr) (x : dnode) : list dnode :=
  match x with
  | DText s => [DText (ind ++ s ++ [10])]
  | DElem n a k =>
      [DText ind;
       DElem n a (match k with
                  | [] => []
                  | [DText s] => [DText s]
                  | _ => DText [10] :: flat_map (padded (ind ++ pys "    ")) k ++ [DText ind]
                  end);
       DText [10]]
  end.
Notation out := (out_ f_data f_data (pys "/>")).
Lemma out_blank w : forallb is_space w = true -> flat_map f_data w = w.
Proof.
  induction w as [|c w IH]; [reflexivity|]. cbn [forallb flat_map]. intros H. apply andb_true_iff in H as [H1 H2]. rewrite (IH H2).
  unfold is_space in H1. unfold f_data, write_data. rewrite !replace1_other by lia. reflexivity.
Qed.
Lemma concat_flat {A B} (f : A -> list B) (g : B -> list Z) l :
  List.concat (map (fun x => List.concat (map g (f x))) l) = List.concat (map g (flat_map f l)).
Proof. induction l as [|x l IH]; [reflexivity|]. cbn [map List.concat flat_map]. now rewrite map_app, concat_app, IH. Qed.
Lemma writexml_out x : forall ind, forallb is_space ind = true -> writexml ind x = List.concat (map out (padded ind x)).
Proof.
  induction x as [s|n a k IH] using dnode_ind'; intros ind HI.
  - cbn. now rewrite app_nil_r, data_each.
  - assert (HA : List.concat (map dom_attr a) = List.concat (map (att_out f_data) a)).
    { f_equal. apply map_ext. intros p. unfold dom_attr, att_out. now rewrite data_each. }
    set (ind' := ind ++ pys "    ").
    assert (HI' : forallb is_space ind' = true) by (unfold ind'; rewrite forallb_app, HI; reflexivity).
    assert (HK : List.concat (map (writexml ind') k) = List.concat (map out (flat_map (padded ind') k))).
    { rewrite <- concat_flat. f_equal. apply map_ext_in. intros y Hy. rewrite Forall_forall in IH. now apply IH. }
    set (multi := [62; 10] ++ List.concat (map (writexml ind') k) ++ ind ++ [60; 47] ++ n ++ [62; 10]).
    assert (HM : multi = ([62] ++ List.concat (map out (DText [10] :: flat_map (padded ind') k ++ [DText ind])) ++ [60; 47] ++ n ++ [62]) ++ [10]).
    { unfold multi. rewrite HK. cbn [map List.concat out_]. rewrite map_app, concat_app. cbn [map List.concat out_]. rewrite (out_blank ind HI).
      change (flat_map f_data [10]) with [10]. do 3 (cbn [app]; rewrite <- ?app_assoc). reflexivity. }
    cbn [writexml padded map List.concat out_]. fold ind'. fold multi. rewrite HA, (out_blank ind HI). change (flat_map f_data [10]) with [10].
    destruct k as [|[s|n' a' k'] [|y k]].
    + do 3 (cbn [app]; rewrite <- ?app_assoc). reflexivity.
    + cbn [map List.concat out_]. rewrite data_each. do 3 (cbn [app]; rewrite <- ?app_assoc). reflexivity.
    + rewrite HM. do 3 (cbn [app]; rewrite <- ?app_assoc). reflexivity.
    + rewrite HM. do 3 (cbn [app]; rewrite <- ?app_assoc). reflexivity.
    + rewrite HM. do 3 (cbn [app]; rewrite <- ?app_assoc). reflexivity.
Qed.
Lemma blank_text w : forallb is_space w = true -> forallb (fun c => negb (c =? 13)) w = true -> Forall (esc_text f_data) w.
Proof.
  intros H1 H2. rewrite forallb_forall in *. apply Forall_forall. intros c Hc. apply data_text_ok. specialize (H1 c Hc). specialize (H2 c Hc).
  unfold is_space in H1. split; [unfold is_char, in_range; lia|lia].
Qed.
Definition indent_ok (w : pystr) : Prop := forallb is_space w = true /\ forallb (fun c => negb (c =? 13)) w = true.
Lemma indent_app w w' : indent_ok w -> indent_ok w' -> indent_ok (w ++ w').
Proof. unfold indent_ok. rewrite !forallb_app. intros [-> ->] [-> ->]. now split. Qed.
Lemma indent_good w : indent_ok w -> good f_data f_data (DText w).
Proof. intros [H1 H2]. constructor. now apply blank_text. Qed.
Lemma padded_good x : good f_data f_data x -> forall ind, indent_ok ind -> Forall (good f_data f_data) (padded ind x).
Proof.
  assert (HNL : indent_ok [10]) by now split.
  induction x as [s|n a k IH] using dnode_ind'; intros HG ind HI.
  - cbn [padded]. constructor; [|constructor]. constructor. apply Forall_app. split; [now apply blank_text; apply HI|].
    apply Forall_app. split; [now inversion HG|]. now apply blank_text.
  - inversion HG as [|n' a' k' H1 H2 H3 H4]; subst. cbn [padded]. set (ind' := ind ++ pys "    ").
    assert (HI' : indent_ok ind') by (apply indent_app; [exact HI|now split]).
    assert (HM : Forall (good f_data f_data) (DText [10] :: flat_map (padded ind') k ++ [DText ind])).
    { constructor; [now apply indent_good|]. apply Forall_app. split; [|constructor; [now apply indent_good|constructor]].
      rewrite Forall_flat_map. rewrite Forall_forall in *. auto. }
    constructor; [now apply indent_good|]. constructor; [|constructor; [now apply indent_good|constructor]].
    constructor; try assumption. destruct k as [|[s|n' a' k'] [|y k]]; assumption.
Qed.

(** ** What is read, without indentation *)
Lemma drop_blank w s : forallb is_space w = true -> drop_space (w ++ s) = drop_space s.
Proof. induction w as [|c w IH]; [reflexivity|]. cbn [forallb app drop_space]. intros H. apply andb_true_iff in H as [-> H]. now apply IH. Qed.
Lemma drop_all w : forallb is_space w = true -> drop_space w = [].
Proof. intros H. rewrite <- (app_nil_r w), drop_blank by exact H. reflexivity. Qed.
Lemma drop_some s : forallb is_space s = false -> forall w, drop_space (s ++ w) = drop_space s ++ w.
Proof.
  induction s as [|c s IH]; [discriminate|]. cbn [forallb app drop_space]. intros H w. destruct (is_space c) eqn:E; [now apply IH|reflexivity].
Qed.
Lemma forallb_rev {A} (p : A -> bool) l : forallb p (rev l) = forallb p l.
Proof. induction l as [|x l IH]; [reflexivity|]. cbn. rewrite forallb_app, IH. cbn. rewrite andb_true_r. apply andb_comm. Qed.
Lemma strip_blank s : forallb is_space s = true -> strip s = [].
Proof. intros H. unfold strip. rewrite (drop_all s H). reflexivity. Qed.
Lemma strip_pad w s w' : forallb is_space w = true -> forallb is_space w' = true -> strip (w ++ s ++ w') = strip s.
Proof.
  intros H1 H2. unfold strip. rewrite drop_blank by exact H1. destruct (forallb is_space s) eqn:E.
  - rewrite (drop_all s E), (drop_all (s ++ w')); [reflexivity|]. now rewrite forallb_app, E, H2.
  - rewrite (drop_some s E). rewrite rev_app_distr, drop_blank; [reflexivity|]. now rewrite forallb_rev.
Qed.
Definition tx (s : pystr) : list dnode := match strip s with [] => [] | t => [DText t] end.
Definition trims (l : list dnode) : list dnode :=
  flat_map (fun y => match y with DText s => tx s | DElem _ _ _ => [trim y] end) l.
Lemma trim_elem n a k : trim (DElem n a k) = if existsb is_elem k then DElem n a (trims k) else DElem n a k.
Proof. reflexivity. Qed.
Definition lead (l : list dnode) : Prop := match l with DText b :: _ => forallb is_space b = true | _ => True end.
Lemma trims_add s l : lead l -> trims (addtext s l) = tx s ++ trims l.
Proof.
  intros HL. destruct s as [|c s]; [reflexivity|]. destruct l as [|[b|n a k] l]; [reflexivity| |reflexivity].
  cbn [addtext trims flat_map]. rewrite app_assoc. f_equal. cbn in HL. unfold tx.
  assert (strip ((c :: s) ++ b) = strip (c :: s)) as -> by exact (strip_pad [] (c :: s) b eq_refl HL).
  now rewrite (strip_blank b HL), app_nil_r.
Qed.
Lemma lead_add w l : forallb is_space w = true -> lead l -> lead (addtext w l).
Proof.
  intros HW HL. destruct w as [|c w]; [exact HL|]. destruct l as [|[b|n a k] l]; try exact HW. cbn [addtext lead] in *. now rewrite forallb_app, HW, HL.
Qed.
Lemma elem_add s l : existsb is_elem (addtext s l) = existsb is_elem l.
Proof. destruct s; [reflexivity|]. destruct l as [|[b|n a k] l]; reflexivity. Qed.

(** Children: at most one text, first and not empty, and elements. *)
Inductive shaped : dnode -> Prop :=
| shaped_elem n a s k : Forall shaped k -> shaped (DElem n a ((match s with [] => [] | _ => [DText s] end) ++ k)).
Lemma shaped_is x : shaped x -> is_elem x = true.
Proof. now intros []. Qed.
Lemma shaped_ind' (P : dnode -> Prop) : (forall n a s k, Forall shaped k -> Forall P k -> P (DElem n a ((match s with [] => [] | _ => [DText s] end) ++ k))) ->
  forall x, shaped x -> P x.
Proof.
  intros H. fix IH 2. intros x [n a s k HK]. apply H; [exact HK|]. clear -IH HK. induction HK as [|y k HY HK IK]; constructor; auto.
Qed.
Definition body (ind : pystr) (x : dnode) : dnode := match padded ind x with [_; y; _] => y | _ => x end.
Lemma padded_body ind x : is_elem x = true -> padded ind x = [DText ind; body ind x; DText [10]].
Proof. destruct x; [discriminate|reflexivity]. Qed.
Lemma body_is ind x : is_elem x = true -> is_elem (norm (body ind x)) = true.
Proof. destruct x; [discriminate|reflexivity]. Qed.
Lemma glue_elems ind w es : forallb is_space ind = true -> forallb is_space w = true ->
  Forall (fun x => is_elem x = true /\ trim (norm (body ind x)) = trim x) es ->
  let l := glue (map norm (flat_map (padded ind) es ++ [DText w])) in
  lead l /\ trims l = map trim es /\ existsb is_elem l = negb (match es with [] => true | _ => false end).
Proof.
  intros HI HW. induction 1 as [|x es [H1 H2] HF (I1 & I2 & I3)]; cbn zeta.
  - cbn [flat_map map app norm glue]. split; [|split].
    + now apply lead_add.
    + rewrite trims_add by exact I. unfold tx. now rewrite (strip_blank w HW).
    + apply elem_add.
  - cbn [flat_map]. rewrite padded_body by exact H1. cbn [app map glue norm]. assert (HB := body_is ind x H1).
    destruct (norm (body ind x)) as [s|n a k] eqn:EB; [discriminate|].
    set (l := glue (map norm (flat_map (padded ind) es ++ [DText w]))) in *. split; [|split].
    + now apply lead_add.
    + rewrite trims_add by exact I. unfold tx at 1. rewrite (strip_blank ind HI). cbn [app].
      change (trims (DElem n a k :: addtext [10] l)) with (trim (DElem n a k) :: trims (addtext [10] l)). rewrite H2, trims_add by exact I1.
      cbn [map]. f_equal. exact I2.
    + rewrite elem_add. reflexivity.
Qed.
Lemma trims_elems k : Forall (fun x => is_elem x = true) k -> trims k = map trim k.
Proof. induction 1 as [|x k HX HK IH]; [reflexivity|]. destruct x; [discriminate|]. cbn [map]. rewrite <- IH. reflexivity. Qed.
Lemma elems_exist k : Forall (fun x => is_elem x = true) k -> existsb is_elem k = negb (match k with [] => true | _ => false end).
Proof. intros H. destruct H as [|x k HX HK]; [reflexivity|]. cbn. now rewrite HX. Qed.
Lemma trim_body x : shaped x -> forall ind, forallb is_space ind = true -> trim (norm (body ind x)) = trim x.
Proof.
  intros H. induction H as [n a s k HS HK] using shaped_ind'. intros ind HI. set (ind' := ind ++ pys "    ").
  assert (HI' : forallb is_space ind' = true) by (unfold ind'; rewrite forallb_app, HI; reflexivity).
  assert (HE : Forall (fun x => is_elem x = true) k) by (eapply Forall_impl; [apply shaped_is|exact HS]).
  assert (HF : Forall (fun x => is_elem x = true /\ trim (norm (body ind' x)) = trim x) k).
  { rewrite Forall_forall in *. intros y Hy. split; [now apply HE|]. now apply HK. }
  destruct (glue_elems ind' ind k HI' HI HF) as (G1 & G2 & G3). set (l := glue (map norm (flat_map (padded ind') k ++ [DText ind]))) in *.
  assert (HX : forall K, K = (match s with [] => [] | _ => [DText s] end) ++ k -> k <> [] ->
    trim (norm (DElem n a (DText [10] :: flat_map (padded ind') K ++ [DText ind]))) = trim (DElem n a K)).
  { intros K -> HN. cbn [norm]. rewrite !trim_elem.
    assert (existsb is_elem k = true) as HEX by (rewrite elems_exist by exact HE; destruct k; [easy|reflexivity]).
    assert (existsb is_elem ((match s with [] => [] | _ => [DText s] end) ++ k) = true) as -> by (rewrite existsb_app, HEX; apply orb_true_r).
    assert (existsb is_elem l = true) as HL by (rewrite G3; destruct k; [easy|reflexivity]).
    destruct s as [|c s].
    - cbn [app map norm glue]. fold l. rewrite elem_add, HL. f_equal. rewrite trims_add by exact G1. now rewrite G2, trims_elems by exact HE.
    - cbn [app flat_map map norm glue padded]. fold l. rewrite !elem_add, HL. f_equal. rewrite addtext_app, trims_add by exact G1.
      rewrite G2. change (trims (DText (c :: s) :: k)) with (tx (c :: s) ++ trims k). rewrite trims_elems by exact HE. f_equal. unfold tx.
      assert (HST : strip ([10] ++ ind' ++ (c :: s) ++ [10]) = strip (c :: s)).
      { rewrite app_assoc. apply strip_pad; [|reflexivity]. now rewrite forallb_app, HI'. }
      cbn [app] in HST |- *. rewrite HST. reflexivity. }
  unfold body. cbn [padded]. fold ind'. destruct s as [|c s].
  - cbn [app] in *. destruct k as [|[s|n' a' k'] k]; [reflexivity|inversion HE; discriminate|].
    rewrite <- (HX _ eq_refl) by discriminate. destruct k; reflexivity.
  - cbn [app] in *. destruct k as [|y k]; [reflexivity|]. rewrite <- (HX _ eq_refl) by discriminate. reflexivity.
Qed.

(** ** Trimming and namespaces *)
Lemma expand_is env x y : expand env x = Some y -> is_elem y = is_elem x.
Proof.
  destruct x as [s|n a k]; cbn; [intros [= <-]; reflexivity|]. destruct (resolve _ true n); [|discriminate].
  destruct (all_some _); [|discriminate]. destruct (all_some _); [|discriminate]. destruct (distinct _); [|discriminate]. intros [= <-]. reflexivity.
Qed.
Lemma expand_trim x : forall env, expand env (trim x) = match expand env x with Some y => Some (trim y) | None => None end.
Proof.
  induction x as [s|n a k IH] using dnode_ind'; intros env; [reflexivity|]. rewrite trim_elem.
  destruct (existsb is_elem k) eqn:EX.
  - cbn [expand]. set (E := decls a ++ env). destruct (resolve E true n) as [m|]; [|reflexivity].
    destruct (all_some (map _ (others a))) as [a'|]; [|reflexivity].
    assert (HK : all_some (map (expand E) (trims k)) = match all_some (map (expand E) k) with Some k' => Some (trims k') | None => None end).
    { clear EX. induction IH as [|x k HX HF IK]; [reflexivity|]. cbn [trims flat_map map all_some]. fold (trims k). destruct x as [s|n' b' k'].
      - cbn [expand]. rewrite map_app. assert (HT : map (expand E) (tx s) = map Some (tx s)) by (unfold tx; destruct (strip s); reflexivity).
        rewrite HT. clear HT. assert (HA : forall l (r : list (option dnode)), all_some (map Some l ++ r) = match all_some r with Some r' => Some (l ++ r') | None => None end).
        { clear. induction l as [|x l IH]; intros r; cbn; [now destruct (all_some r)|]. rewrite IH. now destruct (all_some r). }
        rewrite HA, IK. destruct (all_some (map (expand E) k)); reflexivity.
      - cbn [app map all_some]. rewrite HX. destruct (expand E (DElem n' b' k')) as [y|] eqn:EY; [|reflexivity]. rewrite IK.
        destruct (all_some (map (expand E) k)); [|reflexivity]. apply expand_is in EY. destruct y; [discriminate|]. reflexivity. }
    rewrite HK. destruct (all_some (map (expand E) k)) as [k'|] eqn:EK; [|reflexivity]. destruct (distinct (map fst a')); [|reflexivity].
    rewrite trim_elem. assert (existsb is_elem k' = true) as ->; [|reflexivity]. apply all_some_spec in EK. clear - EX EK.
    induction EK as [|x y l l' H HF IH]; [discriminate|]. cbn in *. rewrite (expand_is _ _ _ H). destruct (is_elem x); [reflexivity|]. now apply IH.
  - cbn [expand]. set (E := decls a ++ env). destruct (resolve E true n) as [m|]; [|reflexivity].
    destruct (all_some (map _ (others a))) as [a'|]; [|reflexivity]. destruct (all_some (map (expand E) k)) as [k'|] eqn:EK; [|reflexivity].
    destruct (distinct (map fst a')); [|reflexivity]. rewrite trim_elem.
    assert (existsb is_elem k' = false) as ->; [|reflexivity]. apply all_some_spec in EK. clear - EX EK.
    induction EK as [|x y l l' H HF IH]; [reflexivity|]. cbn in *. rewrite (expand_is _ _ _ H). destruct (is_elem x); [discriminate|]. now apply IH.
Qed.

(** ** The order of attributes *)
Lemma filter_filter_same {A} (p : A -> bool) l : filter p (filter p l) = filter p l.
Proof. induction l as [|x l IH]; [reflexivity|]. cbn. destruct (p x) eqn:E; [|exact IH]. cbn. now rewrite E, IH. Qed.
Lemma filter_filter_neg {A} (p : A -> bool) l : filter p (filter (fun x => negb (p x)) l) = [].
Proof. induction l as [|x l IH]; [reflexivity|]. cbn. destruct (p x) eqn:E; [exact IH|]. cbn. now rewrite E, IH. Qed.
Lemma filter_neg_filter {A} (p : A -> bool) l : filter (fun x => negb (p x)) (filter p l) = [].
Proof. induction l as [|x l IH]; [reflexivity|]. cbn. destruct (p x) eqn:E; [|exact IH]. cbn. now rewrite E, IH. Qed.
Lemma first_eq n a k : decls_first (DElem n a k) = DElem n (filter isdecl a ++ others a) (map decls_first k).
Proof. reflexivity. Qed.
Lemma first_perm a : Permutation (filter isdecl a ++ others a) a.
Proof.
  rewrite others_filter. induction a as [|p a IH]; [reflexivity|]. cbn [filter]. destruct (isdecl p); cbn [negb app].
  - now constructor.
  - rewrite <- Permutation_middle. now constructor.
Qed.
Lemma first_decls a : decls (filter isdecl a ++ others a) = decls a.
Proof.
  rewrite (decls_filter (_ ++ _)), filter_app, filter_filter_same, others_filter, filter_filter_neg, app_nil_r. symmetry. apply decls_filter.
Qed.
Lemma first_others a : others (filter isdecl a ++ others a) = others a.
Proof.
  rewrite !others_filter, filter_app, filter_neg_filter. cbn [app]. apply (filter_filter_same (fun p => negb (isdecl p))).
Qed.
Lemma expand_first x : forall env, expand env (decls_first x) = expand env x.
Proof.
  induction x as [s|n a k IH] using dnode_ind'; intros env; [reflexivity|]. rewrite first_eq. cbn [expand]. rewrite first_decls, first_others.
  rewrite map_map. rewrite (map_ext_in _ (expand (decls a ++ env))) by (intros y Hy; rewrite Forall_forall in IH; now apply IH). reflexivity.
Qed.
Lemma good_first ft fa x : good ft fa x -> good ft fa (decls_first x).
Proof.
  induction x as [s|n a k IH] using dnode_ind'; intros HG; [exact HG|]. inversion HG as [|n' a' k' H1 H2 H3 H4]; subst. rewrite first_eq. constructor.
  - exact H1.
  - rewrite Forall_forall in *. intros p Hp. apply H2. now apply (Permutation_in p (first_perm a)).
  - apply (Permutation_NoDup (Permutation_map fst (Permutation_sym (first_perm a)))). exact H3.
  - apply Forall_map. rewrite Forall_forall in *. auto.
Qed.
Lemma shaped_first x : shaped x -> shaped (decls_first x).
Proof.
  intros H. induction H as [n a s k HS HK] using shaped_ind'. rewrite first_eq, map_app.
  assert (map decls_first (match s with [] => [] | _ => [DText s] end) = match s with [] => [] | _ => [DText s] end) as -> by now destruct s.
  constructor. now apply Forall_map.
Qed.
Lemma shaped_raw q e : forall ns, shaped (raw q ns e).
Proof.
  induction e as [t a v k IH] using elt_ind'. intros ns. cbn [raw].
  assert (exists s, text_nodes v = match s with [] => [] | _ => [DText s] end) as (s & ->).
  { destruct v as [| | | | |[|c s]]; try (exists []; reflexivity). exists (eol (c :: s)). cbn [text_nodes]. now destruct (eol_cons c s) as (d & r & ->). }
  constructor. apply Forall_map. rewrite Forall_forall in *. auto.
Qed.

(** ** One element *)
Lemma means_default e : forall env env', (forall p, p <> [] -> lookup p env = lookup p env') -> forall y, means env e = Some y ->
  exists y', means env' e = Some y'.
Proof.
  induction e as [t a v k IH] using elt_ind'. intros env env' HE y HM. cbn [means] in *. fold (keys a) in *.
  set (A := keys a) in *.
  assert (HE' : forall p, p <> [] -> lookup p (decls A ++ env) = lookup p (decls A ++ env')).
  { intros p Hp. rewrite !lookup_app. destruct (lookup p (decls A)); [reflexivity|]. now apply HE. }
  set (E := decls A ++ env) in *. set (E' := decls A ++ env') in *.
  assert (HR : forall el n m, ename E el n = Some m -> exists m', ename E' el n = Some m' /\ (el = false -> m' = m)).
  { intros el n m. unfold ename. destruct n as [|c n]; [discriminate|]. destruct (c =? 123); [intros H; exists m; now split|].
    unfold resolve. destruct (prefix_of (c :: n)) as [[p l]|].
    - destruct (is_ncname p && is_ncname l) eqn:EN; [|discriminate]. destruct (pystr_eqb p (pys "xml")); [intros H; exists m; now split|].
      rewrite HE'; [intros H; exists m; now split|]. intros ->. discriminate EN.
    - destruct el; [|intros H; exists m; now split]. intros _. destruct (lookup [] E') as [[|x u]|]; eexists; (split; [reflexivity|discriminate]). }
  destruct (ename E true (pys t)) as [m|] eqn:EN; [|discriminate]. destruct (HR _ _ _ EN) as (m' & -> & _).
  destruct (all_some (map _ (others A))) as [a'|] eqn:EA in HM; [|discriminate].
  assert (EA' : all_some (map (fun p => match ename E' false (fst p) with Some m0 => Some (m0, snd p) | None => None end) (others A)) = Some a').
  { apply all_some_spec in EA. apply all_some_spec. clear - EA HR. induction EA as [|p r l l' HP HF IH]; constructor; [|exact IH].
    destruct (ename E false (fst p)) as [m|] eqn:EM; [|discriminate]. destruct (HR _ _ _ EM) as (m' & -> & HM). now rewrite HM. }
  rewrite EA'. destruct (all_some (map (means E) k)) as [k'|] eqn:EK; [|discriminate].
  assert (exists k'', all_some (map (means E') k) = Some k'') as (k'' & ->).
  { apply all_some_spec in EK. enough (exists r, Forall2 (fun x y => means E' x = Some y) k r) as (r & Hr) by (exists r; now apply all_some_spec).
    clear - EK IH HE'. induction EK as [|x y' l l' HX HF IL]; [exists []; constructor|]. inversion IH as [|? ? H1 H2]; subst.
    destruct (IL H2) as (r & Hr). destruct (H1 E E' HE' _ HX) as (y'' & Hy). exists (y'' :: r). now constructor. }
  destruct (distinct (map fst a')); [eauto|discriminate].
Qed.
Lemma chars_encode s : forallb is_char s = true -> codec_write s = Ok s.
Proof.
  intros H. unfold codec_write. replace (existsb is_surrogate s) with false; [reflexivity|]. symmetry. apply not_true_iff_false.
  intros HE. apply existsb_exists in HE as (c & Hc & HE). rewrite forallb_forall in H. apply H in Hc. unfold is_char, in_range in Hc.
  unfold is_surrogate, in_rng in HE. lia.
Qed.
Lemma content_nodes s l : nodes s = Some (l, []) -> lines_content s = Some l.
Proof. intros H. unfold lines_content. fold (nodes s). now rewrite H. Qed.
Lemma lf_all s : forallb lf_char s = true -> forallb is_char s = true /\ ~ In 13 s.
Proof.
  intros H. rewrite forallb_forall in *. split.
  - intros c Hc. apply H in Hc. unfold lf_char in Hc. now apply andb_true_iff in Hc as [Hc _].
  - intros Hc. apply H in Hc. discriminate.
Qed.

Section Element.
Variable dom : pystr -> res dnode.
Variable e : elt.
Variable env : list (pystr * pystr).
Variable y : dnode.
Hypothesis HO : outermost env.
Hypothesis HR : plain_root e.
Hypothesis HM : means env e = Some y.
Notation out1 := (out_ f_cdata f_attrib (pys " />")).

Lemma write_plain b : writable b e -> exists x S, writeElement dom true e = Ok (60 :: S ++ [62]) /\ eol (60 :: S ++ [62]) = out1 x /\
  good f_cdata f_attrib x /\ norm x = x /\ is_elem x = true /\ forall sc, lookup [] sc = lookup [] env -> expand sc x = Some y.
Proof.
  intros HW. destruct (tostring_raw b e env y HW HR HO HM) as (x & S & HT & HL & HN & HI & _ & HX). exists x, S.
  assert (HX1 := HX f_cdata f_attrib cdata_ok (attrib_ok b) env). destruct (HX1 env y HO eq_refl HM) as [HG _].
  split; [|split; [exact HL|split; [exact HG|split; [exact HN|split; [exact HI|]]]]].
  - unfold writeElement. rewrite HT. cbn [rbind]. apply chars_encode, eol_chars. rewrite HL. apply lf_all, chars_out; [reflexivity|exact HG].
  - intros sc HS. now apply (HX1 sc y HO HS HM).
Qed.
Lemma write_pretty : dom_ok dom -> writable true e -> exists x, writeElement dom false e = Ok (List.concat (map out (padded [] x))) /\
  Forall (good f_data f_data) (padded [] x) /\ is_elem x = true /\ trim (norm (body [] x)) = trim x /\
  forall sc, lookup [] sc = lookup [] env -> expand sc x = Some y.
Proof.
  intros HD HW. destruct (tostring_raw true e env y HW HR HO HM) as (x & S & HT & HL & HN & HI & (q & ns & HQ) & HX). exists (decls_first x).
  assert (HX1 := HX f_cdata f_attrib cdata_ok (attrib_ok true)). destruct (HX1 env env y HO eq_refl HM) as [HG1 _].
  destruct (HX f_data f_data data_text_ok data_value_ok env env y HO eq_refl HM) as [HG2 _].
  assert (HC : content (60 :: S ++ [62]) = Some [x]).
  { unfold content. rewrite HL. apply content_nodes. assert (H := written f_cdata f_attrib (pys " />") close1 [x] [] (Forall_cons _ HG1 (Forall_nil _)) (or_introl eq_refl)).
    cbn [map List.concat] in H. rewrite !app_nil_r in H. rewrite H, HN. destruct x; [discriminate|]. reflexivity. }
  assert (HE : exists y0, expand [] x = Some y0).
  { destruct (means_default e env [] ) with (y := y) as (y0 & HY); [|exact HM|].
    - intros p Hp. destruct (lookup p env) eqn:EL; [|reflexivity]. apply HO in EL. contradiction.
    - exists y0. apply (HX1 [] [] y0); [discriminate|reflexivity|exact HY]. }
  destruct HE as (y0 & HE).
  assert (HS : shaped (decls_first x)) by (apply shaped_first; subst x; apply shaped_raw).
  assert (HGP : Forall (good f_data f_data) (padded [] (decls_first x))) by (apply padded_good; [now apply good_first|now split]).
  split; [|split; [exact HGP|split; [|split]]].
  - unfold writeElement. rewrite HT. cbn [rbind]. rewrite (HD _ _ _ HC HE). cbn [rbind]. rewrite no_declaration, writexml_out by reflexivity.
    apply chars_encode. clear - HGP. induction HGP as [|z l HZ HL IH]; [reflexivity|]. cbn [map List.concat]. rewrite forallb_app, IH, andb_true_r.
    apply lf_all, chars_out; [reflexivity|exact HZ].
  - now apply shaped_is.
  - now apply trim_body.
  - intros sc HSC. rewrite expand_first. now apply (HX1 env sc y HO HSC HM).
Qed.
End Element.

(** ** Documents *)
Definition doc_attrs : list (pystr * pystr) :=
  [(pys "xmlns", NS_STRING_2); (pys "xmlns:xsi", XSI_NS_STRING); (pys "xsi:schemaLocation", LOC_SCHEMA_STRING_2)].
Lemma doc_read ft fa close L S : eol S = xmlHead ++ List.concat (map (out_ ft fa close) L) ++ xmlTail -> (forall r, attrs (close ++ r) = Some ([], pys "/>" ++ r)) -> ft 10 = [10] -> Forall (good ft fa) L ->
  read S =
    Some (DElem (pys "jpylyzer") doc_attrs (glue (map norm (DText [10] :: L)))).
Proof.
  intros HEOL HC H10 HL. set (B := List.concat (map (out_ ft fa close) L)).
  assert (HG : Forall (good ft fa) (DText [10] :: L)).
  { constructor; [|exact HL]. constructor. constructor; [|constructor]. left. split; [exact H10|]. repeat split; lia. }
  assert (HW := written ft fa close HC (DText [10] :: L) xmlTail HG ltac:(right; eexists; reflexivity)).
  cbn [map List.concat out_ flat_map] in HW. rewrite H10 in HW. cbn [app] in HW. fold B in HW.
  set (T := 10 :: B ++ xmlTail) in *.
  set (D := List.concat (map (att_out f_attrib) doc_attrs)).
  assert (HH : xmlHead ++ B ++ xmlTail = pys "<?xml version='1.0' encoding='UTF-8'?>" ++ 10 :: 60 :: pys "jpylyzer" ++ D ++ 62 :: T).
  { unfold xmlHead, D, T. cbn [doc_attrs map List.concat]. unfold att_out. cbn [fst snd]. rewrite <- !app_assoc. reflexivity. }
  assert (HS : skip_decl (xmlHead ++ B ++ xmlTail) = Some (10 :: 60 :: pys "jpylyzer" ++ D ++ 62 :: T)).
  { rewrite HH. generalize (10 :: 60 :: pys "jpylyzer" ++ D ++ 62 :: T). intros r. reflexivity. }
  assert (HA : attrs (D ++ 62 :: T) = Some (doc_attrs, 62 :: T)).
  { unfold D. apply attrs_written.
    - assert (HB : forallb (fun p => is_name (fst p) && forallb is_char (snd p)) doc_attrs = true) by reflexivity.
      apply Forall_forall. intros p Hp. rewrite forallb_forall in HB. apply HB in Hp. apply andb_true_iff in Hp as [H1 H2].
      split; [exact H1|]. apply Forall_forall. intros c Hc. apply (attrib_ok false). rewrite forallb_forall in H2. split; [now apply H2|discriminate].
    - apply distinct_nodup. reflexivity.
    - reflexivity. }
  assert (HE : nodes (60 :: pys "jpylyzer" ++ D ++ 62 :: T) =
    Some ([DElem (pys "jpylyzer") doc_attrs (glue (map norm (DText [10] :: L))); DText [10]], [])).
  { rewrite (nodes_elem _ _ doc_attrs (62 :: T)); [|reflexivity|reflexivity|exact HA].
    change (eat (pys "/>") (62 :: T)) with (@None pystr). cbn [eat Z.eqb Pos.eqb]. rewrite HW. reflexivity. }
  unfold read. rewrite HEOL. fold B. rewrite HS.
  assert (HN : nodes (10 :: 60 :: pys "jpylyzer" ++ D ++ 62 :: T) =
    Some ([DText [10]; DElem (pys "jpylyzer") doc_attrs (glue (map norm (DText [10] :: L))); DText [10]], [])).
  { rewrite (nodes_text _ _ [10] (60 :: pys "jpylyzer" ++ D ++ 62 :: T)); [now rewrite HE|lia|].
    rewrite text_raw by (try lia; reflexivity). rewrite stops_text by reflexivity. reflexivity. }
  rewrite (content_nodes _ _ HN). reflexivity.
Qed.
