(** * Options, limits and exceptions: properties of pairs of runs *)

From Coq Require Import ZArith List Bool String Lia.
From Coq Require Import Init.Byte.
From Verif Require Import Py PyFloat ByteConv ETree BV VBoxes VMarkers VSuper Spec SpecBox SpecRun
     SpecMarker PBase PEmit PLeaf PLeaf2 PMarker PMarker2 PRel Ex.
Import ListNotations.
Open Scope string_scope.
Open Scope list_scope.
Open Scope Z_scope.

(** ** C11 *)
Lemma failures_any : forall e, existsb anyFalse (failures e) = anyFalse e.
Proof.
  fix IH 1. intros [t a v k].
  assert (HK : existsb anyFalse (flat_map failures k) = existsb anyFalse k).
  { induction k as [|x k IHk]; [reflexivity|]. cbn [flat_map existsb].
    now rewrite existsb_app, IH, IHk. }
  assert (HE : forall k0, anyFalse (Elt t a v k0) =
    match v with VBool false => true | _ => false end || existsb anyFalse k0).
  { intros k0. rewrite <- (anyFalse_node t k0). reflexivity. }
  rewrite HE, <- HK. cbn [failures].
  destruct (flat_map failures k) as [|x l] eqn:EF.
  - destruct v as [|[]| | | |]; reflexivity.
  - assert (HR : existsb anyFalse [Elt t a v (x :: l)] =
      match v with VBool false => true | _ => false end || existsb anyFalse (x :: l)).
    { cbn [existsb]. rewrite orb_false_r. apply HE. }
    destruct v as [|[]| | | |]; exact HR.
Qed.
Lemma failures_list l : existsb anyFalse (flat_map failures l) = existsb anyFalse l.
Proof.
  induction l as [|x l IH]; [reflexivity|]. cbn [flat_map existsb].
  now rewrite existsb_app, failures_any, IH.
Qed.

Definition quiet (op : opts) : opts :=
  {| o_format := o_format op; o_verbose := false; o_nullxml := o_nullxml op; o_packet := o_packet op |}.
Definition verbose (op : opts) : opts :=
  {| o_format := o_format op; o_verbose := true; o_nullxml := o_nullxml op; o_packet := o_packet op |}.

Lemma eq_find p e : plain (etag e) -> Forall plain p ->
  Forall2 (fun a b => [a] = [b] /\ plain (etag a)) (findall p e) (findall p e).
Proof.
  intros HE HP. revert e HE. induction HP as [|t p Ht HP IH]; intros e HE.
  - constructor; [auto|constructor].
  - cbn [findall]. induction (ekids e) as [|x l IHl]; [constructor|].
    cbn [filter]. destruct (String.eqb (etag x) t) eqn:ET; [|exact IHl].
    cbn [flat_map]. apply Forall2_app; [|exact IHl]. apply IH.
    apply String.eqb_eq in ET. now rewrite ET.
Qed.

Definition exns : list exn :=
  [TypeError; ValueError; ZeroDivisionError; UnboundLocalError; RecursionError].
Ltac exs := repeat split; cbn; tauto.

Theorem C11_verbosity E op fuel d t c start csiz :
  validate E (quiet op) fuel d t c start csiz =
  res_map only_failures (validate E (verbose op) fuel d t c start csiz).
Proof.
  assert (H : rrel False (fun _ => False) (fun e => In e exns)
    (bvrel (fun a b => a = flat_map failures b) eq eq t)
    (validate E (quiet op) fuel d t c start csiz) (validate E (verbose op) fuel d t c start csiz)).
  { apply validate_rel.
    - reflexivity.
    - now left.
    - exs.
    - intros a b a' b' -> ->. now rewrite flat_map_app.
    - reflexivity.
    - intros n []; reflexivity.
    - intros tg k1 k2 ->. destruct k2 as [|x k2]; [reflexivity|].
      unfold node. cbn [flat_map failures].
      destruct (failures x ++ flat_map failures k2); reflexivity.
    - intros a b ->. apply failures_list.
    - now intros a b a' b' -> ->.
    - reflexivity.
    - now intros tg k1 k2 ->.
    - now intros a b a' b' -> ->.
    - reflexivity.
    - now intros tg k1 k2 ->.
    - now left.
    - intros tg e1 e2 _ HE _. now injection HE as ->.
    - intros e1 e2 HE _. now injection HE as ->.
    - intros p e1 e2 HE. injection HE as ->. now apply eq_find.
    - now left. }
  destruct (validate E (quiet op) fuel d t c start csiz) as [r1|e|]; cbn in H.
  - destruct H as (r2 & -> & (tg & k1 & k2 & H1 & H2 & HT) & HC & _ & (tg' & w1 & w2 & H3 & H4 & HW) & G1 & G2 & G3).
    cbn. f_equal. destruct r1, r2. unfold only_failures. cbn in *. subst.
    injection HC as ->. reflexivity.
  - destruct H as (_ & [->|[]]). reflexivity.
  - destruct H as [->|[]]. reflexivity.
Qed.
Print Assumptions C11_verbosity.

(** In particular the verdict is the same, and so are properties and warnings. *)
Theorem C11_verdict E op fuel d t c start csiz r1 r2 :
  validate E (quiet op) fuel d t c start csiz = Ok r1 ->
  validate E (verbose op) fuel d t c start csiz = Ok r2 ->
  (all_pass (r_tests r1) <-> all_pass (r_tests r2)) /\
  r_valid r1 = r_valid r2 /\ r_chars r1 = r_chars r2 /\ r_warns r1 = r_warns r2.
Proof.
  intros H1 H2. rewrite C11_verbosity, H2 in H1. cbn in H1. injection H1 as <-.
  split; [|auto]. rewrite <- !anyFalse_spec.
  destruct (r_tests r2) as [tg a v k] eqn:ET. unfold only_failures. cbn [r_tests]. rewrite ET.
  enough (anyFalse (Elt tg a v (flat_map failures k)) = anyFalse (Elt tg a v k)) as -> by reflexivity.
  assert (HE : forall k0, anyFalse (Elt tg a v k0) =
    match v with VBool false => true | _ => false end || existsb anyFalse k0).
  { intros k0. rewrite <- (anyFalse_node tg k0). reflexivity. }
  now rewrite !HE, failures_list.
Qed.
Print Assumptions C11_verdict.
(** A file with one failed test (minor version 1): the nineteen groups of tests of
    verbose mode become one test. *)
Example C11_ex :
  let c := firstn 27 ex_file ++ [x01] ++ skipn 28 ex_file in
  let q := validate E0 (quiet (op "jp2" true)) 100 10 (BTs "JP2") c VNone VNone in
  match q with
  | Ok r => r_tests r = node "tests" [node "fileTypeBox" [leaf "minorVersionIsValid" (VBool false)]] /\
            r_valid r = VBool false
  | _ => False
  end /\
  match validate E0 (verbose (op "jp2" true)) 100 10 (BTs "JP2") c VNone VNone with
  | Ok r => len (ekids (r_tests r)) = 19
  | _ => False end.
Proof. vm_compute. repeat split. Qed.

(** ** C12 *)
Lemma outline_plain e : plain (etag e) ->
  outline e = [Elt (etag e) (eattrib e) (etext e) (flat_map outline (ekids e))].
Proof.
  destruct e as [t a v k]. cbn [etag]. intros [H1 H2]. cbn [outline etag eattrib etext ekids].
  replace (existsb (String.eqb t) ["plm"; "ppm"; "plt"; "ppt"]) with false.
  - replace (existsb (String.eqb t) ["xmlBox"; "uuidBox"]) with false; [reflexivity|].
    symmetry. apply not_true_iff_false. intros H. apply existsb_exists in H as (x & Hx & He).
    apply String.eqb_eq in He. subst x. now apply H1.
  - symmetry. apply not_true_iff_false. intros H. apply existsb_exists in H as (x & Hx & He).
    apply String.eqb_eq in He. subst x. now apply H2.
Qed.
Lemma outline_tag e x : In x (outline e) -> etag x = etag e.
Proof.
  destruct e as [t a v k]. cbn [outline]. destruct (existsb _ _); [intros []|].
  destruct (existsb _ _); intros [<-|[]]; reflexivity.
Qed.
Lemma filter_outline t l : plain t ->
  flat_map outline (filter (fun c => String.eqb (etag c) t) l) =
  filter (fun c => String.eqb (etag c) t) (flat_map outline l).
Proof.
  intros Ht. induction l as [|x l IH]; [reflexivity|]. cbn [filter flat_map].
  rewrite filter_app, <- IH. destruct (String.eqb (etag x) t) eqn:ET.
  - cbn [flat_map]. f_equal. apply String.eqb_eq in ET.
    rewrite (outline_plain x) by now rewrite ET. cbn [filter etag]. now rewrite ET, String.eqb_refl.
  - replace (filter (fun c => (etag c =? t)%string) (outline x)) with (@nil elt); [reflexivity|].
    pose proof (outline_tag x) as HO. induction (outline x) as [|y m IHm]; [reflexivity|].
    cbn [filter]. rewrite (HO y) by now left. rewrite ET. apply IHm. intros z Hz. apply HO. now right.
Qed.
Lemma outline_find p e1 e2 :
  flat_map outline [e1] = flat_map outline [e2] -> plain (etag e1) -> Forall plain p ->
  Forall2 (fun a b => flat_map outline [a] = flat_map outline [b] /\ plain (etag a))
          (findall p e1) (findall p e2).
Proof.
  intros HE HT HP. revert e1 e2 HE HT. induction HP as [|t p Ht HP IH]; intros e1 e2 HE HT.
  - constructor; [auto|constructor].
  - cbn [findall].
    assert (HK : flat_map outline (ekids e1) = flat_map outline (ekids e2)).
    { cbn [flat_map] in HE. rewrite !app_nil_r in HE.
      rewrite (outline_plain e1 HT) in HE.
      assert (HT2 : plain (etag e2)).
      { replace (etag e2) with (etag e1); [exact HT|].
        assert (HI : In (Elt (etag e1) (eattrib e1) (etext e1) (flat_map outline (ekids e1))) (outline e2))
          by (rewrite <- HE; now left).
        now apply outline_tag in HI. }
      rewrite (outline_plain e2 HT2) in HE. now injection HE. }
    assert (HF : flat_map outline (filter (fun c => String.eqb (etag c) t) (ekids e1)) =
                 flat_map outline (filter (fun c => String.eqb (etag c) t) (ekids e2)))
      by (rewrite !filter_outline by exact Ht; now rewrite HK).
    assert (HA : forall l, Forall (fun c => etag c = t) (filter (fun c => String.eqb (etag c) t) l)).
    { intros l. apply Forall_forall. intros x Hx. apply filter_In in Hx as (_ & Hx).
      now apply String.eqb_eq. }
    generalize (HA (ekids e1)) (HA (ekids e2)). revert HF.
    generalize (filter (fun c => String.eqb (etag c) t) (ekids e1)) as l1.
    generalize (filter (fun c => String.eqb (etag c) t) (ekids e2)) as l2.
    clear HA HK HE HT e1 e2. intros l2 l1. revert l2.
    induction l1 as [|x l1 IHl]; intros [|y l2] HF F1 F2.
    + constructor.
    + exfalso. inversion F2; subst. cbn [flat_map] in HF. rewrite outline_plain in HF by exact Ht. discriminate.
    + exfalso. inversion F1; subst. cbn [flat_map] in HF. rewrite outline_plain in HF by exact Ht. discriminate.
    + inversion F1 as [|? ? Hx F1']; subst. inversion F2 as [|? ? Hy F2']; subst.
      cbn [flat_map] in HF. rewrite !outline_plain in HF by (rewrite ?Hy; exact Ht).
      injection HF as H1 H2 H3 H4 H5. cbn [flat_map]. apply Forall2_app.
      * apply IH; [|exact Ht]. cbn [flat_map]. rewrite !outline_plain by (rewrite ?Hy; exact Ht).
        now rewrite H1, H2, H3, H4.
      * apply IHl; [exact H5|exact F1'|exact F2'].
Qed.

Lemma outline_packet t e : In t packetish -> etag e = t -> outline e = [].
Proof.
  intros HI HE. destruct e as [t0 a v k]. cbn in HE. subst t0. cbn [outline].
  replace (existsb (String.eqb t) ["plm"; "ppm"; "plt"; "ppt"]) with true; [reflexivity|].
  symmetry. apply existsb_exists. exists t. split; [exact HI|apply String.eqb_refl].
Qed.

Theorem C12_flags E op1 op2 fuel d t c start csiz :
  o_format op1 = o_format op2 -> o_verbose op1 = o_verbose op2 ->
  match validate E op1 fuel d t c start csiz with
  | Ok r1 => exists r2, validate E op2 fuel d t c start csiz = Ok r2 /\ same_outline r1 r2
  | other => validate E op2 fuel d t c start csiz = other
  end.
Proof.
  intros HF HV.
  assert (H : rrel False (fun _ => False) (fun e => In e exns)
    (bvrel eq (fun a b => flat_map outline a = flat_map outline b) eq t)
    (validate E op1 fuel d t c start csiz) (validate E op2 fuel d t c start csiz)).
  { apply validate_rel.
    - exact HF.
    - now left.
    - exs.
    - now intros a b a' b' -> ->.
    - reflexivity.
    - intros n b. now rewrite HV.
    - now intros tg k1 k2 ->.
    - now intros a b ->.
    - now intros a b a' b' -> ->.
    - reflexivity.
    - now intros tg k1 k2 ->.
    - intros a b a' b' H1 H2. now rewrite !flat_map_app, H1, H2.
    - reflexivity.
    - intros tg k1 k2 HK. unfold node. cbn [flat_map outline]. now rewrite HK.
    - right. intros tg k1 k2 [<-|[<-|[]]]; reflexivity.
    - intros tg e1 e2 HI HE HT. cbn [flat_map] in HE. rewrite !app_nil_r in HE.
      rewrite (outline_packet tg e1 HI HT) in HE.
      destruct (o_packet op1), (o_packet op2); cbn [flat_map]; rewrite ?app_nil_r, <- ?HE;
        rewrite ?(outline_packet tg e1 HI HT); reflexivity.
    - intros e1 e2 HE HT. cbn [flat_map] in HE. rewrite !app_nil_r in HE.
      rewrite (outline_plain e1 HT) in HE.
      assert (HT2 : plain (etag e2)).
      { replace (etag e2) with (etag e1); [exact HT|].
        assert (HI : In (Elt (etag e1) (eattrib e1) (etext e1) (flat_map outline (ekids e1))) (outline e2))
          by (rewrite <- HE; now left).
        now apply outline_tag in HI. }
      rewrite (outline_plain e2 HT2) in HE. now injection HE.
    - exact outline_find.
    - now left. }
  destruct (validate E op1 fuel d t c start csiz) as [r1|e|]; cbn in H.
  - destruct H as (r2 & -> & (tg & k1 & k2 & H1 & H2 & HT) & HC & _ & (tg' & w1 & w2 & H3 & H4 & HW) & G1 & G2 & G3).
    exists r2. split; [reflexivity|]. subst. cbn [flat_map] in HC. rewrite !app_nil_r in HC.
    repeat split; congruence.
  - destruct H as (_ & [->|[]]). reflexivity.
  - destruct H as [->|[]]. reflexivity.
Qed.
Print Assumptions C12_flags.
(** The flags do make a difference inside an XML box with a trailing NUL: *)
Example C12_ex :
  let o b := {| o_format := "jp2"; o_verbose := false; o_nullxml := b; o_packet := b |} in
  let x b := validate E0 (o b) 100 10 (BTb [x78; x6d; x6c; x20]) [x3c; x61; x2f; x3e; x00] VNone VNone in
  match x true, x false with
  | Ok r1, Ok r2 => r_chars r1 = node "xmlBox" [node "doc" []] /\ r_chars r2 = node "xmlBox" [] /\
                    r_tests r1 = node "xmlBox" [leaf "containsWellformedXML" (VBool false)]
  | _, _ => False end.
Proof. vm_compute. repeat split. Qed.

(** ** C57 *)
Theorem C57_limits E op fuel fuel' d d' t c start csiz :
  (fuel <= fuel')%nat -> (d <= d')%nat ->
  match validate E op fuel d t c start csiz with
  | Diverge => True
  | Raise RecursionError => True
  | other => validate E op fuel' d' t c start csiz = other
  end.
Proof.
  intros HF HD.
  assert (H : rrel True (eq RecursionError) (fun e => In e exns)
    (bvrel eq eq eq t)
    (validate E op fuel d t c start csiz) (validate E op fuel' d' t c start csiz)).
  { apply validate_rel.
    - reflexivity.
    - right. auto.
    - exs.
    - now intros a b a' b' -> ->.
    - reflexivity.
    - intros n b. reflexivity.
    - now intros tg k1 k2 ->.
    - now intros a b ->.
    - now intros a b a' b' -> ->.
    - reflexivity.
    - now intros tg k1 k2 ->.
    - now intros a b a' b' -> ->.
    - reflexivity.
    - now intros tg k1 k2 ->.
    - now left.
    - intros tg e1 e2 _ HE _. now injection HE as ->.
    - intros e1 e2 HE _. now injection HE as ->.
    - intros p e1 e2 HE. injection HE as ->. now apply eq_find.
    - right. auto. }
  destruct (validate E op fuel d t c start csiz) as [r1|e|]; cbn in H; [| |exact I].
  - destruct H as (r2 & -> & (tg & k1 & k2 & H1 & H2 & HT) & HC & _ & (tg' & w1 & w2 & H3 & H4 & HW) & G1 & G2 & G3).
    f_equal. destruct r1, r2. cbn in *. subst. now injection HC as ->.
  - destruct H as (_ & [->|<-]); [|exact I]. now destruct e.
Qed.
Print Assumptions C57_limits.
(** The limits do matter: the example file needs four levels and eight steps. *)
Example C57_ex :
  (match validate E0 (op "jp2" true) 8 4 (BTs "JP2") ex_file VNone VNone with
   | Ok r => r_valid r = VBool true | _ => False end) /\
  validate E0 (op "jp2" true) 8 3 (BTs "JP2") ex_file VNone VNone = Raise RecursionError /\
  validate E0 (op "jp2" true) 2 4 (BTs "JP2") ex_file VNone VNone = Diverge.
Proof. vm_compute. repeat split. Qed.

(** ** C22: the exceptions that can occur *)
Theorem C22_exceptions E op fuel d t c start csiz e :
  validate E op fuel d t c start csiz = Raise e ->
  In e [TypeError; ValueError; ZeroDivisionError; UnboundLocalError; RecursionError].
Proof.
  intros HR.
  assert (H : rrel False (fun _ => False) (fun e => In e exns)
    (bvrel eq eq eq t)
    (validate E op fuel d t c start csiz) (validate E op fuel d t c start csiz)).
  { apply validate_rel.
    - reflexivity.
    - now left.
    - exs.
    - now intros a b a' b' -> ->.
    - reflexivity.
    - intros n b. reflexivity.
    - now intros tg k1 k2 ->.
    - now intros a b ->.
    - now intros a b a' b' -> ->.
    - reflexivity.
    - now intros tg k1 k2 ->.
    - now intros a b a' b' -> ->.
    - reflexivity.
    - now intros tg k1 k2 ->.
    - now left.
    - intros tg e1 e2 _ HE _. now injection HE as ->.
    - intros e1 e2 HE _. now injection HE as ->.
    - intros p e1 e2 HE. injection HE as ->. now apply eq_find.
    - now left. }
  rewrite HR in H. cbn in H. now destruct H as (H & _).
Qed.
Print Assumptions C22_exceptions.
(** Each of the five does occur, so the claim that analysis never raises is
    false: for every format, option setting, sufficient step budget and recursion
    limit there is a file on which it raises that exception. *)
Definition hdr0 : bytes := [x00; x00; x00; x00; x6a; x70; x32; x68].   (* length 0, jp2h *)
Lemma getBox_rest h x : len h = 8 -> bytesToUInt (firstn 4 h) = 0 ->
  getBox (h ++ x) 0 (len (h ++ x)) = (len (h ++ x), skipn 4 h, len (h ++ x), x).
Proof.
  intros HL H0. unfold getBox. pose proof (len_nonneg x) as HX.
  assert (HLn : List.length h = 8%nat) by (unfold len in HL; lia).
  rewrite !slice_pos by (rewrite ?len_app; lia). cbn [Z.to_nat skipn].
  replace (firstn (Z.to_nat (0 + 4 - 0)) (h ++ x)) with (firstn 4 h)
    by (rewrite firstn_app, HLn; change (Z.to_nat (0 + 4 - 0)) with 4%nat; cbn; now rewrite app_nil_r).
  rewrite H0. cbn [Z.eqb]. cbv beta iota zeta. rewrite Z.sub_0_r, !Z.add_0_l.
  destruct h as [|b0 [|b1 [|b2 [|b3 [|b4 [|b5 [|b6 [|b7 [|]]]]]]]]]; try discriminate HLn.
  rewrite slice_pos by (rewrite ?len_app; lia).
  change (Z.to_nat (8 - 4)) with 4%nat. change (Z.to_nat 4) with 4%nat. change (Z.to_nat 8) with 8%nat.
  cbn [skipn firstn app]. rewrite (firstn_all2 x); [reflexivity|].
  rewrite !len_cons. unfold len. lia.
Qed.

Lemma nested_raises E op fuel d :
  validate E op (S fuel) d (BTb tagJP2H) (List.concat (repeat hdr0 d)) VNone VNone = Raise RecursionError.
Proof.
  induction d as [|d IH]; [reflexivity|].
  cbn [validate]. unfold runMethod.
  replace (method E (validate E op (S fuel) d) (S fuel) _ (boxTypeOf _))
    with (Some (validate_jp2HeaderBox (validate E op (S fuel) d) (S fuel)
      {| s_opts := op; s_btype := BTb tagJP2H; s_contents := List.concat (repeat hdr0 (S d));
         s_start := VNone; s_csiz := VNone |})) by reflexivity.
  cbv beta iota. unfold validate_jp2HeaderBox, boxLoop. cbv zeta. cbn [s_contents repeat List.concat].
  cbn [loop]. unfold bind at 1 2.
  replace ((0 <? len (hdr0 ++ List.concat (repeat hdr0 d))) && negb (Zin 10 [0; -9999])) with true.
  2:{ rewrite len_app. pose proof (len_nonneg (List.concat (repeat hdr0 d))).
      change (len hdr0) with 8. symmetry. apply andb_true_intro. split; [apply Z.ltb_lt; lia|reflexivity]. }
  rewrite (getBox_rest hdr0) by reflexivity.
  unfold attach, attachIf, bind, lift. change (skipn 4 hdr0) with tagJP2H. now rewrite IH.
Qed.

Lemma validate_S E op fuel d t c start csiz :
  validate E op fuel (S d) t c start csiz =
  match runMethod E (validate E op fuel d) fuel
          {| s_opts := op; s_btype := t; s_contents := c; s_start := start; s_csiz := csiz |} st0 with
  | Ok (_, s) => Ok (bv_of t s) | Raise e => Raise e | Diverge => Diverge end.
Proof. reflexivity. Qed.
Lemma first_raises E op fuel d c v ty en sb e :
  c <> [] -> getBox c 0 (len c) = (v, ty, en, sb) ->
  validate E op (S fuel) d (BTb ty) sb VNone VNone = Raise e ->
  validate E op (S fuel) (S d) (BTs "JP2") c VNone VNone = Raise e.
Proof.
  intros Hc HB HR. cbn [validate]. unfold runMethod.
  replace (method E (validate E op (S fuel) d) (S fuel) _ (boxTypeOf _))
    with (Some (validate_JP2 (validate E op (S fuel) d) (S fuel)
      {| s_opts := op; s_btype := BTs "JP2"; s_contents := c;
         s_start := VNone; s_csiz := VNone |})) by reflexivity.
  cbv beta iota. unfold validate_JP2, boxLoop. cbv zeta. cbn [s_contents].
  cbn [loop]. unfold bind at 1 2.
  replace ((0 <? len c) && negb (Zin 10 [0; -9999])) with true.
  2:{ destruct c as [|b c]; [contradiction|]. rewrite len_cons. pose proof (len_nonneg c).
      symmetry. apply andb_true_intro. split; [apply Z.ltb_lt; lia|reflexivity]. }
  rewrite HB. unfold attach, attachIf, bind, lift. now rewrite HR.
Qed.

Definition raiser (d : nat) (e : exn) : bytes :=
  match e with
  | TypeError => [x00; x00; x00; x0a; xff; x53]                   (* cut-off box of type FF53 *)
  | ValueError => [x00; x00; x00; x08; x75; x75; x69; x64]        (* empty UUID box *)
  | ZeroDivisionError => [x00; x00; x00; x12; x72; x65; x73; x63] ++ repeat x00 10
  | UnboundLocalError =>                                          (* codestream with Rsiz = 8 *)
      [x00; x00; x00; x00; x6a; x70; x32; x63; xff; x4f; xff; x51; x00; x04; x00; x08]
  | _ => List.concat (repeat hdr0 d)
  end.

Theorem C22_never_raises_refuted E op fuel d e :
  In e [TypeError; ValueError; ZeroDivisionError; UnboundLocalError; RecursionError] ->
  (3 <= d)%nat -> (1 <= fuel)%nat ->
  validate E op fuel d (BTs "JP2") (raiser d e) VNone VNone = Raise e.
Proof.
  intros He Hd Hf. destruct fuel as [|fuel]; [lia|]. destruct d as [|[|[|d]]]; try lia.
  cbn [In] in He. destruct He as [<-|[<-|[<-|[<-|[<-|[]]]]]].
  - eapply first_raises; [discriminate|vm_compute; reflexivity|]. apply no_csiz_raises. cbn. tauto.
  - eapply first_raises; [discriminate|vm_compute; reflexivity|]. apply uuid_short_raises.
    vm_compute. reflexivity.
  - eapply first_raises; [discriminate|vm_compute; reflexivity|].
    apply res_raises; vm_compute; tauto.
  - eapply first_raises; [discriminate|vm_compute; reflexivity|].
    rewrite validate_S. unfold runMethod.
    match goal with |- context [method ?E ?rec ?fuel ?f (boxTypeOf _)] =>
      replace (method E rec fuel f _) with (Some (validate_contiguousCodestreamBox rec fuel f)) by reflexivity end.
    cbv beta iota. unfold validate_contiguousCodestreamBox. cbv zeta. cbn [s_contents].
    match goal with |- context [getMarkerSegment ?c 0] =>
      replace (getMarkerSegment c 0) with (mSOC, 0, @nil byte, 2) by (vm_compute; reflexivity);
      replace (getMarkerSegment c 2) with (mSIZ, 4, [x00; x04; x00; x08], 8) by (vm_compute; reflexivity) end.
    replace (bytes_eqb mSIZ mSIZ) with true by reflexivity. cbv beta iota. cbn [when].
    erewrite (emits_raise op); [reflexivity|apply emits_test|]. intros s1. cbv beta.
    eapply (emits_raise op); [apply emits_test|]. intros s2. cbv beta.
    unfold attach, attachIf, bind, lift. rewrite siz_raises by (vm_compute; reflexivity). reflexivity.
  - eapply first_raises; [discriminate|apply (getBox_rest hdr0); reflexivity|].
    apply nested_raises.
Qed.
Print Assumptions C22_never_raises_refuted.
Example C22_ex :
  map (fun e => raises (validate E0 (op "jp2" false) 10 20 (BTs "JP2") (raiser 20 e) VNone VNone))
      [TypeError; ValueError; ZeroDivisionError; UnboundLocalError; RecursionError] =
  map Some [TypeError; ValueError; ZeroDivisionError; UnboundLocalError; RecursionError] /\
  match validate E0 (op "jp2" false) 10 21 (BTs "JP2") (raiser 20 RecursionError) VNone VNone with
  | Ok r => r_valid r = VBool false | _ => False end.
Proof. vm_compute. repeat split. Qed.
