(** * How long the numbers of a report are: C82 *)

From Coq Require Import ZArith List Bool String Lia.
From Coq Require Import ZifyBool.
From Coq Require Import Init.Byte.
From Verif Require Import Py ETree Remap BV VSuper CheckFile Spec SpecText SpecSmall PBase PHuman PSmall Ex Prop_Check Prop_Env.
Import ListNotations.
Open Scope string_scope.
Open Scope list_scope.
Open Scope Z_scope.

Lemma pow_93_28 k : 0 <= k -> 2 ^ (93 * k) <= 10 ^ (28 * k).
Proof. intros Hk. rewrite !Z.pow_mul_r by lia. apply Z.pow_le_mono_l. now vm_compute. Qed.
Lemma wide_any a k n : 1 <= k -> a <= 93 * k -> 28 * k + 1 <= n -> 4095 + 2 ^ a < 10 ^ n.
Proof.
  intros Hk Ha Hn. pose proof (pow_93_28 k ltac:(lia)) as H1. pose proof (Z.pow_le_mono_r 2 a (93 * k) ltac:(lia) Ha) as H2.
  pose proof (Z.pow_le_mono_r 10 (28 * k + 1) n ltac:(lia) Hn) as H3. pose proof (Z.pow_le_mono_r 10 28 (28 * k) ltac:(lia) ltac:(lia)) as H4.
  rewrite Z.pow_add_r in H3 by lia. change (10 ^ 1) with 10 in H3. change (10 ^ 28) with 10000000000000000000000000000 in H4. lia.
Qed.
Lemma wide_any' n : 91 <= n -> 2 ^ 300 < 10 ^ n.
Proof. intros Hn. eapply Z.lt_le_trans; [|apply (Z.pow_le_mono_r 10 91); lia]. now vm_compute. Qed.
Lemma wide_digits : wide_max < 10 ^ 158000.
Proof. apply (wide_any (16 * 32766) 5638 158000); lia. Qed.
Lemma parsed_sized e : without_numbers e -> sized e.
Proof. apply every_impl. intros t v H. destruct v; try exact I. now destruct (H z). Qed.
Lemma sized_short e : sized e -> digits 91 (fun t => ~ wide_tag t) e.
Proof.
  apply every_impl. intros t v H HT z ->. destruct H as [(HW & _)|H].
  - exfalso. apply HT. cbn in HW. unfold wide_tag. intuition congruence.
  - eapply Z.lt_trans; [exact H|]. now vm_compute.
Qed.
Lemma sized_wide e : sized e -> digits 158000 (fun _ => True) e.
Proof.
  apply every_impl. intros t v H _ z ->. pose proof wide_digits as HW. destruct H as [(_ & H)|H]; [eapply Z.le_lt_trans; [exact H|exact HW]|].
  eapply Z.lt_trans; [exact H|]. apply wide_any'. clear. lia.
Qed.

(** Whatever the file: numbers other than PRFnum and CPFnum have at most 91 digits, and
    those two at most 158000. *)
Theorem C82_numbers E op fuel d t x st cz r e :
  (forall b p, xml_parse E b = Some p -> without_numbers p) -> Z.of_nat fuel < 2 ^ 299 ->
  validate E op fuel d t x st cz = Ok r -> In e [r_tests r; r_chars r; r_warns r] ->
  digits 91 (fun t => ~ wide_tag t) e /\ digits 158000 (fun _ => True) e.
Proof.
  intros HX HF HV HI. destruct (validate_sized E op fuel d t x st cz r (fun b p H => parsed_sized p (HX b p H)) HF HV) as (H1 & H2 & H3).
  assert (HS : sized e) by (cbn in HI; destruct HI as [<-|[<-|[<-|[]]]]; assumption). split; [now apply sized_short|now apply sized_wide].
Qed.

Lemma text_same cat l v : 1 <= l -> (forall z, v = VInt z -> Z.abs z < 10 ^ l) -> textOut cat (Some l) v = textOut cat None v.
Proof.
  intros Hl H. destruct v; try reflexivity. cbn. pose proof (proj2 (ndigits_spec l z Hl) (H z eq_refl)). replace (l <? ndigits z) with false by lia. reflexivity.
Qed.
Lemma remap_kept tbl t v : remap tbl t v = v \/ exists s, remap tbl t v = VStr s.
Proof. unfold remap. destruct (remap_tag t tbl); [|now left]. destruct (remap_val v _); [right; eauto|now left]. Qed.
Lemma readable_same cat l tbl e : 1 <= l -> digits l (fun _ => True) e -> makeHumanReadable cat (Some l) tbl e = makeHumanReadable cat None tbl e.
Proof.
  intros Hl. induction e as [t a v k IH] using elt_ind'. intros H. inversion H as [? ? ? ? HV HK]; subst. rewrite !mhr_unfold.
  rewrite (text_same cat l) by (exact Hl || (destruct (remap_kept tbl t v) as [->|(s & ->)]; [exact (HV I)|discriminate])).
  destruct (textOut cat None (remap tbl t v)) as [v'| |]; [|reflexivity..]. cbn [rbind].
  match goal with |- context [?g k] => match g with context [makeHumanReadable cat (Some l) tbl] => set (go := g) end end.
  match goal with |- context [?g k] => match g with context [makeHumanReadable cat None tbl] => set (go0 := g) end end.
  assert (HG : go k = go0 k).
  { clear v' H HV. induction k as [|x k IHk]; [reflexivity|]. inversion IH; inversion HK; subst. unfold go, go0. cbn.
    match goal with HH : digits l _ x -> _ |- _ => rewrite HH by assumption end.
    destruct (makeHumanReadable cat None tbl x) as [x'| |]; [|reflexivity..]. cbn [rbind].
    change (rbind (go k) (fun r => Ok (x' :: r)) = rbind (go0 k) (fun r => Ok (x' :: r))). now rewrite IHk. }
  now rewrite HG.
Qed.
Lemma digits_both l e : 91 <= l -> digits 91 (fun t => ~ wide_tag t) e -> digits l wide_tag e -> digits l (fun _ => True) e.
Proof.
  intros Hl. induction e as [t a v k IH] using elt_ind'. intros H1 H2. inversion H1 as [? ? ? ? V1 K1]; inversion H2 as [? ? ? ? V2 K2]; subst. constructor.
  - intros _ z Hz. destruct (string_dec t "PRFnum") as [E1|E1]; [exact (V2 (or_introl E1) z Hz)|].
    destruct (string_dec t "CPFnum") as [E2|E2]; [exact (V2 (or_intror E2) z Hz)|].
    eapply Z.lt_le_trans; [apply V1; [|exact Hz]|apply Z.pow_le_mono_r; lia]. intros [HH|HH]; contradiction.
  - rewrite Forall_forall in *. intros x Hx. exact (IH x Hx (K1 x Hx) (K2 x Hx)).
Qed.
(** With a limit of at least 91 digits — Python permits none between 1 and 639 — the
    report is the same as without a limit unless PRFnum or CPFnum are longer. *)
Theorem C82_limit E l fuel depth path fo o mix :
  (forall b p, xml_parse E b = Some p -> without_numbers p) -> Z.of_nat fuel < 2 ^ 299 -> 91 <= l ->
  (forall data w root r e, fileToMemoryMap path (fo_map fo) = Ok (data, w) -> rootBox (o_format o) = Some root ->
     validate (limit_with E None) o fuel depth root data VNone VNone = Ok r -> In e [r_tests r; r_chars r; r_warns r] -> digits l wide_tag e) ->
  checkOneFile (limit_with E (Some l)) fuel depth path fo o mix = checkOneFile (limit_with E None) fuel depth path fo o mix.
Proof.
  intros HX HF Hl HW.
  assert (HA : analyse (limit_with E (Some l)) fuel depth path (fo_map fo) o = analyse (limit_with E None) fuel depth path (fo_map fo) o).
  { unfold analyse. destruct (fileToMemoryMap path (fo_map fo)) as [(data, fmm)| |] eqn:HM; [|reflexivity..]. cbn [rbind]. destruct (rootBox (o_format o)) as [root|] eqn:HR; [|reflexivity].
    rewrite (validate_limit E o fuel (Some l) None depth). destruct (validate _ _ _ _ _ _ _ _) as [r| |] eqn:HV; [|reflexivity..]. cbn [rbind]. cbv zeta.
    cbn [catC str_limit limit_with].
    assert (HD : forall e, In e [r_tests r; r_chars r; r_warns r] -> digits l (fun _ => True) e).
    { intros e He. apply digits_both; [exact Hl| |exact (HW _ _ _ _ _ eq_refl eq_refl HV He)].
      exact (proj1 (C82_numbers (limit_with E None) o fuel depth root data VNone VNone r e HX HF HV He)). }
    rewrite (readable_same _ l [] (r_tests r)) by (lia || (apply HD; cbn; auto)).
    rewrite (readable_same _ l propertiesRemapTable (r_chars r)) by (lia || (apply HD; cbn; auto)).
    match goal with |- context [makeHumanReadable (catC E) (Some l) [] ?w] => rewrite (readable_same _ l [] w); [reflexivity|lia|] end.
    specialize (HD (r_warns r) ltac:(cbn; auto)). destruct (r_warns r) as [t a v k]. cbn. inversion HD as [? ? ? ? V K]; subst. constructor; [exact V|].
    apply Forall_app. split; [exact K|]. apply Forall_map. apply Forall_forall. intros w _. constructor; [intros _ z; discriminate|constructor]. }
  unfold checkOneFile. rewrite HA. reflexivity.
Qed.
(** A limit of 158000 digits never makes a difference. *)
Theorem C82_no_limit E l fuel depth path fo o mix :
  (forall b p, xml_parse E b = Some p -> without_numbers p) -> Z.of_nat fuel < 2 ^ 299 -> 158000 <= l ->
  checkOneFile (limit_with E (Some l)) fuel depth path fo o mix = checkOneFile (limit_with E None) fuel depth path fo o mix.
Proof.
  intros HX HF Hl. apply C82_limit; [exact HX|exact HF|lia|]. intros data w root r e _ _ HV He.
  pose proof (proj2 (C82_numbers (limit_with E None) o fuel depth root data VNone VNone r e HX HF HV He)) as H. revert H. apply every_impl.
  intros t v H _ z Hz. apply (Z.lt_le_trans _ _ _ (H I z Hz)). apply Z.pow_le_mono_r; [reflexivity|exact Hl].
Qed.
(** Both happen: a number of more than 640 digits, which is PRFnum, and none in an
    ordinary codestream. *)
Fixpoint find_long (n : Z) (e : elt) : list string :=
  let 'Elt t _ v k := e in
  (match v with VInt z => if n <=? Z.abs z then [t] else [] | _ => [] end) ++ flat_map (find_long n) k.
Theorem C82_ex :
  match validate E0 (op "j2c" false) 100 10 (BTs "contiguousCodestreamBox") ex_prf VNone VNone with
  | Ok r => find_long (10 ^ 640) (r_chars r) = ["PRFnum"] | _ => False end /\
  match validate E0 (op "j2c" false) 100 10 (BTs "contiguousCodestreamBox") ex_cs VNone VNone with
  | Ok r => find_long (10 ^ 640) (r_chars r) = [] /\ find_long 1 (r_chars r) <> [] | _ => False end.
Proof. split; [now vm_compute|]. vm_compute. split; [reflexivity|discriminate]. Qed.

(** The assumption on the parser holds in [E0], so ordinary codestreams have the same
    report under Python's default limit; the one above does not. *)
Theorem C82_ex_limit : (forall b p, xml_parse E0 b = Some p -> without_numbers p) /\
  checkOneFile (limit_with E0 (Some 4300)) 100 10 (pys "a") (ex_fo (Mapped ex_cs)) (op "j2c" false) 0 =
  checkOneFile (limit_with E0 None) 100 10 (pys "a") (ex_fo (Mapped ex_cs)) (op "j2c" false) 0 /\
  ex_says (Some 640) <> ex_says None.
Proof.
  split; [|split; [now vm_compute|destruct C81_limit_matters as (_ & -> & ->); discriminate]].
  intros b p. cbn. destruct b as [|x r]; [discriminate|]. destruct x; try discriminate. destruct (rev r) as [|y l]; [discriminate|].
  destruct y; try discriminate. intros HE. injection HE as <-. constructor; [discriminate|constructor].
Qed.

Definition all_theorems := (C82_numbers, C82_limit, C82_no_limit, C82_ex, C82_ex_limit).
Print Assumptions all_theorems.
