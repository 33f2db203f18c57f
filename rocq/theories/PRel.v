(** * Two runs of the validators compared

    One induction over all validators, from which several properties follow by
    choosing the relations between the trees of the two runs. *)

From Coq Require Import ZArith List Bool String Lia.
From Coq Require Import Init.Byte.
From Verif Require Import Py PyFloat ByteConv Shared ETree BV VBoxes VMarkers VSuper PBase.
Import ListNotations.
Open Scope string_scope.
Open Scope list_scope.
Open Scope Z_scope.

Definition xmlish : list string := ["xmlBox"; "uuidBox"].
Definition packetish : list string := ["plm"; "ppm"; "plt"; "ppt"].
Definition plain (t : string) : Prop := ~ In t xmlish /\ ~ In t packetish.

Ltac plain := split; cbn; intuition discriminate.

Section Rel.
Variable E : env.
Variables op1 op2 : opts.
Variables fuel1 fuel2 : nat.
Variables RT RC0 RW : list elt -> list elt -> Prop.
Variable dv : Prop.            (* the first run may diverge on its own *)
Variables rx Ex : exn -> Prop. (* exceptions only the first run may raise; all exceptions *)

Hypothesis Hfmt : o_format op1 = o_format op2.
Hypothesis Hfuel : fuel1 = fuel2 \/ dv /\ (fuel1 <= fuel2)%nat.
Hypothesis HEx : Ex TypeError /\ Ex ValueError /\ Ex ZeroDivisionError /\ Ex UnboundLocalError
                 /\ Ex RecursionError.

Hypothesis RT_app : forall a b a' b', RT a a' -> RT b b' -> RT (a ++ b) (a' ++ b').
Hypothesis RT_nil : RT [] [].
Hypothesis RT_test : forall n b,
  RT (if negb (o_verbose op1) && b then [] else [leaf n (VBool b)])
     (if negb (o_verbose op2) && b then [] else [leaf n (VBool b)]).
Hypothesis RT_ne : forall t k1 k2, RT k1 k2 ->
  RT (match k1 with [] => [] | _ => [node t k1] end)
     (match k2 with [] => [] | _ => [node t k2] end).
Hypothesis RT_valid : forall a b, RT a b -> existsb anyFalse a = existsb anyFalse b.

Hypothesis RW_app : forall a b a' b', RW a a' -> RW b b' -> RW (a ++ b) (a' ++ b').
Hypothesis RW_refl : forall a, RW a a.
Hypothesis RW_ne : forall t k1 k2, RW k1 k2 ->
  RW (match k1 with [] => [] | _ => [node t k1] end)
     (match k2 with [] => [] | _ => [node t k2] end).

Hypothesis RC_app : forall a b a' b', RC0 a a' -> RC0 b b' -> RC0 (a ++ b) (a' ++ b').
Hypothesis RC_refl : forall a, RC0 a a.
Hypothesis RC_node : forall t k1 k2, RC0 k1 k2 -> RC0 [node t k1] [node t k2].
Hypothesis RC_xml : o_nullxml op1 = o_nullxml op2 \/
  forall t k1 k2, In t xmlish -> RC0 [node t k1] [node t k2].
Hypothesis RC_packet : forall t e1 e2, In t packetish -> RC0 [e1] [e2] -> etag e1 = t ->
  RC0 (if o_packet op1 then [e1] else []) (if o_packet op2 then [e2] else []).
Hypothesis RC_text : forall e1 e2, RC0 [e1] [e2] -> plain (etag e1) -> etext e1 = etext e2.
Hypothesis RC_find : forall p e1 e2,
  RC0 [e1] [e2] -> plain (etag e1) -> Forall plain p ->
  Forall2 (fun a b => RC0 [a] [b] /\ plain (etag a)) (findall p e1) (findall p e2).

Definition rrel {A B} (P : A -> B -> Prop) (r1 : res A) (r2 : res B) : Prop :=
  match r1 with
  | Ok a => exists b, r2 = Ok b /\ P a b
  | Raise e => Ex e /\ (r2 = Raise e \/ rx e)
  | Diverge => r2 = Diverge \/ dv
  end.

Section WithRC.
Variable RC : list elt -> list elt -> Prop.

Definition srel (s1 s2 : st) : Prop :=
  RT (st_tests s1) (st_tests s2) /\ RC (st_chars s1) (st_chars s2) /\
  RW (st_warns s1) (st_warns s2) /\
  st_ret s1 = st_ret s2 /\ st_valid s1 = st_valid s2 /\ st_tpl s1 = st_tpl s2.

Definition mrel {A B} (P : A -> B -> Prop) (m1 : M A) (m2 : M B) : Prop :=
  forall s1 s2, srel s1 s2 ->
  rrel (fun x y => P (fst x) (fst y) /\ srel (snd x) (snd y)) (m1 s1) (m2 s2).

Lemma mrel_ret {A B} (P : A -> B -> Prop) a b : P a b -> mrel P (ret a) (ret b).
Proof. intros H s1 s2 HS. exists (b, s2). auto. Qed.

Lemma mrel_bind {A B A' B'} (P : A -> B -> Prop) (Q : A' -> B' -> Prop) m1 m2 k1 k2 :
  mrel P m1 m2 -> (forall a b, P a b -> mrel Q (k1 a) (k2 b)) ->
  mrel Q (bind m1 k1) (bind m2 k2).
Proof.
  intros H1 H2 s1 s2 HS. unfold bind. specialize (H1 s1 s2 HS).
  destruct (m1 s1) as [[a s1']|e|]; cbn in H1.
  - destruct H1 as ([b s2'] & -> & HP & HS'). now apply H2.
  - destruct H1 as (HE & [->|HR]); cbn; auto.
  - destruct H1 as [->|HD]; cbn; auto.
Qed.

Lemma mrel_lift {A B} (P : A -> B -> Prop) r1 r2 : rrel P r1 r2 -> mrel P (lift r1) (lift r2).
Proof.
  intros H s1 s2 HS. unfold lift. destruct r1 as [a|e|]; cbn in *.
  - destruct H as (b & -> & HP). exists (b, s2). auto.
  - destruct H as (HE & [->|HR]); auto.
  - destruct H as [->|HD]; auto.
Qed.

Lemma mrel_lift_eq {A} (r : res A) :
  match r with Raise e => Ex e | _ => True end -> mrel eq (lift r) (lift r).
Proof. intros H. apply mrel_lift. destruct r as [a|e|]; cbn; eauto. Qed.

Lemma mrel_raise {A} e : Ex e -> @mrel A A eq (raise e) (raise e).
Proof. intros H s1 s2 HS. cbn. auto. Qed.

Lemma mrel_test n b : mrel eq (testFor op1 n b) (testFor op2 n b).
Proof.
  intros s1 s2 (H1 & H2 & H3 & H4 & H5 & H6). pose proof (RT_test n b) as HT.
  unfold testFor, add_test, ret.
  destruct (o_verbose op1), (o_verbose op2), b; cbn in *;
    (eexists; split; [reflexivity|split; [reflexivity|repeat split; cbn; auto]]);
    try (now apply RT_app);
    try (rewrite <- (app_nil_r (st_tests s1)); now apply RT_app);
    try (rewrite <- (app_nil_r (st_tests s2)); now apply RT_app).
Qed.

Lemma mrel_warning m : mrel eq (addWarning m) (addWarning m).
Proof.
  intros s1 s2 (H1 & H2 & H3 & H4 & H5 & H6).
  eexists; split; [reflexivity|split; [reflexivity|repeat split; cbn; auto]].
Qed.

Lemma mrel_when b m1 m2 : mrel eq m1 m2 -> mrel eq (when b m1) (when b m2).
Proof. intros H. destruct b; [exact H | now apply mrel_ret]. Qed.

Lemma mrel_if {A B} (P : A -> B -> Prop) (b : bool) m1 m2 n1 n2 :
  mrel P m1 m2 -> mrel P n1 n2 -> mrel P (if b then m1 else n1) (if b then m2 else n2).
Proof. now destruct b. Qed.

Lemma mrel_for {S} n (s0 : S) f1 f2 :
  (forall i s, mrel eq (f1 i s) (f2 i s)) ->
  mrel eq (for_range n s0 f1) (for_range n s0 f2).
Proof.
  intros H. unfold for_range. generalize 0 as i. revert s0.
  induction (Z.to_nat n) as [|k IH]; intros s0 i; cbn [for_n]; [now apply mrel_ret|].
  eapply mrel_bind; [apply H|]. intros a b <-. apply IH.
Qed.

Lemma mrel_loop {A B} (body1 body2 : A -> M (A + B)) (PA : A -> A -> Prop) (PB : B -> B -> Prop) :
  (forall a a', PA a a' -> mrel (fun x y => match x, y with
      | inl u, inl v => PA u v | inr u, inr v => PB u v | _, _ => False end)
      (body1 a) (body2 a')) ->
  forall a a', PA a a' -> mrel PB (loop fuel1 body1 a) (loop fuel2 body2 a').
Proof.
  intros H. revert fuel2 Hfuel.
  induction fuel1 as [|f1 IH]; intros f2 HF a a' HA.
  - intros s1 s2 HS. cbn. destruct HF as [<-|[HD _]]; auto.
  - destruct f2 as [|f2]; [destruct HF as [?|[_ ?]]; lia|].
    cbn [loop]. eapply mrel_bind; [apply H, HA|].
    intros [u|u] [v|v] HP; try contradiction; cbn in *.
    + apply IH; [|exact HP]. destruct HF as [HF|[HD HF]]; [left; lia | right; split; [exact HD|lia]].
    + now apply mrel_ret.
Qed.

Lemma mrel_mono {A B} (P Q : A -> B -> Prop) m1 m2 :
  mrel P m1 m2 -> (forall a b, P a b -> Q a b) -> mrel Q m1 m2.
Proof.
  intros H HPQ s1 s2 HS. specialize (H s1 s2 HS). unfold rrel in *.
  destruct (m1 s1) as [a|e|]; auto. destruct H as (b & HB & HP & HS'). eauto.
Qed.

Lemma mrel_set_ret v : mrel eq (set_ret v) (set_ret v).
Proof.
  intros s1 s2 (H1 & H2 & H3 & H4 & H5 & H6).
  eexists; split; [reflexivity|split; [reflexivity|repeat split; cbn; auto]].
Qed.
Lemma mrel_set_valid v : mrel eq (set_valid v) (set_valid v).
Proof.
  intros s1 s2 (H1 & H2 & H3 & H4 & H5 & H6).
  eexists; split; [reflexivity|split; [reflexivity|repeat split; cbn; auto]].
Qed.
Lemma mrel_set_tpl v : mrel eq (set_tpl v) (set_tpl v).
Proof.
  intros s1 s2 (H1 & H2 & H3 & H4 & H5 & H6).
  eexists; split; [reflexivity|split; [reflexivity|repeat split; cbn; auto]].
Qed.

Lemma mrel_isValid : mrel eq isValid_of isValid_of.
Proof.
  intros s1 s2 HS. exists (negb (existsb anyFalse (st_tests s2)), s2). cbn.
  split; [reflexivity|]. split; [|exact HS]. destruct HS as (H1 & _). now rewrite (RT_valid _ _ H1).
Qed.

Lemma mrel_get_chars : mrel (fun e1 e2 => exists l1 l2, e1 = node "" l1 /\ e2 = node "" l2 /\ RC l1 l2)
                            get_chars get_chars.
Proof.
  intros s1 s2 HS. eexists. split; [reflexivity|]. cbn. split; [|exact HS].
  destruct HS as (_ & H2 & _). eauto.
Qed.

Definition tree_rel (R : list elt -> list elt -> Prop) (e1 e2 : elt) : Prop :=
  exists t k1 k2, e1 = node t k1 /\ e2 = node t k2 /\ R k1 k2.

Lemma mrel_test_ne e1 e2 : tree_rel RT e1 e2 -> mrel eq (add_test_ne e1) (add_test_ne e2).
Proof.
  intros (t & k1 & k2 & -> & -> & HR) s1 s2 (H1 & H2 & H3 & H4 & H5 & H6).
  pose proof (RT_ne t _ _ HR) as HN. unfold add_test_ne. cbn [ekids node].
  destruct k1, k2; cbn in *;
    (eexists; split; [reflexivity|split; [reflexivity|repeat split; cbn; auto]]);
    try (now apply RT_app);
    try (rewrite <- (app_nil_r (st_tests s1)); now apply RT_app);
    try (rewrite <- (app_nil_r (st_tests s2)); now apply RT_app).
Qed.

Lemma mrel_warn_ne e1 e2 : tree_rel RW e1 e2 -> mrel eq (add_warn_ne e1) (add_warn_ne e2).
Proof.
  intros (t & k1 & k2 & -> & -> & HR) s1 s2 (H1 & H2 & H3 & H4 & H5 & H6).
  pose proof (RW_ne t _ _ HR) as HN. unfold add_warn_ne. cbn [ekids node].
  destruct k1, k2; cbn in *;
    (eexists; split; [reflexivity|split; [reflexivity|repeat split; cbn; auto]]);
    try (now apply RW_app);
    try (rewrite <- (app_nil_r (st_warns s1)); now apply RW_app);
    try (rewrite <- (app_nil_r (st_warns s2)); now apply RW_app).
Qed.

Hypothesis RCa : forall a b a' b', RC a a' -> RC b b' -> RC (a ++ b) (a' ++ b').
Hypothesis RCr : forall a, RC a a.

Lemma mrel_add_char e1 e2 : RC [e1] [e2] -> mrel eq (add_char e1) (add_char e2).
Proof.
  intros HR s1 s2 (H1 & H2 & H3 & H4 & H5 & H6).
  eexists; split; [reflexivity|split; [reflexivity|repeat split; cbn; auto]].
Qed.
Lemma mrel_addCharacteristic n v : mrel eq (addCharacteristic n v) (addCharacteristic n v).
Proof. apply mrel_add_char, RCr. Qed.
Lemma mrel_addInt n v : mrel eq (addInt n v) (addInt n v).
Proof. apply mrel_add_char, RCr. Qed.

End WithRC.

(** ** Straight-line validators *)
Lemma Ex_as_int v : match as_int v with Raise e => Ex e | _ => True end.
Proof. destruct HEx as (HT & _). destruct v; cbn; auto. Qed.
Lemma Ex_uuid b : match uuidStr b with Raise e => Ex e | _ => True end.
Proof. destruct HEx as (_ & HT & _). unfold uuidStr. destruct (len b =? 16); cbn; auto. Qed.
Lemma Ex_res a b c : match resolutionValue E a b c with Raise e => Ex e | _ => True end.
Proof. destruct HEx as (_ & _ & HT & _). unfold resolutionValue. destruct (b =? 0); cbn; auto. Qed.

Ltac side := first [assumption | exact RC_app | exact RC_refl | reflexivity].
Ltac mstep :=
  lazymatch goal with
  | |- mrel _ _ (bind (attachICC _ _) _) _ => fail
  | |- mrel _ _ (bind _ _) (bind _ _) =>
      eapply (mrel_bind _ eq); [| intros ?x ? <-]
  | |- mrel _ _ (testFor _ _ _) _ => apply mrel_test
  | |- mrel _ _ (addInt _ _) _ => apply mrel_addInt; side
  | |- mrel _ _ (addCharacteristic _ _) _ => apply mrel_addCharacteristic; side
  | |- mrel _ _ (addWarning _) _ => apply mrel_warning
  | |- mrel _ _ (add_char ?e) (add_char ?e) => apply mrel_add_char; [side | now auto]
  | |- mrel _ _ (ret _) _ => apply mrel_ret; reflexivity
  | |- mrel _ _ (raise UnboundLocalError) _ => apply mrel_raise; apply HEx
  | |- mrel _ _ (when _ _) _ => apply mrel_when
  | |- mrel _ _ (for_range _ _ _) _ => apply mrel_for; intros ?i ?s
  | |- mrel _ _ (lift (as_int _)) _ => apply mrel_lift_eq, Ex_as_int
  | |- mrel _ _ (lift (uuidStr _)) _ => apply mrel_lift_eq, Ex_uuid
  | |- mrel _ _ (lift (resolutionValue _ _ _ _)) _ => apply mrel_lift_eq, Ex_res
  | |- mrel _ _ (set_tpl _) _ => apply mrel_set_tpl
  | |- mrel _ _ (let '(_, _) := ?x in _) _ => destruct x
  | |- mrel _ _ (if ?b then _ else _) (if ?b then _ else _) => destruct b
  | |- mrel _ _ (match ?x with _ => _ end) (match ?x with _ => _ end) => destruct x
  end.
Ltac leafrel :=
  cbv zeta; cbn [s_opts s_contents s_btype s_start s_csiz]; rewrite <- ?Hfmt; repeat (mstep; cbv beta zeta).

Section Leaf.
Variables (t : btype) (c : bytes) (start csiz : value).
Let f1 := {| s_opts := op1; s_btype := t; s_contents := c; s_start := start; s_csiz := csiz |}.
Let f2 := {| s_opts := op2; s_btype := t; s_contents := c; s_start := start; s_csiz := csiz |}.

Lemma rel_unknown : mrel RC0 eq (validate_unknownBox E f1) (validate_unknownBox E f2).
Proof. unfold validate_unknownBox, f1, f2. leafrel. Qed.
Lemma rel_sig : mrel RC0 eq (validate_signatureBox f1) (validate_signatureBox f2).
Proof. unfold validate_signatureBox, f1, f2. leafrel. Qed.
Lemma rel_ftyp : mrel RC0 eq (validate_fileTypeBox f1) (validate_fileTypeBox f2).
Proof. unfold validate_fileTypeBox, f1, f2. leafrel. Qed.
Lemma rel_ihdr : mrel RC0 eq (validate_imageHeaderBox f1) (validate_imageHeaderBox f2).
Proof. unfold validate_imageHeaderBox, f1, f2. leafrel. Qed.
Lemma rel_bpcc : mrel RC0 eq (validate_bitsPerComponentBox f1) (validate_bitsPerComponentBox f2).
Proof. unfold validate_bitsPerComponentBox, f1, f2. leafrel. Qed.
Lemma rel_icc : mrel RC0 eq (validate_icc f1) (validate_icc f2).
Proof. unfold validate_icc, f1, f2. leafrel. Qed.
Lemma rel_pclr : mrel RC0 eq (validate_paletteBox f1) (validate_paletteBox f2).
Proof. unfold validate_paletteBox, f1, f2. leafrel. Qed.
Lemma rel_cmap : mrel RC0 eq (validate_componentMappingBox f1) (validate_componentMappingBox f2).
Proof. unfold validate_componentMappingBox, f1, f2. leafrel. Qed.
Lemma rel_alpha l : mrel RC0 eq (alphaTests f1 l) (alphaTests f2 l).
Proof. induction l as [|x l IH]; cbn [alphaTests]; leafrel. exact IH. Qed.
Lemma rel_cdef : mrel RC0 eq (validate_channelDefinitionBox f1) (validate_channelDefinitionBox f2).
Proof. unfold validate_channelDefinitionBox, f1, f2. leafrel. apply rel_alpha. Qed.
Lemma rel_resc : mrel RC0 eq (validate_captureResolutionBox E f1) (validate_captureResolutionBox E f2).
Proof. unfold validate_captureResolutionBox, resolutionFields, f1, f2. leafrel. Qed.
Lemma rel_resd : mrel RC0 eq (validate_displayResolutionBox E f1) (validate_displayResolutionBox E f2).
Proof. unfold validate_displayResolutionBox, resolutionFields, f1, f2. leafrel. Qed.
Lemma rel_ulst : mrel RC0 eq (validate_uuidListBox f1) (validate_uuidListBox f2).
Proof. unfold validate_uuidListBox, f1, f2. leafrel. Qed.
Lemma rel_url : mrel RC0 eq (validate_urlBox f1) (validate_urlBox f2).
Proof. unfold validate_urlBox, f1, f2. leafrel. Qed.

Lemma rel_siz : mrel RC0 eq (validate_siz f1) (validate_siz f2).
Proof. unfold validate_siz, f1, f2. leafrel. Qed.
Lemma rel_cod : mrel RC0 eq (validate_cod f1) (validate_cod f2).
Proof. unfold validate_cod, codeBlockFields, codeBlockStyleFields, precinctFields, f1, f2. leafrel. Qed.
Lemma rel_coc : mrel RC0 eq (validate_coc f1) (validate_coc f2).
Proof.
  unfold validate_coc, codeBlockFields, codeBlockStyleFields, precinctFields, f1, f2. leafrel.
Qed.
Lemma rel_rgn : mrel RC0 eq (validate_rgn f1) (validate_rgn f2).
Proof. unfold validate_rgn, f1, f2. leafrel. Qed.
Lemma rel_qcd : mrel RC0 eq (validate_qcd f1) (validate_qcd f2).
Proof. unfold validate_qcd, stepSizeFields, f1, f2. leafrel. Qed.
Lemma rel_qcc : mrel RC0 eq (validate_qcc f1) (validate_qcc f2).
Proof. unfold validate_qcc, stepSizeFields, f1, f2. leafrel. Qed.
Lemma rel_poc : mrel RC0 eq (validate_poc f1) (validate_poc f2).
Proof. unfold validate_poc, f1, f2. leafrel. Qed.
Lemma rel_crg : mrel RC0 eq (validate_crg f1) (validate_crg f2).
Proof. unfold validate_crg, f1, f2. leafrel. Qed.
Lemma rel_com : mrel RC0 eq (validate_com E f1) (validate_com E f2).
Proof. unfold validate_com, f1, f2. leafrel. Qed.
Lemma rel_parts l : mrel RC0 eq (addParts l) (addParts l).
Proof. induction l as [|x l IH]; cbn [addParts]; leafrel. exact IH. Qed.
Lemma rel_cap : mrel RC0 eq (validate_cap f1) (validate_cap f2).
Proof. unfold validate_cap, f1, f2. leafrel. apply rel_parts. Qed.
Lemma rel_prf : mrel RC0 eq (validate_prf f1) (validate_prf f2).
Proof. unfold validate_prf, f1, f2. leafrel. Qed.
Lemma rel_cpf : mrel RC0 eq (validate_cpf f1) (validate_cpf f2).
Proof. unfold validate_cpf, f1, f2. leafrel. Qed.
Lemma rel_sot : mrel RC0 eq (validate_sot f1) (validate_sot f2).
Proof. unfold validate_sot, f1, f2. leafrel. Qed.


Lemma rel_xml (RC : list elt -> list elt -> Prop) :
  (forall a b a' b', RC a a' -> RC b b' -> RC (a ++ b) (a' ++ b')) -> (forall a, RC a a) ->
  o_nullxml op1 = o_nullxml op2 \/ (forall a b, RC a b) ->
  mrel RC eq (validate_xmlBox E f1) (validate_xmlBox E f2).
Proof.
  intros HA HR [HN|HX].
  - unfold validate_xmlBox, f1, f2. cbn [s_opts s_contents]. rewrite <- HN. leafrel.
  - assert (HC : forall m1 m2, In m1 [ret tt; add_char (leaf "" VNone)] ->
                 mrel RC eq m1 m2 -> True) by auto. clear HC.
    unfold validate_xmlBox, f1, f2. cbn [s_opts s_contents].
    destruct (xml_parse E c) as [e|]; [leafrel|].
    eapply (mrel_bind _ eq); [|intros; apply mrel_test].
    intros s1 s2 (H1 & H2 & H3 & H4 & H5 & H6).
    destruct (o_nullxml op1), (o_nullxml op2), (xml_parse E (removeNullTerminator c)); cbn;
      (eexists; split; [reflexivity|split; [reflexivity|repeat split; cbn; auto]]).
Qed.

Lemma rel_uuid (RC : list elt -> list elt -> Prop) :
  (forall a b a' b', RC a a' -> RC b b' -> RC (a ++ b) (a' ++ b')) -> (forall a, RC a a) ->
  o_nullxml op1 = o_nullxml op2 \/ (forall a b, RC a b) ->
  mrel RC eq (validate_uuidBox E f1) (validate_uuidBox E f2).
Proof.
  intros HA HR HN. unfold validate_uuidBox, f1, f2. cbv zeta. cbn [s_opts s_contents].
  mstep; [mstep|]. mstep; [mstep|]. destruct (pystr_eqb _ _); [|leafrel].
  destruct (xml_parse E (slice c 16 (len c))) as [e|]; [leafrel|].
  eapply (mrel_bind _ eq); [|intros; apply mrel_test].
  intros s1 s2 (H1 & H2 & H3 & H4 & H5 & H6).
  destruct HN as [HN|HX].
  - rewrite <- HN. destruct (o_nullxml op1), (xml_parse E (removeNullTerminator _)); cbn;
      (eexists; split; [reflexivity|split; [reflexivity|repeat split; cbn; auto]]).
  - destruct (o_nullxml op1), (o_nullxml op2), (xml_parse E (removeNullTerminator _)); cbn;
      (eexists; split; [reflexivity|split; [reflexivity|repeat split; cbn; auto]]).
Qed.

Lemma ipl_len_mono a b i n : (a <= b)%nat ->
  forall x, ipl_len a c i n = Some x -> ipl_len b c i n = Some x.
Proof.
  revert b i n. induction a as [|a IH]; intros b i n Hab x Hx; [discriminate|].
  destruct b as [|b]; [lia|]. cbn [ipl_len] in *. destruct (_ =? 0); [exact Hx|].
  apply IH; [lia|exact Hx].
Qed.
Lemma ipl_loop_mono a b lpl i acc : (a <= b)%nat ->
  forall x, parse_ipl_loop a c lpl i acc = Ok x -> parse_ipl_loop b c lpl i acc = Ok x.
Proof.
  revert b i acc. induction a as [|a IH]; intros b i acc Hab x Hx; [discriminate|].
  destruct b as [|b]; [lia|]. cbn [parse_ipl_loop] in *.
  destruct (_ && _); [|exact Hx].
  destruct (ipl_len (S a) c i 1) as [n|] eqn:EL; [|discriminate].
  rewrite (ipl_len_mono (S a) (S b) i 1 ltac:(lia) _ EL). apply IH; [lia|exact Hx].
Qed.
Lemma ipl_no_raise a lpl i acc e : parse_ipl_loop a c lpl i acc <> Raise e.
Proof.
  revert i acc. induction a as [|a IH]; intros i acc; [discriminate|]. cbn [parse_ipl_loop].
  destruct (_ && _); [|discriminate]. destruct (ipl_len (S a) c i 1); [apply IH|discriminate].
Qed.
Lemma rel_ipl lpl i : rrel eq (parse_ipl fuel1 c lpl i) (parse_ipl fuel2 c lpl i).
Proof.
  unfold parse_ipl, rbind. destruct Hfuel as [<-|[HD HF]].
  - pose proof (ipl_no_raise fuel1 lpl i []) as HN.
    destruct (parse_ipl_loop fuel1 c lpl i []); cbn; eauto. elim (HN e eq_refl).
  - pose proof (ipl_no_raise fuel1 lpl i []) as HN.
    destruct (parse_ipl_loop fuel1 c lpl i []) eqn:EL; cbn; eauto.
    + rewrite (ipl_loop_mono _ _ _ _ _ HF _ EL). eauto.
    + elim (HN e eq_refl).
Qed.
Lemma rel_plm : mrel RC0 eq (validate_plm fuel1 f1) (validate_plm fuel2 f2).
Proof.
  unfold validate_plm, f1, f2. cbv zeta. cbn [s_contents].
  mstep; [mstep|]. mstep; [mstep|]. mstep; [mstep|]. mstep; [apply mrel_lift, rel_ipl|]. mstep.
Qed.
Lemma rel_plt : mrel RC0 eq (validate_plt fuel1 f1) (validate_plt fuel2 f2).
Proof.
  unfold validate_plt, f1, f2. cbv zeta. cbn [s_contents].
  mstep; [mstep|]. mstep; [mstep|]. mstep; [apply mrel_lift, rel_ipl|]. mstep.
Qed.

(** ** Validators with nested boxes *)
Definition bvrel (t : btype) (r1 r2 : bv) : Prop :=
  tree_rel RT (r_tests r1) (r_tests r2) /\
  RC0 [r_chars r1] [r_chars r2] /\ etag (r_chars r1) = charRoot t /\
  tree_rel RW (r_warns r1) (r_warns r2) /\
  r_ret r1 = r_ret r2 /\ r_valid r1 = r_valid r2 /\ r_tpl r1 = r_tpl r2.

Variables rec1 rec2 : recT.
Hypothesis Hrec : forall t c start csiz,
  rrel (bvrel t) (rec1 t c start csiz) (rec2 t c start csiz).

Lemma rel_attachIf k1 k2 t' c' start' csiz' :
  (k1 = k2 \/ k1 = o_packet op1 /\ k2 = o_packet op2 /\ In (charRoot t') packetish) ->
  mrel RC0 (bvrel t') (attachIf rec1 k1 t' c' start' csiz') (attachIf rec2 k2 t' c' start' csiz').
Proof.
  intros HK. unfold attachIf. eapply (mrel_bind _ (bvrel t')); [apply mrel_lift, Hrec|].
  intros r1 r2 HB. pose proof HB as (HT & HC & HG & HW & H1 & H2 & H3).
  eapply (mrel_bind _ eq); [now apply mrel_test_ne|]. intros _ _ _.
  eapply (mrel_bind _ eq).
  { destruct HK as [<-|(-> & -> & HP)].
    - apply mrel_when. now apply mrel_add_char.
    - pose proof (RC_packet _ _ _ HP HC HG) as HR.
      intros s1 s2 (G1 & G2 & G3 & G4 & G5 & G6).
      destruct (o_packet op1), (o_packet op2); cbn in *;
        (eexists; split; [reflexivity|split; [reflexivity|repeat split; cbn; auto]]).
      + rewrite <- (app_nil_r (st_chars s2)). now apply RC_app.
      + rewrite <- (app_nil_r (st_chars s1)). now apply RC_app. }
  intros _ _ _. eapply (mrel_bind _ eq); [now apply mrel_warn_ne|]. intros _ _ _.
  apply mrel_ret. exact HB.
Qed.
Lemma rel_attach t' c' start' csiz' :
  mrel RC0 (bvrel t') (attach rec1 t' c' start' csiz') (attach rec2 t' c' start' csiz').
Proof. apply rel_attachIf. now left. Qed.

Definition R1 (e1 e2 : elt) : Prop := RC0 [e1] [e2] /\ plain (etag e1).

Lemma R1_chars e1 e2 :
  (exists l1 l2, e1 = node "" l1 /\ e2 = node "" l2 /\ RC0 l1 l2) -> R1 e1 e2.
Proof. intros (l1 & l2 & -> & -> & H). split; [now apply RC_node|]. plain. Qed.
Lemma R1_findall p e1 e2 : R1 e1 e2 -> Forall plain p ->
  Forall2 (fun a b => RC0 [a] [b] /\ plain (etag a)) (findall p e1) (findall p e2).
Proof. intros (H & HP) HF. now apply RC_find. Qed.
Lemma R1_text p e1 e2 : R1 e1 e2 -> Forall plain p -> findElementText p e1 = findElementText p e2.
Proof.
  intros H HF. pose proof (R1_findall p e1 e2 H HF) as H2. unfold findElementText, find.
  destruct H2 as [|a b l l' [HR HP]]; [reflexivity|]. cbn. now apply RC_text.
Qed.
Lemma R1_texts p e1 e2 : R1 e1 e2 -> Forall plain p -> findAllText p e1 = findAllText p e2.
Proof.
  intros H HF. pose proof (R1_findall p e1 e2 H HF) as H2. unfold findAllText.
  induction H2 as [|a b l l' [HR HP] _ IH]; [reflexivity|]. cbn [map]. f_equal; [now apply RC_text|exact IH].
Qed.
Lemma R1_find p e1 e2 : R1 e1 e2 -> Forall plain p ->
  match find p e1, find p e2 with
  | Some a, Some b => R1 a b
  | None, None => True
  | _, _ => False
  end.
Proof.
  intros H HF. pose proof (R1_findall p e1 e2 H HF) as H2. unfold find.
  destruct H2 as [|a b l1 l2 HR]; [exact I|]. exact HR.
Qed.

Ltac pl := repeat apply Forall_cons; first [apply Forall_nil | plain].

Lemma rel_boxLoop : mrel RC0 eq (boxLoop rec1 fuel1 f1) (boxLoop rec2 fuel2 f2).
Proof.
  unfold boxLoop, f1, f2. cbn [s_contents].
  apply (mrel_loop RC0 _ _ eq eq); [|reflexivity].
  intros [[bs blv] types] ? <-.
  destruct ((bs <? len c) && negb (Zin blv [0; -9999])).
  - destruct (getBox c bs (len c)) as [[[blv' bt] be] sub].
    eapply (mrel_bind _ (bvrel (BTb bt))); [apply rel_attach|]. intros _ _ _.
    apply mrel_ret. reflexivity.
  - apply mrel_ret. reflexivity.
Qed.

Lemma rel_uinf : mrel RC0 eq (validate_uuidInfoBox rec1 fuel1 f1) (validate_uuidInfoBox rec2 fuel2 f2).
Proof.
  unfold validate_uuidInfoBox. eapply (mrel_bind _ eq); [apply rel_boxLoop|]. intros ty ? <-.
  unfold f1, f2. leafrel.
Qed.
Lemma rel_res : mrel RC0 eq (validate_resolutionBox rec1 fuel1 f1) (validate_resolutionBox rec2 fuel2 f2).
Proof.
  unfold validate_resolutionBox. eapply (mrel_bind _ eq); [apply rel_boxLoop|]. intros ty ? <-.
  unfold f1, f2. leafrel.
Qed.
Lemma rel_jp2h : mrel RC0 eq (validate_jp2HeaderBox rec1 fuel1 f1) (validate_jp2HeaderBox rec2 fuel2 f2).
Proof.
  unfold validate_jp2HeaderBox. eapply (mrel_bind _ eq); [apply rel_boxLoop|]. intros ty ? <-.
  unfold f1, f2. cbv zeta. cbn [s_opts]. mstep; [mstep|].
  eapply (mrel_bind _ _); [apply mrel_get_chars|]. intros e1 e2 HE. apply R1_chars in HE.
  rewrite <- !(R1_text _ e1 e2 HE) by pl. rewrite <- !(R1_texts _ e1 e2 HE) by pl.
  rewrite <- !Hfmt. repeat (mstep; cbv beta zeta).
Qed.

Lemma rel_attachICC pr : mrel RC0 R1 (attachICC rec1 pr) (attachICC rec2 pr).
Proof.
  unfold attachICC. eapply (mrel_bind _ (bvrel (BTs "icc"))); [apply mrel_lift, Hrec|].
  intros r1 r2 (HT & HC & HG & HW & H1 & H2 & H3).
  eapply (mrel_bind _ eq); [now apply mrel_add_char|]. intros _ _ _.
  eapply (mrel_bind _ eq); [now apply mrel_warn_ne|]. intros _ _ _.
  apply mrel_ret. split; [exact HC|]. rewrite HG. plain.
Qed.
Lemma rel_colr : mrel RC0 eq (validate_colourSpecificationBox rec1 f1) (validate_colourSpecificationBox rec2 f2).
Proof.
  unfold validate_colourSpecificationBox, f1, f2. cbv zeta. cbn [s_opts s_contents]. rewrite <- Hfmt.
  repeat (mstep; cbv beta zeta).
  - eapply (mrel_bind _ _); [apply rel_attachICC|]. intros e1 e2 HE.
    rewrite <- !(R1_text _ e1 e2 HE) by pl. rewrite <- !(R1_texts _ e1 e2 HE) by pl.
    repeat (mstep; cbv beta zeta).
  - eapply (mrel_bind _ _); [apply rel_attachICC|]. intros e1 e2 HE. mstep.
Qed.

Ltac att := eapply (mrel_bind _ _);
  [first [apply rel_attach | apply rel_attachIf; right; split; [reflexivity|split; [reflexivity|]]]
  | intros _ _ _; apply mrel_ret; reflexivity].

Lemma bin_packet m l : bin m l = true -> (forall x, In x l -> In (charRoot (BTb x)) packetish) ->
  In (charRoot (BTb m)) packetish.
Proof.
  intros H HL. unfold bin in H. apply existsb_exists in H as (x & Hx & He).
  assert (m = x) as ->; [|now apply HL].
  clear -He. revert x He. induction m as [|a m IH]; intros [|b x] He; try discriminate; [reflexivity|].
  cbn in He. apply andb_true_iff in He as (H1 & H2). apply Byte.byte_dec_bl in H1.
  f_equal; [exact H1|now apply IH].
Qed.

Lemma rel_mainStep cs s : mrel RC0 eq (mainHeaderStep rec1 f1 cs s) (mainHeaderStep rec2 f2 cs s).
Proof.
  unfold mainHeaderStep, f1, f2. cbn [s_opts s_contents].
  destruct (getMarkerSegment c (mh_offset s)) as [[[m l] seg] next].
  mstep; [|mstep].
  destruct (bin m [mCOD; mQCD; mCOM; mCAP; mPRF; mCPF; mTLM]); [att|].
  destruct (bin m [mCOC; mQCC; mRGN; mPOC; mCRG]); [att|].
  destruct (bin m [mPLM; mPPM]) eqn:EB; [|mstep].
  att. apply (bin_packet _ _ EB). intros x [<-|[<-|[]]]; vm_compute; auto.
Qed.
Lemma rel_mainLoop cs s : mrel RC0 eq (mainHeaderLoop rec1 fuel1 f1 cs s) (mainHeaderLoop rec2 fuel2 f2 cs s).
Proof.
  unfold mainHeaderLoop. apply (mrel_loop RC0 _ _ eq eq); [|reflexivity]. intros x ? <-.
  destruct (negb _ && negb _).
  - eapply (mrel_bind _ eq); [apply rel_mainStep|]. intros y ? <-. apply mrel_ret. reflexivity.
  - apply mrel_ret. reflexivity.
Qed.
Lemma rel_tileStep s : mrel RC0 eq (tileHeaderStep rec1 f1 s) (tileHeaderStep rec2 f2 s).
Proof.
  unfold tileHeaderStep, f1, f2. cbn [s_opts s_contents s_csiz].
  destruct (getMarkerSegment c (th_offset s)) as [[[m l] seg] next].
  mstep; [|mstep].
  destruct (bin m [mCOD; mQCD; mCOM]); [att|].
  destruct (bin m [mCOC; mQCC; mRGN; mPOC]); [att|].
  destruct (bin m [mPLT; mPPT]) eqn:EB; [|mstep].
  att. apply (bin_packet _ _ EB). intros x [<-|[<-|[]]]; vm_compute; auto.
Qed.
Lemma rel_tileLoop s : mrel RC0 eq (tileHeaderLoop rec1 fuel1 f1 s) (tileHeaderLoop rec2 fuel2 f2 s).
Proof.
  unfold tileHeaderLoop. apply (mrel_loop RC0 _ _ eq eq); [|reflexivity]. intros x ? <-.
  destruct (negb _ && negb _).
  - eapply (mrel_bind _ eq); [apply rel_tileStep|]. intros y ? <-. apply mrel_ret. reflexivity.
  - apply mrel_ret. reflexivity.
Qed.

Lemma rel_onlyInFirst n tag e1 e2 tp : R1 e1 e2 -> plain tag ->
  mrel RC0 eq (onlyInFirst f1 n tag e1 tp) (onlyInFirst f2 n tag e2 tp).
Proof.
  intros HE HP. unfold onlyInFirst, f1, f2. cbn [s_opts].
  pose proof (R1_findall [tag] e1 e2 HE ltac:(repeat constructor; apply HP)) as HF.
  destruct (findall [tag] e1), (findall [tag] e2); try (now inversion HF); mstep.
Qed.
Lemma rel_unique n vs : mrel RC0 eq (uniqueTest f1 n vs) (uniqueTest f2 n vs).
Proof. unfold uniqueTest, f1, f2. cbn [s_opts]. destruct vs; mstep. Qed.

Lemma rel_tilePart : mrel RC0 eq (validate_tilePart rec1 fuel1 f1) (validate_tilePart rec2 fuel2 f2).
Proof.
  unfold validate_tilePart. cbn [s_start f1 f2 s_contents s_opts]. fold f1 f2.
  mstep; [mstep|]. destruct (getMarkerSegment c x) as [[[m0 l0] seg0] next0].
  eapply (mrel_bind _ _); [apply rel_attach|]. intros r1 r2 (_ & _ & _ & _ & _ & _ & HTP). rewrite <- HTP.
  mstep; [apply rel_tileLoop|]. mstep; [mstep|]. mstep; [mstep|]. mstep; [mstep|].
  eapply (mrel_bind _ _); [apply mrel_get_chars|]. intros e1 e2 HE. apply R1_chars in HE.
  rewrite <- !(R1_text _ e1 e2 HE) by pl. rewrite <- !(R1_texts _ e1 e2 HE) by pl. cbv zeta.
  do 5 (mstep; [apply rel_onlyInFirst; [exact HE|plain]|]).
  do 2 (mstep; [apply rel_unique|]).
  mstep; [mstep|]. mstep; [mstep; mstep|]. apply mrel_set_ret.
Qed.

(** Tile-part loop: the three lists of collected trees are related, the rest of
    the loop state is equal. *)
Definition trel (t1 t2 : tpl) : Prop :=
  RT (tl_tests t1) (tl_tests t2) /\ RC0 (tl_chars t1) (tl_chars t2) /\
  RW (tl_warns t1) (tl_warns t2) /\ tl_indices t1 = tl_indices t2 /\
  tl_expected t1 = tl_expected t2 /\ tl_found t1 = tl_found t2.

Lemma app_ne (R : list elt -> list elt -> Prop) l1 l2 e1 e2 :
  (forall a b a' b', R a a' -> R b b' -> R (a ++ b) (a' ++ b')) ->
  (forall t k1 k2, R k1 k2 -> R (match k1 with [] => [] | _ => [node t k1] end)
                                (match k2 with [] => [] | _ => [node t k2] end)) ->
  R l1 l2 -> tree_rel R e1 e2 -> R (appendIfNotEmpty l1 e1) (appendIfNotEmpty l2 e2).
Proof.
  intros HA HN HL (t0 & k1 & k2 & -> & -> & HR). specialize (HN t0 _ _ HR).
  unfold appendIfNotEmpty. cbn [ekids node]. destruct k1, k2.
  - exact HL.
  - rewrite <- (app_nil_r l1). now apply HA.
  - rewrite <- (app_nil_r l2). now apply HA.
  - now apply HA.
Qed.

Lemma rel_tilePartLoop cs off t1 t2 : trel t1 t2 ->
  mrel RC0 trel (tilePartLoop rec1 fuel1 f1 cs off t1) (tilePartLoop rec2 fuel2 f2 cs off t2).
Proof.
  intros HT. unfold tilePartLoop. cbn [s_contents f1 f2].
  apply (mrel_loop RC0 _ _ (fun x y => fst x = fst y /\ trel (snd x) (snd y)) trel);
    [|split; [reflexivity|exact HT]].
  clear off t1 t2 HT. intros [off t1] [off' t2] [HO HT]. cbn in HO, HT. subst off'.
  destruct (bytes_eqb (slice c off (off + 2)) mSOT); [|now apply mrel_ret].
  eapply (mrel_bind _ _); [apply mrel_lift, Hrec|].
  intros r1 r2 (BT & BC & BG & BW & B1 & B2 & B3).
  assert (HE : R1 (r_chars r1) (r_chars r2)) by (split; [exact BC|rewrite BG; plain]).
  rewrite <- !(R1_text _ _ _ HE) by pl. rewrite <- B1. cbv zeta. cbn [tl_found].
  destruct HT as (T1 & T2 & T3 & T4 & T5 & T6).
  assert (G1 := app_ne RT _ _ _ _ RT_app RT_ne T1 BT).
  assert (G3 := app_ne RW _ _ _ _ RW_app RW_ne T3 BW).
  assert (G2 := RC_app _ _ _ _ T2 BC).
  rewrite <- T4, <- T5, <- T6.
  destruct (dict_get _ (tl_found t1)) as [n|].
  - mstep; [mstep|]. destruct (negb (py_eqb (r_ret r1) (VInt off))).
    + mstep; [mstep|]. apply mrel_ret. cbn. repeat split; cbn; assumption.
    + apply mrel_ret. repeat split; cbn; assumption.
  - apply mrel_ret. repeat split; cbn; assumption.
Qed.

Lemma Ex_ratio n l h w : match calculateCompressionRatio n l h w with Raise e => Ex e | _ => True end.
Proof.
  unfold calculateCompressionRatio, rbind.
  assert (HSV : match sum_values 0 l with Raise e => Ex e | _ => True end).
  { generalize 0. induction l as [|v l IH]; intros z; cbn; [exact I|].
    pose proof (Ex_as_int v) as HV. destruct (as_int v); cbn; auto. apply IH. }
  destruct (sum_values 0 l); auto. cbv zeta. now destruct (n =? 0).
Qed.

Lemma rel_codestream : mrel RC0 eq (validate_contiguousCodestreamBox rec1 fuel1 f1)
                                   (validate_contiguousCodestreamBox rec2 fuel2 f2).
Proof.
  unfold validate_contiguousCodestreamBox. cbn [s_start f1 f2 s_contents s_opts]. fold f1 f2.
  rewrite <- Hfmt. cbv zeta.
  destruct (getMarkerSegment c 0) as [[[m0 l0] seg0] next0]. mstep; [mstep|].
  destruct (getMarkerSegment c next0) as [[[m1 l1] seg1] next1]. mstep; [mstep|].
  mstep; [|mstep; [apply mrel_isValid|apply mrel_set_valid]].
  destruct (bytes_eqb m1 mSIZ) eqn:EM; [|cbn [when]; mstep]. cbn [when].
  apply bytes_eqb_spec in EM as ->.
  eapply (mrel_bind _ _); [apply rel_attach|]. intros r1 r2 (_ & HC & HG & _).
  assert (HS : R1 (r_chars r1) (r_chars r2)) by (split; [exact HC|rewrite HG; plain]).
  rewrite <- !(R1_text _ _ _ HS) by pl. rewrite <- !(R1_texts _ _ _ HS) by pl.
  mstep; [apply rel_mainLoop|]. do 4 (mstep; [mstep|]).
  eapply (mrel_bind _ _); [apply mrel_get_chars|]. intros e1 e2 HE. apply R1_chars in HE.
  rewrite <- !(R1_text _ e1 e2 HE) by pl.
  mstep; [mstep|]. mstep; [mstep; mstep|].
  mstep; [destruct (findElementText ["siz"; "numberOfTiles"] e1); mstep|].
  eapply (mrel_bind _ trel).
  { destruct (bytes_eqb (mh_marker x1) mSOT); [apply rel_tilePartLoop | apply mrel_ret];
      repeat split; cbn; auto. }
  intros t1 t2 (T1 & T2 & T3 & T4 & T5 & T6). rewrite <- T4, <- T5, <- T6.
  mstep; [mstep|]. mstep; [destruct (tl_expected t1); mstep|].
  mstep; [apply mrel_test_ne; repeat eexists; exact T1|].
  mstep; [apply mrel_add_char; [exact RC_app|now apply RC_node]|].
  mstep; [apply mrel_warn_ne; repeat eexists; exact T3|].
  eapply (mrel_bind _ _); [apply mrel_get_chars|]. clear HE e1 e2. intros e1 e2 HE. apply R1_chars in HE.
  rewrite <- !(R1_texts _ e1 e2 HE) by pl.
  do 2 (mstep; [apply rel_unique|]). mstep; [mstep|]. mstep.
  do 4 (mstep; [mstep|]). mstep; [|mstep].
  apply mrel_lift_eq, Ex_ratio.
Qed.

Lemma rel_header n e1 e2 h1 h2 s1 s2 : R1 e1 e2 -> R1 h1 h2 -> R1 s1 s2 ->
  mrel RC0 eq (checkHeaderAgainstSIZ f1 n e1 h1 s1) (checkHeaderAgainstSIZ f2 n e2 h2 s2).
Proof.
  intros HE HH HS. unfold checkHeaderAgainstSIZ. cbn [f1 f2 s_opts]. fold f1 f2. rewrite <- Hfmt.
  pose proof (R1_find ["jp2HeaderBox"; "bitsPerComponentBox"] e1 e2 HE ltac:(pl)) as HB.
  rewrite <- !(R1_text _ _ _ HH) by pl.
  rewrite <- !(R1_text _ _ _ HS) by pl. rewrite <- !(R1_texts _ _ _ HS) by pl. cbv zeta.
  do 2 (mstep; [mstep|]). mstep; [mstep|]. do 2 (mstep; [mstep|]). do 2 (mstep; [mstep|]).
  mstep.
  { destruct (_ && _).
    - destruct (find ["jp2HeaderBox"; "bitsPerComponentBox"] e1) as [b1|],
        (find ["jp2HeaderBox"; "bitsPerComponentBox"] e2) as [b2|]; try contradiction; [|mstep].
      rewrite <- !(R1_texts _ _ _ HB) by pl. mstep.
    - mstep; mstep. }
  match goal with |- context [let (_, _) := ?p in _] => destruct p as [signs depths] end. do 2 (mstep; [mstep|]). mstep.
  do 2 (mstep; [mstep|]). mstep; [|mstep]. apply mrel_lift_eq, Ex_ratio.
Qed.

Lemma rel_JP2 : mrel RC0 eq (validate_JP2 rec1 fuel1 f1) (validate_JP2 rec2 fuel2 f2).
Proof.
  unfold validate_JP2. cbn [f1 f2 s_opts s_contents]. fold f1 f2.
  eapply (mrel_bind _ eq); [apply rel_boxLoop|]. intros ty ? <-.
  do 4 (mstep; [mstep|]).
  eapply (mrel_bind _ _); [apply mrel_get_chars|]. intros e1 e2 HE. apply R1_chars in HE.
  rewrite <- !(R1_text _ e1 e2 HE) by pl.
  mstep; [mstep; mstep|]. do 6 (mstep; [mstep|]).
  mstep; [|mstep; [apply mrel_isValid|apply mrel_set_valid]].
  pose proof (R1_find ["jp2HeaderBox"; "imageHeaderBox"] e1 e2 HE ltac:(pl)) as HB.
  pose proof (R1_find ["contiguousCodestreamBox"; "siz"] e1 e2 HE ltac:(pl)) as HS.
  destruct (find ["jp2HeaderBox"; "imageHeaderBox"] e1), (find ["jp2HeaderBox"; "imageHeaderBox"] e2);
    try contradiction; [|mstep].
  destruct (find ["contiguousCodestreamBox"; "siz"] e1), (find ["contiguousCodestreamBox"; "siz"] e2);
    try contradiction; [|mstep].
  now apply rel_header.
Qed.

Ltac head_of m := lazymatch m with ?f _ => head_of f | _ => m end.

Definition isxml : bool := String.eqb (boxTypeOf t) "xmlBox" || String.eqb (boxTypeOf t) "uuidBox".

Lemma rel_run : isxml = false -> mrel RC0 eq (runMethod E rec1 fuel1 f1) (runMethod E rec2 fuel2 f2).
Proof.
  intros HX. unfold runMethod, method. cbv beta zeta. change (s_btype f1) with t. change (s_btype f2) with t.
  unfold isxml in HX. destruct (String.eqb (boxTypeOf t) "xmlBox"); [discriminate|].
  destruct (String.eqb (boxTypeOf t) "uuidBox"); [discriminate|]. clear HX. cbv iota.
  repeat match goal with |- context [if String.eqb (boxTypeOf t) ?s then _ else _] =>
    destruct (String.eqb (boxTypeOf t) s); cbv iota end;
  lazymatch goal with |- mrel _ _ ?m _ =>
    let h := head_of m in
    lazymatch h with
    | validate_unknownBox => apply rel_unknown
    | validate_signatureBox => apply rel_sig
    | validate_fileTypeBox => apply rel_ftyp
    | validate_imageHeaderBox => apply rel_ihdr
    | validate_bitsPerComponentBox => apply rel_bpcc
    | validate_icc => apply rel_icc
    | validate_paletteBox => apply rel_pclr
    | validate_componentMappingBox => apply rel_cmap
    | validate_channelDefinitionBox => apply rel_cdef
    | validate_captureResolutionBox => apply rel_resc
    | validate_displayResolutionBox => apply rel_resd
    | validate_uuidListBox => apply rel_ulst
    | validate_urlBox => apply rel_url
    | validate_siz => apply rel_siz
    | validate_cod => apply rel_cod
    | validate_coc => apply rel_coc
    | validate_rgn => apply rel_rgn
    | validate_qcd => apply rel_qcd
    | validate_qcc => apply rel_qcc
    | validate_poc => apply rel_poc
    | validate_crg => apply rel_crg
    | validate_com => apply rel_com
    | validate_cap => apply rel_cap
    | validate_prf => apply rel_prf
    | validate_cpf => apply rel_cpf
    | validate_sot => apply rel_sot
    | validate_plm => apply rel_plm
    | validate_plt => apply rel_plt
    | validate_uuidInfoBox => apply rel_uinf
    | validate_resolutionBox => apply rel_res
    | validate_jp2HeaderBox => apply rel_jp2h
    | validate_colourSpecificationBox => apply rel_colr
    | validate_tilePart => apply rel_tilePart
    | validate_contiguousCodestreamBox => apply rel_codestream
    | validate_JP2 => apply rel_JP2
    | _ => apply mrel_ret; reflexivity
    end
  end.
Qed.

End Leaf.

Lemma st0_rel (RC : list elt -> list elt -> Prop) : RC [] [] -> srel RC st0 st0.
Proof. intros H. repeat split; cbn; auto. Qed.

Theorem validate_rel d1 d2 t c start csiz :
  d1 = d2 \/ rx RecursionError /\ (d1 <= d2)%nat ->
  rrel (bvrel t) (validate E op1 fuel1 d1 t c start csiz) (validate E op2 fuel2 d2 t c start csiz).
Proof.
  revert d2 t c start csiz. induction d1 as [|d1 IH]; intros d2 t c start csiz HD.
  - cbn. split; [apply HEx|]. destruct HD as [<-|[HD _]]; auto.
  - destruct d2 as [|d2]; [destruct HD as [?|[_ ?]]; lia|].
    assert (Hrec : forall t c start csiz, rrel (bvrel t) (validate E op1 fuel1 d1 t c start csiz)
                     (validate E op2 fuel2 d2 t c start csiz)).
    { intros. apply IH. destruct HD as [HD|[HR HD]]; [left|right; split; [exact HR|]]; lia. }
    cbn [validate].
    set (f1 := {| s_opts := op1; s_btype := t; s_contents := c; s_start := start; s_csiz := csiz |}).
    set (f2 := {| s_opts := op2; s_btype := t; s_contents := c; s_start := start; s_csiz := csiz |}).
    assert (HM : exists RC : list elt -> list elt -> Prop,
        (forall k1 k2, RC k1 k2 -> RC0 [node (charRoot t) k1] [node (charRoot t) k2]) /\ RC [] [] /\
        mrel RC eq (runMethod E (validate E op1 fuel1 d1) fuel1 f1)
                   (runMethod E (validate E op2 fuel2 d2) fuel2 f2)).
    { destruct (isxml t) eqn:EX.
      - assert (HC : exists RC : list elt -> list elt -> Prop,
          (forall k1 k2, RC k1 k2 -> RC0 [node (charRoot t) k1] [node (charRoot t) k2]) /\
          (forall a b a' b', RC a a' -> RC b b' -> RC (a ++ b) (a' ++ b')) /\ (forall a, RC a a) /\
          (o_nullxml op1 = o_nullxml op2 \/ (forall a b, RC a b))).
        { destruct RC_xml as [HN|HX].
          - exists RC0. repeat split; auto.
          - exists (fun _ _ => True). repeat split; auto. intros k1 k2 _. apply HX.
            unfold isxml in EX. unfold charRoot, isTop. destruct t as [b|s].
            + apply orb_true_iff in EX as [EX|EX]; apply String.eqb_eq in EX; rewrite EX; cbn; auto.
            + exfalso. unfold boxTypeOf in EX. destruct (assoc_s s typeMap_s) eqn:EA.
              * cbn in EA. destruct (s =? "icc")%string; [injection EA as <-; discriminate|].
                destruct (s =? "startOfTile")%string; [injection EA as <-; discriminate|discriminate].
              * destruct (s =? "JP2")%string; [discriminate|].
                destruct (s =? "contiguousCodestreamBox")%string; discriminate. }
        destruct HC as (RC & HK & HA & HR & HN). exists RC. split; [exact HK|]. split; [apply HR|].
        unfold isxml in EX. unfold runMethod, method. cbv beta zeta. change (s_btype f1) with t. change (s_btype f2) with t.
        destruct (String.eqb (boxTypeOf t) "xmlBox"); [now apply rel_xml|].
        cbn in EX. rewrite EX. now apply rel_uuid.
      - exists RC0. split; [intros; now apply RC_node|]. split; [apply RC_refl|]. now apply rel_run. }
    destruct HM as (RC & HK & HN & HM). specialize (HM st0 st0 (st0_rel RC HN)).
    destruct (runMethod E (validate E op1 fuel1 d1) fuel1 f1 st0) as [[u s1]|e|]; cbn in HM |- *.
    + destruct HM as ([u2 s2] & -> & _ & (G1 & G2 & G3 & G4 & G5 & G6)). eexists. split; [reflexivity|].
      split; [repeat eexists; exact G1|]. split; [now apply HK|]. split; [reflexivity|].
      split; [repeat eexists; exact G3|]. auto.
    + destruct HM as (HE & [->|HR]); auto.
    + destruct HM as [->|HDv]; auto.
Qed.

End Rel.
