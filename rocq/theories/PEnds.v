(** * Which analyses end, and how deep they go *)

From Coq Require Import ZArith List Bool String Lia.
From Coq Require Import ZifyBool.
From Coq Require Import Init.Byte.
From Verif Require Import Py PyFloat ByteConv ETree BV VBoxes VMarkers VSuper Spec SpecBox SpecMarker SpecIPL
     SpecWalk SpecSuper SpecCS SpecFile SpecTop SpecValid PBase PEmit PLeaf PLeaf2 PMarker PMarker2 PWalk PSuper PSeg PTile
     PChain PCS PGrow PIPL PFile PTop PValid.
Import ListNotations.
Open Scope string_scope.
Open Scope list_scope.
Open Scope Z_scope.

(** ** Outcomes: [dv]: may it run for ever?  [Ex]: exceptions allowed, among them
    those the code itself raises (a RecursionError comes from the interpreter). *)
Section Fine.
Variable dv : Prop.
Variable Ex : exn -> Prop.
Hypothesis HEx : forall e, In e [TypeError; ValueError; ZeroDivisionError; UnboundLocalError] -> Ex e.
Definition fine {A} (r : res A) : Prop :=
  match r with Ok _ => True | Raise e => Ex e | Diverge => dv end.
Definition safe {A} (m : M A) : Prop := forall s, fine (m s).

Lemma safe_ret {A} (a : A) : safe (ret a).
Proof. intros s. exact I. Qed.
Lemma safe_lift {A} (r : res A) : fine r -> safe (lift r).
Proof. intros H s. unfold lift. destruct r; exact H. Qed.
Lemma safe_bind {A B} (m : M A) (k : A -> M B) : safe m -> (forall a, safe (k a)) -> safe (bind m k).
Proof. intros Hm Hk s. unfold bind. specialize (Hm s). destruct (m s) as [[a s1]|e|]; [apply Hk|exact Hm|exact Hm]. Qed.
Lemma safe_when b m : safe m -> safe (when b m).
Proof. intros H. destruct b; [exact H|apply (safe_ret tt)]. Qed.
Lemma safe_raise {A} e : Ex e -> safe (@raise A e).
Proof. intros H s. exact H. Qed.
Lemma safe_for {S} n (s0 : S) f : (forall i s, safe (f i s)) -> safe (for_range n s0 f).
Proof.
  intros H. unfold for_range. generalize 0 as i. revert s0.
  induction (Z.to_nat n) as [|k IH]; intros s0 i; cbn [for_n]; [apply safe_ret|].
  apply safe_bind; [apply H|]. intros a. apply IH.
Qed.
Lemma safe_loop {A B} fuel (body : A -> M (A + B)) a : dv -> (forall a, safe (body a)) -> safe (loop fuel body a).
Proof.
  intros HD H. revert a. induction fuel as [|fuel IH]; intros a; [intros s; exact HD|]. cbn [loop].
  apply safe_bind; [apply H|]. intros [a'|b]; [apply IH|apply safe_ret].
Qed.
Lemma fine_as_int v : fine (as_int v).
Proof. destruct v; cbn; try exact I; apply HEx; cbn; tauto. Qed.
Lemma fine_uuid b : fine (uuidStr b).
Proof. unfold uuidStr. destruct (len b =? 16); cbn; [exact I|apply HEx; cbn; tauto]. Qed.
Lemma fine_res E a b c : fine (resolutionValue E a b c).
Proof. unfold resolutionValue. destruct (b =? 0); cbn; [apply HEx; cbn; tauto|exact I]. Qed.
Lemma safe_test o n b : safe (testFor o n b).
Proof. unfold testFor. destruct (negb (o_verbose o)); [destruct (negb b)|]; intros s; exact I. Qed.

Lemma fine_ratio n d h w : fine (calculateCompressionRatio n d h w).
Proof.
  unfold calculateCompressionRatio. assert (H : fine (sum_values 0 d)).
  { generalize 0. induction d as [|v d IH]; intros z; [exact I|]. cbn [sum_values]. pose proof (fine_as_int v) as HA.
    destruct (as_int v); cbn [rbind]; [apply IH|exact HA|exact HA]. }
  destruct (sum_values 0 d); cbn [rbind]; [|exact H|exact H]. destruct (negb (n =? 0)); exact I.
Qed.
Ltac safe_more := fail.
Ltac safe1 :=
  first
    [ safe_more
    | lazymatch goal with
      | |- safe (ret _) => apply safe_ret
      | |- safe (testFor _ _ _) => apply safe_test
      | |- safe (addInt _ _) => intros ?s; exact I
      | |- safe (addCharacteristic _ _) => intros ?s; exact I
      | |- safe (addWarning _) => intros ?s; exact I
      | |- safe (add_char _) => intros ?s; exact I
      | |- safe (add_test_ne ?e) => unfold add_test_ne; destruct (ekids e); intros ?s; exact I
      | |- safe (add_warn_ne ?e) => unfold add_warn_ne; destruct (ekids e); intros ?s; exact I
      | |- safe get_chars => intros ?s; exact I
      | |- safe isValid_of => intros ?s; exact I
      | |- safe (set_tpl _) => intros ?s; exact I
      | |- safe (set_ret _) => intros ?s; exact I
      | |- safe (set_valid _) => intros ?s; exact I
      | |- safe (raise _) => apply safe_raise, HEx; cbn; tauto
      | |- safe (lift (as_int _)) => apply safe_lift, fine_as_int
      | |- safe (lift (uuidStr _)) => apply safe_lift, fine_uuid
      | |- safe (lift (resolutionValue _ _ _ _)) => apply safe_lift, fine_res
      | |- safe (lift (calculateCompressionRatio _ _ _ _)) => apply safe_lift, fine_ratio
      | |- safe (when _ _) => apply safe_when
      | |- safe (for_range _ _ _) => apply safe_for; intros ?i ?s
      | |- safe (bind _ _) => apply safe_bind; [|intros ?x]
      | |- safe (let '(_, _) := ?x in _) => destruct x
      | |- safe (if ?b then _ else _) => destruct b
      | |- safe (match ?x with _ => _ end) => destruct x
      end ].
Ltac safe := cbv zeta; repeat (safe1; cbv beta zeta).

Section Leaf.
Variables (E : env) (f : self).
Lemma safe_unknown : safe (validate_unknownBox E f). Proof. unfold validate_unknownBox. safe. Qed.
Lemma safe_sig : safe (validate_signatureBox f). Proof. unfold validate_signatureBox. safe. Qed.
Lemma safe_ftyp : safe (validate_fileTypeBox f). Proof. unfold validate_fileTypeBox. safe. Qed.
Lemma safe_ihdr : safe (validate_imageHeaderBox f). Proof. unfold validate_imageHeaderBox. safe. Qed.
Lemma safe_bpcc : safe (validate_bitsPerComponentBox f). Proof. unfold validate_bitsPerComponentBox. safe. Qed.
Lemma safe_icc : safe (validate_icc f). Proof. unfold validate_icc. safe. Qed.
Lemma safe_pclr : safe (validate_paletteBox f). Proof. unfold validate_paletteBox. safe. Qed.
Lemma safe_cmap : safe (validate_componentMappingBox f). Proof. unfold validate_componentMappingBox. safe. Qed.
Lemma safe_alpha l : safe (alphaTests f l). Proof. induction l as [|x l IH]; cbn [alphaTests]; safe. exact IH. Qed.
Lemma safe_cdef : safe (validate_channelDefinitionBox f). Proof. unfold validate_channelDefinitionBox. safe. apply safe_alpha. Qed.
Lemma safe_resc : safe (validate_captureResolutionBox E f). Proof. unfold validate_captureResolutionBox, resolutionFields. safe. Qed.
Lemma safe_resd : safe (validate_displayResolutionBox E f). Proof. unfold validate_displayResolutionBox, resolutionFields. safe. Qed.
Lemma safe_ulst : safe (validate_uuidListBox f). Proof. unfold validate_uuidListBox. safe. Qed.
Lemma safe_url : safe (validate_urlBox f). Proof. unfold validate_urlBox. safe. Qed.
Lemma safe_xml : safe (validate_xmlBox E f). Proof. unfold validate_xmlBox. safe. Qed.
Lemma safe_uuid : safe (validate_uuidBox E f). Proof. unfold validate_uuidBox. safe. Qed.
Lemma safe_siz : safe (validate_siz f). Proof. unfold validate_siz. safe. Qed.
Lemma safe_cod : safe (validate_cod f). Proof. unfold validate_cod, codeBlockFields, codeBlockStyleFields, precinctFields. safe. Qed.
Lemma safe_coc : safe (validate_coc f). Proof. unfold validate_coc, codeBlockFields, codeBlockStyleFields, precinctFields. safe. Qed.
Lemma safe_rgn : safe (validate_rgn f). Proof. unfold validate_rgn. safe. Qed.
Lemma safe_qcd : safe (validate_qcd f). Proof. unfold validate_qcd, stepSizeFields. safe. Qed.
Lemma safe_qcc : safe (validate_qcc f). Proof. unfold validate_qcc, stepSizeFields. safe. Qed.
Lemma safe_poc : safe (validate_poc f). Proof. unfold validate_poc. safe. Qed.
Lemma safe_crg : safe (validate_crg f). Proof. unfold validate_crg. safe. Qed.
Lemma safe_com : safe (validate_com E f). Proof. unfold validate_com. safe. Qed.
Lemma safe_parts l : safe (addParts l). Proof. induction l as [|x l IH]; cbn [addParts]; safe. exact IH. Qed.
Lemma safe_cap : safe (validate_cap f). Proof. unfold validate_cap. safe. apply safe_parts. Qed.
Lemma safe_prf : safe (validate_prf f). Proof. unfold validate_prf. safe. Qed.
Lemma safe_cpf : safe (validate_cpf f). Proof. unfold validate_cpf. safe. Qed.
Lemma safe_sot : safe (validate_sot f). Proof. unfold validate_sot. safe. Qed.
End Leaf.

(** ** Validators that call others *)
Section Rec.
Variables (rec : btype -> bytes -> value -> value -> res bv) (fuel : nat) (f : self).
Lemma safe_attachIf k t x st cz : fine (rec t x st cz) -> safe (attachIf rec k t x st cz).
Proof. intros H. unfold attachIf. apply safe_bind; [now apply safe_lift|]. intros r. safe. Qed.
Lemma safe_colr : (forall x, fine (rec (BTs "icc") x VNone VNone)) -> safe (validate_colourSpecificationBox rec f).
Proof.
  intros H. unfold validate_colourSpecificationBox, attachICC. safe; now apply safe_lift.
Qed.
Definition main_types : list bytes :=
  [mCOD; mQCD; mCOM; mCAP; mPRF; mCPF; mTLM; mCOC; mQCC; mRGN; mPOC; mCRG; mPLM; mPPM; mSIZ; mSOT].
Definition tile_types : list bytes := [mCOD; mQCD; mCOM; mCOC; mQCC; mRGN; mPOC; mPLT; mPPT].
Lemma safe_unique n v : safe (uniqueTest f n v).
Proof. unfold uniqueTest. safe. Qed.
Lemma bin_in m l : bin m l = true -> In m l.
Proof. intros H. apply existsb_exists in H. destruct H as (x & Hx & He). apply bytes_eqb_spec in He. now subst x. Qed.
Lemma safe_tilePart : dv -> (forall m x cz, In m tile_types -> fine (rec (BTb m) x VNone cz)) ->
  (forall x, fine (rec (BTs "startOfTile") x VNone VNone)) -> safe (validate_tilePart rec fuel f).
Proof.
  intros HD HM HS. unfold validate_tilePart. apply safe_bind; [safe|]. intros st.
  destruct (getMarkerSegment _ _) as [[[m0 l0] x0] n0]. apply safe_bind; [now apply safe_attachIf|]. intros r.
  apply safe_bind.
  - unfold tileHeaderLoop. apply safe_loop; [exact HD|]. intros s. destruct (_ && _); [|apply safe_ret].
    apply safe_bind; [|intros; apply safe_ret]. unfold tileHeaderStep.
    destruct (getMarkerSegment _ _) as [[[m l] x] n].
    apply safe_bind; [|intros; apply safe_ret].
    repeat match goal with |- safe (if bin m ?l then _ else _) =>
      destruct (bin m l) eqn:HB; [apply bin_in in HB; apply safe_bind; [apply safe_attachIf, HM; cbn in *; tauto|intros; apply safe_ret]|clear HB] end.
    apply safe_ret.
  - intros s. unfold onlyInFirst. safe; apply safe_unique.
Qed.
Lemma safe_cs : dv -> (forall m x st cz, In m main_types -> fine (rec (BTb m) x st cz)) ->
  safe (validate_contiguousCodestreamBox rec fuel f).
Proof.
  intros HD HM. unfold validate_contiguousCodestreamBox.
  destruct (getMarkerSegment _ _) as [[[m0 l0] x0] n0]. apply safe_bind; [safe|]. intros _.
  destruct (getMarkerSegment _ _) as [[[m1 l1] x1] n1]. cbv zeta. apply safe_bind; [safe|]. intros _.
  apply safe_bind; [|intros _; safe]. destruct (bytes_eqb m1 mSIZ) eqn:HZ; [|apply (safe_ret tt)]. apply safe_when.
  apply bytes_eqb_spec in HZ. subst m1. apply safe_bind; [apply safe_attachIf, HM; cbn; tauto|]. intros rz.
  apply safe_bind.
  - unfold mainHeaderLoop. apply safe_loop; [exact HD|]. intros s. destruct (_ && _); [|apply safe_ret].
    apply safe_bind; [|intros; apply safe_ret]. unfold mainHeaderStep.
    destruct (getMarkerSegment _ _) as [[[m l] x] n]. cbv zeta.
    apply safe_bind; [|intros; apply safe_ret].
    repeat match goal with
    | |- safe (if bin m ?l then _ else _) =>
      destruct (bin m l) eqn:HB; [apply bin_in in HB; apply safe_bind; [apply safe_attachIf, HM; cbn in *; tauto|intros; apply safe_ret]|clear HB]
    | |- safe (if bytes_eqb m ?l then _ else _) =>
      destruct (bytes_eqb m l) eqn:HB; [apply bytes_eqb_spec in HB; subst m; apply safe_bind; [apply safe_attachIf, HM; cbn in *; tauto|intros; apply safe_ret]|clear HB] end.
    apply safe_ret.
  - intros s. do 5 (apply safe_bind; [safe|intros ?]). apply safe_bind; [safe|intros ?].
    apply safe_bind; [safe|intros ?]. apply safe_bind.
    { destruct (findElementText _ _); try apply safe_ret; safe. }
    intros n. cbv zeta. apply safe_bind.
    { destruct (bytes_eqb (mh_marker s) mSOT); [|apply safe_ret]. unfold tilePartLoop. apply safe_loop; [exact HD|].
      intros [o t]. destruct (_ && _) || destruct (bytes_eqb _ _); [|apply safe_ret].
      apply safe_bind; [apply safe_lift, HM; cbn; tauto|]. intros r. safe. }
    intros t. safe; apply safe_unique.
Qed.
End Rec.
End Fine.

(** ** Depth and divergence of single objects *)
Definition code_exn (e : exn) : Prop := In e [TypeError; ValueError; ZeroDivisionError; UnboundLocalError].
Definition deep_names : list string := ["uuidInfoBox"; "jp2HeaderBox"; "resolutionBox"; "contiguousCodestreamBox"; "JP2"; "tilePart"].
Definition ipl_names : list string := ["plm"; "plt"].

Lemma fine_ipl (dv : Prop) Ex fuel c l o : dv -> fine dv Ex (parse_ipl fuel c l o).
Proof.
  intros HD. unfold parse_ipl. assert (H : fine dv Ex (parse_ipl_loop fuel c l o [])).
  { generalize (@nil Z) as acc. revert o. induction fuel as [|f IH]; intros o acc; [exact HD|]. cbn [parse_ipl_loop].
    destruct (_ && _); [|exact I]. destruct (ipl_len (S f) c o 1); [apply IH|exact HD]. }
  destruct (parse_ipl_loop fuel c l o []); cbn [rbind]; [exact I|exact H|exact H].
Qed.

Lemma method_leaf (dv : Prop) (Ex : exn -> Prop) E (rec : btype -> bytes -> value -> value -> res bv) fuel f name :
  (forall e, code_exn e -> Ex e) -> (name = "colourSpecificationBox" -> forall x, fine dv Ex (rec (BTs "icc") x VNone VNone)) ->
  ~ In name deep_names -> (In name ipl_names -> dv) ->
  safe dv Ex (match method E rec fuel f name with Some m => m | None => ret tt end).
Proof.
  intros HEx HI HN HD. unfold method.
  Ltac tryname n := match goal with
    | |- safe _ _ (match (if String.eqb n ?s then _ else _) with _ => _ end) =>
        let H := fresh "N" in destruct (String.eqb n s) eqn:H;
        [apply String.eqb_eq in H; subst n|] end.
  tryname name; [now apply safe_xml|]. tryname name; [now apply safe_uuid|]. tryname name; [destruct HN; cbn; tauto|].
  tryname name; [now apply safe_sig|]. tryname name; [now apply safe_ftyp|]. tryname name; [destruct HN; cbn; tauto|].
  tryname name; [now apply safe_ihdr|]. tryname name; [now apply safe_bpcc|]. tryname name; [apply safe_colr; auto|].
  tryname name; [now apply safe_pclr|]. tryname name; [now apply safe_cmap|]. tryname name; [now apply safe_cdef|].
  tryname name; [destruct HN; cbn; tauto|]. tryname name; [destruct HN; cbn; tauto|].
  tryname name; [now apply safe_resc|]. tryname name; [now apply safe_resd|].
  tryname name; [now apply safe_ulst|]. tryname name; [now apply safe_url|].
  tryname name; [now apply safe_cap|]. tryname name; [now apply safe_siz|]. tryname name; [now apply safe_prf|].
  tryname name; [now apply safe_cod|]. tryname name; [now apply safe_qcd|]. tryname name; [now apply safe_com|].
  tryname name; [now apply safe_coc|]. tryname name; [now apply safe_rgn|]. tryname name; [now apply safe_qcc|].
  tryname name; [now apply safe_poc|]. tryname name; [apply (safe_ret dv Ex tt)|].
  assert (HS : forall n v, safe dv Ex (addInt n v)) by (intros n v s; exact I).
  tryname name.
  { unfold validate_plm. cbv zeta. do 3 (apply safe_bind; [apply HS|intros _]).
    apply safe_bind; [apply safe_lift, fine_ipl, HD; cbn; tauto|]. intros x s. exact I. }
  tryname name.
  { unfold validate_plt. cbv zeta. do 2 (apply safe_bind; [apply HS|intros _]).
    apply safe_bind; [apply safe_lift, fine_ipl, HD; cbn; tauto|]. intros x s. exact I. }
  tryname name; [now apply safe_cpf|]. tryname name; [apply (safe_ret dv Ex tt)|]. tryname name; [apply (safe_ret dv Ex tt)|].
  tryname name; [now apply safe_crg|]. tryname name; [destruct HN; cbn; tauto|].
  tryname name; [now apply safe_icc|]. tryname name; [now apply safe_sot|].
  tryname name; [destruct HN; cbn; tauto|]. tryname name; [now apply safe_unknown|]. apply safe_ret.
Qed.

Lemma fine_validate (dv : Prop) (Ex : exn -> Prop) E op fuel d t x st cz :
  safe dv Ex (runMethod E (validate E op fuel d) fuel {| s_opts := op; s_btype := t; s_contents := x; s_start := st; s_csiz := cz |}) ->
  fine dv Ex (validate E op fuel (S d) t x st cz).
Proof. intros H. rewrite validate_S. specialize (H st0). destruct (runMethod _ _ _ _ _) as [[u s]|e|]; [exact I|exact H|exact H]. Qed.

Lemma leaf_fine (dv : Prop) (Ex : exn -> Prop) E op fuel d t x st cz :
  (forall e, code_exn e -> Ex e) -> ~ In (boxTypeOf t) deep_names -> (In (boxTypeOf t) ipl_names -> dv) ->
  Ex RecursionError \/ (1 <= d)%nat /\ (boxTypeOf t = "colourSpecificationBox" -> (2 <= d)%nat) ->
  fine dv Ex (validate E op fuel d t x st cz).
Proof.
  intros HEx HN HD HR. destruct d as [|d]; [destruct HR as [HR|[HR _]]; [exact HR|lia]|].
  apply fine_validate. unfold runMethod. apply method_leaf; auto. intros HC y.
  destruct d as [|d]; [destruct HR as [HR|[_ HR]]; [exact HR|specialize (HR HC); lia]|].
  apply fine_validate. unfold runMethod. apply method_leaf; auto.
  - intros H. exfalso. revert H. cbn. discriminate.
  - cbn. intuition discriminate.
  - intros [H|[H|[]]]; discriminate.
Qed.

(** ** Codestreams need three levels *)
Definition no_rec (e : exn) : Prop := e <> RecursionError.
Lemma code_no_rec e : code_exn e -> no_rec e.
Proof. intros H ->. cbn in H. intuition discriminate. Qed.
Lemma tile_deep E op fuel d c st cz : fine True no_rec (validate E op fuel (S (S d)) (BTb mSOT) c st cz).
Proof.
  apply fine_validate.
  match goal with |- context [runMethod ?E ?rec ?fuel ?f] =>
    change (runMethod E rec fuel f) with (validate_tilePart rec fuel f) end.
  apply safe_tilePart; [exact code_no_rec|exact I| |].
  - intros m x cz' Hm. apply leaf_fine; [exact code_no_rec| |auto|right; split; [lia|]];
      unfold tile_types in Hm; repeat (destruct Hm as [<-|Hm]; [cbn; intuition discriminate|]); destruct Hm.
  - intros x. apply leaf_fine; [exact code_no_rec|cbn; intuition discriminate|auto|right; split; [lia|discriminate]].
Qed.
Lemma cs_deep E op fuel d t c st cz : boxTypeOf t = "contiguousCodestreamBox" ->
  fine True no_rec (validate E op fuel (S (S (S d))) t c st cz).
Proof.
  intros Ht. apply fine_validate. unfold runMethod. cbn [s_btype]. rewrite Ht.
  match goal with |- context [method ?E ?rec ?fuel ?f _] =>
    change (method E rec fuel f "contiguousCodestreamBox") with (Some (validate_contiguousCodestreamBox rec fuel f)) end.
  apply safe_cs; [exact code_no_rec|exact I|].
  intros m x st' cz' Hm. destruct (bytes_eqb m mSOT) eqn:HB; [apply bytes_eqb_spec in HB; subst m; apply tile_deep|].
  apply bytes_eqb_neq in HB.
  apply leaf_fine; [exact code_no_rec| |auto|right; split; [lia|]];
    unfold main_types in Hm; repeat (destruct Hm as [<-|Hm]; [try contradiction; cbn; intuition discriminate|]); destruct Hm.
Qed.

(** ** Boxes inbox boxes *)
Lemma splits_inside8 c bs : splits c bs ->
  Forall (fun b => len (snd b) <= Z.max 0 (len c - 8) /\ (len (fst b) = 4 \/ snd b = [])) bs.
Proof.
  assert (HH : forall s, 8 <= box_header s) by (intros s; unfold box_header; destruct (_ =? _); lia).
  assert (HS : forall (s : bytes) o n, 8 <= o -> len (sub s o n) <= Z.max 0 (len s - 8)).
  { intros s o n Ho. destruct (Z_lt_le_dec n 0) as [L|L].
    - unfold sub. replace (Z.to_nat n) with O by lia. cbn. lia.
    - rewrite len_sub by lia. lia. }
  assert (H4 : forall (s : bytes) o n, 8 <= o -> len (sub s 4 4) = 4 \/ sub s o n = []).
  { intros s o n Ho. destruct (Z_lt_le_dec (len s) 8) as [L|L].
    - right. unfold sub. rewrite skipn_all2 by (unfold len in L; lia). apply firstn_nil.
    - left. rewrite len_sub by lia. lia. }
  induction 1 as [|s HN HL|s HN HL|s bs HN HL H IH]; constructor; cbn [fst snd]; auto.
  - split; [cbn; lia|auto].
  - eapply Forall_impl; [|exact IH]. intros b (Hb & Hb2). split; [|exact Hb2].
    eapply Z.le_trans; [exact Hb|]. unfold len. rewrite skipn_length. lia.
Qed.

Lemma mapM_raise {A B} (g : A -> res B) l e : mapM g l = Raise e -> exists x, In x l /\ g x = Raise e.
Proof.
  induction l as [|x l IH]; cbn [mapM]; [discriminate|]. destruct (g x) as [y|e'|] eqn:EG; cbn [rbind].
  - destruct (mapM g l) as [ys|e'|] eqn:EM; cbn [rbind]; try discriminate. intros H. injection H as ->.
    destruct (IH eq_refl) as (z & Hz & HE). exists z. split; [now right|exact HE].
  - intros H. injection H as ->. exists x. split; [now left|exact EG].
  - discriminate.
Qed.
Lemma mapM_diverge {A B} (g : A -> res B) l : mapM g l = Diverge -> exists x, In x l /\ g x = Diverge.
Proof.
  induction l as [|x l IH]; cbn [mapM]; [discriminate|]. destruct (g x) as [y|e'|] eqn:EG; cbn [rbind].
  - destruct (mapM g l) as [ys|e'|] eqn:EM; cbn [rbind]; try discriminate. intros _.
    destruct (IH eq_refl) as (z & Hz & HE). exists z. split; [now right|exact HE].
  - discriminate.
  - intros _. exists x. split; [now left|exact EG].
Qed.

(** Superboxes and the root: only what happens inside. *)
Lemma super_outcome E op fuel d t c bs :
  t = BTs "JP2" \/ (exists s, t = BTb s /\ In s supers) -> splits c bs -> (List.length bs < fuel)%nat ->
  match mapM (child (validate E op fuel d)) bs with
  | Ok rs => exists r, validate E op fuel (S d) t c VNone VNone = Ok r
  | Raise e => validate E op fuel (S d) t c VNone VNone = Raise e
  | Diverge => validate E op fuel (S d) t c VNone VNone = Diverge
  end.
Proof.
  intros Ht HS HF. destruct Ht as [->|(s & -> & Hs)].
  - destruct (headers_total bs) as (hs & HH). pose proof (jp2_says E op fuel d c VNone VNone bs hs HS HH HF) as H.
    destruct (mapM _ bs); [|exact H|exact H]. destruct H as (r & b & H & _). eauto.
  - destruct Hs as [<-|[<-|[<-|[]]]].
    + pose proof (jp2h_says E op fuel d c VNone VNone bs HS HF) as H.
      destruct (mapM _ bs); [|exact H|exact H]. destruct H as (r & H & _). eauto.
    + pose proof (res_super_says E op fuel d c VNone VNone bs HS HF) as H.
      destruct (mapM _ bs); [|exact H|exact H]. destruct H as (r & H & _). eauto.
    + pose proof (uinf_says E op fuel d c VNone VNone bs HS HF) as H.
      destruct (mapM _ bs); [|exact H|exact H]. destruct H as (r & H & _). eauto.
Qed.

Definition levels (n : Z) : Z := (n + 7) / 8 + 3.
Lemma levels_child n m : 0 <= m <= Z.max 0 (n - 8) -> 0 < n -> levels m <= levels n - 1.
Proof.
  intros H Hn. unfold levels. assert (H1 : 1 <= (n + 7) / 8) by (apply Z.div_le_lower_bound; lia).
  destruct (Z_le_gt_dec n 8) as [L|L].
  - replace m with 0 by lia. change ((0 + 7) / 8) with 0. lia.
  - assert ((m + 7) / 8 <= (n + 7 - 1 * 8) / 8) by (apply Z.div_le_mono; lia).
    replace (n + 7 - 1 * 8) with (n + 7 + (-1) * 8) in * by lia. rewrite Z.div_add in * by lia. lia.
Qed.
Lemma splits_nonempty c bs b : splits c bs -> In b bs -> 0 < len c.
Proof.
  intros HS Hb. assert (HP : forall s : bytes, s <> [] -> 0 < len s) by (intros [|x s] H; [contradiction|unfold len; cbn [List.length]; lia]).
  destruct HS; [destruct Hb|auto|auto|auto].
Qed.

Lemma not_deep t : ~ In t supers -> t <> t_jp2c -> t <> mSOT -> ~ In (boxTypeOf (BTb t)) deep_names.
Proof.
  assert (O1 : owns t_uinf "uuidInfoBox") by (split; [|split]; [reflexivity|reflexivity|discriminate]).
  assert (O2 : owns t_jp2h "jp2HeaderBox") by (split; [|split]; [reflexivity|reflexivity|discriminate]).
  assert (O3 : owns t_res "resolutionBox") by (split; [|split]; [reflexivity|reflexivity|discriminate]).
  assert (O4 : owns t_jp2c "contiguousCodestreamBox") by (split; [|split]; [reflexivity|reflexivity|discriminate]).
  assert (O5 : owns mSOT "tilePart") by (split; [|split]; [reflexivity|reflexivity|discriminate]).
  assert (O6 : boxTypeOf (BTb t) <> "JP2").
  { cbn [boxTypeOf]. destruct (assoc_b t typeMap_b) as [n|] eqn:EA; [|discriminate]. intros ->.
    apply assoc_b_in in EA. unfold typeMap_b in EA. cbn in EA. intuition discriminate. }
  intros H1 H2 H3 H. unfold deep_names, supers in *. cbn [In] in *.
  destruct H as [H|[H|[H|[H|[H|[H|[]]]]]]]; symmetry in H.
  - apply (owns_spec _ _ _ O1) in H. intuition congruence.
  - apply (owns_spec _ _ _ O2) in H. intuition congruence.
  - apply (owns_spec _ _ _ O3) in H. intuition congruence.
  - now apply (owns_spec _ _ _ O4) in H.
  - contradiction.
  - now apply (owns_spec _ _ _ O5) in H.
Qed.
Lemma supers_dec t : In t supers \/ ~ In t supers.
Proof. destruct (in_dec (list_eq_dec Byte.byte_eq_dec) t supers); auto. Qed.

(** A box of [n] bytes never needs more than [levels n] levels. *)
Lemma box_deep E op fuel : forall d t x, (List.length x < fuel)%nat -> levels (len x) <= Z.of_nat d ->
  fine True no_rec (validate E op fuel d (BTb t) x VNone VNone).
Proof.
  induction d as [|d IH]; intros t x HF HD.
  { unfold levels in HD. pose proof (len_nonneg x). pose proof (Z.div_pos (len x + 7) 8). lia. }
  destruct (supers_dec t) as [Hs|Hs].
  - destruct (splits_total x) as (bs & HS). pose proof (splits_len _ _ HS) as HL.
    pose proof (super_outcome E op fuel d (BTb t) x bs (or_intror (ex_intro _ t (conj eq_refl Hs))) HS ltac:(lia)) as H.
    destruct (mapM _ bs) as [rs|e|] eqn:EM; [destruct H as (r & ->); exact I| |rewrite H; exact I].
    rewrite H. cbn. destruct (mapM_raise _ _ _ EM) as ((t' & x') & Hb & HE).
    pose proof (splits_inside8 _ _ HS) as HI. rewrite Forall_forall in HI. destruct (HI _ Hb) as (HI1 & _). cbn [snd] in HI1.
    pose proof (levels_child (len x) (len x') ltac:(pose proof (len_nonneg x'); lia) (splits_nonempty _ _ _ HS Hb)) as HC.
    assert (HX : fine True no_rec (validate E op fuel d (BTb t') x' VNone VNone)).
    { apply IH; [|lia]. unfold len in *. lia. }
    unfold child in HE. cbn [fst snd] in HE. rewrite HE in HX. exact HX.
  - assert (HD3 : (3 <= S d)%nat).
    { unfold levels in HD. pose proof (len_nonneg x). pose proof (Z.div_pos (len x + 7) 8). lia. }
    destruct (list_eq_dec Byte.byte_eq_dec t t_jp2c) as [->|Hc].
    + destruct d as [|[|d]]; try lia. now apply cs_deep.
    + destruct (list_eq_dec Byte.byte_eq_dec t mSOT) as [->|Ht].
      * destruct d as [|d]; try lia. apply tile_deep.
      * apply leaf_fine; [exact code_no_rec|now apply not_deep|auto|right; split; lia].
Qed.
Lemma root_deep E op fuel d c : (List.length c < fuel)%nat -> levels (len c) <= Z.of_nat d ->
  fine True no_rec (validate E op fuel d (BTs "JP2") c VNone VNone).
Proof.
  intros HF HD. destruct d as [|d].
  { unfold levels in HD. pose proof (len_nonneg c). pose proof (Z.div_pos (len c + 7) 8). lia. }
  destruct (splits_total c) as (bs & HS). pose proof (splits_len _ _ HS) as HL.
  pose proof (super_outcome E op fuel d (BTs "JP2") c bs (or_introl eq_refl) HS ltac:(lia)) as H.
  destruct (mapM _ bs) as [rs|e|] eqn:EM; [destruct H as (r & ->); exact I| |rewrite H; exact I].
  rewrite H. cbn. destruct (mapM_raise _ _ _ EM) as ((t' & x') & Hb & HE).
  pose proof (splits_inside8 _ _ HS) as HI. rewrite Forall_forall in HI. destruct (HI _ Hb) as (HI1 & _). cbn [snd] in HI1.
  pose proof (levels_child (len c) (len x') ltac:(pose proof (len_nonneg x'); lia) (splits_nonempty _ _ _ HS Hb)) as HC.
  assert (HX : fine True no_rec (validate E op fuel d (BTb t') x' VNone VNone)).
  { apply box_deep; [|lia]. unfold len in *. lia. }
  unfold child in HE. cbn [fst snd] in HE. rewrite HE in HX. exact HX.
Qed.

(** Only codestreams can run for ever. *)
Lemma leaf_ends E op fuel d t x st cz : ~ In (boxTypeOf t) deep_names -> ~ In (boxTypeOf t) ipl_names ->
  validate E op fuel d t x st cz <> Diverge.
Proof.
  intros H1 H2 HV. pose proof (leaf_fine False (fun _ => True) E op fuel d t x st cz) as H. rewrite HV in H.
  apply H; auto.
Qed.
Lemma inside_diverges E op fuel c : (List.length c < fuel)%nat -> forall d t x, inbox c (t, x) -> (List.length x < fuel)%nat ->
  (len t = 4 \/ x = []) -> validate E op fuel d (BTb t) x VNone VNone = Diverge ->
  exists y d', inbox c (t_jp2c, y) /\ (d' <= d)%nat /\ validate E op fuel d' (BTb t_jp2c) y VNone VNone = Diverge.
Proof.
  intros HFc. induction d as [|d IH]; intros t x HW HF HT HV; [discriminate|].
  destruct (supers_dec t) as [Hs|Hs].
  - destruct (splits_total x) as (bs & HS). pose proof (splits_len _ _ HS) as HL.
    pose proof (super_outcome E op fuel d (BTb t) x bs (or_intror (ex_intro _ t (conj eq_refl Hs))) HS ltac:(lia)) as H.
    destruct (mapM _ bs) as [rs|e|] eqn:EM; [destruct H as (r & H); congruence|congruence|].
    destruct (mapM_diverge _ _ EM) as ((t' & x') & Hb & HE). unfold child in HE. cbn [fst snd] in HE.
    pose proof (splits_inside8 _ _ HS) as HI. rewrite Forall_forall in HI. destruct (HI _ Hb) as (HI1 & HI2). cbn [fst snd] in HI1, HI2.
    destruct (IH t' x') as (y & d' & H1 & H2 & H3); auto.
    + now apply inbox_in with t x bs.
    + unfold len in *. lia.
    + exists y, d'. split; [exact H1|]. split; [lia|exact H3].
  - destruct (list_eq_dec Byte.byte_eq_dec t t_jp2c) as [->|Hc]; [exists x, (S d); auto|].
    exfalso. destruct (list_eq_dec Byte.byte_eq_dec t mSOT) as [->|Ht].
    { destruct HT as [HT | ->]; [discriminate|]. rewrite validate_S in HV.
      match type of HV with context [runMethod ?E ?rec ?fuel ?f] =>
        change (runMethod E rec fuel f) with (validate_tilePart rec fuel f) in HV end.
      cbn in HV. discriminate. }
    destruct (list_eq_dec Byte.byte_eq_dec t mPLT) as [->|H1].
    { destruct HT as [HT | ->]; [discriminate|]. destruct fuel; [cbn in HF; lia|]. discriminate HV. }
    destruct (list_eq_dec Byte.byte_eq_dec t mPLM) as [->|H2].
    { destruct HT as [HT | ->]; [discriminate|]. destruct fuel; [cbn in HF; lia|]. discriminate HV. }
    revert HV. apply leaf_ends; [now apply not_deep|].
    assert (O1 : owns mPLT "plt") by (split; [|split]; [reflexivity|reflexivity|discriminate]).
    assert (O2 : owns mPLM "plm") by (split; [|split]; [reflexivity|reflexivity|discriminate]).
    intros [H|[H|[]]]; symmetry in H; [now apply (owns_spec _ _ _ O2) in H|now apply (owns_spec _ _ _ O1) in H].
Qed.
Lemma root_diverges E op fuel d c t : t = BTs "JP2" \/ (exists s, t = BTb s /\ In s supers) -> (List.length c < fuel)%nat ->
  validate E op fuel d t c VNone VNone = Diverge ->
  exists y d', inbox c (t_jp2c, y) /\ (d' < d)%nat /\ validate E op fuel d' (BTb t_jp2c) y VNone VNone = Diverge.
Proof.
  intros Ht HF HV. destruct d as [|d]; [discriminate|].
  destruct (splits_total c) as (bs & HS). pose proof (splits_len _ _ HS) as HL.
  pose proof (super_outcome E op fuel d t c bs Ht HS ltac:(lia)) as H.
  destruct (mapM _ bs) as [rs|e|] eqn:EM; [destruct H as (r & H); congruence|congruence|].
  destruct (mapM_diverge _ _ EM) as ((t' & x') & Hb & HE). unfold child in HE. cbn [fst snd] in HE.
  pose proof (splits_inside8 _ _ HS) as HI. rewrite Forall_forall in HI. destruct (HI _ Hb) as (HI1 & HI2). cbn [fst snd] in HI1, HI2.
  destruct (inside_diverges E op fuel c HF d t' x') as (y & d' & H1 & H2 & H3); auto.
  - now apply inbox_here with bs.
  - unfold len in *. lia.
  - exists y, d'. split; [exact H1|]. split; [lia|exact H3].
Qed.
