(** * What the validators add to a report, against the schema *)

From Coq Require Import ZArith List Bool String Lia SpecFloat.
From Coq Require Import ZifyBool.
From Coq Require Import Init.Byte.
From Verif Require Import Py PyFloat ByteConv Shared ETree BV VBoxes VMarkers VSuper Remap Spec SpecText PBase PHuman
     Serial SpecXml SpecXsd PXsd.
Import ListNotations.
Open Scope string_scope.
Open Scope list_scope.
Open Scope Z_scope.

Definition remapped : list string := Eval vm_compute in map fst propertiesRemapTable.
Lemma not_described t v d : existsb (String.eqb t) remapped = false -> ~ described propertiesRemapTable t v d.
Proof.
  intros H (m & k & HI & _). apply (in_map fst) in HI. cbn [fst] in HI. change (map fst propertiesRemapTable) with remapped in HI.
  assert (HX : existsb (String.eqb t) remapped = true) by (apply existsb_exists; exists t; split; [exact HI|apply String.eqb_refl]). congruence.
Qed.

Section Does.
Variables (E : env) (Tg : elt -> Prop).
Hypothesis T_leaf : forall n v, is_ncname (pys n) = true -> Tg (leaf n v).
Hypothesis T_node : forall n k, is_ncname (pys n) = true -> Forall Tg k -> Tg (node n k).
Hypothesis T_xml : forall b e, xml_parse E b = Some e -> Tg e.

Let sh := shows (catC E) (str_limit E) propertiesRemapTable.
Definition R := rel sh.
Definition good (e : elt) : Prop := forall e', R e e' -> valid actual e'.
Definition fits (p : particle) (k : list elt) : Prop := forall k', Forall2 R k k' -> matches (valid actual) p k'.

(** [does m p]: whatever [m] adds to the properties is described by [p]; all that it
    adds is well named. *)
Definition does {A} (m : M A) (p : particle) : Prop := forall s,
  match m s with
  | Ok (_, s') => exists ts cs ws, st_tests s' = st_tests s ++ ts /\ st_chars s' = st_chars s ++ cs /\
      st_warns s' = st_warns s ++ ws /\ Forall Tg ts /\ Forall Tg cs /\ Forall Tg ws /\ fits p cs
  | _ => True
  end.
(** A validator's result. *)
Definition sound (n : string) (r : bv) : Prop :=
  etag (r_chars r) = n /\ good (r_chars r) /\ Tg (r_tests r) /\ Tg (r_chars r) /\ Tg (r_warns r).

Lemma fits_nil : fits (Seq []) [].
Proof. intros k' H. inversion H. constructor. Qed.
Lemma fits_app l1 l2 a b : fits (Seq l1) a -> fits (Seq l2) b -> fits (Seq (l1 ++ l2)) (a ++ b).
Proof. intros HA HB k' H. apply Forall2_app_inv_l in H. destruct H as (x & y & HX & HY & ->). apply m_seq; auto. Qed.
Lemma fits_impl p q k : (forall V l, matches V p l -> matches V q l) -> fits p k -> fits q k.
Proof. intros H HP k' HK. apply H. now apply HP. Qed.
Lemma does_impl {A} (m : M A) p q : (forall V l, matches V p l -> matches V q l) -> does m p -> does m q.
Proof.
  intros H HM s. specialize (HM s). destruct (m s) as [[a s']|e|]; auto.
  destruct HM as (ts & cs & ws & H1 & H2 & H3 & H4 & H5 & H6 & H7). exists ts, cs, ws. repeat (split; [assumption|]). eapply fits_impl; eauto.
Qed.
Lemma does_nothing {A} (m : M A) : (forall s, match m s with
  | Ok (_, s') => st_tests s' = st_tests s /\ st_chars s' = st_chars s /\ st_warns s' = st_warns s | _ => True end) -> does m (Seq []).
Proof.
  intros H s. specialize (H s). destruct (m s) as [[a s']|e|]; auto. destruct H as (-> & -> & ->).
  exists [], [], []. rewrite !app_nil_r. repeat (split; [constructor || reflexivity|]). apply fits_nil.
Qed.
Lemma does_ret {A} (a : A) : does (ret a) (Seq []).
Proof. apply does_nothing. intros s. cbn. auto. Qed.
Lemma does_lift {A} (r : res A) : does (lift r) (Seq []).
Proof. apply does_nothing. intros s. unfold lift. destruct r; auto. Qed.
Lemma does_raise {A} e p : does (@raise A e) p.
Proof. intros s. exact I. Qed.
Lemma does_get : does get_chars (Seq []).
Proof. apply does_nothing. intros s. cbn. auto. Qed.
Lemma does_valid : does isValid_of (Seq []).
Proof. apply does_nothing. intros s. cbn. auto. Qed.
Lemma does_set_ret v : does (set_ret v) (Seq []).
Proof. apply does_nothing. intros s. cbn. auto. Qed.
Lemma does_set_tpl v : does (set_tpl v) (Seq []).
Proof. apply does_nothing. intros s. cbn. auto. Qed.
Lemma does_set_valid v : does (set_valid v) (Seq []).
Proof. apply does_nothing. intros s. cbn. auto. Qed.
Lemma does_bind {A B} (m : M A) (k : A -> M B) l1 l2 : does m (Seq l1) -> (forall a, does (k a) (Seq l2)) -> does (bind m k) (Seq (l1 ++ l2)).
Proof.
  intros HM HK s. unfold bind. specialize (HM s). destruct (m s) as [[a s1]|e|]; auto. specialize (HK a s1).
  destruct (k a s1) as [[b s2]|e|]; auto.
  destruct HM as (ts & cs & ws & H1 & H2 & H3 & H4 & H5 & H6 & H7).
  destruct HK as (ts' & cs' & ws' & G1 & G2 & G3 & G4 & G5 & G6 & G7).
  exists (ts ++ ts'), (cs ++ cs'), (ws ++ ws'). rewrite G1, G2, G3, H1, H2, H3, !app_assoc.
  repeat (split; [reflexivity || (apply Forall_app; auto)|]). now apply fits_app.
Qed.
Lemma does_skip {A B} (m : M A) (k : A -> M B) l : does m (Seq []) -> (forall a, does (k a) (Seq l)) -> does (bind m k) (Seq l).
Proof. apply (does_bind m k []). Qed.
Lemma does_next {A B} (m : M A) (k : A -> M B) p l : does m (Seq [p]) -> (forall a, does (k a) (Seq l)) -> does (bind m k) (Seq (p :: l)).
Proof. apply (does_bind m k [p]). Qed.
(** All of a computation that ends without a result. *)
Lemma does_last {A B} (m : M A) (k : A -> M B) l : does m (Seq l) -> (forall a, does (k a) (Seq [])) -> does (bind m k) (Seq l).
Proof. intros HM HK. rewrite <- (app_nil_r l). now apply does_bind. Qed.
Lemma does_one {A} (m : M A) p : does m (Seq [p]) <-> does m p.
Proof. split; apply does_impl; intros V l; apply m_seq1. Qed.
Lemma does_wrap {A} (m : M A) l : does m (Seq l) -> does m (Seq [Seq l]).
Proof. apply does_one. Qed.
Lemma does_opt {A} (m : M A) p : does m (Seq [p]) -> does m (Seq [Opt p]).
Proof. rewrite !does_one. apply does_impl. intros V l. apply m_opt_some. Qed.
Lemma does_absent {A} (m : M A) p l : does m (Seq l) -> does m (Seq (Opt p :: l)).
Proof. apply does_impl. intros V k H. change k with ([] ++ k). constructor; [apply m_opt_none|exact H]. Qed.
Lemma does_none {A} (m : M A) p : does m (Seq []) -> does m (Seq [Star p]).
Proof. apply does_impl. intros V k H. inversion H. apply -> m_seq1; apply m_star_nil. Qed.
Lemma does_once {A} (m : M A) p : does m (Seq [p]) -> does m (Seq [Star p]).
Proof. rewrite !does_one. apply does_impl. intros V l. apply m_star_one. Qed.
Lemma does_choice {A} (m : M A) p ps : In p ps -> does m (Seq [p]) -> does m (Seq [Choice ps]).
Proof. intros HI. rewrite !does_one. apply does_impl. intros V l. now apply m_choice. Qed.
Lemma does_more {A B} (m : M A) (k : A -> M B) p : does m (Seq [Star p]) -> (forall a, does (k a) (Seq [Star p])) -> does (bind m k) (Seq [Star p]).
Proof.
  intros HM HK. eapply does_impl; [|apply (does_bind m k [Star p] [Star p]); auto]. intros V l H. cbn [app] in H.
  inversion H as [| | |? ? a b HA HB| |]; subst. apply m_seq1 in HB. apply -> m_seq1. now apply m_star_app.
Qed.
Lemma does_when b m p : does m (Seq [p]) -> does (when b m) (Seq [Opt p]).
Proof. intros H. destruct b; [now apply does_opt|]. apply does_absent, (does_ret tt). Qed.
Lemma does_when0 b m : does m (Seq []) -> does (when b m) (Seq []).
Proof. intros H. destruct b; [exact H|apply (does_ret tt)]. Qed.
Lemma does_for {S} n (s0 : S) f p : (forall i s, does (f i s) (Seq [p])) -> does (for_range n s0 f) (Seq [Star p]).
Proof.
  intros H. unfold for_range. generalize 0 as i. revert s0.
  induction (Z.to_nat n) as [|k IH]; intros s0 i; cbn [for_n]; [apply does_none, does_ret|].
  apply does_more; [apply does_once, H|]. intros a. apply IH.
Qed.
Lemma does_for0 {S} n (s0 : S) f : (forall i s, does (f i s) (Seq [])) -> does (for_range n s0 f) (Seq []).
Proof.
  intros H. unfold for_range. generalize 0 as i. revert s0.
  induction (Z.to_nat n) as [|k IH]; intros s0 i; cbn [for_n]; [apply does_ret|].
  apply does_skip; [apply H|]. intros a. apply IH.
Qed.
Lemma does_loop {A B} fuel (body : A -> M (A + B)) a p : (forall a, does (body a) (Seq [Star p])) -> does (loop fuel body a) (Seq [Star p]).
Proof.
  intros H. revert a. induction fuel as [|fuel IH]; intros a; [intros s; exact I|]. cbn [loop].
  apply does_more; [apply H|]. intros [a'|b]; [apply IH|apply does_none, does_ret].
Qed.

(** ** Single elements *)
Lemma does_add e p : Tg e -> fits (Seq [p]) [e] -> does (add_char e) (Seq [p]).
Proof.
  intros HT HF s. cbn. exists [], [e], []. rewrite !app_nil_r. repeat (split; [auto|]). exact HF.
Qed.
Lemma fits_ref e : good e -> fits (Seq [Ref (etag e)]) [e].
Proof.
  intros H k' HK. inversion HK as [|? e' ? ? HR HN]; subst. inversion HN; subst. apply -> m_seq1.
  replace (etag e) with (etag e') by (inversion HR; reflexivity). constructor. now apply H.
Qed.
Lemma fits_any e : fits (Seq [Any]) [e].
Proof. intros k' HK. inversion HK as [|? e' ? ? HR HN]; subst. inversion HN; subst. apply -> m_seq1. constructor. Qed.
Lemma good_leaf n v ty : declared actual n = Some (Simple ty) -> (forall v', sh n v v' -> text_is (typed ty) v') -> good (leaf n v).
Proof.
  intros HD HV e' HR. inversion HR as [? ? ? v' ? k' HS HK]; subst. inversion HK; subst. eapply valid_simple; [exact HD|now apply HV].
Qed.
Lemma does_leaf n v ty : is_ncname (pys n) = true -> declared actual n = Some (Simple ty) ->
  (forall v', sh n v v' -> text_is (typed ty) v') -> does (addCharacteristic n v) (Seq [Ref n]).
Proof. intros HN HD HV. apply does_add; [now apply T_leaf|]. apply (fits_ref (leaf n v)). now apply (good_leaf n v ty). Qed.
Lemma does_string n v : is_ncname (pys n) = true -> declared actual n = Some (Simple XString) -> does (addCharacteristic n v) (Seq [Ref n]).
Proof. intros HN HD. apply (does_leaf n v XString); auto. intros v' H. inversion H; exact I. Qed.
Lemma does_integer n z : is_ncname (pys n) = true -> declared actual n = Some (Simple XInteger) ->
  existsb (String.eqb n) remapped = false -> does (addInt n z) (Seq [Ref n]).
Proof.
  intros HN HD HM. apply (does_leaf n (VInt z) XInteger); auto. intros v' H.
  inversion H as [? ? HX| | | |? ? ? ? HX| | | |]; subst; [exfalso; eapply not_described; eassumption|]. now apply decimal_integer in HX.
Qed.
Lemma shows_float n f v' : existsb (String.eqb n) remapped = false -> sh n (VFloat f) v' -> v' = VStr (repr_float f).
Proof.
  intros HM H. inversion H as [? ? HX| | | | | | | |]; subst; [exfalso; eapply not_described; eassumption|reflexivity].
Qed.
Lemma does_float n f nd : is_ncname (pys n) = true -> declared actual n = Some (Simple XFloat) ->
  existsb (String.eqb n) remapped = false -> 0 <= nd -> does (addCharacteristic n (VFloat (round_nd nd f))) (Seq [Ref n]).
Proof.
  intros HN HD HM Hnd. apply (does_leaf n _ XFloat); auto. intros v' H. apply shows_float in H; [|exact HM]. subst v'.
  cbn [text_is]. now apply repr_typed.
Qed.
Lemma does_fixed n b : is_ncname (pys n) = true -> declared actual n = Some (Simple XDecimal) ->
  existsb (String.eqb n) remapped = false -> does (addCharacteristic n (iccFixed b)) (Seq [Ref n]).
Proof.
  intros HN HD HM. apply (does_leaf n _ XDecimal); auto. intros v' H. apply shows_float in H; [|exact HM]. subst v'. apply icc_fixed_typed.
Qed.
Lemma does_pow2 n b : is_ncname (pys n) = true -> declared actual n = Some (Simple (XUnion XInteger (XEnum ["0.0"]))) ->
  existsb (String.eqb n) remapped = false -> does (addCharacteristic n (pow2 (bytesToUnsignedChar b + 2))) (Seq [Ref n]).
Proof.
  intros HN HD HM. apply (does_leaf n _ _ HN HD). intros v' H. unfold pow2 in H. destruct (0 <=? _) eqn:EZ.
  - inversion H as [? ? HX| | | |? ? ? ? HX| | | |]; subst; [exfalso; eapply not_described; eassumption|].
    left. now apply decimal_integer in HX.
  - assert (HB : bytesToUnsignedChar b = -9999).
    { revert EZ. unfold bytesToUnsignedChar, doConv. destruct (len b =? 1); [|reflexivity]. rewrite be_acc_0. pose proof (beval_range b). lia. }
    rewrite HB in H. apply shows_float in H; [|exact HM]. subst v'. right. exists "0.0". split; [now left|reflexivity].
Qed.
Lemma does_vid b : does (addInt "vidFRng" (getBitValue b 1)) (Seq [Ref "vidFRng"]).
Proof.
  apply (does_leaf "vidFRng" (VInt (getBitValue b 1)) (XEnum ["no"; "yes"])); try reflexivity. intros v' H.
  assert (HB : getBitValue b 1 = 0 \/ getBitValue b 1 = 1).
  { unfold getBitValue, getBitValueW. generalize (Z.shiftr b (8 - 1)) as x. intros x. change (Z.land x 1) with (Z.land x (Z.ones 1)).
    rewrite Z.land_ones by lia. pose proof (Z.mod_pos_bound x (2 ^ 1)). lia. }
  assert (HD : exists d, described propertiesRemapTable "vidFRng" (VInt (getBitValue b 1)) d).
  { destruct HB as [-> | ->]; [exists (pys "no"), yesNoMap, (VInt 0)|exists (pys "yes"), yesNoMap, (VInt 1)];
      (split; [cbn; do 5 right; left; reflexivity|]); (split; [cbn; auto|reflexivity]). }
  destruct HD as (d & HD). inversion H as [? ? HX| | | |? ? HX| | | |]; subst; [|exfalso; eapply HX; eassumption].
  destruct HX as (m & k & HI & HK & HE). assert (Hm : m = yesNoMap).
  { cbn in HI. repeat (destruct HI as [HI|HI]; [injection HI; congruence || (intros; discriminate)|]). destruct HI. }
  subst m. cbn [text_is typed]. destruct HK as [HK|[HK|[]]]; injection HK as <- <-; [exists "no"|exists "yes"]; (split; [cbn; auto|reflexivity]).
Qed.
Lemma does_test o n b : is_ncname (pys n) = true -> does (testFor o n b) (Seq []).
Proof.
  intros HN. assert (H : does (add_test (leaf n (VBool b))) (Seq [])).
  { intros s. cbn. exists [leaf n (VBool b)], [], []. rewrite !app_nil_r. repeat (split; [auto|]). apply fits_nil. }
  unfold testFor. destruct (negb (o_verbose o)); [destruct (negb b)|]; auto. apply (does_ret tt).
Qed.
Lemma does_warning msg : does (addWarning msg) (Seq []).
Proof.
  intros s. cbn. exists [], [], [leaf "warning" (VStr msg)]. rewrite !app_nil_r. repeat (split; [auto|]). apply fits_nil.
Qed.
Lemma does_test_ne e : Tg e -> does (add_test_ne e) (Seq []).
Proof.
  intros HT. unfold add_test_ne. destruct (ekids e); [apply (does_ret tt)|].
  intros s. cbn. exists [e], [], []. rewrite !app_nil_r. repeat (split; [auto|]). apply fits_nil.
Qed.
Lemma does_warn_ne e : Tg e -> does (add_warn_ne e) (Seq []).
Proof.
  intros HT. unfold add_warn_ne. destruct (ekids e); [apply (does_ret tt)|].
  intros s. cbn. exists [], [], [e]. rewrite !app_nil_r. repeat (split; [auto|]). apply fits_nil.
Qed.

Ltac silent :=
  lazymatch goal with
  | |- does (ret _) (Seq []) => apply does_ret
  | |- does (lift _) (Seq []) => apply does_lift
  | |- does (raise _) _ => apply does_raise
  | |- does get_chars (Seq []) => apply does_get
  | |- does isValid_of (Seq []) => apply does_valid
  | |- does (set_ret _) (Seq []) => apply does_set_ret
  | |- does (set_tpl _) (Seq []) => apply does_set_tpl
  | |- does (set_valid _) (Seq []) => apply does_set_valid
  | |- does (testFor _ _ _) (Seq []) => apply does_test; reflexivity
  | |- does (addWarning _) (Seq []) => apply does_warning
  | |- does (when _ _) (Seq []) => apply does_when0; silent
  | |- does (for_range _ _ _) (Seq []) => apply does_for0; intros ?i ?s; silent
  | |- does (bind _ _) (Seq []) => apply does_skip; [silent|intros ?x; silent]
  | |- does (if ?b then _ else _) (Seq []) => destruct b; silent
  | |- does (match ?x with _ => _ end) (Seq []) => destruct x; silent
  end.
Ltac emit :=
  lazymatch goal with
  | |- does (addInt "vidFRng" _) _ => apply does_vid
  | |- does (addInt _ _) _ => first [ apply does_integer; reflexivity | apply does_string; reflexivity ]
  | |- does (addCharacteristic _ (iccFixed _)) _ => apply does_fixed; reflexivity
  | |- does (addCharacteristic _ (VFloat _)) _ => apply does_float; [reflexivity|reflexivity|reflexivity|lia]
  | |- does (addCharacteristic _ (pow2 _)) _ => apply does_pow2; reflexivity
  | |- does (addCharacteristic _ _) _ => apply does_string; reflexivity
  end.
Ltac does1 :=
  first
    [ solve [silent]
    | solve [emit]
    | lazymatch goal with
      | |- does (bind ?m _) (Seq ?l) =>
          first [ apply does_skip; [solve [silent]|intros ?x] | apply does_next; [solve [emit]|intros ?x] ]
      | |- does (let '(_, _) := ?x in _) _ => destruct x
      end ].
Ltac doit := cbv zeta; repeat (does1; cbv beta zeta).


Lemma does_choice_star {A} (m : M A) p q : does m (Seq [Star p]) -> does m (Seq [Choice [Plus p; Star q]]).
Proof.
  rewrite !does_one. apply does_impl. intros V l H. inversion H as [| | | | |? ? ? ls HL _ HF]; subst.
  destruct ls as [|a ls].
  - apply m_choice with (Star q); [cbn; auto|apply m_star_nil].
  - apply m_choice with (Plus p); [cbn; auto|]. constructor; cbn; auto. lia.
Qed.
(** Repeated content first, if any. *)
Lemma does_star {A B} (m : M A) (k : A -> M B) p l : does m (Seq [Star p]) -> (forall a, does (k a) (Seq (Star p :: l))) -> does (bind m k) (Seq (Star p :: l)).
Proof.
  intros HM HK. eapply does_impl; [|apply (does_bind m k [Star p] (Star p :: l)); auto]. intros V x H. cbn [app] in H.
  inversion H as [| | |? ? a b HA HB| |]; subst. inversion HB as [| | |? ? a' b' HA' HB'| |]; subst. rewrite app_assoc.
  constructor; [|exact HB']. now apply m_star_app.
Qed.
Lemma does_unstar {A} (m : M A) p l : does m (Seq l) -> does m (Seq (Star p :: l)).
Proof. apply does_impl. intros V k H. change k with ([] ++ k). constructor; [apply m_star_nil|exact H]. Qed.
Lemma does_opts {A} (m : M A) l : (forall p, In p l -> exists q, p = Opt q) -> does m (Seq []) -> does m (Seq l).
Proof.
  intros HL HM. induction l as [|p l IH]; [exact HM|]. destruct (HL p) as (q & ->); [now left|]. apply does_absent, IH. intros x Hx. apply HL. now right.
Qed.

Section Leaf.
Variable rec : recT.
Variable fuel : nat.
Variable f : self.
Lemma does_unknown : does (validate_unknownBox E f) (Seq [Ref "boxType"]).
Proof. unfold validate_unknownBox. destruct (s_btype f); doit. Qed.
Lemma does_sig : does (validate_signatureBox f) (Seq []).
Proof. unfold validate_signatureBox. doit. Qed.
Lemma does_ftyp : does (validate_fileTypeBox f) (Seq [Ref "br"; Ref "minV"; Star (Ref "cL")]).
Proof.
  unfold validate_fileTypeBox. doit. apply does_last; [apply does_for; intros i [a b]; doit|]. intros [a b]. doit.
Qed.
Lemma does_ihdr : does (validate_imageHeaderBox f) (Seq [Ref "height"; Ref "width"; Ref "nC"; Ref "bPCSign"; Ref "bPCDepth"; Ref "c"; Ref "unkC"; Ref "iPR"]).
Proof. unfold validate_imageHeaderBox. doit. Qed.
Lemma does_bpcc : does (validate_bitsPerComponentBox f) (Seq [Star (Seq [Ref "bPCSign"; Ref "bPCDepth"])]).
Proof. unfold validate_bitsPerComponentBox. apply does_for. intros i s. apply does_wrap. doit. Qed.
Lemma does_icc : does (validate_icc f) (Seq [Ref "profileSize"; Ref "preferredCMMType"; Ref "profileVersion"; Ref "profileClass";
       Ref "colourSpace"; Ref "profileConnectionSpace"; Ref "dateTimeString"; Ref "profileSignature";
       Ref "primaryPlatform"; Ref "embeddedProfile"; Ref "profileCannotBeUsedIndependently";
       Ref "deviceManufacturer"; Ref "deviceModel"; Ref "transparency"; Ref "glossiness"; Ref "polarity";
       Ref "colour"; Ref "renderingIntent"; Ref "connectionSpaceIlluminantX";
       Ref "connectionSpaceIlluminantY"; Ref "connectionSpaceIlluminantZ"; Ref "profileCreator";
       Ref "profileID"; Star (Ref "tag"); Ref "description"]).
Proof.
  unfold validate_icc. doit. apply does_next; [apply does_for; intros i [[[a b] d] t]; doit|]. intros [[[a b] d] t]. doit.
Qed.
Lemma does_pclr : does (validate_paletteBox f) (Seq [Ref "nE"; Ref "nPC"; Star (Seq [Ref "bSign"; Ref "bDepth"; Star (Ref "cP")])]).
Proof.
  unfold validate_paletteBox. doit. apply does_for. intros i s. apply does_wrap. doit.
  apply does_next; [apply does_for; intros; doit|]. intros. doit.
Qed.
Lemma does_cmap : does (validate_componentMappingBox f) (Seq [Star (Seq [Ref "cMP"; Ref "mTyp"; Ref "pCol"])]).
Proof.
  unfold validate_componentMappingBox. apply does_last; [|intros; doit]. apply does_for. intros i s. apply does_wrap. doit.
Qed.
Lemma does_cdef : does (validate_channelDefinitionBox f) (Seq [Ref "n"; Star (Seq [Ref "cN"; Ref "cTyp"; Ref "cAssoc"])]).
Proof.
  unfold validate_channelDefinitionBox. doit. apply does_last.
  - apply does_for. intros i [a o]. apply does_wrap. doit.
  - intros [a o]. cbn [fst]. apply does_when0, does_skip; [doit|]. intros _. induction a as [|y a IH]; cbn [alphaTests]; doit.
    exact IH.
Qed.
Lemma does_resolution x p : 
  p = map (fun n => Ref n) [("vR" ++ x ++ "N")%string; ("vR" ++ x ++ "D")%string; ("hR" ++ x ++ "N")%string; ("hR" ++ x ++ "D")%string;
    ("vR" ++ x ++ "E")%string; ("hR" ++ x ++ "E")%string; ("vRes" ++ x ++ "InPixelsPerMeter")%string; ("hRes" ++ x ++ "InPixelsPerMeter")%string;
    ("vRes" ++ x ++ "InPixelsPerInch")%string; ("hRes" ++ x ++ "InPixelsPerInch")%string] ->
  In x ["c"; "d"]%string -> does (resolutionFields E f x) (Seq p).
Proof.
  intros -> [<-|[<-|[]]]; unfold resolutionFields; cbn [map String.append]; doit.
Qed.
Lemma does_opt_any b : does (match xml_parse E b with Some e => add_char e | None => ret tt end) (Seq [Opt (Seq [Any])]).
Proof.
  destruct (xml_parse E b) as [e|] eqn:HX; [|apply does_absent; doit]. apply does_opt, does_wrap, does_add; [eapply T_xml, HX|apply fits_any].
Qed.
Lemma does_xml : does (validate_xmlBox E f) (Seq [Opt (Seq [Any])]).
Proof.
  unfold validate_xmlBox. pose proof (does_opt_any (s_contents f)) as H. destruct (xml_parse E (s_contents f)) as [e|].
  - apply does_last; [exact H|intros; doit].
  - apply does_last; [|intros; doit]. destruct (o_nullxml (s_opts f)); [apply does_opt_any|apply does_absent, (does_ret tt)].
Qed.
Lemma does_uuid : does (validate_uuidBox E f) (Seq [Opt (Seq [Any])]).
Proof.
  unfold validate_uuidBox. cbv zeta. apply does_skip; [doit|]. intros _. apply does_skip; [doit|]. intros u.
  destruct (pystr_eqb u xmpUUID).
  - pose proof (does_opt_any (slice (s_contents f) 16 (len (s_contents f)))) as H. destruct (xml_parse E (slice _ _ _)) as [e|].
    + apply does_last; [exact H|intros; doit].
    + apply does_last; [|intros; doit]. destruct (o_nullxml (s_opts f)); [apply does_opt_any|apply does_absent, (does_ret tt)].
  - apply does_opt, does_wrap, does_add; [now apply T_leaf|apply fits_any].
Qed.
Lemma does_ulst : does (validate_uuidListBox f) (Seq [Ref "nU"; Star (Ref "uuid")]).
Proof. unfold validate_uuidListBox. doit. apply does_last; [|intros; doit]. apply does_for. intros i s. doit. Qed.
Lemma does_url : does (validate_urlBox f) (Seq [Ref "version"; Ref "loc"]).
Proof. unfold validate_urlBox. doit. Qed.

Lemma does_siz : does (validate_siz f) (Seq [Ref "lsiz"; Ref "rsiz"; Ref "capability"; Ref "xsiz"; Ref "ysiz"; Ref "xOsiz"; Ref "yOsiz";
       Ref "xTsiz"; Ref "yTsiz"; Ref "xTOsiz"; Ref "yTOsiz"; Ref "numberOfTiles"; Ref "csiz";
       Star (Seq [Ref "ssizSign"; Ref "ssizDepth"; Ref "xRsiz"; Ref "yRsiz"])]).
Proof. unfold validate_siz. doit. apply does_last; [|intros; doit]. apply does_for. intros i s. apply does_wrap. doit. Qed.
Lemma does_blocks off : does (codeBlockFields f off) (Seq [Ref "codeBlockWidth"; Ref "codeBlockHeight"]).
Proof. unfold codeBlockFields. doit. Qed.
Lemma does_style off : does (codeBlockStyleFields f off) (Seq [Ref "codingBypass"; Opt (Ref "resetOnBoundaries"); Ref "termOnEachPass";
  Ref "vertCausalContext"; Opt (Ref "predTermination"); Opt (Ref "segmentationSymbols")]).
Proof.
  unfold codeBlockStyleFields. doit. apply does_next; [apply does_when; doit|]. intros _. doit.
  apply does_next; [apply does_when; doit|]. intros _. apply does_when. doit.
Qed.
Lemma does_precincts a b off : does (precinctFields f a b off) (Seq [Star (Seq [Ref "precinctSizeX"; Ref "precinctSizeY"])]).
Proof.
  unfold precinctFields. destruct (a =? 1); [apply does_last; [|intros; doit]|]; apply does_for; intros; apply does_wrap; doit.
Qed.
Lemma does_cod : does (validate_cod f) (Seq [Ref "lcod"; Ref "precincts"; Ref "sop"; Ref "eph"; Ref "order"; Ref "layers";
       Ref "multipleComponentTransformation"; Ref "levels"; Ref "codeBlockWidth"; Ref "codeBlockHeight";
       Ref "codingBypass"; Opt (Ref "resetOnBoundaries"); Ref "termOnEachPass"; Ref "vertCausalContext"; Opt
       (Ref "predTermination"); Opt (Ref "segmentationSymbols"); Ref "transformation"; Star (Seq
       [Ref "precinctSizeX"; Ref "precinctSizeY"])]).
Proof.
  unfold validate_cod. doit. apply (does_bind _ _ _ _ (does_blocks 8)). intros _. apply (does_bind _ _ _ _ (does_style 10)). intros _. doit.
  apply does_precincts.
Qed.
Lemma does_coc : does (validate_coc f) (Seq [Ref "lcoc"; Ref "ccoc"; Ref "precincts"; Ref "levels"; Ref "codeBlockWidth";
       Ref "codeBlockHeight"; Ref "codingBypass"; Opt (Ref "resetOnBoundaries"); Ref "termOnEachPass";
       Ref "vertCausalContext"; Opt (Ref "predTermination"); Opt (Ref "segmentationSymbols");
       Ref "transformation"; Star (Seq [Ref "precinctSizeX"; Ref "precinctSizeY"])]).
Proof.
  unfold validate_coc. doit.
  apply (does_bind _ _ _ _ (does_blocks _)). intros _. apply (does_bind _ _ _ _ (does_style _)). intros _. doit. apply does_precincts.
Qed.
Lemma does_rgn : does (validate_rgn f) (Seq [Ref "lrgn"; Ref "crgn"; Ref "roiStyle"; Ref "roiShift"]).
Proof. unfold validate_rgn. doit. Qed.
Lemma does_steps q n off : does (stepSizeFields f q n off) (Seq [Choice [Plus (Seq [Ref "epsilon"]); Star (Seq [Ref "mu"; Ref "epsilon"])]]).
Proof.
  unfold stepSizeFields. destruct (q =? 0).
  - apply does_choice_star, does_last; [|intros; doit]. apply does_for. intros. apply does_wrap. doit.
  - apply does_choice with (Star (Seq [Ref "mu"; Ref "epsilon"])); [cbn; auto|]. destruct (q =? 1).
    + apply does_once, does_wrap. doit.
    + destruct (q =? 2); [|apply does_none; doit]. apply does_last; [|intros; doit]. apply does_for. intros. apply does_wrap. doit.
Qed.
Lemma does_qcd : does (validate_qcd f) (Seq [Ref "lqcd"; Ref "qStyle"; Ref "guardBits"; Choice [Plus (Seq [Ref "epsilon"]); Star
       (Seq [Ref "mu"; Ref "epsilon"])]]).
Proof. unfold validate_qcd. doit. apply does_steps. Qed.
Lemma does_qcc : does (validate_qcc f) (Seq [Ref "lqcc"; Ref "cqcc"; Ref "qStyle"; Ref "guardBits"; Choice [Plus (Seq
       [Ref "epsilon"]); Star (Seq [Ref "mu"; Ref "epsilon"])]]).
Proof. unfold validate_qcc. doit. apply does_steps. Qed.
Lemma does_poc : does (validate_poc f) (Seq [Ref "lpoc"; Star (Seq [Ref "rspoc"; Ref "cspoc"; Ref "lyepoc"; Ref "repoc";
       Ref "cepoc"; Ref "order"])]).
Proof.
  unfold validate_poc. doit. apply does_last; [|intros; doit]. apply does_for. intros i s. apply does_wrap. doit.
Qed.
Lemma does_crg : does (validate_crg f) (Seq [Ref "lcrg"; Star (Seq [Ref "xcrg"; Ref "ycrg"])]).
Proof. unfold validate_crg. doit. apply does_last; [|intros; doit]. apply does_for. intros i s. apply does_wrap. doit. Qed.
Lemma does_com : does (validate_com E f) (Seq [Ref "lcom"; Ref "rcom"; Opt (Ref "comment")]).
Proof. unfold validate_com. doit. apply does_when. doit. Qed.
Lemma does_parts l : does (addParts l) (Seq [Star (Seq [Ref "pcapPart"])]).
Proof.
  induction l as [|x l IH]; cbn [addParts]; [apply does_none; doit|]. apply does_more; [apply does_once, does_wrap; doit|]. intros _. exact IH.
Qed.
Lemma does_cap : does (validate_cap f) (Seq [Ref "lcap"; Star (Seq [Ref "pcapPart"]); Opt (Ref "htCodeBlocks"); Opt
       (Ref "htSets"); Opt (Ref "htRegion"); Opt (Ref "htHomogeneous"); Opt (Ref "htReversible"); Opt
       (Ref "htB")]).
Proof.
  unfold validate_cap. doit. apply does_next; [apply does_parts|]. intros _. apply does_skip; [doit|]. intros _.
  assert (HO : forall m : M unit, does m (Seq []) -> does m (Seq [Opt (Ref "htCodeBlocks"); Opt
       (Ref "htSets"); Opt (Ref "htRegion"); Opt (Ref "htHomogeneous"); Opt (Ref "htReversible"); Opt (Ref "htB")])).
  { intros m Hm. do 6 apply does_absent. exact Hm. }
  destruct (String.eqb _ _ || String.eqb _ _)%bool; [|apply HO, (does_ret tt)]. unfold when at 1.
  apply does_skip; [doit|]. intros _. destruct (zindex _ _ _); [|apply HO; doit]. cbv zeta.
  do 5 (apply does_next; [apply does_opt; doit|]; intros _). apply does_opt. doit.
Qed.
Lemma does_prf : does (validate_prf f) (Seq [Ref "lprf"; Ref "PRFnum"]).
Proof. unfold validate_prf. doit. Qed.
Lemma does_cpf : does (validate_cpf f) (Seq [Ref "lcpf"; Ref "CPFnum"]).
Proof. unfold validate_cpf. doit. Qed.
Lemma does_sot : does (validate_sot f) (Seq [Ref "lsot"; Ref "isot"; Ref "psot"; Ref "tpsot"; Ref "tnsot"]).
Proof. unfold validate_sot. doit. Qed.
Lemma does_plm : does (validate_plm fuel f) (Seq [Ref "lplm"; Ref "zplm"; Ref "nplm"; Ref "iplm"]).
Proof. unfold validate_plm. doit. Qed.
Lemma does_plt : does (validate_plt fuel f) (Seq [Ref "lplt"; Ref "zplt"; Ref "iplt"]).
Proof. unfold validate_plt. doit. Qed.

(** Validators that run others. *)
Lemma does_ok {A B} (a : A) (k : A -> M B) p : does (k a) p -> does (bind (lift (Ok a)) k) p.
Proof. intros H s. apply (H s). Qed.
Lemma does_attach n t x st cz : (forall r, rec t x st cz = Ok r -> sound n r) -> does (attach rec t x st cz) (Seq [Ref n]).
Proof.
  intros HR. unfold attach, attachIf. destruct (rec t x st cz) as [r|e|] eqn:HC; [|intros s; exact I|intros s; exact I].
  destruct (HR r eq_refl) as (<- & HG & H1 & H2 & H3). apply does_ok. apply does_skip; [now apply does_test_ne|]. intros _.
  apply does_next; [|intros _]. { apply does_add; [exact H2|now apply fits_ref]. }
  apply does_skip; [now apply does_warn_ne|]. intros _. doit.
Qed.
Lemma does_attachIf n keep t x st cz : (forall r, rec t x st cz = Ok r -> sound n r) -> does (attachIf rec keep t x st cz) (Seq [Opt (Ref n)]).
Proof.
  intros HR. destruct keep; [apply does_opt; now apply does_attach|]. apply does_absent.
  unfold attachIf. destruct (rec t x st cz) as [r|e|] eqn:HC; [|intros s; exact I|intros s; exact I].
  destruct (HR r eq_refl) as (<- & HG & H1 & H2 & H3). apply does_ok. apply does_skip; [now apply does_test_ne|]. intros _.
  apply does_skip; [apply (does_ret tt)|]. intros _. apply does_skip; [now apply does_warn_ne|]. intros _. doit.
Qed.
Lemma does_attachICC x : (forall r, rec (BTs "icc") x VNone VNone = Ok r -> sound "icc" r) -> does (attachICC rec x) (Seq [Ref "icc"]).
Proof.
  intros HR. unfold attachICC. destruct (rec (BTs "icc") x VNone VNone) as [r|e|] eqn:HC; [|intros s; exact I|intros s; exact I].
  destruct (HR r eq_refl) as (HN & HG & H1 & H2 & H3). apply does_ok.
  apply does_next; [|intros _]. { apply does_add; [exact H2|rewrite <- HN; now apply fits_ref]. }
  apply does_skip; [now apply does_warn_ne|]. intros _. doit.
Qed.
Lemma does_colr : (forall x r, rec (BTs "icc") x VNone VNone = Ok r -> sound "icc" r) ->
  does (validate_colourSpecificationBox rec f) (Seq [Ref "meth"; Ref "prec"; Ref "approx"; Opt (Ref "enumCS"); Opt
       (Ref "icc"); Opt (Ref "colPrims"); Opt (Ref "transfC"); Opt (Ref "matCoeffs"); Opt (Ref "vidFRng")]).
Proof.
  intros HI. unfold validate_colourSpecificationBox. doit. destruct (_ =? 1).
  { doit. apply does_next; [apply does_opt; doit|]. intros _. do 5 apply does_absent. doit. }
  destruct (_ =? 2).
  { apply does_absent. apply does_next; [apply does_opt, does_attachICC, HI|]. intros e. do 4 apply does_absent. doit. }
  destruct (_ =? 3).
  { apply does_absent. apply does_next; [apply does_opt, does_attachICC, HI|]. intros e. do 4 apply does_absent. doit. }
  destruct (_ =? 5); [|do 6 apply does_absent; doit]. do 2 apply does_absent.
  do 3 (apply does_next; [apply does_opt; doit|]; intros _; apply does_skip; [doit|]; intros _; cbv zeta). apply does_opt. doit.
Qed.

(** *** Superboxes *)
Definition box_names : list string :=
  Eval cbv in filter (fun n => negb (String.eqb n "tilePart")) ("unknownBox" :: map snd typeMap_b).
Lemma assoc_named b l n : assoc_b b l = Some n -> In n (map snd l).
Proof. induction l as [|[k v] l IH]; [discriminate|]. cbn. destruct (bytes_eqb b k); [intros H; injection H as <-; auto|auto]. Qed.
Lemma box_named b : boxTypeOf (BTb b) <> "tilePart" -> In (boxTypeOf (BTb b)) box_names.
Proof.
  intros HN. change box_names with (filter (fun n => negb (String.eqb n "tilePart")) ("unknownBox" :: map snd typeMap_b)).
  apply filter_In. split; [|apply negb_true_iff, String.eqb_neq, HN].
  cbn [boxTypeOf]. destruct (assoc_b b typeMap_b) eqn:HB; [right; eapply assoc_named, HB|now left].
Qed.
Definition schema_boxes : list string := Eval cbv in
  match allBoxes with Occurs _ _ (Choice l) => List.concat (map (fun p => match p with Ref n => [n] | _ => [] end) l) | _ => [] end.
Lemma one_box n : In n box_names -> forall (V : elt -> Prop) e, V e -> etag e = n -> matches V (Choice [allBoxes; Ref "plt"; Ref "ppt"]) [e].
Proof.
  intros HN V e He <-.
  assert (HB : existsb (String.eqb (etag e)) schema_boxes || (String.eqb (etag e) "plt" || String.eqb (etag e) "ppt") = true).
  { revert HN. generalize (etag e) as n. intros n HN.
    assert (HF : forallb (fun n => existsb (String.eqb n) schema_boxes || (String.eqb n "plt" || String.eqb n "ppt")) box_names = true) by reflexivity.
    rewrite forallb_forall in HF. exact (HF n HN). }
  apply orb_true_iff in HB. destruct HB as [HB|HB].
  - apply m_choice with allBoxes; [now left|]. change allBoxes with (Star (Choice (map Ref schema_boxes))). apply m_star_one.
    apply m_choice with (Ref (etag e)); [|now constructor]. apply in_map. apply existsb_exists in HB. destruct HB as (x & HI & HX).
    apply String.eqb_eq in HX. now rewrite HX.
  - apply m_choice with (Ref (etag e)); [|now constructor]. apply orb_true_iff in HB. right.
    destruct HB as [HB|HB]; apply String.eqb_eq in HB; rewrite HB; cbn; auto.
Qed.
Lemma does_boxes : (forall b x r, rec (BTb b) x VNone VNone = Ok r -> boxTypeOf (BTb b) <> "tilePart" /\ sound (boxTypeOf (BTb b)) r) ->
  does (boxLoop rec fuel f) (Seq [anyBoxes]).
Proof.
  intros HR. unfold boxLoop. apply does_loop. intros [[bs blv] tys]. destruct (_ && _)%bool; [|apply does_none; doit].
  destruct (getBox _ _ _) as [[[l b] e] x]. apply does_last; [|intros; doit]. apply does_once. apply does_one.
  assert (HS : forall n, In n box_names -> does (attach rec (BTb b) x VNone VNone) (Seq [Ref n]) -> does (attach rec (BTb b) x VNone VNone) (Choice [allBoxes; Ref "plt"; Ref "ppt"])).
  { intros n Hn. rewrite does_one. apply does_impl. intros V k HM. inversion HM; subst. now apply one_box with (etag e0). }
  destruct (rec (BTb b) x VNone VNone) as [r|ex|] eqn:HX.
  - destruct (HR _ _ _ HX) as (HN & HG). apply HS with (boxTypeOf (BTb b)); [now apply box_named|].
    apply does_attach. intros r0 Hr0. rewrite HX in Hr0. now injection Hr0 as <-.
  - unfold attach, attachIf. rewrite HX. intros s. exact I.
  - unfold attach, attachIf. rewrite HX. intros s. exact I.
Qed.

Definition boxes_sound : Prop :=
  forall b x r, rec (BTb b) x VNone VNone = Ok r -> boxTypeOf (BTb b) <> "tilePart" /\ sound (boxTypeOf (BTb b)) r.
Lemma does_jp2h : boxes_sound -> does (validate_jp2HeaderBox rec fuel f) (Seq [anyBoxes]).
Proof. intros HR. unfold validate_jp2HeaderBox. apply does_last; [now apply does_boxes|]. intros tys. doit. Qed.
Lemma does_res : boxes_sound -> does (validate_resolutionBox rec fuel f) (Seq [anyBoxes]).
Proof. intros HR. unfold validate_resolutionBox. apply does_last; [now apply does_boxes|]. intros tys. doit. Qed.
Lemma does_uinf : boxes_sound -> does (validate_uuidInfoBox rec fuel f) (Seq [anyBoxes]).
Proof. intros HR. unfold validate_uuidInfoBox. apply does_last; [now apply does_boxes|]. intros tys. doit. Qed.

Lemma does_result {A B} (r : res A) (k : A -> M B) p : (forall a, r = Ok a -> does (k a) p) -> does (bind (lift r) k) p.
Proof. intros H. destruct r as [a|e|]; [|intros s; exact I|intros s; exact I]. intros s. apply (H a eq_refl s). Qed.
Lemma does_ratio n d h w : does (cr <- lift (calculateCompressionRatio n d h w) ;; addCharacteristic "compressionRatio" (round2 cr)) (Seq [Ref "compressionRatio"]).
Proof.
  apply does_result. intros v Hv. unfold calculateCompressionRatio in Hv. destruct (sum_values 0 d) as [z|e|]; cbn [rbind] in Hv; [|discriminate|discriminate].
  destruct (negb (n =? 0)); injection Hv as <-; cbn [round2]; [apply does_float; [reflexivity|reflexivity|reflexivity|lia]|].
  apply (does_leaf _ _ XFloat); try reflexivity. intros v' H.
  inversion H as [? ? HX| | | |? ? ? ? HX| | | |]; subst; [exfalso; eapply not_described; [|eassumption]; reflexivity|].
  left. now apply decimal_double, integer_decimal, (decimal_integer (-9999)).
Qed.
Lemma does_header n e ih sz : does (checkHeaderAgainstSIZ f n e ih sz) (Seq [Opt (Ref "compressionRatio")]).
Proof.
  unfold checkHeaderAgainstSIZ. cbv zeta. repeat (apply does_skip; [solve [silent]|intros ?]).
  match goal with |- does (let '(_, _) := ?x in _) _ => destruct x as [sg dp] end.
  repeat (apply does_skip; [solve [silent]|intros ?]). apply does_when. do 2 (apply does_skip; [solve [silent]|intros ?]). apply does_ratio.
Qed.
Lemma does_jp2 : boxes_sound -> does (validate_JP2 rec fuel f) (Seq [anyBoxes; Choice [Opt (Ref "compressionRatio")]]).
Proof.
  intros HR. unfold validate_JP2. apply does_next; [now apply does_boxes|]. intros tys.
  repeat (apply does_skip; [solve [silent]|intros ?]). apply does_last; [|intros; doit].
  apply does_choice with (Opt (Ref "compressionRatio")); [now left|].
  destruct (ETree.find _ _); [destruct (ETree.find _ _)|]; try apply does_header; apply does_absent; doit.
Qed.

(** *** Codestreams *)
Definition main_markers : list bytes :=
  [mCOD; mQCD; mCOM; mCAP; mPRF; mCPF; mTLM; mCOC; mQCC; mRGN; mPOC; mCRG; mPLM; mPPM; mSIZ].
Definition tile_markers : list bytes := [mCOD; mQCD; mCOM; mCOC; mQCC; mRGN; mPOC; mPLT; mPPT].
Definition cs_parts : particle := Choice [Ref "siz"; Ref "cap"; Ref "prf"; Ref "cpf";
       Ref "ppmCount"; Ref "plmCount"; Ref "cod"; Ref "qcd"; Ref "com"; Ref "coc"; Ref "rgn"; Ref "qcc";
       Ref "poc"; Ref "tlm"; Ref "plm"; Ref "ppm"; Ref "crg"; Ref "tileParts"].
Definition tile_parts : particle := Choice [Ref "sot"; Ref "cod"; Ref "qcd"; Ref "com"; Ref "coc"; Ref "rgn";
       Ref "qcc"; Ref "poc"; Ref "plt"; Ref "ppt"; Ref "crg"; Ref "pltCount"; Ref "pptCount"].
Lemma in_bin m l : bin m l = true -> In m l.
Proof. intros H. apply existsb_exists in H. destruct H as (x & Hx & He). apply bytes_eqb_spec in He. now subst x. Qed.
Lemma does_part keep m x st cz (ms : list bytes) ps : In m ms -> (forall m, In m ms -> In (Ref (boxTypeOf (BTb m))) ps) ->
  (forall r, rec (BTb m) x st cz = Ok r -> sound (boxTypeOf (BTb m)) r) -> does (attachIf rec keep (BTb m) x st cz) (Seq [Star (Choice ps)]).
Proof.
  intros HI HP HR. assert (H : does (attachIf rec keep (BTb m) x st cz) (Seq [Opt (Ref (boxTypeOf (BTb m)))])) by now apply does_attachIf.
  revert H. rewrite !does_one. apply does_impl. intros V l H. inversion H as [| | | | |? ? ? ls _ HL HF]; subst.
  destruct ls as [|a [|b ls]]; [apply m_star_nil| |cbn in HL; lia]. cbn. rewrite app_nil_r. inversion HF; subst.
  apply m_star_one. eapply m_choice; [apply HP, HI|assumption].
Qed.
Lemma main_names m : In m main_markers -> In (Ref (boxTypeOf (BTb m))) [Ref "siz"; Ref "cap"; Ref "prf"; Ref "cpf";
       Ref "ppmCount"; Ref "plmCount"; Ref "cod"; Ref "qcd"; Ref "com"; Ref "coc"; Ref "rgn"; Ref "qcc";
       Ref "poc"; Ref "tlm"; Ref "plm"; Ref "ppm"; Ref "crg"; Ref "tileParts"].
Proof. intros H. unfold main_markers in H. repeat (destruct H as [<-|H]; [cbn; tauto|]). destruct H. Qed.
Lemma tile_names m : In m tile_markers -> In (Ref (boxTypeOf (BTb m))) [Ref "sot"; Ref "cod"; Ref "qcd"; Ref "com"; Ref "coc"; Ref "rgn";
       Ref "qcc"; Ref "poc"; Ref "plt"; Ref "ppt"; Ref "crg"; Ref "pltCount"; Ref "pptCount"].
Proof. intros H. unfold tile_markers in H. repeat (destruct H as [<-|H]; [cbn; tauto|]). destruct H. Qed.
Lemma does_item {A} (m : M A) n ps : In (Ref n) ps -> does m (Seq [Ref n]) -> does m (Seq [Star (Choice ps)]).
Proof. intros HI H. apply does_once. now apply does_choice with (Ref n). Qed.
Lemma does_unique n v : is_ncname (pys n) = true -> does (uniqueTest f n v) (Seq []).
Proof. intros HN. unfold uniqueTest. destruct v; [apply (does_ret tt)|now apply does_test]. Qed.
Lemma does_first n t e v : is_ncname (pys n) = true -> does (onlyInFirst f n t e v) (Seq []).
Proof. intros HN. unfold onlyInFirst. destruct (findall _ _); [apply (does_ret tt)|now apply does_test]. Qed.

Definition tiles_sound : Prop := forall m x cz r, In m tile_markers -> rec (BTb m) x VNone cz = Ok r -> sound (boxTypeOf (BTb m)) r.
Lemma does_tileHeader s : tiles_sound -> does (tileHeaderLoop rec fuel f s) (Seq [Star tile_parts]).
Proof.
  intros HR. unfold tileHeaderLoop. apply does_loop. clear s. intros s. destruct (_ && _)%bool; [|apply does_none; doit].
  apply does_last; [|intros; doit]. unfold tileHeaderStep. destruct (getMarkerSegment _ _) as [[[m l] x] n]. cbv zeta.
  apply does_last; [|intros; doit].
  repeat match goal with |- does (if bin m ?l then _ else _) _ =>
    destruct (bin m l) eqn:HB; [apply in_bin in HB; apply does_last; [|intros; doit]; assert (HI : In m tile_markers) by (cbn in *; tauto);
      apply does_part with tile_markers; [exact HI|exact tile_names|intros r; now apply HR]|clear HB] end.
  apply does_none. doit.
Qed.
Lemma does_tilePart : tiles_sound -> (forall x r, rec (BTs "startOfTile") x VNone VNone = Ok r -> sound "sot" r) ->
  does (validate_tilePart rec fuel f) (Seq [Star tile_parts]).
Proof.
  intros HR HS. unfold validate_tilePart. apply does_skip; [silent|]. intros st.
  destruct (getMarkerSegment _ _) as [[[m l] x] n]. cbv zeta. apply does_more; [apply does_item with "sot"; [cbn; auto|apply does_attach, HS]|]. intros r.
  apply does_more; [now apply does_tileHeader|]. intros s. apply does_more; [apply does_none; silent|]. intros _.
  apply does_more; [apply does_item with "pltCount"; [cbn; tauto|doit]|]. intros _.
  apply does_more; [apply does_item with "pptCount"; [cbn; tauto|doit]|]. intros _. apply does_none.
  apply does_skip; [silent|]. intros e. do 5 (apply does_skip; [apply does_first; reflexivity|]; intros _).
  do 2 (apply does_skip; [apply does_unique; reflexivity|]; intros _). doit.
Qed.

Definition mains_sound : Prop := forall m x cz r, In m main_markers -> rec (BTb m) x VNone cz = Ok r -> sound (boxTypeOf (BTb m)) r.
Lemma does_mainHeader cz s : mains_sound -> does (mainHeaderLoop rec fuel f cz s) (Seq [Star cs_parts]).
Proof.
  intros HR. unfold mainHeaderLoop. apply does_loop. clear s. intros s. destruct (_ && _)%bool; [|apply does_none; doit].
  apply does_last; [|intros; doit]. unfold mainHeaderStep. destruct (getMarkerSegment _ _) as [[[m l] x] n]. cbv zeta.
  apply does_last; [|intros; doit].
  repeat match goal with |- does (if bin m ?l then _ else _) _ =>
    destruct (bin m l) eqn:HB; [apply in_bin in HB; apply does_last; [|intros; doit]; assert (HI : In m main_markers) by (cbn in *; tauto);
      apply does_part with main_markers; [exact HI|exact main_names|intros r; now apply HR]|clear HB] end.
  apply does_none. doit.
Qed.
Definition tiled (t : tpl) : Prop :=
  Forall Tg (tl_tests t) /\ Forall Tg (tl_chars t) /\ Forall Tg (tl_warns t) /\ fits (Star (Ref "tilePart")) (tl_chars t).
Definition parts_sound : Prop := forall x st cz r, rec (BTb mSOT) x st cz = Ok r -> sound "tilePart" r.
Lemma Forall_ne P l e : Forall P l -> P e -> Forall P (appendIfNotEmpty l e).
Proof. intros HL HE. unfold appendIfNotEmpty. destruct (ekids e); [exact HL|]. apply Forall_app. auto. Qed.
Lemma loop_inv {A B} (I : A -> Prop) (Q : B -> Prop) n (body : A -> M (A + B)) a s : I a ->
  (forall a s, I a -> match body a s with Ok (inl a', s') => I a' /\ s' = s | Ok (inr b, s') => Q b /\ s' = s | _ => True end) ->
  match loop n body a s with Ok (b, s') => Q b /\ s' = s | _ => True end.
Proof.
  intros HI HB. revert a HI. induction n as [|n IH]; intros a HI; [exact Logic.I|]. cbn [loop]. unfold bind. specialize (HB a s HI).
  destruct (body a s) as [[[a'|b] s1]|e|]; [destruct HB as [HB ->]; now apply IH|exact HB|exact Logic.I|exact Logic.I].
Qed.
Lemma does_tiles {B} cz off t (k : tpl -> M B) p : parts_sound -> tiled t -> (forall t', tiled t' -> does (k t') p) ->
  does (bind (tilePartLoop rec fuel f cz off t) k) p.
Proof.
  intros HR HT HK s. unfold bind.
  assert (H : match tilePartLoop rec fuel f cz off t s with Ok (b, s') => tiled b /\ s' = s | _ => True end).
  { unfold tilePartLoop. apply loop_inv with (I := fun x => tiled (snd x)); [exact HT|]. clear t off HT s HK. intros [off t] s HT.
    cbn [snd] in HT. destruct (bytes_eqb _ _); [|split; [exact HT|reflexivity]]. unfold bind at 1, lift at 1.
    destruct (rec (BTb mSOT) _ _ _) as [r|e|] eqn:HX; [|exact I|exact I]. cbv zeta. destruct (HR _ _ _ _ HX) as (HN & HG & H1 & H2 & H3).
    destruct HT as (T1 & T2 & T3 & T4).
    assert (HT' : Forall Tg (appendIfNotEmpty (tl_tests t) (r_tests r)) /\ Forall Tg (tl_chars t ++ [r_chars r]) /\
      Forall Tg (appendIfNotEmpty (tl_warns t) (r_warns r)) /\ fits (Star (Ref "tilePart")) (tl_chars t ++ [r_chars r])).
    { repeat split; [now apply Forall_ne|apply Forall_app; auto|now apply Forall_ne|].
      intros k' Hk. apply Forall2_app_inv_l in Hk. destruct Hk as (x & y & HX' & HY & ->). apply m_star_app; [now apply T4|].
      apply m_star_one, m_seq1. rewrite <- HN. now apply (fits_ref _ HG). }
    cbn [tl_found]. destruct (dict_get _ _) as [v|]; [|now split]. unfold bind at 1, lift at 1. destruct (as_int v) as [z|e|]; [|exact I|exact I].
    destruct (negb (py_eqb (r_ret r) _)); [|now split]. unfold bind, lift. destruct (as_int (r_ret r)) as [z'|e|]; [|exact I|exact I]. now split. }
  destruct (tilePartLoop _ _ _ _ _ _ _) as [[b s']|e|]; [|exact I|exact I]. destruct H as [H ->]. exact (HK b H s).
Qed.
Lemma good_node n k p : declared actual n = Some (Complex p) -> existsb (String.eqb n) remapped = false -> fits p k -> good (node n k).
Proof.
  intros HD HM HF e' HR. inversion HR as [? ? ? v' ? k' HS HK]; subst. inversion HS as [? ? HX| | | | | | | |]; subst.
  - exfalso. eapply not_described; eassumption.
  - eapply valid_complex; [exact HD|constructor|now apply HF].
Qed.
Definition bare : bool := String.eqb (o_format (s_opts f)) "j2c" || String.eqb (o_format (s_opts f)) "jhc".
Lemma does_cs : mains_sound -> parts_sound ->
  does (validate_contiguousCodestreamBox rec fuel f) (Seq (Star cs_parts :: if bare then [Opt (Ref "compressionRatio")] else [])).
Proof.
  intros HM HP. unfold validate_contiguousCodestreamBox.
  destruct (getMarkerSegment _ _) as [[[m0 l0] x0] n0]. apply does_skip; [silent|]. intros _.
  destruct (getMarkerSegment _ _) as [[[m1 l1] x1] n1]. cbv zeta. apply does_skip; [silent|]. intros _.
  apply does_last; [|intros; silent]. destruct (bytes_eqb m1 mSIZ) eqn:HZ.
  2:{ apply does_unstar. destruct bare; [apply does_absent|]; apply (does_ret tt). }
  unfold when at 1. apply bytes_eqb_spec in HZ. subst m1.
  apply does_star; [apply does_part with main_markers; [cbn; tauto|exact main_names|intros r; apply HM; cbn; tauto]|]. intros rz.
  apply does_star; [now apply does_mainHeader|]. intros s.
  apply does_star; [apply does_item with "ppmCount"; [cbn; tauto|doit]|]. intros _.
  apply does_star; [apply does_item with "plmCount"; [cbn; tauto|doit]|]. intros _.
  do 6 (apply does_skip; [silent|intros ?]).
  match goal with |- does (bind (if ?b then ?m else ret ?t0) ?k) ?p =>
    assert (HK : (forall t, tiled t -> does (k t) p) -> does (bind (if b then m else ret t0) k) p) end.
  { intros HK. assert (HT0 : forall x, tiled {| tl_tests := []; tl_chars := []; tl_warns := []; tl_indices := []; tl_expected := []; tl_found := x |}).
    { intros x. repeat split; cbn; auto. intros k' Hk. inversion Hk. apply m_star_nil. }
    destruct (bytes_eqb (mh_marker s) mSOT); [now apply does_tiles|]. intros st. exact (HK _ (HT0 (dict_zeros (Z.min a4 65535))) st). }
  apply HK. clear HK. intros t (T1 & T2 & T3 & T4). do 2 (apply does_skip; [silent|]; intros _).
  apply does_skip; [apply does_test_ne, T_node; auto|]. intros _.
  apply does_star.
  { apply does_item with "tileParts"; [cbn; tauto|]. apply does_add; [now apply T_node|]. apply (fits_ref (node "tileParts" (tl_chars t))).
    apply good_node with (Seq [Star (Ref "tilePart")]); [reflexivity|reflexivity|]. revert T4. apply fits_impl. intros V l. apply m_seq1. }
  intros _. apply does_skip; [apply does_warn_ne, T_node; auto|]. intros _. apply does_unstar. apply does_skip; [silent|]. intros e.
  do 2 (apply does_skip; [apply does_unique; reflexivity|]; intros _). apply does_skip; [silent|]. intros _.
  unfold bare. destruct (String.eqb _ _ || String.eqb _ _)%bool; [|apply (does_ret tt)]. apply does_opt. unfold when.
  do 4 (apply does_skip; [silent|]; intros ?). apply does_ratio.
Qed.
End Leaf.

(** ** All validators *)
Definition all_names : list string := Eval cbv in "icc" :: "sot" :: "unknownBox" :: map snd typeMap_b.
Definition supers : list string := ["uuidInfoBox"; "jp2HeaderBox"; "resolutionBox"].
Ltac content H := eexists; (split; [reflexivity|]); first [exact H | apply does_one; exact H].
Lemma does_null {A} (m : M A) q : does m (Seq []) -> (forall V, matches V q []) -> does m q.
Proof. intros HM HQ. revert HM. apply does_impl. intros V l H. inversion H. apply HQ. Qed.
Lemma does_method (rec : recT) fuel f name :
  In name all_names ->
  (In name supers -> boxes_sound rec) ->
  (name = "colourSpecificationBox" -> forall x r, rec (BTs "icc") x VNone VNone = Ok r -> sound "icc" r) ->
  (name = "tilePart" -> tiles_sound rec /\ forall x r, rec (BTs "startOfTile") x VNone VNone = Ok r -> sound "sot" r) ->
  (name = "contiguousCodestreamBox" -> mains_sound rec /\ parts_sound rec /\ bare f = false) ->
  exists p, declared actual name = Some (Complex p) /\ does (match method E rec fuel f name with Some m => m | None => ret tt end) p.
Proof.
  intros HA HB HI HT HC. unfold method.
  Ltac tryname n := match goal with
    | |- exists p, _ /\ does (match (if String.eqb n ?s then _ else _) with _ => _ end) p =>
        let H := fresh "N" in destruct (String.eqb n s) eqn:H;
        [apply String.eqb_eq in H; subst n|apply String.eqb_neq in H] end.
  tryname name; [content (does_xml f)|]. tryname name; [content (does_uuid f)|].
  tryname name; [content (does_uinf rec fuel f (HB ltac:(cbn; auto)))|].
  tryname name. { eexists; split; [reflexivity|]. apply does_null; [apply does_sig|]; intros V; apply (m_occurs V 0 (Some 0%nat) (Seq [Any]) []); cbn; auto. }
  tryname name; [content (does_ftyp f)|]. tryname name; [content (does_jp2h rec fuel f (HB ltac:(cbn; auto)))|].
  tryname name; [content (does_ihdr f)|]. tryname name; [content (does_bpcc f)|]. tryname name; [content (does_colr rec f (HI eq_refl))|].
  tryname name; [content (does_pclr f)|]. tryname name; [content (does_cmap f)|]. tryname name; [content (does_cdef f)|].
  tryname name; [content (does_res rec fuel f (HB ltac:(cbn; auto)))|].
  tryname name. { destruct (HC eq_refl) as (H1 & H2 & H3). pose proof (does_cs rec fuel f H1 H2) as H. rewrite H3 in H. content H. }
  tryname name; [content (does_resolution f "c" _ eq_refl ltac:(cbn; auto))|].
  tryname name; [content (does_resolution f "d" _ eq_refl ltac:(cbn; auto))|].
  tryname name; [content (does_ulst f)|]. tryname name; [content (does_url f)|].
  tryname name; [content (does_cap f)|]. tryname name; [content (does_siz f)|]. tryname name; [content (does_prf f)|].
  tryname name; [content (does_cod f)|]. tryname name; [content (does_qcd f)|]. tryname name; [content (does_com f)|].
  tryname name; [content (does_coc f)|]. tryname name; [content (does_rgn f)|]. tryname name; [content (does_qcc f)|].
  tryname name; [content (does_poc f)|].
  assert (HN : forall q, does (ret tt) (Star (Seq [q]))) by (intros q; apply does_null; [apply (does_ret tt)|intros; apply m_star_nil]).
  tryname name; [content (HN Any)|]. tryname name; [content (does_plm fuel f)|]. tryname name; [content (does_plt fuel f)|].
  tryname name; [content (does_cpf f)|]. tryname name; [content (HN Any)|]. tryname name; [content (HN Any)|].
  tryname name; [content (does_crg f)|]. tryname name; [destruct (HT eq_refl) as (H1 & H2); content (does_tilePart rec fuel f H1 H2)|].
  tryname name; [content (does_icc f)|]. tryname name; [content (does_sot f)|].
  tryname name. { exfalso. unfold all_names in HA. cbn in HA. intuition discriminate. }
  tryname name; [content (does_unknown f)|].
  assert (name = "intellectualPropertyBox") as -> by (unfold all_names in HA; repeat (destruct HA as [HA|HA]; [congruence|]); destruct HA).
  content (HN Any).
Qed.

Definition bareF (op : opts) : bool := String.eqb (o_format op) "j2c" || String.eqb (o_format op) "jhc".
Definition fence (t : btype) : bool :=
  match t with
  | BTs s => negb (String.eqb s "JP2")
  | BTb _ => negb (existsb (String.eqb (boxTypeOf t)) ("contiguousCodestreamBox" :: supers))
  end.
Lemma named t : isTop t = false -> In (boxTypeOf t) all_names.
Proof.
  intros HT. destruct t as [b|s].
  - cbn [boxTypeOf]. destruct (assoc_b b typeMap_b) eqn:HB; [|cbn; auto]. apply assoc_named in HB. do 3 right. exact HB.
  - cbn [isTop] in HT. apply orb_false_iff in HT. destruct HT as (H1 & H2). cbn [boxTypeOf assoc_s typeMap_s].
    destruct (String.eqb s "icc"); [cbn; auto|]. destruct (String.eqb s "startOfTile"); [cbn; auto|]. rewrite H1, H2. cbn; auto.
Qed.
Lemma names_ok : forallb (fun n => is_ncname (pys n) && negb (existsb (String.eqb n) remapped)) ("properties" :: "tests" :: "warnings" :: all_names) = true.
Proof. reflexivity. Qed.
Lemma cs_all V l : matches V (Star cs_parts) l -> matches V anyBoxes l.
Proof.
  intros H. inversion H as [| | | | |? ? ? ls _ _ HF]; subst. constructor; [lia|exact I|]. eapply Forall_impl; [|exact HF]. clear.
  intros l H. inversion H as [| | | |? ? ? HI HM|]; subst. apply m_choice with allBoxes; [now left|]. apply m_star_one.
  apply m_choice with p; [|exact HM]. revert HI. clear. cbn. intuition auto 50.
Qed.
Theorem sound_validate op fuel d t x st cz r : (bareF op = true -> fence t = true) ->
  validate E op fuel d t x st cz = Ok r -> sound (charRoot t) r.
Proof.
  revert t x st cz r. induction d as [|d IH]; intros t x st cz r HF HV; [discriminate|]. cbn [validate] in HV.
  set (f := {| s_opts := op; s_btype := t; s_contents := x; s_start := st; s_csiz := cz |}) in *.
  assert (HM : mains_sound (validate E op fuel d)).
  { intros m y c0 r0 HI HX. replace (boxTypeOf (BTb m)) with (charRoot (BTb m)) by reflexivity. eapply IH; [|exact HX]. intros _.
    unfold main_markers in HI. repeat (destruct HI as [<-|HI]; [reflexivity|]). destruct HI. }
  assert (HTl : tiles_sound (validate E op fuel d)).
  { intros m y c0 r0 HI HX. replace (boxTypeOf (BTb m)) with (charRoot (BTb m)) by reflexivity. eapply IH; [|exact HX]. intros _.
    unfold tile_markers in HI. repeat (destruct HI as [<-|HI]; [reflexivity|]). destruct HI. }
  assert (HP : parts_sound (validate E op fuel d)).
  { intros y s0 c0 r0 HX. change "tilePart" with (charRoot (BTb mSOT)). eapply IH; [|exact HX]. reflexivity. }
  assert (HI : forall x r, validate E op fuel d (BTs "icc") x VNone VNone = Ok r -> sound "icc" r).
  { intros y r0 HX. change "icc" with (charRoot (BTs "icc")). eapply IH; [|exact HX]. reflexivity. }
  assert (HSt : forall x r, validate E op fuel d (BTs "startOfTile") x VNone VNone = Ok r -> sound "sot" r).
  { intros y r0 HX. change "sot" with (charRoot (BTs "startOfTile")). eapply IH; [|exact HX]. reflexivity. }
  assert (HB : bareF op = false -> boxes_sound (validate E op fuel d)).
  { intros HBare b y r0 HX. split; [|change (boxTypeOf (BTb b)) with (charRoot (BTb b)); eapply IH; [|exact HX]; congruence].
    intros HN. destruct d as [|d']; [discriminate|]. cbn [validate] in HX. unfold runMethod in HX. cbn [s_btype] in HX. rewrite HN in HX.
    discriminate. }
  assert (HD : exists p, declared actual (charRoot t) = Some (Complex p) /\ does (runMethod E (validate E op fuel d) fuel f) p).
  { unfold runMethod, charRoot. subst f. cbn [s_btype]. destruct (isTop t) eqn:HT.
    - destruct t as [b|s]; [discriminate|]. cbn [isTop] in HT. apply orb_true_iff in HT. eexists. split; [reflexivity|].
      destruct HT as [HT|HT]; apply String.eqb_eq in HT; subst s.
      + apply does_jp2. apply HB. destruct (bareF op); [|reflexivity]. discriminate (HF eq_refl).
      + cbn [boxTypeOf]. 
        change (match method E (validate E op fuel d) fuel {| s_opts := op; s_btype := BTs "contiguousCodestreamBox"; s_contents := x; s_start := st; s_csiz := cz |}
          (boxTypeOf (BTs "contiguousCodestreamBox")) with Some m => m | None => ret tt end) with
          (validate_contiguousCodestreamBox (validate E op fuel d) fuel {| s_opts := op; s_btype := BTs "contiguousCodestreamBox"; s_contents := x; s_start := st; s_csiz := cz |}).
        eapply does_impl; [|apply does_cs; assumption]. intros V l H. inversion H as [| | |? ? a b HA HB'| |]; subst.
        constructor; [now apply cs_all|]. destruct (bare _) in HB'.
        * apply m_seq1 in HB'. apply -> m_seq1. apply m_choice with (Opt (Ref "compressionRatio")); [now left|exact HB'].
        * inversion HB'. apply -> m_seq1. apply m_choice with (Opt (Ref "compressionRatio")); [now left|apply m_opt_none].
    - apply does_method; auto; [now apply named| |].
      + intros HS. apply HB. destruct (bareF op); [|reflexivity]. specialize (HF eq_refl). exfalso. destruct t as [b|s].
        * cbn [fence] in HF. apply negb_true_iff in HF. assert (HX : existsb (String.eqb (boxTypeOf (BTb b))) ("contiguousCodestreamBox" :: supers) = true).
          { apply existsb_exists. exists (boxTypeOf (BTb b)). split; [now right|apply String.eqb_refl]. } congruence.
        * revert HS HT. cbn [boxTypeOf isTop]. unfold typeMap_s, assoc_s. repeat match goal with |- context [String.eqb s ?x] => destruct (String.eqb s x) end;
            cbn; intuition discriminate.
      + intros HS. split; [exact HM|]. split; [exact HP|]. change (bareF op = false). destruct (bareF op); [|reflexivity]. specialize (HF eq_refl). exfalso. destruct t as [b|s].
        * cbn [fence] in HF. rewrite HS in HF. discriminate.
        * revert HS HT. cbn [boxTypeOf isTop]. unfold typeMap_s, assoc_s. repeat match goal with |- context [String.eqb s ?x] => destruct (String.eqb s x) end;
            cbn; intuition discriminate. }
  destruct HD as (p & HD & HR). specialize (HR st0). destruct (runMethod _ _ _ _ _) as [[u s']|e|]; [|discriminate|discriminate].
  injection HV as <-. destruct HR as (ts & cs & ws & H1 & H2 & H3 & H4 & H5 & H6 & H7). cbn [st0 st_tests st_chars st_warns app] in H1, H2, H3.
  assert (HNm : forall n, In n [charRoot t; testRoot t; warnRoot t] -> is_ncname (pys n) = true /\ existsb (String.eqb n) remapped = false).
  { assert (HX := names_ok). rewrite forallb_forall in HX. intros n Hn.
    assert (HN : In n ("properties" :: "tests" :: "warnings" :: all_names)).
    { unfold charRoot, testRoot, warnRoot in Hn. destruct (isTop t) eqn:HT; [cbn in Hn; cbn; tauto|].
      do 3 right. pose proof (named t HT). cbn in Hn. intuition congruence. }
    specialize (HX n HN). apply andb_true_iff in HX. destruct HX as (HX1 & HX2). apply negb_true_iff in HX2. auto. }
  unfold bv_of, sound. cbn [r_chars r_tests r_warns]. rewrite H1, H2, H3.
  split; [reflexivity|]. split; [eapply good_node; [exact HD|apply HNm; cbn; auto|exact H7]|].
  repeat split; apply T_node; auto; apply HNm; cbn; auto.
Qed.
End Does.
