(** * Sizes of the numbers in a report *)

From Coq Require Import ZArith List Bool String Lia.
From Coq Require Import ZifyBool.
From Coq Require Import Init.Byte.
From Verif Require Import Py ByteConv ETree BV VBoxes VMarkers VSuper Spec SpecText SpecMarker PBase PFloat PMarker PLeaf PXsd PXsdV.
Import ListNotations.
Open Scope string_scope.
Open Scope list_scope.
Open Scope Z_scope.
Local Open Scope m_scope.

(** The numbers that may be long. *)
Definition wide_tags : list string :=
  ["PRFnum"; "CPFnum"].
Definition wide_max : Z := 4095 + 2 ^ (16 * 32766).
Definition bounded (t : string) (v : value) : Prop :=
  match v with VInt z => (In t wide_tags /\ Z.abs z <= wide_max) \/ Z.abs z < 2 ^ 300 | _ => True end.
Definition sized : elt -> Prop := every bounded.
Definition sized_st (s : st) : Prop :=
  Forall sized (st_tests s) /\ Forall sized (st_chars s) /\ Forall sized (st_warns s).
Definition sized_bv (r : bv) : Prop := sized (r_tests r) /\ sized (r_chars r) /\ sized (r_warns r).
Definition keeps {A} (m : M A) : Prop :=
  forall s, sized_st s -> match m s with Ok (_, s') => sized_st s' | _ => True end.

Lemma sized_node t k : Forall sized k -> sized (node t k).
Proof. intros H. constructor; [exact I|exact H]. Qed.
Lemma sized_leaf t v : bounded t v -> sized (leaf t v).
Proof. intros H. constructor; [exact H|constructor]. Qed.
Lemma sized_ne l e : Forall sized l -> sized e -> Forall sized (appendIfNotEmpty l e).
Proof. intros HL HE. unfold appendIfNotEmpty. destruct (ekids e); [exact HL|]. apply Forall_app. auto. Qed.
Lemma keeps_ret {A} (a : A) : keeps (ret a). Proof. intros s H. exact H. Qed.
Lemma keeps_lift {A} (r : res A) : keeps (lift r). Proof. intros s H. unfold lift. now destruct r. Qed.
Lemma keeps_raise {A} e : keeps (@raise A e). Proof. intros s H. exact I. Qed.
Lemma keeps_bind {A B} (m : M A) (k : A -> M B) : keeps m -> (forall a, keeps (k a)) -> keeps (bind m k).
Proof. intros HM HK s H. unfold bind. specialize (HM s H). destruct (m s) as [[a s']|e|]; [now apply HK|exact I|exact I]. Qed.
Lemma keeps_result {A B} (r : res A) (k : A -> M B) : (forall a, r = Ok a -> keeps (k a)) -> keeps (bind (lift r) k).
Proof. intros H s HS. unfold bind, lift. destruct r as [a|e|]; [now apply H|exact I|exact I]. Qed.
Lemma keeps_when b m : keeps m -> keeps (when b m).
Proof. intros H. destruct b; [exact H|apply keeps_ret]. Qed.
Lemma keeps_for {S} n (s : S) f : (forall i s, keeps (f i s)) -> keeps (for_range n s f).
Proof.
  intros H. unfold for_range. generalize 0 as i. revert s. induction (Z.to_nat n) as [|k IH]; intros s i; [apply keeps_ret|].
  cbn [for_n]. apply keeps_bind; [apply H|]. intros a. apply IH.
Qed.
Lemma keeps_loop {A B} n (body : A -> M (A + B)) a : (forall a, keeps (body a)) -> keeps (loop n body a).
Proof.
  intros H. revert a. induction n as [|n IH]; intros a; [intros s _; exact I|]. cbn [loop]. apply keeps_bind; [apply H|].
  intros [a'|b]; [apply IH|apply keeps_ret].
Qed.
Lemma keeps_get : keeps get_chars. Proof. intros s H. exact H. Qed.
Lemma keeps_char e : sized e -> keeps (add_char e).
Proof. intros HE s (H1 & H2 & H3). repeat split; cbn; auto. apply Forall_app. auto. Qed.
Lemma keeps_characteristic t v : bounded t v -> keeps (addCharacteristic t v).
Proof. intros H. apply keeps_char. now apply sized_leaf. Qed.
Lemma keeps_int t z : (In t wide_tags /\ Z.abs z <= wide_max) \/ Z.abs z < 2 ^ 300 -> keeps (addInt t z).
Proof. intros H. apply keeps_characteristic. exact H. Qed.
Lemma keeps_test o n b : keeps (testFor o n b).
Proof.
  assert (HT : keeps (add_test (leaf n (VBool b)))).
  { intros s (H1 & H2 & H3). repeat split; cbn; auto. apply Forall_app. split; [exact H1|]. constructor; [now apply sized_leaf|constructor]. }
  unfold testFor. destruct (negb (o_verbose o)); [|exact HT]. destruct (negb b); [exact HT|apply keeps_ret].
Qed.
Lemma keeps_warning w : keeps (addWarning w).
Proof. intros s (H1 & H2 & H3). repeat split; cbn; auto. apply Forall_app. split; [exact H3|]. constructor; [now apply sized_leaf|constructor]. Qed.
Lemma keeps_test_ne e : sized e -> keeps (add_test_ne e).
Proof. intros HE. unfold add_test_ne. destruct (ekids e); [apply keeps_ret|]. intros s (H1 & H2 & H3). repeat split; cbn; auto. apply Forall_app. auto. Qed.
Lemma keeps_warn_ne e : sized e -> keeps (add_warn_ne e).
Proof. intros HE. unfold add_warn_ne. destruct (ekids e); [apply keeps_ret|]. intros s (H1 & H2 & H3). repeat split; cbn; auto. apply Forall_app. auto. Qed.
Lemma keeps_valid_of : keeps isValid_of. Proof. intros s H. exact H. Qed.
Lemma keeps_set_ret v : keeps (set_ret v). Proof. intros s H. exact H. Qed.
Lemma keeps_set_tpl v : keeps (set_tpl v). Proof. intros s H. exact H. Qed.
Lemma keeps_set_valid v : keeps (set_valid v). Proof. intros s H. exact H. Qed.

Lemma keeps_post {A B} (m : M A) (k : A -> M B) (Q : A -> Prop) : keeps m -> (forall s, match m s with Ok (a, _) => Q a | _ => True end) ->
  (forall a, Q a -> keeps (k a)) -> keeps (bind m k).
Proof. intros HM HQ HK s H. unfold bind. specialize (HM s H). specialize (HQ s). destruct (m s) as [[a s']|e|]; [now apply HK|exact I|exact I]. Qed.

(** ** Bounds *)
Lemma slice_small (c : bytes) a n : 0 <= n -> len (slice c a (a + n)) <= n.
Proof.
  intros Hn. unfold slice. cbv zeta. set (d := norm_ix (len c) (a + n) - norm_ix (len c) a).
  assert (HD : d <= n) by (unfold d, norm_ix; pose proof (Zle_0_nat (List.length c)); unfold len; repeat match goal with |- context [if ?b then _ else _] => destruct b eqn:? end; lia).
  unfold len. rewrite firstn_length. lia.
Qed.
Lemma conv_small n b : 0 <= n <= 8 -> -9999 <= doConv n b < 2 ^ 64.
Proof.
  intros Hn. destruct (Z.eq_dec (len b) n) as [HE|HE]; [|rewrite (doConv_bad _ _ HE); lia].
  rewrite (doConv_val _ _ HE). pose proof (beval_range b) as HR. rewrite HE in HR.
  assert (256 ^ n <= 256 ^ 8) by (apply Z.pow_le_mono_r; lia). change (256 ^ 8) with (2 ^ 64) in *. lia.
Qed.
Lemma b8 b : -9999 <= bytesToULongLong b < 2 ^ 64. Proof. apply conv_small. lia. Qed.
Lemma b4 b : -9999 <= bytesToUInt b < 2 ^ 32. Proof. pose proof (uint_range b). lia. Qed.
Lemma b2 b : -9999 <= bytesToUShortInt b < 2 ^ 16.
Proof.
  unfold bytesToUShortInt. destruct (Z.eq_dec (len b) 2) as [HE|HE]; [|rewrite (doConv_bad _ _ HE); lia].
  rewrite (doConv_val _ _ HE). pose proof (beval_range b) as HR. rewrite HE in HR. change (256 ^ 2) with (2 ^ 16) in HR. lia.
Qed.
Lemma b1 b : -9999 <= bytesToUnsignedChar b <= 255.
Proof.
  unfold bytesToUnsignedChar. destruct (Z.eq_dec (len b) 1) as [HE|HE]; [|rewrite (doConv_bad _ _ HE); lia].
  rewrite (doConv_val _ _ HE). pose proof (beval_range b) as HR. rewrite HE in HR. change (256 ^ 1) with 256 in HR. lia.
Qed.
Lemma bs b : -9999 <= bytesToSignedChar b <= 255.
Proof.
  unfold bytesToSignedChar. destruct b as [|x [|y l]]; try lia. pose proof (Byte.to_N_bounded x). unfold bz. destruct (_ <? 128); lia.
Qed.
Lemma land_small x k : 0 <= k -> 0 <= Z.land x k <= k.
Proof.
  intros Hk. split; [apply Z.land_nonneg; now right|].
  assert (HL : Z.land x k + Z.land (Z.lnot x) k = k).
  { rewrite Z.add_nocarry_lxor.
    - apply Z.bits_inj'. intros i Hi. rewrite Z.lxor_spec, !Z.land_spec, Z.lnot_spec by lia. destruct (Z.testbit x i), (Z.testbit k i); reflexivity.
    - apply Z.bits_inj'. intros i Hi. rewrite Z.bits_0, !Z.land_spec, Z.lnot_spec by lia. destruct (Z.testbit x i), (Z.testbit k i); reflexivity. }
  assert (0 <= Z.land (Z.lnot x) k) by (apply Z.land_nonneg; now right). lia.
Qed.
Lemma bit_small n p w : 0 <= getBitValueW n p w <= 1.
Proof. unfold getBitValueW. now apply land_small. Qed.
Lemma pow_small e : 0 <= e <= 299 -> Z.abs (2 ^ e) < 2 ^ 300.
Proof. intros H. rewrite Z.abs_eq by (apply Z.pow_nonneg; lia). apply Z.pow_lt_mono_r; lia. Qed.
Lemma pow2_small t e : e <= 299 -> bounded t (pow2 e).
Proof. intros H. unfold pow2. destruct (0 <=? e) eqn:HE; [right; apply pow_small; lia|]. now destruct (e <? -1075). Qed.
Lemma integer_small b : len b <= 16 -> Z.abs (bytesToInteger b) < 2 ^ 300.
Proof.
  intros HL. destruct b as [|x b]; [cbn; lia|]. rewrite bytesToInteger_val by discriminate. pose proof (beval_range (x :: b)) as HR.
  assert (256 ^ len (x :: b) <= 256 ^ 16) by (apply Z.pow_le_mono_r; lia). change (256 ^ 16) with (2 ^ 128) in *. lia.
Qed.
Lemma cdiv_small a b : b <> 0 -> Z.abs (cdiv a b) <= Z.abs a + 1.
Proof.
  intros Hb. unfold cdiv. pose proof (Z.div_mod (- a) b Hb) as HD. set (q := - a / b) in *. clearbody q.
  destruct (Z.ltb_spec b 0) as [L|L].
  - pose proof (Z.mod_neg_bound (- a) b L). nia.
  - pose proof (Z.mod_pos_bound (- a) b ltac:(lia)). nia.
Qed.
Lemma tiles_small x y xt yt w h : -9999 <= x < 2 ^ 32 -> -9999 <= y < 2 ^ 32 -> -9999 <= xt < 2 ^ 32 -> -9999 <= yt < 2 ^ 32 ->
  -9999 <= w < 2 ^ 32 -> -9999 <= h < 2 ^ 32 -> Z.abs (sizNumberOfTiles x y xt yt w h) < 2 ^ 300.
Proof.
  intros. unfold sizNumberOfTiles. destruct (negb (w =? 0) && negb (h =? 0)) eqn:HE; [|lia].
  rewrite !ceil_int_div_any by lia. pose proof (cdiv_small (x - xt) w ltac:(lia)). pose proof (cdiv_small (y - yt) h ltac:(lia)).
  rewrite Z.abs_mul. nia.
Qed.
Ltac small :=
  unfold getBitValue;
  repeat match goal with
  | |- context [bytesToULongLong ?b] => let x := fresh in pose proof (b8 b); generalize dependent (bytesToULongLong b); intros x ?
  | |- context [bytesToUInt ?b] => let x := fresh in pose proof (b4 b); generalize dependent (bytesToUInt b); intros x ?
  | |- context [bytesToUShortInt ?b] => let x := fresh in pose proof (b2 b); generalize dependent (bytesToUShortInt b); intros x ?
  | |- context [bytesToUnsignedChar ?b] => let x := fresh in pose proof (b1 b); generalize dependent (bytesToUnsignedChar b); intros x ?
  | |- context [bytesToSignedChar ?b] => let x := fresh in pose proof (bs b); generalize dependent (bytesToSignedChar b); intros x ?
  | |- context [getBitValueW ?n ?p ?w] => let x := fresh in pose proof (bit_small n p w); generalize dependent (getBitValueW n p w); intros x ?
  end;
  repeat match goal with
  | |- context [Z.land ?n ?k] => let x := fresh in pose proof (land_small n k ltac:(lia)); generalize dependent (Z.land n k); intros x ?
  end;
  first [apply pow_small; lia | apply tiles_small; lia | lia].
Ltac bound := right; solve [small].
Ltac kp :=
  cbv zeta beta iota;
  lazymatch goal with
  | |- keeps (ret _) => apply keeps_ret
  | |- keeps (lift _) => apply keeps_lift
  | |- keeps (raise _) => apply keeps_raise
  | |- keeps get_chars => apply keeps_get
  | |- keeps isValid_of => apply keeps_valid_of
  | |- keeps (set_ret _) => apply keeps_set_ret
  | |- keeps (set_tpl _) => apply keeps_set_tpl
  | |- keeps (set_valid _) => apply keeps_set_valid
  | |- keeps (testFor _ _ _) => apply keeps_test
  | |- keeps (addWarning _) => apply keeps_warning
  | |- keeps (addInt _ _) => apply keeps_int; try bound
  | |- keeps (addCharacteristic _ (pow2 _)) => apply keeps_characteristic, pow2_small; small
  | |- keeps (addCharacteristic _ _) => apply keeps_characteristic; try exact I
  | |- keeps (when _ _) => apply keeps_when; kp
  | |- keeps (for_range _ _ _) => apply keeps_for; intros ?i ?s; kp
  | |- keeps (loop _ _ _) => apply keeps_loop; intros ?s; kp
  | |- keeps (bind _ _) => apply keeps_bind; [kp|intros ?x; kp]
  | |- keeps (if ?b then _ else _) => destruct b; kp
  | |- keeps (match ?x with _ => _ end) => lazymatch x with if ?b then _ else _ => destruct b | _ => destruct x end; kp
  | |- _ => idtac
  end.

Section Leaf.
Variables (E : env) (f : self).
Lemma keeps_siz : keeps (validate_siz f). Proof. unfold validate_siz. kp. Qed.
Lemma keeps_cod : keeps (validate_cod f). Proof. unfold validate_cod, codeBlockFields, codeBlockStyleFields, precinctFields. kp. Qed.
Lemma keeps_coc : keeps (validate_coc f).
Proof. unfold validate_coc, codeBlockFields, codeBlockStyleFields, precinctFields. kp. Qed.
Lemma keeps_rgn : keeps (validate_rgn f). Proof. unfold validate_rgn. kp. Qed.
Lemma keeps_qcd : keeps (validate_qcd f). Proof. unfold validate_qcd, stepSizeFields. kp. Qed.
Lemma keeps_qcc : keeps (validate_qcc f). Proof. unfold validate_qcc, stepSizeFields. kp. Qed.
Lemma keeps_poc : keeps (validate_poc f). Proof. unfold validate_poc. kp. Qed.
Lemma keeps_crg : keeps (validate_crg f). Proof. unfold validate_crg. kp. Qed.
Lemma keeps_com : keeps (validate_com E f). Proof. unfold validate_com. kp. Qed.
Lemma for_wide n v a0 (g : Z -> M unit) st : Z.abs v <= 65535 -> n <= 32766 ->
  match for_range n a0 (fun i num => bind (g i) (fun _ => ret (num + v * 2 ^ (16 * i)))) st with
  | Ok (a, _) => Z.abs a <= Z.abs a0 + 2 ^ (16 * 32766) | _ => True end.
Proof.
  intros Hv Hn. unfold for_range.
  assert (H : forall k i a0 st, 0 <= i -> match for_n k i a0 (fun i num => bind (g i) (fun _ => ret (num + v * 2 ^ (16 * i)))) st with
    | Ok (a, _) => Z.abs a <= Z.abs a0 + 2 ^ (16 * (i + Z.of_nat k)) - 2 ^ (16 * i) | _ => True end).
  { clear a0 st Hn n. induction k as [|k IH]; intros i a0 st Hi.
    - cbn [for_n ret]. replace (i + Z.of_nat 0) with i by lia. lia.
    - cbn [for_n]. unfold bind at 1 2. destruct (g i st) as [[u s1]|e|]; [|exact I|exact I]. cbn [ret].
      specialize (IH (i + 1) (a0 + v * 2 ^ (16 * i)) s1 ltac:(lia)). unfold ret at 1. 
      destruct (for_n k _ _ _ s1) as [[a s2]|e|]; [|exact I|exact I].
      replace (i + 1 + Z.of_nat k) with (i + Z.of_nat (S k)) in IH by lia.
      assert (HP : 2 ^ (16 * (i + 1)) = 65536 * 2 ^ (16 * i)) by (replace (16 * (i + 1)) with (16 + 16 * i) by lia; rewrite Z.pow_add_r by lia; reflexivity).
      assert (HQ : 0 < 2 ^ (16 * i)) by (apply Z.pow_pos_nonneg; lia).
      rewrite HP in IH. generalize dependent (2 ^ (16 * (i + Z.of_nat (S k)))). generalize dependent (2 ^ (16 * i)). intros p _ HQ q IH. nia. }
  specialize (H (Z.to_nat n) 0 a0 st ltac:(lia)). destruct (for_n _ _ _ _ st) as [[a s2]|e|]; [|exact I|exact I].
  assert (HM : 2 ^ (16 * (0 + Z.of_nat (Z.to_nat n))) <= 2 ^ (16 * 32766)) by (apply Z.pow_le_mono_r; lia).
  change (2 ^ (16 * 0)) with 1 in H. generalize dependent (2 ^ (16 * 32766)). generalize dependent (2 ^ (16 * (0 + Z.of_nat (Z.to_nat n)))). intros. lia.
Qed.
Lemma half_small b : int_quot (bytesToUShortInt b - 2) 2 <= 32766.
Proof.
  pose proof (b2 b). rewrite int_quot_exact by lia. generalize dependent (bytesToUShortInt b). intros x Hx. Z.to_euclidean_division_equations. lia.
Qed.
Lemma keeps_prf : keeps (validate_prf f).
Proof.
  unfold validate_prf. cbv zeta. do 2 (apply keeps_bind; [kp|]; intros _).
  apply keeps_post with (Q := fun z => Z.abs z <= wide_max); [kp| |].
  - intros s. pose proof (b2 (slice (s_contents f) 2 4)). unfold wide_max.
    apply (for_wide _ (bytesToUShortInt (slice (s_contents f) 2 4)) 4095 (fun i => when (i =? _) _)); [lia|apply half_small].
  - intros z Hz. apply keeps_bind; [kp|]. intros _. apply keeps_int. left. split; [cbn; tauto|exact Hz].
Qed.
Lemma keeps_cpf : keeps (validate_cpf f).
Proof.
  unfold validate_cpf. cbv zeta. do 2 (apply keeps_bind; [kp|]; intros _).
  apply keeps_post with (Q := fun z => Z.abs z <= wide_max); [kp| |].
  - intros s. pose proof (b2 (slice (s_contents f) 2 4)).
    match goal with |- match ?x with _ => _ end => assert (HH : match x with Ok (a, _) => Z.abs a <= Z.abs (-1) + 2 ^ (16 * 32766) | _ => True end) end.
    { apply (for_wide _ (bytesToUShortInt (slice (s_contents f) 2 4)) (-1) (fun i => when (i =? _) _)); [lia|apply half_small]. }
    destruct (for_range _ _ _ s) as [[a s1]|e|]; [|exact I|exact I]. unfold wide_max. generalize dependent (2 ^ (16 * 32766)). intros. lia.
  - intros z Hz. apply keeps_int. left. split; [cbn; tauto|exact Hz].
Qed.
Lemma keeps_sot : keeps (validate_sot f). Proof. unfold validate_sot. kp. Qed.
Lemma keeps_plm n : keeps (validate_plm n f). Proof. unfold validate_plm. kp. Qed.
Lemma keeps_plt n : keeps (validate_plt n f). Proof. unfold validate_plt. kp. Qed.

Lemma parts_small k i x : 0 <= i -> Forall (fun p => 0 <= p <= i + Z.of_nat k) (pcapPartsFrom k i x).
Proof.
  revert i. induction k as [|k IH]; intros i Hi; [constructor|]. cbn [pcapPartsFrom].
  assert (HT : Forall (fun p => 0 <= p <= i + Z.of_nat (S k)) (pcapPartsFrom k (i + 1) x)).
  { eapply Forall_impl; [|apply IH; lia]. cbn. intros; lia. }
  destruct (_ =? 1); [|exact HT]. constructor; [lia|exact HT].
Qed.
Lemma keeps_parts l : Forall (fun p => 0 <= p <= 32) l -> keeps (addParts l).
Proof. induction 1 as [|p l HP _ IH]; [apply keeps_ret|]. cbn [addParts]. apply keeps_bind; [apply keeps_int; right; lia|]. intros _. exact IH. Qed.
Lemma keeps_cap : keeps (validate_cap f).
Proof.
  unfold validate_cap. cbv zeta. apply keeps_bind; [kp|]. intros _. apply keeps_bind; [apply keeps_parts; apply (parts_small 32 0); lia|]. intros _.
  generalize (zindex 0 15 (pcapPartsFrom 32 0 (bytesToUInt (slice (s_contents f) 2 6)))) as z. intros z. kp.
  { right. rewrite Z.land_comm. small. }
  right. pose proof (land_small (bytesToUShortInt (slice (s_contents f) (6 + 2 * z) (6 + 2 * z + 2))) 31 ltac:(lia)).
  generalize dependent (Z.land (bytesToUShortInt (slice (s_contents f) (6 + 2 * z) (6 + 2 * z + 2))) 31). intros p HP. unfold capHtB.
  repeat match goal with |- context [if ?b then _ else _] => destruct b end; lia.
Qed.
Lemma keeps_unknown : keeps (validate_unknownBox E f). Proof. unfold validate_unknownBox. destruct (s_btype f); kp. Qed.
Lemma keeps_sig : keeps (validate_signatureBox f). Proof. unfold validate_signatureBox. kp. Qed.
Lemma keeps_ftyp : keeps (validate_fileTypeBox f). Proof. unfold validate_fileTypeBox. kp. Qed.
Lemma keeps_ihdr : keeps (validate_imageHeaderBox f). Proof. unfold validate_imageHeaderBox. kp. Qed.
Lemma keeps_bpcc : keeps (validate_bitsPerComponentBox f). Proof. unfold validate_bitsPerComponentBox. kp. Qed.
Lemma keeps_icc : keeps (validate_icc f). Proof. unfold validate_icc, iccFixed. kp. unfold iccDescription. destruct (bindex _ _); exact I. Qed.
Lemma keeps_cmap : keeps (validate_componentMappingBox f). Proof. unfold validate_componentMappingBox. kp. Qed.
Lemma keeps_alpha l : keeps (alphaTests f l).
Proof. induction l as [|a l IH]; [apply keeps_ret|]. cbn [alphaTests]. apply keeps_bind; [apply keeps_test|]. intros _. exact IH. Qed.
Lemma keeps_cdef : keeps (validate_channelDefinitionBox f).
Proof. unfold validate_channelDefinitionBox. kp. apply keeps_alpha. Qed.
Lemma keeps_resolution x : keeps (resolutionFields E f x). Proof. unfold resolutionFields. kp. Qed.
Lemma keeps_ulst : keeps (validate_uuidListBox f). Proof. unfold validate_uuidListBox. kp. Qed.
Lemma keeps_url : keeps (validate_urlBox f). Proof. unfold validate_urlBox. kp. Qed.
Lemma keeps_pclr : keeps (validate_paletteBox f).
Proof.
  unfold validate_paletteBox. kp. right. apply integer_small.
  match goal with |- len (slice ?c ?o (?o + bytesPadded (Z.land ?b 127 + 1))) <= 16 =>
    pose proof (land_small b 127 ltac:(lia)); generalize dependent (Z.land b 127); intros k HK;
    rewrite (bytesPadded_exact (k + 1)) by lia; assert ((k + 1 + 7) / 8 < 17) by (apply Z.div_lt_upper_bound; lia); assert (0 <= (k + 1 + 7) / 8) by (apply Z.div_pos; lia) end.
  eapply Z.le_trans; [apply slice_small; lia|lia].
Qed.

(** ** Validators that call others *)
Variables (rec : recT) (fuel : nat).
Hypothesis HX : forall b e, xml_parse E b = Some e -> sized e.
Hypothesis HR : forall t c st cz r, rec t c st cz = Ok r -> sized_bv r.
Hypothesis HF : Z.of_nat fuel < 2 ^ 299.
Lemma keeps_xml : keeps (validate_xmlBox E f).
Proof.
  unfold validate_xmlBox. match goal with |- context [xml_parse E ?b] => destruct (xml_parse E b) eqn:H1 end; [apply keeps_bind; [apply keeps_char; eapply HX; eassumption|intros _; kp]|].
  apply keeps_bind; [|intros _; kp]. apply keeps_when.
  match goal with |- context [xml_parse E ?b] => destruct (xml_parse E b) eqn:H2 end; [apply keeps_char; eapply HX; eassumption|kp].
Qed.
Lemma keeps_uuid : keeps (validate_uuidBox E f).
Proof.
  unfold validate_uuidBox. cbv zeta. apply keeps_bind; [kp|]. intros _. apply keeps_bind; [kp|]. intros u. destruct (pystr_eqb _ _); [|kp].
  match goal with |- context [xml_parse E ?b] => destruct (xml_parse E b) eqn:H1 end; [apply keeps_bind; [apply keeps_char; eapply HX; eassumption|intros _; kp]|].
  apply keeps_bind; [|intros _; kp]. apply keeps_when.
  match goal with |- context [xml_parse E ?b] => destruct (xml_parse E b) eqn:H2 end; [apply keeps_char; eapply HX; eassumption|kp].
Qed.
Lemma keeps_attachIf k t x st cz : keeps (attachIf rec k t x st cz).
Proof.
  unfold attachIf. apply keeps_result. intros r Hr. destruct (HR _ _ _ _ _ Hr) as (H1 & H2 & H3).
  apply keeps_bind; [now apply keeps_test_ne|]. intros _. apply keeps_bind; [apply keeps_when; now apply keeps_char|]. intros _.
  apply keeps_bind; [now apply keeps_warn_ne|]. intros _. apply keeps_ret.
Qed.
Lemma keeps_attachICC x : keeps (attachICC rec x).
Proof.
  unfold attachICC. apply keeps_result. intros r Hr. destruct (HR _ _ _ _ _ Hr) as (H1 & H2 & H3).
  apply keeps_bind; [now apply keeps_char|]. intros _. apply keeps_bind; [now apply keeps_warn_ne|]. intros _. apply keeps_ret.
Qed.
Ltac kp ::=
  cbv zeta beta iota;
  lazymatch goal with
  | |- keeps (ret _) => apply keeps_ret
  | |- keeps (lift _) => apply keeps_lift
  | |- keeps (raise _) => apply keeps_raise
  | |- keeps get_chars => apply keeps_get
  | |- keeps isValid_of => apply keeps_valid_of
  | |- keeps (set_ret _) => apply keeps_set_ret
  | |- keeps (set_tpl _) => apply keeps_set_tpl
  | |- keeps (set_valid _) => apply keeps_set_valid
  | |- keeps (testFor _ _ _) => apply keeps_test
  | |- keeps (addWarning _) => apply keeps_warning
  | |- keeps (attachICC _ _) => apply keeps_attachICC
  | |- keeps (attachIf _ _ _ _ _ _) => apply keeps_attachIf
  | |- keeps (attach _ _ _ _ _) => apply keeps_attachIf
  | |- keeps (addInt _ _) => apply keeps_int; try bound
  | |- keeps (addCharacteristic _ _) => apply keeps_characteristic; try exact I
  | |- keeps (when _ _) => apply keeps_when; kp
  | |- keeps (for_range _ _ _) => apply keeps_for; intros ?i ?s; kp
  | |- keeps (loop _ _ _) => apply keeps_loop; intros ?s; kp
  | |- keeps (bind _ _) => apply keeps_bind; [kp|intros ?x; kp]
  | |- keeps (if ?b then _ else _) => destruct b; kp
  | |- keeps (match ?x with _ => _ end) => lazymatch x with if ?b then _ else _ => destruct b | _ => destruct x end; kp
  | |- _ => idtac
  end.
Lemma keeps_colr : keeps (validate_colourSpecificationBox rec f). Proof. unfold validate_colourSpecificationBox. kp. Qed.
Lemma keeps_boxLoop : keeps (boxLoop rec fuel f). Proof. unfold boxLoop. kp. Qed.
Lemma keeps_jp2h : keeps (validate_jp2HeaderBox rec fuel f).
Proof. unfold validate_jp2HeaderBox. apply keeps_bind; [apply keeps_boxLoop|]. intros tys. kp. Qed.
Lemma keeps_res : keeps (validate_resolutionBox rec fuel f).
Proof. unfold validate_resolutionBox. apply keeps_bind; [apply keeps_boxLoop|]. intros tys. kp. Qed.
Lemma keeps_uinf : keeps (validate_uuidInfoBox rec fuel f).
Proof. unfold validate_uuidInfoBox. apply keeps_bind; [apply keeps_boxLoop|]. intros tys. kp. Qed.
Lemma keeps_ratio n d h w : keeps (cr <- lift (calculateCompressionRatio n d h w) ;; addCharacteristic "compressionRatio" (round2 cr)).
Proof.
  apply keeps_result. intros v Hv. unfold calculateCompressionRatio in Hv. destruct (sum_values 0 d) as [z|e|]; cbn [rbind] in Hv; [|discriminate|discriminate].
  destruct (negb (n =? 0)); injection Hv as <-; apply keeps_characteristic; [exact I|]. right. cbn. lia.
Qed.
Lemma keeps_header n e ih sz : keeps (checkHeaderAgainstSIZ f n e ih sz).
Proof.
  unfold checkHeaderAgainstSIZ. cbv zeta. repeat (apply keeps_bind; [solve [kp]|intros ?]).
  match goal with |- keeps (let '(_, _) := ?x in _) => destruct x as [sg dp] end.
  repeat (apply keeps_bind; [solve [kp]|intros ?]). apply keeps_when. do 2 (apply keeps_bind; [solve [kp]|intros ?]). apply keeps_ratio.
Qed.
Lemma keeps_jp2 : keeps (validate_JP2 rec fuel f).
Proof.
  unfold validate_JP2. apply keeps_bind; [apply keeps_boxLoop|]. intros tys.
  repeat (apply keeps_bind; [solve [kp]|intros ?]). apply keeps_bind; [|intros; kp].
  destruct (ETree.find _ _); [destruct (ETree.find _ _)|]; try apply keeps_header; kp.
Qed.

(** *** Codestreams *)
Lemma loop_count {A B} (cnt : A -> Z) (cnt' : B -> Z) n (body : A -> M (A + B)) a s :
  (forall a s, match body a s with Ok (inl a', _) => 0 <= cnt a' - cnt a <= 1 | Ok (inr b, _) => cnt' b = cnt a | _ => True end) ->
  match loop n body a s with Ok (b, _) => 0 <= cnt' b - cnt a <= Z.of_nat n | _ => True end.
Proof.
  intros HB. revert a s. induction n as [|n IH]; intros a s; [exact I|]. cbn [loop]. unfold bind. specialize (HB a s).
  destruct (body a s) as [[[a'|b] s1]|e|]; [|cbn; lia|exact I|exact I]. specialize (IH a' s1).
  destruct (loop n body a' s1) as [[b s2]|e|]; [lia|exact I|exact I].
Qed.
Lemma keeps_tileHeader s : keeps (tileHeaderLoop rec fuel f s).
Proof. unfold tileHeaderLoop, tileHeaderStep. kp. Qed.
Lemma keeps_mainHeader cz s : keeps (mainHeaderLoop rec fuel f cz s).
Proof. unfold mainHeaderLoop, mainHeaderStep. kp. Qed.
Lemma zb_small b : 0 <= Zb b <= 1. Proof. destruct b; cbn; lia. Qed.
Lemma step_counts s st : match tileHeaderStep rec f s st with
  | Ok (s', _) => 0 <= th_plt s' - th_plt s <= 1 /\ 0 <= th_ppt s' - th_ppt s <= 1 | _ => True end.
Proof.
  unfold tileHeaderStep. destruct (getMarkerSegment _ _) as [[[m l] x] n]. cbv zeta. unfold bind at 1.
  match goal with |- match (match ?r with _ => _ end) with _ => _ end => destruct r as [[u s1]|e|] end; [|exact I|exact I]. cbn.
  pose proof (zb_small (bytes_eqb m mPLT)). pose proof (zb_small (bytes_eqb m mPPT)). lia.
Qed.
Lemma main_counts cz s st : match mainHeaderStep rec f cz s st with
  | Ok (s', _) => 0 <= mh_plm s' - mh_plm s <= 1 /\ 0 <= mh_ppm s' - mh_ppm s <= 1 | _ => True end.
Proof.
  unfold mainHeaderStep. destruct (getMarkerSegment _ _) as [[[m l] x] n]. cbv zeta. unfold bind at 1.
  match goal with |- match (match ?r with _ => _ end) with _ => _ end => destruct r as [[u s1]|e|] end; [|exact I|exact I]. cbn.
  pose proof (zb_small (bytes_eqb m mPLM)). pose proof (zb_small (bytes_eqb m mPPM)). lia.
Qed.
Lemma tile_count s st : match tileHeaderLoop rec fuel f s st with
  | Ok (s', _) => 0 <= th_plt s' - th_plt s <= Z.of_nat fuel /\ 0 <= th_ppt s' - th_ppt s <= Z.of_nat fuel | _ => True end.
Proof.
  assert (HH : forall g : th -> Z, g = th_plt \/ g = th_ppt -> match tileHeaderLoop rec fuel f s st with Ok (s', _) => 0 <= g s' - g s <= Z.of_nat fuel | _ => True end).
  { intros g Hg. unfold tileHeaderLoop. apply (loop_count g g). intros a s0. destruct (_ && _)%bool; [|reflexivity]. unfold bind. pose proof (step_counts a s0) as H.
    destruct (tileHeaderStep rec f a s0) as [[s' s1]|e|]; [|exact I|exact I]. cbn. destruct Hg as [-> | ->]; lia. }
  pose proof (HH th_plt ltac:(auto)). pose proof (HH th_ppt ltac:(auto)). destruct (tileHeaderLoop _ _ _ _ _) as [[s' s1]|e|]; [now split|exact I|exact I].
Qed.
Lemma main_count cz s st : match mainHeaderLoop rec fuel f cz s st with
  | Ok (s', _) => 0 <= mh_plm s' - mh_plm s <= Z.of_nat fuel /\ 0 <= mh_ppm s' - mh_ppm s <= Z.of_nat fuel | _ => True end.
Proof.
  assert (HH : forall g : mh -> Z, g = mh_plm \/ g = mh_ppm -> match mainHeaderLoop rec fuel f cz s st with Ok (s', _) => 0 <= g s' - g s <= Z.of_nat fuel | _ => True end).
  { intros g Hg. unfold mainHeaderLoop. apply (loop_count g g). intros a s0. destruct (_ && _)%bool; [|reflexivity]. unfold bind. pose proof (main_counts cz a s0) as H.
    destruct (mainHeaderStep rec f cz a s0) as [[s' s1]|e|]; [|exact I|exact I]. cbn. destruct Hg as [-> | ->]; lia. }
  pose proof (HH mh_plm ltac:(auto)). pose proof (HH mh_ppm ltac:(auto)). destruct (mainHeaderLoop _ _ _ _ _ _) as [[s' s1]|e|]; [now split|exact I|exact I].
Qed.
Lemma keeps_unique n v : keeps (uniqueTest f n v). Proof. unfold uniqueTest. kp. Qed.
Lemma keeps_first n t e v : keeps (onlyInFirst f n t e v). Proof. unfold onlyInFirst. kp. Qed.
Lemma keeps_tilePart : keeps (validate_tilePart rec fuel f).
Proof.
  unfold validate_tilePart. apply keeps_bind; [kp|]. intros st. destruct (getMarkerSegment _ _) as [[[m l] x] n]. cbv zeta.
  apply keeps_bind; [kp|]. intros r.
  apply keeps_post with (Q := fun s => 0 <= th_plt s <= Z.of_nat fuel /\ 0 <= th_ppt s <= Z.of_nat fuel); [apply keeps_tileHeader| |].
  { intros s. match goal with |- context [tileHeaderLoop rec fuel f ?a s] => pose proof (tile_count a s) as H end.
    destruct (tileHeaderLoop _ _ _ _ _) as [[s' s1]|e|]; [cbn in H; lia|exact I|exact I]. }
  intros s (H1 & H2). apply keeps_bind; [kp|]. intros _. apply keeps_bind; [apply keeps_int; right; lia|]. intros _.
  apply keeps_bind; [apply keeps_int; right; lia|]. intros _. apply keeps_bind; [kp|]. intros e.
  do 5 (apply keeps_bind; [apply keeps_first|]; intros _). do 2 (apply keeps_bind; [apply keeps_unique|]; intros _). kp.
Qed.
Definition sized_tpl (t : tpl) : Prop := Forall sized (tl_tests t) /\ Forall sized (tl_chars t) /\ Forall sized (tl_warns t).
Lemma tiles_post cz off t s : sized_tpl t -> match tilePartLoop rec fuel f cz off t s with Ok (b, s') => sized_tpl b /\ s' = s | _ => True end.
Proof.
  intros HT. unfold tilePartLoop. apply loop_inv with (I := fun x => sized_tpl (snd x)); [exact HT|]. clear t off HT s. intros [off t] s HT.
  cbn [snd] in HT. destruct (bytes_eqb _ _); [|split; [exact HT|reflexivity]]. unfold bind at 1, lift at 1.
  destruct (rec (BTb mSOT) _ _ _) as [r|e|] eqn:HQ; [|exact I|exact I]. cbv zeta. destruct (HR _ _ _ _ _ HQ) as (H1 & H2 & H3).
  destruct HT as (T1 & T2 & T3).
  assert (HT' : Forall sized (appendIfNotEmpty (tl_tests t) (r_tests r)) /\ Forall sized (tl_chars t ++ [r_chars r]) /\ Forall sized (appendIfNotEmpty (tl_warns t) (r_warns r))).
  { repeat split; [now apply sized_ne|apply Forall_app; auto|now apply sized_ne]. }
  cbn [tl_found]. destruct (dict_get _ _) as [v|]; [|now split]. unfold bind at 1, lift at 1. destruct (as_int v) as [z|e|]; [|exact I|exact I].
  destruct (negb (py_eqb (r_ret r) _)); [|now split]. unfold bind, lift. destruct (as_int (r_ret r)) as [z'|e|]; [|exact I|exact I]. now split.
Qed.
Lemma keeps_cs : keeps (validate_contiguousCodestreamBox rec fuel f).
Proof.
  unfold validate_contiguousCodestreamBox.
  destruct (getMarkerSegment _ _) as [[[m0 l0] x0] n0]. apply keeps_bind; [kp|]. intros _.
  destruct (getMarkerSegment _ _) as [[[m1 l1] x1] n1]. cbv zeta. apply keeps_bind; [kp|]. intros _.
  apply keeps_bind; [|intros; kp]. apply keeps_when. apply keeps_bind; [kp|]. intros rz.
  apply keeps_post with (Q := fun s => 0 <= mh_plm s <= Z.of_nat fuel /\ 0 <= mh_ppm s <= Z.of_nat fuel); [apply keeps_mainHeader| |].
  { intros s. match goal with |- context [mainHeaderLoop rec fuel f ?z ?a s] => pose proof (main_count z a s) as H end.
    destruct (mainHeaderLoop _ _ _ _ _ _) as [[s' s1]|e|]; [cbn in H; lia|exact I|exact I]. }
  intros s (H1 & H2). do 2 (apply keeps_bind; [apply keeps_int; right; lia|]; intros _). do 6 (apply keeps_bind; [solve [kp]|intros ?]).
  apply keeps_post with (Q := sized_tpl).
  { destruct (bytes_eqb _ _); [|kp]. intros s0 HS. match goal with |- context [tilePartLoop rec fuel f ?z ?a ?t s0] => pose proof (tiles_post z a t s0) as H end.
    destruct (tilePartLoop _ _ _ _ _ _ _) as [[b s']|e|]; [|exact I|exact I]. destruct H as (_ & ->); [repeat split; constructor|exact HS]. }
  { intros s0. destruct (bytes_eqb _ _); [|repeat split; constructor]. match goal with |- context [tilePartLoop rec fuel f ?z ?a ?t s0] => pose proof (tiles_post z a t s0) as H end.
    destruct (tilePartLoop _ _ _ _ _ _ _) as [[b s']|e|]; [|exact I|exact I]. apply H. repeat split; constructor. }
  intros t (T1 & T2 & T3). do 2 (apply keeps_bind; [solve [kp]|intros ?]).
  apply keeps_bind; [now apply keeps_test_ne, sized_node|]. intros _. apply keeps_bind; [now apply keeps_char, sized_node|]. intros _.
  apply keeps_bind; [now apply keeps_warn_ne, sized_node|]. intros _. apply keeps_bind; [kp|]. intros e.
  do 2 (apply keeps_bind; [apply keeps_unique|]; intros _). apply keeps_bind; [kp|]. intros _. apply keeps_when.
  do 4 (apply keeps_bind; [kp|]; intros ?). apply keeps_ratio.
Qed.
Lemma keeps_method name : keeps (match method E rec fuel f name with Some m => m | None => ret tt end).
Proof.
  unfold method. cbv zeta.
  repeat match goal with |- keeps (match (if ?b then _ else _) with _ => _ end) => destruct b; cbv iota end;
  lazymatch goal with
  | |- context [validate_xmlBox] => apply keeps_xml
  | |- context [validate_uuidBox] => apply keeps_uuid
  | |- context [validate_uuidInfoBox] => apply keeps_uinf
  | |- context [validate_signatureBox] => apply keeps_sig
  | |- context [validate_fileTypeBox] => apply keeps_ftyp
  | |- context [validate_jp2HeaderBox] => apply keeps_jp2h
  | |- context [validate_imageHeaderBox] => apply keeps_ihdr
  | |- context [validate_bitsPerComponentBox] => apply keeps_bpcc
  | |- context [validate_colourSpecificationBox] => apply keeps_colr
  | |- context [validate_paletteBox] => apply keeps_pclr
  | |- context [validate_componentMappingBox] => apply keeps_cmap
  | |- context [validate_channelDefinitionBox] => apply keeps_cdef
  | |- context [validate_resolutionBox] => apply keeps_res
  | |- context [validate_contiguousCodestreamBox] => apply keeps_cs
  | |- context [validate_captureResolutionBox] => apply keeps_resolution
  | |- context [validate_displayResolutionBox] => apply keeps_resolution
  | |- context [validate_uuidListBox] => apply keeps_ulst
  | |- context [validate_urlBox] => apply keeps_url
  | |- context [validate_cap] => apply keeps_cap
  | |- context [validate_siz] => apply keeps_siz
  | |- context [validate_prf] => apply keeps_prf
  | |- context [validate_cod] => apply keeps_cod
  | |- context [validate_qcd] => apply keeps_qcd
  | |- context [validate_com] => apply keeps_com
  | |- context [validate_coc] => apply keeps_coc
  | |- context [validate_rgn] => apply keeps_rgn
  | |- context [validate_qcc] => apply keeps_qcc
  | |- context [validate_poc] => apply keeps_poc
  | |- context [validate_plm] => apply keeps_plm
  | |- context [validate_plt] => apply keeps_plt
  | |- context [validate_cpf] => apply keeps_cpf
  | |- context [validate_crg] => apply keeps_crg
  | |- context [validate_tilePart] => apply keeps_tilePart
  | |- context [validate_icc] => apply keeps_icc
  | |- context [validate_sot] => apply keeps_sot
  | |- context [validate_JP2] => apply keeps_jp2
  | |- context [validate_unknownBox] => apply keeps_unknown
  | |- _ => apply (keeps_ret tt)
  end.
Qed.
End Leaf.

Theorem validate_sized E op fuel d t x st cz r : (forall b e, xml_parse E b = Some e -> sized e) -> Z.of_nat fuel < 2 ^ 299 ->
  validate E op fuel d t x st cz = Ok r -> sized_bv r.
Proof.
  intros HX HF. revert t x st cz r. induction d as [|d IH]; intros t x st cz r HV; [discriminate|]. cbn [validate] in HV.
  set (f := {| s_opts := op; s_btype := t; s_contents := x; s_start := st; s_csiz := cz |}) in *.
  pose proof (keeps_method E f (validate E op fuel d) fuel HX IH HF (boxTypeOf (s_btype f)) st0) as H.
  unfold runMethod in HV. destruct (match method _ _ _ _ _ with Some m => m | None => ret tt end st0) as [[u s']|e|]; [|discriminate|discriminate].
  injection HV as <-. destruct H as (H1 & H2 & H3); [repeat split; constructor|]. split; [|split]; apply sized_node; assumption.
Qed.
