(** * Reports only grow; valid codestreams have a chain of tile parts *)

From Coq Require Import ZArith List Bool String Lia.
From Coq Require Import ZifyBool.
From Coq Require Import Init.Byte.
From Verif Require Import Py PyFloat ByteConv ETree BV VBoxes VMarkers VSuper Spec SpecBox SpecMarker
     SpecWalk SpecSuper SpecCS PBase PEmit PLeaf PMarker PMarker2 PWalk PSuper PSeg PTile PChain PCS.
Import ListNotations.
Open Scope string_scope.
Open Scope list_scope.
Open Scope Z_scope.

Definition ext (s s' : st) : Prop :=
  (exists k, st_tests s' = st_tests s ++ k) /\ (exists k, st_chars s' = st_chars s ++ k).
Definition grows {A} (m : M A) : Prop := forall s a s', m s = Ok (a, s') -> ext s s'.

Lemma ext_refl s : ext s s.
Proof. split; exists []; now rewrite app_nil_r. Qed.
Lemma ext_trans s1 s2 s3 : ext s1 s2 -> ext s2 s3 -> ext s1 s3.
Proof.
  intros ((k1 & H1) & (k2 & H2)) ((k3 & H3) & (k4 & H4)).
  split; [exists (k1 ++ k3)|exists (k2 ++ k4)]; rewrite app_assoc; congruence.
Qed.
Lemma grows_ret {A} (a : A) : grows (ret a).
Proof. intros s a' s' H. injection H as <- <-. apply ext_refl. Qed.
Lemma grows_lift {A} (r : res A) : grows (lift r).
Proof. intros s a' s' H. unfold lift in H. destruct r; try discriminate. injection H as <- <-. apply ext_refl. Qed.
Lemma grows_bind {A B} (m : M A) (k : A -> M B) : grows m -> (forall a, grows (k a)) -> grows (bind m k).
Proof.
  intros Hm Hk s b s' H. unfold bind in H. destruct (m s) as [[a s1]|e|] eqn:E1; try discriminate.
  eapply ext_trans; [eapply Hm; eassumption|eapply Hk; eassumption].
Qed.
Lemma grows_when b m : grows m -> grows (when b m).
Proof. intros H. destruct b; [exact H|apply grows_ret]. Qed.
Lemma grows_add_test e : grows (add_test e).
Proof.
  intros s a s' H. injection H as <- <-. split; cbn; [eexists; reflexivity|exists []; now rewrite app_nil_r].
Qed.
Lemma grows_add_char e : grows (add_char e).
Proof.
  intros s a s' H. injection H as <- <-. split; cbn; [exists []; now rewrite app_nil_r|eexists; reflexivity].
Qed.
Lemma grows_add_warn e : grows (add_warn e).
Proof.
  intros s a s' H. injection H as <- <-. split; cbn; exists []; now rewrite app_nil_r.
Qed.
Lemma grows_set_valid v : grows (set_valid v).
Proof. intros s a s' H. injection H as <- <-. split; cbn; exists []; now rewrite app_nil_r. Qed.
Lemma grows_set_ret v : grows (set_ret v).
Proof. intros s a s' H. injection H as <- <-. split; cbn; exists []; now rewrite app_nil_r. Qed.
Lemma grows_test o n b : grows (testFor o n b).
Proof.
  unfold testFor. destruct (negb (o_verbose o)); [destruct (negb b)|]; auto using grows_add_test, grows_ret.
Qed.
Lemma grows_int n z : grows (addInt n z).
Proof. apply grows_add_char. Qed.
Lemma grows_chars : grows get_chars.
Proof. intros s a s' H. injection H as <- <-. apply ext_refl. Qed.
Lemma grows_valid : grows isValid_of.
Proof. intros s a s' H. injection H as <- <-. apply ext_refl. Qed.
Lemma grows_test_ne e : grows (add_test_ne e).
Proof. unfold add_test_ne. destruct (ekids e); auto using grows_add_test, grows_ret. Qed.
Lemma grows_warn_ne e : grows (add_warn_ne e).
Proof. unfold add_warn_ne. destruct (ekids e); auto using grows_add_warn, grows_ret. Qed.
Lemma grows_loop {A B} fuel (body : A -> M (A + B)) a : (forall a, grows (body a)) -> grows (loop fuel body a).
Proof.
  intros H. revert a. induction fuel as [|fuel IH]; intros a s b s' HL; [discriminate|]. cbn [loop] in HL.
  revert HL. apply (grows_bind (body a) (fun x => match x with inl a' => loop fuel body a' | inr b => ret b end)); [apply H|].
  intros [a'|b']; [apply IH|apply grows_ret].
Qed.
Lemma grows_attachIf rec k t x start csiz : grows (attachIf rec k t x start csiz).
Proof.
  unfold attachIf. apply grows_bind; [apply grows_lift|]. intros r.
  repeat (apply grows_bind; [first [apply grows_test_ne|apply grows_warn_ne|apply grows_when, grows_add_char]|intros _]).
  apply grows_ret.
Qed.
Lemma grows_unique f n v : grows (uniqueTest f n v).
Proof. unfold uniqueTest. destruct v; auto using grows_ret, grows_test. Qed.

Ltac grow_more := fail.
Ltac grow :=
  first
    [ grow_more | apply grows_ret | apply grows_lift | apply grows_test | apply grows_int | apply grows_add_char
    | apply grows_chars | apply grows_valid | apply grows_test_ne | apply grows_warn_ne | apply grows_attachIf
    | apply grows_unique | apply grows_set_valid | apply grows_set_ret
    | apply grows_bind; [grow | intros ?; grow]
    | apply grows_when; grow
    | apply grows_loop; intros ?; grow
    | match goal with |- grows (match ?x with _ => _ end) => destruct x; grow end ].

Lemma grows_mainHeader rec fuel f csiz s : grows (mainHeaderLoop rec fuel f csiz s).
Proof.
  unfold mainHeaderLoop. apply grows_loop. intros s1.
  destruct (negb (bytes_eqb (mh_marker s1) mSOT) && negb (mh_next s1 =? -9999)); [|apply grows_ret].
  apply grows_bind; [|intros; apply grows_ret]. unfold mainHeaderStep.
  destruct (getMarkerSegment _ _) as [[[m l] x] n]. cbv zeta. unfold attach. grow.
Qed.
Lemma grows_tileLoop rec fuel f csiz p t : grows (tilePartLoop rec fuel f csiz p t).
Proof. unfold tilePartLoop. grow. Qed.

Ltac grow_more ::= first [apply grows_mainHeader | apply grows_tileLoop].

(** ** Chain or failure *)
Lemma missing_more c a n a' n' : 0 <= a -> 0 <= n -> a + n <= a' + n' -> val c a n = -9999 -> 0 <= a' -> 0 < n' -> 0 < n ->
  val c a' n' = -9999.
Proof.
  intros Ha Hn HL HV Ha' Hn' Hn0. apply val_missing.
  destruct (Z_lt_le_dec (len c) (a' + n')) as [G|G]; [exact G|].
  pose proof (val_readable c a n Ha Hn0 ltac:(lia)). lia.
Qed.

Lemma reports_holds v L k : reports v L k -> (existsb anyFalse k = false <-> holds L).
Proof.
  intros H. unfold holds. induction H as [|n P L k HP H IH|n P L k HP H IH].
  - split; [constructor|reflexivity].
  - rewrite Forall_cons_iff. cbn [snd]. destruct v; cbn [existsb anyFalse leaf orb]; rewrite IH; tauto.
  - rewrite Forall_cons_iff. cbn [snd existsb anyFalse leaf orb]. split; [discriminate|tauto].
Qed.
Lemma filled_any l : Forall (fun e => exists t k, e = node t k) l -> existsb anyFalse (filled l) = existsb anyFalse l.
Proof.
  induction 1 as [|e l (t & k & ->) H IH]; [reflexivity|]. rewrite filled_cons, existsb_app, IH.
  cbn [existsb]. f_equal. destruct k; [reflexivity|]. cbn [ekids node existsb]. now rewrite orb_false_r.
Qed.

Lemma tile_unreadable E op fuel d c n p r :
  (List.length c + 3 <= fuel)%nat -> 0 <= p -> sub c p 2 = m_SOT -> tp_psot c p = -9999 ->
  validate E op fuel (S (S d)) (BTb m_SOT) c (VInt p) (VInt n) = Ok r -> anyFalse (r_tests r) = true.
Proof.
  intros HF Hp HM HU HV. destruct (after_total m_SOD (skipn (Z.to_nat p) c)) as (l & r1 & HA).
  pose proof (after_len _ _ _ _ HA) as HL. rewrite skipn_length in HL.
  destruct (tile_says_ok E op fuel d c p n l r1 Hp HM HA ltac:(lia)) as (r0 & HV0 & HR0 & HT).
  destruct (mapM _ _) as [rs|e|]; [|congruence|congruence].
  destruct HT as (res & HT & ((k & HK & _) & _)). rewrite HT in HV. injection HV as <-.
  rewrite HK, anyFalse_node, existsb_app, orb_true_iff. left.
  destruct HR0 as (((k0 & HK0 & HR) & _) & _).
  rewrite filled_cons, existsb_app, orb_true_iff. left. rewrite HK0.
  assert (HX : existsb anyFalse k0 = true).
  { apply not_false_iff_true. rewrite (reports_holds _ _ _ HR). intros HH. unfold holds, sot_tests in HH.
    rewrite !Forall_cons_iff in HH. destruct HH as (_ & _ & _ & HH & _). cbn [snd] in HH. unfold btw in HH.
    rewrite (missing_more (tp_sot c p) 4 4 8 1) in HH by (first [lia | exact HU]). lia. }
  destruct k0; [discriminate|]. cbn [ekids node existsb]. rewrite anyFalse_node, HX. reflexivity.
Qed.

Lemma append_any k e t l : e = node t l -> existsb anyFalse (appendIfNotEmpty k e) = existsb anyFalse k || anyFalse e.
Proof.
  intros ->. rewrite append_filled, existsb_app, filled_any; [cbn [existsb]; now rewrite orb_false_r|].
  constructor; [|constructor]. eauto.
Qed.

Section ChainOr.
Variables (E : env) (op : opts) (fuel0 d : nat) (c : bytes) (m n : Z).
Hypothesis HF0 : (List.length c + 3 <= fuel0)%nat.
Let rec : recT := validate E op fuel0 (S (S d)).

(** Once a test of a tile part failed, it stays. *)
Lemma tests_stay f fuel p t st t' st' :
  loop fuel (tlBody E op fuel0 (S (S d)) m f) (p, t) st = Ok (t', st') ->
  st' = st /\ (existsb anyFalse (tl_tests t) = true -> existsb anyFalse (tl_tests t') = true).
Proof.
  revert p t st. induction fuel as [|fuel IH]; intros p t st H; [discriminate|]. cbn [loop] in H.
  unfold bind at 1 in H. unfold tlBody at 1 in H.
  destruct (bytes_eqb (slice (s_contents f) p (p + 2)) mSOT).
  2:{ injection H as <- <-. auto. }
  unfold bind at 1, lift at 1 in H.
  destruct (validate E op fuel0 (S (S d)) (BTb mSOT) (s_contents f) (VInt p) (VInt m)) as [r|e|] eqn:ER; try discriminate.
  cbv zeta in H. cbn [tl_found tl_tests tl_chars tl_warns tl_indices tl_expected] in H.
  destruct (validate_tag _ _ _ _ _ _ _ _ _ ER) as ((k & HK) & _ & _).
  set (t1 := appendIfNotEmpty (tl_tests t) (r_tests r)) in *.
  assert (HM : existsb anyFalse (tl_tests t) = true -> existsb anyFalse t1 = true).
  { intros HX. unfold t1. rewrite (append_any _ _ _ _ HK), HX. reflexivity. }
  destruct (dict_get (findElementText ["sot"; "isot"] (r_chars r)) (tl_found t)) as [v|].
  2:{ injection H as <- <-. cbn [tl_tests]. auto. }
  unfold bind at 1, lift at 1 in H. destruct (as_int v) as [z|e|]; try discriminate.
  destruct (negb (py_eqb (r_ret r) (VInt p))).
  2:{ injection H as <- <-. cbn [tl_tests]. auto. }
  unfold bind at 1, lift at 1 in H. destruct (as_int (r_ret r)) as [z'|e|]; try discriminate.
  cbn [ret] in H. apply IH in H. cbn [tl_tests] in H. intuition.
Qed.

Lemma chain_or f : s_contents f = c -> forall fuel p q t st t' st', 0 <= p -> inv c n q t ->
  loop fuel (tlBody E op fuel0 (S (S d)) m f) (p, t) st = Ok (t', st') ->
  (exists ps, chain n c p ps) \/ existsb anyFalse (tl_tests t') = true.
Proof.
  intros Hc. induction fuel as [|fuel IH]; intros p q t st t' st' Hp HI H; [discriminate|].
  pose proof H as H0. cbn [loop] in H. unfold bind at 1 in H.
  assert (HTO : forall q r, 0 <= q -> sub c q 2 = m_SOT -> tile_at E op fuel0 (S (S d)) c m q = Ok r -> 
     r_ret r = VInt (q + tp_psot c q) /\
     findElementText ["sot"; "isot"] (r_chars r) = VInt (tp_isot c q) /\
     findElementText ["sot"; "tnsot"] (r_chars r) = VInt (tp_tnsot c q)).
  { intros q0 r Hq HM HV. eapply tile_facts; eassumption. }
  rewrite (tlBody_spec E op fuel0 (S (S d)) c m n HTO f q p t st Hc Hp HI) in H.
  destruct (bytes_eqb (sub c p 2) m_SOT) eqn:EM.
  - apply bytes_eqb_spec in EM.
    destruct (tile_at E op fuel0 (S (S d)) c m p) as [r|e|] eqn:ET; try discriminate. cbn [rbind] in H.
    destruct ((0 <=? tp_isot c p) && (tp_isot c p <? n) && negb (tp_psot c p =? 0)) eqn:EC.
    + pose proof (val_4_range (tp_sot c p) 4 ltac:(lia)) as HR. fold (tp_psot c p) in HR.
      destruct HR as [HU|HR].
      * right. apply tests_stay in H as (_ & H). apply H.
        cbn [tl_step tl_tests]. destruct (validate_tag _ _ _ _ _ _ _ _ _ ET) as ((k & HK) & _ & _).
        rewrite (append_any _ _ _ _ HK). apply orb_true_iff. right.
        eapply tile_unreadable; eassumption.
      * apply IH with (q := q ++ [p]) in H; [|lia|now apply (inv_step E op fuel0 (S (S d)) c m n HTO)].
        destruct H as [(ps & H)|H]; [|now right]. left. exists (p :: ps). apply chain_next; auto; lia.
    + left. exists [p]. apply chain_stop; auto. lia.
  - left. exists []. apply chain_end; [exact Hp|]. intros HX. rewrite HX, bytes_eqb_refl in EM. discriminate.
Qed.
End ChainOr.

(** ** Codestreams with a SIZ segment, whatever the tile parts are *)
Lemma cs_general E op fuel d t c start csz l rest res :
  boxTypeOf t = "contiguousCodestreamBox" -> (List.length c + 3 <= fuel)%nat ->
  sub (cs_second c) 0 2 = m_SIZ -> after m_SOT (cs_second c) l rest ->
  validate E op fuel (S (S (S d))) t c start csz = Ok res ->
  exists cap k, siz_capability (val (cs_siz c) 2 2) = Some cap /\
    r_chars res = node (charRoot t) (node "siz" (leaves (siz_props cap (cs_siz c))) :: k) /\
    ((exists ps, parts c rest ps) \/ anyFalse (r_tests res) = true).
Proof.
  intros Ht HF HSIZ HA HV.
  destruct (siz_capability (val (cs_siz c) 2 2)) as [cap|] eqn:HCAP.
  2:{ rewrite cs_siz_raises in HV by assumption. discriminate. }
  exists cap.
  destruct (siz_says E op fuel (S d) (cs_siz c) VNone VNone cap HCAP) as (rz & HVz & HRz & _ & _ & _).
  destruct HRz as (HTz & HCz & HWz). change (boxTypeOf (BTb mSIZ)) with "siz" in HCz.
  set (D := S (S d)) in *. rewrite validate_S in HV.
  set (f := {| s_opts := op; s_btype := t; s_contents := c; s_start := start; s_csiz := csz |}) in HV.
  replace (runMethod E (validate E op fuel D) fuel f)
    with (validate_contiguousCodestreamBox (validate E op fuel D) fuel f) in HV
    by (unfold runMethod; cbn [s_btype f]; rewrite Ht; reflexivity).
  pose proof (second_spec c) as H2. rewrite getMarkerSegment_spec in H2 by lia.
  destruct (H2 HSIZ) as (p & Hn0 & Hp & Hsec). clear H2.
  pose proof (after_len _ _ _ _ HA) as HLEN.
  assert (HLC : (List.length (cs_second c) <= List.length c)%nat) by (rewrite Hsec, skipn_length; lia).
  destruct (mainHeader_spec (validate E op fuel D) fuel f (VInt (cs_csiz c)) p l rest Hp)
    as (s' & _ & HREST & HE).
  { cbn [s_contents f]. rewrite <- Hsec, HSIZ. discriminate. }
  { cbn [s_contents f]. rewrite <- Hsec. exact HA. }
  { lia. }
  cbn [s_contents f s_opts] in HE, HREST. rewrite <- Hsec, HSIZ in HE.
  destruct (validate_contiguousCodestreamBox (validate E op fuel D) fuel f st0) as [[u sf]|e|] eqn:HR; try discriminate.
  injection HV as <-.
  unfold validate_contiguousCodestreamBox in HR. cbv zeta in HR. cbn [s_contents f] in HR.
  rewrite getMarkerSegment_spec in HR by lia. rewrite Hn0 in HR.
  rewrite getMarkerSegment_spec in HR by exact Hp. rewrite <- Hsec, HSIZ in HR.
  fold (cs_siz c) in HR. change (skipn (Z.to_nat 0) c) with c in HR.
  erewrite bind_emits in HR by apply emits_test. erewrite bind_emits in HR by apply emits_test.
  change (bytes_eqb m_SIZ mSIZ) with true in HR. cbn [when] in HR.
  rewrite bind_assoc in HR. unfold bind at 1 in HR. rewrite attach_eq in HR.
  unfold mSIZ in HVz. unfold m_SIZ in HR at 1. rewrite HVz in HR. cbn [rbind] in HR.
  rewrite HCz, siz_find in HR by (cbn; tauto). cbn [List.find String.eqb Ascii.eqb Bool.eqb fst snd] in HR.
  fold (cs_csiz c) in HR. rewrite !app_st_app in HR.
  match type of HR with bind _ _ ?s = _ => set (S0 := s) in HR end.
  (* the properties *)
  assert (HX : ext S0 sf).
  { revert HR. match goal with |- bind ?m ?k _ = _ -> _ => enough (HG : grows (bind m k)) by apply HG end.
    grow. }
  destruct HX as (_ & (k & HK)). unfold S0 in HK. cbn [st_chars app_st st0 app] in HK.
  exists k. split; [reflexivity|]. split; [cbn [r_chars bv_of]; now rewrite HK|].
  (* the chain *)
  rewrite bind_assoc in HR. unfold bind at 1 in HR. rewrite HE in HR. clear HE.
  destruct (mapM (seg_child (validate E op fuel D) (VInt (cs_csiz c))) (treated main_markers l)) as [rs|e|] eqn:EM;
    cbn [rbind] in HR; try discriminate.
  rewrite bind_assoc in HR. erewrite bind_emits in HR by (apply (emits_int op)).
  rewrite bind_assoc in HR. erewrite bind_emits in HR by (apply (emits_int op)).
  rewrite bind_assoc in HR. erewrite bind_emits in HR by apply emits_test.
  rewrite bind_assoc in HR. erewrite bind_emits in HR by apply emits_test.
  rewrite bind_assoc in HR. unfold bind at 1 in HR. unfold get_chars at 1 in HR.
  rewrite !app_st_app in HR.
  match type of HR with context [findElementText ["siz"; "rsiz"] (node "" (st_chars ?s))] =>
    assert (HCH : forall k, In k ["csiz"; "rsiz"; "numberOfTiles"; "xsiz"; "ysiz"; "xOsiz"; "yOsiz"] ->
      findElementText ["siz"; k] (node "" (st_chars s)) =
      findElementText [k] (node "siz" (leaves (siz_props cap (cs_siz c)))))
  end.
  { intros k1 Hk1. unfold S0. cbn [st_chars app_st st0 app]. apply find2; [reflexivity|now apply siz_has]. }
  rewrite !HCH in HR by (cbn; tauto).
  rewrite !siz_find in HR by (cbn; tauto). cbn [List.find String.eqb Ascii.eqb Bool.eqb fst snd] in HR.
  cbn [as_int] in HR.
  rewrite bind_assoc in HR. erewrite bind_emits in HR by (apply (emits_lift op)).
  rewrite bind_assoc, cap_bits in HR. erewrite bind_emits in HR by (eapply emits_when, emits_test).
  rewrite bind_assoc in HR. erewrite bind_emits in HR by (apply (emits_lift op)).
  fold (cs_tiles c) in HR. rewrite dict_zeros_of in HR.
  destruct rest as [s1|]; [|left; now exists []].
  destruct HREST as (HM1 & HO1 & HS1').
  pose proof (after_some _ _ _ _ HA) as HSOT.
  assert (HOL : mh_offset s' < len c).
  { destruct (Z_lt_le_dec (mh_offset s') (len c)) as [G|G]; [exact G|]. exfalso.
    rewrite HS1', skipn_all2 in HSOT by (unfold len in G; lia). discriminate HSOT. }
  rewrite bind_assoc in HR. unfold bind at 1 in HR.
  rewrite HM1 in HR. change (bytes_eqb m_SOT mSOT) with true in HR. cbv iota in HR.
  rewrite tilePartLoop_body in HR.
  match type of HR with match loop ?a ?b ?x ?s with _ => _ end = _ =>
    destruct (loop a b x s) as [[t' s2]|e|] eqn:EL; try discriminate end.
  assert (HI0 : inv c (cs_tiles c) [] {| tl_tests := []; tl_chars := []; tl_warns := []; tl_indices := [];
                     tl_expected := []; tl_found := dict_of (cs_tiles c) (fun _ => 0) |}).
  { constructor; cbn.
    - exists []. split; [reflexivity|]. split; [constructor|]. reflexivity.
    - exists []. split; [reflexivity|]. split; [constructor|]. reflexivity.
    - reflexivity. }
  destruct (chain_or E op fuel d c (cs_csiz c) (cs_tiles c) HF f eq_refl fuel (mh_offset s') [] _ _ _ _ HO1 HI0 EL)
    as [(ps & HPS)|HFail].
  { left. exists ps. cbn [parts]. rewrite HS1', len_skipn by lia.
    replace (len c - (len c - mh_offset s')) with (mh_offset s') by lia. exact HPS. }
  right.
  rewrite bind_assoc in HR. erewrite bind_emits in HR by apply emits_test.
  rewrite bind_assoc in HR. cbn [s_opts f] in HR.
  match type of HR with bind ?m _ ?s = _ => assert (HG : grows m) by grow;
    destruct (m s) as [[u1 s3]|e|] eqn:E3; unfold bind at 1 in HR; rewrite E3 in HR; try discriminate end.
  clear HG E3.
  rewrite bind_assoc in HR. unfold bind at 1 in HR. rewrite add_test_ne_eq in HR.
  match type of HR with ?m ?s = _ => assert (HG : grows m) by grow; specialize (HG _ _ _ HR) end.
  destruct HG as ((k2 & HK2) & _). cbn [r_tests bv_of]. rewrite anyFalse_node, HK2.
  rewrite !existsb_app, !orb_true_iff. left. cbn [st_tests app_st].
  rewrite existsb_app, orb_true_iff. right. rewrite filled_any by (constructor; [eauto|constructor]).
  cbn [existsb]. rewrite anyFalse_node, HFail. reflexivity.
Qed.

(** ** The verdict *)
Definition verdict {A} (m : M A) : Prop :=
  forall s a s', m s = Ok (a, s') -> st_valid s' = VBool (negb (existsb anyFalse (st_tests s'))).
Lemma verdict_last : verdict (v <- isValid_of ;; set_valid (VBool v)).
Proof. intros s a s' H. unfold bind, isValid_of, set_valid in H. injection H as <- <-. reflexivity. Qed.
Lemma verdict_bind {A B} (m : M A) (k : A -> M B) : (forall a, verdict (k a)) -> verdict (bind m k).
Proof.
  intros Hk s b s' H. unfold bind in H. destruct (m s) as [[a s1]|e|]; try discriminate. eapply Hk; eassumption.
Qed.
Lemma top_verdict E op fuel d t c start csz res :
  In (boxTypeOf t) ["contiguousCodestreamBox"; "JP2"] ->
  validate E op fuel d t c start csz = Ok res ->
  exists b, r_valid res = VBool b /\ (b = true <-> all_pass (r_tests res)).
Proof.
  intros Ht HV. destruct d as [|d]; [discriminate|]. rewrite validate_S in HV.
  set (f := {| s_opts := op; s_btype := t; s_contents := c; s_start := start; s_csiz := csz |}) in HV.
  assert (HM : verdict (runMethod E (validate E op fuel d) fuel f)).
  { unfold runMethod. cbn [s_btype f]. cbn [In] in Ht. destruct Ht as [<-|[<-|[]]].
    - change (verdict (validate_contiguousCodestreamBox (validate E op fuel d) fuel f)).
      unfold validate_contiguousCodestreamBox. destruct (getMarkerSegment _ _) as [[[? ?] ?] n0].
      apply verdict_bind. intros _. destruct (getMarkerSegment _ _) as [[[? ?] ?] ?].
      apply verdict_bind. intros _. apply verdict_bind. intros _. apply verdict_last.
    - change (verdict (validate_JP2 (validate E op fuel d) fuel f)). unfold validate_JP2.
      repeat (first [apply verdict_last | apply verdict_bind; intros ?]). }
  destruct (runMethod E (validate E op fuel d) fuel f st0) as [[u s]|e|] eqn:ER; try discriminate.
  injection HV as <-. apply HM in ER. exists (negb (existsb anyFalse (st_tests s))).
  split; [exact ER|]. rewrite <- anyFalse_spec. cbn [r_tests bv_of]. rewrite anyFalse_node. apply negb_true_iff.
Qed.
