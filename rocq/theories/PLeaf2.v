(** * Leaf boxes with text or nested structures: XML, UUID, URL, ICC, colour *)

From Coq Require Import ZArith List Bool String Lia.
From Coq Require Import ZifyBool.
From Coq Require Import Init.Byte.
From Verif Require Import Py PyFloat ByteConv ETree BV VBoxes VSuper Spec SpecBox
     PBase PText PFloat PEmit PLeaf.
Import ListNotations.
Open Scope string_scope.
Open Scope list_scope.
Open Scope Z_scope.

Lemma stripped_rnt b : stripped b (removeNullTerminator b).
Proof. apply c06_nul. reflexivity. Qed.

Lemma stripped_fun b r : stripped b r -> r = removeNullTerminator b.
Proof. intros H. symmetry. now apply c06_nul. Qed.

(** What is emitted for embedded XML. *)
Definition xmlM (E : env) (o : opts) (b : bytes) : M unit :=
  match xml_parse E b with
  | Some e => add_char e ;; testFor o "containsWellformedXML" true
  | None => when (o_nullxml o) (match xml_parse E (removeNullTerminator b) with
                                | Some e => add_char e | None => ret tt end) ;;
            testFor o "containsWellformedXML" false
  end.

Lemma emits_xml E o b :
  exists T C, emits o (xmlM E o b) tt T C [] /\ tbl_ok (xml_tests (xml_parse E) b) T /\
              xml_shown (xml_parse E) (o_nullxml o) b C.
Proof.
  unfold xmlM, xml_tests. destruct (xml_parse E b) as [e|] eqn:P1.
  - do 2 eexists. split; [eapply emits_eq; [run1|reflexivity..]|]. split.
    + cbn [app]. tbl. split; [intros _; now exists e | reflexivity].
    + now apply xml_ok.
  - destruct (o_nullxml o) eqn:N; cbn [when].
    + destruct (xml_parse E (removeNullTerminator b)) as [e|] eqn:P2.
      * do 2 eexists. split; [eapply emits_eq; [run1|reflexivity..]|]. split.
        -- cbn [app]. tbl. split; [discriminate | now intros (e' & H)].
        -- eapply xml_nul; eauto using stripped_rnt.
      * do 2 eexists. split; [eapply emits_eq; [run1|reflexivity..]|]. split.
        -- cbn [app]. tbl. split; [discriminate | now intros (e' & H)].
        -- eapply xml_no; eauto using stripped_rnt.
    + do 2 eexists. split; [eapply emits_eq; [run1|reflexivity..]|]. split.
      * cbn [app]. tbl. split; [discriminate | now intros (e' & H)].
      * apply xml_no with (r := []); auto.
Qed.

Definition tagXML : bytes := [x78; x6d; x6c; x20].
Definition tagUUID : bytes := [x75; x75; x69; x64].

Lemma xml_says E op fuel d c start csiz :
  exists C, xml_shown (xml_parse E) (o_nullxml op) c C /\
    reported E op fuel d (BTb tagXML) c start csiz (xml_tests (xml_parse E) c) C [].
Proof.
  destruct (emits_xml E op c) as (T & C & HE & HT & HC). exists C. split; [exact HC|].
  unfold reported. eapply says_intro; eauto.
Qed.

(** ** UUIDs *)
Lemma map_bz_hex b : map bz (bytesToHex b) = hexs b.
Proof.
  unfold bytesToHex, hexs. induction b as [|x b IH]; [reflexivity|].
  cbn [flat_map]. rewrite map_app, IH. f_equal. unfold hex_byte, hex2. cbn [map].
  pose proof (nibbles x) as [H1 H2].
  assert (G : forall d, 0 <= d <= 15 -> bz (byte_of_Z (hex_lower d)) = hexdig d).
  { intros d Hd. rewrite bz_byte_of_Z; [reflexivity|]. unfold hex_lower. destruct (d <? 10) eqn:L; lia. }
  now rewrite !G.
Qed.

Lemma hexs_app a b : hexs (a ++ b) = hexs a ++ hexs b.
Proof. apply flat_map_app. Qed.
Lemma len_hexs b : len (hexs b) = 2 * len b.
Proof. rewrite <- map_bz_hex, len_map. apply bytesToHex_len. Qed.

Lemma firstn_hexs k b : firstn (2 * k) (hexs b) = hexs (firstn k b).
Proof.
  revert b. induction k as [|k IH]; intros b; [reflexivity|].
  destruct b as [|x b]; [now rewrite !firstn_nil|].
  replace (2 * S k)%nat with (S (S (2 * k))) by lia. cbn [hexs flat_map hex2 app firstn].
  do 2 f_equal. apply IH.
Qed.
Lemma skipn_hexs k b : skipn (2 * k) (hexs b) = hexs (skipn k b).
Proof.
  revert b. induction k as [|k IH]; intros b; [reflexivity|].
  destruct b as [|x b]; [now rewrite !skipn_nil|].
  replace (2 * S k)%nat with (S (S (2 * k))) by lia. cbn [hexs flat_map hex2 app skipn].
  apply IH.
Qed.
Lemma slice_hexs b a n : 0 <= a -> 0 <= n -> slice (hexs b) (2 * a) (2 * a + 2 * n) = hexs (sub b a n).
Proof.
  intros. rewrite slice_pos by lia. unfold sub.
  replace (Z.to_nat (2 * a + 2 * n - 2 * a)) with (2 * Z.to_nat n)%nat by lia.
  replace (Z.to_nat (2 * a)) with (2 * Z.to_nat a)%nat by lia.
  now rewrite skipn_hexs, firstn_hexs.
Qed.

Lemma uuidStr_ok b : len b = 16 -> uuidStr b = Ok (uuid_text b).
Proof.
  intros H. unfold uuidStr. replace (len b =? 16) with true by lia. cbv zeta.
  rewrite map_bz_hex. unfold uuid_text.
  rewrite <- !slice_hexs by lia. reflexivity.
Qed.
Lemma uuidStr_bad b : len b <> 16 -> uuidStr b = Raise ValueError.
Proof. intros H. unfold uuidStr. now replace (len b =? 16) with false by lia. Qed.

Lemma hexdig_inj a b : 0 <= a <= 15 -> 0 <= b <= 15 -> hexdig a = hexdig b -> a = b.
Proof. unfold hexdig. intros. destruct (a <? 10) eqn:?, (b <? 10) eqn:?; lia. Qed.
Lemma hex2_inj a b : hex2 a = hex2 b -> a = b.
Proof.
  unfold hex2. intros H. injection H as H1 H2.
  pose proof (nibbles a) as [? ?]. pose proof (nibbles b) as [? ?].
  apply hexdig_inj in H1; auto. apply hexdig_inj in H2; auto.
  apply bz_inj. rewrite (Z.div_mod (bz a) 16), (Z.div_mod (bz b) 16) by lia. lia.
Qed.
Lemma hexs_inj a b : hexs a = hexs b -> a = b.
Proof.
  revert b. induction a as [|x a IH]; intros [|y b] H; try discriminate; [reflexivity|].
  cbn [hexs flat_map] in H.
  assert (H1 : hex2 x = hex2 y).
  { apply (f_equal (firstn 2)) in H. exact H. }
  rewrite H1 in H. apply app_inv_head in H. apply hex2_inj in H1. subst. f_equal. now apply IH.
Qed.

Lemma skipn_skipn {A} i j (l : list A) : skipn i (skipn j l) = skipn (i + j) l.
Proof.
  revert l. induction j as [|j IH]; intros l; [now rewrite Nat.add_0_r|].
  destruct l as [|x l]; [now rewrite !skipn_nil|]. rewrite Nat.add_succ_r. apply IH.
Qed.

Lemma sub_split c a n m : 0 <= a -> 0 <= n -> 0 <= m -> sub c a n ++ sub c (a + n) m = sub c a (n + m).
Proof.
  intros. unfold sub. replace (Z.to_nat (n + m)) with (Z.to_nat n + Z.to_nat m)%nat by lia.
  rewrite Nat.add_comm. replace (Z.to_nat (a + n)) with (Z.to_nat n + Z.to_nat a)%nat by lia.
  generalize (skipn_skipn (Z.to_nat n) (Z.to_nat a) c). intros SS. 
  rewrite <- SS. clear SS. generalize (skipn (Z.to_nat a) c) as l. intros l.
  generalize (Z.to_nat n) as i, (Z.to_nat m) as j. clear. intros i. revert l.
  induction i as [|i IH]; intros l j; [now rewrite Nat.add_0_r|].
  destruct l as [|x l]; [now rewrite !skipn_nil, !firstn_nil|].
  rewrite Nat.add_succ_r. cbn [firstn skipn app]. f_equal. apply IH.
Qed.

Lemma uuid_text_inj a b : len a = 16 -> len b = 16 -> uuid_text a = uuid_text b -> a = b.
Proof.
  intros Ha Hb H. unfold uuid_text in H.
  assert (L : forall c off n, len c = 16 -> 0 <= off -> 0 <= n -> off + n <= 16 ->
              List.length (hexs (sub c off n)) = Z.to_nat (2 * n)).
  { intros c off n Hc Ho Hn Hs. pose proof (len_hexs (sub c off n)) as HL.
    rewrite len_sub in HL by lia. unfold len in HL. unfold len in Hc. lia. }
  assert (AI : forall (x1 x2 y1 y2 : pystr), x1 ++ y1 = x2 ++ y2 -> List.length x1 = List.length x2 ->
               x1 = x2 /\ y1 = y2).
  { induction x1 as [|z x1 IH]; intros [|z2 x2] y1 y2 E EL; try discriminate; [auto|].
    cbn in E. injection E as -> E. apply IH in E as [-> ->]; [auto|]. now injection EL. }
  apply AI in H as [H1 H]; [|rewrite !L by lia; reflexivity].
  apply AI in H as [_ H]; [|reflexivity].
  apply AI in H as [H2 H]; [|rewrite !L by lia; reflexivity].
  apply AI in H as [_ H]; [|reflexivity].
  apply AI in H as [H3 H]; [|rewrite !L by lia; reflexivity].
  apply AI in H as [_ H]; [|reflexivity].
  apply AI in H as [H4 H]; [|rewrite !L by lia; reflexivity].
  apply AI in H as [_ H5]; [|reflexivity].
  apply hexs_inj in H1, H2, H3, H4, H5.
  rewrite <- (sub_whole a 16), <- (sub_whole b 16) by lia.
  change 16 with (4 + (2 + (2 + (2 + 6)))). rewrite <- !sub_split by lia.
  cbn [Z.add Pos.add Pos.succ]. congruence.
Qed.

(** UUID box: XMP metadata, or some other UUID. *)
Lemma uuid_other_says E op fuel d c start csiz :
  16 <= len c -> sub c 0 16 <> xmp_uuid ->
  reported E op fuel d (BTb tagUUID) c start csiz [("boxLengthIsValid", 16 < len c)]
           (leaves [("uuid", VStr (uuid_text (sub c 0 16)))]) [].
Proof.
  intros HL HX. unfold reported. start_says.
  - open_method ltac:(fun E rec fuel f => constr:(validate_uuidBox E f)).
    unfold validate_uuidBox. cbv zeta. cbn [s_opts s_contents].
    rewrite slice_sub by lia. rewrite uuidStr_ok by (rewrite len_sub; lia).
    eapply emits_bind; [run1|]. cbv beta. eapply emits_bind; [apply emits_lift|]. cbv beta.
    replace (pystr_eqb _ _) with false; [run1|].
    symmetry. apply not_true_iff_false. rewrite pystr_eqb_spec. intros H. apply HX.
    apply uuid_text_inj; [rewrite len_sub; lia | reflexivity|]. exact H.
  - cbn [app]. tbl. cond.
  - reflexivity.
  - reflexivity.
Qed.

Lemma uuid_xmp_says E op fuel d c start csiz :
  sub c 0 16 = xmp_uuid ->
  exists C, xml_shown (xml_parse E) (o_nullxml op) (sub c 16 (len c - 16)) C /\
    reported E op fuel d (BTb tagUUID) c start csiz
      (("boxLengthIsValid", 16 < len c) :: xml_tests (xml_parse E) (sub c 16 (len c - 16))) C [].
Proof.
  intros HX.
  assert (HL : 16 <= len c).
  { apply (f_equal len) in HX. rewrite len_sub in HX by lia. change (len xmp_uuid) with 16 in HX. lia. }
  destruct (emits_xml E op (sub c 16 (len c - 16))) as (T & C & HE & HT & HC).
  exists C. split; [exact HC|]. unfold reported. start_says.
  - open_method ltac:(fun E rec fuel f => constr:(validate_uuidBox E f)).
    unfold validate_uuidBox. cbv zeta. cbn [s_opts s_contents].
    rewrite !slice_sub by lia. change (16 - 0) with 16. rewrite HX.
    eapply emits_bind; [run1|]. cbv beta.
    eapply emits_bind; [apply emits_lift|]. cbv beta.
    change (pystr_eqb _ _) with true. cbv iota. exact HE.
  - cbn [app]. apply tbl_cons; [reflexivity | lia | exact HT].
  - reflexivity.
  - reflexivity.
Qed.

Lemma uuid_short_raises E op fuel d c start csiz :
  len c < 16 -> validate E op fuel (S d) (BTb tagUUID) c start csiz = Raise ValueError.
Proof.
  intros HL. pose proof (len_nonneg c). cbn [validate].
  match goal with |- context [runMethod ?E ?rec ?fuel ?f] =>
    change (runMethod E rec fuel f) with (validate_uuidBox E f) end.
  unfold validate_uuidBox. cbv zeta. cbn [s_opts s_contents].
  rewrite slice_sub by lia. rewrite uuidStr_bad by (rewrite len_sub; lia).
  erewrite emits_raise; [reflexivity | apply (emits_test op) | reflexivity].
Qed.

(** ** UUID list box *)
Lemma ulst_says E op fuel d c start csiz :
  val c 0 2 * 16 + 2 <= len c ->
  reported E op fuel d (BTb tagULST) c start csiz (ulst_tests c) (leaves (ulst_props c)) [].
Proof.
  intros HL. unfold reported. start_says.
  - open_method ltac:(fun E rec fuel f => constr:(validate_uuidListBox f)).
    unfold validate_uuidListBox. cbv zeta. cbn [s_opts s_contents]. rewrite u16_val by lia.
    do 2 (eapply emits_bind; [run1|]; cbv beta).
    eapply emits_bind; [|run1].
    eapply (emits_for op _ (fun i => 2 + 16 * i) 2 _ (fun _ => [])
              (fun i => [leaf "uuid" (VStr (uuid_text (sub c (2 + 16 * i) 16)))]) (fun _ => []));
      [reflexivity|].
    intros i Hi. rewrite slice_sub by lia. rewrite uuidStr_ok by (rewrite len_sub; lia).
    replace (2 + 16 * i + 16 - (2 + 16 * i)) with 16 by lia.
    eapply emits_eq; [run1|..]; try reflexivity. lia.
  - unfold ulst_tests. cbn [app]. rewrite flat_map_nil. cbn [app]. tbl. cond.
  - unfold ulst_props. cbn [app leaves map]. f_equal.
    change (map (fun '(n, v) => leaf n v)) with leaves. rewrite leaves_map, app_nil_r. reflexivity.
  - nowarn.
Qed.

Lemma for_n_raise {S} o (n : nat) i0 (stf : Z -> S) (f : Z -> S -> M S) T C W e k s :
  (forall i, i0 <= i < k -> emits o (f i (stf i)) (stf (i + 1)) (T i) (C i) (W i)) ->
  i0 <= k < i0 + Z.of_nat n -> (forall s, f k (stf k) s = Raise e) ->
  for_n n i0 (stf i0) f s = Raise e.
Proof.
  revert i0 s. induction n as [|n IH]; intros i0 s H Hk He; [lia|].
  cbn [for_n]. destruct (Z.eq_dec i0 k) as [->|N].
  - unfold bind. now rewrite He.
  - unfold bind. rewrite (H i0) by lia. apply IH; [|lia|exact He]. intros i Hi. apply H. lia.
Qed.

Lemma ulst_raises E op fuel d c start csiz :
  len c < val c 0 2 * 16 + 2 ->
  validate E op fuel (S d) (BTb tagULST) c start csiz = Raise ValueError.
Proof.
  intros HL. pose proof (len_nonneg c) as HN. pose proof (val_2_range c 0 ltac:(lia)) as HV.
  assert (HV2 : 0 <= val c 0 2 /\ 2 <= len c).
  { destruct (Z.le_gt_cases 2 (len c)); [lia|]. rewrite val_missing in * by lia. lia. }
  cbn [validate].
  match goal with |- context [runMethod ?E ?rec ?fuel ?f] =>
    change (runMethod E rec fuel f) with (validate_uuidListBox f) end.
  unfold validate_uuidListBox. cbv zeta. cbn [s_opts s_contents]. rewrite u16_val by lia.
  erewrite emits_raise; [reflexivity | apply (emits_int op) |]. intros s1. cbv beta.
  erewrite emits_raise; [reflexivity | apply (emits_test op) |]. intros s2. cbv beta.
  unfold bind at 1. unfold for_range.
  erewrite (for_n_raise op _ 0 (fun i => 2 + 16 * i) _ (fun _ => [])
     (fun i => [leaf "uuid" (VStr (uuid_text (sub c (2 + 16 * i) 16)))]) (fun _ => []) _
     ((len c - 2) / 16)); [reflexivity| | |].
  - intros i Hi. rewrite slice_sub by lia.
    rewrite uuidStr_ok by (rewrite len_sub by lia; Z.to_euclidean_division_equations; lia).
    replace (2 + 16 * i + 16 - (2 + 16 * i)) with 16 by lia.
    eapply emits_eq; [run1|..]; try reflexivity. lia.
  - Z.to_euclidean_division_equations; lia.
  - intros s. assert (0 <= (len c - 2) / 16) by (apply Z.div_pos; lia).
    rewrite slice_sub by lia.
    rewrite uuidStr_bad; [reflexivity|]. rewrite len_sub by lia.
    Z.to_euclidean_division_equations; lia.
Qed.

(** ** URL box *)
Lemma endsWithNul_spec b : endsWithNul b = true <-> exists r, b = r ++ [x00].
Proof.
  unfold endsWithNul. split.
  - destruct (rev b) as [|x r] eqn:E; [discriminate|]. intros H.
    exists (rev r). apply (f_equal (@rev byte)) in E. rewrite rev_involutive in E.
    rewrite E. cbn [rev]. f_equal. f_equal. apply Byte.byte_dec_bl. exact H.
  - intros (r & ->). rewrite rev_app_distr. reflexivity.
Qed.

Lemma url_says E op fuel d c start csiz :
  exists r, stripped (url_loc c) r /\
    reported E op fuel d (BTb tagURL) c start csiz (url_tests c) (leaves (url_props c r)) [].
Proof.
  exists (removeNullTerminator (url_loc c)). split; [apply stripped_rnt|].
  pose proof (len_nonneg c) as HN.
  unfold reported. start_says.
  - open_method ltac:(fun E rec fuel f => constr:(validate_urlBox f)).
    unfold validate_urlBox. cbv zeta. cbn [s_opts s_contents].
    rewrite !slice_sub by lia. fold (url_loc c). run1.
  - unfold url_tests. cbn [app]. tbl.
    + rewrite <- (slice_sub c 0 1), u8_val by lia. lia.
    + apply bytes_eqb_spec.
    + apply endsWithNul_spec.
    + destruct (utf8_decode _) as [s|] eqn:D.
      * split; [intros _|reflexivity]. exists (removeNullTerminator (url_loc c)), s.
        split; [apply stripped_rnt|]. now apply utf8_decode_spec.
      * split; [discriminate|]. intros (r & s & H1 & H2). apply stripped_fun in H1. subst r.
        apply utf8_decode_spec in H2. congruence.
  - unfold url_props. cbn [app leaves map]. rewrite <- (slice_sub c 0 1), u8_val by lia. reflexivity.
  - reflexivity.
Qed.

(** ** ICC profile *)
Definition icc_off (p : bytes) (i : Z) : Z := val p (132 + 12 * i + 4) 4.
Definition icc_size (p : bytes) (i : Z) : Z := val p (132 + 12 * i + 8) 4.

Lemma bindex_from_ge k x l i : bindex_from k x l = Some i -> k <= i < k + len l.
Proof.
  revert k. induction l as [|y l IH]; intros k; cbn [bindex_from]; [discriminate|].
  rewrite len_cons. pose proof (len_nonneg l).
  destruct (bytes_eqb x y); [intros [= <-]; lia|]. intros H'. apply IH in H'. lia.
Qed.

Lemma bytes_eqb_sym a b : bytes_eqb a b = bytes_eqb b a.
Proof.
  destruct (bytes_eqb a b) eqn:E.
  - apply bytes_eqb_spec in E. subst. symmetry. apply bytes_eqb_refl.
  - symmetry. apply bytes_eqb_neq. apply bytes_eqb_neq in E. congruence.
Qed.

Lemma description_gen p l k :
  match bindex_from k [x64; x65; x73; x63] (map (icc_tag p) l) with
  | None => VStr []
  | Some i =>
      let o1 := nth (Z.to_nat (i - k)) (map (icc_off p) l) 0 in
      let s1 := nth (Z.to_nat (i - k)) (map (icc_size p) l) 0 in
      let descTag := slice p o1 (o1 + s1) in
      let n := bytesToUInt (slice descTag 8 12) in
      VBytes (slice descTag 12 (12 + n - 1))
  end = first_desc p l.
Proof.
  revert k. induction l as [|x l IH]; intros k; [reflexivity|].
  cbn [map bindex_from first_desc]. rewrite bytes_eqb_sym.
  destruct (bytes_eqb (icc_tag p x) _) eqn:E.
  - rewrite Z.sub_diag. cbn [Z.to_nat nth]. cbv zeta. rewrite u32_val by lia. reflexivity.
  - rewrite <- (IH (k + 1)).
    destruct (bindex_from (k + 1) _ _) as [i|] eqn:B; [|reflexivity].
    pose proof (bindex_from_ge _ _ _ _ B).
    replace (Z.to_nat (i - k)) with (S (Z.to_nat (i - (k + 1)))) by lia. reflexivity.
Qed.

Lemma profileID_hex b : map byte_of_Z (hexs b) = bytesToHex b.
Proof.
  rewrite <- map_bz_hex, map_map. rewrite <- (map_id (bytesToHex b)) at 2.
  apply map_ext. apply byte_of_Z_bz.
Qed.

Lemma shiftr4 x : Z.shiftr x 4 = x / 16.
Proof. rewrite Z.shiftr_div_pow2 by lia. reflexivity. Qed.

Lemma cons_eq {A} (a b : A) l m : a = b -> l = m -> a :: l = b :: m.
Proof. now intros -> ->. Qed.

Lemma icc_says E op fuel d p start csiz :
  reported E op fuel d (BTs "icc") p start csiz [] (leaves (icc_props p)) [].
Proof.
  unfold reported. start_says.
  - open_method ltac:(fun E rec fuel f => constr:(validate_icc f)).
    unfold validate_icc. cbv zeta. cbn [s_opts s_contents].
    do 23 (eapply emits_bind; [run1|]; cbv beta).
    eapply emits_bind.
    + eapply (emits_for op _ (fun i => (map (fun j => slice p (132 + 12 * j) (132 + 12 * j + 4)) (zseq i),
        map (fun j => bytesToUInt (slice p (132 + 12 * j + 4) (132 + 12 * j + 8))) (zseq i),
        map (fun j => bytesToUInt (slice p (132 + 12 * j + 8) (132 + 12 * j + 12))) (zseq i),
        132 + 12 * i))); [reflexivity|].
      intros i Hi. run1. rewrite !zseq_succ, !map_app by lia. cbn [map]. f_equal. lia.
    + cbv beta iota. run1.
  - cbn [app]. rewrite flat_map_nil. exact tbl_nil.
  - unfold icc_props. rewrite !leaves_app, leaves_map.
    cbn [app leaves map]. unfold iccVersion, iccDateTime, iccFixed, icc_fixed.
    cbn [s_contents]. fields. rewrite !slice_sub by lia.
    rewrite profileID_hex, shiftr4.
    do 23 (apply cons_eq; [reflexivity|]).
    unfold icc_ntags. f_equal.
    + apply flat_map_ext_in. intros i Hi. apply in_zseq in Hi. cbn [app]. unfold icc_tag.
      rewrite slice_sub by lia. replace (132 + 12 * i + 4 - (132 + 12 * i)) with 4 by lia. reflexivity.
    + cbn [app]. do 2 f_equal. unfold iccDescription. cbn [s_contents]. unfold bindex.
      rewrite <- (description_gen p _ 0).
      rewrite !map_zseq_max.
      assert (HM : forall (g h : Z -> bytes) n, (forall i, 0 <= i -> g i = h i) ->
                    map g (zseq n) = map h (zseq n)).
      { intros g h n Hg. apply map_ext_in. intros i Hi. apply in_zseq in Hi. apply Hg. lia. }
      assert (HM2 : forall (g h : Z -> Z) n, (forall i, 0 <= i -> g i = h i) ->
                    map g (zseq n) = map h (zseq n)).
      { intros g h n Hg. apply map_ext_in. intros i Hi. apply in_zseq in Hi. apply Hg. lia. }
      rewrite (HM _ (icc_tag p)) by (intros i Hi; unfold icc_tag; rewrite slice_sub by lia; f_equal; lia).
      rewrite (HM2 _ (icc_off p)) by (intros i Hi; unfold icc_off; apply u32_val; lia).
      rewrite (HM2 (fun j => bytesToUInt (slice p (132 + 12 * j + 8) _)) (icc_size p))
        by (intros i Hi; unfold icc_size; apply u32_val; lia).
      destruct (bindex_from 0 _ _) as [i|]; [|reflexivity]. cbv zeta. now rewrite Z.sub_0_r.
  - nowarn.
Qed.

(** ** Colour specification box *)
Lemma icc_tags_found p :
  findAllText ["tag"] (node "icc" (leaves (icc_props p))) =
  map (fun i => VBytes (icc_tag p i)) (zseq (icc_ntags p)).
Proof.
  unfold findAllText, icc_props. rewrite !leaves_app, leaves_map.
  cbn [findall ekids node]. rewrite !filter_app. cbn [leaves map filter etag leaf String.eqb Ascii.eqb Bool.eqb app].
  rewrite app_nil_r. induction (zseq (icc_ntags p)) as [|i l IH]; [reflexivity|].
  cbn [flat_map leaves map app filter etag leaf String.eqb Ascii.eqb Bool.eqb etext].
  now rewrite IH.
Qed.

Lemma colr_enum_field c : bytesToUInt (slice c 3 (len c)) = colr_enum c.
Proof.
  pose proof (len_nonneg c). unfold colr_enum. destruct (len c =? 7) eqn:E.
  - apply u32_val; lia.
  - unfold bytesToUInt. apply doConv_bad. rewrite slice_sub by lia.
    destruct (Z.le_gt_cases 3 (len c)).
    + rewrite len_sub by lia. lia.
    + unfold sub. replace (Z.to_nat (len c - 3)) with O by lia. cbn. discriminate.
Qed.

Lemma emits_attachICC E op fuel d p :
  emits op (attachICC (validate E op fuel (S d)) p) (node "icc" (leaves (icc_props p)))
        [] [node "icc" (leaves (icc_props p))] [].
Proof.
  destruct (icc_says E op fuel d p VNone VNone) as (r & HR & ((k & HT1 & HT2) & HC & HW) & _).
  unfold attachICC. rewrite HR.
  eapply emits_eq.
  - eapply emits_bind; [apply emits_lift|]. cbv beta. rewrite HC, HW.
    eapply emits_bind; [apply emits_add_char|]. cbv beta.
    eapply emits_bind; [exact (emits_ret op tt)|]. cbv beta. apply emits_ret.
  - reflexivity.
  - reflexivity.
  - reflexivity.
  - reflexivity.
Qed.

Lemma tbl_eq L T L' T' : tbl_ok L T -> L = L' -> T = T' -> tbl_ok L' T'.
Proof. now intros H <- <-. Qed.

Lemma emits_colr_common op (c : bytes) (k : M unit) T C W :
  emits op k tt T C W ->
  exists T0,
  emits op
    (addInt "meth" (val c 0 1) ;;
     (if String.eqb (o_format op) "jp2" then testFor op "methIsValid" (Zin (val c 0 1) [1; 2])
      else when (String.eqb (o_format op) "jph") (testFor op "methIsValid" (Zin (val c 0 1) [1; 2; 3; 5]))) ;;
     addInt "prec" (val c 1 1) ;;
     testFor op "precIsValid" (val c 1 1 =? 0) ;;
     addInt "approx" (val c 2 1) ;;
     testFor op "approxIsValid" (val c 2 1 =? 0) ;; k) tt
    (T0 ++ T) (leaves (colr_props c) ++ C) W /\
  tbl_ok (colr_common (o_format op) c) T0.
Proof.
  intros HK. eexists
    ((if String.eqb (o_format op) "jp2" then [("methIsValid", Zin (val c 0 1) [1; 2])]
      else if String.eqb (o_format op) "jph" then [("methIsValid", Zin (val c 0 1) [1; 2; 3; 5])] else [])
     ++ [("precIsValid", val c 1 1 =? 0); ("approxIsValid", val c 2 1 =? 0)]).
  split.
  - eapply emits_eq.
    + do 6 (eapply emits_bind; [run1|]; cbv beta). exact HK.
    + reflexivity.
    + rewrite <- app_assoc. cbn [app].
      destruct (String.eqb (o_format op) "jp2"); [|destruct (String.eqb (o_format op) "jph")]; reflexivity.
    + destruct (String.eqb (o_format op) "jp2"); [|destruct (String.eqb (o_format op) "jph")]; reflexivity.
    + destruct (String.eqb (o_format op) "jp2"); [|destruct (String.eqb (o_format op) "jph")]; reflexivity.
  - unfold colr_common, fmt_is. apply tbl_app.
    + destruct (String.eqb (o_format op) "jp2"); [|destruct (String.eqb (o_format op) "jph")]; tbl;
        apply Zin_spec.
    + tbl; lia.
Qed.

Lemma py_in_bytes b l : py_in (VBytes b) (map VBytes l) = bin b l.
Proof. unfold py_in, bin. induction l as [|x l IH]; [reflexivity|]. cbn. now rewrite IH. Qed.

Lemma colr_says E op fuel d c start csiz :
  reported E op fuel (S d) (BTb tagCOLR) c start csiz (colr_tests (o_format op) c)
           (colr_all_props c) [].
Proof.
  pose proof (len_nonneg c) as HN.
  assert (HP : slice c 3 (len c) = colr_profile c) by (rewrite slice_sub by lia; reflexivity).
  set (body :=
    if val c 0 1 =? 1 then
      addInt "enumCS" (colr_enum c) ;;
      testFor op "enumCSIsValid" (Zin (colr_enum c) [16; 17; 18])
    else if val c 0 1 =? 2 then
      icc <- attachICC (validate E op fuel (S d)) (colr_profile c) ;;
      testFor op "iccSizeIsValid" (py_eqb (findElementText ["profileSize"] icc) (VInt (len (colr_profile c)))) ;;
      testFor op "iccPermittedProfileClass"
        (py_in (findElementText ["profileClass"] icc)
               [VBytes [x73; x63; x6e; x72]; VBytes [x6d; x6e; x74; x72]]) ;;
      testFor op "iccNoLUTBasedProfile"
        (negb (py_in (VBytes [x41; x32; x42; x30]) (findAllText ["tag"] icc)))
    else if val c 0 1 =? 3 then _ <- attachICC (validate E op fuel (S d)) (colr_profile c) ;; ret tt
    else if val c 0 1 =? 5 then
      addInt "colPrims" (val c 3 2) ;;
      when (String.eqb (o_format op) "jph")
        (testFor op "colPrimsIsValid" (Zin (val c 3 2) [1; 2; 4; 5; 6; 7; 8; 9; 10; 11; 12; 22])) ;;
      addInt "transfC" (val c 5 2) ;;
      when (String.eqb (o_format op) "jph")
        (testFor op "transfCIsValid"
           (Zin (val c 5 2) [1; 2; 4; 5; 6; 7; 8; 9; 10; 11; 12; 13; 14; 15; 16; 17; 18])) ;;
      addInt "matCoeffs" (val c 7 2) ;;
      when (String.eqb (o_format op) "jph")
        (testFor op "matCoeffsIsValid" (Zin (val c 7 2) [0; 1; 2; 4; 5; 6; 7; 8; 9; 10; 11; 12; 13; 14])) ;;
      addInt "vidFRng" (bitk (val c 9 1) 7)
    else ret tt).
  assert (HB : exists L T C, emits op body tt T C [] /\ tbl_ok L T /\
             colr_tests (o_format op) c = colr_common (o_format op) c ++ L /\
             colr_all_props c = leaves (colr_props c) ++ C).
  { unfold body, colr_tests, colr_all_props. cbv zeta.
    destruct (val c 0 1 =? 1) eqn:M1; [|destruct (val c 0 1 =? 2) eqn:M2;
      [|destruct (val c 0 1 =? 3) eqn:M3; [|destruct (val c 0 1 =? 5) eqn:M5]]].
    - do 3 eexists. split; [eapply emits_eq; [run1|reflexivity..]|].
      split; [|split; [reflexivity|apply leaves_app]]. cbn [app]. tbl. apply Zin_spec.
    - do 3 eexists. split.
      { eapply emits_eq; [eapply emits_bind; [apply emits_attachICC|]; cbv beta; run1|reflexivity..]. }
      split; [|split; [reflexivity|reflexivity]].
      rewrite icc_tags_found. cbn [app]. tbl.
      + change (findElementText ["profileSize"] (node "icc" (leaves (icc_props (colr_profile c)))))
          with (VInt (val (colr_profile c) 0 4)). cbn [py_eqb]. lia.
      + change (findElementText ["profileClass"] (node "icc" (leaves (icc_props (colr_profile c)))))
          with (VBytes (sub (colr_profile c) 12 4)).
        change (py_in (VBytes (sub (colr_profile c) 12 4))
                 (map VBytes [[x73; x63; x6e; x72]; [x6d; x6e; x74; x72]]) = true <->
           sub (colr_profile c) 12 4 = [x73; x63; x6e; x72] \/
           sub (colr_profile c) 12 4 = [x6d; x6e; x74; x72]).
        rewrite py_in_bytes, bin_spec. cbn [In]. intuition.
      + rewrite <- (map_map (icc_tag (colr_profile c)) VBytes), py_in_bytes, negb_true_iff.
        rewrite <- not_true_iff_false, bin_spec, in_map_iff. split.
        * intros H i Hi Hx. apply H. exists i. split; [exact Hx|]. now apply in_zseq.
        * intros H (i & Hx & Hi). apply in_zseq in Hi. now apply (H i).
    - do 3 eexists. split.
      { eapply emits_eq; [eapply emits_bind; [apply emits_attachICC|]; cbv beta; run1|reflexivity..]. }
      split; [exact tbl_nil|]. split; [|reflexivity].
      replace (val c 0 1 =? 5) with false by lia. now rewrite app_nil_r.
    - do 3 eexists. split; [eapply emits_eq; [run1|reflexivity..|]|].
      + destruct (String.eqb (o_format op) "jph"); reflexivity.
      + split; [|split; [reflexivity|unfold colr_param_props; rewrite leaves_app; f_equal]].
        * unfold fmt_is. destruct (String.eqb (o_format op) "jph"); cbn [app]; tbl; apply Zin_spec.
        * destruct (String.eqb (o_format op) "jph"); reflexivity.
    - exists [], [], []. split; [apply emits_ret|]. split; [exact tbl_nil|].
      now rewrite !app_nil_r. }
  destruct HB as (L & T & C & HE & HT & -> & ->).
  destruct (emits_colr_common op c body T C [] HE) as (T0 & HE0 & HT0).
  unfold reported. start_says.
  - open_method ltac:(fun E rec fuel f => constr:(validate_colourSpecificationBox rec f)).
    unfold validate_colourSpecificationBox. cbv zeta. cbn [s_opts s_contents].
    rewrite colr_enum_field, HP, !u8_val, !u16_val, bitv by lia. exact HE0.
  - apply tbl_app; assumption.
  - reflexivity.
  - reflexivity.
Qed.

(** ** Unknown boxes and intellectual property boxes *)
Lemma ipr_says E op fuel d c start csiz :
  reported E op fuel d (BTb tagJP2I) c start csiz [] [] [].
Proof.
  unfold reported. start_says; [apply emits_ret | exact tbl_nil | reflexivity | reflexivity].
Qed.

Lemma unknown_says E op fuel d t c start csiz :
  boxTypeOf (BTb t) = "unknownBox" ->
  reported E op fuel d (BTb t) c start csiz [] (leaves [("boxType", VBytes t)])
           [leaf "warning" (VStr (pys "ignoring unknown box '" ++ bytesToText (catC E) t ++ pys "'"))].
Proof.
  intros HT. unfold reported. start_says.
  - unfold runMethod. cbn [s_btype]. rewrite HT.
    match goal with |- emits _ (match ?m with Some _ => _ | None => _ end) _ _ _ _ =>
      change m with (Some (validate_unknownBox E {| s_opts := op; s_btype := BTb t; s_contents := c; s_start := start; s_csiz := csiz |})) end.
    cbv iota. unfold validate_unknownBox. cbn [s_btype]. run1.
  - exact tbl_nil.
  - reflexivity.
  - reflexivity.
Qed.

(** ** Summary form used by the property theorems *)
Lemma reported_pass E op fuel d t c start csiz L p w :
  reported E op fuel d t c start csiz L p w ->
  exists r, validate E op fuel (S d) t c start csiz = Ok r /\
            says (o_verbose op) (boxTypeOf t) L p w r /\
            (all_pass (r_tests r) <-> holds L).
Proof.
  intros (r & HR & HS & _). exists r. split; [exact HR|]. split; [exact HS|].
  exact (says_all_pass _ _ _ _ _ _ HS).
Qed.

Lemma reported_pass_iff E op fuel d t c start csiz L p w (P : Prop) :
  reported E op fuel d t c start csiz L p w -> (holds L <-> P) ->
  exists r, validate E op fuel (S d) t c start csiz = Ok r /\
            says (o_verbose op) (boxTypeOf t) L p w r /\ (all_pass (r_tests r) <-> P).
Proof.
  intros H HP. destruct (reported_pass _ _ _ _ _ _ _ _ _ _ _ H) as (r & HR & HS & HA).
  exists r. split; [exact HR|]. split; [exact HS|]. now rewrite HA.
Qed.

Lemma holds_nil : holds [] <-> True.
Proof. split; [auto|constructor]. Qed.
Lemma holds_cons n P L : holds ((n, P) :: L) <-> P /\ holds L.
Proof. unfold holds. split; [intros H; now inversion H | intros [H1 H2]; now constructor]. Qed.
Lemma holds_app L1 L2 : holds (L1 ++ L2) <-> holds L1 /\ holds L2.
Proof. apply Forall_app. Qed.
Lemma holds_map {A} (f : A -> string * Prop) l : holds (map f l) <-> forall x, In x l -> snd (f x).
Proof.
  unfold holds. rewrite Forall_map, Forall_forall. reflexivity.
Qed.
Lemma holds_flat {A} (f : A -> list (string * Prop)) l :
  holds (flat_map f l) <-> forall x, In x l -> holds (f x).
Proof.
  induction l as [|x l IH]; cbn [flat_map].
  - rewrite holds_nil. firstorder.
  - rewrite holds_app, IH. split.
    + intros [H1 H2] y [<-|Hy]; auto.
    + intros H. split; [apply H; now left|]. intros y Hy. apply H. now right.
Qed.
Ltac holds := rewrite ?holds_app, ?holds_cons, ?holds_nil.

Lemma sig_holds c : holds (sig_tests c) <-> c = [x0d; x0a; x87; x0a].
Proof.
  unfold sig_tests. holds. split.
  - intros (H1 & H2 & _). rewrite sub_whole in H2 by lia. exact H2.
  - intros ->. repeat split.
Qed.

Lemma ftyp_holds fmt b c :
  ftyp_brand fmt = Some b ->
  (holds (ftyp_tests fmt c) <->
   len c mod 4 = 0 /\ sub c 0 4 = b /\ val c 4 4 = 0 /\
   exists i, 0 <= i < (len c - 8) / 4 /\ sub c (8 + 4 * i) 4 = b).
Proof. intros H. unfold ftyp_tests. rewrite H. holds. unfold ftyp_n, ftyp_cl. tauto. Qed.

Lemma ihdr_holds c :
  holds (ihdr_tests c) <->
  len c = 14 /\ 1 <= val c 0 4 /\ 1 <= val c 4 4 /\ 1 <= val c 8 2 <= 16384 /\
  val c 11 1 = 7 /\ (val c 12 1 = 0 \/ val c 12 1 = 1) /\ (val c 13 1 = 0 \/ val c 13 1 = 1).
Proof.
  unfold ihdr_tests. holds. split; [tauto|]. intros (H1 & H2 & H3 & H4 & H5 & H6 & H7).
  pose proof (val_4_range c 0 ltac:(lia)). pose proof (val_4_range c 4 ltac:(lia)).
  pose proof (val_readable c 10 1 ltac:(lia) ltac:(lia) ltac:(lia)).
  repeat split; try assumption; lia.
Qed.

Lemma bpcc_holds c : holds (bpcc_tests c) <-> Forall (fun b => bz b mod 128 <= 37) c.
Proof.
  unfold bpcc_tests. rewrite holds_map, Forall_forall. unfold cdepth.
  split; intros H b Hb; specialize (H b Hb); cbn in *; lia.
Qed.

Lemma pclr_holds c :
  holds (pclr_tests c) <->
  1 <= val c 0 2 <= 1024 /\ 1 <= val c 2 1 /\
  (forall i, 0 <= i < val c 2 1 -> cdepth (val c (3 + i) 1) <= 38).
Proof.
  unfold pclr_tests, pclr_ncols. holds. rewrite holds_map.
  pose proof (val_1_range c 2 ltac:(lia)) as R. split.
  - intros ((H1 & H2 & _) & H3). repeat split; try lia. intros i Hi. apply H3. now apply in_zseq.
  - intros (H1 & H2 & H3). repeat split; try lia. intros i Hi. apply H3. now apply in_zseq.
Qed.

Lemma cmap_holds c :
  holds (cmap_tests c) <->
  (forall i, 0 <= i < len c / 4 ->
     0 <= val c (4 * i) 2 <= 16384 /\
     (val c (4 * i + 2) 1 = 0 /\ val c (4 * i + 3) 1 = 0 \/ val c (4 * i + 2) 1 = 1)).
Proof.
  unfold cmap_tests. rewrite holds_flat. split.
  - intros H i Hi. apply in_zseq in Hi. specialize (H i Hi). revert H. holds.
    intros (H1 & H2 & H3 & _). intuition.
  - intros H i Hi. apply in_zseq in Hi. destruct (H i Hi) as (H1 & H2). holds.
    split; [exact H1|]. split; [tauto|]. split; [|exact I]. intros H3. lia.
Qed.

Lemma cdef_holds_jp2 c :
  holds (cdef_tests "jp2" c) <->
  1 <= val c 0 2 /\ len c = 2 + 6 * val c 0 2 /\
  (forall i, 0 <= i < val c 0 2 -> In (val c (4 + 6 * i) 2) [0; 1; 2; 65535]).
Proof.
  unfold cdef_tests. holds. cbn [fmt_is String.eqb Ascii.eqb Bool.eqb]. rewrite holds_flat.
  pose proof (val_2_range c 0 ltac:(lia)) as R. holds. split.
  - intros ((H1 & H2 & _) & H3 & _). repeat split; try lia. intros i Hi. apply in_zseq in Hi.
    specialize (H3 i Hi). revert H3. holds. tauto.
  - intros (H1 & H2 & H3). repeat split; try lia. intros i Hi. apply in_zseq in Hi. specialize (H3 i Hi).
    holds. repeat split; try exact H3; try lia.
    + pose proof (val_readable c (2 + 6 * i) 2). lia.
    + pose proof (val_readable c (2 + 6 * i) 2). lia.
    + cbn [In] in H3. lia.
    + cbn [In] in H3. lia.
Qed.

Lemma cdef_holds_jph c :
  holds (cdef_tests "jph" c) <->
  1 <= val c 0 2 /\ len c = 2 + 6 * val c 0 2 /\
  (forall i, 0 <= i < val c 0 2 -> In (val c (4 + 6 * i) 2) [0; 1; 2; 3; 65535]) /\
  len (cdef_alpha c) <= 1 /\ Forall (fun a => a = 0) (cdef_alpha c).
Proof.
  unfold cdef_tests. holds. cbn [fmt_is String.eqb Ascii.eqb Bool.eqb]. rewrite holds_flat.
  pose proof (val_2_range c 0 ltac:(lia)) as R. holds. rewrite holds_map, Forall_forall. cbn [snd]. split.
  - intros ((H1 & H2 & _) & H3 & H4 & H5). repeat split; try assumption; try lia. intros i Hi. apply in_zseq in Hi.
    specialize (H3 i Hi). revert H3. holds. tauto.
  - intros (H1 & H2 & H3 & H4 & H5). repeat split; try assumption; try lia.
    intros i Hi. apply in_zseq in Hi. specialize (H3 i Hi).
    holds. repeat split; try exact H3; try lia.
    + pose proof (val_readable c (2 + 6 * i) 2). lia.
    + pose proof (val_readable c (2 + 6 * i) 2). lia.
    + cbn [In] in H3. lia.
    + cbn [In] in H3. lia.
Qed.

Lemma res_holds x c :
  holds (res_tests x c) <->
  len c = 10 /\ 1 <= val c 0 2 /\ 1 <= val c 2 2 /\ 1 <= val c 4 2 /\ 1 <= val c 6 2.
Proof.
  unfold res_tests. holds. split; [intuition lia|]. intros (H1 & H2 & H3 & H4 & H5).
  pose proof (val_2_range c 0 ltac:(lia)). pose proof (val_2_range c 2 ltac:(lia)).
  pose proof (val_2_range c 4 ltac:(lia)). pose proof (val_2_range c 6 ltac:(lia)).
  pose proof (val_readable c 8 1 ltac:(lia) ltac:(lia) ltac:(lia)) as R8.
  pose proof (val_readable c 9 1 ltac:(lia) ltac:(lia) ltac:(lia)) as R9.
  unfold sval. cbv zeta. destruct (128 <=? val c 8 1) eqn:?, (128 <=? val c 9 1) eqn:?;
  repeat split; try assumption; lia.
Qed.

Lemma ulst_holds c : holds (ulst_tests c) <-> len c = val c 0 2 * 16 + 2.
Proof. unfold ulst_tests. holds. tauto. Qed.

Lemma colr_holds fmt c :
  fmt = "jp2" \/ fmt = "jph" ->
  (holds (colr_tests fmt c) <->
   val c 1 1 = 0 /\ val c 2 1 = 0 /\
   ( val c 0 1 = 1 /\ len c = 7 /\ 16 <= val c 3 4 <= 18
   \/ val c 0 1 = 2 /\
      (let p := colr_profile c in
       val p 0 4 = len p /\
       (sub p 12 4 = [x73; x63; x6e; x72] \/ sub p 12 4 = [x6d; x6e; x74; x72]) /\
       (forall i, 0 <= i < icc_ntags p -> icc_tag p i <> [x41; x32; x42; x30]))
   \/ fmt = "jph" /\
      (val c 0 1 = 3 \/
       val c 0 1 = 5 /\
       In (val c 3 2) [1; 2; 4; 5; 6; 7; 8; 9; 10; 11; 12; 22] /\
       In (val c 5 2) [1; 2; 4; 5; 6; 7; 8; 9; 10; 11; 12; 13; 14; 15; 16; 17; 18] /\
       In (val c 7 2) [0; 1; 2; 4; 5; 6; 7; 8; 9; 10; 11; 12; 13; 14]))).
Proof.
  intros HF. unfold colr_tests. cbv zeta.
  assert (HC : holds (colr_common fmt c) <->
    (In (val c 0 1) [1; 2] \/ fmt = "jph" /\ In (val c 0 1) [3; 5]) /\ val c 1 1 = 0 /\ val c 2 1 = 0).
  { unfold colr_common, fmt_is. destruct HF as [-> | ->]; cbn [String.eqb Ascii.eqb Bool.eqb]; holds.
    - intuition; discriminate.
    - cbn [In]. intuition. }
  assert (NF : fmt = "jph" \/ fmt <> "jph") by (destruct HF as [-> | ->]; [right; discriminate | now left]).
  assert (HE : In (colr_enum c) [16; 17; 18] <-> len c = 7 /\ 16 <= val c 3 4 <= 18).
  { unfold colr_enum. destruct (len c =? 7) eqn:E7; cbn [In]; lia. }
  cbn [In] in HC.
  destruct (val c 0 1 =? 1) eqn:M1; [|destruct (val c 0 1 =? 2) eqn:M2;
      [|destruct (val c 0 1 =? 5) eqn:M5]].
  - unfold colr_enum_tests. holds. rewrite HC, HE.
    assert (val c 0 1 = 1) as V by lia. rewrite V in *. split; [tauto|].
    intros (H1 & H2 & [H3 | [H3 | H3]]); try tauto; try lia.
  - unfold colr_icc_tests. cbv zeta. holds. rewrite HC.
    assert (val c 0 1 = 2) as V by lia. rewrite V in *. split; [tauto|].
    intros (H1 & H2 & [H3 | [H3 | H3]]); try tauto; try lia.
  - unfold colr_param_tests, fmt_is. holds. rewrite HC.
    assert (val c 0 1 = 5) as V by lia. rewrite V in *.
    destruct HF as [-> | ->]; cbn [String.eqb Ascii.eqb Bool.eqb]; holds.
    + split; [intros (([H|[H _]] & _) & _); [lia|discriminate]|].
      intros (H1 & H2 & [H3 | [H3 | [H3 _]]]); try lia. discriminate.
    + split; [intros (H & H1 & H2 & H3 & _); intuition|].
      intros (H1 & H2 & [H3 | [H3 | [_ H3]]]); try lia. intuition lia.
  - rewrite HC. split.
    + intros (H & H1 & H2). split; [exact H1|]. split; [exact H2|]. right. right.
      destruct H as [H | [H H']]; [lia|]. split; [exact H|]. lia.
    + intros (H1 & H2 & [H3 | [H3 | [H3 H4]]]); try lia.
      split; [|auto]. right. split; [exact H3|]. lia.
Qed.
