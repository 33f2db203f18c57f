(** * Leaf boxes: what they report *)

From Coq Require Import ZArith List Bool String Lia.
From Coq Require Import ZifyBool.
From Coq Require Import Init.Byte.
From Verif Require Import Py PyFloat ByteConv ETree BV VBoxes VSuper Spec SpecBox
     PBase PText PFloat PEmit.
Import ListNotations.
Open Scope string_scope.
Open Scope list_scope.
Open Scope Z_scope.

(** ** Reports *)
Definition tbl_ok : list (string * Prop) -> list (string * bool) -> Prop :=
  Forall2 (fun x y => fst x = fst y /\ (snd y = true <-> snd x)).

Lemma reports_vis v L T : tbl_ok L T -> reports v L (vis v T).
Proof.
  induction 1 as [|[n P] [n' b] L T [Hn Hb] H IH]; [constructor|].
  cbn in Hn, Hb. subst n'. cbn [vis flat_map]. fold (vis v T).
  destruct b.
  - assert (P) as HP by now apply Hb.
    assert ((if v || negb true then [leaf n (VBool true)] else []) ++ vis v T =
            if v then leaf n (VBool true) :: vis v T else vis v T) as ->
      by (destruct v; reflexivity).
    now apply rep_pass.
  - rewrite orb_true_r. apply rep_fail; [|exact IH]. intros HP. apply Hb in HP. discriminate.
Qed.

Lemma anyFalse_spec t : anyFalse t = false <-> all_pass t.
Proof.
  split.
  - intros H e W. revert H. induction W as [|tag a v k x Hin W IH].
    + destruct e as [t0 a v k]. cbn. intros H HV. subst v. discriminate.
    + intros H. apply IH.
      assert (G : existsb anyFalse k = false).
      { change (anyFalse (Elt tag a v k)) with
          (match v with VBool false => true | _ => false end || anyFalse (node tag k)) in H.
        apply orb_false_iff in H as [_ H]. now rewrite anyFalse_node in H. }
      apply not_true_iff_false. intros HT. apply not_true_iff_false in G. apply G.
      apply existsb_exists. now exists x.
  - revert t. fix IH 1. intros [tag a v k] H.
    assert (HV : match v with VBool false => true | _ => false end = false).
    { specialize (H (Elt tag a v k) (within_self _)). cbn in H.
      destruct v as [|[]| | | |]; try reflexivity. now elim H. }
    change (anyFalse (Elt tag a v k)) with
      (match v with VBool false => true | _ => false end || anyFalse (node tag k)).
    rewrite HV. cbn [orb]. rewrite anyFalse_node.
    assert (HK : forall x, In x k -> all_pass x).
    { intros x Hx e W. apply H. now apply within_kid with x. }
    clear H HV. induction k as [|x k IHk]; [reflexivity|]. cbn [existsb].
    rewrite (IH x); [|apply HK; now left]. apply IHk. intros y Hy. apply HK. now right.
Qed.

Lemma all_pass_node tag k : all_pass (node tag k) <-> Forall all_pass k.
Proof.
  rewrite <- anyFalse_spec, anyFalse_node. rewrite Forall_forall. split.
  - intros H x Hx. apply anyFalse_spec. apply not_true_iff_false. intros G.
    apply not_true_iff_false in H. apply H, existsb_exists. now exists x.
  - intros H. apply not_true_iff_false. intros G. apply existsb_exists in G as (x & Hx & G).
    apply H, anyFalse_spec in Hx. congruence.
Qed.

Lemma reports_forall v L k : reports v L k -> (Forall all_pass k <-> holds L).
Proof.
  unfold holds. induction 1 as [|n P L k HP H IH|n P L k HP H IH].
  - split; constructor.
  - split; intros G.
    + constructor; [exact HP|]. apply IH. destruct v; [now inversion G | exact G].
    + inversion G. apply IH in H3. destruct v; [|exact H3]. constructor; [|exact H3].
      apply anyFalse_spec. reflexivity.
  - split; intros G.
    + inversion G. apply anyFalse_spec in H2. discriminate.
    + inversion G. contradiction.
Qed.

Lemma says_all_pass v tag L p w r :
  says v tag L p w r -> (all_pass (r_tests r) <-> holds L).
Proof.
  intros ((k & -> & H) & _). rewrite all_pass_node. now apply (reports_forall v).
Qed.

Lemma says_intro E op fuel d t c start csiz L T C W p w :
  isTop t = false ->
  emits op (runMethod E (validate E op fuel d) fuel
              {| s_opts := op; s_btype := t; s_contents := c; s_start := start; s_csiz := csiz |})
        tt T C W ->
  tbl_ok L T -> C = p -> W = w ->
  exists r, validate E op fuel (S d) t c start csiz = Ok r /\
            says (o_verbose op) (boxTypeOf t) L p w r /\
            r_ret r = VNone /\ r_valid r = VNone /\ r_tpl r = VNone.
Proof.
  intros HT HE HL -> ->. eexists. split; [apply (validate_emits _ _ _ _ _ _ _ _ _ _ _ HE)|].
  unfold testRoot, charRoot, warnRoot. rewrite HT. split; [|auto].
  split; [|split; reflexivity]. eexists. split; [reflexivity|]. now apply reports_vis.
Qed.

(** ** Arithmetic of bit fields *)
Lemma land_mod x k : 0 <= k -> Z.land x (2 ^ k - 1) = x mod 2 ^ k.
Proof. intros H. rewrite <- Z.land_ones by exact H. f_equal. rewrite Z.ones_equiv. lia. Qed.
Lemma land1_mod x : Z.land x 1 = x mod 2. Proof. apply (land_mod x 1). lia. Qed.
Lemma land127 x : Z.land x 127 = x mod 128. Proof. apply (land_mod x 7). lia. Qed.
Lemma land15 x : Z.land x 15 = x mod 16. Proof. apply (land_mod x 4). lia. Qed.
Lemma land31 x : Z.land x 31 = x mod 32. Proof. apply (land_mod x 5). lia. Qed.
Lemma land7 x : Z.land x 7 = x mod 8. Proof. apply (land_mod x 3). lia. Qed.
Lemma land2047 x : Z.land x 2047 = x mod 2048. Proof. apply (land_mod x 11). lia. Qed.
Lemma bitv x p : p <= 8 -> getBitValue x p = bitk x (8 - p).
Proof.
  intros H. unfold getBitValue, getBitValueW, bitk.
  rewrite land1_mod, Z.shiftr_div_pow2 by lia. reflexivity.
Qed.
Lemma bitvW x p w : p <= w -> getBitValueW x p w = bitk x (w - p).
Proof.
  intros H. unfold getBitValueW, bitk.
  rewrite land1_mod, Z.shiftr_div_pow2 by lia. reflexivity.
Qed.

(** ** Automation *)
Lemma tbl_cons n n' (P : Prop) b L T :
  n = n' -> (b = true <-> P) -> tbl_ok L T -> tbl_ok ((n, P) :: L) ((n', b) :: T).
Proof. intros -> H HT. constructor; [split; [reflexivity | exact H] | exact HT]. Qed.
Lemma tbl_nil : tbl_ok [] []. Proof. constructor. Qed.

Ltac tbl :=
  lazymatch goal with
  | |- tbl_ok [] [] => exact tbl_nil
  | |- tbl_ok ([] ++ _) _ => cbn [app]; tbl
  | |- tbl_ok _ ([] ++ _) => cbn [app]; tbl
  | |- tbl_ok (_ :: _) (_ :: _) => apply tbl_cons; [reflexivity | | tbl]
  | |- tbl_ok ((_ :: _) ++ _) _ => cbn [app]; tbl
  | |- tbl_ok _ ((_ :: _) ++ _) => cbn [app]; tbl
  | |- _ => idtac
  end.

Lemma tbl_app L1 L2 T1 T2 : tbl_ok L1 T1 -> tbl_ok L2 T2 -> tbl_ok (L1 ++ L2) (T1 ++ T2).
Proof. apply Forall2_app. Qed.
Lemma tbl_flat {A} (f : A -> list (string * Prop)) g l :
  (forall x, In x l -> tbl_ok (f x) (g x)) -> tbl_ok (flat_map f l) (flat_map g l).
Proof.
  induction l as [|x l IH]; intros H; [constructor|]. cbn [flat_map].
  apply tbl_app; [apply H; now left | apply IH; intros y Hy; apply H; now right].
Qed.
Lemma tbl_map_flat {A} (f : A -> string * Prop) (g : A -> list (string * bool)) l :
  (forall x, In x l -> tbl_ok [f x] (g x)) -> tbl_ok (map f l) (flat_map g l).
Proof.
  induction l as [|x l IH]; intros H; [constructor|]. cbn [flat_map map].
  apply (tbl_app [f x]); [apply H; now left | apply IH; intros y Hy; apply H; now right].
Qed.

Ltac run1 := repeat (cbv beta; estep; cbv beta).
(** Expose the validator behind [runMethod]. *)
Ltac expose v :=
  lazymatch goal with
  | |- emits ?op (runMethod ?E ?rec ?fuel ?f) _ _ _ _ =>
      change (runMethod E rec fuel f) with v; unfold v; cbv zeta;
      cbn [s_opts s_contents s_btype s_start s_csiz]
  end.

Lemma sig_says E op fuel d c start csiz :
  exists r, validate E op fuel (S d) (BTb tagJP) c start csiz = Ok r /\
            says (o_verbose op) "signatureBox" (sig_tests c) [] [] r /\
            r_ret r = VNone /\ r_valid r = VNone /\ r_tpl r = VNone.
Proof.
  eapply (says_intro E op fuel d (BTb tagJP)); [reflexivity| | | |].
  - match goal with |- emits ?op (runMethod ?E ?rec ?fuel ?f) _ _ _ _ =>
      change (runMethod E rec fuel f) with (validate_signatureBox f) end.
    unfold validate_signatureBox. cbv zeta. cbn [s_opts s_contents]. run1.
  - unfold sig_tests. tbl; [lia|]. rewrite bytes_eqb_spec, slice_sub by lia. reflexivity.
  - reflexivity.
  - reflexivity.
Qed.

Ltac fields := rewrite ?u8_val, ?u16_val, ?u32_val, ?u64_val by lia;
               rewrite ?land127, ?land15, ?land31, ?land7, ?land2047;
               rewrite ?bitv by lia.
Ltac cond := fields; unfold in_rng; first [lia | apply Zin_spec | idtac].
Ltac nowarn :=
  cbn [app when]; rewrite ?flat_map_nil; cbn [app];
  repeat match goal with |- context [if ?b then _ else _] => destruct b end;
  cbn [app]; reflexivity.
Ltac start_says :=
  match goal with
  | |- exists r, validate ?E ?op ?fuel (S ?d) ?t ?c ?start ?csiz = Ok r /\ _ =>
      eapply (says_intro E op fuel d t c start csiz); [reflexivity| | | |]
  end.
Ltac open_method v :=
  match goal with |- emits ?op (runMethod ?E ?rec ?fuel ?f) _ _ _ _ =>
    let w := v E rec fuel f in change (runMethod E rec fuel f) with w end;
  cbv zeta; cbn [s_opts s_contents s_btype s_start s_csiz].

(** Common conclusion for validators that set no attribute. *)
Definition reported E op fuel d t c start csiz L p w : Prop :=
  exists r, validate E op fuel (S d) t c start csiz = Ok r /\
            says (o_verbose op) (boxTypeOf t) L p w r /\
            r_ret r = VNone /\ r_valid r = VNone /\ r_tpl r = VNone.

Lemma ihdr_says E op fuel d c start csiz :
  reported E op fuel d (BTb tagIHDR) c start csiz (ihdr_tests c) (leaves (ihdr_props c)) [].
Proof.
  unfold reported. start_says.
  - open_method ltac:(fun E rec fuel f => constr:(validate_imageHeaderBox f)).
    unfold validate_imageHeaderBox. cbv zeta. cbn [s_opts s_contents]. run1.
  - unfold ihdr_tests.
    pose proof (val_1_range c 10 ltac:(lia)) as R.
    pose proof (Z.mod_pos_bound (val c 10 1) 128 ltac:(lia)) as R2.
    tbl; cond.
  - cbn [app leaves ihdr_props map]. fields. reflexivity.
  - reflexivity.
Qed.

Lemma bz_val c i : 0 <= i < len c -> exists b, nth_error c (Z.to_nat i) = Some b /\ val c i 1 = bz b.
Proof.
  intros H. destruct (nth_error c (Z.to_nat i)) as [b|] eqn:E.
  - exists b. split; [reflexivity|]. unfold val. replace (i + 1 <=? len c) with true by lia.
    rewrite (nth_error_split c (Z.to_nat i) E) || idtac.
    apply nth_error_split in E as (l1 & l2 & -> & Hl).
    rewrite skipn_app, <- Hl, skipn_all, Nat.sub_diag. cbn. apply beval_1.
  - apply nth_error_None in E. unfold len in H. lia.
Qed.

(** Byte-wise view of a content. *)
Lemma zseq_bytes {B} (g : Z -> B) (h : byte -> B) c :
  (forall i, 0 <= i < len c -> forall b, nth_error c (Z.to_nat i) = Some b -> g i = h b) ->
  map g (zseq (len c)) = map h c.
Proof.
  intros H. unfold zseq. rewrite map_map. unfold len in *. rewrite Nat2Z.id.
  assert (G : forall k, map (fun x => g (Z.of_nat x)) (seq k (List.length c - k)) = map h (skipn k c)).
  { intros k. remember (List.length c - k)%nat as n eqn:En. revert k En.
    induction n as [|n IH]; intros k En.
    - rewrite skipn_all2 by lia. reflexivity.
    - cbn [seq map]. rewrite (IH (S k)) by lia.
      destruct (nth_error c k) as [b|] eqn:E.
      + rewrite (H (Z.of_nat k)) with (b := b); [|lia|now rewrite Nat2Z.id].
        apply nth_error_split in E as (l1 & l2 & -> & <-).
        rewrite !skipn_app, skipn_all, Nat.sub_diag.
        rewrite (skipn_all2 l1) by lia.
        replace (S (List.length l1) - List.length l1)%nat with 1%nat by lia. reflexivity.
      + apply nth_error_None in E. lia. }
  specialize (G 0%nat). now rewrite Nat.sub_0_r in G.
Qed.

Lemma flat_map_map {A B C} (f : B -> list C) (g : A -> B) l :
  flat_map f (map g l) = flat_map (fun x => f (g x)) l.
Proof. induction l; cbn; [reflexivity | now rewrite IHl]. Qed.

Lemma flat_map_zseq_bytes {B} (g : Z -> list B) (h : byte -> list B) c :
  (forall i, 0 <= i < len c -> forall b, nth_error c (Z.to_nat i) = Some b -> g i = h b) ->
  flat_map g (zseq (len c)) = flat_map h c.
Proof.
  intros H. rewrite !flat_map_concat_map. f_equal. now apply zseq_bytes.
Qed.

Lemma bpcc_says E op fuel d c start csiz :
  reported E op fuel d (BTb tagBPCC) c start csiz (bpcc_tests c) (leaves (bpcc_props c)) [].
Proof.
  unfold reported. start_says.
  - open_method ltac:(fun E rec fuel f => constr:(validate_bitsPerComponentBox f)).
    unfold validate_bitsPerComponentBox. cbv zeta. cbn [s_opts s_contents].
    apply (emits_for op (len c) (fun _ => tt)); [reflexivity|].
    intros i Hi. run1.
  - unfold bpcc_tests. rewrite flat_map_zseq_bytes with
      (h := fun b => [("bPCIsValid", in_rng (Z.land (bz b) 127 + 1) 1 38)]).
    + apply tbl_map_flat. intros b _. tbl. unfold cdepth.
      pose proof (Z.mod_pos_bound (bz b) 128 ltac:(lia)). cond.
    + intros i Hi b Hb. cbn [app]. fields. do 4 f_equal.
      destruct (bz_val c i Hi) as (b' & Hb' & ->). congruence.
  - rewrite flat_map_zseq_bytes with
      (h := fun b => [leaf "bPCSign" (VInt (csign (bz b))); leaf "bPCDepth" (VInt (cdepth (bz b)))]).
    + unfold leaves, bpcc_props. rewrite flat_map_concat_map, (flat_map_concat_map _ c), concat_map, map_map.
      reflexivity.
    + intros i Hi b Hb. cbn [app]. fields.
      destruct (bz_val c i Hi) as (b' & Hb' & ->). assert (b' = b) as -> by congruence. reflexivity.
  - apply flat_map_nil.
Qed.

(** ** File Type box *)
Lemma isfmt_brand fmt :
  ftyp_brand fmt = if String.eqb fmt "jp2" then Some [x6a; x70; x32; x20]
                   else if String.eqb fmt "jph" then Some [x6a; x70; x68; x20] else None.
Proof. reflexivity. Qed.

Lemma leaves_app a b : leaves (a ++ b) = leaves a ++ leaves b.
Proof. apply map_app. Qed.
Lemma leaves_flat {A} (f : A -> list (string * value)) l :
  leaves (flat_map f l) = flat_map (fun x => leaves (f x)) l.
Proof.
  induction l as [|x l IH]; [reflexivity|]. cbn [flat_map]. now rewrite leaves_app, IH.
Qed.
Lemma leaves_map {A} (f : A -> string * value) l :
  leaves (map f l) = flat_map (fun x => leaves [f x]) l.
Proof. unfold leaves. rewrite map_map. induction l as [|x l IH]; [reflexivity|].
  cbn [map flat_map app]. now f_equal.
Qed.

Lemma flat_map_ext_in {A B} (f g : A -> list B) l :
  (forall x, In x l -> f x = g x) -> flat_map f l = flat_map g l.
Proof.
  induction l as [|x l IH]; intros H; [reflexivity|]. cbn.
  rewrite (H x) by now left. rewrite IH; [reflexivity|]. intros y Hy. apply H. now right.
Qed.

Lemma zquot4 z : 0 <= z -> Z.quot z 4 = z / 4.
Proof. intros. apply Z.quot_div_nonneg; lia. Qed.

Lemma zseq_quot a b : 0 < b -> zseq (Z.quot a b) = zseq (a / b).
Proof.
  intros Hb. destruct (Z.le_gt_cases 0 a) as [H|H].
  - now rewrite Z.quot_div_nonneg by lia.
  - rewrite !zseq_0; [reflexivity| |].
    + apply Z.lt_le_incl, Z.div_lt_upper_bound; lia.
    + replace a with (- (- a)) by lia. rewrite Z.quot_opp_l by lia.
      pose proof (Z.quot_pos (- a) b ltac:(lia) Hb). lia.
Qed.

Lemma map_zseq_max {A} (f : Z -> A) n : map f (zseq (Z.max 0 n)) = map f (zseq n).
Proof. unfold zseq. now replace (Z.to_nat (Z.max 0 n)) with (Z.to_nat n) by lia. Qed.

Lemma ftyp_says E op fuel d c start csiz :
  len c < 2 ^ 53 ->
  reported E op fuel d (BTb tagFTYP) c start csiz (ftyp_tests (o_format op) c)
           (leaves (ftyp_props c)) [].
Proof.
  intros HL. pose proof (len_nonneg c) as HN.
  assert (HQ : trunc_float (int_div (len c - 8) 4) = Z.quot (len c - 8) 4)
    by (apply trunc_int_div; lia).
  unfold reported. start_says.
  - open_method ltac:(fun E rec fuel f => constr:(validate_fileTypeBox f)).
    unfold validate_fileTypeBox. cbv zeta. cbn [s_opts s_contents].
    do 5 (eapply emits_bind; [run1|]).
    eapply emits_bind.
    + eapply (emits_for op _ (fun i => (map (fun j => slice c (8 + 4 * j) (8 + 4 * j + 4)) (zseq i), 8 + 4 * i))).
      * reflexivity.
      * intros i Hi. run1. f_equal.
        -- rewrite zseq_succ, map_app by lia. reflexivity.
        -- lia.
    + run1.
  - cbn [fst]. unfold ftyp_tests. rewrite !isfmt_brand, HQ.
    cbn [app].
    assert (H1 : float_eq_Z (int_div (len c - 8) 4) (Z.quot (len c - 8) 4) = true <-> len c mod 4 = 0).
    { rewrite float_eq_int_div by lia. split; intros H.
      - replace (len c) with ((Z.quot (len c - 8) 4 + 2) * 4) by lia. apply Z.mod_mul. lia.
      - pose proof (Z.div_mod (len c) 4 ltac:(lia)). rewrite H in *.
        replace (len c - 8) with ((len c / 4 - 2) * 4) by lia.
        rewrite Z.quot_mul by lia. reflexivity. }
    assert (H2 : forall b, bin b (map (fun j => slice c (8 + 4 * j) (8 + 4 * j + 4))
                       (zseq (Z.max 0 (Z.quot (len c - 8) 4)))) = true <->
                    exists i, 0 <= i < ftyp_n c /\ ftyp_cl c i = b).
    { intros b. rewrite map_zseq_max, zseq_quot, bin_spec, in_map_iff by lia.
      unfold ftyp_n, ftyp_cl.
      split; intros (i & Hi).
      - destruct Hi as [<- Hi]. apply in_zseq in Hi. exists i. split; [lia|].
        rewrite slice_sub by lia. f_equal; lia.
      - destruct Hi as [Hi <-]. exists i. rewrite in_zseq. split; [|lia].
        rewrite slice_sub by lia. f_equal; lia. }
    destruct (String.eqb (o_format op) "jp2"); [|destruct (String.eqb (o_format op) "jph")];
      cbn [app when]; rewrite ?flat_map_nil; cbn [app]; tbl; try exact H1; try apply H2; try cond;
      rewrite bytes_eqb_spec, slice_sub by lia; reflexivity.
  -
    unfold ftyp_props, ftyp_n, ftyp_cl. rewrite leaves_app, leaves_map, HQ, zseq_quot by lia.
    destruct (String.eqb (o_format op) "jp2"); [|destruct (String.eqb (o_format op) "jph")];
      cbn [app leaves map]; fields; rewrite slice_sub by lia; do 2 f_equal;
      rewrite ?app_nil_r; apply flat_map_ext_in; intros i Hi; apply in_zseq in Hi;
      rewrite slice_sub by lia; do 4 f_equal; lia.
  - nowarn.
Qed.

(** ** Palette box *)
Lemma bytesPadded_exact b : 1 <= b <= 128 -> bytesPadded b = (b + 7) / 8.
Proof.
  intros H. unfold bytesPadded. rewrite ceil_int_div by lia.
  assert (HC : - (- b / 8) = (b + 7) / 8) by (Z.to_euclidean_division_equations; lia).
  rewrite HC, int_quot_exact by (Z.to_euclidean_division_equations; lia).
  now rewrite Z.quot_mul by lia.
Qed.

Lemma bytesToInteger_sub c off n :
  0 <= off -> 0 <= n ->
  bytesToInteger (slice c off (off + n)) = match sub c off n with [] => -9999 | b => beval b end.
Proof.
  intros. rewrite slice_sub by lia. replace (off + n - off) with n by lia.
  destruct (sub c off n) eqn:E; [reflexivity|]. now apply bytesToInteger_val.
Qed.

Lemma cdepth_range b : 1 <= cdepth b <= 128.
Proof. unfold cdepth. pose proof (Z.mod_pos_bound b 128 ltac:(lia)). lia. Qed.

Lemma pclr_says E op fuel d c start csiz :
  reported E op fuel d (BTb tagPCLR) c start csiz (pclr_tests c) (leaves (pclr_props c)) [].
Proof.
  unfold reported. start_says.
  - open_method ltac:(fun E rec fuel f => constr:(validate_paletteBox f)).
    unfold validate_paletteBox. cbv zeta. cbn [s_opts s_contents].
    do 4 (eapply emits_bind; [run1|]).
    apply (emits_for op _ (fun _ => tt)); [reflexivity|]. intros i Hi.
    do 3 (eapply emits_bind; [run1|]).
    eapply emits_bind; [|run1].
    set (bp := bytesPadded _). set (off0 := _ + 3 + _).
    eapply (emits_for op _ (fun j => off0 + j * bp)); [lia|].
    intros j Hj. run1. lia.
  - unfold pclr_tests, pclr_ncols. rewrite ?u8_val, ?u16_val by lia. tbl; [cond|cond|].
    apply tbl_map_flat. intros i Hi. apply in_zseq in Hi. fields.
    fold (cdepth (val c (3 + i) 1)). pose proof (cdepth_range (val c (3 + i) 1)).
    cbn [app]. rewrite flat_map_nil. tbl. cond.
  - unfold pclr_props, pclr_ncols. rewrite leaves_app, leaves_flat. rewrite ?u8_val, ?u16_val by lia.
    cbn [app leaves map]. do 2 f_equal.
    apply flat_map_ext_in. intros i Hi. apply in_zseq in Hi. fields.
    fold (cdepth (val c (3 + i) 1)). pose proof (cdepth_range (val c (3 + i) 1)) as R.
    rewrite bytesPadded_exact by exact R.
    change (8 - 1) with 7. fold (csign (val c (3 + i) 1)). rewrite leaves_map.
    cbn [app leaves map]. do 2 f_equal. rewrite app_nil_r.
    apply flat_map_ext_in. intros j Hj. apply in_zseq in Hj.
    unfold pclr_entry, pclr_ncols, pclr_width. cbv zeta.
    set (w := (cdepth _ + 7) / 8).
    assert (0 <= w) by (apply Z.div_pos; lia).
    assert (0 <= i * (val c 0 2 * w)) by (apply Z.mul_nonneg_nonneg; [|apply Z.mul_nonneg_nonneg]; lia).
    assert (0 <= j * w) by (apply Z.mul_nonneg_nonneg; lia).
    rewrite bytesToInteger_sub by lia. now destruct (sub c _ w).
  - cbn [app]. erewrite flat_map_ext_in; [apply flat_map_nil|]. intros i _. cbn [app].
    now rewrite flat_map_nil.
Qed.

(** ** Component Mapping box *)
Lemma cmap_says E op fuel d c start csiz :
  len c < 2 ^ 53 ->
  reported E op fuel d (BTb tagCMAP) c start csiz (cmap_tests c) (leaves (cmap_props c)) [].
Proof.
  intros HL. pose proof (len_nonneg c) as HN.
  assert (HQ : int_quot (len c) 4 = len c / 4)
    by (rewrite int_quot_exact by lia; apply Z.quot_div_nonneg; lia).
  unfold reported. start_says.
  - open_method ltac:(fun E rec fuel f => constr:(validate_componentMappingBox f)).
    unfold validate_componentMappingBox. cbv zeta. cbn [s_opts s_contents]. rewrite HQ.
    eapply emits_bind; [|run1].
    eapply (emits_for op _ (fun i => 4 * i)); [reflexivity|]. intros i Hi. run1. lia.
  - unfold cmap_tests. rewrite app_nil_r. apply tbl_flat. intros i Hi. apply in_zseq in Hi.
    cbn [app]. fields. tbl; cond. destruct (val c (4 * i + 2) 1 =? 0) eqn:E1; lia.
  - unfold cmap_props. rewrite leaves_flat, app_nil_r. apply flat_map_ext_in.
    intros i Hi. apply in_zseq in Hi. cbn [app leaves map]. fields. reflexivity.
  - nowarn.
Qed.

(** ** Channel Definition box *)
Lemma emits_alpha f o l :
  s_opts f = o ->
  emits o (alphaTests f l) tt (map (fun a => ("cAssocAlphaChannelIsZero", a =? 0)) l) [] [].
Proof.
  intros <-. induction l as [|a l IH]; cbn [alphaTests map].
  - apply emits_ret.
  - apply (emits_bind _ _ _ tt tt [("cAssocAlphaChannelIsZero", a =? 0)] [] []
             (map (fun a => ("cAssocAlphaChannelIsZero", a =? 0)) l) [] []); [apply emits_test | exact IH].
Qed.

Lemma tbl_map {A} (f : A -> string * Prop) (g : A -> string * bool) l :
  (forall x, In x l -> tbl_ok [f x] [g x]) -> tbl_ok (map f l) (map g l).
Proof.
  induction l as [|x l IH]; intros H; [constructor|]. cbn [map].
  apply (tbl_app [f x] _ [g x]); [apply H; now left | apply IH; intros y Hy; apply H; now right].
Qed.

Lemma tbl_if (b : bool) L1 L2 T1 T2 :
  tbl_ok L1 T1 -> tbl_ok L2 T2 -> tbl_ok (if b then L1 else L2) (if b then T1 else T2).
Proof. now destruct b. Qed.

Lemma flat_map_zseq_succ {A} (f : Z -> list A) n :
  0 <= n -> flat_map f (zseq (n + 1)) = flat_map f (zseq n) ++ f n.
Proof. intros H. rewrite zseq_succ, flat_map_app by exact H. cbn. now rewrite app_nil_r. Qed.

Lemma cdef_says E op fuel d c start csiz :
  reported E op fuel d (BTb tagCDEF) c start csiz (cdef_tests (o_format op) c)
           (leaves (cdef_props c)) [].
Proof.
  unfold reported. start_says.
  - open_method ltac:(fun E rec fuel f => constr:(validate_channelDefinitionBox f)).
    unfold validate_channelDefinitionBox. cbv zeta. cbn [s_opts s_contents].
    rewrite (u16_val c 0 2) by lia.
    do 3 (eapply emits_bind; [run1|]).
    eapply emits_bind.
    + eapply (emits_for op _ (fun i =>
        (flat_map (fun i => if (val c (4 + 6 * i) 2 =? 1) || (val c (4 + 6 * i) 2 =? 2)
                            then [val c (6 + 6 * i) 2] else []) (zseq i), 2 + 6 * i)));
        [reflexivity|].
      intros i Hi. fields. run1. f_equal; [|lia].
      rewrite flat_map_zseq_succ by lia.
      replace (4 + 6 * i) with (2 + 6 * i + 2) by lia.
      replace (6 + 6 * i) with (2 + 6 * i + 4) by lia.
      cbn [Zin existsb]. rewrite orb_false_r.
      destruct (_ || _); [reflexivity | now rewrite app_nil_r].
    + cbn [fst].
      eapply emits_when. eapply emits_bind; [run1|]. apply emits_alpha. reflexivity.
  - unfold cdef_tests. cbn [app]. tbl; [cond|cond|]. apply tbl_app.
    + apply tbl_flat. intros i Hi. apply in_zseq in Hi.
      replace (4 + 6 * i) with (2 + 6 * i + 2) by lia.
      cbn [app]. tbl; [cond|]. unfold fmt_is.
      destruct (String.eqb (o_format op) "jp2"); [|destruct (String.eqb (o_format op) "jph")];
        cbn [app]; tbl; cond.
    + unfold fmt_is, cdef_alpha. destruct (String.eqb (o_format op) "jph"); [|exact tbl_nil].
      assert (HZ : zseq (Z.max 0 (val c 0 2)) = zseq (val c 0 2))
        by (unfold zseq; f_equal; f_equal; lia).
      rewrite HZ. cbn [app]. tbl; [lia|].
      apply tbl_map. intros a _. tbl. lia.
  - unfold cdef_props. cbn [app]. cbn [leaves map]. f_equal.
    change (map (fun '(n, v) => leaf n v)) with leaves. rewrite leaves_flat.
    rewrite <- (app_nil_r (flat_map (fun x => leaves _) _)). f_equal.
    + apply flat_map_ext_in. intros i Hi. apply in_zseq in Hi. unfold fmt_is.
      destruct (String.eqb (o_format op) "jp2"); [|destruct (String.eqb (o_format op) "jph")];
        cbn [app leaves map]; repeat (f_equal; try lia).
    + now destruct (String.eqb (o_format op) "jph").
  - cbn [app]. erewrite flat_map_ext_in; [|intros i _].
    + rewrite flat_map_nil. now destruct (String.eqb (o_format op) "jph").
    + destruct (String.eqb (o_format op) "jp2"); [|destruct (String.eqb (o_format op) "jph")]; reflexivity.
Qed.

(** ** Resolution boxes *)
Lemma s8_val c a b : b - a = 1 -> 0 <= a -> bytesToSignedChar (slice c a b) = sval c a.
Proof.
  intros H Ha. rewrite slice_sub by lia. rewrite H. unfold sval, val.
  pose proof (len_sub c a 1 Ha ltac:(lia)) as HL. fold (sub c a 1).
  destruct (a + 1 <=? len c) eqn:E.
  - destruct (sub c a 1) as [|x [|y l]]; unfold len in *; cbn [List.length] in HL; try lia.
    cbn [bytesToSignedChar]. rewrite beval_1.
    destruct (bz x <? 128) eqn:E1, (128 <=? bz x) eqn:E2; lia.
  - destruct (sub c a 1) as [|x l]; [reflexivity|].
    unfold len in *; cbn [List.length] in HL; lia.
Qed.

Lemma resValue_ok E n d x : d <> 0 -> resolutionValue E n d x = Ok (res_metre (pow10neg E) n d x).
Proof. intros H. unfold resolutionValue. now replace (d =? 0) with false by lia. Qed.

Lemma emits_resolution E op c f x :
  s_opts f = op -> s_contents f = c -> val c 2 2 <> 0 -> val c 6 2 <> 0 ->
  exists T C W, emits op (resolutionFields E f x) tt T C W /\
    tbl_ok (res_tests x c) T /\ C = leaves (res_props (pow10neg E) x c) /\ W = [].
Proof.
  intros <- <- H1 H2. set (c := s_contents f) in *. do 3 eexists. split; [|split; [|split]].
  - unfold resolutionFields. cbv zeta. fold c. fields. rewrite !s8_val by lia.
    rewrite !resValue_ok by assumption. run1.
  - unfold res_tests. cbn [app]. tbl; cond.
  - reflexivity.
  - reflexivity.
Qed.

Lemma resc_says E op fuel d c start csiz :
  val c 2 2 <> 0 -> val c 6 2 <> 0 ->
  reported E op fuel d (BTb tagRESC) c start csiz (res_tests "c" c)
           (leaves (res_props (pow10neg E) "c" c)) [].
Proof.
  intros H1 H2.
  destruct (emits_resolution E op c {| s_opts := op; s_btype := BTb tagRESC; s_contents := c;
     s_start := start; s_csiz := csiz |} "c" eq_refl eq_refl H1 H2) as (T & C & W & HE & HT & HC & HW).
  unfold reported. eapply says_intro; eauto.
Qed.
Lemma resd_says E op fuel d c start csiz :
  val c 2 2 <> 0 -> val c 6 2 <> 0 ->
  reported E op fuel d (BTb tagRESD) c start csiz (res_tests "d" c)
           (leaves (res_props (pow10neg E) "d" c)) [].
Proof.
  intros H1 H2.
  destruct (emits_resolution E op c {| s_opts := op; s_btype := BTb tagRESD; s_contents := c;
     s_start := start; s_csiz := csiz |} "d" eq_refl eq_refl H1 H2) as (T & C & W & HE & HT & HC & HW).
  unfold reported. eapply says_intro; eauto.
Qed.

(** A computation that emits something and then raises. *)
Lemma emits_raise {A B} o (m : M A) (k : A -> M B) a T C W e s :
  emits o m a T C W -> (forall s, k a s = Raise e) -> bind m k s = Raise e.
Proof. intros H HK. unfold bind. now rewrite H, HK. Qed.

Lemma resolution_raises E f x s :
  val (s_contents f) 2 2 = 0 \/ val (s_contents f) 6 2 = 0 ->
  resolutionFields E f x s = Raise ZeroDivisionError.
Proof.
  intros H. set (c := s_contents f) in *.
  unfold resolutionFields. cbv zeta. fold c. fields. rewrite !s8_val by lia.
  do 13 (eapply (emits_raise (s_opts f)); [run1|]; clear s; intros s; cbv beta).
  unfold resolutionValue at 1. destruct (val c 2 2 =? 0) eqn:E1; [reflexivity|].
  eapply (emits_raise (s_opts f)); [apply emits_lift|]. clear s; intros s. cbv beta.
  eapply (emits_raise (s_opts f)); [run1|]. clear s; intros s. cbv beta.
  unfold resolutionValue. replace (val c 6 2 =? 0) with true by lia. reflexivity.
Qed.

Lemma res_raises E op fuel d c start csiz t :
  t = tagRESC \/ t = tagRESD ->
  val c 2 2 = 0 \/ val c 6 2 = 0 ->
  validate E op fuel (S d) (BTb t) c start csiz = Raise ZeroDivisionError.
Proof.
  intros Ht H. cbn [validate].
  destruct Ht as [-> | ->].
  - change (runMethod E (validate E op fuel d) fuel _) with
      (resolutionFields E {| s_opts := op; s_btype := BTb tagRESC; s_contents := c;
         s_start := start; s_csiz := csiz |} "c").
    now rewrite resolution_raises.
  - change (runMethod E (validate E op fuel d) fuel _) with
      (resolutionFields E {| s_opts := op; s_btype := BTb tagRESD; s_contents := c;
         s_start := start; s_csiz := csiz |} "d").
    now rewrite resolution_raises.
Qed.
