(** * What the verdict does not depend on: C77 *)

From Coq Require Import ZArith List Bool String Lia Permutation.
From Coq Require Import Init.Byte.
From Verif Require Import Py ETree BV VSuper Spec SpecBox SpecMarker SpecIPL SpecWalk SpecSuper SpecCS SpecFile SpecTop SpecValid SpecMake SpecForm SpecSame
     PBase PWalk PWrite PSeg PLeaf2 PValid PTop PForm PSame PSame2 Ex Prop_Top Prop_Check Prop_Form.
Import ListNotations.
Open Scope string_scope.
Open Scope list_scope.
Open Scope Z_scope.

(** Two files with the same signature, file type, header, intellectual property and
    codestream boxes, in the same order, get the same verdict: in whatever form the
    boxes are written, in whatever order the boxes inside the header and the segments
    of main headers are, and whatever other well-formed boxes and comments there are. *)
Theorem C77_file E o c c' : In (o_format o) ["jp2"; "jph"] -> len c < 2 ^ 53 -> len c' < 2 ^ 53 -> file_alike E o c c' ->
  (called_valid E o c <-> called_valid E o c').
Proof.
  intros HF HL HL' HA. rewrite !called_file by assumption. split; apply file_same; try assumption. now apply file_alike_sym.
Qed.
Theorem C77_codestream E o x x' : In (o_format o) ["j2c"; "jhc"] -> stream_alike E x x' -> (called_valid E o x <-> called_valid E o x').
Proof.
  intros HF HA. rewrite !called_cs by assumption. split; apply stream_ok; [exact HA|now apply stream_sym].
Qed.

(** Special cases, without assumptions about the rest of the file. *)

(** The form in which boxes are written. *)
Theorem C77_form E o c c' bs : In (o_format o) ["jp2"; "jph"] -> len c < 2 ^ 53 -> len c' < 2 ^ 53 -> splits c bs -> splits c' bs ->
  (called_valid E o c <-> called_valid E o c').
Proof.
  intros HF HL HL' HS HS'. rewrite !called_file by assumption.
  split; intros (bs0 & hs & H0 & H); [rewrite (splits_unique _ _ H0 _ HS) in *|rewrite (splits_unique _ _ H0 _ HS') in *]; now exists bs, hs.
Qed.

(** Metadata: boxes [m] of other kinds, after the second box. *)
Lemma all_starts E fmt bs hs : Forall (box_ok E fmt) bs -> holds (jp2_tests bs hs) -> starts bs.
Proof.
  intros _ HT. unfold jp2_tests in HT. cbv zeta in HT. rewrite !holds_app, !holds_cons in HT. destruct HT as (_ & _ & (C1 & C2 & _) & _).
  destruct bs as [|b1 [|b2 r]]; [discriminate|discriminate|]. cbn [map nth_error] in C1, C2. injection C1 as C1. injection C2 as C2.
  exists b1, b2, r. rewrite C1, C2. now repeat split.
Qed.
Lemma box_good E o c bs b : len c < 2 ^ 53 -> splits c bs -> In b bs -> ((exists r, box_gives E o b r /\ all_pass (r_tests r)) <-> box_ok E (o_format o) b).
Proof.
  intros HL HS HI. pose proof (splits_inside _ _ HS) as H. rewrite Forall_forall in H. specialize (H b HI). apply (box_spec E o (len c) b H). unfold small. lia.
Qed.
Lemma alike_all E l : Forall2 (alike E) l l.
Proof. induction l; constructor; [constructor|assumption]. Qed.
Lemma starts_app a b c : (2 <= List.length a)%nat -> starts (a ++ b) -> starts (a ++ c).
Proof.
  intros HA (b1 & b2 & r & HE & H1 & H2). destruct a as [|x [|y a]]; [cbn in HA; lia|cbn in HA; lia|]. cbn [app] in *. injection HE as -> -> _.
  now exists b1, b2, (a ++ c).
Qed.
Theorem C77_metadata E o c c' a m b : In (o_format o) ["jp2"; "jph"] -> len c < 2 ^ 53 -> len c' < 2 ^ 53 ->
  splits c (a ++ b) -> splits c' (a ++ m ++ b) -> (2 <= List.length a)%nat -> (forall x, In x m -> core (fst x) = false) ->
  (called_valid E o c' <-> called_valid E o c /\ forall x, In x m -> exists r, box_gives E o x r /\ all_pass (r_tests r)).
Proof.
  intros HF HL HL' HS HS' HA HM.
  assert (HFI : filter (fun b => core (fst b)) (a ++ m ++ b) = filter (fun b => core (fst b)) (a ++ b)).
  { rewrite !filter_app. f_equal. replace (filter (fun b => core (fst b)) m) with (@nil (bytes * bytes)); [reflexivity|].
    symmetry. clear -HM. induction m as [|x m IH]; [reflexivity|]. cbn [filter]. rewrite (HM x (or_introl eq_refl)). apply IH. intros y Hy. apply HM. now right. }
  assert (HG : called_valid E o c' -> forall x, In x (a ++ m ++ b) -> exists r, box_gives E o x r /\ all_pass (r_tests r)).
  { intros HV x HX. apply called_file in HV; [|exact HF|exact HL']. destruct HV as (bs & hs & H0 & _ & HK & _). rewrite (splits_unique _ _ H0 _ HS') in *.
    rewrite Forall_forall in HK. apply (box_good E o c' _ x HL' HS' HX). now apply HK. }
  assert (HG' : called_valid E o c -> forall x, In x (a ++ b) -> exists r, box_gives E o x r /\ all_pass (r_tests r)).
  { intros HV x HX. apply called_file in HV; [|exact HF|exact HL]. destruct HV as (bs & hs & H0 & _ & HK & _). rewrite (splits_unique _ _ H0 _ HS) in *.
    rewrite Forall_forall in HK. apply (box_good E o c _ x HL HS HX). now apply HK. }
  assert (HAL : starts (a ++ b) -> starts (a ++ m ++ b) -> (forall x, In x (a ++ m ++ b) -> exists r, box_gives E o x r /\ all_pass (r_tests r)) ->
                (called_valid E o c <-> called_valid E o c')).
  { intros H1 H2 H3. apply C77_file; try assumption. exists (a ++ b), (a ++ m ++ b). repeat (split; [assumption|]). split.
    - intros x HX _. apply H3. rewrite !in_app_iff in *. tauto.
    - split; [intros x HX _; now apply H3|]. rewrite HFI. apply alike_all. }
  split.
  - intros HV. pose proof (HG HV) as HB. split; [|intros x HX; apply HB; rewrite !in_app_iff; tauto].
    assert (H2 : starts (a ++ m ++ b)).
    { pose proof HV as HV2. apply called_file in HV2; [|exact HF|exact HL']. destruct HV2 as (bs & hs & H0 & _ & HK & HT). rewrite (splits_unique _ _ H0 _ HS') in *. exact (all_starts _ _ _ _ HK HT). }
    apply (HAL (starts_app a (m ++ b) b HA H2) H2 HB). exact HV.
  - intros (HV & HMO). assert (H1 : starts (a ++ b)).
    { pose proof HV as HV2. apply called_file in HV2; [|exact HF|exact HL]. destruct HV2 as (bs & hs & H0 & _ & HK & HT). rewrite (splits_unique _ _ H0 _ HS) in *. exact (all_starts _ _ _ _ HK HT). }
    apply (HAL H1 (starts_app a b (m ++ b) HA H1)); [|exact HV]. intros x HX. rewrite !in_app_iff in HX. destruct HX as [HX|[HX|HX]]; [|now apply HMO|]; apply (HG' HV); rewrite in_app_iff; tauto.
Qed.

(** One box replaced: the same boxes in another order inside the header, or another
    order of segments in a main header. *)
Lemma one_box E o c c' a b p p' : len c < 2 ^ 53 -> len c' < 2 ^ 53 -> splits c (a ++ p :: b) -> splits c' (a ++ p' :: b) -> alike E p p' ->
  file_ok E (o_format o) c -> file_ok E (o_format o) c'.
Proof.
  intros HL HL' HS HS' HA HK. apply (file_same E o c c' HL'); [|exact HK]. destruct HK as (bs & hs & H0 & _ & HK & HT). rewrite (splits_unique _ _ H0 _ HS) in *.
  pose proof (all_starts _ _ _ _ HK HT) as HST. exists (a ++ p :: b), (a ++ p' :: b). split; [exact HS|]. split; [exact HS'|]. split; [exact HST|].
  pose proof (alike_type _ _ _ HA) as HTY. rewrite Forall_forall in HK.
  assert (HG : forall x, In x (a ++ p :: b) -> exists r, box_gives E o x r /\ all_pass (r_tests r)).
  { intros x HX. apply (box_good E o c _ x HL HS HX). now apply HK. }
  split; [|split; [intros x HX _; now apply HG|split]].
  - destruct HST as (b1 & b2 & r & HE & H1 & H2). destruct a as [|x [|y a]]; cbn [app] in *.
    + injection HE as -> ->. exists p', b2, r. split; [reflexivity|]. now rewrite <- HTY.
    + injection HE as -> -> ->. exists b1, p', r. split; [reflexivity|]. now rewrite <- HTY.
    + injection HE as -> -> _. now exists b1, b2, (a ++ p' :: b).
  - intros x HX HC. rewrite in_app_iff in HX. cbn [In] in HX. destruct HX as [HX|[<-|HX]]; [apply HG; rewrite in_app_iff; tauto| |apply HG; rewrite in_app_iff; cbn [In]; tauto].
    destruct HA as [b0|x x' _|x x' _]; [apply HG; apply in_elt|discriminate HC|discriminate HC].
  - rewrite !filter_app. apply Forall2_app; [apply alike_all|]. cbn [filter]. rewrite HTY. destruct (core (fst p')); [constructor; [exact HA|]|]; apply alike_all.
Qed.
Theorem C77_box E o c c' a b p p' : In (o_format o) ["jp2"; "jph"] -> len c < 2 ^ 53 -> len c' < 2 ^ 53 ->
  splits c (a ++ p :: b) -> splits c' (a ++ p' :: b) -> alike E p p' -> (called_valid E o c <-> called_valid E o c').
Proof.
  intros HF HL HL' HS HS' HA. rewrite !called_file by assumption.
  split; [apply (one_box E o c c' a b p p')|apply (one_box E o c' c a b p' p)]; try assumption. now apply alike_sym.
Qed.

(** A comment in the main header of a codestream, anywhere after SIZ. *)
Lemma valid_comments E fmt x l body : codestream_ok E fmt x -> after m_SOT (cs_second x) l (Some body) -> comments_ok E l.
Proof.
  intros (l0 & rest & ps & HA0 & _ & _ & _ & HF & _) HA y HI. destruct (after_unique _ _ _ _ _ _ HA0 HA) as (-> & _).
  exact (proj1 (treated_forall _ _ _) HF m_COM y Alone HI eq_refl).
Qed.
Theorem C77_comment E o x x' a b y body : In (o_format o) ["j2c"; "jhc"] ->
  sub x 0 2 = sub x' 0 2 -> sub (cs_second x) 0 2 = sub (cs_second x') 0 2 -> cs_siz x = cs_siz x' ->
  after m_SOT (cs_second x) (a ++ b) (Some body) -> after m_SOT (cs_second x') (a ++ (m_COM, y) :: b) (Some body) ->
  (called_valid E o x' <-> called_valid E o x /\ holds (com_tests (catC E) y)).
Proof.
  intros HF H1 H2 H3 HA HA'.
  assert (HN : no_comments (a ++ (m_COM, y) :: b) = no_comments (a ++ b)) by (unfold no_comments; rewrite !filter_app; reflexivity).
  assert (HAL : comments_ok E (a ++ (m_COM, y) :: b) -> (called_valid E o x <-> called_valid E o x')).
  { intros HC. apply C77_codestream; [exact HF|]. exists (a ++ b), (a ++ (m_COM, y) :: b), body. repeat (split; [assumption|]). split; [rewrite HN; apply Permutation_refl|].
    split; [|exact HC]. intros z HZ. apply HC. rewrite in_app_iff in *. cbn [In]. tauto. }
  split.
  - intros HV. pose proof HV as HV2. apply called_cs in HV2; [|exact HF]. pose proof (valid_comments E _ _ _ _ HV2 HA') as HC.
    split; [now apply HAL|]. apply HC. apply in_elt.
  - intros (HV & HY). pose proof HV as HV2. apply called_cs in HV2; [|exact HF]. pose proof (valid_comments E _ _ _ _ HV2 HA) as HC.
    apply HAL; [|exact HV]. intros z HZ. rewrite in_app_iff in HZ. cbn [In] in HZ. destruct HZ as [HZ|[HZ|HZ]]; [|injection HZ as <-; exact HY|]; apply HC; rewrite in_app_iff; tauto.
Qed.

(** Concrete cases.  A comment before COD; a malformed one. *)
Definition ex_commented (y : bytes) : bytes := sub ex_cs 0 45 ++ m_COM ++ y ++ skipn 45 ex_cs.
Definition ex_com : bytes := [x00; x07; x00; x01; x61; x62; x63].
Definition ex_badcom : bytes := [x00; x07; x00; x02; x61; x62; x63].
Lemma ex_after : after m_SOT (cs_second ex_cs) [(m_COD, sub ex_cs 47 12); (m_QCD, sub ex_cs 61 4)] (Some (skipn 65 ex_cs)).
Proof.
  change (segs m_SOT (skipn 45 ex_cs) [(m_COD, sub ex_cs 47 12); (m_QCD, sub ex_cs 61 4)] (Some (skipn 65 ex_cs))).
  apply segs_more with (s := skipn 45 ex_cs); [vm_compute; discriminate|vm_compute; discriminate|].
  apply segs_more with (s := skipn 59 ex_cs); [vm_compute; discriminate|vm_compute; discriminate|]. apply segs_stop. now vm_compute.
Qed.
Lemma ex_after2 y : y = ex_com \/ y = ex_badcom ->
  after m_SOT (cs_second (ex_commented y)) [(m_COM, y); (m_COD, sub ex_cs 47 12); (m_QCD, sub ex_cs 61 4)] (Some (skipn 65 ex_cs)).
Proof.
  assert (HT : segs m_SOT (skipn 45 ex_cs) [(m_COD, sub ex_cs 47 12); (m_QCD, sub ex_cs 61 4)] (Some (skipn 65 ex_cs))) by exact ex_after.
  assert (HS : forall y, y = ex_com \/ y = ex_badcom -> segs m_SOT (m_COM ++ y ++ skipn 45 ex_cs) [(m_COM, y); (m_COD, sub ex_cs 47 12); (m_QCD, sub ex_cs 61 4)] (Some (skipn 65 ex_cs))).
  { intros z [->| ->]; apply (segs_step m_SOT _ m_COM _ 7 (skipn 45 ex_cs)); solve [exact HT|now vm_compute|discriminate]. }
  intros Hy. specialize (HS y Hy). destruct Hy as [->| ->]; exact HS.
Qed.
Example C77_ex_comment : called_valid E0 (op "j2c" false) (ex_commented ex_com) /\ ~ called_valid E0 (op "j2c" false) (ex_commented ex_badcom).
Proof.
  assert (HV : called_valid E0 (op "j2c" false) ex_cs) by (apply called_cs; [cbn; tauto|apply C60_ex]).
  assert (HC : forall y, y = ex_com \/ y = ex_badcom -> (called_valid E0 (op "j2c" false) (ex_commented y) <-> called_valid E0 (op "j2c" false) ex_cs /\ holds (com_tests (catC E0) y))).
  { intros y Hy. apply (C77_comment E0 (op "j2c" false) ex_cs (ex_commented y) [] [(m_COD, sub ex_cs 47 12); (m_QCD, sub ex_cs 61 4)] y (skipn 65 ex_cs)).
    - cbn. tauto.
    - destruct Hy as [->| ->]; now vm_compute.
    - destruct Hy as [->| ->]; now vm_compute.
    - destruct Hy as [->| ->]; now vm_compute.
    - exact ex_after.
    - exact (ex_after2 y Hy). }
  split.
  - apply called_cs; [cbn; tauto|].
    apply (C60_codestream E0 (op "j2c" false) (BTs "contiguousCodestreamBox") (ex_commented ex_com) VNone VNone eq_refl).
    eexists. split; [exists 100%nat, 3%nat; vm_compute; reflexivity|reflexivity].
  - intros H. apply HC in H; [|now right]. destruct H as (_ & H). unfold com_tests in H. rewrite !holds_cons in H. destruct H as (_ & H & _). vm_compute in H. destruct H as (_ & H). now elim H.
Qed.

(** The boxes inside the header in another order, a box of unknown type in the third
    place, header lengths of 8 bytes, and a codestream box without length. *)
Definition ex_note : bytes := [x6e; x6f; x74; x65].
Definition ex_header (swap : bool) : list (form * bytes * bytes) :=
  let i := (Short, t_ihdr, sub ex_jp2h 16 14) in
  let k := (Short, t_colr, sub ex_jp2h 38 7) in
  let u := (Extended, ex_note, [x61]) in
  if swap then [i; u; k] else [i; k; u].
Definition ex_boxes (swap : bool) : list (form * bytes * bytes) :=
  [ (Short, t_sig, skipn 8 ex_sig); (Extended, t_ftyp, skipn 8 ex_ftyp) ] ++ (if swap then [(Short, ex_note, [x61; x62])] else []) ++
  [ (Extended, t_jp2h, List.concat (map box_bytes (ex_header swap))); (if swap then Rest else Short, t_jp2c, ex_cs) ].
Definition ex_version (swap : bool) : bytes := List.concat (map box_bytes (ex_boxes swap)).
Lemma ex_splits swap : splits (ex_version swap) (map written (ex_boxes swap)).
Proof.
  apply splits_written.
  - destruct swap; repeat constructor.
  - destruct swap; [apply (rest_end (firstn 4 (ex_boxes true)))|apply (rest_end (firstn 3 (ex_boxes false)))]; repeat constructor; discriminate.
Qed.
Lemma ex_header_splits swap : splits (List.concat (map box_bytes (ex_header swap))) (map written (ex_header swap)).
Proof.
  apply splits_written.
  - destruct swap; repeat constructor.
  - destruct swap; [apply (rest_end (firstn 2 (ex_header true)))|apply (rest_end (firstn 2 (ex_header false)))]; repeat constructor; discriminate.
Qed.
Example C77_ex_file : called_valid E0 (op "jp2" false) (ex_version false) /\ called_valid E0 (op "jp2" false) (ex_version true) /\
  len (ex_version false) = 201 /\ len (ex_version true) = 211.
Proof.
  assert (HF : called_valid E0 (op "jp2" false) (ex_version false)).
  { exists (BTs "JP2"). eexists. split; [left; split; [cbn; tauto|reflexivity]|]. split; [exists 100%nat, 4%nat; vm_compute; reflexivity|reflexivity]. }
  split; [exact HF|]. split; [|split; now vm_compute]. refine (proj1 (C77_file E0 (op "jp2" false) (ex_version false) (ex_version true) _ _ _ _) HF); [cbn; tauto|now vm_compute|now vm_compute|].
  exists (map written (ex_boxes false)), (map written (ex_boxes true)). split; [apply ex_splits|]. split; [apply ex_splits|].
  split; [do 3 eexists; split; [reflexivity|now split]|]. split; [do 3 eexists; split; [reflexivity|now split]|].
  split; [|split].
  - intros b HI HC. cbn [ex_boxes app map In] in HI. repeat (destruct HI as [<-|HI]; [discriminate HC|]). destruct HI.
  - intros b HI HC. cbn [ex_boxes app map In] in HI. do 2 (destruct HI as [<-|HI]; [discriminate HC|]). destruct HI as [<-|HI].
    + eexists. split; [exists 100%nat, 4%nat; vm_compute; reflexivity|]. intros e He. inversion He; subst; [discriminate|]. match goal with H : In _ _ |- _ => destruct H end.
    + repeat (destruct HI as [<-|HI]; [discriminate HC|]). destruct HI.
  - change (Forall2 (alike E0) (map written (ex_boxes false)) [written (Short, t_sig, skipn 8 ex_sig); written (Extended, t_ftyp, skipn 8 ex_ftyp);
      written (Extended, t_jp2h, List.concat (map box_bytes (ex_header true))); written (Rest, t_jp2c, ex_cs)]).
    constructor; [constructor|]. constructor; [constructor|]. constructor; [|constructor; [constructor|constructor]].
    apply alike_header. exists (map written (ex_header false)), (map written (ex_header true)). split; [apply ex_header_splits|]. split; [apply ex_header_splits|].
    split; [|split; [reflexivity|]].
    + apply perm_skip, perm_swap.
    + split; intros _; [exists [t_ihdr; ex_note], 1%nat, []|exists [t_ihdr], 1%nat, [ex_note]]; (split; [reflexivity|]); cbn [In]; split; intuition discriminate.
Qed.

Definition all_theorems := (C77_file, C77_codestream, C77_form, C77_metadata, C77_box, C77_comment).
Print Assumptions all_theorems.
