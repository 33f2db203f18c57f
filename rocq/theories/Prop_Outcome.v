(** * When the analysis raises, and when it does not: C69 *)

From Coq Require Import ZArith List Bool String Lia.
From Coq Require Import Init.Byte.
From Coq Require Import ZifyBool.
From Verif Require Import Py PyFloat ByteConv ETree BV VBoxes VMarkers VSuper Remap CheckFile Spec SpecText SpecBox SpecMarker
     SpecWalk SpecSuper SpecIPL SpecCS SpecFile SpecTop SpecValid SpecOutcome PBase PEmit PLeaf PLeaf2 PMarker PMarker2 PRel PWalk PSuper
     PSeg PWrite PTile PChain PCS PIPL PGrow PText PHuman Ex Prop_Options PFile PTop PValid PEnds PLoop POutcome PRaises Prop_Top Prop_Check Prop_Tiles Prop_File.
Import ListNotations.
Open Scope string_scope.
Open Scope list_scope.
Open Scope Z_scope.

Lemma does_fun E op t c st cz o o' : does E op t c st cz o -> does E op t c st cz o' -> o = o'.
Proof. rewrite !does_settles. apply settles_fun. Qed.

(** C69.  How the analysis of a file ends -- with a report, with a certain exception,
    or not at all -- is told by the file alone: it is the first trouble met. *)
Theorem C69_outcome E op c : len c < 2 ^ 53 -> (forall y, inbox c (t_jp2c, y) -> chained y) ->
  (exists o, file_out c o) /\
  forall o, file_out c o <-> does E op (BTs "JP2") c VNone VNone o.
Proof.
  intros HL HC. destruct (file_total c HC) as (o0 & H0). split; [now exists o0|].
  pose proof (file_does E op c o0 HL H0) as D0. intros o. split; [now apply file_does|].
  intros H. now rewrite (does_fun _ _ _ _ _ _ _ _ H D0).
Qed.
Theorem C69_outcome_codestream E op c : chained c ->
  (exists o, cs_out c o) /\
  forall o, cs_out c o <-> does E op (BTs "contiguousCodestreamBox") c VNone VNone o.
Proof.
  intros HC. destruct (cs_out_total c HC) as (o0 & H0). split; [now exists o0|].
  pose proof (cs_does E op (BTs "contiguousCodestreamBox") c VNone VNone o0 eq_refl H0) as D0.
  intros o. split; [now apply cs_does|]. intros H. now rewrite (does_fun _ _ _ _ _ _ _ _ H D0).
Qed.
(** Hence it depends neither on the format and the other options nor on the XML
    parser. *)
Theorem C69_same_for_all E E' op op' c o : len c < 2 ^ 53 -> (forall y, inbox c (t_jp2c, y) -> chained y) ->
  (does E op (BTs "JP2") c VNone VNone o <-> does E' op' (BTs "JP2") c VNone VNone o).
Proof.
  intros HL HC. destruct (C69_outcome E op c HL HC) as (_ & H1). destruct (C69_outcome E' op' c HL HC) as (_ & H2).
  now rewrite <- H1, <- H2.
Qed.

(** The hypothesis on codestreams holds where the length of every tile part can be
    read. *)
Lemma no_bad_chained c : (forall p, ~ bad_sot c p) -> chained c.
Proof.
  intros HB l rest HA. destruct rest as [s1|]; [|now exists []].
  destruct (chain_total (cs_tiles c) c) with (p := len c - len s1) as (ps & HC).
  { intros p Hp HM Hi HN. now apply (HB p). }
  { destruct (after_rest _ _ _ _ HA) as (n & ->). unfold cs_second. destruct (_ =? _).
    - rewrite skipn_nil. pose proof (len_nonneg c). unfold len at 2. cbn. lia.
    - unfold len. rewrite !skipn_length. lia. }
  now exists ps.
Qed.

(** ** Where the trouble is *)
Lemma first_report os : first os = Report <-> Forall (eq Report) os.
Proof.
  induction os as [|[|e|] os IH]; cbn [first]; [split; auto| | |].
  - rewrite Forall_cons_iff, IH. tauto.
  - rewrite Forall_cons_iff. split; [discriminate|intros (H & _); discriminate].
  - rewrite Forall_cons_iff. split; [discriminate|intros (H & _); discriminate].
Qed.
Lemma first_in os o : first os = o -> o <> Report -> In o os.
Proof. induction os as [|[|e|] os IH]; cbn [first]; intros H HN; [congruence|right; auto|now left|now left]. Qed.
Lemma trouble_not n t x : ~ trouble n t x Report.
Proof. intros H. inversion H. Qed.

(** [o] is the trouble with the box [b] itself. *)
Definition at_box (b : bytes * bytes) (o : finish) : Prop :=
  (~ In (fst b) (t_jp2c :: supers) /\ trouble None (fst b) (snd b) o) \/
  (fst b = t_jp2c /\ o <> Report /\ cs_out (snd b) o).
Lemma box_origin : forall k b o, len (snd b) < Z.of_nat k -> box_out b o -> o <> Report ->
  at_box b o \/ exists b', In (fst b) supers /\ inbox (snd b) b' /\ at_box b' o.
Proof.
  induction k as [|k IH]; intros b o Hk H HN; [pose proof (len_nonneg (snd b)); lia|].
  destruct H as [t x o HT HO|t x bs os Ht HS HB|x o HC]; cbn [fst snd] in *.
  - left. left. destruct HO as [HO|(HO & _)]; [auto|contradiction].
  - right. pose proof (first_in os _ eq_refl HN) as HI. pose proof (splits_inside _ _ HS) as HL. rewrite Forall_forall in HL.
    assert (HX : exists b, In b bs /\ box_out b (first os)).
    { clear -HB HI. revert HI. generalize (first os). intros o HI. induction HB as [|b o' bs os H _ IHb]; [destruct HI|].
      destruct HI as [->|HI]; [exists b; split; [now left|exact H]|]. destruct (IHb HI) as (b' & H1 & H2). exists b'. split; [now right|exact H2]. }
    destruct HX as ((s, y) & Hb & HO). specialize (HL _ Hb). cbn [snd] in HL.
    destruct (IH (s, y) (first os)) as [H1|(b' & H1 & H2 & H3)]; [cbn [snd]; lia|exact HO|exact HN| |].
    + exists (s, y). split; [exact Ht|]. split; [now apply inbox_here with bs|exact H1].
    + exists b'. split; [exact Ht|]. split; [|exact H3]. cbn [fst snd] in *. apply inbox_trans with s y; auto. now apply inbox_here with bs.
  - left. right. auto.
Qed.
(** An analysis that raises, or does not end, has met a box with that trouble ... *)
Theorem C69_where E op c o : len c < 2 ^ 53 -> (forall y, inbox c (t_jp2c, y) -> chained y) ->
  does E op (BTs "JP2") c VNone VNone o -> o <> Report -> exists b, inbox c b /\ at_box b o.
Proof.
  intros HL HC HD HN. apply (C69_outcome E op c HL HC) in HD as (bs & os & HS & HB & ->).
  pose proof (first_in os _ eq_refl HN) as HI.
  assert (HX : exists b, In b bs /\ box_out b (first os)).
  { clear -HB HI. revert HI. generalize (first os). intros o HI. induction HB as [|b o' bs os H _ IHb]; [destruct HI|].
    destruct HI as [->|HI]; [exists b; split; [now left|exact H]|]. destruct (IHb HI) as (b' & H1 & H2). exists b'. split; [now right|exact H2]. }
  destruct HX as ((s, y) & Hb & HO).
  destruct (box_origin (Z.to_nat (len y + 1)) (s, y) (first os)) as [H1|(b' & H1 & H2 & H3)];
    [pose proof (len_nonneg y); cbn [snd]; lia|exact HO|exact HN| |].
  - exists (s, y). split; [now apply inbox_here with bs|exact H1].
  - exists b'. split; [|exact H3]. cbn [fst snd] in *. apply inbox_trans with s y; auto. now apply inbox_here with bs.
Qed.
Lemma box_trouble : forall k b b' o, len (snd b) < Z.of_nat k -> box_out b Report ->
  b' = b \/ (In (fst b) supers /\ inbox (snd b) b') -> ~ at_box b' o.
Proof.
  induction k as [|k IH]; intros b b' o Hk H HI HT; [pose proof (len_nonneg (snd b)); lia|].
  remember Report as R eqn:HR in H. destruct H as [t x o' HN HO|t x bs os Ht HS HB|x o' HC]; cbn [fst snd] in *.
  - destruct HI as [->|(HI & _)]; [|apply HN; now right]. destruct HO as [HO|(_ & HO)]; [subst; now apply trouble_not in HO|].
    destruct HT as [(_ & HT)|(HT & _)]; [now apply HO in HT|]. cbn in HT. apply HN. now left.
  - destruct HI as [->|(_ & HI)].
    + destruct HT as [(HN & _)|(HT & _)]; cbn [fst] in *; [apply HN; now right|]. subst t. cbv in Ht. intuition discriminate.
    + apply first_report in HR. pose proof (splits_inside _ _ HS) as HL. rewrite Forall_forall in HL.
      assert (HX : forall b, In b bs -> box_out b Report).
      { clear -HB HR. induction HB as [|b o bs os H _ IHb]; intros b' Hb; [destruct Hb|]. inversion HR; subst.
        destruct Hb as [<-|Hb]; auto. }
      destruct (inbox_inv _ _ _ HS HI) as [Hb|(s & y & H1 & H2 & H3)].
      * pose proof (HL _ Hb) as HLb. destruct b' as (s, y). cbn [snd] in HLb.
        revert HT. apply (IH (s, y) (s, y)); [cbn [snd]; lia|now apply HX|now left].
      * pose proof (HL _ H1) as HLb. cbn [snd] in HLb.
        revert HT. apply (IH (s, y) b'); [cbn [snd]; lia|now apply HX|now right].
  - destruct HI as [->|(HI & _)]; [|cbv in HI; intuition discriminate]. subst o'.
    destruct HT as [(HN & _)|(_ & HT & HO)]; cbn [fst snd] in *; [apply HN; now left|].
    pose proof (cs_does E0 (op "jp2" false) (BTs "contiguousCodestreamBox") x VNone VNone) as HD.
    apply HT. eapply does_fun; [apply (HD _ eq_refl HO)|apply (HD _ eq_refl HC)].
Qed.
(** ... and there is a report exactly if there is no such box anywhere in the file. *)
Theorem C69_reports E op c : len c < 2 ^ 53 -> (forall y, inbox c (t_jp2c, y) -> chained y) ->
  ((exists r, gives E op (BTs "JP2") c VNone VNone r) <-> forall b o, inbox c b -> ~ at_box b o).
Proof.
  intros HL HC. split.
  - intros HG b o HI HT. destruct (C69_outcome E op c HL HC) as (_ & H). apply (proj2 (H Report)) in HG as (bs & os & HS & HB & HR).
    symmetry in HR. apply first_report in HR.
    assert (HX : forall b, In b bs -> box_out b Report).
    { clear -HB HR. induction HB as [|b o bs os H _ IHb]; intros b' Hb; [destruct Hb|]. inversion HR; subst.
      destruct Hb as [<-|Hb]; auto. }
    destruct (inbox_inv _ _ _ HS HI) as [Hb|(s & y & H1 & H2 & H3)].
    + destruct b as (s, y). revert HT. apply (box_trouble (Z.to_nat (len y + 1)) (s, y)); [pose proof (len_nonneg y); cbn [snd]; lia|now apply HX|now left].
    + revert HT. apply (box_trouble (Z.to_nat (len y + 1)) (s, y)); [pose proof (len_nonneg y); cbn [snd]; lia|now apply HX|now right].
  - intros HN. destruct (C69_outcome E op c HL HC) as ((o & HO) & H). apply H in HO as HD.
    destruct o as [|e|]; [exact HD| |]; (destruct (C69_where E op c _ HL HC HD) as (b & Hb & HT); [discriminate|]; now apply HN in HT).
Qed.

(** ** Exceptions, without any hypothesis on the tile parts *)
(** In a codestream the only exception is that of an unknown capability. *)
Theorem C69_codestream E op t c st cz e : boxTypeOf t = "contiguousCodestreamBox" ->
  (fails E op t c st cz e <->
   e = UnboundLocalError /\ sub (cs_second c) 0 2 = m_SIZ /\ siz_capability (val (cs_siz c) 2 2) = None).
Proof.
  intros Ht. split; [now apply cs_exn|].
  intros (-> & HS & HN). exact (cs_does E op t c st cz (Exception UnboundLocalError) Ht (out_siz c HS HN)).
Qed.
(** An analysis that raises has met one of the triggers, or the interpreter's limit
    on recursion; a file with a trigger anywhere is not reported on. *)
Theorem C69_triggers E op fuel d c e : len c < 2 ^ 53 ->
  validate E op fuel d (BTs "JP2") c VNone VNone = Raise e ->
  (e = RecursionError /\ ((List.length c < fuel)%nat -> Z.of_nat d < levels (len c))) \/ exists b, inbox c b /\ trigger b e.
Proof.
  intros HL HV. assert (HD : e = RecursionError \/ e <> RecursionError) by (destruct e; auto; right; discriminate).
  destruct HD as [->|HE].
  - left. split; [reflexivity|]. intros HF. apply Z.nle_gt. intros HD. pose proof (root_deep E op fuel d c HF HD) as H.
    rewrite HV in H. now apply H.
  - right. apply (root_exn E op c e HL); [|exact HE]. eapply fails_of; [exact HV|exact HE].
Qed.
Theorem C69_trigger_stops E op c b e : inbox c b -> trigger b e ->
  ~ exists r, gives E op (BTs "JP2") c VNone VNone r.
Proof.
  intros HI HT (r & HG). destruct (C54_boxes_local E op (BTs "JP2") c b r (or_introl eq_refl) HI HG) as (r' & HG' & _).
  assert (HD : does E op (BTb (fst b)) (snd b) VNone VNone Report) by now exists r'.
  pose proof (does_fun _ _ _ _ _ _ _ _ HD (trigger_fails E op b e HT : does E op (BTb (fst b)) (snd b) VNone VNone (Exception e))). discriminate.
Qed.
(** A codestream whose first tile part has a length that cannot be read, so that the
    hypothesis of the theorems above fails, in a file with an unknown capability, and
    the same with a known one. *)
Definition wild_cs (cap : byte) : bytes :=
  sub ex_mainhdr 0 6 ++ [cap] ++ skipn 7 ex_mainhdr ++ [xff; x90; x00; x04; x00; x00; xff; x93].
Definition wild (cap : byte) : bytes := [x00; x00; x00; x00; x6a; x70; x32; x63] ++ wild_cs cap.
Example C69_triggers_ex :
  bad_sot (wild_cs x00) 65 /\ inbox (wild x08) (t_jp2c, wild_cs x08) /\
  raises (validate E0 (op "jp2" false) 100 20 (BTs "JP2") (wild x08) VNone VNone) = Some UnboundLocalError /\
  trigger (t_jp2c, wild_cs x08) UnboundLocalError /\
  raises (validate E0 (op "jp2" false) 100 20 (BTs "JP2") (wild x00) VNone VNone) = None /\
  forall e, ~ trigger (t_jp2c, wild_cs x00) e.
Proof.
  split; [now vm_compute|].
  split; [apply inbox_here with [(t_jp2c, wild_cs x08)]; [eapply splits_last; [reflexivity..|discriminate]|now left]|].
  split; [now vm_compute|]. split; [right; now vm_compute|]. split; [now vm_compute|].
  intros e [(H & _)|(_ & _ & _ & H)]; [apply H; now left|now vm_compute in H].
Qed.

(** ** What the report of the program says about it *)
Theorem C69_success E path fo o size mtime c fin : env_ok E -> fo_size fo = Ok size -> fo_mtime fo = Ok mtime ->
  str_limit E = None -> fo_map fo = Mapped c -> In (o_format o) ["jp2"; "jph"] -> len c < 2 ^ 53 -> file_out c fin ->
  exists fuel0 depth0, forall fuel depth, (fuel0 <= fuel)%nat -> (depth0 <= depth)%nat ->
  match fin with
  | Report => exists v T P W, checkOneFile E fuel depth path fo o 0 =
      Ok (report fo o size mtime succeeded (if v : bool then "True" else "False") T P [] W)
  | Exception e => checkOneFile E fuel depth path fo o 0 =
      Ok (report fo o size mtime (failed_with (message e)) "False" [] [] [] [leaf "warning" (VStr (pys (message e)))])
  | Endless => checkOneFile E fuel depth path fo o 0 = Diverge
  end.
Proof.
  intros HE H1 H2 HN HM HF HL HO. apply (file_does E o c fin HL), does_settles in HO. destruct HO as (f0 & d0 & HO).
  exists f0, d0. intros f d Hf Hd. specialize (HO f d Hf Hd).
  assert (HRT : forall t, root_type (o_format o) t -> t = BTs "JP2").
  { intros t [(_ & ->)|(HI & _)]; [reflexivity|]. exfalso. cbn in HF, HI. intuition congruence. }
  destruct (C20_report E f d path fo o size mtime HE H1 H2) as [(v & T & P & W & HX & HA)|[(e' & HX & HA)|(HX & HA)]].
  - destruct HA as (b & w & t & r & W0 & HC' & HT & HV & _). rewrite HM in HC'. inversion HC'; subst.
    rewrite (HRT t HT) in HV. destruct fin; cbn [as_out] in HO; [now exists v, T, P, W|congruence|congruence].
  - rewrite HM in HA. inversion HA as [e HU|b w HC' HT|b w t e HC' HT HV'|b w t r' HC' HT HV' HLL]; subst.
    + destruct HU as [HU|(HU & _)]; discriminate.
    + exfalso. apply (HT (BTs "JP2")). now left.
    + inversion HC'; subst. rewrite (HRT t HT) in HV'.
      destruct fin as [|e1|]; cbn [as_out] in HO; [destruct HO as (r & HO); congruence| |congruence].
      assert (e1 = e') as -> by congruence. exact HX.
    + exfalso. rewrite HN in HLL. destruct HLL as [HLL|[HLL|HLL]]; apply HLL; (eapply every_impl; [|apply every_true]); intros t' v' _ (z & _ & HZ & _); now apply HZ.
  - destruct HA as (b & w & t & HC' & HT & HV'). rewrite HM in HC'. inversion HC'; subst. rewrite (HRT t HT) in HV'.
    destruct fin; cbn [as_out] in HO; [destruct HO as (r & HO); congruence|congruence|exact HX].
Qed.

(** An empty UUID box before a resolution with denominators 0: the first decides. *)
Definition two_troubles : bytes :=
  [x00; x00; x00; x08; x75; x75; x69; x64] ++ [x00; x00; x00; x12; x72; x65; x73; x63] ++ repeat x00 10.
Example C69_outcome_ex :
  file_out two_troubles (Exception ValueError) /\ ~ file_out two_troubles (Exception ZeroDivisionError) /\
  raises (validate E0 (op "jp2" false) 10 20 (BTs "JP2") two_troubles VNone VNone) = Some ValueError /\
  file_out (skipn 8 two_troubles) (Exception ZeroDivisionError).
Proof.
  assert (H1 : splits (skipn 8 two_troubles) [(t_resc, repeat x00 10)]).
  { apply (splits_box (skipn 8 two_troubles) []); [discriminate|reflexivity|apply splits_end]. }
  assert (H0 : splits two_troubles [(t_uuid, []); (t_resc, repeat x00 10)]).
  { apply (splits_box two_troubles [(t_resc, repeat x00 10)]); [discriminate|reflexivity|exact H1]. }
  assert (HU : box_out (t_uuid, []) (Exception ValueError)).
  { apply out_leaf; [cbv; intuition discriminate|left; apply tr_uuid; reflexivity]. }
  assert (HR : box_out (t_resc, repeat x00 10) (Exception ZeroDivisionError)).
  { apply out_leaf; [cbv; intuition discriminate|left; apply tr_res; [now left|left; reflexivity]]. }
  assert (HV : file_out two_troubles (Exception ValueError))
    by (eexists _, _; split; [exact H0|]; split; [constructor; [exact HU|constructor; [exact HR|constructor]]|reflexivity]).
  split; [exact HV|]. split; [|split].
  - intros HZ. assert (HL : small two_troubles) by reflexivity.
    pose proof (does_fun _ _ _ _ _ _ _ _ (file_does E0 (op "jp2" false) _ _ HL HV) (file_does E0 (op "jp2" false) _ _ HL HZ)). discriminate.
  - now vm_compute.
  - eexists _, _. split; [exact H1|]. split; [constructor; [exact HR|constructor]|reflexivity].
Qed.
(** A file that is analysed without trouble, and the hypothesis on its codestream. *)
Lemma ex_boxes : forall b, inbox ex_file b -> In (fst b) [t_sig; t_ftyp; t_jp2h; t_ihdr; t_colr] \/ b = (t_jp2c, ex_cs).
Proof.
  intros b Hb. destruct C37_ex as (_ & HS). apply (inbox_inv _ _ _ HS) in Hb. cbn [In] in Hb.
  assert (HH : splits (skipn 8 ex_jp2h) [(t_ihdr, sub ex_jp2h 16 14); (t_colr, skipn 38 ex_jp2h)]).
  { repeat (eapply splits_step; [reflexivity..|discriminate|reflexivity|]). constructor. }
  destruct Hb as [Hb|(s & y & H1 & H2 & H3)].
  - destruct Hb as [<-|[<-|[<-|[<-|[]]]]]; cbn; auto 8.
  - destruct H1 as [H1|[H1|[H1|[H1|[]]]]]; injection H1 as <- <-; try (cbv in H2; intuition discriminate).
    apply (inbox_inv _ _ _ HH) in H3. destruct H3 as [H3|(s' & y' & H4 & H5 & H6)].
    + destruct H3 as [<-|[<-|[]]]; cbn; auto 8.
    + destruct H4 as [H4|[H4|[]]]; injection H4 as <- <-; cbv in H5; intuition discriminate.
Qed.
Example C69_reports_ex : (forall y, inbox ex_file (t_jp2c, y) -> chained y) /\ forall b o, inbox ex_file b -> ~ at_box b o.
Proof.
  assert (HC : forall y, inbox ex_file (t_jp2c, y) -> chained y).
  { intros y Hy. apply ex_boxes in Hy as [Hy|Hy]; [cbv in Hy; intuition discriminate|]. injection Hy as ->.
    apply no_bad_chained. apply C15_terminates_ex. }
  split; [exact HC|]. apply (C69_reports E0 (op "jp2" true) ex_file); [reflexivity|exact HC|].
  destruct (validate E0 (op "jp2" true) 8 4 (BTs "JP2") ex_file VNone VNone) as [r|e|] eqn:HV; [now exists r, 8%nat, 4%nat| |];
    exfalso; vm_compute in HV; discriminate.
Qed.

Definition all_theorems := (C69_outcome, C69_outcome_codestream, C69_same_for_all, C69_where, C69_reports, C69_codestream, C69_triggers, C69_trigger_stops, C69_success).
Print Assumptions all_theorems.
