(** * How the analysis of a file ends: proofs *)

From Coq Require Import ZArith List Bool String Lia.
From Coq Require Import ZifyBool.
From Coq Require Import Init.Byte.
From Verif Require Import Py PyFloat ByteConv ETree BV VBoxes VMarkers VSuper Spec SpecBox SpecMarker SpecIPL
     SpecWalk SpecSuper SpecCS SpecFile SpecTop SpecValid SpecOutcome PBase PEmit PLeaf PLeaf2 PMarker PMarker2 PRel PWalk PSuper PSeg PTile
     PChain PCS PGrow PIPL Prop_Options PFile PTop PValid PEnds PLoop.
Import ListNotations.
Open Scope string_scope.
Open Scope list_scope.
Open Scope Z_scope.

(** ** Results for budgets that are large enough *)
Definition as_out {A} (v : res A) (o : finish) : Prop :=
  match o with Report => exists r, v = Ok r | Exception e => v = Raise e | Endless => v = Diverge end.
Definition settles {A} (v : nat -> nat -> res A) (o : finish) : Prop :=
  exists f0 d0, forall f d, (f0 <= f)%nat -> (d0 <= d)%nat -> as_out (v f d) o.

Lemma as_out_fun {A} (v : res A) o o' : as_out v o -> as_out v o' -> o = o'.
Proof. destruct o, o'; cbn; intros; repeat match goal with H : exists _, _ |- _ => destruct H end; congruence. Qed.
Lemma settles_fun {A} (v : nat -> nat -> res A) o o' : settles v o -> settles v o' -> o = o'.
Proof.
  intros (f & d & H) (f' & d' & H'). apply (as_out_fun (v (f + f')%nat (d + d')%nat)); [apply H; lia|apply H'; lia].
Qed.
Lemma does_settles E op t c st cz o : does E op t c st cz o <-> settles (fun f d => validate E op f d t c st cz) o.
Proof.
  destruct o as [|e|]; cbn [does].
  - split.
    + intros (r & f & d & H). exists f, d. intros f' d' Hf Hd. exists r. eapply lift_ok; [exact H|lia|lia].
    + intros (f & d & H). destruct (H f d (le_n _) (le_n _)) as (r & HV). exists r, f, d. exact HV.
  - reflexivity.
  - split.
    + intros (d & H). exists O, d. intros f' d' _ Hd. now apply H.
    + intros (f & d & H). exists d. intros f' d' Hd. apply less_fuel with (f + f')%nat; [lia|]. apply H; lia.
Qed.
Lemma settles_ev {A B} (v : nat -> nat -> res A) (w : nat -> nat -> res B) o f1 d1 k :
  settles v o ->
  (forall f d, (f1 <= f)%nat -> (d1 <= d)%nat -> forall o', as_out (v f d) o' -> as_out (w f (k + d)%nat) o') ->
  settles w o.
Proof.
  intros (f0 & d0 & H) HW. exists (f0 + f1)%nat, (k + (d0 + d1))%nat. intros f d Hf Hd.
  replace d with (k + (d - k))%nat by lia. apply HW; [lia|lia|]. apply H; lia.
Qed.

(** Many in turn. *)
Lemma first_app a b : first (a ++ b) = match first a with Report => first b | o => o end.
Proof. induction a as [|[|e|] a IH]; cbn; auto. Qed.
Lemma settles_mapM {X A} (v : nat -> nat -> X -> res A) l os :
  Forall2 (fun x o => settles (fun f d => v f d x) o) l os ->
  settles (fun f d => mapM (v f d) l) (first os).
Proof.
  induction 1 as [|x o l os (f1 & d1 & H1) _ (f2 & d2 & H2)].
  - exists O, O. intros f d _ _. now exists [].
  - exists (f1 + f2)%nat, (d1 + d2)%nat. intros f d Hf Hd. cbn [mapM].
    specialize (H1 f d ltac:(lia) ltac:(lia)). specialize (H2 f d ltac:(lia) ltac:(lia)).
    destruct o as [|e|]; cbn [as_out first] in *.
    + destruct H1 as (r & ->). cbn [rbind]. destruct (first os); cbn [as_out] in *.
      * destruct H2 as (rs & ->). now exists (r :: rs).
      * now rewrite H2.
      * now rewrite H2.
    + now rewrite H1.
    + now rewrite H1.
Qed.

(** ** Leaves *)
Lemma reported_does E op t c st cz L p w : (forall fuel d, reported E op fuel (S d) t c st cz L p w) ->
  does E op t c st cz Report.
Proof. intros H. destruct (H O O) as (r & HV & _). exists r, O, 2%nat. exact HV. Qed.
Lemma reported_does' E op t c st cz L : (forall fuel d, exists p w, reported E op fuel (S d) t c st cz L p w) ->
  does E op t c st cz Report.
Proof. intros H. destruct (H O O) as (p & w & r & HV & _). exists r, O, 2%nat. exact HV. Qed.
Lemma raises_does E op t c st cz e : (forall fuel d, validate E op fuel (S d) t c st cz = Raise e) ->
  does E op t c st cz (Exception e).
Proof. intros H. exists O, 1%nat. intros f d _ Hd. destruct d; [lia|]. apply H. Qed.

Lemma trouble_does E op n t x o : trouble n t x o -> does E op (BTb t) x VNone (czv n) o.
Proof.
  intros H. destruct H as [t x Ht HV|x HL|x HL|x HC|t x -> Ht|x|x HN|x HN].
  - apply raises_does. intros. apply res_raises; [|exact HV]. destruct Ht as [<-|[<-|[]]]; auto.
  - apply raises_does. intros. now apply uuid_short_raises.
  - apply raises_does. intros. apply ulst_raises. lia.
  - apply raises_does. intros. now apply siz_raises.
  - apply raises_does. intros. cbn [czv]. apply no_csiz_raises. cbn in Ht |- *. intuition.
  - apply raises_does. intros. rewrite validate_S.
    match goal with |- context [runMethod ?E ?rec ?fuel ?f] =>
      change (runMethod E rec fuel f) with (validate_tilePart rec fuel f) end.
    unfold validate_tilePart. reflexivity.
  - exists 1%nat. intros f d Hd. destruct (ipl_diverges E op f d x VNone (czv n) m_PLT 3 (or_introl eq_refl) HN) as [H|H]; [exact H|lia].
  - exists 1%nat. intros f d Hd. destruct (ipl_diverges E op f d x VNone (czv n) m_PLM 4 (or_intror eq_refl) HN) as [H|H]; [exact H|lia].
Qed.

Lemma smooth_does E op n t c : ~ In t (t_jp2c :: supers) -> (t = t_ftyp \/ t = t_cmap -> small c) ->
  (forall o, ~ trouble n t c o) -> does E op (BTb t) c VNone (czv n) Report.
Proof.
  intros HN HL HT.
  Ltac case_k t k := let H := fresh "N" in destruct (bytes_eqb t k) eqn:H;
        [apply bytes_eqb_spec in H; subst t|apply bytes_eqb_neq in H].
  case_k t t_sig. { eapply reported_does; intros; apply sig_says. }
  case_k t t_ftyp. { eapply reported_does; intros; apply ftyp_says; apply HL; now left. }
  case_k t t_ihdr. { eapply reported_does; intros; apply ihdr_says. }
  case_k t t_bpcc. { eapply reported_does; intros; apply bpcc_says. }
  case_k t t_colr. { eapply reported_does; intros; apply colr_says. }
  case_k t t_pclr. { eapply reported_does; intros; apply pclr_says. }
  case_k t t_cmap. { eapply reported_does; intros; apply cmap_says; apply HL; now right. }
  case_k t t_cdef. { eapply reported_does; intros; apply cdef_says. }
  case_k t t_resc. { destruct (Z.eq_dec (val c 2 2) 0), (Z.eq_dec (val c 6 2) 0);
    try (exfalso; eapply HT; apply tr_res; [now left|tauto]). eapply reported_does; intros; now apply resc_says. }
  case_k t t_resd. { destruct (Z.eq_dec (val c 2 2) 0), (Z.eq_dec (val c 6 2) 0);
    try (exfalso; eapply HT; apply tr_res; [right; now left|tauto]). eapply reported_does; intros; now apply resd_says. }
  case_k t t_xml. { eapply reported_does'. intros fuel d. destruct (xml_says E op fuel (S d) c VNone (czv n)) as (C & _ & H). eauto. }
  case_k t t_uuid. { destruct (Z_lt_le_dec (len c) 16) as [H|H]; [exfalso; eapply HT; now apply tr_uuid|].
    destruct (bytes_eqb (sub c 0 16) xmp_uuid) eqn:EB.
    - apply bytes_eqb_spec in EB. eapply reported_does'. intros fuel d.
      destruct (uuid_xmp_says E op fuel (S d) c VNone (czv n) EB) as (C & _ & H'). eauto.
    - apply bytes_eqb_neq in EB. eapply reported_does. intros. now apply uuid_other_says. }
  case_k t t_ulst. { destruct (Z_lt_le_dec (len c) (val c 0 2 * 16 + 2)) as [H|H]; [exfalso; eapply HT; apply tr_ulst; lia|].
    eapply reported_does; intros; now apply ulst_says. }
  case_k t t_url. { eapply reported_does'. intros fuel d. destruct (url_says E op fuel (S d) c VNone (czv n)) as (C & _ & H). eauto. }
  case_k t m_SIZ. { destruct (siz_capability (val c 2 2)) as [cap|] eqn:HC; [|exfalso; eapply HT; now apply tr_siz].
    eapply reported_does; intros; apply (siz_says E op _ _ c VNone (czv n) cap HC). }
  case_k t m_COD. { eapply reported_does; intros; apply cod_says. }
  case_k t m_QCD. { eapply reported_does; intros; apply qcd_says. }
  case_k t m_COM. { eapply reported_does'. intros fuel d. destruct (com_says E op fuel (S d) c VNone (czv n)) as (C & _ & H). eauto. }
  case_k t m_CAP. { eapply reported_does; intros; apply cap_says. }
  case_k t m_PRF. { eapply reported_does; intros; apply prf_says. }
  case_k t m_CPF. { eapply reported_does; intros; apply cpf_says. }
  case_k t m_PLT. { destruct (entries_dec (val c 0 2 - 3) (skipn 3 c)) as [HE|HE]; [|exfalso; eapply HT; now apply tr_plt].
    apply (accepted_ipl E op m_PLT 3 c VNone (czv n) (or_introl eq_refl)) in HE. destruct HE as (r & HG & _). now exists r. }
  case_k t m_PLM. { destruct (entries_dec (val c 0 2 - 4) (skipn 4 c)) as [HE|HE]; [|exfalso; eapply HT; now apply tr_plm].
    apply (accepted_ipl E op m_PLM 4 c VNone (czv n) (or_intror eq_refl)) in HE. destruct HE as (r & HG & _). now exists r. }
  Ltac no_n HT n := destruct n as [k|]; [|exfalso; eapply HT; apply tr_comps; [reflexivity|cbn; tauto]].
  case_k t m_COC. { no_n HT n. eapply reported_does; intros; apply coc_says. }
  case_k t m_QCC. { no_n HT n. eapply reported_does; intros; apply qcc_says. }
  case_k t m_RGN. { no_n HT n. eapply reported_does; intros; apply rgn_says. }
  case_k t m_POC. { no_n HT n. eapply reported_does; intros; apply poc_says. }
  case_k t m_CRG. { no_n HT n. eapply reported_does; intros; apply crg_says. }
  case_k t m_SOT. { exfalso. eapply HT. apply tr_sot. }
  case_k t tagJP2I. { eapply reported_does; intros; apply ipr_says. }
  case_k t mTLM. { eapply reported_does; intros; apply tlm_says. }
  case_k t mPPM. { eapply reported_does; intros; apply ppm_says. }
  case_k t mPPT. { eapply reported_does; intros; apply ppt_says. }
  eapply reported_does; intros; apply unknown_says. cbn [boxTypeOf]. rewrite assoc_b_none; [reflexivity|].
  cbn [In] in HN.
  intros p Hp ->. unfold typeMap_b in Hp.
  repeat (destruct Hp as [<-|Hp]; [cbn [fst] in *; congruence || (unfold supers in HN; cbn [In] in HN; tauto)|]). destruct Hp.
Qed.

Lemma leaf_does E op n t c o : ~ In t (t_jp2c :: supers) -> (t = t_ftyp \/ t = t_cmap -> small c) ->
  leaf_out n t c o -> does E op (BTb t) c VNone (czv n) o.
Proof. intros HN HL [H|(-> & H)]; [now apply trouble_does|now apply smooth_does]. Qed.

Lemma trouble_dec n t x : (exists o, trouble n t x o) \/ (forall o, ~ trouble n t x o).
Proof.
  assert (D : forall P Q : Prop, P \/ ~ P -> (P -> Q) -> (~ P -> Q) -> Q) by tauto.
  assert (DT : forall k : list bytes, In t k \/ ~ In t k) by (intros k; destruct (in_dec (list_eq_dec Byte.byte_eq_dec) t k); auto).
  assert (DE : forall k : bytes, t = k \/ t <> k) by (intros k; destruct (list_eq_dec Byte.byte_eq_dec t k); auto).
  destruct (DT [t_resc; t_resd]) as [H|H0].
  { destruct (Z.eq_dec (val x 2 2) 0), (Z.eq_dec (val x 6 2) 0); try (left; eexists; apply tr_res; [exact H|tauto]).
    right. intros o HT. destruct H as [<-|[<-|[]]]; inversion HT; try tauto; subst; cbn in *; intuition discriminate. }
  destruct (DE t_uuid) as [->|H1].
  { destruct (Z_lt_le_dec (len x) 16); [left; eexists; now apply tr_uuid|].
    right. intros o HT. inversion HT; try lia; subst; cbn in *; intuition discriminate. }
  destruct (DE t_ulst) as [->|H2].
  { destruct (Z_lt_le_dec (len x) (2 + 16 * val x 0 2)); [left; eexists; now apply tr_ulst|].
    right. intros o HT. inversion HT; try lia; subst; cbn in *; intuition discriminate. }
  destruct (DE m_SIZ) as [->|H3].
  { destruct (siz_capability (val x 2 2)) eqn:HC; [|left; eexists; now apply tr_siz].
    right. intros o HT. inversion HT; try congruence; subst; cbn in *; intuition discriminate. }
  destruct (DT [m_COC; m_QCC; m_RGN; m_POC; m_CRG]) as [H|H4].
  { destruct n as [k|]; [|left; eexists; now apply tr_comps].
    right. intros o HT. inversion HT; try discriminate; subst; cbn in *; intuition discriminate. }
  destruct (DE m_SOT) as [->|H5]; [left; eexists; apply tr_sot|].
  destruct (DE m_PLT) as [->|H6].
  { destruct (entries_dec (val x 0 2 - 3) (skipn 3 x)) as [(es & HE)|HE]; [|left; eexists; now apply tr_plt].
    right. intros o HT. inversion HT as [| | | | | |? HX|]; try (eapply HX; exact HE); subst; cbn in *; intuition discriminate. }
  destruct (DE m_PLM) as [->|H7].
  { destruct (entries_dec (val x 0 2 - 4) (skipn 4 x)) as [(es & HE)|HE]; [|left; eexists; now apply tr_plm].
    right. intros o HT. inversion HT as [| | | | | | |? HX]; try (eapply HX; exact HE); subst; cbn in *; intuition discriminate. }
  right. intros o HT. inversion HT; subst; tauto.
Qed.
Lemma leaf_total n t x : exists o, leaf_out n t x o.
Proof. destruct (trouble_dec n t x) as [(o & H)|H]; [exists o; now left|exists Report; now right]. Qed.

(** ** Headers and tile parts *)
Lemma table_leaf tbl l k m x : tbl = main_markers \/ tbl = tile_markers -> In (k, m, x) (treated tbl l) ->
  ~ In m (t_jp2c :: supers) /\ m <> t_ftyp /\ m <> t_cmap.
Proof.
  intros HT HI. apply treated_in in HI.
  destruct HT as [-> | ->]; unfold main_markers, tile_markers in HI;
    repeat (destruct HI as [HI|HI]; [injection HI as <- <-; (split; [|split]; cbv; intuition congruence)|]); destruct HI.
Qed.
Lemma seg_does E op n tbl l os : tbl = main_markers \/ tbl = tile_markers ->
  Forall2 (seg_out n) (treated tbl l) os ->
  settles (fun f d => mapM (seg_child (validate E op f d) (VInt n)) (treated tbl l)) (first os).
Proof.
  intros HT H. apply (settles_mapM (fun f d x => seg_child (validate E op f d) (VInt n) x)).
  assert (HI : Forall (fun s => In s (treated tbl l)) (treated tbl l)) by now apply Forall_forall.
  revert H HI. generalize (treated tbl l) at 1 3 4. intros L H. induction H as [|[[k m] x] o L os H _ IH]; intros HI; constructor.
  - inversion HI as [|? ? HI1 _]; subst. destruct (table_leaf tbl l k m x HT HI1) as (H1 & H2 & H3).
    cbn [seg_out] in H. apply (leaf_does E op) in H; [|exact H1|tauto]. apply does_settles in H.
    destruct H as (f0 & d0 & H). exists f0, d0. intros f d Hf Hd. rewrite seg_child_eq. cbn [fst snd].
    specialize (H f d Hf Hd). destruct k; exact H.
  - apply IH. now inversion HI.
Qed.
Lemma seg_total n L : exists os, Forall2 (seg_out n) L os.
Proof.
  induction L as [|[[k m] x] L (os & IH)]; [now exists []|].
  destruct (leaf_total (match k with WithComponents => Some n | _ => None end) m x) as (o & H).
  exists (o :: os). now constructor.
Qed.

Lemma tile_does E op c p o : 0 <= p -> sub c p 2 = m_SOT -> tile_out c p o ->
  settles (fun f d => validate E op f d (BTb m_SOT) c (VInt p) (VInt (cs_csiz c))) o.
Proof.
  intros Hp HM (l & r & os & HA & HS & ->).
  apply (seg_does E op (cs_csiz c) tile_markers l os (or_intror eq_refl)) in HS.
  eapply (settles_ev _ _ _ (List.length l + 2) 1 1 HS). intros f d Hf Hd o' H. destruct d as [|d]; [lia|].
  destruct (tile_says_ok E op f d c p (cs_csiz c) l r Hp HM HA ltac:(lia)) as (r0 & _ & _ & HT).
  cbn [Nat.add]. destruct (mapM _ _) as [rs|e|].
  - destruct HT as (res & HV & _). destruct o'; cbn [as_out] in *; [now exists res|discriminate|discriminate].
  - destruct o'; cbn [as_out] in *; [destruct H; discriminate|congruence|discriminate].
  - destruct o'; cbn [as_out] in *; [destruct H; discriminate|discriminate|congruence].
Qed.
Lemma tile_total c p : exists o, tile_out c p o.
Proof.
  destruct (after_total m_SOD (skipn (Z.to_nat p) c)) as (l & r & HA).
  destruct (seg_total (cs_csiz c) (treated tile_markers l)) as (os & HS). exists (first os), l, r, os. auto.
Qed.

(** ** Codestreams *)
Lemma cs_does E op t c st cz o : boxTypeOf t = "contiguousCodestreamBox" -> cs_out c o -> does E op t c st cz o.
Proof.
  intros Ht H. destruct H as [HN|HS HC|l rest ps os ts HSIZ HC HA HPS H1 H2].
  - destruct (cs_nosiz_ok E op O O t c st cz Ht HN) as (res & HV & _). exists res, O, 1%nat. exact HV.
  - exists O, 2%nat. intros f d _ Hd. destruct d as [|[|d]]; try lia. now apply cs_siz_raises.
  - destruct (siz_capability (val (cs_siz c) 2 2)) as [cap|] eqn:HCAP; [|contradiction]. clear HC.
    apply (seg_does E op (cs_csiz c) main_markers l os (or_introl eq_refl)) in H1.
    assert (H3 : settles (fun f d => mapM (fun p => validate E op f d (BTb m_SOT) c (VInt p) (VInt (cs_csiz c))) ps) (first ts)).
    { apply (settles_mapM (fun f d p => validate E op f d (BTb m_SOT) c (VInt p) (VInt (cs_csiz c)))).
      assert (HP : Forall (fun p => 0 <= p /\ sub c p 2 = m_SOT) ps)
        by (apply Forall_forall; intros p Hp; eapply parts_at; eassumption).
      clear -H2 HP. induction H2 as [|p o ps ts H _ IH]; constructor; inversion HP as [|? ? (Hp & HM) HP']; subst.
      - now apply tile_does.
      - now apply IH. }
    destruct H1 as (f1 & d1 & H1). destruct H3 as (f2 & d2 & H3). apply does_settles.
    exists (List.length c + 3 + f1 + f2)%nat, (3 + d1 + d2)%nat. intros f d Hf Hd. destruct d as [|[|[|d]]]; try lia.
    specialize (H1 f (S (S d)) ltac:(lia) ltac:(lia)). specialize (H3 f (S (S d)) ltac:(lia) ltac:(lia)).
    destruct (cs_says_ok E op f d t c st cz cap l rest ps Ht ltac:(lia) HSIZ HCAP HA HPS) as (rz & _ & _ & H).
    rewrite first_app. destruct (first os) as [|e|]; cbn [as_out] in *.
    + destruct H1 as (rs & HR). rewrite HR in H. destruct (first ts) as [|e|]; cbn [as_out] in *.
      * destruct H3 as (us & HU). rewrite HU in H. destruct H as (res & HV & _). now exists res.
      * now rewrite H3 in H.
      * now rewrite H3 in H.
    + now rewrite H1 in H.
    + now rewrite H1 in H.
Qed.
Lemma cs_out_total c : chained c -> exists o, cs_out c o.
Proof.
  intros HC. destruct (list_eq_dec Byte.byte_eq_dec (sub (cs_second c) 0 2) m_SIZ) as [HS|HS]; [|exists Report; now apply out_nosiz].
  destruct (siz_capability (val (cs_siz c) 2 2)) as [cap|] eqn:HCAP; [|eexists; now apply out_siz].
  destruct (after_total m_SOT (cs_second c)) as (l & rest & HA). destruct (HC l rest HA) as (ps & HPS).
  destruct (seg_total (cs_csiz c) (treated main_markers l)) as (os & H1).
  assert (H2 : exists ts, Forall2 (tile_out c) ps ts).
  { clear HPS. induction ps as [|p ps (ts & IH)]; [now exists []|]. destruct (tile_total c p) as (o & H). exists (o :: ts). now constructor. }
  destruct H2 as (ts & H2). exists (first (os ++ ts)). eapply out_parts; try eassumption. congruence.
Qed.

(** ** Boxes and files *)
Lemma super_does E op t c st cz bs os (claim : list bv -> bv -> Prop) :
  (forall fuel d, (List.length bs < fuel)%nat ->
   match mapM (child (validate E op fuel d)) bs with
   | Ok rs => exists r, validate E op fuel (S d) t c st cz = Ok r /\ claim rs r
   | Raise e => validate E op fuel (S d) t c st cz = Raise e
   | Diverge => validate E op fuel (S d) t c st cz = Diverge
   end) ->
  Forall2 (fun b o => does E op (BTb (fst b)) (snd b) VNone VNone o) bs os -> does E op t c st cz (first os).
Proof.
  intros HCF H. apply does_settles.
  assert (HM : settles (fun f d => mapM (child (validate E op f d)) bs) (first os)).
  { apply (settles_mapM (fun f d b => child (validate E op f d) b)). clear -H.
    induction H as [|b o bs os H _ IH]; constructor; [|exact IH]. now apply does_settles in H. }
  eapply (settles_ev _ _ _ (S (List.length bs)) 0 1 HM). intros f d Hf _ o' HO.
  specialize (HCF f d ltac:(lia)). cbn [Nat.add]. destruct (mapM _ bs) as [rs|e|].
  - destruct HCF as (res & HV & _). destruct o'; cbn [as_out] in *; [now exists res|discriminate|discriminate].
  - destruct o'; cbn [as_out] in *; [destruct HO; discriminate|congruence|discriminate].
  - destruct o'; cbn [as_out] in *; [destruct HO; discriminate|discriminate|congruence].
Qed.

Lemma box_does E op : forall k b o, len (snd b) < Z.of_nat k -> small (snd b) -> box_out b o ->
  does E op (BTb (fst b)) (snd b) VNone VNone o.
Proof.
  induction k as [|k IH]; intros b o Hk Hs H; [pose proof (len_nonneg (snd b)); lia|].
  destruct H as [t x o HN HO|t x bs os Ht HS HB|x o HC]; cbn [fst snd] in *.
  - now apply (leaf_does E op None).
  - assert (HK : Forall2 (fun b o => does E op (BTb (fst b)) (snd b) VNone VNone o) bs os).
    { pose proof (splits_inside _ _ HS) as HI. clear -HB HI IH Hk Hs.
      induction HB as [|b o bs os H _ IHb]; constructor; inversion HI; subst.
      - apply IH; [lia|unfold small in *; lia|exact H].
      - now apply IHb. }
    destruct Ht as [<-|[<-|[<-|[]]]].
    + eapply super_does; [|exact HK]. intros fuel d HF. pose proof (jp2h_says E op fuel d x VNone VNone bs HS HF) as H.
      instantiate (1 := fun _ _ => True). destruct (mapM _ bs); try exact H. destruct H as (r & H & _). eauto.
    + eapply super_does; [|exact HK]. intros fuel d HF. pose proof (res_super_says E op fuel d x VNone VNone bs HS HF) as H.
      instantiate (1 := fun _ _ => True). destruct (mapM _ bs); try exact H. destruct H as (r & H & _). eauto.
    + eapply super_does; [|exact HK]. intros fuel d HF. pose proof (uinf_says E op fuel d x VNone VNone bs HS HF) as H.
      instantiate (1 := fun _ _ => True). destruct (mapM _ bs); try exact H. destruct H as (r & H & _). eauto.
  - now apply cs_does.
Qed.
Lemma file_does E op c o : small c -> file_out c o -> does E op (BTs "JP2") c VNone VNone o.
Proof.
  intros Hs (bs & os & HS & HB & ->). destruct (headers_total bs) as (hs & HH).
  assert (HK : Forall2 (fun b o => does E op (BTb (fst b)) (snd b) VNone VNone o) bs os).
  { pose proof (splits_inside _ _ HS) as HI. clear -HB HI Hs.
    induction HB as [|b o bs os H _ IHb]; constructor; inversion HI; subst.
    - destruct b as (u, v). apply (box_does E op (Z.to_nat (len v + 1)) (u, v)); cbn [snd] in *; [|unfold small in *; lia|exact H].
      pose proof (len_nonneg v). lia.
    - now apply IHb. }
  eapply super_does; [|exact HK]. intros fuel d HF. pose proof (jp2_says E op fuel d c VNone VNone bs hs HS HH HF) as H.
  instantiate (1 := fun _ _ => True). destruct (mapM _ bs); try exact H. destruct H as (r & b & H & _). eauto.
Qed.

Lemma box_total : forall k b, len (snd b) < Z.of_nat k ->
  (forall y, (fst b = t_jp2c /\ y = snd b) \/ (In (fst b) supers /\ inbox (snd b) (t_jp2c, y)) -> chained y) ->
  exists o, box_out b o.
Proof.
  induction k as [|k IH]; intros (t, x) Hk HC; cbn [fst snd] in *; [pose proof (len_nonneg x); lia|].
  destruct (list_eq_dec Byte.byte_eq_dec t t_jp2c) as [->|H1].
  { destruct (cs_out_total x) as (o & HO); [apply HC; now left|]. exists o. now apply out_cs. }
  destruct (in_dec (list_eq_dec Byte.byte_eq_dec) t supers) as [H2|H2].
  - destruct (splits_total x) as (bs & HS).
    assert (HB : forall l, incl l bs -> exists os, Forall2 box_out l os).
    { pose proof (splits_inside _ _ HS) as HI. rewrite Forall_forall in HI.
      induction l as [|b l IHl]; intros HL; [now exists []|]. destruct IHl as (os & IHl); [intros y Hy; apply HL; now right|].
      assert (Hb : In b bs) by (apply HL; now left).
      destruct (IH b) as (o & HO); [specialize (HI b Hb); lia| |exists (o :: os); now constructor].
      intros y [(Hy & ->)|(Hy & Hin)]; apply HC; right; (split; [exact H2|]).
      - apply inbox_here with bs; [exact HS|]. destruct b. cbn in *. now subst.
      - destruct b as (s, z). cbn in *. apply inbox_trans with s z; auto. now apply inbox_here with bs. }
    destruct (HB bs (fun _ H => H)) as (os & HO). exists (first os). now apply out_super with bs.
  - destruct (leaf_total None t x) as (o & HO). exists o. apply out_leaf; [|exact HO]. intros [H|H]; [now apply H1|contradiction].
Qed.
Lemma file_total c : (forall y, inbox c (t_jp2c, y) -> chained y) -> exists o, file_out c o.
Proof.
  intros HC. destruct (splits_total c) as (bs & HS).
  assert (HB : forall l, incl l bs -> exists os, Forall2 box_out l os).
  { induction l as [|b l IHl]; intros HL; [now exists []|]. destruct IHl as (os & IHl); [intros y Hy; apply HL; now right|].
    assert (Hb : In b bs) by (apply HL; now left).
    destruct b as (u, v). destruct (box_total (Z.to_nat (len v + 1)) (u, v)) as (o & HO); [pose proof (len_nonneg v); cbn [snd]; lia| |exists (o :: os); now constructor].
    cbn [fst snd]. intros y [(-> & ->)|(Hy & Hin)]; apply HC.
    - now apply inbox_here with bs.
    - apply inbox_trans with u v; auto. now apply inbox_here with bs. }
  destruct (HB bs (fun _ H => H)) as (os & HO). exists (first os), bs, os. auto.
Qed.
