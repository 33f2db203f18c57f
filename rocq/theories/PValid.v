(** * The verdict, completely *)

From Coq Require Import ZArith List Bool String Lia.
From Coq Require Import ZifyBool.
From Coq Require Import Init.Byte.
From Verif Require Import Py PyFloat ByteConv ETree BV VBoxes VMarkers VSuper Spec SpecBox SpecMarker SpecIPL
     SpecWalk SpecSuper SpecCS SpecFile SpecTop SpecValid PBase PEmit PLeaf PLeaf2 PMarker PMarker2 PWalk PSuper PSeg PTile
     PChain PCS PGrow PIPL PFile PTop.
Import ListNotations.
Open Scope string_scope.
Open Scope list_scope.
Open Scope Z_scope.

Definition accepted E op t c st cz : Prop := exists r, gives E op t c st cz r /\ all_pass (r_tests r).

Lemma accepted_iff E op t c st cz L p w :
  (forall fuel d, reported E op fuel (S d) t c st cz L p w) ->
  (accepted E op t c st cz <-> holds L).
Proof.
  intros H. destruct (H O O) as (r & HV & HS & _). assert (HG : gives E op t c st cz r) by (now exists O, 2%nat).
  split.
  - intros (r' & HG' & HP). rewrite <- (gives_fun _ _ _ _ _ _ _ _ HG HG') in HP. now apply (says_pass _ _ _ _ _ _ HS).
  - intros HL. exists r. split; [exact HG|]. now apply (says_pass _ _ _ _ _ _ HS).
Qed.
Lemma never_accepted E op t c st cz : (forall r fuel d, validate E op fuel (S d) t c st cz <> Ok r) -> ~ accepted E op t c st cz.
Proof.
  intros H (r & HG & _). destruct (gives_at _ _ _ _ _ _ _ O 1 HG) as (f & d & _ & Hd & HV).
  destruct d; [lia|]. now apply H in HV.
Qed.

Definition czv (n : option Z) : value := match n with Some k => VInt k | None => VNone end.


Lemma accepted_never E op t c st cz (P : Prop) :
  (forall r fuel d, validate E op fuel (S d) t c st cz <> Ok r) -> ~ P -> (accepted E op t c st cz <-> P).
Proof. intros H HP. split; [intros HA; destruct (never_accepted _ _ _ _ _ _ H HA)|contradiction]. Qed.

Lemma accepted_res E op t c st cz x : (t, x) = (t_resc, "c") \/ (t, x) = (t_resd, "d") ->
  (accepted E op (BTb t) c st cz <-> holds (res_tests x c)).
Proof.
  intros Ht. assert (Ht' : t = tagRESC \/ t = tagRESD) by (destruct Ht as [H|H]; injection H as -> _; auto).
  destruct (Z.eq_dec (val c 2 2) 0) as [E1|E1]; [|destruct (Z.eq_dec (val c 6 2) 0) as [E2|E2]].
  1-2: apply accepted_never; [intros r fuel d; rewrite res_raises by auto; discriminate|];
       unfold res_tests; holds; lia.
  destruct Ht as [H|H]; injection H as -> ->; eapply accepted_iff; intros; [now apply resc_says|now apply resd_says].
Qed.

Lemma accepted_ex E op t c st cz L :
  (forall fuel d, exists p w, reported E op fuel (S d) t c st cz L p w) ->
  (accepted E op t c st cz <-> holds L).
Proof.
  intros H. destruct (H O O) as (p & w & r & HV & HS & _). assert (HG : gives E op t c st cz r) by (now exists O, 2%nat).
  split.
  - intros (r' & HG' & HP). rewrite <- (gives_fun _ _ _ _ _ _ _ _ HG HG') in HP. now apply (says_pass _ _ _ _ _ _ HS).
  - intros HL. exists r. split; [exact HG|]. now apply (says_pass _ _ _ _ _ _ HS).
Qed.
Lemma accepted_always E op t c st cz p w :
  (forall fuel d, reported E op fuel (S d) t c st cz [] p w) -> (accepted E op t c st cz <-> True).
Proof. intros H. rewrite (accepted_iff _ _ _ _ _ _ _ _ _ H). apply holds_nil. Qed.

Lemma accepted_uuid E op c st cz : accepted E op (BTb t_uuid) c st cz <-> holds (uuid_tests (xml_parse E) c).
Proof.
  change t_uuid with tagUUID. unfold uuid_tests.
  destruct (bytes_eqb (sub c 0 16) xmp_uuid) eqn:EB.
  - apply bytes_eqb_spec in EB. apply accepted_ex. intros fuel d.
    destruct (uuid_xmp_says E op fuel (S d) c st cz EB) as (C & _ & H). eauto.
  - apply bytes_eqb_neq in EB. destruct (Z_lt_le_dec (len c) 16) as [HL|HL].
    + apply accepted_never; [intros r fuel d; rewrite uuid_short_raises by auto; discriminate|]. holds. lia.
    + eapply accepted_iff. intros. now apply uuid_other_says.
Qed.

Lemma accepted_ipl E op t o c st cz : (t, o) = (mPLT, 3) \/ (t, o) = (mPLM, 4) ->
  (accepted E op (BTb t) c st cz <-> exists es, entries (val c 0 2 - o) (skipn (Z.to_nat o) c) es).
Proof.
  intros Ht. split.
  - intros HA. destruct (entries_dec (val c 0 2 - o) (skipn (Z.to_nat o) c)) as [HE|HE]; [exact HE|].
    exfalso. revert HA. apply never_accepted. intros r fuel d HV.
    destruct (ipl_diverges E op fuel (S d) c st cz t o Ht HE) as [HD|HD]; congruence.
  - intros (es & HE).
    assert (HR : exists p w, reported E op (S (List.length c)) 0 (BTb t) c st cz [] p w).
    { destruct Ht as [H|H]; injection H as -> ->; do 2 eexists;
        [apply plt_says with (es := es)|apply plm_says with (es := es)]; try exact HE; unfold len; lia. }
    destruct HR as (p & w & r & HV & HS & _). exists r. split; [now exists (S (List.length c)), 1%nat|].
    apply (says_pass _ _ _ _ _ _ HS). constructor.
Qed.

Lemma assoc_b_none k l : (forall p, In p l -> k <> fst p) -> assoc_b k l = None.
Proof.
  induction l as [|[k' v] l IH]; intros H; cbn; [reflexivity|].
  destruct (bytes_eqb k k') eqn:EB; [apply bytes_eqb_spec in EB; now destruct (H (k', v) (or_introl eq_refl))|].
  apply IH. intros p Hp. apply H. now right.
Qed.

Lemma need_spec E op n t c :
  ~ In t [t_jp2h; t_res; t_uinf; t_jp2c] -> (t = t_ftyp \/ t = t_cmap -> len c < 2 ^ 53) ->
  (accepted E op (BTb t) c VNone (czv n) <-> need E (o_format op) n t c).
Proof.
  intros HN HL. unfold need. cbv zeta.
  Ltac case_t t := match goal with
    | |- _ <-> (if bytes_eqb t ?k then _ else _) =>
        let H := fresh "N" in destruct (bytes_eqb t k) eqn:H;
        [apply bytes_eqb_spec in H; subst t|apply bytes_eqb_neq in H] end.
  case_t t. { eapply accepted_iff; intros; apply sig_says. }
  case_t t. { eapply accepted_iff; intros; apply ftyp_says; auto. }
  case_t t. { eapply accepted_iff; intros; apply ihdr_says. }
  case_t t. { eapply accepted_iff; intros; apply bpcc_says. }
  case_t t. { eapply accepted_iff; intros; apply colr_says. }
  case_t t. { eapply accepted_iff; intros; apply pclr_says. }
  case_t t. { eapply accepted_iff; intros; apply cmap_says; auto. }
  case_t t. { eapply accepted_iff; intros; apply cdef_says. }
  case_t t. { apply accepted_res; auto. }
  case_t t. { apply accepted_res; auto. }
  case_t t. { apply accepted_ex. intros fuel d. destruct (xml_says E op fuel (S d) c VNone (czv n)) as (C & _ & H). eauto. }
  case_t t. { apply accepted_uuid. }
  case_t t. { destruct (Z_lt_le_dec (len c) (val c 0 2 * 16 + 2)) as [H|H].
    - apply accepted_never; [intros r fuel d; change t_ulst with tagULST; rewrite ulst_raises by auto; discriminate|].
      unfold ulst_tests. holds. lia.
    - eapply accepted_iff; intros; now apply ulst_says. }
  case_t t. { apply accepted_ex. intros fuel d. destruct (url_says E op fuel (S d) c VNone (czv n)) as (C & _ & H). eauto. }
  case_t t. { destruct (siz_capability (val c 2 2)) as [cap|] eqn:HC.
    - rewrite (accepted_iff E op (BTb m_SIZ) c VNone (czv n) (siz_tests (o_format op) c) (leaves (siz_props cap c)) []).
      + split; [split; [discriminate|assumption]|tauto].
      + intros. now apply siz_says.
    - apply accepted_never; [intros r fuel d; change m_SIZ with mSIZ; rewrite siz_raises by auto; discriminate|]. tauto. }
  case_t t. { eapply accepted_iff; intros; apply cod_says. }
  case_t t. { eapply accepted_iff; intros; apply qcd_says. }
  case_t t. { apply accepted_ex. intros fuel d. destruct (com_says E op fuel (S d) c VNone (czv n)) as (C & _ & H). eauto. }
  case_t t. { eapply accepted_iff; intros; apply cap_says. }
  case_t t. { eapply accepted_iff; intros; apply prf_says. }
  case_t t. { eapply accepted_iff; intros; apply cpf_says. }
  case_t t. { apply (accepted_ipl E op m_PLT 3). now left. }
  case_t t. { apply (accepted_ipl E op m_PLM 4). now right. }
  Ltac no_comps := apply accepted_never; [|tauto]; intros r fuel d; cbn [czv];
      match goal with |- validate _ _ _ _ ?t _ _ _ <> _ => rewrite no_csiz_raises; [discriminate|cbn; tauto] end.
  case_t t. { destruct n as [k|]; [|no_comps]. eapply accepted_iff; intros; apply coc_says. }
  case_t t. { destruct n as [k|]; [|no_comps]. eapply accepted_iff; intros; apply qcc_says. }
  case_t t. { destruct n as [k|]; [|no_comps]. eapply accepted_iff; intros; apply rgn_says. }
  case_t t. { destruct n as [k|]; [|no_comps]. eapply accepted_iff; intros; apply poc_says. }
  case_t t. { destruct n as [k|]; [|no_comps]. eapply accepted_iff; intros; apply crg_says. }
  case_t t. { apply accepted_never; [|tauto]. intros r fuel d. rewrite validate_S.
    match goal with |- context [runMethod ?E ?rec ?fuel ?f] =>
      change (runMethod E rec fuel f) with (validate_tilePart rec fuel f) end.
    unfold validate_tilePart. cbn. discriminate. }
  destruct (bytes_eqb t tagJP2I) eqn:K; [apply bytes_eqb_spec in K; subst t; eapply accepted_always; intros; apply ipr_says|].
  destruct (bytes_eqb t mTLM) eqn:K1; [apply bytes_eqb_spec in K1; subst t; eapply accepted_always; intros; apply tlm_says|].
  destruct (bytes_eqb t mPPM) eqn:K2; [apply bytes_eqb_spec in K2; subst t; eapply accepted_always; intros; apply ppm_says|].
  destruct (bytes_eqb t mPPT) eqn:K3; [apply bytes_eqb_spec in K3; subst t; eapply accepted_always; intros; apply ppt_says|].
  apply bytes_eqb_neq in K, K1, K2, K3.
  eapply accepted_always; intros; apply unknown_says. cbn [boxTypeOf]. rewrite assoc_b_none; [reflexivity|].
  cbn [In] in HN.
  intros p Hp ->. unfold typeMap_b in Hp.
  repeat (destruct Hp as [<-|Hp]; [cbn [fst] in *; congruence || tauto|]). destruct Hp.
Qed.

(** ** Lists *)
Lemma fwd_all {X} (G : X -> bv -> Prop) (P : X -> Prop) (l : list X) :
  (forall x, In x l -> P x -> exists r, G x r /\ all_pass (r_tests r)) -> Forall P l ->
  exists rs, Forall2 G l rs /\ Forall (fun r => all_pass (r_tests r)) rs.
Proof.
  intros H HP. induction HP as [|x l Hx HP IH]; [exists []; split; constructor|].
  destruct (H x (or_introl eq_refl) Hx) as (r & HG & HR). destruct IH as (rs & H1 & H2); [intros y Hy; apply H; now right|].
  exists (r :: rs). split; now constructor.
Qed.
Lemma bwd_all {X} (G : X -> bv -> Prop) (P : X -> Prop) (l : list X) rs :
  (forall x r, In x l -> G x r -> all_pass (r_tests r) -> P x) ->
  Forall2 G l rs -> Forall (fun r => all_pass (r_tests r)) rs -> Forall P l.
Proof.
  intros H HG. induction HG as [|x r l rs HX HG IH]; intros HR; [constructor|]. inversion HR; subst.
  constructor; [eapply H; [now left|exact HX|assumption]|]. apply IH; [|assumption]. intros y r' Hy. apply H. now right.
Qed.

(** ** Marker segments of headers *)
Lemma lookup_in m tbl k : lookup m tbl = Some k -> In (m, k) tbl.
Proof.
  unfold lookup. destruct (List.find _ tbl) as [[m' k']|] eqn:EF; [|discriminate]. intros H. injection H as <-.
  apply find_some in EF. destruct EF as (HI & HE). cbn in HE. apply bytes_eqb_spec in HE. now subst m'.
Qed.
Lemma treated_in tbl l k m x : In (k, m, x) (treated tbl l) -> In (m, k) tbl.
Proof.
  unfold treated. rewrite in_flat_map. intros ((m', x') & _ & H).
  destruct (lookup m' tbl) as [t|] eqn:EL; [|destruct H]. destruct H as [H|[]]. injection H as -> -> ->. now apply lookup_in.
Qed.
Lemma seg_spec E op n tbl l s : tbl = main_markers \/ tbl = tile_markers -> In s (treated tbl l) ->
  ((exists r, seg_gives E op n s r /\ all_pass (r_tests r)) <-> seg_ok E (o_format op) n s).
Proof.
  intros HT HI. destruct s as [[k m] x]. apply treated_in in HI. unfold seg_ok, seg_gives. cbn [fst snd].
  assert (HM : ~ In m [t_jp2h; t_res; t_uinf; t_jp2c] /\ m <> t_ftyp /\ m <> t_cmap).
  { destruct HT as [-> | ->]; unfold main_markers, tile_markers in HI;
      repeat (destruct HI as [HI|HI]; [injection HI as <- <-; (split; [|split]; cbv; intuition congruence)|]); destruct HI. }
  destruct HM as (HM1 & HM2 & HM3).
  rewrite <- (need_spec E op) by tauto. unfold accepted.
  destruct k; reflexivity.
Qed.

(** ** Tile parts *)
Lemma tile_spec E op c n p : 0 <= p -> sub c p 2 = m_SOT ->
  ((exists r, tile_of E op c n p r /\ all_pass (r_tests r)) <-> tile_valid E (o_format op) c n p).
Proof.
  intros Hp HM. split.
  - intros (r & HG & HP). destruct (after_total m_SOD (skipn (Z.to_nat p) c)) as (l & rr & HA).
    destruct (tile_gives E op c p n l rr r Hp HM HA HG) as (r0 & rs & H0 & HR0 & HS & HT).
    apply (tile_pass _ _ _ _ _ _ _ _ _ HT HR0) in HP.
    2:{ now apply (Forall2_node E op (fun x => BTb (snd (fst x))) snd (fun _ => VNone)
      (fun x => match fst (fst x) with WithComponents => VInt n | _ => VNone end) (treated tile_markers l)). }
    destruct HP as (P1 & P2 & P3). exists l, rr. repeat (split; [assumption|]). split; [|exact P3].
    eapply bwd_all; [|exact HS|exact P2]. intros s rs0 Hs Hg Hps. apply (seg_spec E op n tile_markers l); eauto.
  - intros (l & rr & HA & P1 & P2 & P3).
    destruct (fwd_all (seg_gives E op n) (seg_ok E (o_format op) n) (treated tile_markers l)) as (rs & HG & HR); [|exact P2|].
    { intros s Hs Ho. apply (seg_spec E op n tile_markers l); auto. }
    destruct (tile_fwd E op c p n l rr rs Hp HM HA HG) as (r0 & r & HV & HR0 & HT).
    exists r. split; [exact HV|]. apply (tile_pass _ _ _ _ _ _ _ _ _ HT HR0); [|auto].
    now apply (Forall2_node E op (fun x => BTb (snd (fst x))) snd (fun _ => VNone)
      (fun x => match fst (fst x) with WithComponents => VInt n | _ => VNone end) (treated tile_markers l)).
Qed.

(** ** Codestreams *)
Lemma chain_at n c p ps : chain n c p ps -> forall q, In q ps -> 0 <= q /\ sub c q 2 = m_SOT.
Proof. induction 1; intros q Hq; [destruct Hq| |]; (destruct Hq as [<-|Hq]; [auto|]); [destruct Hq|auto]. Qed.
Lemma parts_at c rest ps q : parts c rest ps -> In q ps -> 0 <= q /\ sub c q 2 = m_SOT.
Proof. destruct rest; [intros H; now apply (chain_at _ _ _ _ H)|]. intros H. cbn in H. subst ps. intros []. Qed.

Lemma cs_spec E op t c st cz : boxTypeOf t = "contiguousCodestreamBox" ->
  (accepted E op t c st cz <-> codestream_ok E (o_format op) c).
Proof.
  intros Ht. split.
  - intros (r & HG & HP). destruct (cs_valid_inv _ _ _ _ _ _ _ Ht HG HP) as (cap & l & rest & ps & rz & rs & ts & HF).
    apply (cs_pass _ _ _ _ _ _ _ _ _ _ _ _ HF) in HP. destruct HP as (P1 & P2 & P3 & P4 & P5 & P6).
    destruct HF as (F1 & F2 & F3 & F4 & F5 & F6 & F7 & F8 & _).
    exists l, rest, ps. split; [exact F3|]. split; [exact F4|]. split; [exact P1|]. split; [|split; [|split; [|auto]]].
    + unfold need. cbn. rewrite F2. split; [discriminate|exact P2].
    + eapply bwd_all; [|exact F7|exact P3]. intros s r0 Hs Hg Hps. apply (seg_spec E op (cs_csiz c) main_markers l); eauto.
    + eapply bwd_all; [|exact F8|exact P4]. intros p r0 Hp Hg Hps. destruct (parts_at _ _ _ _ F4 Hp).
      apply (tile_spec E op); eauto.
  - intros (l & rest & ps & HA & HPS & P1 & P2 & P3 & P4 & P5 & P6).
    unfold need in P2. cbn in P2. destruct P2 as (HC & P2).
    destruct (siz_capability (val (cs_siz c) 2 2)) as [cap|] eqn:HCAP; [|contradiction].
    assert (HS : sub (cs_second c) 0 2 = m_SIZ) by (unfold cs_tests1 in P1; revert P1; holds; tauto).
    destruct (fwd_all (seg_gives E op (cs_csiz c)) (seg_ok E (o_format op) (cs_csiz c)) (treated main_markers l)) as (rs & HG & HR); [|exact P3|].
    { intros s Hs Ho. apply (seg_spec E op (cs_csiz c) main_markers l); auto. }
    destruct (fwd_all (tile_of E op c (cs_csiz c)) (tile_valid E (o_format op) c (cs_csiz c)) ps) as (ts & HGt & HRt); [|exact P4|].
    { intros p Hp Ho. destruct (parts_at _ _ _ _ HPS Hp). apply (tile_spec E op); auto. }
    destruct (cs_fwd E op t c st cz cap l rest ps rs ts Ht HS HCAP HA HPS HG HGt) as (rz & r & HV & HF).
    exists r. split; [exact HV|]. apply (cs_pass _ _ _ _ _ _ _ _ _ _ _ _ HF). auto 8.
Qed.

(** ** Boxes *)
Lemma splits_inside c bs : splits c bs -> Forall (fun b => len (snd b) < len c) bs.
Proof.
  assert (HP : forall s : bytes, s <> [] -> 0 < len s) by (intros [|x s] H; [contradiction|unfold len; cbn [List.length]; lia]).
  assert (HH : forall s, 8 <= box_header s) by (intros s; unfold box_header; destruct (_ =? _); lia).
  assert (HS : forall (s : bytes) o n, 8 <= o -> s <> [] -> len (sub s o n) < len s).
  { intros s o n Ho Hs. specialize (HP s Hs). destruct (Z_lt_le_dec n 0) as [L|L].
    - unfold sub. replace (Z.to_nat n) with O by lia. exact HP.
    - rewrite len_sub by lia. lia. }
  induction 1 as [|s HN HL|s HN HL|s bs HN HL H IH]; constructor; cbn [snd]; auto.
  - eapply Forall_impl; [|exact IH]. intros b Hb. eapply Z.lt_le_trans; [exact Hb|].
    unfold len. rewrite skipn_length. lia.
Qed.

Definition small (c : bytes) : Prop := len c < 2 ^ 53.
Definition box_accepted E op (b : bytes * bytes) : Prop := exists r, box_gives E op b r /\ all_pass (r_tests r).

Section Boxes.
Variables (E : env) (op : opts).
Let fmt := o_format op.

Lemma super_box t c bs (claim : list bv -> bv -> Prop) L :
  (forall r, gives E op t c VNone VNone r -> exists rs, Forall2 (box_gives E op) bs rs /\ claim rs r) ->
  (forall rs, Forall2 (box_gives E op) bs rs -> exists r, gives E op t c VNone VNone r /\ claim rs r) ->
  (forall rs r, claim rs r -> Forall (fun e => exists t k, e = node t k) (map r_tests rs) ->
     (all_pass (r_tests r) <-> Forall (fun r => all_pass (r_tests r)) rs /\ holds L)) ->
  (forall b, In b bs -> (box_accepted E op b <-> box_ok E fmt b)) ->
  (accepted E op t c VNone VNone <-> Forall (box_ok E fmt) bs /\ holds L).
Proof.
  intros HB HF HP HK. split.
  - intros (r & HG & HR). destruct (HB r HG) as (rs & H2 & HC). apply (HP rs r HC) in HR.
    2:{ now apply (Forall2_node E op (fun b => BTb (fst b)) snd (fun _ => VNone) (fun _ => VNone) bs). }
    destruct HR as (R1 & R2). split; [|exact R2]. eapply bwd_all; [|exact H2|exact R1].
    intros b r0 Hb Hg Hp. apply HK; [exact Hb|]. now exists r0.
  - intros (R1 & R2). destruct (fwd_all (box_gives E op) (box_ok E fmt) bs) as (rs & H1 & H2); [|exact R1|].
    { intros b Hb Ho. now apply HK. }
    destruct (HF rs H1) as (r & HG & HC). exists r. split; [exact HG|]. apply (HP rs r HC); [|auto].
    now apply (Forall2_node E op (fun b => BTb (fst b)) snd (fun _ => VNone) (fun _ => VNone) bs).
Qed.

Lemma kids_of c bs : small c -> splits c bs ->
  (forall b, len (snd b) < len c -> small (snd b) -> (box_accepted E op b <-> box_ok E fmt b)) ->
  forall b, In b bs -> (box_accepted E op b <-> box_ok E fmt b).
Proof.
  intros HC HS IH b Hb. pose proof (splits_inside _ _ HS) as HI. rewrite Forall_forall in HI. specialize (HI b Hb).
  apply IH; [exact HI|]. unfold small in *. lia.
Qed.

Lemma box_spec : forall n b, len (snd b) < n -> small (snd b) -> (box_accepted E op b <-> box_ok E fmt b).
Proof.
  enough (H : forall k b, len (snd b) < Z.of_nat k -> small (snd b) -> (box_accepted E op b <-> box_ok E fmt b)).
  { intros n b Hb. apply (H (Z.to_nat n)). pose proof (len_nonneg (snd b)). lia. }
  induction k as [|k IHk]; intros [t x] Hk Hs; cbn [snd] in *; [pose proof (len_nonneg x); lia|].
  assert (IH : forall b, len (snd b) < len x -> small (snd b) -> (box_accepted E op b <-> box_ok E fmt b)).
  { intros b Hb. apply IHk. lia. }
  clear IHk Hk. destruct (splits_total x) as (bs & HS). pose proof (kids_of x bs Hs HS IH) as HK.
  change (box_accepted E op (t, x)) with (accepted E op (BTb t) x VNone VNone).
  destruct (bytes_eqb t t_jp2h) eqn:E1; [apply bytes_eqb_spec in E1; subst t|].
  { rewrite (super_box (BTb t_jp2h) x bs (fun rs r => inner_says op "jp2HeaderBox" rs (jp2h_tests fmt bs) r) (jp2h_tests fmt bs)); auto.
    - split; [intros [H1 H2]; now apply ok_jp2h with bs|].
      intros H. inversion H as [? ? HN _|? bs' HS' H1 H2| | |]; subst; [destruct HN; cbn; auto|].
      rewrite (splits_unique _ _ HS _ HS'). auto.
    - intros r. now apply jp2h_gives.
    - intros rs. now apply jp2h_fwd.
    - intros rs r (HC & _). now apply (super_pass _ _ _ _ _ _ _ _ HC). }
  destruct (bytes_eqb t t_res) eqn:E2; [apply bytes_eqb_spec in E2; subst t|].
  { rewrite (super_box (BTb t_res) x bs (fun rs r => inner_says op "resolutionBox" rs (res_super_tests (map fst bs)) r) (res_super_tests (map fst bs))); auto.
    - split; [intros [H1 H2]; now apply ok_res with bs|].
      intros H. inversion H as [? ? HN _| |? bs' HS' H1 H2| |]; subst; [destruct HN; cbn; auto|].
      rewrite (splits_unique _ _ HS _ HS'). auto.
    - intros r. now apply res_gives.
    - intros rs. now apply res_fwd.
    - intros rs r (HC & _). now apply (super_pass _ _ _ _ _ _ _ _ HC). }
  destruct (bytes_eqb t t_uinf) eqn:E3; [apply bytes_eqb_spec in E3; subst t|].
  { rewrite (super_box (BTb t_uinf) x bs (fun rs r => inner_says op "uuidInfoBox" rs (uinf_tests (map fst bs)) r) (uinf_tests (map fst bs))); auto.
    - split; [intros [H1 H2]; now apply ok_uinf with bs|].
      intros H. inversion H as [? ? HN _| | |? bs' HS' H1 H2|]; subst; [destruct HN; cbn; auto|].
      rewrite (splits_unique _ _ HS _ HS'). auto.
    - intros r. now apply uinf_gives.
    - intros rs. now apply uinf_fwd.
    - intros rs r (HC & _). now apply (super_pass _ _ _ _ _ _ _ _ HC). }
  destruct (bytes_eqb t t_jp2c) eqn:E4; [apply bytes_eqb_spec in E4; subst t|].
  { rewrite (cs_spec E op (BTb t_jp2c) x VNone VNone) by reflexivity.
    split; [apply ok_cs|]. intros H. inversion H as [? ? HN _| | | |? HC]; subst; [destruct HN; cbn; auto|exact HC]. }
  apply bytes_eqb_neq in E1, E2, E3, E4.
  assert (HN : ~ In t [t_jp2h; t_res; t_uinf; t_jp2c]) by (cbn; intuition congruence).
  change VNone with (czv None) at 2. rewrite (need_spec E op None t x HN) by (intros _; exact Hs).
  split; [now apply ok_leaf|]. intros H. inversion H; subst; (assumption || congruence).
Qed.

Lemma file_spec c : small c -> (accepted E op (BTs "JP2") c VNone VNone <-> file_ok E fmt c).
Proof.
  intros HC. destruct (splits_total c) as (bs & HS). destruct (headers_total bs) as (hs & HH).
  rewrite (super_box (BTs "JP2") c bs (fun rs r => root_says op c bs hs rs r) (jp2_tests bs hs)).
  - split; [intros [H1 H2]; exists bs, hs; auto|]. intros (bs' & hs' & S' & H' & H1 & H2).
    rewrite <- (splits_unique _ _ HS _ S') in *.
    assert (hs = hs') as -> by (clear -HH H'; revert hs' H'; unfold headers in *; induction HH as [|a b l1 l2 HA _ IH];
      intros hs' H'; inversion H'; subst; [reflexivity|]; f_equal; [eapply splits_unique; eassumption|auto]).
    auto.
  - intros r. now apply jp2_gives.
  - intros rs. now apply jp2_fwd.
  - intros rs r (HT & _). now apply (super_pass _ _ _ _ _ _ _ _ HT).
  - intros b Hb. apply (kids_of c bs HC HS); [|exact Hb]. intros b' _ Hs. apply (box_spec (len (snd b') + 1)); [lia|exact Hs].
Qed.
End Boxes.
