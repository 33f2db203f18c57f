(** * The failed tests of a report, and the requirements that are not met *)

From Coq Require Import ZArith List Bool String Lia.
From Coq Require Import ZifyBool.
From Coq Require Import Init.Byte.
From Verif Require Import Py PyFloat ByteConv ETree BV VBoxes VMarkers VSuper Spec SpecBox SpecMarker SpecIPL
     SpecWalk SpecSuper SpecCS SpecFile SpecTop SpecValid SpecOutcome SpecWhy SpecText PBase PEmit PLeaf PLeaf2 PMarker PMarker2
     PWalk PSuper PSeg PTile PChain PCS PGrow PIPL PFile PTop PValid.
Import ListNotations.
Open Scope string_scope.
Open Scope list_scope.
Open Scope Z_scope.

(** ** Failed tests among the children of an element *)
Definition kfailed (k : list elt) (q : list string) : Prop :=
  exists x, In x k /\ ((q = [etag x] /\ etext x = VBool false) \/ exists q', q = etag x :: q' /\ failed x q').

Lemma failed_kids e q : failed e q <-> kfailed (ekids e) q.
Proof.
  split.
  - intros H. destruct H as [e x HI HV|e x q HI HF]; exists x; (split; [exact HI|]); [now left|right; unfold failed; eauto].
  - intros (x & HI & [(-> & HV)|(q' & -> & HF)]); [now apply leads_here|now apply leads_below].
Qed.
Lemma kfailed_nil q : ~ kfailed [] q.
Proof. intros (x & [] & _). Qed.
Lemma kfailed_app k1 k2 q : kfailed (k1 ++ k2) q <-> kfailed k1 q \/ kfailed k2 q.
Proof.
  unfold kfailed. split.
  - intros (x & HI & H). apply in_app_or in HI as [HI|HI]; [left|right]; eauto.
  - intros [(x & HI & H)|(x & HI & H)]; exists x; (split; [apply in_or_app; auto|exact H]).
Qed.
Lemma kfailed_filled k q : Forall (fun e => exists t l, e = node t l) k -> (kfailed (filled k) q <-> kfailed k q).
Proof.
  intros HN. rewrite Forall_forall in HN. unfold kfailed, filled. split.
  - intros (x & HI & H). apply filter_In in HI as (HI & _). eauto.
  - intros (x & HI & H). exists x. split; [|exact H]. apply filter_In. split; [exact HI|].
    destruct (HN x HI) as (t & l & ->). cbn in *. destruct l; [|reflexivity]. exfalso.
    destruct H as [(_ & H)|(q' & _ & H)]; [discriminate|]. apply failed_kids in H. now apply kfailed_nil in H.
Qed.
Lemma kfailed_reports v L k q : reports v L k -> (kfailed k q <-> broken L q).
Proof.
  unfold broken. induction 1 as [|n P L k HP HR IH|n P L k HP HR IH].
  - split; [intros H; now apply kfailed_nil in H|]. now intros (n & P & [] & _).
  - assert (HX : kfailed (if v then leaf n (VBool true) :: k else k) q <-> kfailed k q).
    { destruct v; [|reflexivity]. change (leaf n (VBool true) :: k) with ([leaf n (VBool true)] ++ k).
      rewrite kfailed_app. split; [|auto]. intros [(x & [<-|[]] & H)|H]; [|exact H]. cbn in H.
      destruct H as [(_ & H)|(q' & _ & H)]; [discriminate|]. apply failed_kids in H. now apply kfailed_nil in H. }
    rewrite HX, IH. split; intros (n' & P' & HI & HN & HQ).
    + exists n', P'. split; [now right|auto].
    + destruct HI as [HI|HI]; [injection HI as <- <-; contradiction|]. eauto.
  - change (leaf n (VBool false) :: k) with ([leaf n (VBool false)] ++ k). rewrite kfailed_app, IH. split.
    + intros [(x & [<-|[]] & H)|(n' & P' & HI & H)]; [|exists n', P'; split; [now right|exact H]].
      cbn in H. destruct H as [(-> & _)|(q' & _ & H)]; [|apply failed_kids in H; now apply kfailed_nil in H].
      exists n, P. split; [now left|auto].
    + intros (n' & P' & [HI|HI] & HN & HQ); [|right; eauto]. injection HI as <- <-. left. subst q.
      exists (leaf n (VBool false)). split; [now left|]. now left.
Qed.
(** Results of a list of things. *)
Lemma kfailed_map {X} (G : X -> bv -> Prop) (tg : X -> string) (W : X -> list string -> Prop) l rs q :
  (forall x r, In x l -> G x r -> (exists k, r_tests r = node (tg x) k) /\ forall q, failed (r_tests r) q <-> W x q) ->
  Forall2 G l rs ->
  (kfailed (map r_tests rs) q <-> exists x q', In x l /\ W x q' /\ q = tg x :: q').
Proof.
  intros H HF. induction HF as [|x r l rs HX HF IH].
  - split; [intros HK; now apply kfailed_nil in HK|]. now intros (x & q' & [] & _).
  - cbn [map]. change (r_tests r :: map r_tests rs) with ([r_tests r] ++ map r_tests rs). rewrite kfailed_app, IH.
    2:{ intros y r' Hy. apply H. now right. }
    destruct (H x r (or_introl eq_refl) HX) as ((k & EK) & HW). split.
    + intros [(e & [<-|[]] & HE)|(y & q' & HI & HY)]; [|exists y, q'; split; [now right|exact HY]].
      destruct HE as [(_ & HE)|(q' & -> & HE)]; [rewrite EK in HE; discriminate|].
      exists x, q'. split; [now left|]. split; [now apply HW|]. now rewrite EK.
    + intros (y & q' & [<-|HI] & HY & ->); [|right; eauto]. left. exists (r_tests r). split; [now left|]. right.
      exists q'. split; [now rewrite EK|]. now apply HW.
Qed.
Lemma kfailed_one e q : kfailed [e] q <-> (q = [etag e] /\ etext e = VBool false) \/ exists q', q = etag e :: q' /\ failed e q'.
Proof.
  unfold kfailed. split; [intros (x & [<-|[]] & H); exact H|]. intros H. exists e. split; [now left|exact H].
Qed.
Lemma kfailed_cons e k q : kfailed (e :: k) q <-> kfailed [e] q \/ kfailed k q.
Proof. apply (kfailed_app [e] k). Qed.
Lemma kfailed_node t k q : kfailed [node t k] q <-> exists q', q = t :: q' /\ kfailed k q'.
Proof.
  rewrite kfailed_one. split.
  - intros [(_ & H)|(q' & -> & H)]; [discriminate|]. exists q'. split; [reflexivity|]. now apply failed_kids in H.
  - intros (q' & -> & H). right. exists q'. split; [reflexivity|]. now apply failed_kids.
Qed.

(** ** Only outcomes of tests *)
Definition plain : elt -> Prop := every (fun _ v => v = VNone \/ exists b, v = VBool b).
Lemma plain_node t k : Forall plain k -> plain (node t k).
Proof. intros H. constructor; [now left|exact H]. Qed.
Lemma plain_filled k : Forall plain k -> Forall plain (filled k).
Proof. unfold filled. rewrite !Forall_forall. intros H x HI. apply filter_In in HI as (HI & _). now apply H. Qed.
Lemma plain_leaf n b : plain (leaf n (VBool b)).
Proof. constructor; [right; now exists b|constructor]. Qed.
Lemma plain_reports v L k : reports v L k -> Forall plain k.
Proof. induction 1; [constructor|destruct v; [constructor; [apply plain_leaf|]|]; assumption|constructor; [apply plain_leaf|assumption]]. Qed.
Lemma plain_map {X} (G : X -> bv -> Prop) l rs : (forall x r, In x l -> G x r -> plain (r_tests r)) ->
  Forall2 G l rs -> Forall plain (map r_tests rs).
Proof.
  intros H HF. induction HF as [|x r l rs HX HF IH]; cbn [map]; constructor; [apply (H x); [now left|exact HX]|].
  apply IH. intros y r' Hy. apply H. now right.
Qed.

(** ** Boxes and marker segments without boxes inside *)
Definition explains E op t c st cz L : Prop :=
  forall r, gives E op t c st cz r -> plain (r_tests r) /\ forall q, failed (r_tests r) q <-> broken L q.

Lemma says_plain v tag L p w r : says v tag L p w r -> plain (r_tests r).
Proof. intros ((k & -> & HR) & _). apply plain_node. now apply plain_reports in HR. Qed.
Lemma says_why v tag L p w r q : says v tag L p w r -> (failed (r_tests r) q <-> broken L q).
Proof. intros ((k & -> & HR) & _). rewrite failed_kids. cbn [ekids node]. now apply kfailed_reports with v. Qed.

Lemma explains_ex E op t c st cz L :
  (forall fuel d, exists p w, reported E op fuel (S d) t c st cz L p w) -> explains E op t c st cz L.
Proof.
  intros H r' HG'. destruct (H O O) as (p & w & r & HV & HS & _).
  assert (HG : gives E op t c st cz r) by (now exists O, 2%nat).
  rewrite <- (gives_fun _ _ _ _ _ _ _ _ HG HG'). split; [eapply says_plain; eassumption|]. intros q. eapply says_why; eassumption.
Qed.
Lemma explains_iff E op t c st cz L p w :
  (forall fuel d, reported E op fuel (S d) t c st cz L p w) -> explains E op t c st cz L.
Proof. intros H. apply explains_ex. intros. eauto. Qed.
Lemma explains_never E op t c st cz L :
  (forall r fuel d, validate E op fuel (S d) t c st cz <> Ok r) -> explains E op t c st cz L.
Proof.
  intros H r HG. destruct (gives_at _ _ _ _ _ _ _ O 1 HG) as (f & d & _ & Hd & HV). destruct d; [lia|]. now apply H in HV.
Qed.
Lemma explains_res E op t c st cz x : (t, x) = (t_resc, "c") \/ (t, x) = (t_resd, "d") ->
  explains E op (BTb t) c st cz (res_tests x c).
Proof.
  intros Ht. assert (Ht' : t = tagRESC \/ t = tagRESD) by (destruct Ht as [H|H]; injection H as -> _; auto).
  destruct (Z.eq_dec (val c 2 2) 0) as [E1|E1]; [|destruct (Z.eq_dec (val c 6 2) 0) as [E2|E2]].
  1-2: apply explains_never; intros r fuel d; rewrite res_raises by auto; discriminate.
  destruct Ht as [H|H]; injection H as -> ->; eapply explains_iff; intros; [now apply resc_says|now apply resd_says].
Qed.
Lemma explains_uuid E op c st cz : explains E op (BTb t_uuid) c st cz (uuid_tests (xml_parse E) c).
Proof.
  change t_uuid with tagUUID. unfold uuid_tests.
  destruct (bytes_eqb (sub c 0 16) xmp_uuid) eqn:EB.
  - apply bytes_eqb_spec in EB. apply explains_ex. intros fuel d.
    destruct (uuid_xmp_says E op fuel (S d) c st cz EB) as (C & _ & H). eauto.
  - apply bytes_eqb_neq in EB. destruct (Z_lt_le_dec (len c) 16) as [HL|HL].
    + apply explains_never. intros r fuel d. rewrite uuid_short_raises by auto. discriminate.
    + eapply explains_iff. intros. now apply uuid_other_says.
Qed.
Lemma explains_ipl E op t o c st cz : (t, o) = (mPLT, 3) \/ (t, o) = (mPLM, 4) -> explains E op (BTb t) c st cz [].
Proof.
  intros Ht. destruct (entries_dec (val c 0 2 - o) (skipn (Z.to_nat o) c)) as [(es & HE)|HE].
  - assert (HR : exists p w, reported E op (S (List.length c)) 0 (BTb t) c st cz [] p w).
    { destruct Ht as [H|H]; injection H as -> ->; do 2 eexists;
        [apply plt_says with (es := es)|apply plm_says with (es := es)]; try exact HE; unfold len; lia. }
    destruct HR as (p & w & r & HV & HS & _). intros r' HG'.
    assert (HG : gives E op (BTb t) c st cz r) by (now exists (S (List.length c)), 1%nat).
    rewrite <- (gives_fun _ _ _ _ _ _ _ _ HG HG'). split; [eapply says_plain; eassumption|]. intros q. eapply says_why; eassumption.
  - apply explains_never. intros r fuel d HV.
    destruct (ipl_diverges E op fuel (S d) c st cz t o Ht HE) as [HD|HD]; congruence.
Qed.

Lemma leaf_why E op n t c :
  ~ In t [t_jp2h; t_res; t_uinf; t_jp2c] -> (t = t_ftyp \/ t = t_cmap -> len c < 2 ^ 53) ->
  explains E op (BTb t) c VNone (czv n) (tests_of E (o_format op) n t c).
Proof.
  intros HN HL. unfold tests_of. cbv zeta.
  destruct (bytes_eqb t mPLT) eqn:K4; [apply bytes_eqb_spec in K4; subst t; cbn; apply (explains_ipl E op mPLT 3); now left|].
  destruct (bytes_eqb t mPLM) eqn:K5; [apply bytes_eqb_spec in K5; subst t; cbn; apply (explains_ipl E op mPLM 4); now right|].
  destruct (bytes_eqb t m_SOT) eqn:K6.
  { apply bytes_eqb_spec in K6; subst t. cbn. apply explains_never. intros r fuel d. rewrite validate_S.
    match goal with |- context [runMethod ?E ?rec ?fuel ?f] =>
      change (runMethod E rec fuel f) with (validate_tilePart rec fuel f) end.
    unfold validate_tilePart. cbn. discriminate. }
  Ltac case_u t := match goal with
    | |- explains _ _ _ _ _ _ (if bytes_eqb t ?k then _ else _) =>
        let H := fresh "N" in destruct (bytes_eqb t k) eqn:H;
        [apply bytes_eqb_spec in H; subst t|apply bytes_eqb_neq in H] end.
  case_u t. { eapply explains_iff; intros; apply sig_says. }
  case_u t. { eapply explains_iff; intros; apply ftyp_says; auto. }
  case_u t. { eapply explains_iff; intros; apply ihdr_says. }
  case_u t. { eapply explains_iff; intros; apply bpcc_says. }
  case_u t. { eapply explains_iff; intros; apply colr_says. }
  case_u t. { eapply explains_iff; intros; apply pclr_says. }
  case_u t. { eapply explains_iff; intros; apply cmap_says; auto. }
  case_u t. { eapply explains_iff; intros; apply cdef_says. }
  case_u t. { apply explains_res; auto. }
  case_u t. { apply explains_res; auto. }
  case_u t. { apply explains_ex. intros fuel d. destruct (xml_says E op fuel (S d) c VNone (czv n)) as (C & _ & H). eauto. }
  case_u t. { apply explains_uuid. }
  case_u t. { destruct (Z_lt_le_dec (len c) (val c 0 2 * 16 + 2)) as [H|H].
    - apply explains_never; intros r fuel d; change t_ulst with tagULST; rewrite ulst_raises by auto; discriminate.
    - eapply explains_iff; intros; now apply ulst_says. }
  case_u t. { apply explains_ex. intros fuel d. destruct (url_says E op fuel (S d) c VNone (czv n)) as (C & _ & H). eauto. }
  case_u t. { destruct (siz_capability (val c 2 2)) as [cap|] eqn:HC.
    - eapply explains_iff. intros. now apply siz_says with (cap := cap).
    - apply explains_never; intros r fuel d; change m_SIZ with mSIZ; rewrite siz_raises by auto; discriminate. }
  case_u t. { eapply explains_iff; intros; apply cod_says. }
  case_u t. { eapply explains_iff; intros; apply qcd_says. }
  case_u t. { apply explains_ex. intros fuel d. destruct (com_says E op fuel (S d) c VNone (czv n)) as (C & _ & H). eauto. }
  case_u t. { eapply explains_iff; intros; apply cap_says. }
  case_u t. { eapply explains_iff; intros; apply prf_says. }
  case_u t. { eapply explains_iff; intros; apply cpf_says. }
  Ltac no_comps_u := apply explains_never; intros r fuel d; cbn [czv];
      match goal with |- validate _ _ _ _ ?t _ _ _ <> _ => rewrite no_csiz_raises; [discriminate|cbn; tauto] end.
  case_u t. { destruct n as [k|]; [|no_comps_u]. eapply explains_iff; intros; apply coc_says. }
  case_u t. { destruct n as [k|]; [|no_comps_u]. eapply explains_iff; intros; apply qcc_says. }
  case_u t. { destruct n as [k|]; [|no_comps_u]. eapply explains_iff; intros; apply rgn_says. }
  case_u t. { destruct n as [k|]; [|no_comps_u]. eapply explains_iff; intros; apply poc_says. }
  case_u t. { destruct n as [k|]; [|no_comps_u]. eapply explains_iff; intros; apply crg_says. }
  destruct (bytes_eqb t tagJP2I) eqn:K; [apply bytes_eqb_spec in K; subst t; eapply explains_iff; intros; apply ipr_says|].
  destruct (bytes_eqb t mTLM) eqn:K1; [apply bytes_eqb_spec in K1; subst t; eapply explains_iff; intros; apply tlm_says|].
  destruct (bytes_eqb t mPPM) eqn:K2; [apply bytes_eqb_spec in K2; subst t; eapply explains_iff; intros; apply ppm_says|].
  destruct (bytes_eqb t mPPT) eqn:K3; [apply bytes_eqb_spec in K3; subst t; eapply explains_iff; intros; apply ppt_says|].
  apply bytes_eqb_neq in K, K1, K2, K3, K4, K5, K6.
  eapply explains_iff; intros; apply unknown_says. cbn [boxTypeOf]. rewrite assoc_b_none; [reflexivity|].
  cbn [In] in HN.
  intros p Hp ->. unfold typeMap_b in Hp.
  repeat (destruct Hp as [<-|Hp]; [cbn [fst] in *; congruence || tauto|]). destruct Hp.
Qed.

(** ** Names *)
Lemma find_assoc t l : match List.find (fun p : bytes * string => bytes_eqb t (fst p)) l with Some p => snd p | None => "unknownBox" end
  = match assoc_b t l with Some n => n | None => "unknownBox" end.
Proof. induction l as [|[k v] l IH]; [reflexivity|]. cbn. destruct (bytes_eqb t k); [reflexivity|exact IH]. Qed.
Lemma assoc_b_in k v l : NoDup (map fst l) -> In (k, v) l -> assoc_b k l = Some v.
Proof.
  induction l as [|[k' v'] l IH]; intros HD HI; [destruct HI|]. inversion HD as [|? ? HN HD']; subst. cbn.
  destruct HI as [HI|HI]; [injection HI as -> ->; now rewrite (proj2 (bytes_eqb_spec k k) eq_refl)|].
  destruct (bytes_eqb k k') eqn:EB; [apply bytes_eqb_spec in EB; subst k'|now apply IH].
  destruct HN. apply (in_map fst) in HI. exact HI.
Qed.
Lemma tags_ok : Forall (fun p => assoc_b (fst p) typeMap_b = Some (snd p)) tags.
Proof. unfold tags. repeat constructor. Qed.
Lemma tags_all : Forall (fun p => assoc_b (fst p) tags = Some (snd p)) typeMap_b.
Proof. unfold typeMap_b. repeat constructor. Qed.
Lemma assoc_some_in k l v : assoc_b k l = Some v -> In (k, v) l.
Proof.
  induction l as [|[k' v'] l IH]; [discriminate|]. cbn. destruct (bytes_eqb k k') eqn:EB.
  - intros H. injection H as ->. apply bytes_eqb_spec in EB. subst k'. now left.
  - intros H. right. now apply IH.
Qed.
Lemma tag_is t : testRoot (BTb t) = tag_of t.
Proof.
  unfold testRoot. change (isTop (BTb t)) with false. cbv iota. unfold tag_of. rewrite find_assoc. cbn [boxTypeOf].
  destruct (assoc_b t tags) as [v|] eqn:E1.
  - apply assoc_some_in in E1. pose proof tags_ok as H. rewrite Forall_forall in H. apply H in E1. cbn [fst snd] in E1. now rewrite E1.
  - destruct (assoc_b t typeMap_b) as [v|] eqn:E2; [|reflexivity].
    apply assoc_some_in in E2. pose proof tags_all as H. rewrite Forall_forall in H. apply H in E2. cbn [fst snd] in E2. congruence.
Qed.

(** ** Marker segments, tile parts, codestreams *)
Lemma seg_why E op n tbl l s r : tbl = main_markers \/ tbl = tile_markers -> In s (treated tbl l) -> seg_gives E op n s r ->
  (exists k, r_tests r = node (tag_of (snd (fst s))) k) /\ plain (r_tests r) /\ forall q, failed (r_tests r) q <-> seg_wrong E (o_format op) n s q.
Proof.
  intros HT HI HG. split; [rewrite <- tag_is; eapply gives_node; exact HG|].
  destruct s as [[k m] x]. apply treated_in in HI. unfold seg_wrong, seg_gives in *. cbn [fst snd] in *.
  assert (HM : ~ In m [t_jp2h; t_res; t_uinf; t_jp2c] /\ m <> t_ftyp /\ m <> t_cmap).
  { destruct HT as [-> | ->]; unfold main_markers, tile_markers in HI;
      repeat (destruct HI as [HI|HI]; [injection HI as <- <-; (split; [|split]; cbv; intuition congruence)|]); destruct HI. }
  destruct HM as (HM1 & HM2 & HM3).
  apply (leaf_why E op (match k with WithComponents => Some n | _ => None end) m x); [exact HM1|tauto|].
  destruct k; exact HG.
Qed.

Lemma tile_why E op c n p r : 0 <= p -> sub c p 2 = m_SOT -> tile_of E op c n p r ->
  (exists k, r_tests r = node "tilePart" k) /\ plain (r_tests r) /\ forall q, failed (r_tests r) q <-> tile_wrong E (o_format op) c n p q.
Proof.
  intros Hp HM HG. destruct (after_total m_SOD (skipn (Z.to_nat p) c)) as (l & rr & HA).
  destruct (tile_gives E op c p n l rr r Hp HM HA HG) as (r0 & rs & H0 & (HS0 & _) & HS & ((k & -> & HR) & _)).
  split; [now eexists|]. split.
  { apply plain_node, Forall_app. split; [|now apply plain_reports in HR]. apply plain_filled. constructor; [now apply says_plain in HS0|].
    eapply plain_map; [|exact HS]. intros s rs0 Hs Hg. apply (seg_why E op n tile_markers l s); auto. }
  intros q. rewrite failed_kids. cbn [ekids node].
  assert (HN : Forall (fun e => exists t l, e = node t l) (map r_tests rs)).
  { now apply (Forall2_node E op (fun x => BTb (snd (fst x))) snd (fun _ => VNone)
      (fun x => match fst (fst x) with WithComponents => VInt n | _ => VNone end) (treated tile_markers l)). }
  assert (H0' : exists k, r_tests r0 = node "sot" k) by (destruct HS0 as ((k0 & -> & _) & _); now eexists).
  rewrite kfailed_app, kfailed_filled, kfailed_cons, (kfailed_reports _ _ _ _ HR).
  2:{ constructor; [|exact HN]. destruct H0' as (k0 & ->). now do 2 eexists. }
  rewrite (kfailed_map (seg_gives E op n) (fun s => tag_of (snd (fst s))) (seg_wrong E (o_format op) n) (treated tile_markers l)).
  2:{ intros s rs0 Hs Hg. destruct (seg_why E op n tile_markers l s rs0) as (A1 & _ & A2); auto. }
  2:{ exact HS. }
  destruct H0' as (k0 & HK0). rewrite HK0, kfailed_node.
  assert (HB : forall q', kfailed k0 q' <-> broken (sot_tests (tp_sot c p)) q').
  { intros q'. rewrite <- (says_why _ _ _ _ _ _ q' HS0), HK0, failed_kids. reflexivity. }
  split.
  - intros [[(q' & -> & H)|(s & q' & Hs & HW & ->)]|H].
    + apply tw_sot. now apply HB.
    + now apply tw_seg with l rr.
    + now apply tw_own with l rr.
  - intros H. destruct H as [q H|l' r' s q HA' Hs HW|l' r' q HA' H].
    + left. left. exists q. split; [reflexivity|]. now apply HB.
    + destruct (after_unique _ _ _ _ _ _ HA HA') as (<- & <-). left. right. eauto.
    + destruct (after_unique _ _ _ _ _ _ HA HA') as (<- & <-). now right.
Qed.

Lemma parts_unique c rest ps ps' : parts c rest ps -> parts c rest ps' -> ps = ps'.
Proof. destruct rest; cbn; [intros H1 H2; now apply (chain_unique _ _ _ _ H1)|congruence]. Qed.

Lemma cs_why E op t c st cz r : boxTypeOf t = "contiguousCodestreamBox" -> chained c -> gives E op t c st cz r ->
  plain (r_tests r) /\ forall q, failed (r_tests r) q <-> cs_wrong E (o_format op) c q.
Proof.
  intros Ht HC HG. destruct (after_total m_SOT (cs_second c)) as (l & rest & HA). destruct (HC l rest HA) as (ps & HPS).
  destruct (list_eq_dec Byte.byte_eq_dec (sub (cs_second c) 0 2) m_SIZ) as [HS|HS].
  - destruct (cs_gives E op t c st cz l rest ps r Ht HS HA HPS HG) as (cap & rz & rs & ts & HF).
    destruct HF as (_ & _ & _ & _ & HGz & HSz & HR & HT & ((k1 & k2 & k3 & -> & R1 & R2 & R3) & _)).
    destruct (gives_node _ _ _ _ _ _ _ HGz) as (kz & HKz). change (testRoot (BTb m_SIZ)) with "siz" in HKz.
    split.
    { apply plain_node. rewrite !Forall_app. apply plain_reports in R1, R2, R3. split; [exact R1|]. split.
      { apply plain_filled. constructor; [now apply says_plain in HSz|]. eapply plain_map; [|exact HR].
        intros s rs0 Hs Hg. apply (seg_why E op (cs_csiz c) main_markers l s); auto. }
      split; [exact R2|]. split; [|exact R3]. apply plain_filled. constructor; [|constructor]. apply plain_node, plain_filled.
      eapply plain_map; [|exact HT]. intros p r0 Hp Hg. destruct (parts_at _ _ _ _ HPS Hp). now apply (tile_why E op c (cs_csiz c) p r0). }
    intros q. rewrite failed_kids. cbn [ekids node]. rewrite !kfailed_app, (kfailed_reports _ _ _ _ R1), (kfailed_reports _ _ _ _ R2), (kfailed_reports _ _ _ _ R3).
    rewrite (kfailed_filled (r_tests rz :: map r_tests rs)).
    2:{ constructor; [rewrite HKz; now do 2 eexists|].
        now apply (Forall2_node E op (fun x => BTb (snd (fst x))) snd (fun _ => VNone)
          (fun x => match fst (fst x) with WithComponents => VInt (cs_csiz c) | _ => VNone end) (treated main_markers l)). }
    rewrite kfailed_cons, (kfailed_map (seg_gives E op (cs_csiz c)) (fun s => tag_of (snd (fst s))) (seg_wrong E (o_format op) (cs_csiz c)) (treated main_markers l)).
    2:{ intros s rs0 Hs Hg. destruct (seg_why E op (cs_csiz c) main_markers l s rs0) as (A1 & _ & A2); auto. }
    2:{ exact HR. }
    rewrite (kfailed_filled [node "tileParts" _]) by (constructor; [now do 2 eexists|constructor]).
    assert (HTP : kfailed [node "tileParts" (filled (map r_tests ts))] q <->
              exists p q', In p ps /\ tile_wrong E (o_format op) c (cs_csiz c) p q' /\ q = "tileParts" :: "tilePart" :: q').
    { rewrite kfailed_node. split.
      - intros (q' & -> & H). rewrite kfailed_filled in H
          by now apply (Forall2_node E op (fun _ => BTb m_SOT) (fun _ => c) VInt (fun _ => VInt (cs_csiz c)) ps).
        apply (kfailed_map (tile_of E op c (cs_csiz c)) (fun _ => "tilePart") (tile_wrong E (o_format op) c (cs_csiz c)) ps) in H.
        + destruct H as (p & q2 & H1 & H2 & ->). eauto.
        + intros p r0 Hp Hg. destruct (parts_at _ _ _ _ HPS Hp). match type of Hg with tile_of _ _ _ _ ?p1 _ => destruct (tile_why E op c (cs_csiz c) p1 r0) as (A1 & _ & A2); auto end.
        + exact HT.
      - intros (p & q' & H1 & H2 & ->). eexists. split; [reflexivity|].
        apply kfailed_filled; [now apply (Forall2_node E op (fun _ => BTb m_SOT) (fun _ => c) VInt (fun _ => VInt (cs_csiz c)) ps)|].
        apply (kfailed_map (tile_of E op c (cs_csiz c)) (fun _ => "tilePart") (tile_wrong E (o_format op) c (cs_csiz c)) ps).
        + intros p0 r0 Hp Hg. destruct (parts_at _ _ _ _ HPS Hp). match type of Hg with tile_of _ _ _ _ ?p1 _ => destruct (tile_why E op c (cs_csiz c) p1 r0) as (A1 & _ & A2); auto end.
        + exact HT.
        + eauto. }
    rewrite HTP.
    assert (HZ : kfailed [r_tests rz] q <-> exists q', q = "siz" :: q' /\ broken (siz_tests (o_format op) (cs_siz c)) q').
    { rewrite HKz, kfailed_node. split; intros (q' & -> & H); exists q'; (split; [reflexivity|]); revert H;
        rewrite <- (says_why _ _ _ _ _ _ q' HSz), HKz, failed_kids; auto. }
    rewrite HZ. split.
    + intros [H|[[(q' & -> & H)|(s & q' & Hs & HW & ->)]|[H|[(p & q' & Hp & HW & ->)|H]]]].
      * now apply cw_start.
      * now apply cw_siz.
      * now apply cw_seg with l rest.
      * now apply cw_tiles with l rest ps.
      * now apply cw_tile with l rest ps p.
      * now apply cw_end with l rest.
    + intros H. destruct H as [q H|q _ H|l' rest' s q _ HA' Hs HW|l' rest' ps' p q _ HA' HP' Hp HW|l' rest' ps' q _ HA' HP' H|l' rest' q _ HA' H];
        try (destruct (after_unique _ _ _ _ _ _ HA HA') as (<- & <-)); try rewrite <- (parts_unique _ _ _ _ HPS HP') in *; eauto 10.
  - destruct (gives_at _ _ _ _ _ _ _ O 1 HG) as (f & d & _ & Hd & HV). destruct d as [|d]; [lia|].
    destruct (cs_nosiz_ok E op f d t c st cz Ht HS) as (r' & HV' & ((k1 & HK & R1) & _)).
    assert (r' = r) as -> by congruence. rewrite HK.
    split; [apply plain_node; now apply plain_reports in R1|]. intros q. rewrite failed_kids. cbn [ekids node]. rewrite (kfailed_reports _ _ _ _ R1).
    split; [intros H; now apply cw_start|]. intros H. destruct H; [assumption|contradiction..].
Qed.

(** ** Boxes and files *)
Section Boxes.
Variables (E : env) (op : opts).
Let fmt := o_format op.

Definition box_explained (b : bytes * bytes) : Prop :=
  forall r, box_gives E op b r -> plain (r_tests r) /\ forall q, failed (r_tests r) q <-> box_wrong E fmt b q.

Lemma super_why v t1 t2 t3 bs rs L p r : super_says v t1 t2 t3 rs L p r -> Forall2 (box_gives E op) bs rs ->
  (forall b, In b bs -> box_explained b) ->
  plain (r_tests r) /\ forall q,
  (failed (r_tests r) q <-> (exists b q', In b bs /\ box_wrong E fmt b q' /\ q = tag_of (fst b) :: q') \/ broken L q).
Proof.
  intros ((k & -> & HR) & _) HF HB. split.
  { apply plain_node, Forall_app. split; [|now apply plain_reports in HR]. apply plain_filled. eapply plain_map; [|exact HF].
    intros b r0 Hb Hg. now apply HB in Hg. }
  intros q. rewrite failed_kids. cbn [ekids node].
  rewrite kfailed_app, (kfailed_reports _ _ _ _ HR), kfailed_filled.
  2:{ now apply (Forall2_node E op (fun b => BTb (fst b)) snd (fun _ => VNone) (fun _ => VNone) bs). }
  rewrite (kfailed_map (box_gives E op) (fun b => tag_of (fst b)) (box_wrong E fmt) bs); [reflexivity| |exact HF].
  intros b r0 Hb Hg. split; [rewrite <- tag_is; eapply gives_node; exact Hg|]. now apply HB.
Qed.

Lemma box_why : forall k b, len (snd b) < Z.of_nat k -> small (snd b) ->
  (fst b = t_jp2c -> chained (snd b)) -> (In (fst b) supers -> forall y, inbox (snd b) (t_jp2c, y) -> chained y) ->
  box_explained b.
Proof.
  induction k as [|k IHk]; intros [t x] Hk Hs HC HI; cbn [fst snd] in *; [pose proof (len_nonneg x); lia|].
  assert (IH : In t supers -> forall bs, splits x bs -> forall b, In b bs -> box_explained b).
  { intros Ht bs HS b Hb. pose proof (splits_inside _ _ HS) as HL. rewrite Forall_forall in HL. specialize (HL b Hb).
    destruct b as (s, y). cbn [fst snd] in *. apply IHk; cbn [fst snd]; [lia|unfold small in *; lia| |].
    - intros ->. apply (HI Ht). now apply inbox_here with bs.
    - intros Hsup z Hz. apply (HI Ht). clear -HS Hb Hsup Hz.
      remember (t_jp2c, z) as b0 eqn:EB. clear EB. induction Hz as [bs' b0 HS' Hb'|s' y' bs' b0 HZ IHz Hs' HS' Hb'].
      + apply inbox_in with s y bs'; auto. now apply inbox_here with bs.
      + apply inbox_in with s' y' bs'; auto. }
  destruct (splits_total x) as (bs & HS).
  assert (HSUP : In t supers -> forall r, box_gives E op (t, x) r -> exists rs v t1 t2 t3 p,
            Forall2 (box_gives E op) bs rs /\ super_says v t1 t2 t3 rs (super_tests fmt t bs) p r).
  { intros [<-|[<-|[<-|[]]]] r HG.
    - destruct (jp2h_gives E op x VNone VNone bs r HS HG) as (rs & H1 & H2 & _). exists rs. do 5 eexists. split; [exact H1|exact H2].
    - destruct (res_gives E op x VNone VNone bs r HS HG) as (rs & H1 & H2 & _). exists rs. do 5 eexists. split; [exact H1|exact H2].
    - destruct (uinf_gives E op x VNone VNone bs r HS HG) as (rs & H1 & H2 & _). exists rs. do 5 eexists. split; [exact H1|exact H2]. }
  destruct (in_dec (list_eq_dec Byte.byte_eq_dec) t supers) as [Ht|Ht].
  - intros r HG. destruct (HSUP Ht r HG) as (rs & v & t1 & t2 & t3 & p & H1 & H2).
    destruct (super_why _ _ _ _ _ _ _ _ _ H2 H1 (IH Ht bs HS)) as (HP & HQ). split; [exact HP|]. intros q. rewrite HQ. split.
    + intros [(b & q' & Hb & HW & ->)|H]; [now apply bw_in with bs|now apply bw_own with bs].
    + intros H. inversion H as [? ? ? HN _|? ? bs' ? _ HS' HB'|? ? bs' b q' _ HS' Hb' HW|]; subst.
      * destruct HN. unfold supers in Ht. cbn in *. tauto.
      * rewrite <- (splits_unique _ _ HS _ HS') in *. now right.
      * rewrite <- (splits_unique _ _ HS _ HS') in *. left. eauto.
      * cbv in Ht. intuition discriminate.
  - destruct (list_eq_dec Byte.byte_eq_dec t t_jp2c) as [->|H4].
    + intros r HG. destruct (cs_why E op (BTb t_jp2c) x VNone VNone r eq_refl (HC eq_refl) HG) as (HP & HQ). split; [exact HP|]. intros q. rewrite HQ.
      split; [apply bw_cs|]. intros H. inversion H as [? ? ? HN _|? ? ? ? HI' _ _|? ? ? ? ? HI' _ _ _|]; subst; auto.
      * destruct HN. cbn. tauto.
      * contradiction.
      * contradiction.
    + assert (HN : ~ In t [t_jp2h; t_res; t_uinf; t_jp2c]) by (unfold supers in Ht; cbn in *; intuition congruence).
      intros r HG. destruct (leaf_why E op None t x HN (fun _ => Hs) r HG) as (HP & HQ). split; [exact HP|]. intros q. rewrite HQ.
      split; [now apply bw_leaf|]. intros H. inversion H; subst; (assumption || contradiction || congruence).
Qed.

Lemma headers_unique bs hs hs' : headers bs hs -> headers bs hs' -> hs = hs'.
Proof.
  intros HH. revert hs'. unfold headers in *. induction HH as [|a b l1 l2 HA _ IH]; intros hs' H'; inversion H'; subst;
    [reflexivity|]. f_equal; [eapply splits_unique; eassumption|auto].
Qed.

Lemma file_why c r : small c -> (forall y, inbox c (t_jp2c, y) -> chained y) -> gives E op (BTs "JP2") c VNone VNone r ->
  plain (r_tests r) /\ forall q, failed (r_tests r) q <-> file_wrong E fmt c q.
Proof.
  intros HC HI HG. destruct (splits_total c) as (bs & HS). destruct (headers_total bs) as (hs & HH).
  destruct (jp2_gives E op c VNone VNone bs hs r HS HH HG) as (rs & HF & (HSY & _)).
  destruct (super_why _ _ _ _ _ _ _ _ _ HSY HF) as (HP & HQ).
  { intros (s, y) Hb. pose proof (splits_inside _ _ HS) as HL. rewrite Forall_forall in HL. specialize (HL _ Hb). cbn [snd] in HL.
      apply (box_why (Z.to_nat (len y + 1))); cbn [fst snd]; [pose proof (len_nonneg y); lia|unfold small in *; lia| |].
      - intros ->. apply HI. now apply inbox_here with bs.
      - intros Hsup z Hz. apply HI.
        remember (t_jp2c, z) as b0 eqn:EB. clear EB. induction Hz as [bs' b0 HS' Hb'|s' y' bs' b0 HZ IHz Hs' HS' Hb'].
        + apply inbox_in with s y bs'; auto. now apply inbox_here with bs.
        + apply inbox_in with s' y' bs'; auto. }
  split; [exact HP|]. intros q. rewrite HQ. split.
  - intros [(b & q' & Hb & HW & ->)|H]; [now apply fw_box with bs|now apply fw_own with bs hs].
  - intros H. destruct H as [bs' hs' q HS' HH' H|bs' b q HS' Hb HW]; rewrite <- (splits_unique _ _ HS _ HS') in *.
    + rewrite <- (headers_unique _ _ _ HH HH') in *. now right.
    + left. eauto.
Qed.
End Boxes.

(** ** As the report shows it *)
Lemma plain_shown catC limit : forall e e', plain e -> rel (shows catC limit []) e e' ->
  forall q, leads (VBool false) e q <-> leads (VStr (pys "False")) e' q.
Proof.
  assert (HD : forall t v d, ~ described [] t v d) by (intros t v d (m & k & [] & _)).
  assert (HV : forall x x', plain x -> rel (shows catC limit []) x x' -> etag x = etag x' /\ (etext x = VBool false <-> etext x' = VStr (pys "False"))).
  { intros x x' HP HR. destruct HR as [t a v v' k k' HS HK]. split; [reflexivity|]. cbn [etext]. inversion HP as [? ? ? ? HT _]; subst.
    inversion HS; subst; try (now exfalso; eapply HD; eassumption); try (destruct HT as [HT|(b' & HT)]; discriminate HT); split; try discriminate; reflexivity. }
  assert (HF : forall k k', Forall plain k -> Forall2 (rel (shows catC limit [])) k k' ->
            (forall x, In x k -> exists x', In x' k' /\ plain x /\ rel (shows catC limit []) x x') /\
            (forall x', In x' k' -> exists x, In x k /\ plain x /\ rel (shows catC limit []) x x')).
  { intros k k' HP HR. induction HR as [|x x' k k' HX HR IH]; [split; intros ? []|]. inversion HP as [|? ? HP1 HP2]; subst. destruct (IH HP2) as (I1 & I2).
    split; (intros y [<-|Hy]; [eexists; split; [now left|auto]|]); [destruct (I1 y Hy) as (z & Hz & H)|destruct (I2 y Hy) as (z & Hz & H)]; exists z; (split; [now right|exact H]). }
  intros e e' HP HR q. split.
  - intros H. revert e' HR. induction H as [e x HI HX|e x q HI HL IH]; intros e' HR; destruct HR as [t a v v' k k' HS HK]; cbn [ekids] in HI;
      inversion HP as [? ? ? ? _ HPk]; subst; destruct (HF k k' HPk HK) as (F1 & _); destruct (F1 x HI) as (x' & HI' & HPx & HR'); destruct (HV x x' HPx HR') as (ET & EV); rewrite ET.
    + apply leads_here; [exact HI'|now apply EV].
    + apply leads_below; [exact HI'|]. now apply IH.
  - intros H. revert e HP HR. induction H as [e' x' HI HX|e' x' q HI HL IH]; intros e HP HR; destruct HR as [t a v v' k k' HS HK]; cbn [ekids] in HI;
      inversion HP as [? ? ? ? _ HPk]; subst; destruct (HF k k' HPk HK) as (_ & F2); destruct (F2 x' HI) as (x & HI' & HPx & HR'); destruct (HV x x' HPx HR') as (ET & EV); rewrite <- ET.
    + apply leads_here; [exact HI'|now apply EV].
    + apply leads_below; [exact HI'|]. now apply IH.
Qed.
