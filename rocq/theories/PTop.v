(** * Closed forms without budgets *)

From Coq Require Import ZArith List Bool String Lia.
From Coq Require Import ZifyBool.
From Coq Require Import Init.Byte.
From Verif Require Import Py PyFloat ByteConv ETree BV VBoxes VMarkers VSuper Spec SpecBox SpecMarker SpecIPL
     SpecWalk SpecSuper SpecCS SpecFile SpecTop PBase PEmit PLeaf PLeaf2 PMarker PMarker2 PWalk PSuper PSeg PTile
     PChain PCS PGrow PIPL PFile.
Import ListNotations.
Open Scope string_scope.
Open Scope list_scope.
Open Scope Z_scope.

Lemma gives_fun E op t c st cz r1 r2 : gives E op t c st cz r1 -> gives E op t c st cz r2 -> r1 = r2.
Proof.
  intros (f1 & d1 & H1) (f2 & d2 & H2).
  apply (lift_ok _ _ _ (Nat.max f1 f2) _ (Nat.max d1 d2)) in H1, H2; try lia. congruence.
Qed.
Lemma gives_at E op t c st cz r f0 d0 : gives E op t c st cz r ->
  exists f d, (f0 <= f)%nat /\ (d0 <= d)%nat /\ validate E op f d t c st cz = Ok r.
Proof.
  intros (f & d & H). exists (Nat.max f f0), (Nat.max d d0). split; [lia|]. split; [lia|].
  eapply lift_ok; [exact H|lia|lia].
Qed.
Lemma fails_gives E op t c st cz e r : fails E op t c st cz e -> ~ gives E op t c st cz r.
Proof.
  intros (f0 & d0 & H) HG. destruct (gives_at _ _ _ _ _ _ _ f0 d0 HG) as (f & d & Hf & Hd & HV).
  rewrite H in HV by assumption. discriminate.
Qed.
Lemma loops_gives E op t c st cz r : loops E op t c st cz -> ~ gives E op t c st cz r.
Proof.
  intros (d0 & H) HG. destruct (gives_at _ _ _ _ _ _ _ O d0 HG) as (f & d & Hf & Hd & HV).
  rewrite H in HV by assumption. discriminate.
Qed.
Lemma reported_gives E op t c st cz L p w :
  (forall fuel d, reported E op fuel d t c st cz L p w) ->
  exists r, gives E op t c st cz r /\ says (o_verbose op) (boxTypeOf t) L p w r /\
            r_ret r = VNone /\ r_valid r = VNone /\ r_tpl r = VNone.
Proof. intros H. destruct (H O O) as (r & HV & HS). exists r. split; [now exists O, 1%nat|exact HS]. Qed.

(** Many at once. *)
Lemma gives_all {X} E op (ty : X -> btype) (co : X -> bytes) (st cz : X -> value) (l : list X) rs :
  Forall2 (fun x r => gives E op (ty x) (co x) (st x) (cz x) r) l rs <->
  exists fuel d, Forall2 (fun x r => validate E op fuel d (ty x) (co x) (st x) (cz x) = Ok r) l rs.
Proof.
  split.
  - induction 1 as [|x r l rs (f1 & d1 & HX) _ (f2 & d2 & IH)]; [exists O, O; constructor|].
    exists (Nat.max f1 f2), (Nat.max d1 d2). constructor; [eapply lift_ok; [exact HX|lia|lia]|].
    clear -IH. induction IH; constructor; [eapply lift_ok; [eassumption|lia|lia]|assumption].
  - intros (f & d & H). induction H; constructor; [now exists f, d|assumption].
Qed.
Lemma gives_all_at {X} E op (ty : X -> btype) (co : X -> bytes) (st cz : X -> value) (l : list X) rs f0 d0 :
  Forall2 (fun x r => gives E op (ty x) (co x) (st x) (cz x) r) l rs ->
  exists fuel d, (f0 <= fuel)%nat /\ (d0 <= d)%nat /\
    Forall2 (fun x r => validate E op fuel d (ty x) (co x) (st x) (cz x) = Ok r) l rs.
Proof.
  intros H. apply gives_all in H. destruct H as (f & d & H). exists (Nat.max f f0), (Nat.max d d0).
  split; [lia|]. split; [lia|]. induction H; constructor; [eapply lift_ok; [eassumption|lia|lia]|assumption].
Qed.

Lemma gives_node E op t c st cz r : gives E op t c st cz r -> exists k, r_tests r = node (testRoot t) k.
Proof.
  intros (f & d & H). destruct d as [|d]; [discriminate|]. rewrite validate_S in H.
  destruct (runMethod _ _ _ _ _) as [[u s]|e|]; try discriminate. injection H as <-. now eexists.
Qed.
Lemma Forall2_node {X} E op (ty : X -> btype) (co : X -> bytes) (st cz : X -> value) (l : list X) rs :
  Forall2 (fun x r => gives E op (ty x) (co x) (st x) (cz x) r) l rs ->
  Forall (fun e => exists t k, e = node t k) (map r_tests rs).
Proof.
  induction 1 as [|x r l rs HX _ IH]; constructor; [|exact IH].
  apply gives_node in HX. destruct HX as (k & ->). now do 2 eexists.
Qed.
Lemma any_all rs : existsb anyFalse (map r_tests rs) = false <-> Forall (fun r => all_pass (r_tests r)) rs.
Proof.
  induction rs as [|r rs IH]; [split; [constructor|reflexivity]|]. cbn [map existsb].
  rewrite Forall_cons_iff, orb_false_iff, IH, <- anyFalse_spec. reflexivity.
Qed.
Lemma says_pass v tag L p w r : says v tag L p w r -> (all_pass (r_tests r) <-> holds L).
Proof.
  intros ((k & -> & HR) & _). rewrite <- anyFalse_spec, anyFalse_node. now apply reports_holds in HR.
Qed.

(** ** Superboxes *)
Definition kid_gives E op (b : bytes * bytes) (r : bv) : Prop := gives E op (BTb (fst b)) (snd b) VNone VNone r.
Lemma super_pass v t1 t2 t3 rs L p r : super_says v t1 t2 t3 rs L p r ->
  Forall (fun e => exists t k, e = node t k) (map r_tests rs) ->
  (all_pass (r_tests r) <-> Forall (fun r => all_pass (r_tests r)) rs /\ holds L).
Proof.
  intros ((k & -> & HR) & _) HN. rewrite <- anyFalse_spec, anyFalse_node, existsb_app, filled_any by exact HN.
  now rewrite orb_false_iff, any_all, (reports_holds _ _ _ HR).
Qed.

Section Super.
Variables (E : env) (op : opts) (t : btype) (c : bytes) (st cz : value).
Variables (bs : list (bytes * bytes)).
Variable claim : list bv -> bv -> Prop.
Hypothesis HCF : forall fuel d, (List.length bs < fuel)%nat ->
  match mapM (child (validate E op fuel d)) bs with
  | Ok rs => exists r, validate E op fuel (S d) t c st cz = Ok r /\ claim rs r
  | Raise e => validate E op fuel (S d) t c st cz = Raise e
  | Diverge => validate E op fuel (S d) t c st cz = Diverge
  end.

Lemma super_gives r : gives E op t c st cz r -> exists rs, Forall2 (box_gives E op) bs rs /\ claim rs r.
Proof.
  intros H. destruct (gives_at _ _ _ _ _ _ _ (S (List.length bs)) 1 H) as (f & d & Hf & Hd & HV).
  destruct d as [|d]; [lia|]. specialize (HCF f d ltac:(lia)).
  destruct (mapM _ bs) as [rs|e|] eqn:EM; [|congruence|congruence].
  destruct HCF as (r' & HV' & HC). assert (r' = r) as -> by congruence. exists rs. split; [|exact HC].
  apply mapM_ok_iff in EM. clear -EM. induction EM; constructor; [|assumption]. now exists f, d.
Qed.
Lemma super_fwd rs : Forall2 (box_gives E op) bs rs -> exists r, gives E op t c st cz r /\ claim rs r.
Proof.
  intros H. apply (gives_all_at E op (fun b => BTb (fst b)) snd (fun _ => VNone) (fun _ => VNone) bs rs (S (List.length bs)) O) in H.
  destruct H as (f & d & Hf & _ & H). specialize (HCF f d ltac:(lia)).
  assert (EM : mapM (child (validate E op f d)) bs = Ok rs) by (apply mapM_ok_iff; exact H).
  rewrite EM in HCF. destruct HCF as (r & HV & HC). exists r. split; [now exists f, (S d)|exact HC].
Qed.
End Super.

Definition inner_says op tag rs L r : Prop :=
  super_says (o_verbose op) tag tag tag rs L [] r /\ r_ret r = VNone /\ r_valid r = VNone /\ r_tpl r = VNone.
Lemma jp2h_gives E op c st cz bs r : splits c bs -> gives E op (BTb t_jp2h) c st cz r ->
  exists rs, Forall2 (box_gives E op) bs rs /\ inner_says op "jp2HeaderBox" rs (jp2h_tests (o_format op) bs) r.
Proof.
  intros HS. apply (super_gives E op (BTb t_jp2h) c st cz bs (fun rs r => inner_says op "jp2HeaderBox" rs (jp2h_tests (o_format op) bs) r)). intros fuel d HF. pose proof (jp2h_says E op fuel d c st cz bs HS HF) as H.
  destruct (mapM _ bs); exact H.
Qed.
Lemma jp2h_fwd E op c st cz bs rs : splits c bs -> Forall2 (box_gives E op) bs rs ->
  exists r, gives E op (BTb t_jp2h) c st cz r /\ inner_says op "jp2HeaderBox" rs (jp2h_tests (o_format op) bs) r.
Proof.
  intros HS. apply (super_fwd E op (BTb t_jp2h) c st cz bs (fun rs r => inner_says op "jp2HeaderBox" rs (jp2h_tests (o_format op) bs) r)). intros fuel d HF. pose proof (jp2h_says E op fuel d c st cz bs HS HF) as H.
  destruct (mapM _ bs); exact H.
Qed.
Lemma res_gives E op c st cz bs r : splits c bs -> gives E op (BTb t_res) c st cz r ->
  exists rs, Forall2 (box_gives E op) bs rs /\ inner_says op "resolutionBox" rs (res_super_tests (map fst bs)) r.
Proof.
  intros HS. apply (super_gives E op (BTb t_res) c st cz bs (fun rs r => inner_says op "resolutionBox" rs (res_super_tests (map fst bs)) r)). intros fuel d HF. pose proof (res_super_says E op fuel d c st cz bs HS HF) as H.
  destruct (mapM _ bs); exact H.
Qed.
Lemma res_fwd E op c st cz bs rs : splits c bs -> Forall2 (box_gives E op) bs rs ->
  exists r, gives E op (BTb t_res) c st cz r /\ inner_says op "resolutionBox" rs (res_super_tests (map fst bs)) r.
Proof.
  intros HS. apply (super_fwd E op (BTb t_res) c st cz bs (fun rs r => inner_says op "resolutionBox" rs (res_super_tests (map fst bs)) r)). intros fuel d HF. pose proof (res_super_says E op fuel d c st cz bs HS HF) as H.
  destruct (mapM _ bs); exact H.
Qed.
Lemma uinf_gives E op c st cz bs r : splits c bs -> gives E op (BTb t_uinf) c st cz r ->
  exists rs, Forall2 (box_gives E op) bs rs /\ inner_says op "uuidInfoBox" rs (uinf_tests (map fst bs)) r.
Proof.
  intros HS. apply (super_gives E op (BTb t_uinf) c st cz bs (fun rs r => inner_says op "uuidInfoBox" rs (uinf_tests (map fst bs)) r)). intros fuel d HF. pose proof (uinf_says E op fuel d c st cz bs HS HF) as H.
  destruct (mapM _ bs); exact H.
Qed.
Lemma uinf_fwd E op c st cz bs rs : splits c bs -> Forall2 (box_gives E op) bs rs ->
  exists r, gives E op (BTb t_uinf) c st cz r /\ inner_says op "uuidInfoBox" rs (uinf_tests (map fst bs)) r.
Proof.
  intros HS. apply (super_fwd E op (BTb t_uinf) c st cz bs (fun rs r => inner_says op "uuidInfoBox" rs (uinf_tests (map fst bs)) r)). intros fuel d HF. pose proof (uinf_says E op fuel d c st cz bs HS HF) as H.
  destruct (mapM _ bs); exact H.
Qed.

Definition root_says op c bs hs rs r : Prop :=
  super_says (o_verbose op) "tests" "properties" "warnings" rs (jp2_tests bs hs) (jp2_props (o_format op) c bs hs) r /\
  r_ret r = VNone /\ (exists b, r_valid r = VBool b /\ (b = true <-> all_pass (r_tests r))) /\ r_tpl r = VNone.
Lemma jp2_gives E op c st cz bs hs r : splits c bs -> headers bs hs -> gives E op (BTs "JP2") c st cz r ->
  exists rs, Forall2 (box_gives E op) bs rs /\ root_says op c bs hs rs r.
Proof.
  intros HS HH. apply (super_gives E op (BTs "JP2") c st cz bs (fun rs r => root_says op c bs hs rs r)). intros fuel d HF. pose proof (jp2_says E op fuel d c st cz bs hs HS HH HF) as H.
  destruct (mapM _ bs); try exact H. destruct H as (r' & b & H1 & H2 & H3 & H4 & H5 & H6).
  exists r'. split; [exact H1|]. unfold root_says. eauto 10.
Qed.
Lemma jp2_fwd E op c st cz bs hs rs : splits c bs -> headers bs hs -> Forall2 (box_gives E op) bs rs ->
  exists r, gives E op (BTs "JP2") c st cz r /\ root_says op c bs hs rs r.
Proof.
  intros HS HH. apply (super_fwd E op (BTs "JP2") c st cz bs (fun rs r => root_says op c bs hs rs r)). intros fuel d HF. pose proof (jp2_says E op fuel d c st cz bs hs HS HH HF) as H.
  destruct (mapM _ bs); try exact H. destruct H as (r' & b & H1 & H2 & H3 & H4 & H5 & H6).
  exists r'. split; [exact H1|]. unfold root_says. eauto 10.
Qed.
Lemma headers_total bs : exists hs, headers bs hs.
Proof.
  unfold headers. induction (boxes_of t_jp2h bs) as [|x l (hs & IH)]; [exists []; constructor|].
  destruct (splits_total x) as (h & Hh). exists (h :: hs). now constructor.
Qed.

(** ** Tile parts *)
Lemma seg_child_eq rec n x : seg_child rec (VInt n) x =
  rec (BTb (snd (fst x))) (snd x) VNone (match fst (fst x) with WithComponents => VInt n | _ => VNone end).
Proof. destruct x as [[k m] c]. reflexivity. Qed.

Lemma tile_gives E op c p n l rr r : 0 <= p -> sub c p 2 = m_SOT -> after m_SOD (skipn (Z.to_nat p) c) l rr ->
  gives E op (BTb m_SOT) c (VInt p) (VInt n) r ->
  exists r0 rs, gives E op (BTs "startOfTile") (tp_sot c p) VNone VNone r0 /\ sot_result op (tp_sot c p) r0 /\
    Forall2 (seg_gives E op n) (treated tile_markers l) rs /\ tile_says op n c p l rr r0 rs r.
Proof.
  intros Hp HM HA HG. destruct (gives_at _ _ _ _ _ _ _ (List.length l + 2) 2 HG) as (f & d & Hf & Hd & HV).
  destruct d as [|[|d]]; try lia.
  destruct (tile_says_ok E op f d c p n l rr Hp HM HA ltac:(lia)) as (r0 & HV0 & HR0 & H).
  destruct (mapM _ _) as [rs|e|] eqn:EM; [|congruence|congruence].
  destruct H as (r' & HV' & HC). assert (r' = r) as -> by congruence.
  exists r0, rs. split; [now exists f, (S d)|]. split; [exact HR0|]. split; [|exact HC].
  apply mapM_ok_iff in EM. clear -EM. induction EM as [|x y l1 l2 H _ IH]; constructor; [|assumption].
  exists f, (S d). rewrite seg_child_eq in H. exact H.
Qed.
Lemma tile_fwd E op c p n l rr rs : 0 <= p -> sub c p 2 = m_SOT -> after m_SOD (skipn (Z.to_nat p) c) l rr ->
  Forall2 (seg_gives E op n) (treated tile_markers l) rs ->
  exists r0 r, gives E op (BTb m_SOT) c (VInt p) (VInt n) r /\ sot_result op (tp_sot c p) r0 /\
    tile_says op n c p l rr r0 rs r.
Proof.
  intros Hp HM HA HG.
  apply (gives_all_at E op (fun x => BTb (snd (fst x))) snd (fun _ => VNone)
    (fun x => match fst (fst x) with WithComponents => VInt n | _ => VNone end) _ rs (List.length l + 2) 1) in HG.
  destruct HG as (f & d & Hf & Hd & H). destruct d as [|d]; [lia|].
  destruct (tile_says_ok E op f d c p n l rr Hp HM HA ltac:(lia)) as (r0 & HV0 & HR0 & HT).
  assert (EM : mapM (seg_child (validate E op f (S d)) (VInt n)) (treated tile_markers l) = Ok rs).
  { apply mapM_ok_iff. clear -H. induction H; constructor; [now rewrite seg_child_eq|assumption]. }
  rewrite EM in HT. destruct HT as (r & HV & HS). exists r0, r. split; [now exists f, (S (S d))|]. auto.
Qed.
Lemma tile_pass op n c p l rr r0 rs r : tile_says op n c p l rr r0 rs r -> sot_result op (tp_sot c p) r0 ->
  Forall (fun e => exists t k, e = node t k) (map r_tests rs) ->
  (all_pass (r_tests r) <->
   holds (sot_tests (tp_sot c p)) /\ Forall (fun r => all_pass (r_tests r)) rs /\ holds (tp_tests n c p l rr)).
Proof.
  intros ((k & -> & HR) & _) (HS0 & _) HN. rewrite <- anyFalse_spec, anyFalse_node, existsb_app.
  rewrite filled_any. 2:{ constructor; [|exact HN]. destruct HS0 as ((k0 & -> & _) & _). now do 2 eexists. }
  cbn [existsb]. rewrite !orb_false_iff, any_all, (reports_holds _ _ _ HR), (anyFalse_spec (r_tests r0)), (says_pass _ _ _ _ _ _ HS0).
  tauto.
Qed.

(** ** Codestreams *)
Lemma cs_gives E op t c st cz l rest ps r :
  boxTypeOf t = "contiguousCodestreamBox" -> sub (cs_second c) 0 2 = m_SIZ ->
  after m_SOT (cs_second c) l rest -> parts c rest ps -> gives E op t c st cz r ->
  exists cap rz rs ts, cs_facts E op t c cap l rest ps rz rs ts r.
Proof.
  intros Ht HSIZ HA HPS HG. destruct (gives_at _ _ _ _ _ _ _ (List.length c + 3) 3 HG) as (f & d & Hf & Hd & HV).
  destruct d as [|[|[|d]]]; try lia.
  destruct (siz_capability (val (cs_siz c) 2 2)) as [cap|] eqn:HCAP.
  2:{ rewrite cs_siz_raises in HV by assumption. discriminate. }
  destruct (cs_says_ok E op f d t c st cz cap l rest ps Ht Hf HSIZ HCAP HA HPS) as (rz & HVz & HRz & H).
  destruct (mapM _ (treated _ _)) as [rs|e|] eqn:EM; [|congruence|congruence].
  destruct (mapM _ ps) as [ts|e|] eqn:EP; [|congruence|congruence].
  destruct H as (r' & HV' & HC). assert (r' = r) as -> by congruence.
  exists cap, rz, rs, ts. unfold cs_facts.
  refine (conj HSIZ (conj HCAP (conj HA (conj HPS (conj _ (conj HRz (conj _ (conj _ HC)))))))).
  - now exists f, (S (S d)).
  - apply mapM_ok_iff in EM. clear -EM. induction EM as [|x y l1 l2 H _ IH]; constructor; [|assumption].
    exists f, (S (S d)). rewrite seg_child_eq in H. exact H.
  - apply mapM_ok_iff in EP. clear -EP. induction EP as [|x y l1 l2 H _ IH]; constructor; [|assumption].
    now exists f, (S (S d)).
Qed.
Lemma cs_fwd E op t c st cz cap l rest ps rs ts :
  boxTypeOf t = "contiguousCodestreamBox" -> sub (cs_second c) 0 2 = m_SIZ ->
  siz_capability (val (cs_siz c) 2 2) = Some cap ->
  after m_SOT (cs_second c) l rest -> parts c rest ps ->
  Forall2 (seg_gives E op (cs_csiz c)) (treated main_markers l) rs ->
  Forall2 (tile_of E op c (cs_csiz c)) ps ts ->
  exists rz r, gives E op t c st cz r /\ cs_facts E op t c cap l rest ps rz rs ts r.
Proof.
  intros Ht HSIZ HCAP HA HPS HR HT. pose proof HR as HR0. pose proof HT as HT0.
  apply (gives_all_at E op (fun x => BTb (snd (fst x))) snd (fun _ => VNone)
    (fun x => match fst (fst x) with WithComponents => VInt (cs_csiz c) | _ => VNone end) _ rs (List.length c + 3) 2) in HR.
  destruct HR as (f1 & d1 & Hf1 & Hd1 & HR).
  apply (gives_all_at E op (fun _ => BTb m_SOT) (fun _ => c) VInt
    (fun _ => VInt (cs_csiz c)) _ ts f1 d1) in HT.
  destruct HT as (f & d & Hf & Hd & HT). destruct d as [|[|d]]; try lia.
  destruct (cs_says_ok E op f d t c st cz cap l rest ps Ht ltac:(lia) HSIZ HCAP HA HPS) as (rz & HVz & HRz & H).
  assert (EM : mapM (seg_child (validate E op f (S (S d))) (VInt (cs_csiz c))) (treated main_markers l) = Ok rs).
  { apply mapM_ok_iff. clear -HR Hf Hd. induction HR; constructor; [|assumption].
    rewrite seg_child_eq. eapply lift_ok; [eassumption|lia|lia]. }
  assert (EP : mapM (fun p => validate E op f (S (S d)) (BTb m_SOT) c (VInt p) (VInt (cs_csiz c))) ps = Ok ts)
    by (apply mapM_ok_iff; exact HT).
  rewrite EM, EP in H. destruct H as (r & HV & HC). exists rz, r. split; [now exists f, (S (S (S d)))|].
  unfold cs_facts. refine (conj HSIZ (conj HCAP (conj HA (conj HPS (conj _ (conj HRz (conj HR0 (conj HT0 HC)))))))).
  now exists f, (S (S d)).
Qed.
Lemma cs_pass E op t c cap l rest ps rz rs ts r : cs_facts E op t c cap l rest ps rz rs ts r ->
  (all_pass (r_tests r) <->
   holds (cs_tests1 c) /\ holds (siz_tests (o_format op) (cs_siz c)) /\
   Forall (fun r => all_pass (r_tests r)) rs /\ Forall (fun r => all_pass (r_tests r)) ts /\
   holds (cs_tests2 c l ps) /\ holds (cs_tests3 c l)).
Proof.
  intros (_ & _ & _ & _ & HGz & HSz & HR & HT & ((k1 & k2 & k3 & -> & R1 & R2 & R3) & _)).
  rewrite <- anyFalse_spec, anyFalse_node, !existsb_app.
  rewrite filled_any. 2:{ constructor; [apply gives_node in HGz; destruct HGz as (k & ->); now do 2 eexists|].
    now apply (Forall2_node E op (fun x => BTb (snd (fst x))) snd (fun _ => VNone)
    (fun x => match fst (fst x) with WithComponents => VInt (cs_csiz c) | _ => VNone end) (treated main_markers l)). }
  rewrite filled_any by (constructor; [now do 2 eexists|constructor]).
  cbn [existsb]. rewrite anyFalse_node, filled_any
    by now apply (Forall2_node E op (fun _ => BTb m_SOT) (fun _ => c) VInt (fun _ => VInt (cs_csiz c)) ps).
  rewrite !orb_false_iff, !any_all, (reports_holds _ _ _ R1), (reports_holds _ _ _ R2), (reports_holds _ _ _ R3),
    (anyFalse_spec (r_tests rz)), (says_pass _ _ _ _ _ _ HSz).
  tauto.
Qed.

(** A codestream without a failed test has SIZ, and its tile parts form a chain. *)
Lemma cs_valid_inv E op t c st cz r :
  boxTypeOf t = "contiguousCodestreamBox" -> gives E op t c st cz r -> all_pass (r_tests r) ->
  exists cap l rest ps rz rs ts, cs_facts E op t c cap l rest ps rz rs ts r.
Proof.
  intros Ht HG HP. destruct (gives_at _ _ _ _ _ _ _ (List.length c + 3) 3 HG) as (f & d & Hf & Hd & HV).
  destruct d as [|[|[|d]]]; try lia.
  destruct (bytes_eqb (sub (cs_second c) 0 2) m_SIZ) eqn:EB.
  - apply bytes_eqb_spec in EB. destruct (after_total m_SOT (cs_second c)) as (l & rest & HA).
    destruct (cs_general E op f d t c st cz l rest r Ht Hf EB HA HV) as (cap & k & _ & _ & [(ps & HPS)|HF]).
    + destruct (cs_gives E op t c st cz l rest ps r Ht EB HA HPS HG) as (cap' & rz & rs & ts & H). eauto 8.
    + exfalso. apply anyFalse_spec in HP. congruence.
  - exfalso. assert (HN : sub (cs_second c) 0 2 <> m_SIZ) by (intros HX; rewrite HX, bytes_eqb_refl in EB; discriminate).
    destruct (cs_nosiz_ok E op f (S (S d)) t c st cz Ht HN) as (res & HV' & ((k & HT & HR) & _)).
    rewrite HV' in HV. injection HV as <-. rewrite HT in HP. apply anyFalse_spec in HP. rewrite anyFalse_node in HP.
    apply (reports_holds _ _ _ HR) in HP. unfold holds, cs_tests1 in HP. inversion HP as [|? ? _ HP2]; subst.
    inversion HP2; subst. now apply HN.
Qed.
