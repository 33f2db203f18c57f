(** * Codestreams whose analysis ends, and codestreams whose analysis does not *)

From Coq Require Import ZArith List Bool String Lia.
From Coq Require Import Init.Byte.
From Coq Require Import ZifyBool.
From Verif Require Import Py PyFloat ByteConv ETree BV VBoxes VMarkers VSuper Spec SpecBox SpecMarker
     SpecWalk SpecSuper SpecIPL SpecCS SpecFile SpecTop PBase PEmit PLeaf PLeaf2 PMarker PMarker2 PRel PWalk PSuper PSeg PTile PChain PCS
     PIPL PGrow Prop_Options PFile PTop SpecValid PValid PEnds.
Import ListNotations.
Open Scope string_scope.
Open Scope list_scope.
Open Scope Z_scope.

(** ** Recursion limits *)
Lemma eq_find' p e : plain (etag e) -> Forall plain p ->
  Forall2 (fun a b => [a] = [b] /\ plain (etag a)) (findall p e) (findall p e).
Proof.
  intros HE HP. revert e HE. induction HP as [|t p Ht HP IH]; intros e HE.
  - constructor; [auto|constructor].
  - cbn [findall]. induction (ekids e) as [|x l IHl]; [constructor|].
    cbn [filter]. destruct (String.eqb (etag x) t) eqn:ET; [|exact IHl].
    apply String.eqb_eq in ET. cbn [flat_map]. apply Forall2_app; [|exact IHl]. apply IH. now rewrite ET.
Qed.
(** More levels change nothing but a RecursionError. *)
Lemma same_fuel E op fuel d d' t c st cz : (d <= d')%nat ->
  validate E op fuel d t c st cz <> Raise RecursionError ->
  validate E op fuel d' t c st cz = validate E op fuel d t c st cz.
Proof.
  intros HD HN.
  assert (H : rrel False (eq RecursionError) (fun e => True)
    (bvrel eq eq eq t)
    (validate E op fuel d t c st cz) (validate E op fuel d' t c st cz)).
  { apply validate_rel.
    - reflexivity.
    - left. reflexivity.
    - repeat split.
    - now intros a b a' b' -> ->.
    - reflexivity.
    - intros n b. reflexivity.
    - now intros tg k1 k2 ->.
    - now intros a b ->.
    - now intros a b a' b' -> ->.
    - reflexivity.
    - now intros tg k1 k2 ->.
    - now intros a b a' b' -> ->.
    - reflexivity.
    - now intros tg k1 k2 ->.
    - now left.
    - intros tg e1 e2 _ HE _. now injection HE as ->.
    - intros e1 e2 HE _. now injection HE as ->.
    - intros p e1 e2 HE. injection HE as ->. now apply eq_find'.
    - right. auto. }
  destruct (validate E op fuel d t c st cz) as [r1|e|]; cbn in H.
  - destruct H as (r2 & -> & (tg & k1 & k2 & H1 & H2 & HT) & HC & _ & (tg' & w1 & w2 & H3 & H4 & HW) & G1 & G2 & G3).
    f_equal. destruct r1, r2. cbn in *. subst. now injection HC as ->.
  - destruct H as (_ & [->|<-]); [reflexivity|]. contradiction.
  - destruct H as [H|[]]; exact H.
Qed.
Lemma fine_rec {A} dv (r : res A) : fine dv no_rec r -> r <> Raise RecursionError.
Proof. intros H ->. apply H. reflexivity. Qed.

(** ** Tile parts in a circle *)
Definition circle (n : Z) (c : bytes) (Q : Z -> Prop) : Prop :=
  forall p, Q p -> 0 <= p /\ sub c p 2 = m_SOT /\ 0 <= tp_isot c p < n /\ tp_psot c p <> 0 /\ Q (p + tp_psot c p).

Lemma circle_loop E op fuel0 d c m n f Q : s_contents f = c -> (List.length c + 3 <= fuel0)%nat -> circle n c Q ->
  (forall p, Q p -> exists r, tile_at E op fuel0 (S (S d)) c m p = Ok r) ->
  forall fuel p q t st, Q p -> inv c n q t -> loop fuel (tlBody E op fuel0 (S (S d)) m f) (p, t) st = Diverge.
Proof.
  intros Hc HF HC HS. induction fuel as [|fuel IH]; intros p q t st Hp HI; [reflexivity|].
  cbn [loop]. unfold bind at 1. destruct (HC p Hp) as (Hp0 & HM & Hi & Hz & HN).
  assert (HTO : forall q r, 0 <= q -> sub c q 2 = m_SOT -> tile_at E op fuel0 (S (S d)) c m q = Ok r -> 
     r_ret r = VInt (q + tp_psot c q) /\
     findElementText ["sot"; "isot"] (r_chars r) = VInt (tp_isot c q) /\
     findElementText ["sot"; "tnsot"] (r_chars r) = VInt (tp_tnsot c q)).
  { intros q0 r Hq HM0 HV. eapply tile_facts; eassumption. }
  rewrite (tlBody_spec E op fuel0 (S (S d)) c m n HTO f q p t st Hc Hp0 HI).
  rewrite HM, bytes_eqb_refl. destruct (HS p Hp) as (r & ->). cbn [rbind].
  replace ((0 <=? tp_isot c p) && (tp_isot c p <? n) && negb (tp_psot c p =? 0)) with true by lia.
  apply IH with (q := q ++ [p]); [exact HN|]. now apply (inv_step E op fuel0 (S (S d)) c m n HTO).
Qed.

Definition tl0 (n : Z) : tpl :=
  {| tl_tests := []; tl_chars := []; tl_warns := []; tl_indices := [];
     tl_expected := []; tl_found := dict_of n (fun _ => 0) |}.
Lemma inv0 c n : inv c n [] (tl0 n).
Proof.
  constructor; cbn.
  - exists []. split; [reflexivity|]. split; [constructor|]. reflexivity.
  - exists []. split; [reflexivity|]. split; [constructor|]. reflexivity.
  - reflexivity.
Qed.

Lemma cs_tiles_diverge E op fuel d f c cap l s1 :
  s_contents f = c -> s_opts f = op -> (List.length c + 3 <= fuel)%nat ->
  sub (cs_second c) 0 2 = m_SIZ -> siz_capability (val (cs_siz c) 2 2) = Some cap ->
  after m_SOT (cs_second c) l (Some s1) ->
  (exists rs, mapM (seg_child (validate E op fuel (S (S d))) (VInt (cs_csiz c))) (treated main_markers l) = Ok rs) ->
  (forall s, loop fuel (tlBody E op fuel (S (S d)) (cs_csiz c) f) (len c - len s1, tl0 (cs_tiles c)) s = Diverge) ->
  validate_contiguousCodestreamBox (validate E op fuel (S (S d))) fuel f st0 = Diverge.
Proof.
  intros Hfc Hfo HF HSIZ HCAP HA (rs & EM) HL.
  destruct (siz_says E op fuel (S d) (cs_siz c) VNone VNone cap HCAP) as (rz & HVz & HRz & _ & _ & _).
  destruct HRz as (HTz & HCz & HWz). change (boxTypeOf (BTb mSIZ)) with "siz" in HCz.
  set (D := S (S d)) in *.
  pose proof (second_spec c) as H2. rewrite getMarkerSegment_spec in H2 by lia.
  destruct (H2 HSIZ) as (p & Hn0 & Hp & Hsec). clear H2.
  pose proof (after_len _ _ _ _ HA) as HLEN.
  assert (HLC : (List.length (cs_second c) <= List.length c)%nat) by (rewrite Hsec, skipn_length; lia).
  destruct (mainHeader_spec (validate E op fuel D) fuel f (VInt (cs_csiz c)) p l (Some s1) Hp)
    as (s' & _ & HREST & HE).
  { rewrite Hfc. rewrite <- Hsec, HSIZ. discriminate. }
  { rewrite Hfc. rewrite <- Hsec. exact HA. }
  { lia. }
  rewrite Hfc in HE, HREST. rewrite ?Hfo in HE. rewrite <- Hsec, HSIZ in HE.
  remember (validate_contiguousCodestreamBox (validate E op fuel D) fuel f st0) as R eqn:HR. symmetry in HR.
  unfold validate_contiguousCodestreamBox in HR. cbv zeta in HR. rewrite ?Hfc, ?Hfo in HR.
  rewrite getMarkerSegment_spec in HR by lia. rewrite Hn0 in HR.
  rewrite getMarkerSegment_spec in HR by exact Hp. rewrite <- Hsec, HSIZ in HR.
  fold (cs_siz c) in HR. change (skipn (Z.to_nat 0) c) with c in HR.
  erewrite bind_emits in HR by apply emits_test. erewrite bind_emits in HR by apply emits_test.
  change (bytes_eqb m_SIZ mSIZ) with true in HR. cbn [when] in HR.
  rewrite bind_assoc in HR. unfold bind at 1 in HR. rewrite attach_eq in HR.
  unfold mSIZ in HVz. unfold m_SIZ in HR at 1. rewrite HVz in HR. cbn [rbind] in HR.
  rewrite HCz, siz_find in HR by (cbn; tauto). cbn [List.find String.eqb Ascii.eqb Bool.eqb fst snd] in HR.
  fold (cs_csiz c) in HR. rewrite !app_st_app in HR.
  match type of HR with bind _ _ ?s = _ => set (S0 := s) in HR end.
  assert (HS0 : st_chars S0 = [node "siz" (leaves (siz_props cap (cs_siz c)))]) by reflexivity. clearbody S0.
  rewrite bind_assoc in HR. unfold bind at 1 in HR. rewrite HE in HR. clear HE.
  rewrite EM in HR. cbn [rbind] in HR.
  rewrite bind_assoc in HR. erewrite bind_emits in HR by (apply (emits_int op)).
  rewrite bind_assoc in HR. erewrite bind_emits in HR by (apply (emits_int op)).
  rewrite bind_assoc in HR. erewrite bind_emits in HR by apply emits_test.
  rewrite bind_assoc in HR. erewrite bind_emits in HR by apply emits_test.
  rewrite bind_assoc in HR. unfold bind at 1 in HR. unfold get_chars at 1 in HR.
  rewrite !app_st_app in HR.
  match type of HR with context [findElementText ["siz"; "rsiz"] (node "" (st_chars ?s))] =>
    assert (HCH : forall k, In k ["csiz"; "rsiz"; "numberOfTiles"; "xsiz"; "ysiz"; "xOsiz"; "yOsiz"] ->
      findElementText ["siz"; k] (node "" (st_chars s)) =
      findElementText [k] (node "siz" (leaves (siz_props cap (cs_siz c)))))
  end.
  { intros k1 Hk1. cbn [st_chars app_st]. rewrite HS0. cbn [app]. apply find2; [reflexivity|now apply siz_has]. }
  rewrite !HCH in HR by (cbn; tauto).
  rewrite !siz_find in HR by (cbn; tauto). cbn [List.find String.eqb Ascii.eqb Bool.eqb fst snd] in HR.
  cbn [as_int] in HR.
  rewrite bind_assoc in HR. erewrite bind_emits in HR by (apply (emits_lift op)).
  rewrite bind_assoc, cap_bits in HR. erewrite bind_emits in HR by (eapply emits_when, emits_test).
  rewrite bind_assoc in HR. erewrite bind_emits in HR by (apply (emits_lift op)).
  fold (cs_tiles c) in HR. rewrite dict_zeros_of in HR.
  destruct HREST as (HM1 & HO1 & HS1').
  pose proof (after_some _ _ _ _ HA) as HSOT.
  assert (HOL : mh_offset s' < len c).
  { destruct (Z_lt_le_dec (mh_offset s') (len c)) as [G|G]; [exact G|]. exfalso.
    rewrite HS1', skipn_all2 in HSOT by (unfold len in G; lia). discriminate HSOT. }
  rewrite bind_assoc in HR. unfold bind at 1 in HR.
  rewrite HM1 in HR. change (bytes_eqb m_SOT mSOT) with true in HR. cbv iota in HR.
  rewrite tilePartLoop_body in HR.
  rewrite HS1', len_skipn in HL by lia. replace (len c - (len c - mh_offset s')) with (mh_offset s') in HL by lia.
  match type of HR with match loop ?a ?b ?x ?s with _ => _ end = _ => assert (HX : loop a b x s = Diverge) by exact (HL s) end.
  rewrite HX in HR. now rewrite <- HR.
Qed.

(** Less fuel changes nothing but divergence. *)
Lemma less_fuel E op fuel fuel' d t c st cz : (fuel <= fuel')%nat ->
  validate E op fuel' d t c st cz = Diverge -> validate E op fuel d t c st cz = Diverge.
Proof.
  intros HF HV.
  assert (H : rrel True (fun _ => False) (fun e => True)
    (bvrel eq eq eq t)
    (validate E op fuel d t c st cz) (validate E op fuel' d t c st cz)).
  { apply validate_rel.
    - reflexivity.
    - right. auto.
    - repeat split.
    - now intros a b a' b' -> ->.
    - reflexivity.
    - intros n b. reflexivity.
    - now intros tg k1 k2 ->.
    - now intros a b ->.
    - now intros a b a' b' -> ->.
    - reflexivity.
    - now intros tg k1 k2 ->.
    - now intros a b a' b' -> ->.
    - reflexivity.
    - now intros tg k1 k2 ->.
    - now left.
    - intros tg e1 e2 _ HE _. now injection HE as ->.
    - intros e1 e2 HE _. now injection HE as ->.
    - intros p e1 e2 HE. injection HE as ->. now apply eq_find'.
    - now left. }
  destruct (validate E op fuel d t c st cz) as [r1|e|]; cbn in H; [| |reflexivity].
  - destruct H as (r2 & H & _). congruence.
  - destruct H as (_ & [H|[]]). congruence.
Qed.

Lemma Forall2_in_l {A B} (R : A -> B -> Prop) l k x : Forall2 R l k -> In x l -> exists y, R x y.
Proof. induction 1 as [|a b l k H _ IH]; intros [-> |HI] || intros []; eauto. Qed.

(** Offsets of tile parts each of which leads to another one. *)
Lemma cs_endless E op t c st cz cap l s1 (ps : list Z) :
  boxTypeOf t = "contiguousCodestreamBox" ->
  sub (cs_second c) 0 2 = m_SIZ -> siz_capability (val (cs_siz c) 2 2) = Some cap ->
  after m_SOT (cs_second c) l (Some s1) ->
  Forall (fun x => exists r, seg_gives E op (cs_csiz c) x r) (treated main_markers l) ->
  circle (cs_tiles c) c (fun p => In p ps) -> In (len c - len s1) ps ->
  Forall (fun p => exists r, tile_of E op c (cs_csiz c) p r) ps ->
  loops E op t c st cz.
Proof.
  intros Ht HSIZ HCAP HA HS HC HSp HT.
  assert (HS2 : exists rs, Forall2 (seg_gives E op (cs_csiz c)) (treated main_markers l) rs).
  { clear -HS. induction HS as [|x k (r & H) _ (rs & IH)]; [now exists []|]. exists (r :: rs). now constructor. }
  assert (HT2 : exists ts, Forall2 (tile_of E op c (cs_csiz c)) ps ts).
  { clear -HT. induction HT as [|x k (r & H) _ (rs & IH)]; [now exists []|]. exists (r :: rs). now constructor. }
  destruct HS2 as (rs & HR). destruct HT2 as (ts & HT2).
  apply (gives_all_at E op (fun x => BTb (snd (fst x))) snd (fun _ => VNone)
    (fun x => match fst (fst x) with WithComponents => VInt (cs_csiz c) | _ => VNone end) _ rs (List.length c + 3) 2) in HR.
  destruct HR as (f1 & d1 & Hf1 & Hd1 & HR).
  apply (gives_all_at E op (fun _ => BTb m_SOT) (fun _ => c) VInt
    (fun _ => VInt (cs_csiz c)) _ ts f1 d1) in HT2.
  destruct HT2 as (f & d & Hf & Hd & HT2).
  exists (d + 1)%nat. intros fuel d' Hd'. destruct d' as [|[|[|d']]]; try lia.
  set (F := (fuel + f)%nat). apply less_fuel with F; [unfold F; lia|].
  rewrite validate_S.
  set (g := {| s_opts := op; s_btype := t; s_contents := c; s_start := st; s_csiz := cz |}).
  replace (runMethod E (validate E op F (S (S d'))) F g)
    with (validate_contiguousCodestreamBox (validate E op F (S (S d'))) F g)
    by (unfold runMethod; cbn [s_btype g]; rewrite Ht; reflexivity).
  rewrite (cs_tiles_diverge E op F d' g c cap l s1); auto; [unfold F; lia| |].
  - exists rs. apply mapM_ok_iff. clear -HR Hf Hd Hd' F. induction HR; constructor; [|assumption].
    rewrite seg_child_eq. eapply lift_ok; [eassumption|unfold F; lia|lia].
  - intros s. apply (circle_loop E op F d' c (cs_csiz c) (cs_tiles c) g (fun p => In p ps)) with (q := []);
      [reflexivity|unfold F; lia|exact HC| |exact HSp|apply inv0].
    intros p Hp. destruct (Forall2_in_l _ _ _ _ HT2 Hp) as (r & H). exists r.
    unfold tile_at. eapply lift_ok; [eassumption|unfold F; lia|lia].
Qed.

(** ** Tile parts that do not form a circle *)
Lemma chain_total n c : (forall p, 0 <= p -> sub c p 2 = m_SOT -> 0 <= tp_isot c p < n -> tp_psot c p <> -9999) ->
  forall p, 0 <= p -> exists ps, chain n c p ps.
Proof.
  intros HU p Hp. remember (Z.to_nat (len c - p)) as k eqn:Hk. revert p Hp Hk.
  induction k as [k IH] using (well_founded_induction Wf_nat.lt_wf). intros p Hp Hk.
  destruct (list_eq_dec Byte.byte_eq_dec (sub c p 2) m_SOT) as [D|D]; [|exists []; now apply chain_end].
  assert (HL : p + 2 <= len c).
  { apply (f_equal (@len byte)) in D. rewrite len_sub in D by lia. unfold m_SOT, len at 2 in D. cbn in D. lia. }
  destruct (Z_le_dec 0 (tp_isot c p)) as [D1|D1]; [|exists [p]; apply chain_stop; auto; lia].
  destruct (Z_lt_dec (tp_isot c p) n) as [D2|D2]; [|exists [p]; apply chain_stop; auto; lia].
  pose proof (val_4_range (tp_sot c p) 4 ltac:(lia)) as HR. fold (tp_psot c p) in HR.
  specialize (HU p Hp D (conj D1 D2)).
  destruct (Z.eq_dec (tp_psot c p) 0) as [D3|D3]; [exists [p]; apply chain_stop; auto|].
  destruct (IH (Z.to_nat (len c - (p + tp_psot c p)))) with (p := p + tp_psot c p) as (ps & H); [lia|lia|reflexivity|].
  exists (p :: ps). apply chain_next; auto; lia.
Qed.

(** Only packet length segments can keep a header from ending. *)
Lemma in_treated tbl l k m x : In (k, m, x) (treated tbl l) -> In (m, x) l /\ lookup m tbl = Some k.
Proof.
  unfold treated. rewrite in_flat_map. intros ([m' x'] & HI & H). destruct (lookup m' tbl) as [k'|] eqn:EL; [|destruct H].
  destruct H as [H|[]]. injection H as -> -> ->. auto.
Qed.
Lemma seg_ends E op fuel d n k m x tbl l : tbl = main_markers \/ tbl = tile_markers -> In (k, m, x) (treated tbl l) ->
  seg_child (validate E op fuel d) (VInt n) (k, m, x) = Diverge ->
  m = (if bytes_eqb m m_PLM then m_PLM else m_PLT) /\ validate E op fuel d (BTb m) x VNone VNone = Diverge.
Proof.
  intros HT HI HV. apply in_treated in HI as (HI & HL). rewrite seg_child_eq in HV. cbn [fst snd] in HV.
  unfold lookup in HL.
  destruct (List.find _ tbl) as [[m' k']|] eqn:EF; [|discriminate]. injection HL as HL. cbn in HL. subst k'.
  apply find_some in EF as (HIn & HE). apply bytes_eqb_spec in HE. cbn in HE. subst m'.
  assert (HX : In m [m_PLM; m_PLT] /\ k = PacketMarker \/ (~ In (boxTypeOf (BTb m)) deep_names /\ ~ In (boxTypeOf (BTb m)) ipl_names)).
  { destruct HT as [-> | ->]; cbn in HIn;
      repeat (destruct HIn as [HIn|HIn];
        [injection HIn as <- <-; (left; split; [cbn; tauto|reflexivity]) || (right; split; cbn; intuition discriminate)|]);
      destruct HIn. }
  destruct HX as [(HX & ->)|(H1 & H2)]; [|now apply leaf_ends in HV].
  split; [|exact HV]. destruct HX as [<-|[<-|[]]]; reflexivity.
Qed.

Lemma tile_diverges E op fuel d c p n : (List.length c + 3 <= fuel)%nat -> 0 <= p -> sub c p 2 = m_SOT ->
  validate E op fuel (S (S d)) (BTb m_SOT) c (VInt p) (VInt n) = Diverge ->
  exists l r x, after m_SOD (skipn (Z.to_nat p) c) l r /\ In (m_PLT, x) l /\
    validate E op fuel (S d) (BTb m_PLT) x VNone VNone = Diverge.
Proof.
  intros HF Hp HM HV. destruct (after_total m_SOD (skipn (Z.to_nat p) c)) as (l & r & HA).
  pose proof (after_len _ _ _ _ HA) as HL. rewrite skipn_length in HL.
  destruct (tile_says_ok E op fuel d c p n l r Hp HM HA ltac:(lia)) as (r0 & _ & _ & H).
  destruct (mapM _ _) as [rs|e|] eqn:EM; [destruct H as (r' & H & _); congruence|congruence|].
  apply mapM_diverge in EM as (((k & m) & x) & HI & HE).
  destruct (seg_ends E op fuel (S d) n k m x tile_markers l (or_intror eq_refl) HI HE) as (Hm & HD).
  exists l, r, x. apply in_treated in HI as (HI & HLK).
  destruct (bytes_eqb m m_PLM); subst m; [discriminate HLK|]. auto.
Qed.
Lemma cs_diverges E op fuel d t c st cz l rest ps : boxTypeOf t = "contiguousCodestreamBox" ->
  (List.length c + 3 <= fuel)%nat -> sub (cs_second c) 0 2 = m_SIZ -> after m_SOT (cs_second c) l rest -> parts c rest ps ->
  validate E op fuel (S (S (S d))) t c st cz = Diverge ->
  (exists x, In (m_PLM, x) l /\ validate E op fuel (S (S d)) (BTb m_PLM) x VNone VNone = Diverge) \/
  (exists p, In p ps /\ validate E op fuel (S (S d)) (BTb m_SOT) c (VInt p) (VInt (cs_csiz c)) = Diverge).
Proof.
  intros Ht HF HSIZ HA HPS HV.
  destruct (siz_capability (val (cs_siz c) 2 2)) as [cap|] eqn:HCAP.
  2:{ rewrite cs_siz_raises in HV by assumption. discriminate. }
  destruct (cs_says_ok E op fuel d t c st cz cap l rest ps Ht HF HSIZ HCAP HA HPS) as (rz & _ & _ & H).
  destruct (mapM (seg_child _ _) _) as [rs|e|] eqn:EM; [|congruence|].
  - destruct (mapM _ ps) as [ts|e|] eqn:EP; [destruct H as (r' & H & _); congruence|congruence|].
    right. apply mapM_diverge in EP. exact EP.
  - left. apply mapM_diverge in EM as (((k & m) & x) & HI & HE).
    destruct (seg_ends E op fuel (S (S d)) (cs_csiz c) k m x main_markers l (or_introl eq_refl) HI HE) as (Hm & HD).
    exists x. apply in_treated in HI as (HI & HLK).
    destruct (bytes_eqb m m_PLM); subst m; [|discriminate HLK]. auto.
Qed.

(** ** Outcomes *)
Lemma outcome E op fuel d t c st cz : fine True no_rec (validate E op fuel d t c st cz) ->
  validate E op fuel d t c st cz <> Diverge ->
  (exists r, gives E op t c st cz r) \/ (exists e, e <> RecursionError /\ fails E op t c st cz e).
Proof.
  intros HF HD. destruct (validate E op fuel d t c st cz) as [r|e|] eqn:HV; [|right|contradiction].
  - left. exists r, fuel, d. exact HV.
  - exists e. split; [exact HF|]. exists fuel, d. intros fuel' d' H1 H2.
    pose proof (C57_limits E op fuel fuel' d d' t c st cz H1 H2) as HC. rewrite HV in HC.
    destruct e; try exact HC. exfalso. now apply HF.
Qed.
Lemma ends_never E op t c st cz : ends E op t c st cz ->
  exists F, forall fuel d, (F <= fuel)%nat -> validate E op fuel d t c st cz <> Diverge.
Proof.
  assert (HX : forall fuel d d', validate E op fuel d t c st cz = Diverge -> (d <= d')%nat -> validate E op fuel d' t c st cz = Diverge).
  { intros fuel d d' HV HD. rewrite (same_fuel E op fuel d d'); [exact HV|exact HD|congruence]. }
  intros [(r & f & d0 & HV)|(e & _ & f & d0 & HV)]; exists f; intros fuel d HF HD.
  - pose proof (HX fuel d (d0 + d)%nat HD ltac:(lia)) as H1.
    rewrite (lift_ok _ _ _ fuel _ (d0 + d)%nat _ _ _ _ _ HV) in H1; [discriminate|lia|lia].
  - pose proof (HX fuel d (d0 + d)%nat HD ltac:(lia)) as H1. rewrite HV in H1 by lia. discriminate.
Qed.
Lemma inbox_trans c s y b : inbox c (s, y) -> In s supers -> inbox y b -> inbox c b.
Proof.
  intros HC Hs Hb. induction Hb as [bs' b HS' Hb'|s' z bs' b HW IH Hs' HS' Hb'].
  - now apply inbox_in with s y bs'.
  - now apply inbox_in with s' z bs'.
Qed.
Lemma inbox_inv c bs b : splits c bs -> inbox c b ->
  In b bs \/ exists s y, In (s, y) bs /\ In s supers /\ inbox y b.
Proof.
  intros HS H. induction H as [bs' b HS' Hb'|s' z bs' b HW IH Hs' HS' Hb'].
  - left. now rewrite (splits_unique _ _ HS _ HS').
  - right. destruct IH as [IH|(s & y & H1 & H2 & H3)].
    + exists s', z. split; [exact IH|]. split; [exact Hs'|]. now apply inbox_here with bs'.
    + exists s, y. split; [exact H1|]. split; [exact H2|]. now apply inbox_in with s' z bs'.
Qed.
Lemma inbox_finite c : exists L, forall b, inbox c b <-> In b L.
Proof.
  remember (List.length c) as n eqn:Hn. revert c Hn.
  induction n as [n IH] using (well_founded_induction Wf_nat.lt_wf). intros c Hn.
  destruct (splits_total c) as (bs & HS). pose proof (splits_inside8 _ _ HS) as H8. rewrite Forall_forall in H8.
  assert (HL : forall l, incl l bs -> exists L, forall b, In b L <-> exists s y, In (s, y) l /\ In s supers /\ inbox y b).
  { induction l as [|(s & y) l IHl]; intros HI.
    { exists []. intros b. split; [intros []|]. intros (s & y & [] & _). }
    destruct IHl as (L & HL); [intros b Hb; apply HI; now right|].
    assert (Hb : In (s, y) bs) by (apply HI; now left). destruct (H8 _ Hb) as (H81 & _). cbn [snd] in H81.
    pose proof (splits_nonempty _ _ _ HS Hb).
    destruct (IH (List.length y)) with (c := y) as (L' & HL'); [unfold len in *; lia|reflexivity|].
    destruct (supers_dec s) as [Hs|Hs].
    - exists (L' ++ L). intros b. rewrite in_app_iff, <- HL', HL. split.
      + intros [H1|(s' & y' & H1 & H2)]; [exists s, y; split; [now left|auto]|exists s', y'; split; [now right|auto]].
      + intros (s' & y' & [H1|H1] & H2 & H3); [injection H1 as <- <-; now left|right; now exists s', y'].
    - exists L. intros b. rewrite HL. split.
      + intros (s' & y' & H1 & H2). exists s', y'. split; [now right|auto].
      + intros (s' & y' & [H1|H1] & H2 & H3); [injection H1 as <- <-; contradiction|now exists s', y']. }
  destruct (HL bs (fun _ H => H)) as (L & HL'). exists (bs ++ L). intros b. rewrite in_app_iff, HL'. split.
  - now apply inbox_inv.
  - intros [H|(s & y & H1 & H2 & H3)]; [now apply inbox_here with bs|].
    apply inbox_trans with s y; auto. now apply inbox_here with bs.
Qed.
Lemma bound_all {X} (P : nat -> X -> Prop) (l : list X) : (forall n m x, (n <= m)%nat -> P n x -> P m x) ->
  Forall (fun x => exists n, P n x) l -> exists n, Forall (P n) l.
Proof.
  intros HM. induction 1 as [|x l (n & H) _ (m & IH)]; [exists O; constructor|]. exists (n + m)%nat.
  constructor; [apply HM with n; [lia|exact H]|]. eapply Forall_impl; [|exact IH]. intros y. apply HM. lia.
Qed.
Lemma container_ends E op t c : t = BTs "JP2" \/ (exists s, t = BTb s /\ In s supers) ->
  (forall y, inbox c (t_jp2c, y) -> ends E op (BTb t_jp2c) y VNone VNone) -> ends E op t c VNone VNone.
Proof.
  intros Ht HY. destruct (inbox_finite c) as (L & HL).
  destruct (bound_all (fun F b => forall fuel d, (F <= fuel)%nat ->
     validate E op fuel d (BTb t_jp2c) (snd b) VNone VNone <> Diverge)
     (filter (fun b => bytes_eqb (fst b) t_jp2c) L)) as (F & HF).
  - intros n m x Hnm H fuel d Hf. apply H. lia.
  - apply Forall_forall. intros (s & y) Hb. apply filter_In in Hb as (Hb & Hs). apply bytes_eqb_spec in Hs. cbn in Hs. subst s.
    cbn [snd]. apply ends_never, HY. now apply HL.
  - set (fuel := (F + S (List.length c))%nat). set (d := Z.to_nat (levels (len c))).
    assert (HLV : 0 <= levels (len c)) by (unfold levels; pose proof (len_nonneg c); pose proof (Z.div_pos (len c + 7) 8); lia).
    apply (outcome E op fuel d).
    + destruct Ht as [->|(s & -> & _)]; [apply root_deep|apply box_deep]; unfold fuel, d; lia.
    + intros HD. apply root_diverges in HD as (y & d' & H1 & _ & H2); [|exact Ht|unfold fuel; lia].
      rewrite Forall_forall in HF. apply (HF (t_jp2c, y)) in H2; [exact H2| |unfold fuel; lia].
      apply filter_In. split; [now apply HL|reflexivity].
Qed.

(** ** Codestreams *)
Definition ipl_ends (o : Z) (x : bytes) : Prop := exists es, entries (val x 0 2 - o) (skipn (Z.to_nat o) x) es.
Lemma plt_not E op fuel d t o x st cz : (t, o) = (m_PLT, 3) \/ (t, o) = (m_PLM, 4) -> ipl_ends o x -> (List.length x < fuel)%nat ->
  validate E op fuel d (BTb t) x st cz <> Diverge.
Proof.
  intros Ht (es & HE) HF HV. destruct d as [|d]; [discriminate|].
  destruct Ht as [Ht|Ht]; injection Ht as -> ->.
  - destruct (plt_says E op fuel d x st cz es HE) as (r & HV' & _); [unfold len; lia|].
    change m_PLT with mPLT in HV. congruence.
  - destruct (plm_says E op fuel d x st cz es HE) as (r & HV' & _); [unfold len; lia|].
    change m_PLM with mPLM in HV. congruence.
Qed.
Lemma segs_short stop s l r m x : segs stop s l r -> In (m, x) l -> (List.length x <= List.length s)%nat.
Proof.
  induction 1 as [s HS|s HS HL|s l r HS HL H IH]; [intros []|intros [HI|[]]|intros [HI|HI]].
  - injection HI as _ <-. cbn. lia.
  - injection HI as _ <-. unfold sub. rewrite firstn_length, skipn_length. lia.
  - specialize (IH HI). rewrite skipn_length in IH. lia.
Qed.
Lemma after_short stop s l r m x : after stop s l r -> In (m, x) l -> (List.length x <= List.length s)%nat.
Proof.
  unfold after. destruct (_ =? _); [intros (-> & _) []|]. intros H HI. apply (segs_short _ _ _ _ _ _ H) in HI.
  rewrite skipn_length in HI. lia.
Qed.
Lemma cs_ends E op t c st cz : boxTypeOf t = "contiguousCodestreamBox" ->
  (forall l rest, after m_SOT (cs_second c) l rest ->
     (forall x, In (m_PLM, x) l -> ipl_ends 4 x) /\
     exists ps, parts c rest ps /\ forall p l' r' x, In p ps -> after m_SOD (skipn (Z.to_nat p) c) l' r' ->
       In (m_PLT, x) l' -> ipl_ends 3 x) ->
  ends E op t c st cz.
Proof.
  intros Ht H1. apply (outcome E op (List.length c + 3) 3); [now apply cs_deep|]. intros HV.
  destruct (list_eq_dec Byte.byte_eq_dec (sub (cs_second c) 0 2) m_SIZ) as [HSIZ|HN].
  2:{ destruct (cs_nosiz_ok E op (List.length c + 3) 2 t c st cz Ht HN) as (res & HV' & _). congruence. }
  destruct (after_total m_SOT (cs_second c)) as (l & rest & HA). destruct (H1 l rest HA) as (HPLM & ps & HPS & H2).
  assert (HLC : (List.length (cs_second c) <= List.length c)%nat)
    by (unfold cs_second; destruct (_ =? _); [cbn; lia|rewrite skipn_length; lia]).
  destruct (cs_diverges E op _ O t c st cz l rest ps Ht (le_n _) HSIZ HA HPS HV) as [(x & HI & HD)|(p & HI & HD)].
  - revert HD. apply (plt_not E op _ _ m_PLM 4); [now right|now apply HPLM|].
    pose proof (after_short _ _ _ _ _ _ HA HI). lia.
  - destruct (parts_at _ _ _ _ HPS HI) as (Hp & HM).
    apply tile_diverges in HD as (l' & r' & x & HA' & HI' & HD); [|lia|exact Hp|exact HM].
    revert HD. apply (plt_not E op _ _ m_PLT 3); [now left|now apply (H2 p l' r' x)|].
    pose proof (after_short _ _ _ _ _ _ HA' HI') as HS. rewrite skipn_length in HS. lia.
Qed.
