(** * Tile parts: C15 *)

From Coq Require Import ZArith List Bool String Lia.
From Coq Require Import Init.Byte.
From Coq Require Import ZifyBool.
From Verif Require Import Py PyFloat ByteConv ETree BV VBoxes VMarkers VSuper Spec SpecBox SpecMarker
     SpecWalk SpecSuper SpecIPL SpecCS SpecFile SpecTop PBase PEmit PLeaf PLeaf2 PMarker PMarker2 PRel PWalk PSuper PSeg PWrite
     PTile PChain PCS PIPL PGrow Prop_Options PFile PTop SpecValid PValid PEnds PLoop Ex Prop_IPL Prop_Walk.
Import ListNotations.
Open Scope string_scope.
Open Scope list_scope.
Open Scope Z_scope.

(** ** C15: tile parts *)

(** [bad_sot c p]: at [p] there is an SOT marker with a tile index of the image, and
    the length of the tile part cannot be read. *)
Definition bad_sot (c : bytes) (p : Z) : Prop :=
  0 <= p /\ sub c p 2 = m_SOT /\ 0 <= tp_isot c p < cs_tiles c /\ tp_psot c p = -9999.
(** The packet lengths of the headers come to an end (C16). *)
Definition packet_lengths_end (c : bytes) : Prop :=
  (forall l r x, after m_SOT (cs_second c) l r -> In (m_PLM, x) l -> ipl_ends 4 x) /\
  (forall p l r x, 0 <= p -> sub c p 2 = m_SOT -> after m_SOD (skipn (Z.to_nat p) c) l r -> In (m_PLT, x) l -> ipl_ends 3 x).
Lemma after_rest stop s l s1 : after stop s l (Some s1) -> exists n, s1 = skipn n s.
Proof.
  unfold after. destruct (_ =? _); [intros (_ & H); discriminate|]. remember (Some s1) as r eqn:Hr.
  intros H. assert (HX : exists n, s1 = skipn n (skipn (Z.to_nat (seg_length s + 2)) s)).
  { induction H as [w HS|w HS HL|w l r HS HL H IH]; [injection Hr as ->; now exists O|discriminate|].
    destruct (IH Hr) as (n & ->). eexists. rewrite skipn_skipn. reflexivity. }
  destruct HX as (n & ->). eexists. rewrite skipn_skipn. reflexivity.
Qed.
Theorem C15_terminates E op t c st cz : boxTypeOf t = "contiguousCodestreamBox" ->
  (forall p, ~ bad_sot c p) -> packet_lengths_end c -> ends E op t c st cz.
Proof.
  intros Ht HB (H4 & H3). apply cs_ends; [exact Ht|]. intros l rest HA. split; [intros x; now apply (H4 l rest)|].
  destruct rest as [s1|].
  - destruct (chain_total (cs_tiles c) c) with (p := len c - len s1) as (ps & HC).
    { intros p Hp HM Hi HN. now apply (HB p). }
    { destruct (after_rest _ _ _ _ HA) as (n & ->). unfold cs_second. destruct (_ =? _).
      - rewrite skipn_nil. pose proof (len_nonneg c). unfold len at 2. cbn. lia.
      - unfold len. rewrite !skipn_length. lia. }
    exists ps. split; [exact HC|]. intros p l' r' x HI. destruct (chain_at _ _ _ _ HC p HI) as (Hp & HM). now apply H3.
  - exists []. split; [reflexivity|]. intros p l' r' x [].
Qed.
Print Assumptions C15_terminates.
(** ... and so does that of a file, if this holds for the codestreams in it. *)
Theorem C15_file_terminates E op c :
  (forall y, inbox c (t_jp2c, y) -> (forall p, ~ bad_sot y p) /\ packet_lengths_end y) ->
  ends E op (BTs "JP2") c VNone VNone.
Proof.
  intros H. apply C13_terminates; [now left|]. intros y Hy. destruct (H y Hy) as (H1 & H2). now apply C15_terminates.
Qed.
Print Assumptions C15_file_terminates.

(** Tile parts in a circle: for ever. *)
Theorem C15_circle E op t c st cz cap l s1 (ps : list Z) :
  boxTypeOf t = "contiguousCodestreamBox" ->
  sub (cs_second c) 0 2 = m_SIZ -> siz_capability (val (cs_siz c) 2 2) = Some cap ->
  after m_SOT (cs_second c) l (Some s1) ->
  Forall (fun x => exists r, seg_gives E op (cs_csiz c) x r) (treated main_markers l) ->
  In (len c - len s1) ps ->
  (forall p, In p ps -> 0 <= p /\ sub c p 2 = m_SOT /\ 0 <= tp_isot c p < cs_tiles c /\ tp_psot c p <> 0 /\
     In (p + tp_psot c p) ps /\ exists r, tile_of E op c (cs_csiz c) p r) ->
  loops E op t c st cz.
Proof.
  intros Ht HSIZ HCAP HA HS HI HP. eapply cs_endless; try eassumption.
  - intros p Hp. specialize (HP p Hp). tauto.
  - apply Forall_forall. intros p Hp. now apply HP.
Qed.
Print Assumptions C15_circle.

(** The claim that the loop over the tile parts always ends is false.  The second
    tile part has an SOT segment of length 4, without room for the length of the
    tile part; the code takes -9999 for it, which leads back to the first one. *)
Definition ring_z : bytes := sub ex_mainhdr 6 39.
Definition ring_l : list (bytes * bytes) := [(m_COD, sub ex_mainhdr 49 10); (m_QCD, sub ex_mainhdr 63 2)].
Definition ring_sot1 : bytes * bytes := (m_SOT, [x00; x00; x00; x00; x27; x0f; x00; x00]).
Definition ring_sot2 : bytes * bytes := (m_SOT, [x00; x00]).
Definition ring (fill : bytes) : bytes :=
  ex_mainhdr ++ seg_bytes ring_sot1 ++ m_SOD ++ fill ++ seg_bytes ring_sot2 ++ m_SOD.
Example ring_header : ex_mainhdr = header_bytes ring_z ring_l. Proof. now vm_compute. Qed.
Lemma ring_values : val (seg_body (snd ring_sot1)) 2 2 = 0 /\ val (seg_body (snd ring_sot1)) 4 4 = 9999 /\
  val (seg_body (snd ring_sot2)) 2 2 = 0 /\ val (seg_body (snd ring_sot2)) 4 4 = -9999.
Proof. repeat split. Qed.
Theorem C15_always_terminates_refuted fill E op st cz : len fill = 9985 ->
  loops E op (BTs "contiguousCodestreamBox") (ring fill) st cz.
Proof.
  intros HL. set (c := ring fill).
  set (s2 := seg_bytes ring_sot2 ++ m_SOD). set (s1 := seg_bytes ring_sot1 ++ m_SOD ++ fill ++ s2).
  assert (HC : c = header_bytes ring_z ring_l ++ s1) by (unfold c, ring; rewrite ring_header; reflexivity).
  clearbody c.
  assert (HF1 : seg_fits ring_sot1) by (split; [reflexivity|split; [reflexivity|now vm_compute]]).
  assert (HF2 : seg_fits ring_sot2) by (split; [reflexivity|split; [reflexivity|now vm_compute]]).
  assert (H65 : skipn 65 c = s1) by (rewrite HC; now apply skipn_app_exact).
  assert (H64 : skipn (Z.to_nat 10064) c = s2).
  { replace (Z.to_nat 10064) with (65 + Z.to_nat 9999)%nat by lia. rewrite <- (skipn_skipn (Z.to_nat 9999) 65 c), H65. unfold s1.
    replace (seg_bytes ring_sot1 ++ m_SOD ++ fill ++ s2) with ((seg_bytes ring_sot1 ++ m_SOD ++ fill) ++ s2)
      by now rewrite <- !app_assoc.
    apply skipn_app_exact. apply Nat2Z.inj. rewrite Z2Nat.id by lia. fold (len (seg_bytes ring_sot1 ++ m_SOD ++ fill)).
    rewrite !len_app, HL. reflexivity. }
  destruct (header_written ring_z ring_l s1) as (_ & HSIZ & HZ & HA).
  { split; [reflexivity|split; [reflexivity|now vm_compute]]. }
  { repeat constructor. }
  { cbn. intuition discriminate. }
  { reflexivity. }
  rewrite <- HC in HSIZ, HZ, HA. 
  assert (HT1 : tp_sot c 65 = seg_body (snd ring_sot1)).
  { unfold tp_sot. change (Z.to_nat 65) with 65%nat. rewrite H65. exact (contents_written _ _ _ HF1). }
  assert (HT2 : tp_sot c 10064 = seg_body (snd ring_sot2)).
  { unfold tp_sot. rewrite H64. exact (contents_written _ _ _ HF2). }
  assert (HSUB : forall p, sub c p 2 = sub (skipn (Z.to_nat p) c) 0 2) by (intros; unfold sub; reflexivity).
  assert (HN : cs_tiles c = 1) by (unfold cs_tiles; rewrite HZ; now vm_compute).
  eapply (C15_circle E op _ c st cz _ _ s1 [65; 10064]); [reflexivity|exact HSIZ|rewrite HZ; now vm_compute|exact HA| | |].
  - unfold bodies, ring_l. cbn [map fst snd treated flat_map lookup List.find main_markers app].
    repeat constructor.
    + destruct (cod_says E op 1 0 (seg_body (sub ex_mainhdr 49 10)) VNone VNone) as (r & H & _). exists r, 1%nat, 1%nat. exact H.
    + destruct (qcd_says E op 1 0 (seg_body (sub ex_mainhdr 63 2)) VNone VNone) as (r & H & _). exists r, 1%nat, 1%nat. exact H.
  - left. rewrite HC, len_app. change (len (header_bytes ring_z ring_l)) with 65. lia.
  - assert (HTG : forall p s x, 0 <= p -> skipn (Z.to_nat p) c = seg_bytes x ++ m_SOD ++ s -> seg_fits x -> fst x = m_SOT ->
        exists r, tile_of E op c (cs_csiz c) p r).
    { intros p s (m & x) Hp HS Hx Hm. cbn in Hm. subst m.
      assert (HAp : after m_SOD (skipn (Z.to_nat p) c) [] (Some (m_SOD ++ s))).
      { rewrite HS. apply (after_written m_SOD m_SOT x [] (m_SOD ++ s)); [exact Hx|constructor|intros []|reflexivity]. }
      destruct (tile_fwd E op c p (cs_csiz c) [] (Some (m_SOD ++ s)) [] Hp) with (2 := HAp) as (r0 & r & HG & _);
        [rewrite HSUB, HS; reflexivity|constructor|]. now exists r. }
    destruct ring_values as (V1 & V2 & V3 & V4). intros p [<-|[<-|[]]].
    + split; [lia|]. split; [rewrite HSUB; change (Z.to_nat 65) with 65%nat; now rewrite H65|].
      unfold tp_isot, tp_psot. rewrite HT1, HN, V1, V2. split; [lia|]. split; [lia|]. split; [right; now left|].
      apply (HTG 65 (fill ++ s2) ring_sot1); [lia|exact H65|exact HF1|reflexivity].
    + split; [lia|]. split; [rewrite HSUB; now rewrite H64|].
      unfold tp_isot, tp_psot. rewrite HT2, HN, V3, V4. split; [lia|]. split; [lia|]. split; [now left|].
      apply (HTG 10064 [] ring_sot2); [lia|exact H64|exact HF2|reflexivity].
Qed.
Print Assumptions C15_always_terminates_refuted.
Example ring_exists : exists fill, len fill = 9985 /\ len (ring fill) = 10072.
Proof.
  exists (repeat x00 (Z.to_nat 9985)). assert (H : len (repeat x00 (Z.to_nat 9985)) = 9985)
    by (unfold len; rewrite repeat_length; lia).
  split; [exact H|]. unfold ring. rewrite !len_app, H. reflexivity.
Qed.

(** An ordinary codestream meets the hypotheses of [C15_terminates]. *)
Example C15_terminates_ex : (forall p, ~ bad_sot ex_cs p) /\ packet_lengths_end ex_cs.
Proof.
  assert (HP : forall p, 0 <= p -> sub ex_cs p 2 = m_SOT -> p = 65).
  { intros p Hp HM. assert (HL : p < 83).
    { destruct (Z_lt_le_dec p 83) as [L|L]; [exact L|]. exfalso. unfold sub in HM.
      rewrite skipn_all2 in HM by (change (List.length ex_cs) with 83%nat; lia). discriminate. }
    assert (HA : forallb (fun n => negb (bytes_eqb (firstn 2 (skipn n ex_cs)) m_SOT) || (n =? 65)%nat) (seq 0 83) = true)
      by now vm_compute.
    rewrite forallb_forall in HA. specialize (HA (Z.to_nat p)). rewrite in_seq in HA. specialize (HA ltac:(lia)).
    unfold sub in HM. change (Z.to_nat 2) with 2%nat in HM. rewrite HM in HA. cbn [negb orb] in HA. apply PeanoNat.Nat.eqb_eq in HA. lia. }
  split; [|split].
  - intros p (Hp & HM & _ & HB). rewrite (HP p Hp HM) in HB. now vm_compute in HB.
  - intros l r x HA HI. destruct (header_written ring_z ring_l (ex_tile ++ m_EOC)) as (_ & _ & _ & HA').
    { split; [reflexivity|split; [reflexivity|now vm_compute]]. }
    { repeat constructor. }
    { cbn. intuition discriminate. }
    { reflexivity. }
    rewrite <- ring_header in HA'. destruct (after_unique _ _ _ _ _ _ HA HA') as (-> & _).
    cbn in HI. destruct HI as [HI|[HI|[]]]; discriminate.
  - intros p l r x Hp HM HA HI. rewrite (HP p Hp HM) in HA.
    pose proof (after_written m_SOD m_SOT [x00; x00; x00; x00; x00; x10; x00; x01] [] [xff; x93; x80; x80; xff; xd9]) as HA'.
    destruct (after_unique _ _ _ _ _ _ HA (HA' ltac:(split; [reflexivity|split; [reflexivity|now vm_compute]])
      (Forall_nil _) (fun H => H) eq_refl)) as (-> & _). destruct HI.
Qed.
