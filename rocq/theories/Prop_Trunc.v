(** * Truncated files are not valid (C40) *)

From Coq Require Import ZArith List Bool String Lia.
From Coq Require Import Init.Byte.
From Coq Require Import ZifyBool.
From Verif Require Import Py PyFloat ByteConv ETree BV VBoxes VMarkers VSuper Spec SpecBox SpecMarker
     SpecWalk SpecSuper SpecIPL SpecCS SpecFile SpecTop PBase PEmit PLeaf PLeaf2 PMarker PMarker2 PRel PWalk PSuper PSeg PWrite
     PTile PChain PCS PIPL PGrow Prop_Options PFile PTop SpecValid PValid PEnds PLoop Ex Prop_File Prop_Report Prop_CS Prop_Parts.
Import ListNotations.
Open Scope string_scope.
Open Scope list_scope.
Open Scope Z_scope.

Lemma skipn_app_l {A} (a b : list A) n : (n <= List.length a)%nat -> skipn n (a ++ b) = skipn n a ++ b.
Proof. intros H. rewrite skipn_app. now replace (n - List.length a)%nat with O by lia. Qed.
Lemma sub_len_le s a n m : 0 <= a -> 0 < m -> len (sub s a n) = m -> a + m <= len s.
Proof. intros Ha Hm H. unfold sub, len in *. rewrite firstn_length, skipn_length in H. lia. Qed.

(** ** Marker segments and tile parts of a prefix *)
Lemma seg_length_prefix s x : 2 <= len s -> seg_length s <> -9999 -> seg_length (s ++ x) = seg_length s.
Proof.
  intros H2 HN. unfold seg_length in *. rewrite sub_app_l by lia. destruct (delimiter _); [reflexivity|].
  apply val_app_l; [lia..|]. destruct (Z.leb_spec (2 + 2) (len s)); [assumption|]. now rewrite val_missing in HN by lia.
Qed.
Lemma segs_prefix stop s l r x : len stop = 2 -> segs stop s l (Some r) -> segs stop (s ++ x) l (Some (r ++ x)) /\ 2 <= len s.
Proof.
  intros Hs H. remember (Some r) as o eqn:EO. induction H as [s H| |s l r0 HN HL H IH]; try discriminate.
  - injection EO as ->. assert (2 <= len r) by (rewrite <- H in Hs; apply sub_len_le in Hs; lia).
    split; [|assumption]. apply segs_stop. rewrite sub_app_l by lia. exact H.
  - destruct (IH EO) as (H1 & H2). assert (HS : seg_length s + 2 + 2 <= len s).
    { unfold len in *. rewrite skipn_length in H2. lia. }
    split; [|lia]. assert (HE : seg_length (s ++ x) = seg_length s) by (apply seg_length_prefix; lia).
    replace (sub s 2 (seg_length s)) with (sub (s ++ x) 2 (seg_length (s ++ x))) by (rewrite HE; apply sub_app_l; lia).
    replace (sub s 0 2) with (sub (s ++ x) 0 2) by (apply sub_app_l; lia).
    apply segs_more; [rewrite sub_app_l by lia; exact HN|lia|]. rewrite HE. rewrite skipn_app_l; [exact H1|unfold len in HS; lia].
Qed.
Lemma after_prefix stop s l r x : len stop = 2 -> after stop s l (Some r) -> after stop (s ++ x) l (Some (r ++ x)).
Proof.
  intros Hs H. unfold after in *. destruct (seg_length s =? -9999) eqn:E; [destruct H; discriminate|].
  assert (HL : 0 <= seg_length s) by (destruct (seg_length_range s); lia).
  destruct (segs_prefix _ _ _ _ x Hs H) as (H1 & H2).
  assert (HS : seg_length s + 2 + 2 <= len s) by (unfold len in *; rewrite skipn_length in H2; lia).
  rewrite seg_length_prefix by lia. rewrite E. rewrite skipn_app_l; [exact H1|unfold len in HS; lia].
Qed.
(** Fields of an SOT segment. *)
Lemma sot_fields c p : 0 <= p -> sub c p 2 = m_SOT -> val c (p + 2) 2 = 10 -> p + 11 <= len c ->
  tp_isot c p = val c (p + 4) 2 /\ tp_psot c p = val c (p + 6) 4.
Proof.
  intros Hp HS HV HL. assert (HSL : seg_length (skipn (Z.to_nat p) c) = 10).
  { unfold seg_length. rewrite sub_skipn by lia. rewrite Z.add_0_r, HS. cbn. rewrite val_skipn by lia. exact HV. }
  assert (HC : tp_sot c p = sub c (p + 2) 10).
  { unfold tp_sot, seg_contents. rewrite HSL. change (10 =? -9999) with false. cbv iota. apply sub_skipn; lia. }
  assert (H9 : 9 <= len (sub c (p + 2) 10)) by (unfold sub, len in *; rewrite firstn_length, skipn_length; lia).
  unfold tp_isot, tp_psot. rewrite HC. split; rewrite val_sub by lia; f_equal; lia.
Qed.
Lemma sot_valid c p : 0 <= p -> sub c p 2 = m_SOT -> holds (sot_tests (tp_sot c p)) -> val c (p + 2) 2 = 10 /\ p + 11 <= len c.
Proof.
  intros Hp HS HT.
  assert (X1 : val (tp_sot c p) 0 2 = 10) by (apply (holds_in _ "lsotIsValid" _ HT); cbn; auto).
  assert (X2 : btw 0 (val (tp_sot c p) 8 1) 254) by (apply (holds_in _ "tpsotIsValid" _ HT); cbn; auto 6). unfold btw in X2.
  assert (X4 : 9 <= len (tp_sot c p)).
  { destruct (Z.leb_spec 9 (len (tp_sot c p))); [assumption|]. rewrite val_missing in X2 by lia. lia. }
  unfold tp_sot, seg_contents in *. set (s := skipn (Z.to_nat p) c) in *. destruct (seg_length s =? -9999); [now cbn in X1|].
  rewrite val_sub in X1 by lia. unfold s in X1. assert (Hpc : p <= len c) by (assert (HH : len (sub c p 2) = 2) by (now rewrite HS); apply sub_len_le in HH; lia).
  rewrite val_skipn in X1 by lia. rewrite Z.add_0_r in X1. split; [exact X1|].
  unfold sub, s, len in X4. rewrite firstn_length, !skipn_length in X4. unfold len. lia.
Qed.
Lemma tile_next E fmt c n p : 0 <= p -> sub c p 2 = m_SOT -> tile_valid E fmt c n p -> tp_psot c p <> 0 ->
  0 < tp_psot c p /\ In (sub c (p + tp_psot c p) 2) [m_SOT; m_EOC].
Proof.
  intros Hp HS (h & r & T1 & T2 & T3 & T4) HN. destruct (sot_valid c p Hp HS T2) as (V1 & V2).
  destruct (sot_fields c p Hp HS V1 V2) as (_ & F2).
  assert (0 <= tp_psot c p) by (rewrite F2; apply (val_readable c (p + 6) 4); lia). split; [lia|].
  assert (X6 : In (tp_next c p) [m_SOT; m_EOC]).
  { apply (holds_in _ "foundNextTilePartOrEOC" _ T4). unfold tp_tests. rewrite !in_app_iff. replace (tp_psot c p =? 0) with false by lia. cbn. auto 12. }
  unfold tp_next in X6. now replace (tp_psot c p =? -9999) with false in X6 by lia.
Qed.
Lemma marker_room c p : 0 <= p -> In (sub c p 2) [m_SOT; m_EOC] -> p + 2 <= len c.
Proof. intros Hp H. apply (sub_len_le c p 2 2); [lia..|]. destruct H as [H|[H|[]]]; rewrite <- H; reflexivity. Qed.
Lemma chain_prefix E fmt n n' c' x p ps : chain n (c' ++ x) p ps -> forall ps', chain n c' p ps' ->
  In (sub c' p 2) [m_SOT; m_EOC] -> Forall (tile_valid E fmt c' n') ps' ->
  ps = [] \/ tp_psot (c' ++ x) (last ps 0) = 0 \/ last ps 0 + tp_psot (c' ++ x) (last ps 0) + 2 <= len c'.
Proof.
  assert (HT : forall p, 0 <= p -> sub (c' ++ x) p 2 = m_SOT -> In (sub c' p 2) [m_SOT; m_EOC] -> sub c' p 2 = m_SOT).
  { intros q Hq H1 H2. pose proof (marker_room c' q Hq H2). rewrite sub_app_l in H1 by lia. exact H1. }
  assert (HF : forall p, 0 <= p -> sub c' p 2 = m_SOT -> tile_valid E fmt c' n' p ->
    tp_isot (c' ++ x) p = tp_isot c' p /\ tp_psot (c' ++ x) p = tp_psot c' p).
  { intros q Hq H1 (h & r & T1 & T2 & _). destruct (sot_valid c' q Hq H1 T2) as (V1 & V2).
    destruct (sot_fields c' q Hq H1 V1 V2) as (F1 & F2).
    destruct (sot_fields (c' ++ x) q Hq) as (G1 & G2); [rewrite sub_app_l by lia; exact H1|rewrite val_app_l by lia; exact V1|rewrite len_app; pose proof (len_nonneg x); lia|].
    rewrite G1, G2, F1, F2, !val_app_l by lia. auto. }
  induction 1 as [p Hp HS|p Hp HS HX|p ps Hp HS HI HPS HC IH]; intros ps' HC' HM HV.
  - auto.
  - right. cbn [last]. pose proof (HT p Hp HS HM) as HS'.
    assert (HVp : tile_valid E fmt c' n' p) by (inversion HC'; subst; [contradiction|inversion HV; assumption..]).
    destruct (HF p Hp HS' HVp) as (F1 & F2). destruct (Z.eq_dec (tp_psot c' p) 0) as [Z0|NZ]; [left; congruence|right].
    destruct (tile_next E fmt c' n' p Hp HS' HVp NZ) as (N1 & N2). rewrite F2. apply (marker_room c') in N2; lia.
  - right. pose proof (HT p Hp HS HM) as HS'.
    assert (HVp : tile_valid E fmt c' n' p) by (inversion HC'; subst; [contradiction|inversion HV; assumption..]).
    destruct (HF p Hp HS' HVp) as (F1 & F2). destruct (tile_next E fmt c' n' p Hp HS' HVp ltac:(lia)) as (N1 & N2).
    assert (exists qs, ps' = p :: qs /\ chain n c' (p + tp_psot c' p) qs) as (qs & -> & HQ).
    { inversion HC' as [? ? HB|? ? HB HX|? qs ? ? ? ? HQ]; subst; [contradiction|exfalso; rewrite <- F1, <- F2 in HX; lia|eauto]. }
    inversion HV as [|? ? _ HV']; subst. rewrite F2 in *. destruct (IH qs HQ N2 HV') as [->|H].
    + cbn [last]. right. rewrite F2. apply (marker_room c') in N2; lia.
    + destruct ps as [|q ps]; [|exact H]. right. cbn [last]. rewrite F2. apply (marker_room c') in N2; lia.
Qed.

(** ** C40 *)

(** If the last tile part gives its length and EOC follows it at the end of the
    codestream, no shorter prefix is valid (whatever the options). *)
Theorem C40_codestream E op t c st cz E' op' st' cz' l s qs p k : boxTypeOf t = "contiguousCodestreamBox" ->
  cs_valid E op t c st cz -> after m_SOT (cs_second c) l (Some s) -> parts c (Some s) (qs ++ [p]) ->
  tp_psot c p <> 0 -> p + tp_psot c p + 2 = len c -> (k < List.length c)%nat ->
  ~ cs_valid E' op' t (firstn k c) st' cz'.
Proof.
  intros Ht HV HA HP HN HE Hk HV'. apply (cs_valid_iff _ _ _ _ _ _ Ht) in HV. apply (cs_valid_iff _ _ _ _ _ _ Ht) in HV'.
  set (c' := firstn k c) in *. assert (HC : c = c' ++ skipn k c) by (unfold c'; now rewrite firstn_skipn).
  assert (Hlen : len c' < len c) by (unfold c', len; rewrite firstn_length; lia).
  set (x := skipn k c) in *. clearbody c' x. clear Hk k.
  destruct (cs_start _ _ _ HV') as (S1 & S2 & S3 & S4 & S5).
  destruct HV' as (l' & rest' & ps' & HA' & HP' & H1' & (_ & H2') & H3' & H4' & H5' & H6').
  destruct HV as (l0 & rest & ps & HA0 & HP0 & H1 & _ & _ & _ & H5 & _).
  destruct (after_unique _ _ _ _ _ _ HA HA0) as (<- & <-). cbn [parts] in HP, HP0.
  assert (ps = qs ++ [p]) as -> by (symmetry; exact (chain_unique _ _ _ _ HP _ HP0)).
  assert (HSEC : cs_second c = cs_second c' ++ x).
  { assert (X : cs_second (m_SOC ++ (cs_second c' ++ x)) = cs_second c' ++ x) by apply second_written.
    rewrite app_assoc, <- S1, <- HC in X. exact X. }
  assert (HZ : cs_siz c = cs_siz c').
  { unfold cs_siz at 1. rewrite HSEC. destruct (siz_whole _ _ H2') as (W1 & W2 & W3). unfold seg_contents.
    rewrite seg_length_prefix, S5; [|rewrite S2, len_app; change (len m_SIZ) with 2; pose proof (len_nonneg (cs_siz c' ++ skipn (Z.to_nat (len (cs_siz c') + 2)) (cs_second c'))); lia|lia].
    replace (len (cs_siz c') =? -9999) with false by lia. set (T := skipn (Z.to_nat (len (cs_siz c') + 2)) (cs_second c')) in S2. clearbody T.
    rewrite S2, <- !app_assoc. rewrite sub_app_r by (change (len m_SIZ) with 2; lia). change (len m_SIZ) with 2. rewrite Z.sub_diag.
    rewrite sub_app_l by lia. apply sub_all. reflexivity. }
  assert (HTC : cs_tiles c = cs_tiles c') by (unfold cs_tiles; now rewrite HZ).
  assert (HTF : tiles_found c (qs ++ [p]) = cs_tiles c).
  { apply (holds_in _ "foundExpectedNumberOfTiles" _ H5). unfold cs_tests2. rewrite !in_app_iff. cbn. auto 6. }
  assert (HTF' : tiles_found c' ps' = cs_tiles c').
  { apply (holds_in _ "foundExpectedNumberOfTiles" _ H5'). unfold cs_tests2. rewrite !in_app_iff. cbn. auto 6. }
  assert (HPOS : cs_tiles c <> 0).
  { rewrite <- HTF. unfold tiles_found. intros H0. apply len_0 in H0.
    assert (HI : In (tp_isot c p) (nodup Z.eq_dec (map (tp_isot c) (qs ++ [p])))) by (apply nodup_In, in_map, in_app_iff; cbn; auto).
    now rewrite H0 in HI. }
  destruct rest' as [s'|]; [|cbn in HP'; subst ps'; cbn in HTF'; congruence]. cbn [parts] in HP'.
  pose proof (after_prefix m_SOT _ _ _ x eq_refl HA') as HA2. rewrite <- HSEC in HA2.
  destruct (after_unique _ _ _ _ _ _ HA HA2) as (_ & HS). injection HS as ->.
  replace (len c - len (s' ++ x)) with (len c' - len s') in HP by (rewrite HC, !len_app; lia).
  rewrite HTC in HP. rewrite HC in HP.
  assert (HM : In (sub c' (len c' - len s') 2) [m_SOT; m_EOC]).
  { left. rewrite (after_offset _ _ _ HA'). symmetry. now apply (after_some m_SOT _ _ _ HA'). }
  destruct (chain_prefix E' (o_format op') _ _ _ _ _ _ HP _ HP' HM H4') as [H|[H|H]].
  - now destruct qs.
  - rewrite last_last, <- HC in H. contradiction.
  - rewrite last_last, <- HC in H. lia.
Qed.
Print Assumptions C40_codestream.

Lemma box_length_prefix s x : box_length s <> -9999 -> box_length (s ++ x) = box_length s /\ box_header (s ++ x) = box_header s /\ 4 <= len s.
Proof.
  intros HN. unfold box_length, box_header in *. assert (H4 : 4 <= len s).
  { destruct (Z.leb_spec 4 (len s)); [assumption|]. rewrite (val_missing s 0 4) in HN by lia. contradiction HN; reflexivity. }
  rewrite val_app_l by lia. split; [|split; [reflexivity|exact H4]]. destruct (val s 0 4 =? 1) eqn:E1; [|reflexivity].
  apply val_app_l; [lia..|]. destruct (Z.leb_spec (8 + 8) (len s)); [assumption|]. now rewrite val_missing in HN by lia.
Qed.
Lemma sub_tail s x h n m : 0 <= h -> len s <= h + n -> len (s ++ x) <= h + m -> sub (s ++ x) h m <> [] -> x <> [] ->
  exists z, z <> [] /\ sub (s ++ x) h m = sub s h n ++ z.
Proof.
  intros Hh Hn Hm HN Hx. rewrite len_app in Hm. pose proof (len_nonneg x). pose proof (len_nonneg s). unfold sub in *. unfold len in *.
  rewrite !(firstn_all2 (skipn _ _)) in * by (rewrite skipn_length, ?app_length; lia).
  destruct (Nat.leb_spec (Z.to_nat h) (List.length s)).
  - exists x. split; [exact Hx|]. now apply skipn_app_l.
  - exists (skipn (Z.to_nat h) (s ++ x)). split; [exact HN|]. rewrite (skipn_all2 s) by lia. reflexivity.
Qed.
Lemma splits_prefix t s bs : len t = 4 -> splits s bs -> forall pre y, bs = pre ++ [(t, y)] -> y <> [] -> ~ In t (map fst pre) ->
  forall s' x bs', s = s' ++ x -> x <> [] -> splits s' bs' -> forall y', In (t, y') bs' -> exists z, z <> [] /\ y = y' ++ z.
Proof.
  intros Ht. assert (HTY : forall s x, sub s 4 4 = t -> sub (s ++ x) 4 4 = t).
  { intros s0 x0 H. assert (HL : len (sub s0 4 4) = 4) by (now rewrite H). apply sub_len_le in HL; [|lia..]. rewrite sub_app_l by lia. exact H. }
  induction 1 as [|s HN HL|s HN HL|s bs HN HL H IH]; intros pre y HB Hy HP s' x bs' HS Hx HS' y' Hy'.
  - now destruct pre.
  - destruct pre as [|b [|? ?]]; try discriminate. injection HB as _ <-. contradiction.
  - destruct pre as [|b [|? ?]]; try discriminate. injection HB as HT <-. subst s.
    inversion HS' as [|? HN' HL'|? HN' HL'|? bs1 HN' HL' H1]; subst.
    + destruct Hy'.
    + destruct Hy' as [Hy'|[]]. injection Hy' as _ <-. eexists. split; [exact Hy|reflexivity].
    + destruct Hy' as [Hy'|[]]. injection Hy' as _ <-. destruct (box_length_prefix s' x) as (_ & B2 & _); [lia|].
      rewrite B2 in *. assert (0 <= box_header s') by (unfold box_header; destruct (_ =? _); lia). apply sub_tail; [lia|lia|lia|exact Hy|exact Hx].
    + destruct (box_length_prefix s' x) as (B1 & _); lia.
  - subst s. inversion HS' as [|? HN' HL'|? HN' HL'|? bs1 HN' HL' H1]; subst.
    + destruct Hy'.
    + destruct Hy' as [Hy'|[]]. injection Hy' as HT <-. destruct pre as [|b pre].
      * injection HB as _ <- _. eexists. split; [exact Hy|reflexivity].
      * exfalso. injection HB as <- _. apply HP. left. cbn [fst]. now apply HTY.
    + destruct (box_length_prefix s' x) as (B1 & _); lia.
    + destruct (box_length_prefix s' x) as (B1 & B2 & B3); [lia|]. rewrite B1, B2 in *. destruct pre as [|b pre].
      * injection HB as HT <- ->. inversion H as [HE|? ?|? ?|? ? ?]; subst. symmetry in HE.
        assert (HBL : len (s' ++ x) <= box_length s').
        { apply (f_equal (@List.length byte)) in HE. rewrite skipn_length in HE. cbn in HE. unfold len. lia. }
        assert (HTL : skipn (Z.to_nat (box_length s')) s' = []) by (apply skipn_all2; rewrite len_app in HBL; pose proof (len_nonneg x); unfold len in *; lia).
        rewrite HTL in H1. inversion H1; subst; [|contradiction..]. destruct Hy' as [Hy'|[]]. injection Hy' as _ <-.
        rewrite len_app in HBL. pose proof (len_nonneg x). apply sub_tail; [unfold box_header; destruct (_ =? _); lia|lia|rewrite len_app; lia|exact Hy|exact Hx].
      * injection HB as <- HB. destruct Hy' as [Hy'|Hy'].
        -- exfalso. injection Hy' as HT _. apply HP. left. cbn [fst]. now apply HTY.
        -- destruct (Z.leb_spec (box_length s') (len s')).
           ++ eapply (IH pre y HB Hy); [|rewrite skipn_app_l by (unfold len in *; lia); reflexivity|exact Hx|exact H1|exact Hy'].
              intros HI. apply HP. now right.
           ++ rewrite skipn_all2 in H1 by (unfold len in *; lia). inversion H1; subst; [destruct Hy'|contradiction..].
Qed.

Lemma box_cs E op y : box_accepted E op (t_jp2c, y) -> cs_valid E op (BTb t_jp2c) y VNone VNone.
Proof.
  intros H. apply cs_valid_iff; [reflexivity|]. exact (proj1 (cs_spec E op (BTb t_jp2c) y VNone VNone eq_refl) H).
Qed.
(** A file whose last box is its only codestream. *)
Theorem C40_file E op c pre y E' op' l s qs p k : valid E op c -> splits c (pre ++ [(t_jp2c, y)]) -> ~ In t_jp2c (map fst pre) ->
  after m_SOT (cs_second y) l (Some s) -> parts y (Some s) (qs ++ [p]) -> tp_psot y p <> 0 -> p + tp_psot y p + 2 = len y ->
  (k < List.length c)%nat -> ~ valid E' op' (firstn k c).
Proof.
  intros HV HS HP HA HQ HN HE Hk HV'.
  assert (HY : cs_valid E op (BTb t_jp2c) y VNone VNone).
  { destruct (headers_total (pre ++ [(t_jp2c, y)])) as (hs & HH). apply (valid_iff E op c _ hs HS HH) in HV as (HF & _).
    apply Forall_app in HF as (_ & HF). inversion HF; subst. now apply box_cs. }
  destruct (splits_total (firstn k c)) as (bs' & HS').
  destruct (C36_structure E' op' _ bs' HV' HS') as (a & b & HT & _ & _ & _ & _ & HI).
  assert (HX : In t_jp2c (map fst bs')) by (rewrite HT; right; right; apply in_app_iff; right; now right).
  apply in_map_iff in HX as ((t' & y') & Ht' & HI'). cbn in Ht'. subst t'.
  assert (Hy : y <> []) by (intros ->; rewrite len_nil in HE; apply chain_at with (q := p) in HQ; [destruct HQ as (_ & HQ); unfold sub in HQ; rewrite skipn_nil in HQ; discriminate|apply in_app_iff; cbn; auto]).
  assert (HC : c = firstn k c ++ skipn k c) by now rewrite firstn_skipn.
  assert (Hx : skipn k c <> []).
  { intros H0. apply (f_equal (@List.length byte)) in H0. rewrite skipn_length in H0. cbn in H0. lia. }
  destruct (splits_prefix t_jp2c c _ eq_refl HS pre y eq_refl Hy HP _ _ _ HC Hx HS' y' HI') as (z & Hz & HYZ).
  assert (HY' : cs_valid E' op' (BTb t_jp2c) y' VNone VNone).
  { destruct (headers_total bs') as (hs & HH). apply (valid_iff E' op' _ _ hs HS' HH) in HV' as (HF & _).
    rewrite Forall_forall in HF. now apply box_cs, HF. }
  assert (HF : y' = firstn (List.length y') y) by (rewrite HYZ, firstn_app, firstn_all, PeanoNat.Nat.sub_diag; cbn; now rewrite app_nil_r).
  rewrite HF in HY'. revert HY'. apply (C40_codestream E op (BTb t_jp2c) y VNone VNone E' op' VNone VNone l s qs p (List.length y') eq_refl HY HA HQ HN HE).
  rewrite HYZ, app_length. destruct z; [contradiction|cbn; lia].
Qed.
Print Assumptions C40_file.
Example C40_ex : is_valid (run "jp2" (BTs "JP2") ex_file VNone) = true /\ tp_psot ex_cs 65 = 16 /\ 65 + 16 + 2 = len ex_cs /\
  forallb (fun k => negb (is_valid (run "j2c" (BTs "contiguousCodestreamBox") (firstn k ex_cs) VNone))) [0; 1; 2; 40; 60; 65; 77; 81; 82]%nat = true.
Proof. now vm_compute. Qed.
(** The second EOC marker in [ex_cs ++ m_EOC] can be cut off. *)
Theorem C40_refuted : exists l s p, after m_SOT (cs_second (ex_cs ++ m_EOC)) l (Some s) /\
  parts (ex_cs ++ m_EOC) (Some s) [p] /\ tp_psot (ex_cs ++ m_EOC) p = 16 /\
  cs_valid E0 (op "j2c" false) (BTs "contiguousCodestreamBox") (ex_cs ++ m_EOC) VNone VNone /\
  cs_valid E0 (op "j2c" false) (BTs "contiguousCodestreamBox") (firstn 83 (ex_cs ++ m_EOC)) VNone VNone.
Proof.
  eexists _, (skipn 65 (ex_cs ++ m_EOC)), 65. split; [|split; [|split; [now vm_compute|split]]].
  - unfold after. replace (_ =? -9999) with false by now vm_compute. seg_step. seg_step. apply (segs_stop m_SOT (skipn 65 (ex_cs ++ m_EOC))). now vm_compute.
  - unfold parts. replace (cs_tiles (ex_cs ++ m_EOC)) with 1 by now vm_compute. replace (_ - _) with 65 by now vm_compute.
    apply chain_next; [lia|now vm_compute|now vm_compute|now vm_compute|].
    apply chain_end; [now vm_compute|]. intros H. vm_compute in H. discriminate H.
  - apply (is_valid_cs E0 (op "j2c" false) 100 10). now vm_compute.
  - apply (is_valid_cs E0 (op "j2c" false) 100 10). now vm_compute.
Qed.
Print Assumptions C40_refuted.
