(** * Properties of valid codestreams: markers, tile parts, truncation (C38-C40, C59, C62, C63) *)

From Coq Require Import ZArith List Bool String Lia.
From Coq Require Import Init.Byte.
From Coq Require Import ZifyBool.
From Verif Require Import Py PyFloat ByteConv ETree BV VBoxes VMarkers VSuper Spec SpecBox SpecMarker
     SpecWalk SpecSuper SpecIPL SpecCS SpecFile SpecTop PBase PEmit PLeaf PLeaf2 PMarker PMarker2 PRel PWalk PSuper PSeg PWrite
     PTile PChain PCS PIPL PGrow Prop_Options PFile PTop SpecValid PValid PEnds PLoop Ex Prop_File Prop_Report.
Import ListNotations.
Open Scope string_scope.
Open Scope list_scope.
Open Scope Z_scope.

(** Reported as valid. *)
Definition cs_valid E op t c st cz : Prop := exists r, gives E op t c st cz r /\ r_valid r = VBool true.
Lemma cs_valid_iff E op t c st cz : boxTypeOf t = "contiguousCodestreamBox" ->
  (cs_valid E op t c st cz <-> codestream_ok E (o_format op) c).
Proof.
  intros Ht. rewrite <- (cs_spec E op t c st cz Ht). unfold cs_valid, accepted.
  assert (HB : forall r, gives E op t c st cz r -> (r_valid r = VBool true <-> all_pass (r_tests r))).
  { intros r (f & d & HG). destruct (top_verdict E op f d t c st cz r) as (b & H1 & H2); [cbn; rewrite Ht; auto|exact HG|].
    rewrite H1, <- H2. split; [now intros [= ->]|now intros ->]. }
  split; intros (r & HG & H); exists r; (split; [exact HG|]); now apply HB.
Qed.

(** Marker and contents, one after the other. *)
Definition joined (l : list (bytes * bytes)) : bytes := List.concat (map (fun p => fst p ++ snd p) l).
(** Two-byte marker; a length field that covers the contents, except for delimiting
    markers. *)
Definition seg_shape (s : bytes * bytes) : Prop :=
  len (fst s) = 2 /\ (delimiter (fst s) = true -> snd s = []) /\ (2 <= len (snd s) -> val (snd s) 0 2 = len (snd s)).

Lemma cut_at (s : bytes) n m : 0 <= n -> 0 <= m -> s = sub s 0 n ++ sub s n m ++ skipn (Z.to_nat (m + n)) s.
Proof.
  intros Hn Hm. unfold sub. rewrite <- (firstn_skipn (Z.to_nat n) s) at 1. change (Z.to_nat 0) with O. cbn [skipn]. f_equal.
  rewrite <- (firstn_skipn (Z.to_nat m) (skipn (Z.to_nat n) s)) at 1. f_equal. rewrite skipn_skipn. f_equal. lia.
Qed.
Lemma seg_length_range s : seg_length s = -9999 \/ 0 <= seg_length s.
Proof. unfold seg_length. destruct (delimiter _); [lia|]. pose proof (val_2_range s 2). lia. Qed.
Lemma shape_of s : 0 <= seg_length s -> skipn (Z.to_nat (seg_length s + 2)) s <> [] ->
  seg_shape (sub s 0 2, sub s 2 (seg_length s)).
Proof.
  intros HL HN. assert (Hlen : seg_length s + 2 < len s).
  { destruct (Z.ltb_spec (seg_length s + 2) (len s)); [assumption|]. exfalso. apply HN. apply skipn_all2. unfold len in *. lia. }
  split; [|split]; cbn [fst snd].
  - rewrite len_sub; lia.
  - intros HD. unfold seg_length in *. rewrite HD in *. reflexivity.
  - rewrite len_sub by lia. intros H2. unfold seg_length in *. destruct (delimiter _); [lia|].
    unfold sub at 1. 
    assert (HV : val (firstn (Z.to_nat (val s 2 2)) (skipn (Z.to_nat 2) s)) 0 2 = val (skipn (Z.to_nat 2) s) 0 2).
    { rewrite <- (firstn_skipn (Z.to_nat (val s 2 2)) (skipn (Z.to_nat 2) s)) at 2. symmetry. apply val_app_l; [lia..|].
      fold (sub s 2 (val s 2 2)). rewrite len_sub; lia. }
    rewrite HV, val_skipn by lia. replace (2 + 0) with 2 by lia. lia.
Qed.
Lemma segs_joined stop s l r : len stop = 2 -> segs stop s l (Some r) ->
  s = joined l ++ r /\ sub r 0 2 = stop /\ Forall seg_shape l /\ ~ In stop (map fst l).
Proof.
  intros Hs H. remember (Some r) as o eqn:EO. induction H as [s H| |s l r0 HN HL H IH]; try discriminate.
  - injection EO as ->. repeat split; auto.
  - destruct (IH EO) as (H1 & H2 & H3 & H4). assert (HNE : skipn (Z.to_nat (seg_length s + 2)) s <> []).
    { intros HE. rewrite HE in H1. destruct (joined l); [|discriminate]. cbn in H1. rewrite <- H1 in H2. cbn in H2. subst stop. discriminate. }
    split; [|split; [exact H2|split; [constructor; [now apply shape_of|exact H3]|]]].
    + rewrite (cut_at s 2 (seg_length s)) at 1 by lia. rewrite H1. unfold joined. cbn [map List.concat fst snd]. now rewrite <- !app_assoc.
    + cbn [map fst]. intros [H5|H5]; auto.
Qed.
Lemma after_joined stop s l r : len stop = 2 -> after stop s l (Some r) ->
  0 <= seg_length s /\ s = sub s 0 2 ++ seg_contents s ++ joined l ++ r /\ sub r 0 2 = stop /\ Forall seg_shape ((sub s 0 2, seg_contents s) :: l) /\
  ~ In stop (map fst l).
Proof.
  intros Hs H. unfold after in H. unfold seg_contents. destruct (seg_length s =? -9999) eqn:E; [destruct H; discriminate|].
  assert (HL : 0 <= seg_length s) by (destruct (seg_length_range s); lia).
  destruct (segs_joined _ _ _ _ Hs H) as (H1 & H2 & H3 & H4). split; [exact HL|]. split; [|split; [exact H2|split; [|exact H4]]].
  - rewrite (cut_at s 2 (seg_length s)) at 1 by lia. now rewrite H1.
  - constructor; [|exact H3]. apply shape_of; [exact HL|]. intros HE. rewrite HE in H1. destruct (joined l); [|discriminate].
    cbn in H1. rewrite <- H1 in H2. cbn in H2. subst stop. discriminate.
Qed.

Lemma val_sub s a n i m : 0 <= a -> 0 <= i -> 0 < m -> i + m <= len (sub s a n) -> val (sub s a n) i m = val s (a + i) m.
Proof.
  intros Ha Hi Hm H. unfold sub in *. assert (HL : a <= len s).
  { unfold len in *. rewrite firstn_length, skipn_length in H. lia. }
  rewrite <- val_skipn by lia. rewrite <- (firstn_skipn (Z.to_nat n) (skipn (Z.to_nat a) s)) at 2. symmetry. apply val_app_l; lia.
Qed.
Lemma siz_whole fmt z : holds (siz_tests fmt z) -> len z >= val z 0 2 /\ 41 <= val z 0 2 /\ 1 <= val z 36 2.
Proof.
  intros H. assert (Hc : btw 1 (val z 36 2) 16384) by (apply (holds_in _ "csizIsValid" _ H); unfold siz_tests; rewrite !in_app_iff; right; right; left; cbn; auto 12).
  assert (Hl : val z 0 2 = 38 + 3 * val z 36 2) by (apply (holds_in _ "lsizConsistentWithCsiz" _ H); unfold siz_tests; rewrite !in_app_iff; right; right; left; cbn; auto 12).
  set (n := val z 36 2) in *. unfold btw in Hc.
  assert (Hy : btw 1 (val z (40 + 3 * (n - 1)) 1) 255).
  { apply (holds_in _ "yRsizIsValid" _ H). unfold siz_tests. rewrite !in_app_iff. right. right. right. apply in_flat_map. exists (n - 1). split.
    - unfold zseq. apply in_map_iff. exists (Z.to_nat (n - 1)). split; [lia|]. apply in_seq. fold n. lia.
    - cbn. auto. }
  unfold btw in Hy. destruct (Z.ltb_spec (len z) (40 + 3 * (n - 1) + 1)); [rewrite val_missing in Hy by lia; lia|]. lia.
Qed.
Lemma cs_start E fmt c : codestream_ok E fmt c ->
  c = m_SOC ++ cs_second c /\ cs_second c = m_SIZ ++ cs_siz c ++ skipn (Z.to_nat (len (cs_siz c) + 2)) (cs_second c) /\
  len (cs_siz c) = val (cs_siz c) 0 2 /\ 1 <= cs_csiz c /\ seg_length (cs_second c) = len (cs_siz c).
Proof.
  intros (l & rest & ps & HA & HP & H1 & (_ & H2) & _).
  assert (HS : sub c 0 2 = m_SOC) by (apply (holds_in _ "codestreamStartsWithSOCMarker" _ H1); cbn; auto).
  assert (HZ : sub (cs_second c) 0 2 = m_SIZ) by (apply (holds_in _ "foundSIZMarker" _ H1); cbn; auto).
  assert (HL : seg_length c = 0) by (unfold seg_length; now rewrite HS).
  assert (HC : cs_second c = skipn 2 c) by (unfold cs_second; rewrite HL; reflexivity).
  split. { rewrite HC. rewrite <- (firstn_skipn 2 c) at 1. f_equal. rewrite <- HS. reflexivity. }
  destruct (siz_whole _ _ H2) as (W1 & W2 & W3). unfold cs_csiz.
  assert (HZ0 : cs_siz c = seg_contents (cs_second c)) by reflexivity. set (s := cs_second c) in *. clearbody s.
  assert (HSL : seg_length s = val s 2 2) by (unfold seg_length; now rewrite HZ).
  assert (HN : seg_length s <> -9999).
  { intros HE. rewrite HZ0 in W2. unfold seg_contents in W2. rewrite HE in W2. cbn in W2. lia. }
  assert (HG : 0 <= seg_length s) by (destruct (seg_length_range s); lia).
  assert (HZE : cs_siz c = sub s 2 (seg_length s)).
  { rewrite HZ0. unfold seg_contents. now replace (seg_length s =? -9999) with false by lia. }
  assert (HV : val (sub s 2 (seg_length s)) 0 2 = val s 2 2) by (rewrite HZE in W1, W2; apply val_sub; lia).
  rewrite HZE in *. rewrite HV in *. rewrite HSL in *.
  assert (HLE : len (sub s 2 (val s 2 2)) = val s 2 2).
  { assert (len (sub s 2 (val s 2 2)) <= val s 2 2) by (unfold sub, len; rewrite firstn_length; lia). lia. }
  rewrite HLE. split; [|auto]. rewrite <- HZ. apply cut_at; lia.
Qed.

Lemma cs_second_siz c : holds (cs_tests1 c) -> sub (cs_second c) 0 2 = m_SIZ /\ sub c 0 2 = m_SOC.
Proof. intros H. split; [apply (holds_in _ "foundSIZMarker" _ H)|apply (holds_in _ "codestreamStartsWithSOCMarker" _ H)]; cbn; auto. Qed.
(** What starts at a position given by the length of the rest. *)
Lemma suffix_sub (pre s : bytes) n : 0 <= n -> sub (pre ++ s) (len (pre ++ s) - len s) n = sub s 0 n.
Proof. intros Hn. rewrite len_app, sub_app_r by lia. f_equal. lia. Qed.
Lemma segs_suffix stop s l r : segs stop s l (Some r) -> exists pre, s = pre ++ r.
Proof.
  intros H. remember (Some r) as o eqn:EO. induction H as [s H| |s l r0 HN HL H IH]; try discriminate.
  - injection EO as ->. now exists [].
  - destruct (IH EO) as (pre & HE). exists (firstn (Z.to_nat (seg_length s + 2)) s ++ pre). now rewrite <- app_assoc, <- HE, firstn_skipn.
Qed.
Lemma after_offset c l s : after m_SOT (cs_second c) l (Some s) -> sub c (len c - len s) 2 = sub s 0 2.
Proof.
  unfold after, cs_second. intros H. destruct (_ =? -9999); [destruct H; discriminate|]. apply segs_suffix in H as (pre & H).
  destruct (seg_length c =? -9999).
  - destruct (skipn _ []) eqn:E; rewrite skipn_nil in E; [|discriminate]. destruct pre; [|discriminate]. cbn in H. subst s. 
    rewrite len_nil, Z.sub_0_r. unfold sub. rewrite skipn_all2 by (unfold len; lia). reflexivity.
  - rewrite skipn_skipn in H. match type of H with skipn ?k c = _ => rewrite <- (firstn_skipn k c) end. rewrite H, app_assoc.
    apply suffix_sub. lia.
Qed.

(** ** C38: markers of a valid codestream *)

(** SOC, SIZ, the segments [l] of the main header, and what follows; at the end EOC.
    [ps] are the offsets of the tile parts; each has a header from SOT to SOD.  (If
    SIZ describes an image without tiles, there need not be an SOT marker: C62.) *)
Theorem C38_structure E op t c st cz : boxTypeOf t = "contiguousCodestreamBox" -> cs_valid E op t c st cz ->
  exists z l ps, let n := Z.min (siz_tiles z) 65535 in
    (exists s, c = m_SOC ++ m_SIZ ++ z ++ s) /\ val z 0 2 = len z /\
    In m_COD (map fst l) /\ In m_QCD (map fst l) /\ (exists s, c = s ++ m_EOC) /\
    (n <> 0 -> exists s, c = m_SOC ++ m_SIZ ++ z ++ joined l ++ s /\ Forall seg_shape l /\
       ~ In m_SOT (map fst l) /\ sub s 0 2 = m_SOT /\ chain n c (len c - len s) ps) /\
    Forall (fun p => exists h s, skipn (Z.to_nat p) c = m_SOT ++ tp_sot c p ++ joined h ++ s /\ len (tp_sot c p) = 10 /\
       Forall seg_shape h /\ ~ In m_SOD (map fst h) /\ sub s 0 2 = m_SOD) ps /\
    len (nodup Z.eq_dec (map (fun p => val (tp_sot c p) 2 2) ps)) = n.
Proof.
  intros Ht HV. apply (cs_valid_iff _ _ _ _ _ _ Ht) in HV. destruct (cs_start _ _ _ HV) as (S1 & S2 & S3 & S4 & S5).
  destruct HV as (l & rest & ps & HA & HP & H1 & (_ & H2) & H3 & H4 & H5 & H6).
  exists (cs_siz c), l, ps. cbv zeta. split; [eexists; rewrite S1 at 1; f_equal; exact S2|]. split; [now symmetry|].
  split; [apply (holds_in _ "foundCODMarker" _ H5); cbn; auto|]. split; [apply (holds_in _ "foundQCDMarker" _ H5); cbn; auto|].
  split. { apply (holds_in _ "foundEOCMarker" _ H6). unfold cs_tests3. rewrite !in_app_iff. cbn. auto. }
  assert (HT : tiles_found c ps = cs_tiles c).
  { apply (holds_in _ "foundExpectedNumberOfTiles" _ H5). unfold cs_tests2. rewrite !in_app_iff. cbn. auto 6. }
  split; [|split; [|exact HT]].
  - intros Hn. destruct rest as [s|]; [|cbn in HP; subst ps; cbn in HT; unfold cs_tiles in HT; congruence].
    exists s. destruct (after_joined m_SOT _ _ _ eq_refl HA) as (A1 & A2 & A3 & A4 & A5).
    destruct (cs_second_siz c H1) as (B1 & B2). rewrite B1 in A2. fold (cs_siz c) in A2.
    split; [rewrite S1 at 1; f_equal; exact A2|]. inversion A4; subst. auto.
  - apply Forall_forall. intros p Hp. rewrite Forall_forall in H4. destruct (H4 p Hp) as (h & r & T1 & T2 & T3 & T4).
    destruct (parts_at _ _ _ _ HP Hp) as (P1 & P2).
    assert (HR : r <> None) by (apply (holds_in _ "foundSODMarker" _ T4); cbn; auto). destruct r as [s|]; [|congruence].
    destruct (after_joined m_SOD _ _ _ eq_refl T1) as (A1 & A2 & A3 & A4 & A5). exists h, s.
    rewrite sub_skipn in A2 by lia. rewrite Z.add_0_r, P2 in A2. fold (tp_sot c p) in A2. split; [exact A2|].
    inversion A4 as [|? ? A6 A7]; subst. split; [|auto].
    assert (HL : val (tp_sot c p) 0 2 = 10) by (apply (holds_in _ "lsotIsValid" _ T2); cbn; auto).
    destruct A6 as (_ & _ & A6). cbn [snd] in A6. fold (tp_sot c p) in A6. rewrite <- HL. symmetry. apply A6.
    destruct (Z.leb_spec 2 (len (tp_sot c p))); [assumption|]. rewrite val_missing in HL by lia. lia.
Qed.
Print Assumptions C38_structure.
(** Two tiles; the first has two tile parts. *)
Definition ex_hdr2 : bytes := sub ex_mainhdr 0 27 ++ [x01] ++ skipn 28 ex_mainhdr.
Definition ex_part (isot psot tpsot tnsot : byte) (data : bytes) : bytes :=
  [xff; x90; x00; x0a; x00; isot; x00; x00; x00; psot; tpsot; tnsot; xff; x93] ++ data.
Definition ex_two : bytes := ex_hdr2 ++ ex_part x00 x0f x00 x02 [x80] ++ ex_part x01 x0e x00 x01 [] ++ ex_part x00 x00 x01 x00 [x80; x80] ++ m_EOC.
Example C38_ex : is_valid (run "j2c" (BTs "contiguousCodestreamBox") ex_cs VNone) = true /\
  siz_tiles (cs_siz ex_cs) = 1 /\ siz_tiles (cs_siz ex_two) = 2 /\ is_valid (run "j2c" (BTs "contiguousCodestreamBox") ex_two VNone) = true.
Proof. now vm_compute. Qed.

(** ** C39: tile-part chaining *)

(** The first tile part follows the main header.  [psot] is 0 in the last tile part
    only, or else at least 14, and leads to the next one, or to EOC.  (Or to an SOT
    marker that is not looked at, if the tile index is out of range: C59.) *)
Theorem C39_chaining E op t c st cz : boxTypeOf t = "contiguousCodestreamBox" -> cs_valid E op t c st cz ->
  exists l rest ps, after m_SOT (cs_second c) l rest /\ parts c rest ps /\
    (forall s, rest = Some s -> nth_error ps 0 = Some (len c - len s)) /\
    forall i p, nth_error ps i = Some p ->
      sub c p 2 = m_SOT /\
      match nth_error ps (S i) with
      | Some q => 14 <= tp_psot c p /\ q = p + tp_psot c p
      | None => tp_psot c p = 0 \/
          14 <= tp_psot c p /\ (sub c (p + tp_psot c p) 2 = m_EOC \/
                               sub c (p + tp_psot c p) 2 = m_SOT /\ cs_tiles c <= tp_isot c p)
      end.
Proof.
  intros Ht HV. apply (cs_valid_iff _ _ _ _ _ _ Ht) in HV.
  destruct HV as (l & rest & ps & HA & HP & H1 & (_ & H2) & H3 & H4 & H5 & H6).
  exists l, rest, ps. split; [exact HA|]. split; [exact HP|].
  assert (Hps : forall p, In p ps -> (tp_psot c p = 0 \/ 14 <= tp_psot c p /\ In (sub c (p + tp_psot c p) 2) [m_SOT; m_EOC]) /\ 0 <= tp_isot c p).
  { intros p Hp. rewrite Forall_forall in H4. destruct (H4 p Hp) as (h & r & T1 & T2 & T3 & T4).
    assert (X1 : ~ btw 1 (tp_psot c p) 13) by (apply (holds_in _ "psotIsValid" _ T2); cbn; auto).
    assert (X2 : btw 0 (val (tp_sot c p) 8 1) 254) by (apply (holds_in _ "tpsotIsValid" _ T2); cbn; auto 6).
    assert (X3 : btw 0 (tp_isot c p) 65534) by (apply (holds_in _ "isotIsValid" _ T2); cbn; auto 6).
    unfold btw in *. assert (X4 : 9 <= len (tp_sot c p)).
    { destruct (Z.leb_spec 9 (len (tp_sot c p))); [assumption|]. rewrite val_missing in X2 by lia. lia. }
    assert (X5 : 0 <= tp_psot c p).
    { unfold tp_psot. apply (val_readable (tp_sot c p) 4 4); lia. }
    split; [|lia]. destruct (Z.eq_dec (tp_psot c p) 0); [auto|]. right. split; [lia|].
    assert (X6 : In (tp_next c p) [m_SOT; m_EOC]).
    { apply (holds_in _ "foundNextTilePartOrEOC" _ T4). unfold tp_tests. rewrite !in_app_iff. replace (tp_psot c p =? 0) with false by lia. cbn. auto 12. }
    unfold tp_next in X6. now replace (tp_psot c p =? -9999) with false in X6 by lia. }
  split.
  - intros s ->. cbn in HP. destruct (after_joined m_SOT _ _ _ eq_refl HA) as (A1 & A2 & A3 & _).
    assert (HS : sub c (len c - len s) 2 = m_SOT) by (rewrite <- A3; now apply (after_offset c l s)).
    inversion HP; subst; [contradiction|reflexivity..].
  - destruct rest as [s|]; [|cbn in HP; subst ps; intros [|i] p H; discriminate]. cbn in HP. revert Hps. clear - HP.
    induction HP as [p Hp HS|p Hp HS HX|p ps Hp HS HI HPS HC IH]; intros Hps i q Hq.
    + destruct i; discriminate.
    + destruct i as [|[|i]]; try discriminate. injection Hq as <-. split; [exact HS|]. cbn [nth_error].
      destruct (Hps p (or_introl eq_refl)) as ([H0|(H0 & H1)] & H2); [auto|]. right. split; [exact H0|].
      destruct HX as [HX|HX]; [|lia]. cbn in H1. destruct H1 as [H1|[H1|[]]]; [right|left; auto]. split; [auto|lia].
    + destruct i as [|i].
      * injection Hq as <-. split; [exact HS|]. cbn [nth_error]. destruct (Hps p (or_introl eq_refl)) as ([H0|(H0 & H1)] & _); [lia|].
        inversion HC as [q Hq0 HS' |q Hq0 HS' HX'|q qs Hq0 HS']; subst; cbn [nth_error].
        -- right. split; [exact H0|]. cbn in H1. destruct H1 as [H1|[H1|[]]]; [exfalso; apply HS'; symmetry; exact H1|left; symmetry; exact H1].
        -- auto.
        -- auto.
      * cbn [nth_error] in Hq. destruct (IH (fun q H => Hps q (or_intror H)) i q Hq) as (G1 & G2). split; [exact G1|]. exact G2.
Qed.
Print Assumptions C39_chaining.
