(** * Lemmas for C68 *)

From Coq Require Import ZArith List Bool String Lia.
From Coq Require Import ZifyBool.
From Verif Require Import Py PyFloat ByteConv ETree Mix Spec SpecMix SpecMixXmp PBase Prop_Mix PMix PMixOk.
Import ListNotations.
Open Scope string_scope.
Open Scope list_scope.
Open Scope Z_scope.

Lemma ver_char c : isVerChar c = true <-> version_char c.
Proof. unfold isVerChar, version_char. lia. Qed.
Lemma take_spec s : exists r, s = takeWhile isVerChar s ++ r /\ Forall version_char (takeWhile isVerChar s) /\ (forall c u, r = c :: u -> ~ version_char c).
Proof.
  induction s as [|c s (r & H1 & H2 & H3)]; [exists []; repeat split; [constructor|discriminate]|].
  cbn. destruct (isVerChar c) eqn:EC.
  - exists r. split; [cbn; now rewrite <- H1|]. split; [constructor; [now apply ver_char|exact H2]|exact H3].
  - exists (c :: s). split; [reflexivity|]. split; [constructor|]. intros c' u H. injection H as <- <-. rewrite <- ver_char. congruence.
Qed.
Lemma dash_v_eq x y : x ++ pys "-v" ++ y = x ++ 45 :: 118 :: y. Proof. reflexivity. Qed.
Lemma dash_v_cons c s : has_dash_v (c :: s) <-> has_dash_v s \/ exists r, c = 45 /\ s = 118 :: r.
Proof.
  split.
  - intros ([|d x] & y & H).
    + rewrite dash_v_eq in H. cbn in H. injection H as -> ->. right. eauto.
    + cbn in H. injection H as <- H. left. exists x, y. exact H.
  - intros [(x & y & ->)|(r & -> & ->)]; [exists (c :: x), y; reflexivity|exists [], r; reflexivity].
Qed.
Lemma dash_v_nil : ~ has_dash_v [].
Proof. intros ([|] & y & H); discriminate H. Qed.
Lemma last_spec s : match lastDashV s with
  | Some (a, b) => s = a ++ pys "-v" ++ b /\ ~ has_dash_v b
  | None => ~ has_dash_v s end.
Proof.
  induction s as [|c s IH]; [exact dash_v_nil|]. cbn [lastDashV].
  destruct (lastDashV s) as [(a, b)|].
  - destruct IH as (-> & H). split; [reflexivity|exact H].
  - destruct s as [|d r]; [rewrite dash_v_cons; intros [H|(r & _ & H)]; [now apply dash_v_nil|discriminate]|].
    destruct (Z.eqb_spec c 45) as [->|HC]; [destruct (Z.eqb_spec d 118) as [->|HD]|]; cbn [andb].
    + split; [reflexivity|]. intros H. apply IH. rewrite dash_v_cons. now left.
    + rewrite dash_v_cons. intros [H|(r' & _ & H)]; [tauto|]. congruence.
    + rewrite dash_v_cons. intros [H|(r' & H & _)]; tauto.
Qed.
Lemma lines_nonnil s : splitLines s <> [].
Proof. destruct s as [|c s]; [discriminate|]. cbn. destruct (c =? 10); [discriminate|]. destruct (splitLines s); discriminate. Qed.
Lemma lines_spec s : exists l r, splitLines s = l :: r /\ ~ In newline l /\
  ((s = l /\ r = []) \/ exists s', s = l ++ newline :: s' /\ r = splitLines s').
Proof.
  induction s as [|c s (l & r & H1 & H2 & H3)]; [exists [], []; repeat split; [intros []|now left]|].
  cbn [splitLines]. destruct (Z.eqb_spec c 10) as [->|HC].
  - exists [], (splitLines s). repeat split; [intros []|]. right. exists s. now split.
  - rewrite H1. exists (c :: l), r. split; [reflexivity|]. split; [intros [H|H]; [now apply HC|tauto]|].
    destruct H3 as [(-> & ->)|(s' & -> & ->)]; [now left|]. right. exists s'. now split.
Qed.
Lemma dash_v_line l s : has_dash_v (l ++ newline :: s) <-> has_dash_v l \/ has_dash_v s.
Proof.
  induction l as [|c l IH].
  - cbn [app]. rewrite dash_v_cons. split; [intros [H|(r & H & _)]; [tauto|discriminate]|intros [H|H]; [now apply dash_v_nil in H|tauto]].
  - cbn [app]. rewrite !dash_v_cons, IH. split.
    + intros [[H|H]|(r & -> & H)]; try tauto. destruct l as [|d l]; [discriminate|]. cbn in H. injection H as -> _. left. right. eauto.
    + intros [[H|(r & -> & ->)]|H]; try tauto. right. exists (r ++ newline :: s). now split.
Qed.

Lemma codec_spec s : match searchCodec s with
  | Some (a, b) => names_codec s a b
  | None => ~ has_dash_v s end.
Proof.
  unfold searchCodec. remember (List.length s) as n eqn:En. assert (Hn : (List.length s <= n)%nat) by lia. clear En. revert s Hn.
  induction n as [|n IH]; intros s Hn.
  { destruct s; [|cbn in Hn; lia]. exact dash_v_nil. }
  destruct (lines_spec s) as (l & r & -> & HL & HR). cbn [firstSome]. pose proof (last_spec l) as HS.
  destruct (lastDashV l) as [(a, b)|].
  - destruct HS as (-> & HB). destruct (take_spec b) as (w & E1 & E2 & E3).
    assert (HN : ~ In newline (a ++ takeWhile isVerChar b ++ w)).
    { rewrite <- E1. intros HI. apply HL. rewrite !in_app_iff in *. tauto. }
    assert (HD : ~ has_dash_v (takeWhile isVerChar b ++ w)) by now rewrite <- E1.
    destruct HR as [(-> & ->)|(s' & -> & ->)].
    + exists [], w, []. rewrite <- E1. split; [cbn [app]; now rewrite app_nil_r|]. rewrite E1 at 2. rewrite E1 at 1.
      split; [now left|]. split; [now left|]. split; [exact HN|]. split; [exact dash_v_nil|]. split; [exact HD|]. now split.
    + exists [], w, (newline :: s'). split; [cbn [app]; rewrite <- E1; reflexivity|].
      split; [now left|]. split; [right; eauto|]. split; [exact HN|]. split; [exact dash_v_nil|]. split; [exact HD|]. now split.
  - destruct HR as [(-> & ->)|(s' & -> & ->)]; [exact HS|].
    assert (Hs : (List.length s' <= n)%nat) by (rewrite app_length in Hn; cbn in Hn; lia). specialize (IH s' Hs).
    destruct (firstSome (splitLines s')) as [(a, b)|].
    + destruct IH as (u & w & v & -> & H1 & H2 & H3 & H4 & H5). exists (l ++ newline :: u), w, v.
      split; [now rewrite <- (app_assoc l)|]. split; [right; destruct H1 as [->|(u' & ->)]; [exists l; reflexivity|exists (l ++ newline :: u'); now rewrite <- app_assoc]|].
      split; [exact H2|]. split; [exact H3|]. split; [rewrite dash_v_line; tauto|exact H5].
    + rewrite dash_v_line. tauto.
Qed.
Lemma codec_has s a b : names_codec s a b -> has_dash_v s.
Proof. intros (u & w & v & -> & _). exists (u ++ a), (b ++ w ++ v). rewrite <- !app_assoc. reflexivity. Qed.

Lemma last_space_spec s : match lastSpace s with
  | Some (a, b) => s = a ++ pys " " ++ b /\ ~ In 32 b
  | None => ~ In 32 s end.
Proof.
  induction s as [|c s IH]; [intros []|]. cbn [lastSpace]. destruct (lastSpace s) as [(a, b)|].
  - destruct IH as (-> & H). now split.
  - destruct (Z.eqb_spec c 32) as [->|HC]; [now split|]. intros [H|H]; tauto.
Qed.
Lemma space_unique a b a' b' : a ++ pys " " ++ b = a' ++ pys " " ++ b' -> ~ In 32 b -> ~ In 32 b' -> a = a' /\ b = b'.
Proof.
  change (pys " ") with [32]. cbn [app]. revert a'. induction a as [|c a IH]; intros [|c' a'] H HB HB'.
  - cbn in H. now injection H as ->.
  - cbn in H. injection H as <- ->. exfalso. apply HB. rewrite in_app_iff. right. now left.
  - cbn in H. injection H as -> <-. exfalso. apply HB'. rewrite in_app_iff. right. now left.
  - cbn in H. injection H as <- H. destruct (IH _ H HB HB') as (-> & ->). now split.
Qed.
Lemma ver_no_space b : Forall version_char b -> ~ In 32 b.
Proof. intros H HI. rewrite Forall_forall in H. specialize (H _ HI). unfold version_char in H. lia. Qed.
Lemma ver_no_newline b : Forall version_char b -> ~ In newline b.
Proof. intros H HI. rewrite Forall_forall in H. specialize (H _ HI). unfold version_char, newline in H. lia. Qed.
Lemma drop_nl s : exists e, (e = [] \/ e = [newline]) /\ s = dropFinalNewline s ++ e /\ (e = [] -> forall u, s <> u ++ [newline]).
Proof.
  unfold dropFinalNewline. destruct (rev s) as [|c r] eqn:ER.
  - exists []. split; [now left|]. assert (HS : s = []) by (rewrite <- (rev_involutive s), ER; reflexivity). subst s. split; [reflexivity|]. intros _ [|] H; discriminate.
  - assert (HS : s = rev r ++ [c]) by (rewrite <- (rev_involutive s), ER; reflexivity). destruct (Z.eqb_spec c 10) as [->|HC].
    + exists [newline]. split; [now right|]. split; [exact HS|discriminate].
    + exists []. split; [now left|]. split; [now rewrite app_nil_r|]. intros _ u H. rewrite HS in H. apply app_inj_tail in H as (_ & H). now apply HC.
Qed.
Lemma tool_spec s : match searchTool s with
  | Some (a, b) => names_tool s a b
  | None => forall a b, ~ names_tool s a b end.
Proof.
  unfold searchTool. destruct (drop_nl s) as (e & HE & HS & HN). set (t := dropFinalNewline s) in *.
  assert (HT : forall a b, names_tool s a b -> t = a ++ pys " " ++ b /\ ~ In newline a /\ Forall version_char b).
  { intros a b (e' & HE' & HS' & HA & HB). split; [|tauto].
    assert (HX : s = (a ++ pys " " ++ b) ++ e') by (rewrite HS', <- !app_assoc; reflexivity).
    destruct HE as [->| ->]; destruct HE' as [->| ->]; rewrite ?app_nil_r in *.
    - now rewrite <- HS.
    - exfalso. now apply (HN eq_refl (a ++ pys " " ++ b)).
    - exfalso. rewrite HX in HS. assert (HI : In newline (a ++ pys " " ++ b)) by (rewrite HS, in_app_iff; right; now left).
      rewrite !in_app_iff in HI. destruct HI as [HI|[[HI|[]]|HI]]; [tauto|discriminate HI|now apply (ver_no_newline b)].
    - rewrite HX in HS. now apply app_inj_tail in HS as (-> & _). }
  destruct (existsb (Z.eqb 10) t) eqn:EX.
  { intros a b H. destruct (HT _ _ H) as (E1 & E2 & E3). apply existsb_exists in EX as (x & HI & HX). apply Z.eqb_eq in HX. subst x.
    rewrite E1, !in_app_iff in HI. destruct HI as [HI|[[HI|[]]|HI]]; [now apply E2|discriminate HI|now apply (ver_no_newline b)]. }
  pose proof (last_space_spec t) as HL. destruct (lastSpace t) as [(a, b)|].
  - destruct HL as (HL & HB). destruct (forallb isVerChar b) eqn:EV.
    + exists e. split; [exact HE|]. split; [rewrite HS, HL, <- !app_assoc; reflexivity|]. split.
      * intros HI. assert (HY : existsb (Z.eqb 10) t = true) by (apply existsb_exists; exists 10; split; [rewrite HL, in_app_iff; left; exact HI|reflexivity]). congruence.
      * rewrite forallb_forall in EV. apply Forall_forall. intros c HI. apply ver_char. now apply EV.
    + intros a' b' H. destruct (HT _ _ H) as (E1 & _ & E3). rewrite HL in E1.
      destruct (space_unique _ _ _ _ E1 HB (ver_no_space _ E3)) as (_ & ->).
      assert (HY : forallb isVerChar b' = true) by (apply forallb_forall; rewrite Forall_forall in E3; intros c HI; apply ver_char; now apply E3). congruence.
  - intros a b H. destruct (HT _ _ H) as (E1 & _). apply HL. rewrite E1, !in_app_iff. right. left. now left.
Qed.
Lemma tool_unique s a b a' b' : names_tool s a b -> names_tool s a' b' -> a = a' /\ b = b'.
Proof.
  intros (e & HE & H1 & HA & HB) (e' & HE' & H1' & HA' & HB').
  assert (HX : (a ++ pys " " ++ b) ++ e = (a' ++ pys " " ++ b') ++ e') by (rewrite <- !app_assoc; congruence).
  assert (HZ : forall a b, ~ In newline a -> Forall version_char b -> ~ In newline (a ++ pys " " ++ b)).
  { intros x y HP HQ. rewrite !in_app_iff. intros [H|[[H|[]]|H]]; [tauto|discriminate H|now apply (ver_no_newline y)]. }
  pose proof (HZ _ _ HA HB) as N1. pose proof (HZ _ _ HA' HB') as N2.
  assert (HY : a ++ pys " " ++ b = a' ++ pys " " ++ b').
  { destruct HE as [->| ->]; destruct HE' as [->| ->]; rewrite ?app_nil_r in HX.
    - exact HX.
    - exfalso. apply N1. rewrite HX, in_app_iff. right. now left.
    - exfalso. apply N2. rewrite <- HX, in_app_iff. right. now left.
    - now apply app_inj_tail in HX as (-> & _). }
  apply (space_unique _ _ _ _ HY); now apply ver_no_space.
Qed.
Lemma dash_unique a b a' b' : a ++ pys "-v" ++ b = a' ++ pys "-v" ++ b' -> ~ has_dash_v b -> ~ has_dash_v b' -> a = a' /\ b = b'.
Proof.
  rewrite !dash_v_eq. revert a'. induction a as [|c a IH]; intros [|c' a'] H HB HB'.
  - cbn in H. now injection H as ->.
  - cbn in H. injection H as <- H. destruct a' as [|d a']; [discriminate|]. cbn in H. injection H as <- ->. exfalso. apply HB. exists a', b'. reflexivity.
  - cbn in H. injection H as -> H. destruct a as [|d a]; [discriminate|]. cbn in H. injection H as -> <-. exfalso. apply HB'. exists a, b. reflexivity.
  - cbn in H. injection H as <- H. destruct (IH _ H HB HB') as (-> & ->). now split.
Qed.
Lemma lines_one l : ~ In newline l -> splitLines l = [l].
Proof.
  intros HL. destruct (lines_spec l) as (x & r & -> & _ & [(-> & ->)|(s' & H & _)]); [reflexivity|]. exfalso. apply HL. rewrite H, in_app_iff. right. now left.
Qed.
Lemma lines_cons l s : ~ In newline l -> splitLines (l ++ newline :: s) = l :: splitLines s.
Proof.
  induction l as [|c l IH]; intros HL; [reflexivity|]. cbn [app splitLines]. destruct (Z.eqb_spec c 10) as [HC|HC]; [exfalso; apply HL; now left|].
  rewrite IH; [reflexivity|]. intros H. apply HL. now right.
Qed.
Lemma take_all b w : Forall version_char b -> (forall c u, w = c :: u -> ~ version_char c) -> takeWhile isVerChar (b ++ w) = b.
Proof.
  intros HB HW. induction HB as [|c b HC HB IH]; cbn [app].
  - destruct w as [|c u]; [reflexivity|]. cbn. destruct (isVerChar c) eqn:EC; [|reflexivity]. exfalso. apply (HW c u eq_refl). now apply ver_char.
  - cbn. apply ver_char in HC. rewrite HC. now rewrite IH.
Qed.
Lemma codec_complete s a b : names_codec s a b -> searchCodec s = Some (a, b).
Proof.
  intros (u & w & v & -> & HU & HV & HN & HD & HR & HB & HW). unfold searchCodec.
  assert (HLN : ~ In newline (a ++ pys "-v" ++ b ++ w)).
  { rewrite !in_app_iff in *. intros [H|[[H|[H|[]]]|H]]; [tauto|discriminate H|discriminate H|tauto]. }
  assert (HL : lastDashV (a ++ pys "-v" ++ b ++ w) = Some (a, b ++ w)).
  { pose proof (last_spec (a ++ pys "-v" ++ b ++ w)) as HS. destruct (lastDashV _) as [(a', b')|].
    - destruct HS as (HS & HS'). destruct (dash_unique _ _ _ _ HS HR HS') as (-> & ->). reflexivity.
    - exfalso. apply HS. exists a, (b ++ w). reflexivity. }
  assert (HS : exists r, splitLines ((a ++ pys "-v" ++ b ++ w) ++ v) = (a ++ pys "-v" ++ b ++ w) :: r).
  { destruct HV as [->|(v' & ->)]; [rewrite app_nil_r, lines_one by exact HLN; eauto|]. rewrite lines_cons by exact HLN. eauto. }
  destruct HS as (r & HSL). clear HV. set (line := (a ++ pys "-v" ++ b ++ w) ++ v) in *.
  remember (List.length u) as n eqn:En. assert (Hn : (List.length u <= n)%nat) by lia. clear En. revert u HU HD Hn.
  induction n as [|n IH]; intros u HU HD Hn; (destruct HU as [->|(u' & ->)]; [cbn [app]; rewrite HSL; cbn [firstSome]; rewrite HL, take_all by assumption; reflexivity|]).
  { rewrite app_length in Hn. cbn in Hn. lia. }
  destruct (lines_spec u') as (l & _ & _ & HNL & [(-> & _)|(s' & -> & _)]).
  - rewrite <- app_assoc. cbn [app]. rewrite lines_cons by exact HNL. cbn [firstSome].
    pose proof (last_spec l) as HX. destruct (lastDashV l) as [(a', b')|].
    { exfalso. apply HD. rewrite dash_v_line. left. destruct HX as (-> & _). eexists _, _. reflexivity. }
    apply (IH []); [now left|exact dash_v_nil|cbn; lia].
  - rewrite <- !app_assoc in *. cbn [app] in *. rewrite lines_cons by exact HNL. cbn [firstSome].
    rewrite dash_v_line in HD. pose proof (last_spec l) as HX. destruct (lastDashV l) as [(a', b')|].
    { exfalso. apply HD. left. destruct HX as (-> & _). eexists _, _. reflexivity. }
    replace (s' ++ newline :: line) with ((s' ++ [newline]) ++ line) by (rewrite <- app_assoc; reflexivity).
    apply IH; [right; eauto|tauto|]. rewrite !app_length in *. cbn in *. rewrite app_length in Hn. cbn in Hn. lia.
Qed.

(** ** XMP values *)
Lemma attr_spec k a : match attrGet k a with
  | Some s => exists l r, a = l ++ (k, s) :: r /\ ~ In k (map fst l)
  | None => ~ In k (map fst a) end.
Proof.
  induction a as [|(k', s) a IH]; [intros []|]. cbn [attrGet]. destruct (String.eqb_spec k k') as [->|HK].
  - exists [], a. split; [reflexivity|intros []].
  - destruct (attrGet k a) as [s'|].
    + destruct IH as (l & r & -> & H). exists ((k', s) :: l), r. split; [reflexivity|]. cbn. intros [H'|H']; [congruence|tauto].
    + cbn. intros [H|H]; [congruence|tauto].
Qed.
Lemma attr_eq x k s : attribute x k s <-> attrGet k (eattrib x) = Some s.
Proof.
  split.
  - intros (l & r & -> & H). induction l as [|(k', s') l IH]; cbn; [now rewrite String.eqb_refl|]. cbn in H.
    destruct (String.eqb_spec k k') as [->|HK]; [exfalso; tauto|]. apply IH. tauto.
  - intros H. pose proof (attr_spec k (eattrib x)) as HS. rewrite H in HS. exact HS.
Qed.
Lemma value_spec rdf k v : findValueInRDF rdf xmp_description k = Ok v ->
  (v = VNone /\ xmp_value rdf k None) \/ (exists s, v = VStr s /\ xmp_value rdf k (Some s)) \/ (v <> VNone /\ forall s, v <> VStr s).
Proof.
  unfold findValueInRDF. destruct (ETree.find [xmp_description; k] rdf) as [x|] eqn:EX.
  - intros H. injection H as <-. destruct (etext x) eqn:ET; try (right; right; split; [discriminate|intros ?; discriminate]).
    + left. split; [reflexivity|]. now apply (xv_empty _ _ x).
    + right. left. eexists. split; [reflexivity|]. now apply (xv_element _ _ x).
  - destruct (ETree.find [xmp_description] rdf) as [d|] eqn:ED; [|discriminate].
    pose proof (attr_eq d k) as HA. destruct (attrGet k (eattrib d)) as [[|c s]|]; intros H; injection H as <-.
    + left. split; [reflexivity|]. apply (xv_none _ _ d EX ED). intros s HS. apply HA in HS. congruence.
    + right. left. eexists. split; [reflexivity|]. apply (xv_attribute _ _ d _ EX ED); [now apply HA|discriminate].
    + left. split; [reflexivity|]. apply (xv_none _ _ d EX ED). intros s HS. apply HA in HS. discriminate.
Qed.
Lemma xmp_value_fun rdf k v v' : xmp_value rdf k v -> xmp_value rdf k v' -> v = v'.
Proof.
  intros [x s H1 H2|x H1 H2|d s H1 H2 H3 H4|d H1 H2 H3] [x' s' G1 G2|x' G1 G2|d' s' G1 G2 G3 G4|d' G1 G2 G3]; try congruence;
    (assert (d = d') as <- by congruence); rewrite ?attr_eq in *; try congruence.
  - exfalso. apply H4, G3. now apply attr_eq.
  - exfalso. apply G4, H3. now apply attr_eq.
Qed.
Lemma add_spec isp rdf k dest l : addIfExist isp rdf xmp_description k dest = Ok l ->
  exists v, xmp_value rdf k v /\ match v with Some s => l = [leaf dest (VStr (trim isp s))] | None => l = [] end.
Proof.
  unfold addIfExist. destruct (findValueInRDF rdf xmp_description k) as [v| |] eqn:EV; [|discriminate..]. cbn [rbind].
  destruct (value_spec _ _ _ EV) as [(-> & HV)|[(s & -> & HV)|(HV & HW)]].
  - intros H. injection H as <-. exists None. now split.
  - cbn. intros H. injection H as <-. exists (Some s). now split.
  - destruct v; try discriminate; [now destruct HV|now destruct (HW s)].
Qed.
