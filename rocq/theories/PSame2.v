(** * What the verdict does not depend on: header boxes and files *)

From Coq Require Import ZArith List Bool String Lia Permutation.
From Coq Require Import Init.Byte.
From Verif Require Import Py ETree BV VSuper Spec SpecBox SpecMarker SpecIPL SpecWalk SpecSuper SpecCS SpecFile SpecTop SpecValid SpecSame
     PBase PEmit PWalk PWrite PSeg PLeaf2 PValid PTop Prop_File PForm PSame.
Import ListNotations.
Open Scope string_scope.
Open Scope list_scope.
Open Scope Z_scope.

Notation bdec := (list_eq_dec Byte.byte_eq_dec).

(** ** JP2 Header boxes *)
Lemma perm_amo (t : bytes) a b : Permutation a b -> at_most_one t a -> at_most_one t b.
Proof. intros HP. rewrite !(at_most_one_count bdec). now rewrite (proj1 (Permutation_count_occ bdec a b) HP t). Qed.
Lemma amo_boxes t bs : at_most_one t (map fst bs) -> (List.length (boxes_of t bs) <= 1)%nat.
Proof.
  rewrite (at_most_one_count bdec). intros H. replace (List.length (boxes_of t bs)) with (count_occ bdec (map fst bs) t); [exact H|].
  clear H. induction bs as [|(k, y) bs IH]; [reflexivity|]. unfold boxes_of in *. cbn [map filter fst count_occ].
  destruct (bdec k t) as [->|N]; [rewrite bytes_eqb_refl; cbn [map List.length]; now rewrite IH|].
  apply bytes_eqb_neq in N. now rewrite N.
Qed.
Lemma perm_short {A} (a b : list A) : Permutation a b -> (List.length a <= 1)%nat -> a = b.
Proof.
  intros HP HL. destruct a as [|x [|y a]]; [now apply Permutation_nil in HP|now apply Permutation_length_1_inv in HP|cbn in HL; lia].
Qed.
Lemma perm_boxes t a b : Permutation a b -> Permutation (boxes_of t a) (boxes_of t b).
Proof. intros HP. unfold boxes_of. now apply Permutation_map, perm_filter. Qed.
Lemma perm_one t a b : Permutation a b -> at_most_one t (map fst a) -> boxes_of t b = boxes_of t a.
Proof. intros HP HA. symmetry. apply perm_short; [now apply perm_boxes|now apply amo_boxes]. Qed.

Section Header.
Variables (fmt : string) (bs bs' : list (bytes * bytes)).
Hypothesis HP : Permutation bs bs'.
Hypothesis HD : hd_error (map fst bs) = hd_error (map fst bs').
Hypothesis HC : one_block t_colr (map fst bs) -> one_block t_colr (map fst bs').

Lemma types_perm : Permutation (map fst bs) (map fst bs').
Proof. now apply Permutation_map. Qed.
Lemma types_in t : In t (map fst bs) <-> In t (map fst bs').
Proof. split; apply Permutation_in; [exact types_perm|exact (Permutation_sym types_perm)]. Qed.
Lemma types_exists t : existsb (bytes_eqb t) (map fst bs') = existsb (bytes_eqb t) (map fst bs).
Proof.
  apply eq_iff_eq_true. rewrite !existsb_exists. split; intros (x & HI & HE); exists x; (split; [|exact HE]); now apply types_in.
Qed.
Lemma header_tests : holds (jp2h_tests fmt bs) -> holds (jp2h_tests fmt bs').
Proof.
  intros H. unfold jp2h_tests in *. cbv zeta in *. rewrite !holds_app in *. destruct H as (H1 & H2 & H3 & H4).
  rewrite !holds_cons in H4. destruct H4 as (K1 & K2 & K3 & K4 & K5 & K6 & K7 & K8 & K9 & _).
  assert (HI : first_of t_ihdr bs' = first_of t_ihdr bs) by (unfold first_of; now rewrite (perm_one t_ihdr bs bs' HP K2)).
  rewrite HI. rewrite !holds_cons in *. split; [split; [apply types_in, H1|constructor]|]. split; [|split].
  - destruct (fmt_is fmt "jp2"); [rewrite !holds_cons in *; split; [apply types_in, H2|constructor]|].
    destruct (fmt_is fmt "jph"); [|exact H2]. rewrite !holds_app in *. destruct H2 as (H2 & H5). split.
    + destruct (first_of t_ihdr bs) as [y|]; [|constructor]. destruct (val y 12 1 =? 0); [|constructor]. rewrite !holds_cons in *. split; [apply types_in, H2|constructor].
    + rewrite types_exists. destruct (existsb _ _); [constructor|]. rewrite !holds_cons in *. split; [|constructor]. destruct H5 as (H5 & _).
      intros y i Hy. apply H5. exact (Permutation_in _ (Permutation_sym (perm_boxes t_cdef bs bs' HP)) Hy).
  - destruct (first_of t_ihdr bs) as [y|]; [|constructor]. destruct (val y 10 1 =? 255); [|constructor]. rewrite !holds_cons in *. split; [apply types_in, H3|constructor].
  - pose proof types_perm as TP. split; [now rewrite <- HD|]. repeat (split; [eapply perm_amo; eassumption|]). split; [now apply HC|]. split; [|constructor].
    rewrite <- !types_in. exact K9.
Qed.
End Header.

Lemma header_ok E fmt x x' : header_alike x x' -> box_ok E fmt (t_jp2h, x) -> box_ok E fmt (t_jp2h, x').
Proof.
  intros (bs & bs' & HS & HS' & HP & HD & HC) H. inversion H as [? ? HN|? bs0 HS0 HF HT| | |]; subst; [elim HN; cbn; tauto|].
  rewrite (splits_unique _ _ HS0 _ HS) in *. apply (ok_jp2h E fmt x' bs' HS'); [exact (Permutation_Forall HP HF)|].
  apply (header_tests fmt bs bs' HP HD); [tauto|exact HT].
Qed.
Lemma alike_ok E fmt b b' : alike E b b' -> box_ok E fmt b -> box_ok E fmt b'.
Proof.
  intros [b0|x x' H|x x' H] HK; [exact HK|exact (header_ok E fmt x x' H HK)|]. apply ok_cs. apply (stream_ok E fmt x x' H). now apply box_cs.
Qed.
Lemma stream_sym E x x' : stream_alike E x x' -> stream_alike E x' x.
Proof.
  intros (l & l' & body & H1 & H2 & H3 & H4 & H5 & H6 & H7 & H8). exists l', l, body. repeat split; try assumption; try (symmetry; assumption). 
Qed.
Lemma alike_sym E b b' : alike E b b' -> alike E b' b.
Proof.
  intros [b0|x x' (bs & bs' & H1 & H2 & H3 & H4 & H5)|x x' H]; [constructor|apply alike_header|apply alike_stream, stream_sym, H].
  exists bs', bs. repeat split; try assumption; try (symmetry; assumption); tauto.
Qed.
Lemma file_alike_sym E o c c' : file_alike E o c c' -> file_alike E o c' c.
Proof.
  intros (bs & bs' & H1 & H2 & H3 & H4 & H5 & H6 & H7). exists bs', bs. repeat split; try assumption.
  clear -H7. induction H7; constructor; [now apply alike_sym|assumption].
Qed.

(** ** Types of boxes *)
Section Types.
Variables (ty ty' : list bytes).
Hypothesis HC : filter core ty = filter core ty'.
Lemma core_in t : core t = true -> In t ty -> In t ty'.
Proof.
  intros Ht HI. assert (H : In t (filter core ty)) by (apply filter_In; now split). rewrite HC in H. now apply filter_In in H.
Qed.
Lemma core_count l t : core t = true -> count_occ bdec (filter core l) t = count_occ bdec l t.
Proof.
  intros Ht. induction l as [|k l IH]; [reflexivity|]. cbn [filter count_occ]. destruct (bdec k t) as [->|N].
  - rewrite Ht. cbn [count_occ]. destruct (bdec t t) as [_|N]; [now rewrite IH|now elim N].
  - destruct (core k); [|exact IH]. cbn [count_occ]. destruct (bdec k t); [contradiction|exact IH].
Qed.
Lemma core_amo t : core t = true -> at_most_one t ty -> at_most_one t ty'.
Proof. intros Ht. rewrite !(at_most_one_count bdec). now rewrite <- (core_count ty t Ht), <- (core_count ty' t Ht), HC. Qed.
Lemma filter_back (l a b : list bytes) t : filter core l = a ++ t :: b -> exists l1 l2, l = l1 ++ t :: l2 /\ filter core l1 = a /\ filter core l2 = b.
Proof.
  revert a. induction l as [|k l IH]; intros a H; cbn [filter] in H; [destruct a; discriminate|]. destruct (core k) eqn:EK.
  - destruct a as [|k' a]; cbn [app] in H.
    + injection H as -> H. exists [], l. now repeat split.
    + injection H as <- H. destruct (IH a H) as (l1 & l2 & -> & H1 & H2). exists (k :: l1), l2. split; [reflexivity|]. cbn [filter]. rewrite EK, H1. now split.
  - destruct (IH a H) as (l1 & l2 & -> & H1 & H2). exists (k :: l1), l2. split; [reflexivity|]. cbn [filter]. now rewrite EK.
Qed.
Lemma filter_len (l : list bytes) : len (filter core l) <= len l.
Proof. unfold len. induction l as [|k l IH]; cbn [filter List.length]; [lia|]. destruct (core k); cbn [List.length]; lia. Qed.
Lemma core_placed t1 t2 r : ty = t1 :: t2 :: r -> core t1 = true -> core t2 = true -> header_placed ty -> header_placed ty'.
Proof.
  intros HT H1 H2 (a & b & HE & N1 & N2 & HI & HL).
  assert (HF : filter core ty' = filter core a ++ t_jp2h :: filter core b) by (rewrite <- HC, HE, filter_app; reflexivity).
  destruct (filter_back _ _ _ _ HF) as (a' & b' & -> & Ha & Hb). exists a', b'.
  assert (HX : forall t l l', core t = true -> filter core l' = filter core l -> In t l' -> In t l).
  { intros t l l' Ht HQ Hl. assert (HH : In t (filter core l')) by (apply filter_In; now split). rewrite HQ in HH. now apply filter_In in HH. }
  split; [reflexivity|]. split; [intros H; apply N1; exact (HX t_jp2h a a' eq_refl Ha H)|].
  split; [intros H; apply N2; exact (HX t_jp2c a a' eq_refl Ha H)|]. split; [exact (HX t_jp2c b' b eq_refl (eq_sym Hb) HI)|].
  rewrite HT in HE. destruct a as [|k1 [|k2 a]]; [cbn in HL; lia|cbn in HL; lia|]. cbn [app] in HE. injection HE as <- <- _.
  pose proof (filter_len a') as HW. rewrite Ha in HW. cbn [filter] in HW. rewrite H1, H2 in HW. unfold len in *. cbn [List.length] in HW. lia.
Qed.
End Types.

(** ** Files *)
Lemma core_boxes t (bs : list (bytes * bytes)) : core t = true -> boxes_of t (filter (fun b => core (fst b)) bs) = boxes_of t bs.
Proof.
  intros Ht. unfold boxes_of. f_equal. induction bs as [|(k, y) bs IH]; [reflexivity|]. cbn [filter fst]. destruct (core k) eqn:EK; cbn [filter fst]; rewrite IH; [reflexivity|].
  destruct (bytes_eqb k t) eqn:EB; [|reflexivity]. apply bytes_eqb_spec in EB. subst k. congruence.
Qed.
Lemma alike_type E b b' : alike E b b' -> fst b = fst b'.
Proof. now intros []. Qed.
Lemma alike_boxes E t a b : Forall2 (alike E) a b -> Forall2 (fun x x' => alike E (t, x) (t, x')) (boxes_of t a) (boxes_of t b).
Proof.
  unfold boxes_of. induction 1 as [|(k, y) (k', y') a b H HF IH]; [constructor|]. pose proof (alike_type _ _ _ H) as HK. cbn [fst] in HK. subst k'.
  cbn [filter fst]. destruct (bytes_eqb k t) eqn:EB; [|exact IH]. apply bytes_eqb_spec in EB. subst k. now constructor.
Qed.
Lemma types_filter (bs : list (bytes * bytes)) : map fst (filter (fun b => core (fst b)) bs) = filter core (map fst bs).
Proof. induction bs as [|(k, y) bs IH]; [reflexivity|]. cbn [filter map fst]. destruct (core k); cbn [map fst]; now rewrite IH. Qed.
Lemma alike_types E (a b : list (bytes * bytes)) : Forall2 (alike E) a b -> map fst a = map fst b.
Proof. induction 1 as [|x y a b H HF IH]; [reflexivity|]. cbn [map]. now rewrite IH, (alike_type _ _ _ H). Qed.
Lemma alike_siz E a b : Forall2 (fun x x' => alike E (t_jp2c, x) (t_jp2c, x')) a b ->
  flat_map (fun c => if bytes_eqb (sub (cs_second c) 0 2) m_SIZ then [cs_siz c] else []) b =
  flat_map (fun c => if bytes_eqb (sub (cs_second c) 0 2) m_SIZ then [cs_siz c] else []) a.
Proof.
  induction 1 as [|x x' a b H HF IH]; [reflexivity|]. cbn [flat_map]. rewrite IH. f_equal. inversion H as [| |? ? HS]; subst; [reflexivity|].
  destruct HS as (_ & _ & _ & _ & H2 & H3 & _). now rewrite H2, H3.
Qed.

Lemma file_same E o c c' : len c' < 2 ^ 53 -> file_alike E o c c' -> file_ok E (o_format o) c -> file_ok E (o_format o) c'.
Proof.
  intros HL (bs & bs' & HS & HS' & HB & HB' & HX & HX' & HA) (bs0 & hs & HS0 & HH & HF & HT).
  rewrite (splits_unique _ _ HS0 _ HS) in *. clear bs0 HS0.
  assert (HTY : filter core (map fst bs) = filter core (map fst bs')) by (rewrite <- !types_filter; exact (alike_types _ _ _ HA)).
  unfold jp2_tests in HT. cbv zeta in HT. rewrite !holds_app, !holds_cons in HT.
  destruct HT as ((A1 & A2 & A3 & A4 & _) & B & (C1 & C2 & C3 & C4 & C5 & C6 & _) & D).
  (* the header box *)
  destruct (boxes_of_one t_jp2h bs A3 C6) as (y & HY). pose proof (alike_boxes E t_jp2h _ _ HA) as HJ. rewrite !core_boxes in HJ by reflexivity. rewrite HY in HJ.
  inversion HJ as [|? y' ? r' HYY HR]; subst. inversion HR; subst. clear HJ HR. match goal with H : _ = boxes_of t_jp2h bs' |- _ => rename H into HY' end.
  unfold headers in HH. rewrite HY in HH. inversion HH as [|? h ? r HSY HR]; subst. inversion HR; subst. clear HH HR.
  assert (HOK : box_ok E (o_format o) (t_jp2h, y)).
  { rewrite Forall_forall in HF. apply HF. apply boxes_of_in. rewrite HY. now left. }
  assert (HH' : exists h', splits y' h' /\ file_ihdr [h'] = file_ihdr [h] /\ file_bpcc [h'] = file_bpcc [h]).
  { inversion HYY as [|? ? HAL|]; subst; [now exists h|]. destruct HAL as (g & g' & G1 & G2 & G3 & _). rewrite (splits_unique _ _ HSY _ G1) in *.
    exists g'. split; [exact G2|]. inversion HOK as [? ? HN|? bs0 HSB _ HTB| | |]; subst; [elim HN; cbn; tauto|]. rewrite (splits_unique _ _ HSB _ G1) in HTB.
    unfold jp2h_tests in HTB. cbv zeta in HTB. rewrite !holds_app in HTB. destruct HTB as (_ & _ & _ & HTB). rewrite !holds_cons in HTB. destruct HTB as (_ & K1 & K2 & _).
    unfold file_ihdr, file_bpcc. cbn [flat_map]. now rewrite (perm_one t_ihdr g g' G3 K1), (perm_one t_bpcc g g' G3 K2). }
  destruct HH' as (h' & HSH & HI & HBP).
  assert (HZ : file_siz bs' = file_siz bs).
  { unfold file_siz. f_equal. apply (alike_siz E). rewrite <- (core_boxes t_jp2c bs), <- (core_boxes t_jp2c bs') by reflexivity. now apply alike_boxes. }
  exists bs', [h']. split; [exact HS'|]. split; [unfold headers; rewrite <- HY'; repeat constructor; exact HSH|]. split.
  - apply Forall_forall. intros (t & z) HIn. destruct (core t) eqn:ET.
    + assert (HIn' : In (t, z) (filter (fun b => core (fst b)) bs')) by (apply filter_In; now split).
      assert (HEX : exists b, In b (filter (fun b => core (fst b)) bs) /\ alike E b (t, z)).
      { clear -HA HIn'. induction HA as [|p q a b HPQ HF IH]; [destruct HIn'|]. destruct HIn' as [->|HIn']; [exists p; split; [now left|exact HPQ]|].
        destruct (IH HIn') as (b0 & Hb & HAb). exists b0. split; [now right|exact HAb]. }
      destruct HEX as (b & Hb & HAb). apply filter_In in Hb. rewrite Forall_forall in HF. exact (alike_ok _ _ _ _ HAb (HF _ (proj1 Hb))).
    + pose proof (splits_inside _ _ HS') as HIS. rewrite Forall_forall in HIS. specialize (HIS _ HIn). cbn [snd] in HIS.
      apply (box_spec E o (len c') (t, z) HIS); [unfold small; cbn [snd]; lia|]. exact (HX' (t, z) HIn ET).
  - unfold jp2_tests. cbv zeta. rewrite HI, HBP, HZ. rewrite !holds_app, !holds_cons.
    destruct HB as (b1 & b2 & r & -> & Hb1 & Hb2). destruct HB' as (b1' & b2' & r' & -> & Hb1' & Hb2').
    pose proof HTY as HTY2. cbn [map filter] in HTY2. rewrite Hb1, Hb2, Hb1', Hb2' in HTY2. injection HTY2 as HT1 HT2 _.
    split; [|split; [|split; [|exact D]]].
    + do 4 (split; [eapply core_in; [exact HTY|reflexivity|assumption]|]). constructor.
    + destruct (file_ihdr [h]) as [i|]; [|constructor]. destruct (val i 13 1 =? 1); [|constructor]. rewrite holds_cons in *. split; [|constructor].
      eapply core_in; [exact HTY|reflexivity|apply B].
    + cbn [map nth_error] in C1, C2. split; [cbn [map nth_error]; now rewrite <- HT1|]. split; [cbn [map nth_error]; now rewrite <- HT2|]. split; [|split; [|split; [|split; [|constructor]]]].
      * exact (core_placed _ _ HTY (fst b1) (fst b2) (map fst r) eq_refl Hb1 Hb2 C3).
      * exact (core_amo _ _ HTY t_sig eq_refl C4).
      * exact (core_amo _ _ HTY t_ftyp eq_refl C5).
      * exact (core_amo _ _ HTY t_jp2h eq_refl C6).
Qed.
