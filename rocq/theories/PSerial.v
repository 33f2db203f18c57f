(** * The serialised form of an element and what it reads as *)

From Coq Require Import ZArith List Bool String Lia ZifyBool Permutation.
From Verif Require Import Py ETree Main Serial SpecText PBase PHuman SpecXml PXml.
Import ListNotations.
Open Scope string_scope.
Open Scope list_scope.
Open Scope Z_scope.

(** ** Escapes *)
Lemma replace1_app c r a b : replace1 c r (a ++ b) = replace1 c r a ++ replace1 c r b.
Proof. apply flat_map_app. Qed.
Lemma replace1_other c r x : x <> c -> replace1 c r [x] = [x].
Proof. intros H. cbn. now replace (x =? c) with false by lia. Qed.
Lemma each (f : pystr -> pystr) : f [] = [] -> (forall a b, f (a ++ b) = f a ++ f b) -> forall s, f s = flat_map (fun c => f [c]) s.
Proof. intros H0 HA s. induction s as [|c s IH]; [exact H0|]. change (c :: s) with ([c] ++ s). rewrite HA, IH. reflexivity. Qed.
Definition f_cdata (c : Z) : pystr := escape_cdata [c].
Definition f_attrib (c : Z) : pystr := escape_attrib [c].
Definition f_data (c : Z) : pystr := write_data [c].
Lemma cdata_each s : escape_cdata s = flat_map f_cdata s.
Proof. apply each; [reflexivity|]. intros a b. unfold escape_cdata. now rewrite !replace1_app. Qed.
Lemma attrib_each s : escape_attrib s = flat_map f_attrib s.
Proof. apply each; [reflexivity|]. intros a b. unfold escape_attrib. now rewrite !replace1_app. Qed.
Lemma data_each s : write_data s = flat_map f_data s.
Proof. apply each; [reflexivity|]. intros a b. unfold write_data. now rewrite !replace1_app. Qed.

Definition text_char (c : Z) : Prop := is_char c = true /\ c <> 13.
Ltac named := right; eexists; split; [reflexivity|split; [reflexivity|intros q; reflexivity]].
Lemma cdata_ok c : text_char c -> esc_text f_cdata c.
Proof.
  intros [HC H13]. unfold esc_text.
  destruct (Z.eq_dec c 38) as [->|]; [named|]. destruct (Z.eq_dec c 60) as [->|]; [named|].
  destruct (Z.eq_dec c 62) as [->|]; [named|].
  left. split; [|auto]. unfold f_cdata, escape_cdata. now rewrite !replace1_other.
Qed.
Lemma attrib_ok b c : value_char b c -> esc_value f_attrib c.
Proof.
  intros [HC _]. unfold esc_value.
  destruct (Z.eq_dec c 38) as [->|]; [named|]. destruct (Z.eq_dec c 60) as [->|]; [named|].
  destruct (Z.eq_dec c 62) as [->|]; [named|]. destruct (Z.eq_dec c 34) as [->|]; [named|].
  destruct (Z.eq_dec c 13) as [->|]; [named|]. destruct (Z.eq_dec c 10) as [->|]; [named|]. destruct (Z.eq_dec c 9) as [->|]; [named|].
  left. split; [|do 4 (split; [assumption|])].
  - unfold f_attrib, escape_attrib. now rewrite !replace1_other.
  - unfold is_space. lia.
Qed.
Lemma data_text_ok c : text_char c -> esc_text f_data c.
Proof.
  intros [HC H13]. unfold esc_text.
  destruct (Z.eq_dec c 38) as [->|]; [named|]. destruct (Z.eq_dec c 60) as [->|]; [named|].
  destruct (Z.eq_dec c 62) as [->|]; [named|]. destruct (Z.eq_dec c 34) as [->|]; [named|].
  left. split; [|auto]. unfold f_data, write_data. now rewrite !replace1_other.
Qed.
Lemma data_value_ok c : value_char true c -> esc_value f_data c.
Proof.
  intros [HC H32]. specialize (H32 eq_refl). unfold esc_value.
  destruct (Z.eq_dec c 38) as [->|]; [named|]. destruct (Z.eq_dec c 60) as [->|]; [named|].
  destruct (Z.eq_dec c 62) as [->|]; [named|]. destruct (Z.eq_dec c 34) as [->|]; [named|].
  left. split; [|do 4 (split; [assumption|])].
  - unfold f_data, write_data. now rewrite !replace1_other.
  - unfold is_space. lia.
Qed.

(** ** Names *)
Lemma ncname_no c l : is_ncname l = true -> name_char c = false -> ~ In c l.
Proof.
  intros H HC HI. unfold is_ncname in H. apply andb_true_iff in H as [H _]. apply name_all in H. rewrite forallb_forall in H.
  apply H in HI. congruence.
Qed.
Lemma rsplit_none l : ~ In 125 l -> rsplit_brace l = None.
Proof.
  induction l as [|c l IH]; [reflexivity|]. intros H. cbn [rsplit_brace]. rewrite IH by (intros X; apply H; now right).
  destruct (c =? 125) eqn:E; [|reflexivity]. exfalso. apply H. left. lia.
Qed.
Lemma rsplit_braced u l : ~ In 125 l -> rsplit_brace (u ++ 125 :: l) = Some (u, l).
Proof.
  intros H. induction u as [|c u IH]; cbn [app rsplit_brace].
  - now rewrite rsplit_none.
  - now rewrite IH.
Qed.
(** The classification of names. *)
Inductive kind (n : pystr) : Prop :=
| Braced u l : n = braced u l -> u <> [] -> is_ncname l = true -> rsplit_brace (u ++ 125 :: l) = Some (u, l) -> kind n
| Literal c r : n = c :: r -> c <> 123 -> is_name n = true -> kind n.
Lemma name_kind n : name_ok n -> kind n.
Proof.
  intros [(u & l & -> & HU & HL)|H].
  - apply (Braced _ u l); try assumption; [reflexivity|]. apply rsplit_braced. now apply (ncname_no 125 l HL).
  - destruct n as [|c r]; [discriminate|]. apply (Literal _ c r); [reflexivity| |exact H]. intros ->. discriminate H.
Qed.

(** ** The dictionaries *)
Definition ns_entry (i : nat) (u p : pystr) : Prop :=
  (get u namespace_map = Some p /\ p <> pys "xml") \/
  (get u namespace_map = None /\ p = pys "ns" ++ str_of_Z (Z.of_nat i)).
Definition ns_ok (G : dict) : Prop :=
  NoDup (map fst G) /\ forall i u p, nth_error G i = Some (u, p) -> ns_entry i u p.
(** The prefix of a namespace, and a name as it is written. *)
Definition pfx (G : dict) (u p : pystr) : Prop := get u G = Some p \/ (p = pys "xml" /\ u = XML_NS).
Definition enc (G : dict) (n w : pystr) : Prop :=
  kind n /\
  (forall u l, n = braced u l -> is_ncname l = true -> exists p, pfx G u p /\ w = p ++ 58 :: l) /\
  (forall c r, n = c :: r -> c <> 123 -> w = n).

Lemma get_in k d v : get k d = Some v -> In (k, v) d.
Proof.
  induction d as [|[k' v'] d IH]; [discriminate|]. cbn. destruct (pystr_eqb k k') eqn:E; [|intros H; right; now apply IH].
  apply pystr_eqb_spec in E as ->. intros [= ->]. now left.
Qed.
Lemma get_none k d : get k d = None <-> ~ In k (map fst d).
Proof.
  induction d as [|[k' v'] d IH]; cbn; [tauto|]. destruct (pystr_eqb k k') eqn:E.
  - apply pystr_eqb_spec in E as ->. split; [discriminate|intros H; exfalso; apply H; now left].
  - rewrite IH. split; [intros H [->|HI]; [|now apply H]|intros H HI; apply H; now right].
    assert (pystr_eqb k k = true) by now apply pystr_eqb_spec. congruence.
Qed.
Lemma get_app k d d' : get k (d ++ d') = match get k d with Some v => Some v | None => get k d' end.
Proof. induction d as [|[k' v'] d IH]; [reflexivity|]. cbn. destruct (pystr_eqb k k'); [reflexivity|exact IH]. Qed.
Lemma get_one k v : get k [(k, v)] = Some v.
Proof. cbn. now replace (pystr_eqb k k) with true by (symmetry; now apply pystr_eqb_spec). Qed.

Lemma map_xml u : get u namespace_map = Some (pys "xml") -> u = XML_NS.
Proof.
  intros H. apply get_in in H. unfold namespace_map in H. cbn [In] in H.
  repeat (destruct H as [H|H]; [first [injection H as <-; reflexivity|discriminate H]|]). destruct H.
Qed.
Lemma map_inj u v p : get u namespace_map = Some p -> get v namespace_map = Some p -> u = v.
Proof.
  intros H1 H2. apply get_in in H1, H2. unfold namespace_map in *. cbn [In] in *.
  repeat (destruct H1 as [H1|H1]; [injection H1 as <- <-;
    repeat (destruct H2 as [H2|H2]; [first [injection H2 as <-; reflexivity|discriminate H2]|]); destruct H2|]). destruct H1.
Qed.
Lemma map_not_ns u s : get u namespace_map <> Some (pys "ns" ++ s).
Proof.
  intros H. apply get_in in H. unfold namespace_map in H. cbn [In] in H.
  repeat (destruct H as [H|H]; [discriminate H|]). destruct H.
Qed.
Lemma map_ncname u p : get u namespace_map = Some p -> is_ncname p = true.
Proof.
  intros H. apply get_in in H. unfold namespace_map in H. cbn [In] in H.
  repeat (destruct H as [H|H]; [injection H as _ <-; reflexivity|]). destruct H.
Qed.

Lemma digit_name c : digit c -> name_char c = true.
Proof. unfold digit, name_char, name_start, in_range. lia. Qed.
Lemma ns_digits i : exists ds, str_of_Z (Z.of_nat i) = ds /\ Forall digit ds /\ numeral ds = Z.of_nat i.
Proof.
  destruct (str_decimal (Z.of_nat i)) as (ds & HE & _ & HD & HN & _). replace (Z.of_nat i <? 0) with false in HE by lia.
  exists ds. cbn in HE. split; [exact HE|]. split; [exact HD|]. rewrite HN. lia.
Qed.
Lemma ns_ncname i : is_ncname (pys "ns" ++ str_of_Z (Z.of_nat i)) = true.
Proof.
  destruct (ns_digits i) as (ds & -> & HD & _). unfold is_ncname. cbn [is_name pys app].
  cbn [forallb existsb]. change (name_start 110) with true.
  assert (forallb name_char ds = true) as ->.
  { rewrite forallb_forall. rewrite Forall_forall in HD. intros c Hc. now apply digit_name, HD. }
  assert (existsb (Z.eqb 58) ds = false) as ->; [|reflexivity].
  apply not_true_iff_false. intros HE. apply existsb_exists in HE as (c & Hc & HE). rewrite Forall_forall in HD. apply HD in Hc.
  unfold digit in Hc. lia.
Qed.
Lemma entry_ncname i u p : ns_entry i u p -> is_ncname p = true.
Proof. intros [[H _]|[_ ->]]; [now apply map_ncname in H|apply ns_ncname]. Qed.
Lemma entry_inj i u j v p : ns_entry i u p -> ns_entry j v p -> i = j \/ u = v.
Proof.
  intros [[H1 _]|[_ H1]] [[H2 _]|[_ H2]].
  - right. eapply map_inj; eassumption.
  - subst p. now apply map_not_ns in H1.
  - subst p. now apply map_not_ns in H2.
  - left. subst p. apply app_inv_head in H2. destruct (ns_digits i) as (a & EA & _ & HA), (ns_digits j) as (b & EB & _ & HB).
    rewrite EA, EB in H2. subst b. lia.
Qed.
Lemma prefix_inj G u v p : ns_ok G -> In (u, p) G -> In (v, p) G -> u = v.
Proof.
  intros [HN HG] H1 H2. apply In_nth_error in H1 as (i & H1), H2 as (j & H2).
  destruct (entry_inj i u j v p (HG _ _ _ H1) (HG _ _ _ H2)) as [->|H]; [|exact H]. congruence.
Qed.
Lemma prefix_nodup G : ns_ok G -> NoDup (map snd G).
Proof.
  intros HG. assert (HI := prefix_inj G). assert (HN := proj1 HG).
  assert (H : forall u v p, In (u, p) G -> In (v, p) G -> u = v) by (intros; eapply HI; eassumption). clear HI HG.
  induction G as [|[u p] G IH]; cbn; constructor.
  - intros HX. apply in_map_iff in HX as ([v p'] & HE & HX). cbn in HE. subst p'. inversion HN as [|x y HO HN']; subst.
    apply HO. apply in_map_iff. exists (v, p). split; [|exact HX]. cbn. symmetry. apply (H u v p); [now left|now right].
  - apply IH; [now inversion HN|]. intros u' v' p' H1 H2. apply (H u' v' p'); now right.
Qed.
Lemma ns_entry_of G u p : ns_ok G -> In (u, p) G -> exists i, ns_entry i u p.
Proof. intros [_ HG] H. apply In_nth_error in H as (i & H). eauto. Qed.
Lemma pfx_ncname G u p : ns_ok G -> pfx G u p -> is_ncname p = true.
Proof.
  intros HG [H|[-> _]]; [|reflexivity]. apply get_in in H. destruct (ns_entry_of G u p HG H) as (i & HE). now apply entry_ncname in HE.
Qed.

Definition grows (G G' : dict) : Prop := forall u p, get u G = Some p -> get u G' = Some p.
Lemma enc_grows G G' n w : grows G G' -> enc G n w -> enc G' n w.
Proof.
  intros HG (HK & H1 & H2). split; [exact HK|]. split; [|exact H2]. intros u l HN HL. destruct (H1 u l HN HL) as (p & HP & HW).
  exists p. split; [|exact HW]. destruct HP as [HP|HP]; [left; now apply HG|now right].
Qed.

Section Dicts.
Variable b : bool.
Definition inv (st : dict * dict) : Prop :=
  ns_ok (snd st) /\ (forall n w, get n (fst st) = Some w -> enc (snd st) n w) /\
  Forall (fun p => Forall (value_char b) (fst p)) (snd st).

Lemma braced_inj u l u' l' : is_ncname l = true -> is_ncname l' = true -> braced u l = braced u' l' -> u = u' /\ l = l'.
Proof.
  intros HL HL' H. injection H as H. assert (H1 := rsplit_braced u l (ncname_no 125 l HL eq_refl)).
  assert (H2 := rsplit_braced u' l' (ncname_no 125 l' HL' eq_refl)). rewrite H in H1. rewrite H1 in H2. injection H2 as -> ->. auto.
Qed.

Lemma ns_ok_snoc G u p : ns_ok G -> get u G = None -> ns_entry (List.length G) u p -> ns_ok (G ++ [(u, p)]).
Proof.
  intros [HN HG] HU HP. split.
  - rewrite map_app. cbn. apply get_none in HU. apply Permutation_NoDup with (fst (u, p) :: map fst G).
    + apply Permutation_cons_append.
    + now constructor.
  - intros i v q H. destruct (Nat.lt_ge_cases i (List.length G)) as [HL|HL].
    + rewrite nth_error_app1 in H by exact HL. now apply HG.
    + rewrite nth_error_app2 in H by exact HL. destruct (i - List.length G)%nat as [|m] eqn:EM.
      * cbn in H. injection H as <- <-. now replace i with (List.length G) by lia.
      * cbn in H. destruct m; discriminate.
Qed.

Lemma add_qname_ok n st : name_ok n -> uri_ok b n -> inv st -> get n (fst st) = None ->
  exists st', add_qname n st = Ok st' /\ inv st' /\ (exists w, get n (fst st') = Some w) /\
    (forall m w, get m (fst st) = Some w -> get m (fst st') = Some w) /\ grows (snd st) (snd st').
Proof.
  intros HN HU (HG & HQ & HV) HF. destruct st as [qn G]. cbn [fst snd] in *.
  assert (HK := name_kind n HN).
  destruct HK as [u l E0 HUE HL HR|c r E0 HC HI].
  - unfold add_qname. rewrite E0. unfold braced. change (123 =? 123) with true. cbn iota. rewrite HR.
    change (123 :: u ++ 125 :: l) with (braced u l). rewrite <- E0.
    set (prefix := match get u G with Some p => p | None => match get u namespace_map with Some p => p | None => pys "ns" ++ str_of_Z (len G) end end).
    set (G' := match get u G with Some _ => G | None => if pystr_eqb prefix (pys "xml") then G else G ++ [(u, prefix)] end).
    assert (HE : (match get u G with
                  | Some p => (p, G)
                  | None =>
                      let prefix := match get u namespace_map with Some p => p | None => pys "ns" ++ str_of_Z (len G) end in
                      (prefix, if pystr_eqb prefix (pys "xml") then G else G ++ [(u, prefix)])
                  end) = (prefix, G')).
    { unfold G', prefix. now destruct (get u G). }
    cbv zeta in HE |- *. rewrite HE.
    assert (HGR : grows G G').
    { unfold G'. intros v q Hv. destruct (get u G); [exact Hv|]. destruct (pystr_eqb prefix (pys "xml")); [exact Hv|]. now rewrite get_app, Hv. }
    assert (HG' : ns_ok G').
    { unfold G'. destruct (get u G) eqn:EG; [exact HG|]. destruct (pystr_eqb prefix (pys "xml")) eqn:EX; [exact HG|].
      apply ns_ok_snoc; try assumption. unfold prefix, ns_entry. destruct (get u namespace_map) as [p|] eqn:EM.
      - left. split; [reflexivity|]. unfold prefix in EX. intros ->. cbv in EX. discriminate.
      - right. split; [reflexivity|]. reflexivity. }
    assert (HP : pfx G' u prefix).
    { unfold pfx, G'. destruct (get u G) as [p|] eqn:EG; [left; rewrite EG; reflexivity|].
      destruct (pystr_eqb prefix (pys "xml")) eqn:EX.
      - right. apply pystr_eqb_spec in EX. split; [exact EX|]. unfold prefix in EX. destruct (get u namespace_map) as [p|] eqn:EM.
        + subst p. now apply map_xml.
        + discriminate EX.
      - left. rewrite get_app, EG. apply get_one. }
    assert (HPN := pfx_ncname G' u prefix HG' HP).
    assert (HNM : (match prefix with [] => l | _ => prefix ++ 58 :: l end) = prefix ++ 58 :: l) by (destruct prefix; [discriminate|reflexivity]).
    rewrite HNM. eexists. split; [reflexivity|]. cbn [fst snd]. split; [|split; [|split]].
    + split; [exact HG'|]. split.
      * intros m w Hm. cbn [fst snd] in Hm |- *. rewrite get_app in Hm. destruct (get m qn) as [w'|] eqn:EM.
        -- injection Hm as <-. apply (enc_grows G); [exact HGR|now apply HQ].
        -- cbn in Hm. destruct (pystr_eqb m n) eqn:EMN; [|discriminate]. injection Hm as <-. apply pystr_eqb_spec in EMN as ->.
           split; [now apply name_kind|]. split.
           ++ intros u' l' E1 HL'. rewrite E0 in E1. destruct (braced_inj u l u' l' HL HL' E1) as [-> ->]. eauto.
           ++ intros c' r' E1 HC. rewrite E0 in E1. injection E1 as <- _. lia.
      * unfold G'. destruct (get u G); [exact HV|]. destruct (pystr_eqb prefix (pys "xml")); [exact HV|].
        apply Forall_app. split; [exact HV|]. repeat constructor. cbn. now apply (HU u l).
    + exists (prefix ++ 58 :: l). rewrite get_app, HF. apply get_one.
    + intros m w Hm. now rewrite get_app, Hm.
    + exact HGR.
  - assert (HA : add_qname n (qn, G) = Ok (qn ++ [(n, n)], G)).
    { unfold add_qname. rewrite E0. replace (c =? 123) with false by lia. reflexivity. }
    eexists. split; [exact HA|]. cbn [fst snd]. split; [|split; [|split]].
    + split; [exact HG|]. split; [|exact HV]. intros m w Hm. cbn [fst snd] in Hm |- *. rewrite get_app in Hm. destruct (get m qn) as [w'|] eqn:EM.
      * injection Hm as <-. now apply HQ.
      * cbn in Hm. destruct (pystr_eqb m n) eqn:EMN; [|discriminate]. injection Hm as <-. apply pystr_eqb_spec in EMN as ->.
        split; [now apply name_kind|]. split; [|reflexivity]. intros u l E1 _. rewrite E0 in E1. injection E1 as -> _. lia.
    + exists n. rewrite get_app, HF. apply get_one.
    + intros m w Hm. now rewrite get_app, Hm.
    + intros u p H. exact H.
Qed.
Lemma namespaces_ok l : Forall (fun n => name_ok n /\ uri_ok b n) l -> forall st, inv st ->
  exists st', namespaces_of l st = Ok st' /\ inv st' /\ (forall n, In n l -> exists w, get n (fst st') = Some w) /\
    (forall m w, get m (fst st) = Some w -> get m (fst st') = Some w).
Proof.
  induction 1 as [|n l [HN HU] HL IH]; intros st HI.
  - exists st. cbn [namespaces_of]. split; [reflexivity|]. split; [exact HI|]. split; [intros m []|auto].
  - cbn [namespaces_of]. destruct (get n (fst st)) as [w|] eqn:EG.
    + destruct (IH st HI) as (st' & H1 & H2 & H3 & H4). exists st'. split; [exact H1|]. split; [exact H2|]. split; [|exact H4].
      intros m [<-|Hm]; [|now apply H3]. exists w. now apply H4.
    + destruct (add_qname_ok n st HN HU HI EG) as (s1 & E1 & I1 & (w & Hw) & M1 & _). rewrite E1. cbn [rbind].
      destruct (IH s1 I1) as (st' & H1 & H2 & H3 & H4). exists st'. split; [exact H1|]. split; [exact H2|]. split.
      * intros m [<-|Hm]; [|now apply H3]. exists w. now apply H4.
      * intros m w' Hm. now apply H4, M1.
Qed.
End Dicts.

(** ** Qualified names *)
Lemma nc_colon p : is_ncname p = true -> forallb (fun c => negb (c =? 58)) p = true.
Proof.
  intros H. unfold is_ncname in H. apply andb_true_iff in H as [_ H]. rewrite forallb_forall. intros c Hc.
  destruct (c =? 58) eqn:E; [|reflexivity]. exfalso. apply negb_true_iff, not_true_iff_false in H. apply H. apply existsb_exists.
  exists c. split; [exact Hc|]. lia.
Qed.
Lemma prefix_of_colon p l : is_ncname p = true -> prefix_of (p ++ 58 :: l) = Some (p, l).
Proof. intros H. unfold prefix_of. rewrite span_all; [reflexivity|now apply nc_colon|reflexivity]. Qed.
Lemma prefix_of_hd c r p l : prefix_of (c :: r) = Some (p, l) -> c <> 58 -> exists p', p = c :: p'.
Proof.
  unfold prefix_of. cbn [span]. intros H HC. replace (c =? 58) with false in H by lia. cbn [negb] in H.
  destruct (span (fun c0 => negb (c0 =? 58)) r) as [p' [|x r']]; [discriminate|]. injection H as <- <-. eauto.
Qed.
Lemma name_nc p l : is_ncname p = true -> is_ncname l = true -> is_name (p ++ 58 :: l) = true.
Proof.
  intros HP HL. unfold is_ncname in *. apply andb_true_iff in HP as [HP _], HL as [HL _].
  destruct p as [|c p]; [discriminate|]. cbn [app is_name] in *. apply andb_true_iff in HP as [H1 H2]. rewrite H1. cbn [andb].
  change (c :: p ++ 58 :: l) with ((c :: p) ++ [58] ++ l). rewrite !forallb_app, H2, (name_all l HL). reflexivity.
Qed.
Lemma decl_pfx G u p l w : ns_ok G -> pfx G u p -> decl (p ++ 58 :: l, w) = None.
Proof.
  intros HG HP. assert (HN := pfx_ncname G u p HG HP). unfold decl.
  replace (pystr_eqb (p ++ 58 :: l) (pys "xmlns")) with false.
  - rewrite prefix_of_colon by exact HN. replace (pystr_eqb p (pys "xmlns")) with false; [reflexivity|]. symmetry.
    apply not_true_iff_false. intros HE. apply pystr_eqb_spec in HE as ->. destruct HP as [HP|[HP _]]; [|discriminate HP].
    apply get_in in HP. destruct (ns_entry_of G u _ HG HP) as (i & [[HE _]|[_ HE]]).
    + apply get_in in HE. unfold namespace_map in HE. cbn [In] in HE. repeat (destruct HE as [HE|HE]; [discriminate HE|]). destruct HE.
    + discriminate HE.
  - symmetry. apply not_true_iff_false. intros HE. apply pystr_eqb_spec in HE.
    assert (HI : In 58 (pys "xmlns")) by (rewrite <- HE; apply in_or_app; right; now left). cbn in HI.
    repeat (destruct HI as [HI|HI]; [discriminate HI|]). destruct HI.
Qed.
Lemma decl_braced u l w : decl (braced u l, w) = None.
Proof.
  unfold decl. replace (pystr_eqb (braced u l) (pys "xmlns")) with false by reflexivity.
  destruct (prefix_of (braced u l)) as [[p r]|] eqn:HP; [|reflexivity]. unfold braced in HP. apply prefix_of_hd in HP as (p' & ->); [|lia]. reflexivity.
Qed.
Lemma decl_xmlns p u : decl (pys "xmlns" ++ 58 :: p, u) = Some (p, u).
Proof. unfold decl. rewrite prefix_of_colon by reflexivity. reflexivity. Qed.

(** ** Sorting *)
Lemma insert_perm x l : Permutation (insert x l) (x :: l).
Proof.
  induction l as [|y l IH]; [reflexivity|]. cbn. destruct (str_leb (snd x) (snd y)); [reflexivity|].
  rewrite IH. apply perm_swap.
Qed.
Lemma sorted_perm l : Permutation (sorted l) l.
Proof. induction l as [|x l IH]; [reflexivity|]. cbn. rewrite insert_perm. now constructor. Qed.

(** ** Line ends *)
Lemma eol_other c r : c <> 13 -> eol (c :: r) = c :: eol r.
Proof. intros H. cbn [eol]. destruct (c =? 13) eqn:E; [lia|reflexivity]. Qed.
Lemma eol_cr r : eol (13 :: r) = match eat [10] r with Some _ => eol r | None => 10 :: eol r end.
Proof. reflexivity. Qed.
Lemma eol_id s : ~ In 13 s -> eol s = s.
Proof. induction s as [|c s IH]; intros H; [reflexivity|]. rewrite eol_other by (intros ->; apply H; now left). f_equal. apply IH. intros HI. apply H. now right. Qed.
Lemma eol_pre a b : ~ In 13 a -> eol (a ++ b) = a ++ eol b.
Proof.
  induction a as [|c a IH]; intros H; [reflexivity|]. cbn [app]. rewrite eol_other by (intros ->; apply H; now left). f_equal. apply IH. intros HI. apply H. now right.
Qed.
Definition joins (b : pystr) : Prop := match b with c :: _ => c <> 10 | [] => True end.
Lemma eat_lf c r : eat [10] (c :: r) = if 10 =? c then Some r else None.
Proof. reflexivity. Qed.
Lemma eol_app a b : joins b -> eol (a ++ b) = eol a ++ eol b.
Proof.
  intros HJ. induction a as [|c a IH]; [reflexivity|]. cbn [app]. destruct (Z.eq_dec c 13) as [->|HC]; [|now rewrite !eol_other, IH].
  rewrite !eol_cr. destruct a as [|d a].
  - cbn [app]. destruct b as [|d b]; [reflexivity|]. cbn in HJ. rewrite eat_lf. destruct (10 =? d) eqn:E; [lia|reflexivity].
  - cbn [app] in *. rewrite !eat_lf. destruct (10 =? d); rewrite IH; reflexivity.
Qed.
Lemma eol_cons c s : exists d r, eol (c :: s) = d :: r.
Proof.
  destruct (Z.eq_dec c 13) as [->|HC]; [|rewrite eol_other by exact HC; eauto]. rewrite eol_cr.
  destruct s as [|d s]; [cbn; eauto|]. rewrite eat_lf. destruct (10 =? d) eqn:E; [|eauto]. assert (d = 10) as -> by lia. rewrite eol_other by lia. eauto.
Qed.
Lemma eol_lf s c : In c (eol s) -> c <> 13 /\ (In c s \/ c = 10).
Proof.
  induction s as [|d s IH]; [intros []|]. destruct (Z.eq_dec d 13) as [->|HD].
  - rewrite eol_cr. destruct (eat [10] s).
    + intros H. apply IH in H. cbn. tauto.
    + intros [<-|H]; [split; [lia|now right]|]. apply IH in H. cbn. tauto.
  - rewrite eol_other by exact HD. intros [<-|H]; [cbn; tauto|]. apply IH in H. cbn. tauto.
Qed.
Lemma eol_chars s : forallb is_char (eol s) = true -> forallb is_char s = true.
Proof.
  induction s as [|c s IH]; [reflexivity|]. cbn [forallb]. destruct (Z.eq_dec c 13) as [->|HC].
  - rewrite eol_cr. destruct (eat [10] s); cbn [forallb]; [exact IH|]. change (is_char 10) with true. exact IH.
  - rewrite eol_other by exact HC. cbn [forallb]. rewrite !andb_true_iff. tauto.
Qed.
Lemma f_cdata_lf c r : eat [10] (f_cdata c ++ r) = if 10 =? c then Some r else None.
Proof.
  unfold f_cdata, escape_cdata. destruct (Z.eq_dec c 38) as [->|]; [reflexivity|]. destruct (Z.eq_dec c 60) as [->|]; [reflexivity|].
  destruct (Z.eq_dec c 62) as [->|]; [reflexivity|]. rewrite !replace1_other by assumption. reflexivity.
Qed.
Lemma f_cdata_cr c : c <> 13 -> ~ In 13 (f_cdata c).
Proof.
  intros H. unfold f_cdata, escape_cdata. destruct (Z.eq_dec c 38) as [->|]; [cbn; lia|]. destruct (Z.eq_dec c 60) as [->|]; [cbn; lia|].
  destruct (Z.eq_dec c 62) as [->|]; [cbn; lia|]. rewrite !replace1_other by assumption. cbn. lia.
Qed.
Lemma eol_cdata s : eol (flat_map f_cdata s) = flat_map f_cdata (eol s).
Proof.
  induction s as [|c s IH]; [reflexivity|]. cbn [flat_map]. destruct (Z.eq_dec c 13) as [->|HC].
  - change (f_cdata 13 ++ flat_map f_cdata s) with (13 :: flat_map f_cdata s). rewrite !eol_cr. destruct s as [|d s]; [reflexivity|].
    cbn [flat_map] in IH |- *. rewrite f_cdata_lf, eat_lf. destruct (10 =? d); [exact IH|]. cbn [flat_map]. rewrite IH. reflexivity.
  - rewrite eol_other, eol_pre by (try apply f_cdata_cr; assumption). cbn [flat_map]. now rewrite IH.
Qed.

(** ** The tree that is written *)
Section Raw.
Variable q : pystr -> pystr.
Definition nsattr (p : pystr * pystr) : pystr * pystr := (pys "xmlns" ++ 58 :: snd p, fst p).
Definition keys (a : list (string * pystr)) : list (pystr * pystr) := map (fun p => (pys (fst p), snd p)) a.
Definition qkeys (a : list (pystr * pystr)) : list (pystr * pystr) := map (fun p => (q (fst p), snd p)) a.
Fixpoint raw (ns : dict) (e : elt) : dnode :=
  let 'Elt t a v k := e in
  DElem (q (pys t)) (map nsattr (sorted ns) ++ qkeys (keys a)) (text_nodes v ++ map (raw []) k).

Notation out := (out_ f_cdata f_attrib (pys " />")).
Lemma ns_decl_out p : snd p <> [] -> ns_decl p = att_out f_attrib (nsattr p).
Proof.
  destruct p as [u p]. cbn [snd]. intros H. unfold ns_decl, att_out, nsattr. cbn [fst snd]. destruct p as [|c p]; [easy|].
  rewrite attrib_each. cbn [pys app]. rewrite <- ?app_assoc. reflexivity.
Qed.
Lemma serialize_raw e : every (fun _ v => text_ok v) e -> forall ns : dict, Forall (fun p : pystr * pystr => snd p <> []) ns -> ~ In 13 (out (raw ns e)) ->
  exists S, serialize_xml q ns e = Ok (60 :: S ++ [62]) /\ eol (60 :: S ++ [62]) = out (raw ns e).
Proof.
  induction e as [t a v k IH] using elt_ind'. intros HE ns HS H13. inversion HE as [t' a' v' k' HV HK]; subst.
  cbn [serialize_xml].
  set (KK := (fix kids (l : list elt) : res pystr :=
              match l with
              | [] => Ok []
              | x :: l' => rbind (serialize_xml q [] x) (fun s => rbind (kids l') (fun r => Ok (s ++ r)))
              end)).
  assert (HA : List.concat (map ns_decl (sorted ns)) ++ List.concat (map (attr_out q) a) =
               List.concat (map (att_out f_attrib) (map nsattr (sorted ns) ++ qkeys (keys a)))).
  { rewrite map_app, concat_app. f_equal.
    - rewrite map_map. f_equal. apply map_ext_in. intros p Hp. apply ns_decl_out. rewrite Forall_forall in HS. apply HS.
      now apply (Permutation_in p (sorted_perm ns)).
    - unfold qkeys, keys. rewrite !map_map. f_equal. apply map_ext. intros [k' w]. unfold attr_out, att_out. cbn [fst snd]. now rewrite attrib_each. }
  set (T := q (pys t)) in *. set (ATT := List.concat (map ns_decl (sorted ns)) ++ List.concat (map (attr_out q) a)) in *.
  assert (HT : ~ In 13 T /\ ~ In 13 ATT).
  { rewrite HA. split; intros HI; apply H13; cbn [raw out_]; apply in_or_app; right; apply in_or_app; [now left|right; apply in_or_app; now left]. }
  destruct HT as [HT1 HT2].
  assert (HKO : forall x, In x k -> ~ In 13 (out (raw [] x))).
  { intros x Hx HI. apply H13. cbn [raw out_]. apply in_or_app; right; apply in_or_app; right; apply in_or_app; right.
    destruct (text_nodes v ++ map (raw []) k) as [|y l] eqn:EL.
    - apply app_eq_nil in EL as [_ EL]. destruct k; [destruct Hx|discriminate].
    - apply in_or_app. right. apply in_or_app. left. rewrite <- EL. apply in_concat. exists (out (raw [] x)). split; [|exact HI]. apply in_map, in_or_app. right. now apply in_map. }
  assert (HKK : exists ss, KK k = Ok (List.concat (map (fun s => 60 :: s ++ [62]) ss)) /\
                  eol (List.concat (map (fun s => 60 :: s ++ [62]) ss)) = List.concat (map out (map (raw []) k))).
  { clear -IH HK HKO. induction IH as [|x k HX IH IK]; [exists []; split; reflexivity|]. inversion HK as [|? ? HV HK']; subst.
    destruct (HX HV ([] : dict) (Forall_nil _) (HKO x (or_introl eq_refl))) as (S & H1 & H2).
    destruct IK as (ss & I1 & I2); [exact HK'|intros y Hy; apply HKO; now right|].
    exists (S :: ss). cbn [map List.concat]. unfold KK at 1. fold KK. rewrite H1. cbn [rbind]. fold KK. rewrite I1. split; [reflexivity|].
    rewrite eol_app, H2, I2; [reflexivity|]. destruct ss; [exact I|discriminate]. }
  destruct HKK as (ss & K1 & K2). rewrite K1. set (IN := List.concat (map (fun s => 60 :: s ++ [62]) ss)) in *.
  assert (HIJ : joins IN) by (destruct ss; [exact I|discriminate]).
  assert (HST : eol (60 :: T ++ ATT ++ [62]) = 60 :: T ++ ATT ++ [62]).
  { apply eol_id. intros [HI|HI]; [discriminate|]. apply in_app_or in HI as [HI|HI]; [contradiction|]. apply in_app_or in HI as [HI|[HI|[]]]; [contradiction|discriminate]. }
  assert (HEN : eol ([60; 47] ++ T ++ [62]) = [60; 47] ++ T ++ [62]).
  { cbn [app]. apply eol_id. intros [HI|[HI|HI]]; try discriminate. apply in_app_or in HI as [HI|[HI|[]]]; [contradiction|discriminate]. }
  assert (HEM : out (DElem T (map nsattr (sorted ns) ++ qkeys (keys a)) []) = 60 :: (T ++ ATT ++ pys " /") ++ [62]).
  { cbn [out_]. rewrite <- HA. cbn [app]. rewrite <- !app_assoc. reflexivity. }
  assert (HEM' : eol (60 :: (T ++ ATT ++ pys " /") ++ [62]) = 60 :: (T ++ ATT ++ pys " /") ++ [62]).
  { apply eol_id. intros [HI|HI]; [discriminate|]. rewrite <- !app_assoc in HI. apply in_app_or in HI as [HI|HI]; [contradiction|].
    apply in_app_or in HI as [HI|HI]; [contradiction|]. cbn in HI. lia. }
  assert (HFULL : forall txt, exists S, [60] ++ T ++ ATT ++ [62] ++ txt ++ IN ++ [60; 47] ++ T ++ [62] = 60 :: S ++ [62] /\
     eol (60 :: S ++ [62]) = (60 :: T ++ ATT ++ [62]) ++ eol txt ++ eol IN ++ [60; 47] ++ T ++ [62]).
  { intros txt. exists (T ++ ATT ++ [62] ++ txt ++ IN ++ [60; 47] ++ T). split; [cbn [app]; rewrite <- ?app_assoc; cbn [app]; rewrite <- ?app_assoc; reflexivity|].
    replace (60 :: (T ++ ATT ++ [62] ++ txt ++ IN ++ [60; 47] ++ T) ++ [62])
      with ((60 :: T ++ ATT ++ [62]) ++ txt ++ IN ++ [60; 47] ++ T ++ [62]) by (cbn [app]; rewrite <- ?app_assoc; cbn [app]; rewrite <- ?app_assoc; reflexivity).
    rewrite eol_pre by (intros [HI|HI]; [discriminate|]; apply in_app_or in HI as [HI|HI]; [contradiction|]; apply in_app_or in HI as [HI|[HI|[]]]; [contradiction|discriminate]).
    f_equal. rewrite eol_app by (destruct ss; [discriminate|discriminate]). f_equal. rewrite eol_app by discriminate. f_equal. exact HEN. }
  assert (HNK : forall txt tn, tn ++ map (raw []) k <> [] -> eol txt = List.concat (map out tn) -> exists S,
     [60] ++ T ++ ATT ++ [62] ++ txt ++ IN ++ [60; 47] ++ T ++ [62] = 60 :: S ++ [62] /\
     eol (60 :: S ++ [62]) = out (DElem T (map nsattr (sorted ns) ++ qkeys (keys a)) (tn ++ map (raw []) k))).
  { intros txt tn HN HTX. destruct (HFULL txt) as (S & F1 & F2). exists S. split; [exact F1|]. rewrite F2, HTX, K2. cbn [out_]. rewrite <- HA.
    destruct (tn ++ map (raw []) k) as [|y l] eqn:EL; [contradiction|]. rewrite <- EL, map_app, concat_app.
    cbn [app]. rewrite <- ?app_assoc. cbn [app]. rewrite <- ?app_assoc. reflexivity. }
  destruct HV as [->|(s & -> & HTX)].
  - cbn [true_text orb raw]. fold T. cbn [text_nodes app]. destruct k as [|x k].
    + cbn [negb map]. exists (T ++ ATT ++ pys " /"). split; [|now rewrite HEM', <- HEM]. f_equal. cbn [app]. rewrite <- !app_assoc. reflexivity.
    + cbn [negb rbind]. destruct (HNK [] []) as (S & N1 & N2); [discriminate|reflexivity|]. exists S. split; [|exact N2].
      rewrite <- N1. f_equal. cbn [app]. rewrite <- ?app_assoc. reflexivity.
  - destruct s as [|c s].
    + cbn [true_text orb raw]. fold T. cbn [text_nodes app]. destruct k as [|x k].
      * cbn [negb map]. exists (T ++ ATT ++ pys " /"). split; [|now rewrite HEM', <- HEM]. f_equal. cbn [app]. rewrite <- !app_assoc. reflexivity.
      * cbn [negb rbind]. destruct (HNK [] []) as (S & N1 & N2); [discriminate|reflexivity|]. exists S. split; [|exact N2].
        rewrite <- N1. f_equal. cbn [app]. rewrite <- ?app_assoc. reflexivity.
    + cbn [true_text orb raw rbind]. fold T. cbn [text_nodes]. destruct (HNK (escape_cdata (c :: s)) [DText (eol (c :: s))]) as (S & N1 & N2); [discriminate| |].
      { cbn [map List.concat out_]. now rewrite app_nil_r, cdata_each, eol_cdata. }
      exists S. split; [|exact N2]. rewrite <- N1. f_equal. cbn [app]. rewrite <- ?app_assoc. reflexivity.
Qed.
Lemma norm_raw e : forall ns, norm (raw ns e) = raw ns e.
Proof.
  induction e as [t a v k IH] using elt_ind'. intros ns. cbn [raw norm]. f_equal.
  assert (HK : glue (map norm (map (raw []) k)) = map (raw []) k).
  { induction IH as [|x k HX HF IK]; [reflexivity|]. cbn [map]. rewrite HX. destruct x as [t' a' v' k']. cbn [raw glue] in *. now rewrite IK. }
  rewrite map_app. destruct v as [| | | | |[|c s]]; try exact HK. cbn [text_nodes]. destruct (eol_cons c s) as (d & r & ->). cbn [map norm app glue]. rewrite HK.
  destruct k as [|[t' a' v' k'] k]; reflexivity.
Qed.
End Raw.

(** ** Reading it back *)
Lemma pys_inj s t : pys s = pys t -> s = t.
Proof.
  revert t. induction s as [|c s IH]; intros [|d t]; cbn; try discriminate; [reflexivity|]. intros [= H1 H2]. f_equal; [|now apply IH].
  apply N2Z.inj in H1. rewrite <- (Ascii.ascii_N_embedding c), <- (Ascii.ascii_N_embedding d). now f_equal.
Qed.
Lemma lookup_app p l l' : lookup p (l ++ l') = match lookup p l with Some u => Some u | None => lookup p l' end.
Proof. induction l as [|[k u] l IH]; [reflexivity|]. cbn. now destruct (pystr_eqb p k). Qed.
Lemma lookup_in p l u : lookup p l = Some u -> In (p, u) l.
Proof.
  induction l as [|[k v] l IH]; [discriminate|]. cbn. destruct (pystr_eqb p k) eqn:E; [|right; auto].
  apply pystr_eqb_spec in E as ->. intros [= ->]. now left.
Qed.
Lemma lookup_nodup p u l : NoDup (map fst l) -> In (p, u) l -> lookup p l = Some u.
Proof.
  induction l as [|[k v] l IH]; cbn; [easy|]. intros HN [H|H]; inversion HN as [|x y HO HN']; subst.
  - injection H as -> ->. now replace (pystr_eqb p p) with true by (symmetry; now apply pystr_eqb_spec).
  - destruct (pystr_eqb p k) eqn:E; [|now apply IH]. apply pystr_eqb_spec in E as ->. exfalso. apply HO. apply in_map_iff. now exists (k, u).
Qed.
Definition isdecl (p : pystr * pystr) : bool := match decl p with Some _ => true | None => false end.
Lemma decl_key k u u' : isdecl (k, u) = isdecl (k, u').
Proof. unfold isdecl, decl. destruct (pystr_eqb k (pys "xmlns")); [reflexivity|]. destruct (prefix_of k) as [[p l]|]; [|reflexivity]. now destruct (pystr_eqb p (pys "xmlns")). Qed.
Lemma decls_filter a : decls a = decls (filter isdecl a).
Proof.
  unfold decls. induction a as [|p a IH]; [reflexivity|]. cbn [flat_map filter]. unfold isdecl at 1. destruct (decl p) eqn:E.
  - cbn [flat_map]. rewrite E. cbn. now rewrite IH.
  - exact IH.
Qed.
Lemma others_filter a : others a = filter (fun p => negb (isdecl p)) a.
Proof. unfold others. apply filter_ext. intros p. unfold isdecl. now destruct (decl p). Qed.
Lemma nodup_parts (a : list (pystr * pystr)) : NoDup (map fst (filter isdecl a)) -> NoDup (map fst (others a)) -> NoDup (map fst a).
Proof.
  rewrite others_filter. induction a as [|[k u] a IH]; [constructor|]. cbn [filter]. destruct (isdecl (k, u)) eqn:E; cbn [negb map fst].
  - intros H1 H2. inversion H1 as [|x y HO H1']; subst. constructor; [|now apply IH].
    intros HI. apply in_map_iff in HI as ([k' u'] & HE & HI). cbn in HE. subst k'. apply HO. apply in_map_iff. exists (k, u'). split; [reflexivity|].
    apply filter_In. split; [exact HI|]. now rewrite (decl_key k u' u).
  - intros H1 H2. inversion H2 as [|x y HO H2']; subst. constructor; [|now apply IH].
    intros HI. apply in_map_iff in HI as ([k' u'] & HE & HI). cbn in HE. subst k'. apply HO. apply in_map_iff. exists (k, u'). split; [reflexivity|].
    apply filter_In. split; [exact HI|]. now rewrite (decl_key k u' u), E.
Qed.
Lemma all_some_spec {A B} (f : A -> option B) l r : all_some (map f l) = Some r <-> Forall2 (fun x y => f x = Some y) l r.
Proof.
  revert r. induction l as [|x l IH]; intros r; cbn.
  - split; [intros [= <-]; constructor|intros H; inversion H; reflexivity].
  - destruct (f x) as [y|] eqn:E.
    + destruct (all_some (map f l)) as [r'|] eqn:E'.
      * split; [intros [= <-]; constructor; [exact E|now apply IH]|]. intros H. inversion H as [|? z ? r'' H1 H2]; subst.
        apply IH in H2. rewrite E in H1. injection H1 as ->. injection H2 as ->. reflexivity.
      * split; [discriminate|]. intros H. inversion H as [|? z ? r'' H1 H2]; subst. apply IH in H2. discriminate.
    + split; [discriminate|]. intros H. inversion H; subst. congruence.
Qed.
Lemma distinct_nodup l : distinct l = true <-> NoDup l.
Proof.
  induction l as [|x l IH]; cbn; [split; [constructor|reflexivity]|]. rewrite andb_true_iff, IH, negb_true_iff, <- not_true_iff_false, existsb_exists.
  split.
  - intros [H1 H2]. constructor; [|exact H2]. intros HI. apply H1. exists x. split; [exact HI|]. now apply pystr_eqb_spec.
  - intros H. inversion H as [|y z HO HN]; subst. split; [|exact HN]. intros (y & HI & HE). apply pystr_eqb_spec in HE as ->. contradiction.
Qed.

Section Read.
Variable G : dict.
Hypothesis HG : ns_ok G.
Variable q : pystr -> pystr.

Definition swap (p : pystr * pystr) : pystr * pystr := (snd p, fst p).
Lemma decls_ns l : decls (map nsattr l) = map swap l.
Proof. unfold decls. induction l as [|[u p] l IH]; [reflexivity|]. cbn [map flat_map]. unfold nsattr at 1. cbn [fst snd]. rewrite decl_xmlns. cbn. now rewrite IH. Qed.
Lemma others_ns l : others (map nsattr l) = [].
Proof. rewrite others_filter. induction l as [|[u p] l IH]; [reflexivity|]. cbn [map filter]. unfold isdecl, nsattr at 1. cbn [fst snd]. rewrite decl_xmlns. exact IH. Qed.

(** Scopes: [sc] is that of the reader, [env] that of the element. *)
Definition scopes (sc env : list (pystr * pystr)) : Prop :=
  (forall u p, In (u, p) G -> lookup p sc = Some u) /\
  (forall p u, lookup p env = Some u -> lookup p sc = Some u) /\
  lookup [] sc = lookup [] env.
Lemma scopes_cons D sc env : Forall decl_ok D -> scopes sc env -> scopes (D ++ sc) (D ++ env).
Proof.
  intros HD (H1 & H2 & H3). split; [|split].
  - intros u p HI. rewrite lookup_app. destruct (lookup p D) as [v|] eqn:E; [|now apply H1]. f_equal.
    apply lookup_in in E. rewrite Forall_forall in HD. apply HD in E as [E1 E2]. cbn [fst snd] in *.
    destruct (ns_entry_of G u p HG HI) as (i & [[HM HX]|[HM HX]]).
    + apply E1. clear - HM. apply get_in in HM. unfold namespace_map in HM. cbn [In] in HM.
      repeat (destruct HM as [HM|HM]; [injection HM as <- <-; reflexivity|]). destruct HM.
    + now apply E2 in HX.
  - intros p u. rewrite !lookup_app. destruct (lookup p D); [auto|]. apply H2.
  - rewrite !lookup_app. now destruct (lookup [] D).
Qed.
Lemma resolve_ok sc env el n m : scopes sc env -> enc G n (q n) -> ename env el n = Some m -> resolve sc el (q n) = Some m.
Proof.
  intros (H1 & H2 & H3) (HK & HB & HL) HE. destruct HK as [u l E0 HU HN HR|c r E0 HC HI].
  - destruct (HB u l E0 HN) as (p & HP & ->). assert (HPN := pfx_ncname G u p HG HP).
    rewrite E0 in HE. cbn in HE. injection HE as <-. unfold resolve. rewrite prefix_of_colon, HPN, HN by exact HPN. cbn [andb].
    assert ((if pystr_eqb p (pys "xml") then Some XML_NS else lookup p sc) = Some u) as ->.
    { destruct (pystr_eqb p (pys "xml")) eqn:EX.
      - apply pystr_eqb_spec in EX as ->. f_equal. destruct HP as [HP|[_ ->]]; [|reflexivity]. apply get_in in HP.
        destruct (ns_entry_of G u _ HG HP) as (i & [[_ HX]|[_ HX]]); [easy|discriminate HX].
      - destruct HP as [HP|[-> _]]; [apply H1; now apply get_in|discriminate EX]. }
    destruct u; [easy|reflexivity].
  - rewrite (HL c r E0 HC). rewrite E0 in HE |- *. unfold ename in HE. replace (c =? 123) with false in HE by lia.
    revert HE. unfold resolve. destruct (prefix_of (c :: r)) as [[p l]|].
    + destruct (is_ncname p && is_ncname l); [|discriminate]. destruct (pystr_eqb p (pys "xml")); [auto|].
      destruct (lookup p env) as [u|] eqn:EU; [|discriminate]. rewrite (H2 _ _ EU). auto.
    + destruct el; [|auto]. now rewrite H3.
Qed.
Lemma enc_name n : enc G n (q n) -> is_name (q n) = true.
Proof.
  intros (HK & HB & HL). destruct HK as [u l E0 HU HN HR|c r E0 HC HI].
  - destruct (HB u l E0 HN) as (p & HP & ->). apply name_nc; [|exact HN]. now apply (pfx_ncname G u p HG).
  - now rewrite (HL c r E0 HC).
Qed.
Lemma enc_decl n w : enc G n (q n) -> isdecl (q n, w) = isdecl (n, w) /\ (isdecl (n, w) = true -> q n = n).
Proof.
  intros (HK & HB & HL). destruct HK as [u l E0 HU HN HR|c r E0 HC HI].
  - destruct (HB u l E0 HN) as (p & HP & HQ).
    assert (H1 : decl (q n, w) = None) by (rewrite HQ; exact (decl_pfx G u p l w HG HP)).
    assert (H2 : decl (n, w) = None) by (rewrite E0; exact (decl_braced u l w)).
    unfold isdecl. rewrite H1, H2. now split.
  - rewrite (HL c r E0 HC). now split.
Qed.
Lemma enc_split a : Forall (fun p => enc G (fst p) (q (fst p))) a ->
  filter isdecl (qkeys q a) = filter isdecl a /\ others (qkeys q a) = qkeys q (others a).
Proof.
  rewrite !others_filter. induction 1 as [|[n w] a HE HA [I1 I2]]; [now split|]. cbn [fst] in HE. destruct (enc_decl n w HE) as [H1 H2].
  cbn [qkeys map filter fst snd]. rewrite H1. fold (qkeys q a). destruct (isdecl (n, w)) eqn:E.
  - rewrite (H2 eq_refl), I1. split; [reflexivity|]. exact I2.
  - split; [exact I1|]. cbn [negb qkeys map fst snd]. fold (qkeys q (filter (fun p => negb (isdecl p)) a)). now rewrite <- I2.
Qed.
Lemma nodup_filter {A B} (f : A -> B) p l : NoDup (map f l) -> NoDup (map f (filter p l)).
Proof.
  induction l as [|x l IH]; cbn; [auto|]. intros H. inversion H as [|y z HO HN]; subst. destruct (p x); [|now apply IH].
  cbn. constructor; [|now apply IH]. intros HI. apply HO. apply in_map_iff in HI as (y & HE & HI). apply filter_In in HI as [HI _].
  apply in_map_iff. eauto.
Qed.

Variable b : bool.
Hypothesis HGV : Forall (fun p => Forall (value_char b) (fst p)) G.
Variables ft fa : Z -> pystr.
Hypothesis ft_ok : forall c, text_char c -> esc_text ft c.
Hypothesis fa_ok : forall c, value_char b c -> esc_value fa c.
Notation good_ := (good ft fa).
Lemma raw_read e : writable b e -> Forall (fun n => enc G n (q n)) (names e) -> forall ns sc env y,
  ns = [] \/ (ns = G /\ plain_root e) -> scopes (map swap (sorted ns) ++ sc) env -> means env e = Some y ->
  good_ (raw q ns e) /\ expand sc (raw q ns e) = Some y.
Proof.
  induction e as [t a v k IH] using elt_ind'. intros HW HN ns sc env y HNS HS HM.
  inversion HW as [t' a' v' k' W1 W2 W3 W4 W5 W6 W7]; subst. cbn [names] in HN. inversion HN as [|x l HT HN']; subst. apply Forall_app in HN' as [HA HK].
  cbn [means] in HM. fold (keys a) in HM, W5.
  set (A := keys a) in *. set (E := decls A ++ env) in *. set (NA := map nsattr (sorted ns)).
  assert (HAE : Forall (fun p => enc G (fst p) (q (fst p))) A).
  { unfold A, keys. rewrite Forall_map in *. exact HA. }
  destruct (enc_split A HAE) as [S1 S2].
  assert (HD : decls (NA ++ qkeys q A) ++ sc = map swap (sorted ns) ++ decls A ++ sc).
  { unfold decls at 1. rewrite flat_map_app. fold (decls NA) (decls (qkeys q A)). unfold NA. rewrite decls_ns, (decls_filter (qkeys q A)), S1, <- decls_filter.
    now rewrite <- app_assoc. }
  assert (HSC : scopes (decls (NA ++ qkeys q A) ++ sc) E).
  { rewrite HD. destruct HNS as [->|[-> HP]].
    - exact (scopes_cons (decls A) sc env W5 HS).
    - unfold plain_root in HP; cbn [eattrib] in HP; fold (keys a) in HP; fold A in HP. unfold E. rewrite HP. exact HS. }
  destruct (ename E true (pys t)) as [m|] eqn:EN; [|discriminate].
  destruct (all_some _) as [a'|] eqn:EA in HM; [|discriminate].
  destruct (all_some (map (means E) k)) as [k'|] eqn:EK; [|discriminate].
  destruct (distinct (map fst a')) eqn:ED; [|discriminate]. injection HM as <-.
  assert (HO : others (NA ++ qkeys q A) = qkeys q (others A)).
  { rewrite others_filter, filter_app, <- !others_filter, S2. unfold NA. now rewrite others_ns. }
  set (SC := decls (NA ++ qkeys q A) ++ sc) in *.
  assert (EA' : all_some (map (fun p => match resolve SC false (fst p) with Some m => Some (m, snd p) | None => None end) (others (NA ++ qkeys q A))) = Some a').
  { rewrite HO. apply all_some_spec in EA. apply all_some_spec.
    assert (HOE : Forall (fun p => enc G (fst p) (q (fst p))) (others A)).
    { rewrite Forall_forall in *. intros p Hp. rewrite others_filter in Hp. apply filter_In in Hp as [Hp _]. now apply HAE. }
    clear - EA HOE HSC HG. induction EA as [|p r l l' HP HF IH]; [constructor|]. inversion HOE as [|? ? H1 H2]; subst.
    cbn [qkeys map]. constructor; [|now apply IH]. cbn [fst snd].
    destruct (ename E false (fst p)) as [m|] eqn:EM; [|discriminate]. rewrite (resolve_ok SC E false _ m HSC H1 EM). exact HP. }
  assert (HND : NoDup (map fst (others (NA ++ qkeys q A)))).
  { apply distinct_nodup in ED. apply all_some_spec in EA'. clear - ED EA'. revert ED. induction EA' as [|p r l l' HP HF IH]; [constructor|].
    cbn [map]. intros HN. inversion HN as [|x y HX HY]; subst. constructor; [|now apply IH]. intros HI. apply HX.
    apply in_map_iff in HI as (p' & HE & HI).
    destruct (resolve SC false (fst p)) as [m|] eqn:ER; [|discriminate]. injection HP as <-. cbn [fst].
    clear IH HX HN HY. induction HF as [|p'' r' l l' HP HF IH]; [destruct HI|]. destruct HI as [->|HI].
    - rewrite HE, ER in HP. injection HP as <-. now left.
    - right. now apply IH. }
  assert (HKR : Forall2 (fun x y => good_ x /\ expand SC x = Some y) (map (raw q []) k) k').
  { apply all_some_spec in EK. clear - EK IH W7 HK HSC HG HGV ft_ok fa_ok. rewrite Forall_flat_map in HK.
    induction EK as [|x y' l l' HX HF IL]; [constructor|]. inversion IH; inversion W7; inversion HK; subst. cbn [map]. constructor; [|now apply IL].
    eapply H1; try eassumption. now left. }
  split.
  - cbn [raw]. fold A. constructor.
    + now apply enc_name.
    + apply Forall_app. split.
      * apply Forall_map, Forall_forall. intros [u p] Hp. unfold nsattr. cbn [fst snd].
        assert (HI : In (u, p) G).
        { destruct HNS as [->|[-> _]]; [destruct Hp|]. now apply (Permutation_in _ (sorted_perm G)). }
        split.
        -- apply name_nc; [reflexivity|]. destruct (ns_entry_of G u p HG HI) as (i & HE). now apply entry_ncname in HE.
        -- rewrite Forall_forall in HGV. apply HGV in HI. cbn in HI. eapply Forall_impl; [|exact HI]. apply fa_ok.
      * unfold qkeys, A, keys. apply Forall_map, Forall_map. rewrite Forall_map in HA. clear - HA W3 HG fa_ok.
        induction W3 as [|p l (H1 & H2 & H3) HF IH]; [constructor|]. inversion HA; subst. constructor; [|now apply IH]. cbn [fst snd]. split.
        -- now apply enc_name.
        -- eapply Forall_impl; [|exact H3]. apply fa_ok.
    + apply nodup_parts; [|exact HND]. rewrite filter_app, S1.
      destruct HNS as [->|[-> HP]].
      * cbn [sorted fold_right map filter app]. apply nodup_filter. unfold A, keys. rewrite map_map. cbn [fst].
        clear - W4. induction a as [|[s w] a IH]; [constructor|]. cbn [map fst] in *. inversion W4 as [|x y HO HN]; subst. constructor; [|now apply IH].
        intros HI. apply HO. apply in_map_iff in HI as (p & HE & HI). apply pys_inj in HE. apply in_map_iff. eauto.
      * assert (filter isdecl A = []) as ->.
        { unfold plain_root in HP; cbn [eattrib] in HP; fold (keys a) in HP; fold A in HP. clear - HP. unfold decls in HP. induction A as [|p A IH]; [reflexivity|].
          cbn [flat_map filter] in *. apply app_eq_nil in HP as [HP1 HP2]. unfold isdecl at 1. destruct (decl p); [discriminate|]. now apply IH. }
        rewrite app_nil_r. apply nodup_filter. unfold NA. rewrite map_map. cbn [fst nsattr].
        assert (HP' := prefix_nodup G HG). apply (Permutation_NoDup (Permutation_map snd (Permutation_sym (sorted_perm G)))) in HP'.
        clear - HP'. induction (sorted G) as [|[u p] l IH]; [constructor|]. cbn [map snd] in *. inversion HP' as [|x y HO HN]; subst.
        constructor; [|now apply IH]. intros HI. apply HO. apply in_map_iff in HI as (p' & HE & HI). apply app_inv_head in HE. injection HE as HE.
        apply in_map_iff. eauto.
    + apply Forall_app. split.
      * destruct W6 as [->|(s & -> & HS')]; [constructor|]. destruct s as [|c s]; [constructor|]. constructor; [|constructor]. constructor.
        apply Forall_forall. intros x Hx. apply ft_ok. apply eol_lf in Hx as [HX1 HX2]. split; [|exact HX1].
        destruct HX2 as [HX2| ->]; [|reflexivity]. rewrite forallb_forall in HS'. now apply HS'.
      * clear - HKR. remember (map (raw q []) k) as l eqn:El. clear El. induction HKR as [|? ? ? ? [H _] HF IHF]; constructor; assumption.
  - cbn [raw expand]. fold A. change (map nsattr (sorted ns)) with NA. fold SC.
    rewrite (resolve_ok SC E true _ m HSC HT EN). fold A in EA'. rewrite EA'. rewrite map_app.
    assert (EK' : all_some (map (expand SC) (text_nodes v) ++ map (expand SC) (map (raw q []) k)) = Some (text_nodes v ++ k')).
    { rewrite <- map_app. apply all_some_spec. apply Forall2_app.
      - destruct v as [| | | | |[|c s]]; repeat constructor.
      - clear - HKR. induction HKR as [|? ? ? ? [_ H] HF IHF]; constructor; assumption. }
    rewrite EK', ED. reflexivity.
Qed.
End Read.

Lemma writable_names b e : writable b e -> Forall (fun n => name_ok n /\ uri_ok b n) (names e).
Proof.
  induction e as [t a v k IH] using elt_ind'. intros HW. inversion HW as [t' a' v' k' W1 W2 W3 W4 W5 W6 W7]; subst. cbn [names].
  constructor; [now split|]. apply Forall_app. split.
  - apply Forall_map. eapply Forall_impl; [|exact W3]. cbn. tauto.
  - rewrite Forall_flat_map. rewrite Forall_forall in *. auto.
Qed.
Lemma writable_texts b e : writable b e -> every (fun _ v => text_ok v) e.
Proof.
  induction e as [t a v k IH] using elt_ind'. intros HW. inversion HW as [t' a' v' k' W1 W2 W3 W4 W5 W6 W7]; subst.
  constructor; [exact W6|]. rewrite Forall_forall in *. auto.
Qed.
Lemma close1 r : attrs (pys " />" ++ r) = Some ([], pys "/>" ++ r).
Proof. reflexivity. Qed.
Lemma close2 r : attrs (pys "/>" ++ r) = Some ([], pys "/>" ++ r).
Proof. reflexivity. Qed.

(** The scope of an element that is not inside another: at most a default namespace. *)
Definition outermost (env : list (pystr * pystr)) : Prop := forall p u, lookup p env = Some u -> p = [].
Theorem tostring_raw b e env0 y0 : writable b e -> plain_root e -> outermost env0 -> means env0 e = Some y0 -> exists x S,
  tostring e = Ok (60 :: S ++ [62]) /\ eol (60 :: S ++ [62]) = out_ f_cdata f_attrib (pys " />") x /\
  norm x = x /\ is_elem x = true /\ (exists q ns, x = raw q ns e) /\
  forall ft fa, (forall c, text_char c -> esc_text ft c) -> (forall c, value_char b c -> esc_value fa c) ->
  forall env sc y, outermost env -> lookup [] sc = lookup [] env -> means env e = Some y ->
    good ft fa x /\ expand sc x = Some y.
Proof.
  intros HW HP HO0 HM0. assert (HI : inv b ([], [])).
  { split; [split; [constructor|]|split; [discriminate|constructor]]. intros [|i] u p; discriminate. }
  destruct (namespaces_ok b (names e) (writable_names b e HW) ([], []) HI) as ([qn G] & HN & (HG & HQ & HV) & HA & _). cbn [fst snd] in *.
  set (q := fun n => match get n qn with Some w => w | None => [] end).
  assert (HREAD : forall ft fa, (forall c, text_char c -> esc_text ft c) -> (forall c, value_char b c -> esc_value fa c) ->
    forall env sc y, outermost env -> lookup [] sc = lookup [] env -> means env e = Some y -> good ft fa (raw q G e) /\ expand sc (raw q G e) = Some y).
  { intros ft fa Hft Hfa env sc y HO HS HM. eapply raw_read with (G := G) (b := b); try eassumption.
    + apply Forall_forall. intros n Hn. destruct (HA n Hn) as (w & Hw). unfold q. rewrite Hw. now apply HQ.
    + right. now split.
    + assert (HPN := prefix_nodup G HG). apply (Permutation_NoDup (Permutation_map snd (Permutation_sym (sorted_perm G)))) in HPN.
      assert (HL : forall u p, In (u, p) G -> lookup p (map swap (sorted G)) = Some u).
      { intros u p HIN. apply lookup_nodup.
        - rewrite map_map. exact HPN.
        - apply in_map_iff. exists (u, p). split; [reflexivity|]. apply (Permutation_in _ (Permutation_sym (sorted_perm G))). exact HIN. }
      assert (HE : lookup [] (map swap (sorted G)) = None).
      { destruct (lookup [] (map swap (sorted G))) as [u|] eqn:E; [|reflexivity]. apply lookup_in in E. apply in_map_iff in E as ([v p] & E & HIN).
        injection E as -> ->. apply (Permutation_in _ (sorted_perm G)) in HIN. destruct (ns_entry_of G u [] HG HIN) as (i & HE).
        apply entry_ncname in HE. discriminate. }
      split; [|split].
      * intros u p HIN. rewrite lookup_app, (HL u p HIN). reflexivity.
      * intros p u Hp. assert (p = []) as -> by now apply (HO p u). rewrite lookup_app, HE. congruence.
      * rewrite lookup_app, HE. exact HS. }
  destruct (HREAD f_cdata f_attrib cdata_ok (attrib_ok b) env0 env0 y0 HO0 eq_refl HM0) as [HGD _].
  destruct (serialize_raw q e (writable_texts b e HW) G) as (S & H1 & H2).
  - apply Forall_forall. intros [u p] HIN. cbn. destruct (ns_entry_of G u p HG HIN) as (i & HE). apply entry_ncname in HE. intros ->. discriminate HE.
  - intros H13. assert (HC := chars_out f_cdata f_attrib (pys " />") eq_refl _ HGD). rewrite forallb_forall in HC. apply HC in H13. discriminate.
  - exists (raw q G e), S. split; [|split; [exact H2|split; [apply norm_raw|split; [now destruct e|split; [eauto|exact HREAD]]]]].
    unfold tostring. rewrite HN. cbn [rbind]. exact H1.
Qed.
