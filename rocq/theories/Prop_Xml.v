(** * The XML text that is written: C70 *)

From Coq Require Import ZArith List Bool String Lia.
From Coq Require Import Init.Byte.
From Coq Require Import ZifyBool.
From Verif Require Import Py PyFloat ByteConv ETree BV VSuper Remap Mix CheckFile Main Spec SpecText PBase PHuman Ex Prop_Check Prop_Main
     Serial SpecXml PXml PSerial PPretty PDoc PMixXml SpecXsd PXsd PXsdV Prop_Xsd Prop_Mix.
Import ListNotations.
Open Scope string_scope.
Open Scope list_scope.
Open Scope Z_scope.

(** ** Elements as a parser with namespaces makes them

    Names are local names, or [{uri}local]; there are no declarations of namespaces
    among the attributes. *)
Definition plain_name (strict : bool) (n : pystr) : Prop :=
  is_ncname n = true \/ exists u l, n = braced u l /\ u <> [] /\ Forall (value_char strict) u /\ is_ncname l = true.
Inductive parsed (strict : bool) : elt -> Prop :=
| parsed_elt t a v k : plain_name strict (pys t) ->
    Forall (fun p => plain_name strict (pys (fst p)) /\ pys (fst p) <> pys "xmlns" /\ Forall (value_char strict) (snd p)) a ->
    NoDup (map fst a) -> Forall (parsed strict) k -> parsed strict (Elt t a v k).
(** ET.fromstring does so. *)
Definition parser_ok (strict : bool) (E : env) : Prop := forall b e, xml_parse E b = Some e -> parsed strict e.

Lemma ncname_colon n : is_ncname n = true -> prefix_of n = None.
Proof.
  unfold is_ncname, prefix_of. rewrite andb_true_iff, negb_true_iff. intros [_ H].
  assert (HS : span (fun c => negb (c =? 58)) n = (n, [])).
  { induction n as [|c n IH]; [reflexivity|]. cbn [existsb] in H. apply orb_false_iff in H. destruct H as [H1 H2]. cbn [span].
    replace (c =? 58) with false by lia. cbn [negb]. now rewrite IH. }
  now rewrite HS.
Qed.
Lemma ncname_head n : is_ncname n = true -> exists c r, n = c :: r /\ c <> 123.
Proof.
  unfold is_ncname. rewrite andb_true_iff. intros [H _]. destruct n as [|c r]; [discriminate|]. exists c, r. split; [reflexivity|]. intros ->. discriminate.
Qed.
Lemma plain_decl b n v : plain_name b n -> n <> pys "xmlns" -> SpecXml.decl (n, v) = None.
Proof.
  intros H HN. unfold SpecXml.decl. replace (pystr_eqb n (pys "xmlns")) with false.
  2:{ symmetry. destruct (pystr_eqb n (pys "xmlns")) eqn:E; [|reflexivity]. apply pystr_eqb_spec in E. contradiction. }
  destruct H as [H|(u & l & -> & _)]; [now rewrite ncname_colon|]. unfold prefix_of, braced. cbn [span Z.eqb Pos.eqb negb].
  destruct (span _ (u ++ 125 :: l)) as [p r]. destruct r; [reflexivity|]. cbn. reflexivity.
Qed.
Lemma plain_ename b env el n : plain_name b n -> exists m, ename env el n = Some m.
Proof.
  intros [H|(u & l & -> & _)]; [|cbn; eauto]. destruct (ncname_head _ H) as (c & r & -> & HC). unfold ename. replace (c =? 123) with false by lia.
  unfold resolve. rewrite ncname_colon by exact H. destruct (if el then lookup [] env else None) as [[|x u]|]; eauto.
Qed.
Lemma plain_attr b env n : plain_name b n -> ename env false n = Some n.
Proof.
  intros [H|(u & l & -> & _)]; [|reflexivity]. destruct (ncname_head _ H) as (c & r & -> & HC). unfold ename. replace (c =? 123) with false by lia.
  unfold resolve. now rewrite ncname_colon.
Qed.
Lemma brace_local u l u' l' : braced u l = braced u' l' -> is_ncname l = true -> is_ncname l' = true -> u = u' /\ l = l'.
Proof.
  unfold braced. intros H HL HL'. injection H as H.
  assert (HB : forall x, is_ncname x = true -> ~ In 125 x).
  { intros x. unfold is_ncname, is_name. destruct x as [|c x]; [discriminate|]. rewrite !andb_true_iff. intros [[_ HF] _] HI. rewrite forallb_forall in HF. now apply HF in HI. }
  apply HB in HL, HL'. revert u' H. induction u as [|c u IH]; intros [|c' u'] H; cbn in H.
  - injection H as <-. auto.
  - injection H as HC H. exfalso. apply HL. rewrite H. apply in_or_app. right. now left.
  - injection H as HC H. exfalso. apply HL'. rewrite <- H. apply in_or_app. right. now left.
  - injection H as <- H. destruct (IH _ H) as [-> ->]. auto.
Qed.
Lemma plain_writable b n : plain_name b n -> name_ok n /\ uri_ok b n.
Proof.
  intros [H|(u & l & -> & HU & HV & HL)].
  - split; [right; unfold is_ncname in H; now apply andb_true_iff in H|]. intros u l -> _. unfold is_ncname in H. discriminate.
  - split; [left; exists u, l; auto|]. intros u' l' HE HL'. apply brace_local in HE; try assumption. destruct HE as [<- _]. exact HV.
Qed.
Lemma parsed_decls b a : Forall (fun p : string * pystr => plain_name b (pys (fst p)) /\ pys (fst p) <> pys "xmlns" /\ Forall (value_char b) (snd p)) a ->
  decls (map (fun p => (pys (fst p), snd p)) a) = [] /\ others (map (fun p => (pys (fst p), snd p)) a) = map (fun p => (pys (fst p), snd p)) a.
Proof.
  induction 1 as [|[n v] a (H1 & H2 & _) HA (I1 & I2)]; [split; reflexivity|]. cbn [fst snd] in *. unfold decls, others in *. cbn [map flat_map filter fst snd].
  rewrite (plain_decl b) by assumption. cbn. rewrite I1, I2. auto.
Qed.
Lemma distinct_pys (a : list (string * pystr)) : NoDup (map fst a) -> distinct (map (fun p => pys (fst p)) a) = true.
Proof.
  induction a as [|[n v] a IH]; [reflexivity|]. cbn [map fst]. intros H. inversion H as [|? ? HI HN]; subst. cbn [distinct]. rewrite (IH HN), andb_true_r, negb_true_iff.
  destruct (existsb _ _) eqn:E; [|reflexivity]. exfalso. apply existsb_exists in E. destruct E as (x & Hx & E). apply pystr_eqb_spec in E. subst x.
  apply in_map_iff in Hx. destruct Hx as ([m w] & HE & HM). apply pys_inj in HE. cbn in HE. subst m. apply HI. now apply (in_map fst) in HM.
Qed.
Lemma parsed_stands b e : parsed b e -> every (fun _ v => text_ok v) e ->
  writable b e /\ plain_root e /\ forall env, exists y, means env e = Some y.
Proof.
  induction e as [t a v k IH] using elt_ind'. intros HP HE. inversion HP as [? ? ? ? HT HA HD HK]; subst. inversion HE as [? ? ? ? HV HEK]; subst.
  destruct (parsed_decls b a HA) as [D1 D2]. destruct (plain_writable b _ HT) as [W1 W2]. split; [|split].
  - constructor; try assumption.
    + eapply Forall_impl; [|exact HA]. cbn beta. intros p (P1 & _ & P3). destruct (plain_writable b _ P1). auto.
    + change (Forall decl_ok (decls (map (fun p : string * pystr => (pys (fst p), snd p)) a))). rewrite D1. constructor.
    + rewrite Forall_forall in IH, HK, HEK |- *. intros x Hx. apply IH; auto.
  - exact D1.
  - intros env. cbn [means]. rewrite D1, D2. cbn [app]. destruct (plain_ename b env true _ HT) as (m & Hm). rewrite Hm.
    assert (HS : all_some (map (fun p => match ename env false (fst p) with Some m => Some (m, snd p) | None => None end) (map (fun p => (pys (fst p), snd p)) a)) =
      Some (map (fun p => (pys (fst p), snd p)) a)).
    { apply all_some_map. clear -HA. induction HA as [|p a (P1 & _) HA IHA]; cbn [map]; constructor; [|exact IHA]. cbn [fst snd]. now rewrite (plain_attr b) by exact P1. }
    rewrite HS.
    assert (HX : exists k', all_some (map (means env) k) = Some k').
    { clear -IH HK HEK. induction IH as [|x k Hx HF IHF]; [exists []; reflexivity|]. inversion HK; subst. inversion HEK; subst.
      destruct IHF as (k' & Hk'); try assumption. destruct (Hx ltac:(assumption) ltac:(assumption)) as (_ & _ & HM). destruct (HM env) as (y & Hy).
      exists (y :: k'). cbn [map all_some]. now rewrite Hy, Hk'. }
    destruct HX as (k' & Hk'). rewrite Hk'. rewrite map_map. cbn [fst]. rewrite distinct_pys by exact HD. eauto.
Qed.
Lemma parsed_rel b P e e' : rel P e e' -> parsed b e -> parsed b e'.
Proof.
  revert e'. induction e as [t a v k IH] using elt_ind'. intros e' H HP. inversion H as [? ? ? v' ? k' H1 H2]; subst. inversion HP as [? ? ? ? HT HA HD HK]; subst.
  constructor; try assumption. clear -IH H2 HK. induction H2 as [|x x' k k' Hx HF IHF]; constructor; inversion IH; subst; inversion HK; subst; auto.
Qed.
Lemma parsed_leaf b n v : is_ncname (pys n) = true -> parsed b (leaf n v).
Proof. intros H. constructor; [now left|constructor..]. Qed.
Lemma parsed_node b n k : is_ncname (pys n) = true -> Forall (parsed b) k -> parsed b (node n k).
Proof. intros H HK. constructor; [now left|constructor..|exact HK]. Qed.

(** ** Reports *)
Definition format_ok (o : opts) : Prop := In (o_format o) ["jp2"; "jph"; "j2c"; "jhc"].
Lemma value_chars b s : forallb (fun c => is_char c && (32 <=? c)) s = true -> Forall (value_char b) s.
Proof. intros H. apply Forall_forall. intros c Hc. rewrite forallb_forall in H. apply H in Hc. apply andb_true_iff in Hc. destruct Hc as [H1 H2]. split; [exact H1|lia]. Qed.
Lemma report_parsed b E fuel depth path fo o size mtime rep : env_ok E -> parser_ok b E -> format_ok o ->
  fo_size fo = Ok size -> fo_mtime fo = Ok mtime -> checkOneFile E fuel depth path fo o 0 = Ok rep -> parsed b rep.
Proof.
  intros HE HP HF H1 H2 HR.
  assert (HH : forall st v T P W, Forall (parsed b) st -> Forall (parsed b) T -> Forall (parsed b) P -> Forall (parsed b) W ->
    parsed b (report fo o size mtime st v T P [] W)).
  { intros st v T P W G1 G2 G3 G4. unfold report. cbn [app]. apply parsed_node; [reflexivity|].
    apply Forall_cons; [apply parsed_node; [reflexivity|]; repeat (apply Forall_cons; [now apply parsed_leaf|]); apply Forall_nil|].
    apply Forall_cons; [now apply parsed_node|].
    apply Forall_cons.
    { constructor; [now left| |repeat constructor; intros []|constructor]. apply Forall_cons; [|apply Forall_nil]. cbn [fst snd].
      split; [now left|]. split; [discriminate|]. unfold format_ok in HF. apply value_chars. cbn [In] in HF. destruct HF as [<-|[<-|[<-|[<-|[]]]]]; reflexivity. }
    repeat (apply Forall_cons; [now apply parsed_node|]). apply Forall_nil. }
  destruct (C20_report E fuel depth path fo o size mtime HE H1 H2) as [(v & T & P & W & HX & HA)|[(e & HX & HA)|(HX & _)]]; rewrite HX in HR; [| |discriminate]; injection HR as <-.
  - destruct HA as (c & w & t & r & W0 & _ & HT & HV & _ & R1 & R2 & R3 & ws & _ & ->).
    assert (HB : bareF o = true -> fence t = true).
    { unfold bareF. intros HB. destruct HT as [(HI & ->)|(_ & ->)]; [|reflexivity]. exfalso. destruct HI as [HI|[HI|[]]]; rewrite <- HI in HB; discriminate. }
    destruct (sound_validate E (parsed b) (parsed_leaf b) (parsed_node b) HP o fuel depth t c VNone VNone r HB HV) as (_ & _ & S1 & S2 & S3).
    assert (HK : forall n k, parsed b (node n k) -> Forall (parsed b) k) by (intros n k H; now inversion H).
    apply HH.
    + apply Forall_cons; [now apply parsed_leaf|apply Forall_nil].
    + apply (HK "tests"). eapply parsed_rel; eassumption.
    + apply (HK "properties"). eapply parsed_rel; eassumption.
    + apply Forall_app. split; [apply (HK "warnings"); eapply parsed_rel; eassumption|]. apply Forall_forall. intros x Hx. apply in_map_iff in Hx. destruct Hx as (s & <- & _). now apply parsed_leaf.
  - apply HH; try apply Forall_nil; repeat (apply Forall_cons; [now apply parsed_leaf|]); apply Forall_nil.
Qed.
Lemma xml_is_char c : xml_char c <-> is_char c = true.
Proof. unfold xml_char, is_char, in_range. lia. Qed.
Definition xml_string (s : pystr) : Prop := Forall xml_char s.
Lemma xml_string_ok s : xml_string s -> text_ok (VStr s).
Proof. intros H. right. exists s. split; [reflexivity|]. apply forallb_forall. intros c Hc. apply xml_is_char. unfold xml_string in H. rewrite Forall_forall in H. auto. Qed.
(** The name, the path and the time of change of a file; the first two are free of
    control characters. *)
Definition file_info_ok (fo : fileobs) : Prop :=
  xml_string (stripSurrogatePairs (fo_basename fo)) /\ xml_string (stripSurrogatePairs (fo_abspath fo)) /\
  exists size mtime, fo_size fo = Ok size /\ fo_mtime fo = Ok mtime /\ ascii_text mtime.
Lemma report_texts E fuel depth path fo o rep : env_ok E -> unicode_ok (catC E) -> file_info_ok fo ->
  checkOneFile E fuel depth path fo o 0 = Ok rep -> every (fun _ v => text_ok v) rep.
Proof.
  intros HE HU (HN & HP & size & mtime & H1 & H2 & HM) HR.
  destruct (C45_texts E fuel depth path fo o size mtime rep HE H1 H2 HM HR) as (info & rest & -> & HF).
  assert (HC : Forall (every (fun _ v => text_ok v)) (info ++ rest)).
  { eapply Forall_impl; [|exact HF]. intros x. apply every_impl. intros t v HV. apply (C45_xml _ _ HU) in HV. destruct HV as [->|(s & -> & HV)]; [now left|now apply xml_string_ok]. }
  apply Forall_app in HC. destruct HC as [HI HR']. constructor; [now left|]. apply Forall_cons; [|exact HR']. constructor; [now left|].
  apply Forall_cons; [constructor; [now apply xml_string_ok|apply Forall_nil]|]. apply Forall_cons; [constructor; [now apply xml_string_ok|apply Forall_nil]|exact HI].
Qed.

(** Every report can be written as XML and has a meaning in the namespace of jpylyzer. *)
(** *** With MIX output *)
Lemma parsed_legal b e : parsed b e -> every (fun _ v => text_ok v) e -> legal e.
Proof.
  induction e as [t a v k IH] using elt_ind'. intros HP HE. inversion HP as [? ? ? ? HT HA HD HK]; subst. inversion HE as [? ? ? ? HV HEK]; subst. constructor; [exact HV| |].
  - eapply Forall_impl; [|exact HA]. cbn beta. intros p (_ & _ & H). apply forallb_forall. intros c Hc. rewrite Forall_forall in H. apply H in Hc. apply Hc.
  - rewrite Forall_forall in *. intros x Hx. auto.
Qed.
Definition fine (b : bool) (e : elt) : Prop := writable b e /\ forall env, exists y, means env e = Some y.
Lemma all_means env k : Forall (fun e => exists y, means env e = Some y) k -> exists k', all_some (map (means env) k) = Some k'.
Proof. induction 1 as [|x k (y & Hy) HF (k' & Hk)]; [exists []; reflexivity|]. exists (y :: k'). cbn [map all_some]. now rewrite Hy, Hk. Qed.
Lemma fine_node b n k : is_ncname (pys n) = true -> Forall (fine b) k -> fine b (node n k).
Proof.
  intros HN HK. assert (HP : plain_name b (pys n)) by now left. destruct (plain_writable b _ HP) as [W1 W2]. split.
  - constructor; try assumption; try constructor; [reflexivity|]. eapply Forall_impl; [|exact HK]. intros x [H _]. exact H.
  - intros env. unfold node. cbn [means map]. destruct (plain_ename b (decls [] ++ env) true _ HP) as (m & ->).
    destruct (all_means (decls [] ++ env) k) as (k' & ->); [|cbn; eauto]. eapply Forall_impl; [|exact HK]. intros x [_ H]. apply H.
Qed.
Lemma mix_ename env l u : is_ncname (pys l) = true -> lookup (pys "mix") env = Some u -> u <> [] -> ename env true (pys ("mix:" ++ l)) = Some (braced u (pys l)).
Proof.
  intros HL HU HN. change (pys ("mix:" ++ l)) with (109 :: 105 :: 120 :: 58 :: pys l). cbn [ename Z.eqb Pos.eqb]. unfold resolve, prefix_of. cbn [span Z.eqb Pos.eqb negb].
  rewrite HL. change [109; 105; 120] with (pys "mix"). rewrite HU. cbn [andb]. destruct u; [contradiction|reflexivity].
Qed.
Lemma name_chars s : is_ncname s = true -> forallb name_char s = true.
Proof. unfold is_ncname, is_name. destruct s; [reflexivity|]. rewrite !andb_true_iff. intros [[_ H] _]. exact H. Qed.
Lemma mix_name l : is_ncname (pys l) = true -> name_ok (pys ("mix:" ++ l)) /\ forall b, uri_ok b (pys ("mix:" ++ l)).
Proof.
  intros HL. split; [|intros b u x H; discriminate H]. right. change (pys ("mix:" ++ l)) with (109 :: 105 :: 120 :: 58 :: pys l).
  pose proof (name_chars _ HL) as HF. unfold is_name.
  cbn [forallb]. rewrite HF. reflexivity.
Qed.
Lemma mixed_writable b e : mixed e -> writable b e.
Proof.
  induction e as [t a v k IH] using elt_ind'. intros H. inversion H as [l v' k' HL HV HK]; subst. destruct (mix_name l HL) as [W1 W2].
  constructor; auto; try constructor. rewrite Forall_forall in *. auto.
Qed.
Lemma mixed_means e env u : mixed e -> lookup (pys "mix") env = Some u -> u <> [] -> exists y, means env e = Some y.
Proof.
  induction e as [t a v k IH] using elt_ind'. intros H HU HN. inversion H as [l v' k' HL HV HK]; subst. unfold means. fold means. cbn [map]. change (decls [] ++ env) with env. change (others []) with (@nil (pystr * pystr)).
  match goal with |- exists y, match ename ?e true ?t with _ => _ end = _ => replace (ename e true t) with (Some (braced u (pys l))) by (symmetry; now apply mix_ename) end.
  cbn [all_some map].
  destruct (all_means env k) as (k' & ->); [|cbn; eauto]. rewrite Forall_forall in *. auto.
Qed.
Lemma mix_fine b mf loc k : forallb (fun c => is_char c && (32 <=? c)) loc = true -> Forall mixed k ->
  fine b (Elt "mix:mix" [("xmlns:mix", mix_ns mf); ("xmlns:xsi", pys "http://www.w3.org/2001/XMLSchema-instance"); ("xsi:schemaLocation", loc)] VNone k).
Proof.
  intros HL HK. destruct (mix_name "mix" eq_refl) as [W1 W2]. split.
  - constructor; [exact W1|apply W2| | | |now left|].
    + assert (HN : forall n v, is_name (pys n) = true -> hd 0 (pys n) <> 123 -> forallb (fun c => is_char c && (32 <=? c)) v = true ->
        name_ok (pys (fst (n, v))) /\ uri_ok b (pys (fst (n, v))) /\ Forall (value_char b) (snd (n, v))).
      { intros n v H1 H2 H3. cbn [fst snd]. split; [now right|]. split; [|now apply value_chars]. intros u l E. rewrite E in H2. now contradiction H2. }
      apply Forall_cons; [apply HN; [reflexivity|discriminate|unfold mix_ns; destruct (mf =? 1); reflexivity]|].
      apply Forall_cons; [apply HN; [reflexivity|discriminate|reflexivity]|].
      apply Forall_cons; [apply HN; [reflexivity|discriminate|exact HL]|apply Forall_nil].
    + repeat constructor; cbn; intuition discriminate.
    + change (Forall decl_ok [(pys "mix", mix_ns mf); (pys "xsi", pys "http://www.w3.org/2001/XMLSchema-instance")]).
      apply Forall_cons; [|apply Forall_cons; [|apply Forall_nil]]; (split; [|intros s H; discriminate H]).
      * intros u H. discriminate H.
      * intros u H. injection H as <-. reflexivity.
    + eapply Forall_impl; [|exact HK]. apply mixed_writable.
  - intros env. set (env' := [(pys "mix", mix_ns mf); (pys "xsi", pys "http://www.w3.org/2001/XMLSchema-instance")] ++ env).
    destruct (all_means env' k) as (k' & Hk).
    { eapply Forall_impl; [|exact HK]. intros x Hx. apply (mixed_means x env' (mix_ns mf) Hx); [reflexivity|]. unfold mix_ns. destruct (mf =? 1); discriminate. }
    assert (HM : ename env' true (pys "mix:mix") = Some (braced (mix_ns mf) (pys "mix"))).
    { apply (mix_ename env' "mix" (mix_ns mf)); [reflexivity..|]. unfold mix_ns. destruct (mf =? 1); discriminate. }
    cbn [means]. match goal with |- exists y, (match ename ?e _ _ with _ => _ end) = _ => change e with env' end. rewrite HM.
    match goal with |- exists y, (match all_some ?l with _ => _ end) = _ => assert (HO : l = [Some (braced (pys "http://www.w3.org/2001/XMLSchema-instance") (pys "schemaLocation"), loc)]) by reflexivity end.
    rewrite HO. cbn [all_some]. rewrite Hk. cbn. eauto.
Qed.
Theorem C70_reports strict E fuel depth path fo o mf rep : env_ok E -> unicode_ok (catC E) -> parser_ok strict E -> format_ok o -> file_info_ok fo ->
  checkOneFile E fuel depth path fo o mf = Ok rep -> exists y, stands strict rep y.
Proof.
  intros HE HU HP HF HI HR.
  assert (H0 : forall rep, checkOneFile E fuel depth path fo o 0 = Ok rep -> parsed strict rep /\ every (fun _ v => text_ok v) rep).
  { intros r Hr. split; [|exact (report_texts _ _ _ _ _ _ _ HE HU HI Hr)]. destruct HI as (_ & _ & size & mtime & H1 & H2 & _). exact (report_parsed strict _ _ _ _ _ _ _ _ _ HE HP HF H1 H2 Hr). }
  destruct (Z.eq_dec mf 0) as [->|Hmf].
  { destruct (H0 _ HR) as [HB HT]. destruct (parsed_stands strict rep HB HT) as (W & R & M). destruct (M default_ns) as (y & Hy). exists y. now split. }
  assert (HI' := HI). destruct HI' as (_ & _ & size & mtime & H1 & H2 & _).
  destruct (C51_extension E fuel depth path fo o size mtime mf rep HE H1 H2 Hmf HR) as (st & v & T & P & W & ext & HR0 & -> & _ & HX).
  destruct (H0 _ HR0) as [HB HT]. unfold report, node in HB, HT. inversion HB as [? ? ? ? _ _ _ HK]; subst. inversion HT as [? ? ? ? _ HTK]; subst.
  assert (HFK : forall x, In x ([node "fileInfo" [leaf "fileName" (VStr (stripSurrogatePairs (fo_basename fo)));
                      leaf "filePath" (VStr (stripSurrogatePairs (fo_abspath fo)));
                      leaf "fileSizeInBytes" (VStr (str_of_Z size)); leaf "fileLastModified" (VStr mtime)];
      node "statusInfo" st; Elt "isValid" [("format", pys (o_format o))] (VStr (pys v)) [];
      node "tests" T; node "properties" P] ++ [] ++ [node "warnings" W]) -> fine strict x).
  { intros x Hx. rewrite Forall_forall in HK, HTK. destruct (parsed_stands strict x (HK x Hx) (HTK x Hx)) as (F1 & _ & F2). now split. }
  assert (HM : Forall (fine strict) ext).
  { destruct HX as [(_ & _ & m & -> & HG & _)|(_ & ->)]; [|constructor]. apply Forall_cons; [|apply Forall_nil].
    rewrite Forall_forall in HK, HTK. assert (HIn : In (node "properties" P) (([node "fileInfo" [leaf "fileName" (VStr (stripSurrogatePairs (fo_basename fo)));
                      leaf "filePath" (VStr (stripSurrogatePairs (fo_abspath fo)));
                      leaf "fileSizeInBytes" (VStr (str_of_Z size)); leaf "fileLastModified" (VStr mtime)];
      node "statusInfo" st; Elt "isValid" [("format", pys (o_format o))] (VStr (pys v)) [];
      node "tests" T; node "properties" P] ++ [] ++ [node "warnings" W]))) by (right; right; right; right; now left).
    destruct (mix_mixed (isspace E) mf _ m (parsed_legal strict _ (HK _ HIn) (HTK _ HIn)) HG) as (loc & k & -> & HL & HKm). now apply mix_fine. }
  assert (HFi : fine strict (report fo o size mtime st v T P [node "propertiesExtension" ext] W)).
  { unfold report. apply fine_node; [reflexivity|]. apply Forall_app. split; [apply Forall_forall; intros x Hx; apply HFK, in_or_app; now left|].
    apply Forall_app. split; [|apply Forall_forall; intros x Hx; apply HFK, in_or_app; now right]. apply Forall_cons; [|apply Forall_nil]. now apply fine_node. }
  destruct HFi as [F1 F2]. destruct (F2 default_ns) as (y & Hy). exists y. split; [exact F1|]. split; [reflexivity|exact Hy].
Qed.
Print Assumptions C70_reports.

(** MIX output, too, consists of XML characters. *)
Theorem C45_mix E fuel depth path fo o mf rep m : env_ok E -> unicode_ok (catC E) -> parser_ok false E -> format_ok o -> file_info_ok fo -> mf <> 0 ->
  checkOneFile E fuel depth path fo o mf = Ok rep -> In m (findall ["propertiesExtension"; "mix:mix"] rep) -> every (fun _ v => xml_text v) m.
Proof.
  intros HE HU HP HF HI Hmf HR HM. destruct (HI) as (_ & _ & size & mtime & H1 & H2 & _).
  destruct (C51_extension E fuel depth path fo o size mtime mf rep HE H1 H2 Hmf HR) as (st & v & T & P & W & ext & HR0 & -> & _ & HX).
  pose proof (report_texts _ _ _ _ _ _ _ HE HU HI HR0) as HT. pose proof (report_parsed false _ _ _ _ _ _ _ _ _ HE HP HF H1 H2 HR0) as HB.
  pose proof (parsed_legal _ _ HB HT) as HL. clear HB HT. assert (HIn : legal (node "properties" P)).
  { unfold report in HL. inversion HL as [? ? ? ? _ _ HK]; subst. rewrite Forall_forall in HK. apply HK. do 4 right. now left. }
  destruct HX as [(_ & _ & x & -> & HG & _)|(_ & ->)].
  - assert (m = x) as ->.
    { destruct (mix_mixed (isspace E) mf _ x HIn HG) as (loc & k & -> & _). destruct HM as [<-|[]]. reflexivity. }
    destruct (mix_mixed (isspace E) mf _ x HIn HG) as (loc & k & -> & _ & HK). constructor; [now left|]. eapply Forall_impl; [|exact HK]. clear.
    intros e. induction e as [t a v k IH] using elt_ind'. intros H. inversion H as [l v' k' _ HV HK]; subst. constructor.
    + destruct HV as [->|(s & -> & HS)]; [now left|right]. exists s. split; [reflexivity|]. apply Forall_forall. intros c Hc. apply xml_is_char. rewrite forallb_forall in HS. auto.
    + rewrite Forall_forall in *. auto.
  - destruct HM as [].
Qed.
Print Assumptions C45_mix.

(** ** Documents *)
(** jpylyzer.py:684-687; the name of the script and the version *)
Definition toolInfo (name version : pystr) : elt := node "toolInfo" [leaf "toolName" (VStr name); leaf "toolVersion" (VStr version)].
Lemma tool_stands b name version : xml_string name -> xml_string version -> exists y, stands b (toolInfo name version) y.
Proof.
  intros H1 H2. destruct (parsed_stands b (toolInfo name version)) as (W & R & M).
  - apply parsed_node; [reflexivity|]. repeat (apply Forall_cons; [now apply parsed_leaf|]). apply Forall_nil.
  - constructor; [now left|]. repeat (apply Forall_cons; [constructor; [now apply xml_string_ok|apply Forall_nil]|]). apply Forall_nil.
  - destruct (M default_ns) as (y & Hy). exists y. now split.
Qed.
Lemma Forall2_ex {A B} (P : A -> B -> Prop) l : (forall x, In x l -> exists y, P x y) -> exists l', Forall2 P l l'.
Proof.
  induction l as [|x l IH]; intros H; [exists []; constructor|]. destruct (H x) as (y & Hy); [now left|]. destruct IH as (l' & Hl); [intros z Hz; apply H; now right|].
  exists (y :: l'). now constructor.
Qed.
Lemma Forall2_comp {A B C} (P : A -> B -> Prop) (Q : B -> C -> Prop) (R : A -> C -> Prop) l m n : (forall x y z, P x y -> Q y z -> R x z) ->
  Forall2 P l m -> Forall2 Q m n -> Forall2 R l n.
Proof. intros H HP. revert n. induction HP as [|x y l m HX HP IH]; intros n HQ; inversion HQ; subst; constructor; eauto. Qed.
Lemma Forall2_fun {A B} (P : A -> B -> Prop) l m n : (forall x y z, P x y -> P x z -> y = z) -> Forall2 P l m -> Forall2 P l n -> m = n.
Proof. intros H HP. revert n. induction HP as [|x y l m HX HP IH]; intros n HQ; inversion HQ; subst; [reflexivity|]. f_equal; eauto. Qed.
Lemma Forall2_in {A B} (P : A -> B -> Prop) l m y : Forall2 P l m -> In y m -> exists x, In x l /\ P x y.
Proof. induction 1 as [|a b l m HP HF IH]; intros []; [subst; exists a; split; [now left|exact HP]|]. destruct IH as (x & Hx & HX); [assumption|]. exists x. split; [now right|exact HX]. Qed.
Lemma text_elements ss : List.concat (map chunk_text (map Element ss)) = List.concat ss.
Proof. induction ss as [|s ss IH]; [reflexivity|]. cbn. now rewrite IH. Qed.

Section Document.
Variables (E : env) (fuel depth : nat) (F : fsys) (observe : pystr -> fileobs) (dom : pystr -> res dnode) (np : bool).
Hypothesis HE : env_ok E.
Hypothesis HU : unicode_ok (catC E).
(** Unless --nopretty is given the values of the attributes in XML boxes are on one line. *)
Hypothesis HP : parser_ok (negb np) E.
Hypothesis HD : np = false -> dom_ok dom.

(** A batch of files with XML-compatible names, each with a report, gives a
    well-formed document; it consists of the meanings of the tool element and of the
    reports, in order, up to indentation if that is not switched off. *)
Theorem C70_document name version before o mf recurse paths : xml_string name -> xml_string version -> format_ok o ->
  let files := before ++ findFiles F recurse paths in
  let r := checkFiles E fuel depth F observe (writeElement dom np) (toolInfo name version) before o mf recurse paths in
  files <> [] ->
  (forall p, In p files -> file_info_ok (observe p) /\ exists rep, checkOneFile E fuel depth p (observe p) o mf = Ok rep) ->
  ends r = Finished /\ exists reps ys z,
    Forall2 (fun p rep => checkOneFile E fuel depth p (observe p) o mf = Ok rep) files reps /\
    Forall2 (fun e y => means default_ns e = Some y) (toolInfo name version :: reps) ys /\
    parse (stdout_text r) = Some z /\
    if np then z = document (DText [10] :: ys) else trim z = document (map trim ys).
Proof.
  intros HN HV HF files r HNE HA. set (b := negb np).
  assert (HR : exists reps, Forall2 (fun p rep => checkOneFile E fuel depth p (observe p) o mf = Ok rep) files reps).
  { apply Forall2_ex. intros p Hp. destruct (HA p Hp) as [_ HX]. exact HX. }
  destruct HR as (reps & HR).
  assert (HS : exists ys, Forall2 (stands b) (toolInfo name version :: reps) ys).
  { apply Forall2_ex. intros e [<-|He]; [now apply tool_stands|]. destruct (Forall2_in _ _ _ _ HR He) as (p & Hp & Hc). destruct (HA p Hp) as [HI _].
    eapply C70_reports; eassumption. }
  destruct HS as (ys & HS).
  assert (HM : Forall2 (fun e y => means default_ns e = Some y) (toolInfo name version :: reps) ys).
  { clear -HS. induction HS as [|e y l m (_ & _ & H) _ IH]; constructor; auto. }
  assert (HW : exists ss z, Forall2 (fun e s => writeElement dom np e = Ok s) (toolInfo name version :: reps) ss /\
    parse (xmlHead ++ List.concat ss ++ xmlTail) = Some z /\ if np then z = document (DText [10] :: ys) else trim z = document (map trim ys)).
  { clear -HS HD. unfold b in HS. destruct np.
    - destruct (doc_plain dom _ _ _ HS) as (ss & H1 & H2). exists ss. eexists. split; [exact H1|]. split; [exact H2|reflexivity].
    - assert (HC : toolInfo name version :: reps <> []) by discriminate. destruct (doc_pretty dom _ _ (HD eq_refl) HC HS) as (ss & z & H1 & H2 & H3). exists ss, z. auto. }
  destruct HW as (ss & z & HW & HZ & HZ'). inversion HW as [|? tool ? ss' HT HW']; subst ss. subst.
  assert (HX : Forall2 (Prop_Main.text_of E fuel depth observe (writeElement dom np) o mf) files ss').
  { apply (Forall2_comp (fun p rep => checkOneFile E fuel depth p (observe p) o mf = Ok rep) (fun e s => writeElement dom np e = Ok s) _ _ reps); [|exact HR|exact HW'].
    intros p rep s G1 G2. exists rep. auto. }
  assert (HFin : ends r = Finished).
  { unfold r. apply (C48_complete_iff E fuel depth F observe (writeElement dom np) (toolInfo name version) before o mf recurse paths tool HT HNE).
    fold files. clear -HX. induction HX; constructor; eauto. }
  split; [exact HFin|]. exists reps, ys, z. split; [exact HR|]. split; [exact HM|]. split; [|exact HZ'].
  destruct (C48_output E fuel depth F observe (writeElement dom np) (toolInfo name version) before o mf recurse paths tool HT) as [(G & _)|[(_ & ss & G1 & G2 & _)|(? & ? & ? & ? & _ & _ & _ & [(? & _ & G)|(_ & G)])]].
  - contradiction.
  - assert (ss = ss') as ->.
    { eapply Forall2_fun; [|exact G1|exact HX]. intros p s1 s2 P Q. apply Prop_Main.text_ok in P. apply Prop_Main.text_ok in Q. congruence. }
    unfold stdout_text. fold r in G2. rewrite G2. rewrite map_app, map_app, concat_app, concat_app, text_elements. cbn [map List.concat chunk_text app] in *.
    rewrite !app_nil_r, <- !app_assoc in *. exact HZ.
  - fold r in G. congruence.
  - fold r in G. congruence.
Qed.
(** Without MIX output it is enough that the analyses terminate. *)
Theorem C70_document_plain name version before o recurse paths : xml_string name -> xml_string version -> format_ok o ->
  let files := before ++ findFiles F recurse paths in
  let r := checkFiles E fuel depth F observe (writeElement dom np) (toolInfo name version) before o 0 recurse paths in
  files <> [] ->
  (forall p, In p files -> file_info_ok (observe p) /\ checkOneFile E fuel depth p (observe p) o 0 <> Diverge) ->
  ends r = Finished /\ exists reps ys z,
    Forall2 (fun p rep => checkOneFile E fuel depth p (observe p) o 0 = Ok rep) files reps /\
    Forall2 (fun e y => means default_ns e = Some y) (toolInfo name version :: reps) ys /\
    parse (stdout_text r) = Some z /\
    if np then z = document (DText [10] :: ys) else trim z = document (map trim ys).
Proof.
  intros HN HV HF files r HNE HA. apply C70_document; try assumption.
  intros p Hp. destruct (HA p Hp) as [HI HX]. split; [exact HI|]. destruct HI as (_ & _ & size & mtime & H1 & H2 & _).
  pose proof (C20_never_raises E fuel depth p (observe p) o size mtime) as HC.
  destruct (checkOneFile E fuel depth p (observe p) o 0) as [rep|e|]; [eauto|exfalso; exact (HC e HE H1 H2 eq_refl)|congruence].
Qed.
End Document.
Print Assumptions C70_document.
Print Assumptions C70_document_plain.

(** ** C71: the document as a whole *)
Theorem C71_document E fuel depth observe o mf name version files reps : env_ok E -> format_ok o -> files <> [] ->
  Forall2 (fun p rep => checkOneFile E fuel depth p (observe p) o mf = Ok rep) files reps ->
  valid actual (node "jpylyzer" (toolInfo name version :: reps)).
Proof.
  intros HE HF HN HR. eapply node_valid; [reflexivity|]. apply ref_valid; [|reflexivity|].
  { eapply node_valid; [reflexivity|]. repeat (apply ref_valid; [eapply leaf_valid; [reflexivity|exact I]|reflexivity|]). constructor. }
  apply -> m_seq1. assert (HV : Forall (fun e => valid actual e /\ etag e = "file") reps).
  { clear -HR HE HF. induction HR as [|p rep files reps H HR IH]; constructor; [|exact IH]. split; [eapply C71_reports; eassumption|].
    revert H. unfold checkOneFile. destruct (fo_size (observe p)) as [size|e|]; cbn [rbind]; try discriminate.
    destruct (match fo_mtime (observe p) with Raise ValueError => _ | _ => _ end) as [mt|e|]; cbn [rbind]; try discriminate.
    destruct (analyse E fuel depth p (fo_map (observe p)) o) as [a|e|]; try discriminate;
      (destruct (if negb (mf =? 0) && truth _ then _ else _) as [mix|e'|]; cbn [rbind]; try discriminate; intros H; injection H as <-; reflexivity). }
  assert (HL : List.length files = List.length reps) by (clear -HR; induction HR; cbn; congruence). clear HR. assert (HM : reps = List.concat (map (fun e => [e]) reps)) by (clear; induction reps; cbn; congruence).
  rewrite HM. constructor; [|exact I|].
  - rewrite map_length, <- HL. destruct files; [contradiction|]. cbn. lia.
  - clear -HV. induction HV as [|e l [H1 H2] HV IH]; cbn [map]; constructor; [|exact IH]. rewrite <- H2. now constructor.
Qed.
Print Assumptions C71_document.

(** ** Embedded XML *)
(** Elements with all names in namespaces mean the same anywhere. *)
Inductive qualified : elt -> Prop :=
| qualified_elt t a v k : (exists u l, pys t = braced u l) -> Forall qualified k -> qualified (Elt t a v k).
Theorem C70_embedded strict e env env' : parsed strict e -> qualified e -> means env e = means env' e.
Proof.
  intros HP HQ. induction e as [t a v k IH] using elt_ind'. inversion HP as [? ? ? ? HT HA _ HK]; subst. inversion HQ as [? ? ? ? (u & l & HB) HQK]; subst.
  cbn [means]. destruct (parsed_decls strict a HA) as [-> ->]. cbn [app].
  assert (H1 : ename env true (pys t) = ename env' true (pys t)) by (now rewrite HB).
  assert (H2 : map (fun p => match ename env false (fst p) with Some m => Some (m, snd p) | None => None end) (map (fun p : string * pystr => (pys (fst p), snd p)) a) =
    map (fun p => match ename env' false (fst p) with Some m => Some (m, snd p) | None => None end) (map (fun p => (pys (fst p), snd p)) a)).
  { clear -HA. induction HA as [|p a (P1 & _) HA IHA]; [reflexivity|]. cbn [map fst snd]. now rewrite IHA, !(plain_attr strict _ _ P1). }
  assert (H3 : map (means env) k = map (means env') k).
  { clear -IH HK HQK. induction IH as [|x k Hx HF IHF]; [reflexivity|]. inversion HK; subst. inversion HQK; subst. cbn [map]. f_equal; auto. }
  now rewrite H1, H2, H3.
Qed.
Print Assumptions C70_embedded.
(** Elements without a namespace in an XML box end up in that of jpylyzer. *)
Theorem C70_embedded_refuted : exists E rep y, xml_parse E [x3c; x61; x2f; x3e] = Some (node "a" []) /\
  parse (pys "<a/>") = Some (DElem (pys "a") [] []) /\
  checkOneFile E 100 10 (pys "a.jp2") (ex_fo (Mapped [x00; x00; x00; x0c; x78; x6d; x6c; x20; x3c; x61; x2f; x3e])) (op "jp2" false) 0 = Ok rep /\
  findall ["properties"; "xmlBox"] rep = [node "xmlBox" [node "a" []]] /\
  means default_ns (node "xmlBox" [node "a" []]) = Some y /\
  y = DElem (braced NS_STRING_2 (pys "xmlBox")) [] [DElem (braced NS_STRING_2 (pys "a")) [] []].
Proof.
  exists {| catC := catC E0; isspace := isspace E0; xml_parse := fun _ => Some (node "a" []); pow10neg := pow10neg E0; str_limit := None |}.
  eexists. eexists. split; [reflexivity|]. split; [vm_compute; reflexivity|]. split; [vm_compute; reflexivity|].
  split; [vm_compute; reflexivity|]. split; [vm_compute; reflexivity|]. vm_compute. reflexivity.
Qed.
Print Assumptions C70_embedded_refuted.

(** ** Names of files with control characters *)
(** A parser that refuses characters not allowed in XML stops the batch at the first
    such file; the files after it are not reported and the document is not closed. *)
Theorem C70_names_refuted dom : dom_strict dom -> exists observe files,
  let r := processFiles E0 100 10 observe (writeElement dom false) (op "jp2" false) 0 files in
  List.length files = 2%nat /\ Main.out r = [] /\ ends r <> Finished.
Proof.
  intros HS. set (fo := {| fo_basename := [97; 1]; fo_abspath := pys "/a"; fo_size := Ok 0; fo_mtime := Ok (pys "2020-01-01T00:00:00"); fo_map := MapEmpty |}).
  exists (fun _ => fo), [pys "a"; pys "b"]. cbv zeta. split; [reflexivity|].
  assert (HX : exists rep s, checkOneFile E0 100 10 (pys "a") fo (op "jp2" false) 0 = Ok rep /\ tostring rep = Ok s /\ forallb is_char s = false).
  { eexists. eexists. split; [vm_compute; reflexivity|]. split; [vm_compute; reflexivity|]. vm_compute. reflexivity. }
  destruct HX as (rep & s & H1 & H2 & H3). cbn [processFiles]. rewrite H1. cbn [rbind]. unfold writeElement. rewrite H2. cbn [rbind].
  specialize (HS s). destruct (dom s) as [d|e|]; cbn [rbind Main.out ends]; [exfalso; rewrite (HS d eq_refl) in H3; discriminate|split; [reflexivity|discriminate]..].
Qed.
Print Assumptions C70_names_refuted.

(** ** Line ends in the values of attributes do not survive indentation. *)
Theorem C70_values_refuted dom : dom_ok dom -> exists e y s z, stands false e y /\
  writeElement dom false e = Ok s /\ parse (xmlHead ++ s ++ xmlTail) = Some z /\ trim z <> document [trim y].
Proof.
  intros HD. set (e := Elt "a" [("b", [10])] VNone []).
  assert (HO : exists x y, content (pys "<a b=" ++ [34] ++ pys "&#10;" ++ [34] ++ pys " />") = Some [x] /\ expand [] x = Some y).
  { eexists. eexists. split; [vm_compute; reflexivity|]. vm_compute. reflexivity. }
  assert (HX : dom (pys "<a b=" ++ [34] ++ pys "&#10;" ++ [34] ++ pys " />") = Ok (DElem (pys "a") [(pys "b", [10])] [])).
  { destruct HO as (x & y & H1 & H2). rewrite (HD _ _ _ H1 H2). vm_compute in H1. injection H1 as <-. reflexivity. }
  assert (HT : tostring e = Ok (pys "<a b=" ++ [34] ++ pys "&#10;" ++ [34] ++ pys " />")) by (vm_compute; reflexivity).
  exists e. eexists. eexists. eexists. split; [|split].
  - destruct (parsed_stands false e) as (W & R & _).
    + constructor; [now left| |repeat constructor; intros []|constructor]. apply Forall_cons; [|apply Forall_nil]. cbn [fst snd].
      split; [now left|]. split; [discriminate|]. apply Forall_cons; [split; [reflexivity|discriminate]|apply Forall_nil].
    + constructor; [now left|apply Forall_nil].
    + split; [exact W|]. split; [exact R|]. vm_compute. reflexivity.
  - unfold writeElement. rewrite HT. cbn [rbind]. rewrite HX. vm_compute. reflexivity.
  - split; [vm_compute; reflexivity|]. vm_compute. discriminate.
Qed.
Print Assumptions C70_values_refuted.

(** ** Non-vacuity: a parser, an environment, a batch *)
Definition dom0 (s : pystr) : res dnode :=
  match content s with
  | Some [x] => match expand [] x with Some _ => Ok (decls_first x) | None => Raise ValueError end
  | _ => Raise ValueError
  end.
Definition E2 : env := {|
  catC := fun c => negb (is_char c) || (c <? 32) || (c =? 127); isspace := isspace E0; xml_parse := xml_parse E0;
  pow10neg := pow10neg E0; str_limit := None |}.
Example C70_ex_env : dom_ok dom0 /\ env_ok E2 /\ unicode_ok (catC E2) /\ parser_ok true E2 /\ format_ok (op "jp2" false) /\
  file_info_ok (ex_fo MapEmpty).
Proof.
  assert (HA : ascii_ok (catC E2)) by (intros c Hc; cbn [catC E2]; unfold is_char, in_range; lia).
  split; [intros s x y H1 H2; unfold dom0; now rewrite H1, H2|]. split; [split; [exact HA|exact I]|].
  split; [split; [exact HA|]; intros c Hc; cbn [catC E2]; rewrite xml_is_char in Hc; destruct (is_char c); [contradiction|reflexivity]|].
  split.
  { intros b e. cbn [xml_parse E2 E0]. destruct b as [|x b]; [discriminate|]. destruct x; try discriminate. destruct (rev b) as [|y r]; [discriminate|].
    destruct y; try discriminate. intros H. injection H as <-. now apply parsed_node. }
  split; [now left|].
  assert (HX : forall s, forallb is_char (pys s) = true -> xml_string (pys s)).
  { intros s H. apply Forall_forall. intros c Hc. apply xml_is_char. rewrite forallb_forall in H. auto. }
  split; [apply (HX "a.jp2"); reflexivity|]. split; [apply (HX "/d/a.jp2"); reflexivity|].
  exists 168, (pys "2020-01-01T00:00:00"). split; [reflexivity|]. split; [reflexivity|]. now apply plainb_spec.
Qed.
Definition ex_run (np : bool) : Main.run :=
  checkFiles E2 100 10 (ex_fsys [pys "a"]) (fun _ => ex_fo MapEmpty) (writeElement dom0 np) (toolInfo (pys "jpylyzer") (pys "2.2.1")) [] (op "jp2" false) 0 false [pys "a"].
Definition leaf_paths : dnode -> list (pystr * list dnode) :=
  fix go (x : dnode) := match x with
    | DText _ => []
    | DElem n _ k => if existsb is_elem k then flat_map go k else [(n, k)]
    end.
Definition in_ns (s : string) : pystr := braced NS_STRING_2 (pys s).
(** What a reader of the output finds, with and without indentation. *)
Example C70_ex : Forall (fun np => ends (ex_run np) = Finished /\
  match parse (stdout_text (ex_run np)) with
  | Some z => leaf_paths z = map (fun p => (in_ns (fst p), match snd p with EmptyString => [] | s => [DText (pys s)] end))
      [("toolName", "jpylyzer"); ("toolVersion", "2.2.1"); ("fileName", "a.jp2"); ("filePath", "/d/a.jp2"); ("fileSizeInBytes", "168");
       ("fileLastModified", "2020-01-01T00:00:00"); ("success", "True"); ("isValid", "False"); ("containsSignatureBox", "False");
       ("containsFileTypeBox", "False"); ("containsJP2HeaderBox", "False"); ("containsContiguousCodestreamBox", "False"); ("firstBoxIsSignatureBox", "False");
       ("secondBoxIsFileTypeBox", "False"); ("locationJP2HeaderBoxIsValid", "False"); ("properties", ""); ("warning", "empty file a")]
  | None => False
  end) [true; false].
Proof. apply Forall_cons; [split; vm_compute; reflexivity|]. apply Forall_cons; [split; vm_compute; reflexivity|apply Forall_nil]. Qed.
(** MIX output, as a reader with namespaces sees it. *)
Definition mix_leaves (x : dnode) : list (pystr * list dnode) :=
  filter (fun p => pystr_eqb (firstn 28 (fst p)) (pys "{http://www.loc.gov/mix/v10}")) (leaf_paths x).
Example C70_ex_mix :
  match checkOneFile E2 100 10 (pys "a") (ex_fo (Mapped ex_file)) (op "jp2" false) 1 with
  | Ok rep => match writeElement dom0 true rep with
    | Ok s => match parse (xmlHead ++ s ++ xmlTail) with
      | Some z => mix_leaves z = map (fun p => (braced (pys "http://www.loc.gov/mix/v10") (pys (fst p)), [DText (pys (snd p))]))
          [("formatName", "image/jp2"); ("byteOrder", "big_endian"); ("compressionScheme", "JPEG 2000 Lossless"); ("compressionRatio", "0");
           ("imageWidth", "2"); ("imageHeight", "2"); ("colorSpace", "greyscale"); ("tiles", "2x2"); ("qualityLayers", "1");
           ("bitsPerSampleValue", "8"); ("bitsPerSampleUnit", "integer"); ("samplesPerPixel", "1")]
      | None => False
      end
    | _ => False
    end
  | _ => False
  end.
Proof. vm_compute. reflexivity. Qed.
