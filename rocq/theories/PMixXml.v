(** * MIX output as XML: names, prefixes, characters *)

From Coq Require Import ZArith List Bool String Lia.
From Coq Require Import SpecFloat.
From Coq Require Import ZifyBool.
From Verif Require Import Py PyFloat ByteConv ETree BV Remap Mix Spec SpecText PBase PHuman SpecXml PXml PSerial.
Import ListNotations.
Open Scope string_scope.
Open Scope list_scope.
Open Scope Z_scope.

(** Elements below the root of MIX output: names with the prefix mix, no attributes. *)
Inductive mixed : elt -> Prop :=
| mixed_elt l v k : is_ncname (pys l) = true -> text_ok v -> Forall mixed k -> mixed (Elt ("mix:" ++ l)%string [] v k).

Lemma mixed_leaf l v : is_ncname (pys l) = true -> text_ok v -> mixed (leaf ("mix:" ++ l)%string v).
Proof. intros H1 H2. constructor; auto. Qed.
Lemma mixed_node l k : is_ncname (pys l) = true -> Forall mixed k -> mixed (node ("mix:" ++ l)%string k).
Proof. intros H1 H2. constructor; auto. now left. Qed.
Lemma chars_ok s : forallb is_char s = true -> text_ok (VStr s).
Proof. intros H. right. eauto. Qed.

Definition chars (s : pystr) : Prop := forallb is_char s = true.
Lemma chars_app s t : chars (s ++ t) <-> chars s /\ chars t.
Proof. unfold chars. rewrite forallb_app, andb_true_iff. reflexivity. Qed.
Lemma chars_rev s : chars s -> chars (rev s).
Proof. unfold chars. rewrite !forallb_forall. intros H c Hc. apply H. now apply in_rev. Qed.
Lemma chars_cons c s : chars (c :: s) <-> is_char c = true /\ chars s.
Proof. unfold chars. cbn. apply andb_true_iff. Qed.
Lemma chars_drop p s : chars s -> chars (dropWhile p s).
Proof. induction s as [|c s IH]; [auto|]. cbn [dropWhile]. rewrite chars_cons. intros [H1 H2]. destruct (p c); [auto|]. apply chars_cons. auto. Qed.
Lemma chars_take p s : chars s -> chars (takeWhile p s).
Proof. induction s as [|c s IH]; [auto|]. cbn [takeWhile]. rewrite chars_cons. intros [H1 H2]. destruct (p c); [|reflexivity]. apply chars_cons. auto. Qed.
Lemma chars_strip sp v s : text_ok v -> Mix.strip sp v = Ok s -> chars s.
Proof.
  intros [->|(t & -> & H)]; cbn; [discriminate|]. intros E. injection E as <-. apply chars_rev, chars_drop, chars_rev, chars_drop. exact H.
Qed.
Lemma chars_dash s a b : chars s -> lastDashV s = Some (a, b) -> chars a /\ chars b.
Proof.
  revert a b. induction s as [|c s IH]; intros a b HC; [discriminate|]. apply chars_cons in HC. destruct HC as [H1 H2]. cbn [lastDashV].
  destruct (lastDashV s) as [[a' b']|].
  - intros E. injection E as <- <-. destruct (IH _ _ H2 eq_refl). split; [apply chars_cons|]; auto.
  - destruct s as [|d r]; [discriminate|]. destruct ((c =? 45) && (d =? 118)); [|discriminate]. intros E. injection E as <- <-. split; [reflexivity|]. now apply chars_cons in H2.
Qed.
Lemma chars_lines s : chars s -> Forall chars (splitLines s).
Proof.
  induction s as [|c s IH]; intros H; [repeat constructor|]. apply chars_cons in H. destruct H as [H1 H2]. cbn [splitLines]. specialize (IH H2).
  destruct (c =? 10); [constructor; [reflexivity|exact IH]|]. destruct (splitLines s) as [|l r]; [repeat constructor; now apply chars_cons|].
  inversion IH; subst. constructor; [|assumption]. apply chars_cons. auto.
Qed.
Lemma chars_codec s a b : chars s -> searchCodec s = Some (a, b) -> chars a /\ chars b.
Proof.
  intros H. unfold searchCodec. assert (HL := chars_lines _ H). induction HL as [|l r Hl HL IH]; [discriminate|]. cbn [firstSome].
  destruct (lastDashV l) as [[a' b']|] eqn:E; [|exact IH]. intros E'. injection E' as <- <-. destruct (chars_dash _ _ _ Hl E). split; [assumption|now apply chars_take].
Qed.
Lemma chars_space s a b : chars s -> lastSpace s = Some (a, b) -> chars a /\ chars b.
Proof.
  revert a b. induction s as [|c s IH]; intros a b HC; [discriminate|]. apply chars_cons in HC. destruct HC as [H1 H2]. cbn [lastSpace].
  destruct (lastSpace s) as [[a' b']|].
  - intros E. injection E as <- <-. destruct (IH _ _ H2 eq_refl). split; [apply chars_cons|]; auto.
  - destruct (c =? 32); [|discriminate]. intros E. injection E as <- <-. split; [reflexivity|exact H2].
Qed.
Lemma chars_tool s a b : chars s -> searchTool s = Some (a, b) -> chars a /\ chars b.
Proof.
  intros H. unfold searchTool. assert (HD : chars (dropFinalNewline s)).
  { unfold dropFinalNewline. assert (HR := chars_rev _ H). destruct (rev s) as [|c r]; [exact H|]. apply chars_cons in HR. destruct (c =? 10); [now apply chars_rev|exact H]. }
  destruct (existsb _ _); [discriminate|]. destruct (lastSpace _) as [[a' b']|] eqn:E; [|discriminate]. destruct (forallb isVerChar b'); [|discriminate].
  intros E'. injection E' as <- <-. now apply (chars_space (dropFinalNewline s)).
Qed.
Lemma chars_text v : text_ok v -> chars (strText v).
Proof. intros [->|(s & -> & H)]; [reflexivity|exact H]. Qed.
Lemma chars_ascii s : ascii_text s -> chars s.
Proof. intros H. apply forallb_forall. intros c Hc. unfold ascii_text in H. rewrite Forall_forall in H. apply H in Hc. unfold is_char, in_range. lia. Qed.
Lemma chars_Z z : chars (str_of_Z z).
Proof. apply chars_ascii, str_plain. Qed.

(** Trees of legal characters *)
Inductive legal : elt -> Prop :=
| legal_elt t a v k : text_ok v -> Forall (fun p => chars (snd p)) a -> Forall legal k -> legal (Elt t a v k).
Lemma legal_text e : legal e -> text_ok (etext e).
Proof. now inversion 1. Qed.
Lemma legal_findall path e : legal e -> Forall legal (findall path e).
Proof.
  revert e. induction path as [|t path IH]; intros e H; [repeat constructor; exact H|]. cbn [findall]. apply Forall_forall. intros x Hx.
  apply in_flat_map in Hx. destruct Hx as (y & Hy & Hx). apply filter_In in Hy. destruct Hy as [Hy _].
  inversion H as [? ? ? ? _ _ HK]; subst. cbn [ekids] in Hy. rewrite Forall_forall in HK. specialize (IH y (HK y Hy)). rewrite Forall_forall in IH. auto.
Qed.
Lemma legal_find path e x : legal e -> ETree.find path e = Some x -> legal x.
Proof.
  intros H HF. assert (HA := legal_findall path e H). unfold ETree.find in HF. destruct (findall path e) as [|y r]; [discriminate|]. injection HF as <-. now inversion HA.
Qed.
Lemma legal_at path e v : legal e -> textAt path e = Ok v -> text_ok v.
Proof. intros H. unfold textAt. destruct (ETree.find path e) as [x|] eqn:E; [|discriminate]. intros HV. injection HV as <-. eapply legal_text, legal_find; eassumption. Qed.
Lemma legal_texts path e : legal e -> Forall text_ok (findAllText path e).
Proof. intros H. unfold findAllText. apply Forall_map. eapply Forall_impl; [|apply legal_findall; exact H]. exact legal_text. Qed.
Lemma legal_attr k a s : Forall (fun p : string * pystr => chars (snd p)) a -> attrGet k a = Some s -> chars s.
Proof. induction 1 as [|[n v] a H HA IH]; [discriminate|]. cbn [attrGet]. destruct (String.eqb k n); [|exact IH]. intros E. injection E as <-. exact H. Qed.
Lemma legal_rdf rdf p t v : legal rdf -> findValueInRDF rdf p t = Ok v -> text_ok v.
Proof.
  intros H. unfold findValueInRDF. destruct (ETree.find [p; t] rdf) as [x|] eqn:E.
  { intros HV. injection HV as <-. eapply legal_text, legal_find; eassumption. }
  destruct (ETree.find [p] rdf) as [d|] eqn:E'; [|discriminate]. apply (legal_find _ _ _ H) in E'. inversion E' as [t' a v' k _ HA _]; subst. cbn [eattrib].
  destruct (attrGet t a) as [[|c s]|] eqn:E2; intros HV; injection HV as <-; [now left| |now left]. apply chars_ok. exact (legal_attr _ _ _ HA E2).
Qed.
Lemma legal_join l s : Forall text_ok l -> joinComma l = Ok s -> chars s.
Proof.
  revert s. induction l as [|v l IH]; intros s H HJ; [injection HJ as <-; reflexivity|]. inversion H as [|? ? Hv Hl]; subst. cbn [joinComma] in HJ.
  destruct Hv as [->|(x & -> & Hx)]; [discriminate|]. destruct l as [|w l]; [injection HJ as <-; exact Hx|].
  destruct (joinComma (w :: l)) as [t|e|]; cbn [rbind] in HJ; try discriminate. injection HJ as <-. apply chars_app. split; [exact Hx|]. apply (chars_cons 44). split; [reflexivity|]. now apply IH.
Qed.

Section M.
Variables (sp : Z -> bool) (mf : Z).
Ltac step H := match type of H with
  | rbind ?m _ = Ok _ => let E := fresh "E" in destruct m eqn:E; cbn [rbind] in H; [|discriminate H|discriminate H]
  end.
Ltac nm := lazymatch goal with |- mixed (leaf ?s ?v) => let l := eval cbn in (substring 4 (String.length s) s) in change s with ("mix:" ++ l)%string; apply mixed_leaf; [reflexivity|]
  | |- mixed (node ?s ?v) => let l := eval cbn in (substring 4 (String.length s) s) in change s with ("mix:" ++ l)%string; apply mixed_node; [reflexivity|] end.
Ltac all := repeat first [apply Forall_cons | apply Forall_nil | nm].

Lemma bdoi_mixed P m : legal P -> mixBDOI sp mf P = Ok m -> mixed m.
Proof.
  intros HP H. unfold mixBDOI in H. step H. assert (HN : chars a).
  { destruct (ETree.find ["fileTypeBox"; "br"] P) as [br|] eqn:EB; [|injection E as <-; reflexivity].
    destruct (Mix.strip sp (etext br)) as [s|e|] eqn:ES; cbn [rbind] in E; try discriminate. injection E as <-. apply (proj2 (chars_app (pys "image/") s)). split; [reflexivity|].
    eapply chars_strip; [|exact ES]. eapply legal_text, legal_find; eassumption. }
  repeat step H. assert (HS : forall b : bool, chars (if b then pys "JPEG 2000 Lossless" else pys "JPEG 2000 Lossy")) by (intros []; reflexivity).
  destruct (mf =? 1); step H; injection H as <-; all; first [apply chars_ok; first [exact HN|apply HS|apply chars_Z|reflexivity]].
Qed.

Lemma bii_mixed P m : legal P -> mixBII sp mf P = Ok m -> mixed m.
Proof.
  intros HP H. unfold mixBII in H. step H. step H. apply (legal_at _ _ _ HP) in E, E0. step H. rename a1 into pi.
  assert (HPI : Forall mixed pi).
  { clear H. assert (HE : forall cs', rbind (textAt ["jp2HeaderBox"; "colourSpecificationBox"; "enumCS"] P) (fun cs => rbind (Mix.strip sp cs) (fun cs' => Ok [leaf "mix:colorSpace" (VStr cs')])) = Ok cs' -> Forall mixed cs').
    { intros cs' H. step H. step H. injection H as <-. all. apply chars_ok. eapply chars_strip; [|eassumption]. eapply legal_at; eassumption. }
    destruct (ETree.find _ P) as [[t a' v [|k ks]]|]; [now apply HE| |now apply HE]. repeat step E1. injection E1 as <-. all.
    - apply chars_ok. eapply chars_strip; [|eassumption]. eapply legal_at; eassumption.
    - eapply legal_at; eassumption. }
  step H. rename a1 into codec.
  assert (HC : Forall mixed codec).
  { clear H E1. destruct (ETree.find _ P) as [c|] eqn:EC; [|injection E2 as <-; constructor]. apply (legal_find _ _ _ HP), legal_text in EC.
    destruct (etext c) as [|s| | | |] eqn:ET; try discriminate. destruct EC as [EC|(s' & EC & HS)]; [discriminate|]. injection EC as <-.
    destruct (searchCodec s) as [[a' b']|] eqn:ES; injection E2 as <-; [|constructor]. destruct (chars_codec _ _ _ HS ES). all; now apply chars_ok. }
  repeat step H. repeat match goal with HX : textAt _ P = Ok _ |- _ => apply (legal_at _ _ _ HP), chars_text in HX end.
  assert (HI : forall (b : bool) l, Forall mixed l -> Forall mixed (if b then [] else l)) by (intros [] l Hl; auto).
  injection H as <-. all; try (apply chars_ok, chars_text; assumption); [exact HPI|].
  apply Forall_app. split; [exact HC|]. all. apply Forall_app. split; [destruct (mf =? 1); all; apply chars_ok; try assumption|].
  - apply chars_app. split; [assumption|]. now apply (chars_cons 120).
  - apply Forall_app. split; apply HI; all; now apply chars_ok.
Qed.

Lemma exist_mixed rdf p t l k : legal rdf -> is_ncname (pys l) = true -> addIfExist sp rdf p t ("mix:" ++ l)%string = Ok k -> Forall mixed k.
Proof.
  intros HL HN H. unfold addIfExist in H. step H. apply (legal_rdf _ _ _ _ HL) in E. destruct E as [->|(s & -> & HS)]; [injection H as <-; constructor|].
  step H. injection H as <-. apply Forall_cons; [|apply Forall_nil]. apply mixed_leaf; [exact HN|]. apply chars_ok. eapply chars_strip; [|eassumption]. now apply chars_ok.
Qed.
Lemma truthy_some o e : truthy o = Some e -> o = Some e.
Proof. destruct o as [[t a v [|k ks]]|]; intros H; try discriminate; exact H. Qed.
Lemma icm_mixed P m : legal P -> mixICM sp mf P = Ok (Some m) -> mixed m.
Proof.
  intros HP H. unfold mixICM in H. destruct (mf =? 0); [discriminate|].
  assert (HL : forall rdf, (match truthy (ETree.find (rdfPath "xmlBox") P) with Some r => Some r | None => truthy (ETree.find (rdfPath "uuidBox") P) end) = Some rdf -> legal rdf).
  { intros rdf. destruct (truthy (ETree.find (rdfPath "xmlBox") P)) as [r|] eqn:E.
    - intros HR. injection HR as <-. apply truthy_some in E. eapply legal_find; eassumption.
    - intros HR. apply truthy_some in HR. eapply legal_find; eassumption. }
  destruct (match truthy (ETree.find (rdfPath "xmlBox") P) with Some r => Some r | None => _ end) as [rdf|]; [|discriminate]. specialize (HL rdf eq_refl).
  repeat step H. repeat match goal with HX : addIfExist _ rdf _ _ _ = Ok _ |- _ => apply (exist_mixed rdf _ _ _ _ HL) in HX; [|reflexivity] end.
  assert (HT := legal_rdf _ _ _ _ HL E4).
  assert (HW : Forall mixed a5).
  { clear H. destruct HT as [->|(s & -> & HS)]; [injection E5 as <-; constructor|]. destruct (searchTool s) as [[x y]|] eqn:ES; injection E5 as <-.
    - destruct (chars_tool _ _ _ HS ES). all; now apply chars_ok.
    - all. now apply chars_ok. }
  assert (HN : forall n l, is_ncname (pys n) = true -> Forall mixed l -> Forall mixed (match l with [] => [] | e :: l => [node ("mix:" ++ n)%string (e :: l)] end)).
  { intros n l Hn Hl. destruct l; [constructor|]. apply Forall_cons; [|apply Forall_nil]. now apply mixed_node. }
  injection H as <-. all.
  - apply Forall_app. auto.
  - apply (HN "ScannerCapture" (_ ++ _)); [reflexivity|]. apply Forall_app. split; [assumption|]. apply Forall_app. split; [|exact HW]. apply (HN "ScannerModel" (_ ++ _)); [reflexivity|]. apply Forall_app. auto.
Qed.
Lemma iam_mixed P m : legal P -> mixIAM mf P = Ok m -> mixed m.
Proof.
  intros HP H. unfold mixIAM in H. step H. destruct (ETree.find ["contiguousCodestreamBox"; "siz"] P) as [z|] eqn:EZ; [|discriminate]. apply (legal_find _ _ _ HP) in EZ.
  step H. step H. injection H as <-. all. apply Forall_app. split.
  - destruct a as [[x y]|]; [|constructor]. all; try apply chars_ok; try apply chars_Z; try reflexivity. destruct (mf =? 1); reflexivity.
  - all.
    + assert (HT := legal_texts ["ssizDepth"] z EZ). destruct (mf =? 1).
      * step E0. injection E0 as <-. all; [|now apply chars_ok]. apply chars_ok. eapply legal_join; eassumption.
      * injection E0 as <-. all. apply Forall_app. split; [|all; now apply chars_ok]. apply Forall_map. eapply Forall_impl; [|exact HT]. cbn beta. intros v Hv. now all.
    + eapply legal_at; eassumption.
Qed.

Definition mix_ns : pystr := pys (if mf =? 1 then "http://www.loc.gov/mix/v10" else "http://www.loc.gov/mix/v20").
Lemma mix_mixed P m : legal P -> generateMix sp mf P = Ok m -> exists loc k, m = Elt "mix:mix" [("xmlns:mix", mix_ns); ("xmlns:xsi", pys "http://www.w3.org/2001/XMLSchema-instance"); ("xsi:schemaLocation", loc)] VNone k /\
  forallb (fun c => is_char c && (32 <=? c)) loc = true /\ Forall mixed k.
Proof.
  intros HP H. unfold generateMix in H. step H. step H. step H. step H. injection H as <-. eexists. eexists. split; [reflexivity|]. split; [destruct (mf =? 1); reflexivity|].
  apply Forall_cons; [eapply bdoi_mixed; eassumption|]. apply Forall_cons; [eapply bii_mixed; eassumption|]. apply Forall_app. split.
  - destruct (truthy a1) as [x|] eqn:ET; [|constructor]. apply truthy_some in ET. subst a1. apply Forall_cons; [|apply Forall_nil]. eapply icm_mixed; eassumption.
  - apply Forall_cons; [|apply Forall_nil]. eapply iam_mixed; eassumption.
Qed.
End M.
