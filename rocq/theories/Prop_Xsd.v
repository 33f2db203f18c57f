(** * Reports against the published schema: C71 *)

From Coq Require Import ZArith List Bool String Lia.
From Coq Require Import Init.Byte.
From Coq Require Import ZifyBool.
From Verif Require Import Py PyFloat ByteConv ETree BV VSuper Remap Mix CheckFile Spec SpecText PBase PHuman Ex Prop_Check
     Serial SpecXml SpecXsd PXsd PXsdV PSchema Prop_MixFile.
Import ListNotations.
Open Scope string_scope.
Open Scope list_scope.
Open Scope Z_scope.

Lemma any_list V l : matches V (Star (Seq [Any])) l.
Proof.
  induction l as [|e l IH]; [apply m_star_nil|]. change (e :: l) with ([e] ++ l). apply m_star_app; [|exact IH].
  apply m_star_one. apply -> m_seq1. constructor.
Qed.
Lemma any_list' V l : matches V (Star Any) l.
Proof.
  induction l as [|e l IH]; [apply m_star_nil|]. change (e :: l) with ([e] ++ l). apply m_star_app; [|exact IH]. apply m_star_one. constructor.
Qed.
Lemma leaf_valid S t ty v : declared S t = Some (Simple ty) -> text_is (typed ty) v -> valid S (leaf t v).
Proof. apply valid_simple. Qed.
Lemma node_valid S t p k : declared S t = Some (Complex p) -> matches (valid S) p k -> valid S (node t k).
Proof. intros H HM. eapply valid_complex; [exact H|constructor|exact HM]. Qed.
Lemma ref_valid (V : elt -> Prop) n e l ps : V e -> etag e = n -> matches V (Seq ps) l -> matches V (Seq (Ref n :: ps)) (e :: l).
Proof. intros H <- HM. change (e :: l) with ([e] ++ l). constructor; [now constructor|exact HM]. Qed.

(** The properties of every analysed file. *)
Lemma properties_valid E fuel depth o t b r e' : root_type (o_format o) t -> validate E o fuel depth t b VNone VNone = Ok r ->
  rel (shows (catC E) (str_limit E) propertiesRemapTable) (r_chars r) e' -> valid actual e'.
Proof.
  intros HT HV HR. assert (HB : bareF o = true -> fence t = true).
  { unfold bareF. intros HB. destruct HT as [(HI & ->)|(_ & ->)]; [|reflexivity]. exfalso. destruct HI as [HI|[HI|[]]]; rewrite <- HI in HB; discriminate. }
  destruct (sound_validate E (fun _ => True) (fun _ _ _ => I) (fun _ _ _ _ => I) (fun _ _ _ => I) o fuel depth t b VNone VNone r HB HV)
    as (_ & HG & _). now apply HG.
Qed.

(** Every report is valid against the published schema with the amendments listed in
    SpecXsd.v ([actual]), for every file, option, failure and version of MIX. *)
Theorem C71_reports E fuel depth path fo o mf rep : env_ok E -> In (o_format o) ["jp2"; "jph"; "j2c"; "jhc"] ->
  checkOneFile E fuel depth path fo o mf = Ok rep -> valid actual rep.
Proof.
  intros HE HF. unfold checkOneFile. destruct (fo_size fo) as [size|e|]; cbn [rbind]; try discriminate.
  destruct (match fo_mtime fo with Raise ValueError => _ | _ => _ end) as [mt|e|]; cbn [rbind]; try discriminate.
  assert (HH : forall v st T P W x, matches (valid actual) (Seq [Ref "success"; Opt (Ref "failureMessage")]) st -> valid actual (node "properties" P) ->
    rbind (if negb (mf =? 0) && truth (VBool v) then rbind (generateMix (isspace E) mf (node "properties" P)) (fun m => Ok [m]) else Ok [])
      (fun mix => Ok (node "file" ([node "fileInfo" [leaf "fileName" (VStr (stripSurrogatePairs (fo_basename fo)));
         leaf "filePath" (VStr (stripSurrogatePairs (fo_abspath fo))); leaf "fileSizeInBytes" (VStr (str_of_Z size)); leaf "fileLastModified" (VStr mt)];
         node "statusInfo" st; Elt "isValid" [("format", pys (o_format o))] (VStr (strText (VBool v))) []; node "tests" T; node "properties" P] ++
         (if mf =? 0 then [] else [node "propertiesExtension" (if (String.eqb (o_format o) "jp2" || String.eqb (o_format o) "jph") && truth (VBool v) then mix else [])]) ++
         [node "warnings" W]))) = Ok x -> valid actual x).
  { intros v st T P W x HS HP. destruct (if negb (mf =? 0) && truth (VBool v) then _ else _) as [mix|e|]; cbn [rbind]; try discriminate.
    intros H. injection H as <-. eapply node_valid; [reflexivity|]. cbn [app].
    apply ref_valid; [|reflexivity|].
    { eapply node_valid; [reflexivity|]. repeat (apply ref_valid; [|reflexivity|]); [eapply leaf_valid; [reflexivity|]..|constructor]; cbn; auto.
      apply (decimal_integer size), str_decimal. }
    apply ref_valid; [eapply node_valid; [reflexivity|exact HS]|reflexivity|].
    apply ref_valid; [|reflexivity|].
    { eapply valid_attributed; [reflexivity| |].
      - destruct v; [exists "True"|exists "False"]; cbn; auto.
      - exists (o_format o). auto. }
    apply ref_valid; [eapply node_valid; [reflexivity|apply any_list]|reflexivity|].
    apply ref_valid; [exact HP|reflexivity|].
    destruct (mf =? 0); cbn [app].
    - change [node "warnings" W] with ([] ++ [node "warnings" W]). constructor; [apply m_star_nil|].
      apply ref_valid; [eapply node_valid; [reflexivity|apply any_list]|reflexivity|constructor].
    - change (?a :: [node "warnings" W]) with ([a] ++ [node "warnings" W]). constructor.
      + apply m_star_one. apply (m_ref _ (node "propertiesExtension" _)). eapply node_valid; [reflexivity|]. apply -> m_seq1. apply any_list'.
      + apply ref_valid; [eapply node_valid; [reflexivity|apply any_list]|reflexivity|constructor]. }
  pose proof (analyse_spec E fuel depth path (fo_map fo) o HE) as HS.
  destruct (analyse E fuel depth path (fo_map fo) o) as [a|e|]; [| |discriminate].
  - destruct HS as (v & T & P & W & HV & HT & HP & HW & b & w & t & r & W0 & _ & HR & HX & _ & _ & HC & _).
    rewrite HV, HT, HP, HW. apply HH.
    + apply ref_valid; [eapply leaf_valid; [reflexivity|exists "True"; cbn; auto]|reflexivity|]. apply -> m_seq1. apply m_opt_none.
    + eapply properties_valid; eassumption.
  - apply HH.
    + apply ref_valid; [eapply leaf_valid; [reflexivity|exists "False"; cbn; auto]|reflexivity|]. apply -> m_seq1. apply m_opt_some.
      apply (m_ref _ (leaf "failureMessage" _)). eapply leaf_valid; [reflexivity|exact I].
    + eapply node_valid; [reflexivity|]. change (@nil elt) with (@nil elt ++ []). constructor; [apply m_star_nil|]. apply -> m_seq1.
      apply m_choice with (Opt (Ref "compressionRatio")); [now left|apply m_opt_none].
Qed.
Print Assumptions C71_reports.


(** Such a report is valid against the schema as published exactly when every element
    of it that the schema checks is [regular]. *)
Theorem C71_published rep : valid actual rep -> (valid published rep <-> forall x, own rep x -> regular x).
Proof.
  intros HA. split.
  - intros HP x HO. now apply (published_only rep).
  - now apply published_if.
Qed.
Print Assumptions C71_published.

(** A file with everything that makes a report invalid as published, except a
    compression ratio that is not finite. *)
Definition bx (n : byte) (t c : bytes) : bytes := [x00; x00; x00; n] ++ t ++ c.
Definition tail_plt : bytes := [x00; x00; x00; x00; xff; x58].
Definition ex_res : bytes := [x00; x01; x00; x01; x00; x01; x00; x01; x14; x14].
Definition ex_siz0 : bytes := [xff; x4f; xff; x51; x00; x26; x00; x00; x00; x00; x00; x02; x00; x00; x00; x02; x00; x00; x00; x00; x00; x00; x00; x00;
  x00; x00; x00; x02; x00; x00; x00; x02; x00; x00; x00; x00; x00; x00; x00; x00; x00; x00; xff; x5f; x00; x02; xff; x63; x00; x02].
Definition ex_odd : bytes :=
  bx x10 [x66; x74; x79; x70] [x00; x00; x00; x00; x00; x00; x00; x00] ++
  bx x85 [x6a; x70; x32; x68]
    (bx x08 [x62; x70; x63; x63] [] ++ bx x12 [x63; x6f; x6c; x72] [x05; x00; x00; x00; x01; x00; x01; x00; x01; x00] ++
     bx x0b [x70; x63; x6c; x72] [x00; x01; x00] ++ bx x08 [x63; x6d; x61; x70] [] ++ bx x0a [x63; x64; x65; x66] [x00; x00] ++
     bx x32 [x72; x65; x73; x20] (bx x12 [x72; x65; x73; x63] ex_res ++ bx x12 [x72; x65; x73; x64] ex_res ++ tail_plt) ++
     bx x0e [x72; x65; x73; x20] [x00; x00; x00; x00; xff; x52] ++ tail_plt) ++
  bx x18 [x75; x69; x6e; x66] (bx x0a [x75; x6c; x73; x74] [x00; x00] ++ tail_plt) ++
  bx x3a [x6a; x70; x32; x63] ex_siz0 ++ tail_plt.
Definition holds (f : elt -> bool) (r : res elt) : bool := match r with Ok x => f x | _ => false end.
Lemma pick f r : holds f r = true -> exists x, r = Ok x /\ f x = true.
Proof. destruct r as [x|e|]; [eauto|discriminate..]. Qed.
Lemma ex_odd_breaks :
  holds (fun rep => forallb (fun '(n, _) => String.eqb n "compressionRatio" ||
           match declared published n with Some _ => search (fun x => String.eqb (etag x) n && breaks x) rep | None => false end) amended)
    (checkOneFile E0 100 10 (pys "a.jp2") (ex_fo (Mapped ex_odd)) (op "jp2" false) 0) = true.
Proof. vm_compute. reflexivity. Qed.
Lemma E0_ok : env_ok E0.
Proof. split; [intros c Hc; cbn; lia|exact I]. Qed.
(** None of the amendments can be taken back (the one of the compression ratio aside). *)
Theorem C71_amendments n d : In (n, d) amended -> n <> "compressionRatio" -> exists d' fo o rep,
  declared published n = Some d' /\ o_format o = "jp2" /\ checkOneFile E0 100 10 (pys "a.jp2") fo o 0 = Ok rep /\ ~ valid ((n, d') :: actual) rep.
Proof.
  intros HI HN. destruct (pick _ _ ex_odd_breaks) as (rep & HR & H).
  rewrite forallb_forall in H. specialize (H _ HI). cbn beta iota in H. apply orb_true_iff in H. destruct H as [H|H]; [apply String.eqb_eq in H; contradiction|].
  destruct (declared published n) as [d'|] eqn:HD; [|discriminate]. exists d', (ex_fo (Mapped ex_odd)), (op "jp2" false), rep.
  split; [reflexivity|]. split; [reflexivity|]. split; [exact HR|]. apply search_own in H. destruct H as (x & HO & H). apply andb_true_iff in H. destruct H as [H1 H2].
  apply (without n d' rep x); [exact HD| |exact HO|now apply String.eqb_eq|now apply breaks_regular].
  apply (C71_reports E0 100 10 (pys "a.jp2") (ex_fo (Mapped ex_odd)) (op "jp2" false) 0 rep E0_ok); [now left|exact HR].
Qed.
Print Assumptions C71_amendments.

Lemma says_true rep : (match findElementText ["isValid"] rep with VStr s => if list_eq_dec Z.eq_dec s (pys "True") then true else false | _ => false end) = true ->
  says_valid rep.
Proof. unfold says_valid. destruct (findElementText ["isValid"] rep); try discriminate. destruct (list_eq_dec Z.eq_dec _ _) as [->|]; [reflexivity|discriminate]. Qed.
Lemma ex_jph_breaks :
  holds (fun rep => search breaks rep && match findElementText ["isValid"] rep with VStr s => if list_eq_dec Z.eq_dec s (pys "True") then true else false | _ => false end)
    (checkOneFile E0 100 10 (pys "a.jph") (ex_fo (Mapped ex_jph_file)) (op "jph" false) 0) = true.
Proof. vm_compute. reflexivity. Qed.
(** The colour method that only JPH files may use is enough: here is a valid one. *)
Theorem C71_published_refuted : exists rep,
  checkOneFile E0 100 10 (pys "a.jph") (ex_fo (Mapped ex_jph_file)) (op "jph" false) 0 = Ok rep /\ says_valid rep /\ ~ valid published rep.
Proof.
  destruct (pick _ _ ex_jph_breaks) as (rep & HR & H). apply andb_true_iff in H. destruct H as [H HS].
  exists rep. split; [exact HR|]. split; [exact (says_true _ HS)|]. intros HP. apply search_own in H. destruct H as (x & HO & HB).
  apply (breaks_regular x HB). apply (published_only rep); [exact HO| |exact HP].
  apply (C71_reports E0 100 10 (pys "a.jph") (ex_fo (Mapped ex_jph_file)) (op "jph" false) 0 rep E0_ok); [cbn; auto|exact HR].
Qed.
Print Assumptions C71_published_refuted.
