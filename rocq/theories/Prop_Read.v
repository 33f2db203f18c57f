(** * C75: what the document says about the image *)

From Coq Require Import ZArith List Bool String Ascii Lia ZifyBool.
From Verif Require Import Py ETree BV VSuper CheckFile Main Serial PosixFS SpecBox SpecMarker SpecWalk SpecSuper SpecIPL SpecCS SpecFile SpecTop SpecValid SpecOutcome SpecXml SpecFS SpecDoc SpecNames SpecRead.
From Verif Require Import Spec SpecText PBase PHuman Ex Prop_Options PFile POutcome PSerial PDoc PFS Prop_Check Prop_Tiles Prop_Top Prop_Outcome Prop_Main Prop_Xml Prop_FS.
From Verif Require Import Remap SpecXsd PSchema Prop_Xsd PEmit PSeg PWalk PTop PValid PSuper Prop_Boxes PMix PMixOk PMixFile Prop_Names Prop_CS Prop_File Prop_Mix Prop_End SpecXml SpecDoc SpecNames SpecRead.
Import ListNotations.
Open Scope string_scope.
Open Scope list_scope.
Open Scope Z_scope.

(** ** The names in the reports, and reading *)
Lemma plain_names : forallb (fun '(t, d) => (match ename default_ns true (pys t) with Some m => pystr_eqb m (jp t) | None => false end) &&
   match d with Attributed _ n _ => String.eqb n "format" | _ => true end) actual = true.
Proof. vm_compute. reflexivity. Qed.
Lemma plain_valid e : SpecXsd.valid actual e -> ename default_ns true (pys (etag e)) = Some (jp (etag e)) /\ decls (map (fun p => (pys (fst p), snd p)) (match e with Elt _ a _ _ => a end)) = [].
Proof.
  intros H. pose proof plain_names as HP. rewrite forallb_forall in HP.
  assert (HX : forall t d, declared actual t = Some d -> ename default_ns true (pys t) = Some (jp t) /\ forall n ty aty s, d = Attributed ty n aty -> decls [(pys n, s)] = []).
  { intros t d HD. apply declared_in, HP in HD. apply andb_true_iff in HD. destruct HD as [H1 H2]. split.
    - destruct (ename default_ns true (pys t)); [|discriminate]. apply pystr_eqb_spec in H1. now subst.
    - intros n ty aty s ->. apply String.eqb_eq in H2. now subst. }
  destruct H as [t ty v HD _|t ty n aty v s HD _ _|t p v k HD _ _]; destruct (HX _ _ HD) as [H1 H2]; (split; [exact H1|]); [reflexivity| |reflexivity].
  cbn [map fst snd]. eapply H2. reflexivity.
Qed.

(** Nodes and their meaning. *)
Lemma means_valid_elt e y : SpecXsd.valid actual e -> means default_ns e = Some y ->
  exists a k, y = DElem (jp (etag e)) a (text_nodes (etext e) ++ k) /\ Forall2 (fun e x => means default_ns e = Some x) (ekids e) k.
Proof.
  intros HV. destruct (plain_valid e HV) as [H1 H2]. clear HV. destruct e as [t a v k]. cbn [etag etext ekids] in *. cbn [means]. rewrite H2. cbn [app]. rewrite H1.
  destruct (all_some (map _ (SpecXml.others _))) as [a'|]; [|discriminate]. destruct (all_some (map (means default_ns) k)) as [k'|] eqn:E; [|discriminate].
  destruct (SpecXml.distinct _); [|discriminate]. intros H. injection H as <-. exists a', k'. split; [reflexivity|]. clear -E. revert k' E. induction k as [|e k IH]; intros k'; cbn [map all_some]; [intros H; injection H as <-; constructor|].
  destruct (means default_ns e) eqn:EM; [|discriminate]. destruct (all_some (map (means default_ns) k)) eqn:EA; [|discriminate]. intros H. injection H as <-. constructor; auto.
Qed.
Lemma named_valid t e y : SpecXsd.valid actual e -> means default_ns e = Some y -> has_name (jp t) y = String.eqb (etag e) t.
Proof.
  intros HV HM. destruct (means_valid_elt e y HV HM) as (a & k & -> & _). cbn [has_name]. rewrite jp_name. destruct (String.eqb_spec (etag e) t) as [->|HN]; [apply eqb_refl|].
  apply not_true_iff_false. intros H. apply pystr_eqb_spec in H. apply HN. now apply pys_inj.
Qed.
Definition in_open (q : list string) : Prop := Forall (fun t => ~ In t opaque) q.
Theorem C75_nodes q e y : SpecXsd.valid actual e -> ~ In (etag e) opaque -> in_open q -> means default_ns e = Some y ->
  Forall2 (fun x n => SpecXsd.valid actual x /\ means default_ns x = Some n) (findall q e) (nodes q y).
Proof.
  intros HV HO HQ. revert e y HV HO. induction HQ as [|t q Ht HQ IH]; intros e y HV HO HM; [repeat constructor; assumption|].
  pose proof (kids_valid actual e (incl_refl _) HV HO) as HK. destruct (means_valid_elt e y HV HM) as (a & k & -> & HF). cbn [findall nodes children].
  assert (HT : filter (has_name (jp t)) (text_nodes (etext e) ++ k) = filter (has_name (jp t)) k) by (rewrite filter_app; destruct (etext e) as [| | | | |[|]]; reflexivity).
  rewrite HT. clear HT HM HV HO. induction HF as [|x n l m HX HF IHF]; [constructor|]. cbn [filter].
  assert (HVx : SpecXsd.valid actual x) by (apply HK; now left). rewrite (named_valid t x n HVx HX). destruct (String.eqb_spec (etag x) t) as [HE|_]; cbn [flat_map].
  - apply Forall2_app; [apply IH; [exact HVx|now rewrite HE|exact HX]|]. apply IHF. intros z Hz. apply HK. now right.
  - apply IHF. intros z Hz. apply HK. now right.
Qed.
Definition text_of (e : elt) : pystr := match etext e with VStr s => eol s | _ => [] end.
Lemma leaf_means e n : SpecXsd.valid actual e -> ekids e = [] -> means default_ns e = Some n -> doc_text (Some n) = text_of e.
Proof.
  intros HV HK HM. destruct (means_valid_elt e n HV HM) as (a & k & -> & HF). rewrite HK in HF. inversion HF; subst. rewrite app_nil_r. unfold text_of. destruct (etext e) as [| | | | |[|c s]]; reflexivity.
Qed.

(** ** Indentation *)
Lemma nodes_trim q z : nodes q (trim z) = map trim (nodes q z).
Proof.
  revert z. induction q as [|t q IH]; intros z; [reflexivity|]. cbn [nodes]. destruct z as [s|m a k]; [reflexivity|]. cbn [trim children].
  assert (HX : forall l, flat_map (nodes q) (map trim l) = map trim (flat_map (nodes q) l)).
  { induction l as [|x l IHl]; [reflexivity|]. cbn [map flat_map]. now rewrite IH, IHl, map_app. }
  destruct (existsb is_elem k) eqn:E; cbn [children].
  - fold (trim_kids k). now rewrite filter_kids, HX.
  - now rewrite (proj2 (no_elem (jp t) k E)).
Qed.
Lemma texts_trim q z : texts q (trim z) = texts q z.
Proof.
  unfold texts. rewrite nodes_trim, map_map. apply map_ext. intros n. exact (doc_text_trim (Some n)).
Qed.

(** ** From reports to the document *)
(** The node [d] has, at every path that does not lead into foreign XML, the same
    elements as the report, in order, and they have the same text. *)
Definition tells (rep : elt) (d : dnode) : Prop :=
  forall q, in_open q -> Forall2 (fun x s => ekids x = [] -> s = text_of x) (findall q rep) (texts q d).
Lemma means_tells rep d : SpecXsd.valid actual rep -> ~ In (etag rep) opaque -> means default_ns rep = Some d -> tells rep d.
Proof.
  intros HV HO HM q HQ. pose proof (C75_nodes q rep d HV HO HQ HM) as H. unfold texts. induction H as [|x n l m [H1 H2] H IH]; constructor; [|exact IH].
  intros HK. now apply leaf_means.
Qed.
Lemma tells_trim rep d d' : trim d = trim d' -> tells rep d -> tells rep d'.
Proof. intros HT H q HQ. rewrite <- texts_trim, <- HT, texts_trim. now apply H. Qed.
Lemma report_tag E fuel depth p fo o mf rep : checkOneFile E fuel depth p fo o mf = Ok rep -> etag rep = "file".
Proof.
  unfold checkOneFile. destruct (fo_size fo) as [size|e|]; cbn [rbind]; try discriminate.
  destruct (match fo_mtime fo with Raise ValueError => _ | _ => _ end) as [mt|e|]; cbn [rbind]; try discriminate.
  destruct (analyse E fuel depth p (fo_map fo) o) as [a|e|]; try discriminate;
    (destruct (if negb (mf =? 0) && truth _ then _ else _) as [mix|e'|]; cbn [rbind]; try discriminate; intros H; injection H as <-; reflexivity).
Qed.

Lemma nodes_one t z : nodes [t] z = filter (has_name (jp t)) (children z).
Proof. cbn [nodes]. induction (filter _ _) as [|x l IH]; [reflexivity|]. cbn [flat_map app]. now rewrite IH. Qed.

Section Document.
Variables (E : env) (fuel depth : nat) (F : fsys) (observe : pystr -> fileobs) (dom : pystr -> res dnode) (np : bool).
Hypothesis HE : env_ok E.
Hypothesis HU : unicode_ok (catC E).
Hypothesis HP : parser_ok (negb np) E.
Hypothesis HD : np = false -> dom_ok dom.

(** The document has one element per file, in order, that tells what the report of the
    file does. *)
Theorem C75_document name version before o mf recurse paths : xml_string name -> xml_string version -> format_ok o ->
  let files := before ++ findFiles F recurse paths in
  let r := checkFiles E fuel depth F observe (writeElement dom np) (toolInfo name version) before o mf recurse paths in
  files <> [] ->
  (forall p, In p files -> file_info_ok (observe p) /\ exists rep, checkOneFile E fuel depth p (observe p) o mf = Ok rep) ->
  Main.ends r = Finished /\ exists z, parse (stdout_text r) = Some z /\
    Forall2 (fun p d => exists rep, checkOneFile E fuel depth p (observe p) o mf = Ok rep /\ tells rep d) files (nodes ["file"] z).
Proof.
  intros HN HV HF files r HNE HA.
  destruct (C70_document E fuel depth F observe dom np HE HU HP HD name version before o mf recurse paths HN HV HF HNE HA) as (HFin & reps & ys & z & HReps & HMeans & HZ & HZ').
  split; [exact HFin|]. exists z. split; [exact HZ|]. fold files in HReps. inversion HMeans as [|? y0 ? ys' M0 HM]; subst. clear HMeans.
  unfold toolInfo in M0. apply means_plain in M0; [|reflexivity]. destruct M0 as (k0 & -> & _).
  assert (H0 : forall k, has_name (jp "file") (DElem (jp "toolInfo") [] k) = false) by (intros k; unfold has_name; rewrite jp_name; reflexivity).
  assert (HV' : Forall (fun rep => SpecXsd.valid actual rep /\ etag rep = "file") reps).
  { clear -HReps HE HF. induction HReps as [|p rep ps reps HC HR IH]; constructor; [|exact IH]. split; [eapply C71_reports; eassumption|eapply report_tag; exact HC]. }
  assert (HK : Forall (fun y => has_name (jp "file") y = true) ys').
  { clear -HM HV'. induction HM as [|rep y reps ys HX HM IH]; constructor; inversion HV' as [|? ? [V1 V2] V3]; subst; [|now apply IH]. rewrite (named_valid "file" rep y V1 HX), V2. reflexivity. }
  assert (HT : Forall2 tells reps ys').
  { clear -HM HV'. induction HM as [|rep y reps ys HX HM IH]; constructor; inversion HV' as [|? ? [V1 V2] V3]; subst; [|now apply IH]. apply means_tells; [exact V1| |exact HX]. rewrite V2. cbn. intuition discriminate. }
  assert (HFil : filter (has_name (jp "file")) ys' = ys') by (clear -HK; induction HK as [|y ys H HK IH]; [reflexivity|]; cbn [filter]; now rewrite H, IH).
  assert (HX : map trim (nodes ["file"] z) = map trim ys').
  { destruct np.
    - subst z. rewrite nodes_one. cbn [document children filter]. rewrite H0. cbn [has_name]. now rewrite HFil.
    - rewrite <- nodes_trim, HZ', nodes_one. cbn [document children]. cbn [map filter]. rewrite named_trim, H0.
      clear -HK. induction HK as [|y ys H HK IH]; [reflexivity|]. cbn [map filter]. now rewrite named_trim, H, IH. }
  assert (HC : Forall2 (fun p y => exists rep, checkOneFile E fuel depth p (observe p) o mf = Ok rep /\ tells rep y) files ys').
  { clear -HReps HT. revert ys' HT. induction HReps as [|p rep ps reps HC HR IH]; intros ys HT; inversion HT; subst; constructor; eauto. }
  clear -HC HX. revert HX. generalize (nodes ["file"] z). induction HC as [|p y ps ys (rep & H1 & H2) HC IH]; intros ds HX; destruct ds as [|d ds]; try discriminate HX; constructor.
  - exists rep. split; [exact H1|]. injection HX as HX _. eapply tells_trim; [symmetry; exact HX|exact H2].
  - apply IH. now injection HX.
Qed.
End Document.

(** ** Values *)
Lemma code_plain t n s : code_text t n s -> eol s = s.
Proof.
  intros H. apply eol_id. intros HI. destruct H as [(w & HW & ->)|(_ & ds & -> & _ & HD & _)].
  - assert (HX : forallb (fun '(_, _, d) => forallb (fun c => negb (c =? 13)) d) doc_names = true) by (vm_compute; reflexivity).
    rewrite forallb_forall in HX. apply doc_in, HX in HW. rewrite forallb_forall in HW. specialize (HW 13 HI). discriminate.
  - apply in_app_or in HI. destruct HI as [HI|HI]; [destruct (n <? 0); cbn in HI; intuition discriminate|]. rewrite Forall_forall in HD. apply HD in HI. unfold digit in HI. lia.
Qed.
Lemma code_leaf catC limit t n e' : rel (shows catC limit propertiesRemapTable) (leaf t (VInt n)) e' ->
  exists s, ekids e' = [] /\ text_of e' = s /\ code_text t n s.
Proof.
  intros H. destruct (code_shown _ _ _ _ H) as [_ HC]. cbn [leaf etag etext] in HC. destruct (HC n eq_refl) as [H1 H2].
  assert (HK : ekids e' = []) by (inversion H as [? ? ? ? ? k' _ HK]; subst; inversion HK; reflexivity).
  destruct (code_dec t n) as [(w & HW)|HN].
  - exists (pys w). assert (HT : code_text t n (pys w)) by (left; eauto). split; [exact HK|]. split; [|exact HT]. unfold text_of. rewrite (H1 w HW). eapply code_plain. exact HT.
  - destruct (H2 HN) as (s & HD & HX). assert (HT : code_text t n s) by (right; auto). exists s. split; [exact HK|]. split; [|exact HT]. unfold text_of. rewrite HX. eapply code_plain. exact HT.
Qed.
Lemma report_props q fo o size mtime st v T P W : findall ("properties" :: q) (report fo o size mtime st v T P [] W) = findall q (node "properties" P).
Proof. unfold report. cbn [findall ekids node leaf app filter etag String.eqb Ascii.eqb Bool.eqb flat_map]. apply app_nil_r. Qed.
Section Fields.
Variables (E : env) (rep : elt) (d : dnode) (rc : elt) (P : list elt).
Hypothesis HT : tells rep d.
Hypothesis HP : forall q, findall ("properties" :: q) rep = findall q (node "properties" P).
Hypothesis HR : rel (shows (catC E) (str_limit E) propertiesRemapTable) rc (node "properties" P).
Lemma all_codes q t ns es : in_open ("properties" :: q) -> findall q rc = map (fun n => leaf t (VInt n)) ns ++ es ->
  exists ss l, texts ("properties" :: q) d = ss ++ l /\ Forall2 (fun n s => code_text t n s) ns ss.
Proof.
  intros HQ HF. pose proof (rel_findall _ q _ _ HR) as H. rewrite HF in H. specialize (HT _ HQ). rewrite HP in HT. revert H HT. clear. generalize (findall q (node "properties" P)) (texts ("properties" :: q) d).
  induction ns as [|n ns IH]; intros xs ts H HT; [exists [], ts; split; [reflexivity|constructor]|]. cbn [map app] in H. inversion H as [|? e' ? xs' H1 H2]; subst. inversion HT as [|? s ? ts' T1 T2]; subst.
  destruct (IH _ _ H2 T2) as (ss & l & -> & HS). destruct (code_leaf _ _ _ _ _ H1) as (s' & K1 & K2 & K3). exists (s :: ss), l. split; [reflexivity|]. constructor; [|exact HS]. rewrite (T1 K1), K2. exact K3.
Qed.
Lemma one_code q t n es : in_open ("properties" :: q ++ [t]) -> findall (q ++ [t]) rc = leaf t (VInt n) :: es -> says d ("properties" :: q) t n.
Proof.
  intros HQ HF. destruct (all_codes (q ++ [t]) t [n] es HQ HF) as (ss & l & HX & HS). inversion HS as [|? s ? ? H1 H2]; subst. inversion H2; subst. exists s, l. split; [exact HX|exact H1].
Qed.
Lemma codes q e es fields : Forall (fun '(t, n) => tagged t (ekids e) = [leaf t (VInt n)]) fields -> in_open ("properties" :: q) -> Forall (fun '(t, _) => ~ In t opaque) fields ->
  findall q rc = e :: es -> says_all d ("properties" :: q) fields.
Proof.
  intros HF HO HOF HQ t n HI. rewrite Forall_forall in HF, HOF. specialize (HF _ HI). specialize (HOF _ HI). cbv beta iota in HF, HOF.
  destruct (under q t e es (VInt n) rc HQ HF) as (es' & HX). eapply one_code; [|exact HX].
  change ("properties" :: q ++ [t]) with (("properties" :: q) ++ [t]). apply Forall_app. split; [exact HO|now repeat constructor].
Qed.
End Fields.
Lemma siz_all cap z : Forall (fun '(t, n) => tagged t (leaves (siz_props cap z)) = [leaf t (VInt n)]) (siz_fields z).
Proof.
  assert (HR : forall t, ~ In t ["ssizSign"; "ssizDepth"; "xRsiz"; "yRsiz"] -> tagged t (leaves (siz_props cap z)) =
     tagged t (leaves [("lsiz", VInt (val z 0 2)); ("rsiz", VInt (val z 2 2)); ("capability", VStr cap);
    ("xsiz", VInt (val z 4 4)); ("ysiz", VInt (val z 8 4)); ("xOsiz", VInt (val z 12 4)); ("yOsiz", VInt (val z 16 4));
    ("xTsiz", VInt (val z 20 4)); ("yTsiz", VInt (val z 24 4)); ("xTOsiz", VInt (val z 28 4)); ("yTOsiz", VInt (val z 32 4));
    ("numberOfTiles", VInt (siz_tiles z)); ("csiz", VInt (val z 36 2))])).
  { intros t Ht. unfold siz_props. rewrite leaves_app, tagged_app, (tagged_other t (flat_map _ _)); [apply app_nil_r|].
    apply Forall_forall. intros x Hx. apply in_flat_map in Hx as (i & _ & Hx). intros HX. apply Ht. cbn in Hx. destruct Hx as [<-|[<-|[<-|[<-|[]]]]]; cbn [fst] in HX; subst t; cbn; tauto. }
  unfold siz_fields. repeat (apply Forall_cons; [rewrite HR by (cbn; intuition discriminate); reflexivity|]). apply Forall_nil.
Qed.
Lemma cod_all fmt k : SpecBox.holds (cod_tests k) -> Forall (fun '(t, n) => tagged t (leaves (cod_props fmt k)) = [leaf t (VInt n)]) (cod_fields k).
Proof.
  intros HT. assert (HW : btw 0 (val k 8 1) 8 /\ btw 0 (val k (8 + 1) 1) 8).
  { split; [apply (holds_in _ "codeBlockWidthExponentIsValid" _ HT)|apply (holds_in _ "codeBlockHeightExponentIsValid" _ HT)]; unfold cod_tests; rewrite !in_app_iff; right; left; cbn; auto. }
  change (8 + 1) with 9 in HW. unfold btw in HW.
  assert (HR : forall t, ~ In t ["codingBypass"; "resetOnBoundaries"; "termOnEachPass"; "vertCausalContext"; "predTermination"; "segmentationSymbols"; "precinctSizeX"; "precinctSizeY"] ->
    tagged t (leaves (cod_props fmt k)) = tagged t (leaves ([("lcod", VInt (val k 0 2)); ("precincts", VInt (bitk (val k 2 1) 0));
    ("sop", VInt (bitk (val k 2 1) 1)); ("eph", VInt (bitk (val k 2 1) 2)); ("order", VInt (val k 3 1)); ("layers", VInt (val k 4 2));
    ("multipleComponentTransformation", VInt (val k 6 1)); ("levels", VInt (val k 7 1));
    ("codeBlockWidth", cb_size (val k 8 1)); ("codeBlockHeight", cb_size (val k 9 1)); ("transformation", VInt (val k 11 1))]))).
  { intros t Ht. unfold cod_props. rewrite !leaves_app, !tagged_app. rewrite (tagged_other t (cbs_props _ _)), (tagged_other t (prec_props _ _ _ _)).
    - rewrite app_nil_r. cbn [app]. unfold cb_props. change (8 + 1) with 9. rewrite <- !tagged_app, <- !leaves_app. reflexivity.
    - unfold prec_props. apply Forall_forall. intros x Hx. apply in_flat_map in Hx as (i & _ & Hx). intros HX. apply Ht. destruct (cod_explicit k); cbn in Hx; destruct Hx as [<-|[<-|[]]]; cbn [fst] in HX; subst t; cbn; tauto.
    - apply Forall_forall. intros x Hx HX. apply Ht. unfold cbs_props in Hx. destruct (negb _); cbn in Hx; repeat (destruct Hx as [<-|Hx]; [cbn [fst] in HX; subst t; cbn; tauto|]); destruct Hx. }
  assert (HC : forall v, 0 <= v <= 8 -> cb_size v = VInt (2 ^ (v + 2))).
  { intros v Hv. unfold cb_size. replace (v =? -9999) with false by lia. f_equal. rewrite Z.pow_add_r by lia. change (2 ^ 2) with 4. lia. }
  unfold cod_fields. repeat (apply Forall_cons; [rewrite HR by (cbn; intuition discriminate); rewrite ?HC by lia; reflexivity|]). apply Forall_nil.
Qed.
Lemma ihdr_all x : Forall (fun '(t, n) => tagged t (leaves (ihdr_props x)) = [leaf t (VInt n)]) (ihdr_fields x).
Proof. unfold ihdr_fields. repeat (apply Forall_cons; [reflexivity|]). apply Forall_nil. Qed.
Lemma depth_all z : map (fun i => leaf "ssizDepth" (VInt (cdepth (val z (38 + 3 * i) 1)))) (zseq (val z 36 2)) = map (fun n => leaf "ssizDepth" (VInt n)) (depths z).
Proof. unfold depths, zseq. rewrite !map_map. apply map_ext. intros i. unfold cdepth. do 2 f_equal. lia. Qed.

(** What the element of a file says about a codestream [y], below [q]. *)
Definition stream_said (d : dnode) (q : list string) (y : bytes) : Prop :=
  exists l rest k ks, after m_SOT (cs_second y) l rest /\ segs_of m_COD l = k :: ks /\
    says_all d (q ++ ["siz"]) (siz_fields (cs_siz y)) /\ says_all d (q ++ ["cod"]) (cod_fields k) /\
    exists ss r, texts (q ++ ["siz"; "ssizDepth"]) d = ss ++ r /\ Forall2 decimal (depths (cs_siz y)) ss.
Definition image_said (d : dnode) (fmt : string) (c : bytes) : Prop :=
  (In fmt ["jp2"; "jph"] /\ exists bs hx hb x y ys, splits c bs /\ boxes_of t_jp2h bs = [hx] /\ splits hx hb /\ boxes_of t_ihdr hb = [x] /\ boxes_of t_jp2c bs = y :: ys /\
     says_all d ["properties"; "jp2HeaderBox"; "imageHeaderBox"] (ihdr_fields x) /\ stream_said d ["properties"; "contiguousCodestreamBox"] y) \/
  (In fmt ["j2c"; "jhc"] /\ stream_said d ["properties"] c).

Lemma not_named n w : ~ named "ssizDepth" n w.
Proof. intros H. apply doc_in in H. assert (HX : existsb (fun '(t, _, _) => String.eqb t "ssizDepth") doc_names = false) by (vm_compute; reflexivity).
  rewrite <- not_true_iff_false in HX. apply HX. apply existsb_exists. eexists. split; [exact H|reflexivity]. Qed.
Lemma stream_reads E o rep d rc P q y l rest k ks cap e1 e2 : tells rep d -> (forall q, findall ("properties" :: q) rep = findall q (node "properties" P)) ->
  rel (shows (catC E) (str_limit E) propertiesRemapTable) rc (node "properties" P) -> in_open ("properties" :: q) ->
  after m_SOT (cs_second y) l rest -> segs_of m_COD l = k :: ks -> SpecBox.holds (cod_tests k) ->
  findall (q ++ ["siz"]) rc = node "siz" (leaves (siz_props cap (cs_siz y))) :: e1 ->
  findall (q ++ ["cod"]) rc = node "cod" (leaves (cod_props (o_format o) k)) :: e2 -> stream_said d ("properties" :: q) y.
Proof.
  intros HT HP HR HQ A1 A2 HK F1 F2. exists l, rest, k, ks. split; [exact A1|]. split; [exact A2|].
  assert (HO : forall t, ~ In t opaque -> in_open ("properties" :: q ++ [t])).
  { intros t Ht. change ("properties" :: q ++ [t]) with (("properties" :: q) ++ [t]). apply Forall_app. split; [exact HQ|now repeat constructor]. }
  assert (NO : forall t, existsb (String.eqb t) opaque = false -> ~ In t opaque).
  { intros t HX HI. rewrite <- not_true_iff_false in HX. apply HX, existsb_exists. exists t. split; [exact HI|apply String.eqb_refl]. }
  split; [|split].
  - eapply (codes E rep d rc P HT HP HR (q ++ ["siz"]) (node "siz" (leaves (siz_props cap (cs_siz y)))) e1); [exact (siz_all cap (cs_siz y))|apply HO, NO; reflexivity| |exact F1]. unfold siz_fields. repeat (apply Forall_cons; [apply NO; reflexivity|]). apply Forall_nil.
  - eapply (codes E rep d rc P HT HP HR (q ++ ["cod"]) (node "cod" (leaves (cod_props (o_format o) k))) e2); [exact (cod_all _ k HK)|apply HO, NO; reflexivity| |exact F2]. unfold cod_fields. repeat (apply Forall_cons; [apply NO; reflexivity|]). apply Forall_nil.
  - destruct (all_codes E rep d rc P HT HP HR (q ++ ["siz"; "ssizDepth"]) "ssizDepth" (depths (cs_siz y)) (flat_map (findall ["ssizDepth"]) e1)) as (ss & r & HX & HS).
    + change ("properties" :: q ++ ["siz"; "ssizDepth"]) with (("properties" :: q) ++ ["siz"; "ssizDepth"]). apply Forall_app. split; [exact HQ|]. repeat constructor; apply NO; reflexivity.
    + change (q ++ ["siz"; "ssizDepth"]) with (q ++ (["siz"] ++ ["ssizDepth"])). rewrite app_assoc, findall_app, F1. cbn [flat_map]. f_equal. unfold node. rewrite findall_cons, flat_nil, siz_depth_tags. apply depth_all.
    + exists ss, r. split; [exact HX|]. clear -HS. induction HS as [|n s ns ss [(w & HW & _)|(_ & H)] HS IH]; constructor; try assumption. now apply not_named in HW.
Qed.

(** The report of a file found valid, and so the document, tells the values of the
    fields of the image header, of SIZ, and of the first COD. *)
Theorem C75_image E fuel depth path fo o size mtime c w rep d : env_ok E -> fo_size fo = Ok size -> fo_mtime fo = Ok mtime ->
  contents path (fo_map fo) c w -> len c < 2 ^ 53 -> checkOneFile E fuel depth path fo o 0 = Ok rep -> says_valid rep -> tells rep d -> image_said d (o_format o) c.
Proof.
  intros HE H1 H2 HC HL HR HS HT.
  destruct (C20_report E fuel depth path fo o size mtime HE H1 H2) as [(v & T & P & W & HX & HA)|[(e & HX & _)|(HX & _)]]; rewrite HX in HR; [| |discriminate]; injection HR as <-; [|discriminate HS].
  destruct v; [|discriminate HS]. destruct HA as (b & w' & t & r & W0 & HC' & HRT & HV & Hv & _ & HP & _). assert (b = c) as -> by (inversion HC; inversion HC'; congruence). clear HC'.
  assert (HG : gives E o t c VNone VNone r) by now exists fuel, depth. clear HV HX.
  destruct HRT as [(HF & ->)|(HF & ->)]; [left|right]; (split; [exact HF|]).
  - assert (HFO : file_ok E (o_format o) c) by (apply (C60_file E o c HL); eauto). destruct HFO as (bs & hs & HSp & _).
    destruct (v_header E o c bs r HSp HG Hv HL) as (hx & hb & rs & B1 & B2 & B3 & _ & B4 & B5 & B6).
    destruct (C37_consistent E o c bs (v_valid E o c r HG Hv) HSp) as (hx' & hb' & x & y & ys & C1 & C2 & C3 & C4 & _).
    rewrite B1 in C1. injection C1 as <-. rewrite (splits_unique _ _ C2 _ B2) in C3. clear C2 hb'.
    destruct (v_cs E o c bs r HSp HG Hv HL) as (y' & ys' & l & rest & k & ks & cap & D1 & D2 & D3 & D4 & _ & (e1 & D5) & (e2 & D6) & _).
    rewrite C4 in D1. injection D1 as <- <-. exists bs, hx, hb, x, y, ys. do 5 (split; [assumption|]). split.
    + eapply (codes E _ d (r_chars r) P HT (fun q => report_props q _ _ _ _ _ _ _ _ _) HP ["jp2HeaderBox"; "imageHeaderBox"] (node "imageHeaderBox" (leaves (ihdr_props x))) []); [exact (ihdr_all x)| | |].
      * repeat constructor; cbn; intuition discriminate.
      * unfold ihdr_fields. repeat (apply Forall_cons; [cbn; intuition discriminate|]). apply Forall_nil.
      * rewrite B6. unfold node. rewrite findall_cons, flat_nil, (v_ihdr E o hb rs B4), C3. reflexivity.
    + eapply (stream_reads E o _ d (r_chars r) P ["contiguousCodestreamBox"]); try eassumption; [intros q; apply report_props|repeat constructor; cbn; intuition discriminate].
  - assert (HOK : codestream_ok E (o_format o) c) by (apply (C60_codestream E o (BTs "contiguousCodestreamBox") c VNone VNone eq_refl); eauto).
    destruct (cs_kids E o (BTs "contiguousCodestreamBox") c r eq_refl HOK HG) as (l & rest & k & ks & cap & D2 & D3 & D4 & _ & (e1 & D5) & (e2 & D6) & _).
    assert (HFA : forall t, findall [t] (r_chars r) = tagged t (ekids (r_chars r))) by (intros t; destruct (r_chars r) as [n a v kk]; now rewrite findall_cons, flat_nil).
    eapply (stream_reads E o _ d (r_chars r) P []); try eassumption; [intros q; apply report_props|repeat constructor; cbn; intuition discriminate|cbn [app]; rewrite HFA; exact D5|cbn [app]; rewrite HFA; exact D6].
Qed.

Section Run.
Variables (E : env) (F : fsys) (observe : pystr -> fileobs) (dom : pystr -> res dnode) (np : bool).
Hypothesis HE : env_ok E.
Hypothesis HL : str_limit E = None.
Hypothesis HU : unicode_ok (catC E).
Hypothesis HP : parser_ok (negb np) E.
Hypothesis HD : np = false -> dom_ok dom.

(** One run of the program on files that can be read, and the analysis of which comes
    to an end: a reader of the document finds one element per file, in order, with its
    path and the verdict, and for those that conform the values of the image. *)
Theorem C75_run name version a (content : pystr -> bytes) :
  xml_string name -> xml_string version -> In (lower (a_format a)) ["jp2"; "jph"; "j2c"; "jhc"] -> a_mix a = 0 -> a_paths a <> [] ->
  let files := findFiles F (a_recurse a) (a_paths a) in
  files <> [] ->
  (forall f, In f files -> readable (observe f) (fo_abspath (observe f)) (content f) /\ len (content f) < 2 ^ 53 /\ comes_to_end (lower (a_format a)) (content f)) ->
  exists fuel0 depth0, forall fuel depth, (fuel0 <= fuel)%nat -> (depth0 <= depth)%nat ->
    let r := main E fuel depth F observe (writeElement dom np) (toolInfo name version) a in
    Main.ends r = Finished /\ exists z, parse (stdout_text r) = Some z /\
    Forall2 (fun f d => texts ["fileInfo"; "filePath"] d = [fo_abspath (observe f)] /\
                        (texts ["isValid"] d = [pys "True"] /\ conforms E (lower (a_format a)) (content f) /\ image_said d (lower (a_format a)) (content f) \/
                         texts ["isValid"] d = [pys "False"] /\ ~ conforms E (lower (a_format a)) (content f))) files (nodes ["file"] z).
Proof.
  intros HN HV HF HM HA files HNE HO. set (fmt := lower (a_format a)) in *.
  set (o := {| o_format := fmt; o_verbose := a_verbose a; o_nullxml := a_nullxml a; o_packet := a_packet a |}).
  assert (HCT : forall p, In p files -> exists w, contents p (fo_map (observe p)) (content p) w).
  { intros p Hp. destruct (HO p Hp) as ((HR & _) & _). destruct HR as [(_ & ->)|(-> & ->)]; eexists; constructor. }
  destruct (together (fun f d p => exists size mtime v st T P W, fo_size (observe p) = Ok size /\ fo_mtime (observe p) = Ok mtime /\
      checkOneFile E f d p (observe p) o 0 = Ok (report (observe p) o size mtime st (if v : bool then "True" else "False") T P [] W) /\ (v = true <-> conforms E fmt (content p))) files) as (f0 & d0 & HT).
  { intros p Hp. destruct (HO p Hp) as ((HR & _ & HC1 & HC2 & size & mtime & S1 & S2 & _) & HLen & fin & HFin & HEnd). destruct (HCT p Hp) as (w & HC).
    assert (HX : exists t, root_type fmt t /\ SpecOutcome.does E o t (content p) VNone VNone fin /\
       ((exists r, gives E o t (content p) VNone VNone r /\ r_valid r = VBool true) <-> conforms E fmt (content p))).
    { destruct HEnd as [(HI & HEnd)|(HI & HEnd)].
      - exists (BTs "JP2"). split; [left; auto|]. split; [now apply file_does|]. rewrite (C60_file E o (content p) HLen). cbn [o_format o]. unfold conforms. split; [auto|].
        intros [(_ & H)|(HI' & _)]; [exact H|]. exfalso. cbn in HI, HI'. intuition congruence.
      - exists (BTs "contiguousCodestreamBox"). split; [right; auto|]. split; [now apply cs_does|]. rewrite (C60_codestream E o (BTs "contiguousCodestreamBox") (content p) VNone VNone eq_refl). cbn [o_format o]. unfold conforms. split; [auto|].
        intros [(HI' & _)|(_ & H)]; [|exact H]. exfalso. cbn in HI, HI'. intuition congruence. }
    destruct HX as (t & HT & HDoes & HOK). destruct (settled E o p (observe p) size mtime (content p) w t fin _ HE S1 S2 HL HC HT HDoes HFin HOK) as (f0 & d0 & HS).
    exists f0, d0. intros f d Hf Hd. destruct (HS f d Hf Hd) as (v & st & T & P & W & HX & HB). exists size, mtime, v, st, T, P, W. auto. }
  exists f0, d0. intros f d Hf Hd r. specialize (HT f d Hf Hd).
  assert (HR : r = checkFiles E f d F observe (writeElement dom np) (toolInfo name version) [] o 0 (a_recurse a) (a_paths a)).
  { destruct (C48_main E f d F observe (writeElement dom np) (toolInfo name version) a) as [(H & _)|[(_ & H & _)|(_ & _ & mf & H1 & H2 & H3)]]; [contradiction|contradiction|].
    unfold r. rewrite H3. f_equal. fold fmt in H1, H2. destruct (in_dec string_dec fmt ["j2c"; "jhc"]) as [HI|HI]; [now apply H1|rewrite H2 by exact HI; exact HM]. }
  destruct (C75_document E f d F observe dom np HE HU HP HD name version [] o 0 (a_recurse a) (a_paths a) HN HV HF HNE) as (HFin & z & HZ & HZ').
  { intros p Hp. destruct (HT p Hp) as (size & mtime & v & st & T & P & W & _ & _ & HC & _). split; [|eauto]. destruct (HO p Hp) as ((_ & _ & HC1 & HC2 & HI) & _).
    assert (HXS : forall s, Forall path_char s -> xml_string (stripSurrogatePairs s)) by (intros s Hs; rewrite strip_id by exact Hs; eapply Forall_impl; [|exact Hs]; now intros c [Hc _]).
    split; [now apply HXS|]. split; [now apply HXS|]. exact HI. }
  rewrite <- HR in HFin, HZ. split; [exact HFin|]. exists z. split; [exact HZ|]. cbn [app] in HZ'. fold files in HZ'.
  assert (HI : forall p, In p files -> forall y, (exists rep, checkOneFile E f d p (observe p) o 0 = Ok rep /\ tells rep y) ->
    texts ["fileInfo"; "filePath"] y = [fo_abspath (observe p)] /\
    (texts ["isValid"] y = [pys "True"] /\ conforms E fmt (content p) /\ image_said y fmt (content p) \/ texts ["isValid"] y = [pys "False"] /\ ~ conforms E fmt (content p))).
  { intros p Hp y (rep & HC & HTe). destruct (HT p Hp) as (size & mtime & v & st & T & P & W & S1 & S2 & HC' & HB). rewrite HC in HC'. injection HC' as ->.
    destruct (HO p Hp) as ((_ & _ & HC1 & _) & HLen & _).
    assert (HT1 : texts ["fileInfo"; "filePath"] y = [fo_abspath (observe p)]).
    { pose proof (HTe ["fileInfo"; "filePath"] ltac:(repeat constructor; cbn; intuition discriminate)) as HX. unfold report in HX. cbn [findall ekids node leaf app filter etag String.eqb Ascii.eqb Bool.eqb flat_map] in HX.
      inversion HX as [|? s ? l X1 X2]; subst. inversion X2; subst. f_equal. rewrite (X1 eq_refl). unfold text_of. cbn [etext]. rewrite strip_id by exact HC1. now apply chars_eol. }
    assert (HT2 : texts ["isValid"] y = [pys (if v then "True" else "False")]).
    { pose proof (HTe ["isValid"] ltac:(repeat constructor; cbn; intuition discriminate)) as HX. unfold report in HX. cbn [findall ekids node leaf app filter etag String.eqb Ascii.eqb Bool.eqb flat_map] in HX.
      inversion HX as [|? s ? l X1 X2]; subst. inversion X2; subst. f_equal. rewrite (X1 eq_refl). unfold text_of. cbn [etext]. destruct v; reflexivity. }
    split; [exact HT1|]. destruct (HCT p Hp) as (w & HCo). destruct v; [left|right]; (split; [exact HT2|]).
    - split; [now apply HB|]. change fmt with (o_format o). eapply C75_image; [exact HE|exact S1|exact S2|exact HCo|exact HLen|exact HC|reflexivity|exact HTe].
    - intros HX. apply HB in HX. discriminate. }
  clear -HZ' HI. revert HZ'. generalize (nodes ["file"] z). revert HI. induction files as [|p ps IH]; intros HI ds HZ'; inversion HZ' as [|? y ? ds' H1 H2]; subst; constructor.
  - apply (HI p (or_introl eq_refl) y H1).
  - apply IH; [|exact H2]. intros q Hq. apply HI. now right.
Qed.
End Run.

(** ** C70: only texts that are strings can be written *)
(** Python's idea of nothing. *)
Definition nothing (v : value) : Prop := v = VNone \/ v = VBool false \/ v = VInt 0 \/ (exists s, v = VFloat (SpecFloat.S754_zero s)) \/ v = VBytes [].
Lemma serialize_types q : forall e ns s, serialize_xml q ns e = Ok s -> every (fun _ v => nothing v \/ exists s, v = VStr s) e.
Proof.
  induction e as [t a v k IH] using elt_ind'. intros ns s H. cbn [serialize_xml] in H.
  assert (HV : (if true_text v then exists x, v = VStr x else nothing v \/ exists x, v = VStr x) -> nothing v \/ exists x, v = VStr x) by (destruct (true_text v); auto).
  assert (HN : true_text v = false -> nothing v \/ exists x, v = VStr x).
  { unfold nothing. destruct v as [|[]|z|[]|[]|[]]; cbn; intros HX; try discriminate; eauto 9. apply negb_false_iff, Z.eqb_eq in HX. subst. auto. }
  constructor.
  - apply HV. destruct (true_text v) eqn:ET; [|now apply HN]. cbn [orb] in H. destruct v; try discriminate H; eauto.
  - destruct k as [|x k]; [constructor|]. cbn [negb] in H. rewrite orb_true_r in H. destruct (match v with VStr _ => _ | _ => _ end) as [txt|e|]; try discriminate H. cbn [rbind] in H.
    match type of H with rbind ?z _ = _ => destruct z as [inner|e|] eqn:EK; try discriminate H end. clear H HV HN.
    match type of EK with rbind _ (fun s => rbind (?g k) _) = _ => change (g (x :: k) = Ok inner) in EK; remember (x :: k) as l eqn:HE; clear HE x k end. revert inner EK.
    induction IH as [|x l HX _ IHl]; intros inner EK; [constructor|]. destruct (serialize_xml q [] x) as [sx|e|] eqn:EX; try discriminate EK. cbn [rbind] in EK. constructor; [exact (HX [] sx EX)|].
    match type of EK with rbind ?z _ = _ => destruct z as [r|e|] eqn:ER; try discriminate EK end. exact (IHl r eq_refl).
Qed.
Theorem C70_types dom np e s : writeElement dom np e = Ok s -> every (fun _ v => nothing v \/ exists s, v = VStr s) e.
Proof.
  unfold writeElement, tostring. destruct (namespaces_of (names e) ([], [])) as [[qn ns]|e0|]; try discriminate. cbn [rbind].
  destruct (serialize_xml _ ns e) as [out|e0|] eqn:HS; try discriminate. intros _. eapply serialize_types. exact HS.
Qed.
Example C70_types_ex np : writeElement dom0 np (leaf "a" (VInt 1)) = Raise TypeError /\ writeElement dom0 np (node "b" [leaf "a" (VBool true)]) = Raise TypeError /\
  exists s, writeElement dom0 np (leaf "a" (VInt 0)) = Ok s.
Proof. destruct np; vm_compute; eauto. Qed.

(** ... and what is written has an encoding in UTF-8: a text with a surrogate in it is
    refused by the codec. *)
Theorem C70_encodable dom np e s : writeElement dom np e = Ok s -> Forall (fun c => ~ surrogate c) s.
Proof.
  assert (HW : forall x, codec_write x = Ok s -> Forall (fun c => ~ surrogate c) s).
  { intros x. unfold codec_write. destruct (existsb is_surrogate x) eqn:EX; [discriminate|]. intros H. injection H as <-. apply Forall_forall. intros c Hc HS.
    rewrite <- not_true_iff_false in EX. apply EX, existsb_exists. exists c. split; [exact Hc|]. unfold surrogate in HS. unfold is_surrogate, in_rng. lia. }
  unfold writeElement. destruct (tostring e) as [out|e0|]; try discriminate. cbn [rbind]. destruct np; [apply HW|]. destruct (dom out) as [d|e0|]; try discriminate. apply HW.
Qed.
Example C70_encodable_ex np : writeElement dom0 true (leaf "a" (VStr [65; 55296])) = Raise ValueError /\
  exists s, writeElement dom0 np (leaf "a" (VStr [65; 128512])) = Ok s /\ In 128512 s.
Proof. split; [vm_compute; reflexivity|]. destruct np; (eexists; split; [vm_compute; reflexivity|cbn; tauto]). Qed.

(** ** A case: the files of C73, of which one is valid *)
Example C75_ex :
  match parse (stdout_text (main E2 100 10 (posix end_tree at_root) end_observe (writeElement dom0 true) (toolInfo (pys "jpylyzer") (pys "2.2.1")) end_args)) with
  | Some z => map (fun q => map (texts ("properties" :: q)) (nodes ["file"] z))
      [["jp2HeaderBox"; "imageHeaderBox"; "width"]; ["contiguousCodestreamBox"; "siz"; "ysiz"]; ["contiguousCodestreamBox"; "siz"; "ssizDepth"];
       ["contiguousCodestreamBox"; "cod"; "codeBlockWidth"]; ["contiguousCodestreamBox"; "cod"; "transformation"]] =
      [[[pys "2"]; []]; [[pys "2"]; []]; [[pys "8"]; []]; [[pys "4"]; []]; [[pys "5-3 reversible"]; []]]
  | None => False
  end.
Proof. vm_compute. reflexivity. Qed.

Definition all_theorems := (C75_nodes, C75_document, C75_image, C75_run, C70_types, C70_types_ex, C70_encodable, C70_encodable_ex).
Print Assumptions all_theorems.
