(** * The same verdict everywhere: C81 *)

From Coq Require Import ZArith List Bool String Lia.
From Coq Require Import ZifyBool.
From Coq Require Import Init.Byte.
From Verif Require Import Py ETree Remap BV VSuper CheckFile Spec SpecBox SpecMarker SpecIPL SpecWalk SpecSuper SpecCS SpecFile SpecTop SpecValid SpecMake SpecForm SpecEnv
     PBase PHuman PEmit PWalk PWrite PSeg PLeaf PLeaf2 PValid PTop PForm Ex Prop_Top Prop_File Prop_CS Prop_Check Prop_Form Prop_Report.
Import ListNotations.
Open Scope string_scope.
Open Scope list_scope.
Open Scope Z_scope.

Section Env.
Variables (E E' : env) (fmt : string).
Hypothesis HL : latin_alike E E'.

Lemma xml_env x : xml_alike E E' x -> holds (xml_tests (xml_parse E) x) -> holds (xml_tests (xml_parse E') x).
Proof.
  unfold xml_alike, xml_tests. rewrite !holds_cons. intros HA ((e & H) & HN). split; [|exact HN].
  destruct (xml_parse E' x) as [e'|]; [now exists e'|]. destruct HA as (_ & HA). rewrite (HA eq_refl) in H. discriminate.
Qed.
Lemma com_env x : holds (com_tests (catC E) x) -> holds (com_tests (catC E') x).
Proof.
  unfold com_tests. rewrite !holds_cons. intros (H1 & H2 & H3 & H4). split; [exact H1|]. split; [exact H2|]. split; [|exact H4].
  destruct H3 as [H3|(H3 & HF)]; [now left|]. right. split; [exact H3|]. revert HF. rewrite !Forall_map. apply Forall_impl. intros b. unfold printable. now rewrite (HL b).
Qed.
Lemma need_env n t x : leaf_alike E E' (t, x) -> need E fmt n t x -> need E' fmt n t x.
Proof.
  intros (HX & HU). cbn [fst snd] in *. unfold need. cbv zeta.
  repeat match goal with |- context [if bytes_eqb t ?u then _ else _] => destruct (bytes_eqb t u) eqn:?; [first [exact (fun H => H)|idtac]|] end.
  - apply xml_env, HX. now apply bytes_eqb_spec.
  - unfold uuid_tests. rewrite !holds_cons. intros (H1 & H2). split; [exact H1|]. revert H2.
    destruct (bytes_eqb (sub x 0 16) xmp_uuid) eqn:EX; [|exact (fun H => H)]. apply xml_env, HU; now apply bytes_eqb_spec.
  - apply com_env.
  - exact (fun H => H).
Qed.
Lemma seg_env n s : In (snd (fst s)) (m_SIZ :: map fst main_markers ++ map fst tile_markers) -> seg_ok E fmt n s -> seg_ok E' fmt n s.
Proof.
  destruct s as ((k, m), x). cbn [fst snd]. intros HM. unfold seg_ok. apply need_env. split; cbn [fst snd]; intros ->; exfalso; cbn in HM; intuition discriminate.
Qed.
Lemma segs_env n tbl l : tbl = main_markers \/ tbl = tile_markers -> Forall (seg_ok E fmt n) (treated tbl l) -> Forall (seg_ok E' fmt n) (treated tbl l).
Proof.
  intros HT. rewrite !Forall_forall. intros H ((k & m) & x) HI. apply seg_env; [|now apply H]. cbn [fst snd].
  apply treated_in in HI. apply (in_map fst) in HI. right. apply in_or_app. destruct HT as [->| ->]; [now left|now right].
Qed.
Lemma cs_env c : codestream_ok E fmt c -> codestream_ok E' fmt c.
Proof.
  intros (l & rest & ps & H1 & H2 & H3 & H4 & H5 & H6 & H7 & H8). exists l, rest, ps. do 3 (split; [assumption|]).
  split; [exact H4|]. split; [now apply (segs_env _ main_markers l (or_introl eq_refl))|]. split; [|tauto].
  revert H6. apply Forall_impl. intros p (l' & r & T1 & T2 & T3 & T4). exists l', r. do 2 (split; [assumption|]). split; [|exact T4].
  now apply (segs_env _ tile_markers l' (or_intror eq_refl)).
Qed.

Lemma inbox_trans c s y b : inbox c (s, y) -> In s supers -> inbox y b -> inbox c b.
Proof.
  intros HC HS. induction 1 as [bs b H1 H2|u z bs b _ IH HU H1 H2]; [exact (inbox_in c s y bs b HC HS H1 H2)|exact (inbox_in c u z bs b IH HU H1 H2)].
Qed.
Definition inside_alike (b : bytes * bytes) : Prop :=
  leaf_alike E E' b /\ (In (fst b) supers -> forall b', inbox (snd b) b' -> leaf_alike E E' b').
Lemma inside_in s x bs : In s supers -> inside_alike (s, x) -> splits x bs -> forall b, In b bs -> inside_alike b.
Proof.
  intros HS (_ & HI) HX (t, y) HB. cbn [fst snd] in HI. specialize (HI HS). pose proof (inbox_here x bs _ HX HB) as HH. split; [now apply HI|].
  cbn [fst snd]. intros HT b' Hb'. apply HI. exact (inbox_trans x t y b' HH HT Hb').
Qed.
Lemma box_env : forall b, box_ok E fmt b -> inside_alike b -> box_ok E' fmt b.
Proof.
  fix IH 2. intros b [t x HN H|x bs HS HB HT|x bs HS HB HT|x bs HS HB HT|x H] HI.
  - apply ok_leaf; [exact HN|]. exact (need_env None t x (proj1 HI) H).
  - apply (ok_jp2h E' fmt x bs HS); [|exact HT]. pose proof (inside_in t_jp2h x bs (or_introl eq_refl) HI HS) as HJ. clear HI HT HS.
    induction HB as [|b' bs' H1 _ IHB]; constructor; [apply IH; [exact H1|apply HJ; now left]|apply IHB; intros b0 H0; apply HJ; now right].
  - apply (ok_res E' fmt x bs HS); [|exact HT]. pose proof (inside_in t_res x bs (or_intror (or_introl eq_refl)) HI HS) as HJ. clear HI HT HS.
    induction HB as [|b' bs' H1 _ IHB]; constructor; [apply IH; [exact H1|apply HJ; now left]|apply IHB; intros b0 H0; apply HJ; now right].
  - apply (ok_uinf E' fmt x bs HS); [|exact HT]. pose proof (inside_in t_uinf x bs (or_intror (or_intror (or_introl eq_refl))) HI HS) as HJ. clear HI HT HS.
    induction HB as [|b' bs' H1 _ IHB]; constructor; [apply IH; [exact H1|apply HJ; now left]|apply IHB; intros b0 H0; apply HJ; now right].
  - apply ok_cs. now apply cs_env.
Qed.
Lemma file_env c : (forall b, inbox c b -> leaf_alike E E' b) -> file_ok E fmt c -> file_ok E' fmt c.
Proof.
  intros HA (bs & hs & HS & HH & HB & HT). exists bs, hs. split; [exact HS|]. split; [exact HH|]. split; [|exact HT].
  rewrite Forall_forall in *. intros (t, x) HI. apply box_env; [now apply HB|]. pose proof (inbox_here c bs _ HS HI) as HX.
  split; [now apply HA|]. cbn [fst snd]. intros HU b' Hb'. apply HA. exact (inbox_trans c t x b' HX HU Hb').
Qed.
End Env.

Lemma latin_sym E E' : latin_alike E E' -> latin_alike E' E.
Proof. intros H b. now rewrite H. Qed.
Lemma leaf_sym E E' b : leaf_alike E E' b -> leaf_alike E' E b.
Proof. unfold leaf_alike, xml_alike. intuition. Qed.
Lemma env_sym E E' c : env_alike E E' c -> env_alike E' E c.
Proof. intros (H1 & H2). split; [now apply latin_sym|]. intros b HB. now apply leaf_sym, H2. Qed.

(** The verdict on a file depends on the place only through control characters and
    well-formedness of the XML in the file: not on white space, floating point
    functions, the limit on digits, or what XML parsers make of a document. *)
Theorem C81_file E E' o o' c : In (o_format o) ["jp2"; "jph"] -> o_format o' = o_format o -> len c < 2 ^ 53 -> env_alike E E' c ->
  (called_valid E o c <-> called_valid E' o' c).
Proof.
  intros HF HO HL HA. rewrite !called_file by (rewrite ?HO; assumption). rewrite HO. pose proof (env_sym _ _ _ HA) as HA'.
  split; apply file_env; (apply HA || apply HA').
Qed.
(** Codestreams contain no XML. *)
Theorem C81_codestream E E' o o' c : In (o_format o) ["j2c"; "jhc"] -> o_format o' = o_format o -> latin_alike E E' ->
  (called_valid E o c <-> called_valid E' o' c).
Proof.
  intros HF HO HA. rewrite !called_cs by (rewrite ?HO; assumption). rewrite HO. pose proof (latin_sym _ _ HA) as HA'.
  split; apply cs_env; assumption.
Qed.
(** Nor does it depend on where the file is, what it is called and how old it is. *)
Theorem C81_report E E' o o' path path' fo fo' size size' mtime mtime' c : env_ok E -> env_ok E' -> str_limit E = None -> str_limit E' = None ->
  fo_size fo = Ok size -> fo_mtime fo = Ok mtime -> fo_map fo = Mapped c ->
  fo_size fo' = Ok size' -> fo_mtime fo' = Ok mtime' -> fo_map fo' = Mapped c ->
  In (o_format o) ["jp2"; "jph"; "j2c"; "jhc"] -> o_format o' = o_format o -> len c < 2 ^ 53 -> env_alike E E' c ->
  (exists fuel depth rep, checkOneFile E fuel depth path fo o 0 = Ok rep /\ says_valid rep) <->
  (exists fuel depth rep, checkOneFile E' fuel depth path' fo' o' 0 = Ok rep /\ says_valid rep).
Proof.
  intros HE HE' HN HN' S1 S2 S3 T1 T2 T3 HF HO HL HA.
  assert (HD : In (o_format o) ["jp2"; "jph"] \/ In (o_format o) ["j2c"; "jhc"]) by (cbn in *; tauto). destruct HD as [HD|HD].
  - rewrite (C20_verdict E path fo o size mtime c HE S1 S2 HN S3 HD HL), (C20_verdict E' path' fo' o' size' mtime' c HE' T1 T2 HN' T3) by (rewrite ?HO; assumption).
    rewrite HO. pose proof (env_sym _ _ _ HA) as HA'. split; apply file_env; (apply HA || apply HA').
  - rewrite (C20_verdict_codestream E path fo o size mtime c HE S1 S2 HN S3 HD), (C20_verdict_codestream E' path' fo' o' size' mtime' c HE' T1 T2 HN' T3) by (rewrite ?HO; assumption).
    rewrite HO. pose proof (env_sym _ _ _ HA) as HA'. split; apply cs_env; (apply HA || apply HA').
Qed.

(** Another place: other white space, powers of ten and limit, another control character
    outside ISO 8859-15, and a parser that accepts the same but makes something else
    of it. *)
Definition E9 : env := {|
  catC := fun c => (c <? 32) || (c =? 127) || (c =? 1000); isspace := fun _ => true;
  xml_parse := fun b => match xml_parse E0 b with Some _ => Some (node "other" [node "child" []]) | None => None end;
  pow10neg := fun _ => SpecFloat.S754_nan; str_limit := Some 1 |}.
Definition parse_with (E : env) (p : bytes -> option elt) : env :=
  {| catC := catC E; isspace := isspace E; xml_parse := p; pow10neg := pow10neg E; str_limit := str_limit E |}.
Definition control_with (E : env) (p : Z -> bool) : env :=
  {| catC := p; isspace := isspace E; xml_parse := xml_parse E; pow10neg := pow10neg E; str_limit := str_limit E |}.
Definition ex_xml : bytes := [x00; x00; x00; x0b; x78; x6d; x6c; x20; x3c; x61; x3e].
Definition ex_euro : bytes := firstn 65 ex_cs ++ [xff; x64; x00; x05; x00; x01; xa4] ++ skipn 65 ex_cs.
Definition says (E : env) (fmt : string) (t : string) (c : bytes) : bool := is_valid (validate E (op fmt false) 100 10 (BTs t) c VNone VNone).
Lemma says_called E fmt t c : root_type fmt (BTs t) -> says E fmt t c = true -> called_valid E (op fmt false) c.
Proof.
  unfold says. intros HT H. exists (BTs t). destruct (validate E (op fmt false) 100 10 (BTs t) c VNone VNone) as [r| | ] eqn:EV; [|discriminate H..].
  exists r. split; [exact HT|]. split; [now exists 100%nat, 10%nat|]. unfold is_valid in H. destruct (r_valid r); try discriminate. now destruct b.
Qed.
Example C81_ex : env_alike E0 E9 (ex_file ++ ex_xml) /\ called_valid E9 (op "jp2" false) (ex_file ++ ex_xml) /\
  says (parse_with E0 (fun _ => None)) "jp2" "JP2" (ex_file ++ ex_xml) = false /\
  called_valid E9 (op "j2c" false) ex_euro /\
  says (control_with E0 (fun c => c =? 8364)) "j2c" "contiguousCodestreamBox" ex_euro = false.
Proof.
  assert (HA : env_alike E0 E9 (ex_file ++ ex_xml)).
  { split; [intros b; now destruct b|]. intros b _. split; intros; unfold xml_alike, E9; cbn [xml_parse]; destruct (xml_parse E0 _); split; intros; (reflexivity || discriminate). }
  split; [exact HA|]. split; [|split; [now vm_compute|split; [|now vm_compute]]].
  - apply (C81_file E0 E9 (op "jp2" false) (op "jp2" false)); [now left|reflexivity|now vm_compute|exact HA|]. apply (says_called E0 "jp2" "JP2"); [left; split; [now left|reflexivity]|now vm_compute].
  - apply (C81_codestream E0 E9 (op "j2c" false) (op "j2c" false)); [now left|reflexivity|intros b; now destruct b|].
    apply (says_called E0 "j2c" "contiguousCodestreamBox"); [right; split; [now left|reflexivity]|now vm_compute].
Qed.

(** ** The limit on digits *)

Definition limit_with (E : env) (l : option Z) : env :=
  {| catC := catC E; isspace := isspace E; xml_parse := xml_parse E; pow10neg := pow10neg E; str_limit := l |}.
Lemma validate_limit E op fuel l l' d : validate (limit_with E l) op fuel d = validate (limit_with E l') op fuel d.
Proof. induction d as [|d IH]; [reflexivity|]. cbn [validate]. rewrite IH. reflexivity. Qed.
Lemma text_limit cat l v : textOut cat l v = textOut cat None v \/ textOut cat l v = Raise ValueError.
Proof. destruct v; try (now left). cbn. destruct l as [n|]; [|now left]. cbn. destruct (n <? ndigits z); [now right|now left]. Qed.
Lemma readable_limit cat l tbl e : makeHumanReadable cat l tbl e = makeHumanReadable cat None tbl e \/ makeHumanReadable cat l tbl e = Raise ValueError.
Proof.
  induction e as [t a v k IH] using elt_ind'. rewrite !mhr_unfold.
  destruct (text_limit cat l (remap tbl t v)) as [->| ->]; [|now right]. destruct (textOut cat None (remap tbl t v)) as [v'| |]; [|now left..]. cbn [rbind].
  match goal with |- context [?g k] => match g with context [makeHumanReadable cat l tbl] => set (go := g) end end.
  match goal with |- context [?g k] => match g with context [makeHumanReadable cat None tbl] => set (go0 := g) end end.
  assert (HG : go k = go0 k \/ go k = Raise ValueError).
  { clear v'. induction IH as [|x k [HX|HX] _ IHk]; [now left| |].
    - unfold go, go0. cbn. rewrite HX. destruct (makeHumanReadable cat None tbl x) as [x'| |]; [|now left..]. cbn [rbind].
      change (rbind (go k) (fun r => Ok (x' :: r)) = rbind (go0 k) (fun r => Ok (x' :: r)) \/ rbind (go k) (fun r => Ok (x' :: r)) = Raise ValueError).
      destruct IHk as [->| ->]; [now left|now right].
    - right. unfold go. cbn. rewrite HX. reflexivity. }
  destruct HG as [->| ->]; [now left|now right].
Qed.
(** A limit on the digits of numbers makes no difference to a report, or makes it fail. *)
Theorem C81_limit E l fuel depth path fo o size mtime : fo_size fo = Ok size -> fo_mtime fo = Ok mtime ->
  checkOneFile (limit_with E l) fuel depth path fo o 0 = checkOneFile (limit_with E None) fuel depth path fo o 0 \/
  checkOneFile (limit_with E l) fuel depth path fo o 0 =
    Ok (report fo o size mtime (failed_with (message ValueError)) "False" [] [] [] [leaf "warning" (VStr (pys (message ValueError)))]).
Proof.
  intros H1 H2.
  assert (HA : analyse (limit_with E l) fuel depth path (fo_map fo) o = analyse (limit_with E None) fuel depth path (fo_map fo) o \/
               analyse (limit_with E l) fuel depth path (fo_map fo) o = Raise ValueError).
  { unfold analyse. destruct (fileToMemoryMap path (fo_map fo)) as [(data, fmm)| |]; [|now left..]. cbn [rbind]. destruct (rootBox (o_format o)); [|now left].
    rewrite (validate_limit E o fuel l None depth). destruct (validate _ _ _ _ _ _ _ _) as [r| |]; [|now left..]. cbn [rbind]. cbv zeta.
    cbn [catC str_limit limit_with].
    destruct (readable_limit (catC E) l [] (r_tests r)) as [->| ->]; [|now right]. destruct (makeHumanReadable _ _ _ (r_tests r)); [|now left..]. cbn [rbind].
    destruct (readable_limit (catC E) l propertiesRemapTable (r_chars r)) as [->| ->]; [|now right]. destruct (makeHumanReadable _ _ _ (r_chars r)); [|now left..]. cbn [rbind].
    match goal with |- context [makeHumanReadable (catC E) l [] ?w] => destruct (readable_limit (catC E) l [] w) as [->| ->] end; [now left|now right]. }
  unfold checkOneFile. rewrite H1, H2. cbn [rbind]. destruct HA as [->| ->]; [left; reflexivity|right; reflexivity].
Qed.
(** That happens: PRF segments may give numbers with more than a hundred thousand
    digits.  Python 3.11 and later have a limit of 4300 digits by default; the least
    limit that can be set is 640. *)
Definition ex_prf : bytes := firstn 65 ex_cs ++ [xff; x56; x01; x0e] ++ repeat xff 268 ++ skipn 65 ex_cs.
Definition ex_says (l : option Z) : option value :=
  match checkOneFile (limit_with E0 l) 100 10 (pys "a") (ex_fo (Mapped ex_prf)) (op "j2c" false) 0 with
  | Ok r => Some (findElementText ["isValid"] r) | _ => None end.
Theorem C81_limit_matters : called_valid (limit_with E0 (Some 640)) (op "j2c" false) ex_prf /\
  ex_says None = Some (VStr (pys "True")) /\ ex_says (Some 640) = Some (VStr (pys "False")).
Proof.
  split; [|split; now vm_compute]. apply (says_called _ "j2c" "contiguousCodestreamBox"); [right; split; [now left|reflexivity]|now vm_compute].
Qed.

Definition all_theorems := (C81_file, C81_codestream, C81_report, C81_limit, C81_limit_matters).
Print Assumptions all_theorems.
