(** * Closed form of whole files *)

From Coq Require Import ZArith List Bool String Lia.
From Coq Require Import ZifyBool.
From Coq Require Import Init.Byte.
From Verif Require Import Py PyFloat ByteConv ETree BV VBoxes VMarkers VSuper Spec SpecBox SpecMarker
     SpecWalk SpecSuper SpecCS SpecFile PBase PEmit PLeaf PMarker PMarker2 PWalk PSuper PSeg PTile PChain PCS PGrow
     Prop_Options.
Import ListNotations.
Open Scope string_scope.
Open Scope list_scope.
Open Scope Z_scope.

(** ** Raising the limits *)
Lemma lift_ok E op fuel fuel' d d' t c start csiz r :
  validate E op fuel d t c start csiz = Ok r -> (fuel <= fuel')%nat -> (d <= d')%nat ->
  validate E op fuel' d' t c start csiz = Ok r.
Proof.
  intros H HF HD. pose proof (C57_limits E op fuel fuel' d d' t c start csiz HF HD) as HC.
  rewrite H in HC. exact HC.
Qed.
Lemma mapM_ok_iff {A B} (f : A -> res B) l rs : mapM f l = Ok rs <-> Forall2 (fun x r => f x = Ok r) l rs.
Proof.
  split; [apply mapM_Forall2|]. induction 1 as [|x r l rs HX HF IH]; [reflexivity|].
  cbn [mapM]. now rewrite HX, IH.
Qed.
Lemma lift_kids E op fuel fuel' d d' (l : list (bytes * bytes)) rs :
  (fuel <= fuel')%nat -> (d <= d')%nat ->
  Forall2 (fun b r => child (validate E op fuel d) b = Ok r) l rs ->
  Forall2 (fun b r => child (validate E op fuel' d') b = Ok r) l rs.
Proof.
  intros HF HD H. induction H as [|b r l rs HX H IH]; [constructor|]. constructor; [|exact IH].
  unfold child in *. eapply lift_ok; eassumption.
Qed.

(** ** JP2 Header boxes of the file *)
Section Kids.
Variables (E : env) (op : opts) (fuel d : nat).
Let kid (b : bytes * bytes) (r : bv) : Prop := child (validate E op fuel d) b = Ok r.

Lemma kids_bpcc bs rs : Forall2 kid bs rs ->
  filter (fun c => String.eqb (etag c) "bitsPerComponentBox") (map r_chars rs) =
  map (fun x => node "bitsPerComponentBox" (leaves (bpcc_props x))) (boxes_of t_bpcc bs).
Proof.
  intros HF. pose proof (kids_tag E op fuel d bs rs "bitsPerComponentBox" t_bpcc HF) as H.
  specialize (H ltac:(repeat split; discriminate)).
  induction H as [|x e l m (r & HV & ->) _ IH]; [reflexivity|]. cbn [map]. f_equal; [|exact IH].
  destruct d as [|d']; [discriminate|].
  destruct (bpcc_says E op fuel d' x VNone VNone) as (r' & HV' & (_ & HC & _) & _).
  unfold tagBPCC in HV'. unfold t_bpcc in HV. rewrite HV' in HV. injection HV as <-. exact HC.
Qed.

Lemma kids_jp2h bs rs hs : Forall2 kid bs rs -> headers bs hs ->
  flat_map (findall ["imageHeaderBox"]) (filter (fun c => String.eqb (etag c) "jp2HeaderBox") (map r_chars rs)) =
    map (fun x => node "imageHeaderBox" (leaves (ihdr_props x))) (flat_map (boxes_of t_ihdr) hs) /\
  flat_map (findall ["bitsPerComponentBox"]) (filter (fun c => String.eqb (etag c) "jp2HeaderBox") (map r_chars rs)) =
    map (fun x => node "bitsPerComponentBox" (leaves (bpcc_props x))) (flat_map (boxes_of t_bpcc) hs).
Proof.
  intros HF HH. pose proof (kids_tag E op fuel d bs rs "jp2HeaderBox" t_jp2h HF) as H.
  specialize (H ltac:(repeat split; discriminate)).
  unfold headers in HH. revert hs HH.
  induction H as [|x e l m (r & HV & ->) _ IH]; intros hs HH; inversion HH as [|x' h l' hs' HS HH']; subst;
    [split; reflexivity|].
  destruct (IH hs' HH') as (IH1 & IH2). cbn [flat_map].
  rewrite !map_app, IH1, IH2.
  (* the closed form, with enough fuel *)
  assert (HC : exists rs', Forall2 (fun b r => child (validate E op (Nat.max fuel (S (List.length h))) d) b = Ok r) h rs' /\
                           r_chars r = node "jp2HeaderBox" (map r_chars rs')).
  { apply (lift_ok E op fuel (Nat.max fuel (S (List.length h))) d (S d)) in HV; [|lia|lia].
    pose proof (jp2h_says E op (Nat.max fuel (S (List.length h))) d x VNone VNone h HS ltac:(lia)) as HJ.
    destruct (mapM (child (validate E op (Nat.max fuel (S (List.length h))) d)) h) as [rs'|e|] eqn:EM;
      [|congruence|congruence].
    destruct HJ as (r' & HV' & (_ & HC & _) & _). rewrite HV' in HV. injection HV as <-.
    exists rs'. split; [now apply mapM_Forall2|]. now rewrite app_nil_r in HC. }
  destruct HC as (rs' & HK & ->). cbn [findall ekids node]. rewrite !flat_single.
  rewrite (kids_ihdr E op _ d h rs' HK).
  assert (HB : filter (fun c => String.eqb (etag c) "bitsPerComponentBox") (map r_chars rs') =
    map (fun x => node "bitsPerComponentBox" (leaves (bpcc_props x))) (boxes_of t_bpcc h)).
  { clear -HK. pose proof (kids_tag E op _ d h rs' "bitsPerComponentBox" t_bpcc HK) as H.
    specialize (H ltac:(repeat split; discriminate)).
    induction H as [|x e l m (r & HV & ->) _ IH]; [reflexivity|]. cbn [map]. f_equal; [|exact IH].
    destruct d as [|d']; [discriminate|].
    destruct (bpcc_says E op (Nat.max fuel (S (List.length h))) d' x VNone VNone) as (r' & HV' & (_ & HC & _) & _).
    unfold tagBPCC in HV'. unfold t_bpcc in HV. rewrite HV' in HV. injection HV as <-. exact HC. }
  rewrite HB. split; reflexivity.
Qed.

(** ** Codestreams of the file *)
Definition has_siz (x : bytes) : list bytes := if bytes_eqb (sub (cs_second x) 0 2) m_SIZ then [cs_siz x] else [].

Lemma kid_siz x r :
  validate E op fuel d (BTb t_jp2c) x VNone VNone = Ok r ->
  if bytes_eqb (sub (cs_second x) 0 2) m_SIZ
  then exists cap k, siz_capability (val (cs_siz x) 2 2) = Some cap /\
       findall ["siz"] (r_chars r) = node "siz" (leaves (siz_props cap (cs_siz x))) :: k
  else findall ["siz"] (r_chars r) = [].
Proof.
  intros HV.
  apply (lift_ok E op fuel (Nat.max fuel (List.length x + 3)) d (S (S (S d)))) in HV; [|lia|lia].
  destruct (bytes_eqb (sub (cs_second x) 0 2) m_SIZ) eqn:EB.
  - apply bytes_eqb_spec in EB. destruct (after_total m_SOT (cs_second x)) as (l & rest & HA).
    destruct (cs_general E op (Nat.max fuel (List.length x + 3)) d (BTb t_jp2c) x VNone VNone l rest r eq_refl ltac:(lia) EB HA HV)
      as (cap & k & HC & HR & _).
    exists cap, (flat_map (findall []) (filter (fun c => String.eqb (etag c) "siz") k)).
    split; [exact HC|]. rewrite HR. reflexivity.
  - assert (HN : sub (cs_second x) 0 2 <> m_SIZ) by (intros HX; rewrite HX, bytes_eqb_refl in EB; discriminate).
    destruct (cs_nosiz_ok E op (Nat.max fuel (List.length x + 3)) (S (S d)) (BTb t_jp2c) x VNone VNone eq_refl HN)
      as (res & HV' & (_ & HC & _)).
    rewrite HV' in HV. injection HV as <-. rewrite HC. reflexivity.
Qed.

Lemma kids_siz bs rs : Forall2 kid bs rs ->
  match file_siz bs with
  | Some y => exists cap, siz_capability (val y 2 2) = Some cap /\
      find ["contiguousCodestreamBox"; "siz"] (node "" (map r_chars rs)) =
      Some (node "siz" (leaves (siz_props cap y)))
  | None => find ["contiguousCodestreamBox"; "siz"] (node "" (map r_chars rs)) = None
  end.
Proof.
  intros HF. unfold find, file_siz.
  change (findall ["contiguousCodestreamBox"; "siz"] (node "" (map r_chars rs))) with
    (flat_map (findall ["siz"]) (filter (fun c => String.eqb (etag c) "contiguousCodestreamBox") (map r_chars rs))).
  pose proof (kids_tag E op fuel d bs rs "contiguousCodestreamBox" t_jp2c HF) as H.
  specialize (H ltac:(repeat split; discriminate)).
  induction H as [|x e l m (r & HV & ->) _ IH]; [reflexivity|].
  apply kid_siz in HV. cbn [flat_map].
  destruct (bytes_eqb (sub (cs_second x) 0 2) m_SIZ).
  - destruct HV as (cap & k & HC & HR). rewrite HR. cbn [app hd_error]. exists cap. auto.
  - rewrite HV. cbn [app]. exact IH.
Qed.
End Kids.

(** ** Lists of values *)
Lemma list_eqb_ints a b : py_list_eqb (map VInt a) (map VInt b) = true <-> a = b.
Proof.
  revert b. induction a as [|x a IH]; intros [|y b]; cbn; try easy.
  rewrite andb_true_iff, IH. cbn [py_eqb]. rewrite Z.eqb_eq. split; [now intros (-> & ->)|].
  intros H. now injection H as -> ->.
Qed.
Lemma bpcc_text f g x : (forall z, List.find (fun nv => String.eqb (fst nv) f)
     [("bPCSign", VInt (csign (bz z))); ("bPCDepth", VInt (cdepth (bz z)))] = Some (f, VInt (g (bz z)))) ->
  In f ["bPCSign"; "bPCDepth"] ->
  findAllText [f] (node "bitsPerComponentBox" (leaves (bpcc_props x))) = map VInt (map (fun z => g (bz z)) x).
Proof.
  intros HF Hf. unfold bpcc_props, leaves, findAllText. cbn [findall ekids node].
  induction x as [|z x IH]; [reflexivity|]. cbn [flat_map]. rewrite map_app, filter_app, flat_map_app, map_app.
  cbn [map]. rewrite IH. change (VInt (g (bz z)) :: ?l) with ([VInt (g (bz z))] ++ l). f_equal.
  specialize (HF z). cbn [In] in Hf. destruct Hf as [<-|[<-|[]]]; cbn in HF |- *; congruence.
Qed.
Lemma siz_bpc_text f g y cap : 
  (f = "ssizSign" /\ g = csign) \/ (f = "ssizDepth" /\ g = cdepth) ->
  findAllText [f] (node "siz" (leaves (siz_props cap y))) = map VInt (siz_bpc g y).
Proof.
  intros Hf. unfold siz_props, leaves, siz_bpc. rewrite map_app. unfold findAllText. cbn [findall ekids node].
  rewrite filter_app, flat_map_app, map_app.
  replace (map etext _) with (@nil value) at 1 by (destruct Hf as [(-> & _)|(-> & _)]; reflexivity).
  cbn [app]. rewrite map_map.
  induction (zseq (val y 36 2)) as [|i l IH]; [reflexivity|].
  cbn [flat_map]. rewrite map_app, filter_app, flat_map_app, map_app, IH.
  destruct Hf as [(-> & ->)|(-> & ->)]; reflexivity.
Qed.

Lemma bindex_from_spec k x l i : bindex_from k x l = Some i <->
  exists a b, l = a ++ x :: b /\ ~ In x a /\ i = k + len a.
Proof.
  revert k. induction l as [|y l IH]; intros k; cbn [bindex_from].
  - split; [discriminate|]. intros (a & b & H & _). destruct a; discriminate.
  - destruct (bytes_eqb x y) eqn:EB.
    + apply bytes_eqb_spec in EB. subst y. split.
      * intros H. injection H as <-. exists [], l. repeat split; [easy|]. unfold len. cbn. lia.
      * intros ([|z a] & b & H & HN & ->); [f_equal; unfold len; cbn; lia|].
        injection H as <- _. now contradiction HN; left.
    + rewrite IH. split.
      * intros (a & b & -> & HN & ->). exists (y :: a), b. repeat split.
        -- intros [->|HI]; [|easy]. rewrite bytes_eqb_refl in EB. discriminate.
        -- unfold len. cbn [List.length]. lia.
      * intros ([|z a] & b & H & HN & ->).
        -- injection H as -> _. rewrite bytes_eqb_refl in EB. discriminate.
        -- injection H as <- ->. exists a, b. repeat split; [intros HI; apply HN; now right|].
           unfold len. cbn [List.length]. lia.
Qed.
Lemma bindex_none x l : bindex x l = None <-> ~ In x l.
Proof.
  unfold bindex. generalize 0. induction l as [|y l IH]; intros k; cbn [bindex_from In]; [tauto|].
  destruct (bytes_eqb x y) eqn:EB.
  - apply bytes_eqb_spec in EB. subst. split; [discriminate|]. intros H. contradiction H. now left.
  - rewrite IH. split; [|tauto]. intros H [->|HI]; [|easy]. rewrite bytes_eqb_refl in EB. discriminate.
Qed.

Lemma placed_spec types : locationJP2HeaderBoxIsValid types = true <-> header_placed types.
Proof.
  unfold locationJP2HeaderBoxIsValid, header_placed.
  change tagJP2H with t_jp2h. change tagJP2C with t_jp2c.
  destruct (bindex t_jp2h types) as [h|] eqn:EH.
  2:{ split; [discriminate|]. intros (a & b & -> & _). apply bindex_none in EH. contradiction EH.
      apply in_or_app. right. now left. }
  destruct (bindex t_jp2c types) as [k|] eqn:EK.
  2:{ split; [discriminate|]. intros (a & b & -> & _ & _ & HI & _). apply bindex_none in EK. contradiction EK.
      apply in_or_app. right. now right. }
  unfold bindex in *. apply bindex_from_spec in EH, EK.
  destruct EH as (a & b & -> & HNA & ->). destruct EK as (a' & b' & HE & HNA' & ->).
  assert (HU : forall (z : bytes) (a a' b b' : list bytes), a ++ z :: b = a' ++ z :: b' -> ~ In z a -> ~ In z a' -> a = a').
  { clear. intros z a. induction a as [|u a IH]; intros [|v a'] b b' H HN HN'; cbn in H; inversion H; subst.
    - reflexivity.
    - contradiction HN'. now left.
    - contradiction HN. now left.
    - f_equal. eapply IH; [eassumption| |]; intros HX; [apply HN|apply HN']; now right. }
  split.
  - intros H. exists a, b. repeat split; [easy| | |lia].
    + intros HI. assert (HL : len a < len a') by lia. apply in_split in HI. destruct HI as (u & v & ->).
      assert (HD : In t_jp2c u \/ ~ In t_jp2c u).
      { rewrite <- (bin_spec t_jp2c u). destruct (bin t_jp2c u); [now left|now right]. }
      destruct HD as [HI|HI].
      * apply in_split in HI. clear -HI HE HNA' HL. 
        assert (In t_jp2c a'); [|easy]. destruct HI as (u1 & u2 & ->).
        rewrite <- !app_assoc in HE. cbn in HE. clear -HE HL. revert a' HE HL.
        induction u1 as [|w u1 IH]; intros [|w' a'] HE HL; try (unfold len in HL; cbn in HL; rewrite ?app_length in HL; cbn in HL; lia).
        -- injection HE as <- _. now left.
        -- injection HE as <- HE. right. apply IH; [exact HE|]. unfold len in *. cbn in HL. lia.
      * rewrite <- app_assoc in HE. cbn in HE. apply HU in HE; [|easy|easy]. subst u.
        unfold len in HL. rewrite app_length in HL. lia.
    + assert (HL : len a < len a') by lia. clear -HE HL. revert a' HE HL.
      induction a as [|w a IH]; intros [|w' a'] HE HL; try (unfold len in HL; cbn in HL; lia).
      * injection HE as _ ->. apply in_or_app. right. now left.
      * injection HE as _ HE. apply (IH a'); [exact HE|]. unfold len in *. cbn in HL. lia.
  - intros (a1 & b1 & HE1 & H1 & H2 & H3 & H4). apply HU in HE1 as HX; [|easy|easy]. subst a1.
    assert (len a < len a'); [|lia].
    apply app_inv_head in HE1. injection HE1 as <-. clear -HE H2 HNA'.
    revert a' HE HNA'. induction a as [|w a IH]; intros [|w' a'] HE HN'.
    + discriminate HE.
    + unfold len. cbn. lia.
    + injection HE as -> _. contradiction H2. now left.
    + injection HE as -> HE. assert (len a < len a'); [|unfold len in *; cbn; lia].
      apply IH; [intros HX; apply H2; now right|exact HE|intros HX; apply HN'; now right].
Qed.

(** ** Header fields against SIZ *)
Definition agree_bools (x : bytes) (b : option bytes) (y : bytes) : list (string * bool) :=
  [ ("heightConsistentWithSIZ", val x 0 4 =? val y 8 4 - val y 16 4);
    ("widthConsistentWithSIZ", val x 4 4 =? val y 4 4 - val y 12 4);
    ("nCConsistentWithSIZ", val x 8 2 =? val y 36 2);
    ("bPCSignConsistentWithSIZ", py_list_eqb (map VInt (hdr_bpc csign x b)) (map VInt (siz_bpc csign y)));
    ("bPCDepthConsistentWithSIZ", py_list_eqb (map VInt (hdr_bpc cdepth x b)) (map VInt (siz_bpc cdepth y))) ].
Lemma agree_ok x b y : tbl_ok (agree_tests x b y) (agree_bools x b y).
Proof. unfold agree_tests, agree_bools. tbl; try apply Z.eqb_eq; apply list_eqb_ints. Qed.

Lemma map_repeat {A B} (f : A -> B) a n : map f (repeat a n) = repeat (f a) n.
Proof. induction n; cbn; congruence. Qed.

Lemma agree_emits f n chars x b y cap :
  n <> 0 ->
  find ["jp2HeaderBox"; "bitsPerComponentBox"] chars =
    option_map (fun z => node "bitsPerComponentBox" (leaves (bpcc_props z))) b ->
  emits (s_opts f) (checkHeaderAgainstSIZ f n chars (node "imageHeaderBox" (leaves (ihdr_props x)))
                      (node "siz" (leaves (siz_props cap y)))) tt
    (agree_bools x b y)
    (if fmt_is (o_format (s_opts f)) "jp2" || fmt_is (o_format (s_opts f)) "jph"
     then [ leaf "compressionRatio" (ratio n (hdr_bpc cdepth x b) (val x 0 4) (val x 4 4)) ] else []) [].
Proof.
  intros HN HB. unfold checkHeaderAgainstSIZ. cbv zeta. rewrite HB.
  rewrite !siz_find by (cbn; tauto).
  rewrite (siz_bpc_text "ssizSign" csign) by auto. rewrite (siz_bpc_text "ssizDepth" cdepth) by auto.
  cbn [List.find String.eqb Ascii.eqb Bool.eqb fst snd as_int].
  repeat match goal with |- context [findElementText ?p (node "imageHeaderBox" ?k)] =>
    let v := eval cbn in (findElementText p (node "imageHeaderBox" k)) in
    change (findElementText p (node "imageHeaderBox" k)) with v end.
  rewrite csign_cdepth by (apply val_1_range; lia).
  set (op := s_opts f).
  assert (HBPC : emits op
     (if val x 10 1 =? 255
      then match option_map (fun z => node "bitsPerComponentBox" (leaves (bpcc_props z))) b with
           | Some b0 => ret (findAllText ["bPCSign"] b0, findAllText ["bPCDepth"] b0)
           | None => ret ([], [])
           end
      else n0 <- lift (as_int (VInt (val x 8 2))) ;;
           ret (repeat (VInt (csign (val x 10 1))) (Z.to_nat n0), repeat (VInt (cdepth (val x 10 1))) (Z.to_nat n0)))
     (map VInt (hdr_bpc csign x b), map VInt (hdr_bpc cdepth x b)) [] [] []).
  { unfold hdr_bpc. destruct (val x 10 1 =? 255).
    - destruct b as [z|]; cbn [option_map]; [|apply emits_ret].
      rewrite (bpcc_text "bPCSign" csign), (bpcc_text "bPCDepth" cdepth);
        [apply emits_ret|reflexivity|cbn; tauto|reflexivity|cbn; tauto].
    - cbn [as_int]. eapply emits_eq; [eapply emits_bind; [apply emits_lift|apply emits_ret]|..]; try reflexivity.
      now rewrite !map_repeat. }
  assert (HNB : negb (n =? 0) = true) by lia.
  eapply emits_eq.
  - repeat (first [eapply emits_bind; [apply emits_lift|] | eapply emits_bind; [apply emits_test|]]; cbv beta).
    eapply emits_bind; [exact HBPC|]. cbv beta iota.
    repeat (first [eapply emits_bind; [apply emits_lift|] | eapply emits_bind; [apply emits_test|]]; cbv beta).
    cbn [as_int]. eapply emits_when.
    repeat (first [eapply emits_bind; [apply emits_lift|] | eapply emits_bind; [apply emits_test|]]; cbv beta).
    unfold calculateCompressionRatio. rewrite sum_ints. cbn [rbind]. rewrite HNB.
    eapply emits_bind; [apply emits_lift|apply emits_char].
  - reflexivity.
  - unfold agree_bools. cbn [app py_eqb]. destruct (_ || _); reflexivity.
  - unfold fmt_is, op. cbn [app]. destruct (_ || _); reflexivity.
  - cbn [app]. destruct (_ || _); reflexivity.
Qed.

(** ** The root *)
Definition root_bools (types : list bytes) (ihdr : option bytes) : list (string * bool) :=
  [ ("containsSignatureBox", bin tagJP types); ("containsFileTypeBox", bin tagFTYP types);
    ("containsJP2HeaderBox", bin tagJP2H types); ("containsContiguousCodestreamBox", bin tagJP2C types) ] ++
  (match ihdr with
   | Some x => if val x 13 1 =? 1 then [ ("containsIntellectualPropertyBox", bin tagJP2I types) ] else []
   | None => []
   end) ++
  [ ("firstBoxIsSignatureBox", match types with t :: _ => bytes_eqb t tagJP | _ => false end);
    ("secondBoxIsFileTypeBox", match types with _ :: t :: _ => bytes_eqb t tagFTYP | _ => false end);
    ("locationJP2HeaderBoxIsValid", locationJP2HeaderBoxIsValid types);
    ("noMoreThanOneSignatureBox", bcount tagJP types <=? 1);
    ("noMoreThanOneFileTypeBox", bcount tagFTYP types <=? 1);
    ("noMoreThanOneJP2HeaderBox", bcount tagJP2H types <=? 1) ].
Lemma jp2_says E op fuel d c start csz bs hs :
  splits c bs -> headers bs hs -> (List.length bs < fuel)%nat ->
  match mapM (child (validate E op fuel d)) bs with
  | Ok rs => exists r b, validate E op fuel (S d) (BTs "JP2") c start csz = Ok r /\
      super_says (o_verbose op) "tests" "properties" "warnings" rs (jp2_tests bs hs) (jp2_props (o_format op) c bs hs) r /\
      r_ret r = VNone /\ r_valid r = VBool b /\ (b = true <-> all_pass (r_tests r)) /\ r_tpl r = VNone
  | Raise e => validate E op fuel (S d) (BTs "JP2") c start csz = Raise e
  | Diverge => validate E op fuel (S d) (BTs "JP2") c start csz = Diverge
  end.
Proof.
  intros HS HH HF.
  pose proof (super_intro E op fuel d (BTs "JP2") c start csz bs) as HI.
  match type of HI with forall own, _ => specialize (HI (ltac:(
    let f := constr:({| s_opts := op; s_btype := BTs "JP2"; s_contents := c; s_start := start; s_csiz := csz |}) in
    let m := eval cbv beta zeta delta [validate_JP2] in (validate_JP2 (validate E op fuel d) fuel f) in
    lazymatch m with bind _ ?k => exact k end))) end.
  specialize (HI (fun _ => jp2_tests bs hs) (fun _ => jp2_props (o_format op) c bs hs)
    (fun rs T => VBool (negb (existsb anyFalse (filled (map r_tests rs) ++ vis (o_verbose op) T)))) HS HF eq_refl).
  match type of HI with ?P -> _ => assert (H : P) end.
  { clear HI. intros rs s HK Hs. cbv beta.
    match goal with |- exists T, ?m = _ /\ _ => set (R := m) end. assert (HR : R = R) by reflexivity. unfold R at 2 in HR.
    do 4 (erewrite bind_emits in HR by apply emits_test). unfold bind at 1 in HR. unfold get_chars at 1 in HR.
    rewrite !app_st_chars in HR. replace (st_chars s) with (map r_chars rs) in HR by (rewrite Hs; reflexivity).
    destruct (kids_jp2h E op fuel d bs rs hs HK HH) as (KI & KB).
    pose proof (kids_siz E op fuel d bs rs HK) as KS.
    assert (FI : find ["jp2HeaderBox"; "imageHeaderBox"] (node "" (map r_chars rs)) =
      option_map (fun z => node "imageHeaderBox" (leaves (ihdr_props z))) (file_ihdr hs)).
    { unfold find, file_ihdr.
      change (findall ["jp2HeaderBox"; "imageHeaderBox"] (node "" (map r_chars rs))) with
       (flat_map (findall ["imageHeaderBox"]) (filter (fun c => String.eqb (etag c) "jp2HeaderBox") (map r_chars rs))).
      rewrite KI. now destruct (flat_map (boxes_of t_ihdr) hs). }
    assert (FB : find ["jp2HeaderBox"; "bitsPerComponentBox"] (node "" (map r_chars rs)) =
      option_map (fun z => node "bitsPerComponentBox" (leaves (bpcc_props z))) (file_bpcc hs)).
    { unfold find, file_bpcc.
      change (findall ["jp2HeaderBox"; "bitsPerComponentBox"] (node "" (map r_chars rs))) with
       (flat_map (findall ["bitsPerComponentBox"]) (filter (fun c => String.eqb (etag c) "jp2HeaderBox") (map r_chars rs))).
      rewrite KB. now destruct (flat_map (boxes_of t_bpcc) hs). }
    assert (FP : findElementText ["jp2HeaderBox"; "imageHeaderBox"; "iPR"] (node "" (map r_chars rs)) =
      match file_ihdr hs with Some x => VInt (val x 13 1) | None => VNone end).
    { unfold findElementText, find, file_ihdr.
      replace (findall ["jp2HeaderBox"; "imageHeaderBox"; "iPR"] (node "" (map r_chars rs))) with
       (flat_map (findall ["iPR"]) (flat_map (findall ["imageHeaderBox"]) (filter (fun c => String.eqb (etag c) "jp2HeaderBox") (map r_chars rs)))).
      - rewrite KI. destruct (flat_map (boxes_of t_ihdr) hs) as [|x l]; reflexivity.
      - cbn [findall ekids node]. generalize (filter (fun c => String.eqb (etag c) "jp2HeaderBox") (map r_chars rs)).
        intros l. induction l as [|e l IH]; [reflexivity|]. cbn [flat_map]. rewrite flat_map_app, IH. f_equal.
        cbn [findall]. clear. induction (ekids e) as [|k ks IH]; [reflexivity|].
        cbn [filter]. destruct (String.eqb (etag k) "imageHeaderBox"); [|exact IH].
        cbn [flat_map app]. f_equal. exact IH. }
    rewrite FI, FP in HR. cbn [s_opts s_contents] in HR.
    set (P := match file_ihdr hs with
       | Some x => if val x 13 1 =? 1 then [ ("containsIntellectualPropertyBox", bin tagJP2I (map fst bs)) ] else []
       | None => [] end).
    assert (EP : emits op (when (py_eqb match file_ihdr hs with Some x => VInt (val x 13 1) | None => VNone end (VInt 1))
                     (testFor op "containsIntellectualPropertyBox" (bin tagJP2I (map fst bs)))) tt P [] []).
    { unfold P. destruct (file_ihdr hs) as [x|]; cbn [py_eqb]; [|apply emits_ret].
      destruct (val x 13 1 =? 1); cbn [when]; [apply emits_test|apply emits_ret]. }
    erewrite bind_emits in HR by exact EP.
    do 6 (erewrite bind_emits in HR by apply emits_test).
    set (A := match file_ihdr hs, file_siz bs with Some x, Some y => agree_bools x (file_bpcc hs) y | _, _ => [] end).
    match type of HR with _ = bind ?m _ _ => assert (EA : emits op m tt A (jp2_props (o_format op) c bs hs) []) end.
    { unfold A, jp2_props. destruct (file_ihdr hs) as [x|] eqn:EX; cbn [option_map]; [|apply emits_ret].
      destruct (file_siz bs) as [y|].
      - destruct KS as (cap & _ & ->).
        apply (agree_emits {| s_opts := op; s_btype := BTs "JP2"; s_contents := c; s_start := start; s_csiz := csz |}
          (len c) (node "" (map r_chars rs)) x (file_bpcc hs) y cap); [|exact FB].
        intros HL. destruct c; [|unfold len in HL; cbn in HL; lia].
        pose proof (splits_unique _ _ HS [] ltac:(constructor)) as HU. subst bs.
        inversion HH; subst. discriminate EX.
      - rewrite KS. apply emits_ret. }
    erewrite bind_emits in HR by exact EA. unfold isValid_of, set_valid in HR. unfold bind at 1 in HR.
    rewrite !app_st_app in HR. rewrite <- ?vis_app in HR. cbn [app] in HR.
    exists (root_bools (map fst bs) (file_ihdr hs) ++ A). split.
    - rewrite HR. clear HR. f_equal. f_equal. unfold with_valid, app_st. cbn [st_tests st_chars st_warns st_ret st_valid st_tpl].
      rewrite Hs. cbn [app_st st0 st_tests st_chars st_warns st_ret st_tpl app].
      match goal with |- context [vis _ (?a :: ?l)] =>
        replace (root_bools (map fst bs) (file_ihdr hs) ++ A) with (a :: l)
          by (unfold root_bools; rewrite <- !app_assoc; reflexivity) end.
      reflexivity.
    - unfold jp2_tests, root_bools. cbv zeta. rewrite <- !app_assoc.
      apply (tbl_app [_; _; _; _]); [tbl; apply bin_in|]. apply tbl_app.
      { destruct (file_ihdr hs) as [x|]; [|constructor]. destruct (val x 13 1 =? 1); [|constructor]. tbl. apply bin_in. }
      apply (tbl_app [_; _; _; _; _; _]).
      + tbl; try apply bcount_leb; try apply placed_spec; destruct (map fst bs) as [|t0 [|t1 l]]; cbn [nth_error]; 
          rewrite ?bytes_eqb_spec; change t_sig with tagJP; change t_ftyp with tagFTYP; split; congruence.
      + unfold A. destruct (file_ihdr hs), (file_siz bs); first [apply agree_ok | constructor]. }
  specialize (HI H). clear H.
  destruct (mapM (child (validate E op fuel d)) bs) as [rs|e|]; [|exact HI|exact HI].
  destruct HI as (r & T & H1 & H2 & H3 & H4 & H5 & _ & H6). exists r. eexists.
  split; [exact H1|]. split; [exact H2|]. split; [exact H3|]. split; [exact H4|]. split; [|exact H5].
  rewrite <- anyFalse_spec, H6, anyFalse_node. apply negb_true_iff.
Qed.
