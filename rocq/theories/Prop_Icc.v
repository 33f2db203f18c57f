(** * C67: the header of embedded ICC profiles is reported as ICC.1 defines it *)

From Coq Require Import ZArith List Bool String Lia QArith Qabs.
From Coq Require Import Init.Byte.
From Coq Require Import ZifyBool.
From Verif Require Import Py PyFloat ByteConv ETree BV VSuper Remap Mix CheckFile Spec SpecText SpecBox SpecWalk SpecSuper SpecCS SpecFile SpecTop SpecValid SpecNum SpecMix SpecNames SpecIcc
     PBase PWrite PEmit PLeaf2 PWalk PSeg PText PHuman PFile PValid Prop_Boxes Prop_File Prop_Top Prop_CS Prop_Check Prop_Mix Prop_Report Prop_Num
     PMix PMixOk PMixFile Prop_MixFile Prop_Names PIcc Ex.
Import ListNotations.
Open Scope string_scope.
Open Scope list_scope.
Open Scope Z_scope.

Section Header.
Variables (E : env) (p : bytes) (X : elt).
Hypothesis HE : env_ok E.
Hypothesis HP : 132 <= len p.
Let shown := shows (catC E) (str_limit E) propertiesRemapTable.
Hypothesis HX : rel shown (node "icc" (leaves (icc_props p))) X.

Lemma icc_tagged t v : In (t, v) (firstn 23 (icc_props p)) -> tagged t (leaves (icc_props p)) = [leaf t v].
Proof.
  intros HI. unfold icc_props in *. rewrite !leaves_app, !tagged_app. cbn [firstn app] in HI. rewrite (tagged_other t (map _ _)).
  2:{ apply Forall_forall. intros x Hx. apply in_map_iff in Hx as (i & <- & _). cbn in HI. repeat (destruct HI as [HI|HI]; [injection HI as <- _; discriminate|]). destruct HI. }
  cbn [In] in HI. repeat (destruct HI as [HI|HI]; [injection HI as <- <-; reflexivity|]). destruct HI.
Qed.
Lemma icc_field t v : In (t, v) (firstn 23 (icc_props p)) -> v <> VNone -> exists s, gives_text X t s /\ shown t v (VStr s).
Proof.
  intros HI HV. apply icc_tagged in HI. pose proof (rel_findall _ [t] _ _ HX) as HR. unfold node in HR. rewrite findall_cons, flat_nil, HI in HR.
  unfold gives_text. revert HR. generalize (findall [t] X) as L. intros L HR. inversion HR as [|? x' ? l HXX HL EQ1 EQ2]; subst. inversion HL; subst. inversion HXX as [t0 a0 v0 v' k0 k' HSH HK]; subst.
  destruct (h_shows E t v v' HV HSH) as (s & ->). exists s. split; [reflexivity|exact HSH].
Qed.
Lemma val_in off n : 0 <= off -> 0 < n -> off + n <= 132 -> 0 <= val p off n < 256 ^ n.
Proof.
  intros Ho Hn HL. destruct (val_range p off n Ho Hn) as [H|H]; [exfalso|exact H]. unfold val in H. replace (off + n <=? len p) with true in H by lia.
  pose proof (beval_range (firstn (Z.to_nat n) (skipn (Z.to_nat off) p))). lia.
Qed.
Lemma text_same t s s' : plain_tag t -> ascii_text s -> shown t (VStr s) (VStr s') -> s' = s.
Proof.
  intros HT HA H. inversion H; subst.
  - exfalso. apply HT. match goal with HD : described _ _ _ _ |- _ => destruct HD as (m & k & HI & _) end. apply in_map_iff. now exists (t, m).
  - match goal with HK : kept _ _ _ |- _ => revert HK end. clear -HA HE. revert s'. induction HA as [|x b Hx HB IH]; intros s' HK; inversion HK; subst; [reflexivity| |].
    + f_equal. now apply IH.
    + exfalso. match goal with HN : ~ printable _ _ |- _ => apply HN end. left. apply (proj1 HE). lia.
Qed.
Lemma dec_ascii z : ascii_text (str_of_Z z).
Proof. apply (decimal_plain z). apply str_decimal. Qed.
Lemma two_ascii n : 0 <= n <= 99 -> ascii_text (two n).
Proof. intros H. unfold two, ascii_text. pose proof (Z.div_pos n 10 ltac:(lia) ltac:(lia)). pose proof (Z.div_lt_upper_bound n 10 10 ltac:(lia) ltac:(lia)). pose proof (Z.mod_pos_bound n 10 ltac:(lia)). repeat (constructor; [lia|]). constructor. Qed.
Lemma plain_b t : existsb (String.eqb t) (map fst propertiesRemapTable) = false -> plain_tag t.
Proof. intros H HI. enough (existsb (String.eqb t) (map fst propertiesRemapTable) = true) by congruence. apply existsb_exists. exists t. split; [exact HI|apply String.eqb_refl]. Qed.
Ltac field_at := unfold icc_props; cbn [firstn app]; repeat first [left; reflexivity | right].
Ltac plain := apply plain_b; vm_compute; reflexivity.

Lemma header_ok : header_shown p X.
Proof.
  unfold header_shown. split; [|split; [|split; [|split; [|split; [|split; [|split; [|split; [|split]]]]]]]].
  - destruct (icc_field "profileSize" (VInt (val p 0 4)) ltac:(field_at) ltac:(discriminate)) as (s & H1 & H2). exists s. split; [|exact H1]. apply (plain_int E) in H2; [exact H2|plain].
  - destruct (icc_field "profileVersion" (VStr (str_of_Z (val p 8 1) ++ pys "." ++ str_of_Z (val p 9 1 / 16) ++ pys "." ++ str_of_Z (val p 9 1 mod 16))) ltac:(field_at) ltac:(discriminate)) as (s & H1 & H2).
    exists (str_of_Z (val p 8 1)), (str_of_Z (val p 9 1 / 16)), (str_of_Z (val p 9 1 mod 16)). do 3 (split; [apply str_decimal|]).
    apply text_same in H2; [now subst s|plain|]. unfold ascii_text. rewrite !Forall_app. repeat split; try apply dec_ascii; cbn; (constructor; [lia|constructor]).
  - intros (D1 & D2 & D3 & D4 & D5). destruct (icc_field "dateTimeString" (VStr (str_of_Z (val p 24 2) ++ pys "/" ++ fmt02d (val p 27 1) ++ pys "/" ++ fmt02d (val p 29 1) ++ pys ", " ++ fmt02d (val p 31 1) ++ pys ":" ++
      fmt02d (val p 33 1) ++ pys ":" ++ fmt02d (val p 35 1))) ltac:(field_at) ltac:(discriminate)) as (s & H1 & H2).
    exists (str_of_Z (val p 24 2)). split; [apply str_decimal|].
    assert (HLOW : forall off, 0 <= off -> off + 2 <= 132 -> val p off 2 < 256 -> val p (off + 1) 1 = val p off 2) by (intros off Ho HO HV; apply (val_low p off 1 1); try lia; exact HV).
    pose proof (HLOW 26 ltac:(lia) ltac:(lia) ltac:(lia)) as L1. pose proof (HLOW 28 ltac:(lia) ltac:(lia) ltac:(lia)) as L2. pose proof (HLOW 30 ltac:(lia) ltac:(lia) ltac:(lia)) as L3.
    pose proof (HLOW 32 ltac:(lia) ltac:(lia) ltac:(lia)) as L4. pose proof (HLOW 34 ltac:(lia) ltac:(lia) ltac:(lia)) as L5. cbn [Z.add Pos.add Pos.succ] in L1, L2, L3, L4, L5.
    rewrite L1, L2, L3, L4, L5 in H2.
    rewrite !two_text in H2 by lia. apply text_same in H2; [now subst s|plain|].
    unfold ascii_text. rewrite !Forall_app. repeat split; try apply dec_ascii; try (apply two_ascii; lia); cbn; repeat (constructor; [lia|]); constructor.
  - intros t off HI HA. assert (HF : In (t, VBytes (sub p off 4)) (firstn 23 (icc_props p)) /\ plain_tag t).
    { cbn [In] in HI. destruct HI as [HI|[HI|[HI|[HI|[HI|[HI|[HI|[]]]]]]]]; injection HI as <- <-; (split; [field_at|plain]). }
    destruct (icc_field _ _ (proj1 HF) ltac:(discriminate)) as (s & H1 & H2). apply (plain_ascii E HE t) in H2; [now subst s|apply HF|exact HA].
  - intros t off sig s HI HS HN HB. assert (HF : In (t, VBytes (sub p off 4)) (firstn 23 (icc_props p))).
    { cbn [In] in HI. destruct HI as [HI|[HI|[]]]; injection HI as <- <-; field_at. }
    destruct (icc_field _ _ HF ltac:(discriminate)) as (s' & H1 & H2).
    assert (HS' : shows_signature (leaf t (VBytes (sub p off 4))) (leaf t (VStr s'))) by (apply (signature_shown (catC E) (str_limit E)); constructor; [exact H2|constructor]).
    specialize (HS' sig s HS HN (f_equal VBytes HB)). cbn in HS'. injection HS' as ->. exact H1.
  - intros s HN. destruct (icc_field "renderingIntent" (VInt (val p 66 2)) ltac:(field_at) ltac:(discriminate)) as (s' & H1 & H2).
    assert (HR : val p 64 4 < 65536). { apply named_in in HN. assert (HB : forallb (fun '(t, n, _) => negb (String.eqb t "renderingIntent") || (n <? 65536)) all_names = true) by (vm_compute; reflexivity). rewrite forallb_forall in HB. specialize (HB _ HN). cbn in HB. lia. }
    pose proof (val_low p 64 2 2 ltac:(lia) ltac:(lia) ltac:(lia) ltac:(lia) ltac:(cbn [Z.add Pos.add Pos.succ]; change (256 ^ 2) with 65536; exact HR)) as HL. cbn [Z.add Pos.add Pos.succ] in HL. rewrite HL in H2.
    assert (HS' : shows_code (leaf "renderingIntent" (VInt (val p 64 4))) (leaf "renderingIntent" (VStr s'))) by (apply (code_shown (catC E) (str_limit E)); constructor; [exact H2|constructor]).
    destruct (proj2 HS' _ eq_refl) as (HC & _). specialize (HC s HN). cbn in HC. injection HC as ->. exact H1.
  - intros t off HI HN. assert (HF : In (t, icc_fixed p off) (firstn 23 (icc_props p)) /\ plain_tag t /\ 0 <= off /\ off + 4 <= 132).
    { cbn [In] in HI. destruct HI as [HI|[HI|[HI|[]]]]; injection HI as <- <-; (split; [field_at|split; [plain|lia]]). }
    destruct HF as (HF & HT & Ho & HO). destruct (icc_field _ _ HF ltac:(discriminate)) as (s & H1 & H2). exists s. split; [exact H1|]. apply (plain_float E) in H2; [|exact HT]. subst s.
    pose proof (val_in off 4 Ho ltac:(lia) HO) as HV. change (256 ^ 4) with (2 ^ 32) in HV. unfold s15Fixed16 in *. destruct (val p off 4 <? 2 ^ 31) eqn:EV; [now apply fixed_text|exfalso].
    apply (Qmult_le_compat_r _ _ (inject_Z 65536)) in HN; [|now vm_compute]. unfold Qdiv in HN. rewrite <- Qmult_assoc, (Qmult_comm (/ _)), Qmult_inv_r, Qmult_1_r, Qmult_0_l in HN by (now vm_compute).
    change 0%Q with (inject_Z 0) in HN. rewrite <- Zle_Qle in HN. lia.
  - destruct (icc_field "profileID" (VBytes (map byte_of_Z (hexs (sub p 84 16)))) ltac:(field_at) ltac:(discriminate)) as (s & H1 & H2).
    assert (HA : Forall (fun x => 32 <= bz x < 127) (map byte_of_Z (hexs (sub p 84 16))) /\ map bz (map byte_of_Z (hexs (sub p 84 16))) = hexs (sub p 84 16)).
    { assert (HH : Forall (fun c => 32 <= c < 127) (hexs (sub p 84 16))).
      { unfold hexs. apply Forall_forall. intros x Hx. apply in_flat_map in Hx as (b & _ & Hb). pose proof (bz_range b). assert (0 <= bz b / 16 < 16) by (split; [apply Z.div_pos; lia|apply Z.div_lt_upper_bound; lia]). pose proof (Z.mod_pos_bound (bz b) 16 ltac:(lia)).
        unfold hex2, hexdig in Hb. cbn [In] in Hb. destruct Hb as [<-|[<-|[]]]; destruct (_ <? 10) eqn:EC; lia. }
      clear - HH. induction HH as [|x l Hx HL IH]; [split; [apply Forall_nil|reflexivity]|]. destruct IH as (I1 & I2). cbn [map]. rewrite bz_byte_of_Z by lia. split; [apply Forall_cons; [rewrite bz_byte_of_Z by lia; exact Hx|exact I1]|now rewrite I2]. }
    apply (plain_ascii E HE "profileID") in H2; [|plain|apply HA]. rewrite (proj2 HA) in H2. now subst s.
  - intros HN HT. pose proof (rel_findall _ ["tag"] _ _ HX) as HR. unfold node in HR. rewrite findall_cons, flat_nil in HR.
    assert (HTG : tagged "tag" (leaves (icc_props p)) = map (fun i => leaf "tag" (VBytes (sub p (132 + 12 * i) 4))) (zseq (val p 128 4))).
    { unfold icc_props. rewrite !leaves_app, !tagged_app. cbn [app]. change (tagged "tag" (leaves [_; _; _; _; _; _; _; _; _; _; _; _; _; _; _; _; _; _; _; _; _; _; _])) with (@nil elt). cbn [app].
      change (tagged "tag" (leaves [_])) with (@nil elt). rewrite app_nil_r. unfold icc_ntags. rewrite Z.min_l by lia. induction (zseq (val p 128 4)) as [|i l IH]; [reflexivity|]. cbn [map]. change (leaves (?x :: ?l)) with (leaf (fst x) (snd x) :: leaves l). cbn [fst snd]. 
      unfold tagged in *. cbn [filter leaf etag]. cbn. f_equal. exact IH. }
    rewrite HTG in HR. assert (HZ : forall i, In i (zseq (val p 128 4)) -> text_bytes (sub p (132 + 12 * i) 4)).
    { intros i Hi. apply HT. unfold zseq in Hi. apply in_map_iff in Hi as (k & <- & Hk). apply in_seq in Hk. lia. }
    revert HR HZ. clear HTG. generalize (findall ["tag"] X) as L. induction (zseq (val p 128 4)) as [|i l IH]; intros L HR HZ; inversion HR as [|? x' ? L' HXX HL]; subst; [reflexivity|]. cbn [map]. rewrite (IH L' HL); [|intros j Hj; apply HZ; now right].
    f_equal. inversion HXX as [t0 a0 v0 v' k0 k' HSH HK]; subst. cbn [etext]. destruct (h_shows E "tag" (VBytes (sub p (132 + 12 * i) 4)) v' ltac:(discriminate) HSH) as (s & ->). f_equal.
    apply (plain_ascii E HE "tag") in HSH; [exact HSH|plain|]. apply HZ. now left.
  - intros HN d (k & x & rest & (HK1 & HK2 & HK3) & HLK & HLD & HD & Hx & Hd) HT. pose proof (icc_kid_tags p "description" _ (or_intror (or_introl eq_refl))) as HTG.
    assert (HFD : first_desc p (zseq (icc_ntags p)) = VBytes d).
    { unfold icc_ntags. rewrite Z.min_l by lia. assert (HZ : exists r, zseq (val p 128 4) = zseq k ++ k :: r).
      { exists (map Z.of_nat (seq (S (Z.to_nat k)) (Z.to_nat (val p 128 4) - S (Z.to_nat k)))). unfold zseq. replace (Z.to_nat (val p 128 4)) with (Z.to_nat k + S (Z.to_nat (val p 128 4) - S (Z.to_nat k)))%nat at 1 by lia.
        rewrite seq_app, map_app. cbn [seq map plus]. f_equal. f_equal. lia. }
      destruct HZ as (r & ->). assert (HF : forall l, (forall i, In i l -> sub p (132 + 12 * i) 4 <> list_byte_of_string "desc") -> first_desc p (l ++ k :: r) = VBytes d).
      { induction l as [|i l IH]; intros HI; cbn [app first_desc]; unfold icc_tag.
        - rewrite HK2. change (bytes_eqb (list_byte_of_string "desc") [x64; x65; x73; x63]) with true. cbv iota zeta. pose proof (val_range p (132 + 12 * k + 4) 4 ltac:(lia) ltac:(lia)) as R1. pose proof (val_range p (132 + 12 * k + 8) 4 ltac:(lia) ltac:(lia)) as R2.
          assert (N1 : val p (132 + 12 * k + 4) 4 <> -9999). { unfold val. replace (132 + 12 * k + 4 + 4 <=? len p) with true by lia. pose proof (beval_range (firstn (Z.to_nat 4) (skipn (Z.to_nat (132 + 12 * k + 4)) p))). lia. }
          assert (N2 : val p (132 + 12 * k + 8) 4 <> -9999). { unfold val. replace (132 + 12 * k + 8 + 4 <=? len p) with true by lia. pose proof (beval_range (firstn (Z.to_nat 4) (skipn (Z.to_nat (132 + 12 * k + 8)) p))). lia. }
          rewrite (slice_sub p) by lia. rewrite Z.add_simpl_l, HD. f_equal.
          assert (HV : val (list_byte_of_string "desc" ++ repeat x00 4 ++ x ++ d ++ [x00] ++ rest) 8 4 = len d + 1).
          { rewrite <- Hd, app_assoc. change 8 with (len (list_byte_of_string "desc" ++ repeat x00 4) + 0) at 1. rewrite val_app_r by (unfold len; cbn; lia). rewrite Z.add_simpl_l. apply val_app_l; lia. }
          rewrite HV. pose proof (len_nonneg d). rewrite slice_sub by lia. unfold sub. rewrite (app_assoc (list_byte_of_string "desc")), app_assoc. 
          assert (HL12 : Z.to_nat 12 = List.length ((list_byte_of_string "desc" ++ repeat x00 4) ++ x)) by (rewrite app_length; unfold len in Hx; cbn; lia).
          rewrite HL12, skipn_app, skipn_all, Nat.sub_diag. cbn [app skipn]. replace (Z.to_nat (12 + (len d + 1) - 1 - 12)) with (List.length d) by (unfold len; lia). rewrite firstn_app, firstn_all, Nat.sub_diag, firstn_O. apply app_nil_r.
        - destruct (bytes_eqb _ _) eqn:EB; [exfalso; apply bytes_eqb_spec in EB; exact (HI i (or_introl eq_refl) EB)|]. apply IH. intros j Hj. apply HI. now right. }
      apply HF. intros i Hi. apply HK3. unfold zseq in Hi. apply in_map_iff in Hi as (j & <- & Hj). apply in_seq in Hj. lia. }
    rewrite HFD in HTG. pose proof (rel_findall _ ["description"] _ _ HX) as HR. unfold node in HR. rewrite findall_cons, flat_nil, HTG in HR. unfold gives_text. revert HR. generalize (findall ["description"] X) as L. intros L HR.
    inversion HR as [|? x' ? l HXX HL EQ1 EQ2]; subst. inversion HL; subst. inversion HXX as [t0 a0 v0 v' k0 k' HSH HK]; subst.
    destruct (h_shows E "description" (VBytes d) v' ltac:(discriminate) HSH) as (s & ->). apply (plain_ascii E HE "description") in HSH; [now subst s|plain|exact HT].
Qed.
End Header.

(** ** Files *)
(** The properties reported of a run, in a file of one of the two formats. *)
Theorem C67_header E fuel depth path fo o size mtime rep c bs :
  env_ok E -> fo_size fo = Ok size -> fo_mtime fo = Ok mtime -> fo_map fo = Mapped c ->
  In (o_format o) ["jp2"; "jph"] -> len c < 2 ^ 53 ->
  checkOneFile E fuel depth path fo o 0 = Ok rep -> says_valid rep -> splits c bs ->
  exists hx hb, boxes_of t_jp2h bs = [hx] /\ splits hx hb /\
    Forall2 (fun x X => 132 <= len (colr_profile x) -> header_shown (colr_profile x) X)
      (filter is_icc (boxes_of t_colr hb)) (findall ["properties"; "jp2HeaderBox"; "colourSpecificationBox"; "icc"] rep).
Proof.
  intros HE H1 H2 HM HF HL HR HSV HS.
  destruct (mix_run E fuel depth path fo o size mtime 1 rep c HE H1 H2 HM HF ltac:(discriminate) HR HSV) as (P & r & HPR & HGV & HV & HP & _).
  destruct (v_header E o c bs r HS HGV HV HL) as (hx & hb & rs & B1 & B2 & B3 & _ & B4 & B5 & B6).
  exists hx, hb. split; [exact B1|]. split; [exact B2|].
  assert (HCI : findall icc_path (r_chars r) = map (fun x => node "icc" (leaves (icc_props (colr_profile x)))) (filter is_icc (boxes_of t_colr hb))).
  { unfold icc_path. rewrite B6. unfold node at 1. rewrite findall_cons. rewrite (v_colr E o hb rs B4), flat_map_map, <- flat_if. apply flat_map_ext. intros w. unfold node at 1. now rewrite findall_cons, flat_nil, icc_tags. }
  pose proof (rel_findall _ icc_path _ _ HP) as HRF. rewrite HCI in HRF.
  assert (HFA : findall ["properties"; "jp2HeaderBox"; "colourSpecificationBox"; "icc"] rep = findall icc_path (node "properties" P)).
  { destruct (C20_report E fuel depth path fo o size mtime HE H1 H2) as [(v & T & P' & W & HX & _)|[(e & HX & _)|(HX & _)]]; rewrite HX in HR; [| |discriminate]; injection HR as <-; [|discriminate HSV].
    assert (P' = P) as -> by (injection HPR as <-; reflexivity). unfold report. cbn [app findall ekids node leaf filter etag String.eqb Ascii.eqb Bool.eqb flat_map]. now rewrite app_nil_r. }
  rewrite HFA. clear HFA HCI. revert HRF. generalize (findall icc_path (node "properties" P)) as L. induction (filter is_icc (boxes_of t_colr hb)) as [|x l IH]; intros L HRF; inversion HRF as [|? X ? L' HXX HLL]; subst; constructor.
  - intros HLEN. exact (header_ok E (colr_profile x) X HE HLEN HXX).
  - now apply IH.
Qed.

(** ** Examples *)
Definition put (off : nat) (b p : bytes) : bytes := firstn off p ++ b ++ skipn (off + List.length b) p.
Definition bs4 (n : Z) : bytes := [x00; x00; x00; byte_of_Z n].
(** A profile with one tag, 'desc', and the given tag data. *)
Definition ex_icc (data : bytes) : bytes :=
  bs4 (144 + len data) ++ list_byte_of_string "ADBE" ++ [x02; x10; x00; x00] ++ list_byte_of_string "mntrGRAYXYZ " ++
  [x07; xcf; x00; x06; x00; x03; x00; x17; x00; x05; x00; x3b] ++ list_byte_of_string "acspAPPL" ++ repeat x00 4 ++ list_byte_of_string "none" ++ repeat x00 12 ++
  bs4 1 ++ [x00; x00; xf6; xd6; x00; x01; x00; x00; x00; x00; xd3; x2d] ++ list_byte_of_string "ADBE" ++ repeat xa5 16 ++ repeat x00 28 ++
  bs4 1 ++ list_byte_of_string "desc" ++ bs4 144 ++ bs4 (len data) ++ data.
Definition ex_v2 : bytes := ex_icc (list_byte_of_string "desc" ++ repeat x00 4 ++ bs4 5 ++ list_byte_of_string "Gray" ++ repeat x00 8).
Definition ex_icc_jp2 (p : bytes) : bytes :=
  ex_sig ++ ex_ftyp ++ bs4 (41 + len p) ++ list_byte_of_string "jp2h" ++ firstn 22 (skipn 8 ex_jp2h) ++
  bs4 (11 + len p) ++ list_byte_of_string "colr" ++ [x02; x00; x00] ++ p ++ ex_jp2c.
Definition ex_icc_run (p : bytes) := checkOneFile E0 100 10 (pys "a") (ex_fo (Mapped (ex_icc_jp2 p))) (op "jp2" false) 0.
(** The file is valid and its report shows the texts [l] of the profile. *)
Definition reports (p : bytes) (l : list (string * string)) : Prop :=
  exists rep, ex_icc_run p = Ok rep /\ says_valid rep /\
    Forall (fun '(t, s) => findAllText ["properties"; "jp2HeaderBox"; "colourSpecificationBox"; "icc"; t] rep = [VStr (pys s)]) l.
Example C67_header_ex :
  reports ex_v2 [("profileSize", "168"); ("preferredCMMType", "ADBE"); ("profileVersion", "2.1.0"); ("profileClass", "Display Device Profile"); ("colourSpace", "GRAY");
    ("dateTimeString", "1999/06/03, 23:05:59"); ("primaryPlatform", "Apple Computer, Inc."); ("renderingIntent", "Media-Relative Colorimetric");
    ("connectionSpaceIlluminantX", "0.9642"); ("connectionSpaceIlluminantY", "1.0"); ("connectionSpaceIlluminantZ", "0.8249");
    ("profileID", "a5a5a5a5a5a5a5a5a5a5a5a5a5a5a5a5"); ("tag", "desc"); ("description", "Gray")] /\
  132 <= len ex_v2 /\ date_ok ex_v2 /\ v2_description ex_v2 (list_byte_of_string "Gray").
Proof.
  split; [|split; [now vm_compute|split]].
  - eexists. split; [vm_compute; reflexivity|]. split; [now vm_compute|]. repeat (constructor; [vm_compute; reflexivity|]). constructor.
  - unfold date_ok. vm_compute. intuition discriminate.
  - exists 0, (bs4 5), (repeat x00 7). split; [split; [vm_compute; intuition discriminate|split; [reflexivity|intros i Hi; lia]]|]. now vm_compute.
Qed.

(** ** What is reported wrongly *)
(** Profile flags: bit 0 of the 32-bit field says that the profile is embedded, bit 1
    that it cannot be used independently. The code looks at the two most significant
    bits of the first byte (boxvalidator.py:820-833). *)
Theorem C67_flags_refuted :
  let p := put 44 (bs4 3) ex_v2 in
  field_bit p 44 4 0 = 1 /\ field_bit p 44 4 1 = 1 /\ reports p [("embeddedProfile", "no"); ("profileCannotBeUsedIndependently", "no")].
Proof.
  split; [reflexivity|]. split; [reflexivity|]. eexists. split; [vm_compute; reflexivity|]. split; [now vm_compute|]. repeat (constructor; [vm_compute; reflexivity|]). constructor.
Qed.
(** Device attributes: bits 0 to 3 of the 64-bit field; the code looks at the four most
    significant bits of the first byte (boxvalidator.py:843-861). *)
Theorem C67_attributes_refuted :
  let p := put 60 (bs4 15) ex_v2 in
  field_bit p 56 8 0 = 1 /\ field_bit p 56 8 1 = 1 /\ field_bit p 56 8 2 = 1 /\ field_bit p 56 8 3 = 1 /\
  reports p [("transparency", "Reflective"); ("glossiness", "Glossy"); ("polarity", "Positive"); ("colour", "Colour")].
Proof.
  do 4 (split; [reflexivity|]). eexists. split; [vm_compute; reflexivity|]. split; [now vm_compute|]. repeat (constructor; [vm_compute; reflexivity|]). constructor.
Qed.
(** Illuminants are read as unsigned numbers (boxvalidator.py:868-881). *)
Theorem C67_illuminant_refuted :
  let p := put 68 [xff; xff; x80; x00] ex_v2 in
  (s15Fixed16 p 68 == -1 # 2)%Q /\ reports p [("connectionSpaceIlluminantX", "65535.5")].
Proof.
  split; [reflexivity|]. eexists. split; [vm_compute; reflexivity|]. split; [now vm_compute|]. repeat (constructor; [vm_compute; reflexivity|]). constructor.
Qed.
(** Version 4 profiles keep their description as multiLocalizedUnicodeType ('mluc'):
    a table of texts in UTF-16. It is not read: the description comes out empty. *)
Definition ex_v4 : bytes := put 8 [x04; x30]
  (ex_icc (list_byte_of_string "mluc" ++ repeat x00 4 ++ bs4 1 ++ bs4 12 ++ list_byte_of_string "enUS" ++ bs4 8 ++ bs4 28 ++ [x00; x47; x00; x72; x00; x61; x00; x79])).
Theorem C67_description_refuted :
  reports ex_v4 [("profileVersion", "4.3.0"); ("description", "")].
Proof.
  eexists. split; [vm_compute; reflexivity|]. split; [now vm_compute|]. repeat (constructor; [vm_compute; reflexivity|]). constructor.
Qed.
(** The month 0x0106 is not a month, but the report shows it as June: only the second
    byte of each date field but the year is read (boxvalidator.py:797-801). *)
Theorem C67_date_refuted :
  let p := put 26 [x01; x06] ex_v2 in
  val p 26 2 = 262 /\ reports p [("dateTimeString", "1999/06/03, 23:05:59")].
Proof.
  split; [reflexivity|]. eexists. split; [vm_compute; reflexivity|]. split; [now vm_compute|]. repeat (constructor; [vm_compute; reflexivity|]). constructor.
Qed.

Definition all_theorems := (C67_header, C67_flags_refuted, C67_attributes_refuted, C67_illuminant_refuted, C67_description_refuted, C67_date_refuted).
Print Assumptions all_theorems.
