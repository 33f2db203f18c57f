(** * C66: codes are shown by their names *)

From Coq Require Import ZArith List Bool String Lia.
From Coq Require Import Init.Byte.
From Coq Require Import ZifyBool.
From Verif Require Import Py PyFloat ByteConv ETree BV VSuper Remap CheckFile Spec SpecText SpecTop SpecNames
     PBase PText PHuman Prop_Check Prop_Mix Ex.
Import ListNotations.
Open Scope string_scope.
Open Scope list_scope.
Open Scope Z_scope.

(** The documented names as one list. *)
Definition all_names : list (string * Z * string) :=
  flat_map (fun t => [(t, 0, "no"); (t, 1, "yes")]) yes_no_tags ++
  flat_map (fun t => [(t, 0, "unsigned"); (t, 1, "signed")]) sign_tags ++
  flat_map (fun '(t, l) => map (fun '(n, s) => (t, n, s)) (combine (map Z.of_nat (seq 0 (List.length l))) l)) numbered ++ others.
Lemma combine_nth (l : list string) : forall k n s, In (n, s) (combine (map Z.of_nat (seq k (List.length l))) l) <-> exists i, n = Z.of_nat (k + i) /\ nth_error l i = Some s.
Proof.
  induction l as [|x l IH]; intros k n s; cbn [List.length seq map combine In]; [split; [tauto|intros (i & _ & H); destruct i; discriminate]|].
  rewrite IH. split.
  - intros [H|(i & -> & H)]; [injection H as <- <-; exists O; split; [f_equal; lia|reflexivity]|]. exists (S i). split; [f_equal; lia|exact H].
  - intros ([|i] & -> & H); [left; cbn in H; injection H as <-; f_equal; lia|right]. exists i. split; [f_equal; lia|exact H].
Qed.
Lemma named_in t n s : named t n s <-> In (t, n, s) all_names.
Proof.
  unfold all_names. rewrite !in_app_iff, !in_flat_map. split.
  - intros [t0 H|t0 H|t0 H|t0 H|t0 l i s0 H HN|t0 n0 s0 H].
    + left. exists t0. split; [exact H|now left].
    + left. exists t0. split; [exact H|right; now left].
    + right. left. exists t0. split; [exact H|now left].
    + right. left. exists t0. split; [exact H|right; now left].
    + right. right. left. exists (t0, l). split; [exact H|]. apply in_map_iff. exists (Z.of_nat i, s0). split; [reflexivity|]. apply combine_nth. exists i. split; [reflexivity|exact HN].
    + right. right. right. exact H.
  - intros [(x & H & HI)|[(x & H & HI)|[((x, l) & H & HI)|H]]].
    + destruct HI as [HI|[HI|[]]]; injection HI as <- <- <-; now constructor.
    + destruct HI as [HI|[HI|[]]]; injection HI as <- <- <-; now constructor.
    + apply in_map_iff in HI as ((n', s') & HE & HI). injection HE as <- <- <-. apply combine_nth in HI as (i & -> & HN). cbn [plus]. now apply named_number with l.
    + now apply named_other.
Qed.

(** The table of the program as one list, for integers and for byte strings. *)
Definition flat_table : list (string * value * pystr) := flat_map (fun '(t, m) => map (fun '(k, d) => (t, k, d)) m) propertiesRemapTable.
Lemma described_in t v d : described propertiesRemapTable t v d <-> exists k, In (t, k, d) flat_table /\ py_eqb v k = true.
Proof.
  unfold described, flat_table. split.
  - intros (m & k & H1 & H2 & H3). exists k. split; [|exact H3]. apply in_flat_map. exists (t, m). split; [exact H1|]. apply in_map_iff. now exists (k, d).
  - intros (k & H1 & H3). apply in_flat_map in H1 as ((t', m) & H1 & H2). apply in_map_iff in H2 as ((k', d') & HE & H2). injection HE as -> -> ->. now exists m, k.
Qed.
Definition int_names : list (string * Z * pystr) := flat_map (fun x => match x with (t, VInt n, d) => [(t, n, d)] | _ => [] end) flat_table.
Definition row_eqb (x y : string * Z * pystr) : bool := let '(t, n, d) := x in let '(t', n', d') := y in String.eqb t t' && (n =? n') && pystr_eqb d d'.
Lemma row_eqb_spec x y : row_eqb x y = true <-> x = y.
Proof.
  destruct x as ((t, n), d), y as ((t', n'), d'). unfold row_eqb. rewrite !andb_true_iff, String.eqb_eq, Z.eqb_eq, pystr_eqb_spec. split; [intros ((-> & ->) & ->); reflexivity|].
  intros H. injection H as -> -> ->. auto.
Qed.
Definition sub_rows (a b : list (string * Z * pystr)) : bool := forallb (fun x => existsb (row_eqb x) b) a.
Lemma sub_rows_spec a b : sub_rows a b = true -> incl a b.
Proof.
  intros H x Hx. unfold sub_rows in H. rewrite forallb_forall in H. specialize (H x Hx). apply existsb_exists in H as (y & Hy & HE). apply row_eqb_spec in HE. now subst y.
Qed.
Definition doc_names : list (string * Z * pystr) := map (fun '(t, n, s) => (t, n, pys s)) all_names.
Lemma same_names : incl int_names doc_names /\ incl doc_names int_names.
Proof. split; apply sub_rows_spec; vm_compute; reflexivity. Qed.
Lemma int_described t n d : described propertiesRemapTable t (VInt n) d <-> In (t, n, d) doc_names.
Proof.
  rewrite described_in. split.
  - intros (k & H1 & H2). apply same_names. unfold int_names. apply in_flat_map. exists (t, k, d). split; [exact H1|].
    assert (HK : k = VInt n).
    { assert (HR : raw k).
      { unfold flat_table in H1. apply in_flat_map in H1 as ((t', m) & HA & HB). apply in_map_iff in HB as ((k', d') & HE & HB). injection HE as -> -> ->.
        destruct table_good as (_ & HG). now apply (proj2 (HG t m HA)) in HB as (HB & _). }
      destruct HR as [(z & ->)|(b & ->)]; cbn in H2; [apply Z.eqb_eq in H2; now subst z|discriminate]. }
    subst k. now left.
  - intros H. apply same_names in H. unfold int_names in H. apply in_flat_map in H as (((t', k), d') & H1 & H2). destruct k; try (exfalso; exact H2). destruct H2 as [H2|[]]. injection H2 as -> -> ->.
    exists (VInt n). split; [exact H1|]. cbn. apply Z.eqb_refl.
Qed.
Lemma doc_in t n s : named t n s -> In (t, n, pys s) doc_names.
Proof. intros H. apply named_in in H. unfold doc_names. apply in_map_iff. now exists (t, n, s). Qed.
Lemma doc_out t n d : In (t, n, d) doc_names -> exists s, named t n s /\ d = pys s.
Proof. intros H. unfold doc_names in H. apply in_map_iff in H as (((t', n'), s) & HE & H). injection HE as -> -> <-. exists s. split; [now apply named_in|reflexivity]. Qed.

(** ** The names *)
(** [e'] shows the node [e] of the analysis: a code with a documented name by that
    name, any other integer in decimal. *)
Definition shows_code (e e' : elt) : Prop :=
  etag e' = etag e /\
  forall n, etext e = VInt n ->
    (forall s, named (etag e) n s -> etext e' = VStr (pys s)) /\
    ((forall s, ~ named (etag e) n s) -> exists s, decimal n s /\ etext e' = VStr s).
Lemma code_shown catC limit e e' : rel (shows catC limit propertiesRemapTable) e e' -> shows_code e e'.
Proof.
  intros H. inversion H as [t a v v' k k' HS HK]; subst. split; [reflexivity|]. cbn [etag etext]. intros n ->. split.
  - intros s HN. inversion HS as [v d HD| | | |z s' HD| | | |]; subst.
    + f_equal. apply doc_in, int_described in HN. exact (described_fun _ _ _ _ _ table_good HD HN).
    + exfalso. apply (HD (pys s)). now apply int_described, doc_in.
  - intros HN. inversion HS as [v d HD| | | |z s' HD HC HDEC| | | |]; subst; [|now exists s'].
    exfalso. apply int_described, doc_out in HD as (s & HX & _). exact (HN s HX).
Qed.
(** Likewise for four-character codes, except one (see below). *)
Definition shows_signature (e e' : elt) : Prop :=
  forall sig s, In (etag e, sig, s) signatures -> sig <> "SGI " -> etext e = VBytes (list_byte_of_string sig) -> etext e' = VStr (pys s).
Lemma sig_described t sig s : In (t, sig, s) signatures -> sig <> "SGI " -> described propertiesRemapTable t (VBytes (list_byte_of_string sig)) (pys s).
Proof.
  intros HI HN. apply described_in. exists (VBytes (list_byte_of_string sig)). split; [|cbn; apply bytes_eqb_refl].
  assert (HB : forallb (fun '(t, sig, s) => String.eqb sig "SGI " ||
     existsb (fun x => match x with (t', VBytes b, d) => String.eqb t t' && bytes_eqb (list_byte_of_string sig) b && pystr_eqb (pys s) d | _ => false end) flat_table) signatures = true)
    by (vm_compute; reflexivity).
  rewrite forallb_forall in HB. specialize (HB _ HI). cbn beta iota in HB. apply orb_prop in HB as [HB|HB]; [apply String.eqb_eq in HB; contradiction|].
  apply existsb_exists in HB as (((t', v), d) & HIN & HE). destruct v; try discriminate. rewrite !andb_true_iff, String.eqb_eq, bytes_eqb_spec, pystr_eqb_spec in HE. destruct HE as ((-> & ->) & ->). exact HIN.
Qed.
Lemma signature_shown catC limit e e' : rel (shows catC limit propertiesRemapTable) e e' -> shows_signature e e'.
Proof.
  intros H. inversion H as [t a v v' k k' HS HK]; subst. intros sig s HI HN HV. cbn [etag etext] in *. subst v. pose proof (sig_described _ _ _ HI HN) as HD.
  inversion HS as [v d HD'| | | | | |b s0 s' HX|b HX|]; subst; [f_equal; exact (described_fun _ _ _ _ _ table_good HD' HD)|exfalso; exact (HX _ HD)|exfalso; exact (HX _ HD)].
Qed.
(** In every report the properties are those found by the analysis, node by node, with
    every coded value shown by its documented name. *)
Theorem C66_names E fuel depth path fo o size mtime rep :
  env_ok E -> fo_size fo = Ok size -> fo_mtime fo = Ok mtime -> checkOneFile E fuel depth path fo o 0 = Ok rep ->
  exists P, ETree.find ["properties"] rep = Some P /\
    (ekids P = [] \/
     exists b w t r, contents path (fo_map fo) b w /\ root_type (o_format o) t /\ validate E o fuel depth t b VNone VNone = Ok r /\
       forall q, Forall2 (fun e e' => shows_code e e' /\ shows_signature e e') (findall q (r_chars r)) (findall q P)).
Proof.
  intros HE H1 H2 HR. destruct (C20_report E fuel depth path fo o size mtime HE H1 H2) as [(v & T & P & W & HX & HA)|[(e & HX & _)|(HX & _)]]; rewrite HX in HR; [| |discriminate]; injection HR as <-.
  - exists (node "properties" P). split; [now destruct v|]. right. destruct HA as (b & w & t & r & W0 & HC & HT & HV & _ & _ & HP & _).
    exists b, w, t, r. do 3 (split; [assumption|]). intros q. apply (rel_findall _ q) in HP. revert HP. generalize (findall q (r_chars r)) (findall q (node "properties" P)). 
    intros l l' HP. induction HP as [|x y l l' HXY HL IH]; constructor; [split; [now apply code_shown in HXY|now apply signature_shown in HXY]|exact IH].
  - exists (node "properties" []). split; [reflexivity|]. now left.
Qed.
(** The text shown for a property tells its value: two different numbers are never
    shown alike. *)
Lemma no_number t n s z : named t n s -> ~ decimal z (pys s).
Proof.
  intros HN (ds & HE & Hne & HF & _). apply named_in in HN.
  assert (HB : forallb (fun '(_, _, s) => match pys s with c :: _ => negb ((48 <=? c) && (c <=? 57)) && negb (c =? 45) || existsb (fun c => negb ((48 <=? c) && (c <=? 57)) && negb (c =? 45)) (tl (pys s)) | [] => false end) all_names = true) by (vm_compute; reflexivity).
  rewrite forallb_forall in HB. specialize (HB _ HN). cbn beta iota in HB.
  assert (HALL : Forall (fun c => digit c \/ c = 45) (pys s)).
  { rewrite HE. apply Forall_app. split; [destruct (z <? 0); [constructor; [now right|constructor]|constructor]|]. eapply Forall_impl; [|exact HF]. intros a Ha. now left. }
  destruct (pys s) as [|c l]; [discriminate|]. inversion HALL as [|? ? HC HL]; subst. apply orb_prop in HB as [HB|HB].
  - unfold digit in HC. lia.
  - apply existsb_exists in HB as (x & HI & HB). cbn [tl] in HI. rewrite Forall_forall in HL. specialize (HL x HI). unfold digit in HL. lia.
Qed.
Lemma names_distinct t n n' s s' : named t n s -> named t n' s' -> pys s = pys s' -> n = n'.
Proof.
  intros H1 H2 HS. apply named_in in H1, H2.
  assert (HB : forallb (fun '(t, n, s) => forallb (fun '(t', n', s') => negb (String.eqb t t' && pystr_eqb (pys s) (pys s')) || (n =? n')) all_names) all_names = true) by (vm_compute; reflexivity).
  rewrite forallb_forall in HB. specialize (HB _ H1). cbn beta iota in HB. rewrite forallb_forall in HB. specialize (HB _ H2). cbn beta iota in HB. apply pystr_eqb_spec in HS. rewrite String.eqb_refl, HS in HB. cbn in HB. lia.
Qed.
Lemma names_unique t n s s' : named t n s -> named t n s' -> s = s'.
Proof.
  intros H1 H2. apply named_in in H1, H2.
  assert (HB : forallb (fun '(t, n, s) => forallb (fun '(t', n', s') => negb (String.eqb t t' && (n =? n')) || String.eqb s s') all_names) all_names = true) by (vm_compute; reflexivity).
  rewrite forallb_forall in HB. specialize (HB _ H1). cbn beta iota in HB. rewrite forallb_forall in HB. specialize (HB _ H2). cbn beta iota in HB. rewrite String.eqb_refl, Z.eqb_refl in HB. now apply String.eqb_eq in HB.
Qed.
Lemma code_dec t n : (exists s, named t n s) \/ (forall s, ~ named t n s).
Proof.
  destruct (existsb (fun '(t', n', _) => String.eqb t t' && (n =? n')) all_names) eqn:EX.
  - left. apply existsb_exists in EX as (((t', n'), s) & HI & HE). apply andb_prop in HE as (H1 & H2). apply String.eqb_eq in H1. apply Z.eqb_eq in H2. subst. exists s. now apply named_in.
  - right. intros s HN. apply named_in in HN. enough (existsb (fun '(t', n', _) => String.eqb t t' && (n =? n')) all_names = true) by congruence.
    apply existsb_exists. exists (t, n, s). split; [exact HN|]. now rewrite String.eqb_refl, Z.eqb_refl.
Qed.
Lemma decimal_det s z z' : decimal z s -> decimal z' s -> z = z'.
Proof.
  intros (ds & E1 & N1 & F1 & V1 & _) (ds' & E2 & N2 & F2 & V2 & _). rewrite E2 in E1.
  destruct (Z.ltb_spec z 0), (Z.ltb_spec z' 0); cbn [app] in E1.
  - injection E1 as ->. lia.
  - subst ds'. inversion F2; subst. unfold digit in *. lia.
  - subst ds. inversion F1; subst. unfold digit in *. lia.
  - subst ds'. lia.
Qed.
Theorem C66_distinct e1 e1' e2 e2' n1 n2 : shows_code e1 e1' -> shows_code e2 e2' -> etag e1 = etag e2 -> etext e1 = VInt n1 -> etext e2 = VInt n2 ->
  etext e1' = etext e2' -> n1 = n2.
Proof.
  intros (_ & H1) (_ & H2) HT HN1 HN2 HE. destruct (H1 n1 HN1) as (A1 & A2). destruct (H2 n2 HN2) as (B1 & B2). rewrite <- HT in *.
  destruct (code_dec (etag e1) n1) as [(s1 & S1)|S1], (code_dec (etag e1) n2) as [(s2 & S2)|S2].
  - rewrite (A1 _ S1), (B1 _ S2) in HE. injection HE as HE. exact (names_distinct _ _ _ _ _ S1 S2 HE).
  - destruct (B2 S2) as (d & HD & HX). rewrite (A1 _ S1), HX in HE. injection HE as <-. exfalso. exact (no_number _ _ _ _ S1 HD).
  - destruct (A2 S1) as (d & HD & HX). rewrite (B1 _ S2), HX in HE. injection HE as ->. exfalso. exact (no_number _ _ _ _ S2 HD).
  - destruct (A2 S1) as (d & HD & HX). destruct (B2 S2) as (d' & HD' & HX'). rewrite HX, HX' in HE. injection HE as <-. exact (decimal_det d n1 n2 HD HD').
Qed.

(** A Gray ICC profile; the primary platform is the given one. *)
Definition ex_profile (platform : string) : bytes :=
  [x00; x00; x00; x90] ++ repeat x00 8 ++ list_byte_of_string "mntr" ++ repeat x00 24 ++ list_byte_of_string platform ++ repeat x00 84 ++
  [x00; x00; x00; x01] ++ list_byte_of_string "desc" ++ repeat x00 8.
Definition ex_icc_file (profile : bytes) : bytes :=
  ex_sig ++ ex_ftyp ++ [x00; x00; x00; xb9; x6a; x70; x32; x68] ++ firstn 22 (skipn 8 ex_jp2h) ++
  [x00; x00; x00; x9b; x63; x6f; x6c; x72; x02; x00; x00] ++ profile ++ ex_jp2c.
Definition icc_shown (profile : bytes) (t : string) : option value :=
  match checkOneFile E0 100 10 (pys "a") (ex_fo (Mapped (ex_icc_file profile))) (op "jp2" false) 0 with
  | Ok rep => match findElementText ["isValid"] rep with
              | VStr v => if pystr_eqb v (pys "True") then option_map etext (ETree.find ["properties"; "jp2HeaderBox"; "colourSpecificationBox"; "icc"; t] rep) else None
              | _ => None
              end
  | _ => None
  end.
Example C66_names_ex :
  named "renderingIntent" 0 "Perceptual" /\
  icc_shown (ex_profile "APPL") "renderingIntent" = Some (VStr (pys "Perceptual")) /\
  icc_shown (ex_profile "APPL") "primaryPlatform" = Some (VStr (pys "Apple Computer, Inc.")) /\
  icc_shown (ex_profile "APPL") "profileClass" = Some (VStr (pys "Display Device Profile")) /\
  icc_shown (ex_profile "APPL") "profileSize" = Some (VStr (pys "144")).
Proof.
  split; [|now vm_compute]. now apply (named_number "renderingIntent" ["Perceptual"; "Media-Relative Colorimetric"; "Saturation"; "ICC-Absolute Colorimetric"] 0); [cbn; tauto|].
Qed.
(** The code of Silicon Graphics is not recognised: the table has [SGI] without the
    trailing space (jpylyzer.py:131), so the code itself is shown. *)
Theorem C66_sgi_refuted :
  In ("primaryPlatform", "SGI ", "Silicon Graphics, Inc.") signatures /\
  icc_shown (ex_profile "SGI ") "primaryPlatform" = Some (VStr (pys "SGI ")).
Proof. split; [cbn; tauto|now vm_compute]. Qed.

Definition all_theorems := (C66_names, C66_distinct, C66_sgi_refuted).
Print Assumptions all_theorems.
