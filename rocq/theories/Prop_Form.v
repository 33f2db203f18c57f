(** * Files and bare codestreams: C76 *)

From Coq Require Import ZArith List Bool String Lia.
From Coq Require Import Init.Byte.
From Verif Require Import Py ETree BV VSuper Spec SpecBox SpecMarker SpecIPL SpecWalk SpecSuper SpecCS SpecFile SpecTop SpecValid SpecMake SpecForm
     PBase PTop PForm PForm2 Ex Prop_Top Prop_Check.
Import ListNotations.
Open Scope string_scope.
Open Scope list_scope.
Open Scope Z_scope.

(** [c], analysed for the format in the options, is called valid. *)
Definition called_valid (E : env) (o : opts) (c : bytes) : Prop :=
  exists t r, root_type (o_format o) t /\ gives E o t c VNone VNone r /\ r_valid r = VBool true.

Lemma called_file E o c : In (o_format o) ["jp2"; "jph"] -> len c < 2 ^ 53 -> called_valid E o c <-> file_ok E (o_format o) c.
Proof.
  intros HF HL. rewrite <- (C60_file E o c HL). unfold called_valid. split.
  - intros (t & r & [(_ & ->)|(HI & _)] & H); [eauto|]. exfalso. cbn in HF, HI. intuition congruence.
  - intros (r & H). exists (BTs "JP2"), r. split; [now left|exact H].
Qed.
Lemma called_cs E o c : In (o_format o) ["j2c"; "jhc"] -> called_valid E o c <-> codestream_ok E (o_format o) c.
Proof.
  intros HF. rewrite <- (C60_codestream E o (BTs "contiguousCodestreamBox") c VNone VNone eq_refl). unfold called_valid. split.
  - intros (t & r & [(HI & _)|(_ & ->)] & H); [|eauto]. exfalso. cbn in HF, HI. intuition congruence.
  - intros (r & H). exists (BTs "contiguousCodestreamBox"), r. split; [now right|exact H].
Qed.
Lemma pair_in f s : pair f s -> In f ["jp2"; "jph"] /\ In s ["j2c"; "jhc"].
Proof. intros []; cbn; tauto. Qed.

(** Every codestream in a valid file is valid on its own. *)
Theorem C76_inside E o1 o2 c bs x : pair (o_format o1) (o_format o2) -> len c < 2 ^ 53 -> splits c bs -> In x (boxes_of t_jp2c bs) ->
  called_valid E o1 c -> called_valid E o2 x.
Proof.
  intros HP HL HS HI HV. destruct (pair_in _ _ HP) as (H1 & H2). apply (called_file E o1 c H1 HL) in HV. apply (called_cs E o2 x H2).
  apply (codestream_pair E _ _ x HP). exact (file_cs E _ c bs x HV HS HI).
Qed.

(** A valid codestream with a nonempty image area is the codestream of a valid file,
    one with the four required boxes only. *)
Theorem C76_wrap E o1 o2 x colour : pair (o_format o1) (o_format o2) -> In colour [16; 17; 18] -> len x + 20000 < 2 ^ 53 ->
  called_valid E o2 x -> has_area x -> called_valid E o1 (wrap (o_format o1) colour x).
Proof.
  intros HP HC HL HV HA. destruct (pair_in _ _ HP) as (H1 & H2). apply (called_cs E o2 x H2) in HV. apply (codestream_pair E _ _ x HP) in HV.
  apply called_file; [exact H1|pose proof (wrap_length E (o_format o1) colour x HV); lia|]. now apply wrap_accepted.
Qed.

(** The two together: what may be the first codestream of a valid file. *)
Theorem C76_first E o1 o2 x : pair (o_format o1) (o_format o2) -> len x + 20000 < 2 ^ 53 ->
  ((exists c bs, len c < 2 ^ 53 /\ splits c bs /\ hd_error (boxes_of t_jp2c bs) = Some x /\ called_valid E o1 c) <->
   called_valid E o2 x /\ has_area x).
Proof.
  intros HP HL. destruct (pair_in _ _ HP) as (H1 & H2). split.
  - intros (c & bs & HC & HS & HH & HV). split.
    + apply (C76_inside E o1 o2 c bs x HP HC HS); [|exact HV]. destruct (boxes_of t_jp2c bs) as [|y r]; [discriminate|]. injection HH as ->. now left.
    + apply (called_file E o1 c H1 HC) in HV. exact (first_area E _ c bs x HV HS HH).
  - intros (HV & HA). pose proof (proj1 (called_cs E o2 x H2) HV) as HK. apply (codestream_pair E _ _ x HP) in HK.
    exists (wrap (o_format o1) 16 x). eexists. split; [pose proof (wrap_length E (o_format o1) 16 x HK); lia|].
    split; [apply (wrap_splits E); [exact HK|exact HA]|]. split; [reflexivity|]. apply (C76_wrap E o1 o2); try assumption. now left.
Qed.

(** Nothing is valid for two formats. *)
Theorem C76_one_format E o1 o2 c : len c < 2 ^ 53 -> called_valid E o1 c -> called_valid E o2 c -> o_format o1 = o_format o2.
Proof.
  intros HL HA HB.
  assert (HK : forall o, called_valid E o c -> In (o_format o) ["jp2"; "jph"] /\ file_ok E (o_format o) c \/
                                               In (o_format o) ["j2c"; "jhc"] /\ codestream_ok E (o_format o) c).
  { intros o H. pose proof H as (t & r & HR & _). destruct HR as [(HI & _)|(HI & _)]; [left|right]; (split; [exact HI|]).
    - now apply called_file.
    - now apply called_cs. }
  apply HK in HA, HB. clear HK.
  destruct HA as [(I1 & K1)|(I1 & K1)], HB as [(I2 & K2)|(I2 & K2)]; try (exfalso; first [exact (not_both _ _ _ _ K1 K2)|exact (not_both _ _ _ _ K2 K1)]);
    cbn [In] in I1, I2; destruct I1 as [I1|[I1|[]]], I2 as [I2|[I2|[]]]; rewrite <- I1 in K1; rewrite <- I2 in K2; rewrite <- I1, <- I2; try reflexivity; exfalso.
  - exact (file_one E c K1 K2).
  - exact (file_one E c K2 K1).
  - exact (cs_one E "j2c" "jhc" c eq_refl eq_refl eq_refl K1 K2).
  - exact (cs_one E "j2c" "jhc" c eq_refl eq_refl eq_refl K2 K1).
Qed.

(** The reports: the codestream is described in the same way inside a file and alone,
    with the same verdict, but for the compression ratio that ends the description of a
    bare codestream.  (For codestreams whose tile parts follow each other; see C15.) *)
Theorem C76_report E o1 o2 x l rest ps : pair (o_format o1) (o_format o2) -> others_same o1 o2 ->
  after m_SOT (cs_second x) l rest -> parts x rest ps ->
  (forall r1, gives E o1 (BTb t_jp2c) x VNone VNone r1 -> exists r2, gives E o2 (BTs "contiguousCodestreamBox") x VNone VNone r2) /\
  (forall r2, gives E o2 (BTs "contiguousCodestreamBox") x VNone VNone r2 -> exists r1, gives E o1 (BTb t_jp2c) x VNone VNone r1) /\
  (forall r1 r2, gives E o1 (BTb t_jp2c) x VNone VNone r1 -> gives E o2 (BTs "contiguousCodestreamBox") x VNone VNone r2 ->
     ekids (r_tests r2) = ekids (r_tests r1) /\ ekids (r_warns r2) = ekids (r_warns r1) /\ r_valid r2 = r_valid r1 /\
     ekids (r_chars r2) = ekids (r_chars r1) ++
       if bytes_eqb (sub (cs_second x) 0 2) m_SIZ then
         [ leaf "compressionRatio" (ratio (len x) (siz_depths (cs_siz x)) (val (cs_siz x) 8 4 - val (cs_siz x) 12 4)
                                          (val (cs_siz x) 4 4 - val (cs_siz x) 12 4)) ]
       else []).
Proof.
  intros HP HO HA HPS. pose proof HO as (Hv & _ & Hp).
  assert (F12 := fun r1 => cs_same E o1 o2 Hv Hp (fun m y st cz r HI => proj1 (seg_both E o1 o2 m y st cz r HP HO HI))
    (fun y r => proj1 (sot_both E o1 o2 y r HP HO)) (BTb t_jp2c) (BTs "contiguousCodestreamBox") VNone VNone VNone VNone x l rest ps r1 eq_refl eq_refl HA HPS).
  assert (F21 := fun r2 => cs_same E o2 o1 (eq_sym Hv) (eq_sym Hp) (fun m y st cz r HI => proj2 (seg_both E o1 o2 m y st cz r HP HO HI))
    (fun y r => proj2 (sot_both E o1 o2 y r HP HO)) (BTs "contiguousCodestreamBox") (BTb t_jp2c) VNone VNone VNone VNone x l rest ps r2 eq_refl eq_refl HA HPS).
  split; [|split].
  - intros r1 H1. destruct (F12 r1 H1) as (r2 & H2 & _). eauto.
  - intros r2 H2. destruct (F21 r2 H2) as (r1 & H1 & _). eauto.
  - intros r1 r2 H1 H2. destruct (F12 r1 H1) as (r2' & H2' & T & W & V & k & C1 & C2).
    rewrite (gives_fun _ _ _ _ _ _ _ _ H2 H2'). split; [exact T|]. split; [exact W|]. split; [exact V|].
    rewrite C1, C2, <- app_assoc. f_equal. unfold ending, cs_props2.
    destruct (bytes_eqb _ m_SIZ); [|reflexivity]. destruct HP; reflexivity.
Qed.

(** The condition on the image area is needed: a codestream whose image area is empty
    is called valid on its own, but no file with it is. *)
Definition ex_empty : bytes := sub ex_cs 0 19 ++ [x02] ++ skipn 20 ex_cs.
Lemma ex_empty_valid : called_valid E0 (op "j2c" false) ex_empty.
Proof.
  apply called_cs; [cbn; tauto|].
  apply (C60_codestream E0 (op "j2c" false) (BTs "contiguousCodestreamBox") ex_empty VNone VNone eq_refl).
  eexists. split; [exists 100%nat, 3%nat; vm_compute; reflexivity|reflexivity].
Qed.
Theorem C76_every_codestream_refuted : called_valid E0 (op "j2c" false) ex_empty /\
  forall c bs, len c < 2 ^ 53 -> splits c bs -> hd_error (boxes_of t_jp2c bs) = Some ex_empty -> ~ called_valid E0 (op "jp2" false) c.
Proof.
  split; [exact ex_empty_valid|]. intros c bs HC HS HH HV.
  assert (HX : called_valid E0 (op "j2c" false) ex_empty /\ has_area ex_empty).
  { apply (C76_first E0 (op "jp2" false) (op "j2c" false) ex_empty); [constructor|vm_compute; reflexivity|]. now exists c, bs. }
  destruct HX as (_ & HW & _). vm_compute in HW. discriminate.
Qed.

(** A concrete case: the codestream of the example file, in a file of its own and
    alone; it is not valid as a high-throughput codestream. *)
Example C76_ex : called_valid E0 (op "j2c" false) ex_cs /\ has_area ex_cs /\ called_valid E0 (op "jp2" true) (wrap "jp2" 17 ex_cs) /\
  len (wrap "jp2" 17 ex_cs) = 177 /\ ~ called_valid E0 (op "jhc" false) ex_cs.
Proof.
  assert (HV : called_valid E0 (op "j2c" false) ex_cs) by (apply called_cs; [cbn; tauto|apply C60_ex]).
  assert (HA : has_area ex_cs) by (split; now vm_compute).
  split; [exact HV|]. split; [exact HA|]. split; [|split].
  - apply (C76_wrap E0 (op "jp2" true) (op "j2c" false)); [constructor|cbn; tauto|vm_compute; reflexivity|exact HV|exact HA].
  - now vm_compute.
  - intros HB. pose proof (C76_one_format E0 _ _ ex_cs ltac:(vm_compute; reflexivity) HV HB) as H. discriminate.
Qed.

Definition all_theorems := (C76_inside, C76_wrap, C76_first, C76_one_format, C76_report, C76_every_codestream_refuted).
Print Assumptions all_theorems.
