(** * Well-formed files are accepted (C41) *)

From Coq Require Import ZArith List Bool String Lia.
From Coq Require Import Init.Byte.
From Coq Require Import ZifyBool.
From Verif Require Import Py PyFloat ByteConv ETree BV VSuper CheckFile Spec SpecBox SpecMarker SpecWalk SpecSuper SpecCS SpecFile SpecTop SpecValid SpecMake.
From Verif Require Import PBase PWrite PMake PTop PValid Ex Prop_Check.
Import ListNotations.
Open Scope string_scope.
Open Scope list_scope.
Open Scope Z_scope.

(** Every codestream and every file that the writer of SpecMake produces passes all
    the tests, as far as the specification of the tests goes. *)
Theorem C41_codestream E im : im_wf (catC E) im -> codestream_ok E (cs_format im) (codestream im).
Proof.
  intros H. apply codestream_accepted; [exact H|]. unfold fmt_of, cs_format. destruct (im_cap im); auto.
Qed.
Theorem C41_file E f : jp_wf (catC E) f -> file_ok E (jp_format f) (jp_file f).
Proof. apply file_accepted. Qed.
Print Assumptions C41_codestream.
Print Assumptions C41_file.

(** And the report says so, whatever the other options are. *)
Theorem C41_report E path fo o size mtime f : env_ok E -> fo_size fo = Ok size -> fo_mtime fo = Ok mtime -> str_limit E = None ->
  jp_wf (catC E) f -> fo_map fo = Mapped (jp_file f) -> o_format o = jp_format f ->
  exists fuel depth rep, checkOneFile E fuel depth path fo o 0 = Ok rep /\ says_valid rep.
Proof.
  intros HE H1 H2 HN HW HM HF. apply (C20_verdict E path fo o size mtime (jp_file f)); try assumption.
  - rewrite HF. unfold jp_format. destruct (im_cap _); cbn; auto.
  - apply HW.
  - rewrite HF. now apply C41_file.
Qed.
Print Assumptions C41_report.
Theorem C41_report_codestream E path fo o size mtime im : env_ok E -> fo_size fo = Ok size -> fo_mtime fo = Ok mtime -> str_limit E = None ->
  im_wf (catC E) im -> fo_map fo = Mapped (codestream im) -> o_format o = cs_format im ->
  exists fuel depth rep, checkOneFile E fuel depth path fo o 0 = Ok rep /\ says_valid rep.
Proof.
  intros HE H1 H2 HN HW HM HF. apply (C20_verdict_codestream E path fo o size mtime (codestream im)); try assumption.
  - rewrite HF. unfold cs_format. destruct (im_cap _); cbn; auto.
  - rewrite HF. now apply C41_codestream.
Qed.
Print Assumptions C41_report_codestream.

(** ** An image: two components of different depths, two tiles in three parts. *)
Definition ex_image : image :=
  {| im_cap := None; im_profile := 1;
     im_grid := {| g_x0 := 3; g_y0 := 0; g_x1 := 20; g_y1 := 10; g_tx0 := 0; g_ty0 := 0; g_tw := 16; g_th := 16 |};
     im_comps := [ {| co_signed := false; co_depth := 8; co_dx := 1; co_dy := 1 |};
                   {| co_signed := true; co_depth := 12; co_dx := 2; co_dy := 1 |} ];
     im_coding := {| cd_sop := true; cd_eph := false; cd_order := 2; cd_layers := 3; cd_mct := false; cd_levels := 1;
                     cd_cbw := 6; cd_cbh := 6; cd_style := 0; cd_reversible := true; cd_precincts := Some [(0, 7); (8, 9)] |};
     im_guard := 2; im_quant := Reversible [8; 9; 9; 10];
     im_comments := [ Latin [x48; x69]; Binary [x00] ];
     im_parts := [ {| pt_tile := 0; pt_no := 0; pt_total := 2; pt_comments := []; pt_data := [x01; xff; x4f] |};
                   {| pt_tile := 1; pt_no := 0; pt_total := 1; pt_comments := [ Binary [x07] ]; pt_data := [] |};
                   {| pt_tile := 0; pt_no := 1; pt_total := 0; pt_comments := []; pt_data := [xff; xd9] |} ] |}.
Definition ex_file : jp2 :=
  {| jp_image := ex_image; jp_colour := 17; jp_unknown := true; jp_form := Extended;
     jp_extra1 := [ (Short, [x66; x72; x65; x65], [x00; x01]) ]; jp_extra2 := []; jp_extra3 := [ (Rest, [x61; x61; x61; x61], []) ] |}.
Example ex_image_bytes : codestream ex_image =
  [ xff; x4f; xff; x51; x00; x2c; x00; x01; x00; x00; x00; x14; x00; x00; x00; x0a; x00; x00; x00; x03; x00; x00; x00; x00;
    x00; x00; x00; x10; x00; x00; x00; x10; x00; x00; x00; x00; x00; x00; x00; x00; x00; x02; x07; x01; x01; x8b; x02; x01;
    xff; x52; x00; x0e; x03; x02; x00; x03; x00; x01; x04; x04; x00; x01; x70; x98;
    xff; x5c; x00; x07; x40; x40; x48; x48; x50;
    xff; x64; x00; x06; x00; x01; x48; x69; xff; x64; x00; x05; x00; x00; x00;
    xff; x90; x00; x0a; x00; x00; x00; x00; x00; x11; x00; x02; xff; x93; x01; xff; x4f;
    xff; x90; x00; x0a; x00; x01; x00; x00; x00; x15; x00; x01; xff; x64; x00; x05; x00; x00; x07; xff; x93;
    xff; x90; x00; x0a; x00; x00; x00; x00; x00; x10; x01; x00; xff; x93; xff; xd9;
    xff; xd9 ].
Proof. vm_compute. reflexivity. Qed.
Lemma ex_coding_wf : cd_wf (im_coding ex_image).
Proof.
  unfold cd_wf. cbn. do 7 (split; [lia|]). split; [reflexivity|].
  split; intros x y H; repeat destruct H as [H|H]; try contradiction H; injection H as <- <-; lia.
Qed.
Example ex_image_wf : im_wf (catC E0) ex_image.
Proof.
  unfold im_wf. split; [cbn; lia|]. split; [unfold g_wf, g_tiles, cdiv; cbn; lia|]. split; [vm_compute; intuition discriminate|].
  split; [repeat constructor; cbn; lia|]. split; [exact ex_coding_wf|]. split; [|split; [|split; [discriminate|split]]].
  - split; [cbn; lia|]. split; [reflexivity|]. repeat constructor; lia.
  - constructor; [|constructor; [|constructor]]; [split; [vm_compute; intuition discriminate|]|vm_compute; intuition discriminate].
    repeat constructor.
  - repeat constructor; cbn; try (vm_compute; intuition discriminate).
  - split.
      * intros i Hi. change (0 <= i < 2) in Hi. assert (i = 0 \/ i = 1) as [-> | ->] by lia;
          [eexists; split; [left; reflexivity|reflexivity]|eexists; split; [right; left; reflexivity|reflexivity]].
      * right. split.
        -- intros p [<-|[<-|[<-|[]]]]; vm_compute; auto.
        -- intros i Hi. change (0 <= i < 2) in Hi. assert (i = 0 \/ i = 1) as [-> | ->] by lia.
           ++ eexists. split; [left; reflexivity|]. split; [reflexivity|discriminate].
           ++ eexists. split; [right; left; reflexivity|]. split; [reflexivity|discriminate].
Qed.
Example ex_file_wf : jp_wf (catC E0) ex_file.
Proof.
  split; [apply ex_image_wf|]. split; [cbn; auto|]. split; [split; vm_compute; reflexivity|]. split; [|split; [|vm_compute; reflexivity]].
  - repeat constructor; try (vm_compute; intuition discriminate).
  - intros pre t x post H. unfold jp_boxes in H. cbn [app ex_file jp_extra1 jp_extra2 jp_extra3 jp_form] in H.
    do 6 (destruct pre as [|? pre]; [now inversion H|]; apply (f_equal (@tl _)) in H; cbn [tl app] in H). now destruct pre.
Qed.

Example ex_file_run : passes (run "jp2" (BTs "JP2") (jp_file ex_file) VNone) = true.
Proof. vm_compute. reflexivity. Qed.

(** Each condition on the image matters: a third part of tile 0 that does not exist,
    a tile without parts. *)
Example ex_more_parts : ~ pts_wf 2 [ {| pt_tile := 0; pt_no := 0; pt_total := 2; pt_comments := []; pt_data := [] |};
                                     {| pt_tile := 1; pt_no := 0; pt_total := 1; pt_comments := []; pt_data := [] |} ].
Proof.
  intros (_ & [H|(H & _)]).
  - specialize (H _ (or_introl eq_refl)). discriminate.
  - destruct (H _ (or_introl eq_refl)) as [H'|H']; vm_compute in H'; discriminate.
Qed.
