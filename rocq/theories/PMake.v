(** * What the writer of SpecMake writes is accepted *)

From Coq Require Import ZArith List Bool String Lia Permutation FinFun.
From Coq Require Import Init.Byte.
From Coq Require Import ZifyBool.
From Verif Require Import Py PyFloat ByteConv ETree BV VSuper Spec SpecBox SpecMarker SpecWalk SpecSuper SpecCS SpecFile SpecValid SpecMake.
From Verif Require Import PBase PEmit PWalk PLeaf2 PSuper PSeg PWrite.
Import ListNotations.
Open Scope string_scope.
Open Scope list_scope.
Open Scope Z_scope.

(** ** Reading fields back *)
Lemma val_skip n z b off k : Z.of_nat n <= off -> 0 <= k -> val (be n z ++ b) off k = val b (off - Z.of_nat n) k.
Proof. intros H Hk. rewrite val_app_r by (rewrite ?len_be; lia). now rewrite len_be. Qed.
Lemma val_here n z b k : k = Z.of_nat n -> 0 <= z < 256 ^ k -> val (be n z ++ b) 0 k = z.
Proof. intros -> H. now apply val_be. Qed.
Lemma val_here_nil n z k : k = Z.of_nat n -> 0 <= z < 256 ^ k -> val (be n z) 0 k = z.
Proof. intros -> H. rewrite <- (app_nil_r (be n z)). now apply val_be. Qed.

Lemma fields_cons n z l : fields ((n, z) :: l) = be n z ++ fields l.
Proof. reflexivity. Qed.
Lemma fields_nil : fields [] = [].
Proof. reflexivity. Qed.
Lemma len_fields_uniform {A} (g : A -> nat * Z) w l : (forall x, fst (g x) = w) -> len (fields (map g l)) = Z.of_nat w * len l.
Proof.
  intros H. induction l as [|x l IH]; [cbn; lia|]. cbn [map]. destruct (g x) as [n z] eqn:E. rewrite fields_cons, len_app, len_be, IH.
  specialize (H x). rewrite E in H. cbn in H. subst. rewrite len_cons. lia.
Qed.

(** Records of equal length. *)
Lemma val_records {A} (g : A -> bytes) w l s i k n d : (forall x, len (g x) = w) -> 0 <= i < len l -> 0 <= k -> 0 <= n -> k + n <= w ->
  val (flat_map g l ++ s) (w * i + k) n = val (g (nth (Z.to_nat i) l d)) k n.
Proof.
  intros Hw. revert i. induction l as [|x l IH]; intros i Hi Hk Hn HW; [cbn in Hi; lia|].
  rewrite len_cons in Hi. cbn [flat_map]. rewrite <- app_assoc. destruct (Z.eq_dec i 0) as [->|Hne].
  - cbn [nth Z.to_nat]. rewrite Z.mul_0_r, Z.add_0_l. apply val_app_l; rewrite ?Hw; lia.
  - rewrite val_app_r by (rewrite ?Hw; nia). rewrite Hw. replace (w * i + k - w) with (w * (i - 1) + k) by lia.
    rewrite IH by lia. replace (Z.to_nat i) with (S (Z.to_nat (i - 1))) by lia. reflexivity.
Qed.
Lemma fields_map {A} (g : A -> nat * Z) l : fields (map g l) = flat_map (fun x => be (fst (g x)) (snd (g x))) l.
Proof. unfold fields. rewrite flat_map_concat_map, map_map, <- flat_map_concat_map. reflexivity. Qed.
Lemma NoDup_zseq n : NoDup (zseq n).
Proof. unfold zseq. apply FinFun.Injective_map_NoDup; [intros a b; lia|apply seq_NoDup]. Qed.
Lemma nth_In_Z {A} i (l : list A) d : 0 <= i < len l -> In (nth (Z.to_nat i) l d) l.
Proof. intros H. apply nth_In. unfold len in H. lia. Qed.

Ltac skips := repeat (rewrite val_skip by (try lia; cbn; lia)).
(** Value of a field of a sequence of numbers; leaves the range of the number. *)
Ltac fld := repeat rewrite fields_cons; rewrite ?fields_nil, ?app_nil_r; rewrite <- ?app_assoc; skips;
  match goal with |- val ?b ?o ?k = ?v => change (val b 0 k = v) end;
  first [apply val_here | apply val_here_nil]; [reflexivity|].

Lemma holds_app L L' : holds (L ++ L') <-> holds L /\ holds L'.
Proof. apply Forall_app. Qed.
Lemma holds_flat {A} (g : A -> list (string * Prop)) l : (forall x, In x l -> holds (g x)) -> holds (flat_map g l).
Proof. intros H. unfold holds in *. apply Forall_flat_map. now apply Forall_forall. Qed.

Ltac tests := unfold holds; repeat apply Forall_cons; try apply Forall_nil; cbn [snd]; unfold btw.

(** Formats for which an image is coded. *)
Definition fmt_of (im : image) (fmt : string) : Prop :=
  match im_cap im with Some _ => fmt = "jph" \/ fmt = "jhc" | None => fmt = "jp2" \/ fmt = "j2c" end.

(** ** SIZ *)
Definition co_fields (k : component) : bytes := fields [ (1%nat, co_byte k); (1%nat, co_dx k); (1%nat, co_dy k) ].
Lemma len_co_fields k : len (co_fields k) = 3.
Proof. unfold co_fields. rewrite !fields_cons, !len_app, !len_be. reflexivity. Qed.
Lemma len_comps l : len (flat_map co_fields l) = 3 * len l.
Proof. induction l as [|k l IH]; [reflexivity|]. cbn [flat_map]. rewrite len_app, len_co_fields, IH, len_cons. lia. Qed.
Lemma co_byte_range k : co_wf k -> 0 <= co_byte k < 256 /\ cdepth (co_byte k) = co_depth k /\ co_byte k <> 255.
Proof.
  intros (H & _). unfold co_byte, cdepth. destruct (co_signed k); (split; [lia|]); (split; [|lia]).
  - replace (128 + (co_depth k - 1)) with (co_depth k - 1 + 1 * 128) by lia. rewrite Z_mod_plus_full, Z.mod_small; lia.
  - rewrite Z.mod_small; lia.
Qed.

Section Siz.
Variables (catC : Z -> bool) (im : image).
Hypothesis WF : im_wf catC im.
Let g := im_grid im.
Let z := seg_body (siz_payload im).

Lemma len_siz_payload : len (siz_payload im) = 36 + 3 * len (im_comps im).
Proof.
  unfold siz_payload. rewrite len_app. change (fun k => fields _) with co_fields. rewrite len_comps.
  rewrite !fields_cons, !len_app, !len_be. cbn. lia.
Qed.
Ltac siz := unfold z, seg_body, siz_payload; fld; pose proof WF as (Hcap & (? & ? & ? & ? & ? & ? & ? & ? & ?) & ? & ?); unfold g in *.
Lemma siz_lsiz : val z 0 2 = 38 + 3 * len (im_comps im).
Proof.
  pose proof WF as (_ & _ & H & _). unfold z, seg_body. rewrite len_siz_payload.
  replace (36 + 3 * len (im_comps im) + 2) with (38 + 3 * len (im_comps im)) by lia.
  apply val_here; [reflexivity|lia].
Qed.
Lemma siz_rsiz : val z 2 2 = match im_cap im with Some _ => 16384 | None => im_profile im end.
Proof. siz. destruct (im_cap im); cbn; lia. Qed.
Lemma siz_x1 : val z 4 4 = g_x1 g. Proof. siz. lia. Qed.
Lemma siz_y1 : val z 8 4 = g_y1 g. Proof. siz. lia. Qed.
Lemma siz_x0 : val z 12 4 = g_x0 g. Proof. siz. lia. Qed.
Lemma siz_y0 : val z 16 4 = g_y0 g. Proof. siz. lia. Qed.
Lemma siz_tw : val z 20 4 = g_tw g. Proof. siz. lia. Qed.
Lemma siz_th : val z 24 4 = g_th g. Proof. siz. lia. Qed.
Lemma siz_tx0 : val z 28 4 = g_tx0 g. Proof. siz. lia. Qed.
Lemma siz_ty0 : val z 32 4 = g_ty0 g. Proof. siz. lia. Qed.
Lemma siz_csiz : val z 36 2 = len (im_comps im). Proof. siz. lia. Qed.
Lemma siz_comp i k d : 0 <= i < len (im_comps im) -> 0 <= k < 3 ->
  val z (38 + k + 3 * i) 1 = val (co_fields (nth (Z.to_nat i) (im_comps im) d)) k 1.
Proof.
  intros Hi Hk. unfold z, seg_body, siz_payload. change (fun k => fields _) with co_fields. rewrite !fields_cons, fields_nil, app_nil_r, <- !app_assoc.
  skips. match goal with |- val ?b ?o ?n = _ => replace o with (3 * i + k) by (cbn [Z.of_nat Pos.of_succ_nat Pos.succ]; lia) end.
  rewrite <- (app_nil_r (flat_map _ _)). apply val_records; try lia. apply len_co_fields.
Qed.
Lemma co_fields_vals k : co_wf k -> val (co_fields k) 0 1 = co_byte k /\ val (co_fields k) 1 1 = co_dx k /\ val (co_fields k) 2 1 = co_dy k.
Proof.
  intros H. pose proof (co_byte_range k H) as (Hb & _). destruct H as (_ & Hx & Hy). unfold co_fields.
  split; [|split]; fld; lia.
Qed.
Lemma siz_comp_wf i : 0 <= i < len (im_comps im) -> exists k, In k (im_comps im) /\ co_wf k /\
  nth_error (im_comps im) (Z.to_nat i) = Some k /\
  val z (38 + 3 * i) 1 = co_byte k /\ val z (39 + 3 * i) 1 = co_dx k /\ val z (40 + 3 * i) 1 = co_dy k.
Proof.
  intros Hi. pose proof WF as (_ & _ & _ & HC & _). set (d := {| co_signed := false; co_depth := 1; co_dx := 1; co_dy := 1 |}).
  exists (nth (Z.to_nat i) (im_comps im) d). pose proof (nth_In_Z i (im_comps im) d Hi) as HI. rewrite Forall_forall in HC.
  split; [exact HI|]. pose proof (HC _ HI) as HW. split; [exact HW|]. split; [apply nth_error_nth'; unfold len in Hi; lia|].
  destruct (co_fields_vals _ HW) as (H0 & H1 & H2).
  split; [|split]; [rewrite <- H0, <- (siz_comp i 0 d)|rewrite <- H1, <- (siz_comp i 1 d)|rewrite <- H2, <- (siz_comp i 2 d)]; try lia; f_equal; lia.
Qed.
Lemma siz_ntiles : siz_tiles z = g_tiles g.
Proof.
  unfold siz_tiles. rewrite siz_tw, siz_th, siz_x1, siz_y1, siz_tx0, siz_ty0. pose proof WF as (_ & (_ & _ & _ & _ & _ & _ & H & H' & _) & _). unfold g in *.
  replace ((g_tw (im_grid im) =? 0) || (g_th (im_grid im) =? 0)) with false by lia. reflexivity.
Qed.
Lemma siz_accepted E fmt : fmt_of im fmt -> need E fmt None m_SIZ z.
Proof.
  intros HF. change (siz_capability (val z 2 2) <> None /\ holds (siz_tests fmt z)). pose proof WF as (Hcap & (? & ? & ? & ? & ? & ? & ? & ? & ?) & HN & _).
  rewrite siz_rsiz. split.
  - destruct (im_cap im); [discriminate|]. assert (im_profile im = 0 \/ im_profile im = 1 \/ im_profile im = 2) as [-> |[-> | ->]] by lia; discriminate.
  - unfold siz_tests. rewrite siz_lsiz, siz_rsiz, siz_x1, siz_y1, siz_x0, siz_y0, siz_tw, siz_th, siz_tx0, siz_ty0, siz_csiz. unfold g.
    rewrite !holds_app. split; [|split; [|split]].
    + tests. lia.
    + unfold fmt_of in HF. destruct (im_cap im); destruct HF as [-> | ->]; cbn; tests; try reflexivity;
        assert (im_profile im = 0 \/ im_profile im = 1 \/ im_profile im = 2) as [-> |[-> | ->]] by lia; reflexivity.
    + tests; lia.
    + apply holds_flat. intros i Hi. apply in_zseq in Hi. destruct (siz_comp_wf i Hi) as (k & _ & HW & _ & -> & -> & ->).
      destruct (co_byte_range k HW) as (_ & HD & _). destruct HW as (? & ? & ?). tests; lia.
Qed.
End Siz.

(** ** COD *)
Lemma len_precincts (l : list (Z * Z)) : len (fields (map (fun p => (1%nat, fst p + 16 * snd p)) l)) = len l.
Proof. rewrite (len_fields_uniform _ 1); [lia|reflexivity]. Qed.
Lemma len_cod k : len (cod_payload k) = match cd_precincts k with Some l => 10 + len l | None => 10 end.
Proof.
  unfold cod_payload. rewrite !fields_cons, fields_nil. rewrite !len_app, !len_be.
  destruct (cd_precincts k) as [l|]; [rewrite len_precincts; change (len (@nil byte)) with 0; lia|reflexivity].
Qed.
Lemma cod_accepted E fmt k : cd_wf k -> need E fmt None m_COD (seg_body (cod_payload k)).
Proof.
  intros (Ho & Hl & Hv & Hw & Hh & Hs & Hst & Hp). change (holds (cod_tests (seg_body (cod_payload k)))).
  set (c := seg_body (cod_payload k)). set (e := match cd_precincts k with Some _ => 1 | None => 0 end).
  assert (H0 : val c 0 2 = match cd_precincts k with Some l => 13 + cd_levels k | None => 12 end).
  { unfold c, seg_body. rewrite len_cod. replace (_ + 2) with (match cd_precincts k with Some l => 13 + cd_levels k | None => 12 end)
      by (destruct (cd_precincts k); lia). apply val_here; [reflexivity|]. destruct (cd_precincts k); lia. }
  assert (H2 : val c 2 1 = e + 2 * Zb (cd_sop k) + 4 * Zb (cd_eph k)).
  { unfold c, seg_body, cod_payload. fold e. fld. unfold e, Zb. destruct (cd_precincts k), (cd_sop k), (cd_eph k); lia. }
  assert (H3 : val c 3 1 = cd_order k) by (unfold c, seg_body, cod_payload; fld; lia).
  assert (H4 : val c 4 2 = cd_layers k) by (unfold c, seg_body, cod_payload; fld; lia).
  assert (H6 : val c 6 1 = Zb (cd_mct k)) by (unfold c, seg_body, cod_payload; fld; unfold Zb; destruct (cd_mct k); lia).
  assert (H7 : val c 7 1 = cd_levels k) by (unfold c, seg_body, cod_payload; fld; lia).
  assert (H8 : val c 8 1 = cd_cbw k - 2) by (unfold c, seg_body, cod_payload; fld; lia).
  assert (H9 : val c 9 1 = cd_cbh k - 2) by (unfold c, seg_body, cod_payload; fld; lia).
  assert (H11 : val c 11 1 = Zb (cd_reversible k)) by (unfold c, seg_body, cod_payload; fld; unfold Zb; destruct (cd_reversible k); lia).
  assert (HE : cod_explicit c = match cd_precincts k with Some _ => true | None => false end).
  { unfold cod_explicit. rewrite H2. unfold e, Zb. destruct (cd_precincts k), (cd_sop k), (cd_eph k); reflexivity. }
  assert (HP : forall i l, cd_precincts k = Some l -> 0 <= i < len l -> exists x y, In (x, y) l /\ (i <> 0 -> In (x, y) (tl l)) /\ val c (12 + i) 1 = x + 16 * y).
  { intros i l HL Hi. rewrite HL in Hp. destruct Hp as (_ & HR & _). set (p := nth (Z.to_nat i) l (0, 0)). exists (fst p), (snd p).
    rewrite <- surjective_pairing. pose proof (nth_In_Z i l (0, 0) Hi) as HI. fold p in HI. split; [exact HI|]. split.
    - intros Hne. destruct l as [|q l]; [cbn in Hi; lia|]. unfold p. replace (Z.to_nat i) with (S (Z.to_nat (i - 1))) by lia. cbn [nth tl].
      apply nth_In_Z. rewrite len_cons in Hi. lia.
    - destruct p as [x y] eqn:Ep. destruct (HR x y HI) as (Hx & Hy). cbn [fst snd].
      unfold c, seg_body, cod_payload. rewrite HL. rewrite fields_map. cbn [fst snd].
      repeat rewrite fields_cons. rewrite fields_nil, app_nil_r, <- !app_assoc. skips.
      match goal with |- val ?b ?o ?n = _ => replace o with (1 * i + 0) by (cbn [Z.of_nat Pos.of_succ_nat Pos.succ]; lia) end.
      rewrite <- (app_nil_r (flat_map _ _)). rewrite (val_records _ _ _ _ i 0 1 (0, 0)) by (try lia; intros; now rewrite len_be).
      fold p. rewrite Ep. cbn [fst snd]. apply val_here_nil; [reflexivity|lia]. }
  unfold cod_tests. rewrite H0, H3, H4, H6, H7, HE, H11. rewrite !holds_app. split; [|split; [|split]].
  - tests; try lia; destruct (cd_precincts k); unfold Zb; try destruct (cd_mct k); lia.
  - unfold cb_tests. change (8 + 1) with 9. rewrite H8, H9. tests; lia.
  - tests. unfold Zb. destruct (cd_reversible k); lia.
  - unfold prec_tests. destruct (cd_precincts k) as [l|] eqn:EL; [|constructor]. destruct Hp as (HL & HR & HT).
    apply holds_flat. intros i Hi. apply in_zseq in Hi. destruct (HP i l eq_refl) as (x & y & HI & HT' & ->); [lia|].
    destruct (HR _ _ HI) as (Hx & Hy). unfold bitsk. change (2 ^ 0) with 1. change (2 ^ 4) with 16. rewrite Z.div_1_r.
    replace ((x + 16 * y) mod 16) with x by (replace (x + 16 * y) with (x + y * 16) by lia; rewrite Z_mod_plus_full, Z.mod_small; lia).
    replace ((x + 16 * y) / 16) with y by (replace (x + 16 * y) with (x + y * 16) by lia; rewrite Z_div_plus_full, Z.div_small; lia).
    rewrite (Z.mod_small y) by lia. destruct (Z.eq_dec i 0) as [Hz|Hne]; tests; auto; destruct (HT _ _ (HT' Hne)); auto.
Qed.

(** ** QCD, COM, CAP *)
Lemma len_qcd guard q : len (qcd_payload guard q) =
  match q with Reversible l => 1 + len l | Derived _ _ => 3 | Expounded l => 1 + 2 * len l end.
Proof.
  destruct q as [l|e mu|l]; cbn [qcd_payload]; rewrite len_app, len_be.
  - rewrite (len_fields_uniform _ 1) by reflexivity. lia.
  - now rewrite len_be.
  - rewrite (len_fields_uniform _ 2) by reflexivity. lia.
Qed.
Lemma qcd_accepted E fmt levels guard q : 0 <= levels <= 32 -> qu_wf levels guard q -> need E fmt None m_QCD (seg_body (qcd_payload guard q)).
Proof.
  intros HL (Hg & Hq). change (holds (qcd_tests (seg_body (qcd_payload guard q)))). set (c := seg_body (qcd_payload guard q)).
  assert (H0 : val c 0 2 = len (qcd_payload guard q) + 2).
  { unfold c, seg_body. apply val_here; [reflexivity|]. rewrite len_qcd. pose proof (len_nonneg (qcd_payload guard q)). destruct q; lia. }
  assert (H2 : val c 2 1 = 32 * guard + match q with Reversible _ => 0 | Derived _ _ => 1 | Expounded _ => 2 end).
  { unfold c, seg_body. destruct q; cbn [qcd_payload]; rewrite ?Z.add_0_r; fld; lia. }
  unfold qcd_tests. rewrite H0, H2, len_qcd. unfold bitsk. change (2 ^ 0) with 1. change (2 ^ 5) with 32. rewrite Z.div_1_r.
  rewrite (Z.add_comm (32 * guard)), (Z.mul_comm 32), Z_mod_plus_full. destruct q; tests; try lia; cbn; lia.
Qed.
Lemma len_com k : len (com_payload k) = 2 + match k with Latin b => len b | Binary b => len b end.
Proof. destruct k; cbn [com_payload]; now rewrite len_app, len_be. Qed.
Lemma com_accepted E fmt k : com_wf (catC E) k -> need E fmt None m_COM (seg_body (com_payload k)).
Proof.
  intros HW. change (holds (com_tests (catC E) (seg_body (com_payload k)))). set (c := seg_body (com_payload k)).
  assert (HL : len (com_payload k) + 2 < 65536 /\ 5 <= len (com_payload k) + 2) by (rewrite len_com; destruct k; cbn in HW; lia).
  assert (H0 : val c 0 2 = len (com_payload k) + 2).
  { unfold c, seg_body. apply val_here; [reflexivity|]. pose proof (len_nonneg (com_payload k)). lia. }
  assert (H2 : val c 2 2 = match k with Latin _ => 1 | Binary _ => 0 end).
  { unfold c, seg_body. destruct k; cbn [com_payload]; fld; lia. }
  assert (HR : com_raw c = match k with Latin b => b | Binary b => b end).
  { unfold com_raw. rewrite H0. unfold c, seg_body. rewrite len_com. destruct k as [b|b]; cbn [com_payload];
      rewrite sub_app_r by (rewrite len_be; lia); rewrite len_be, sub_app_r by (rewrite len_be; lia); rewrite len_be;
      apply sub_all; lia. }
  unfold com_tests, com_ok. rewrite H0, H2, HR. destruct k as [b|b]; cbn in HW; tests; try lia.
  right. split; [reflexivity|apply HW].
Qed.
Lemma cap_accepted E fmt v : 0 <= v < 65536 -> need E fmt None m_CAP (seg_body (cap_payload v)).
Proof.
  intros Hv. change (holds (cap_tests fmt (seg_body (cap_payload v)))). set (c := seg_body (cap_payload v)).
  assert (H0 : val c 0 2 = 8) by (unfold c, seg_body, cap_payload; apply val_here; [reflexivity|lia]).
  assert (H2 : val c 2 4 = 2 ^ 17) by (unfold c, seg_body, cap_payload; fld; lia).
  assert (HP : cap_parts c = [15]) by (unfold cap_parts; rewrite H2; reflexivity).
  unfold cap_tests. rewrite H0, HP. destruct (fmt_ht fmt); tests; try reflexivity. now left.
Qed.

(** ** Tile parts *)
Lemma segment_eq m x : segment m x = seg_bytes (m, x).
Proof. reflexivity. Qed.
Lemma com_fits catC k : com_wf catC k -> seg_fits (m_COM, com_payload k).
Proof. intros H. split; [reflexivity|]. split; [reflexivity|]. cbn [fst snd]. rewrite len_com. destruct k; cbn in H; lia. Qed.
Definition com_segs (l : list comment) : list (bytes * bytes) := map (fun k => (m_COM, com_payload k)) l.
Lemma com_segs_fits catC l : Forall (com_wf catC) l -> Forall seg_fits (com_segs l).
Proof. intros H. unfold com_segs. apply Forall_map. eapply Forall_impl; [|exact H]. intros k. apply com_fits. Qed.
Lemma com_segs_only m l : m <> m_COM -> ~ In m (map fst (com_segs l)).
Proof. intros H. unfold com_segs. rewrite map_map, in_map_iff. intros (k & E & _). now apply H. Qed.
Lemma segs_of_com m l : m <> m_COM -> segs_of m (bodies (com_segs l)) = [].
Proof.
  intros H. unfold segs_of, bodies, com_segs. induction l as [|k l IH]; [reflexivity|]. cbn [map filter fst].
  destruct (bytes_eqb m_COM m) eqn:E; [|exact IH]. apply bytes_eqb_spec in E. now subst.
Qed.
Lemma treated_com tbl l : lookup m_COM tbl = Some Alone ->
  treated tbl (bodies (com_segs l)) = map (fun k => (Alone, m_COM, seg_body (com_payload k))) l.
Proof.
  intros H. unfold treated, bodies, com_segs. rewrite flat_map_concat_map, !map_map. cbn [fst snd]. rewrite H.
  induction l as [|k l IH]; [reflexivity|]. cbn [map List.concat app]. now rewrite IH.
Qed.
Lemma coms_accepted E fmt n l : Forall (com_wf (catC E)) l ->
  Forall (seg_ok E fmt n) (map (fun k => (Alone, m_COM, seg_body (com_payload k))) l).
Proof. intros H. apply Forall_map. eapply Forall_impl; [|exact H]. intros k. apply com_accepted. Qed.

Definition sot_payload (p : tpart) : bytes :=
  fields [ (2%nat, pt_tile p); (4%nat, pt_length p); (1%nat, pt_no p); (1%nat, pt_total p) ].
Lemma len_sot_payload p : len (sot_payload p) = 8.
Proof. unfold sot_payload. now rewrite !fields_cons, fields_nil, !len_app, !len_be. Qed.
Lemma pt_bytes_eq p s : pt_bytes p ++ s =
  seg_bytes (m_SOT, sot_payload p) ++ List.concat (map seg_bytes (com_segs (pt_comments p))) ++ m_SOD ++ pt_data p ++ s.
Proof.
  unfold pt_bytes. fold (sot_payload p). rewrite segment_eq, <- !app_assoc. do 2 f_equal.
  unfold pt_header, com_segs. now rewrite map_map.
Qed.
Lemma len_pt_bytes p : len (pt_bytes p) = pt_length p.
Proof.
  unfold pt_bytes. fold (sot_payload p). unfold segment. rewrite !len_app, len_be, len_sot_payload. unfold pt_length.
  change (len m_SOT) with 2. change (len m_SOD) with 2. lia.
Qed.
Lemma sot_fits p : seg_fits (m_SOT, sot_payload p).
Proof. split; [reflexivity|]. split; [reflexivity|]. cbn [snd]. rewrite len_sot_payload. lia. Qed.
Lemma sot_vals catC n p : n <= 65535 -> pt_wf catC n p -> let x := seg_body (sot_payload p) in
  val x 0 2 = 10 /\ val x 2 2 = pt_tile p /\ val x 4 4 = pt_length p /\ val x 8 1 = pt_no p /\ val x 9 1 = pt_total p.
Proof.
  intros Hn (Ht & Ho & Htt & _ & Hl) x. assert (14 <= pt_length p) by (unfold pt_length; pose proof (len_nonneg (pt_header p)); pose proof (len_nonneg (pt_data p)); lia).
  unfold x, seg_body. rewrite len_sot_payload. unfold sot_payload. repeat split; fld; lia.
Qed.

(** Offsets of tile parts written from [o] on. *)
Fixpoint offsets (o : Z) (ps : list tpart) : list Z :=
  match ps with [] => [] | p :: r => o :: offsets (o + pt_length p) r end.
Lemma sot_at catC n c a p s : c = a ++ pt_bytes p ++ s -> pt_wf catC n p ->
  skipn (Z.to_nat (len a)) c = pt_bytes p ++ s /\ sub c (len a) 2 = m_SOT /\ tp_sot c (len a) = seg_body (sot_payload p).
Proof.
  intros -> HW. assert (HS : skipn (Z.to_nat (len a)) (a ++ pt_bytes p ++ s) = pt_bytes p ++ s) by (apply skipn_app_exact; unfold len; lia).
  split; [exact HS|]. split.
  - unfold sub. rewrite HS. reflexivity.
  - unfold tp_sot. rewrite HS, pt_bytes_eq. now rewrite contents_written by apply sot_fits.
Qed.

(** What is read at the tile parts. *)
Lemma chain_written catC n ps : n <= 65535 -> Forall (pt_wf catC n) ps -> forall c a,
  c = a ++ List.concat (map pt_bytes ps) ++ m_EOC ->
  chain n c (len a) (offsets (len a) ps) /\
  Forall2 (fun o p => tp_sot c o = seg_body (sot_payload p) /\ (exists a' s, o = len a' /\ c = a' ++ pt_bytes p ++ s /\ In (sub s 0 2) [m_SOT; m_EOC]))
    (offsets (len a) ps) ps.
Proof.
  intros Hn HF. induction HF as [|p ps Hp HF IH]; intros c a HC.
  - cbn [offsets map List.concat app] in *. split; [|constructor]. apply chain_end; [apply len_nonneg|].
    rewrite HC, sub_app_r by lia. rewrite Z.sub_diag. discriminate.
  - cbn [offsets map List.concat] in *. rewrite <- app_assoc in HC.
    destruct (sot_at catC n c a p _ HC Hp) as (_ & H1 & H2).
    destruct (sot_vals catC n p Hn Hp) as (V0 & V2 & V4 & V8 & V9).
    assert (HL : 14 <= pt_length p) by (unfold pt_length; pose proof (len_nonneg (pt_header p)); pose proof (len_nonneg (pt_data p)); lia).
    assert (HPS : tp_psot c (len a) = pt_length p) by (unfold tp_psot; now rewrite H2).
    assert (HIS : tp_isot c (len a) = pt_tile p) by (unfold tp_isot; now rewrite H2).
    destruct (IH c (a ++ pt_bytes p)) as (IC & IF).
    { rewrite HC, <- !app_assoc. reflexivity. }
    rewrite len_app, len_pt_bytes in IC, IF. split.
    + apply chain_next; [apply len_nonneg|exact H1| | |]; rewrite ?HPS, ?HIS; [apply Hp|lia|exact IC].
    + constructor; [|exact IF]. split; [exact H2|]. exists a, (List.concat (map pt_bytes ps) ++ m_EOC).
      split; [reflexivity|]. split; [exact HC|]. destruct ps as [|q ps]; [right; now left|]. left. reflexivity.
Qed.

Lemma tile_written E fmt csiz n c o p s a : n <= 65535 -> pt_wf (catC E) n p -> o = len a -> c = a ++ pt_bytes p ++ s -> In (sub s 0 2) [m_SOT; m_EOC] ->
  tile_valid E fmt c csiz o.
Proof.
  intros Hn HW -> HC HI. destruct (sot_at _ _ _ _ _ _ HC HW) as (HS & H1 & H2). destruct (sot_vals _ n p Hn HW) as (V0 & V2 & V4 & V8 & V9).
  assert (HL : 14 <= pt_length p) by (unfold pt_length; pose proof (len_nonneg (pt_header p)); pose proof (len_nonneg (pt_data p)); lia).
  assert (HPS : tp_psot c (len a) = pt_length p) by (unfold tp_psot; now rewrite H2).
  destruct HW as (Ht & Hno & Htot & HK & HLen).
  exists (bodies (com_segs (pt_comments p))), (Some (m_SOD ++ pt_data p ++ s)). split; [|split; [|split]].
  - rewrite HS, pt_bytes_eq. apply after_written; [apply sot_fits|eapply com_segs_fits, HK|now apply com_segs_only|reflexivity].
  - rewrite H2. unfold sot_tests. rewrite V0, V2, V4, V8. tests; lia.
  - rewrite treated_com by reflexivity. now apply coms_accepted.
  - unfold tp_tests. rewrite !segs_of_com by discriminate. rewrite HPS. replace (pt_length p =? 0) with false by lia. cbn [app].
    tests; [discriminate|]. unfold tp_next. rewrite HPS. replace (pt_length p =? -9999) with false by lia.
    rewrite HC, sub_app_r by lia. replace (len a + pt_length p - len a) with (pt_length p) by lia.
    rewrite sub_app_r by (rewrite len_pt_bytes; lia). now rewrite len_pt_bytes, Z.sub_diag.
Qed.

(** Counting tile parts. *)
Lemma find_map {A B} (f : A -> B) (P : B -> bool) l : option_map f (List.find (fun x => P (f x)) l) = List.find P (map f l).
Proof. induction l as [|x l IH]; [reflexivity|]. cbn. destruct (P (f x)); [reflexivity|exact IH]. Qed.
Lemma len_filter_map {A B} (f : A -> B) (P : B -> bool) l : len (filter (fun x => P (f x)) l) = len (filter P (map f l)).
Proof. induction l as [|x l IH]; [reflexivity|]. cbn. destruct (P (f x)); rewrite ?len_cons, IH; reflexivity. Qed.
Section Count.
Variables (catC : Z -> bool) (n : Z) (c : bytes) (os : list Z) (ps : list tpart).
Hypothesis Hn0 : 0 <= n.
Hypothesis Hn : n <= 65535.
Hypothesis HF : Forall (pt_wf catC n) ps.
Hypothesis H2 : Forall2 (fun o p => tp_sot c o = seg_body (sot_payload p)) os ps.
Hypothesis HW : pts_wf n ps.
Let key (o : Z) : Z * Z := (tp_isot c o, tp_tnsot c o).
Let pkey (p : tpart) : Z * Z := (pt_tile p, pt_total p).
Lemma keys : map key os = map pkey ps.
Proof.
  clear HW. induction H2 as [|o p os' ps' H H2' IH]; [reflexivity|]. inversion_clear HF as [|? ? Hp HF'].
  cbn [map]. rewrite IH by assumption. f_equal. unfold key, pkey, tp_isot, tp_tnsot. rewrite H.
  destruct (sot_vals catC n p Hn Hp) as (V0 & V2 & V4 & V8 & V9). now rewrite V2, V9.
Qed.
Lemma isots : map (tp_isot c) os = map pt_tile ps.
Proof. pose proof (f_equal (map fst) keys) as H. rewrite !map_map in H. exact H. Qed.
Lemma found_all : tiles_found c os = n.
Proof.
  destruct HW as (HA & _). unfold tiles_found. rewrite isots.
  transitivity (len (zseq n)); [|rewrite len_zseq; lia]. unfold len. f_equal. apply Permutation_length.
  apply NoDup_Permutation; [apply NoDup_nodup|apply NoDup_zseq|]. intros i. rewrite nodup_In, in_map_iff, in_zseq. split.
  - intros (p & <- & HI). rewrite Forall_forall in HF. apply HF in HI. apply HI.
  - intros Hi. destruct (HA i Hi) as (p & HI & <-). eauto.
Qed.
Lemma found_parts i : parts_found c os i = count_tile i ps.
Proof.
  unfold parts_found, count_tile. rewrite (len_filter_map (tp_isot c) (fun x => x =? i)), isots.
  now rewrite <- (len_filter_map pt_tile (fun x => x =? i)).
Qed.
Lemma declared_parts i : parts_declared c os i =
  option_map pt_total (List.find (fun p => (pt_tile p =? i) && negb (pt_total p =? 0)) (rev ps)).
Proof.
  unfold parts_declared.
  pose proof (find_map key (fun k => (fst k =? i) && negb (snd k =? 0)) (rev os)) as H.
  pose proof (find_map pkey (fun k => (fst k =? i) && negb (snd k =? 0)) (rev ps)) as H'.
  rewrite map_rev, keys, <- map_rev, <- H' in H. apply (f_equal (option_map snd)) in H.
  cbn [key pkey fst snd] in H. destruct (List.find _ (rev os)), (List.find _ (rev ps)); cbn in *; congruence.
Qed.
Lemma counted : holds (if existsb (fun p => negb (tp_tnsot c p =? 0)) os
   then [ ("foundExpectedNumberOfTileParts", parts_ok n c os) ] else []).
Proof.
  destruct (existsb _ os) eqn:EX; [|constructor]. tests. apply existsb_exists in EX. destruct EX as (o & HO & HT).
  assert (HX : exists p, In p ps /\ pt_total p <> 0).
  { assert (HK : In (key o) (map pkey ps)) by (rewrite <- keys; now apply in_map). apply in_map_iff in HK. destruct HK as (p & E & HI).
    exists p. split; [exact HI|]. unfold key, pkey in E. injection E as _ ->. lia. }
  destruct HX as (p & HP & HPT). destruct HW as (HA & [HZ|(HC & HD)]); [now rewrite HZ in HPT|]. split.
  - intros i Hi. rewrite found_parts, declared_parts. destruct (List.find _ (rev ps)) as [q|] eqn:EF.
    + apply find_some in EF. destruct EF as (HQ & HB). rewrite <- in_rev in HQ. cbn. f_equal.
      destruct (HC q HQ) as [H|H]; [lia|]. rewrite H. f_equal. lia.
    + destruct (HD i Hi) as (q & HQ & HT' & HN). rewrite in_rev in HQ. pose proof (find_none _ _ EF q HQ). lia.
  - intros i Hi. rewrite declared_parts in Hi. destruct (List.find _ (rev ps)) as [q|] eqn:EF; [|now elim Hi].
    apply find_some in EF. destruct EF as (HQ & HB). rewrite <- in_rev in HQ. rewrite Forall_forall in HF. destruct (HF q HQ) as (Ht & _). lia.
Qed.
End Count.

(** ** Codestreams *)
Section Codestream.
Variables (E : env) (im : image).
Hypothesis WF : im_wf (catC E) im.
Let c := codestream im.
Let n := g_tiles (im_grid im).
Let s := List.concat (map pt_bytes (im_parts im)) ++ m_EOC.
Let hdr := header_bytes (siz_payload im) (main_header im).

Lemma codestream_eq : c = hdr ++ s.
Proof. unfold c, codestream, hdr, header_bytes. rewrite segment_eq, <- !app_assoc. reflexivity. Qed.
Lemma siz_fits : seg_fits (m_SIZ, siz_payload im).
Proof.
  split; [reflexivity|]. split; [reflexivity|]. cbn [snd]. rewrite len_siz_payload. pose proof WF as (_ & _ & H & _). lia.
Qed.
Lemma main_fits : Forall seg_fits (main_header im).
Proof.
  pose proof WF as (Hc & _ & _ & _ & Hcd & Hq & Hk & _). unfold main_header. rewrite !Forall_app. split; [|split].
  - destruct (im_cap im) as [v|]; constructor; [|constructor]. split; [reflexivity|]. split; [reflexivity|]. reflexivity.
  - assert (HD : len (cod_payload (im_coding im)) <= 43).
    { rewrite len_cod. destruct Hcd as (_ & _ & Hl & _ & _ & _ & _ & Hp). destruct (cd_precincts _); lia. }
    assert (HQ : len (qcd_payload (im_guard im) (im_quant im)) <= 195).
    { rewrite len_qcd. destruct Hcd as (_ & _ & Hl & _). destruct Hq as (_ & Hq). destruct (im_quant im); lia. }
    repeat constructor; cbn [fst snd]; lia.
  - now apply (com_segs_fits (catC E)).
Qed.
Lemma main_markers_are m : In m (map fst (main_header im)) -> In m [m_CAP; m_COD; m_QCD; m_COM].
Proof.
  unfold main_header. rewrite !map_app, !in_app_iff. intros [H|[H|H]].
  - destruct (im_cap im); [|now elim H]. destruct H as [<-|[]]. now left.
  - destruct H as [<-|[<-|[]]]; cbn; auto.
  - rewrite map_map in H. apply in_map_iff in H. destruct H as (k & <- & _). cbn; auto.
Qed.
Lemma not_main m : ~ In m [m_CAP; m_COD; m_QCD; m_COM] -> ~ In m (map fst (main_header im)).
Proof. intros H HI. now apply H, main_markers_are. Qed.
Lemma none_of m l : ~ In m (map fst l) -> segs_of m (bodies l) = [].
Proof.
  unfold segs_of, bodies. induction l as [|[m' x] l IH]; [reflexivity|]. cbn [map filter fst snd]. intros H.
  destruct (bytes_eqb m' m) eqn:EQ; [apply bytes_eqb_spec in EQ; subst; elim H; now left|]. apply IH. intros HI. apply H. now right.
Qed.
Lemma bodies_fst l : map fst (bodies l) = map fst l.
Proof. unfold bodies. now rewrite map_map. Qed.
Lemma main_accepted fmt k : Forall (seg_ok E fmt k) (treated main_markers (bodies (main_header im))).
Proof.
  pose proof WF as (Hc & _ & _ & _ & Hcd & Hq & Hk & _). unfold main_header, bodies. rewrite !map_app. unfold treated. rewrite !flat_map_app, !Forall_app.
  split; [|split].
  - destruct (im_cap im) as [v|]; [|constructor]. cbn [map flat_map fst snd]. change (lookup m_CAP main_markers) with (Some Alone).
    constructor; [|constructor]. now apply cap_accepted.
  - cbn [map flat_map fst snd]. change (lookup m_COD main_markers) with (Some Alone). change (lookup m_QCD main_markers) with (Some Alone).
    constructor; [now apply cod_accepted|]. constructor; [|constructor]. apply (qcd_accepted _ _ (cd_levels (im_coding im))); [apply Hcd|exact Hq].
  - pose proof (coms_accepted E fmt k (im_comments im) Hk) as H. rewrite <- (treated_com main_markers) in H by reflexivity. exact H.
Qed.

Lemma codestream_accepted fmt : fmt_of im fmt -> codestream_ok E fmt c.
Proof.
  intros HFmt. pose proof WF as (Hc & Hg & HN & HC & Hcd & Hq & Hk & Hne & HP & HPW). fold n in HP, HPW.
  assert (Hn : 0 <= n <= 65535) by apply Hg.
  assert (HS2 : sub s 0 2 = m_SOT) by (unfold s; destruct (im_parts im); [now elim Hne|reflexivity]).
  destruct (header_written (siz_payload im) (main_header im) s siz_fits main_fits) as (_ & HSIZ & HZ & HA);
    [apply not_main; cbn; intuition discriminate|exact HS2|]. fold hdr in HSIZ, HZ, HA. rewrite <- codestream_eq in HSIZ, HZ, HA.
  assert (HT : cs_tiles c = n) by (unfold cs_tiles; rewrite HZ, (siz_ntiles (catC E)) by exact WF; fold n; lia).
  assert (HK : cs_csiz c = len (im_comps im)) by (unfold cs_csiz; rewrite HZ; exact (siz_csiz (catC E) im WF)).
  destruct (chain_written (catC E) n (im_parts im) (proj2 Hn) HP c hdr codestream_eq) as (HCh & HF2).
  set (os := offsets (len hdr) (im_parts im)) in *.
  exists (bodies (main_header im)), (Some s), os. split; [exact HA|]. split; [|split; [|split; [|split; [|split; [|split]]]]].
  - unfold parts. rewrite HT. replace (len c - len s) with (len hdr) by (rewrite codestream_eq, len_app; lia). exact HCh.
  - unfold cs_tests1. tests; [reflexivity|exact HSIZ].
  - rewrite HZ. exact (siz_accepted (catC E) im WF E fmt HFmt).
  - apply main_accepted.
  - rewrite HK. apply Forall_forall. intros o HO. 
    assert (HX : exists p, In p (im_parts im) /\ exists a' s', o = len a' /\ c = a' ++ pt_bytes p ++ s' /\ In (sub s' 0 2) [m_SOT; m_EOC]).
    { clear -HF2 HO. induction HF2 as [|o' p os' ps' (_ & H) HF2 IH]; [now elim HO|]. destruct HO as [<-|HO].
      - exists p. split; [now left|exact H].
      - destruct (IH HO) as (q & HQ & H'). exists q. split; [now right|exact H']. }
    destruct HX as (p & HIp & a' & s' & Ho & HCp & HNx). rewrite Forall_forall in HP.
    exact (tile_written E fmt _ n c o p s' a' (proj2 Hn) (HP p HIp) Ho HCp HNx).
  - assert (HF3 : Forall2 (fun o p => tp_sot c o = seg_body (sot_payload p)) os (im_parts im)) by (clear -HF2; induction HF2 as [|? ? ? ? (H & _)]; constructor; auto).
    unfold cs_tests2. rewrite HZ, HT, bodies_fst. rewrite !holds_app. split; [|split; [|split]].
    + assert (HI : forall m, In m [m_COD; m_QCD] -> In m (map fst (main_header im))).
      { intros m Hm. unfold main_header. rewrite !map_app. apply in_or_app. right. apply in_or_app. left. exact Hm. }
      pose proof (HI m_COD (or_introl eq_refl)) as H1. pose proof (HI m_QCD (or_intror (or_introl eq_refl))) as H2. clear HI.
      unfold holds. apply Forall_cons; [exact H1|]. apply Forall_cons; [exact H2|]. apply Forall_nil.
    + rewrite (siz_rsiz (catC E)) by exact WF. unfold main_header. destruct (im_cap im) as [v|].
      * change (bitsk 16384 14 4 =? 1) with true. cbv iota. unfold holds. apply Forall_cons; [exact (or_introl eq_refl)|apply Forall_nil].
      * assert (im_profile im = 0 \/ im_profile im = 1 \/ im_profile im = 2) as [-> |[-> | ->]] by (clear -Hc; lia); constructor.
    + unfold holds. apply Forall_cons; [|apply Forall_nil]. cbn [snd]. exact (found_all (catC E) n c os (im_parts im) (proj1 Hn) (proj2 Hn) HP HF3 HPW).
    + exact (counted (catC E) n c os (im_parts im) (proj2 Hn) HP HF3 HPW).
  - unfold cs_tests3. rewrite !none_of by (apply not_main; cbn; intuition discriminate). cbn [app]. tests.
    exists (hdr ++ List.concat (map pt_bytes (im_parts im))). rewrite codestream_eq. unfold s. apply app_assoc.
Qed.
End Codestream.

(** ** Files *)
Section File.
Variables (E : env) (f : jp2).
Hypothesis WF : jp_wf (catC E) f.
Let im := jp_image f.
Let g := im_grid im.
Let hb := jp_header f.
Let x := fields [ (4%nat, g_y1 g - g_y0 g); (4%nat, g_x1 g - g_x0 g); (2%nat, len (im_comps im));
              (1%nat, match uniform (im_comps im) with Some b => b | None => 255 end);
              (1%nat, 7); (1%nat, Zb (jp_unknown f)); (1%nat, 0) ].
Let y := fields (map (fun k => (1%nat, co_byte k)) (im_comps im)).
Let w := fields [ (1%nat, 1); (1%nat, 0); (1%nat, 0); (4%nat, jp_colour f) ].
Let z := seg_body (siz_payload im).

Lemma im_is_wf : im_wf (catC E) im. Proof. apply WF. Qed.
Lemma g_is_wf : g_wf g. Proof. apply WF. Qed.
Lemma comps_wf : Forall co_wf (im_comps im). Proof. apply WF. Qed.
Lemma comps_len : 1 <= len (im_comps im) <= 16384. Proof. apply WF. Qed.
Lemma colour_is : In (jp_colour f) [16; 17; 18]. Proof. apply WF. Qed.

Lemma uniform_spec b : uniform (im_comps im) = Some b -> forall k, In k (im_comps im) -> co_byte k = b.
Proof.
  destruct (im_comps im) as [|k r]; [discriminate|]. cbn [uniform].
  destruct (forallb _ r) eqn:EF; [|discriminate]. intros H. injection H as <-. intros k' [<-|HI]; [reflexivity|].
  rewrite forallb_forall in EF. specialize (EF k' HI). lia.
Qed.
Lemma uniform_byte b : uniform (im_comps im) = Some b -> 0 <= b < 256 /\ b <> 255.
Proof.
  intros H. pose proof (uniform_spec b H) as HS. pose proof comps_wf as HC. pose proof comps_len as HL.
  destruct (im_comps im) as [|k r]; [cbn in HL; lia|]. inversion HC as [|? ? Hk _]; subst.
  rewrite <- (HS k (or_introl eq_refl)). pose proof (co_byte_range k Hk). lia.
Qed.

Ltac hdr := unfold x; fld; pose proof g_is_wf as (? & ? & ? & ? & _); pose proof comps_len.
Lemma x_len : len x = 14. Proof. reflexivity. Qed.
Lemma x_height : val x 0 4 = g_y1 g - g_y0 g. Proof. hdr. lia. Qed.
Lemma x_width : val x 4 4 = g_x1 g - g_x0 g. Proof. hdr. lia. Qed.
Lemma x_nc : val x 8 2 = len (im_comps im). Proof. hdr. lia. Qed.
Lemma x_bpc : val x 10 1 = match uniform (im_comps im) with Some b => b | None => 255 end.
Proof. hdr. destruct (uniform (im_comps im)) as [b|] eqn:EU; [apply uniform_byte in EU|]; lia. Qed.
Lemma x_c : val x 11 1 = 7. Proof. hdr. lia. Qed.
Lemma x_unk : val x 12 1 = Zb (jp_unknown f). Proof. hdr. destruct (jp_unknown f); cbn; lia. Qed.
Lemma x_ipr : val x 13 1 = 0. Proof. hdr. lia. Qed.
Lemma y_eq : map bz y = map co_byte (im_comps im).
Proof.
  unfold y. pose proof comps_wf as HC. revert HC. clear. generalize (im_comps im). intros l HC.
  induction HC as [|k l Hk HC IH]; [reflexivity|]. cbn [map]. rewrite fields_cons, map_app, IH.
  pose proof (co_byte_range k Hk) as (HB & _). pose proof (val_here_nil 1 (co_byte k) 1 eq_refl HB) as HV.
  pose proof (len_be 1 (co_byte k)) as HL. destruct (be 1 (co_byte k)) as [|b [|b' r]]; [discriminate HL| |rewrite !len_cons in HL; pose proof (len_nonneg r); lia].
  change (val [b] 0 1) with (bz b * 1 + 0) in HV. cbn [map app]. f_equal. lia.
Qed.
Lemma y_len : len y = len (im_comps im).
Proof. unfold y. rewrite (len_fields_uniform _ 1%nat) by reflexivity. lia. Qed.

Definition head_split : list (bytes * bytes) :=
  [ (t_ihdr, x) ] ++ match uniform (im_comps im) with Some _ => [] | None => [ (t_bpcc, y) ] end ++ [ (t_colr, w) ].
Lemma head_fits : Forall fits hb.
Proof.
  unfold hb, jp_header. fold im g x y w. rewrite !Forall_app. split; [|split].
  - constructor; [|constructor]. split; [reflexivity|]. rewrite x_len. lia.
  - destruct (uniform _); constructor; [|constructor]. split; [reflexivity|]. pose proof y_len as HY. pose proof comps_len. rewrite HY. lia.
  - constructor; [|constructor]. split; [reflexivity|]. change (len w) with 7. lia.
Qed.
Lemma no_rest (bs : list (form * bytes * bytes)) : Forall (fun b => fst (fst b) <> Rest) bs -> rest_last bs.
Proof.
  intros H pre t q post ->. apply Forall_elt in H. now elim H.
Qed.
Lemma head_splits : splits (List.concat (map box_bytes hb)) head_split.
Proof.
  replace head_split with (map written hb).
  - apply splits_written; [apply head_fits|]. apply no_rest. unfold hb, jp_header. destruct (uniform _); repeat constructor; discriminate.
  - unfold head_split, hb, jp_header. fold im g x y w. now destruct (uniform _).
Qed.

Let fmt := jp_format f.
Lemma fmt_cases : fmt = "jp2" /\ jp_brand f = [x6a; x70; x32; x20] \/ fmt = "jph" /\ jp_brand f = [x6a; x70; x68; x20].
Proof. unfold fmt, jp_format, jp_brand. destruct (im_cap _); auto. Qed.
Lemma fmt_fits : fmt_of im fmt.
Proof. unfold fmt, jp_format, fmt_of, im. destruct (im_cap _); auto. Qed.

Lemma ihdr_accepted : need E fmt None t_ihdr x.
Proof.
  change (holds (ihdr_tests x)). unfold ihdr_tests, holds.
  rewrite x_len, x_height, x_width, x_nc, x_c, x_unk, x_ipr, x_bpc. pose proof g_is_wf as (? & ? & ? & ? & _). pose proof comps_len.
  repeat (apply Forall_cons; [cbn [snd]; try lia|]); [| |apply Forall_nil].
  - destruct (uniform _) as [b|] eqn:EU; [apply uniform_byte in EU|]; lia.
  - destruct (jp_unknown f); auto.
Qed.
Lemma bpcc_accepted : need E fmt None t_bpcc y.
Proof.
  change (holds (bpcc_tests y)). unfold bpcc_tests, holds. apply Forall_forall. intros q HI. apply in_map_iff in HI. destruct HI as (b & <- & HI).
  cbn [snd]. apply (in_map bz) in HI. rewrite y_eq in HI. apply in_map_iff in HI. destruct HI as (k & <- & HI).
  pose proof comps_wf as HC. rewrite Forall_forall in HC. specialize (HC k HI). rewrite (proj1 (proj2 (co_byte_range k HC))). apply HC.
Qed.
Lemma colr_accepted : need E fmt None t_colr w.
Proof.
  change (holds (colr_tests fmt w)). assert (H0 : val w 0 1 = 1) by (unfold w; fld; lia).
  assert (H1 : val w 1 1 = 0) by (unfold w; fld; lia). assert (H2 : val w 2 1 = 0) by (unfold w; fld; lia).
  assert (H3 : val w 3 4 = jp_colour f) by (unfold w; fld; pose proof colour_is as HC; cbn [In] in HC; lia).
  unfold colr_tests. rewrite H0. change (1 =? 1) with true. cbv iota. unfold colr_enum_tests, colr_common, colr_enum. rewrite H0, H1, H2, H3. change (len w =? 7) with true. cbv iota.
  rewrite !holds_app. split; [split|].
  - destruct fmt_cases as [(-> & _)|(-> & _)]; [change (fmt_is "jp2" "jp2") with true|change (fmt_is "jph" "jp2") with false; change (fmt_is "jph" "jph") with true]; cbv iota; (constructor; [now left|constructor]).
  - repeat constructor.
  - constructor; [apply colour_is|constructor].
Qed.
Ltac amo := apply bcount_le1; vm_compute; discriminate.
Lemma head_accepted : box_ok E fmt (t_jp2h, List.concat (map box_bytes hb)).
Proof.
  apply (ok_jp2h _ _ _ head_split); [apply head_splits| |].
  - unfold head_split. rewrite !Forall_app. split; [|split].
    + constructor; [|constructor]. apply ok_leaf; [cbn; intuition discriminate|apply ihdr_accepted].
    + destruct (uniform _); constructor; [|constructor]. apply ok_leaf; [cbn; intuition discriminate|apply bpcc_accepted].
    + constructor; [|constructor]. apply ok_leaf; [cbn; intuition discriminate|apply colr_accepted].
  - unfold jp2h_tests. replace (first_of t_ihdr head_split) with (Some x) by (unfold head_split; now destruct (uniform _)).
    replace (map fst head_split) with ([t_ihdr] ++ match uniform (im_comps im) with Some _ => [] | None => [t_bpcc] end ++ [t_colr])
      by (unfold head_split; now destruct (uniform _)).
    rewrite x_bpc, !holds_app. split; [|split; [|split]].
    + constructor; [now left|constructor].
    + assert (HI : holds [("containsColourSpecificationBox", In t_colr ([t_ihdr] ++ match uniform (im_comps im) with Some _ => [] | None => [t_bpcc] end ++ [t_colr]))]).
      { constructor; [|constructor]. cbn [snd]. rewrite !in_app_iff. right. right. now left. }
      destruct fmt_cases as [(-> & _)|(-> & _)]; [exact HI|]. change (fmt_is "jph" "jp2") with false; change (fmt_is "jph" "jph") with true. cbv iota.
      rewrite holds_app. split; [destruct (_ =? 0); [exact HI|constructor]|].
      assert (HT : forall o : option Z, existsb (bytes_eqb t_colr) ([t_ihdr] ++ match o with Some _ => [] | None => [t_bpcc] end ++ [t_colr]) = true) by now intros [o|].
      rewrite HT. constructor.
    + destruct (uniform _) as [b|] eqn:EU.
      * apply uniform_byte in EU. replace (b =? 255) with false by lia. constructor.
      * constructor; [right; now left|constructor].
    + destruct (uniform _); unfold holds; repeat (apply Forall_cons; [cbn [snd]; try amo; try reflexivity|]); try apply Forall_nil.
      * exists [t_ihdr], 1%nat, []. split; [reflexivity|]. split; [cbn; intuition discriminate|intros []].
      * cbn; intuition discriminate.
      * exists [t_ihdr; t_bpcc], 1%nat, []. split; [reflexivity|]. split; [cbn; intuition discriminate|intros []].
      * cbn; intuition discriminate.
Qed.

Let cs := codestream im.
Let e1 := jp_extra1 f.
Let e2 := jp_extra2 f.
Let e3 := jp_extra3 f.
Let sgn : bytes := [x0d; x0a; x87; x0a].
Let ftyp := jp_brand f ++ be 4 0 ++ jp_brand f.
Let bs := [ (t_sig, sgn); (t_ftyp, ftyp) ] ++ map written e1 ++ [ (t_jp2h, List.concat (map box_bytes hb)) ] ++
          map written e2 ++ [ (t_jp2c, cs) ] ++ map written e3.
Lemma bs_eq : map written (jp_boxes f) = bs.
Proof. unfold jp_boxes. rewrite !map_app. reflexivity. Qed.
Lemma extras : Forall foreign e1 /\ Forall foreign e2 /\ Forall foreign e3.
Proof. pose proof WF as (_ & _ & _ & H & _). rewrite !Forall_app in H. exact H. Qed.
Lemma len_head : len (List.concat (map box_bytes hb)) <= 20000.
Proof.
  unfold hb, jp_header. fold im g x y w. rewrite !map_app, !concat_app, !len_app. cbn [map List.concat app box_bytes].
  rewrite !app_nil_r, !len_app, !len_be. change (len t_ihdr) with 4. change (len t_colr) with 4. rewrite x_len. change (len w) with 7.
  pose proof comps_len as HL. destruct (uniform _); cbn [map List.concat box_bytes]; [change (len (@nil byte)) with 0; lia|].
  rewrite app_nil_r, !len_app, len_be. change (len t_bpcc) with 4. rewrite y_len. lia.
Qed.
Lemma file_splits : splits (jp_file f) bs.
Proof.
  rewrite <- bs_eq. apply splits_written; [|apply WF]. unfold jp_boxes. pose proof extras as (H1 & H2 & H3).
  assert (HF : forall e, Forall foreign e -> Forall fits e) by (intros e He; eapply Forall_impl; [|exact He]; intros b Hb; apply Hb).
  rewrite !Forall_app. split; [|split; [|split; [|split; [|split]]]]; try (apply HF; assumption).
  - constructor; [split; reflexivity|]. constructor; [|constructor]. split; [reflexivity|]. rewrite !len_app, len_be.
    destruct fmt_cases as [(_ & ->)|(_ & ->)]; reflexivity.
  - constructor; [|constructor]. split; [reflexivity|]. pose proof len_head. unfold hb in *. lia.
  - constructor; [|constructor]. apply WF.
Qed.

Lemma foreign_types e t : Forall foreign e -> In t (map fst (map written e)) -> ~ In t known_types /\ len t = 4.
Proof.
  intros H HI. rewrite map_map in HI. apply in_map_iff in HI. destruct HI as (((fm & t') & q) & <- & HI). rewrite Forall_forall in H.
  destruct (H _ HI) as (Hf & Hk). split; [exact Hk|]. destruct fm; cbn in Hf |- *; tauto.
Qed.
Lemma foreign_none e t : Forall foreign e -> In t known_types -> boxes_of t (map written e) = [].
Proof.
  intros H Hk. unfold boxes_of. replace (filter _ (map written e)) with (@nil (bytes * bytes)); [reflexivity|]. symmetry.
  induction H as [|((fm & t') & q) e Hf H IH]; [reflexivity|]. cbn [map filter written fst snd]. destruct (bytes_eqb t' t) eqn:EQ; [|exact IH].
  apply bytes_eqb_spec in EQ. subst. elim (proj2 Hf). exact Hk.
Qed.
Lemma boxes_of_app t a b : boxes_of t (a ++ b) = boxes_of t a ++ boxes_of t b.
Proof. unfold boxes_of. now rewrite filter_app, map_app. Qed.
Lemma boxes_known t : In t known_types -> boxes_of t bs =
  boxes_of t [ (t_sig, sgn); (t_ftyp, ftyp); (t_jp2h, List.concat (map box_bytes hb)); (t_jp2c, cs) ].
Proof.
  intros Hk. pose proof extras as (H1 & H2 & H3). unfold bs. rewrite !boxes_of_app, !foreign_none by assumption. cbn [app]. rewrite app_nil_r, <- !boxes_of_app. reflexivity.
Qed.
Lemma foreign_accepted e : Forall foreign e -> Forall (box_ok E fmt) (map written e).
Proof.
  intros H. apply Forall_forall. intros [t q] HI. pose proof (in_map fst _ _ HI) as HT. apply foreign_types in HT; [|exact H]. cbn [fst] in HT.
  destruct HT as (Hk & HL). apply ok_leaf.
  - intros HI'. apply Hk. cbn [In known_types] in *. tauto.
  - unfold need. 
    repeat match goal with |- if bytes_eqb t ?u then _ else _ =>
      replace (bytes_eqb t u) with false by (symmetry; apply bytes_eqb_neq; intros ->; first [discriminate HL|apply Hk; cbn; tauto]) end.
    exact I.
Qed.
Lemma boxes_accepted : Forall (box_ok E fmt) bs.
Proof.
  pose proof extras as (H1 & H2 & H3). unfold bs. rewrite !Forall_app.
  split; [|split; [|split; [|split; [|split]]]]; try (apply foreign_accepted; assumption).
  - constructor; [|constructor; [|constructor]]; (apply ok_leaf; [cbn; intuition discriminate|]).
    + repeat constructor.
    + change (holds (ftyp_tests fmt ftyp)). unfold ftyp. destruct fmt_cases as [(-> & ->)|(-> & ->)];
        (unfold holds, ftyp_tests; cbn [app]; apply Forall_cons; [reflexivity|]; apply Forall_cons; [reflexivity|]; apply Forall_cons; [reflexivity|];
         apply Forall_cons; [exists 0; split; [vm_compute; intuition discriminate|reflexivity]|apply Forall_nil]).
  - constructor; [apply head_accepted|constructor].
  - constructor; [|constructor]. apply ok_cs. apply codestream_accepted; [exact im_is_wf|exact fmt_fits].
Qed.

Lemma file_siz_is : file_siz bs = Some z.
Proof.
  unfold file_siz. rewrite boxes_known by (cbn; tauto). change (boxes_of t_jp2c _) with [cs]. cbn [flat_map].
  pose proof im_is_wf as (_ & _ & _ & _ & _ & _ & _ & Hne & _).
  destruct (header_written (siz_payload im) (main_header im) (List.concat (map pt_bytes (im_parts im)) ++ m_EOC)) as (_ & HSIZ & HZ & _).
  - exact (siz_fits E im im_is_wf).
  - exact (main_fits E im im_is_wf).
  - apply (not_main im). cbn. intuition discriminate.
  - destruct (im_parts im); [now elim Hne|reflexivity].
  - rewrite <- (codestream_eq im) in HSIZ, HZ. fold cs in HSIZ, HZ. rewrite HSIZ, HZ. reflexivity.
Qed.
Lemma file_bpcc_is : file_bpcc [head_split] = match uniform (im_comps im) with Some _ => None | None => Some y end.
Proof. unfold head_split. now destruct (uniform (im_comps im)). Qed.
Lemma hdr_bpc_is h : hdr_bpc h x (file_bpcc [head_split]) = map (fun k => h (co_byte k)) (im_comps im).
Proof.
  unfold hdr_bpc. rewrite x_bpc, x_nc, file_bpcc_is. destruct (uniform (im_comps im)) as [b|] eqn:EU.
  - pose proof (uniform_byte b EU) as Hb. replace (b =? 255) with false by lia. unfold len. rewrite Nat2Z.id.
    pose proof (uniform_spec b EU) as HS. clear EU. revert HS. generalize (im_comps im) as l. clear. intros l. induction l as [|k l IH]; intros HS; [reflexivity|].
    cbn [Datatypes.length repeat map]. f_equal; [f_equal; symmetry; apply HS; now left|]. apply IH. intros k' Hk'. apply HS. now right.
  - cbv iota. change (255 =? 255) with true. cbv iota. pose proof y_eq as HY. rewrite <- (map_map bz h), HY, map_map. reflexivity.
Qed.
Lemma siz_bpc_is h : siz_bpc h z = map (fun k => h (co_byte k)) (im_comps im).
Proof.
  unfold siz_bpc, z. rewrite (siz_csiz (catC E) im im_is_wf). apply (nth_ext _ _ 0 0); unfold zseq.
  - rewrite !map_length, seq_length. unfold len. lia.
  - intros i Hi. rewrite !map_length, seq_length in Hi. unfold len in Hi. rewrite Nat2Z.id in Hi. destruct (siz_comp_wf (catC E) im im_is_wf (Z.of_nat i)) as (k & _ & _ & HN & HV & _); [unfold len; lia|].
    rewrite Nat2Z.id in HN. rewrite map_map. set (v := fun q => h (val (seg_body (siz_payload im)) (38 + 3 * Z.of_nat q) 1)).
    rewrite (nth_indep _ 0 (v 0%nat)) by (rewrite map_length, seq_length; unfold len; lia). rewrite (map_nth v), seq_nth by (unfold len; lia).
    unfold v. rewrite Nat.add_0_l, HV. symmetry. apply nth_error_nth. rewrite nth_error_map, HN. reflexivity.
Qed.

Lemma file_accepted : file_ok E fmt (jp_file f).
Proof.
  exists bs, [head_split]. split; [apply file_splits|]. split; [|split; [apply boxes_accepted|]].
  - unfold headers. rewrite boxes_known by (cbn; tauto). change (boxes_of t_jp2h _) with [List.concat (map box_bytes hb)].
    constructor; [apply head_splits|constructor].
  - pose proof extras as (H1 & H2 & H3). unfold jp2_tests. rewrite file_siz_is.
    replace (file_ihdr [head_split]) with (Some x) by (unfold head_split; now destruct (uniform _)).
    rewrite x_ipr. change (0 =? 1) with false. cbv iota.
    assert (HT : map fst bs = [t_sig; t_ftyp] ++ map fst (map written e1) ++ t_jp2h :: map fst (map written e2) ++ t_jp2c :: map fst (map written e3))
      by (unfold bs; rewrite !map_app; reflexivity).
    rewrite HT, !holds_app. split; [|split; [constructor|split]].
    + unfold holds. repeat (apply Forall_cons; [cbn [snd]; repeat (rewrite in_app_iff; cbn [In]); tauto|]). apply Forall_nil.
    + assert (HA : forall t, In t known_types -> at_most_one t (map fst bs)).
      { intros t Ht. apply bcount_le1. unfold bcount. 
        assert (HE : forall l, filter (bytes_eqb t) (map fst l) = map (fun _ => t) (boxes_of t l)).
        { unfold boxes_of. induction l as [|[t' q] l IH]; [reflexivity|]. cbn [map filter fst]. rewrite (bytes_eqb_sym t' t).
          destruct (bytes_eqb t t') eqn:EQ; [|exact IH]. apply bytes_eqb_spec in EQ. rewrite <- EQ. cbn [map]. f_equal. exact IH. }
        rewrite HE, boxes_known by exact Ht. unfold len. rewrite map_length. 
        generalize (List.concat (map box_bytes hb)) as q1. generalize cs as q2. generalize ftyp as q3. generalize sgn as q4. clear -Ht. intros q4 q3 q2 q1.
        cbn [known_types In] in Ht. repeat destruct Ht as [<-|Ht]; try (vm_compute; discriminate). destruct Ht. }
      rewrite HT in HA. unfold holds. apply Forall_cons; [reflexivity|]. apply Forall_cons; [reflexivity|]. apply Forall_cons.
      * exists ([t_sig; t_ftyp] ++ map fst (map written e1)), (map fst (map written e2) ++ t_jp2c :: map fst (map written e3)). cbn [snd].
        split; [now rewrite <- app_assoc|]. split; [|split; [|split]].
        -- intros HI. apply in_app_or in HI. destruct HI as [HI|HI]; [cbn in HI; intuition discriminate|]. apply (foreign_types _ _ H1) in HI. apply (proj1 HI). cbn; tauto.
        -- intros HI. apply in_app_or in HI. destruct HI as [HI|HI]; [cbn in HI; intuition discriminate|]. apply (foreign_types _ _ H1) in HI. apply (proj1 HI). cbn; tauto.
        -- apply in_or_app. right. now left.
        -- rewrite len_app. pose proof (len_nonneg (map fst (map written e1))). change (len [t_sig; t_ftyp]) with 2. lia.
      * repeat (apply Forall_cons; [apply HA; cbn; tauto|]). apply Forall_nil.
    + unfold agree_tests, holds. rewrite !hdr_bpc_is, !siz_bpc_is, x_height, x_width, x_nc. unfold z.
      rewrite (siz_csiz (catC E) im im_is_wf), (siz_x1 (catC E) im im_is_wf), (siz_y1 (catC E) im im_is_wf), (siz_x0 (catC E) im im_is_wf), (siz_y0 (catC E) im im_is_wf).
      repeat (apply Forall_cons; [reflexivity|]). apply Forall_nil.
Qed.
End File.
