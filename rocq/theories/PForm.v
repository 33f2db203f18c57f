(** * Files and bare codestreams: proofs for C76 *)

From Coq Require Import ZArith List Bool String Lia.
From Coq Require Import ZifyBool.
From Coq Require Import Init.Byte.
From Verif Require Import Py ETree BV Spec SpecBox SpecMarker SpecIPL SpecWalk SpecSuper SpecCS SpecFile SpecValid SpecMake SpecForm.
From Verif Require Import PBase PEmit PWalk PLeaf2 PSuper PSeg PWrite PMake.
Import ListNotations.
Open Scope string_scope.
Open Scope list_scope.
Open Scope Z_scope.

(** ** Marker segments do not know whether they are in a file *)
Ltac pick := unfold need; cbv zeta beta;
  repeat match goal with |- context [bytes_eqb ?a ?b] =>
    let v := eval vm_compute in (bytes_eqb a b) in change (bytes_eqb a b) with v; cbv iota end.
Lemma need_pair E f s n m x : pair f s -> In m (m_SIZ :: map fst main_markers ++ map fst tile_markers) -> need E f n m x <-> need E s n m x.
Proof.
  intros HP HI. cbn [map fst main_markers tile_markers app In] in HI.
  assert (HX : fmt_p1 f = fmt_p1 s /\ fmt_ht f = fmt_ht s) by (now destruct HP). destruct HX as (H1 & H2).
  repeat (destruct HI as [<-|HI]; [pick; unfold siz_tests, cap_tests, cpf_tests, rgn_tests; rewrite ?H1, ?H2; tauto|]). destruct HI.
Qed.
Lemma lookup_in m tbl k : lookup m tbl = Some k -> In m (map fst tbl).
Proof.
  unfold lookup. destruct (List.find _ tbl) as [p|] eqn:EF; [|discriminate]. intros _. apply List.find_some in EF. destruct EF as (HI & HE).
  apply bytes_eqb_spec in HE. subst m. now apply in_map.
Qed.
Lemma segs_pair E f s n tbl l : pair f s -> tbl = main_markers \/ tbl = tile_markers ->
  Forall (seg_ok E f n) (treated tbl l) <-> Forall (seg_ok E s n) (treated tbl l).
Proof.
  intros HP HT. rewrite !Forall_forall.
  assert (HK : forall q, In q (treated tbl l) -> seg_ok E f n q <-> seg_ok E s n q).
  { intros ((k & m) & x) HI. unfold treated in HI. apply in_flat_map in HI. destruct HI as ((m' & x') & _ & HI).
    destruct (lookup m' tbl) as [k'|] eqn:EL; [|destruct HI]. destruct HI as [HI|[]]. injection HI as -> -> ->.
    apply lookup_in in EL. unfold seg_ok. apply need_pair; [exact HP|]. right. apply in_or_app. destruct HT as [->| ->]; tauto. }
  split; intros H q Hq; apply HK; auto.
Qed.
Lemma codestream_pair E f s c : pair f s -> codestream_ok E f c <-> codestream_ok E s c.
Proof.
  intros HP. unfold codestream_ok.
  assert (HT : forall n p, tile_valid E f c n p <-> tile_valid E s c n p).
  { intros n p. unfold tile_valid. split; intros (l & r & H1 & H2 & H3 & H4); exists l, r; (split; [exact H1|]; split; [exact H2|]; split; [|exact H4]);
      apply (segs_pair E f s n tile_markers l HP (or_intror eq_refl)); exact H3. }
  split; intros (l & rest & ps & H1 & H2 & H3 & H4 & H5 & H6 & H7 & H8); exists l, rest, ps; (split; [exact H1|]; split; [exact H2|]; split; [exact H3|]);
    (split; [apply (need_pair E f s None m_SIZ _ HP (or_introl eq_refl)); exact H4|]);
    (split; [apply (segs_pair E f s _ main_markers l HP (or_introl eq_refl)); exact H5|]); (split; [|tauto]);
    (eapply Forall_impl; [|exact H6]; intros p; cbv beta; apply HT).
Qed.

(** ** The tests of SIZ *)
Lemma siz_facts E fmt c : codestream_ok E fmt c -> let y := cs_siz c in
  sub c 0 2 = m_SOC /\ sub (cs_second c) 0 2 = m_SIZ /\ holds (siz_tests fmt y).
Proof.
  intros (l & rest & ps & _ & _ & H3 & H4 & _) y. inversion H3 as [|? ? HA HB]; subst. inversion HB as [|? ? HC _]; subst. cbn [snd] in *.
  split; [exact HA|]. split; [exact HC|]. exact (proj2 H4).
Qed.
Lemma siz_fields fmt y : holds (siz_tests fmt y) ->
  1 <= val y 4 4 <= 4294967295 /\ 1 <= val y 8 4 <= 4294967295 /\ 0 <= val y 12 4 /\ 0 <= val y 16 4 /\ 1 <= val y 36 2 <= 16384 /\
  (fmt_p1 fmt = true -> bitsk (val y 2 2) 12 4 = 0) /\ (fmt_p1 fmt = false -> fmt_ht fmt = true -> bitk (val y 2 2) 14 = 1) /\
  (forall i, 0 <= i < val y 36 2 -> cdepth (val y (38 + 3 * i) 1) <= 38).
Proof.
  unfold siz_tests. rewrite !holds_app. intros (_ & HR & HF & HL). unfold btw in *.
  repeat match goal with H : holds (_ :: _) |- _ => inversion H; subst; clear H | H : Forall snd (_ :: _) |- _ => inversion H; subst; clear H end. cbn [snd] in *.
  split; [assumption|]. split; [assumption|]. split; [lia|]. split; [lia|]. split; [assumption|]. split; [|split].
  - intros E1. rewrite E1 in HR. now inversion HR.
  - intros E1 E2. rewrite E1, E2 in HR. now inversion HR.
  - intros i Hi. unfold holds in HL. rewrite Forall_forall in HL.
    apply (HL ("ssizIsValid", cdepth (val y (38 + 3 * i) 1) <= 38)). apply in_flat_map. exists i. split; [|now left].
    unfold zseq. apply in_map_iff. exists (Z.to_nat i). split; [lia|]. apply in_seq. lia.
Qed.

(** ** The file around a codestream *)
Lemma rest_end (l : list (form * bytes * bytes)) b : Forall (fun q => fst (fst q) <> Rest) l -> rest_last (l ++ [b]).
Proof.
  intros H pre t x post HE. destruct post as [|q post] using rev_ind; [reflexivity|]. exfalso.
  rewrite app_comm_cons, app_assoc in HE. apply app_inj_tail in HE. destruct HE as (-> & _). apply Forall_elt in H. now elim H.
Qed.
Ltac amo := apply bcount_le1; vm_compute; discriminate.
Section Wrap.
Variables (E : env) (fmt : string) (colour : Z) (c : bytes).
Hypothesis HF : In fmt ["jp2"; "jph"].
Hypothesis HC : In colour [16; 17; 18].
Hypothesis HK : codestream_ok E fmt c.
Hypothesis HA : has_area c.
Let y := cs_siz c.
Let n := val y 36 2.
Let ih := fields [ (4%nat, val y 8 4 - val y 16 4); (4%nat, val y 4 4 - val y 12 4); (2%nat, val y 36 2);
                   (1%nat, 255); (1%nat, 7); (1%nat, 0); (1%nat, 0) ].
Let bp := fields (map (fun i => (1%nat, val y (38 + 3 * i) 1)) (zseq (val y 36 2))).
Let co := fields [ (1%nat, 1); (1%nat, 0); (1%nat, 0); (4%nat, colour) ].
Let hb := wrap_header colour c.
Let brand : bytes := if String.eqb fmt "jph" then [x6a; x70; x68; x20] else [x6a; x70; x32; x20].

Lemma y_holds : holds (siz_tests fmt y).
Proof. exact (proj2 (proj2 (siz_facts E fmt c HK))). Qed.
Lemma y_facts : 1 <= val y 4 4 <= 4294967295 /\ 1 <= val y 8 4 <= 4294967295 /\ 0 <= val y 12 4 /\ 0 <= val y 16 4 /\ 1 <= n <= 16384 /\
  val y 12 4 < val y 4 4 /\ val y 16 4 < val y 8 4.
Proof. pose proof (siz_fields fmt y y_holds) as (H1 & H2 & H3 & H4 & H5 & _). destruct HA as (H6 & H7). fold y in H6, H7. unfold n. tauto. Qed.
Ltac hdr := pose proof y_facts as (? & ? & ? & ? & ? & ? & ?); unfold ih; rewrite ?fields_cons, ?fields_nil;
  repeat (rewrite val_skip by lia; cbn [Z.of_nat Pos.of_succ_nat Pos.succ Z.sub Z.add Z.opp Z.pos_sub Pos.pred_double]);
  first [apply val_here; [reflexivity|unfold n in *; lia]|idtac].
Lemma ih_len : len ih = 14. Proof. reflexivity. Qed.
Lemma ih_height : val ih 0 4 = val y 8 4 - val y 16 4. Proof. hdr. Qed.
Lemma ih_width : val ih 4 4 = val y 4 4 - val y 12 4. Proof. hdr. Qed.
Lemma ih_nc : val ih 8 2 = n. Proof. hdr. Qed.
Lemma ih_bpc : val ih 10 1 = 255. Proof. hdr. Qed.
Lemma ih_c : val ih 11 1 = 7. Proof. hdr. Qed.
Lemma ih_unk : val ih 12 1 = 0. Proof. hdr. Qed.
Lemma ih_ipr : val ih 13 1 = 0. Proof. hdr. Qed.
Lemma comp_byte i : 0 <= i < n -> 0 <= val y (38 + 3 * i) 1 < 256 /\ cdepth (val y (38 + 3 * i) 1) <= 38.
Proof.
  intros Hi. pose proof (siz_fields fmt y y_holds) as (_ & _ & _ & _ & _ & _ & _ & HD). specialize (HD i Hi). split; [|exact HD].
  destruct (PEmit.val_range y (38 + 3 * i) 1) as [HV|HV]; try lia. rewrite HV in HD. exfalso. vm_compute in HD. now apply HD.
Qed.
Lemma bp_bytes : map bz bp = map (fun i => val y (38 + 3 * i) 1) (zseq n).
Proof.
  unfold bp. fold n. rewrite fields_map. cbn [fst snd].
  assert (HZ : forall i, In i (zseq n) -> 0 <= i < n).
  { intros i Hi. unfold zseq in Hi. apply in_map_iff in Hi. destruct Hi as (k & <- & Hk). apply in_seq in Hk. lia. }
  revert HZ. generalize (zseq n) as l. intros l HZ. induction l as [|i l IH]; [reflexivity|].
  cbn [flat_map map]. rewrite map_app, IH by (intros j Hj; apply HZ; now right). change (?a :: ?b) with ([a] ++ b). f_equal.
  destruct (comp_byte i) as (HB & _); [apply HZ; now left|].
  unfold be. cbn [rev seq app map Z.of_nat]. f_equal. rewrite Z.pow_0_r, Z.div_1_r, (Z.mod_small _ 256) by lia. apply bz_byte_of_Z. lia.
Qed.
Lemma bp_len : len bp = n.
Proof.
  pose proof y_facts as (_ & _ & _ & _ & ? & _). unfold len. rewrite <- (map_length bz), bp_bytes, map_length. unfold zseq. rewrite map_length, seq_length. lia.
Qed.
Lemma head_len : len (List.concat (map box_bytes hb)) = 45 + n.
Proof.
  unfold hb, wrap_header. cbv zeta. fold y. fold ih bp co. cbn [map List.concat box_bytes]. rewrite !len_app, !len_be, ih_len, bp_len.
  change (len t_ihdr) with 4. change (len t_bpcc) with 4. change (len t_colr) with 4. change (len co) with 7. change (len (@nil byte)) with 0. lia.
Qed.
Let hs : list (bytes * bytes) := [ (t_ihdr, ih); (t_bpcc, bp); (t_colr, co) ].
Lemma head_splits : splits (List.concat (map box_bytes hb)) hs.
Proof.
  change hs with (map written hb). pose proof y_facts as (_ & _ & _ & _ & ? & _). apply splits_written.
  - repeat constructor. unfold fits. pose proof bp_len as HL. unfold bp in HL. fold y. rewrite HL. lia.
  - apply no_rest. repeat constructor; discriminate.
Qed.
Lemma co_ok : holds (colr_tests fmt co).
Proof.
  assert (H0 : val co 0 1 = 1) by reflexivity. assert (H1 : val co 1 1 = 0) by reflexivity. assert (H2 : val co 2 1 = 0) by reflexivity.
  assert (H3 : val co 3 4 = colour) by (unfold co; rewrite !fields_cons; repeat (rewrite val_skip by lia; cbn [Z.of_nat Pos.of_succ_nat Pos.succ Z.sub Z.add Z.opp Z.pos_sub Pos.pred_double]);
    apply val_here; [reflexivity|cbn [In] in HC; lia]).
  unfold colr_tests. rewrite H0. change (1 =? 1) with true. cbv iota. unfold colr_enum_tests, colr_common, colr_enum. rewrite H0, H1, H2, H3. change (len co =? 7) with true. cbv iota.
  rewrite !holds_app. split; [split|].
  - cbn [In] in HF. destruct HF as [<-|[<-|[]]]; [change (fmt_is "jp2" "jp2") with true|change (fmt_is "jph" "jp2") with false; change (fmt_is "jph" "jph") with true]; cbv iota; (constructor; [now left|constructor]).
  - repeat constructor.
  - constructor; [exact HC|constructor].
Qed.
Lemma head_ok : box_ok E fmt (t_jp2h, List.concat (map box_bytes hb)).
Proof.
  pose proof y_facts as (? & ? & ? & ? & ? & ? & ?).
  apply (ok_jp2h _ _ _ hs); [apply head_splits| |].
  - repeat (apply Forall_cons; [apply ok_leaf; [cbn; intuition discriminate|]|]); try apply Forall_nil.
    + change (holds (ihdr_tests ih)). unfold ihdr_tests. rewrite ih_height, ih_width, ih_nc, ih_bpc, ih_c, ih_unk, ih_ipr.
      unfold holds. repeat (apply Forall_cons; [cbn [snd]; try reflexivity; lia|]). apply Forall_nil.
    + change (holds (bpcc_tests bp)). unfold bpcc_tests, holds. apply Forall_forall. intros q Hq. apply in_map_iff in Hq. destruct Hq as (b & <- & Hb).
      cbn [snd]. apply (in_map bz) in Hb. rewrite bp_bytes in Hb. apply in_map_iff in Hb. destruct Hb as (i & <- & Hi).
      apply comp_byte. unfold zseq in Hi. apply in_map_iff in Hi. destruct Hi as (k & <- & Hk). apply in_seq in Hk. lia.
    + change (holds (colr_tests fmt co)). exact co_ok.
  - unfold jp2h_tests; cbv zeta. change (first_of t_ihdr hs) with (Some ih). change (map fst hs) with [t_ihdr; t_bpcc; t_colr]. cbv iota.
    rewrite ih_bpc, ih_unk, !holds_app. split; [|split; [|split]].
    + constructor; [now left|constructor].
    + clear -HF. cbn [In] in HF. destruct HF as [<-|[<-|[]]]; (constructor; [right; right; now left|constructor]).
    + constructor; [right; now left|constructor].
    + unfold holds; repeat (apply Forall_cons; [cbn [snd]; try amo; try reflexivity|]); try apply Forall_nil.
      * exists [t_ihdr; t_bpcc], 1%nat, []. split; [reflexivity|]. split; [cbn; intuition discriminate|intros []].
      * cbn; intuition discriminate.
Qed.
Let bs : list (bytes * bytes) :=
  [ (t_sig, [x0d; x0a; x87; x0a]); (t_ftyp, brand ++ be 4 0 ++ brand); (t_jp2h, List.concat (map box_bytes hb)); (t_jp2c, c) ].
Lemma wrap_splits : splits (wrap fmt colour c) bs.
Proof.
  change bs with (map written (wrap_boxes brand colour c)). unfold wrap. fold brand. pose proof y_facts as (_ & _ & _ & _ & ? & _). apply splits_written.
  - pose proof head_len as HL. unfold hb in HL. unfold wrap_boxes. repeat (apply Forall_cons; [|]); try apply Forall_nil; unfold fits.
    + split; reflexivity.
    + split; [reflexivity|]. unfold brand. destruct (String.eqb fmt "jph"); reflexivity.
    + split; [reflexivity|]. rewrite HL. lia.
    + reflexivity.
  - apply (rest_end [_; _; _]). repeat constructor; discriminate.
Qed.
Lemma wrap_accepted : file_ok E fmt (wrap fmt colour c).
Proof.
  exists bs, [hs]. split; [apply wrap_splits|]. split; [|split].
  - unfold headers. change (boxes_of t_jp2h bs) with [List.concat (map box_bytes hb)]. constructor; [apply head_splits|constructor].
  - unfold bs. constructor; [|constructor; [|constructor; [|constructor; [|constructor]]]].
    + apply ok_leaf; [cbn; intuition discriminate|]. repeat constructor.
    + apply ok_leaf; [cbn; intuition discriminate|]. change (holds (ftyp_tests fmt (brand ++ be 4 0 ++ brand))). unfold brand. clear -HF. cbn [In] in HF.
      destruct HF as [<-|[<-|[]]];
        (unfold holds, ftyp_tests; cbn [app]; apply Forall_cons; [reflexivity|]; apply Forall_cons; [reflexivity|]; apply Forall_cons; [reflexivity|];
         apply Forall_cons; [exists 0; split; [vm_compute; intuition discriminate|reflexivity]|apply Forall_nil]).
    + exact head_ok.
    + now apply ok_cs.
  - unfold jp2_tests; cbv zeta. change (file_ihdr [hs]) with (Some ih). change (file_bpcc [hs]) with (Some bp). change (map fst bs) with [t_sig; t_ftyp; t_jp2h; t_jp2c].
    replace (file_siz bs) with (Some y).
    2:{ unfold file_siz. change (boxes_of t_jp2c bs) with [c]. cbn [flat_map]. rewrite (proj1 (proj2 (siz_facts E fmt c HK))). reflexivity. }
    rewrite ih_ipr. rewrite !holds_app. split; [|split; [constructor|split]].
    + unfold holds. repeat (apply Forall_cons; [cbn; tauto|]). apply Forall_nil.
    + unfold holds. repeat (apply Forall_cons; [cbn [snd]; try amo; try reflexivity|]); try apply Forall_nil.
      exists [t_sig; t_ftyp], [t_jp2c]. split; [reflexivity|]. repeat split; try (cbn; intuition discriminate). 
    + unfold agree_tests, holds, hdr_bpc, siz_bpc. rewrite ih_height, ih_width, ih_nc, ih_bpc. change (255 =? 255) with true. cbv iota. fold n.
      rewrite <- !(map_map bz), bp_bytes, !map_map. repeat (apply Forall_cons; [reflexivity|]). apply Forall_nil.
Qed.
End Wrap.

Lemma wrap_length E fmt colour c : codestream_ok E fmt c -> len (wrap fmt colour c) <= len c + 20000.
Proof.
  intros HK. pose proof (siz_fields fmt _ (proj2 (proj2 (siz_facts E fmt c HK)))) as (_ & _ & _ & _ & Hn & _).
  unfold wrap, wrap_boxes, wrap_header. cbv zeta. cbn [map List.concat box_bytes]. rewrite !len_app, !len_be.
  assert (HB : forall l, len (fields (map (fun i => (1%nat, val (cs_siz c) (38 + 3 * i) 1)) l)) = len l).
  { intros l. rewrite (len_fields_uniform _ 1%nat) by reflexivity. lia. }
  rewrite !HB. assert (HZ : len (zseq (val (cs_siz c) 36 2)) = val (cs_siz c) 36 2) by (unfold len, zseq; rewrite map_length, seq_length; lia).
  rewrite HZ. unfold fields. cbn [flat_map fst snd app]. rewrite !len_app, !len_be.
  destruct (String.eqb fmt "jph"); cbn [len Datatypes.length]; change (len t_sig) with 4; change (len t_ftyp) with 4; change (len t_jp2h) with 4; change (len t_jp2c) with 4;
    change (len t_ihdr) with 4; change (len t_bpcc) with 4; change (len t_colr) with 4; change (len (@nil byte)) with 0;
    repeat match goal with |- context [len (?a :: ?b)] => let v := eval vm_compute in (len (a :: b)) in change (len (a :: b)) with v end; lia.
Qed.

(** ** Every codestream in a file, and the first one *)
Lemma box_cs E fmt x : box_ok E fmt (t_jp2c, x) -> codestream_ok E fmt x.
Proof. intros H. inversion H; subst; [|assumption]. match goal with H : ~ In _ _ |- _ => elim H; cbn; tauto end. Qed.
Lemma boxes_of_in t x bs : In x (boxes_of t bs) <-> In (t, x) bs.
Proof.
  unfold boxes_of. rewrite in_map_iff. split.
  - intros ((t' & x') & <- & H). apply filter_In in H. destruct H as (H & HE). cbn [fst snd] in *. apply bytes_eqb_spec in HE. now subst.
  - intros H. exists (t, x). split; [reflexivity|]. apply filter_In. split; [exact H|]. cbn [fst]. now apply bytes_eqb_spec.
Qed.
Lemma file_cs E fmt f bs x : file_ok E fmt f -> splits f bs -> In x (boxes_of t_jp2c bs) -> codestream_ok E fmt x.
Proof.
  intros (bs' & hs & HS & _ & HB & _) HS' HI. rewrite (splits_unique _ _ HS' _ HS) in HI. apply boxes_of_in in HI. rewrite Forall_forall in HB. now apply box_cs, HB.
Qed.
Lemma first_area E fmt f bs x : file_ok E fmt f -> splits f bs -> hd_error (boxes_of t_jp2c bs) = Some x -> has_area x.
Proof.
  intros HF HS HX. assert (HK : codestream_ok E fmt x).
  { apply (file_cs E fmt f bs x HF HS). destruct (boxes_of t_jp2c bs) as [|x' r]; [discriminate|]. injection HX as ->. now left. }
  destruct HF as (bs' & hs & HS' & HH & HB & HT). rewrite <- (splits_unique _ _ HS _ HS') in *. clear bs' HS'.
  assert (HZ : file_siz bs = Some (cs_siz x)).
  { unfold file_siz. destruct (boxes_of t_jp2c bs) as [|x' r]; [discriminate|]. injection HX as ->. cbn [flat_map]. now rewrite (proj1 (proj2 (siz_facts E fmt x HK))). }
  (* the header boxes *)
  unfold jp2_tests in HT. cbv zeta in HT. rewrite !holds_app in HT. destruct HT as (HT1 & _ & _ & HT2).
  assert (HJ : exists b, In b (boxes_of t_jp2h bs)).
  { inversion HT1 as [|? ? _ HT1']; subst. inversion HT1' as [|? ? _ HT1'']; subst. inversion HT1'' as [|? ? HI _]; subst. cbn [snd] in HI.
    apply in_map_iff in HI. destruct HI as ((t & b) & Ht & HI). cbn [fst] in Ht. subst t. exists b. now apply boxes_of_in. }
  assert (HI : exists i, file_ihdr hs = Some i /\ need E fmt None t_ihdr i).
  { unfold headers in HH.
    assert (HO : Forall (fun b => box_ok E fmt (t_jp2h, b)) (boxes_of t_jp2h bs)).
    { apply Forall_forall. intros b Hb. apply boxes_of_in in Hb. rewrite Forall_forall in HB. exact (HB _ Hb). }
    destruct HJ as (b & Hb). destruct HH as [|b0 h0 r hs' H0 _]; [destruct Hb|]. inversion HO as [|? ? HO1 _]; subst.
    inversion HO1 as [? ? HN|? hb Hsp HFa Hho| | |]; subst; [elim HN; cbn; tauto|]. rewrite (splits_unique _ _ H0 _ Hsp). 
    unfold jp2h_tests in Hho. cbv zeta in Hho. rewrite holds_app in Hho. destruct Hho as (Hh & _). inversion Hh as [|? ? Hin _]; subst. cbn [snd] in Hin.
    apply in_map_iff in Hin. destruct Hin as ((t & q) & Ht & Hin). cbn [fst] in Ht. subst t. apply boxes_of_in in Hin.
    unfold file_ihdr. cbn [flat_map]. destruct (boxes_of t_ihdr hb) as [|i r'] eqn:EI; [destruct Hin|]. exists i. split; [reflexivity|].
    assert (Hi : In (t_ihdr, i) hb) by (apply boxes_of_in; rewrite EI; now left). rewrite Forall_forall in HFa. specialize (HFa _ Hi).
    inversion HFa; subst. assumption. }
  destruct HI as (i & HI & HN). rewrite HI, HZ in HT2. change (holds (ihdr_tests i)) in HN.
  inversion HN as [|? ? _ HN1]; subst. inversion HN1 as [|? ? HN2 HN3]; subst. inversion HN3 as [|? ? HN4 _]; subst.
  inversion HT2 as [|? ? HA HT3]; subst. inversion HT3 as [|? ? HA' _]; subst. cbn [snd] in *. split; lia.
Qed.

(** ** At most one format *)
Lemma rsiz_one v : bitsk v 12 4 = 0 -> bitk v 14 = 1 -> False.
Proof.
  unfold bitsk, bitk. change (2 ^ 12) with 4096. change (2 ^ 4) with 16. change (2 ^ 14) with 16384. intros H1 H2.
  replace (v / 16384) with (v / 4096 / 4) in H2 by (rewrite Z.div_div by lia; reflexivity).
  pose proof (Z.div_mod (v / 4096) 16) as HD. rewrite H1 in HD. specialize (HD ltac:(lia)). replace (v / 4096) with ((4 * (v / 4096 / 16)) * 4) in H2 by lia.
  rewrite Z.div_mul in H2 by lia. replace (4 * (v / 4096 / 16)) with ((2 * (v / 4096 / 16)) * 2) in H2 by lia. rewrite Z.mod_mul in H2; lia.
Qed.
Lemma cs_one E f s c : fmt_p1 f = true -> fmt_ht s = true -> fmt_p1 s = false -> codestream_ok E f c -> codestream_ok E s c -> False.
Proof.
  intros H1 H2 H3 HA HB. pose proof (siz_fields f _ (proj2 (proj2 (siz_facts E f c HA)))) as (_ & _ & _ & _ & _ & HX & _).
  pose proof (siz_fields s _ (proj2 (proj2 (siz_facts E s c HB)))) as (_ & _ & _ & _ & _ & _ & HY & _).
  exact (rsiz_one _ (HX H1) (HY H3 H2)).
Qed.
Lemma file_one E c : file_ok E "jp2" c -> file_ok E "jph" c -> False.
Proof.
  intros HA HB. destruct (splits_total c) as (bs & HS).
  assert (HI : In t_jp2c (map fst bs)).
  { destruct HA as (bs' & hs & HS' & _ & _ & HT). rewrite <- (splits_unique _ _ HS _ HS') in *. unfold jp2_tests in HT. cbv zeta in HT. rewrite !holds_app in HT. destruct HT as (HT1 & _).
    inversion HT1 as [|? ? _ H1]; subst. inversion H1 as [|? ? _ H2]; subst. inversion H2 as [|? ? _ H3]; subst. now inversion H3; subst. }
  apply in_map_iff in HI. destruct HI as ((t & x) & Ht & HI). cbn [fst] in Ht. subst t. apply boxes_of_in in HI.
  exact (cs_one E "jp2" "jph" x eq_refl eq_refl eq_refl (file_cs _ _ _ _ _ HA HS HI) (file_cs _ _ _ _ _ HB HS HI)).
Qed.
Lemma leaf_need E fmt t x : box_ok E fmt (t, x) -> ~ In t [t_jp2h; t_res; t_uinf; t_jp2c] -> need E fmt None t x.
Proof. intros H HN. inversion H; subst; [assumption|elim HN; cbn; tauto..]. Qed.
Lemma not_both E f s c : file_ok E f c -> codestream_ok E s c -> False.
Proof.
  intros HA HB. destruct (siz_facts E s c HB) as (HO & _). destruct HA as (bs & hs & HS & _ & HK & HT).
  unfold jp2_tests in HT. cbv zeta in HT. rewrite !holds_app in HT. destruct HT as (_ & _ & HT & _).
  inversion HT as [|? ? H1 HT']; subst. inversion HT' as [|? ? H2 _]; subst. cbn [snd] in *.
  destruct c as [|b0 [|b1 c]]; [discriminate HO|discriminate HO|]. change (sub (b0 :: b1 :: c) 0 2) with [b0; b1] in HO. injection HO as -> ->.
  inversion HS as [|? _ HL|? _ HL|? bs' _ HL HR]; subst; try discriminate H2.
  inversion HK as [|? ? HK1 _]; subst. cbn [map nth_error fst] in H1. injection H1 as H1. rewrite H1 in HK1.
  assert (HN := leaf_need E f t_sig _ HK1 ltac:(cbn; intuition discriminate)).
  change (holds (sig_tests (sub (xff :: x4f :: c) (box_header (xff :: x4f :: c)) (box_length (xff :: x4f :: c) - box_header (xff :: x4f :: c))))) in HN.
  inversion HN as [|? ? HN1 _]; subst. cbn [snd] in HN1. clear HN HK HK1 HT HT' HB H1.
  assert (HV : val (xff :: x4f :: c) 0 4 = -9999 \/ 65000 < val (xff :: x4f :: c) 0 4).
  { unfold val. destruct (0 + 4 <=? len (xff :: x4f :: c)) eqn:EL; [|now left]. right. destruct c as [|b2 [|b3 c]]; [discriminate EL..|].
    change (Z.to_nat 4) with 4%nat. change (Z.to_nat 0) with 0%nat. cbn [skipn firstn]. cbn [beval]. change (len [x4f; b2; b3]) with 3. change (len [b2; b3]) with 2. change (len [b3]) with 1. change (len (@nil byte)) with 0.
    pose proof (bz_range b2). pose proof (bz_range b3). change (bz xff) with 255. change (bz x4f) with 79. lia. }
  set (s0 := xff :: x4f :: c) in *. unfold box_length, box_header in HL, HN1, HR. destruct (val s0 0 4 =? 1) eqn:EO; [lia|].
  destruct HV as [HV|HV]; [lia|]. unfold sub in HN1. unfold len in HN1. rewrite firstn_length, skipn_length in HN1.
  rewrite skipn_all2 in HR by lia. inversion HR; subst; [discriminate H2|now match goal with H : [] <> [] |- _ => elim H end..].
Qed.
