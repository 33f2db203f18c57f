(** * Walking through boxes, marker segments and tile parts: C13, C14, C61 *)

From Coq Require Import ZArith List Bool String Lia.
From Coq Require Import Init.Byte.
From Coq Require Import ZifyBool.
From Verif Require Import Py PyFloat ByteConv ETree BV VBoxes VMarkers VSuper Spec SpecBox SpecMarker
     SpecWalk SpecSuper SpecIPL SpecCS SpecFile SpecTop PBase PEmit PLeaf PLeaf2 PMarker PMarker2 PRel PWalk PSuper PSeg PWrite
     PTile PChain PCS PIPL PGrow Prop_Options PFile PTop SpecValid PValid PEnds PLoop Ex Prop_IPL.
Import ListNotations.
Open Scope string_scope.
Open Scope list_scope.
Open Scope Z_scope.

(** The root of a file, and the boxes with boxes inside. *)
Definition container (t : btype) : Prop := t = BTs "JP2" \/ (exists s, t = BTb s /\ In s supers).

(** ** C61: outcomes do not depend on the recursion limit *)

(** With more levels than an eighth of the size of the file (and three more) there
    is no RecursionError, and more levels change nothing. *)
Theorem C61_file_depth E op fuel d c : (List.length c < fuel)%nat -> (len c + 7) / 8 + 3 <= Z.of_nat d ->
  validate E op fuel d (BTs "JP2") c VNone VNone <> Raise RecursionError /\
  forall d', (d <= d')%nat ->
    validate E op fuel d' (BTs "JP2") c VNone VNone = validate E op fuel d (BTs "JP2") c VNone VNone.
Proof.
  intros HF HD. assert (HN : validate E op fuel d (BTs "JP2") c VNone VNone <> Raise RecursionError)
    by (apply (fine_rec True), root_deep; auto).
  split; [exact HN|]. intros d' Hd. now apply same_fuel.
Qed.
Print Assumptions C61_file_depth.

(** Three levels are enough for a codestream. *)
Theorem C61_codestream_depth E op fuel d t c st cz : boxTypeOf t = "contiguousCodestreamBox" -> (3 <= d)%nat ->
  validate E op fuel d t c st cz <> Raise RecursionError /\
  validate E op fuel d t c st cz = validate E op fuel 3 t c st cz.
Proof.
  intros Ht HD. assert (HN : forall k, validate E op fuel (S (S (S k))) t c st cz <> Raise RecursionError)
    by (intros k; apply (fine_rec True); now apply cs_deep).
  destruct d as [|[|[|d]]]; try lia. split; [apply HN|]. apply same_fuel; [lia|apply HN].
Qed.
Print Assumptions C61_codestream_depth.
(** The bounds are not far off: boxes of 8 bytes inside each other. *)
Fixpoint nested (n : nat) : bytes :=
  match n with O => [] | S k => let x := nested k in box_bytes (Short, t_jp2h, x) end.
Example C61_ex :
  raises (validate E0 (op "jp2" false) 99 5 (BTs "JP2") (nested 5) VNone VNone) = Some RecursionError /\
  (match validate E0 (op "jp2" false) 99 6 (BTs "JP2") (nested 5) VNone VNone with
   | Ok r => r_valid r = VBool false | _ => False end) /\
  raises (validate E0 (op "jp2" false) 99 2 (BTb t_jp2c) ex_cs VNone VNone) = Some RecursionError /\
  (match validate E0 (op "jp2" false) 99 3 (BTb t_jp2c) ex_cs VNone VNone with
   | Ok r => r_valid r = VBool true | _ => False end).
Proof. vm_compute. auto. Qed.

(** ** C13: box level *)

(** Every byte sequence splits into boxes in exactly one way, with no more boxes
    than bytes. *)
Theorem C13_boxes c : exists bs, splits c bs /\ (List.length bs <= List.length c)%nat /\
  forall bs', splits c bs' -> bs' = bs.
Proof.
  destruct (splits_total c) as (bs & HS). exists bs. split; [exact HS|]. split; [now apply splits_len|].
  intros bs' H. exact (splits_unique _ _ H _ HS).
Qed.
Print Assumptions C13_boxes.
(** The walk calls the validator of each of these boxes once, in order, and ends
    if all the calls end. *)
Theorem C13_loop_ends rec fuel f s bs : splits (s_contents f) bs -> (List.length (s_contents f) < fuel)%nat ->
  match mapM (fun b => rec (BTb (fst b)) (snd b) VNone VNone) bs with
  | Ok rs => exists s', boxLoop rec fuel f s = Ok (map fst bs, s') /\ st_chars s' = st_chars s ++ map r_chars rs
  | Raise e => boxLoop rec fuel f s = Raise e
  | Diverge => boxLoop rec fuel f s = Diverge
  end.
Proof.
  intros HS HF. rewrite (boxLoop_spec rec fuel f bs HS) by (pose proof (splits_len _ _ HS); lia).
  change (mapM (fun b => rec (BTb (fst b)) (snd b) VNone VNone) bs) with (mapM (child rec) bs).
  destruct (mapM (child rec) bs) as [rs|e|]; cbn [rbind]; [|reflexivity|reflexivity].
  eexists. split; [reflexivity|]. reflexivity.
Qed.
Print Assumptions C13_loop_ends.
(** So only the analysis of a codestream somewhere inside can run for ever. *)
Theorem C13_terminates E op t c : container t ->
  (forall y, inbox c (t_jp2c, y) -> ends E op (BTb t_jp2c) y VNone VNone) -> ends E op t c VNone VNone.
Proof. exact (container_ends E op t c). Qed.
Print Assumptions C13_terminates.
(** Bytes that are not boxes at all: a length of 0 in the middle, one beyond the
    end, one that is smaller than the header. *)
Example C13_ex :
  splits [x00; x00; x00; x03; x6a; x70; x32; x68; xff]
    [([x6a; x70; x32; x68], []); ([x68; xff], [])] /\
  (match run "jp2" (BTs "JP2") [x00; x00; x00; x03; x6a; x70; x32; x68; xff] VNone with
   | Ok r => r_valid r = VBool false | _ => False end).
Proof.
  split; [|now vm_compute]. eapply splits_step; [reflexivity..|discriminate|reflexivity|].
  eapply splits_step; [reflexivity..|discriminate|reflexivity|]. constructor.
Qed.

(** ** C14: headers of codestreams and of tile parts *)

(** Every byte sequence splits into marker segments in exactly one way, with at
    most one segment for two bytes. *)
Theorem C14_segments stop s : exists l r, after stop s l r /\ (2 * List.length l <= List.length s + 2)%nat /\
  forall l' r', after stop s l' r' -> l' = l /\ r' = r.
Proof.
  destruct (after_total stop s) as (l & r & HA). exists l, r. split; [exact HA|]. split; [now apply (after_len stop s l r)|].
  intros l' r' H. exact (after_unique _ _ _ _ _ _ H HA).
Qed.
Print Assumptions C14_segments.
(** The loops call the validator of each segment that is looked at once, in order,
    and end if all the calls end. *)
Definition loop_like {A} (m : M A) (calls : res (list bv)) : Prop :=
  forall st, match calls with
  | Ok rs => exists a st', m st = Ok (a, st')
  | Raise e => m st = Raise e
  | Diverge => m st = Diverge
  end.
Theorem C14_main_header_loop rec fuel f csiz p l r :
  let c := s_contents f in
  let s := skipn (Z.to_nat p) c in
  0 <= p -> sub s 0 2 <> m_SOT -> after m_SOT s l r -> (List.length c + 2 < fuel)%nat ->
  let n := if seg_length s =? -9999 then -9999 else p + seg_length s + 2 in
  loop_like
    (mainHeaderLoop rec fuel f csiz
      {| mh_marker := sub s 0 2; mh_offset := n; mh_next := n; mh_cap := false; mh_cod := false;
         mh_qcd := false; mh_plm := 0; mh_ppm := 0 |})
    (mapM (seg_child rec csiz) (treated main_markers l)).
Proof.
  cbv zeta. intros Hp HM HA HF st. pose proof (after_len _ _ _ _ HA) as HL. rewrite skipn_length in HL.
  destruct (mainHeader_spec rec fuel f csiz p l r Hp HM HA ltac:(lia)) as (s' & _ & _ & H). cbv zeta in H. rewrite H.
  destruct (mapM _ _); cbn [rbind]; eauto.
Qed.
Print Assumptions C14_main_header_loop.
Theorem C14_tile_header_loop rec fuel f p l r :
  let c := s_contents f in
  let s := skipn (Z.to_nat p) c in
  0 <= p -> sub s 0 2 <> m_SOD -> after m_SOD s l r -> (List.length c + 2 < fuel)%nat ->
  let n := if seg_length s =? -9999 then -9999 else p + seg_length s + 2 in
  loop_like
    (tileHeaderLoop rec fuel f {| th_marker := sub s 0 2; th_offset := n; th_next := n; th_plt := 0; th_ppt := 0 |})
    (mapM (seg_child rec (s_csiz f)) (treated tile_markers l)).
Proof.
  cbv zeta. intros Hp HM HA HF st. pose proof (after_len _ _ _ _ HA) as HL. rewrite skipn_length in HL.
  destruct (tileHeader_spec rec fuel f p l r Hp HM HA ltac:(lia)) as (s' & _ & _ & _ & H). cbv zeta in H. rewrite H.
  destruct (mapM _ _); cbn [rbind]; eauto.
Qed.
Print Assumptions C14_tile_header_loop.
(** The only segments whose analysis can run for ever are PLM and PLT, when the
    packet lengths in them have no end (C16). *)
Theorem C14_segments_end E op n tbl l x : tbl = main_markers \/ tbl = tile_markers -> In x (treated tbl l) ->
  (snd (fst x) = m_PLM -> ipl_ends 4 (snd x)) -> (snd (fst x) = m_PLT -> ipl_ends 3 (snd x)) ->
  ends E op (BTb (snd (fst x))) (snd x) VNone (match fst (fst x) with WithComponents => VInt n | _ => VNone end).
Proof.
  intros HT HI H4 H3. destruct x as ((k & m) & x). cbn [fst snd] in *.
  apply (outcome E op (S (List.length x)) 1).
  - pose proof (in_treated _ _ _ _ _ HI) as (_ & HL). unfold lookup in HL.
    destruct (List.find _ tbl) as [[m' k']|] eqn:EF; [|discriminate].
    apply find_some in EF as (HIn & HE). apply bytes_eqb_spec in HE. cbn in HE. subst m'.
    apply leaf_fine; [exact code_no_rec| |auto|right; split; [lia|]]; destruct HT as [-> | ->]; cbn in HIn;
      repeat (destruct HIn as [HIn|HIn]; [injection HIn as <- <-; cbn; intuition discriminate|]); destruct HIn.
  - intros HD. destruct (seg_ends E op (S (List.length x)) 1 n k m x tbl l HT HI) as (HM & HV).
    { rewrite seg_child_eq. exact HD. }
    destruct (bytes_eqb m m_PLM) eqn:EM.
    + subst m. revert HV. apply (plt_not E op _ 1 m_PLM 4); [now right|now apply H4|lia].
    + subst m. revert HV. apply (plt_not E op _ 1 m_PLT 3); [now left|now apply H3|lia].
Qed.
Print Assumptions C14_segments_end.

