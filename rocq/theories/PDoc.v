(** * Whole documents, and the runs that write them *)

From Coq Require Import ZArith List Bool String Lia.
From Coq Require Import ZifyBool.
From Verif Require Import Py ETree BV Main Serial PBase PHuman SpecXml PXml PSerial PPretty.
Import ListNotations.
Open Scope string_scope.
Open Scope list_scope.
Open Scope Z_scope.

Definition default_ns : list (pystr * pystr) := [([], NS_STRING_2)].
Definition document (k : list dnode) : dnode :=
  DElem (braced NS_STRING_2 (pys "jpylyzer")) [(braced XSI_NS_STRING (pys "schemaLocation"), LOC_SCHEMA_STRING_2)] k.

Lemma outermost_default : outermost default_ns.
Proof. intros p u. cbn. destruct p; [reflexivity|discriminate]. Qed.
Definition root_scope : list (pystr * pystr) := decls doc_attrs ++ [].
Lemma expand_root k k' : all_some (map (expand root_scope) k) = Some k' ->
  expand [] (DElem (pys "jpylyzer") doc_attrs k) = Some (document k').
Proof.
  intros H. cbn [expand]. fold root_scope. rewrite H.
  assert (H1 : resolve root_scope true (pys "jpylyzer") = Some (braced NS_STRING_2 (pys "jpylyzer"))) by reflexivity.
  assert (H2 : all_some (map (fun p => match resolve root_scope false (fst p) with Some m => Some (m, snd p) | None => None end) (others doc_attrs)) =
    Some [(braced XSI_NS_STRING (pys "schemaLocation"), LOC_SCHEMA_STRING_2)]) by reflexivity.
  rewrite H1, H2. reflexivity.
Qed.
Lemma all_some_map {A B} (g : A -> option B) l l' : Forall2 (fun x y => g x = Some y) l l' -> all_some (map g l) = Some l'.
Proof. induction 1 as [|x y l l' H HL IH]; [reflexivity|]. cbn [map all_some]. now rewrite H, IH. Qed.
Lemma glue_none l : glue (l ++ [DText []]) = glue l.
Proof. induction l as [|[s|n a k] l IH]; [reflexivity| |]; cbn [app glue]; now rewrite IH. Qed.
Lemma glue_norm xs : Forall (fun x => norm x = x /\ is_elem x = true) xs -> glue (map norm xs) = xs.
Proof. induction 1 as [|x xs [H1 H2] HX IH]; [reflexivity|]. cbn [map]. rewrite H1. destruct x; [discriminate|]. cbn [glue]. now rewrite IH. Qed.

Section Doc.
Variable dom : pystr -> res dnode.
Definition stands (strict : bool) (e : elt) (y : dnode) : Prop :=
  writable strict e /\ plain_root e /\ means default_ns e = Some y.

Lemma doc_plain b es ys : Forall2 (stands b) es ys ->
  exists ss, Forall2 (fun e s => writeElement dom true e = Ok s) es ss /\
    parse (xmlHead ++ List.concat ss ++ xmlTail) = Some (document (DText [10] :: ys)).
Proof.
  intros H. set (out1 := out_ f_cdata f_attrib (pys " />")).
  assert (HX : exists xs Ss, Forall2 (fun e S => writeElement dom true e = Ok (60 :: S ++ [62])) es Ss /\ Forall2 (fun S x => eol (60 :: S ++ [62]) = out1 x) Ss xs /\
    Forall (good f_cdata f_attrib) xs /\
    Forall (fun x => norm x = x /\ is_elem x = true) xs /\ Forall2 (fun x y => expand root_scope x = Some y) xs ys).
  { induction H as [|e y es ys (HW & HR & HM) HL (xs & Ss & I1 & I0 & I2 & I3 & I4)]; [exists [], []; repeat split; constructor|].
    destruct (write_plain dom e default_ns y outermost_default HR HM b HW) as (x & S & X1 & X0 & X2 & X3 & X4 & X5).
    exists (x :: xs), (S :: Ss). repeat split; constructor; auto. }
  destruct HX as (xs & Ss & X1 & X0 & X2 & X3 & X4). exists (map (fun S => 60 :: S ++ [62]) Ss). split.
  { clear -X1. induction X1; cbn [map]; constructor; auto. }
  assert (HE : eol (xmlHead ++ List.concat (map (fun S => 60 :: S ++ [62]) Ss) ++ xmlTail) = xmlHead ++ List.concat (map out1 xs) ++ xmlTail).
  { rewrite eol_pre by (intros HI; assert (HB : existsb (Z.eqb 13) xmlHead = true) by (apply existsb_exists; exists 13; auto); discriminate HB).
    f_equal. clear -X0. induction X0 as [|S x Ss xs HS HF IH]; [reflexivity|]. cbn [map List.concat]. rewrite <- !app_assoc, eol_app, HS, IH; [reflexivity|].
    destruct Ss; discriminate. }
  unfold parse. unfold out1 in HE. rewrite (doc_read f_cdata f_attrib (pys " />") xs _ HE); [|exact close1|reflexivity|exact X2].
  cbn [map norm glue]. rewrite glue_norm by exact X3. apply expand_root.
  assert (HA : addtext [10] xs = DText [10] :: xs).
  { destruct X3 as [|x xs [_ H2] _]; [reflexivity|]. destruct x; [discriminate|reflexivity]. }
  rewrite HA. apply all_some_map. constructor; [reflexivity|exact X4].
Qed.

Lemma doc_pretty es ys : dom_ok dom -> es <> [] -> Forall2 (stands true) es ys ->
  exists ss z, Forall2 (fun e s => writeElement dom false e = Ok s) es ss /\
    parse (xmlHead ++ List.concat ss ++ xmlTail) = Some z /\ trim z = document (map trim ys).
Proof.
  intros HD HN H.
  assert (HX : exists xs, Forall2 (fun e x => writeElement dom false e = Ok (List.concat (map out (padded [] x)))) es xs /\
    Forall (good f_data f_data) (flat_map (padded []) xs) /\
    Forall (fun x => is_elem x = true /\ trim (norm (body [] x)) = trim x) xs /\ Forall2 (fun x y => expand root_scope x = Some y) xs ys).
  { clear HN. induction H as [|e y es ys (HW & HR & HM) HL (xs & I1 & I2 & I3 & I4)]; [exists []; repeat split; constructor|].
    destruct (write_pretty dom e default_ns y outermost_default HR HM HD HW) as (x & X1 & X2 & X3 & X4 & X5).
    exists (x :: xs). cbn [flat_map]. repeat split; [constructor; auto|apply Forall_app; auto|constructor; auto|constructor; auto]. }
  destruct HX as (xs & X1 & X2 & X3 & X4).
  set (K := glue (map norm (DText [10] :: flat_map (padded []) xs))).
  assert (HK : trims K = map trim xs /\ existsb is_elem K = true).
  { destruct (glue_elems [] [] xs eq_refl eq_refl X3) as (G1 & G2 & G3). rewrite map_app in G1, G2, G3. cbn [map norm] in G1, G2, G3.
    rewrite glue_none in G1, G2, G3. unfold K. cbn [map norm glue]. split.
    - rewrite trims_add by exact G1. exact G2.
    - rewrite elem_add, G3. destruct X1; [contradiction|reflexivity]. }
  destruct HK as [HK1 HK2].
  assert (HT : expand [] (trim (DElem (pys "jpylyzer") doc_attrs K)) = Some (document (map trim ys))).
  { rewrite trim_elem, HK2, HK1. apply expand_root. clear -X4. apply all_some_map.
    induction X4 as [|x y xs ys HX HL IH]; cbn [map]; constructor; [|exact IH]. rewrite expand_trim, HX. reflexivity. }
  rewrite expand_trim in HT. destruct (expand [] (DElem (pys "jpylyzer") doc_attrs K)) as [z|] eqn:EZ; [|discriminate]. injection HT as HT.
  exists (map (fun x => List.concat (map out (padded [] x))) xs), z. split; [|split; [|exact HT]].
  { clear -X1. induction X1; cbn [map]; constructor; auto. }
  unfold parse. rewrite concat_flat. rewrite (doc_read f_data f_data (pys "/>") (flat_map (padded []) xs)); [exact EZ| |exact close2|reflexivity|exact X2].
  apply eol_id, lf_all. rewrite !forallb_app. change (forallb lf_char xmlHead) with true. change (forallb lf_char xmlTail) with true. rewrite andb_true_r. cbn [andb].
  clear -X2. induction X2 as [|x l HX HL IH]; [reflexivity|]. cbn [map List.concat]. rewrite forallb_app, IH, andb_true_r. apply chars_out; [reflexivity|exact HX].
Qed.
End Doc.
