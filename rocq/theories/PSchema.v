(** * The amended and the published schema *)

From Coq Require Import ZArith List Bool String Lia.
From Coq Require Import ZifyBool.
From Verif Require Import Py ETree Spec SpecText PBase PHuman SpecXsd PXsd.
Import ListNotations.
Open Scope string_scope.
Open Scope list_scope.
Open Scope Z_scope.

(** Names a particle refers to. *)
Fixpoint refs (p : particle) : list string :=
  match p with
  | Ref n => [n]
  | Any => []
  | Seq l | Choice l => flat_map refs l
  | Occurs _ _ p => refs p
  end.
Fixpoint any (p : particle) : bool :=
  match p with
  | Ref _ => false
  | Any => true
  | Seq l | Choice l => existsb any l
  | Occurs _ _ p => any p
  end.
Lemma matches_refs (V : elt -> Prop) : forall p l, matches V p l -> any p = false -> Forall (fun e => V e /\ In (etag e) (refs p)) l.
Proof.
  fix IH 3. intros p l H HA. destruct H as [e HV|e| |p ps a b H1 H2|p ps l HI H|lo hi p ls _ _ HF].
  - constructor; [|constructor]. cbn. auto.
  - discriminate.
  - constructor.
  - cbn [any existsb] in HA. apply orb_false_iff in HA. destruct HA as [HA HB]. apply Forall_app. split.
    + eapply Forall_impl; [|exact (IH _ _ H1 HA)]. cbn. intros e (HV & HI). split; [exact HV|]. apply in_or_app. auto.
    + eapply Forall_impl; [|exact (IH _ _ H2 HB)]. cbn. intros e (HV & HI). split; [exact HV|]. apply in_or_app. auto.
  - assert (HP : any p = false).
    { cbn [any] in HA. destruct (any p) eqn:HP; [|reflexivity]. assert (existsb any ps = true) by (apply existsb_exists; eauto). congruence. }
    eapply Forall_impl; [|exact (IH _ _ H HP)]. cbn. intros e (HV & HE). split; [exact HV|]. apply in_flat_map. eauto.
  - cbn [any refs] in *. revert HF. clear -IH HA. intros HF. induction HF as [|l ls H HF IHF]; [constructor|]. cbn. apply Forall_app. split; [exact (IH _ _ H HA)|exact IHF].
Qed.
Lemma matches_mono (V W : elt -> Prop) : forall p l, matches V p l -> (forall e, In e l -> In (etag e) (refs p) -> V e -> W e) -> matches W p l.
Proof.
  fix IH 3. intros p l H HW. destruct H as [e HV|e| |p ps a b H1 H2|p ps l HI H|lo hi p ls HL HH HF].
  - constructor. apply HW; cbn; auto.
  - constructor.
  - constructor.
  - constructor.
    + apply (IH _ _ H1). intros e He Hr. apply HW; [apply in_or_app; auto|cbn; apply in_or_app; auto].
    + apply (IH _ _ H2). intros e He Hr. apply HW; [apply in_or_app; auto|cbn; apply in_or_app; auto].
  - apply m_choice with p; [exact HI|]. apply (IH _ _ H). intros e He Hr. apply HW; [exact He|]. cbn. apply in_flat_map. eauto.
  - constructor; [exact HL|exact HH|]. cbn [refs] in HW. revert HW HF. clear -IH. intros HW HF. induction HF as [|l ls H HF IHF]; [constructor|].
    cbn in HW. constructor.
    + apply (IH _ _ H). intros e He. apply HW. apply in_or_app. auto.
    + apply IHF. intros e He. apply HW. apply in_or_app. auto.
Qed.

(** Lists that must not be empty. *)
Lemma seq_refs (V : elt -> Prop) ns q l : matches V (Seq (map Ref ns ++ [q])) l ->
  exists a b, l = a ++ b /\ map etag a = ns /\ Forall V a /\ matches V q b.
Proof.
  revert l. induction ns as [|n ns IH]; intros l H; cbn [map app] in H.
  - exists [], l. split; [reflexivity|]. split; [reflexivity|]. split; [constructor|]. now apply m_seq1 in H.
  - inversion H as [| | |? ? a b HA HB| |]; subst. inversion HA; subst. destruct (IH _ HB) as (x & y & -> & HX & HF & HY).
    exists (e :: x), y. split; [reflexivity|]. split; [cbn; now rewrite HX|]. split; [now constructor|exact HY].
Qed.
Lemma refs_seq (V : elt -> Prop) a q b : Forall V a -> matches V q b -> matches V (Seq (map Ref (map etag a) ++ [q])) (a ++ b).
Proof.
  intros HF HM. induction HF as [|e a HE HF IH]; cbn; [now apply m_seq1 in HM|]. change (e :: a ++ b) with ([e] ++ (a ++ b)). constructor; [now constructor|exact IH].
Qed.
Lemma star_plus (V : elt -> Prop) ns q l k : matches V (Seq (map Ref ns ++ [Star q])) l -> In k l -> ~ In (etag k) ns ->
  matches V (Seq (map Ref ns ++ [Plus q])) l.
Proof.
  intros H HI HN. apply seq_refs in H. destruct H as (a & b & -> & <- & HF & HM). apply refs_seq; [exact HF|].
  inversion HM as [| | | | |? ? ? ls _ _ HL]; subst. constructor; [|exact I|exact HL]. destruct ls; [|cbn; lia]. exfalso.
  cbn in HI. rewrite app_nil_r in HI. apply HN. now apply in_map.
Qed.
Lemma plus_has (V : elt -> Prop) ns n r l : matches V (Seq (map Ref ns ++ [Plus (Seq (Ref n :: r))])) l -> exists k, In k l /\ etag k = n.
Proof.
  intros H. apply seq_refs in H. destruct H as (a & b & -> & _ & _ & HM). inversion HM as [| | | | |? ? ? ls HL _ HF]; subst.
  destruct ls as [|c ls]; [cbn in HL; lia|]. inversion HF as [|? ? HC _]; subst. inversion HC as [| | |? ? x y HX HY| |]; subst. inversion HX; subst.
  exists e. split; [|reflexivity]. cbn. apply in_or_app. right. now left.
Qed.
Lemma plus_has1 (V : elt -> Prop) ns n l : matches V (Seq (map Ref ns ++ [Plus (Ref n)])) l -> exists k, In k l /\ etag k = n.
Proof.
  intros H. apply seq_refs in H. destruct H as (a & b & -> & _ & _ & HM). inversion HM as [| | | | |? ? ? ls HL _ HF]; subst.
  destruct ls as [|c ls]; [cbn in HL; lia|]. inversion HF as [|? ? HC _]; subst. inversion HC; subst.
  exists e. split; [|reflexivity]. cbn. apply in_or_app. right. now left.
Qed.
Lemma boxes_only (V : elt -> Prop) l : matches V anyBoxes l -> (forall k, In k l -> etag k <> "plt" /\ etag k <> "ppt") -> matches V allBoxes l.
Proof.
  intros H HN. inversion H as [| | | | |? ? ? ls _ _ HF]; subst. clear H. induction HF as [|a ls HA HF IH]; [apply m_star_nil|]. cbn. apply m_star_app.
  - inversion HA as [| | | |? ? ? HI HM|]; subst. destruct HI as [<-|HI]; [exact HM|]. exfalso.
    destruct HI as [<-|[<-|[]]]; inversion HM as [e HV He| | | | |]; subst; (destruct (HN e) as [H1 H2]; [now left|congruence]).
  - apply IH. intros k Hk. apply HN. cbn. apply in_or_app. auto.
Qed.

Lemma collapsed_chars P s : collapsed P s -> exists m, P m /\ forall c, In c m -> In c s.
Proof. intros (a & m & b & -> & _ & _ & HP). exists m. split; [exact HP|]. intros c Hc. apply in_or_app. right. apply in_or_app. auto. Qed.
Lemma integer_chars s : typed XInteger s -> Forall (fun c => In c [9; 10; 13; 32; 43; 45] \/ digit c) s.
Proof.
  intros (a & m & b & -> & HA & HB & HM). unfold blank_text in *. rewrite !Forall_app. split; [|split].
  - eapply Forall_impl; [|exact HA]. cbn. tauto.
  - destruct HM as [(_ & HM)|(c & r & -> & HC & _ & HM)]; [eapply Forall_impl; [|exact HM]; auto|].
    constructor; [cbn in *; tauto|eapply Forall_impl; [|exact HM]; auto].
  - eapply Forall_impl; [|exact HB]. cbn. tauto.
Qed.
Lemma not_integer s : In s [pys "0.0"; pys "no"; pys "yes"] -> ~ typed XInteger s.
Proof.
  intros HS H. apply integer_chars in H. rewrite Forall_forall in H.
  destruct HS as [<-|[<-|[<-|[]]]]; [specialize (H 46)|specialize (H 110)|specialize (H 121)]; cbn in H; unfold digit in H; intuition lia.
Qed.

Lemma declared_app S1 S2 t : declared (S1 ++ S2) t = match declared S1 t with Some d => Some d | None => declared S2 t end.
Proof. induction S1 as [|[n d] S1 IH]; [reflexivity|]. cbn. destruct (String.eqb t n); [reflexivity|exact IH]. Qed.
Lemma opaque_refs : forallb (fun '(t, d) => match d with Complex p => Bool.eqb (any p) (existsb (String.eqb t) opaque) && (negb (any p) || match refs p with [] => true | _ => false end) | _ => negb (existsb (String.eqb t) opaque) end) (amended ++ published) = true.
Proof. vm_compute. reflexivity. Qed.

Lemma declared_in S t d : declared S t = Some d -> In (t, d) S.
Proof. induction S as [|[n d'] S IH]; [discriminate|]. cbn. destruct (String.eqb_spec t n) as [->|]; [intros [= ->]; auto|auto]. Qed.
Lemma opaque_spec t d : In (t, d) actual ->
  match d with
  | Complex p => (any p = true /\ In t opaque /\ refs p = []) \/ (any p = false /\ ~ In t opaque)
  | _ => ~ In t opaque
  end.
Proof.
  intros HI.
  pose proof opaque_refs as HO. rewrite forallb_forall in HO. specialize (HO _ HI). cbn beta iota in HO.
  assert (HN : existsb (String.eqb t) opaque = false -> ~ In t opaque).
  { intros HN Ht. assert (existsb (String.eqb t) opaque = true) by (apply existsb_exists; exists t; split; [exact Ht|apply String.eqb_refl]). congruence. }
  destruct d as [ty|ty n aty|p]; [apply HN; now apply negb_true_iff in HO|apply HN; now apply negb_true_iff in HO|].
  apply andb_true_iff in HO. destruct HO as [H1 H2]. apply Bool.eqb_prop in H1. destruct (any p).
  - left. split; [reflexivity|]. split; [|destruct (refs p); [reflexivity|discriminate]].
    symmetry in H1. apply existsb_exists in H1. destruct H1 as (x & Hx & He). apply String.eqb_eq in He. now subst.
  - right. auto.
Qed.

(** Validity of the children that the schema checks. *)
Lemma kids_valid S e : incl S actual -> valid S e -> ~ In (etag e) opaque -> forall k, In k (ekids e) -> valid S k.
Proof.
  intros HS H HN. destruct H as [| |t p v k HD _ HM]; cbn [ekids etag] in *; [intros ? []|intros ? []|].
  pose proof (opaque_spec t _ (HS _ (declared_in _ _ _ HD))) as HO. destruct HO as [(_ & HO & _)|(HA & _)]; [tauto|].
  apply matches_refs in HM; [|exact HA]. rewrite Forall_forall in HM. intros x Hx. now apply HM.
Qed.
Ltac tags t H := repeat match type of H with
  | (if String.eqb t ?n then _ else _) = _ => destruct (String.eqb_spec t n) as [->|]; [first [discriminate H | injection H as <-]|]
  end.
Ltac inn := first [now left | right; inn].
Lemma amended_step e : valid actual e -> regular e -> (~ In (etag e) opaque -> forall k, In k (ekids e) -> valid published k) -> valid published e.
Proof.
  intros HA HR HK. pose proof HA as HA'. destruct HA as [t ty v HD HT|t ty n aty v s HD HT HS|t p v k HD HT HM]; cbn [etag ekids] in HK.
  - unfold actual in HD. rewrite declared_app in HD. destruct (declared amended t) as [d|] eqn:HM; [|now apply valid_simple with ty].
    injection HD as ->. unfold amended in HM. cbn [declared] in HM. tags t HM; try discriminate; destruct HR as [R1 R2 R3 R4 R5 R6]; cbn [etag etext] in *.
    + congruence.
    + apply valid_simple with XInteger; [reflexivity|]. destruct v; try (exfalso; exact HT); cbn in HT |- *.
      * destruct HT as [HT|(x & [<-|[]] & HT)]; [exact HT|discriminate].
      * destruct HT as [HT|(x & [<-|[]] & HT)]; [exact HT|]. exfalso. subst. apply R4; [inn|reflexivity].
    + apply valid_simple with XInteger; [reflexivity|]. destruct v; try (exfalso; exact HT); cbn in HT |- *.
      * destruct HT as [HT|(x & [<-|[]] & HT)]; [exact HT|discriminate].
      * destruct HT as [HT|(x & [<-|[]] & HT)]; [exact HT|]. exfalso. subst. apply R4; [inn|reflexivity].
    + apply valid_simple with XDecimal; [reflexivity|apply R5; inn].
    + apply valid_simple with XDecimal; [reflexivity|apply R5; inn].
    + apply valid_simple with XDecimal; [reflexivity|apply R5; inn].
    + apply valid_simple with XDecimal; [reflexivity|apply R5; inn].
    + apply valid_simple with XDecimal; [reflexivity|apply R5; inn].
    + apply valid_simple with XDecimal; [reflexivity|apply R5; inn].
    + apply valid_simple with XDecimal; [reflexivity|apply R5; inn].
    + apply valid_simple with XDecimal; [reflexivity|apply R5; inn].
    + apply valid_simple with XDouble; [reflexivity|now apply R6].
  - unfold actual in HD. rewrite declared_app in HD. destruct (declared amended t) as [d|] eqn:HM; [|now apply valid_attributed with ty aty].
    injection HD as ->. unfold amended in HM. cbn [declared] in HM. tags t HM; discriminate.
  - pose proof (opaque_spec t _ (declared_in _ _ _ HD)) as HO. assert (HM' : matches (valid published) p k).
    { apply matches_mono with (valid actual); [exact HM|]. intros e He Hr _. destruct HO as [(_ & _ & HO)|(_ & HO)]; [rewrite HO in Hr; destruct Hr|]. auto. }
    clear HM HK HO HA'. unfold actual in HD. rewrite declared_app in HD. destruct (declared amended t) as [d|] eqn:HM; [|now apply valid_complex with p].
    injection HD as ->. unfold amended in HM. cbn [declared] in HM. tags t HM; try discriminate; destruct HR as [R1 R2 _ _ _ _]; cbn [etag ekids] in *.
    + eapply valid_complex; [reflexivity|exact HT|]. inversion HM' as [| | |? ? a b HX HY| |]; subst. constructor; [|exact HY].
      apply boxes_only; [exact HX|]. intros x Hx. destruct R1 as [G1 G2]; [inn|]. split; intros Hn; [apply G1|apply G2]; exists x; (split; [apply in_or_app; now left|exact Hn]).
    + eapply valid_complex; [reflexivity|exact HT|]. apply boxes_only; [exact HM'|]. intros x Hx. destruct R1 as [G1 G2]; [inn|]. split; intros Hn; [apply G1|apply G2]; exists x; auto.
    + eapply valid_complex; [reflexivity|exact HT|]. apply boxes_only; [exact HM'|]. intros x Hx. destruct R1 as [G1 G2]; [inn|]. split; intros Hn; [apply G1|apply G2]; exists x; auto.
    + eapply valid_complex; [reflexivity|exact HT|]. apply boxes_only; [exact HM'|]. intros x Hx. destruct R1 as [G1 G2]; [inn|]. split; intros Hn; [apply G1|apply G2]; exists x; auto.
    + destruct (R2 "cL") as (x & Hx & Hn); [inn|]. eapply valid_complex; [reflexivity|exact HT|].
      apply (star_plus _ ["br"; "minV"] _ _ x HM' Hx). rewrite Hn. cbn. intuition discriminate.
    + destruct (R2 "bPCSign") as (x & Hx & Hn); [inn|]. eapply valid_complex; [reflexivity|exact HT|]. apply <- m_seq1.
      apply (star_plus _ [] _ _ x); [apply -> m_seq1; exact HM'|exact Hx|]. intros [].
    + destruct (R2 "bSign") as (x & Hx & Hn); [inn|]. eapply valid_complex; [reflexivity|exact HT|].
      apply (star_plus _ ["nE"; "nPC"] _ _ x HM' Hx). rewrite Hn. cbn. intuition discriminate.
    + destruct (R2 "cMP") as (x & Hx & Hn); [inn|]. eapply valid_complex; [reflexivity|exact HT|]. apply <- m_seq1.
      apply (star_plus _ [] _ _ x); [apply -> m_seq1; exact HM'|exact Hx|]. intros [].
    + destruct (R2 "cN") as (x & Hx & Hn); [inn|]. eapply valid_complex; [reflexivity|exact HT|].
      apply (star_plus _ ["n"] _ _ x HM' Hx). rewrite Hn. cbn. intuition discriminate.
    + destruct (R2 "uuid") as (x & Hx & Hn); [inn|]. eapply valid_complex; [reflexivity|exact HT|].
      apply (star_plus _ ["nU"] _ _ x HM' Hx). rewrite Hn. cbn. intuition discriminate.
    + destruct (R2 "ssizSign") as (x & Hx & Hn); [inn|]. eapply valid_complex; [reflexivity|exact HT|].
      apply (star_plus _ ["lsiz"; "rsiz"; "capability"; "xsiz"; "ysiz"; "xOsiz"; "yOsiz"; "xTsiz"; "yTsiz"; "xTOsiz"; "yTOsiz"; "numberOfTiles"; "csiz"] _ _ x HM' Hx).
      rewrite Hn. cbn. intuition discriminate.
    + destruct (R2 "rspoc") as (x & Hx & Hn); [inn|]. eapply valid_complex; [reflexivity|exact HT|].
      apply (star_plus _ ["lpoc"] _ _ x HM' Hx). rewrite Hn. cbn. intuition discriminate.
    + destruct (R2 "xcrg") as (x & Hx & Hn); [inn|]. eapply valid_complex; [reflexivity|exact HT|].
      apply (star_plus _ ["lcrg"] _ _ x HM' Hx). rewrite Hn. cbn. intuition discriminate.
Qed.
Lemma published_if e : valid actual e -> (forall x, own e x -> regular x) -> valid published e.
Proof.
  induction e as [t a v k IH] using elt_ind'. intros HV HR. apply amended_step; [exact HV|apply HR; constructor|]. cbn [etag ekids].
  intros HN x Hx. rewrite Forall_forall in IH. apply (IH _ Hx).
  - apply (kids_valid actual (Elt t a v k)); [apply incl_refl|assumption..].
  - intros y Hy. apply HR. now apply own_below with x.
Qed.

Lemma declared_kids S e p : valid S e -> declared S (etag e) = Some (Complex p) -> matches (valid S) p (ekids e).
Proof. intros H HD. destruct H as [? ? ? H|? ? ? ? ? ? H|? ? ? ? H _ HM]; cbn [etag] in HD; rewrite H in HD; try discriminate. now injection HD as ->. Qed.
Lemma declared_text S e ty : valid S e -> declared S (etag e) = Some (Simple ty) -> text_is (typed ty) (etext e).
Proof. intros H HD. destruct H as [? ? ? H HT|? ? ? ? ? ? H|? ? ? ? H _ HM]; cbn [etag] in HD; rewrite H in HD; try discriminate. now injection HD as ->. Qed.
Lemma not_ref S e p n : valid S e -> declared S (etag e) = Some (Complex p) -> any p = false -> ~ In n (refs p) -> ~ has e n.
Proof.
  intros H HD HA HN (k & Hk & Hn). pose proof (declared_kids _ _ _ H HD) as HM. apply matches_refs in HM; [|exact HA].
  rewrite Forall_forall in HM. destruct (HM _ Hk) as [_ HR]. congruence.
Qed.
Lemma regular_step S e : valid actual e -> valid S e -> declared S (etag e) = declared published (etag e) -> regular e.
Proof.
  intros HA HP HS. pose proof (declared_kids S e) as DK. pose proof (declared_text S e) as DT. rewrite HS in DK, DT. constructor.
  - intros HI. assert (HX : exists p, declared published (etag e) = Some (Complex p) /\ any p = false /\ ~ In "plt" (refs p) /\ ~ In "ppt" (refs p)).
    { destruct HI as [HI|[HI|[HI|[HI|[]]]]]; rewrite <- HI; eexists; (split; [reflexivity|]); (split; [reflexivity|]); cbn; intuition discriminate. }
    destruct HX as (p & HD & HY & H1 & H2). rewrite <- HS in HD. split; now apply (not_ref S e p).
  - intros n HI. assert (HM : forall p, declared published (etag e) = Some (Complex p) -> matches (valid S) p (ekids e)) by (intros p HD; now apply DK).
    cbn [In] in HI. repeat (destruct HI as [HI|HI]; [injection HI as HI HN; rewrite <- HI in HM; specialize (HM _ eq_refl); rewrite <- HN|]); [..|destruct HI].
    + exact (plus_has1 _ ["br"; "minV"] _ _ HM).
    + apply m_seq1 in HM. exact (plus_has _ [] _ _ _ HM).
    + exact (plus_has _ ["nE"; "nPC"] _ _ _ HM).
    + apply m_seq1 in HM. exact (plus_has _ [] _ _ _ HM).
    + exact (plus_has _ ["n"] _ _ _ HM).
    + exact (plus_has1 _ ["nU"] _ _ HM).
    + exact (plus_has _ ["lsiz"; "rsiz"; "capability"; "xsiz"; "ysiz"; "xOsiz"; "yOsiz"; "xTsiz"; "yTsiz"; "xTOsiz"; "yTOsiz"; "numberOfTiles"; "csiz"] _ _ _ HM).
    + exact (plus_has _ ["lpoc"] _ _ _ HM).
    + exact (plus_has _ ["lcrg"] _ _ _ HM).
  - intros HI. pose proof (declared_text actual e (XEnum ["no"; "yes"]) HA) as H1. pose proof (DT XInteger HP) as H2. rewrite HI in H1, H2.
    specialize (H1 eq_refl). specialize (H2 eq_refl). destruct (etext e); cbn in H1, H2; try contradiction.
    + destruct H1 as (x & [<-|[<-|[]]] & H1); discriminate.
    + destruct H1 as (x & HX & ->). apply (not_integer (pys x)) in H2; [exact H2|]. destruct HX as [<-|[<-|[]]]; cbn; auto.
  - intros HI HT. pose proof (DT XInteger HP) as H2. rewrite HT in H2. apply (not_integer (pys "0.0")); [now left|]. apply H2.
    destruct HI as [<-|[<-|[]]]; reflexivity.
  - intros HI. apply (DT XDecimal HP). cbn [In] in HI. repeat (destruct HI as [<-|HI]; [reflexivity|]). destruct HI.
  - intros HI. apply (DT XDouble HP). now rewrite HI.
Qed.
Lemma published_only e x : own e x -> valid actual e -> valid published e -> regular x.
Proof.
  induction 1 as [e|e k x HN HK HO IH]; intros HA HP; [now apply (regular_step published)|]. apply IH.
  - apply (kids_valid actual e); [apply incl_refl|assumption..].
  - apply (kids_valid published e); [apply incl_appr, incl_refl|assumption..].
Qed.

(** One amendment taken back. *)
Lemma own_valid S e x : incl S actual -> own e x -> valid S e -> valid S x.
Proof. intros HS. induction 1 as [e|e k x HN HK HO IH]; intros HV; [exact HV|]. apply IH. now apply (kids_valid S e). Qed.
Lemma without n d e x : declared published n = Some d -> valid actual e -> own e x -> etag x = n -> ~ regular x -> ~ valid ((n, d) :: actual) e.
Proof.
  intros HD HA HO HT HR HV. apply HR. apply (regular_step ((n, d) :: actual)).
  - now apply (own_valid actual e); [apply incl_refl|..].
  - apply (own_valid _ e); [|exact HO|exact HV]. intros y [<-|Hy]; [|exact Hy]. apply in_or_app. right. now apply declared_in.
  - rewrite HT, HD. cbn. now rewrite String.eqb_refl.
Qed.
(** Search for elements that are not regular. *)
Definition kid (n : string) (e : elt) : bool := existsb (fun k => String.eqb (etag k) n) (ekids e).
Definition text_in (l : list string) (e : elt) : bool :=
  match etext e with VStr s => existsb (fun x => if list_eq_dec Z.eq_dec s (pys x) then true else false) l | _ => false end.
Definition breaks (e : elt) : bool :=
  let t := etag e in
  let is l := existsb (String.eqb t) l in
  is ["properties"; "jp2HeaderBox"; "resolutionBox"; "uuidInfoBox"] && (kid "plt" e || kid "ppt" e) ||
  existsb (fun '(u, n) => String.eqb t u && negb (kid n e)) [("fileTypeBox", "cL"); ("bitsPerComponentBox", "bPCSign"); ("paletteBox", "bSign");
    ("componentMappingBox", "cMP"); ("channelDefinitionBox", "cN"); ("uuidListBox", "uuid"); ("siz", "ssizSign"); ("poc", "rspoc"); ("crg", "xcrg")] ||
  is ["vidFRng"] ||
  is ["codeBlockWidth"; "codeBlockHeight"] && text_in ["0.0"] e ||
  is ["vRescInPixelsPerMeter"; "hRescInPixelsPerMeter"; "vRescInPixelsPerInch"; "hRescInPixelsPerInch";
    "vResdInPixelsPerMeter"; "hResdInPixelsPerMeter"; "vResdInPixelsPerInch"; "hResdInPixelsPerInch"] &&
    match etext e with VStr s => existsb (Z.eqb 101) s | _ => false end.
Fixpoint search (f : elt -> bool) (e : elt) : bool :=
  f e || match e with Elt t _ _ k => negb (existsb (String.eqb t) opaque) && existsb (search f) k end.
Lemma search_own f e : search f e = true -> exists x, own e x /\ f x = true.
Proof.
  induction e as [t a v k IH] using elt_ind'. cbn [search]. rewrite orb_true_iff, andb_true_iff. intros [H|[HN H]]; [eexists; split; [constructor|exact H]|].
  apply existsb_exists in H. destruct H as (c & Hc & H). rewrite Forall_forall in IH. destruct (IH _ Hc H) as (x & Hx & Hf). exists x. split; [|exact Hf].
  apply own_below with c; [|exact Hc|exact Hx]. cbn. intros Ht. apply negb_true_iff in HN.
  assert (existsb (String.eqb t) opaque = true) by (apply existsb_exists; exists t; split; [exact Ht|apply String.eqb_refl]). congruence.
Qed.
Lemma kid_has n e : kid n e = true <-> has e n.
Proof.
  unfold kid, has. rewrite existsb_exists. split; intros (k & Hk & H); exists k; (split; [exact Hk|]); [now apply String.eqb_eq|now apply String.eqb_eq].
Qed.
Lemma is_in t l : existsb (String.eqb t) l = true -> In t l.
Proof. intros H. apply existsb_exists in H. destruct H as (x & Hx & He). apply String.eqb_eq in He. now subst. Qed.
Lemma decimal_chars s : typed XDecimal s -> ~ In 101 s.
Proof.
  intros (a & m & b & -> & HA & HB & HM) HI. unfold blank_text in *. rewrite Forall_forall in HA, HB.
  apply in_app_or in HI. destruct HI as [HI|HI]; [specialize (HA _ HI); cbn in HA; intuition lia|]. apply in_app_or in HI. destruct HI as [HI|HI]; [|specialize (HB _ HI); cbn in HB; intuition lia].
  assert (HF : forall r, fraction r -> ~ In 101 r).
  { intros r [(_ & HR)|(x & y & -> & HX & HY & _)] Hr.
    - rewrite Forall_forall in HR. specialize (HR _ Hr). unfold digit in HR. lia.
    - rewrite Forall_forall in HX, HY. apply in_app_or in Hr. destruct Hr as [Hr|[Hr|Hr]]; [specialize (HX _ Hr); unfold digit in HX; lia|lia|specialize (HY _ Hr); unfold digit in HY; lia]. }
  destruct HM as [HM|(c & r & -> & HC & HM)]; [now apply (HF m)|]. destruct HI as [HI|HI]; [rewrite HI in HC; cbn in HC; intuition lia|now apply (HF r)].
Qed.
Lemma breaks_regular e : breaks e = true -> ~ regular e.
Proof.
  intros H [R1 R2 R3 R4 R5 _]. unfold breaks in H. rewrite !orb_true_iff in H. destruct H as [[[[H|H]|H]|H]|H].
  - apply andb_true_iff in H. destruct H as [H1 H2]. apply is_in in H1. destruct (R1 H1) as [G1 G2]. apply orb_true_iff in H2. rewrite !kid_has in H2. tauto.
  - apply existsb_exists in H. destruct H as ([u n] & HI & H). apply andb_true_iff in H. destruct H as [H1 H2]. apply String.eqb_eq in H1. subst u.
    apply negb_true_iff in H2. specialize (R2 n HI). apply kid_has in R2. congruence.
  - apply is_in in H. destruct H as [H|[]]. congruence.
  - apply andb_true_iff in H. destruct H as [H1 H2]. apply is_in in H1. apply (R4 H1). unfold text_in in H2. destruct (etext e); try discriminate.
    cbn [existsb] in H2. destruct (list_eq_dec Z.eq_dec _ _); [now subst|discriminate].
  - apply andb_true_iff in H. destruct H as [H1 H2]. apply is_in in H1. specialize (R5 H1). destruct (etext e); try discriminate. apply decimal_chars in R5. apply R5.
    apply existsb_exists in H2. destruct H2 as (c & Hc & He). apply Z.eqb_eq in He. now rewrite He.
Qed.
