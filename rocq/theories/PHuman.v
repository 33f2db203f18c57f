(** * Proofs about the human-readable form of trees *)

From Coq Require Import ZArith List Bool String Lia.
From Coq Require Import Init.Byte Decimal DecimalString DecimalPos DecimalFacts.
From Coq Require Import ZifyBool.
From Verif Require Import Py PyFloat ByteConv ETree Remap Spec SpecText PBase PText.
Import ListNotations.
Open Scope string_scope.
Open Scope list_scope.
Open Scope Z_scope.

(** ** Numerals *)
Lemma fold_numeral ds a : fold_left (fun a c => 10 * a + (c - 48)) ds a = a * 10 ^ len ds + numeral ds.
Proof.
  unfold numeral. revert a. induction ds as [|c ds IH]; intros a; cbn [fold_left]; [unfold len; cbn; lia|].
  rewrite (IH (10 * a + (c - 48))), (IH (10 * 0 + (c - 48))), len_cons.
  replace (1 + len ds) with (Z.succ (len ds)) by lia.
  rewrite Z.pow_succ_r by apply len_nonneg. ring.
Qed.
Lemma numeral_cons c ds : numeral (c :: ds) = (c - 48) * 10 ^ len ds + numeral ds.
Proof. unfold numeral at 1. cbn [fold_left]. rewrite fold_numeral. f_equal. Qed.
Lemma numeral_range ds : Forall digit ds -> 0 <= numeral ds < 10 ^ len ds.
Proof.
  induction 1 as [|c ds H _ IH]; [cbn; lia|]. rewrite numeral_cons, len_cons.
  replace (1 + len ds) with (Z.succ (len ds)) by lia.
  rewrite Z.pow_succ_r by apply len_nonneg. unfold digit in H. nia.
Qed.
Lemma numeral_lead c ds : Forall digit (c :: ds) -> c <> 48 -> 10 ^ len ds <= numeral (c :: ds) < 10 ^ len (c :: ds).
Proof.
  intros HF HC. split; [|now apply numeral_range]. rewrite numeral_cons. inversion HF as [|? ? H1 H2]; subst.
  apply numeral_range in H2. unfold digit in H1. nia.
Qed.
Lemma numeral_inj a b : Forall digit a -> Forall digit b -> len a = len b -> numeral a = numeral b -> a = b.
Proof.
  intros HA. revert b. induction HA as [|x a Hx HA IH]; intros b HB HL HN.
  - destruct b as [|y b]; [reflexivity|]. rewrite len_cons, len_nil in HL. pose proof (len_nonneg b). lia.
  - destruct b as [|y b]; [rewrite len_cons, len_nil in HL; pose proof (len_nonneg a); lia|].
    inversion HB as [|? ? Hy HB']; subst. rewrite !len_cons in HL. assert (HL' : len a = len b) by lia.
    rewrite !numeral_cons, HL' in HN. pose proof (numeral_range a HA) as R1. pose proof (numeral_range b HB') as R2.
    rewrite HL' in R1. assert (x = y) as -> by nia. f_equal. apply IH; [assumption|assumption|]. lia.
Qed.
Lemma decimal_fun z s s' : decimal z s -> decimal z s' -> s = s'.
Proof.
  intros (a & -> & A1 & A2 & A3 & A4) (b & -> & B1 & B2 & B3 & B4). f_equal.
  destruct a as [|x a]; [easy|]. destruct b as [|y b]; [easy|]. cbn in A4, B4.
  pose proof (len_nonneg a) as LA. pose proof (len_nonneg b) as LB.
  destruct (Z.eq_dec x 48) as [EX|EX]; destruct (Z.eq_dec y 48) as [EY|EY].
  - now rewrite (A4 EX), (B4 EY).
  - exfalso. rewrite (A4 EX) in A3. apply numeral_lead in B2; [|exact EY]. cbn in A3.
    assert (0 < 10 ^ len b) by now apply Z.pow_pos_nonneg. lia.
  - exfalso. rewrite (B4 EY) in B3. apply numeral_lead in A2; [|exact EX]. cbn in B3.
    assert (0 < 10 ^ len a) by now apply Z.pow_pos_nonneg. lia.
  - pose proof (numeral_lead _ _ A2 EX) as HA. pose proof (numeral_lead _ _ B2 EY) as HB.
    apply numeral_inj; [assumption|assumption| |congruence]. rewrite !len_cons in *. rewrite A3 in HA. rewrite B3 in HB.
    f_equal. destruct (Z.lt_trichotomy (len a) (len b)) as [H|[H|H]]; [|exact H|].
    + assert (10 ^ (1 + len a) <= 10 ^ len b) by (apply Z.pow_le_mono_r; lia). lia.
    + assert (10 ^ (1 + len b) <= 10 ^ len a) by (apply Z.pow_le_mono_r; lia). lia.
Qed.

(** Digits of a [uint]. *)
Fixpoint udigits (u : uint) : pystr :=
  match u with
  | Nil => []
  | D0 u => 48 :: udigits u | D1 u => 49 :: udigits u | D2 u => 50 :: udigits u
  | D3 u => 51 :: udigits u | D4 u => 52 :: udigits u | D5 u => 53 :: udigits u
  | D6 u => 54 :: udigits u | D7 u => 55 :: udigits u | D8 u => 56 :: udigits u
  | D9 u => 57 :: udigits u
  end.
Lemma pys_uint u : pys (NilEmpty.string_of_uint u) = udigits u.
Proof. induction u; cbn; rewrite ?IHu; reflexivity. Qed.
Lemma udigits_digit u : Forall digit (udigits u).
Proof. induction u; cbn; constructor; try assumption; unfold digit; lia. Qed.
Lemma of_uint_acc_num u p : Zpos (Pos.of_uint_acc u p) = Zpos p * 10 ^ len (udigits u) + numeral (udigits u).
Proof.
  revert p. induction u; intros p; [cbn; lia|..]; cbn [Pos.of_uint_acc udigits];
    rewrite IHu, numeral_cons, len_cons;
    replace (1 + len (udigits u)) with (Z.succ (len (udigits u))) by lia;
    rewrite Z.pow_succ_r by apply len_nonneg; rewrite ?Pos2Z.inj_add, ?Pos2Z.inj_mul; ring.
Qed.
Lemma of_uint_num u : Z.of_N (Pos.of_uint u) = numeral (udigits u).
Proof.
  induction u; cbn [Pos.of_uint udigits]; [reflexivity|now rewrite numeral_cons, IHu|..];
    cbn [Z.of_N]; rewrite of_uint_acc_num, numeral_cons; reflexivity.
Qed.
Lemma to_uint_lead p : exists u, Pos.to_uint p = u /\ u <> Nil /\ hd 0 (udigits u) <> 48 /\ numeral (udigits u) = Zpos p.
Proof.
  exists (Pos.to_uint p). split; [reflexivity|].
  assert (HN : numeral (udigits (Pos.to_uint p)) = Zpos p) by (rewrite <- of_uint_num, Unsigned.of_to; reflexivity).
  split; [apply Unsigned.to_uint_nonnil|]. split; [|exact HN].
  pose proof (Unsigned.to_of (Pos.to_uint p)) as HT. rewrite Unsigned.of_to in HT. cbn in HT.
  intros H0. destruct (Pos.to_uint p) as [|u|u|u|u|u|u|u|u|u|u] eqn:EU; cbn in H0; try discriminate.
  unfold unorm in HT. cbn in HT.
  assert (HH : forall w, nzhead w <> Nil -> hd 0 (udigits (nzhead w)) <> 48).
  { clear. induction w; cbn; try discriminate; auto. }
  destruct (nzhead u) as [| | | | | | | | | |] eqn:EN; try discriminate HT.
  - injection HT as ->. cbn in HN. discriminate.
  - apply (HH u); rewrite EN; [discriminate|reflexivity].
Qed.
Lemma str_decimal z : decimal z (str_of_Z z).
Proof.
  unfold str_of_Z, decimal. destruct z as [|p|p]; cbn [Z.to_int NilZero.string_of_int Z.ltb Z.compare].
  - exists [48]. cbn. repeat split; try easy. repeat constructor; lia.
  - destruct (to_uint_lead p) as (u & HU & HN & HL & HV). cbn [Z.ltb Z.compare].
    exists (udigits u). rewrite HU. destruct u; try easy; unfold NilZero.string_of_uint; rewrite pys_uint;
      (split; [reflexivity|]); (split; [discriminate|]); (split; [apply udigits_digit|]); (split; [exact HV|]); intros HX; now exfalso.
  - destruct (to_uint_lead p) as (u & HU & HN & HL & HV). cbn [Z.ltb Z.compare].
    exists (udigits u). rewrite HU. cbn [pys]. destruct u; try easy; unfold NilZero.string_of_uint; rewrite pys_uint;
      (split; [reflexivity|]); (split; [discriminate|]); (split; [apply udigits_digit|]); (split; [exact HV|]); intros HX; now exfalso.
Qed.
Lemma decimal_iff z s : decimal z s <-> s = str_of_Z z.
Proof. split; [intros H; now apply (decimal_fun z s _ H), str_decimal|intros ->; apply str_decimal]. Qed.
Lemma decimal_plain z s : decimal z s -> ascii_text s.
Proof.
  intros (ds & -> & _ & HF & _). apply Forall_app. split; [destruct (z <? 0); repeat constructor; lia|].
  eapply Forall_impl; [|exact HF]. unfold digit. lia.
Qed.
Lemma ndigits_spec n z : 1 <= n -> (ndigits z <= n <-> Z.abs z < 10 ^ n).
Proof.
  intros Hn. unfold ndigits. destruct (str_decimal (Z.abs z)) as (ds & HE & H1 & H2 & H3 & H4).
  replace (Z.abs z <? 0) with false in HE by lia. cbn in HE. rewrite HE. rewrite Z.abs_involutive in H3.
  destruct ds as [|x ds]; [easy|]. cbn in H4. destruct (Z.eq_dec x 48) as [EX|EX].
  - rewrite (H4 EX) in *. cbn in H3. rewrite <- H3. split; [intros _; apply Z.pow_pos_nonneg; lia|intros _; cbn; lia].
  - pose proof (numeral_lead _ _ H2 EX) as HR. rewrite H3, len_cons in HR. rewrite len_cons. pose proof (len_nonneg ds) as HP.
    split; intros H.
    + assert (10 ^ (1 + len ds) <= 10 ^ n) by (apply Z.pow_le_mono_r; lia). lia.
    + destruct (Z.le_gt_cases (1 + len ds) n) as [|HG]; [assumption|].
      assert (10 ^ n <= 10 ^ len ds) by (apply Z.pow_le_mono_r; lia). lia.
Qed.
Definition good_limit (limit : option Z) : Prop := match limit with Some n => 1 <= n | None => True end.
Lemma str_int_spec limit z : good_limit limit ->
  (convertible limit z /\ str_int limit z = Ok (str_of_Z z)) \/ (~ convertible limit z /\ str_int limit z = Raise ValueError).
Proof.
  unfold good_limit, convertible, str_int. destruct limit as [n|]; [|now left]. intros Hn.
  pose proof (ndigits_spec n z Hn) as H. destruct (n <? ndigits z) eqn:E; [right|left]; (split; [lia|reflexivity]).
Qed.

(** ** Floats are shown in ascii_text text *)
Lemma plain_app a b : ascii_text a -> ascii_text b -> ascii_text (a ++ b).
Proof. intros HA HB. now apply Forall_app. Qed.
Lemma plain_incl (a b : pystr) : ascii_text b -> incl a b -> ascii_text a.
Proof. intros HB HI. apply Forall_forall. intros c Hc. unfold ascii_text in HB. rewrite Forall_forall in HB. now apply HB, HI. Qed.
Lemma plain_zeros n : ascii_text (zeros n).
Proof. unfold zeros, ascii_text. apply Forall_forall. intros c Hc. apply repeat_spec in Hc. lia. Qed.
Lemma strip0_incl l : incl (strip0 l) l.
Proof.
  induction l as [|x l IH]; [apply incl_refl|].
  destruct (Z.eq_dec x 48) as [->|N]; [cbn; now apply incl_tl|].
  replace (strip0 (x :: l)) with (x :: l); [apply incl_refl|].
  destruct x as [|p|p]; try reflexivity. do 7 (try destruct p as [p|p|]; try reflexivity; try (exfalso; now apply N)).
Qed.
Lemma firstn_incl {A} n (l : list A) : incl (firstn n l) l.
Proof. intros x Hx. rewrite <- (firstn_skipn n l). apply in_or_app. now left. Qed.
Lemma skipn_incl {A} n (l : list A) : incl (skipn n l) l.
Proof. intros x Hx. rewrite <- (firstn_skipn n l). apply in_or_app. now right. Qed.
Lemma slice_incl {A} (l : list A) a b : incl (slice l a b) l.
Proof. unfold slice. eapply incl_tran; [apply firstn_incl|apply skipn_incl]. Qed.
Lemma str_plain z : ascii_text (str_of_Z z).
Proof. apply (decimal_plain z), str_decimal. Qed.
Lemma repr_plain f : ascii_text (repr_float f).
Proof.
  destruct f as [s|s| |s m e]; cbn [repr_float]; try (destruct s; repeat constructor; lia); try (repeat constructor; lia).
  destruct (shortest 16 1 m e) as [[d nd] E]. apply plain_app; [destruct s; repeat constructor; lia|].
  assert (HD : ascii_text (strip_trailing0 (str_of_Z d))).
  { unfold strip_trailing0. apply (plain_incl _ (str_of_Z d)); [apply str_plain|]. intros c Hc.
    apply in_rev in Hc. apply strip0_incl in Hc. now apply in_rev. }
  set (ds := strip_trailing0 (str_of_Z d)) in *. clearbody ds. unfold layout.
  destruct ((-4 <? E) && (E <=? 16)).
  - destruct (E <=? 0); [|destruct (E <? len ds)].
    + constructor; [lia|]. constructor; [lia|]. apply plain_app; [apply plain_zeros|assumption].
    + apply plain_app; [now apply (plain_incl _ ds), slice_incl|]. constructor; [lia|].
      apply (plain_incl _ ds); [assumption|apply skipn_incl].
    + apply plain_app; [assumption|]. apply plain_app; [apply plain_zeros|]. repeat constructor; lia.
  - apply plain_app.
    + destruct ds as [|c [|c' r]]; [constructor| |].
      * inversion HD; subst. now repeat constructor.
      * inversion HD; subst. constructor; [assumption|]. constructor; [lia|assumption].
    + constructor; [lia|]. constructor; [destruct (_ <? 0); lia|].
      destruct (_ <? 2); [constructor; [lia|]|]; apply str_plain.
Qed.

(** ** Control characters *)
Lemma printable_dec catC c : {printable catC c} + {~ printable catC c}.
Proof.
  destruct (keepChar catC c) eqn:E; [left; now apply keepChar_spec|right; intros H; apply keepChar_spec in H; congruence].
Qed.
Lemma kept_iff catC s s' : kept catC s s' <-> s' = removeControlCharacters catC s.
Proof.
  unfold removeControlCharacters. split.
  - induction 1 as [|c s s' H _ IH|c s s' H _ IH]; cbn; [reflexivity| |].
    + apply keepChar_spec in H. now rewrite H, IH.
    + destruct (keepChar catC c) eqn:E; [apply keepChar_spec in E; contradiction|exact IH].
  - intros ->. induction s as [|c s IH]; cbn; [constructor|]. destruct (keepChar catC c) eqn:E.
    + constructor; [now apply keepChar_spec|exact IH].
    + constructor; [|exact IH]. intros H. apply keepChar_spec in H. congruence.
Qed.
Lemma plain_printable catC s : ascii_ok catC -> ascii_text s -> Forall (printable catC) s.
Proof. intros HA HP. eapply Forall_impl; [|exact HP]. intros c Hc. left. now apply HA. Qed.
Lemma plain_kept catC s : ascii_ok catC -> ascii_text s -> removeControlCharacters catC s = s.
Proof. intros HA HP. apply rcc_id. now apply plain_printable. Qed.

(** ** Tables *)
Lemma feq_fun f x y : float_eq_Z f x = true -> float_eq_Z f y = true -> x = y.
Proof.
  destruct f as [s|s| |s m e]; cbn; try discriminate; [lia|].
  destruct (0 <=? e) eqn:He; [lia|]. intros H1 H2. apply Z.eqb_eq in H1, H2.
  assert (0 < 2 ^ (- e)) by (apply Z.pow_pos_nonneg; lia). nia.
Qed.
Lemma raw_fun v k1 k2 : raw k1 -> raw k2 -> py_eqb v k1 = true -> py_eqb v k2 = true -> k1 = k2.
Proof.
  intros [(z1 & ->)|(b1 & ->)] [(z2 & ->)|(b2 & ->)]; destruct v; cbn; try discriminate; intros H1 H2; f_equal.
  - apply Z.eqb_eq in H1, H2. congruence.
  - apply Z.eqb_eq in H1, H2. congruence.
  - now apply (feq_fun f).
  - apply bytes_eqb_spec in H1, H2. congruence.
Qed.
Lemma remap_tag_spec t tbl m : NoDup (map fst tbl) -> (remap_tag t tbl = Some m <-> In (t, m) tbl).
Proof.
  induction tbl as [|[t' m'] tbl IH]; cbn; [easy|]. intros HN. inversion HN as [|? ? HI HN']; subst.
  destruct (String.eqb t t') eqn:E.
  - apply String.eqb_eq in E as ->. split; [intros H; injection H as ->; now left|].
    intros [H|H]; [congruence|]. exfalso. apply HI. now apply (in_map fst) in H.
  - rewrite IH by assumption. apply String.eqb_neq in E. split; [now right|]. intros [H|H]; [congruence|exact H].
Qed.
Lemma remap_val_some v m d : remap_val v m = Some d -> exists k, In (k, d) m /\ py_eqb v k = true.
Proof.
  induction m as [|[k d'] m IH]; cbn; [easy|]. destruct (py_eqb v k) eqn:E.
  - intros H. injection H as ->. exists k. auto.
  - intros H. destruct (IH H) as (k' & H1 & H2). exists k'. auto.
Qed.
Lemma remap_val_none v m : remap_val v m = None -> forall k d, In (k, d) m -> py_eqb v k = false.
Proof.
  induction m as [|[k d'] m IH]; cbn; [easy|]. destruct (py_eqb v k) eqn:E; [easy|].
  intros H k' d [H1|H1]; [injection H1 as <- <-; exact E|]. now apply (IH H k' d).
Qed.
Lemma nodup_fst {A B} (l : list (A * B)) k a b : NoDup (map fst l) -> In (k, a) l -> In (k, b) l -> a = b.
Proof.
  induction l as [|[k' c] l IH]; cbn; [easy|]. intros HN. inversion HN as [|? ? HI HN']; subst.
  intros [H1|H1] [H2|H2]; try congruence; try now apply IH.
  - injection H1 as -> ->. exfalso. apply HI. now apply (in_map fst) in H2.
  - injection H2 as -> ->. exfalso. apply HI. now apply (in_map fst) in H1.
Qed.
Lemma described_fun tbl t v d d' : good_table tbl -> described tbl t v d -> described tbl t v d' -> d = d'.
Proof.
  intros (HN & HG) (m & k & H1 & H2 & H3) (m' & k' & H1' & H2' & H3').
  assert (m' = m) as -> by (eapply nodup_fst; eassumption). destruct (HG t m H1) as (HK & HR).
  assert (k' = k) as -> by (eapply raw_fun; [apply (HR k' d' H2')|apply (HR k d H2)|eassumption|eassumption]).
  eapply nodup_fst; eassumption.
Qed.
Lemma remap_cases tbl t v : good_table tbl ->
  (exists d, described tbl t v d /\ remap tbl t v = VStr d) \/ ((forall d, ~ described tbl t v d) /\ remap tbl t v = v).
Proof.
  intros (HN & HG). unfold remap. destruct (remap_tag t tbl) as [m|] eqn:ET.
  - apply (remap_tag_spec _ _ _ HN) in ET. destruct (remap_val v m) as [d|] eqn:EV.
    + left. exists d. split; [|reflexivity]. destruct (remap_val_some _ _ _ EV) as (k & H1 & H2). now exists m, k.
    + right. split; [|reflexivity]. intros d (m' & k & H1 & H2 & H3).
      assert (m' = m) as -> by (eapply nodup_fst; eassumption).
      rewrite (remap_val_none _ _ EV k d H2) in H3. discriminate.
  - right. split; [|reflexivity]. intros d (m & k & H1 & _). apply (remap_tag_spec _ _ _ HN) in H1. congruence.
Qed.
Lemma described_plain tbl t v d : good_table tbl -> described tbl t v d -> ascii_text d.
Proof. intros (_ & HG) (m & k & H1 & H2 & _). now apply (HG t m H1) in H2. Qed.
Lemma raw_not tbl t v d : good_table tbl -> described tbl t v d -> v <> VNone /\ forall s, v <> VStr s.
Proof.
  intros (_ & HG) (m & k & H1 & H2 & H3). apply (HG t m H1) in H2 as ([(z & ->)|(b & ->)] & _); split; intros; intros ->; discriminate.
Qed.

(** ** One value *)
Lemma textOut_shows catC limit tbl t v : ascii_ok catC -> good_limit limit -> good_table tbl ->
  (exists v', textOut catC limit (remap tbl t v) = Ok v' /\ forall w, shows catC limit tbl t v w <-> w = v') \/
  (textOut catC limit (remap tbl t v) = Raise ValueError /\ too_long limit tbl t v).
Proof.
  intros HA HL HT. destruct (remap_cases tbl t v HT) as [(d & HD & ->)|(HD & ->)].
  - left. cbn. rewrite (plain_kept catC d HA (described_plain _ _ _ _ HT HD)). eexists. split; [reflexivity|].
    destruct (raw_not _ _ _ _ HT HD) as (N1 & N2).
    intros w. split; [|intros ->; now constructor]. intros HS. inversion HS; subst; try (exfalso; eapply H; eassumption); try easy.
    + f_equal. eapply described_fun; eassumption.
    + exfalso. eapply N2; reflexivity.
  - destruct v as [|b|z|f|b|s]; cbn [textOut].
    + left. eexists. split; [reflexivity|]. intros w. split; [|intros ->; constructor]. intros HS. inversion HS; subst; [exfalso; eapply HD; eassumption|reflexivity].
    + left. eexists. split; [reflexivity|]. intros w. destruct b; (split; [|intros ->; now constructor]);
        intros HS; inversion HS; subst; try reflexivity; exfalso; eapply HD; eassumption.
    + destruct (str_int_spec limit z HL) as [(HC & ->)|(HC & ->)].
      * left. cbn. eexists. split; [reflexivity|]. intros w. split.
        -- intros HS. inversion HS; subst; [exfalso; eapply HD; eassumption|]. f_equal. now apply decimal_iff.
        -- intros ->. constructor; [exact HD|exact HC|apply str_decimal].
      * right. split; [reflexivity|]. exists z. auto.
    + left. eexists. split; [reflexivity|]. intros w. split; [|intros ->; now constructor].
      intros HS; inversion HS; subst; try reflexivity; exfalso; eapply HD; eassumption.
    + left. eexists. split; [reflexivity|]. unfold bytesToText. intros w. destruct (utf8_decode b) as [s|] eqn:ED.
      * apply utf8_decode_spec in ED. split.
        -- intros HS. inversion HS as [ | | | | | |b0 s0 s' H1 H2 H3|b0 H1 H2|]; subst; [exfalso; eapply HD; eassumption| |exfalso; eapply H2; eassumption].
           f_equal. apply kept_iff in H3. apply utf8_decode_spec in ED, H2. congruence.
        -- intros ->. apply shows_text with s; [exact HD|exact ED|now apply kept_iff].
      * assert (HN : forall s, ~ utf8_of s b) by (intros s H; apply utf8_decode_spec in H; congruence). split.
        -- intros HS. inversion HS; subst; try reflexivity; exfalso; [eapply HD|eapply HN]; eassumption.
        -- intros ->. now apply shows_garbage.
    + left. eexists. split; [reflexivity|]. intros w. split.
      * intros HS. inversion HS as [ | | | | | | | |s0 s' H1]; subst; [exfalso; eapply HD; eassumption|]. f_equal. now apply kept_iff.
      * intros ->. apply shows_str. now apply kept_iff.
Qed.
Lemma shows_clean catC limit tbl t v v' : ascii_ok catC -> good_table tbl -> shows catC limit tbl t v v' -> clean catC v'.
Proof.
  intros HA HT HS. unfold clean.
  destruct HS as [v d H| | | |z s H1 H2 H3|f H|b s s' H1 H2 H3|b H1 H2|s s' H]; [|now left|..]; right; eexists; (split; [reflexivity|]).
  - apply plain_printable; [assumption|]. eapply described_plain; eassumption.
  - apply plain_printable; [assumption|]. cbn. repeat (apply Forall_cons; [lia|]). apply Forall_nil.
  - apply plain_printable; [assumption|]. cbn. repeat (apply Forall_cons; [lia|]). apply Forall_nil.
  - apply plain_printable; [assumption|]. eapply decimal_plain; eassumption.
  - apply plain_printable; [assumption|]. apply repr_plain.
  - apply kept_iff in H3 as ->. apply rcc_printable.
  - constructor.
  - apply kept_iff in H as ->. apply rcc_printable.
Qed.
Lemma shows_again catC limit tbl t v : good_table tbl -> clean catC v -> shows catC limit tbl t v v.
Proof.
  intros HT [->|(s & -> & HF)]; [apply shows_none|]. apply shows_str. apply kept_iff. symmetry. now apply rcc_id.
Qed.

(** ** Trees *)
Lemma elt_ind' (P : elt -> Prop) :
  (forall t a v k, Forall P k -> P (Elt t a v k)) -> forall e, P e.
Proof.
  intros H. fix IH 1. intros [t a v k]. apply H. induction k; constructor; [apply IH|assumption].
Qed.
Lemma mhr_unfold catC limit tbl t a v k :
  makeHumanReadable catC limit tbl (Elt t a v k) =
  rbind (textOut catC limit (remap tbl t v)) (fun v' =>
  rbind ((fix go (l : list elt) : res (list elt) :=
            match l with
            | [] => Ok []
            | x :: l' =>
                rbind (makeHumanReadable catC limit tbl x) (fun x' =>
                rbind (go l') (fun r => Ok (x' :: r)))
            end) k) (fun k' => Ok (Elt t a v' k'))).
Proof. reflexivity. Qed.

Lemma mhr_cases catC limit tbl e : ascii_ok catC -> good_limit limit -> good_table tbl ->
  (exists e', makeHumanReadable catC limit tbl e = Ok e' /\ forall x, rel (shows catC limit tbl) e x <-> x = e') \/
  (makeHumanReadable catC limit tbl e = Raise ValueError /\ ~ every (fun t v => ~ too_long limit tbl t v) e).
Proof.
  intros HA HL HT. induction e as [t a v k IH] using elt_ind'. rewrite mhr_unfold.
  destruct (textOut_shows catC limit tbl t v HA HL HT) as [(v' & -> & HV)|(-> & HV)]; cbn [rbind].
  2:{ right. split; [reflexivity|]. intros HE. inversion HE; subst. contradiction. }
  assert (HK : (exists k', (fix go (l : list elt) : res (list elt) :=
            match l with
            | [] => Ok []
            | x :: l' =>
                rbind (makeHumanReadable catC limit tbl x) (fun x' =>
                rbind (go l') (fun r => Ok (x' :: r)))
            end) k = Ok k' /\ forall x, Forall2 (rel (shows catC limit tbl)) k x <-> x = k') \/
     ((fix go (l : list elt) : res (list elt) :=
            match l with
            | [] => Ok []
            | x :: l' =>
                rbind (makeHumanReadable catC limit tbl x) (fun x' =>
                rbind (go l') (fun r => Ok (x' :: r)))
            end) k = Raise ValueError /\ ~ Forall (every (fun t v => ~ too_long limit tbl t v)) k)).
  { induction IH as [|x k Hx _ IHk].
    - left. exists []. split; [reflexivity|]. intros x. split; [intros H; inversion H; reflexivity|intros ->; constructor].
    - destruct Hx as [(x' & -> & Hx)|(-> & Hx)]; cbn [rbind].
      2:{ right. split; [reflexivity|]. intros H. inversion H; subst. contradiction. }
      destruct IHk as [(k' & -> & Hk)|(-> & Hk)]; cbn [rbind].
      + left. eexists. split; [reflexivity|]. intros y. split.
        * intros H. inversion H as [|? ? ? ? H1 H2]; subst. apply Hx in H1. apply Hk in H2. congruence.
        * intros ->. constructor; [now apply Hx|now apply Hk].
      + right. split; [reflexivity|]. intros H. inversion H; subst. contradiction. }
  destruct HK as [(k' & -> & HK)|(-> & HK)]; cbn [rbind].
  - left. eexists. split; [reflexivity|]. intros x. split.
    + intros H. inversion H as [? ? ? ? ? ? H1 H2]; subst. apply HV in H1. apply HK in H2. congruence.
    + intros ->. constructor; [now apply HV|now apply HK].
  - right. split; [reflexivity|]. intros H. inversion H; subst. contradiction.
Qed.
Lemma rel_every (P : string -> value -> value -> Prop) (Q : string -> value -> Prop) e e' : (forall t v v', P t v v' -> Q t v') -> rel P e e' -> every Q e'.
Proof.
  intros HQ. revert e'. induction e as [t a v k IH] using elt_ind'. intros e' H. inversion H as [? ? ? v' ? k' H1 H2]; subst.
  constructor; [eauto|]. clear H H1. revert k' H2. induction IH as [|x k Hx _ IHk]; intros k' H2; inversion H2; subst; constructor; auto.
Qed.
Lemma rel_refl (P : string -> value -> value -> Prop) e : every (fun t v => P t v v) e -> rel P e e.
Proof.
  induction e as [t a v k IH] using elt_ind'. intros H. inversion H as [? ? ? ? H1 H2]; subst. constructor; [exact H1|].
  clear H H1. induction IH as [|x k Hx _ IHk]; inversion H2; subst; constructor; auto.
Qed.
Lemma every_impl (P Q : string -> value -> Prop) e : (forall t v, P t v -> Q t v) -> every P e -> every Q e.
Proof.
  intros HQ. induction e as [t a v k IH] using elt_ind'. intros H. inversion H as [? ? ? ? H1 H2]; subst. constructor; [auto|].
  clear H H1. induction IH as [|x k Hx _ IHk]; inversion H2; subst; constructor; auto.
Qed.
Lemma every_true e : every (fun _ _ => True) e.
Proof. induction e as [t a v k IH] using elt_ind'. now constructor. Qed.

(** ** The documented table *)
Definition plainb (s : pystr) : bool := forallb (fun c => (32 <=? c) && (c <? 127)) s.
Lemma plainb_spec s : plainb s = true -> ascii_text s.
Proof. unfold plainb, ascii_text. rewrite forallb_forall, Forall_forall. intros H c Hc. apply H in Hc. lia. Qed.
Definition rawb (v : value) : bool := match v with VInt _ | VBytes _ => true | _ => false end.
Fixpoint distinct {A} (eq : A -> A -> bool) (l : list A) : bool :=
  match l with [] => true | x :: r => negb (existsb (eq x) r) && distinct eq r end.
Lemma distinct_spec {A} (eq : A -> A -> bool) l : (forall x, In x l -> eq x x = true) -> distinct eq l = true -> NoDup l.
Proof.
  induction l as [|x l IH]; cbn; [constructor|]. intros HR H. apply andb_prop in H as [H1 H2]. constructor.
  - intros HI. apply negb_true_iff in H1. enough (existsb (eq x) l = true) by congruence. apply existsb_exists. exists x. auto.
  - apply IH; auto.
Qed.
Lemma good_tableb tbl :
  distinct String.eqb (map fst tbl) = true ->
  forallb (fun tm => distinct py_eqb (map fst (snd tm)) && forallb (fun kd => rawb (fst kd) && plainb (snd kd)) (snd tm)) tbl = true ->
  good_table tbl.
Proof.
  intros H1 H2. split; [apply (distinct_spec String.eqb); [intros x _; apply String.eqb_refl|exact H1]|].
  intros t m HI. rewrite forallb_forall in H2. apply H2 in HI. cbn in HI. apply andb_prop in HI as [H3 H4].
  rewrite forallb_forall in H4.
  assert (HK : forall k d, In (k, d) m -> raw k /\ ascii_text d).
  { intros k d HKD. apply H4 in HKD. cbn in HKD. apply andb_prop in HKD as [H5 H6]. split; [|now apply plainb_spec].
    destruct k; try discriminate; [left|right]; eauto. }
  split; [|exact HK]. apply (distinct_spec py_eqb); [|exact H3]. intros k Hk. apply in_map_iff in Hk as ((k' & d) & <- & Hk).
  apply HK in Hk as ([(z & HZ)|(b & HB)] & _); cbn in *; subst; cbn; [apply Z.eqb_refl|apply bytes_eqb_refl].
Qed.
Lemma table_good : good_table propertiesRemapTable.
Proof. apply good_tableb; now vm_compute. Qed.
Lemma empty_good : good_table [].
Proof. apply good_tableb; reflexivity. Qed.
