(** * Proofs: byte conversion and text (byteconv.py, shared.py, stripSurrogatePairs) *)

From Coq Require Import ZArith List Bool String Lia.
From Coq Require Import ZifyBool.
From Coq Require Import Init.Byte.
From Verif Require Import Py ByteConv Shared CheckFile Spec PBase.
Import ListNotations.
Open Scope Z_scope.

Ltac Zify.zify_post_hook ::= Z.to_euclidean_division_equations.

(** ** UTF-8 *)
Ltac iftrue := match goal with |- context [if ?b then _ else _] =>
  replace b with true by (unfold in_rng, cont, in_rng in *; lia) end.
Ltac iffalse := match goal with |- context [if ?b then _ else _] =>
  replace b with false by (unfold in_rng, cont, in_rng in *; lia) end.

Lemma utf8_step_octets c r : scalar c -> utf8_step (utf8_octets c ++ r) = Some (c, r).
Proof.
  intros [[H0 H1] H2]. unfold utf8_octets.
  destruct (c <=? 127) eqn:E1; [cbn; now iftrue|].
  destruct (c <=? 2047) eqn:E2.
  { cbn [app utf8_step]. iffalse. iftrue. iftrue. repeat f_equal. lia. }
  destruct (c <=? 65535) eqn:E3.
  { cbn [app utf8_step]. iffalse. iffalse. iftrue.
    set (q := c / 4096) in *. set (m := c / 64 mod 64).
    assert (Hq : 0 <= q <= 15) by lia.
    assert (Hc : c = q * 4096 + m * 64 + c mod 64) by lia.
    assert (0 <= m <= 63) by lia. assert (0 <= c mod 64 <= 63) by lia.
    replace (224 + q =? 224) with (q =? 0) by lia.
    replace (224 + q =? 237) with (q =? 13) by lia.
    destruct (q =? 0) eqn:Q0; destruct (q =? 13) eqn:Q1; iftrue; repeat f_equal; lia. }
  cbn [app utf8_step]. iffalse. iffalse. iffalse. iftrue.
  set (q := c / 262144) in *. set (m := c / 4096 mod 64). set (n := c / 64 mod 64).
  assert (Hq : 0 <= q <= 4) by lia.
  assert (Hc : c = q * 262144 + m * 4096 + n * 64 + c mod 64) by lia.
  assert (0 <= m <= 63) by lia. assert (0 <= n <= 63) by lia. assert (0 <= c mod 64 <= 63) by lia.
  replace (240 + q =? 240) with (q =? 0) by lia.
  replace (240 + q =? 244) with (q =? 4) by lia.
  destruct (q =? 0) eqn:Q0; destruct (q =? 4) eqn:Q1; iftrue; repeat f_equal; lia.
Qed.

Lemma utf8_step_inv l c r :
  Forall (fun z => 0 <= z <= 255) l -> utf8_step l = Some (c, r) ->
  scalar c /\ l = utf8_octets c ++ r.
Proof.
  intros HF. unfold utf8_step, scalar, utf8_octets, cont, in_rng.
  destruct l as [|b0 r0]; [discriminate|].
  inversion HF as [|? ? R0 HF0]; subst.
  destruct (b0 <? 128) eqn:E0.
  { intros H. injection H as <- <-. split; [lia|].
    replace (b0 <=? 127) with true by lia. reflexivity. }
  destruct ((194 <=? b0) && (b0 <=? 223)) eqn:E1.
  { destruct r0 as [|b1 r1]; [discriminate|].
    destruct ((128 <=? b1) && (b1 <=? 191)) eqn:E2; [|discriminate].
    intros H. injection H as <- <-.
    set (c := (b0 - 192) * 64 + (b1 - 128)).
    assert (D1 : c / 64 = b0 - 192) by lia. assert (D2 : c mod 64 = b1 - 128) by lia.
    split; [lia|].
    replace (c <=? 127) with false by lia. replace (c <=? 2047) with true by lia.
    rewrite D1, D2. cbn [app]. repeat f_equal; lia. }
  destruct ((224 <=? b0) && (b0 <=? 239)) eqn:E2.
  { destruct r0 as [|b1 [|b2 r2]]; try discriminate.
    match goal with |- (if ?b then _ else _) = _ -> _ => destruct b eqn:E3 end; [|discriminate].
    intros H. injection H as <- <-.
    set (c := (b0 - 224) * 4096 + (b1 - 128) * 64 + (b2 - 128)).
    assert (H1 : 128 <= b1 <= 191 /\ 128 <= b2 <= 191 /\ (b0 = 224 -> 160 <= b1)
                 /\ (b0 = 237 -> b1 <= 159)).
    { destruct (b0 =? 224) eqn:X; destruct (b0 =? 237) eqn:Y; lia. }
    assert (D0 : c / 4096 = b0 - 224) by lia. assert (D1 : c / 64 mod 64 = b1 - 128) by lia.
    assert (D2 : c mod 64 = b2 - 128) by lia.
    split; [lia|].
    replace (c <=? 127) with false by lia. replace (c <=? 2047) with false by lia.
    replace (c <=? 65535) with true by lia.
    rewrite D0, D1, D2. cbn [app]. repeat f_equal; lia. }
  destruct ((240 <=? b0) && (b0 <=? 244)) eqn:E3; [|discriminate].
  destruct r0 as [|b1 [|b2 [|b3 r3]]]; try discriminate.
  match goal with |- (if ?b then _ else _) = _ -> _ => destruct b eqn:E4 end; [|discriminate].
  intros H. injection H as <- <-.
  set (c := (b0 - 240) * 262144 + (b1 - 128) * 4096 + (b2 - 128) * 64 + (b3 - 128)).
  assert (H1 : 128 <= b1 <= 191 /\ 128 <= b2 <= 191 /\ 128 <= b3 <= 191
               /\ (b0 = 240 -> 144 <= b1) /\ (b0 = 244 -> b1 <= 143)).
  { destruct (b0 =? 240) eqn:X; destruct (b0 =? 244) eqn:Y; lia. }
  assert (D0 : c / 262144 = b0 - 240) by lia. assert (D1 : c / 4096 mod 64 = b1 - 128) by lia.
  assert (D2 : c / 64 mod 64 = b2 - 128) by lia. assert (D3 : c mod 64 = b3 - 128) by lia.
  split; [lia|].
  replace (c <=? 127) with false by lia. replace (c <=? 2047) with false by lia.
  replace (c <=? 65535) with false by lia.
  rewrite D0, D1, D2, D3. cbn [app]. repeat f_equal; lia.
Qed.

Lemma octets_length c : (1 <= List.length (utf8_octets c))%nat.
Proof.
  unfold utf8_octets.
  destruct (c <=? 127); [cbn; lia|]. destruct (c <=? 2047); [cbn; lia|].
  destruct (c <=? 65535); cbn; lia.
Qed.

Lemma octets_bytes c : scalar c -> Forall (fun z => 0 <= z <= 255) (utf8_octets c).
Proof.
  intros [H _]. unfold utf8_octets.
  destruct (c <=? 127) eqn:?; [repeat constructor; lia|].
  destruct (c <=? 2047) eqn:?; [repeat constructor; lia|].
  destruct (c <=? 65535) eqn:?; repeat constructor; lia.
Qed.

Lemma decode_n_octets s k :
  Forall scalar s -> (List.length (flat_map utf8_octets s) <= k)%nat ->
  utf8_decode_n k (flat_map utf8_octets s) = Some s.
Proof.
  revert k. induction s as [|c s IH]; intros k HF HL; [destruct k; reflexivity|].
  inversion HF; subst. cbn [flat_map] in *.
  pose proof (octets_length c). rewrite app_length in HL.
  destruct k as [|k]; [lia|].
  pose proof (utf8_step_octets c (flat_map utf8_octets s) ltac:(assumption)) as HS.
  destruct (utf8_octets c ++ flat_map utf8_octets s) eqn:E.
  { destruct (utf8_octets c); [cbn in *; lia | discriminate]. }
  cbn [utf8_decode_n]. rewrite HS. rewrite IH; [reflexivity | assumption | lia].
Qed.

Lemma decode_n_inv k l s :
  Forall (fun z => 0 <= z <= 255) l -> utf8_decode_n k l = Some s ->
  Forall scalar s /\ l = flat_map utf8_octets s.
Proof.
  revert l s. induction k as [|k IH]; intros l s HF H.
  - destruct l; [|discriminate]. injection H as <-. easy.
  - destruct l as [|b l]; [injection H as <-; easy|].
    cbn [utf8_decode_n] in H.
    destruct (utf8_step (b :: l)) as [[c r]|] eqn:E; [|discriminate].
    destruct (utf8_decode_n k r) as [t|] eqn:D; [|discriminate].
    injection H as <-.
    destruct (utf8_step_inv _ _ _ HF E) as [HS HE].
    assert (Forall (fun z => 0 <= z <= 255) r) as HR.
    { rewrite HE in HF. apply Forall_app in HF. apply HF. }
    destruct (IH r t HR D) as [HT ->].
    split; [now constructor|]. exact HE.
Qed.

Lemma map_bz_range b : Forall (fun z => 0 <= z <= 255) (map bz b).
Proof. induction b; constructor; [apply bz_range | assumption]. Qed.

(** Strict decoding succeeds exactly on well-formed UTF-8, with its unique value. *)
Lemma utf8_decode_spec b s : utf8_decode b = Some s <-> utf8_of s b.
Proof.
  unfold utf8_decode, utf8_of. split.
  - intros H. apply decode_n_inv in H; [|apply map_bz_range]. easy.
  - intros [HF HE]. rewrite HE. apply decode_n_octets; [assumption|].
    rewrite <- HE, map_length. lia.
Qed.

Lemma enc1_octets c : scalar c -> utf8_enc1 c = utf8_octets c.
Proof.
  intros _. unfold utf8_enc1, utf8_octets.
  replace (c <? 128) with (c <=? 127) by lia.
  replace (c <? 2048) with (c <=? 2047) by lia.
  replace (c <? 65536) with (c <=? 65535) by lia. reflexivity.
Qed.

Lemma surrogate_spec c : is_surrogate c = true <-> 55296 <= c <= 57343.
Proof. unfold is_surrogate, in_rng. lia. Qed.

Lemma scalar_cp c : codepoint c -> is_surrogate c = false -> scalar c.
Proof. unfold codepoint, scalar, is_surrogate, in_rng. lia. Qed.

Lemma no_surrogate_scalar s :
  Forall codepoint s -> existsb is_surrogate s = false -> Forall scalar s.
Proof.
  induction 1; cbn; [constructor|]. rewrite orb_false_iff. intros [H1 H2].
  constructor; [now apply scalar_cp | now apply IHForall].
Qed.

Lemma scalar_no_surrogate s : Forall scalar s -> existsb is_surrogate s = false.
Proof.
  induction 1 as [|c s Hc Hs IH]; cbn; [reflexivity|].
  rewrite IH, orb_false_r. unfold scalar, is_surrogate, in_rng in *. lia.
Qed.

Lemma flat_map_octets_bytes s :
  Forall scalar s -> Forall (fun z => 0 <= z <= 255) (flat_map utf8_octets s).
Proof.
  induction 1; cbn; [constructor|]. apply Forall_app. split; [now apply octets_bytes|assumption].
Qed.

Lemma flat_map_enc1 s : Forall scalar s -> flat_map utf8_enc1 s = flat_map utf8_octets s.
Proof. induction 1; cbn; [reflexivity|]. rewrite enc1_octets by assumption. now f_equal. Qed.

Lemma utf8_encode_spec s b :
  Forall codepoint s -> (utf8_encode s = Some b <-> utf8_of s b).
Proof.
  intros HC. unfold utf8_encode. destruct (existsb is_surrogate s) eqn:E.
  - split; [discriminate|]. intros [HF _]. apply scalar_no_surrogate in HF. congruence.
  - pose proof (no_surrogate_scalar s HC E) as HF. rewrite flat_map_enc1 by assumption. split.
    + intros H. injection H as <-. split; [assumption|].
      apply map_bz_byte_of_Z. now apply flat_map_octets_bytes.
    + intros [_ HE]. f_equal. apply map_bz_inj. rewrite HE.
      apply map_bz_byte_of_Z. now apply flat_map_octets_bytes.
Qed.

(** ** Control characters *)
Lemma keepChar_spec catC c : keepChar catC c = true <-> printable catC c.
Proof.
  unfold keepChar, printable. rewrite orb_true_iff, Zin_spec. cbn.
  destruct (catC c); cbn; intuition congruence.
Qed.

Lemma filter_subseq {A} (p : A -> bool) l : subseq (filter p l) l.
Proof. induction l as [|x l IH]; cbn; [constructor|]. destruct (p x); now constructor. Qed.

Lemma rcc_spec catC s c :
  In c (removeControlCharacters catC s) <-> In c s /\ printable catC c.
Proof. unfold removeControlCharacters. now rewrite filter_In, keepChar_spec. Qed.

Lemma filter_all {A} (p : A -> bool) l : Forall (fun x => p x = true) l -> filter p l = l.
Proof. induction 1 as [|x l Hx Hl IH]; cbn; [reflexivity|]. now rewrite Hx, IH. Qed.

Lemma rcc_id catC s : Forall (printable catC) s -> removeControlCharacters catC s = s.
Proof.
  intros H. apply filter_all. eapply Forall_impl; [|exact H].
  intros c Hc. now apply keepChar_spec.
Qed.

Lemma rcc_printable catC s : Forall (printable catC) (removeControlCharacters catC s).
Proof. apply Forall_forall. intros c H. now apply rcc_spec in H. Qed.

Lemma rcc_app catC a b :
  removeControlCharacters catC (a ++ b) =
  removeControlCharacters catC a ++ removeControlCharacters catC b.
Proof. apply filter_app. Qed.

Lemma filter_count {A} (dec : forall x y : A, {x = y} + {x <> y}) (p : A -> bool) l c :
  p c = true -> count_occ dec (filter p l) c = count_occ dec l c.
Proof.
  intros H. induction l as [|x l IH]; cbn; [reflexivity|].
  destruct (p x) eqn:E; cbn; destruct (dec x c); subst; try congruence; now rewrite IH.
Qed.

Lemma ccc_spec b :
  containsControlCharacters b = true <-> exists x, In x b /\ (bz x < 32 \/ bz x = 127).
Proof.
  unfold containsControlCharacters. rewrite existsb_exists. unfold isctrl.
  split; intros (x & Hx & H); exists x; (split; [assumption|lia]).
Qed.

(** ** Trailing NULs *)
Lemma drop_nul_spec l : exists n, l = repeat x00 n ++ drop_nul l /\ hd x01 (drop_nul l) <> x00.
Proof.
  induction l as [|b l IH]; [exists O; cbn; split; [reflexivity|discriminate]|].
  destruct (Byte.byte_eq_dec b x00) as [->|NE].
  - destruct IH as (n & H1 & H2). exists (S n). cbn. split; [now f_equal|assumption].
  - exists O. cbn. destruct b; try contradiction; cbn; split; (reflexivity || discriminate).
Qed.

Lemma rnt_spec b :
  exists n, b = removeNullTerminator b ++ repeat x00 n
            /\ last (removeNullTerminator b) x01 <> x00.
Proof.
  unfold removeNullTerminator.
  destruct (drop_nul_spec (rev b)) as (n & H1 & H2). exists n. split.
  - apply (f_equal (@rev byte)) in H1. rewrite rev_involutive, rev_app_distr in H1.
    rewrite H1 at 1. f_equal.
    clear. induction n as [|n IH]; [reflexivity|].
    cbn. rewrite IH. symmetry. apply repeat_cons.
  - destruct (drop_nul (rev b)) as [|x l] eqn:E; [cbn; discriminate|].
    cbn [rev]. rewrite last_last. exact H2.
Qed.

Lemma app_nul_unique a b n m :
  a ++ repeat x00 n = b ++ repeat x00 m ->
  last a x01 <> x00 -> last b x01 <> x00 -> a = b.
Proof.
  revert m. induction n as [|n IH]; intros m H Ha Hb.
  - rewrite app_nil_r in H. destruct m as [|m]; [now rewrite app_nil_r in H|].
    exfalso. apply Ha. rewrite H. cbn [repeat]. rewrite repeat_cons, app_assoc. apply last_last.
  - destruct m as [|m].
    + exfalso. rewrite app_nil_r in H. apply Hb. rewrite <- H.
      cbn [repeat]. rewrite repeat_cons, app_assoc. apply last_last.
    + cbn [repeat] in H. rewrite !repeat_cons, !app_assoc in H. apply app_inj_tail in H.
      destruct H as [H _]. eauto.
Qed.

(** ** Hex rendering *)
Lemma hex_lower_digit d : 0 <= d <= 15 -> hexdigit (hex_lower d).
Proof. intros H. unfold hex_lower, hexdigit. destruct (d <? 10) eqn:E; lia. Qed.

Lemma bytesToHex_len b : len (bytesToHex b) = 2 * len b.
Proof.
  induction b as [|x b IH]; [reflexivity|].
  rewrite bytesToHex_cons, !len_cons, IH. lia.
Qed.

Lemma bytesToHex_digits b : Forall (fun x => hexdigit (bz x)) (bytesToHex b).
Proof.
  induction b as [|x b IH]; [constructor|].
  rewrite bytesToHex_cons. destruct (nibbles x) as [H1 H2].
  pose proof (hex_lower_digit _ H1) as D1. pose proof (hex_lower_digit _ H2) as D2.
  constructor; [|constructor; [|assumption]];
    rewrite bz_byte_of_Z; (assumption || unfold hexdigit in *; lia).
Qed.

Lemma bytesToHex_inj a b : bytesToHex a = bytesToHex b -> a = b.
Proof.
  intros H. pose proof (f_equal len H) as HL. rewrite !bytesToHex_len in HL.
  apply beval_inj; [lia|].
  pose proof (int16_hex 0 a) as Ha. rewrite H, int16_hex in Ha. injection Ha as Ha. lia.
Qed.

(** ** Contiguity *)
Lemma indices_lower i v l x : In x (indices_of i v l) -> i <= x.
Proof.
  revert i. induction l as [|y l IH]; intros i; cbn; [easy|].
  destruct (bytes_eqb y v); cbn; intros H.
  - destruct H as [->|H]; [lia|]. apply IH in H. lia.
  - apply IH in H. lia.
Qed.

Lemma indices_none i v l : ~ In v l -> indices_of i v l = [].
Proof.
  revert i. induction l as [|y l IH]; intros i H; cbn; [reflexivity|].
  replace (bytes_eqb y v) with false; [apply IH; intros ?; apply H; now right|].
  symmetry. apply bytes_eqb_neq. intros ->. apply H. now left.
Qed.

Lemma indices_nil_not_in i v l : indices_of i v l = [] -> ~ In v l.
Proof.
  revert i. induction l as [|y l IH]; intros i; cbn; [easy|].
  destruct (bytes_eqb y v) eqn:E; [discriminate|].
  intros H [->|H']; [now rewrite bytes_eqb_refl in E|]. exact (IH _ H H').
Qed.

Lemma consecutive_repeat i v n post :
  ~ In v post -> consecutive (indices_of i v (repeat v n ++ post)) = true.
Proof.
  revert i. induction n as [|n IH]; intros i H; cbn [repeat app].
  - now rewrite indices_none.
  - cbn [indices_of]. rewrite bytes_eqb_refl. specialize (IH (i + 1) H).
    destruct n as [|n].
    + cbn [repeat app] in *. now rewrite indices_none.
    + cbn [repeat app indices_of] in *. rewrite bytes_eqb_refl in *.
      cbn [consecutive] in *. rewrite IH. lia.
Qed.

Lemma consecutive_run i v l :
  hd_error l = Some v -> consecutive (indices_of i v l) = true ->
  exists n post, l = repeat v n ++ post /\ ~ In v post.
Proof.
  revert i. induction l as [|y l IH]; intros i H HC; [discriminate|].
  injection H as ->. cbn [indices_of] in HC. rewrite bytes_eqb_refl in HC.
  destruct l as [|z l].
  - exists 1%nat, []. easy.
  - destruct (bytes_eqb z v) eqn:E.
    + pose proof E as E'. apply bytes_eqb_spec in E'. subst z.
      assert (consecutive (indices_of (i + 1) v (v :: l)) = true) as HC'.
      { cbn [indices_of] in HC |- *. rewrite E in HC |- *.
        cbn [consecutive] in HC. apply andb_true_iff in HC. apply HC. }
      destruct (IH (i + 1) eq_refl HC') as (n & post & HE & HN).
      exists (S n), post. cbn [repeat app]. now rewrite <- HE.
    + exists 1%nat, (z :: l). split; [reflexivity|].
      cbn [indices_of] in HC. rewrite E in HC.
      destruct (indices_of (i + 1 + 1) v l) as [|j r] eqn:EI.
      * apply indices_nil_not_in in EI. intros [->|H]; [|contradiction].
        now rewrite bytes_eqb_refl in E.
      * exfalso. assert (i + 1 + 1 <= j).
        { apply (indices_lower _ v l). rewrite EI. now left. }
        cbn [consecutive] in HC. lia.
Qed.

Lemma contiguous_spec l v : listOccurrencesAreContiguous l v = true <-> one_block v l.
Proof.
  unfold listOccurrencesAreContiguous, one_block. generalize 0. intros i. split.
  - revert i. induction l as [|y l IH]; intros i H.
    + exists [], O, []. easy.
    + destruct (bytes_eqb y v) eqn:E.
      * apply bytes_eqb_spec in E. subst y.
        destruct (consecutive_run i v (v :: l) eq_refl H) as (n & post & HE & HN).
        exists [], n, post. easy.
      * cbn [indices_of] in H. rewrite E in H.
        destruct (IH _ H) as (pre & n & post & -> & H1 & H2).
        exists (y :: pre), n, post. split; [reflexivity|]. split; [|assumption].
        intros [->|H']; [now rewrite bytes_eqb_refl in E | contradiction].
  - intros (pre & n & post & -> & H1 & H2). revert i.
    induction pre as [|y pre IH]; intros i; [now apply consecutive_repeat|].
    cbn [app indices_of]. replace (bytes_eqb y v) with false.
    + apply IH. intros ?. apply H1. now right.
    + symmetry. apply bytes_eqb_neq. intros ->. apply H1. now left.
Qed.

(** ** Surrogates *)
Lemma replace_flat s :
  Forall codepoint s ->
  flat_map (fun c => if is_surrogate c then [63] else utf8_enc1 c) s =
  flat_map utf8_octets (map (fun c => if is_surrogate c then 63 else c) s).
Proof.
  induction 1 as [|c s Hc Hs IH]; cbn; [reflexivity|]. rewrite IH. f_equal.
  destruct (is_surrogate c) eqn:E; [reflexivity|].
  apply enc1_octets. now apply scalar_cp.
Qed.

Lemma replace_scalar s :
  Forall codepoint s -> Forall scalar (map (fun c => if is_surrogate c then 63 else c) s).
Proof.
  induction 1 as [|c s Hc Hs IH]; cbn; constructor; [|assumption].
  destruct (is_surrogate c) eqn:E; [unfold scalar; lia | now apply scalar_cp].
Qed.

Lemma strip_eq s :
  Forall codepoint s ->
  stripSurrogatePairs s = map (fun c => if is_surrogate c then 63 else c) s.
Proof.
  intros HC. unfold stripSurrogatePairs. destruct (utf8_encode s) eqn:E.
  - unfold utf8_encode in E. destruct (existsb is_surrogate s) eqn:S; [discriminate|].
    clear E HC. induction s as [|c s IH]; [reflexivity|].
    cbn in S |- *. apply orb_false_iff in S. destruct S as [S1 S2].
    rewrite S1. f_equal. now apply IH.
  - assert (utf8_decode (utf8_encode_replace s) =
            Some (map (fun c => if is_surrogate c then 63 else c) s)) as ->; [|reflexivity].
    apply utf8_decode_spec. split; [now apply replace_scalar|].
    unfold utf8_encode_replace. rewrite replace_flat by assumption.
    apply map_bz_byte_of_Z, flat_map_octets_bytes. now apply replace_scalar.
Qed.

(** ** Statements used by Prop_Bytes.v *)
Lemma c01_one b :
  (len b = 1 -> bytesToUnsignedChar b = beval b /\ 0 <= beval b <= 255) /\
  (len b <> 1 -> bytesToUnsignedChar b = -9999).
Proof.
  split; intros H.
  - split; [now apply doConv_val|]. pose proof (beval_range b) as R. rewrite H in R. lia.
  - now apply doConv_bad.
Qed.
Lemma c01_two b :
  (len b = 2 -> bytesToUShortInt b = beval b /\ 0 <= beval b <= 65535) /\
  (len b <> 2 -> bytesToUShortInt b = -9999).
Proof.
  split; intros H.
  - split; [now apply doConv_val|]. pose proof (beval_range b) as R. rewrite H in R. lia.
  - now apply doConv_bad.
Qed.
Lemma c01_four b :
  (len b = 4 -> bytesToUInt b = beval b /\ 0 <= beval b <= 4294967295) /\
  (len b <> 4 -> bytesToUInt b = -9999).
Proof.
  split; intros H.
  - split; [now apply doConv_val|]. pose proof (beval_range b) as R. rewrite H in R. lia.
  - now apply doConv_bad.
Qed.
Lemma c01_eight b :
  (len b = 8 -> bytesToULongLong b = beval b /\ 0 <= beval b <= 18446744073709551615) /\
  (len b <> 8 -> bytesToULongLong b = -9999).
Proof.
  split; intros H.
  - split; [now apply doConv_val|]. pose proof (beval_range b) as R. rewrite H in R. lia.
  - now apply doConv_bad.
Qed.

Lemma doConv_inj n a b : len a = n -> len b = n -> doConv n a = doConv n b -> a = b.
Proof.
  intros Ha Hb H. rewrite !doConv_val in H by assumption.
  apply beval_inj; [now rewrite Ha, Hb | assumption].
Qed.

Lemma doConv_sentinel n b : doConv n b = -9999 <-> len b <> n.
Proof.
  split.
  - intros H HL. rewrite doConv_val in H by assumption. pose proof (beval_range b). lia.
  - apply doConv_bad.
Qed.

Lemma c01_inj :
  (forall a b, len a = 1 -> len b = 1 -> bytesToUnsignedChar a = bytesToUnsignedChar b -> a = b) /\
  (forall a b, len a = 2 -> len b = 2 -> bytesToUShortInt a = bytesToUShortInt b -> a = b) /\
  (forall a b, len a = 4 -> len b = 4 -> bytesToUInt a = bytesToUInt b -> a = b) /\
  (forall a b, len a = 8 -> len b = 8 -> bytesToULongLong a = bytesToULongLong b -> a = b).
Proof. repeat split; intros a b; apply doConv_inj. Qed.

Lemma c01_sentinel b :
  (bytesToUnsignedChar b = -9999 <-> len b <> 1) /\
  (bytesToUShortInt b = -9999 <-> len b <> 2) /\
  (bytesToUInt b = -9999 <-> len b <> 4) /\
  (bytesToULongLong b = -9999 <-> len b <> 8).
Proof. split; [|split; [|split]]; apply doConv_sentinel. Qed.

Lemma c02_signed b :
  (len b = 1 -> -128 <= bytesToSignedChar b <= 127
                /\ bytesToSignedChar b mod 256 = beval b) /\
  (len b <> 1 -> bytesToSignedChar b = -9999).
Proof.
  split; intros H.
  - destruct b as [|x [|y b]]; [discriminate| |].
    + unfold bytesToSignedChar. rewrite beval_1. pose proof (bz_range x).
      destruct (bz x <? 128) eqn:E; lia.
    + rewrite !len_cons in H. pose proof (len_nonneg b). lia.
  - destruct b as [|x [|y b]]; [reflexivity | contradiction | reflexivity].
Qed.

Lemma c03_integer b :
  (b <> [] -> bytesToInteger b = beval b /\ 0 <= beval b < 256 ^ len b) /\
  (bytesToInteger b = -9999 <-> b = []).
Proof.
  split; [intros H; split; [now apply bytesToInteger_val | apply beval_range]|].
  split.
  - intros H. destruct b as [|x b]; [reflexivity|].
    rewrite bytesToInteger_val in H by discriminate. pose proof (beval_range (x :: b)). lia.
  - intros ->. reflexivity.
Qed.

Lemma c03_agrees b :
  (len b = 1 -> bytesToInteger b = bytesToUnsignedChar b) /\
  (len b = 2 -> bytesToInteger b = bytesToUShortInt b) /\
  (len b = 4 -> bytesToInteger b = bytesToUInt b) /\
  (len b = 8 -> bytesToInteger b = bytesToULongLong b).
Proof.
  repeat split; intros H; (rewrite bytesToInteger_val; [symmetry; now apply doConv_val|]);
    intros ->; discriminate.
Qed.

Lemma c04_text catC b :
  (forall s, utf8_of s b ->
     bytesToText catC b = filter (fun c => negb (catC c) || (c =? 9) || (c =? 10) || (c =? 13)) s) /\
  ((~ exists s, utf8_of s b) -> bytesToText catC b = []) /\
  Forall (printable catC) (bytesToText catC b).
Proof.
  split; [|split].
  - intros s H. apply utf8_decode_spec in H. unfold bytesToText. rewrite H.
    unfold removeControlCharacters. apply filter_ext. intros c.
    unfold keepChar, Zin. cbn [existsb]. rewrite orb_false_r, !orb_assoc. reflexivity.
  - intros H. unfold bytesToText. destruct (utf8_decode b) as [s|] eqn:E; [|reflexivity].
    apply utf8_decode_spec in E. exfalso. apply H. now exists s.
  - unfold bytesToText. destruct (utf8_decode b); [apply rcc_printable | constructor].
Qed.

Lemma c04_unique s t b : utf8_of s b -> utf8_of t b -> s = t.
Proof.
  intros H1 H2. apply utf8_decode_spec in H1, H2. rewrite H1 in H2. now injection H2.
Qed.

Lemma c04_roundtrip catC s b :
  utf8_of s b -> Forall (printable catC) s -> bytesToText catC b = s.
Proof.
  intros H HP. apply utf8_decode_spec in H. unfold bytesToText. rewrite H. now apply rcc_id.
Qed.

Lemma c05_filter catC s :
  subseq (removeControlCharacters catC s) s /\
  (forall c, In c (removeControlCharacters catC s) <-> In c s /\ printable catC c) /\
  (forall c, printable catC c ->
     count_occ Z.eq_dec (removeControlCharacters catC s) c = count_occ Z.eq_dec s c) /\
  removeControlCharacters catC (removeControlCharacters catC s) = removeControlCharacters catC s /\
  (forall t, removeControlCharacters catC (s ++ t) =
             removeControlCharacters catC s ++ removeControlCharacters catC t).
Proof.
  split; [apply filter_subseq|]. split; [intros c; apply rcc_spec|].
  split; [intros c H; apply filter_count; now apply keepChar_spec|].
  split; [apply rcc_id, rcc_printable|]. intros t. apply rcc_app.
Qed.

Lemma c06_nul b r :
  removeNullTerminator b = r <->
  (exists n, b = r ++ repeat x00 n) /\ (forall r', r <> r' ++ [x00]).
Proof.
  destruct (rnt_spec b) as (n & H1 & H2). split.
  - intros <-. split; [now exists n|]. intros r' H. apply H2. rewrite H. apply last_last.
  - intros [(m & Hm) HN]. rewrite Hm in H1 at 1. symmetry.
    apply (app_nul_unique _ _ _ _ H1); [|assumption].
    destruct r as [|x r] using rev_ind; [discriminate|].
    rewrite last_last. intros ->. now apply (HN r).
Qed.

Lemma c07_hex b :
  len (bytesToHex b) = 2 * len b /\
  Forall (fun x => hexdigit (bz x)) (bytesToHex b) /\
  (forall b', bytesToHex b = bytesToHex b' -> b = b').
Proof.
  split; [apply bytesToHex_len|]. split; [apply bytesToHex_digits|].
  intros b'. apply bytesToHex_inj.
Qed.

Lemma c09_strip s :
  Forall codepoint s ->
  len (stripSurrogatePairs s) = len s /\
  (exists b, utf8_of (stripSurrogatePairs s) b) /\
  (forall i, ~ (55296 <= nth i s 0 <= 57343) ->
     nth i (stripSurrogatePairs s) 0 = nth i s 0) /\
  (forall i, 55296 <= nth i s 0 <= 57343 -> nth i (stripSurrogatePairs s) 0 = 63) /\
  ((exists b, utf8_of s b) -> stripSurrogatePairs s = s).
Proof.
  intros HC. rewrite strip_eq by assumption.
  set (g := fun c => if is_surrogate c then 63 else c).
  assert (HN : forall i, nth i (map g s) 0 = g (nth i s 0)).
  { intros i. change 0 with (g 0) at 1. apply map_nth. }
  split; [apply len_map|]. split; [|split; [|split]].
  - exists (map byte_of_Z (flat_map utf8_octets (map g s))). split; [now apply replace_scalar|].
    apply map_bz_byte_of_Z, flat_map_octets_bytes. now apply replace_scalar.
  - intros i H. rewrite HN. unfold g. destruct (is_surrogate (nth i s 0)) eqn:E; [|reflexivity].
    apply surrogate_spec in E. contradiction.
  - intros i H. rewrite HN. unfold g. apply surrogate_spec in H. now rewrite H.
  - intros (b & HF & _). apply scalar_no_surrogate in HF. unfold g. clear HC HN g.
    induction s as [|c s IH]; [reflexivity|]. cbn in HF |- *.
    apply orb_false_iff in HF. destruct HF as [H1 H2]. rewrite H1. f_equal. now apply IH.
Qed.
