(** * Packet lengths *)

From Coq Require Import ZArith List Bool String Lia.
From Coq Require Import ZifyBool.
From Coq Require Import Init.Byte.
From Verif Require Import Py PyFloat ByteConv ETree BV VBoxes VMarkers VSuper Spec SpecBox SpecIPL
     PBase PEmit PLeaf PLeaf2 PMarker PMarker2 PWalk.
Import ListNotations.
Open Scope string_scope.
Open Scope list_scope.
Open Scope Z_scope.

(** ** Hexadecimal digits *)
Lemma hexw_S w v : hexw (S w) v = hexw w (v / 16) ++ [hexu (v mod 16)].
Proof.
  unfold hexw. change (seq 0 (S w)) with (0%nat :: seq 1 w). cbn [rev]. rewrite map_app. cbn [map].
  f_equal; [|now rewrite Z.pow_0_r, Z.div_1_r].
  rewrite <- seq_shift, <- map_rev, map_map. apply map_ext. intros i.
  rewrite Nat2Z.inj_succ, Z.pow_succ_r by lia. now rewrite Z.div_div by lia.
Qed.
Lemma hexw_len w v : List.length (hexw w v) = w.
Proof. unfold hexw. now rewrite map_length, rev_length, seq_length. Qed.
Lemma hexw_0 w : hexw w 0 = repeat 48 w.
Proof.
  induction w as [|w IH]; [reflexivity|]. rewrite hexw_S. cbn [Z.div Z.modulo]. change (0 / 16) with 0. rewrite IH.
  change (hexu (0 mod 16)) with 48. change [48] with (repeat 48 1). rewrite <- repeat_app. f_equal. lia.
Qed.
Lemma pad_left_repeat c k s : pad_left c k s = repeat c k ++ s.
Proof. induction k; cbn; congruence. Qed.
Lemma hex_digits_spec k v acc w : 0 <= v -> v < 16 ^ Z.of_nat k -> v < 16 ^ Z.of_nat w -> (0 < w)%nat -> (0 < k)%nat ->
  exists s, hex_digits k v acc = s ++ acc /\ (List.length s <= w)%nat /\
            hexw w v = repeat 48 (w - List.length s) ++ s.
Proof.
  revert v acc w. induction k as [|k IH]; intros v acc w Hv HK HW Hw0 Hk0; [lia|].
  cbn [hex_digits]. destruct w as [|w]; [lia|]. rewrite hexw_S.
  change hex_upper with hexu.
  destruct (v <? 16) eqn:EB.
  - exists [hexu (v mod 16)]. split; [reflexivity|]. split; [cbn; lia|].
    rewrite Z.div_small by lia. rewrite hexw_0. cbn [List.length]. f_equal. f_equal. lia.
  - rewrite !Nat2Z.inj_succ, !Z.pow_succ_r in * by lia.
    assert (HD : v / 16 < 16 ^ Z.of_nat k /\ v / 16 < 16 ^ Z.of_nat w)
      by (split; apply Z.div_lt_upper_bound; lia).
    assert (0 < w)%nat. { destruct w; [|lia]. cbn in HW. lia. }
    assert (0 < k)%nat. { destruct k; [|lia]. cbn in HK. lia. }
    destruct (IH (v / 16) (hexu (v mod 16) :: acc) w) as (s & HE & HL & HH); try lia.
    exists (s ++ [hexu (v mod 16)]). rewrite HE, <- app_assoc. split; [reflexivity|].
    rewrite app_length. cbn [List.length]. split; [lia|]. rewrite HH, <- app_assoc. f_equal. f_equal. lia.
Qed.
Lemma fmt_hex_spec w v : 0 <= v < 16 ^ Z.of_nat w -> (0 < w)%nat -> fmt_hex (Z.of_nat w) v = hexw w v.
Proof.
  intros Hv Hw. unfold fmt_hex, hex_of_Z. cbv zeta.
  set (k := S (Z.to_nat (Z.log2 v / 4 + 1))).
  destruct (hex_digits_spec k v [] w) as (s & HE & HL & HH); try lia.
  { destruct (Z.eq_dec v 0) as [->|HN]; [apply Z.pow_pos_nonneg; lia|].
    pose proof (Z.log2_spec v ltac:(lia)) as HS. pose proof (Z.log2_nonneg v).
    change 16 with (2 ^ 4). rewrite <- Z.pow_mul_r by lia.
    eapply Z.lt_le_trans; [apply HS|]. apply Z.pow_le_mono_r; [lia|].
    unfold k. rewrite Nat2Z.inj_succ, Z2Nat.id by (pose proof (Z.div_pos (Z.log2 v) 4); lia).
    pose proof (Z.div_mod (Z.log2 v) 4 ltac:(lia)). pose proof (Z.mod_pos_bound (Z.log2 v) 4 ltac:(lia)). lia. }
  rewrite HE, app_nil_r, HH. rewrite pad_left_repeat. f_equal. f_equal. unfold len. lia.
Qed.

(** ** Entries *)
Lemma hi_bit b : Z.land (bz b) 128 =? 0 = (bz b <? 128).
Proof. now destruct b. Qed.
Lemma land_hi_missing : Z.land (-9999) 128 =? 0 = false. Proof. reflexivity. Qed.

Lemma skipn_nth {A} (n : nat) (c : list A) x s : skipn n c = x :: s -> skipn (S n) c = s.
Proof.
  revert c. induction n as [|n IH]; intros [|y c] H; try discriminate H.
  - now injection H.
  - exact (IH c H).
Qed.
Lemma val_head c i b s : 0 <= i -> skipn (Z.to_nat i) c = b :: s -> val c i 1 = bz b.
Proof.
  intros Hi H. unfold val. assert (HL : i + 1 <= len c).
  { unfold len. assert (List.length (skipn (Z.to_nat i) c) = S (List.length s)) by now rewrite H.
    rewrite skipn_length in H0. lia. }
  destruct (i + 1 <=? len c) eqn:EB; [|lia]. rewrite H. change (Z.to_nat 1) with 1%nat.
  cbn [firstn beval]. change (256 ^ len []) with 1. lia.
Qed.
Lemma val_none c i : 0 <= i -> skipn (Z.to_nat i) c = [] -> val c i 1 = -9999.
Proof.
  intros Hi H. unfold val. assert (HL : len c <= i).
  { unfold len. assert (List.length (skipn (Z.to_nat i) c) = 0%nat) by now rewrite H.
    rewrite skipn_length in H0. lia. }
  destruct (i + 1 <=? len c) eqn:EB; [lia|reflexivity].
Qed.
Lemma skipn_step {A} (c : list A) i b s : 0 <= i -> skipn (Z.to_nat i) c = b :: s -> skipn (Z.to_nat (i + 1)) c = s.
Proof. intros Hi H. replace (Z.to_nat (i + 1)) with (S (Z.to_nat i)) by lia. now apply (skipn_nth _ _ b). Qed.

Lemma ipl_len_spec fuel c i n e x s :
  0 <= i -> 1 <= n -> skipn (Z.to_nat (i + n - 1)) c = e ++ x :: s ->
  Forall (fun b => 128 <= bz b) e -> bz x < 128 -> (List.length e < fuel)%nat ->
  ipl_len fuel c i n = Some (n + len e).
Proof.
  intros Hi Hn HS HE HX HF. revert fuel n Hn HS HF. induction HE as [|b e Hb HE IH]; intros [|fuel] n Hn HS HF;
    cbn [List.length] in HF; try lia; cbn [ipl_len]; rewrite u8_val by lia; cbn [app] in HS.
  - rewrite (val_head c (i + n - 1) _ _ ltac:(lia) HS), hi_bit. replace (bz x <? 128) with true by lia. f_equal. unfold len. cbn. lia.
  - rewrite (val_head c (i + n - 1) _ _ ltac:(lia) HS), hi_bit. replace (bz b <? 128) with false by lia.
    rewrite IH; [f_equal; unfold len; cbn [List.length]; lia|lia| |lia].
    apply skipn_step in HS; [|lia]. now replace (i + (n + 1) - 1) with (i + n - 1 + 1) by lia.
Qed.
(** All remaining bytes have the top bit set: the end of the entry is never found. *)
Lemma ipl_len_none fuel c i n : 0 <= i -> 1 <= n -> Forall (fun b => 128 <= bz b) (skipn (Z.to_nat (i + n - 1)) c) ->
  ipl_len fuel c i n = None.
Proof.
  intros Hi. revert n. induction fuel as [|fuel IH]; intros n Hn HA; [reflexivity|].
  cbn [ipl_len]. rewrite u8_val by lia. destruct (skipn (Z.to_nat (i + n - 1)) c) as [|b s] eqn:ES.
  - rewrite (val_none c (i + n - 1) ltac:(lia) ES), land_hi_missing. apply IH; [lia|].
    replace (i + (n + 1) - 1) with (i + n - 1 + 1) by lia.
    replace (skipn (Z.to_nat (i + n - 1 + 1)) c) with (@nil byte); [constructor|].
    symmetry. apply skipn_all2. assert (List.length (skipn (Z.to_nat (i + n - 1)) c) = 0%nat) by now rewrite ES.
    rewrite skipn_length in H. lia.
  - rewrite (val_head c (i + n - 1) _ _ ltac:(lia) ES), hi_bit. inversion HA as [|? ? Hb HA']; subst.
    replace (bz b <? 128) with false by lia. apply IH; [lia|].
    replace (i + (n + 1) - 1) with (i + n - 1 + 1) by lia. now rewrite (skipn_step c (i + n - 1) _ _ ltac:(lia) ES).
Qed.

(** Joining groups with the mask applied to the sum so far. *)
Lemma bz_range b : 0 <= bz b <= 255. Proof. now destruct b. Qed.
Lemma lor_add a b : 0 <= b < 128 -> Z.lor (Z.shiftl a 7) b = a * 128 + b.
Proof.
  intros Hb. rewrite Z.shiftl_mul_pow2 by lia. change (2 ^ 7) with 128.
  assert (HZ : Z.land (a * 128) b = 0).
  { apply Z.bits_inj'. intros k Hk. rewrite Z.land_spec, Z.bits_0. change 128 with (2 ^ 7).
    destruct (Z_lt_le_dec k 7) as [K|K]; [now rewrite Z.mul_pow2_bits_low|].
    destruct (Z.eq_dec b 0) as [->|HN]; [now rewrite Z.bits_0, andb_false_r|].
    rewrite (Z.bits_above_log2 b k), andb_false_r; [reflexivity|lia|].
    enough (Z.log2 b < 7) by lia. apply Z.log2_lt_pow2; lia. }
  rewrite <- Z.lxor_lor by exact HZ. now rewrite <- Z.add_nocarry_lxor.
Qed.
Lemma lor_low a b : Z.land (Z.lor (Z.shiftl a 7) b) 127 = Z.land b 127.
Proof.
  apply Z.bits_inj'. intros k Hk. rewrite !Z.land_spec, Z.lor_spec.
  destruct (Z_lt_le_dec k 7) as [K|K]; [now rewrite Z.shiftl_spec_low|].
  rewrite (Z.bits_above_log2 127 k), !andb_false_r by (cbn; lia). reflexivity.
Qed.
Lemma last_dep {A} (l : list A) a b d1 d2 : last (a :: l) d1 = last (b :: a :: l) d2.
Proof. revert a b d1 d2. induction l as [|x l IH]; intros; [reflexivity|]. exact (IH x a d1 d2). Qed.

Lemma ipl_join_spec c i l x s : 0 <= i -> bz x < 128 -> forall idx acc, 1 <= idx ->
  skipn (Z.to_nat (i + idx)) c = l ++ x :: s ->
  ipl_join (S (List.length l)) c i idx acc = (last (map bz l) acc mod 128) * 128 + bz x.
Proof.
  intros Hi Hx. induction l as [|b l IH]; intros idx acc Hidx HS.
  - cbn [List.length ipl_join app] in *. rewrite u8_val by lia.
    rewrite (val_head c (i + idx) _ _ ltac:(lia) HS), land127. pose proof (bz_range x). now rewrite lor_add.
  - cbn [app] in HS. change (List.length (b :: l)) with (S (List.length l)).
    remember (S (List.length l)) as k. cbn [ipl_join]. subst k. rewrite u8_val by lia.
    rewrite (val_head c (i + idx) _ _ ltac:(lia) HS).
    apply skipn_step in HS; [|lia]. rewrite IH by (try lia; now rewrite Z.add_assoc).
    f_equal. f_equal. destruct l as [|b' l]; [|cbn [map]; f_equal; apply last_dep].
    cbn [map last]. rewrite <- !land127. apply lor_low.
Qed.

Lemma plen_snoc e x : packet_length (e ++ [x]) = packet_length e * 128 + bz x mod 128.
Proof. unfold packet_length. now rewrite fold_left_app. Qed.
Lemma plen_nonneg e : 0 <= packet_length e.
Proof.
  induction e as [|x e IH] using rev_ind; [cbn; lia|]. rewrite plen_snoc.
  pose proof (Z.mod_pos_bound (bz x) 128 ltac:(lia)). lia.
Qed.
Lemma plen_low e x : e <> [] ->
  packet_length (e ++ [x]) mod 16384 = (last (map bz e) 0 mod 128) * 128 + bz x mod 128.
Proof.
  intros HE. destruct (exists_last HE) as (e' & y & ->). rewrite plen_snoc, plen_snoc, map_app. cbn [map]. rewrite last_last.
  pose proof (Z.mod_pos_bound (bz x) 128 ltac:(lia)). pose proof (Z.mod_pos_bound (bz y) 128 ltac:(lia)).
  replace ((packet_length e' * 128 + bz y mod 128) * 128 + bz x mod 128)
    with ((bz y mod 128 * 128 + bz x mod 128) + packet_length e' * 16384) by ring.
  rewrite Z.mod_add by lia. apply Z.mod_small. lia.
Qed.

Lemma entry_spec c i e x s : 0 <= i -> skipn (Z.to_nat i) c = e ++ x :: s -> bz x < 128 ->
  fmt_hex (2 * (1 + len e)) (ipl_join (Z.to_nat (len e)) c i 1 (bytesToUnsignedChar (slice c i (i + 1)))) =
  entry_shown (e ++ [x]).
Proof.
  intros Hi HS HX. unfold entry_shown. pose proof (bz_range x) as HR. rewrite u8_val by lia.
  assert (HV : ipl_join (Z.to_nat (len e)) c i 1 (val c i 1) = packet_length (e ++ [x]) mod 16384).
  { destruct e as [|b e].
    - cbn [app] in *. change (Z.to_nat (len (@nil byte))) with 0%nat. cbn [ipl_join].
      rewrite (val_head c i _ _ ltac:(lia) HS). change [x] with ([] ++ [x]). rewrite plen_snoc.
      change (packet_length []) with 0. rewrite Z.mul_0_l, Z.add_0_l, (Z.mod_small (bz x)), Z.mod_small; lia.
    - cbn [app] in HS. rewrite (val_head c i _ _ ltac:(lia) HS). apply skipn_step in HS; [|lia].
      replace (Z.to_nat (len (b :: e))) with (S (List.length e)) by (unfold len; cbn [List.length]; lia).
      rewrite (ipl_join_spec c i e x s) by (lia || assumption).
      change ((b :: e) ++ [x]) with ((b :: e) ++ [x]). rewrite plen_low by discriminate.
      rewrite (Z.mod_small (bz x)) by lia. f_equal. f_equal. f_equal.
      cbn [map]. destruct e as [|b' e]; [reflexivity|]. cbn [map]. apply last_dep. }
  rewrite HV. replace (2 * (1 + len e)) with (Z.of_nat (2 * List.length (e ++ [x])))
    by (rewrite app_length; unfold len; cbn [List.length]; lia).
  apply fmt_hex_spec; [|rewrite app_length; cbn [List.length]; lia].
  destruct e as [|b e].
  - cbn [app List.length]. change [x] with ([] ++ [x]). rewrite plen_snoc. change (packet_length []) with 0.
    rewrite Z.mul_0_l, Z.add_0_l, (Z.mod_small (bz x)), Z.mod_small by lia. change (16 ^ Z.of_nat (2 * 1)) with 256. lia.
  - pose proof (Z.mod_pos_bound (packet_length ((b :: e) ++ [x])) 16384 ltac:(lia)) as HM.
    split; [apply HM|]. eapply Z.lt_le_trans; [apply HM|]. rewrite app_length. cbn [List.length].
    change 16384 with (2 ^ 14). change 16 with (2 ^ 4). rewrite <- Z.pow_mul_r by lia. apply Z.pow_le_mono_r; lia.
Qed.

(** Contents with entries are parsed; the text has a comma after each entry. *)
Definition listed (es : list bytes) : pystr := flat_map (fun e => entry_shown e ++ [44]) es.
Lemma ipl_loop_spec lim s es : entries lim s es -> forall fuel c lpl i acc,
  0 <= i -> lim = lpl - i -> s = skipn (Z.to_nat i) c -> (len s < Z.of_nat fuel) ->
  parse_ipl_loop fuel c lpl i acc = Ok (acc ++ listed es).
Proof.
  induction 1 as [lim s HE|lim e x s es HL HE HX H IH]; intros [|fuel] c lpl i acc Hi Hlim HS HF;
    try (unfold len in HF; lia); cbn [parse_ipl_loop].
  - assert (HC : (i <? lpl) && (i <? len c) = false).
    { destruct HE as [HE|HE]; [lia|]. assert (HN : List.length s = 0%nat) by now rewrite HE.
      rewrite HS, skipn_length in HN. unfold len. lia. }
    rewrite HC. unfold listed. cbn [flat_map]. now rewrite app_nil_r.
  - assert (HLEN : (List.length (e ++ x :: s) = List.length c - Z.to_nat i)%nat) by (rewrite HS; apply skipn_length).
    rewrite app_length in HLEN. cbn [List.length] in HLEN.
    assert (HC : (i <? lpl) && (i <? len c) = true) by (unfold len; lia).
    rewrite HC. unfold len in HF. rewrite app_length in HF. cbn [List.length] in HF.
    rewrite (ipl_len_spec (S fuel) c i 1 e x s) by
      (try assumption; try lia; symmetry; now replace (i + 1 - 1) with i by lia).
    replace (Z.to_nat (1 + len e - 1)) with (Z.to_nat (len e)) by lia.
    rewrite (entry_spec c i e x s Hi (eq_sym HS) HX).
    rewrite IH with (fuel := fuel); [|unfold len; lia|unfold len; lia| |unfold len; lia].
    + rewrite <- !app_assoc. f_equal. f_equal. unfold listed. cbn [flat_map]. now rewrite <- app_assoc.
    + replace (Z.to_nat (i + (1 + len e))) with (Z.to_nat i + (List.length e + 1))%nat by (unfold len; lia).
      rewrite <- skipn_skipn, <- HS. replace (List.length e + 1)%nat with (List.length (e ++ [x])) by (rewrite app_length; reflexivity).
      change (x :: s) with ([x] ++ s). rewrite app_assoc. now rewrite skipn_app, skipn_all, Nat.sub_diag.
Qed.

Lemma listed_strip es : slice (listed es) 0 (-1) = commas (map entry_shown es).
Proof.
  assert (HS : forall (l : pystr) x, slice (l ++ [x]) 0 (-1) = l).
  { intros l x. unfold slice. replace (len (l ++ [x])) with (len l + 1) by (unfold len; rewrite app_length; cbn [List.length]; lia).
    assert (N0 : norm_ix (len l + 1) 0 = 0) by (unfold norm_ix, len; change (0 <? 0) with false; cbv iota; lia).
    assert (N1 : norm_ix (len l + 1) (-1) = len l) by (unfold norm_ix, len; change (-1 <? 0) with true; cbv iota; lia).
    rewrite N0, N1.
    rewrite Z.sub_0_r. replace (Z.to_nat (len l)) with (List.length l) by (unfold len; lia). cbn [skipn Z.to_nat].
    now rewrite firstn_app, firstn_all, Nat.sub_diag, app_nil_r. }
  assert (HC : es = [] \/ listed es = commas (map entry_shown es) ++ [44]).
  { induction es as [|e es IH]; [now left|right]. unfold listed in *. cbn [flat_map map].
    destruct es as [|e' es]; [cbn; now rewrite app_nil_r|].
    destruct IH as [IH|IH]; [discriminate|]. rewrite IH. cbn [map commas]. now rewrite <- !app_assoc. }
  destruct HC as [-> | ->]; [reflexivity|apply HS].
Qed.
Lemma parse_ipl_spec fuel c lpl i es : 0 <= i -> entries (lpl - i) (skipn (Z.to_nat i) c) es -> len c < Z.of_nat fuel ->
  parse_ipl fuel c lpl i = Ok (commas (map entry_shown es)).
Proof.
  intros Hi H HF. unfold parse_ipl. rewrite (ipl_loop_spec _ _ _ H) by
    (try reflexivity; try assumption; unfold len in *; rewrite skipn_length; lia).
  cbn [rbind]. now rewrite app_nil_l, listed_strip.
Qed.

(** ... and without them there is no end. *)
Lemma groups_dec (s : bytes) : (exists e x s', s = e ++ x :: s' /\ Forall (fun b => 128 <= bz b) e /\ bz x < 128) \/
  Forall (fun b => 128 <= bz b) s.
Proof.
  induction s as [|b s IH]; [right; constructor|].
  destruct (Z_lt_le_dec (bz b) 128) as [L|L]; [left; exists [], b, s; repeat split; auto|].
  destruct IH as [(e & x & s' & -> & HE & HX)|IH]; [left|right; now constructor].
  exists (b :: e), x, s'. repeat split; auto.
Qed.
Lemma ipl_loop_none fuel : forall c lpl i acc, 0 <= i ->
  (forall es, ~ entries (lpl - i) (skipn (Z.to_nat i) c) es) -> parse_ipl_loop fuel c lpl i acc = Diverge.
Proof.
  induction fuel as [|fuel IH]; intros c lpl i acc Hi HN; [reflexivity|]. cbn [parse_ipl_loop].
  destruct ((i <? lpl) && (i <? len c)) eqn:EC.
  2:{ exfalso. apply (HN []). constructor. destruct (Z_lt_le_dec i lpl); [right|lia].
      apply skipn_all2. unfold len in EC. lia. }
  destruct (groups_dec (skipn (Z.to_nat i) c)) as [(e & x & s & HS & HE & HX)|HA].
  - destruct (ipl_len (S fuel) c i 1) as [n|] eqn:EL; [|reflexivity].
    assert (HLEN : (List.length (e ++ x :: s) = List.length c - Z.to_nat i)%nat) by (rewrite <- HS; apply skipn_length).
    rewrite app_length in HLEN. cbn [List.length] in HLEN.
    assert (n = 1 + len e) as ->.
    { destruct (Nat.lt_ge_cases (List.length e) (S fuel)) as [L|L].
      - rewrite (ipl_len_spec (S fuel) c i 1 e x s) in EL by
          (try assumption; try lia; now replace (i + 1 - 1) with i by lia). now injection EL as <-.
      - exfalso. revert EL. clear -HS HE L Hi.
        assert (G : forall k m e1, (k <= List.length e1)%nat -> 1 <= m -> Forall (fun b => 128 <= bz b) e1 ->
                    forall t, skipn (Z.to_nat (i + m - 1)) c = e1 ++ t -> ipl_len k c i m = None).
        { induction k as [|k IHk]; intros m e1 HL Hn HF t HT; [reflexivity|].
          destruct e1 as [|b e1]; cbn [List.length] in HL; [lia|]. cbn [ipl_len]. rewrite u8_val by lia.
          cbn [app] in HT. rewrite (val_head c (i + m - 1) _ _ ltac:(lia) HT), hi_bit.
          inversion HF; subst. replace (bz b <? 128) with false by lia.
          apply (IHk (m + 1) e1) with (t := t); [lia|lia|assumption|].
          replace (i + (m + 1) - 1) with (i + m - 1 + 1) by lia. apply (skipn_step c (i + m - 1) b); [lia|exact HT]. }
        rewrite (G (S fuel) 1 e L ltac:(lia) HE (x :: s)); [discriminate|]. now replace (i + 1 - 1) with i by lia. }
    apply IH; [unfold len; lia|]. intros es HES. apply (HN ((e ++ [x]) :: es)). rewrite HS. constructor; [lia|assumption|assumption|].
    replace (lpl - i - len e - 1) with (lpl - (i + (1 + len e))) by lia.
    replace s with (skipn (Z.to_nat (i + (1 + len e))) c); [exact HES|].
    replace (Z.to_nat (i + (1 + len e))) with (Z.to_nat i + (List.length e + 1))%nat by (unfold len; lia).
    rewrite <- skipn_skipn, HS. replace (List.length e + 1)%nat with (List.length (e ++ [x])) by (rewrite app_length; reflexivity).
    change (x :: s) with ([x] ++ s). rewrite app_assoc. now rewrite skipn_app, skipn_all, Nat.sub_diag.
  - rewrite ipl_len_none by (try lia; now replace (i + 1 - 1) with i by lia). reflexivity.
Qed.

(** Entries exist unless the last entry is never finished. *)
Lemma entries_dec lim s : (exists es, entries lim s es) \/ (forall es, ~ entries lim s es).
Proof.
  remember (List.length s) as n eqn:Hn. revert s lim Hn.
  induction n as [n IH] using (well_founded_induction Wf_nat.lt_wf). intros s lim Hn.
  destruct (Z_le_gt_dec lim 0) as [L|L]; [left; exists []; constructor; now left|].
  destruct s as [|b s0]; [left; exists []; constructor; now right|].
  assert (HU : forall e x s e' x' s', e ++ x :: s = e' ++ x' :: s' :> bytes ->
     Forall (fun b => 128 <= bz b) e -> bz x < 128 -> Forall (fun b => 128 <= bz b) e' -> bz x' < 128 ->
     e = e' /\ x = x' /\ s = s').
  { clear. intros e. induction e as [|a e IH]; intros x s [|a' e'] x' s' H H1 H2 H3 H4; cbn in H; injection H as Ha H; subst.
    - auto.
    - inversion H3; subst. lia.
    - inversion H1; subst. lia.
    - inversion H1; inversion H3; subst. destruct (IH x s e' x' s') as (-> & -> & ->); auto. }
  destruct (groups_dec (b :: s0)) as [(e & x & s & HS & HE & HX)|HA].
  - destruct (IH (List.length s)) with (s := s) (lim := lim - len e - 1) as [(es & HES)|HN]; [|reflexivity| |].
    + rewrite Hn, HS, app_length. cbn [List.length]. lia.
    + left. exists ((e ++ [x]) :: es). rewrite HS. constructor; auto. lia.
    + right. intros es H. inversion H as [? ? H0|? e' x' s' es' H0 H1 H2 H3 H4 H5]; subst.
      * destruct H0; [lia|discriminate].
      * match goal with HQ : _ = b :: s0 |- _ => rewrite HS in HQ; destruct (HU _ _ _ _ _ _ HQ) as (-> & -> & ->); auto end.
        now apply HN in H3.
  - right. intros es H. inversion H as [? ? H0|? e' x' s' es' H0 H1 H2 H3 H4 H5]; subst.
    + destruct H0; [lia|discriminate].
    + match goal with HQ : _ = b :: s0 |- _ => rewrite <- HQ in HA end. apply Forall_app in HA. destruct HA as [_ HA]. inversion HA; subst. lia.
Qed.
(** With no limit in the way: exactly when there is nothing or the last byte has
    its top bit clear. *)
Lemma entries_last lim s : len s <= lim ->
  (exists es, entries lim s es) <-> (s = [] \/ exists s' x, s = s' ++ [x] /\ bz x < 128).
Proof.
  intros HL. split.
  - intros (es & H). induction H as [lim s HE|lim e x s es H0 HE HX H IH].
    + left. destruct HE as [HE|HE]; [|exact HE]. destruct s; [reflexivity|]. unfold len in HL. cbn [List.length] in HL. lia.
    + right. unfold len in *. rewrite app_length in HL. cbn [List.length] in HL.
      destruct IH as [->|(s' & y & -> & HY)]; [lia| |].
      * exists e, x. auto.
      * exists (e ++ x :: s'), y. split; [now rewrite <- app_assoc|exact HY].
  - intros H. remember (List.length s) as n eqn:Hn. revert s lim Hn HL H.
    induction n as [n IH] using (well_founded_induction Wf_nat.lt_wf). intros s lim Hn HL H.
    destruct H as [->|(s' & x & HS & HX)]; [exists []; constructor; now right|].
    destruct (groups_dec s) as [(e & y & t & HS' & HE & HY)|HA].
    + assert (HT : t = [] \/ exists s' x, t = s' ++ [x] /\ bz x < 128).
      { destruct t as [|b t _] using rev_ind; [now left|right]. exists t, b. split; [reflexivity|].
        rewrite HS' in HS. change (y :: t ++ [b]) with ((y :: t) ++ [b]) in HS. rewrite app_assoc in HS.
        apply app_inj_tail in HS. destruct HS as (_ & ->). exact HX. }
      unfold len in HL. rewrite HS', app_length in HL, Hn. cbn [List.length] in HL, Hn.
      destruct (IH (List.length t)) with (s := t) (lim := lim - len e - 1) as (es & HES); [lia|reflexivity|unfold len; lia|exact HT|].
      exists ((e ++ [y]) :: es). rewrite HS'. constructor; auto. lia.
    + rewrite HS in HA. apply Forall_app in HA. destruct HA as [_ HA]. inversion HA; subst. lia.
Qed.

(** ** Segments *)
Lemma plt_says E op fuel d c start csiz es :
  entries (val c 0 2 - 3) (skipn 3 c) es -> len c < Z.of_nat fuel ->
  reported E op fuel d (BTb mPLT) c start csiz [] (leaves (plt_props c es)) [].
Proof.
  intros HE HF. unfold reported. start_says; [|exact tbl_nil|reflexivity..].
  match goal with |- emits _ (runMethod ?E ?rec ?fuel ?f) _ _ _ _ => change (runMethod E rec fuel f) with (validate_plt fuel f) end.
  unfold validate_plt. cbv zeta. cbn [s_opts s_contents].
  fields. rewrite (parse_ipl_spec fuel c (val c 0 2) 3 es) by (assumption || lia). eapply emits_eq; [run1|reflexivity..].
Qed.
Lemma plm_says E op fuel d c start csiz es :
  entries (val c 0 2 - 4) (skipn 4 c) es -> len c < Z.of_nat fuel ->
  reported E op fuel d (BTb mPLM) c start csiz [] (leaves (plm_props c es)) [].
Proof.
  intros HE HF. unfold reported. start_says; [|exact tbl_nil|reflexivity..].
  match goal with |- emits _ (runMethod ?E ?rec ?fuel ?f) _ _ _ _ => change (runMethod E rec fuel f) with (validate_plm fuel f) end.
  unfold validate_plm. cbv zeta. cbn [s_opts s_contents].
  fields. rewrite (parse_ipl_spec fuel c (val c 0 2) 4 es) by (assumption || lia). eapply emits_eq; [run1|reflexivity..].
Qed.
Lemma ipl_diverges E op fuel d c start csiz t o :
  (t, o) = (mPLT, 3) \/ (t, o) = (mPLM, 4) ->
  (forall es, ~ entries (val c 0 2 - o) (skipn (Z.to_nat o) c) es) ->
  validate E op fuel d (BTb t) c start csiz = Diverge \/ d = O.
Proof.
  intros Ht HN. destruct d as [|d]; [now right|left]. rewrite validate_S.
  destruct Ht as [Ht|Ht]; injection Ht as -> ->;
  [ change (runMethod E (validate E op fuel d) fuel ?f) with (validate_plt fuel f); unfold validate_plt
  | change (runMethod E (validate E op fuel d) fuel ?f) with (validate_plm fuel f); unfold validate_plm ];
  cbv zeta; cbn [s_contents]; rewrite ?u16_val by lia;
  repeat (erewrite bind_emits by apply (emits_int op));
  unfold bind, lift, parse_ipl; rewrite ipl_loop_none by (assumption || lia); reflexivity.
Qed.
