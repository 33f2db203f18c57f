(** * Basic lemmas on the value model *)

From Coq Require Import ZArith List Bool String Lia.
From Coq Require Import ZifyBool.
From Coq Require Import Init.Byte.
From Verif Require Import Py ByteConv Spec.
Import ListNotations.
Open Scope Z_scope.

(** ** Lengths *)
Lemma len_nil {A} : len (@nil A) = 0. Proof. reflexivity. Qed.
Lemma len_cons {A} (x : A) l : len (x :: l) = 1 + len l.
Proof. unfold len. cbn [List.length]. lia. Qed.
Lemma len_app {A} (l1 l2 : list A) : len (l1 ++ l2) = len l1 + len l2.
Proof. unfold len. rewrite app_length. lia. Qed.
Lemma len_nonneg {A} (l : list A) : 0 <= len l.
Proof. unfold len. lia. Qed.
Lemma len_map {A B} (f : A -> B) l : len (map f l) = len l.
Proof. unfold len. now rewrite map_length. Qed.
Lemma len_rev {A} (l : list A) : len (rev l) = len l.
Proof. unfold len. now rewrite rev_length. Qed.
Lemma len_repeat {A} (x : A) n : len (repeat x n) = Z.of_nat n.
Proof. unfold len. now rewrite repeat_length. Qed.
Lemma len_0 {A} (l : list A) : len l = 0 -> l = [].
Proof. destruct l; [reflexivity | rewrite len_cons; pose proof (len_nonneg l); lia]. Qed.

(** ** Bytes as numbers *)
Lemma bz_range b : 0 <= bz b <= 255.
Proof. unfold bz. pose proof (Byte.to_N_bounded b). lia. Qed.

Lemma bz_inj a b : bz a = bz b -> a = b.
Proof.
  unfold bz. intros H.
  assert (Byte.to_N a = Byte.to_N b) as H' by lia.
  pose proof (Byte.of_to_N a) as Ha. pose proof (Byte.of_to_N b) as Hb.
  rewrite H', Hb in Ha. now injection Ha.
Qed.

Lemma bz_byte_of_Z z : 0 <= z <= 255 -> bz (byte_of_Z z) = z.
Proof.
  intros H. unfold byte_of_Z, bz.
  destruct (Byte.of_N (Z.to_N z)) eqn:E.
  - apply Byte.to_of_N in E. rewrite E. lia.
  - apply Byte.of_N_None_iff in E. lia.
Qed.

Lemma byte_of_Z_bz b : byte_of_Z (bz b) = b.
Proof. apply bz_inj, bz_byte_of_Z, bz_range. Qed.

Lemma map_bz_inj a b : map bz a = map bz b -> a = b.
Proof.
  revert b. induction a as [|x a IH]; intros [|y b]; cbn; try discriminate; [easy|].
  intros H. injection H as Hx Hr. f_equal; [now apply bz_inj | now apply IH].
Qed.

Lemma map_bz_byte_of_Z l : Forall (fun z => 0 <= z <= 255) l -> map bz (map byte_of_Z l) = l.
Proof.
  induction 1; cbn; [reflexivity|]. rewrite bz_byte_of_Z by assumption. now f_equal.
Qed.

(** ** Equality tests *)
Lemma bytes_eqb_spec a b : bytes_eqb a b = true <-> a = b.
Proof.
  revert b. induction a as [|x a IH]; intros [|y b]; cbn; try (split; easy).
  rewrite andb_true_iff, IH. split.
  - intros [H ->]. apply Byte.byte_dec_bl in H. now subst.
  - intros H. injection H as -> ->. split; [|easy].
    apply Byte.byte_dec_lb. reflexivity.
Qed.
Lemma bytes_eqb_refl a : bytes_eqb a a = true.
Proof. now apply bytes_eqb_spec. Qed.
Lemma bytes_eqb_neq a b : bytes_eqb a b = false <-> a <> b.
Proof.
  split.
  - intros H ->. rewrite bytes_eqb_refl in H. discriminate.
  - intros H. destruct (bytes_eqb a b) eqn:E; [|reflexivity].
    apply bytes_eqb_spec in E. contradiction.
Qed.

Lemma pystr_eqb_spec a b : pystr_eqb a b = true <-> a = b.
Proof.
  revert b. induction a as [|x a IH]; intros [|y b]; cbn; try (split; easy).
  rewrite andb_true_iff, IH, Z.eqb_eq. split.
  - intros [-> ->]. reflexivity.
  - intros H. injection H as -> ->. easy.
Qed.

Lemma Zin_spec x l : Zin x l = true <-> In x l.
Proof.
  unfold Zin. rewrite existsb_exists. split.
  - intros (y & Hy & E). apply Z.eqb_eq in E. now subst.
  - intros H. exists x. now rewrite Z.eqb_refl.
Qed.

Lemma bin_spec x l : bin x l = true <-> In x l.
Proof.
  unfold bin. rewrite existsb_exists. split.
  - intros (y & Hy & E). apply bytes_eqb_spec in E. now subst.
  - intros H. exists x. now rewrite bytes_eqb_refl.
Qed.

Lemma in_rng_spec b lo hi : in_rng b lo hi = true <-> lo <= b <= hi.
Proof. unfold in_rng. lia. Qed.

(** ** Big-endian values *)
Lemma be_acc_eq l acc : be_acc acc l = acc * 256 ^ len l + beval l.
Proof.
  revert acc. induction l as [|b l IH]; intros acc.
  - unfold be_acc. cbn. lia.
  - change (be_acc acc (b :: l)) with (be_acc (acc * 256 + bz b) l).
    rewrite IH, len_cons, Z.pow_add_r by (first [lia | apply len_nonneg]).
    cbn [beval]. lia.
Qed.

Lemma be_acc_0 l : be_acc 0 l = beval l.
Proof. rewrite be_acc_eq. lia. Qed.

Lemma beval_range l : 0 <= beval l < 256 ^ len l.
Proof.
  induction l as [|b l IH]; [cbn; lia|].
  rewrite len_cons, Z.pow_add_r by (first [lia | apply len_nonneg]).
  cbn [beval]. pose proof (bz_range b). nia.
Qed.

Lemma beval_inj a b : len a = len b -> beval a = beval b -> a = b.
Proof.
  revert b. induction a as [|x a IH]; intros [|y b] HL HV; try easy.
  - rewrite !len_cons in HL. assert (len a = len b) as HL' by lia.
    cbn [beval] in HV. rewrite HL' in HV.
    pose proof (beval_range a) as Ra. pose proof (beval_range b) as Rb. rewrite HL' in Ra.
    assert (bz x = bz y) as Hx by nia.
    f_equal; [now apply bz_inj|]. apply IH; [assumption|]. rewrite Hx in HV. lia.
Qed.

Lemma beval_app a b : beval (a ++ b) = beval a * 256 ^ len b + beval b.
Proof.
  induction a as [|x a IH]; [cbn; lia|].
  cbn [beval app]. rewrite IH, len_app, Z.pow_add_r by apply len_nonneg. lia.
Qed.

(** ** Fixed-width decoders *)
Lemma doConv_val n b : len b = n -> doConv n b = beval b.
Proof. intros H. unfold doConv. now rewrite H, Z.eqb_refl, be_acc_0. Qed.
Lemma doConv_bad n b : len b <> n -> doConv n b = -9999.
Proof. intros H. unfold doConv. apply Z.eqb_neq in H. now rewrite H. Qed.

Lemma beval_1 a : beval [a] = bz a.
Proof. cbn. lia. Qed.

(** ** Hexadecimal *)
Lemma unhex_hex d : 0 <= d <= 15 -> unhex (byte_of_Z (hex_lower d)) = Some d.
Proof.
  intros H. unfold unhex.
  assert (0 <= hex_lower d <= 255) as R by (unfold hex_lower; destruct (d <? 10) eqn:E; lia).
  rewrite bz_byte_of_Z by exact R. unfold hex_lower, in_rng.
  destruct (d <? 10) eqn:E.
  - replace ((48 <=? 48 + d) && (48 + d <=? 57)) with true by lia. f_equal. lia.
  - replace ((48 <=? 87 + d) && (87 + d <=? 57)) with false by lia.
    replace ((97 <=? 87 + d) && (87 + d <=? 102)) with true by lia. f_equal. lia.
Qed.

Lemma int16_cons acc b d l :
  unhex b = Some d -> int16_acc acc (b :: l) = int16_acc (acc * 16 + d) l.
Proof. intros H. cbn [int16_acc]. now rewrite H. Qed.

Lemma bytesToHex_cons b l :
  bytesToHex (b :: l) =
  byte_of_Z (hex_lower (bz b / 16)) :: byte_of_Z (hex_lower (bz b mod 16)) :: bytesToHex l.
Proof. reflexivity. Qed.

Lemma nibbles b : 0 <= bz b / 16 <= 15 /\ 0 <= bz b mod 16 <= 15.
Proof.
  pose proof (bz_range b). split.
  - split; [apply Z.div_pos; lia | apply Z.lt_succ_r, Z.div_lt_upper_bound; lia].
  - pose proof (Z.mod_pos_bound (bz b) 16 ltac:(lia)). lia.
Qed.

Lemma int16_hex acc l : int16_acc acc (bytesToHex l) = Some (acc * 256 ^ len l + beval l).
Proof.
  revert acc. induction l as [|b l IH]; intros acc.
  - cbn. f_equal. lia.
  - rewrite bytesToHex_cons. destruct (nibbles b) as [H1 H2].
    erewrite int16_cons by (apply unhex_hex; exact H1).
    erewrite int16_cons by (apply unhex_hex; exact H2).
    rewrite IH, len_cons, Z.pow_add_r by (first [lia | apply len_nonneg]). cbn [beval].
    f_equal. pose proof (Z.div_mod (bz b) 16 ltac:(lia)). nia.
Qed.

Lemma bytesToInteger_val b : b <> [] -> bytesToInteger b = beval b.
Proof.
  intros H. unfold bytesToInteger.
  destruct b as [|x b]; [contradiction|].
  destruct (bytesToHex (x :: b)) eqn:E; [discriminate|].
  rewrite <- E, int16_hex. lia.
Qed.
