(** * Closed forms of validators: what a validator adds to its three trees *)

From Coq Require Import ZArith List Bool String Lia.
From Coq Require Import ZifyBool.
From Coq Require Import Init.Byte.
From Verif Require Import Py ByteConv ETree BV VSuper Spec PBase.
Import ListNotations.
Open Scope list_scope.
Open Scope Z_scope.

(** ** Slices and fields *)
Lemma slice_pos {A} (l : list A) a b :
  0 <= a -> 0 <= b -> slice l a b = firstn (Z.to_nat (b - a)) (skipn (Z.to_nat a) l).
Proof.
  intros Ha Hb. unfold slice, norm_ix, len. set (n := Z.of_nat (List.length l)).
  replace (a <? 0) with false by lia. replace (b <? 0) with false by lia.
  destruct (Z_le_gt_dec n a) as [L|L].
  - rewrite (skipn_all2 l (n := Z.to_nat (Z.min a n))) by lia.
    rewrite (skipn_all2 l (n := Z.to_nat a)) by lia. now rewrite !firstn_nil.
  - replace (Z.min a n) with a by lia.
    destruct (Z_le_gt_dec b n) as [L'|L'].
    + now replace (Z.min b n) with b by lia.
    + replace (Z.min b n) with n by lia.
      rewrite !firstn_all2; [reflexivity| |]; rewrite skipn_length; lia.
Qed.

Lemma slice_sub c a b : 0 <= a -> 0 <= b -> slice c a b = sub c a (b - a).
Proof. intros. now apply slice_pos. Qed.

Lemma len_sub c off n :
  0 <= off -> 0 <= n -> len (sub c off n) = Z.min n (Z.max 0 (len c - off)).
Proof.
  intros. unfold sub, len. rewrite firstn_length, skipn_length. lia.
Qed.

Lemma sub_whole c n : len c <= n -> sub c 0 n = c.
Proof. intros H. unfold sub. cbn [skipn Z.to_nat]. apply firstn_all2. unfold len in H. lia. Qed.

Lemma sub_sub c a n i m :
  0 <= a -> 0 <= n -> 0 <= i -> 0 <= m ->
  sub (sub c a n) i m = sub c (a + i) (Z.min m (Z.max 0 (n - i))).
Proof.
  intros. unfold sub. rewrite skipn_firstn_comm, firstn_firstn.
  replace (skipn (Z.to_nat i) (skipn (Z.to_nat a) c)) with (skipn (Z.to_nat (a + i)) c).
  - replace (Nat.min (Z.to_nat m) (Z.to_nat n - Z.to_nat i))
      with (Z.to_nat (Z.min m (Z.max 0 (n - i)))) by lia. reflexivity.
  - replace (Z.to_nat (a + i)) with (Z.to_nat i + Z.to_nat a)%nat by lia.
    generalize (Z.to_nat a) as k, (Z.to_nat i) as j. intros k j. revert c.
    induction k as [|k IH]; intros c.
    + now rewrite Nat.add_0_r.
    + destruct c as [|x c]; [now rewrite !skipn_nil|].
      rewrite Nat.add_succ_r. cbn [skipn]. apply IH.
Qed.

Lemma doConv_sub n c off : 0 <= off -> 0 < n -> doConv n (sub c off n) = val c off n.
Proof.
  intros Ho Hn. unfold doConv, val. rewrite len_sub by lia.
  destruct (off + n <=? len c) eqn:E.
  - replace (Z.min n (Z.max 0 (len c - off)) =? n) with true by lia. apply be_acc_0.
  - replace (Z.min n (Z.max 0 (len c - off)) =? n) with false by lia. reflexivity.
Qed.

Lemma u8_val c a b : b - a = 1 -> 0 <= a -> bytesToUnsignedChar (slice c a b) = val c a 1.
Proof. intros H Ha. rewrite slice_sub by lia. rewrite H. apply doConv_sub; lia. Qed.
Lemma u16_val c a b : b - a = 2 -> 0 <= a -> bytesToUShortInt (slice c a b) = val c a 2.
Proof. intros H Ha. rewrite slice_sub by lia. rewrite H. apply doConv_sub; lia. Qed.
Lemma u32_val c a b : b - a = 4 -> 0 <= a -> bytesToUInt (slice c a b) = val c a 4.
Proof. intros H Ha. rewrite slice_sub by lia. rewrite H. apply doConv_sub; lia. Qed.
Lemma u64_val c a b : b - a = 8 -> 0 <= a -> bytesToULongLong (slice c a b) = val c a 8.
Proof. intros H Ha. rewrite slice_sub by lia. rewrite H. apply doConv_sub; lia. Qed.

Lemma val_range c off n : 0 <= off -> 0 < n -> val c off n = -9999 \/ 0 <= val c off n < 256 ^ n.
Proof.
  intros Ho Hn. unfold val. destruct (off + n <=? len c) eqn:E; [right|now left].
  pose proof (beval_range (sub c off n)) as R. rewrite len_sub in R by lia.
  replace (Z.min n (Z.max 0 (len c - off))) with n in R by lia. exact R.
Qed.

Lemma val_readable c off n :
  0 <= off -> 0 < n -> off + n <= len c -> 0 <= val c off n < 256 ^ n.
Proof.
  intros. unfold val. replace (off + n <=? len c) with true by lia.
  pose proof (beval_range (sub c off n)) as R. rewrite len_sub in R by lia.
  replace (Z.min n (Z.max 0 (len c - off))) with n in R by lia. exact R.
Qed.

Lemma val_missing c off n : len c < off + n -> val c off n = -9999.
Proof. intros. unfold val. now replace (off + n <=? len c) with false by lia. Qed.

Lemma val_1_range c off : 0 <= off -> val c off 1 = -9999 \/ 0 <= val c off 1 <= 255.
Proof. intros H. destruct (val_range c off 1 H ltac:(lia)); lia. Qed.
Lemma val_2_range c off : 0 <= off -> val c off 2 = -9999 \/ 0 <= val c off 2 <= 65535.
Proof. intros H. destruct (val_range c off 2 H ltac:(lia)); lia. Qed.
Lemma val_4_range c off : 0 <= off -> val c off 4 = -9999 \/ 0 <= val c off 4 <= 4294967295.
Proof. intros H. destruct (val_range c off 4 H ltac:(lia)); lia. Qed.

(** ** Sequences *)
Lemma zseq_0 n : n <= 0 -> zseq n = [].
Proof. intros. unfold zseq. now replace (Z.to_nat n) with O by lia. Qed.
Lemma zseq_succ n : 0 <= n -> zseq (n + 1) = zseq n ++ [n].
Proof.
  intros H. unfold zseq. replace (Z.to_nat (n + 1)) with (S (Z.to_nat n)) by lia.
  rewrite seq_S, map_app. cbn. do 2 f_equal. lia.
Qed.
Lemma in_zseq n i : In i (zseq n) <-> 0 <= i < n.
Proof.
  unfold zseq. rewrite in_map_iff. split.
  - intros (k & <- & H). apply in_seq in H. lia.
  - intros H. exists (Z.to_nat i). split; [lia|]. apply in_seq. lia.
Qed.
Lemma len_zseq n : len (zseq n) = Z.max 0 n.
Proof. unfold zseq, len. rewrite map_length, seq_length. lia. Qed.

(** ** Emissions *)

(** Tests as they appear in the tree: non-verbose output drops passed tests. *)
Definition vis (verbose : bool) (T : list (string * bool)) : list elt :=
  flat_map (fun '(n, b) => if verbose || negb b then [leaf n (VBool b)] else []) T.

Definition app_st (s : st) (T C W : list elt) : st :=
  {| st_tests := st_tests s ++ T; st_chars := st_chars s ++ C; st_warns := st_warns s ++ W;
     st_ret := st_ret s; st_valid := st_valid s; st_tpl := st_tpl s |}.

Definition emits {A} (o : opts) (m : M A) (a : A)
           (T : list (string * bool)) (C W : list elt) : Prop :=
  forall s, m s = Ok (a, app_st s (vis (o_verbose o) T) C W).

Definition warnE (msg : pystr) : elt := leaf "warning" (VStr msg).

Lemma vis_app v T1 T2 : vis v (T1 ++ T2) = vis v T1 ++ vis v T2.
Proof. apply flat_map_app. Qed.

Lemma app_st_nil s : app_st s [] [] [] = s.
Proof. destruct s. unfold app_st. cbn. now rewrite !app_nil_r. Qed.

Lemma app_st_app s T1 C1 W1 T2 C2 W2 :
  app_st (app_st s T1 C1 W1) T2 C2 W2 = app_st s (T1 ++ T2) (C1 ++ C2) (W1 ++ W2).
Proof. unfold app_st. cbn. now rewrite !app_assoc. Qed.

Lemma emits_ret {A} o (a : A) : emits o (ret a) a [] [] [].
Proof. intros s. unfold ret. cbn. now rewrite app_st_nil. Qed.

Lemma emits_bind {A B} o (m : M A) (k : A -> M B) a b T1 C1 W1 T2 C2 W2 :
  emits o m a T1 C1 W1 -> emits o (k a) b T2 C2 W2 ->
  emits o (bind m k) b (T1 ++ T2) (C1 ++ C2) (W1 ++ W2).
Proof.
  intros H1 H2 s. unfold bind. rewrite H1, H2, app_st_app. now rewrite vis_app.
Qed.

Lemma emits_test o n b : emits o (testFor o n b) tt [(n, b)] [] [].
Proof.
  intros s. unfold testFor, add_test, ret, app_st, vis. cbn.
  destruct s, (o_verbose o), b; cbn; now rewrite ?app_nil_r.
Qed.

Lemma emits_char o n v : emits o (addCharacteristic n v) tt [] [leaf n v] [].
Proof. intros s. destruct s. cbv -[app]. now rewrite ?app_nil_r. Qed.

Lemma emits_int o n z : emits o (addInt n z) tt [] [leaf n (VInt z)] [].
Proof. apply emits_char. Qed.

Lemma emits_add_char o e : emits o (add_char e) tt [] [e] [].
Proof. intros s. destruct s. cbv -[app]. now rewrite ?app_nil_r. Qed.

Lemma emits_warning o msg : emits o (addWarning msg) tt [] [] [warnE msg].
Proof. intros s. destruct s. cbv -[app]. now rewrite ?app_nil_r. Qed.

Lemma emits_lift {A} o (a : A) : emits o (lift (Ok a)) a [] [] [].
Proof. intros s. unfold lift. now rewrite app_st_nil. Qed.

Lemma emits_when o (b : bool) m T C W :
  emits o m tt T C W ->
  emits o (when b m) tt (if b then T else []) (if b then C else []) (if b then W else []).
Proof. intros H. destruct b; [exact H | apply emits_ret]. Qed.

Lemma emits_if {A} o (b : bool) (m1 m2 : M A) a1 a2 T1 T2 C1 C2 W1 W2 :
  emits o m1 a1 T1 C1 W1 -> emits o m2 a2 T2 C2 W2 ->
  emits o (if b then m1 else m2) (if b then a1 else a2) (if b then T1 else T2)
        (if b then C1 else C2) (if b then W1 else W2).
Proof. intros. now destruct b. Qed.

Lemma emits_if_same {A} o (b : bool) (m1 m2 : M A) a T1 T2 C1 C2 W1 W2 :
  emits o m1 a T1 C1 W1 -> emits o m2 a T2 C2 W2 ->
  emits o (if b then m1 else m2) a (if b then T1 else T2)
        (if b then C1 else C2) (if b then W1 else W2).
Proof. intros. now destruct b. Qed.

Lemma emits_eq {A} o (m : M A) a a' T T' C C' W W' :
  emits o m a T C W -> a = a' -> T = T' -> C = C' -> W = W' -> emits o m a' T' C' W'.
Proof. intros; now subst. Qed.

(** Loop whose state after i iterations is [stf i]. *)
Lemma emits_for_n {S} o k i0 (stf : Z -> S) (f : Z -> S -> M S) T C W :
  (forall i, i0 <= i < i0 + Z.of_nat k -> emits o (f i (stf i)) (stf (i + 1)) (T i) (C i) (W i)) ->
  emits o (for_n k i0 (stf i0) f) (stf (i0 + Z.of_nat k))
        (flat_map T (map (fun j => i0 + Z.of_nat j) (seq 0 k)))
        (flat_map C (map (fun j => i0 + Z.of_nat j) (seq 0 k)))
        (flat_map W (map (fun j => i0 + Z.of_nat j) (seq 0 k))).
Proof.
  revert i0. induction k as [|k IH]; intros i0 H.
  - cbn. rewrite Z.add_0_r. apply emits_ret.
  - assert (HM : map (fun j => i0 + Z.of_nat j) (seq 0 (Datatypes.S k)) =
                 i0 :: map (fun j => (i0 + 1) + Z.of_nat j) (seq 0 k)).
    { cbn [seq map]. f_equal; [lia|]. rewrite <- seq_shift, map_map.
      apply map_ext. intros. lia. }
    rewrite HM. cbn [flat_map for_n].
    eapply emits_bind; [apply H; lia|].
    replace (i0 + Z.of_nat (Datatypes.S k)) with (i0 + 1 + Z.of_nat k) by lia.
    apply IH. intros i Hi. apply H. lia.
Qed.

Lemma emits_for {S} o n (stf : Z -> S) s0 (f : Z -> S -> M S) T C W :
  stf 0 = s0 ->
  (forall i, 0 <= i < n -> emits o (f i (stf i)) (stf (i + 1)) (T i) (C i) (W i)) ->
  emits o (for_range n s0 f) (stf (Z.max 0 n))
        (flat_map T (zseq n)) (flat_map C (zseq n)) (flat_map W (zseq n)).
Proof.
  intros <- H. unfold for_range, zseq.
  pose proof (emits_for_n o (Z.to_nat n) 0 stf f T C W) as HE.
  replace (0 + Z.of_nat (Z.to_nat n)) with (Z.max 0 n) in HE by lia.
  apply HE. intros i Hi. apply H. lia.
Qed.

Lemma flat_map_nil {A B} (l : list A) : flat_map (fun _ => @nil B) l = [].
Proof. induction l; [reflexivity | exact IHl]. Qed.

(** ** From emissions to results of [validate] *)
Lemma anyFalse_node t k : anyFalse (node t k) = existsb anyFalse k.
Proof.
  cbn. induction k as [|e k IH]; [reflexivity|]. cbn [existsb]. rewrite <- IH. reflexivity.
Qed.

Lemma existsb_vis v T : existsb anyFalse (vis v T) = negb (forallb snd T).
Proof.
  induction T as [|[n b] T IH]; [reflexivity|].
  cbn [vis flat_map forallb snd]. fold (vis v T).
  rewrite existsb_app, IH. destruct v, b; cbn; try reflexivity.
Qed.

Lemma validate_emits E op fuel d t c start csiz T C W :
  emits op (runMethod E (validate E op fuel d) fuel
              {| s_opts := op; s_btype := t; s_contents := c; s_start := start; s_csiz := csiz |})
        tt T C W ->
  validate E op fuel (S d) t c start csiz =
  Ok {| r_tests := node (testRoot t) (vis (o_verbose op) T);
        r_chars := node (charRoot t) C;
        r_warns := node (warnRoot t) W;
        r_ret := VNone; r_valid := VNone; r_tpl := VNone |}.
Proof.
  intros H. cbn [validate]. now rewrite H.
Qed.

Lemma emits_ret_eq {A} o (a b : A) : a = b -> emits o (ret a) b [] [] [].
Proof. intros <-. apply emits_ret. Qed.

(** Symbolic execution of straight-line validators. *)
Ltac estep :=
  lazymatch goal with
  | |- emits _ (bind _ _) _ _ _ _ => eapply emits_bind
  | |- emits _ (testFor _ _ _) _ _ _ _ => apply emits_test
  | |- emits _ (addCharacteristic _ _) _ _ _ _ => apply emits_char
  | |- emits _ (addInt _ _) _ _ _ _ => apply emits_int
  | |- emits _ (add_char _) _ _ _ _ => apply emits_add_char
  | |- emits _ (addWarning _) _ _ _ _ => apply emits_warning
  | |- emits _ (ret _) _ _ _ _ => first [apply emits_ret | apply emits_ret_eq]
  | |- emits _ (lift (Ok _)) _ _ _ _ => apply emits_lift
  | |- emits _ (when _ _) _ _ _ _ => eapply emits_when
  | |- emits _ (if _ then _ else _) _ _ _ _ => first [eapply emits_if_same | eapply emits_if]
  end.
