(** * Properties of packet-length parsing (PLT and PLM segments) *)

From Coq Require Import ZArith List Bool String Lia.
From Coq Require Import ZifyBool.
From Coq Require Import Init.Byte.
From Verif Require Import Py PyFloat ByteConv ETree BV VMarkers VSuper Spec SpecBox SpecIPL SpecTop
     PBase PEmit PLeaf PLeaf2 PIPL PTop Ex.
Import ListNotations.
Open Scope string_scope.
Open Scope list_scope.
Open Scope Z_scope.

(** [t] is one of the two markers, [o] the offset of its packet lengths. *)
Definition ipl_seg (t : bytes) (o : Z) : Prop := (t, o) = (mPLT, 3) \/ (t, o) = (mPLM, 4).
Definition ipl_props (t : bytes) (c : bytes) (es : list bytes) : list (string * value) :=
  if bytes_eqb t mPLT then plt_props c es else plm_props c es.
Definition ipl_tag (t : bytes) : string := if bytes_eqb t mPLT then "plt" else "plm".

Lemma ipl_gives E op t o c start csz es : ipl_seg t o ->
  entries (val c 0 2 - o) (skipn (Z.to_nat o) c) es ->
  exists r, gives E op (BTb t) c start csz r /\
    says (o_verbose op) (ipl_tag t) [] (leaves (ipl_props t c es)) [] r.
Proof.
  intros Ht HE. assert (HF : len c < Z.of_nat (S (List.length c))) by (unfold len; lia).
  destruct Ht as [Ht|Ht]; injection Ht as -> ->.
  - destruct (plt_says E op (S (List.length c)) 0 c start csz es HE HF) as (r & HV & HS & _).
    exists r. split; [now eexists _, _; exact HV|exact HS].
  - destruct (plm_says E op (S (List.length c)) 0 c start csz es HE HF) as (r & HV & HS & _).
    exists r. split; [now eexists _, _; exact HV|exact HS].
Qed.

(** C16.  The analysis of a PLT or PLM segment ends exactly when the packet lengths
    that begin inside the segment all end, and never raises; otherwise it runs for
    ever. *)
Theorem C16_terminates_iff E op t o c start csz : ipl_seg t o ->
  ((exists r, gives E op (BTb t) c start csz r) <->
   (exists es, entries (val c 0 2 - o) (skipn (Z.to_nat o) c) es)).
Proof.
  intros Ht. split.
  - intros (r & HG). destruct (entries_dec (val c 0 2 - o) (skipn (Z.to_nat o) c)) as [HE|HE]; [exact HE|].
    exfalso. destruct (gives_at _ _ _ _ _ _ _ O 1 HG) as (f & d & _ & Hd & HV).
    destruct (ipl_diverges E op f d c start csz t o Ht HE) as [HD|HD]; [congruence|lia].
  - intros (es & HE). destruct (ipl_gives E op t o c start csz es Ht HE) as (r & HG & _). eauto.
Qed.
Print Assumptions C16_terminates_iff.

Theorem C16_loops_otherwise E op t o c start csz : ipl_seg t o ->
  (forall es, ~ entries (val c 0 2 - o) (skipn (Z.to_nat o) c) es) -> loops E op (BTb t) c start csz.
Proof.
  intros Ht HN. exists 1%nat. intros fuel d Hd.
  destruct (ipl_diverges E op fuel d c start csz t o Ht HN) as [HD|HD]; [exact HD|lia].
Qed.
Print Assumptions C16_loops_otherwise.

Lemma skipn_last {A} n (c c' : list A) x : (n <= List.length c')%nat -> c = c' ++ [x] -> skipn n c = skipn n c' ++ [x].
Proof. intros H ->. rewrite skipn_app. replace (n - List.length c')%nat with O by lia. reflexivity. Qed.

(** In a complete segment (as many bytes as its length field says, or fewer): the
    last byte decides. *)
Theorem C16_terminates_complete E op t o c start csz : ipl_seg t o -> len c <= val c 0 2 ->
  ((exists r, gives E op (BTb t) c start csz r) <->
   (len c <= o \/ exists c' x, c = c' ++ [x] /\ bz x < 128)).
Proof.
  intros Ht HC. rewrite (C16_terminates_iff E op t o c start csz Ht).
  assert (Ho : 0 <= o) by (destruct Ht as [H|H]; injection H as _ ->; lia).
  assert (HL : len (skipn (Z.to_nat o) c) = Z.max 0 (len c - o)) by (unfold len; rewrite skipn_length; lia).
  destruct (Z_le_gt_dec (len c) o) as [L|L].
  - split; [intros _; now left|]. intros _. exists []. constructor. right.
    apply skipn_all2. unfold len in L. lia.
  - rewrite entries_last by lia. split.
    + intros [H|(s' & x & H & HX)]; [rewrite H in HL; cbn in HL; lia|]. right.
      exists (firstn (Z.to_nat o) c ++ s'), x. split; [|exact HX].
      rewrite <- app_assoc, <- H. symmetry. apply firstn_skipn.
    + intros [H|(c' & x & H & HX)]; [lia|]. right. exists (skipn (Z.to_nat o) c'), x. split; [|exact HX].
      apply skipn_last; [|exact H]. rewrite H in L. unfold len in L. rewrite app_length in L. cbn in L. lia.
Qed.
Print Assumptions C16_terminates_complete.

Definition plt_ex (l : list byte) : bytes := [x00; byte_of_Z (3 + len l); x00] ++ l.
Example C16_terminates_ex :
  texts (run "jp2" (BTb mPLT) (plt_ex [x05; x81; x02; x7f]) VNone) =
    [("lplt", VInt 7); ("zplt", VInt 0); ("iplt", VStr (pys "05,0082,7F"))].
Proof. now vm_compute. Qed.

(** The claim that parsing always ends is false: a PLT segment whose only length
    byte announces a continuation. *)
Theorem C16_always_terminates_refuted :
  exists c, len c = val c 0 2 /\ forall E op start csz, loops E op (BTb mPLT) c start csz.
Proof.
  exists (plt_ex [x80]). split; [reflexivity|]. intros E op start csz.
  assert (HL : ipl_seg mPLT 3) by now left. apply (C16_loops_otherwise E op mPLT 3 _ start csz HL).
  intros es HE. assert (H : exists es, entries 1 [x80] es) by (exists es; exact HE).
  apply entries_last in H; [|cbn; lia]. destruct H as [H|(s' & x & H & HX)]; [discriminate|].
  destruct s' as [|a s']; [injection H as <-; cbn in HX; lia|]. destruct s'; discriminate.
Qed.
Print Assumptions C16_always_terminates_refuted.

(** C17.  What is displayed for packet lengths written in 7-bit groups. *)
Lemma encode_S n v : encode (S n) v =
  byte_of_Z ((if Nat.eqb n 0 then 0 else 128) + v / 128 ^ Z.of_nat n mod 128) :: encode n v.
Proof. unfold encode. rewrite seq_S, rev_app_distr. reflexivity. Qed.
Lemma encode_len n v : List.length (encode n v) = n.
Proof. unfold encode. now rewrite map_length, rev_length, seq_length. Qed.
Lemma encode_split n v : exists e x, encode (S n) v = e ++ [x] /\ Forall (fun b => 128 <= bz b) e /\ bz x < 128.
Proof.
  induction n as [|n (e & x & IH & HE & HX)].
  - exists [], (byte_of_Z (v mod 128)). split; [|split; [constructor|]].
    + rewrite encode_S. cbn. now rewrite Z.div_1_r.
    + pose proof (Z.mod_pos_bound v 128). rewrite bz_byte_of_Z; lia.
  - eexists (_ :: e), x. split; [rewrite encode_S, IH; reflexivity|]. split; [|exact HX]. constructor; [|exact HE].
    pose proof (Z.mod_pos_bound (v / 128 ^ Z.of_nat (S n)) 128). cbn [Nat.eqb]. rewrite bz_byte_of_Z; lia.
Qed.
Lemma packet_length_cons b e : packet_length (b :: e) = bz b mod 128 * 128 ^ len e + packet_length e.
Proof.
  induction e as [|x e IH] using rev_ind; [cbn; lia|].
  change (b :: e ++ [x]) with ((b :: e) ++ [x]). rewrite !plen_snoc, IH.
  unfold len. rewrite app_length, Nat2Z.inj_add. change (Z.of_nat (List.length [x])) with 1.
  rewrite Z.pow_add_r by lia. ring.
Qed.
Lemma encode_value n v : packet_length (encode n v) = v mod 128 ^ Z.of_nat n.
Proof.
  induction n as [|n IH]; [now rewrite Z.mod_1_r|]. rewrite encode_S, packet_length_cons, IH.
  unfold len. rewrite encode_len.
  pose proof (Z.mod_pos_bound (v / 128 ^ Z.of_nat n) 128 ltac:(lia)) as HB.
  assert (HM : bz (byte_of_Z ((if Nat.eqb n 0 then 0 else 128) + v / 128 ^ Z.of_nat n mod 128)) mod 128
    = v / 128 ^ Z.of_nat n mod 128).
  { rewrite bz_byte_of_Z by (destruct (Nat.eqb n 0); lia). destruct (Nat.eqb n 0); [rewrite Z.mod_small; lia|].
    rewrite <- (Z.mul_1_l 128) at 1. rewrite Z.add_comm, Z.mod_add by lia. now rewrite Z.mod_small. }
  rewrite HM, Nat2Z.inj_succ, Z.pow_succ_r by lia. rewrite (Z.mul_comm 128), Z.rem_mul_r by lia. lia.
Qed.
Lemma encode_entries (vs : list (nat * Z)) : Forall (fun p => (0 < fst p)%nat) vs ->
  forall s, s = List.concat (map (fun p => encode (fst p) (snd p)) vs) ->
  entries (len s) s (map (fun p => encode (fst p) (snd p)) vs).
Proof.
  induction 1 as [|[n v] vs Hn _ IH]; intros s ->; cbn [map List.concat fst snd] in *; [constructor; now right|].
  destruct n as [|n]; [lia|]. destruct (encode_split n v) as (e & x & HE & H1 & H2). rewrite HE.
  rewrite <- app_assoc. cbn [app]. constructor; try assumption.
  - unfold len. rewrite app_length. cbn [List.length]. lia.
  - match goal with |- entries ?l ?s _ => replace l with (len s) end; [now apply IH|].
    unfold len. rewrite app_length. cbn [List.length]. lia.
Qed.

(** Head bytes [h] followed by packet lengths [v], each in [n] bytes: what is
    displayed is the low 14 bits of each length, with two hexadecimal digits per
    byte. *)
Theorem C17_displayed E op t o h vs start csz :
  ipl_seg t o -> len h = o ->
  let c := h ++ List.concat (map (fun p => encode (fst p) (snd p)) vs) in
  val c 0 2 = len c ->
  Forall (fun p => (0 < fst p)%nat /\ 0 <= snd p < 128 ^ Z.of_nat (fst p)) vs ->
  exists r, gives E op (BTb t) c start csz r /\
    says (o_verbose op) (ipl_tag t) []
      (leaves (ipl_props t c (map (fun p => encode (fst p) (snd p)) vs))) [] r /\
    map entry_shown (map (fun p => encode (fst p) (snd p)) vs) =
    map (fun p => hexw (2 * fst p) (snd p mod 16384)) vs.
Proof.
  intros Ht Hh c HC HV.
  assert (HE : entries (val c 0 2 - o) (skipn (Z.to_nat o) c) (map (fun p => encode (fst p) (snd p)) vs)).
  { subst c. set (s := List.concat _) in *. rewrite HC. rewrite skipn_app, skipn_all2 by (unfold len in *; lia).
    replace (Z.to_nat o - List.length h)%nat with O by (unfold len in *; lia). cbn [skipn app].
    replace (len (h ++ s) - o) with (len s) by (unfold len in *; rewrite app_length; lia).
    apply encode_entries; [|reflexivity]. eapply Forall_impl; [|exact HV]. now intros p []. }
  destruct (ipl_gives E op t o c start csz _ Ht HE) as (r & HG & HS). exists r. split; [exact HG|]. split; [exact HS|].
  rewrite map_map. apply map_ext_in. intros [n v] Hp. rewrite Forall_forall in HV. specialize (HV _ Hp). cbn [fst snd] in *.
  unfold entry_shown. rewrite encode_len, encode_value, (Z.mod_small v) by lia. reflexivity.
Qed.
Print Assumptions C17_displayed.

(** Lengths below 2^14 are displayed exactly, whatever the number of bytes; in
    particular all lengths of one or two bytes. *)
Theorem C17_exact E op t o h vs start csz :
  ipl_seg t o -> len h = o ->
  let c := h ++ List.concat (map (fun p => encode (fst p) (snd p)) vs) in
  val c 0 2 = len c ->
  Forall (fun p => (0 < fst p)%nat /\ 0 <= snd p < 128 ^ Z.of_nat (fst p) /\ snd p < 16384) vs ->
  exists r es, gives E op (BTb t) c start csz r /\
    says (o_verbose op) (ipl_tag t) [] (leaves (ipl_props t c es)) [] r /\
    map entry_shown es = map (fun p => hexw (2 * fst p) (snd p)) vs.
Proof.
  intros Ht Hh c HC HV. destruct (C17_displayed E op t o h vs start csz Ht Hh HC) as (r & HG & HS & HM).
  { eapply Forall_impl; [|exact HV]. cbv beta. tauto. }
  eexists r, _. split; [exact HG|]. split; [exact HS|]. rewrite HM. apply map_ext_in.
  intros p Hp. rewrite Forall_forall in HV. specialize (HV p Hp). rewrite Z.mod_small by lia. reflexivity.
Qed.
Print Assumptions C17_exact.
Example C17_exact_ex :
  let c := [x00; x08; x00] ++ encode 1 5 ++ encode 2 16383 ++ encode 2 130 in
  val c 0 2 = len c /\
  texts (run "jp2" (BTb mPLT) c VNone) =
    [("lplt", VInt 8); ("zplt", VInt 0); ("iplt", VStr (pys "05,3FFF,0082"))] /\
  c = [x00; x08; x00; x05; xff; x7f; x81; x02].
Proof. now vm_compute. Qed.

(** The general claim is false: 16384 takes three bytes and is displayed as 0. *)
Theorem C17_exact_refuted :
  exists n v c r, 0 <= v < 128 ^ Z.of_nat n /\ c = [x00; x06; x00] ++ encode n v /\ val c 0 2 = len c /\
    gives E0 (op "jp2" false) (BTb mPLT) c VNone VNone r /\
    map (fun e => (etag e, etext e)) (ekids (r_chars r)) =
      [("lplt", VInt 6); ("zplt", VInt 0); ("iplt", VStr (hexw (2 * n) 0))] /\ v = 16384.
Proof.
  exists 3%nat, 16384, ([x00; x06; x00] ++ encode 3 16384). eexists. split; [cbn; lia|]. split; [reflexivity|].
  split; [reflexivity|]. split; [exists 10%nat, 2%nat; vm_compute; reflexivity|]. split; [now vm_compute|reflexivity].
Qed.
Print Assumptions C17_exact_refuted.
