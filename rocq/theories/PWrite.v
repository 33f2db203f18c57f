(** * Writing boxes and marker segments, and splitting them again *)

From Coq Require Import ZArith List Bool String Lia.
From Coq Require Import Init.Byte.
From Coq Require Import ZifyBool.
From Verif Require Import Py PyFloat ByteConv ETree BV VSuper Spec SpecBox SpecWalk SpecCS PBase PEmit PWalk PSeg.
Import ListNotations.
Open Scope string_scope.
Open Scope list_scope.
Open Scope Z_scope.

Lemma len_be n z : len (be n z) = Z.of_nat n.
Proof. unfold be, len. now rewrite map_length, rev_length, seq_length. Qed.
Lemma be_S n z : be (S n) z = byte_of_Z (z / 256 ^ Z.of_nat n mod 256) :: be n z.
Proof. unfold be. rewrite seq_S, rev_app_distr. reflexivity. Qed.
Lemma beval_be n z : 0 <= z -> beval (be n z) = z mod 256 ^ Z.of_nat n.
Proof.
  intros Hz. induction n as [|n IH]; [cbn; now rewrite Z.mod_1_r|].
  rewrite be_S. cbn [beval]. fold (len (be n z)). rewrite ?len_be, IH.
  rewrite bz_byte_of_Z by (pose proof (Z.mod_pos_bound (z / 256 ^ Z.of_nat n) 256); lia).
  replace (Z.of_nat (S n)) with (Z.of_nat n + 1) by lia. rewrite Z.pow_add_r by lia. change (256 ^ 1) with 256.
  rewrite Z.rem_mul_r by lia. lia.
Qed.
Lemma val_app_l a b off n : 0 <= off -> 0 <= n -> off + n <= len a -> val (a ++ b) off n = val a off n.
Proof.
  intros Ho Hn H. unfold val. rewrite len_app. pose proof (len_nonneg b).
  replace (off + n <=? len a + len b) with true by lia. replace (off + n <=? len a) with true by lia. f_equal.
  unfold len in H. rewrite skipn_app, firstn_app, skipn_length.
  replace (Z.to_nat n - (List.length a - Z.to_nat off))%nat with O by lia. cbn [firstn]. now rewrite app_nil_r.
Qed.
Lemma val_app_r a b off n : len a <= off -> 0 <= n -> val (a ++ b) off n = val b (off - len a) n.
Proof.
  intros Ho Hn. unfold val. rewrite len_app. replace (off + n <=? len a + len b) with (off - len a + n <=? len b) by lia.
  destruct (_ <=? _); [|reflexivity]. f_equal. unfold len in *. rewrite skipn_app.
  rewrite (skipn_all2 a) by lia. cbn [app]. do 2 f_equal. lia.
Qed.
Lemma sub_app_l a b off n : 0 <= off -> off + n <= len a -> sub (a ++ b) off n = sub a off n.
Proof.
  intros Ho H. unfold sub, len in *. rewrite skipn_app, firstn_app, skipn_length.
  replace (Z.to_nat n - (List.length a - Z.to_nat off))%nat with O by lia. cbn [firstn]. now rewrite app_nil_r.
Qed.
Lemma sub_app_r a b off n : len a <= off -> sub (a ++ b) off n = sub b (off - len a) n.
Proof.
  intros Ho. unfold sub, len in *. rewrite skipn_app.
  rewrite (skipn_all2 a) by lia. cbn [app]. do 2 f_equal. lia.
Qed.
Lemma sub_all a n : n = len a -> sub a 0 n = a.
Proof. intros ->. apply sub_whole. lia. Qed.
Lemma val_be n z b k : 0 <= z < 256 ^ k -> k = Z.of_nat n -> val (be n z ++ b) 0 k = z.
Proof.
  intros Hz ->. rewrite val_app_l by (rewrite ?len_be; lia). unfold val. rewrite len_be.
  replace (0 + Z.of_nat n <=? Z.of_nat n) with true by lia. cbn [skipn Z.to_nat].
  rewrite firstn_all2 by (pose proof (len_be n z); unfold len in *; lia). rewrite beval_be by lia. apply Z.mod_small. lia.
Qed.
Lemma skipn_app_exact {A} (a b : list A) n : n = List.length a -> skipn n (a ++ b) = b.
Proof. intros ->. rewrite skipn_app, skipn_all2, PeanoNat.Nat.sub_diag by lia. reflexivity. Qed.

(** ** Boxes *)
Definition written (b : form * bytes * bytes) : bytes * bytes := (snd (fst b), snd b).

Lemma box_short t x s : len t = 4 -> len x + 8 < 256 ^ 4 ->
  let w := box_bytes (Short, t, x) ++ s in
  box_length w = len x + 8 /\ box_header w = 8 /\ sub w 4 4 = t /\ sub w 8 (len x) = x /\
  skipn (Z.to_nat (len x + 8)) w = s.
Proof.
  intros Ht Hx w. pose proof (len_nonneg x). unfold w, box_bytes.
  assert (HV : val ((be 4 (len x + 8) ++ t ++ x) ++ s) 0 4 = len x + 8) by (rewrite <- app_assoc; now apply val_be; [lia|]).
  assert (HL : len (be 4 (len x + 8)) = 4) by apply len_be.
  unfold box_length, box_header. rewrite HV. replace (len x + 8 =? 1) with false by lia.
  split; [reflexivity|]. split; [reflexivity|]. rewrite <- !app_assoc. split; [|split].
  - rewrite sub_app_r by lia. rewrite HL. rewrite sub_app_l by lia. apply sub_all. lia.
  - rewrite sub_app_r by lia. rewrite HL. rewrite sub_app_r by lia. rewrite Ht. change (8 - 4 - 4) with 0.
    rewrite sub_app_l by lia. apply sub_all. lia.
  - rewrite !app_assoc. apply skipn_app_exact. unfold len in *. rewrite !app_length. lia.
Qed.
Lemma box_extended t x s : len t = 4 -> len x + 16 < 256 ^ 8 ->
  let w := box_bytes (Extended, t, x) ++ s in
  box_length w = len x + 16 /\ box_header w = 16 /\ sub w 4 4 = t /\ sub w 16 (len x) = x /\
  skipn (Z.to_nat (len x + 16)) w = s.
Proof.
  intros Ht Hx w. pose proof (len_nonneg x). unfold w, box_bytes.
  assert (HV : val ((be 4 1 ++ t ++ be 8 (len x + 16) ++ x) ++ s) 0 4 = 1) by (rewrite <- app_assoc; now apply val_be; [lia|]).
  assert (HL : len (be 4 1) = 4) by apply len_be. assert (HL8 : len (be 8 (len x + 16)) = 8) by apply len_be.
  unfold box_length, box_header. rewrite HV. change (1 =? 1) with true. cbv iota. rewrite <- !app_assoc.
  split.
  { rewrite val_app_r by lia. rewrite HL, val_app_r by lia. rewrite Ht. change (8 - 4 - 4) with 0. now apply val_be; [lia|]. }
  split; [reflexivity|]. split; [|split].
  - rewrite sub_app_r by lia. rewrite HL. rewrite sub_app_l by lia. apply sub_all. lia.
  - rewrite sub_app_r by lia. rewrite HL. rewrite sub_app_r by lia. rewrite Ht. rewrite sub_app_r by lia. rewrite HL8.
    change (16 - 4 - 4 - 8) with 0. rewrite sub_app_l by lia. apply sub_all. lia.
  - rewrite !app_assoc. apply skipn_app_exact. unfold len in *. rewrite !app_length. lia.
Qed.
Lemma box_rest t x : len t = 4 ->
  let w := box_bytes (Rest, t, x) in
  box_length w = 0 /\ box_header w = 8 /\ sub w 4 4 = t /\ sub w 8 (len w) = x.
Proof.
  intros Ht w. pose proof (len_nonneg x). unfold w, box_bytes.
  assert (HV : val (be 4 0 ++ t ++ x) 0 4 = 0) by (now apply val_be; [lia|]).
  assert (HL : len (be 4 0) = 4) by apply len_be.
  unfold box_length, box_header. rewrite HV. change (0 =? 1) with false. cbv iota.
  split; [reflexivity|]. split; [reflexivity|]. split.
  - rewrite sub_app_r by lia. rewrite HL. rewrite sub_app_l by lia. apply sub_all. lia.
  - rewrite !len_app, HL, Ht. rewrite sub_app_r by lia. rewrite HL. rewrite sub_app_r by lia. rewrite Ht. change (8 - 4 - 4) with 0.
    apply sub_whole. lia.
Qed.
Lemma box_nonempty b s : fits b -> box_bytes b ++ s <> [].
Proof.
  destruct b as [[[] t] x]; cbn [fits box_bytes]; intros H HE; apply (f_equal (@List.length byte)) in HE;
    rewrite !app_length in HE; cbn in HE; discriminate.
Qed.

Lemma splits_step w t x L h s bs : box_length w = L -> box_header w = h -> sub w 4 4 = t -> sub w h (L - h) = x ->
  skipn (Z.to_nat L) w = s -> w <> [] -> 0 < L -> splits s bs -> splits w ((t, x) :: bs).
Proof. intros <- <- <- <- <- HN HL H. now apply splits_box. Qed.
Lemma splits_last w t x h : box_length w = 0 -> box_header w = h -> sub w 4 4 = t -> sub w h (len w) = x ->
  w <> [] -> splits w [(t, x)].
Proof. intros H0 <- <- <- HN. now apply splits_rest. Qed.
Lemma segs_step stop w m x L s l r : sub w 0 2 = m -> m <> stop -> seg_length w = L -> sub w 2 L = x ->
  skipn (Z.to_nat (L + 2)) w = s -> 0 <= L -> segs stop s l r -> segs stop w ((m, x) :: l) r.
Proof. intros <- HN <- <- <- HL H. now apply segs_more. Qed.

Theorem splits_written bs : Forall fits bs -> rest_last bs ->
  splits (List.concat (map box_bytes bs)) (map written bs).
Proof.
  intros HF. induction HF as [|b bs Hb HF IH]; intros HR; [constructor|].
  cbn [map List.concat]. assert (HR' : rest_last bs).
  { intros pre t x post ->. apply (HR (b :: pre) t x post). reflexivity. }
  specialize (IH HR'). pose proof (box_nonempty b (List.concat (map box_bytes bs)) Hb) as HN.
  destruct b as [[[] t] x]; cbn [fits] in Hb; unfold written at 1; cbn [fst snd].
  - destruct Hb as (Ht & Hx). destruct (box_short t x (List.concat (map box_bytes bs)) Ht Hx) as (H1 & H2 & H3 & H4 & H5).
    eapply splits_step; [exact H1|exact H2|exact H3| |exact H5|exact HN|pose proof (len_nonneg x); lia|exact IH].
    replace (len x + 8 - 8) with (len x) by lia. exact H4.
  - destruct Hb as (Ht & Hx). destruct (box_extended t x (List.concat (map box_bytes bs)) Ht Hx) as (H1 & H2 & H3 & H4 & H5).
    eapply splits_step; [exact H1|exact H2|exact H3| |exact H5|exact HN|pose proof (len_nonneg x); lia|exact IH].
    replace (len x + 16 - 16) with (len x) by lia. exact H4.
  - assert (bs = []) as -> by (apply (HR [] t x bs); reflexivity). cbn [map List.concat] in *. rewrite app_nil_r in *.
    destruct (box_rest t x Hb) as (H1 & H2 & H3 & H4). 
    change (splits (box_bytes (Rest, t, x)) [(t, x)]). eapply splits_last; [exact H1|exact H2|exact H3|exact H4|exact HN].
Qed.

(** ** Marker segments *)

(** Contents of a marker segment with payload [x]: the length field comes first. *)
Definition seg_body (x : bytes) : bytes := be 2 (len x + 2) ++ x.
Definition seg_bytes (s : bytes * bytes) : bytes := fst s ++ seg_body (snd s).
Definition seg_fits (s : bytes * bytes) : Prop :=
  len (fst s) = 2 /\ delimiter (fst s) = false /\ len (snd s) + 2 < 256 ^ 2.

Lemma len_seg_body x : len (seg_body x) = len x + 2.
Proof. unfold seg_body. rewrite len_app, len_be. lia. Qed.
Lemma seg_written m x s : seg_fits (m, x) ->
  let w := seg_bytes (m, x) ++ s in
  sub w 0 2 = m /\ seg_length w = len x + 2 /\ sub w 2 (len x + 2) = seg_body x /\ skipn (Z.to_nat (len x + 2 + 2)) w = s.
Proof.
  intros (Hm & Hd & Hx) w. cbn [fst snd] in *. pose proof (len_nonneg x). unfold w, seg_bytes. cbn [fst snd].
  assert (HM : sub ((m ++ seg_body x) ++ s) 0 2 = m) by (rewrite <- app_assoc, sub_app_l by lia; apply sub_all; lia).
  split; [exact HM|]. split; [|split].
  - unfold seg_length. rewrite HM, Hd, <- app_assoc, val_app_r by lia. rewrite Hm. change (2 - 2) with 0.
    unfold seg_body. rewrite <- app_assoc. apply val_be; [lia|reflexivity].
  - rewrite <- app_assoc, sub_app_r by lia. rewrite Hm. change (2 - 2) with 0. rewrite sub_app_l by (rewrite ?len_seg_body; lia).
    apply sub_all. now rewrite len_seg_body.
  - apply skipn_app_exact. rewrite app_length. pose proof (len_seg_body x) as HL. unfold len in *. lia.
Qed.

Theorem segs_written stop l s : Forall seg_fits l -> ~ In stop (map fst l) -> sub s 0 2 = stop ->
  segs stop (List.concat (map seg_bytes l) ++ s) (map (fun p => (fst p, seg_body (snd p))) l) (Some s).
Proof.
  intros HF HN HS. induction HF as [|[m x] l Hb HF IH]; [now constructor|].
  cbn [map List.concat fst snd] in *. rewrite <- app_assoc.
  destruct (seg_written m x (List.concat (map seg_bytes l) ++ s) Hb) as (H1 & H2 & H3 & H4).
  eapply segs_step; [exact H1| |exact H2|exact H3|exact H4|pose proof (len_nonneg x); lia|].
  - intros ->. apply HN. now left.
  - apply IH. intros H. apply HN. now right.
Qed.
(** After a first segment. *)
Theorem after_written stop m x l s : seg_fits (m, x) -> Forall seg_fits l -> ~ In stop (map fst l) -> sub s 0 2 = stop ->
  after stop (seg_bytes (m, x) ++ List.concat (map seg_bytes l) ++ s) (map (fun p => (fst p, seg_body (snd p))) l) (Some s).
Proof.
  intros Hx HF HN HS. destruct (seg_written m x (List.concat (map seg_bytes l) ++ s) Hx) as (H1 & H2 & H3 & H4).
  unfold after. rewrite H2. pose proof (len_nonneg x). replace (len x + 2 =? -9999) with false by lia. rewrite H4.
  now apply segs_written.
Qed.
Lemma contents_written m x s : seg_fits (m, x) -> seg_contents (seg_bytes (m, x) ++ s) = seg_body x.
Proof.
  intros Hx. destruct (seg_written m x s Hx) as (H1 & H2 & H3 & H4). unfold seg_contents. rewrite H2.
  pose proof (len_nonneg x). now replace (len x + 2 =? -9999) with false by lia.
Qed.

(** ** Main headers *)
Definition bodies (l : list (bytes * bytes)) : list (bytes * bytes) := map (fun p => (fst p, seg_body (snd p))) l.
Definition header_bytes (z : bytes) (l : list (bytes * bytes)) : bytes :=
  m_SOC ++ seg_bytes (m_SIZ, z) ++ List.concat (map seg_bytes l).
Lemma second_written s : cs_second (m_SOC ++ s) = s.
Proof. unfold cs_second, seg_length. destruct s; reflexivity. Qed.
Lemma header_written z l s : seg_fits (m_SIZ, z) -> Forall seg_fits l -> ~ In m_SOT (map fst l) -> sub s 0 2 = m_SOT ->
  let c := header_bytes z l ++ s in
  cs_second c = seg_bytes (m_SIZ, z) ++ List.concat (map seg_bytes l) ++ s /\
  sub (cs_second c) 0 2 = m_SIZ /\ cs_siz c = seg_body z /\ after m_SOT (cs_second c) (bodies l) (Some s).
Proof.
  intros Hz HF HN HS c.
  assert (HC : cs_second c = seg_bytes (m_SIZ, z) ++ List.concat (map seg_bytes l) ++ s).
  { unfold c, header_bytes. rewrite <- !app_assoc. apply second_written. }
  split; [exact HC|]. unfold cs_siz. rewrite HC. split; [|split].
  - now destruct (seg_written m_SIZ z (List.concat (map seg_bytes l) ++ s) Hz).
  - now apply contents_written.
  - now apply after_written.
Qed.
