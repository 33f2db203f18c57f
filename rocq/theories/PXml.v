(** * Reading back what the serialisers write *)

From Coq Require Import ZArith List Bool String Lia ZifyBool.
From Verif Require Import Py ETree Main Serial SpecXml PBase.
Import ListNotations.
Open Scope string_scope.
Open Scope list_scope.
Open Scope Z_scope.

(** ** The readers without their counters *)
Lemma span_eq p s : fst (span p s) ++ snd (span p s) = s.
Proof. induction s as [|c r IH]; [reflexivity|]. cbn. destruct (p c); [|reflexivity]. destruct (span p r). cbn in *. now rewrite IH. Qed.
Lemma span_len p s a b : span p s = (a, b) -> (List.length b <= List.length s)%nat.
Proof. intros H. rewrite <- (span_eq p s), H, app_length. cbn. lia. Qed.
Lemma skip_len s : (List.length (skip_space s) <= List.length s)%nat.
Proof. unfold skip_space. destruct (span is_space s) eqn:H. now apply span_len in H. Qed.
Lemma eat_len p : forall s r, eat p s = Some r -> (List.length s = List.length p + List.length r)%nat.
Proof.
  induction p as [|x p IH]; intros s r; cbn; [intros [= ->]; reflexivity|]. destruct s as [|y s]; [discriminate|].
  destruct (x =? y); [|discriminate]. intros H. apply IH in H. cbn. lia.
Qed.
Lemma dec_len : forall s acc x r, read_dec acc s = Some (x, r) -> (List.length r < List.length s)%nat.
Proof.
  induction s as [|c s IH]; intros acc x r; cbn; [discriminate|].
  destruct (in_range c 48 57); [intros H; apply IH in H; lia|]. destruct (c =? 59); [|discriminate]. intros [= _ ->]. lia.
Qed.
Lemma ref_len s x r : read_ref s = Some (x, r) -> (List.length r < List.length s)%nat.
Proof.
  unfold read_ref.
  do 5 (match goal with |- context [eat ?p s] => destruct (eat p s) eqn:? end;
    [match goal with H : eat _ s = Some _ |- _ => apply eat_len in H; cbn in H end; intros [= _ ->]; lia|]).
  destruct s as [|h [|d s]]; try discriminate. destruct ((h =? 35) && in_range d 48 57); [|discriminate].
  destruct (read_dec 0 (d :: s)) as [[c r']|] eqn:H; [|discriminate]. destruct (is_char c); [|discriminate].
  intros [= _ ->]. apply dec_len in H. cbn in *. lia.
Qed.

Lemma text_len : forall n s x r, read_text n s = Some (x, r) -> (List.length r <= List.length s)%nat.
Proof.
  induction n as [|n IH]; intros s x r; cbn [read_text]; [discriminate|]. destruct s as [|c s]; [intros [= _ <-]; cbn; lia|].
  destruct (c =? 60); [intros [= _ <-]; lia|]. destruct (c =? 38).
  - destruct (read_ref s) as [[y r']|] eqn:HR; [|discriminate]. apply ref_len in HR.
    destruct (read_text n r') as [[t q]|] eqn:HT; [|discriminate]. apply IH in HT. intros [= _ <-]. cbn. lia.
  - destruct (negb (is_char c)); [discriminate|]. destruct (eat (pys "]]>") (c :: s)); [discriminate|].
    destruct (read_text n s) as [[t q]|] eqn:HT; [|discriminate]. apply IH in HT. intros [= _ <-]. cbn. lia.
Qed.
Lemma text_fuel : forall n m s, (List.length s < n)%nat -> (List.length s < m)%nat -> read_text n s = read_text m s.
Proof.
  induction n as [|n IH]; intros [|m] s Hn Hm; try lia. cbn [read_text]. destruct s as [|c s]; [reflexivity|]. cbn in Hn, Hm.
  destruct (c =? 60); [reflexivity|]. destruct (c =? 38).
  - destruct (read_ref s) as [[y r']|] eqn:HR; [|reflexivity]. apply ref_len in HR. rewrite (IH m r') by lia. reflexivity.
  - destruct (negb (is_char c)); [reflexivity|]. destruct (eat (pys "]]>") (c :: s)); [reflexivity|]. rewrite (IH m s) by lia. reflexivity.
Qed.
Definition text (s : pystr) := read_text (S (List.length s)) s.
Lemma text_of n s : (List.length s < n)%nat -> read_text n s = text s.
Proof. intros H. apply text_fuel; lia. Qed.

Lemma value_len qt : forall n s x r, read_value qt n s = Some (x, r) -> (List.length r < List.length s)%nat.
Proof.
  induction n as [|n IH]; intros s x r; cbn [read_value]; [discriminate|]. destruct s as [|c s]; [discriminate|].
  destruct (c =? qt); [intros [= _ <-]; cbn; lia|]. destruct (c =? 60); [discriminate|]. destruct (c =? 38).
  - destruct (read_ref s) as [[y r']|] eqn:HR; [|discriminate]. apply ref_len in HR.
    destruct (read_value qt n r') as [[t q]|] eqn:HT; [|discriminate]. apply IH in HT. intros [= _ <-]. cbn. lia.
  - destruct (negb (is_char c)); [discriminate|].
    destruct (read_value qt n s) as [[t q]|] eqn:HT; [|discriminate]. apply IH in HT. intros [= _ <-]. cbn. lia.
Qed.
Lemma value_fuel qt : forall n m s, (List.length s < n)%nat -> (List.length s < m)%nat -> read_value qt n s = read_value qt m s.
Proof.
  induction n as [|n IH]; intros [|m] s Hn Hm; try lia. cbn [read_value]. destruct s as [|c s]; [reflexivity|]. cbn in Hn, Hm.
  destruct (c =? qt); [reflexivity|]. destruct (c =? 60); [reflexivity|]. destruct (c =? 38).
  - destruct (read_ref s) as [[y r']|] eqn:HR; [|reflexivity]. apply ref_len in HR. rewrite (IH m r') by lia. reflexivity.
  - destruct (negb (is_char c)); [reflexivity|]. rewrite (IH m s) by lia. reflexivity.
Qed.
Definition value_ (qt : Z) (s : pystr) := read_value qt (S (List.length s)) s.
Lemma value_of qt n s : (List.length s < n)%nat -> read_value qt n s = value_ qt s.
Proof. intros H. apply value_fuel; lia. Qed.

Lemma attrs_len : forall n s x r, read_attrs n s = Some (x, r) -> (List.length r <= List.length s)%nat.
Proof.
  induction n as [|n IH]; intros s x r; cbn [read_attrs]; [discriminate|]. destruct s as [|c s]; [intros [= _ <-]; cbn; lia|].
  destruct (is_space c); [|intros [= _ <-]; cbn; lia].
  assert (H0 := skip_len s). destruct (span name_char (skip_space s)) as [k r1] eqn:HS. apply span_len in HS.
  destruct (is_name k); [|destruct k; [intros [= _ <-]; cbn; lia|discriminate]].
  destruct (eat [61] (skip_space r1)) as [r2|] eqn:HE; [|discriminate]. apply eat_len in HE. assert (H1 := skip_len r1).
  assert (H2 := skip_len r2). destruct (skip_space r2) as [|qt r3]; [discriminate|].
  destruct ((qt =? 34) || (qt =? 39)); [|discriminate].
  destruct (read_value qt (S (List.length r3)) r3) as [[v r4]|] eqn:HV; [|discriminate]. apply value_len in HV.
  destruct (read_attrs n r4) as [[l q]|] eqn:HA; [|discriminate]. apply IH in HA. destruct (existsb _ l); [discriminate|].
  intros [= _ <-]. cbn in *. lia.
Qed.
Lemma attrs_fuel : forall n m s, (List.length s < n)%nat -> (List.length s < m)%nat -> read_attrs n s = read_attrs m s.
Proof.
  induction n as [|n IH]; intros [|m] s Hn Hm; try lia. cbn [read_attrs]. destruct s as [|c s]; [reflexivity|]. cbn in Hn, Hm.
  destruct (is_space c); [|reflexivity].
  assert (H0 := skip_len s). destruct (span name_char (skip_space s)) as [k r1] eqn:HS. apply span_len in HS.
  destruct (is_name k); [|reflexivity].
  destruct (eat [61] (skip_space r1)) as [r2|] eqn:HE; [|reflexivity]. apply eat_len in HE. assert (H1 := skip_len r1).
  assert (H2 := skip_len r2). destruct (skip_space r2) as [|qt r3]; [reflexivity|].
  destruct ((qt =? 34) || (qt =? 39)); [|reflexivity].
  destruct (read_value qt (S (List.length r3)) r3) as [[v r4]|] eqn:HV; [|reflexivity]. apply value_len in HV.
  cbn in *. rewrite (IH m r4) by lia. reflexivity.
Qed.
Definition attrs (s : pystr) := read_attrs (S (List.length s)) s.
Lemma attrs_of n s : (List.length s < n)%nat -> read_attrs n s = attrs s.
Proof. intros H. apply attrs_fuel; lia. Qed.

Lemma nodes_len : forall n s x r, read_nodes n s = Some (x, r) -> (List.length r <= List.length s)%nat.
Proof.
  induction n as [|n IH]; intros s x r; cbn [read_nodes]; [discriminate|]. destruct s as [|c s]; [intros [= _ <-]; cbn; lia|].
  destruct (negb (c =? 60)).
  - destruct (read_text _ (c :: s)) as [[t r1]|] eqn:HT; [|discriminate]. apply text_len in HT.
    destruct (read_nodes n r1) as [[k q]|] eqn:HN; [|discriminate]. apply IH in HN. intros [= _ <-]. lia.
  - destruct (eat [47] s); [intros [= _ <-]; lia|]. destruct (span name_char s) as [nm r1] eqn:HS. apply span_len in HS.
    destruct (is_name nm); [|discriminate].
    destruct (read_attrs _ r1) as [[ats r2]|] eqn:HA; [|discriminate]. apply attrs_len in HA.
    destruct (eat (pys "/>") r2) as [r3|] eqn:HE.
    + apply eat_len in HE. cbn in HE. destruct (read_nodes n r3) as [[k q]|] eqn:HN; [|discriminate]. apply IH in HN. intros [= _ <-]. cbn. lia.
    + destruct (eat [62] r2) as [r3|] eqn:HE2; [|discriminate]. apply eat_len in HE2. cbn in HE2.
      destruct (read_nodes n r3) as [[inner r4]|] eqn:HN; [|discriminate]. apply IH in HN.
      destruct (eat (pys "</" ++ nm) r4) as [r5|] eqn:HE3; [|discriminate]. apply eat_len in HE3.
      assert (H5 := skip_len r5). destruct (eat [62] (skip_space r5)) as [r6|] eqn:HE4; [|discriminate]. apply eat_len in HE4.
      destruct (read_nodes n r6) as [[k q]|] eqn:HN6; [|discriminate]. apply IH in HN6. intros [= _ <-]. cbn in *. lia.
Qed.
Lemma nodes_fuel : forall n m s, (List.length s < n)%nat -> (List.length s < m)%nat -> read_nodes n s = read_nodes m s.
Proof.
  induction n as [|n IH]; intros [|m] s Hn Hm; try lia. cbn [read_nodes]. destruct s as [|c s]; [reflexivity|]. cbn in Hn, Hm.
  destruct (negb (c =? 60)) eqn:HC.
  - destruct (read_text _ (c :: s)) as [[t r1]|] eqn:HT; [|reflexivity].
    assert (HL : (List.length r1 <= List.length s)%nat).
    { cbn [read_text] in HT. destruct (c =? 60); [discriminate|]. destruct (c =? 38).
      - destruct (read_ref s) as [[y r']|] eqn:HR; [|discriminate]. apply ref_len in HR.
        destruct (read_text _ r') as [[t' q]|] eqn:HT'; [|discriminate]. apply text_len in HT'. injection HT as _ <-. lia.
      - destruct (negb (is_char c)); [discriminate|]. destruct (eat (pys "]]>") (c :: s)); [discriminate|].
        destruct (read_text _ s) as [[t' q]|] eqn:HT'; [|discriminate]. apply text_len in HT'. injection HT as _ <-. lia. }
    rewrite (IH m r1) by lia. reflexivity.
  - destruct (eat [47] s); [reflexivity|]. destruct (span name_char s) as [nm r1] eqn:HS. apply span_len in HS.
    destruct (is_name nm); [|reflexivity].
    destruct (read_attrs _ r1) as [[ats r2]|] eqn:HA; [|reflexivity]. apply attrs_len in HA.
    destruct (eat (pys "/>") r2) as [r3|] eqn:HE.
    + apply eat_len in HE. cbn in HE. rewrite (IH m r3) by lia. reflexivity.
    + destruct (eat [62] r2) as [r3|] eqn:HE2; [|reflexivity]. apply eat_len in HE2. cbn in HE2.
      rewrite (IH m r3) by lia. destruct (read_nodes m r3) as [[inner r4]|] eqn:HN; [|reflexivity]. apply nodes_len in HN.
      destruct (eat (pys "</" ++ nm) r4) as [r5|] eqn:HE3; [|reflexivity]. apply eat_len in HE3.
      assert (H5 := skip_len r5). destruct (eat [62] (skip_space r5)) as [r6|] eqn:HE4; [|reflexivity]. apply eat_len in HE4.
      cbn in *. rewrite (IH m r6) by lia. reflexivity.
Qed.
Definition nodes (s : pystr) := read_nodes (S (List.length s)) s.
Lemma nodes_of n s : (List.length s < n)%nat -> read_nodes n s = nodes s.
Proof. intros H. apply nodes_fuel; lia. Qed.

(** ** Equations *)
Lemma text_lt n c s t r1 : c <> 60 -> read_text n (c :: s) = Some (t, r1) -> (List.length r1 <= List.length s)%nat.
Proof.
  intros HC HT. destruct n as [|n]; [discriminate|].
  cbn [read_text] in HT. destruct (c =? 60) eqn:E; [lia|]. destruct (c =? 38).
  - destruct (read_ref s) as [[y r']|] eqn:HR; [|discriminate]. apply ref_len in HR.
    destruct (read_text _ r') as [[t' q]|] eqn:HT'; [|discriminate]. apply text_len in HT'. injection HT as _ <-. lia.
  - destruct (negb (is_char c)); [discriminate|]. destruct (eat (pys "]]>") (c :: s)); [discriminate|].
    destruct (read_text _ s) as [[t' q]|] eqn:HT'; [|discriminate]. apply text_len in HT'. injection HT as _ <-. lia.
Qed.

Lemma text_raw c r : c <> 60 -> c <> 38 -> is_char c = true -> eat (pys "]]>") (c :: r) = None ->
  text (c :: r) = match text r with Some (t, q) => Some (c :: t, q) | None => None end.
Proof.
  intros H1 H2 H4 H5. unfold text at 1. remember (List.length (c :: r)) as m eqn:HM. cbn [read_text]. rewrite H4, H5.
  destruct (c =? 60) eqn:?; [lia|]. destruct (c =? 38) eqn:?; [lia|].
  rewrite text_of by (subst m; cbn; lia). reflexivity.
Qed.
Lemma text_ref c r q : read_ref r = Some (c, q) ->
  text (38 :: r) = match text q with Some (t, z) => Some (c :: t, z) | None => None end.
Proof.
  intros H. unfold text at 1. remember (List.length (38 :: r)) as m eqn:HM. cbn [read_text Z.eqb Pos.eqb]. rewrite H. apply ref_len in H.
  rewrite text_of by (subst m; cbn; lia). reflexivity.
Qed.
Lemma value_raw qt c r : c <> qt -> c <> 60 -> c <> 38 -> is_char c = true -> is_space c = false \/ c = 32 ->
  value_ qt (c :: r) = match value_ qt r with Some (t, q) => Some (c :: t, q) | None => None end.
Proof.
  intros H1 H2 H3 H4 H5. unfold value_ at 1. remember (List.length (c :: r)) as m eqn:HM. cbn [read_value]. rewrite H4.
  destruct (c =? qt) eqn:?; [lia|]. destruct (c =? 60) eqn:?; [lia|]. destruct (c =? 38) eqn:?; [lia|].
  cbn [negb].
  replace (if is_space c then 32 else c) with c by (destruct H5 as [->| ->]; reflexivity).
  rewrite value_of by (subst m; cbn; lia). reflexivity.
Qed.
Lemma value_ref qt c r q : qt <> 38 -> read_ref r = Some (c, q) ->
  value_ qt (38 :: r) = match value_ qt q with Some (t, z) => Some (c :: t, z) | None => None end.
Proof.
  intros HQ H. unfold value_ at 1. remember (List.length (38 :: r)) as m eqn:HM. cbn [read_value]. replace (38 =? qt) with false by lia. cbn [Z.eqb Pos.eqb]. rewrite H. apply ref_len in H.
  rewrite value_of by (subst m; cbn; lia). reflexivity.
Qed.
Lemma nodes_text c r t q : c <> 60 -> text (c :: r) = Some (t, q) ->
  nodes (c :: r) = match nodes q with Some (k, z) => Some (DText t :: k, z) | None => None end.
Proof.
  intros HC HT. unfold nodes at 1. remember (List.length (c :: r)) as m eqn:HM. cbn [read_nodes]. replace (c =? 60) with false by lia. cbn [negb].
  change (read_text (S (List.length (c :: r))) (c :: r)) with (text (c :: r)). rewrite HT.
  rewrite nodes_of by (unfold text in HT; apply text_lt in HT; [subst m; cbn; lia|exact HC]). reflexivity.
Qed.

Lemma eat_app p s : eat p (p ++ s) = Some s.
Proof. induction p as [|x p IH]; [reflexivity|]. cbn. now rewrite Z.eqb_refl. Qed.
Lemma span_all p a b : forallb p a = true -> match b with [] => True | c :: _ => p c = false end -> span p (a ++ b) = (a, b).
Proof.
  intros HA HB. induction a as [|c a IH]; cbn.
  - destruct b as [|c b]; [reflexivity|]. cbn. now rewrite HB.
  - cbn in HA. apply andb_true_iff in HA as [-> HA]. now rewrite (IH HA).
Qed.
Lemma skip_none s : match s with [] => True | c :: _ => is_space c = false end -> skip_space s = s.
Proof. intros H. unfold skip_space. destruct s as [|c s]; [reflexivity|]. cbn. now rewrite H. Qed.
Lemma name_start_space c : name_start c = true -> is_space c = false.
Proof. unfold name_start, is_space, in_range. lia. Qed.
Lemma name_all k : is_name k = true -> forallb name_char k = true.
Proof. destruct k; [discriminate|]. cbn [is_name]. intros H. now apply andb_true_iff in H. Qed.
Lemma name_hd k r : is_name k = true -> match k ++ r with [] => True | c :: _ => is_space c = false end.
Proof. destruct k; [discriminate|]. cbn [is_name app]. intros H. apply andb_true_iff in H as [H _]. now apply name_start_space. Qed.

Lemma attrs_cons k v r l q : is_name k = true -> forall w, value_ 34 w = Some (v, r) -> attrs r = Some (l, q) ->
  ~ In k (map fst l) -> attrs (32 :: k ++ 61 :: 34 :: w) = Some ((k, v) :: l, q).
Proof.
  intros HK w HV HA HN. unfold attrs at 1. remember (List.length (32 :: _)) as m eqn:HM. cbn [read_attrs]. change (is_space 32) with true. cbn iota.
  rewrite (skip_none (k ++ _)) by now apply name_hd.
  rewrite span_all by (try (now apply name_all); reflexivity). rewrite HK.
  rewrite (skip_none (61 :: _)) by reflexivity. change (eat [61] (61 :: 34 :: w)) with (Some (34 :: w)). cbn iota.
  rewrite (skip_none (34 :: _)) by reflexivity. cbn iota. change ((34 =? 34) || (34 =? 39)) with true. cbn iota.
  change (read_value 34 (S (List.length w)) w) with (value_ 34 w). rewrite HV.
  rewrite attrs_of by (unfold value_ in HV; apply value_len in HV; subst m; cbn [List.length]; rewrite app_length; cbn [List.length]; lia).
  rewrite HA. replace (existsb (fun p => pystr_eqb k (fst p)) l) with false; [reflexivity|]. symmetry.
  apply Bool.not_true_iff_false. intros HE. apply existsb_exists in HE as (p & HI & HP). apply HN. apply in_map_iff. exists p.
  split; [|exact HI]. symmetry. now apply pystr_eqb_spec.
Qed.
Lemma nodes_elem n r a r2 : is_name n = true -> match r with [] => True | c :: _ => name_char c = false end ->
  attrs r = Some (a, r2) ->
  nodes (60 :: n ++ r) =
    match eat (pys "/>") r2 with
    | Some r3 => match nodes r3 with Some (k, q) => Some (DElem n a [] :: k, q) | None => None end
    | None =>
        match eat [62] r2 with
        | Some r3 =>
            match nodes r3 with
            | Some (inner, r4) =>
                match eat (pys "</" ++ n) r4 with
                | Some r5 =>
                    match eat [62] (skip_space r5) with
                    | Some r6 => match nodes r6 with Some (k, q) => Some (DElem n a inner :: k, q) | None => None end
                    | None => None
                    end
                | None => None
                end
            | None => None
            end
        | None => None
        end
    end.
Proof.
  intros HN HR HA. unfold nodes at 1. remember (List.length (60 :: _)) as m eqn:HM. cbn [read_nodes]. change (negb (60 =? 60)) with false. cbn iota.
  assert (eat [47] (n ++ r) = None) as ->.
  { destruct n as [|c n]; [discriminate|]. cbn [eat app]. replace (47 =? c) with false; [reflexivity|]. cbn [is_name] in HN. unfold name_start, in_range in HN. lia. }
  rewrite span_all by (try (now apply name_all); exact HR). rewrite HN.
  change (read_attrs (S (List.length r)) r) with (attrs r). rewrite HA. unfold attrs in HA. apply attrs_len in HA. cbn [List.length] in HM. rewrite app_length in HM.
  destruct (eat (pys "/>") r2) as [r3|] eqn:HE.
  - apply eat_len in HE. cbn in HE. rewrite nodes_of by lia. reflexivity.
  - destruct (eat [62] r2) as [r3|] eqn:HE2; [|reflexivity]. apply eat_len in HE2. cbn in HE2.
    rewrite nodes_of by lia. destruct (nodes r3) as [[inner r4]|] eqn:HI; [|reflexivity]. unfold nodes in HI. apply nodes_len in HI.
    destruct (eat (pys "</" ++ n) r4) as [r5|] eqn:HE3; [|reflexivity]. apply eat_len in HE3.
    assert (H5 := skip_len r5). destruct (eat [62] (skip_space r5)) as [r6|] eqn:HE4; [|reflexivity]. apply eat_len in HE4. cbn in *.
    rewrite nodes_of by lia. reflexivity.
Qed.

(** ** Escapes *)
Definition lf_char (c : Z) : bool := is_char c && negb (c =? 13).
(** [f] writes the character [c] as itself or as a reference to it. *)
Definition esc_text (f : Z -> pystr) (c : Z) : Prop :=
  (f c = [c] /\ c <> 60 /\ c <> 62 /\ c <> 38 /\ c <> 13 /\ is_char c = true) \/
  exists r, f c = 38 :: r /\ forallb lf_char r = true /\ forall q, read_ref (r ++ q) = Some (c, q).
Definition esc_value (f : Z -> pystr) (c : Z) : Prop :=
  (f c = [c] /\ c <> 34 /\ c <> 60 /\ c <> 38 /\ is_char c = true /\ (is_space c = false \/ c = 32)) \/
  exists r, f c = 38 :: r /\ forallb lf_char r = true /\ forall q, read_ref (r ++ q) = Some (c, q).

(** Where text may end. *)
Definition stops (s : pystr) : Prop := match s with [] => True | c :: _ => c = 60 end.
Lemma stops_text s : stops s -> text s = Some ([], s).
Proof. destruct s as [|c s]; [reflexivity|]. cbn. intros ->. reflexivity. Qed.
Lemma text_written f s rest : Forall (esc_text f) s -> stops rest -> text (flat_map f s ++ rest) = Some (s, rest).
Proof.
  intros HS HR.
  assert (HE : forall s, Forall (esc_text f) s -> eat [62] (flat_map f s ++ rest) = None /\ eat [93; 62] (flat_map f s ++ rest) = None /\
    eat [93; 93; 62] (flat_map f s ++ rest) = None).
  { clear s HS. intros s HS. induction HS as [|c s HC HS IH].
    - destruct rest as [|c rest]; [now repeat split|]. cbn in HR. subst c. now repeat split.
    - cbn [flat_map]. rewrite <- app_assoc. destruct IH as (I1 & I2 & I3). destruct HC as [(-> & H1 & H2 & H3 & H4 & H5)|(r & -> & HQ & H)].
      + cbn [app]. repeat split; cbn [eat].
        * now replace (62 =? c) with false by lia.
        * now destruct (93 =? c).
        * now destruct (93 =? c).
      + now repeat split. }
  induction HS as [|c s HC HS IH]; [now apply stops_text|].
  assert (HX := HE (c :: s) (Forall_cons _ HC HS)). cbn [flat_map] in *. rewrite <- app_assoc in *.
  destruct HC as [(HF & H1 & H2 & H3 & H4 & H5)|(r & HF & HQ & H)]; rewrite HF in *; cbn [app] in *.
  - rewrite text_raw; try assumption; [now rewrite IH|]. apply HX.
  - rewrite (text_ref c _ _ (H _)). now rewrite IH.
Qed.
Lemma value_written f s rest : Forall (esc_value f) s -> value_ 34 (flat_map f s ++ 34 :: rest) = Some (s, rest).
Proof.
  intros HS. induction HS as [|c s HC HS IH]; [reflexivity|]. cbn [flat_map]. rewrite <- app_assoc.
  destruct HC as [(HF & H1 & H2 & H3 & H4 & H5)|(r & HF & HQ & H)]; rewrite HF; cbn [app].
  - rewrite value_raw by assumption. now rewrite IH.
  - rewrite (value_ref 34 c _ _ ltac:(lia) (H _)). now rewrite IH.
Qed.

(** ** Writing and reading trees *)
Fixpoint dnode_ind' (P : dnode -> Prop) (HT : forall s, P (DText s)) (HE : forall n a k, Forall P k -> P (DElem n a k)) (x : dnode) : P x :=
  match x with
  | DText s => HT s
  | DElem n a k => HE n a k ((fix go l : Forall P l :=
      match l with [] => Forall_nil P | y :: l' => Forall_cons y (dnode_ind' P HT HE y) (go l') end) k)
  end.

(** Adjacent texts are read as one, and an empty text is not read at all. *)
Definition addtext (s : pystr) (l : list dnode) : list dnode :=
  match s, l with
  | [], _ => l
  | _, DText t :: r => DText (s ++ t) :: r
  | _, _ => DText s :: l
  end.
Fixpoint glue (l : list dnode) : list dnode :=
  match l with
  | [] => []
  | DText s :: r => addtext s (glue r)
  | x :: r => x :: glue r
  end.
Fixpoint norm (x : dnode) : dnode :=
  match x with DText s => DText s | DElem n a k => DElem n a (glue (map norm k)) end.
Lemma addtext_app s t l : addtext s (addtext t l) = addtext (s ++ t) l.
Proof. destruct s, t; try reflexivity; [cbn [addtext app]; now rewrite app_nil_r|]. destruct l as [|[u|n a k] l]; cbn; rewrite <- ?app_assoc; reflexivity. Qed.

Section Trees.
Variables ft fa : Z -> pystr.
(** How the tag of an element without children ends. *)
Variable close : pystr.
Hypothesis close_ok : forall r, attrs (close ++ r) = Some ([], pys "/>" ++ r).
Definition att_out (p : pystr * pystr) : pystr := [32] ++ fst p ++ pys "=" ++ [34] ++ flat_map fa (snd p) ++ [34].
Fixpoint out_ (x : dnode) : pystr :=
  match x with
  | DText s => flat_map ft s
  | DElem n a k =>
      [60] ++ n ++ List.concat (map att_out a) ++
      match k with
      | [] => close
      | _ => [62] ++ List.concat (map out_ k) ++ [60; 47] ++ n ++ [62]
      end
  end.
Inductive good : dnode -> Prop :=
| good_text s : Forall (esc_text ft) s -> good (DText s)
| good_elem n a k : is_name n = true -> Forall (fun p => is_name (fst p) = true /\ Forall (esc_value fa) (snd p)) a ->
    NoDup (map fst a) -> Forall good k -> good (DElem n a k).

Lemma attrs_written a r q : Forall (fun p => is_name (fst p) = true /\ Forall (esc_value fa) (snd p)) a -> NoDup (map fst a) ->
  attrs r = Some ([], q) -> attrs (List.concat (map att_out a) ++ r) = Some (a, q).
Proof.
  intros HA HN HR. induction HA as [|[k v] a [HK HV] HA IH]; [exact HR|]. cbn [map List.concat fst snd] in *. inversion HN as [|x y HI HN']; subst.
  assert ((att_out (k, v) ++ List.concat (map att_out a)) ++ r = 32 :: k ++ 61 :: 34 :: flat_map fa v ++ 34 :: List.concat (map att_out a) ++ r) as ->.
  { unfold att_out at 1. cbn [fst snd]. rewrite <- !app_assoc. reflexivity. }
  eapply attrs_cons; [exact HK|apply value_written; exact HV|exact (IH HN')|exact HI].
Qed.
Lemma attrs_hd a r : match r with [] => True | c :: _ => name_char c = false end ->
  match List.concat (map att_out a) ++ r with [] => True | c :: _ => name_char c = false end.
Proof. intros H. destruct a as [|p a]; [exact H|]. reflexivity. Qed.

Definition halts (s : pystr) : Prop := s = [] \/ exists r, s = 60 :: 47 :: r.
Lemma halts_stops s : halts s -> stops s.
Proof. intros [->|(r & ->)]; reflexivity. Qed.
Lemma halts_nodes s : halts s -> nodes s = Some ([], s).
Proof. intros [->|(r & ->)]; reflexivity. Qed.


Definition reads_elem (y : dnode) : Prop := forall n a k, y = DElem n a k ->
  forall t l q, nodes t = Some (l, q) -> nodes (out_ y ++ t) = Some (norm y :: l, q).

Lemma list_written l : Forall good l -> Forall reads_elem l -> forall s rest, Forall (esc_text ft) s -> halts rest ->
  nodes (flat_map ft s ++ List.concat (map out_ l) ++ rest) = Some (addtext s (glue (map norm l)), rest).
Proof.
  induction l as [|x l IH]; intros HG HR s rest HS HH; inversion HG as [|x' l' HG1 HG2]; inversion HR as [|x'' l'' HR1 HR2]; subst.
  - cbn [map List.concat app glue]. destruct s as [|c s].
    + now apply halts_nodes.
    + assert (HT := text_written ft (c :: s) rest HS (halts_stops _ HH)). inversion HS as [|c' s' HC HS']; subst.
      assert (exists d w, flat_map ft (c :: s) ++ rest = d :: w /\ d <> 60) as (d & w & HD & H60).
      { cbn [flat_map]. destruct HC as [(-> & H1 & _)|(r & -> & _)]; cbn [app]; (eexists _, _; split; [reflexivity|lia]). }
      rewrite HD in *. rewrite (nodes_text _ _ _ _ H60 HT), halts_nodes by exact HH. reflexivity.
  - destruct x as [t|n a k].
    + cbn [map List.concat out_ norm glue]. rewrite addtext_app, <- app_assoc, app_assoc, <- flat_map_app.
      apply IH; try assumption. apply Forall_app. split; [exact HS|]. now inversion HG1.
    + cbn [map List.concat glue norm]. rewrite <- app_assoc.
      assert (HE := HR1 n a k eq_refl _ _ _ (IH HG2 HR2 [] rest (Forall_nil _) HH)). cbn [flat_map app addtext] in HE.
      destruct s as [|c s]; [exact HE|].
      assert (HST : stops (out_ (DElem n a k) ++ List.concat (map out_ l) ++ rest)) by reflexivity.
      assert (HT := text_written ft (c :: s) _ HS HST). inversion HS as [|c' s' HC HS']; subst.
      set (tl := out_ (DElem n a k) ++ List.concat (map out_ l) ++ rest) in *.
      assert (exists d w, flat_map ft (c :: s) ++ tl = d :: w /\ d <> 60) as (d & w & HD & H60).
      { cbn [flat_map]. destruct HC as [(-> & H1 & _)|(r & -> & _)]; cbn [app]; (eexists _, _; split; [reflexivity|lia]). }
      rewrite HD in *. rewrite (nodes_text _ _ _ _ H60 HT), HE. reflexivity.
Qed.

Lemma all_elem x : good x -> reads_elem x.
Proof.
  induction x as [s|n a k IH] using dnode_ind'; intros HG; [intros ? ? ? [=]|]. intros n' a' k' [= <- <- <-] t l q HT.
  inversion HG as [|n' a' k' HN HA HD HK]; subst.
  assert (HR : Forall reads_elem k) by (rewrite Forall_forall in *; auto).
  cbn [out_ norm]. destruct k as [|x k].
  - cbn [app]. rewrite <- !app_assoc. rewrite (nodes_elem n _ a (pys "/>" ++ t) HN).
    + rewrite eat_app, HT. reflexivity.
    + apply attrs_hd. assert (H := close_ok t). destruct (close ++ t) as [|c w]; [exact I|].
      unfold attrs in H. cbn [List.length read_attrs] in H. destruct (is_space c) eqn:HC.
      * clear - HC. unfold is_space in HC. unfold name_char, name_start, in_range. lia.
      * injection H as -> _. reflexivity.
    + apply attrs_written; try assumption. apply close_ok.
  - set (kk := x :: k) in *. do 4 (cbn [app]; rewrite <- ?app_assoc).
    rewrite (nodes_elem n _ a (62 :: List.concat (map out_ kk) ++ 60 :: 47 :: n ++ 62 :: t) HN).
    + change (eat (pys "/>") (62 :: _)) with (@None pystr). cbn iota. cbn [eat Z.eqb Pos.eqb].
      assert (HL := list_written kk HK HR [] (60 :: 47 :: n ++ 62 :: t) (Forall_nil _) ltac:(right; eauto)).
      cbn [flat_map app addtext] in HL. rewrite HL.
      replace (60 :: 47 :: n ++ 62 :: t) with ((pys "</" ++ n) ++ 62 :: t) by (rewrite <- app_assoc; reflexivity).
      rewrite eat_app, skip_none by reflexivity. cbn [eat Z.eqb Pos.eqb]. rewrite HT. reflexivity.
    + apply attrs_hd. reflexivity.
    + apply attrs_written; try assumption. reflexivity.
Qed.

Theorem written l rest : Forall good l -> halts rest -> nodes (List.concat (map out_ l) ++ rest) = Some (glue (map norm l), rest).
Proof.
  intros HG HH. assert (HR : Forall reads_elem l) by (rewrite Forall_forall in *; auto using all_elem).
  exact (list_written l HG HR [] rest (Forall_nil _) HH).
Qed.

(** Everything written is a character of XML, and not a carriage return. *)
Lemma chars_text s : Forall (esc_text ft) s -> forallb lf_char (flat_map ft s) = true.
Proof.
  induction 1 as [|c s HC HS IH]; [reflexivity|]. cbn [flat_map]. rewrite forallb_app, IH, andb_true_r.
  destruct HC as [(-> & H)|(r & -> & HR & _)]; cbn [forallb]; [|exact HR]. destruct H as (_ & _ & _ & H13 & HC). unfold lf_char. rewrite HC. replace (c =? 13) with false by lia. reflexivity.
Qed.
Lemma chars_value s : Forall (esc_value fa) s -> forallb lf_char (flat_map fa s) = true.
Proof.
  induction 1 as [|c s HC HS IH]; [reflexivity|]. cbn [flat_map]. rewrite forallb_app, IH, andb_true_r.
  destruct HC as [(-> & H)|(r & -> & HR & _)]; cbn [forallb]; [|exact HR]. destruct H as (_ & _ & _ & HC & HW). unfold lf_char. rewrite HC. unfold is_space in HW. replace (c =? 13) with false by lia. reflexivity.
Qed.
Lemma chars_name n : is_name n = true -> forallb lf_char n = true.
Proof.
  intros H. apply name_all in H. rewrite forallb_forall in *. intros c Hc. apply H in Hc. clear H.
  unfold name_char, name_start, lf_char, is_char, in_range in *. lia.
Qed.
Lemma chars_atts a : Forall (fun p => is_name (fst p) = true /\ Forall (esc_value fa) (snd p)) a -> forallb lf_char (List.concat (map att_out a)) = true.
Proof.
  induction 1 as [|p a [HN HV] HA IH]; [reflexivity|]. cbn [map List.concat]. rewrite forallb_app, IH, andb_true_r.
  unfold att_out. cbn [app forallb]. rewrite forallb_app, chars_name by exact HN. cbn [pys forallb app].
  rewrite forallb_app, chars_value by exact HV. reflexivity.
Qed.
Hypothesis close_chars : forallb lf_char close = true.
Lemma chars_out x : good x -> forallb lf_char (out_ x) = true.
Proof.
  induction x as [s|n a k IH] using dnode_ind'; intros HG; inversion HG as [s' HS|n' a' k' HN HA HD HK]; subst.
  - now apply chars_text.
  - cbn [out_ app]. cbn [forallb]. rewrite !forallb_app, chars_name, chars_atts by assumption.
    change (lf_char 60) with true. cbn [andb]. destruct k as [|x k]; [exact close_chars|].
    enough (HC : forallb lf_char (List.concat (map out_ (x :: k))) = true).
    { do 3 (cbn [forallb app]; rewrite ?forallb_app). rewrite HC, (chars_name n HN). reflexivity. }
    assert (HF : Forall (fun y => forallb lf_char (out_ y) = true) (x :: k)) by (rewrite Forall_forall in *; auto).
    clear - HF. induction HF as [|y l H HF IH]; [reflexivity|]. cbn [map List.concat]. now rewrite forallb_app, H, IH.
Qed.
End Trees.
