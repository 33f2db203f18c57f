(** * The parser of the command line against its grammar *)

From Coq Require Import ZArith List Bool String Ascii Lia Arith.
From Coq Require Import ZifyBool.
From Verif Require Import Py Main Argv SpecArgv PBase.
Import ListNotations.
Open Scope string_scope.
Open Scope list_scope.
Open Scope Z_scope.

(** ** Beginnings *)
Lemma startswith_spec p s : startswith p s = true <-> begins p s.
Proof.
  revert s. induction p as [|c p IH]; intros s; cbn [startswith]; [split; [intros _; now exists s|reflexivity]|].
  destruct s as [|d s]; [split; [discriminate|intros (r & H); discriminate]|]. rewrite andb_true_iff, IH, Z.eqb_eq. split.
  - intros [-> (r & ->)]. now exists r.
  - intros (r & H). injection H as -> ->. split; [reflexivity|now exists r].
Qed.
Lemma partition_spec s : let (p, e) := partition_eq s in
  ~ In 61 p /\ s = p ++ match e with Some x => 61 :: x | None => [] end.
Proof.
  induction s as [|c s IH]; cbn [partition_eq]; [auto|]. destruct (c =? 61) eqn:E; [apply Z.eqb_eq in E; subst; auto|].
  destruct (partition_eq s) as [p e]. destruct IH as [H1 H2]. split; [intros [H|H]; [lia|auto]|]. cbn [app]. now rewrite <- H2.
Qed.
Lemma partition_app p r : ~ In 61 p -> partition_eq (p ++ 61 :: r) = (p, Some r) /\ partition_eq p = (p, None).
Proof.
  induction p as [|c p IH]; cbn [partition_eq app]; [auto|]. intros H. destruct (c =? 61) eqn:E; [exfalso; apply H; left; lia|].
  destruct IH as [-> ->]; [intros HI; apply H; now right|auto].
Qed.

Definition act_of (o : opt) : act :=
  match o with
  | OFlag Nopretty => ANopretty | OFlag Nullxml => ANullxml | OFlag Recurse => ARecurse | OFlag Packetmarkers => APacket | OFlag Verbose => AVerbose
  | OFormat => AFormat | OMix => AMix | OHelp => AHelp | OVersion => AVersion
  end.
Definition matches (p : pystr) : list (pystr * opt) := filter (fun x => startswith p (fst x)) longs.
Fixpoint letter_in (c : Z) (l : list (Z * opt)) : option opt :=
  match l with [] => None | (d, o) :: l' => if c =? d then Some o else letter_in c l' end.
Definition letter (c : Z) : option opt := letter_in c letters.

Lemma letter_spec c o : letter c = Some o <-> In (c, o) letters.
Proof.
  unfold letter. split.
  - induction letters as [|[d q] l IH]; cbn [letter_in]; [discriminate|]. destruct (c =? d) eqn:E; [intros H; injection H as <-; left; f_equal; lia|]. right. auto.
  - intros H. cbn in H. repeat (destruct H as [H|H]; [injection H as <- <-; reflexivity|]). destruct H.
Qed.
Lemma letter_none c : letter c = None <-> ~ In c (map fst letters).
Proof.
  unfold letter. induction letters as [|[d q] l IH]; cbn [letter_in map fst]; [split; [intros _ []|reflexivity]|]. destruct (c =? d) eqn:E; [split; [discriminate|intros H; exfalso; apply H; left; lia]|].
  rewrite IH. split; intros H; [intros [HI|HI]; [lia|auto]|intros HI; apply H; now right].
Qed.
Lemma refers_spec p o : refers p o <-> exists l, matches p = [(l, o)].
Proof.
  unfold refers, matches. split.
  - intros [(s & HI & HB) HU].
    assert (HA : forall x, In x (filter (fun x => startswith p (fst x)) longs) -> snd x = o).
    { intros [t o'] Hx. apply filter_In in Hx. destruct Hx as [H1 H2]. apply startswith_spec in H2. exact (HU t o' H1 H2). }
    assert (HN : NoDup (map snd (filter (fun x => startswith p (fst x)) longs))).
    { assert (HG : forall l : list (pystr * opt), NoDup (map snd l) -> NoDup (map snd (filter (fun x => startswith p (fst x)) l))).
      { induction l as [|y l IH]; cbn [filter map]; [auto|]. intros H. inversion H as [|? ? H1 H2]; subst. destruct (startswith p (fst y)); [|auto]. cbn [map]. constructor; [|auto].
        intros HX. apply H1. apply in_map_iff in HX as (z & Hz & HX). apply filter_In in HX as [HX _]. rewrite <- Hz. now apply in_map. }
      apply HG. cbn. repeat constructor; cbn; intuition discriminate. }
    assert (HX : In (s, o) (filter (fun x => startswith p (fst x)) longs)) by (apply filter_In; split; [exact HI|now apply startswith_spec]).
    destruct (filter (fun x => startswith p (fst x)) longs) as [|[l1 o1] [|[l2 o2] r]]; [destruct HX| |].
    + pose proof (HA _ (or_introl eq_refl)) as H1. cbn in H1. subst o1. now exists l1.
    + exfalso. pose proof (HA _ (or_introl eq_refl)) as H1. pose proof (HA _ (or_intror (or_introl eq_refl))) as H2. cbn in *. subst. inversion HN as [|? ? H1 _]; subst. apply H1. now left.
  - intros (l & H). assert (HF : forall x, In x [(l, o)] <-> In x longs /\ startswith p (fst x) = true) by (intros x; rewrite <- H; apply filter_In). split.
    + exists l. destruct (proj1 (HF (l, o)) (or_introl eq_refl)) as [H1 H2]. split; [exact H1|now apply startswith_spec].
    + intros s o' HI HB. apply startswith_spec in HB. assert (HX : In (s, o') [(l, o)]) by (apply HF; auto). destruct HX as [HX|[]]. congruence.
Qed.
Lemma matches_nil p : matches p = [] <-> forall l o, In (l, o) longs -> ~ begins p l.
Proof.
  unfold matches. split.
  - intros H l o HI HB. apply startswith_spec in HB. assert (HX : In (l, o) (filter (fun x => startswith p (fst x)) longs)) by (apply filter_In; auto). rewrite H in HX. destruct HX.
  - intros H. destruct (filter (fun x => startswith p (fst x)) longs) as [|[l o] r] eqn:E; [reflexivity|]. exfalso.
    assert (HX : In (l, o) (filter (fun x => startswith p (fst x)) longs)) by (rewrite E; now left). apply filter_In in HX. destruct HX as [H1 H2]. apply startswith_spec in H2. exact (H l o H1 H2).
Qed.

(** ** Numbers *)
Section Words.
Variable decimal : Z -> bool.
Notation digits_end := (digits_end decimal).
Notation digits := (digits decimal).
Lemma digits_end_spec s : digits_end s = true <-> exists d nl, s = d ++ nl /\ digits d /\ (nl = [] \/ nl = [10]).
Proof.
  induction s as [|c s IH]; cbn [Argv.digits_end].
  - split; [intros _; exists [], []; repeat split; [constructor|auto]|reflexivity].
  - split.
    + intros H. apply orb_prop in H. destruct H as [H|H]; apply andb_prop in H; destruct H as [H1 H2].
      * apply IH in H2. destruct H2 as (d & nl & -> & H2 & H3). exists (c :: d), nl. repeat split; [constructor; assumption|exact H3].
      * destruct s; [|discriminate]. exists [], [c]. repeat split; [constructor|right; f_equal; lia].
    + intros (d & nl & HS & HD & HN). destruct d as [|x d].
      * cbn [app] in HS. destruct HN as [->| ->]; [discriminate|]. injection HS as -> ->. apply orb_true_r.
      * cbn [app] in HS. injection HS as -> ->. inversion HD; subst. rewrite (proj2 IH) by (exists d, nl; auto). rewrite H1. reflexivity.
Qed.
Lemma digits1_spec s : digits1_end decimal s = true <-> exists d nl, s = d ++ nl /\ d <> [] /\ digits d /\ (nl = [] \/ nl = [10]) .
Proof.
  destruct s as [|c s]; cbn [digits1_end].
  - split; [discriminate|]. intros (d & nl & HS & HD & _). destruct d; [contradiction|discriminate].
  - rewrite andb_true_iff, digits_end_spec. split.
    + intros [H1 (d & nl & -> & H2 & H3)]. exists (c :: d), nl. repeat split; [discriminate|constructor; assumption|exact H3].
    + intros (d & nl & HS & HD & H2 & H3). destruct d as [|x d]; [contradiction|]. injection HS as -> ->. inversion H2; subst. split; [assumption|]. exists d, nl. auto.
Qed.
Lemma fraction_spec s : fraction decimal s = true <-> exists a c nl, s = a ++ 46 :: c ++ nl /\ digits a /\ c <> [] /\ digits c /\ (nl = [] \/ nl = [10]).
Proof.
  induction s as [|x s IH]; cbn [fraction].
  - split; [discriminate|]. intros (a & c & nl & HS & _). destruct a; discriminate.
  - rewrite orb_true_iff, !andb_true_iff, digits1_spec, IH. split.
    + intros [[H1 (d & nl & -> & H2 & H3 & H4)]|[H1 (a & c & nl & -> & H2 & H3)]].
      * exists [], d, nl. cbn [app]. repeat split; [f_equal; lia|constructor|exact H2|exact H3|exact H4].
      * exists (x :: a), c, nl. split; [reflexivity|]. split; [constructor; assumption|exact H3].
    + intros (a & c & nl & HS & H1 & H2 & H3 & H4). destruct a as [|y a]; cbn [app] in HS; injection HS as -> ->; [left; split; [reflexivity|exists c, nl; auto]|].
      inversion H1; subst. right. split; [assumption|]. exists a, c, nl. auto.
Qed.
Lemma negative_spec s : negative_number decimal s = true <-> negative decimal s.
Proof.
  unfold negative. destruct s as [|x s]; cbn [negative_number]; [split; [discriminate|intros (a & b & nl & H & _); discriminate]|].
  rewrite andb_true_iff, orb_true_iff, digits1_spec, fraction_spec. split.
  - intros [H1 [(d & nl & -> & H2 & H3 & H4)|(a & c & nl & -> & H2 & H3 & H4 & H5)]]; (replace x with 45 by lia).
    + exists d, [], nl. cbn [app]. split; [reflexivity|]. split; [exact H4|]. split; [exact H3|]. left. auto.
    + exists a, (46 :: c), nl. cbn [app]. split; [reflexivity|]. split; [exact H5|]. split; [exact H2|]. right. exists c. auto.
  - intros (a & b & nl & HS & HN & HA & HB). cbn [app] in HS. injection HS as -> ->. split; [reflexivity|]. destruct HB as [[-> HB]|(c & -> & H1 & H2)].
    + left. exists a, nl. auto.
    + right. exists a, c, nl. auto.
Qed.

(** ** What a word is taken for *)
Lemma flat_map_filter {A B} (P : A -> bool) (f : A -> B) l : flat_map (fun x => if P x then [f x] else []) l = map f (filter P l).
Proof. induction l as [|x l IH]; [reflexivity|]. cbn [flat_map filter]. destruct (P x); cbn [map app]; now rewrite IH. Qed.
Definition is_some {A} (x : option A) : bool := match x with Some _ => true | None => false end.
Lemma tuples_long q : let (p, e) := partition_eq (45 :: 45 :: q) in
  option_tuples (45 :: 45 :: q) = map (fun x => KOpt (Some (act_of (snd x))) (fst x) (is_some e) e) (matches p).
Proof.
  cbn [option_tuples]. change (45 =? 45) with true. cbv iota. cbn [partition_eq]. change (45 =? 61) with false. cbv iota.
  destruct (partition_eq q) as [p e]. cbv beta iota zeta. unfold matches. rewrite <- flat_map_filter. reflexivity.
Qed.
Definition rest_kind (s : pystr) : kind :=
  if negative_number decimal s then KArg else if existsb (Z.eqb 32) s then KArg else KOpt None s false None.
Lemma parse_dash d r : parse_optional decimal (45 :: d :: r) = let s := 45 :: d :: r in
    (match lookup s optmap with
      | Some a => Some (KOpt (Some a) s false None)
      | None =>
              let unknown :=
                match option_tuples s with
                | _ :: _ :: _ => None
                | [k] => Some k
                | [] => Some (rest_kind s)
                end in
              let (o, e) := partition_eq s in
              match e, lookup o optmap with
              | Some x, Some a => Some (KOpt (Some a) o true (Some x))
              | _, _ => unknown
              end
      end).
Proof.
  cbn zeta. cbn [parse_optional]. change (negb (45 =? 45)) with false. cbv iota. destruct (lookup (45 :: d :: r) optmap); [reflexivity|]. cbv zeta.
  unfold rest_kind. destruct (negative_number decimal (45 :: d :: r)); [reflexivity|]. destruct (existsb (Z.eqb 32) (45 :: d :: r)); reflexivity.
Qed.
Lemma lookup_in s a : lookup s optmap = Some a -> In (s, a) optmap.
Proof.
  induction optmap as [|[o b] l IH]; cbn [lookup]; [discriminate|]. destruct (pystr_eqb s o) eqn:E; [apply pystr_eqb_spec in E; subst; intros H; injection H as ->; now left|]. right. auto.
Qed.
Lemma exact_long s a : lookup s optmap = Some a -> begins [45; 45] s -> exists o, matches s = [(s, o)] /\ a = act_of o /\ ~ In 61 s.
Proof.
  intros H (r & HB). apply lookup_in in H. cbn [map optmap fst snd] in H. subst s. cbn [In] in H.
  repeat (destruct H as [H|H]; [first [discriminate H|injection H as <- <-; eexists; split; [vm_compute; reflexivity|]; split; [reflexivity|vm_compute; intuition discriminate]]|]). destruct H.
Qed.
Lemma parse_long q : let s := 45 :: 45 :: q in let (p, e) := partition_eq s in
  parse_optional decimal s =
    match matches p with
    | [] => Some (rest_kind s)
    | [(l, o)] => Some (KOpt (Some (act_of o)) l (is_some e) e)
    | _ => None
    end.
Proof.
  cbv zeta. set (s := 45 :: 45 :: q). pose proof (tuples_long q) as HT. fold s in HT. pose proof (partition_spec s) as HP. destruct (partition_eq s) as [p e] eqn:EP.
  destruct HP as [HP1 HP2]. unfold s at 1. rewrite parse_dash. fold s.
  cbv zeta. rewrite EP, HT.
  assert (HU : match map (fun x => KOpt (Some (act_of (snd x))) (fst x) (is_some e) e) (matches p) with _ :: _ :: _ => None | [k] => Some k | [] => Some (rest_kind s) end =
    match matches p with [] => Some (rest_kind s) | [(l, o)] => Some (KOpt (Some (act_of o)) l (is_some e) e) | _ => None end)
    by (destruct (matches p) as [|[l o] [|? ?]]; reflexivity).
  destruct (lookup s optmap) as [a|] eqn:EL.
  - destruct (exact_long s a EL) as (o & HM & -> & HN); [now exists q|]. destruct (partition_app s [] HN) as [_ HX]. rewrite HX in EP. injection EP as <- <-. rewrite HM. reflexivity.
  - destruct e as [x|]; [|exact HU]. destruct (lookup p optmap) as [a|] eqn:EL2; [|exact HU].
    destruct (exact_long p a EL2) as (o & HM & -> & HN).
    { unfold s in HP2. destruct p as [|c [|d p]]; cbn [app] in HP2; [discriminate HP2|injection HP2; discriminate|]. injection HP2 as <- <- _. now exists p. }
    rewrite HM. reflexivity.
Qed.
Lemma tuples_short c r : c <> 45 -> option_tuples (45 :: c :: r) =
  match letter c with Some o => [KOpt (Some (act_of o)) [45; c] false (Some r)] | None => [] end.
Proof.
  intros H. cbn [option_tuples]. replace (c =? 45) with false by lia. let m := eval vm_compute in optmap in change optmap with m. cbn [flat_map].
  assert (HS : forall x, c <> x -> startswith (45 :: c :: r) [45; x] = false) by (intros x Hx; cbn [startswith]; replace (c =? x) with false by lia; reflexivity).
  assert (HL : forall s, startswith (45 :: c :: r) (45 :: 45 :: s) = false) by (intros s; cbn [startswith]; replace (c =? 45) with false by lia; reflexivity).
  assert (HQ : forall s, pystr_eqb (45 :: 45 :: s) [45; c] = false) by (intros s; cbn [pystr_eqb]; rewrite (Z.eqb_sym 45 c); replace (c =? 45) with false by lia; reflexivity).
  rewrite !HQ, !HL. unfold letter, letters. cbn [letter_in].
  assert (HE : forall x, pystr_eqb [45; x] [45; c] = (c =? x)) by (intros x; cbn [pystr_eqb]; rewrite andb_true_r, (Z.eqb_sym x c); reflexivity). rewrite !HE.
  destruct (c =? 104) eqn:E1; [assert (c = 104) by lia; subst; reflexivity|]. destruct (c =? 102) eqn:E2; [assert (c = 102) by lia; subst; reflexivity|].
  destruct (c =? 114) eqn:E3; [assert (c = 114) by lia; subst; reflexivity|]. destruct (c =? 112) eqn:E4; [assert (c = 112) by lia; subst; reflexivity|].
  destruct (c =? 118) eqn:E5; [assert (c = 118) by lia; subst; reflexivity|]. rewrite !HS by lia. reflexivity.
Qed.
Lemma lookup_short c : c <> 45 -> lookup [45; c] optmap = option_map act_of (letter c).
Proof.
  intros H. unfold letter, letters. let m := eval vm_compute in optmap in change optmap with m. cbn [lookup letter_in].
  assert (HE : forall x, pystr_eqb [45; c] [45; x] = (c =? x)) by (intros x; cbn [pystr_eqb]; rewrite andb_true_r; reflexivity).
  assert (HQ : forall s, pystr_eqb [45; c] (45 :: 45 :: s) = false) by (intros s; cbn [pystr_eqb]; replace (c =? 45) with false by lia; reflexivity).
  rewrite !HQ, !HE. destruct (c =? 104); [reflexivity|]. destruct (c =? 102); [reflexivity|]. destruct (c =? 114); [reflexivity|]. destruct (c =? 112); [reflexivity|]. destruct (c =? 118); reflexivity.
Qed.
Lemma lookup_none s a : lookup s optmap = Some a -> begins [45; 45] s \/ exists c, s = [45; c] /\ c <> 45.
Proof.
  intros H. apply lookup_in in H. cbn [map optmap fst snd In] in H.
  repeat (destruct H as [H|H]; [injection H as <- <-; first [left; eexists; reflexivity|right; eexists; split; [reflexivity|discriminate]]|]). destruct H.
Qed.
Definition letter_kind (a : act) (c : Z) (r : pystr) : kind :=
  match r with
  | [] => KOpt (Some a) [45; c] false None
  | d :: x => if d =? 61 then KOpt (Some a) [45; c] true (Some x) else KOpt (Some a) [45; c] false (Some r)
  end.
Lemma parse_short c r : c <> 45 -> parse_optional decimal (45 :: c :: r) =
  match letter c with Some o => Some (letter_kind (act_of o) c r) | None => Some (rest_kind (45 :: c :: r)) end.
Proof.
  intros H. set (s := 45 :: c :: r). unfold s at 1. rewrite parse_dash. fold s. cbv zeta. change (option_tuples s) with (option_tuples (45 :: c :: r)). rewrite (tuples_short c r H).
  destruct (lookup s optmap) as [a|] eqn:EL.
  { destruct (lookup_none s a EL) as [(t & HB)|(d & HB & HD)]; [injection HB; intros; contradiction|]. unfold s in HB. injection HB as <- ->. unfold s in EL. rewrite lookup_short in EL by exact H.
    destruct (letter c); [|discriminate]. injection EL as <-. reflexivity. }
  destruct r as [|d r].
  { unfold s in EL. rewrite lookup_short in EL by exact H. destruct (letter c) eqn:ELc; [discriminate|].
    unfold s. cbn [partition_eq]. change (45 =? 61) with false. destruct (c =? 61); [|reflexivity]. cbv iota beta. reflexivity. }
  pose proof (partition_spec s) as HP. destruct (partition_eq s) as [p e] eqn:EP. destruct HP as [HP1 HP2].
  destruct (letter c) as [o|] eqn:ELc.
  - assert (HC : c <> 61) by (intros ->; discriminate ELc). cbn [letter_kind]. destruct (d =? 61) eqn:ED.
    + assert (d = 61) by lia. subst d. unfold s in EP. destruct (partition_app [45; c] r) as [HX _]; [cbn; intuition lia|]. change ([45; c] ++ 61 :: r) with (45 :: c :: 61 :: r) in HX. rewrite HX in EP. injection EP as <- <-.
      rewrite lookup_short, ELc by exact H. reflexivity.
    + destruct e as [x|]; [|reflexivity]. destruct (lookup p optmap) as [a|] eqn:EL2; [|reflexivity]. exfalso. unfold s in HP2.
      destruct (lookup_none p a EL2) as [(t & ->)|(d' & -> & _)]; [injection HP2; intros; contradiction|]. injection HP2 as _ HX _. lia.
  - destruct e as [x|]; [|reflexivity]. destruct (lookup p optmap) as [a|] eqn:EL2; [|reflexivity]. exfalso. unfold s in HP2.
    destruct (lookup_none p a EL2) as [(t & ->)|(d' & -> & HD')]; [injection HP2; intros; contradiction|]. injection HP2 as <- _ _. rewrite lookup_short, ELc in EL2 by exact H. discriminate.
Qed.

Lemma rest_arg s : rest_kind s = KArg <-> negative decimal s \/ In 32 s.
Proof.
  unfold rest_kind. rewrite <- negative_spec. destruct (negative_number decimal s); [split; auto|]. destruct (existsb (Z.eqb 32) s) eqn:E.
  - split; [intros _; right|reflexivity]. apply existsb_exists in E as (x & Hx & HE). replace 32 with x by lia. exact Hx.
  - split; [discriminate|]. intros [H|H]; [discriminate|]. exfalso. assert (HX : existsb (Z.eqb 32) s = true) by (apply existsb_exists; exists 32; split; [exact H|reflexivity]). congruence.
Qed.
Lemma rest_opt s a o sep e : rest_kind s = KOpt a o sep e -> a = None.
Proof. unfold rest_kind. destruct (negative_number decimal s); [discriminate|]. destruct (existsb _ s); [discriminate|]. congruence. Qed.
Lemma letter_opt a c r : letter_kind a c r <> KArg.
Proof. destruct r as [|d r]; cbn [letter_kind]; [discriminate|]. destruct (d =? 61); discriminate. Qed.
(** Words that are not options. *)
Lemma word_spec s : parse_optional decimal s = Some KArg <-> word decimal s.
Proof.
  unfold word. destruct s as [|c s]; [split; [left; discriminate|reflexivity]|].
  destruct (Z.eq_dec c 45) as [->|HC]; [|split; [left; exact HC|intros _; cbn [parse_optional]; replace (c =? 45) with false by lia; reflexivity]].
  destruct s as [|d s]; [split; [right; left; reflexivity|intros _; vm_compute; reflexivity]|].
  destruct (Z.eq_dec d 45) as [->|HD].
  - pose proof (parse_long s) as HL. cbv zeta in HL. pose proof (partition_spec (45 :: 45 :: s)) as HP. destruct (partition_eq (45 :: 45 :: s)) as [p e]. rewrite HL. destruct HP as [HP1 HP2]. split.
    + intros H. right. right. destruct (matches p) as [|[l o] [|? ?]] eqn:EM; [|discriminate|discriminate]. injection H as H. apply rest_arg in H. split; [|exact H].
      left. exists p, (match e with Some x => 61 :: x | None => [] end). split; [exact HP2|]. split; [|split; [exact HP1|split; [destruct e; auto|now apply matches_nil]]].
      destruct p as [|x [|y p]]; cbn [app] in HP2; [destruct e; discriminate HP2|destruct e; injection HP2; discriminate|]. injection HP2 as <- <- _. now exists p.
    + intros [H|[H|(H & HR)]]; [cbn in H; lia|discriminate|]. destruct H as [(p' & e' & HS & HB & H61 & HE & HM)|(c & r & HS & Hc & _)]; [|injection HS; intros; congruence].
      assert (p' = p) as ->.
      { pose proof (partition_app p' (tl e') H61) as [HA HB']. destruct HE as [->|HE]; [rewrite app_nil_r in HS; subst p'|].
        - pose proof (partition_app (45 :: 45 :: s) [] H61) as [_ HX]. clear HL. assert (HY : ~ In 61 (match e with Some x => 61 :: x | None => [] end)) by (intros HI; apply H61; rewrite HP2; apply in_or_app; now right).
          destruct e as [x|]; [exfalso; apply HY; now left|]. now rewrite app_nil_r in HP2.
        - destruct e' as [|y e']; [discriminate HE|]. cbn in HE. subst y. destruct e as [x|].
          + clear -HS HP2 H61 HP1. rewrite HP2 in HS. clear HP2. revert p' HS H61. induction p as [|a p IH]; intros p' HS H61; destruct p' as [|b p']; cbn [app] in HS; [reflexivity|injection HS as HS _; exfalso; apply H61; left; congruence|injection HS as HS _; exfalso; apply HP1; left; congruence|].
            injection HS as HS1 HS2. subst b. f_equal. apply IH; [intros HI; apply HP1; now right|exact HS2|intros HI; apply H61; now right].
          + rewrite app_nil_r in HP2. exfalso. apply HP1. rewrite <- HP2, HS. apply in_or_app. right. now left. }
      rewrite (proj2 (matches_nil p) HM). f_equal. now apply rest_arg.
  - rewrite (parse_short d s HD). destruct (letter d) as [o|] eqn:EL.
    + split; [intros H; injection H as H; destruct (letter_opt _ _ _ H)|]. intros [H|[H|(H & HR)]]; [cbn in H; lia|discriminate|]. exfalso.
      destruct H as [(p' & e' & HS & (t & ->) & _)|(c & r & HS & Hc & HN)]; [injection HS; intros; contradiction|]. injection HS as <- <-. apply letter_none in HN. congruence.
    + split.
      * intros H. injection H as H. apply rest_arg in H. right. right. split; [|exact H]. right. exists d, s. repeat split; [exact HD|now apply letter_none].
      * intros [H|[H|(H & HR)]]; [cbn in H; lia|discriminate|]. f_equal. now apply rest_arg.
Qed.
End Words.

(** ** Actions and settings *)
Section Lines.
Variable decimal : Z -> bool.
Variable int_of : pystr -> option Z.
Notation word := (word decimal).
Notation written := (written decimal).
Notation options := (options decimal).
Notation line := (line decimal).
Notation classify := (classify decimal).
Notation loop := (loop int_of).
Notation take_actions := (take_actions int_of).

Definition setting_of (x : act * list pystr) : option setting :=
  match x with
  | (ANopretty, []) => Some (Flag Nopretty) | (ANullxml, []) => Some (Flag Nullxml) | (ARecurse, []) => Some (Flag Recurse)
  | (APacket, []) => Some (Flag Packetmarkers) | (AVerbose, []) => Some (Flag Verbose)
  | (AFormat, [s]) => Some (Format s) | (AMix, [s]) => Some (Mix s) | _ => None
  end.
Definition acts_mean (acts : list (act * list pystr)) (xs : list setting) : Prop := Forall2 (fun a x => setting_of a = Some x) acts xs.
Definition mix_ok (xs : list setting) : Prop := forall s, In (Mix s) xs -> int_of s = Some 1 \/ int_of s = Some 2.
Definition set_flag (f : flag) (n : names) : names := {|
  n_format := n_format n; n_mix := n_mix n;
  n_nopretty := match f with Nopretty => true | _ => n_nopretty n end;
  n_nullxml := match f with Nullxml => true | _ => n_nullxml n end;
  n_recurse := match f with Recurse => true | _ => n_recurse n end;
  n_packet := match f with Packetmarkers => true | _ => n_packet n end;
  n_verbose := match f with Verbose => true | _ => n_verbose n end; n_paths := n_paths n |}.
Definition set1 (n : names) (x : setting) : names :=
  match x with
  | Flag f => set_flag f n
  | Format s => {| n_format := s; n_mix := n_mix n; n_nopretty := n_nopretty n; n_nullxml := n_nullxml n; n_recurse := n_recurse n;
                   n_packet := n_packet n; n_verbose := n_verbose n; n_paths := n_paths n |}
  | Mix s => {| n_format := n_format n; n_mix := match int_of s with Some v => v | None => 0 end; n_nopretty := n_nopretty n; n_nullxml := n_nullxml n;
                n_recurse := n_recurse n; n_packet := n_packet n; n_verbose := n_verbose n; n_paths := n_paths n |}
  end.
Definition sets (xs : list setting) (n : names) : names := fold_left set1 xs n.
Definition set_paths (ps : list pystr) (n : names) : names := {|
  n_format := n_format n; n_mix := n_mix n; n_nopretty := n_nopretty n; n_nullxml := n_nullxml n; n_recurse := n_recurse n;
  n_packet := n_packet n; n_verbose := n_verbose n; n_paths := Some ps |}.
Lemma sets_app xs ys n : sets (xs ++ ys) n = sets ys (sets xs n).
Proof. apply fold_left_app. Qed.
Lemma sets_paths ps xs n : sets xs (set_paths ps n) = set_paths ps (sets xs n).
Proof. revert n. induction xs as [|[[]|s|s] xs IH]; intros n; [reflexivity| | | | | | |]; cbn [sets fold_left]; rewrite <- IH; reflexivity. Qed.
Lemma sets_keep xs n : n_paths (sets xs n) = n_paths n.
Proof. revert n. induction xs as [|[[]|s|s] xs IH]; intros n; [reflexivity| | | | | | |]; cbn [sets fold_left]; unfold sets in IH; rewrite IH; reflexivity. Qed.
Lemma mix_app xs ys : mix_ok (xs ++ ys) <-> mix_ok xs /\ mix_ok ys.
Proof.
  unfold mix_ok. split; [intros H; split; intros s HI; apply H, in_or_app; auto|]. intros [H1 H2] s HI. apply in_app_or in HI. destruct HI; auto.
Qed.
Lemma acts_take acts xs n : acts_mean acts xs -> mix_ok xs -> take_actions acts n = inl (sets xs n).
Proof.
  intros H. revert n. induction H as [|[a l] x acts xs HS H IH]; intros n HM; [reflexivity|]. cbn [Argv.take_actions].
  assert (HM' : mix_ok xs) by (intros s HI; apply HM; now right).
  destruct a; try (destruct l as [|? [|? ?]]; discriminate HS); destruct l as [|v [|v2 l]]; try discriminate HS; injection HS as <-; cbn [take_action sets fold_left]; try apply IH; try exact HM'.
  destruct (HM v (or_introl eq_refl)) as [HV|HV]; rewrite HV; cbn [Z.eqb orb Pos.eqb]; rewrite IH by exact HM'; unfold sets; cbn [set1]; rewrite HV; reflexivity.
Qed.
Definition well (x : act * list pystr) : Prop := if takes_arg (fst x) then exists s, snd x = [s] else snd x = [].
Lemma take_acts acts n n' : Forall well acts -> take_actions acts n = inl n' -> exists xs, acts_mean acts xs /\ mix_ok xs /\ n' = sets xs n.
Proof.
  intros HW. revert n n'. induction HW as [|[a l] acts HA HW IH]; intros n n'; cbn [Argv.take_actions]; [intros H; injection H as <-; exists []; repeat split; [constructor|intros ? []]|].
  unfold well in HA. cbn [fst snd] in HA.
  destruct a; cbn [takes_arg] in HA; (match type of HA with ex _ => destruct HA as [v HA] | _ => idtac end); subst l; cbn [take_action]; try discriminate;
    try (intros H; apply IH in H; destruct H as (xs & H1 & H2 & ->); eexists (_ :: xs); split; [constructor; [reflexivity|exact H1]|]; split; [intros s [HI|HI]; [discriminate|now apply H2]|reflexivity]).
  destruct (int_of v) as [z|] eqn:EV; [|discriminate]. destruct ((z =? 1) || (z =? 2)) eqn:EZ; [|discriminate]. intros H. apply IH in H. destruct H as (xs & H1 & H2 & ->).
  exists (Mix v :: xs). split; [constructor; [reflexivity|exact H1]|]. split.
  - intros s [HI|HI]; [injection HI as <-; rewrite EV; assert (z = 1 \/ z = 2) as [-> | ->] by lia; auto|now apply H2].
  - unfold sets. cbn [fold_left set1]. rewrite EV. reflexivity.
Qed.

(** ** One option *)
Lemma flag_act f : takes_arg (act_of (OFlag f)) = false /\ setting_of (act_of (OFlag f), []) = Some (Flag f).
Proof. destruct f; split; reflexivity. Qed.
Lemma flag_well f : well (act_of (OFlag f), []).
Proof. destruct f; reflexivity. Qed.
Lemma flag_set f x : setting_of (act_of (OFlag f), []) = Some x -> x = Flag f.
Proof. destruct f; intros H; injection H as <-; reflexivity. Qed.
Lemma letter_flag c o : In (c, o) letters -> c <> 45 /\ c <> 61.
Proof. intros H. cbn in H. repeat (destruct H as [H|H]; [injection H as <- <-; split; discriminate|]). destruct H. Qed.

(** Letters after one hyphen, with the word that follows if it is needed. *)
Inductive clu : pystr -> list pystr -> list setting -> Prop :=
| clu_flag f c : In (c, OFlag f) letters -> clu [c] [] [Flag f]
| clu_more f c t tl xs : In (c, OFlag f) letters -> clu t tl xs -> clu (c :: t) tl (Flag f :: xs)
| clu_eq v : clu (102 :: 61 :: v) [] [Format v]
| clu_val v : v <> [] -> hd 0 v <> 61 -> clu (102 :: v) [] [Format v]
| clu_next v : word v -> clu [102] [v] [Format v].
Lemma clu_written t tl xs : clu t tl xs -> written ((45 :: t) :: tl) xs.
Proof.
  enough (H : clu t tl xs -> (exists fs, fs <> [] /\ letters_of fs t /\ tl = [] /\ xs = map Flag fs) \/
    exists fs s v u, letters_of fs s /\ xs = map Flag fs ++ [Format v] /\ t = s ++ 102 :: u /\
      ((u = 61 :: v /\ tl = []) \/ (u = v /\ v <> [] /\ hd 0 v <> 61 /\ tl = []) \/ (u = [] /\ tl = [v] /\ word v))).
  { intros HC. destruct (H HC) as [(fs & H1 & H2 & -> & ->)|(fs & s & v & u & H1 & -> & -> & H2)]; [now apply w_letters|].
    destruct H2 as [(-> & ->)|[(-> & H2 & H3 & ->)|(-> & -> & H2)]].
    - exact (w_letters_equals decimal fs s v H1).
    - exact (w_letters_value decimal fs s v H1 H2 H3).
    - exact (w_letters_next decimal fs s v H1 H2). }
  induction 1 as [f c HI|f c t tl xs HI HC IH|v|v H1 H2|v H].
  - left. exists [f]. repeat split; [discriminate|constructor; [exact HI|constructor]].
  - destruct IH as [(fs & H1 & H2 & -> & ->)|(fs & s & v & u & H1 & -> & -> & H2)].
    + left. exists (f :: fs). repeat split; [discriminate|now constructor].
    + right. exists (f :: fs), (c :: s), v, u. split; [now constructor|]. split; [reflexivity|]. split; [reflexivity|exact H2].
  - right. exists [], [], v, (61 :: v). split; [constructor|]. split; [reflexivity|]. split; [reflexivity|]. left. auto.
  - right. exists [], [], v, v. split; [constructor|]. split; [reflexivity|]. split; [reflexivity|]. right. left. auto.
  - right. exists [], [], v, []. split; [constructor|]. split; [reflexivity|]. split; [reflexivity|]. right. right. auto.
Qed.
Lemma letters_clu fs s t tl xs : letters_of fs s -> clu t tl xs -> clu (s ++ t) tl (map Flag fs ++ xs).
Proof. induction 1; intros HC; [exact HC|]. cbn [app map]. apply clu_more; auto. Qed.
Lemma letters_only fs s : fs <> [] -> letters_of fs s -> clu s [] (map Flag fs).
Proof.
  intros HN H. induction H as [|f c fs s HI H IH]; [contradiction|]. destruct fs as [|g fs]; [inversion H; subst; now apply clu_flag|]. cbn [map]. apply clu_more; [exact HI|]. apply IH. discriminate.
Qed.
(** What remains to be done after the letter [c]. *)
Definition after (a : act) (c : Z) (r : pystr) (rest : list (pystr * kind)) :=
  match r with [] => no_explicit a rest | d :: x => if d =? 61 then explicit a [45; c] true x rest else explicit a [45; c] false r rest end.
Lemma after_kind a c r s rest : consume_optional s (letter_kind a c r) rest = after a c r rest.
Proof. destruct r as [|d r]; [reflexivity|]. cbn [letter_kind after]. destruct (d =? 61); reflexivity. Qed.
Lemma after_flag f c r rest : In (c, OFlag f) letters -> after (act_of (OFlag f)) c r rest =
  match r with
  | [] => Some ([(act_of (OFlag f), [])], [], rest)
  | d :: x => if (d =? 61) || (d =? 45) then None
              else match letter d with
                   | Some o => first_act (act_of (OFlag f), []) (after (act_of o) d x rest)
                   | None => Some ([(act_of (OFlag f), [])], [45 :: r], rest)
                   end
  end.
Proof.
  intros HI. pose proof (letter_flag _ _ HI) as [HC _]. unfold after. destruct (flag_act f) as [HF _]. destruct r as [|d x]; [unfold no_explicit; now rewrite HF|].
  destruct (d =? 61) eqn:E61; cbn [orb]; [destruct x; cbn [explicit]; rewrite HF; [reflexivity|]; destruct (c =? 45); reflexivity|].
  cbn [explicit]. rewrite HF. replace (c =? 45) with false by lia. cbn [orb]. destruct (d =? 45) eqn:E45; [reflexivity|]. rewrite lookup_short by lia.
  destruct (letter d) as [o|]; cbn [option_map]; [|reflexivity]. reflexivity.
Qed.
Definition args (vs : list pystr) : list (pystr * kind) := map (fun x => (x, KArg)) vs.
Lemma clu_after t tl xs : clu t tl xs -> forall rest, exists c r o acts, t = c :: r /\ In (c, o) letters /\
  after (act_of o) c r (args tl ++ rest) = Some (acts, [], rest) /\ acts_mean acts xs.
Proof.
  induction 1 as [f c HI|f c t tl xs HI HC IH|v|v H1 H2|v H]; intros rest.
  - exists c, [], (OFlag f). eexists. split; [reflexivity|]. split; [exact HI|]. rewrite after_flag by exact HI. split; [reflexivity|]. constructor; [apply flag_act|constructor].
  - destruct (IH rest) as (d & r & o & acts & -> & HI2 & HA & HM). exists c, (d :: r), (OFlag f). eexists. split; [reflexivity|]. split; [exact HI|].
    rewrite after_flag by exact HI. pose proof (letter_flag _ _ HI2). replace (d =? 61) with false by lia. replace (d =? 45) with false by lia. cbn [orb].
    rewrite (proj2 (letter_spec d o) HI2), HA. cbn [first_act]. split; [reflexivity|]. constructor; [apply flag_act|exact HM].
  - exists 102, (61 :: v), OFormat. eexists. split; [reflexivity|]. split; [cbn; auto|]. cbn [after act_of args map app]. change (61 =? 61) with true. cbv iota.
    assert (HX : explicit AFormat [45; 102] true v rest = Some ([(AFormat, [v])], [], rest)) by (destruct v; reflexivity). rewrite HX. split; [reflexivity|]. constructor; [reflexivity|constructor].
  - exists 102, v, OFormat. eexists. split; [reflexivity|]. split; [cbn; auto|]. cbn [act_of args map app]. destruct v as [|d v]; [contradiction|]. cbn [after]. cbn in H2. replace (d =? 61) with false by lia.
    split; [reflexivity|]. constructor; [reflexivity|constructor].
  - exists 102, [], OFormat. eexists. split; [reflexivity|]. split; [cbn; auto|]. cbn [act_of args map app after no_explicit takes_arg]. split; [reflexivity|]. constructor; [reflexivity|constructor].
Qed.
Lemma after_clu r : forall c o rest acts rest', In (c, o) letters -> after (act_of o) c r rest = Some (acts, [], rest') ->
  Forall well acts /\ forall xs, acts_mean acts xs -> exists vs, rest = args vs ++ rest' /\ (Forall word vs -> clu (c :: r) vs xs).
Proof.
  assert (HF : forall c o, In (c, o) letters -> (exists f, o = OFlag f) \/ (c = 102 /\ o = OFormat) \/ o = OHelp \/ o = OVersion).
  { intros c o H. cbn in H. repeat (destruct H as [H|H]; [injection H as <- <-; eauto|]). destruct H. }
  assert (HX : forall a c r rest acts rest', setting_of (a, []) = None -> takes_arg a = false -> after a c r rest = Some (acts, [], rest') -> Forall well acts /\ ~ exists xs, acts_mean acts xs).
  2: induction r as [|d r IH]; intros c o rest acts rest' HI H; destruct (HF c o HI) as [(f & ->)|[(-> & ->)|Ho]].
  - intros a c t. revert a c.
    assert (HG : forall r a c rest acts rest', after a c r rest = Some (acts, [], rest') -> (takes_arg a = true \/ exists l, acts = (a, []) :: l) /\ Forall well acts).
    { clear. induction r as [|d r IH]; intros a c rest acts rest' H.
      - cbn [after] in H. unfold no_explicit in H. destruct (takes_arg a) eqn:ET.
        + destruct rest as [|[w []] rest]; try discriminate. injection H as <- <-. split; [auto|]. constructor; [|constructor]. unfold well. cbn. rewrite ET. eauto.
        + injection H as <- <-. split; [eauto|]. constructor; [|constructor]. unfold well. cbn. now rewrite ET.
      - cbn [after] in H. destruct (takes_arg a) eqn:ET.
        + assert (HW : forall v, Forall well [(a, [v])]) by (intros v; constructor; [|constructor]; unfold well; cbn; rewrite ET; eauto).
          split; [auto|]. destruct (d =? 61); [destruct r|]; cbn [explicit] in H; rewrite ET in H; injection H as <- <-; apply HW.
        + destruct (d =? 61); [destruct r; cbn [explicit] in H; rewrite ET in H; [discriminate|]; destruct (c =? 45); discriminate|].
          cbn [explicit] in H. rewrite ET in H. destruct (c =? 45); [discriminate|]. cbn [orb] in H. destruct (d =? 45); [discriminate|]. destruct (lookup [45; d] optmap) as [a'|]; [|discriminate].
          change (match r with [] => no_explicit a' rest | d0 :: e'' => if d0 =? 61 then explicit a' [45; d] true e'' rest else explicit a' [45; d] false r rest end) with (after a' d r rest) in H.
          destruct (after a' d r rest) as [[[acts' ex] rest2]|] eqn:EA; [|discriminate]. cbn [first_act] in H. injection H as <- -> ->. apply IH in EA. split; [eauto|]. constructor; [|apply EA]. unfold well. cbn. now rewrite ET. }
    intros a c rest acts rest' H1 H2 H. apply HG in H. destruct H as [[H|(l & ->)] HW]; [congruence|]. split; [exact HW|]. intros (xs & HM). inversion HM; subst. congruence.
  - rewrite after_flag in H by exact HI. injection H as <- <-. split; [constructor; [exact (flag_well f)|constructor]|].
    intros xs HM. inversion HM as [|? x ? xs' H1 H2]; subst. inversion H2; subst. apply (flag_set f) in H1. subst x. exists []. split; [reflexivity|]. intros _. now apply clu_flag.
  - cbn [act_of after no_explicit takes_arg] in H. destruct rest as [|[w []] rest]; try discriminate. injection H as <- <-. split; [constructor; [unfold well; cbn; eauto|constructor]|].
    intros xs HM. inversion HM as [|? x ? xs' H1 H2]; subst. inversion H2; subst. injection H1 as <-. exists [w]. split; [reflexivity|]. intros HW. inversion HW; subst. now apply clu_next.
  - destruct Ho as [-> | ->]; (apply HX in H; [|reflexivity|reflexivity]; destruct H as [H1 H2]; split; [exact H1|]; intros xs HM; exfalso; apply H2; eauto).
  - rewrite after_flag in H by exact HI. destruct ((d =? 61) || (d =? 45)) eqn:ED; [discriminate|]. destruct (letter d) as [o'|] eqn:EL; [|discriminate]. apply letter_spec in EL.
    destruct (after (act_of o') d r rest) as [[[acts' ex] rest2]|] eqn:EA; [|discriminate]. cbn [first_act] in H. injection H as <- -> ->. apply IH in EA; [|exact EL]. destruct EA as [HW HC].
    split; [constructor; [exact (flag_well f)|exact HW]|]. intros xs HM. inversion HM as [|? x ? xs' H1 H2]; subst. apply (flag_set f) in H1. subst x.
    destruct (HC xs' H2) as (vs & -> & HV). exists vs. split; [reflexivity|]. intros HWd. apply clu_more; auto.
  - cbn [act_of after] in H. destruct (d =? 61) eqn:ED.
    + assert (d = 61) by lia. subst d. assert (HE : explicit AFormat [45; 102] true r rest = Some ([(AFormat, [r])], [], rest)) by (destruct r; reflexivity). rewrite HE in H. injection H as <- <-.
      split; [constructor; [unfold well; cbn; eauto|constructor]|]. intros xs HM. inversion HM as [|? x ? xs' H1 H2]; subst. inversion H2; subst. injection H1 as <-. exists []. split; [reflexivity|]. intros _. apply clu_eq.
    + cbn [explicit takes_arg] in H. injection H as <- <-. split; [constructor; [unfold well; cbn; eauto|constructor]|]. intros xs HM. inversion HM as [|? x ? xs' H1 H2]; subst. inversion H2; subst. injection H1 as <-. exists []. split; [reflexivity|]. intros _. apply clu_val; [discriminate|cbn; lia].
  - destruct Ho as [-> | ->]; (apply HX in H; [|reflexivity|reflexivity]; destruct H as [H1 H2]; split; [exact H1|]; intros xs HM; exfalso; apply H2; eauto).
Qed.

Definition is_kopt (k : kind) : Prop := match k with KOpt _ _ _ _ => True | _ => False end.
Lemma explicit_value a opt sep v rest : takes_arg a = true -> explicit a opt sep v rest = Some ([(a, [v])], [], rest).
Proof. intros H. destruct v; cbn [explicit]; now rewrite H. Qed.
Lemma explicit_sep a opt v rest : takes_arg a = false -> explicit a opt true v rest = None.
Proof. intros H. destruct v; cbn [explicit]; rewrite H; [reflexivity|]. cbn [orb]. destruct (match opt with _ :: d :: _ => d =? 45 | _ => false end); reflexivity. Qed.
Lemma refers_dashes p o : refers p o -> ~ In 61 p /\ exists q, p = 45 :: 45 :: q /\ q <> [].
Proof.
  intros H. pose proof H as [(s & HI & HB) HU]. destruct HB as (r & ->). split.
  - intros H61. assert (HX : forall l o', In (l, o') longs -> ~ In 61 l).
    { intros l o' HL. cbn in HL. repeat (destruct HL as [HL|HL]; [injection HL as <- <-; vm_compute; intuition discriminate|]). destruct HL. }
    apply (HX _ _ HI). apply in_or_app. now left.
  - assert (HX : forall l o', In (l, o') longs -> exists t, l = 45 :: 45 :: t).
    { intros l o' HL. cbn in HL. repeat (destruct HL as [HL|HL]; [injection HL as <- <-; eexists; reflexivity|]). destruct HL. }
    destruct (HX _ _ HI) as (t & HT).
    assert (H1 : begins p (pys "--help") -> begins p (pys "--mix") -> False).
    { intros B1 B2. pose proof (HU (pys "--help") OHelp ltac:(cbn; auto) B1). pose proof (HU (pys "--mix") OMix ltac:(cbn; auto) B2). congruence. }
    destruct p as [|c [|d [|x q]]]; cbn [app] in HT.
    + exfalso. apply H1; eexists; reflexivity.
    + injection HT as -> _. exfalso. apply H1; eexists; reflexivity.
    + injection HT as -> -> _. exfalso. apply H1; eexists; reflexivity.
    + injection HT as -> -> _. exists (x :: q). split; [reflexivity|discriminate].
Qed.
Lemma clu_words t tl xs : clu t tl xs -> Forall word tl.
Proof. induction 1; repeat (assumption || constructor). Qed.
Lemma written_consume ws xs : written ws xs -> exists s tl k, ws = s :: tl /\ Forall word tl /\ s <> [45; 45] /\ parse_optional decimal s = Some k /\ is_kopt k /\
  forall rest, exists acts, consume_optional s k (args tl ++ rest) = Some (acts, [], rest) /\ acts_mean acts xs.
Proof.
  assert (HC : forall t tl xs, clu t tl xs -> exists s tl' k, (45 :: t) :: tl = s :: tl' /\ Forall word tl' /\ s <> [45; 45] /\ parse_optional decimal s = Some k /\ is_kopt k /\
    forall rest, exists acts, consume_optional s k (args tl' ++ rest) = Some (acts, [], rest) /\ acts_mean acts xs).
  { intros t tl ys HC. exists (45 :: t), tl. destruct (clu_after _ _ _ HC []) as (c & r & o & _ & -> & HI & _). pose proof (letter_flag _ _ HI) as [H45 _].
    exists (letter_kind (act_of o) c r). split; [reflexivity|]. split; [exact (clu_words _ _ _ HC)|]. split; [congruence|]. split; [rewrite parse_short by exact H45; now rewrite (proj2 (letter_spec c o) HI)|].
    split; [destruct r as [|d r]; cbn; [exact I|]; destruct (d =? 61); exact I|]. intros rest. destruct (clu_after _ _ _ HC rest) as (c' & r' & o' & acts & HE & HI' & HA & HM). injection HE as <- <-.
    assert (o' = o) as -> by (apply letter_spec in HI; apply letter_spec in HI'; congruence). exists acts. rewrite after_kind. auto. }
  assert (HV : forall p o s x, refers p o -> with_value o s x -> takes_arg (act_of o) = true /\ setting_of (act_of o, [s]) = Some x).
  { intros p o s x _ [[-> ->]|[-> ->]]; split; reflexivity. }
  intros H. destruct H as [p f H|p o s x H HW|p o s x H HW HS|fs s H1 H2|fs s v H|fs s v H H1 H2|fs s v H H1].
  - destruct (refers_dashes _ _ H) as (H61 & q & -> & Hq). apply refers_spec in H as (l & HM). exists (45 :: 45 :: q), []. pose proof (parse_long decimal q) as HP. cbv zeta in HP. destruct (partition_app _ [] H61) as [_ HX]. rewrite HX, HM in HP.
    eexists. split; [reflexivity|]. split; [constructor|]. split; [congruence|]. split; [exact HP|]. split; [exact I|]. intros rest. eexists. cbn [consume_optional is_some args map app]. unfold no_explicit. rewrite (proj1 (flag_act f)).
    split; [reflexivity|]. constructor; [apply flag_act|constructor].
  - destruct (HV _ _ _ _ H HW) as [HT HS]. destruct (refers_dashes _ _ H) as (H61 & q & -> & Hq). apply refers_spec in H as (l & HM). exists ((45 :: 45 :: q) ++ [61] ++ s), []. pose proof (parse_long decimal (q ++ 61 :: s)) as HP. cbv zeta in HP.
    destruct (partition_app _ s H61) as [HX _]. change ((45 :: 45 :: q) ++ 61 :: s) with (45 :: 45 :: q ++ 61 :: s) in HX. rewrite HX, HM in HP.
    eexists. split; [reflexivity|]. split; [constructor|]. split; [cbn [app]; destruct q; [contradiction|discriminate]|]. split; [exact HP|]. split; [exact I|]. intros rest. eexists. cbn [consume_optional is_some args map app].
    rewrite explicit_value by exact HT. split; [reflexivity|]. constructor; [exact HS|constructor].
  - destruct (HV _ _ _ _ H HW) as [HT HSet]. destruct (refers_dashes _ _ H) as (H61 & q & -> & Hq). apply refers_spec in H as (l & HM). exists (45 :: 45 :: q), [s]. pose proof (parse_long decimal q) as HP. cbv zeta in HP. destruct (partition_app _ [] H61) as [_ HX]. rewrite HX, HM in HP.
    eexists. split; [reflexivity|]. split; [constructor; [exact HS|constructor]|]. split; [congruence|]. split; [exact HP|]. split; [exact I|]. intros rest. eexists. cbn [consume_optional is_some args map app]. unfold no_explicit. rewrite HT.
    split; [reflexivity|]. constructor; [exact HSet|constructor].
  - apply HC. now apply letters_only.
  - apply HC. apply letters_clu; [exact H|]. apply clu_eq.
  - apply HC. apply letters_clu; [exact H|]. now apply clu_val.
  - apply HC. apply letters_clu; [exact H|]. now apply clu_next.
Qed.
Lemma consume_written s k rest acts rest' : parse_optional decimal s = Some k -> is_kopt k -> consume_optional s k rest = Some (acts, [], rest') ->
  Forall well acts /\ forall xs, acts_mean acts xs -> exists vs, rest = args vs ++ rest' /\ (Forall word vs -> written (s :: vs) xs).
Proof.
  intros HP HK HC.
  assert (HD : exists d r, s = 45 :: d :: r).
  { destruct s as [|c [|d r]]; [injection HP as <-; destruct HK| |].
    - assert (HX : parse_optional decimal [c] = Some KArg) by (cbn [parse_optional]; destruct (c =? 45) eqn:E; [replace c with 45 by lia; vm_compute; reflexivity|reflexivity]). rewrite HX in HP. injection HP as <-. destruct HK.
    - destruct (Z.eq_dec c 45) as [->|HN]; [eauto|]. cbn [parse_optional] in HP. replace (c =? 45) with false in HP by lia. injection HP as <-. destruct HK. }
  destruct HD as (d & r & ->). destruct (Z.eq_dec d 45) as [->|HN].
  - pose proof (parse_long decimal r) as HL. cbv zeta in HL. pose proof (partition_spec (45 :: 45 :: r)) as HPS. destruct (partition_eq (45 :: 45 :: r)) as [p e]. destruct HPS as [H61 HS]. rewrite HP in HL.
    destruct (matches p) as [|[l o] [|? ?]] eqn:EM; [|injection HL as ->|discriminate].
    { injection HL as ->. destruct (rest_kind decimal (45 :: 45 :: r)) as [| |a o sep e'] eqn:ER; [destruct HK|destruct HK|]. apply rest_opt in ER. subst a. discriminate HC. }
    assert (HR : refers p o) by (apply refers_spec; eauto). cbn [consume_optional] in HC.
    assert (HF : takes_arg (act_of o) = false -> (exists f, o = OFlag f) \/ forall v, setting_of (act_of o, v) = None) by (destruct o as [f| | | |]; eauto; intros HT; try discriminate HT; right; reflexivity).
    assert (HV : takes_arg (act_of o) = true -> forall v x, setting_of (act_of o, [v]) = Some x -> with_value o v x) by (destruct o as [[]| | | |]; try discriminate; intros _ v x H; injection H as <-; [left|right]; auto).
    destruct e as [v|].
    + destruct (takes_arg (act_of o)) eqn:ET; [|rewrite explicit_sep in HC by exact ET; discriminate]. rewrite explicit_value in HC by exact ET. injection HC as <- <-.
      split; [constructor; [unfold well; cbn [fst snd]; rewrite ET; eauto|constructor]|]. intros xs HM. inversion HM as [|? x ? xs' H1 H2]; subst. inversion H2; subst. exists []. split; [reflexivity|]. intros _. rewrite HS.
      apply (w_long_equals decimal p o v x HR). now apply HV.
    + rewrite app_nil_r in HS. subst p. unfold no_explicit in HC. destruct (takes_arg (act_of o)) eqn:ET.
      * destruct rest as [|[w []] rest]; try discriminate. injection HC as <- <-. split; [constructor; [unfold well; cbn [fst snd]; rewrite ET; eauto|constructor]|].
        intros xs HM. inversion HM as [|? x ? xs' H1 H2]; subst. inversion H2; subst. exists [w]. split; [reflexivity|]. intros HW. inversion HW; subst. apply (w_long_next decimal _ o w x HR); [now apply HV|assumption].
      * injection HC as <- <-. split; [constructor; [unfold well; cbn [fst snd]; now rewrite ET|constructor]|]. intros xs HM. inversion HM as [|? x ? xs' H1 H2]; subst. inversion H2; subst. exists []. split; [reflexivity|]. intros _.
        destruct (HF eq_refl) as [(f & ->)|HX]; [|congruence]. apply (flag_set f) in H1. subst x. now apply w_long.
  - rewrite parse_short in HP by exact HN. destruct (letter d) as [o|] eqn:EL.
    + injection HP as <-. rewrite after_kind in HC. apply letter_spec in EL. apply after_clu in HC; [|exact EL]. destruct HC as [HW HC]. split; [exact HW|]. intros xs HM. destruct (HC xs HM) as (vs & -> & HX). exists vs. split; [reflexivity|]. intros HWd. apply clu_written. auto.
    + injection HP as <-. destruct (rest_kind decimal (45 :: d :: r)) as [| |a o sep e'] eqn:ER; [destruct HK|destruct HK|]. apply rest_opt in ER. subst a. discriminate HC.
Qed.

(** ** The whole line *)
Lemma classify_cons s l : s <> [45; 45] -> classify (s :: l) = match parse_optional decimal s with None => None | Some k => match classify l with Some m => Some ((s, k) :: m) | None => None end end.
Proof. intros H. cbn [Argv.classify]. destruct (pystr_eqb s [45; 45]) eqn:E; [apply pystr_eqb_spec in E; contradiction|reflexivity]. Qed.
Lemma word_dashes s : word s -> s <> [45; 45].
Proof. intros H ->. apply word_spec in H. vm_compute in H. discriminate. Qed.
Lemma classify_words ps l m : Forall word ps -> classify l = Some m -> classify (ps ++ l) = Some (args ps ++ m).
Proof.
  intros H HM. induction H as [|s ps HS H IH]; [exact HM|]. cbn [app]. rewrite classify_cons by now apply word_dashes. rewrite (proj2 (word_spec decimal s) HS), IH. reflexivity.
Qed.
(** The head of a classified list. *)
Lemma classify_inv s k l m : classify l = Some ((s, k) :: m) -> exists l', l = s :: l' /\
  ((s = [45; 45] /\ k = KDash /\ m = args l') \/ (s <> [45; 45] /\ parse_optional decimal s = Some k /\ classify l' = Some m)).
Proof.
  destruct l as [|t l]; [discriminate|]. destruct (list_eq_dec Z.eq_dec t [45; 45]) as [->|HN].
  - cbn [Argv.classify]. change (pystr_eqb [45; 45] [45; 45]) with true. cbv iota. intros H. injection H as <- <- <-. exists l. split; [reflexivity|]. left. auto.
  - rewrite classify_cons by exact HN. destruct (parse_optional decimal t) as [k'|] eqn:EP; [|discriminate]. destruct (classify l) as [m'|] eqn:EM; [|discriminate]. intros H. injection H as <- <- <-. exists l. split; [reflexivity|]. right. auto.
Qed.
Lemma parse_not_dash s k : parse_optional decimal s = Some k -> k <> KDash.
Proof.
  intros H ->. destruct s as [|c [|d r]]; [discriminate| |].
  - cbn [parse_optional] in H. destruct (c =? 45) eqn:E; [|discriminate]. replace c with 45 in H by lia. vm_compute in H. discriminate.
  - destruct (Z.eq_dec c 45) as [->|HC]; [|cbn [parse_optional] in H; replace (c =? 45) with false in H by lia; discriminate]. destruct (Z.eq_dec d 45) as [->|HD].
    + pose proof (parse_long decimal r) as HL. cbv zeta in HL. destruct (partition_eq (45 :: 45 :: r)) as [p e]. rewrite H in HL. destruct (matches p) as [|[? ?] [|? ?]]; try discriminate. injection HL as HL. unfold rest_kind in HL. destruct (negative_number _ _); [discriminate|]. destruct (existsb _ _); discriminate.
    + rewrite parse_short in H by exact HD. destruct (letter d).
      * injection H as H. destruct r as [|x r]; cbn in H; [discriminate|]. destruct (x =? 61); discriminate.
      * injection H as H. unfold rest_kind in H. destruct (negative_number _ _); [discriminate|]. destruct (existsb _ _); discriminate.
Qed.
Lemma args_no_opt l : existsb is_opt (args l) = false.
Proof. induction l; [reflexivity|exact IHl]. Qed.
(** No option: words, perhaps "--" and anything. *)
Lemma no_opt_shape m : forall l, classify l = Some m -> existsb is_opt m = false ->
  exists ps, Forall word ps /\ ((l = ps /\ m = args ps) \/ exists qs, l = ps ++ [45; 45] :: qs /\ m = args ps ++ ([45; 45], KDash) :: args qs).
Proof.
  induction m as [|[s k] m IH]; intros l HC HO.
  - assert (l = []) as ->.
    { destruct l as [|s l]; [reflexivity|]. exfalso. cbn [Argv.classify] in HC. destruct (pystr_eqb s [45; 45]); [discriminate|]. destruct (parse_optional decimal s); [|discriminate]. destruct (classify l); discriminate. }
    exists []. split; [constructor|]. left. auto.
  - apply classify_inv in HC. destruct HC as (l' & -> & HC). cbn [existsb] in HO. apply orb_false_elim in HO. destruct HO as [HO1 HO2]. destruct HC as [(-> & -> & ->)|(HN & HP & HC)].
    + exists []. split; [constructor|]. right. exists l'. auto.
    + destruct k; [|exfalso; eapply parse_not_dash; [exact HP|reflexivity]|discriminate HO1]. apply word_spec in HP. destruct (IH l' HC HO2) as (ps & HW & HX). exists (s :: ps). split; [constructor; assumption|].
      destruct HX as [[-> ->]|(qs & -> & ->)]; [left; auto|right; exists qs; auto].
Qed.
(** Up to the first option there are only words. *)
Lemma until_shape m : forall l, classify l = Some m -> existsb is_opt m = true ->
  exists ps l' m', l = ps ++ l' /\ m = args ps ++ m' /\ Forall word ps /\ classify l' = Some m' /\ until_opt m = (args ps, m') /\
    exists s k m2, m' = (s, k) :: m2 /\ is_kopt k.
Proof.
  induction m as [|[s k] m IH]; intros l HC HO; [discriminate|]. cbn [until_opt]. destruct (is_opt (s, k)) eqn:EO.
  - exists [], l, ((s, k) :: m). repeat split; [constructor|exact HC|]. exists s, k, m. split; [reflexivity|]. destruct k; try discriminate EO. exact I.
  - cbn [existsb] in HO. rewrite EO in HO. cbn [orb] in HO. apply classify_inv in HC. destruct HC as (l' & -> & HC). destruct HC as [(-> & -> & ->)|(HN & HP & HC)]; [rewrite args_no_opt in HO; discriminate|].
    destruct k; [|exfalso; eapply parse_not_dash; [exact HP|reflexivity]|discriminate EO]. apply word_spec in HP. destruct (IH l' HC HO) as (ps & l2 & m2 & -> & -> & HW & HC2 & HU & HK).
    exists (s :: ps), l2, m2. rewrite HU. repeat split; [constructor; assumption|exact HC2|exact HK].
Qed.
Lemma count_args ps s k m : is_kopt k -> ps <> [] -> count_positionals (args ps ++ (s, k) :: m) = List.length ps.
Proof.
  intros HK HN. destruct ps as [|p ps]; [contradiction|]. cbn [args map app count_positionals List.length]. f_equal. clear HN. induction ps as [|q ps IH]; cbn [map app args_dashes List.length]; [destruct k; try destruct HK; reflexivity|]. now rewrite IH.
Qed.
Lemma args_dashes_all m : existsb is_opt m = false -> args_dashes m = List.length m.
Proof. induction m as [|[s k] m IH]; cbn [existsb args_dashes List.length]; [reflexivity|]. intros H. apply orb_false_elim in H. destruct H as [H1 H2]. destruct k; [now rewrite IH|now rewrite IH|discriminate]. Qed.
Lemma remove_words ps : Forall word ps -> remove_dashes ps = ps.
Proof.
  induction 1 as [|s ps HS H IH]; [reflexivity|]. cbn [remove_dashes]. destruct (pystr_eqb s [45; 45]) eqn:E; [apply pystr_eqb_spec in E; exfalso; revert E; now apply word_dashes|]. now rewrite IH.
Qed.
Lemma remove_dashed ps qs : Forall word ps -> remove_dashes (ps ++ [45; 45] :: qs) = ps ++ qs.
Proof.
  induction 1 as [|s ps HS H IH]; [reflexivity|]. cbn [remove_dashes app]. destruct (pystr_eqb s [45; 45]) eqn:E; [apply pystr_eqb_spec in E; exfalso; revert E; now apply word_dashes|]. now rewrite IH.
Qed.
Lemma map_args ps : map fst (args ps) = ps.
Proof. unfold args. rewrite map_map. cbn. apply map_id. Qed.
Lemma args_app a b : args (a ++ b) = args a ++ args b.
Proof. apply map_app. Qed.
Lemma length_args ps : List.length (args ps) = List.length ps.
Proof. apply map_length. Qed.

(** Extras stay. *)
Lemma loop_extras f : forall l n ex n' ex', loop f l n ex = inl (n', ex') -> exists e, ex' = ex ++ e.
Proof.
  induction f as [|f IH]; intros l n ex n' ex'; [discriminate|]. cbn [Argv.loop].
  assert (HO : forall l0 ex0, match l0 with
        | (s, k) :: rest =>
            match consume_optional s k rest with
            | None => inr SError
            | Some (acts, e, rest') =>
                match take_actions acts n with inl n' => loop f rest' n' (ex0 ++ e) | inr st => inr st end
            end
        | [] => inr SError
        end = inl (n', ex') -> exists e, ex' = ex0 ++ e).
  { intros l0 ex0. destruct l0 as [|[s k] rest]; [discriminate|]. destruct (consume_optional s k rest) as [[[acts e] rest']|]; [|discriminate]. destruct (take_actions acts n); [|discriminate].
    intros H. apply IH in H. destruct H as (e' & ->). exists (e ++ e'). now rewrite app_assoc. }
  destruct (existsb is_opt l).
  - destruct (until_opt l) as [[|b before] after]; [apply HO|]. destruct (consume_positionals l n) as [[|c] n1]; [|apply IH]. intros H. apply HO in H. destruct H as (e & ->). exists (map fst (b :: before) ++ e). now rewrite app_assoc.
  - destruct (consume_positionals l n) as [c n1]. intros H. injection H as <- <-. eauto.
Qed.
Lemma line_cons w x ws xs ps : written w x -> line ws xs ps -> line (w ++ ws) (x ++ xs) ps.
Proof.
  intros HW H. destruct H as [a y ps b z HA HN HP HB|a y ps qs HA HP HN].
  - rewrite app_assoc, (app_assoc x). apply line_plain; try assumption. now constructor.
  - rewrite app_assoc. apply line_dashes; try assumption. now constructor.
Qed.

(** The parser accepts only lines of the grammar. *)
Lemma loop_sound f : forall l m n n', classify l = Some m -> loop f m n [] = inl (n', []) ->
  match n_paths n with
  | None => n_paths n' <> None -> exists xs ps, line l xs ps /\ mix_ok xs /\ n' = set_paths ps (sets xs n)
  | Some _ => exists xs, options l xs /\ mix_ok xs /\ n' = sets xs n
  end.
Proof.
  induction f as [|f IH]; intros l m n n' HC; [discriminate|]. cbn [Argv.loop].
  assert (HO : forall s k m2 l2, classify l2 = Some ((s, k) :: m2) -> is_kopt k ->
    match consume_optional s k m2 with
            | None => inr SError
            | Some (acts, e, rest') =>
                match take_actions acts n with inl n' => loop f rest' n' ([] ++ e) | inr st => inr st end
            end = inl (n', []) -> match n_paths n with
  | None => n_paths n' <> None -> exists xs ps, line l2 xs ps /\ mix_ok xs /\ n' = set_paths ps (sets xs n)
  | Some _ => exists xs, options l2 xs /\ mix_ok xs /\ n' = sets xs n
  end).
  { intros s k m2 l2 HC2 HK. destruct (consume_optional s k m2) as [[[acts e] rest']|] eqn:EC; [|discriminate]. destruct (take_actions acts n) as [n1|] eqn:ET; [|discriminate]. cbn [app]. intros HL.
    destruct (loop_extras _ _ _ _ _ _ HL) as (e' & He). symmetry in He. apply app_eq_nil in He. destruct He as [-> _].
    apply classify_inv in HC2. destruct HC2 as (l' & -> & [(_ & -> & _)|(HN & HP & HC')]); [destruct HK|].
    destruct (consume_written s k m2 acts rest' HP HK EC) as [HW HX]. destruct (take_acts acts n n1 HW ET) as (xs & HM & HMix & ->). destruct (HX xs HM) as (vs & -> & HWr).
    assert (HV : Forall word vs /\ exists l3, l' = vs ++ l3 /\ classify l3 = Some rest').
    { clear -HC'. revert l' HC'. induction vs as [|v vs IHv]; intros l' HC'; [split; [constructor|]; exists l'; auto|]. cbn [args map app] in HC'. apply classify_inv in HC'. destruct HC' as (l2 & -> & [(_ & HX & _)|(_ & HP & HC)]); [discriminate|].
      destruct (IHv l2 HC) as (H1 & l3 & -> & H2). split; [constructor; [now apply word_spec in HP|exact H1]|]. exists l3. auto. }
    destruct HV as (HV & l3 & -> & HC3). specialize (HWr HV). specialize (IH l3 rest' (sets xs n) n' HC3 HL). rewrite sets_keep in IH. destruct (n_paths n).
    - destruct IH as (ys & H1 & H2 & ->). exists (xs ++ ys). split; [change (s :: vs ++ l3) with ((s :: vs) ++ l3); now constructor|]. split; [apply mix_app; auto|]. now rewrite sets_app.
    - intros HNN. destruct (IH HNN) as (ys & ps & H1 & H2 & ->). exists (xs ++ ys), ps. split; [change (s :: vs ++ l3) with ((s :: vs) ++ l3); now apply line_cons|]. split; [apply mix_app; auto|]. now rewrite sets_app. }
  destruct (existsb is_opt m) eqn:EO.
  - destruct (until_shape m l HC EO) as (ps & l2 & m2 & -> & -> & HW & HC2 & HU & s & k & m3 & -> & HK). rewrite HU. destruct ps as [|p ps].
    + cbn [args map app]. intros H. exact (HO s k m3 l2 HC2 HK H).
    + cbn [args map]. fold (args ps). change ((p, KArg) :: args ps) with (args (p :: ps)). unfold consume_positionals. destruct (n_paths n) eqn:EN.
      * intros H. exfalso. destruct (consume_optional s k m3) as [[[acts e] rest']|]; [|discriminate]. destruct (take_actions acts n); [|discriminate]. destruct (loop_extras _ _ _ _ _ _ H) as (e' & He). discriminate He.
      * rewrite (count_args (p :: ps) s k m3 HK) by discriminate. cbn [List.length]. rewrite firstn_app. replace (S (List.length ps) - List.length (args (p :: ps)))%nat with O by (rewrite length_args; cbn [List.length]; lia). rewrite firstn_all2 by (rewrite length_args; cbn [List.length]; lia).
        cbn [firstn]. rewrite app_nil_r, map_args, remove_words by exact HW. rewrite skipn_app, skipn_all2 by (rewrite length_args; cbn [List.length]; lia). replace (S (List.length ps) - List.length (args (p :: ps)))%nat with O by (rewrite length_args; cbn [List.length]; lia).
        cbn [skipn app]. intros H _. apply (IH l2 ((s, k) :: m3) _ n' HC2) in H. cbn [n_paths] in H. destruct H as (xs & H1 & H2 & ->). exists xs, (p :: ps). split; [exact (line_plain decimal [] [] (p :: ps) l2 xs (o_nil decimal) ltac:(discriminate) HW H1)|].
        split; [exact H2|]. rewrite <- sets_paths. reflexivity.
  - destruct (no_opt_shape m l HC EO) as (ps & HW & HX). unfold consume_positionals. destruct (n_paths n) eqn:EN.
    + cbn [skipn app]. intros H. injection H as <- H. apply map_eq_nil in H. assert (l = []) as ->.
      { destruct HX as [[-> ->]|(qs & -> & ->)]; [|destruct ps; discriminate H]. destruct ps; [reflexivity|discriminate H]. }
      exists []. split; [constructor|]. split; [intros ? []|reflexivity].
    + assert (HA : forall c, c = count_positionals m -> (c = O -> m <> [] -> exists s, m = [(s, KDash)]) /\ (c <> O -> c = List.length m)).
      { intros c ->. destruct HX as [[-> ->]|(qs & -> & ->)].
        - destruct ps as [|p ps]; [split; [intros _ HH; contradiction|contradiction]|]. cbn [args map count_positionals List.length]. split; [discriminate|]. intros _. f_equal. apply args_dashes_all. apply args_no_opt.
        - destruct ps as [|p ps].
          + cbn [args map app count_positionals]. destruct qs as [|q qs]; [split; [eauto|contradiction]|]. cbn [args map count_positionals List.length]. split; [discriminate|]. intros _. do 2 f_equal. apply args_dashes_all. apply args_no_opt.
          + cbn [args map app count_positionals List.length]. split; [discriminate|]. intros _. f_equal. apply args_dashes_all. cbn [args map app existsb] in EO. exact EO. }
      destruct (HA _ eq_refl) as [HA1 HA2]. destruct (count_positionals m) as [|c] eqn:ECt.
      * cbn [skipn app]. intros H. injection H as <- H. apply map_eq_nil in H. subst m. rewrite EN. intros HH. contradiction.
      * rewrite (HA2 ltac:(discriminate)), firstn_all, skipn_all. cbn [map app]. intros H _. injection H as <-. destruct HX as [[-> ->]|(qs & -> & ->)].
        -- exists [], ps. split; [|split; [intros ? []|]].
           ++ replace ps with ([] ++ ps ++ []) at 1 by (cbn [app]; apply app_nil_r). apply (line_plain decimal [] [] ps [] []); [constructor|intros ->; discriminate ECt|exact HW|constructor].
           ++ rewrite map_args, remove_words by exact HW. reflexivity.
        -- exists [], (ps ++ qs). split; [|split; [intros ? []|]].
           ++ apply (line_dashes decimal [] [] ps qs); [constructor|exact HW|]. intros HN. apply app_eq_nil in HN. destruct HN as [-> ->]. discriminate ECt.
           ++ rewrite map_app. cbn [map fst]. rewrite !map_args, remove_dashed by exact HW. reflexivity.
Qed.

(** ... and all of them. *)
Lemma options_run a x : options a x -> mix_ok x -> forall l m, classify l = Some m -> exists m', classify (a ++ l) = Some m' /\
  forall f n, (List.length m' < f)%nat -> exists f', (List.length m < f')%nat /\ loop f m' n [] = loop f' m (sets x n) [].
Proof.
  induction 1 as [|w ws x xs HW HO IH]; intros HM l m HC.
  - exists m. split; [exact HC|]. intros f n Hf. exists f. split; [exact Hf|reflexivity].
  - apply mix_app in HM. destruct HM as [HM1 HM2]. destruct (IH HM2 l m HC) as (m1 & HC1 & HL).
    destruct (written_consume w x HW) as (s & tl & k & -> & HWd & HN & HP & HK & HCons). exists ((s, k) :: args tl ++ m1). split.
    + rewrite <- app_assoc. cbn [app]. rewrite classify_cons, HP by exact HN. now rewrite (classify_words tl _ m1 HWd HC1).
    + intros f n Hf. destruct f as [|f]; [lia|]. cbn [List.length] in Hf. rewrite app_length in Hf. destruct (HCons m1) as (acts & HE & HMn).
      destruct (HL f (sets x n)) as (f' & Hf' & HL'); [lia|]. exists f'. split; [exact Hf'|]. rewrite sets_app, <- HL'. cbn [Argv.loop existsb until_opt]. replace (is_opt (s, k)) with true by (destruct k; try destruct HK; reflexivity).
      cbn [orb]. rewrite HE, (acts_take acts x n HMn HM1). reflexivity.
Qed.
Lemma loop_complete l xs ps : line l xs ps -> mix_ok xs -> exists m, classify l = Some m /\ forall f n, (List.length m < f)%nat -> n_paths n = None -> loop f m n [] = inl (set_paths ps (sets xs n), []).
Proof.
  intros H HM. destruct H as [a x ps b y HA HN HP HB|a x ps qs HA HP HN].
  - apply mix_app in HM. destruct HM as [HM1 HM2]. destruct (options_run b y HB HM2 [] [] eq_refl) as (mb & HCb & HLb). rewrite app_nil_r in HCb. pose proof (classify_words ps b mb HP HCb) as HC2.
    destruct (options_run a x HA HM1 _ _ HC2) as (m & HC & HL). exists m. split; [exact HC|]. intros f n Hf HNn. destruct (HL f n Hf) as (f1 & Hf1 & ->). destruct f1 as [|f1]; [lia|]. rewrite app_length, length_args in Hf1. cbn [Argv.loop].
    assert (HNone : n_paths (sets x n) = None) by (now rewrite sets_keep).
    destruct (existsb is_opt (args ps ++ mb)) eqn:EO.
    + destruct (until_shape _ _ HC2 EO) as (ps' & l' & m' & H1 & H2 & H3 & H4 & HU & s & k & m2 & -> & HK).
      assert (HEQ : ps' = ps /\ mb = (s, k) :: m2).
      { destruct mb as [|[s0 k0] mb]; [rewrite app_nil_r, args_no_opt in EO; discriminate|].
        assert (HK0 : is_kopt k0). { destruct HB as [|w ws x0 xs0 HW0 _]; [discriminate HCb|]. destruct (written_consume w x0 HW0) as (s1 & tl & k1 & -> & _ & HN1 & HP1 & HK1 & _). cbn [app] in HCb. rewrite classify_cons, HP1 in HCb by exact HN1. destruct (classify _); [|discriminate]. injection HCb as <- <- _. exact HK1. }
        clear -H2 HK HK0. revert ps' H2. induction ps as [|p ps IH]; intros [|p' ps'] H2; cbn [args map app] in H2.
        - injection H2 as -> -> ->. auto.
        - injection H2 as _ -> _. destruct HK0.
        - injection H2 as _ <- _. destruct HK.
        - injection H2 as <- H2. destruct (IH ps' H2) as [-> ->]. auto. }
      destruct HEQ as [-> ->]. rewrite HU. destruct ps as [|p ps]; [contradiction|]. cbn [args map]. fold (args ps). change ((p, KArg) :: args ps) with (args (p :: ps)). unfold consume_positionals. rewrite HNone.
      rewrite (count_args (p :: ps) s k m2 HK) by discriminate. cbn [List.length]. rewrite firstn_app. replace (S (List.length ps) - List.length (args (p :: ps)))%nat with O by (rewrite length_args; cbn [List.length]; lia). rewrite firstn_all2 by (rewrite length_args; cbn [List.length]; lia).
      cbn [firstn]. rewrite app_nil_r, map_args, remove_words by exact HP. rewrite skipn_app, skipn_all2 by (rewrite length_args; cbn [List.length]; lia). replace (S (List.length ps) - List.length (args (p :: ps)))%nat with O by (rewrite length_args; cbn [List.length]; lia). cbn [skipn app].
      match goal with |- loop f1 _ ?n1 [] = _ => change n1 with (set_paths (p :: ps) (sets x n)) end. cbn [List.length] in Hf1. destruct (HLb f1 (set_paths (p :: ps) (sets x n))) as (f2 & Hf2 & ->); [cbn [List.length]; lia|]. destruct f2 as [|f2]; [lia|]. cbn [Argv.loop existsb].
      unfold consume_positionals. rewrite sets_paths. cbn [set_paths n_paths skipn map app]. rewrite sets_app. reflexivity.
    + assert (HB0 : b = [] /\ y = []).
      { destruct HB as [|w ws x0 xs0 HW0 _]; [auto|]. exfalso. destruct (written_consume w x0 HW0) as (s1 & tl & k1 & -> & _ & HN1 & HP1 & HK1 & _). cbn [app] in HCb. rewrite classify_cons, HP1 in HCb by exact HN1. destruct (classify _); [|discriminate]. injection HCb as <-.
        rewrite existsb_app in EO. apply orb_false_elim in EO. destruct EO as [_ EO]. cbn [existsb] in EO. destruct k1; try destruct HK1. discriminate EO. }
      destruct HB0 as [-> ->]. injection HCb as <-. rewrite app_nil_r in *. unfold consume_positionals. rewrite HNone. destruct ps as [|p ps]; [contradiction|]. cbn [args map count_positionals]. rewrite args_dashes_all by apply args_no_opt. fold (args ps). change ((p, KArg) :: args ps) with (args (p :: ps)).
      change (S (List.length (args ps))) with (List.length (args (p :: ps))). rewrite firstn_all, skipn_all, map_args, remove_words by exact HP. rewrite sets_app. reflexivity.
  - assert (HC2 : classify (ps ++ [[45; 45]] ++ qs) = Some (args ps ++ ([45; 45], KDash) :: args qs)) by (apply classify_words; [exact HP|reflexivity]).
    destruct (options_run a x HA HM _ _ HC2) as (m & HC & HL). exists m. split; [exact HC|]. intros f n Hf HNn. destruct (HL f n Hf) as (f1 & Hf1 & ->). destruct f1 as [|f1]; [lia|]. cbn [Argv.loop].
    assert (EO : existsb is_opt (args ps ++ ([45; 45], KDash) :: args qs) = false) by (rewrite existsb_app, args_no_opt; cbn [existsb is_opt snd orb]; apply args_no_opt). rewrite EO. unfold consume_positionals. rewrite sets_keep, HNn.
    assert (HCt : count_positionals (args ps ++ ([45; 45], KDash) :: args qs) = List.length (args ps ++ ([45; 45], KDash) :: args qs)).
    { destruct ps as [|p ps].
      - destruct qs as [|q qs]; [contradiction|]. cbn [args map app count_positionals List.length]. do 2 f_equal. apply args_dashes_all. apply args_no_opt.
      - cbn [args map app count_positionals List.length]. f_equal. apply args_dashes_all. exact EO. }
    rewrite HCt. destruct (List.length (args ps ++ ([45; 45], KDash) :: args qs)) as [|c] eqn:EL; [rewrite app_length in EL; cbn in EL; lia|]. rewrite <- EL, firstn_all, skipn_all, map_app. cbn [map fst app]. rewrite !map_args, remove_dashed by exact HP. reflexivity.
Qed.
Lemma parse_args_spec l n : parse_args decimal int_of l = inl n <-> exists xs ps, line l xs ps /\ mix_ok xs /\ n = set_paths ps (sets xs names0).
Proof.
  unfold parse_args. split.
  - destruct (classify l) as [m|] eqn:EC; [|discriminate]. destruct (loop (S (List.length m)) m names0 []) as [[n1 ex]|] eqn:EL; [|discriminate].
    destruct (n_paths n1) eqn:EN; [|discriminate]. destruct ex; [|discriminate]. intros H. injection H as ->. pose proof (loop_sound _ _ _ _ _ EC EL) as HS. cbn [names0 n_paths] in HS. apply HS. congruence.
  - intros (xs & ps & HL & HM & ->). destruct (loop_complete l xs ps HL HM) as (m & -> & HX). rewrite HX by (try reflexivity; lia). reflexivity.
Qed.

(** ** Lines that are not parsed to the end *)
Lemma longs_names l o l' o' : In (l, o) longs -> In (l', o') longs -> (l, o) <> (l', o') -> o <> o'.
Proof.
  intros H H' HN ->. apply HN. f_equal. cbn in H, H'.
  repeat (destruct H as [H|H]; [injection H as <- <-; repeat (destruct H' as [H'|H']; [first [discriminate H'|injection H' as <-; reflexivity]|]); destruct H'|]). destruct H.
Qed.
Lemma longs_nodup : NoDup longs.
Proof. unfold longs. cbn [map fst snd]. repeat (constructor; [cbn [In]; intros HX; repeat (destruct HX as [HX|HX]; [discriminate HX|]); exact HX|]). constructor. Qed.
Lemma parse_none s : s <> [45; 45] -> (parse_optional decimal s = None <-> ambiguous s).
Proof.
  intros HN. unfold ambiguous. split.
  - intros H. destruct s as [|c [|d r]]; [discriminate| |].
    { cbn [parse_optional] in H. destruct (c =? 45) eqn:E; [|discriminate]. replace c with 45 in H by lia. vm_compute in H. discriminate. }
    destruct (Z.eq_dec c 45) as [->|HC]; [|cbn [parse_optional] in H; replace (c =? 45) with false in H by lia; discriminate]. destruct (Z.eq_dec d 45) as [->|HD].
    + pose proof (parse_long decimal r) as HL. cbv zeta in HL. pose proof (partition_spec (45 :: 45 :: r)) as HP. cbn [partition_eq] in HL, HP. change (45 =? 61) with false in HL, HP. cbv iota in HL, HP. destruct (partition_eq r) as [p e]. destruct HP as [H61 HS]. rewrite H in HL.
      destruct (matches (45 :: 45 :: p)) as [|[l o] [|[l' o'] m]] eqn:EM; try discriminate.
      assert (HI : forall x, In x ((l, o) :: (l', o') :: m) -> In x longs /\ begins (45 :: 45 :: p) (fst x)) by (intros x HX; rewrite <- EM in HX; apply filter_In in HX; rewrite startswith_spec in HX; exact HX).
      destruct (HI (l, o) ltac:(cbn; auto)) as [I1 B1]. destruct (HI (l', o') ltac:(cbn; auto)) as [I2 B2]. pose proof (NoDup_filter (fun x => startswith (45 :: 45 :: p) (fst x)) longs_nodup) as HND. fold (matches (45 :: 45 :: p)) in HND. rewrite EM in HND. inversion HND as [|? ? HNI _]; subst.
      exists (45 :: 45 :: p), (match e with Some x => 61 :: x | None => [] end), l, o, l', o'. split; [exact HS|]. split; [now exists p|]. split; [exact H61|]. split; [destruct e; auto|]. split; [exact I1|]. split; [exact I2|]. split; [|auto].
      apply (longs_names l o l' o' I1 I2). intros HE. apply HNI. rewrite HE. now left.
    + rewrite parse_short in H by exact HD. destruct (letter d); discriminate.
  - intros (p & e & l & o & l' & o' & -> & (q & ->) & H61 & He & I1 & I2 & HO & B1 & B2). cbn [app] in *. pose proof (parse_long decimal (q ++ e)) as HL. cbv zeta in HL.
    assert (HX : fst (partition_eq (45 :: 45 :: q ++ e)) = 45 :: 45 :: q).
    { destruct He as [->|He]; [rewrite app_nil_r; destruct (partition_app _ [] H61) as [_ HX]; now rewrite HX|]. destruct e as [|x e]; [discriminate|]. cbn in He. subst x. destruct (partition_app _ e H61) as [HX _]. cbn [app] in HX. now rewrite HX. }
    destruct (partition_eq (45 :: 45 :: q ++ e)) as [p' e']. cbn [fst] in HX. subst p'.
    assert (M1 : In (l, o) (matches (45 :: 45 :: q))) by (apply filter_In; split; [exact I1|now apply startswith_spec]). assert (M2 : In (l', o') (matches (45 :: 45 :: q))) by (apply filter_In; split; [exact I2|now apply startswith_spec]).
    destruct (matches (45 :: 45 :: q)) as [|[? ?] [|? ?]]; [destruct M1| |exact HL]. destruct M1 as [M1|[]], M2 as [M2|[]]. congruence.
Qed.
Lemma classify_none l : classify l = None <-> exists a s b, l = a ++ s :: b /\ ~ In [45; 45] a /\ s <> [45; 45] /\ ambiguous s.
Proof.
  induction l as [|t l IH]; [split; [discriminate|intros ([|? ?] & ? & ? & H & _); discriminate]|]. destruct (list_eq_dec Z.eq_dec t [45; 45]) as [->|HN].
  - split; [discriminate|]. intros ([|x a] & s & b & H & HA & HS & _); injection H as <- _; [contradiction|]. exfalso. apply HA. now left.
  - rewrite classify_cons by exact HN. split.
    + destruct (parse_optional decimal t) as [k|] eqn:EP; [|intros _; exists [], t, l; split; [reflexivity|]; split; [intros []|]; split; [exact HN|now apply parse_none]].
      destruct (classify l) eqn:EC; [discriminate|]. intros _. destruct (proj1 IH eq_refl) as (a & s & b & -> & HA & HS). exists (t :: a), s, b. split; [reflexivity|]. split; [|exact HS]. intros [HX|HX]; auto.
    + intros ([|x a] & s & b & H & HA & HS & HAm); injection H as <- ->; [apply parse_none in HAm; [now rewrite HAm|exact HN]|]. destruct (parse_optional decimal t); [|reflexivity].
      rewrite (proj2 IH); [reflexivity|]. exists a, s, b. split; [reflexivity|]. split; [intros HX; apply HA; now right|auto].
Qed.
Definition asked (o : opt) : option stop := match o with OHelp => Some SHelp | OVersion => Some SVersion | _ => None end.
Lemma asks_consume o st w : asked o = Some st -> asks o w -> w <> [45; 45] /\ exists k, parse_optional decimal w = Some k /\ is_kopt k /\
  forall rest n, exists acts, consume_optional w k rest = Some (acts, [], rest) /\ take_actions acts n = inr st.
Proof.
  intros HA. assert (HT : takes_arg (act_of o) = false /\ forall n, take_actions [(act_of o, [])] n = inr st) by (destruct o as [[]| | | |]; try discriminate; injection HA as <-; auto). destruct HT as [HT HR]. intros [p H|fs s c H HI].
  - destruct (refers_dashes _ _ H) as (H61 & q & -> & Hq). apply refers_spec in H as (l & HM). pose proof (parse_long decimal q) as HP. cbv zeta in HP. destruct (partition_app _ [] H61) as [_ HX]. rewrite HX, HM in HP.
    split; [congruence|]. eexists. split; [exact HP|]. split; [exact I|]. intros rest n. eexists. cbn [consume_optional is_some]. unfold no_explicit. rewrite HT. split; [reflexivity|apply HR].
  - assert (HG : exists d r o', s ++ [c] = d :: r /\ In (d, o') letters /\ forall rest n, exists acts, after (act_of o') d r rest = Some (acts, [], rest) /\ take_actions acts n = inr st).
    { induction H as [|f d fs s HI2 H IH].
      - exists c, [], o. split; [reflexivity|]. split; [exact HI|]. intros rest n. eexists. cbn [after]. unfold no_explicit. rewrite HT. split; [reflexivity|apply HR].
      - destruct IH as (d' & r & o' & HE & HI3 & HX). exists d, (d' :: r), (OFlag f). split; [cbn [app]; now rewrite HE|]. split; [exact HI2|]. intros rest n. rewrite after_flag by exact HI2. pose proof (letter_flag _ _ HI3).
        replace (d' =? 61) with false by lia. replace (d' =? 45) with false by lia. cbn [orb]. rewrite (proj2 (letter_spec d' o') HI3).
        destruct (HX rest (set_flag f n)) as (acts & HAf & HTk). rewrite HAf. cbn [first_act]. eexists. split; [reflexivity|]. rewrite <- HTk. destruct f; reflexivity. }
    destruct HG as (d & r & o' & HE & HI2 & HX). rewrite HE. pose proof (letter_flag _ _ HI2) as [H45 _]. split; [congruence|]. exists (letter_kind (act_of o') d r). split; [rewrite parse_short by exact H45; now rewrite (proj2 (letter_spec d o') HI2)|].
    split; [destruct r as [|x r]; cbn; [exact I|]; destruct (x =? 61); exact I|]. intros rest n. rewrite after_kind. apply HX.
Qed.
Lemma options_kopt b y : options b y -> b <> [] -> forall l m, classify (b ++ l) = Some m -> exists s k m2, m = (s, k) :: m2 /\ is_kopt k.
Proof.
  intros HB HN l m. destruct HB as [|w ws x0 xs0 HW0 _]; [contradiction|]. destruct (written_consume w x0 HW0) as (s1 & tl & k1 & -> & _ & HN1 & HP1 & HK1 & _). cbn [app]. rewrite classify_cons, HP1 by exact HN1.
  destruct (classify _); [|discriminate]. intros H. injection H as <-. eauto.
Qed.
Lemma asks_loop o st a x ps b y w rest : asked o = Some st -> options a x -> mix_ok x -> Forall word ps -> options b y -> mix_ok y -> asks o w -> classify rest <> None ->
  parse_args decimal int_of (a ++ ps ++ b ++ w :: rest) = inr st.
Proof.
  intros HA HOa HMa HP HOb HMb HW HC. destruct (classify rest) as [mr|] eqn:ER; [clear HC|contradiction]. destruct (asks_consume o st w HA HW) as (HN & k & HPk & HK & HCons).
  assert (HCw : classify (w :: rest) = Some ((w, k) :: mr)) by (rewrite classify_cons by exact HN; now rewrite HPk, ER).
  assert (HWk : is_opt (w, k) = true) by (destruct k; try destruct HK; reflexivity).
  assert (Hend : forall f n, (List.length ((w, k) :: mr) < f)%nat -> loop f ((w, k) :: mr) n [] = inr st).
  { intros f n Hf. destruct f as [|f]; [lia|]. cbn [Argv.loop existsb until_opt]. rewrite HWk. cbn [orb]. destruct (HCons mr n) as (acts & HX & HT). now rewrite HX, HT. }
  destruct (options_run b y HOb HMb _ _ HCw) as (mb & HCb & HLb). pose proof (classify_words ps _ mb HP HCb) as HC2.
  destruct (options_run a x HOa HMa _ _ HC2) as (m & HCm & HL). unfold parse_args. rewrite HCm. destruct (HL (S (List.length m)) names0) as (f1 & Hf1 & ->); [lia|].
  assert (Hb : forall f n, (List.length mb < f)%nat -> loop f mb n [] = inr st).
  { intros f n Hf. destruct (HLb f n Hf) as (f' & Hf' & ->). now apply Hend. }
  enough (HX : loop f1 (args ps ++ mb) (sets x names0) [] = inr st) by now rewrite HX. destruct ps as [|p ps]; [cbn [args map app] in *; now apply Hb|].
  destruct f1 as [|f1]; [lia|]. rewrite app_length, length_args in Hf1. cbn [List.length] in Hf1.
  assert (HMb' : exists s k' m2, mb = (s, k') :: m2 /\ is_kopt k').
  { destruct b as [|b0 b]; [|exact (options_kopt _ _ HOb ltac:(discriminate) _ _ HCb)]. cbn [app] in HCb. rewrite HCw in HCb. injection HCb as <-. eauto. }
  destruct HMb' as (s & k' & m2 & -> & HK').
  assert (EO : existsb is_opt (args (p :: ps) ++ (s, k') :: m2) = true) by (rewrite existsb_app; cbn [existsb]; replace (is_opt (s, k')) with true by (destruct k'; try destruct HK'; reflexivity); apply orb_true_r).
  cbn [Argv.loop]. rewrite EO.
  assert (HU : forall qs, until_opt (args qs ++ (s, k') :: m2) = (args qs, (s, k') :: m2)).
  { induction qs as [|q qs IHq]; cbn [args map app until_opt].
    - replace (is_opt (s, k')) with true by (destruct k'; try destruct HK'; reflexivity). reflexivity.
    - change (is_opt (q, KArg)) with false. cbv iota. fold (args qs). now rewrite IHq. }
  rewrite HU. cbn [args map]. fold (args ps). change ((p, KArg) :: args ps) with (args (p :: ps)). unfold consume_positionals. rewrite sets_keep. cbn [names0 n_paths].
  rewrite (count_args (p :: ps) s k' m2 HK') by discriminate. cbn [List.length]. rewrite skipn_app, skipn_all2 by (rewrite length_args; cbn [List.length]; lia). replace (S (List.length ps) - List.length (args (p :: ps)))%nat with O by (rewrite length_args; cbn [List.length]; lia).
  cbn [skipn app]. apply Hb. lia.
Qed.
(** ** What settings come to *)
Lemma sets_flag xs : forall n,
  (n_nopretty (sets xs n) = true <-> n_nopretty n = true \/ has Nopretty xs) /\ (n_nullxml (sets xs n) = true <-> n_nullxml n = true \/ has Nullxml xs) /\
  (n_recurse (sets xs n) = true <-> n_recurse n = true \/ has Recurse xs) /\ (n_packet (sets xs n) = true <-> n_packet n = true \/ has Packetmarkers xs) /\
  (n_verbose (sets xs n) = true <-> n_verbose n = true \/ has Verbose xs).
Proof.
  unfold has. induction xs as [|x xs IH]; intros n; [cbn; tauto|]. destruct (IH (set1 n x)) as (H1 & H2 & H3 & H4 & H5). cbn [sets fold_left] in *. cbn [In].
  assert (HX : forall f, In (Flag f) (x :: xs) <-> x = Flag f \/ In (Flag f) xs) by (intros f; cbn [In]; tauto).
  destruct x as [f|s|s]; [destruct f|..]; cbn [set1 set_flag n_nopretty n_nullxml n_recurse n_packet n_verbose] in *; repeat split; intros HH;
    repeat match goal with H : _ <-> _ |- _ => first [apply H in HH; clear H| fail] end; intuition (try discriminate; auto).
Qed.
Lemma sets_format xs n : (n_format (sets xs n) = n_format n /\ forall s, ~ In (Format s) xs) \/ exists a s b, xs = a ++ Format s :: b /\ (forall t, ~ In (Format t) b) /\ n_format (sets xs n) = s.
Proof.
  induction xs as [|x xs IH] using rev_ind; [left; auto|]. rewrite sets_app. cbn [sets fold_left]. destruct x as [f|s|s].
  - change (n_format (set1 (fold_left set1 xs n) (Flag f))) with (n_format (sets xs n)). destruct IH as [[H1 H2]|(a & s & b & -> & H1 & H2)].
    + left. split; [exact H1|]. intros t HI. apply in_app_or in HI. destruct HI as [HI|[HI|[]]]; [now apply (H2 t)|discriminate].
    + right. exists a, s, (b ++ [Flag f]). split; [now rewrite <- app_assoc|]. split; [|exact H2]. intros t HI. apply in_app_or in HI. destruct HI as [HI|[HI|[]]]; [now apply (H1 t)|discriminate].
  - right. exists xs, s, []. repeat split. intros t [].
  - change (n_format (set1 (fold_left set1 xs n) (Mix s))) with (n_format (sets xs n)). destruct IH as [[H1 H2]|(a & v & b & -> & H1 & H2)].
    + left. split; [exact H1|]. intros t HI. apply in_app_or in HI. destruct HI as [HI|[HI|[]]]; [now apply (H2 t)|discriminate].
    + right. exists a, v, (b ++ [Mix s]). split; [now rewrite <- app_assoc|]. split; [|exact H2]. intros t HI. apply in_app_or in HI. destruct HI as [HI|[HI|[]]]; [now apply (H1 t)|discriminate].
Qed.
Lemma sets_mix xs n : (n_mix (sets xs n) = n_mix n /\ forall s, ~ In (Mix s) xs) \/
  exists a s b, xs = a ++ Mix s :: b /\ (forall t, ~ In (Mix t) b) /\ n_mix (sets xs n) = match int_of s with Some v => v | None => 0 end.
Proof.
  induction xs as [|x xs IH] using rev_ind; [left; auto|]. rewrite sets_app. cbn [sets fold_left]. destruct x as [f|s|s].
  - change (n_mix (set1 (fold_left set1 xs n) (Flag f))) with (n_mix (sets xs n)). destruct IH as [[H1 H2]|(a & s & b & -> & H1 & H2)].
    + left. split; [exact H1|]. intros t HI. apply in_app_or in HI. destruct HI as [HI|[HI|[]]]; [now apply (H2 t)|discriminate].
    + right. exists a, s, (b ++ [Flag f]). split; [now rewrite <- app_assoc|]. split; [|exact H2]. intros t HI. apply in_app_or in HI. destruct HI as [HI|[HI|[]]]; [now apply (H1 t)|discriminate].
  - change (n_mix (set1 (fold_left set1 xs n) (Format s))) with (n_mix (sets xs n)). destruct IH as [[H1 H2]|(a & v & b & -> & H1 & H2)].
    + left. split; [exact H1|]. intros t HI. apply in_app_or in HI. destruct HI as [HI|[HI|[]]]; [now apply (H2 t)|discriminate].
    + right. exists a, v, (b ++ [Format s]). split; [now rewrite <- app_assoc|]. split; [|exact H2]. intros t HI. apply in_app_or in HI. destruct HI as [HI|[HI|[]]]; [now apply (H1 t)|discriminate].
  - right. exists xs, s, []. repeat split. intros t [].
Qed.
Lemma last_format_sets xs : last_format xs (n_format (sets xs names0)).
Proof. destruct (sets_format xs names0) as [[-> H]|(a & s & b & -> & H & ->)]; [now apply lf_default|now apply lf_last]. Qed.
Lemma last_mix_sets xs : mix_ok xs -> last_mix int_of xs (n_mix (sets xs names0)).
Proof.
  intros HM. destruct (sets_mix xs names0) as [[-> H]|(a & s & b & -> & H & ->)]; [now apply lm_default|]. apply lm_last; [exact H|]. destruct (HM s) as [HS|HS]; [apply in_or_app; right; now left|rewrite HS; reflexivity..].
Qed.
Lemma last_eq {A} (P : A -> Prop) : forall a s b a' s' b', a ++ s :: b = a' ++ s' :: b' -> P s -> P s' -> (forall x, P x -> ~ In x b) -> (forall x, P x -> ~ In x b') -> s = s'.
Proof.
  induction a as [|x a IH]; intros s b [|y a'] s' b' H P1 P2 N1 N2; cbn [app] in H.
  - now injection H.
  - injection H as <- ->. exfalso. apply (N1 s' P2). apply in_or_app. right. now left.
  - injection H as -> <-. exfalso. apply (N2 s P1). apply in_or_app. right. now left.
  - injection H as _ H. eapply IH; eassumption.
Qed.
Lemma last_format_fun xs s t : last_format xs s -> last_format xs t -> s = t.
Proof.
  intros H1 H2. inversion H1 as [? A1|a u b A1]; subst; inversion H2 as [? A2|a' u' b' A2]; subst.
  - reflexivity.
  - exfalso. apply (A1 t). apply in_or_app. right. now left.
  - exfalso. apply (A2 s). apply in_or_app. right. now left.
  - assert (HE : Format t = Format s); [|now injection HE]. eapply (last_eq (fun x => exists v, x = Format v)); [eassumption|eauto|eauto|intros ? (v & ->); apply A2|intros ? (v & ->); apply A1].
Qed.
Lemma last_mix_fun xs s t : last_mix int_of xs s -> last_mix int_of xs t -> s = t.
Proof.
  intros H1 H2. inversion H1 as [? A1|a u b v A1 V1]; subst; inversion H2 as [? A2|a' u' b' v' A2 V2]; subst.
  - reflexivity.
  - exfalso. apply (A1 u'). apply in_or_app. right. now left.
  - exfalso. apply (A2 u). apply in_or_app. right. now left.
  - assert (HE : Mix u' = Mix u); [|injection HE as ->; congruence]. eapply (last_eq (fun x => exists v, x = Mix v)); [eassumption|eauto|eauto|intros ? (w & ->); apply A2|intros ? (w & ->); apply A1].
Qed.
End Lines.
