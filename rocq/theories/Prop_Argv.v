(** * C74: the command line *)

From Coq Require Import ZArith List Bool String Ascii Lia ZifyBool.
From Verif Require Import Py ETree BV CheckFile Main Argv Serial PosixFS SpecArgv SpecXml SpecFS SpecDoc.
From Verif Require Import PBase PFS Ex Prop_Main Prop_Xml Prop_FS Prop_End.
From Verif Require Import Argv SpecArgv PArgv.
Import ListNotations.
Open Scope string_scope.
Open Scope list_scope.
Open Scope Z_scope.

Section CommandLine.
(** Decimal digits, and [int]. *)
Variable decimal : Z -> bool.
Variable int_of : pystr -> option Z.
Notation line := (line decimal).
Notation parse_args := (parse_args decimal int_of).
(** Values of --mix. *)
Definition mix_values (xs : list setting) : Prop := forall s, In (Mix s) xs -> int_of s = Some 1 \/ int_of s = Some 2.
Definition comes_to (xs : list setting) (n : names) : Prop :=
  last_format xs (n_format n) /\ last_mix int_of xs (n_mix n) /\
  (n_nopretty n = true <-> has Nopretty xs) /\ (n_nullxml n = true <-> has Nullxml xs) /\ (n_recurse n = true <-> has Recurse xs) /\
  (n_packet n = true <-> has Packetmarkers xs) /\ (n_verbose n = true <-> has Verbose xs).

Lemma comes_sets xs ps : mix_values xs -> comes_to xs (set_paths ps (sets int_of xs names0)).
Proof.
  intros HM. unfold comes_to. cbn [set_paths n_format n_mix n_nopretty n_nullxml n_recurse n_packet n_verbose]. split; [apply last_format_sets|]. split; [now apply last_mix_sets|].
  destruct (sets_flag int_of xs names0) as (H1 & H2 & H3 & H4 & H5). cbn [names0 n_nopretty n_nullxml n_recurse n_packet n_verbose] in *. intuition discriminate.
Qed.
Lemma bool_iff (a b : bool) (P : Prop) : (a = true <-> P) -> (b = true <-> P) -> a = b.
Proof. destruct a, b; intuition congruence. Qed.
Lemma comes_fun xs n n' : comes_to xs n -> comes_to xs n' -> n_paths n = n_paths n' -> n = n'.
Proof.
  intros (A1 & A2 & A3 & A4 & A5 & A6 & A7) (B1 & B2 & B3 & B4 & B5 & B6 & B7) HP. pose proof (last_format_fun _ _ _ A1 B1). pose proof (last_mix_fun _ _ _ _ A2 B2).
  pose proof (bool_iff _ _ _ A3 B3). pose proof (bool_iff _ _ _ A4 B4). pose proof (bool_iff _ _ _ A5 B5). pose proof (bool_iff _ _ _ A6 B6). pose proof (bool_iff _ _ _ A7 B7).
  destruct n, n'; cbn in *; congruence.
Qed.

(** The lines that are accepted are those of the grammar, and this is what they mean. *)
Theorem C74_line argv n : parse_args argv = inl n <->
  exists xs ps, line argv xs ps /\ mix_values xs /\ comes_to xs n /\ n_paths n = Some ps.
Proof.
  rewrite (parse_args_spec decimal int_of). split.
  - intros (xs & ps & HL & HM & ->). exists xs, ps. split; [exact HL|]. split; [exact HM|]. split; [now apply comes_sets|reflexivity].
  - intros (xs & ps & HL & HM & HC & HP). exists xs, ps. split; [exact HL|]. split; [exact HM|]. apply (comes_fun xs); [exact HC|now apply comes_sets|exact HP].
Qed.

(** There is a path, and the MIX version is 0, 1 or 2. *)
Theorem C74_accepted argv n : parse_args argv = inl n -> (exists p ps, n_paths n = Some (p :: ps)) /\ (n_mix n = 0 \/ n_mix n = 1 \/ n_mix n = 2).
Proof.
  intros H. apply C74_line in H. destruct H as (xs & ps & HL & HM & (_ & HX & _) & HP). split.
  - rewrite HP. destruct ps as [|p ps]; [exfalso|eauto]. inversion HL as [a x qs b y _ HN _ _|a x qs rs _ _ HN]; subst; contradiction.
  - inversion HX as [? HD|a s b v HD HV]; subst; [auto|]. destruct (HM s) as [HS|HS]; [apply in_or_app; right; now left|rewrite HS in HV; injection HV as <-; auto..].
Qed.

(** A word that could be two of the options, before any "--": refused, whatever else. *)
Theorem C74_ambiguous a s b : ~ In (pys "--") a -> s <> pys "--" -> ambiguous s -> parse_args (a ++ s :: b) = inr SError.
Proof.
  intros HA HS HM. unfold Argv.parse_args. rewrite (proj2 (classify_none decimal (a ++ s :: b))); [reflexivity|]. exists a, s, b. auto.
Qed.

(** Help and version: at the first word that asks, with what is before it accepted. *)
Theorem C74_asks o a x ps b y w rest :
  options decimal a x -> Forall (word decimal) ps -> options decimal b y -> mix_values (x ++ y) -> asks o w ->
  (forall c s d, rest = c ++ s :: d -> ~ In (pys "--") c -> s <> pys "--" -> ~ ambiguous s) ->
  (o = OHelp -> parse_args (a ++ ps ++ b ++ w :: rest) = inr SHelp) /\
  (o = OVersion -> parse_args (a ++ ps ++ b ++ w :: rest) = inr SVersion).
Proof.
  intros HA HP HB HM HW HR.
  assert (HC : classify decimal rest <> None) by (intros HN; apply classify_none in HN; destruct HN as (c & s & d & -> & H1 & H2 & H3); exact (HR c s d eq_refl H1 H2 H3)).
  assert (HM1 : mix_ok int_of x) by (intros s HI; apply HM; apply in_or_app; auto). assert (HM2 : mix_ok int_of y) by (intros s HI; apply HM; apply in_or_app; auto).
  split; intros ->; eapply asks_loop; try eassumption; reflexivity.
Qed.

(** ** The run *)
Section Run.
Variables (E : env) (fuel depth : nat) (F : fsys) (observe : pystr -> fileobs) (write : bool -> elt -> res pystr) (toolInfo : elt).
Notation session := (session_of decimal int_of E fuel depth F observe write toolInfo).

Theorem C74_session argv xs ps fmt v (np nx rc pm vb : bool) :
  line argv xs ps -> mix_values xs -> last_format xs fmt -> last_mix int_of xs v ->
  (np = true <-> has Nopretty xs) -> (nx = true <-> has Nullxml xs) -> (rc = true <-> has Recurse xs) -> (pm = true <-> has Packetmarkers xs) -> (vb = true <-> has Verbose xs) ->
  let a := {| a_format := format_string fmt; a_mix := v; a_nullxml := nx; a_recurse := rc; a_packet := pm; a_verbose := vb; a_paths := ps |} in
  (In (lower (format_string fmt)) ["jp2"; "jph"; "j2c"; "jhc"] -> session argv = Ran (missing F ps) (main E fuel depth F observe (write np) toolInfo a)) /\
  (~ In (lower (format_string fmt)) ["jp2"; "jph"; "j2c"; "jhc"] -> session argv = BadFormat).
Proof.
  intros HL HM HF HV H1 H2 H3 H4 H5 a.
  pose (n := {| n_format := fmt; n_mix := v; n_nopretty := np; n_nullxml := nx; n_recurse := rc; n_packet := pm; n_verbose := vb; n_paths := Some ps |}).
  assert (HN : parse_args argv = inl n) by (apply C74_line; exists xs, ps; repeat split; try assumption; cbn [n n_nopretty n_nullxml n_recurse n_packet n_verbose] in *; tauto).
  unfold session_of. rewrite HN.
  assert (HS : supported (lower (format_string fmt)) = true <-> In (lower (format_string fmt)) ["jp2"; "jph"; "j2c"; "jhc"]).
  { unfold supported. rewrite existsb_exists. split; [intros (y & HI & HE); apply String.eqb_eq in HE; now rewrite HE|intros HI; eexists; split; [exact HI|apply String.eqb_refl]]. }
  change (a_format (args_of n)) with (format_string fmt). split; intros HI.
  - rewrite (proj2 HS HI). reflexivity.
  - destruct (supported (lower (format_string fmt))) eqn:ES; [apply proj1 in HS; specialize (HS eq_refl); contradiction|reflexivity].
Qed.
(** Only lines of the grammar reach the analysis. *)
Theorem C74_refused argv : (forall xs ps, line argv xs ps -> ~ mix_values xs) -> session argv = Refused \/ session argv = Helped \/ session argv = Versioned.
Proof.
  intros H. unfold session_of. destruct (parse_args argv) as [n|[]] eqn:EP; auto. exfalso. apply C74_line in EP. destruct EP as (xs & ps & HL & HM & _). exact (H xs ps HL HM).
Qed.
(** A run without a verdict and without output ends with status 0 or -7 only. *)
Theorem C74_ran argv warned r : session argv = Ran warned r -> ends r <> Exited 0.
Proof.
  unfold session_of. destruct (parse_args argv) as [n|[]] eqn:EP; try discriminate. destruct (supported (lower (a_format (args_of n)))) eqn:ES; [|discriminate]. intros H. injection H as _ <-.
  apply C74_accepted in EP. destruct EP as [(p & ps & HP) _]. unfold main. cbn [args_of a_paths a_format] in *. rewrite HP, ES. cbn [negb]. unfold checkFiles. cbn [app].
  destruct (findFiles F _ _); [discriminate|]. destruct (write _ toolInfo); cbn [ends]; [|discriminate|discriminate].
  match goal with |- ends (processFiles _ _ _ _ _ _ _ ?l) <> _ => generalize l end.
  intros fs. induction fs as [|q fs IH]; cbn [processFiles]; [discriminate|]. destruct (rbind _ _); [exact IH|discriminate|discriminate].
Qed.
End Run.
End CommandLine.

(** The warning: of the paths without "*", those that are neither a file nor a
    directory; and nothing is found for them. *)
Theorem C74_warned root cwd ps p : In p (missing (posix root cwd) ps) <->
  In p ps /\ ~ In 42 p /\ stat root cwd p <> Some File /\ forall k l, stat root cwd p <> Some (Dir k l).
Proof.
  unfold missing. rewrite filter_In, !andb_true_iff, !negb_true_iff. cbn [isfile isdir posix]. unfold path_isfile, path_isdir.
  assert (HW : hasWildcard p = false <-> ~ In 42 p).
  { split; [intros H HI; unfold hasWildcard in H; assert (existsb (Z.eqb 42) p = true) by (apply existsb_exists; exists 42; auto); congruence|apply wildcard_false]. }
  rewrite HW. destruct (stat root cwd p) as [[| |k l]|]; (split; [intros [H1 [[H2 H3] H4]]; try discriminate|intros (H1 & H2 & H3 & H4)]);
    repeat split; try assumption; try discriminate; exfalso; [now apply H3|now apply (H4 k l)].
Qed.
Theorem C74_not_found root cwd ps p r : In p (missing (posix root cwd) ps) -> (r = true -> hd 0 p = 47) -> findFiles (posix root cwd) r [p] = [].
Proof.
  intros H HR. apply filter_In in H. destruct H as [_ H]. rewrite !andb_true_iff, !negb_true_iff in H. destruct H as [[H1 H2] H3]. unfold findFiles. cbn [flat_map]. unfold findPlain. rewrite H1, H2.
  destruct r; [|reflexivity]. unfold findRecurse. cbn [isabs posix]. rewrite slash_hd by auto. rewrite H2, H3. reflexivity.
Qed.

(** ** The format *)
(** One of the four names, in small or capital letters. *)
Lemma lower_char : forall x a : ascii, In a ["j"; "p"; "2"; "h"; "c"]%char -> (lower_ascii x = a <-> x = a \/ (97 <= nat_of_ascii a /\ nat_of_ascii a = nat_of_ascii x + 32)%nat).
Proof.
  assert (H : forallb (fun a => forallb (fun n => Bool.eqb (Ascii.eqb (lower_ascii (ascii_of_nat n)) a)
     (Ascii.eqb (ascii_of_nat n) a || (Nat.leb 97 (nat_of_ascii a) && Nat.eqb (nat_of_ascii a) (n + 32)))) (seq 0 256)) ["j"; "p"; "2"; "h"; "c"]%char = true) by (vm_compute; reflexivity).
  intros x a Ha. rewrite forallb_forall in H. specialize (H a Ha). rewrite forallb_forall in H. specialize (H (nat_of_ascii x)).
  rewrite ascii_nat_embedding in H. assert (HX : (nat_of_ascii x < 256)%nat).
  { unfold nat_of_ascii. pose proof (N_ascii_bounded x). lia. }
  specialize (H ltac:(apply in_seq; lia)). apply eqb_prop in H. rewrite <- (Ascii.eqb_eq (lower_ascii x) a), H, orb_true_iff, andb_true_iff, Ascii.eqb_eq, Nat.leb_le, Nat.eqb_eq. reflexivity.
Qed.
Lemma char_code c (a : ascii) : nat_of_ascii a <> 255%nat -> (ascii_of_N (Z.to_N (if (0 <=? c) && (c <? 256) then c else 255)) = a <-> c = Z.of_nat (nat_of_ascii a)).
Proof.
  intros Ha. pose proof (N_ascii_bounded a) as HB. unfold nat_of_ascii in *. rewrite N_nat_Z. destruct ((0 <=? c) && (c <? 256)) eqn:E.
  - split; [intros <-; rewrite N_ascii_embedding; lia|intros ->; rewrite N2Z.id; apply ascii_N_embedding].
  - split; [intros <-; exfalso; apply Ha; reflexivity|intros ->; exfalso; lia].
Qed.
Definition same_letter (c d : Z) : Prop := c = d \/ (97 <= d <= 122 /\ c = d - 32).
Theorem C74_format fmt : In (lower (format_string fmt)) ["jp2"; "jph"; "j2c"; "jhc"] <->
  exists name, In name ["jp2"; "jph"; "j2c"; "jhc"] /\ Forall2 same_letter fmt (pys name).
Proof.
  assert (HN : forall name, (forall a, In a (list_ascii_of_string name) -> In a ["j"; "p"; "2"; "h"; "c"]%char) -> forall f, lower (format_string f) = name <-> Forall2 same_letter f (pys name)).
  { induction name as [|a name IH]; intros HA f.
    - destruct f as [|c f]; cbn; split; intros H; try reflexivity; try constructor; try discriminate; inversion H.
    - destruct f as [|c f]; [cbn; split; intros H; [discriminate|inversion H]|]. specialize (IH (fun b Hb => HA b (or_intror Hb)) f). specialize (HA a (or_introl eq_refl)).
      set (x := ascii_of_N (Z.to_N (if (0 <=? c) && (c <? 256) then c else 255))) in *.
      assert (HC : lower_ascii x = a <-> same_letter c (Z.of_nat (nat_of_ascii a))).
      { rewrite (lower_char x a HA). unfold same_letter. assert (HR : nat_of_ascii a = 106%nat \/ nat_of_ascii a = 112%nat \/ nat_of_ascii a = 50%nat \/ nat_of_ascii a = 104%nat \/ nat_of_ascii a = 99%nat) by (cbn in HA; intuition (subst; cbn; auto)).
        pose proof (char_code c a) as HCC. fold x in HCC. rewrite HCC by lia. clear HCC. split; (intros [H|[H1 H2]]; [now left|]); [|right; split; [lia|]].
        - right. split; [lia|]. enough (HE : c = Z.of_nat (nat_of_ascii x)) by lia. apply (char_code c x); [lia|reflexivity].
        - assert (HX : x = ascii_of_nat (nat_of_ascii a - 32)) by (apply (proj2 (char_code c (ascii_of_nat (nat_of_ascii a - 32)) ltac:(rewrite nat_ascii_embedding by lia; lia))); rewrite nat_ascii_embedding by lia; lia). rewrite HX, nat_ascii_embedding by lia. lia. }
      change (lower (format_string (c :: f))) with (String (lower_ascii x) (lower (format_string f))). replace (pys (String a name)) with (Z.of_nat (nat_of_ascii a) :: pys name) by (cbn [pys]; unfold nat_of_ascii; now rewrite N_nat_Z).
      split.
      + intros H. injection H as H1 H2. constructor; [now apply HC|now apply IH].
      + intros H. inversion H as [|? ? ? ? H1 H2]; subst. f_equal; [now apply HC|now apply IH]. }
  assert (HF : forall name, In name ["jp2"; "jph"; "j2c"; "jhc"] -> forall a, In a (list_ascii_of_string name) -> In a ["j"; "p"; "2"; "h"; "c"]%char).
  { intros name H a. cbn in H. destruct H as [<-|[<-|[<-|[<-|[]]]]]; cbn; tauto. }
  split.
  - intros H. eexists. split; [exact H|]. now apply HN; [apply HF|].
  - intros (name & HI & H). apply HN in H; [now rewrite H|now apply HF].
Qed.
Example C74_ex_format : ~ In (lower (format_string [106; 112; 20108])) ["jp2"; "jph"; "j2c"; "jhc"] /\ In (lower (format_string (pys "jHc"))) ["jp2"; "jph"; "j2c"; "jhc"].
Proof. split; [cbn; intuition discriminate|cbn; tauto]. Qed.

(** ** Examples *)
Definition digit (c : Z) : bool := (48 <=? c) && (c <=? 57).
Definition small_int (s : pystr) : option Z := match s with [c] => if digit c then Some (c - 48) else None | _ => None end.
Notation parsed l := (parse_args digit small_int (map pys l)).

Example C74_ex : parsed ["-rpfj2c"; "a"; "- b"; "--mi"; "2"; "--form=JPH"] =
  inl {| n_format := pys "JPH"; n_mix := 2; n_nopretty := false; n_nullxml := false; n_recurse := true; n_packet := true; n_verbose := false;
         n_paths := Some [pys "a"; pys "- b"] |}.
Proof. reflexivity. Qed.
Example C74_ex_line : line digit (map pys ["-rpfj2c"; "a"; "- b"; "--mi"; "2"])
  [Flag Recurse; Flag Packetmarkers; Format (pys "j2c"); Mix (pys "2")] [pys "a"; pys "- b"].
Proof.
  apply (line_plain digit [pys "-rpfj2c"] [Flag Recurse; Flag Packetmarkers; Format (pys "j2c")] [pys "a"; pys "- b"] [pys "--mi"; pys "2"] [Mix (pys "2")]).
  - apply (o_cons digit [pys "-rpfj2c"] [] [Flag Recurse; Flag Packetmarkers; Format (pys "j2c")] []); [|constructor].
    apply (w_letters_value digit [Recurse; Packetmarkers] (pys "rp") (pys "j2c")); [|discriminate|discriminate].
    apply letters_cons; [cbn; auto|]. apply letters_cons; [cbn; auto|]. apply letters_nil.
  - discriminate.
  - constructor; [left; discriminate|]. constructor; [|constructor]. right. right. split; [right; exists 32, (pys "b"); split; [reflexivity|]; split; [discriminate|cbn; intuition discriminate]|right; cbn; auto].
  - apply (o_cons digit [pys "--mi"; pys "2"] [] [Mix (pys "2")] []); [|constructor]. apply (w_long_next digit _ OMix); [|now right|left; discriminate]. apply refers_spec. eexists. vm_compute. reflexivity.
Qed.
Example C74_ex_refused :
  parsed ["a"; "-r"; "b"] = inr SError /\ parsed ["--ver"; "a"] = inr SError /\ parsed ["--mix=3"; "a"] = inr SError /\ parsed ["--mix"; "1"] = inr SError /\
  parsed ["-f"; "-r"; "a"] = inr SError /\ parsed ["--recurse=1"; "a"] = inr SError /\ parsed ["-x"; "a"] = inr SError /\ parsed [] = inr SError.
Proof. vm_compute. repeat split. Qed.
Example C74_ex_dashes : parsed ["-f"; "-1"; "a"; "--"; "-r"; "--"] =
  inl {| n_format := pys "-1"; n_mix := 0; n_nopretty := false; n_nullxml := false; n_recurse := false; n_packet := false; n_verbose := false;
         n_paths := Some [pys "a"; pys "-r"; pys "--"] |}.
Proof. vm_compute. reflexivity. Qed.
Example C74_ex_asks : parsed ["-rv"; "--nonsense"] = inr SVersion /\ parsed ["a"; "--he"; "-r"; "b"] = inr SHelp /\ parsed ["-h"; "--ver"] = inr SError.
Proof. vm_compute. repeat split. Qed.
Example C74_ex_ambiguous : ambiguous (pys "--ver=1").
Proof.
  exists (pys "--ver"), (pys "=1"), (pys "--verbose"), (OFlag Verbose), (pys "--version"), OVersion. split; [reflexivity|]. split; [now exists (pys "ver")|]. split; [cbn; intuition discriminate|].
  split; [right; reflexivity|]. split; [cbn; tauto|]. split; [cbn; tauto|]. split; [discriminate|]. split; [now exists (pys "bose")|now exists (pys "sion")].
Qed.
Example C74_ex_run : exists fuel0 depth0, forall fuel depth, (fuel0 <= fuel)%nat -> (depth0 <= depth)%nat ->
  exists r, session_of digit small_int E2 fuel depth (posix end_tree at_root) end_observe (writeElement dom0) (toolInfo (pys "jpylyzer") (pys "2.2.1"))
              (map pys ["--nop"; "-rfJP2"; "/data"]) = Ran [] r /\
    Main.ends r = Finished /\ exists z, parse (stdout_text r) = Some z /\
    verdicts z = [(pys "/data/a.jp2", pys "True"); (pys "/data/s/b.jp2", pys "False")].
Proof.
  destruct (C73_ex true) as (f0 & d0 & H). exists f0, d0. intros f d Hf Hd. eexists. split; [|exact (H f d Hf Hd)].
  unfold session_of. change (parsed ["--nop"; "-rfJP2"; "/data"]) with (inl (B := stop)
    {| n_format := pys "JP2"; n_mix := 0; n_nopretty := true; n_nullxml := false; n_recurse := true; n_packet := false; n_verbose := false; n_paths := Some [pys "/data"] |}).
  reflexivity.
Qed.
Example C74_ex_missing : missing (posix end_tree at_root) (map pys ["/data"; "/nothing"; "/data/*.jp2"; "/data/a.jp2"]) = [pys "/nothing"].
Proof. vm_compute. reflexivity. Qed.

Definition all_theorems := (C74_line, C74_accepted, C74_ambiguous, C74_asks, @C74_session, C74_refused, C74_ran, C74_warned, C74_not_found, C74_format, C74_ex_format,
  C74_ex, C74_ex_line, C74_ex_refused, C74_ex_dashes, C74_ex_asks, C74_ex_ambiguous, C74_ex_run, C74_ex_missing).
Print Assumptions all_theorems.
