(** C88: whole documents, and examples. *)
From Coq Require Import List NArith PeanoNat Lia Bool String.
From Verif Require Import PyStr Regex RegexLocal Json TexUtilsModel DelimSpec CommandSpec ParseModel ParseRead ParseReadProofs PreModel PreSpec PreRead PreReadProofs.
From Verif Require PreCases.
Import ListNotations. Notation length := List.length. Open Scope list_scope.

Lemma preprocessed_fun : forall St math define usepackage format expand if_else s d s1 o1,
  preprocessed St math define usepackage format expand if_else s d s1 o1 -> forall s2 o2, preprocessed St math define usepackage format expand if_else s d s2 o2 -> s1 = s2 /\ o1 = o2.
Proof. intros St math define usepackage format expand if_else s d s1 o1 H s2 o2 H2. apply follows in H. apply follows in H2. eapply PreCases.rewritten_fun; [exact H|exact H2]. Qed.
Lemma preprocessed_document : forall St math define usepackage format expand if_else load s a d name rest s1 s' o,
  class_declaration d name -> ~ occurs (lit "\documentclass") a -> strip_latex_comments (a ++ d ++ rest) = a ++ d ++ rest -> load s (strip name) = Ok s1 ->
  preprocessed St math define usepackage format expand if_else s1 rest s' o -> ~ occurs (lit "MATH_BLOCK") o ->
  exists fuel, preprocess St math define usepackage format expand if_else load fuel s (a ++ d ++ rest) = Some (Ok (s', normalize_outside_verbatim o)).
Proof.
  intros St math define usepackage format expand if_else load s a d name rest s1 s' o C A E L P M. destruct (preprocessed_run _ _ _ _ _ _ _ _ _ _ _ P M) as (fuel & H). exists fuel.
  rewrite (PreCases.class_run _ _ _ _ _ _ _ _ _ _ _ _ _ _ C A E), L, H. reflexivity.
Qed.

(** \def\a{x} defines \a, the use of which is \a and a blank *)
Definition define_a (s : option str) (t : str) : res (definition (option str)) :=
  Ok (match t with
      | 92 :: 100 :: 101 :: 102 :: 92 :: 97 :: 123 :: x :: 125 :: _ => DTake (Some [x]) 9
      | _ => DNone
      end%N).
Definition use_a (s : option str) (t : str) : res (option (str * nat)) :=
  Ok (match s with Some b => if startswith t (lit "\a ") then Some (b, 2) else None | None => None end).
Definition no_package (s : option str) (t : str) : res (option str * nat) := Ok (s, 0).
Definition unhandled (s : option str) (t : str) : res (option (str * nat)) := Ok None.
Notation pp := (preprocessed (option str) PreCases.dollars define_a no_package PreCases.unformatted use_a unhandled).

Ltac word := split; [repeat (first [apply in_nil|apply in_char; [cbn; unfold c_bs, c_dollar, c_pct, c_lb; intuition discriminate|cbn [isspace negb]]])|cbn; unfold c_tick; intuition discriminate].
Lemma def_case : pp None (lit "p \a q \def\a{x}r \a $\a $ s \a ") (Some (lit "x")) (lit "p \a q r x $\a $ s x ").
Proof.
  assert (Cmd : forall x r, ~ In x escapable -> asked (c_bs :: x :: r)).
  { intros x r N. left. left. apply de_command. exists c_bs, (x :: r). split; [reflexivity|]. right. right. split; [reflexivity|]. intros y q E. injection E as -> _. exact N. }
  assert (Qn : forall t : str, (forall y, t <> [c_tick] ++ y) -> quotes_converted t t) by (intros t H; apply qc_none; intros y E; exfalso; exact (H y E)).
  assert (St : forall w x r, ~ In x escapable -> stops w (c_bs :: x :: r)).
  { intros w x r N. left. apply de_command. exists c_bs, (x :: r). split; [reflexivity|]. right. right. split; [reflexivity|]. intros y q E. injection E as -> _. exact N. }
  assert (Na : ~ In 97%N escapable) by (cbn; intuition discriminate). assert (Nd : ~ In 100%N escapable) by (cbn; intuition discriminate).
  assert (NF : forall x r, ~ In x escapable -> (forall q, c_bs :: x :: r <> lit "\addto" ++ q) -> PreCases.dollars (c_bs :: x :: r) = 0 -> no_formula PreCases.dollars (c_bs :: x :: r) (c_bs :: x :: r)).
  { intros x r N A M. split; [apply Cmd; exact N|]. split; [exact M|]. split; [exact A|]. apply Qn. discriminate. }
  apply (pp_text _ _ _ _ _ _ _ None (lit "p ") (lit "\a q \def\a{x}r \a $\a $ s \a ") _ (lit "\a q r x $\a $ s x ")); [discriminate|word|apply St; exact Na|].
  apply (pp_char _ _ _ _ _ _ _ None _ c_bs (lit "a q \def\a{x}r \a $\a $ s \a ") None None None); [apply NF; [exact Na|discriminate|reflexivity]|exists None; split; [left; split; reflexivity|reflexivity]|left; reflexivity|reflexivity|left; reflexivity|reflexivity|left; reflexivity|].
  apply (pp_text _ _ _ _ _ _ _ None (lit "a q ") (lit "\def\a{x}r \a $\a $ s \a ") _ (lit "r x $\a $ s x ")); [discriminate|word|apply St; exact Nd|].
  apply (pp_define _ _ _ _ _ _ _ None _ (lit "\def\a{x}") (lit "r \a $\a $ s \a ") (Some (lit "x"))); [apply NF; [exact Nd|discriminate|reflexivity]|discriminate|reflexivity|].
  apply (pp_text _ _ _ _ _ _ _ _ (lit "r ") (lit "\a $\a $ s \a ") _ (lit "x $\a $ s x ")); [discriminate|word|apply St; exact Na|].
  apply (pp_macro _ _ _ _ _ _ _ _ _ (lit "\a $\a $ s \a ") (lit "\a") (lit " $\a $ s \a ") (Some (lit "x")) (lit "x")); [apply NF; [exact Na|discriminate|reflexivity]|reflexivity|exists (Some (lit "x")); split; [left; split; reflexivity|reflexivity]|discriminate|left; reflexivity|reflexivity|].
  apply (pp_text _ _ _ _ _ _ _ _ (lit "x ") (lit "$\a $ s \a ") _ (lit "$\a $ s x ")); [discriminate|word|left; apply de_command; eexists; eexists; split; [reflexivity|left; reflexivity]|].
  apply (pp_formula _ _ _ _ _ _ _ _ (lit "$\a $") (lit " s ") (lit "\a ") _ (lit "x ")); [left; left; apply de_command; eexists; eexists; split; [reflexivity|left; reflexivity]|discriminate|discriminate|reflexivity|word|apply St; exact Na|].
  apply (pp_macro _ _ _ _ _ _ _ _ _ (lit "\a ") (lit "\a") (lit " ") (Some (lit "x")) (lit "x")); [apply NF; [exact Na|discriminate|reflexivity]|reflexivity|exists (Some (lit "x")); split; [left; split; reflexivity|reflexivity]|discriminate|left; reflexivity|reflexivity|].
  apply pp_end. word.
Qed.
Lemma def_run : exists fuel, process_definitions_and_expand (option str) PreCases.dollars define_a no_package PreCases.unformatted use_a unhandled fuel None (lit "p \a q \def\a{x}r \a $\a $ s \a ") =
  Some (Ok (Some (lit "x"), lit "p \a q r x $\a $ s x ")).
Proof. exists 50. vm_compute. reflexivity. Qed.
(** The argument of \addto is cut at the last brace that can be reached: the definition in it is lost. *)
Lemma addto_lost : process_definitions_and_expand (option str) PreCases.dollars define_a no_package PreCases.unformatted use_a unhandled 50 None (lit "\addto\extras{\def\a{x}} \a ") =
  Some (Ok (None, lit "{x}} \a ")).
Proof. vm_compute. reflexivity. Qed.
