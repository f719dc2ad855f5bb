From Coq Require Import List NArith PeanoNat Lia Bool String.
From Verif Require Import PyStr Regex RegexLocal Json TexUtilsModel DelimSpec TextModel TextSpec TextProofs TableCases Placeholder PlaceModel PlaceProofs PreModel PreSpec PreProofs PreProofs2 PreProofs3 PreProofs4.
Import ListNotations. Notation length := List.length. Open Scope list_scope.

Section Pipeline.
Variable St : Type.
Variable math : str -> nat.
Variable define : St -> str -> res (definition St).
Variable usepackage : St -> str -> res (St * nat).
Variable format : str -> option (str * nat).
Variable expand if_else : St -> str -> res (option (str * nat)).
Variable load : St -> str -> res St.
Notation round := (round St math define usepackage format expand if_else).
Notation process := (process_definitions_and_expand St math define usepackage format expand if_else).
Notation preprocess := (preprocess St math define usepackage format expand if_else load).
Notation rewritten := (rewritten St round).

Lemma rewritten_fun : forall s t s1 o1, rewritten s t s1 o1 -> forall s2 o2, rewritten s t s2 o2 -> s1 = s2 /\ o1 = o2.
Proof.
  induction 1 as [s|s t Ne R|s t s1 t1 n s2 o Ne R W IH|s t n k s2 o Ne R P W IH]; intros s3 o3 H; inversion H; subst; try congruence; try (split; congruence).
  - match goal with X : round s t = Ok (Move _ _ _) |- _ => rewrite R in X; injection X as -> -> -> end. match goal with X : rewritten _ _ s3 _ |- _ => destruct (IH _ _ X) as [-> ->] end. split; reflexivity.
  - match goal with X : round s t = Ok (Math _) |- _ => rewrite R in X; injection X as -> end.
    match goal with X : plain_after _ _ |- _ => pose proof (plain_after_fun _ _ _ P X) as Q end. subst.
    match goal with X : rewritten _ _ s3 _ |- _ => destruct (IH _ _ X) as [-> ->] end. split; reflexivity.
Qed.
Lemma process_sound : forall fuel s content s' out, process fuel s content = Some (Ok (s', out)) ->
  exists o, rewritten s content s' o /\ (~ occurs (lit "MATH_BLOCK") o -> out = o).
Proof.
  intros fuel s content s' out H. destruct (loop_sound St math define usepackage format expand if_else fuel s [] [] content s' out eq_refl H) as (o & R & E). exists o. split; [exact R|]. exact E.
Qed.
Lemma process_complete : forall s content s' o, rewritten s content s' o -> ~ occurs (lit "MATH_BLOCK") o -> exists fuel, process fuel s content = Some (Ok (s', o)).
Proof.
  intros s content s' o R C. destruct (loop_complete St math define usepackage format expand if_else s content s' o R [] [] eq_refl) as (fuel & out & H). exists fuel.
  change (process fuel s content = Some (Ok (s', out))) in H. destruct (process_sound _ _ _ _ _ H) as (o' & R' & E). destruct (rewritten_fun _ _ _ _ R _ _ R') as [_ ->]. rewrite H, E by exact C. reflexivity.
Qed.

Lemma class_run : forall fuel s a d name rest, class_declaration d name -> ~ occurs (lit "\documentclass") a -> strip_latex_comments (a ++ d ++ rest) = a ++ d ++ rest ->
  preprocess fuel s (a ++ d ++ rest) =
  match load s (strip name) with
  | Raise e => Some (Raise e)
  | Ok s1 => match process fuel s1 rest with
             | None => None | Some (Raise e) => Some (Raise e)
             | Some (Ok (s2, c)) => Some (Ok (s2, normalize_outside_verbatim c))
             end
  end.
Proof.
  intros fuel s a d name rest H N E. unfold PreModel.preprocess. rewrite E. rewrite (class_found St load s a d name rest H N). destruct (load s (strip name)) as [s1|e]; [|reflexivity]. cbn [bind].
  replace (skipn (length (a ++ d)) (a ++ d ++ rest)) with rest; [reflexivity|]. rewrite app_assoc, skipn_app, skipn_all, Nat.sub_diag. reflexivity.
Qed.
Lemma class_prefix_lost : forall fuel s a a' d name rest, class_declaration d name -> ~ occurs (lit "\documentclass") a -> ~ occurs (lit "\documentclass") a' ->
  strip_latex_comments (a ++ d ++ rest) = a ++ d ++ rest -> strip_latex_comments (a' ++ d ++ rest) = a' ++ d ++ rest ->
  preprocess fuel s (a ++ d ++ rest) = preprocess fuel s (a' ++ d ++ rest).
Proof. intros fuel s a a' d name rest H N N' E E'. rewrite (class_run _ _ _ _ _ _ H N E), (class_run _ _ _ _ _ _ H N' E'). reflexivity. Qed.

Lemma quiet_document : forall s content, quiet St define usepackage format expand if_else s content -> ~ In c_tick content -> ~ occurs (lit "\addto") content ->
  ~ occurs (lit "MATH_BLOCK") content -> ~ occurs (lit "\documentclass") content -> strip_latex_comments content = content ->
  exists fuel, preprocess fuel s content = Some (Ok (s, normalize_outside_verbatim content)).
Proof.
  intros s content Q T A M D E. destruct (process_complete s content s content) as (fuel & H).
  - apply (quiet_rewritten St math define usepackage format expand if_else s content Q T A (length content) [] content); [apply le_n|reflexivity].
  - exact M.
  - exists fuel. unfold PreModel.preprocess. rewrite E. rewrite class_none by exact D. cbn [skipn]. rewrite H. reflexivity.
Qed.
Lemma quiet_verbatim : forall s content, quiet St define usepackage format expand if_else s content -> ~ In c_tick content -> ~ occurs (lit "\addto") content ->
  ~ occurs (lit "MATH_BLOCK") content -> ~ occurs (lit "\documentclass") content -> strip_latex_comments content = content ->
  ~ occurs (lit "VERBATIM_BLOCK") content -> ~ occurs (lit "<PARA_BREAK>") content ->
  exists fuel l m o, preprocess fuel s content = Some (Ok (s, written o)) /\ written l = content /\ map fst (snd l) = map snd (snd (extract_verbatim_blocks content)) /\
    respaced_between l m /\ trimmed_between m o.
Proof.
  intros s content Q T A M D E V P. destruct (quiet_document s content Q T A M D E) as (fuel & H). destruct (step4 content V P) as (l & m & o & H1 & H2 & H3 & H4 & H5).
  exists fuel, l, m, o. rewrite <- H5. auto.
Qed.
End Pipeline.

(** * Concrete runs: no component finds anything, formulas are $...$ *)
Fixpoint dollar_end (t : str) (n : nat) : nat := match t with [] => 0 | x :: r => if N.eqb x c_dollar then S n else dollar_end r (S n) end.
Definition dollars (t : str) : nat := match t with x :: r => if N.eqb x c_dollar then dollar_end r 1 else 0 | [] => 0 end.
Definition nothing_defined (s : unit) (t : str) : res (definition unit) := Ok DNone.
Definition no_package (s : unit) (t : str) : res (unit * nat) := Ok (s, 0).
Definition unformatted (t : str) : option (str * nat) := None.
Definition unhandled (s : unit) (t : str) : res (option (str * nat)) := Ok None.
Definition loaded (s : unit) (name : str) : res unit := Ok s.
Definition plain_preprocess (fuel : nat) (content : str) : option (res (unit * str)) :=
  preprocess unit dollars nothing_defined no_package unformatted unhandled unhandled loaded fuel tt content.
Lemma plain_quiet : forall content, quiet unit nothing_defined no_package unformatted unhandled unhandled tt content.
Proof. intros content a t _. split; [reflexivity|]. split; [reflexivity|]. split; [reflexivity|]. split; exists None; split; reflexivity. Qed.

Lemma placeholder_refuted : process_definitions_and_expand unit dollars nothing_defined no_package unformatted unhandled unhandled 100 tt (lit "__MATH_BLOCK_0__ $x$") = Some (Ok (tt, lit "$x$ $x$")).
Proof. vm_compute. reflexivity. Qed.
Lemma verbatim_comment : plain_preprocess 100 (lit "\begin{verbatim} a % b" ++ [c_nl] ++ lit "\end{verbatim}") = Some (Ok (tt, lit "\begin{verbatim} a" ++ [c_nl] ++ lit "\end{verbatim}")).
Proof. vm_compute. reflexivity. Qed.
Lemma verbatim_quotes : plain_preprocess 100 (lit "\begin{verbatim}x = `ls -l'\end{verbatim}") = Some (Ok (tt, lit "\begin{verbatim}x = 'ls -l'\end{verbatim}")).
Proof. vm_compute. reflexivity. Qed.
(** one macro \a with the body \b is expanded, even in verbatim text *)
Definition expand_a (s : unit) (t : str) : res (option (str * nat)) := Ok (if startswith t (lit "\a ") then Some (lit "\b", 2) else None).
Lemma verbatim_macro : preprocess unit dollars nothing_defined no_package unformatted expand_a unhandled loaded 100 tt (lit "\verb|\a | $\a $") = Some (Ok (tt, lit "\verb|\b | $\a $")).
Proof. vm_compute. reflexivity. Qed.
Lemma plain_case : plain_preprocess 100 (lit "a   b $x   y$  \begin{verbatim}p   q\end{verbatim}   ") = Some (Ok (tt, lit "a b $x y$ \begin{verbatim}p   q\end{verbatim}")).
Proof. vm_compute. reflexivity. Qed.
(** \loop expands to itself *)
Definition expand_loop (s : unit) (t : str) : res (option (str * nat)) := Ok (if startswith t (lit "\loop") then Some (lit "\loop", 5) else None).
Lemma loop_never_ends : forall fuel, preprocess unit dollars nothing_defined no_package unformatted expand_loop unhandled loaded fuel tt (lit "\loop") = None.
Proof.
  intros fuel. unfold preprocess. change (strip_latex_comments (lit "\loop")) with (lit "\loop").
  rewrite class_none by (apply not_occurs; vm_compute; reflexivity). cbn [skipn].
  unfold process_definitions_and_expand. rewrite (never_ends unit dollars nothing_defined no_package unformatted expand_loop unhandled tt (lit "\loop") 4 (lit "\loop")); try reflexivity; [discriminate|vm_compute; discriminate|].
  intros C. cbn in C. repeat (destruct C as [C|C]; [discriminate C|]). exact C.
Qed.
