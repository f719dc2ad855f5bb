(** Conditionals: C36, C37. *)
From Coq Require Import List NArith PeanoNat Lia Bool String.
From Verif Require Import PyStr Regex Json IfModel IfSpec IfProofs IfProofs2 IfProofs3 IfCases.
Import ListNotations. Notation length := List.length. Notation concat := List.concat. Open Scope list_scope.

(** * C36 *)
(** For any four patterns that read the text as the given items: the branches
    are those of the outermost conditional, and the end is just after its \fi. *)
Theorem C36_if_else_fi : forall S_ E_ L_ X_ b0 e b1 c rest, branch b0 -> branch b1 -> reads S_ E_ L_ X_ (b0 ++ Else e :: b1 ++ Close c :: rest) ->
  extract_else_elseif_fi S_ E_ L_ X_ (render (b0 ++ Else e :: b1 ++ Close c :: rest)) =
    Ok (strip (render b0), strip (render b1), [], length (render (b0 ++ Else e :: b1 ++ [Close c]))).
Proof. exact (fun S_ E_ L_ X_ b0 e b1 c rest H0 H1 => if_else_fi S_ E_ L_ X_ b0 [] e b1 c rest H0 H1 (fun a H => match H with end) (fun b H => match H with end)). Qed.
Print Assumptions C36_if_else_fi.
Theorem C36_if_fi : forall S_ E_ L_ X_ b0 c rest, branch b0 -> reads S_ E_ L_ X_ (b0 ++ Close c :: rest) ->
  extract_else_elseif_fi S_ E_ L_ X_ (render (b0 ++ Close c :: rest)) = Ok (strip (render b0), [], [], length (render (b0 ++ [Close c]))).
Proof. exact if_fi. Qed.
Print Assumptions C36_if_fi.
(** An unclosed conditional whose text does not end in a marker raises. *)
Theorem C36_unclosed_raises_partial : forall S_ E_ L_ X_ items s, reads S_ E_ L_ X_ (items ++ [Txt s]) -> s <> [] -> closes 1 items = false ->
  exists e, extract_else_elseif_fi S_ E_ L_ X_ (render (items ++ [Txt s])) = Raise e /\ (e = ValueError \/ e = IndexError /\ exists j, In j items /\ is_elsif j = true).
Proof. exact unclosed_raises. Qed.
Print Assumptions C36_unclosed_raises_partial.
(** One that ends in a marker does not. *)
Theorem C36_unclosed_raises_refuted : extract_default (lit "aa \else") = Ok (lit "aa", [], [], 8) /\ extract_default (lit "aa \ifx\a") = Ok (lit "aa \ifx\a", [], [], 9).
Proof. exact (conj eq_refl eq_refl). Qed.
Print Assumptions C36_unclosed_raises_refuted.
(** An exception other than the ValueError that the handler catches. *)
Theorem C36_or_after_else_refuted : extract_default (lit "aa\else bb\or\x\y cc\fi") = Raise IndexError.
Proof. exact eq_refl. Qed.
Print Assumptions C36_or_after_else_refuted.
(** A nested \ifthenelse, which has no \fi, makes a closed conditional unclosed. *)
Theorem C36_nested_ifthenelse_refuted : extract_default (lit "aa \ifthenelse{x}{y}{z} bb\else cc\fi rest") = Raise ValueError.
Proof. exact eq_refl. Qed.
Print Assumptions C36_nested_ifthenelse_refuted.
Example C36_case : reads (searcher IF_PATTERN) (searcher FI_PATTERN) (searcher ELSE_PATTERN) (searcher_group ELSIF_PATTERN) (ex_open ++ [Txt (lit " cc")]) /\
  closes 1 ex_open = false /\ extract_default (render (ex_open ++ [Txt (lit " cc")])) = Raise ValueError.
Proof. exact ex_open_reads. Qed.

(** * C37 *)
(** With \else, every alternative is reported, provided none but the last has
    exactly the text of the stripped if-branch. *)
Theorem C37_alternatives_partial : forall S_ E_ L_ X_ b0 alts e b1 c rest, branch b0 -> branch b1 -> (forall a, In a alts -> branch (snd a)) ->
  (forall b, In b (removelast (map snd alts)) -> render b <> strip (render b0)) ->
  reads S_ E_ L_ X_ (b0 ++ alternatives alts ++ Else e :: b1 ++ Close c :: rest) ->
  extract_else_elseif_fi S_ E_ L_ X_ (render (b0 ++ alternatives alts ++ Else e :: b1 ++ Close c :: rest)) =
    Ok (strip (render b0), strip (render b1), map alt_value alts, length (render (b0 ++ alternatives alts ++ Else e :: b1 ++ [Close c]))).
Proof. exact if_else_fi. Qed.
Print Assumptions C37_alternatives_partial.
(** Without \else, the content of the last alternative is always lost. *)
Theorem C37_last_branch_lost_refuted : forall S_ E_ L_ X_ b0 alts s x b c rest, branch b0 -> branch b -> (forall a, In a alts -> branch (snd a)) ->
  (forall a, In a alts -> render (snd a) <> strip (render b0)) ->
  reads S_ E_ L_ X_ (b0 ++ alternatives (alts ++ [(s, x, b)]) ++ Close c :: rest) ->
  extract_else_elseif_fi S_ E_ L_ X_ (render (b0 ++ alternatives (alts ++ [(s, x, b)]) ++ Close c :: rest)) =
    Ok (strip (render b0), [], map alt_value alts ++ [(x, [])], length (render (b0 ++ alternatives (alts ++ [(s, x, b)]) ++ [Close c]))).
Proof. exact last_elsif_lost. Qed.
Print Assumptions C37_last_branch_lost_refuted.
Theorem C37_last_branch_witness_refuted : extract_default (lit "aa\elsif\x\y\bb\fi") = Ok (lit "aa", [], [(Some (lit "\x\y"), [])], 18).
Proof. exact eq_refl. Qed.
Print Assumptions C37_last_branch_witness_refuted.
(** An alternative with the same text as the if-branch is lost. *)
Theorem C37_equal_branch_refuted : extract_default (lit "\foo\elsif\x\y\foo\elsif\z\w\bar\else d\fi") =
  Ok (lit "\foo", lit "d", [(Some (lit "\x\y"), []); (Some (lit "\z\w"), lit "\bar")], 42).
Proof. exact eq_refl. Qed.
Print Assumptions C37_equal_branch_refuted.
(** \or alternatives are reported without their condition (it is group 2). *)
Theorem C37_or_condition_refuted : extract_default (lit "some\or\x\y\bb\else dd\fi") = Ok (lit "some", lit "dd", [(None, lit "\bb")], 25).
Proof. exact eq_refl. Qed.
Print Assumptions C37_or_condition_refuted.
Example C37_case : reads (searcher IF_PATTERN) (searcher FI_PATTERN) (searcher ELSE_PATTERN) (searcher_group ELSIF_PATTERN) ex_items /\
  (branch ex_b0 /\ branch ex_b1 /\ (forall a, In a ex_alts -> branch (snd a)) /\ (forall b, In b (removelast (map snd ex_alts)) -> render b <> strip (render ex_b0))) /\
  extract_default (render ex_items) = Ok (lit "aa \ifx\a\b bb\else cc\fi dd", lit "ff", [(Some (lit "\x\y"), lit "\ee"); (Some (lit "\z\w"), lit "gg")], 67).
Proof. exact (conj ex_reads (conj ex_branch ex_closed)). Qed.
