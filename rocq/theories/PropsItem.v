(** Properties C71 and C72: list items and for loops (parser/handlers/item.py,
    for_loop_statements.py).  Specification vocabulary: ItemSpec.v. *)
From Coq Require Import List NArith PeanoNat Bool String.
From Verif Require Import PyStr DelimSpec EqSpec EnvHandlerCases ItemModel ItemSpec ItemProofs2 ItemProofs3 ItemCases.
Import ListNotations.
Notation length := List.length.
Open Scope list_scope.

(** * C71 *)
(** An item runs to the next \item outside every environment and group, or to
    the end of the text, and is reported with its whole body and title; an
    empty one is consumed and dropped.  Partial: no \foo...\endfoo pairs in the
    text, every group is closed, and the body loses a leading [..] group. *)
Theorem C71_item_partial : forall w, w 109%N = true -> w 112%N = true -> forall lower, lower (lit "item") = lit "item" ->
  forall text u title n, text = lit "\item" ++ u -> starts_with w u = false -> item_head u title n -> plain_ends w text ->
  let start := 5 + n in
  (start = length text \/ item_here w (skipn start text) -> handle_item w lower text = IOut None start) /\
  (start <> length text -> ~ item_here w (skipn start text) -> forall e, item_ends w text start e ->
   exists t p, handle_item w lower text = IOut (Some t) p /\ kept_body (strip (slice start e text)) (it_content t) /\ it_title t = shown_title title /\
     (p = e \/ (e = length text /\ text = firstn p text ++ [c_nl]))).
Proof. exact item_result. Qed.
Print Assumptions C71_item_partial.
(** text that does not start with \item is left alone *)
Theorem C71_not_item : forall w, w 109%N = true -> forall lower text, ~ item_here w text -> handle_item w lower text = IOut None 0.
Proof. exact not_item. Qed.
Print Assumptions C71_not_item.
(** the search for the end of an item ends, whatever the text *)
Theorem C71_ends : forall w lower text, handle_item w lower text <> INoFuel.
Proof. exact item_ends_run. Qed.
Print Assumptions C71_ends.
(** In full it is false: a body that starts with a bracket loses it, *)
Theorem C71_body_refuted : handle_item aw alower (lit "\item[(i)] [0,1] is compact") =
  IOut (Some {| it_content := lit " is compact"; it_title := Some (lit "(i)") |}) 27.
Proof. exact interval_lost. Qed.
Print Assumptions C71_body_refuted.
(** a title is cut at the first closing bracket, even inside braces, *)
Theorem C71_title_refuted : handle_item aw alower (lit "\item[{[1]}] text") = IOut (Some {| it_content := lit "}] text"; it_title := Some (lit "{[1") |}) 17.
Proof. exact title_cut. Qed.
Print Assumptions C71_title_refuted.
(** and after an unclosed group the item stops short: the rest is no item *)
Theorem C71_unclosed_refuted : handle_item aw alower (lit "\item a \begin{x}u\end{x} \bgroup \begin{y}\item b\end{y} \item c") =
  IOut (Some {| it_content := lit "a \begin{x}u\end{x}"; it_title := None |}) 25.
Proof. exact (proj2 unclosed_group). Qed.
Print Assumptions C71_unclosed_refuted.
(** the hypotheses are met *)
Example C71_case_hyps : plain_ends aw list_text /\ item_head (skipn 5 list_text) (Some (lit " (i) ")) 8 /\ item_ends aw list_text 13 64.
Proof. exact (conj list_plain (conj list_head list_item)). Qed.
Example C71_case : exists t, handle_item aw alower list_text = IOut (Some t) 64 /\
  it_content t = lit "one \begin{itemize}\item a\end{itemize} two \items" /\ it_title t = Some (lit "(i)").
Proof. exact list_result. Qed.

(** * C72 *)
(** a \forloop with its four arguments is skipped exactly *)
Theorem C72_forloop : forall ws g bs n, blank ws -> starts_with (N.eqb c_lb) g = true -> groups_at c_lb c_rb g bs n -> length bs = 4 ->
  handle_for (lit "\forloop" ++ ws ++ g) = 8 + length ws + n.
Proof. exact forloop_exact. Qed.
Print Assumptions C72_forloop.
(** nothing else is consumed *)
Theorem C72_other : forall text, (forall r, text <> lit "\forloop" ++ r) -> (forall r, text <> lit "\foreach" ++ r) -> handle_for text = 0.
Proof. exact for_other. Qed.
Print Assumptions C72_other.
(** For \foreach it is false: it takes the text up to the last brace group of
    the line with it, *)
Theorem C72_foreach_eats_refuted : let text := lit "\foreach \x in {1,2}{a} The \textbf{main} result" in
  skipn (handle_for text) text = lit " result".
Proof. exact foreach_eats. Qed.
Print Assumptions C72_foreach_eats_refuted.
(** or a brace group on the next line, *)
Theorem C72_foreach_next_refuted : let text := lit "\foreach \x in {1,2}
{a}
{Next} text" in skipn (handle_for text) text = lit " text".
Proof. exact foreach_next. Qed.
Print Assumptions C72_foreach_next_refuted.
(** or leaves the end of its own body in the text *)
Theorem C72_foreach_leaks_refuted : let text := lit "\foreach \x in {1,2}{\draw {a} b;} c" in skipn (handle_for text) text = lit " b;} c".
Proof. exact foreach_leaks. Qed.
Print Assumptions C72_foreach_leaks_refuted.
(** and a \forloop with a step is not recognised *)
Theorem C72_step_refuted : handle_for (lit "\forloop[2]{i}{0}{\value{i}<9}{x}") = 0.
Proof. exact forloop_step. Qed.
Print Assumptions C72_step_refuted.
Example C72_case : let text := lit "\forloop {i}{0}{\value{i}<9}{x{y}} rest" in skipn (handle_for text) text = lit " rest".
Proof. vm_compute. reflexivity. Qed.
