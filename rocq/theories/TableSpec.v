(** Specification vocabulary for splitting table text. *)
From Coq Require Import List NArith ZArith PeanoNat Bool String.
From Verif Require Import PyStr DelimSpec RegexLocal Json BuilderModel FactoryModel.
Import ListNotations.
Notation length := List.length.
Notation concat := List.concat.
Open Scope list_scope.

(** opening minus closing braces, every one counted, escaped or not *)
Fixpoint brace_level (s : str) : Z :=
  match s with
  | [] => 0
  | x :: r => ((if N.eqb x c_lb then 1 else if N.eqb x c_rb then -1 else 0) + brace_level r)%Z
  end.
(** A separator: the delimiter, outside braces, after an even number of
    backslashes. *)
Definition separator (d before after : str) : Prop :=
  brace_level before = 0%Z /\ closes_after before /\ exists q, after = d ++ q.
(** The pieces of [content] between its separators: joined they are the content,
    and the joints are exactly the separators. *)
Definition pieces (d content : str) (raw : list str) : Prop :=
  raw <> [] /\ join d raw = content /\
  forall before after, content = before ++ after ->
    (separator d before after <-> exists a b, a <> [] /\ b <> [] /\ raw = a ++ b /\ before = join d a).
(** the two delimiters of tables: & and \\ *)
Definition table_delimiter (d : str) : Prop := d = [c_amp] \/ d = [c_bs; c_bs].

(** A brace group may have this content. *)
Definition group_text (s : str) : Prop := balanced c_lb c_rb (marks s) /\ closes_after s.
(** \name{n}{spec}{body} and nothing else, blanks allowed between the groups *)
Definition span_cell (name : str) (n : nat) (body text : str) : Prop := exists w1 w2 w3 spec,
  blank w1 /\ blank w2 /\ blank w3 /\ group_text spec /\ group_text body /\
  text = (c_bs :: name) ++ w1 ++ c_lb :: str_of_nat n ++ c_rb :: w2 ++ c_lb :: spec ++ c_rb :: w3 ++ c_lb :: body ++ [c_rb].
(** \makecell{body} or \shortstack{body} and nothing else *)
Definition stack_cell (body text : str) : Prop := exists cmd w, (cmd = lit "\makecell" \/ cmd = lit "\shortstack") /\
  blank w /\ group_text body /\ text = cmd ++ w ++ c_lb :: body ++ [c_rb].
Definition no_command (names : list string) (text : str) : Prop := forall n, In n names -> ~ occurs (lit n) text.
Definition spans : list string := ["\multicolumn"; "\multirow"]%string.
Definition stacks : list string := ["\makecell"; "\shortstack"]%string.
Definition span_dict (v : val) (rows cols : nat) : val :=
  VDict [(k_content, v); (k_rowspan, VInt (Z.of_nat rows)); (k_colspan, VInt (Z.of_nat cols))].
(** The value of a cell, for the cells that are plain text, one stack, or spans
    written without other text around them. *)
Inductive cell_value (parser : str -> val) : str -> val -> Prop :=
| cv_plain : forall t, no_command (spans ++ stacks) t -> cell_value parser t (parser t)
| cv_stack : forall t b, stack_cell b t -> no_command spans b -> cell_value parser t (parser b)
| cv_columns : forall t n b, span_cell (lit "multicolumn") n b t -> 1 < n -> no_command stacks t -> no_command spans (strip b) ->
    cell_value parser t (span_dict (parser (strip b)) 1 n)
| cv_rows : forall t n b, span_cell (lit "multirow") n b t -> 1 < n -> no_command stacks t -> ~ occurs (lit "\multicolumn") t ->
    cell_value parser t (span_dict (parser (strip b)) n 1)
| cv_both : forall t n m b b', span_cell (lit "multicolumn") n b t -> no_command stacks t -> span_cell (lit "multirow") m b' (strip b) ->
    1 < n \/ 1 < m -> cell_value parser t (span_dict (parser (strip b')) m n).
(** A leading and a trailing row of empty values are left out. *)
Definition empty_row (row : list val) : Prop := forall v, In v row -> truthy v = false.
Definition without_empty_ends (rows out : list (list val)) : Prop := exists pre post,
  rows = pre ++ out ++ post /\ length pre <= 1 /\ length post <= 1 /\
  (forall r, In r (pre ++ post) -> empty_row r) /\
  (pre = [] -> forall r rest, rows = r :: rest -> ~ empty_row r) /\
  (post = [] -> forall r rest, rows = pre ++ rest ++ [r] -> ~ empty_row r).
(** The table: rows between the \\ that are not blank, cells between the &. *)
Definition table_rows (parser : str -> val) (text : str) (rows : list (list val)) : Prop := exists raw,
  pieces [c_bs; c_bs] text raw /\
  Forall2 (fun row cells => exists cs, pieces [c_amp] row cs /\ Forall2 (cell_value parser) (map strip cs) cells)
    (filter (fun p => negb (str_eqb p [])) (map strip raw)) rows.
