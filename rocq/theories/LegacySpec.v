(** Vocabulary for C89-C90: font, size and colour switches. *)
From Coq Require Import List NArith PeanoNat Bool String.
From Verif Require Import PyStr DelimSpec EnvSpec ItemSpec CommandSpec StyleSpec.
Import ListNotations. Notation length := List.length. Open Scope list_scope.

(** The switches and the command with an argument that each of them stands for. *)
Definition font_switches : list (str * str) :=
  [(lit "bf", lit "textbf"); (lit "bfseries", lit "textbf"); (lit "bold", lit "textbf"); (lit "boldmath", lit "textbf"); (lit "bm", lit "textbf"); (lit "mathversion{bold}", lit "textbf");
   (lit "it", lit "textit"); (lit "itshape", lit "textit"); (lit "em", lit "emph"); (lit "sl", lit "textsl"); (lit "slshape", lit "textsl");
   (lit "sc", lit "textsc"); (lit "scshape", lit "textsc"); (lit "tt", lit "texttt"); (lit "ttfamily", lit "texttt"); (lit "sf", lit "textsf"); (lit "sffamily", lit "textsf");
   (lit "rm", lit "textrm"); (lit "rmfamily", lit "textrm"); (lit "upshape", lit "textrm"); (lit "mdseries", lit "textrm"); (lit "normalfont", lit "textrm");
   (lit "textup", lit "textrm"); (lit "textnormal", lit "textrm"); (lit "textmd", lit "textrm"); (lit "unboldmath", lit "textrm"); (lit "mathversion{normal}", lit "textrm")].
Definition size_switches : list (str * str) :=
  [(lit "tiny", lit "texttiny"); (lit "scriptsize", lit "textscriptsize"); (lit "footnotesize", lit "textfootnotesize"); (lit "small", lit "textsmall"); (lit "smaller", lit "textsmall");
   (lit "normalsize", lit "textnormal"); (lit "large", lit "textlarge"); (lit "Large", lit "textlarge"); (lit "LARGE", lit "textlarge"); (lit "larger", lit "textlarge");
   (lit "huge", lit "texthuge"); (lit "Huge", lit "texthuge")].
Definition fonts : list str := map fst font_switches.
Definition sizes : list str := map fst size_switches.
Definition all_switches : list (str * str) := font_switches ++ size_switches.
Definition all_names : list str := fonts ++ sizes.
(** the switches of one kind *)
Definition kind_of (size : bool) : list (str * str) := if size then size_switches else font_switches.
Definition ends_word (r : str) : Prop := forall x q, r = x :: q -> ~ letter x.
(** one of the commands [names] starts here *)
Definition command_here (names : list str) (s : str) : Prop := exists name r, In name names /\ s = [c_bs] ++ name ++ r /\ ends_word r.
(** \color{...}, perhaps with a colour model, or \normalcolor *)
Definition color_here (w : ch -> bool) (s : str) : Prop :=
  (exists model g ws r, model_at w model g /\ blank ws /\ s = lit "\color" ++ g ++ ws ++ [c_lb] ++ r) \/
  (exists r, s = lit "\normalcolor" ++ r /\ starts_with w r = false).

(** Where a switch ends to apply: at the next switch of the same kind outside all groups and
    environments of [text], or at the end of [text]. *)
Section Scope.
Variable w : ch -> bool.
Variable switch : str -> Prop.
Variable text : str.
(** a brace that is not escaped; reading starts at [pos] *)
Definition brace_here (pos i : nat) : Prop := exists r, skipn i text = c_lb :: r /\ (i = pos \/ nth_error text (i - 1) <> Some c_bs).
Definition calm (pos p : nat) : Prop := forall i, pos <= i < p -> ~ switch (skipn i text) /\ ~ brace_here pos i /\ ~ opens_here w (skipn i text).
Inductive scope_from : nat -> nat -> Prop :=
| sc_switch : forall pos p, pos <= p -> calm pos p -> switch (skipn p text) -> scope_from pos p
| sc_group : forall pos s body n e, pos <= s -> calm pos s -> brace_here pos s -> group_at c_lb c_rb (skipn s text) body n -> scope_from (s + n) e -> scope_from pos e
| sc_unclosed : forall pos s e, pos <= s -> calm pos s -> brace_here pos s -> (forall body n, ~ group_at c_lb c_rb (skipn s text) body n) -> scope_from (s + 1) e -> scope_from pos e
| sc_env : forall pos s n e, pos <= s -> calm pos s -> opens_here w (skipn s text) -> block w (skipn s text) n -> scope_from (s + n) e -> scope_from pos e
| sc_last : forall pos, (forall i, pos <= i -> ~ switch (skipn i text) /\ ~ brace_here pos i) -> scope_from pos (length text).
Definition scope (e : nat) : Prop := ((forall i, ~ switch (skipn i text)) /\ e = length text) \/ scope_from 0 e.
End Scope.

(** The text a switch can reach: up to the closing brace of the group it is in, or all. *)
Inductive reaches : str -> str -> Prop :=
| re_group : forall text r, text <> [] -> good_body text -> reaches (text ++ [c_rb] ++ r) text
| re_all : forall text, (forall body n, ~ group_at c_lb c_rb ([c_lb] ++ text) body n) -> reaches text text.
(** [b] does not end with one of the commands *)
Definition no_command_at_end (names : list str) (b : str) : Prop := forall name, In name names -> forall a, b <> a ++ [c_bs] ++ name.
Definition written_as (command body : str) : str := [c_bs] ++ command ++ [c_lb] ++ body ++ [c_rb].
(** What is written for [body]: all of it becomes the argument; a font or size switch at its very end is moved behind. *)
Definition styled (cmd body out : str) : Prop :=
  (no_command_at_end all_names (rstrip body) /\ out = written_as cmd body) \/
  (exists a name, In name all_names /\ rstrip body = a ++ [c_bs] ++ name /\ no_command_at_end all_names (rstrip a) /\ out = written_as cmd (rstrip a) ++ [c_sp] ++ [c_bs] ++ name).
(** the command a colour stands for *)
Definition color_command (model : option str) (color : str) : str :=
  lit "textcolor" ++ match model with Some m => [c_lk] ++ m ++ [c_rk] | None => [] end ++ [c_lb] ++ color ++ [c_rb].
