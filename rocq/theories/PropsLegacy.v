(** C89-C90: font, size and colour switches (legacy_formatting.py).  [w] stands for the
    characters of \w.  The relations are those of LegacySpec.v. *)
From Coq Require Import List NArith PeanoNat Bool String.
From Verif Require Import PyStr Regex Json DelimSpec EnvSpec EqSpec EnvHandlerCases CommandSpec StyleSpec ItemSpec LegacyModel LegacySpec LegacyProofs4 LegacyProofs5 LegacyCases.
Import ListNotations. Notation length := List.length. Open Scope list_scope.

(** A switch that is not in front of a group styles the text up to the next switch of its
    kind outside groups and environments, or up to the brace that closes the group it is in,
    or up to the end.  The same switch again is dropped, it only ends the first one. *)
Theorem C89_switch_partial : forall w size name cmd ws rest text e out, w 112%N = true ->
  In (name, cmd) (kind_of size) -> blank ws -> starts_with isspace rest = false -> ends_word (ws ++ rest) -> (forall r, rest <> c_lb :: r) ->
  reaches rest text -> plain_ends w text -> scope w (command_here (map fst (kind_of size))) text e -> styled cmd (firstn e text) out ->
  exists n, handle w ([c_bs] ++ name ++ ws ++ rest) = Ok (Some (out, n)) /\
    (forall r, skipn e rest = [c_bs] ++ name ++ r -> n = 1 + length name + length ws + e + 1 + length name) /\
    ((forall r, skipn e rest <> [c_bs] ++ name ++ r) -> n = 1 + length name + length ws + e).
Proof. exact switch_reads. Qed.
Print Assumptions C89_switch_partial.
Theorem C89_group : forall w size name cmd ws g r, In (name, cmd) (kind_of size) -> blank ws -> good_body g ->
  handle w ([c_bs] ++ name ++ ws ++ [c_lb] ++ g ++ [c_rb] ++ r) = Ok (Some (written_as cmd (strip g), 1 + length name + length ws + length g + 2)).
Proof. exact group_styles. Qed.
Print Assumptions C89_group.
(** In full it is false.  A switch whose name starts with the name of the one before is cut in two: shape b is left, *)
Theorem C89_prefix_refuted : handle aw (lit "\it a \itshape b") = Ok (Some (lit "\textit{a }", 9)).
Proof. exact prefix_switch. Qed.
Print Assumptions C89_prefix_refuted.
(** a group behind the switch takes all of it (b stays plain), and a second \bf switches bold off, *)
Theorem C89_group_only_refuted : handle aw (lit "\bf {a} b") = Ok (Some (lit "\textbf{a}", 7)) /\ handle aw (lit "\bf a \bf b") = Ok (Some (lit "\textbf{a }", 9)).
Proof. exact (conj group_only same_again). Qed.
Print Assumptions C89_group_only_refuted.
(** at the end of its group the switch reaches behind the closing brace, *)
Theorem C89_past_group_refuted : handle aw (lit "\bf} c") = Ok (Some (lit "\textbf{} c}", 6)).
Proof. exact past_group. Qed.
Print Assumptions C89_past_group_refuted.
(** and in front of a group that is never closed it raises. *)
Theorem C89_unclosed_refuted : forall w size name cmd ws r, In (name, cmd) (kind_of size) -> blank ws -> (forall g n, ~ group_at c_lb c_rb ([c_lb] ++ r) g n) ->
  handle w ([c_bs] ++ name ++ ws ++ [c_lb] ++ r) = Raise AttributeError.
Proof. exact group_unclosed. Qed.
Print Assumptions C89_unclosed_refuted.
Example C89_case : exists n, handle aw (lit "\bf a {\it b} \em c} d") = Ok (Some (lit "\textbf{a {\it b} }", n)) /\ n = 14.
Proof. exact sample_read. Qed.
Example C89_case_hyps : scope aw (command_here (map fst (kind_of false))) sample 10 /\ styled (lit "textbf") (firstn 10 sample) (lit "\textbf{a {\it b} }").
Proof. exact (conj sample_scope sample_styled). Qed.
Example C89_case_trailing : handle aw (lit "\bf a \large") = Ok (Some (lit "\textbf{a} \large", 12)).
Proof. vm_compute. reflexivity. Qed.
Example C89_case_env : handle aw (lit "\em a \begin{x}\it b\end{x} c\sl d") = Ok (Some (lit "\emph{a \begin{x}\it b\end{x} c}", 29)).
Proof. vm_compute. reflexivity. Qed.

(** A colour applies up to the next colour or \normalcolor, the closing brace or the end.  With
    a colour model the theorem needs that what follows is not a command starting with one of its characters. *)
Theorem C90_color_partial : forall w, w 114%N = true -> w c_rk = false ->
  forall model g ws color rest text e out, w 112%N = true -> model_at w model g -> blank ws -> good_body color ->
  reaches rest text -> plain_ends w text -> scope w (color_here w) text e -> styled (color_command model color) (firstn e text) out ->
  (forall m x r, model = Some m -> skipn e rest = c_bs :: x :: r -> ~ In x m) ->
  handle w (lit "\color" ++ g ++ ws ++ [c_lb] ++ color ++ [c_rb] ++ rest) = Ok (Some (out, 6 + length g + length ws + length color + 2 + e)).
Proof. exact color_styles. Qed.
Print Assumptions C90_color_partial.
Theorem C90_normalcolor : forall w, w 114%N = true -> forall r, starts_with w r = false -> handle w (lit "\normalcolor" ++ r) = Ok (Some ([], 12)).
Proof. exact normal_vanishes. Qed.
Print Assumptions C90_normalcolor.
(** In full it is false: after a colour with a model the next colour command is eaten (red} b is left), *)
Theorem C90_model_refuted : handle aw (lit "\color[cmyk]{0,0,0,1} a \color{red} b") = Ok (Some (lit "\textcolor[cmyk]{0,0,0,1}{ a }", 31)).
Proof. exact (proj2 (proj2 model_char)). Qed.
Print Assumptions C90_model_refuted.
(** and a colour whose name is not closed raises. *)
Theorem C90_unclosed_refuted : forall w, w c_rk = false -> forall model g ws rest, model_at w model g -> blank ws -> (forall b n, ~ group_at c_lb c_rb ([c_lb] ++ rest) b n) ->
  handle w (lit "\color" ++ g ++ ws ++ [c_lb] ++ rest) = Raise AttributeError.
Proof. exact color_unclosed. Qed.
Print Assumptions C90_unclosed_refuted.
Example C90_case : handle aw (lit "\color [HTML]{FF0000} a \normalcolor b") = Ok (Some (lit "\textcolor[HTML]{FF0000}{ a }", 24)).
Proof. exact color_read. Qed.
