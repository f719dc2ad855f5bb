(** Vocabulary for C107: title commands and picture environments. *)
From Coq Require Import List NArith ZArith PeanoNat Bool String.
From Verif Require Import PyStr DelimSpec.
Import ListNotations. Notation length := List.length. Notation concat := List.concat. Open Scope list_scope.

(** [title_command head spec]: [head] is a titlesec command up to its first brace, [spec] says which arguments
    follow: { a required one, [ an optional one *)
Inductive title_command : str -> str -> Prop :=
| tc_format : forall g, blank g -> title_command (lit "\titleformat" ++ g) (lit "{[{{{{")
| tc_spacing : forall star g, star = [] \/ star = lit "*" -> blank g -> title_command (lit "\titlespacing" ++ star ++ g) (lit "{{{{")
| tc_label : forall g, blank g -> title_command (lit "\titlelabel" ++ g) (lit "{")
| tc_contents : forall g, blank g -> title_command (lit "\titlecontents" ++ g) (lit "{[{{{{")
| tc_line : forall g, blank g -> title_command (lit "\titleline" ++ g) (lit "{")
| tc_line_at : forall g1 where_ g2, blank g1 -> blank g2 -> ~ In c_rk where_ -> title_command (lit "\titleline" ++ g1 ++ [c_lk] ++ where_ ++ [c_rk] ++ g2) (lit "{").

Definition picture_name (name : str) : Prop := name = lit "tikzpicture" \/ name = lit "picture" \/ name = lit "pgfpicture".
(** \begin{name} *)
Definition begin_text (ws name : str) : str := lit "\begin" ++ ws ++ [c_lb] ++ name ++ [c_rb].
(** a command that loads libraries or sets options *)
Definition library_word (word : str) : Prop :=
  word = lit "\usetikzlibrary" \/ word = lit "\usepgflibrary" \/ word = lit "\usepgfplotslibrary" \/ word = lit "\pgfplotsset".
(** what stands behind an optional [..] *)
Inductive behind_options (content : str) : str -> Prop :=
| bo_none : (forall b n, ~ group_at c_lk c_rk content b n) -> behind_options content content
| bo_some : forall b n, group_at c_lk c_rk content b n -> behind_options content (skipn n content).
