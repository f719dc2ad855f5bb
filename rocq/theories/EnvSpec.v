(** Specification vocabulary for environments. *)
From Coq Require Import List NArith PeanoNat Bool String.
From Verif Require Import PyStr Regex DelimSpec.
Import ListNotations.
Notation length := List.length.
Open Scope list_scope.

(** [cmd{name}], blanks allowed before the brace, stands at [i..j). *)
Definition marker_at (cmd name text : str) (i j : nat) : Prop :=
  exists ws rest, blank ws /\ skipn i text = cmd ++ ws ++ [c_lb] ++ name ++ [c_rb] ++ rest /\
    j = i + length cmd + length ws + length name + 2.

(** the leftmost marker at or after [pos] *)
Definition first_marker (cmd name text : str) (pos i j : nat) : Prop :=
  pos <= i /\ marker_at cmd name text i j /\ forall i' j', pos <= i' < i -> ~ marker_at cmd name text i' j'.

(** [closed_at name text pos s e]: reading from [pos], inside an open
    environment, the \end{name} at [s..e) is the one that closes it:
    everything before it is a sequence of complete inner environments. *)
Inductive closed_at (name text : str) : nat -> nat -> nat -> Prop :=
| ca_end : forall pos s e,
    first_marker (lit "\end") name text pos s e ->
    (forall i j, pos <= i <= s -> ~ marker_at (lit "\begin") name text i j) ->
    closed_at name text pos s e
| ca_nested : forall pos i j s1 e1 s e,
    first_marker (lit "\begin") name text pos i j ->
    (forall i' j', pos <= i' < i -> ~ marker_at (lit "\end") name text i' j') ->
    closed_at name text j s1 e1 -> closed_at name text e1 s e ->
    closed_at name text pos s e.

(** The same for two arbitrary patterns; the runtime's [search] decides where
    the next begin and end are, a begin wins a tie. *)
Inductive pclosed_at (b e : re) (text : str) : nat -> nat -> nat -> Prop :=
| pca_end : forall pos em,
    re_search_from e text pos = Some em ->
    (forall bm, re_search_from b text pos = Some bm -> m_start em < m_start bm) ->
    pclosed_at b e text pos (m_start em) (m_end em)
| pca_nested : forall pos bm s1 e1 s2 e2,
    re_search_from b text pos = Some bm ->
    (forall em, re_search_from e text pos = Some em -> m_start bm <= m_start em) ->
    pclosed_at b e text (m_end bm) s1 e1 -> pclosed_at b e text e1 s2 e2 ->
    pclosed_at b e text pos s2 e2.
