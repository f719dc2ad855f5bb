(** Specification of content commands: citations, references, sections. *)
From Coq Require Import List NArith ZArith PeanoNat Bool String.
From Verif Require Import PyStr Json DelimSpec.
Import ListNotations. Notation length := List.length. Notation concat := List.concat. Open Scope list_scope.

Definition cite_commands : list string :=
  ["\cite"; "\citep"; "\citet"; "\cites"; "\citealt"; "\citealp"; "\citeauthor"; "\citenum"; "\citeyear"; "\citeyearpar"; "\citefullauthor"]%string.
(** a balanced group [{body}] *)
Definition closed (body : str) : Prop := balanced c_lb c_rb (marks body) /\ closes_after body.
Definition bracketed (o : option str) : str := match o with Some a => [c_lk] ++ a ++ [c_rk] | None => [] end.
Definition good_note (o : option str) : Prop := match o with Some a => ~ In c_rk a | None => True end.
(** [\cite[pre][post]{body}rest] with blanks; a postnote needs a prenote *)
Definition cite_text (name : string) (ws1 : str) (pre post : option str) (ws2 body rest : str) : str :=
  lit name ++ ws1 ++ bracketed pre ++ bracketed post ++ ws2 ++ [c_lb] ++ body ++ [c_rb] ++ rest.
(** the non-empty trimmed notes *)
Definition trimmed_note (o : option str) : list str :=
  match o with Some a => match strip a with [] => [] | s => [s] end | None => [] end.
Definition note_title (pre post : option str) : dict :=
  match trimmed_note pre ++ trimmed_note post with
  | [] => []
  | [a] => [(lit "title", VStr a)]
  | a :: b :: _ => [(lit "title", VStr (a ++ lit ", " ++ b))]
  end.
Definition key_list (ks : list str) : val := VList (map (fun k => VStr (strip k)) ks).
(** [\sub...section] *)
Fixpoint times (n : nat) (s : str) : str := match n with O => [] | S n => s ++ times n s end.
Definition starred (b : bool) : str := if b then lit "*" else [].
(** [\sub...section*{title}rest] *)
Definition level_command (n : nat) (cmd : string) (star : bool) (ws title rest : str) : str :=
  [c_bs] ++ times n (lit "sub") ++ lit cmd ++ starred star ++ ws ++ [c_lb] ++ title ++ [c_rb] ++ rest.
Definition lower (c : ch) : ch := if in_range 65 90 c then (c + 32)%N else c.
(** [\hyperref{...], without an optional argument, in any case *)
Definition bare_hyperref (t : str) : Prop := exists h ws r, t = h ++ ws ++ [c_lb] ++ r /\ map lower h = lit "\hyperref" /\ blank ws.
