(** Who should own a label, read off the document. *)
From Coq Require Import List PeanoNat Lia Bool.
From Verif Require Import PyStr LabelModel.
Import ListNotations.

(** A label somewhere in a document: the events before it on each level, from the outermost
    level inwards, and the token of the next level. *)
Inductive place :=
| Here (before : list event)
| InPlain (before : list event) (id : nat) (p : place)
| InNote (before : list event) (id : nat) (p : place)
| InHead (before : list event) (id : nat) (p : place)
| InEnv (before : list event) (drop : bool) (id : nat) (title : list event) (p : place)
| InTitle (before : list event) (drop : bool) (id : nat) (inner : list event) (p : place).

(** the document with the label [l] at that place; [after] are the events that follow on each level *)
Fixpoint put (p : place) (l : str) (after : list (list event)) : list event :=
  let here := match after with a :: _ => a | [] => [] end in
  let rest := match after with _ :: r => r | [] => [] end in
  match p with
  | Here before => before ++ ELabel l :: here
  | InPlain before id p => before ++ EPlain id (put p l rest) :: here
  | InNote before id p => before ++ ENote id (put p l rest) :: here
  | InHead before id p => before ++ EHead id (put p l rest) :: here
  | InEnv before d id title p => before ++ EEnv d id (put p l rest) title :: here
  | InTitle before d id inner p => before ++ EEnv d id inner (put p l rest) :: here
  end.

(** The last heading, footnote or caption that was begun in a text, not counting the bodies of
    environments: what the code takes to be current after the text. *)
Fixpoint opened (e : event) : option nat :=
  let last := fix go (es : list event) := match es with [] => None | e :: r => match go r with Some x => Some x | None => opened e end end in
  match e with
  | ELabel _ | ELeaf _ => None
  | EPlain _ inner => last inner
  | ENote id inner => match last inner with Some x => Some x | None => Some id end
  | EHead id title => match last title with Some x => Some x | None => Some id end
  | EEnv _ _ _ title => last title
  end.
Definition last_opened : list event -> option nat :=
  fix go es := match es with [] => None | e :: r => match go r with Some x => Some x | None => opened e end end.

(** the owner of a label when something has been opened around or before it *)
Fixpoint owner_at (outer : option nat) (p : place) : option nat :=
  let cur before := match last_opened before with Some x => Some x | None => outer end in
  match p with
  | Here before => cur before
  | InPlain before _ p => owner_at (cur before) p
  | InNote before id p | InHead before id p => owner_at (Some id) p
  | InEnv before _ id _ p => owner_at (Some id) p
  | InTitle before _ id _ p => owner_at (cur before) p
  end.

(** the number of labels in a text, and before a place in the order in which the parser meets them *)
Fixpoint labels_in (e : event) : nat :=
  let all := fix go (es : list event) := match es with [] => 0 | e :: r => labels_in e + go r end in
  match e with
  | ELabel _ => 1
  | ELeaf _ => 0
  | EPlain _ inner | ENote _ inner | EHead _ inner => all inner
  | EEnv _ _ inner title => all inner + all title
  end.
Definition count_labels : list event -> nat := fix go es := match es with [] => 0 | e :: r => labels_in e + go r end.
Fixpoint labels_before (p : place) : nat :=
  match p with
  | Here before => count_labels before
  | InPlain before _ p | InNote before _ p | InHead before _ p | InEnv before _ _ _ p => count_labels before + labels_before p
  | InTitle before _ _ inner p => count_labels before + count_labels inner + labels_before p
  end.

(** every environment that would be dropped when empty contains a token that is not dropped *)
Fixpoint env_nonempty (e : event) : bool :=
  let all := fix go (es : list event) := match es with [] => true | e :: r => env_nonempty e && go r end in
  match e with
  | ELabel _ | ELeaf _ => true
  | EPlain _ inner | ENote _ inner | EHead _ inner => all inner
  | EEnv drop _ inner title => all inner && all title && (negb drop || existsb (fun e => match e with ELabel _ => false | EEnv d _ _ _ => negb d | _ => true end) inner)
  end.
Definition all_nonempty : list event -> bool := fix go es := match es with [] => true | e :: r => env_nonempty e && go r end.
