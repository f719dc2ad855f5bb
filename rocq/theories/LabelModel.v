(** Which token a \label is attached to: LatexParser._handle_label and the part of
    _process_token that concerns current_env (latex2json/parser/tex_parser.py:149-165,
    346-390).  A text is reduced to the sequence of events that matter: labels and
    tokens with the texts parsed inside them.  Tokens are objects with an identity;
    attaching a label to a token is recorded as a pair (token, label). *)
From Coq Require Import List PeanoNat Lia Bool.
From Verif Require Import PyStr.
Import ListNotations.

Inductive event :=
| ELabel (l : str)                                   (** \label{l} *)
| ELeaf (id : nat)                                   (** a token that leaves current_env alone: text, ref, equation, ... *)
| EPlain (id : nat) (inner : list event)             (** title, abstract, url title, ...: parsed without touching current_env *)
| ENote (id : nat) (inner : list event)              (** footnote, caption: tex_parser.py:372-376, current_env is not restored *)
| EHead (id : nat) (title : list event)              (** section, paragraph: 387-390 *)
| EEnv (drop : bool) (id : nat) (inner title : list event).
    (** environment: 393-405, restored after the content; then the title.  [drop]: a group,
        environment or list token, which add_token ignores when its content is empty (203-206) *)

(** what a label is attached to *)
Inductive owner := Token (id : nat) | Free.          (** Free: a token of type label of its own *)
(** current_env, the token list of the current call, the labels so far, and all tokens
    that have been added to some list *)
Record lstate := { l_cur : option nat; l_tokens : list nat; l_labels : list (str * owner); l_out : list nat }.

Definition last_token (ts : list nat) : option nat := match rev ts with x :: _ => Some x | [] => None end.

(** tex_parser.py:149-165.  A label of its own becomes a token; its identity is never
    needed ([0] stands for it): a second label then attaches to it. *)
Definition handle_label (l : str) (s : lstate) : lstate :=
  match l_cur s with
  | Some e => {| l_cur := l_cur s; l_tokens := l_tokens s; l_labels := l_labels s ++ [(l, Token e)]; l_out := l_out s |}
  | None => match last_token (l_tokens s) with
            | Some t => {| l_cur := None; l_tokens := l_tokens s; l_labels := l_labels s ++ [(l, Token t)]; l_out := l_out s |}
            | None => {| l_cur := None; l_tokens := l_tokens s ++ [0]; l_labels := l_labels s ++ [(l, Free)]; l_out := l_out s ++ [0] |}
            end
  end.

(** a nested call of parse starts with no tokens; the caller's list is untouched.  The
    flag tells whether the call returned no token. *)
Definition nested (f : lstate -> lstate) (s : lstate) : lstate * bool :=
  let s' := f {| l_cur := l_cur s; l_tokens := []; l_labels := l_labels s; l_out := l_out s |} in
  ({| l_cur := l_cur s'; l_tokens := l_tokens s; l_labels := l_labels s'; l_out := l_out s' |}, match l_tokens s' with [] => true | _ => false end).
Definition set_cur (c : option nat) (s : lstate) : lstate := {| l_cur := c; l_tokens := l_tokens s; l_labels := l_labels s; l_out := l_out s |}.
Definition add_tok (id : nat) (s : lstate) : lstate := {| l_cur := l_cur s; l_tokens := l_tokens s ++ [id]; l_labels := l_labels s; l_out := l_out s ++ [id] |}.

Fixpoint run_event (e : event) (s : lstate) : lstate :=
  let run_all := fix go (es : list event) (s : lstate) := match es with [] => s | e :: r => go r (run_event e s) end in
  match e with
  | ELabel l => handle_label l s
  | ELeaf id => add_tok id s
  | EPlain id inner => add_tok id (fst (nested (run_all inner) s))
  | ENote id inner => add_tok id (fst (nested (run_all inner) (set_cur (Some id) s)))
  | EHead id title => add_tok id (fst (nested (run_all title) (set_cur (Some id) s)))
  | EEnv drop id inner title =>
      let '(s1, empty) := nested (run_all inner) (set_cur (Some id) s) in
      let s2 := fst (nested (run_all title) (set_cur (l_cur s) s1)) in
      if drop && empty then s2 else add_tok id s2
  end.
Definition run_events : list event -> lstate -> lstate := fix go es s := match es with [] => s | e :: r => go r (run_event e s) end.
Definition fresh : lstate := {| l_cur := None; l_tokens := []; l_labels := []; l_out := [] |}.
Definition labels_of (doc : list event) : list (str * owner) := l_labels (run_events doc fresh).
Definition output_of (doc : list event) : list nat := l_out (run_events doc fresh).
