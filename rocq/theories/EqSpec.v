(** Specification vocabulary for equations. *)
From Coq Require Import List NArith PeanoNat Bool String.
From Verif Require Import PyStr RegexLocal DelimSpec EqModel.
Import ListNotations.
Notation length := List.length.
Notation concat := List.concat.
Open Scope list_scope.

Definition star_text (b : bool) : str := if b then [42%N] else [].
(** [cmd{name}] or [cmd{name*}], blanks allowed before the brace *)
Definition env_mark (cmd ws name : str) (star : bool) : str := cmd ++ ws ++ [c_lb] ++ name ++ star_text star ++ [c_rb].
(** [mark] begins at none of the first [length body] positions of [body ++ tail] *)
Definition first_in (mark : str -> Prop) (body tail : str) : Prop :=
  forall k, k < length body -> ~ mark (skipn k (body ++ tail)).

(** How an equation is written: [eq_source k text body e numbered]: the text
    starts with an equation of kind [k] with content [body]; [e] is the
    position after it. *)
Inductive eq_source (order : list str) : eq_kind -> str -> str -> nat -> bool -> Prop :=
| es_env : forall name ws1 st1 body ws2 st2 rest, In name order -> blank ws1 -> blank ws2 ->
    first_in (fun s => exists ws st r, blank ws /\ s = env_mark (lit "\end") ws name st ++ r) body (env_mark (lit "\end") ws2 name st2 ++ rest) ->
    eq_source order (KEnv name) (env_mark (lit "\begin") ws1 name st1 ++ body ++ env_mark (lit "\end") ws2 name st2 ++ rest) body
      (length (env_mark (lit "\begin") ws1 name st1 ++ body ++ env_mark (lit "\end") ws2 name st2)) (negb st2)
| es_display_dollar : forall body rest, first_in (prefix (lit "$$")) body (lit "$$" ++ rest) ->
    eq_source order KDisplayDollar (lit "$$" ++ body ++ lit "$$" ++ rest) body (length body + 4) false
| es_inline_dollar : forall body rest, body <> [] -> ~ In c_dollar body ->
    eq_source order KInlineDollar (lit "$" ++ body ++ lit "$" ++ rest) body (length body + 2) false
| es_display_bracket : forall body rest, first_in (prefix (lit "\]")) body (lit "\]" ++ rest) ->
    eq_source order KDisplayBracket (lit "\[" ++ body ++ lit "\]" ++ rest) body (length body + 4) false
| es_inline_bracket : forall body rest, ~ In c_nl body -> first_in (prefix (lit "\)")) body (lit "\)" ++ rest) ->
    eq_source order KInlineBracket (lit "\(" ++ body ++ lit "\)" ++ rest) body (length body + 4) false.

(** the argument of alignat is not part of the equation *)
Definition inner_equation (k : eq_kind) (body eq : str) : Prop :=
  (k <> KEnv (lit "alignat") /\ eq = body) \/
  (k = KEnv (lit "alignat") /\
     ((exists b n, group_at c_lb c_rb body b n /\ eq = strip (skipn n body)) \/
      ((forall b n, ~ group_at c_lb c_rb body b n) /\ eq = strip body))).

Definition aligned_kind (k : eq_kind) : Prop :=
  exists name, k = KEnv name /\ (occurs (lit "align") name \/ occurs (lit "eqnarray") name).
Definition block_kind (k : eq_kind) : Prop := k <> KInlineDollar /\ k <> KInlineBracket.

(** Texts with labels: [t0 \label{l1} t1 \label{l2} t2 ...]; each label is
    given as (blanks after the command, label, text after it). *)
Definition label_text (x : str * str * str) : str := let '(ws, l, t) := x in lit "\label" ++ ws ++ [c_lb] ++ l ++ [c_rb] ++ t.
Definition with_labels (t0 : str) (ls : list (str * str * str)) : str := t0 ++ concat (map label_text ls).
Definition good_label (x : str * str * str) : Prop :=
  let '(ws, l, t) := x in blank ws /\ l <> [] /\ balanced c_lb c_rb (marks l) /\ closes_after l /\
    ~ occurs (lit "\label") l /\ ~ occurs (lit "\label") t.

(** Texts with commands: the pieces before each command, the commands' sources
    and tokens. *)
Definition with_sources {T} (t0 : str) (cs : list (str * T * str)) : str := t0 ++ concat (map (fun '(src, _, t) => src ++ t) cs).
Fixpoint with_marks {T} (n : nat) (t0 : str) (cs : list (str * T * str)) : str :=
  t0 ++ match cs with [] => [] | (_, _, t) :: r => lit "___PLACEHOLDER_" ++ str_of_nat n ++ lit "___" ++ with_marks (S n) t r end.
(** what the content command handler finds: the first command at [length t0] etc. *)
Inductive commands_read {T} (search : str -> option nat) (handle : str -> option T * nat) : str -> str -> list (str * T * str) -> Prop :=
| cr_none : forall t, (t <> [] -> search t = None) -> commands_read search handle t t []
| cr_cmd : forall t0 src tok t1 cs rest, src <> [] -> search (t0 ++ src ++ rest) = Some (length t0) -> handle (src ++ rest) = (Some tok, length src) ->
    commands_read search handle rest t1 cs -> commands_read search handle (t0 ++ src ++ rest) t0 ((src, tok, t1) :: cs).
(** the stored tokens, in order *)
Fixpoint keyed {T} (n : nat) (cs : list (str * T * str)) : list (str * T) :=
  match cs with [] => [] | (_, tok, _) :: r => (lit "___PLACEHOLDER_" ++ str_of_nat n ++ lit "___", tok) :: keyed (S n) r end.

(** no formatting or box command at any backslash *)
Definition untouched (fmt box : str -> str * nat) (s : str) : Prop :=
  forall p r, s = p ++ c_bs :: r -> snd (fmt (c_bs :: r)) = 0 /\ snd (box (c_bs :: r)) = 0.
(** every \end is followed by no letter, digit, underscore or @ (as in \end{x}) *)
Definition plain_ends (w : ch -> bool) (s : str) : Prop :=
  forall p x r, s = p ++ lit "\end" ++ x :: r -> w x = false /\ x <> 64%N.
Definition label_of (x : str * str * str) : str := snd (fst x).
Definition after_text (x : str * str * str) : str := snd x.

(** the token of an equation of kind [k] *)
Definition the_token (T : Type) (k : eq_kind) (nb : bool) (content : str) (labels : list str) (ph : list (str * T)) (tok : eq_token T) : Prop :=
  q_content T tok = content /\ (q_block T tok = true <-> block_kind k) /\ (q_align T tok = true <-> aligned_kind k) /\
  q_numbered T tok = nb /\ q_labels T tok = labels /\ q_placeholders T tok = ph.

