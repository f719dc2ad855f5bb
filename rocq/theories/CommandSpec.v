(** Specification of macro definitions and macro calls, in terms of source text. *)
From Coq Require Import List NArith PeanoNat Bool String.
From Verif Require Import PyStr DelimSpec SubstSpec.
Import ListNotations. Notation length := List.length. Notation concat := List.concat. Open Scope list_scope.

(** ** Command words *)
Definition is_letter (x : ch) : Prop := (97 <= x <= 122)%N \/ (65 <= x <= 90)%N.
Definition word_char (x : ch) : Prop := is_letter x \/ x = 64%N.
(** a command word: letters and @, ending in a letter *)
Definition word (name : str) : Prop := Forall word_char name /\ exists a x, name = a ++ [x] /\ is_letter x.
(** the word ends here *)
Definition word_end (r : str) : Prop := forall x q, r = x :: q -> ~ word_char x.

Definition good_body (body : str) : Prop := balanced c_lb c_rb (marks body) /\ closes_after body.

(** ** The text of a definition:
    \newcommand * {\name} [2] [default] ... {body} *)
Record macro := {
  mc_keyword : string;          (** \newcommand, \renewcommand, ... *)
  mc_star : bool;
  mc_gap : str;                  (** blanks after the keyword *)
  mc_braced : bool;              (** {\name} or \name *)
  mc_name : str;
  mc_nargs : option (str * str); (** blanks and digits of [n] *)
  mc_defaults : list (str * str);(** blanks and text of each [default] *)
  mc_gap2 : str;                 (** blanks before the body *)
  mc_body : str }.

Definition bracketed (p : str * str) : str := fst p ++ [c_lk] ++ snd p ++ [c_rk].
Definition macro_head (d : macro) : str :=
  lit (mc_keyword d) ++ (if mc_star d then lit "*" else []) ++ mc_gap d ++
  (if mc_braced d then [c_lb; c_bs] ++ mc_name d ++ [c_rb] else [c_bs] ++ mc_name d) ++
  (match mc_nargs d with Some p => bracketed p | None => [] end) ++
  concat (map bracketed (mc_defaults d)) ++ mc_gap2 d.
Definition macro_text (d : macro) : str := macro_head d ++ [c_lb] ++ mc_body d ++ [c_rb].

Definition keywords : list string := ["\newcommand"; "\renewcommand"; "\providecommand"; "\DeclareRobustCommand"; "\DeclareMathOperator"]%string.
Definition math_only (d : macro) : bool := String.eqb (mc_keyword d) "\DeclareMathOperator".
Definition arity (d : macro) : nat := match mc_nargs d with Some (_, n) => match int_of_str n with Some k => k | None => 0 end | None => 0 end.
Definition default_values (d : macro) : list str := map snd (mc_defaults d).

Definition well_written (d : macro) : Prop :=
  In (mc_keyword d) keywords /\ blank (mc_gap d) /\ blank (mc_gap2 d) /\ word (mc_name d) /\ good_body (mc_body d) /\
  (match mc_nargs d with
   | Some (w, n) => blank w /\ n <> [] /\ forallb isdigit n = true
   | None => mc_defaults d = []
   end) /\
  (forall w v, In (w, v) (mc_defaults d) -> blank w /\ ~ In c_rk v /\ ~ In c_nl v) /\
  length (mc_defaults d) <= arity d.

(** ** Uses of a command word in a text *)
Definition use_at (name s r : str) : Prop := s = [c_bs] ++ name ++ r /\ word_end r.
Definition uses (name s : str) : Prop := exists p q r, s = p ++ q /\ use_at name q r.

(** ** The expansion of a call *)
(** simultaneous substitution of the arguments in the body (see C14) *)
Definition substituted (isalpha : ch -> bool) (body : str) (args : list str) (out : str) : Prop :=
  exists ps, reads_as body ps /\
    ((params ps = [] /\ out = body) \/
     exists m, min_hashes_of ps m /\ out = subst_pieces isalpha false (map Some args) m [] ps).

(** the arguments of a call: optional ones in brackets (missing ones take their
    defaults), then the others in braces (missing ones are empty); [n] is the
    length of the argument text *)
Definition call_args (d : macro) (r : str) (args : list str) (n : nat) : Prop :=
  match arity d with
  | 0 => args = [] /\ n = 0
  | k =>
    exists os p reqs q,
      groups_at c_lk c_rk r os p /\ length os <= length (mc_defaults d) /\
      (length os < length (mc_defaults d) -> forall b j, ~ group_at c_lk c_rk (skipn p r) b j) /\
      groups_at c_lb c_rb (skipn p r) reqs q /\ length reqs <= k - length (mc_defaults d) /\
      (length reqs < k - length (mc_defaults d) -> forall b j, ~ group_at c_lb c_rb (skipn (p + q) r) b j) /\
      args = os ++ skipn (length os) (default_values d) ++ reqs ++ repeat [] (k - length (mc_defaults d) - length reqs) /\
      n = p + q
  end.

(** the most recent definition of a name in a history (newest first) *)
Fixpoint latest (name : str) (h : list macro) : option macro :=
  match h with
  | [] => None
  | d :: r => if str_eqb (mc_name d) name then Some d else latest name r
  end.

(** ** Replacing every use of a parameterless macro *)
Inductive replaces (name body : str) : str -> str -> Prop :=
| rp_nil : replaces name body [] []
| rp_use : forall r out, word_end r -> replaces name body r out -> replaces name body ([c_bs] ++ name ++ r) (body ++ out)
| rp_chr : forall x s out, (forall r, ~ use_at name (x :: s) r) -> replaces name body s out -> replaces name body (x :: s) (x :: out).

(** replacing the uses of several parameterless macros, one macro after the other *)
Inductive replaces_all : list (str * str) -> str -> str -> Prop :=
| ra_none : forall s, replaces_all [] s s
| ra_next : forall name body ms s s1 out, replaces name body s s1 -> replaces_all ms s1 out -> replaces_all ((name, body) :: ms) s out.

(** ** \let and \def *)
Definition let_text (gap name : str) (eq : bool) (old : str) : str :=
  lit "\let" ++ gap ++ [c_bs] ++ name ++ (if eq then lit "=" else []) ++ [c_bs] ++ old.
(** the text of \def\name#1#2...#k{body} *)
Definition param_text (k : nat) : str := concat (map (fun i => [c_hash] ++ str_of_nat i) (seq 1 k)).
Definition def_text (name : str) (k : nat) (body : str) : str :=
  lit "\def" ++ [c_bs] ++ name ++ param_text k ++ [c_lb] ++ body ++ [c_rb].
(** an argument with at most one level of braces inside *)
Inductive shallow : str -> Prop :=
| sh_nil : shallow []
| sh_chr : forall x s, x <> c_lb -> x <> c_rb -> shallow s -> shallow (x :: s)
| sh_grp : forall g s, ~ In c_lb g -> ~ In c_rb g -> shallow s -> shallow ([c_lb] ++ g ++ [c_rb] ++ s).
(** the arguments of a call, each with the blanks before it *)
Definition call_part (p : str * str) : str := fst p ++ [c_lb] ++ snd p ++ [c_rb].
Definition call_text (l : list (str * str)) : str := concat (map call_part l).
(** what may follow \let\new\old *)
Definition let_stop (r : str) : Prop := match r with [] => True | x :: _ => isspace x = true \/ x = c_lb end.
