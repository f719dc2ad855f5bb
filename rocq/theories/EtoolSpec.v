(** Specification of etoolbox booleans. *)
From Coq Require Import List NArith PeanoNat Bool String.
From Verif Require Import PyStr DelimSpec.
Import ListNotations. Notation length := List.length. Notation concat := List.concat. Open Scope list_scope.

Inductive bcmd := BNew | BProvide | BSet (v : bool).
(** the text starts with [\name{arg}], [rest] follows *)
Definition command_arg (name : string) (text arg rest : str) : Prop :=
  exists ws, text = lit name ++ ws ++ [c_lb] ++ arg ++ [c_rb] ++ rest /\ blank ws /\ ~ In c_rb arg.
Definition true_word (s : str) : Prop :=
  exists a b c d, s = [a; b; c; d] /\ In a (lit "tT") /\ In b (lit "rR") /\ In c (lit "uU") /\ In d (lit "eE").
(** [text] starts with a command about the boolean [name] *)
Inductive says (text name : str) : bcmd -> Prop :=
| says_new : forall rest, command_arg "\newbool" text name rest -> says text name BNew
| says_provide : forall rest, command_arg "\providebool" text name rest -> says text name BProvide
| says_true : forall rest, command_arg "\booltrue" text name rest -> says text name (BSet true)
| says_false : forall rest, command_arg "\boolfalse" text name rest -> says text name (BSet false)
| says_set_true : forall rest b n, command_arg "\setbool" text name rest -> group_at c_lb c_rb rest b n -> true_word b -> says text name (BSet true)
| says_set_false : forall rest b n, command_arg "\setbool" text name rest -> group_at c_lb c_rb rest b n -> ~ true_word b -> says text name (BSet false).
(** what a text does: a command, or nothing *)
Definition event (text : str) (e : option (str * bcmd)) : Prop :=
  match e with Some (n, c) => says text n c | None => forall n c, ~ says text n c end.
Definition history := list (option (str * bcmd)).
Definition defines (h : history) (n : str) : Prop := In (Some (n, BNew)) h \/ In (Some (n, BProvide)) h.
(** nothing in [h] gives [n] a value *)
Definition quiet (h : history) (n : str) : Prop := ~ In (Some (n, BNew)) h /\ forall v, ~ In (Some (n, BSet v)) h.
(** the value of [n] after the history [h] *)
Inductive has_value (h : history) (n : str) : bool -> Prop :=
| hv_new : forall h1 h2, h = h1 ++ Some (n, BNew) :: h2 -> quiet h2 n -> has_value h n false
| hv_first_provide : forall h1 h2, h = h1 ++ Some (n, BProvide) :: h2 -> ~ defines h1 n -> quiet h2 n -> has_value h n false
| hv_set : forall h1 h2 v, h = h1 ++ Some (n, BSet v) :: h2 -> defines h1 n -> quiet h2 n -> has_value h n v.
