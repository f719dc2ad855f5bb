(** Specification vocabulary for the preprocessor. *)
From Coq Require Import List NArith PeanoNat Bool String.
From Verif Require Import PyStr Regex RegexLocal DelimSpec TextSpec PreModel Placeholder.
Import ListNotations. Notation length := List.length. Open Scope list_scope.

(** The text from the end of a formula to the next place where something can be
    handled has [k] characters (a formula counts as a word). *)
Definition plain_after (t : str) (k : nat) : Prop :=
  match re_search DELIM_QUOTES (lit "_" ++ t) with Some m => m_start m = S k | None => k = length t end.

(** The document is rewritten from left to right by the rounds of the loop, but a
    formula is copied to the output as it is, and never looked at again. *)
Section Runs.
Variable St : Type.
Variable round : St -> str -> Json.res (action St).
Inductive rewritten : St -> str -> St -> str -> Prop :=
| rw_nil : forall s, rewritten s [] s []
| rw_finish : forall s t, t <> [] -> round s t = Json.Ok Finish -> rewritten s t s t
| rw_move : forall s t s1 t1 n s2 o, t <> [] -> round s t = Json.Ok (Move s1 t1 n) ->
    rewritten s1 (skipn n t1) s2 o -> rewritten s t s2 (firstn n t1 ++ o)
| rw_math : forall s t n k s2 o, t <> [] -> round s t = Json.Ok (Math n) -> plain_after (skipn n t) k ->
    rewritten s (skipn k (skipn n t)) s2 o -> rewritten s t s2 (firstn n t ++ firstn k (skipn n t) ++ o).
End Runs.

(** Texts cut at blocks that stay as they are: the text before the first block,
    then pairs of a block and the text after it. *)
Definition layout := (str * list (str * str))%type.
Definition written (l : layout) : str := fst l ++ List.concat (map (fun p => fst p ++ snd p) (snd l)).
(** The texts between the blocks are respaced ([respaced], TextSpec.v), the
    blocks are the same. *)
Inductive respaced_between : layout -> layout -> Prop :=
| rb : forall t0 o0 l m, respaced t0 o0 -> Forall2 (fun p r => fst r = fst p /\ respaced (snd p) (snd r)) l m -> respaced_between (t0, l) (o0, m).
(** Blank characters are removed from the start and the end, but not from blocks. *)
Inductive trimmed_between : layout -> layout -> Prop :=
| tb_none : forall t, trimmed_between (t, []) (strip t, [])
| tb_some : forall t0 l b t, trimmed_between (t0, l ++ [(b, t)]) (lstrip t0, l ++ [(b, rstrip t)]).

(** Quotation marks. *)
Definition quote_char (x : ch) : bool := N.eqb x c_tick || N.eqb x c_quote || N.eqb x c_dquote.
(** At a backquote, ``x'' becomes "x" and `x' becomes 'x', the closing marks being
    the nearest ones; everything else stays. *)
Inductive quotes_converted : str -> str -> Prop :=
| qc_double : forall x r, ~ occurs [c_quote; c_quote] (x ++ [c_quote]) ->
    quotes_converted ([c_tick; c_tick] ++ x ++ [c_quote; c_quote] ++ r) ([c_dquote] ++ x ++ [c_dquote] ++ r)
| qc_single : forall x r, ~ In c_quote x -> (forall y, x ++ [c_quote] ++ r = [c_tick] ++ y -> ~ occurs [c_quote; c_quote] y) ->
    quotes_converted ([c_tick] ++ x ++ [c_quote] ++ r) ([c_quote] ++ x ++ [c_quote] ++ r)
| qc_none : forall t, (forall y, t = [c_tick] ++ y -> ~ In c_quote y) -> quotes_converted t t.

(** A class declaration \documentclass[options]{name}. *)
Inductive class_declaration : str -> str -> Prop :=
| cd_plain : forall ws name, blank ws -> name <> [] -> ~ In c_rb name ->
    class_declaration (lit "\documentclass" ++ ws ++ [c_lb] ++ name ++ [c_rb]) name
| cd_options : forall ws options ws2 name, blank ws -> ~ In c_rk options -> blank ws2 -> name <> [] -> ~ In c_rb name ->
    class_declaration (lit "\documentclass" ++ ws ++ [c_lk] ++ options ++ [c_rk] ++ ws2 ++ [c_lb] ++ name ++ [c_rb]) name.
