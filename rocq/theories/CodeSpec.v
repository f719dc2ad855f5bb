(** Vocabulary for C96: code. *)
From Coq Require Import List NArith PeanoNat Bool String.
From Verif Require Import PyStr DelimSpec StyleSpec Json.
Import ListNotations. Notation length := List.length. Notation concat := List.concat. Open Scope list_scope.

(** \begin or \end with the name of an environment; blanks may stand before the brace *)
Definition tag (cmd ws name : str) : str := cmd ++ ws ++ [c_lb] ++ name ++ [c_rb].
Definition opening (name s rest : str) : Prop := exists ws, blank ws /\ s = tag (lit "\begin") ws name ++ rest.
(** [up_to_end name s body rest]: [body] is what comes before the first \end{name} *)
Definition up_to_end (name s body rest : str) : Prop :=
  (exists ws, blank ws /\ s = body ++ tag (lit "\end") ws name ++ rest) /\
  (forall a ws b, blank ws -> s = a ++ tag (lit "\end") ws name ++ b -> length body <= length a).
Definition ends (name s : str) : Prop := exists body rest, up_to_end name s body rest.
(** options in brackets *)
Definition optioned (s opts rest : str) : Prop := ~ In c_rk opts /\ s = [c_lk] ++ opts ++ [c_rk] ++ rest.
(** text between two equal characters that are not letters, on one line *)
Definition between (s body rest : str) : Prop :=
  exists d, ~ letter d /\ ~ In d body /\ ~ In 10%N body /\ s = [d] ++ body ++ [d] ++ rest.

Inductive code_kind := Block | Listing (opts : option str) | Inline.
(** [code_source text kind body rest]: [text] is code, followed by [rest] *)
Inductive code_source : str -> code_kind -> str -> str -> Prop :=
| cs_verbatim : forall text s body rest, opening (lit "verbatim") text s -> up_to_end (lit "verbatim") s body rest -> code_source text Block body rest
| cs_options : forall text s opts s' body rest, opening (lit "lstlisting") text s -> optioned s opts s' -> up_to_end (lit "lstlisting") s' body rest -> code_source text (Listing (Some opts)) body rest
| cs_listing : forall text s body rest, opening (lit "lstlisting") text s -> (forall opts s', optioned s opts s' -> ~ ends (lit "lstlisting") s') -> up_to_end (lit "lstlisting") s body rest ->
    code_source text (Listing None) body rest
| cs_star : forall s body rest, between s body rest -> code_source (lit "\verb*" ++ s) Inline body rest
| cs_verb : forall s body rest, between s body rest -> (forall s' b r, s = 42%N :: s' -> ~ between s' b r) -> code_source (lit "\verb" ++ s) Inline body rest.
(** the token: the text without blanks at its ends *)
Definition code_of (kind : code_kind) (body : str) : val :=
  VDict ([(lit "type", VStr (lit "code")); (lit "content", VStr (strip body))] ++
    match kind with Block => [] | Listing None => [] | Listing (Some []) => [] | Listing (Some o) => [(lit "title", VStr (strip o))] | Inline => [(lit "display", VStr (lit "inline"))] end).
