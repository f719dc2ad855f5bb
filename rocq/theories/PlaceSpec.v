(** Specification vocabulary for flattened token lists. *)
From Coq Require Import List NArith ZArith PeanoNat Bool String.
From Verif Require Import PyStr RegexLocal Json BuilderModel.
Import ListNotations.
Open Scope list_scope.

(** A plain text token: type text, a string content, no styles. *)
Definition plain_text (t : dict) (s : str) : Prop :=
  lookup k_type t = Some (VStr (lit "text")) /\ lookup k_content t = Some (VStr s) /\ lookup k_styles t = None.
Definition text_token (s : str) : dict := [(k_type, VStr (lit "text")); (k_content, VStr s)].
(** [out] is [tokens] with every maximal run of plain text tokens replaced by one
    text token with the concatenated text ([acc] is the text collected so far),
    left out when that text is empty. *)
Inductive text_merged : str -> list dict -> list dict -> Prop :=
| tm_end_empty : text_merged [] [] []
| tm_end_text : forall acc, acc <> [] -> text_merged acc [] [text_token acc]
| tm_plain : forall acc t s r out, plain_text t s -> text_merged (acc ++ s) r out -> text_merged acc (t :: r) out
| tm_other : forall t r out, (forall s, ~ plain_text t s) -> text_merged [] r out -> text_merged [] (t :: r) (t :: out)
| tm_other_text : forall acc t r out, acc <> [] -> (forall s, ~ plain_text t s) -> text_merged [] r out ->
    text_merged acc (t :: r) (text_token acc :: t :: out).
(** Every text token has a content, every token a type. *)
Definition well_formed (t : dict) : Prop := exists ty, lookup k_type t = Some ty /\ (ty = VStr (lit "text") -> lookup k_content t <> None).
(** no run of plain text contains the characters [word] *)
Inductive runs_without (word : str) : str -> list dict -> Prop :=
| rw_end : forall acc, ~ occurs word acc -> runs_without word acc []
| rw_plain : forall acc t s r, plain_text t s -> runs_without word (acc ++ s) r -> runs_without word acc (t :: r)
| rw_other : forall acc t r, ~ occurs word acc -> (forall s, ~ plain_text t s) -> runs_without word [] r -> runs_without word acc (t :: r).
