(** Concrete cases for C102 and C103, and the counterexamples. *)
From Coq Require Import List NArith ZArith PeanoNat Lia Bool String.
From Verif Require Import PyStr Regex RegexLocal DelimSpec CommandSpec DefModel DefSpec DefProofs DefProofs2 DefProofs7 CommandCases.
Import ListNotations. Notation length := List.length. Notation concat := List.concat. Open Scope list_scope.

Lemma namedef_negative : forall u ualpha ualnum, handle u ualpha ualnum (lit "\@namedef{foo}") = Ok (None, (-13)%Z).
Proof. intros. vm_compute. reflexivity. Qed.
Lemma hash_name_raises : forall u ualpha ualnum, handle u ualpha ualnum (lit "\def\\#1{x}") = Raise.
Proof. intros. vm_compute. reflexivity. Qed.
Lemma title_truncated : forall u ualpha ualnum, handle u ualpha ualnum (lit "\newtheorem{t}{{\bf T}}") = Ok (Some (DTheorem (lit "t") (lit "{\bf T") None None), 22%Z).
Proof. intros. vm_compute. reflexivity. Qed.
Lemma theorem_blank : forall u ualpha ualnum, handle u ualpha ualnum (lit "\newtheorem {thm}{Theorem}") = Ok (None, 0%Z).
Proof. intros. vm_compute. reflexivity. Qed.
Lemma length_blank : forall u ualpha ualnum, handle u ualpha ualnum (lit "\newlength \foo") = Ok (Some (DLength (lit " \foo")), 15%Z) /\ handle u ualpha ualnum (lit "\newlength {\foo}") = Ok (None, 17%Z).
Proof. intros. split; vm_compute; reflexivity. Qed.
Lemma setlength_blank : forall u ualpha ualnum, handle u ualpha ualnum (lit "\setlength\foo {2pt}") = Ok (Some (DLength (lit "foo ")), 20%Z).
Proof. intros. vm_compute. reflexivity. Qed.
Lemma register_swallows : forall u ualpha ualnum, handle u ualpha ualnum (lit "\newcount\foo\foo=3 text") = Ok (Some (DOther (lit "foo\foo=3")), 19%Z).
Proof. intros. vm_compute. reflexivity. Qed.
