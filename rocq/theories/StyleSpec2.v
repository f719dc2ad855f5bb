(** Specification for the font commands of C87. *)
From Coq Require Import List NArith PeanoNat Bool String.
From Verif Require Import PyStr DelimSpec StyleSpec.
Import ListNotations. Open Scope list_scope.
(** An argument in braces that the font commands read: after blanks, not empty, without a closing brace. *)
Definition plain_arg (p : str * str) : str := fst p ++ [c_lb] ++ snd p ++ [c_rb].
Definition plain_ok (p : str * str) : Prop := blank (fst p) /\ snd p <> [] /\ ~ In c_rb (snd p).
