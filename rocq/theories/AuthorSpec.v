(** Vocabulary for C97: authors. *)
From Coq Require Import List NArith PeanoNat Bool String.
From Verif Require Import PyStr DelimSpec CommandSpec ItemSpec Json AuthorModel.
Import ListNotations. Notation length := List.length. Notation concat := List.concat. Open Scope list_scope.

(** \and, \And, \AND ... *)
Definition and_word (a : str) : Prop := exists x y z, (x = 97 \/ x = 65)%N /\ (y = 110 \/ y = 78)%N /\ (z = 100 \/ z = 68)%N /\ a = [c_bs; x; y; z].
(** [parts w text ps]: the pieces between the words \and *)
Inductive parts (w : ch -> bool) : str -> list str -> Prop :=
| pa_end : parts w [] [[]]
| pa_and : forall a r ps, and_word a -> starts_with w r = false -> parts w r ps -> parts w (a ++ r) ([] :: ps)
| pa_char : forall x r p ps, (forall a q, and_word a -> x :: r = a ++ q -> starts_with w q = true) -> parts w r (p :: ps) -> parts w (x :: r) ((x :: p) :: ps).
(** the pieces that are not blank *)
Inductive shown : list str -> list str -> Prop :=
| sh_nil : shown [] []
| sh_blank : forall p ps l, blank p -> shown ps l -> shown (p :: ps) l
| sh_part : forall p ps l, ~ blank p -> shown ps l -> shown (p :: ps) (strip p :: l).
(** each of them parsed; what parses to nothing is left out *)
Inductive parsed (process : str -> res (list val)) : list str -> list val -> Prop :=
| pd_nil : parsed process [] []
| pd_none : forall t ts l, process t = Ok [] -> parsed process ts l -> parsed process (t :: ts) l
| pd_some : forall t ts v vs l, process t = Ok (v :: vs) -> parsed process ts l -> parsed process (t :: ts) (VList (v :: vs) :: l).

(** [argument may text body rest]: blanks, options in brackets if the command may have them, a group *)
Inductive argument (may : bool) : str -> str -> str -> Prop :=
| ar_group : forall ws body rest, blank ws -> good_body body -> argument may (ws ++ [c_lb] ++ body ++ [c_rb] ++ rest) body rest
| ar_option : forall ws o ws2 body rest, may = true -> blank ws -> blank ws2 -> ~ In c_rk o -> good_body body ->
    argument may (ws ++ [c_lk] ++ o ++ [c_rk] ++ ws2 ++ [c_lb] ++ body ++ [c_rb] ++ rest) body rest.
(** the commands with a group *)
Inductive command : person -> str -> bool -> Prop :=
| co_author : command Author (lit "\author") true
| co_email : command Email (lit "\email") false
| co_affil : command Affiliation (lit "\affil") true
| co_affiliation : command Affiliation (lit "\affiliation") true
| co_address : command Address (lit "\address") false
| co_thanks : command Thanks (lit "\thanks") false.
