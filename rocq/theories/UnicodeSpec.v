(** What it means for a text made of characters, of \uXXXX sequences and of
    commands of the table to be turned into its characters (C110-C112). *)
From Coq Require Import List NArith ZArith PeanoNat Lia Bool String.
From Verif Require Import PyStr UnicodeTable.
Import ListNotations.
Notation length := List.length.
Notation concat := List.concat.
Open Scope list_scope.

Definition a_letter (x : ch) : Prop := (97 <= x <= 122 \/ 65 <= x <= 90)%N.
Definition a_hex (x : ch) : Prop := (48 <= x <= 57 \/ 97 <= x <= 102 \/ 65 <= x <= 70)%N.

(** The pieces of a text. *)
Inductive item :=
| Ch (x : ch)                    (* a character that is not a backslash *)
| Hx (ds : str)                  (* \u and four to six hexadecimal digits *)
| Co (k v : str) (b : bool)      (* a command k of the table, written k{} when b *)
| Un (k : str).                  (* a command the table does not have *)

(** How a piece is written, and what it stands for. *)
Definition digit_value (x : ch) : N :=
  (if x <? 58 then x - 48 else if x <? 71 then x - 55 else x - 87)%N.
Fixpoint number_from (n : N) (ds : str) : N :=
  match ds with [] => n | x :: r => number_from (16 * n + digit_value x)%N r end.
Definition number (ds : str) : N := number_from 0 ds.

Definition written1 (i : item) : str :=
  match i with
  | Ch x => [x]
  | Hx ds => lit "\u" ++ ds
  | Co k _ b => k ++ (if b then lit "{}" else [])
  | Un k => k
  end.
Definition meant1 (i : item) : str :=
  match i with
  | Ch x => [x]
  | Hx ds => [number ds]
  | Co _ v _ => v
  | Un k => k
  end.
Definition written (l : list item) : str := concat (map written1 l).
Definition meant (l : list item) : str := concat (map meant1 l).

(** The rounds of the conversion: commands that begin with \text come first,
    then \math, then those with "font" in their name, then all others; within
    a round the order is that of the table. *)
Definition begins (s p : str) : Prop := exists r, s = p ++ r.
Definition within (p s : str) : Prop := exists a b, s = a ++ p ++ b.
Definition turn (k : str) (n : nat) : Prop :=
  (n = 1 /\ begins k (lit "\text")) \/
  (n = 2 /\ ~ begins k (lit "\text") /\ begins k (lit "\math")) \/
  (n = 3 /\ ~ begins k (lit "\text") /\ ~ begins k (lit "\math") /\ within (lit "font") k) \/
  (n = 4 /\ ~ begins k (lit "\text") /\ ~ begins k (lit "\math") /\ ~ within (lit "font") k).
Definition sooner (k' k : str) : Prop :=
  exists n' n, turn k' n' /\ turn k n /\
    (n' < n \/ n' = n /\ exists v a b, unicode_table = a ++ (k, v) :: b /\ In k' (map fst a)).

(** Neither command is the beginning of the other, unless the longer one only
    continues the letters of the shorter one (\alpha and \alphabet). *)
Definition continues (a b : str) : Prop :=
  exists s x y r, a = s ++ [x] /\ b = a ++ y :: r /\ a_letter x /\ a_letter y.
Definition apart (a b : str) : Prop :=
  (begins b a -> continues a b) /\ (begins a b -> continues b a).

(** Characters that, after an opening brace, may begin a key of the table. *)
Definition after_brace : str := lit "[]\{^'_".

(** Behind its first character a command has no backslash and no opening brace
    that could begin a key. *)
Definition clear (k : str) : Prop :=
  (forall a x r, k = a ++ x :: r -> a <> [] ->
     x <> c_bs /\ (x = c_lb -> forall y r', r = y :: r' -> ~ In y after_brace)).

(** Not \u followed by up to four hexadecimal digits only. *)
Definition no_escape (k : str) : Prop :=
  forall r, k = lit "\u" ++ r -> exists a x b, r = a ++ x :: b /\ length a < 4 /\ ~ a_hex x.

Definition plain_value (v : str) : Prop :=
  forall x, In x v -> x <> c_bs /\ x <> c_lb /\ x <> c_rb.

(** A command of the table that can be recognised by itself: no command
    looked for sooner gets in its way. *)
Definition recognised (k v : str) : Prop :=
  In (k, v) unicode_table /\ v <> [] /\ begins k (lit "\") /\
  clear k /\ no_escape k /\ strip k = k /\ ~ (exists a, k = a ++ lit "{}") /\
  (turn k 4 \/ plain_value v) /\
  (forall k', In k' (map fst unicode_table) -> sooner k' k -> apart k' k).

(** A command that no command of the table gets in the way of. *)
Definition unknown (k : str) : Prop :=
  begins k (lit "\") /\ clear k /\ no_escape k /\
  (forall k', In k' (map fst unicode_table) -> apart k' k).

(** What the first character of a text can be while it is being converted. *)
Definition begun (i : item) : list ch :=
  match i with
  | Ch x => [x]
  | Hx ds => [number ds]
  | Co _ v _ => c_bs :: firstn 1 v
  | Un _ => [c_bs]
  end.
Definition firsts (l : list item) : list ch :=
  match l with [] => [] | i :: _ => begun i end.

Definition ends_in_letter (k : str) : Prop := exists a x, k = a ++ [x] /\ a_letter x.
Definition ends_in_brace (k : str) : Prop := exists a, k = a ++ [c_lb].
Definition no_letter_next (l : list item) : Prop := forall x, In x (firsts l) -> ~ a_letter x.
Definition no_braces_next (l : list item) : Prop :=
  match l with Ch x :: Ch y :: _ => ~ (x = c_lb /\ y = c_rb) | _ => True end.

(** An opening brace does not begin a key of the table. *)
(* 47 is the slash *)
Definition good_open (l : list item) : Prop :=
  (forall x, In x (firsts l) -> In x (lit "[]^'_") -> False) /\
  match l with
  | Ch x :: l' => x = c_lb -> forall y, In y (firsts l') -> y <> 47%N
  | Hx ds :: _ => number ds <> c_lb
  | Co k _ _ :: _ | Un k :: _ =>
      apart k (lit "\fontencoding") /\ apart k (lit "\small")
  | [] => True
  end.

Definition good_item (i : item) (l : list item) : Prop :=
  match i with
  | Ch x => x <> c_bs /\ (x = c_lb -> good_open l)
  | Hx ds =>
      4 <= length ds <= 6 /\ Forall a_hex ds /\ (number ds <= 1114111)%N /\
      plain_value [number ds] /\
      (length ds < 6 -> match l with Ch x :: _ => ~ a_hex x | _ => True end)
  | Co k v b =>
      recognised k v /\
      (b = true -> ends_in_letter k) /\
      (ends_in_brace k -> good_open l) /\
      (b = false -> ends_in_letter k -> no_letter_next l /\ no_braces_next l)
  | Un k => unknown k /\ (ends_in_brace k -> good_open l) /\ (ends_in_letter k -> no_letter_next l)
  end.
Fixpoint well (l : list item) : Prop :=
  match l with [] => True | i :: r => good_item i r /\ well r end.
