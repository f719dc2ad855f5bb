(** Model of the small text helpers: tex_utils.py 193-233 and conversions.py. *)
From Coq Require Import List NArith PeanoNat Lia Bool String.
From Verif Require Import PyStr Regex.
Import ListNotations.
Notation length := List.length.
Notation concat := List.concat.
Open Scope list_scope.

(** tex_utils.py:195  re.sub(r"\\\\|\\newline", " ", s) *)
Definition linebreak_pattern : re := RAlt (rstr (lit "\\")) (rstr (lit "\newline")).

(** tex_utils.py:193-203 *)
Definition strip_latex_newlines (latex_str : str) : str :=
  let s := re_sub linebreak_pattern (fun _ => [c_sp]) latex_str in
  let s := replace [c_nl] [c_sp] s in
  let s := re_sub (rplus rspace) (fun _ => [c_sp]) s in
  strip s.

(** tex_utils.py:206-223 *)
Definition marker : str := lit "<PARA_BREAK>".
Definition sptab : re := RChr (fun x => N.eqb x c_sp || N.eqb x c_tab).
Definition newline_pattern : re := RSeq (rstar sptab) (RSeq (is_ch c_nl) (rstar sptab)).
Definition para_pattern : re := RSeq newline_pattern (RSeq newline_pattern (rstar newline_pattern)).
Definition normalize_whitespace_and_lines (text : str) : str :=
  let text := re_sub para_pattern (fun _ => marker) text in
  let text := re_sub newline_pattern (fun _ => [c_sp]) text in
  let text := re_sub (rplus sptab) (fun _ => [c_sp]) text in
  let text := replace marker [c_nl] text in
  strip text.

(** A Python value for [flatten]: lists and tuples are nodes, anything else a
    leaf. *)
Inductive nested (A : Type) := Leaf (a : A) | Node (l : list (nested A)).
Arguments Leaf {A}. Arguments Node {A}.

(** tex_utils.py:226-234 *)
Fixpoint flatten_item {A} (item : nested A) : list A :=
  match item with
  | Leaf a => [a]
  | Node l =>
      (fix go l := match l with [] => [] | x :: r => flatten_item x ++ go r end) l
  end.
Definition flatten {A} (lst : list (nested A)) : list A := flatten_item (Node lst).

(** conversions.py:1-17 *)
Definition roman_symbols : list (str * N) :=
  [(lit "M", 1000%N); (lit "CM", 900%N); (lit "D", 500%N); (lit "CD", 400%N); (lit "C", 100%N);
   (lit "XC", 90%N); (lit "L", 50%N); (lit "XL", 40%N); (lit "X", 10%N); (lit "IX", 9%N);
   (lit "V", 5%N); (lit "IV", 4%N); (lit "I", 1%N)].
(** conversions.py:19-21, [while num >= value]; one unit of fuel per round *)
Fixpoint roman_while (fuel : nat) (symbol : str) (value num : N) (result : str) : option (str * N) :=
  match fuel with
  | O => None
  | S f => if N.leb value num then roman_while f symbol value (num - value)%N (result ++ symbol)
           else Some (result, num)
  end.
(** conversions.py:18-21, the for loop *)
Fixpoint roman_for (fuel : nat) (syms : list (str * N)) (num : N) (result : str) : option str :=
  match syms with
  | [] => Some result
  | (symbol, value) :: r =>
      match roman_while fuel symbol value num result with
      | None => None
      | Some (result, num) => roman_for fuel r num result
      end
  end.
(** [str.lower()] on ASCII *)
Definition lower_ch (c : ch) : ch := if (N.leb 65 c && N.leb c 90)%bool then (c + 32)%N else c.
Definition lower (s : str) : str := map lower_ch s.
(** conversions.py:1-22 *)
Definition int_to_roman (num : N) : option str :=
  option_map lower (roman_for (S (N.to_nat num)) roman_symbols num []).
