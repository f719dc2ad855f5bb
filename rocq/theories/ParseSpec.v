(** When the main loop terminates: every component makes progress with respect to
    a weight of the remaining text. *)
From Coq Require Import List NArith ZArith PeanoNat Lia Bool String.
From Verif Require Import PyStr Regex TexUtilsModel Json BuilderModel TokensModel CommandModel ParseModel.
Import ListNotations. Notation length := List.length. Notation concat := List.concat. Open Scope list_scope.

(** A weight of texts: dropping characters from the front loses at least their
    number, and a group weighs more than its contents. *)
Record weight (W : str -> nat) : Prop := {
  w_drop : forall n t, n <= length t -> W (skipn n t) + n <= W t;
  w_group : forall t inner e, extract_nested_content t c_lb c_rb = (Some inner, e) -> W (strip_latex_comments inner) < W t }.

Section Progress.
Variables (St : Type) (W : str -> nat) (I : St -> Prop).
(** a run ends, with a state in I or an exception *)
Definition ends {A} (good : A -> Prop) (r : run A) : Prop := match r with None => False | Some (Raise _) => True | Some (Ok a) => good a end.
(** nested parses of texts lighter than [n] end *)
Definition ends_below (ps : parser St) (n : nat) : Prop :=
  forall o s c, I s -> W (strip_latex_comments c) < n -> ends (fun r => I (fst r)) (ps o s c).
(** a replacement (of a macro, a conditional, a formatting command) makes the text lighter *)
Definition replacing_shrinks (f : St -> str -> res (option (str * Z))) : Prop :=
  forall s t r e, I s -> t <> [] -> f s t = Ok (Some (r, e)) -> (0 < e)%Z -> W (r ++ from t e) < W t.
(** a handler that accepts a text consumes a part of it, and ends when the nested parses do *)
Definition handler_progress (process : parser St -> bool -> tok_in -> St -> list dict -> run (St * list dict)) (h : handler St) : Prop :=
  forall ps s t tokens, I s -> t <> [] -> h_can h s t = true -> ends_below ps (W t) ->
    ends (fun r => I (fst (fst r)) /\ (0 < snd r)%Z) (apply_handler St process ps h s t tokens).
Definition keeps_state (define : St -> str -> res (St * Z)) : Prop := forall s t s' e, I s -> define s t = Ok (s', e) -> I s'.
Definition keeps_label (on_label : St -> str -> list dict -> res (St * list dict)) : Prop := forall s l tk s' tk', I s -> on_label s l tk = Ok (s', tk') -> I s'.
End Progress.

(** ** Acyclic macros *)
From Verif Require Import CommandSpec.
(** [name] is used at the beginning of [t]; the weight of a text charges one for each
    character and [cost name] for each use of a macro of the table *)
Definition used_b (name t : str) : bool :=
  startswith t ([c_bs] ++ name) && negb (match skipn (S (length name)) t with x :: _ => name_ch x | [] => false end).
Definition charge (cost : str -> nat) (ms : list (str * str)) (t : str) : nat :=
  list_sum (map (fun nb => if used_b (fst nb) t then cost (fst nb) else 0) ms).
Fixpoint text_weight (cost : str -> nat) (ms : list (str * str)) (t : str) : nat :=
  match t with [] => 0 | x :: r => S (charge cost ms (x :: r) + text_weight cost ms r) end.
(** a macro costs the weight of its body *)
Fixpoint cost_upto (ms : list (str * str)) (k : nat) (name : str) : nat :=
  match k with
  | O => 0
  | S k => list_sum (map (fun nb => if str_eqb (fst nb) name then text_weight (cost_upto ms k) ms (snd nb) else 0) ms)
  end.
(** no macro leads back to itself: the macros its body uses have smaller rank *)
Definition acyclic (ms : list (str * str)) (rank : str -> nat) : Prop :=
  forall n b m c, In (n, b) ms -> In (m, c) ms -> uses m b -> rank m < rank n.
Definition macro_weight (ms : list (str * str)) (rank : str -> nat) (t : str) : nat :=
  text_weight (fun n => cost_upto ms (S (rank n)) n) ms t.
